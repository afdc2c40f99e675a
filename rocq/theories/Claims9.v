(** * Claims9: the printed text as Python source. *)
From Verif Require Import PyBase Types Numerals Texts Tools Pretty.

(** The text [t], evaluated as a Python expression, gives [o]; of other objects than
    str and bytes nothing is known but their repr(). *)
Definition evaluates (t : pystr) (o : ppobj) : Prop :=
  match o with
  | OStr s => str_expression t s
  | OBytes b => bytes_expression t b
  | OOther _ r => t = r
  end.
(** Printable apart from line breaks. *)
Definition printable_lines (E : pyenv) (t : pystr) : Prop :=
  Forall (fun c => c = 10%N \/ (32 <= c < 127)%N \/ (127 < c)%N /\ u_printable E c = true) t.
(** An entry of the output: the key, the description, and the expressions of the
    length (if it is not empty) and of the value. *)
Inductive readable_entry (E : pyenv) (sp : spec) (desc_width : Z) (d : ppdoc) (k : pystr)
  : pystr -> Prop :=
| ReadableEntry v l o key desc prefix expr :
    In (KStr k, v) d -> parts_of v l o ->
    left_justified 3 k key ->
    (((desc_width <= 0)%Z /\ desc = [])
     \/ ((0 < desc_width)%Z /\ exists fs text cut column, sget k sp = Some fs /\ fs_desc fs = Some text
          /\ stretch text 0 desc_width cut /\ left_justified (Z.to_nat desc_width) cut column
          /\ desc = u " " ++ column)) ->
    ((prefix = [] /\ elements l = Some 0%nat)
     \/ (elements l <> Some 0%nat /\ exists t, prefix = t ++ u " " /\ evaluates t l)) ->
    evaluates expr o -> printable_lines E (prefix ++ expr) ->
    readable_entry E sp desc_width d k (key ++ desc ++ u ": " ++ prefix ++ expr ++ newline).

(** The codec named [enc] reads and writes the texts [R] relates to bytes. *)
Definition codec_means (E : pyenv) (enc : pystr) (R : pystr -> bytes -> Prop) : Prop :=
  forall s b, (str_encode E enc s = COk b <-> R s b) /\ (bytes_decode E enc b = COk s <-> R s b).
