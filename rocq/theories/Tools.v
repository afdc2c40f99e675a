(** * Tools: model of /repo/iso8583/tools.py, function by function.
    The stream is the text written so far; an exception keeps it. *)
From Verif Require Import PyBase Types Decoder.

Definition WM := M exn pystr.
(** stream.write(t) *)
Definition write (t : pystr) : WM unit := fun out => (Ok tt, out ++ t).

(** The objects pp prints: str, bytes, or any other object, of which len() (if it
    has one) and repr() matter. *)
Inductive ppobj := OStr (s : pystr) | OBytes (b : bytes) | OOther (len : option nat) (rep : pystr).
Definition repr (E : pyenv) (o : ppobj) : pystr :=
  match o with OStr s => repr_str E s | OBytes b => repr_bytes b | OOther _ r => r end.
Definition obj_len (o : ppobj) : option nat :=
  match o with OStr s => Some (length s) | OBytes b => Some (length b) | OOther n _ => n end.
(** Values pp may find in the dict: a dict, of which the keys "len" and "data"
    matter (both optional: tools.py:104, 109), or another object. *)
Inductive ppval := PObj (o : ppobj) | PDict (len data : option ppobj).
Notation PStr s := (PObj (OStr s)).
Notation PBytes b := (PObj (OBytes b)).

(** [obj[i : i + width] for i in range(0, len(obj), width)], tools.py:167-168.
    The recursion is on a counter of remaining elements, an upper bound on the
    number of chunks when width >= 1. *)
Fixpoint chunks_of {A} (fuel : nat) (w : nat) (l : list A) : list (list A) :=
  match fuel with
  | O => []
  | S f => match l with
           | [] => []
           | _ => firstn w l :: chunks_of f w (skipn w l)
           end
  end.
(** _wrap_str_repr, tools.py:159-168: the chunks whose repr is yielded. *)
Definition wrap_str (obj : pystr) (width : Z) : list pystr :=
  let w := if (3 <? width)%Z then (width - 2)%Z else 1%Z in
  chunks_of (length obj) (Z.to_nat w) obj.

(** _wrap_bytes_repr, tools.py:171-186: the chunks whose repr is yielded. *)
Fixpoint wrap_bytes_from (current obj : bytes) (width : Z) : list bytes :=
  match obj with
  | [] => match current with [] => [] | _ => [current] end           (* 185-186 *)
  | b :: obj' =>
      let candidate := current ++ [b] in
      if (width <? zlen (repr_bytes candidate))%Z then               (* 178-181 *)
        match current with
        | [] => wrap_bytes_from [b] obj' width
        | _ => current :: wrap_bytes_from [b] obj' width
        end
      else wrap_bytes_from candidate obj' width                      (* 182-183 *)
  end.
Definition wrap_bytes (obj : bytes) (width : Z) : list bytes := wrap_bytes_from [] obj width.

(** The common loop of _pprint_str (tools.py:132-137) and _pprint_bytes
    (148-153): the first chunk bare, the others after a newline and the indent. *)
Definition fold_chunks (indent : Z) (reps : list pystr) : pystr :=
  join ([10%N] ++ repeat 32%N (Z.to_nat indent)) reps.

(** _pprint_str, tools.py:127-137, and _pprint_bytes, tools.py:143-153. *)
Definition pprint_str (E : pyenv) (obj : pystr) (indent width : Z) : WM unit :=
  if (length obj <=? 1)%nat then write (repr_str E obj)
  else write (fold_chunks indent (map (repr_str E) (wrap_str obj (width - indent)))).
Definition pprint_bytes (obj : bytes) (indent width : Z) : WM unit :=
  if (length obj <=? 1)%nat then write (repr_bytes obj)
  else write (fold_chunks indent (map repr_bytes (wrap_bytes obj (width - indent)))).
(** _dispatch.get(type(obj).__repr__, None), tools.py:115, 124, 140, 156. *)
Definition dispatch (E : pyenv) (obj : ppobj) : option (Z -> Z -> WM unit) :=
  match obj with
  | OStr s => Some (pprint_str E s)
  | OBytes b => Some (pprint_bytes b)
  | OOther _ _ => None
  end.

(** doc_field.get("len", b"") and obj, tools.py:103-111; the length is only looked
    at in a dict. *)
Definition shown_len (v : ppval) : ppobj :=
  match v with PDict l _ => prop_default l (OBytes []) | PObj _ => OBytes [] end.
Definition shown_obj (v : ppval) : ppobj :=
  match v with PObj o => o | PDict _ d => prop_default d (OBytes []) end.

(** _pp_field, tools.py:79-121. [doc_field] is doc[field_key]. *)
Definition pp_field (E : pyenv) (doc_field : ppval) (sp : spec) (desc_width line_width : Z)
    (field_key : pystr) : WM unit :=
  write (ljust 3 field_key) ;;;                                      (* 88 *)
  indent <-
    (if (0 <? desc_width)%Z then                                     (* 90-97 *)
       fs <- spec_get sp field_key ;;
       desc <- prop (fs_desc fs) (u "desc") ;;
       write (u " " ++ ljust (Z.to_nat desc_width) (firstn (Z.to_nat desc_width) desc)) ;;;
       ret (5 + desc_width + 1)%Z
     else ret 5%Z) ;;
  write (u ": ") ;;;                                                 (* 99 *)
  let l := shown_len doc_field in
  indent <-
    (match obj_len l with                                            (* 105-107 *)
     | None => raise (XTypeError (u "object has no len()"))
     | Some n =>
         if (0 <? n)%nat then
           write (repr E l ++ u " ") ;;; ret (indent + zlen (repr E l) + 1)%Z
         else ret indent
     end) ;;
  let obj := shown_obj doc_field in
  match (if (line_width <? zlen (repr E obj) + indent)%Z             (* 113-119 *)
         then dispatch E obj else None) with
  | Some p => p indent line_width ;;; write [10%N]
  | None => write (repr E obj ++ [10%N])                             (* 121 *)
  end.

(** sorted(keys, key=int), tools.py:73-75: stable; int() may raise ValueError. *)
Fixpoint insert_by (x : Z * pystr) (l : list (Z * pystr)) : list (Z * pystr) :=
  match l with
  | [] => [x]
  | y :: l' => if (fst x <=? fst y)%Z then x :: l else y :: insert_by x l'
  end.
Fixpoint key_ints (E : pyenv) (keys : list pystr) : option (list (Z * pystr)) :=
  match keys with
  | [] => Some []
  | k :: keys' =>
      match py_int E k, key_ints E keys' with
      | Some n, Some l => Some ((n, k) :: l)
      | _, _ => None
      end
  end.
Definition sorted_by_int (E : pyenv) (keys : list pystr) : option (list pystr) :=
  option_map (fun l => map snd (fold_right insert_by [] l)) (key_ints E keys).

Definition numeric_str_keys {V} (E : pyenv) (doc : list (pykey * V)) : list pystr :=
  flat_map (fun kv => match fst kv with
                      | KStr k => if isnumeric E k then [k] else []
                      | KOther _ _ => []
                      end) doc.

Definition vget {V} := @dget pykey V key_eqb.

(** One _pp_field call: doc[field_key] then the printing (tools.py:64-76, 101). *)
Definition pp_key (E : pyenv) (doc : list (pykey * ppval)) (sp : spec)
    (desc_width line_width : Z) (k : pystr) : WM unit :=
  match vget (KStr k) doc with
  | Some v => pp_field E v sp desc_width line_width k
  | None => raise (XKeyError k)
  end.
Fixpoint pp_keys (E : pyenv) (doc : list (pykey * ppval)) (sp : spec)
    (desc_width line_width : Z) (ks : list pystr) : WM unit :=
  match ks with
  | [] => ret tt
  | k :: ks' => pp_key E doc sp desc_width line_width k ;;;
                pp_keys E doc sp desc_width line_width ks'
  end.

(** pp, tools.py:11-76. desc_width and line_width are ints (int() at 58-59 is
    the identity); the stream starts empty. *)
Definition pp_body (E : pyenv) (doc : list (pykey * ppval)) (sp : spec)
    (desc_width line_width : Z) : WM unit :=
  (match vget (KStr (u "h")) doc with                                (* 64-65 *)
   | Some _ =>
       h <- spec_get sp (u "h") ;;
       max_len <- prop (fs_max_len h) (u "max_len") ;;
       if (0 <? max_len)%Z then pp_key E doc sp desc_width line_width (u "h") else ret tt
   | None => ret tt
   end) ;;;
  (match vget (KStr (u "t")) doc with                                (* 67-68 *)
   | Some _ => pp_key E doc sp desc_width line_width (u "t")
   | None => ret tt
   end) ;;;
  (match vget (KStr (u "p")) doc with                                (* 70-71 *)
   | Some _ => pp_key E doc sp desc_width line_width (u "p")
   | None => ret tt
   end) ;;;
  match sorted_by_int E (numeric_str_keys E doc) with                (* 73-76 *)
  | None => raise XValueError
  | Some ks => pp_keys E doc sp desc_width line_width ks
  end.
(** The outcome and everything written to the stream. *)
Definition pp (E : pyenv) (doc : list (pykey * ppval)) (sp : spec)
    (desc_width line_width : Z) : res exn unit * pystr :=
  pp_body E doc sp desc_width line_width [].
