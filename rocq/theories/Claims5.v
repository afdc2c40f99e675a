(** * Claims5: vocabulary of the claims about what a spec can carry. *)
From Verif Require Import PyBase Types Wire WireEncode Claims.

(** ** What the shipped specs can send *)
Definition ascii_text (s : pystr) : Prop := Forall (fun c => (c < 128)%N) s.
Definition hex_text (s : pystr) : Prop :=
  Forall (fun c => 48 <= c <= 57 \/ 65 <= c <= 70 \/ 97 <= c <= 102)%N s.
(** [n] bytes are as many as the field wants. *)
Definition right_size (fs : fspec) (n : nat) : Prop :=
  exists lt ml, fs_len_type fs = Some lt /\ fs_max_len fs = Some ml
    /\ (if (lt =? 0)%Z then Z.of_nat n = ml else Z.of_nat n <= ml)%Z.
(** [s] is a value for the field: ASCII text or hex digits. *)
Definition proper_value (fs : fspec) (s : pystr) : Prop :=
  (fs_data_enc fs = Some (u "ascii") /\ ascii_text s /\ right_size fs (length s))
  \/ (fs_data_enc fs = Some (u "b") /\ hex_text s /\ exists n, length s = (2 * n)%nat /\ right_size fs n).
(** A type of four characters, fields 2..128 and a proper value for each. *)
Definition proper_message (sp : spec) (d : pdoc) : Prop :=
  (exists t, value d (u "t") = Some (VStr t) /\ ascii_text t /\ length t = 4%nat)
  /\ (forall n, (0 <= n)%Z -> has_key d (zstr n) -> (1 <= n <= 128)%Z)
  /\ (forall n, (2 <= n <= 128)%Z -> n <> 65%Z -> has_key d (zstr n) ->
      exists fs s, sget (zstr n) sp = Some fs /\ value d (zstr n) = Some (VStr s) /\ proper_value fs s).

(** ** How large messages are *)
Definition is_text (enc : option pystr) : bool :=
  match enc with Some e => negb (str_eqb e (u "b")) | None => false end.
(** The bytes needed for the maximum length. *)
Definition max_bytes (fs : fspec) : Z :=
  match fs_max_len fs with
  | Some ml => if in_nibbles fs then ((Z.max 0 ml + 1) / 2)%Z else Z.max 0 ml
  | None => 0%Z
  end.
Definition prefix_bytes (fs : fspec) : Z :=
  match fs_len_type fs with Some lt => Z.max 0 lt | None => 0%Z end.
(** The most and the fewest bytes of the part of a message under key [k]; [k] is
    the type, a bitmap, the secondary and perhaps the tertiary bitmap, or a
    header or data field. *)
Definition most (sp : spec) (k : pystr) : Z :=
  match sget k sp with
  | None => 0%Z
  | Some fs =>
      let x := if is_text (fs_data_enc fs) then 2%Z else 1%Z in
      if str_eqb k (u "t") then (2 * x)%Z
      else if str_eqb k (u "p") then (8 * x)%Z
      else if str_eqb k (u "1") then (16 * x)%Z
      else (prefix_bytes fs + max_bytes fs)%Z
  end.
Definition least (sp : spec) (k : pystr) : Z :=
  match sget k sp with
  | None => 0%Z
  | Some fs =>
      let x := if is_text (fs_data_enc fs) then 2%Z else 1%Z in
      if str_eqb k (u "t") then (2 * x)%Z
      else if str_eqb k (u "p") then (8 * x)%Z
      else if str_eqb k (u "1") then (8 * x)%Z
      else if (prefix_bytes fs =? 0)%Z then max_bytes fs else prefix_bytes fs
  end.
Definition total (size : pystr -> Z) (ks : list pystr) : Z :=
  fold_right (fun k n => (size k + n)%Z) 0%Z ks.
(** Every key a message of the spec can have. *)
Definition all_parts (sp : spec) : list pystr :=
  header_key sp ++ u "t" :: u "p" :: u "1" :: map zstr data_fields.
Definition capacity (sp : spec) : Z := total (most sp) (all_parts sp).

(** The part of a message under key [k] has always the same size. *)
Definition one_size (sp : spec) (k : pystr) : Prop :=
  k = u "t" \/ k = u "p" \/ k <> u "1" /\ exists fs, sget k sp = Some fs /\ fs_len_type fs = Some 0%Z.

(** The text encodings of length prefixes and bitmaps write one byte per
    character. *)
Definition narrow_text (E : pyenv) (sp : spec) : Prop :=
  forall k fs enc, sget k sp = Some fs -> enc <> u "b" ->
    fs_len_enc fs = Some enc \/ (k = u "p" \/ k = u "1") /\ fs_data_enc fs = Some enc ->
    ascii_width E enc.
