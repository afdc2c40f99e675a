(** * Claims4: vocabulary of the claims about changing specs and messages. *)
From Verif Require Import PyBase Types Wire.

(** ** Extending a spec *)
(** The same field, with at least the same maximum when its length is variable. *)
Definition wider (fs fs' : fspec) : Prop :=
  fs_data_enc fs' = fs_data_enc fs /\ fs_len_enc fs' = fs_len_enc fs /\ fs_len_type fs' = fs_len_type fs
  /\ fs_len_count fs' = fs_len_count fs /\ fs_left_pad fs' = fs_left_pad fs /\ fs_right_pad fs' = fs_right_pad fs
  /\ match fs_max_len fs, fs_max_len fs' with
     | Some ml, Some ml' => (ml <= ml')%Z /\ (fs_len_type fs = Some 0%Z -> ml = ml')
     | None, None => True
     | _, _ => False
     end.
(** Every entry of [sp] is in [sp'], perhaps with a larger maximum length; the
    header is switched on in both or in none. *)
Definition extends (sp sp' : spec) : Prop :=
  (exists h, sget (u "h") sp = Some h)
  /\ forall k fs, sget k sp = Some fs -> exists fs', sget k sp' = Some fs' /\ wider fs fs'
       /\ (k = u "h" -> forall ml ml', fs_max_len fs = Some ml -> fs_max_len fs' = Some ml' ->
           (0 < ml <-> 0 < ml')%Z).
(** Field [k] with length prefix [lenb] is new: not specified by [sp], or longer
    than [sp] allows. *)
Definition beyond (E : pyenv) (sp sp' : spec) (k : pystr) (lenb : bytes) : Prop :=
  sget k sp = None
  \/ exists fs fs' ml n, sget k sp = Some fs /\ sget k sp' = Some fs' /\ fs_max_len fs = Some ml
       /\ announces E fs' lenb n /\ (ml < n)%Z.
