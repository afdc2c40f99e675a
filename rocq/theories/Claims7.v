(** * Claims7: vocabulary for messages passed on from one spec to another. *)
From Verif Require Import PyBase Claims5.

(** Hexadecimal digits, two per byte. *)
Definition whole_bytes (s : pystr) : Prop := hex_text s /\ Nat.even (length s) = true.
