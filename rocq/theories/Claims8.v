(** * Claims8: vocabulary for messages with fields left out. *)
From Verif Require Import PyBase Types WireEncode.

(** The encoded dict without its bitmaps. *)
Definition without_bitmaps (enc : edoc) : edoc :=
  filter (fun ke => negb (str_eqb (fst ke) (u "p") || str_eqb (fst ke) (u "1"))) enc.
(** The encoded dict without the keys [gone]. *)
Definition without (gone : pystr -> bool) (enc : edoc) : edoc := filter (fun ke => negb (gone (fst ke))) enc.
(** The dict [d2] holds what [d1] holds, except the keys [gone]; bitmaps are not compared. *)
Definition same_fields_but (gone : pystr -> bool) (d1 d2 : pdoc) : Prop :=
  forall k, k <> u "p" -> k <> u "1" -> k <> u "65" -> value d2 k = if gone k then None else value d1 k.
