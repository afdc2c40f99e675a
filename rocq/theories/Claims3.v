(** * Claims3: vocabulary of the claims about faults and streams. *)
From Verif Require Import PyBase Types Decoder.

(** [b] is a message as far as decode is concerned. *)
Definition accepts (E : pyenv) (sp : spec) (b : bytes) : Prop :=
  exists dec enc, decode E (InBytes b) sp = Ok (dec, enc).
