(** * PropsRepair: properties about recovering from errors (C58, C59).
    Statements only; proofs are elsewhere. *)
From Verif Require Import PyBase BaseFacts Types Decoder Encoder Wire WireEncode Claims Claims8 Claims10 CPython311 Specs Samples.
From Verif Require Import EncodeSamples RoundtripSamples Repair RepairSamples Salvage SalvageSamples.
Local Open Scope string_scope.
Local Open Scope list_scope.

(** C58 *)
Theorem C58_the_field_reported_is_the_first_unsendable :
  forall E sp d, env_ok E -> sendable_frame E sp d -> forall n, data_field n ->
  ((exists e d', encode E (ADict d) sp = (Raise (XEncodeError e), d') /\ ee_field e = zstr n)
   <-> unsendable E sp d n /\ forall m, unsendable E sp d m -> (n <= m)%Z).
Proof. exact reported_first. Qed.
Print Assumptions C58_the_field_reported_is_the_first_unsendable.
Theorem C58_encode_succeeds_iff_nothing_is_unsendable :
  forall E sp d, env_ok E -> sendable_frame E sp d ->
  ((exists s enc d', encode E (ADict d) sp = (Ok (s, enc), d')) <-> forall n, ~ unsendable E sp d n).
Proof. exact frame_success. Qed.
Print Assumptions C58_encode_succeeds_iff_nothing_is_unsendable.
Theorem C58_dropping_reported_fields_ends_with_the_sendable_ones :
  forall E sp, env_ok E -> forall tries d, sendable_frame E sp d -> (length d < tries)%nat ->
  (exists s enc d', encode E (ADict (repair E sp tries d)) sp = (Ok (s, enc), d'))
  /\ forall k, k <> u "p" -> k <> u "1" -> k <> u "65" ->
       ((exists n, k = zstr n /\ unsendable E sp d n) -> value (repair E sp tries d) k = None)
       /\ (~ (exists n, k = zstr n /\ unsendable E sp d n) -> value (repair E sp tries d) k = value d k).
Proof. exact repair_ends. Qed.
Print Assumptions C58_dropping_reported_fields_ends_with_the_sendable_ones.
Example C58_example : env_ok cpython311 /\ sendable_frame cpython311 rich doc_broken
  /\ (exists e d', encode cpython311 (ADict doc_broken) rich = (Raise (XEncodeError e), d') /\ ee_field e = u "3")
  /\ content (repair cpython311 rich 7 doc_broken) = doc_mended.
Proof. exact broken_repaired. Qed.

(** C59 *)
Theorem C59_what_was_read_before_an_error_is_a_message :
  forall E sp buf b e, env_ok E -> bitmaps_fit E sp -> faithful_spec E sp -> bitmaps_sendable E sp ->
  holds buf b -> decode E buf sp = Raise (XDecodeError e) -> de_field e <> u "h" -> de_field e <> u "t" ->
  salvaged_canonical E sp e ->
  exists s enc d, encode E (ADict (as_dict (salvaged_dec e))) sp = (Ok (s, enc), d)
    /\ without_bitmaps enc = without_bitmaps (salvaged_enc e).
Proof. exact salvage_encodes. Qed.
Print Assumptions C59_what_was_read_before_an_error_is_a_message.
Theorem C59_what_was_read_before_an_error_is_read_again :
  forall E sp buf b e s enc d buf', env_ok E -> bitmaps_fit E sp -> faithful_spec E sp -> reversible_spec E sp ->
  holds buf b -> decode E buf sp = Raise (XDecodeError e) -> de_field e <> u "h" -> de_field e <> u "t" ->
  encode E (ADict (as_dict (salvaged_dec e))) sp = (Ok (s, enc), d) -> holds buf' s ->
  exists dec, decode E buf' sp = Ok (dec, enc)
    /\ forall k, k <> u "p" -> k <> u "1" -> sget k dec = sget k (salvaged_dec e).
Proof. exact salvage_survives. Qed.
Print Assumptions C59_what_was_read_before_an_error_is_read_again.
Example C59_example : exists e, decode cpython311 (InBytes msg_cut) rich = Raise (XDecodeError e)
  /\ de_field e = u "130" /\ salvaged_canonical cpython311 rich e
  /\ exists enc d, encode cpython311 (ADict (as_dict (salvaged_dec e))) rich = (Ok (msg_kept, enc), d).
Proof. exact cut_salvaged. Qed.
