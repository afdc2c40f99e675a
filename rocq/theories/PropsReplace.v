(** * PropsReplace: properties about the independence of fields.
    Statements only; proofs are elsewhere. *)
From Verif Require Import PyBase BaseFacts Types Decoder Encoder Wire WireEncode Claims CPython311 Specs Samples.
From Verif Require Import CodecFacts SampleFacts EncodeSamples Replace Replace2 ReplaceSamples.
Local Open Scope string_scope.

(** C47 *)
Theorem C47_a_field_can_be_pasted_from_another_message :
  forall E sp s1 b1 dec1 enc1 s2 b2 dec2 enc2 k e t s', bitmaps_fit E sp -> holds s1 b1 -> holds s2 b2 ->
  decode E s1 sp = Ok (dec1, enc1) -> decode E s2 sp = Ok (dec2, enc2) -> k <> u "p" -> k <> u "1" ->
  In k (map fst enc1) -> sget k enc2 = Some e -> sget k dec2 = Some t ->
  holds s' (wire_bytes (sset k e enc1)) ->
  decode E s' sp = Ok (sset k t dec1, sset k e enc1).
Proof. exact decode_paste. Qed.
Print Assumptions C47_a_field_can_be_pasted_from_another_message.
Example C47_example_paste : exists dec1 enc1 dec2 enc2 e,
  decode cpython311 (InBytes msg_rich) rich = Ok (dec1, enc1) /\ decode cpython311 (InBytes msg_other) rich = Ok (dec2, enc2)
  /\ In (u "2") (map fst enc1) /\ sget (u "2") enc2 = Some e /\ sget (u "2") dec2 = Some (u "1234567890123")
  /\ wire_bytes (sset (u "2") e enc1) = msg_pasted /\ length msg_pasted = 76%nat /\ length msg_rich = 72%nat.
Proof. exact paste_rich. Qed.
Theorem C47_equal_values_are_sent_alike :
  forall E sp d1 s1 enc1 d1' d2 s2 enc2 d2' k e1 e2, is_dict d1 -> is_dict d2 ->
  encode E (ADict d1) sp = (Ok (s1, enc1), d1') -> encode E (ADict d2) sp = (Ok (s2, enc2), d2') ->
  k <> u "p" -> k <> u "1" -> value d1 k = value d2 k ->
  sget k enc1 = Some e1 -> sget k enc2 = Some e2 -> e1 = e2.
Proof. exact same_bytes. Qed.
Print Assumptions C47_equal_values_are_sent_alike.
Theorem C47_a_mixture_of_encodable_dicts_is_encodable :
  forall E sp d1 d2 d, env_ok E -> bitmaps_sendable E sp -> header_on sp \/ header_off sp ->
  str_dict d1 -> str_dict d2 -> str_dict d -> canonical_keys E d1 -> canonical_keys E d2 ->
  (exists r, fst (encode E (ADict d1) sp) = Ok r) -> (exists r, fst (encode E (ADict d2) sp) = Ok r) ->
  (forall k v, k <> u "p" -> k <> u "1" -> k <> u "65" -> value d k = Some v ->
     value d1 k = Some v \/ value d2 k = Some v) ->
  has_key d (u "t") -> (header_on sp -> has_key d (u "h")) ->
  exists r, fst (encode E (ADict d) sp) = Ok r.
Proof. exact mix_encode. Qed.
Print Assumptions C47_a_mixture_of_encodable_dicts_is_encodable.
Example C47_example_mixture : str_dict doc_rich /\ str_dict doc_other /\ str_dict doc_mixed
  /\ canonical_keys cpython311 doc_rich /\ canonical_keys cpython311 doc_other
  /\ (exists r, fst (encode cpython311 (ADict doc_rich) rich) = Ok r) /\ (exists r, fst (encode cpython311 (ADict doc_other) rich) = Ok r)
  /\ (forall k v, k <> u "p" -> k <> u "1" -> k <> u "65" -> value doc_mixed k = Some v -> value doc_rich k = Some v \/ value doc_other k = Some v)
  /\ has_key doc_mixed (u "t") /\ has_key doc_mixed (u "h").
Proof. exact mixed_rich. Qed.
