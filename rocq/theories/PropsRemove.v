(** * PropsRemove: properties about fields left out of messages.
    Statements only; proofs are elsewhere. *)
From Verif Require Import PyBase BaseFacts Types Decoder Encoder Wire WireEncode Claims Claims8 CPython311 Specs Samples.
From Verif Require Import EncodeSamples Remove RemoveSamples.
Local Open Scope string_scope.
Local Open Scope list_scope.

(** C55 *)
Theorem C55_a_dict_stays_encodable_without_some_fields :
  forall E sp d1 d2 gone, env_ok E -> bitmaps_sendable E sp -> header_on sp \/ header_off sp ->
  str_dict d1 -> str_dict d2 -> canonical_keys E d1 -> (exists r, fst (encode E (ADict d1) sp) = Ok r) ->
  same_fields_but gone d1 d2 -> gone (u "t") = false -> (header_on sp -> gone (u "h") = false) ->
  exists r, fst (encode E (ADict d2) sp) = Ok r.
Proof. exact removed_encodes. Qed.
Print Assumptions C55_a_dict_stays_encodable_without_some_fields.
Example C55_example_fewer : env_ok cpython311 /\ bitmaps_sendable cpython311 rich /\ header_on rich
  /\ str_dict doc_rich /\ str_dict doc_fewer /\ canonical_keys cpython311 doc_rich
  /\ (exists r, fst (encode cpython311 (ADict doc_rich) rich) = Ok r)
  /\ same_fields_but gone_rich doc_rich doc_fewer /\ gone_rich (u "t") = false /\ gone_rich (u "h") = false.
Proof. exact fewer_rich. Qed.
Theorem C55_the_other_segments_stay :
  forall E sp d1 s1 enc1 d1' d2 s2 enc2 d2' gone, env_ok E -> is_dict d1 -> is_dict d2 ->
  encode E (ADict d1) sp = (Ok (s1, enc1), d1') -> encode E (ADict d2) sp = (Ok (s2, enc2), d2') ->
  same_fields_but gone d1 d2 -> without_bitmaps enc2 = without gone (without_bitmaps enc1).
Proof. exact removed_part. Qed.
Print Assumptions C55_the_other_segments_stay.
Example C55_example_segments : exists s1 enc1 d1 s2 enc2 d2,
  encode cpython311 (ADict doc_rich) rich = (Ok (s1, enc1), d1) /\ encode cpython311 (ADict doc_fewer) rich = (Ok (s2, enc2), d2)
  /\ map fst enc1 = [u "h"; u "t"; u "p"; u "1"; u "2"; u "3"; u "66"; u "130"]
  /\ map fst enc2 = [u "h"; u "t"; u "p"; u "2"]
  /\ wire_bytes (without_bitmaps enc2) = raw [2]%N ++ asc "HD" ++ asc "0200" ++ raw [5; 1; 35; 69]%N.
Proof. exact fewer_sent. Qed.
Theorem C55_messages_share_what_their_dicts_share :
  forall E sp d1 s1 enc1 d1' d2 s2 enc2 d2' (P : pystr -> bool), env_ok E -> is_dict d1 -> is_dict d2 ->
  encode E (ADict d1) sp = (Ok (s1, enc1), d1') -> encode E (ADict d2) sp = (Ok (s2, enc2), d2') ->
  P (u "p") = false -> P (u "1") = false -> (forall k, P k = true -> value d1 k = value d2 k) ->
  filter (fun ke => P (fst ke)) enc1 = filter (fun ke => P (fst ke)) enc2.
Proof. exact common_part. Qed.
Print Assumptions C55_messages_share_what_their_dicts_share.
