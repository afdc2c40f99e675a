(** * PropsExtend: properties about extended specs.
    Statements only; proofs are elsewhere. *)
From Verif Require Import PyBase BaseFacts Types Decoder Encoder Wire WireEncode Claims Claims4 CPython311 Specs Samples.
From Verif Require Import CodecFacts SampleFacts EncodeSamples Extend ExtendSamples.
Local Open Scope string_scope.

(** C46 *)
Theorem C46_old_messages_decode_alike :
  forall E sp sp' s b r, extends sp sp' -> bitmaps_fit E sp' -> holds s b ->
  decode E s sp = Ok r -> decode E s sp' = Ok r.
Proof. exact extend_decode. Qed.
Print Assumptions C46_old_messages_decode_alike.
Theorem C46_old_dicts_encode_alike :
  forall E sp sp', extends sp sp' -> forall d r d', is_dict d ->
  encode E (ADict d) sp = (Ok r, d') -> encode E (ADict d) sp' = (Ok r, d').
Proof. exact extend_encode. Qed.
Print Assumptions C46_old_dicts_encode_alike.
Theorem C46_only_messages_with_new_fields_are_new :
  forall E sp sp' s b dec enc, extends sp sp' -> bitmaps_fit E sp' -> holds s b ->
  decode E s sp' = Ok (dec, enc) ->
  decode E s sp = Ok (dec, enc) \/ exists k e, In (k, e) enc /\ beyond E sp sp' k (e_len e).
Proof. exact extend_decode_back. Qed.
Print Assumptions C46_only_messages_with_new_fields_are_new.
Theorem C46_only_dicts_with_new_fields_are_new :
  forall E sp sp', extends sp sp' -> forall d s enc d', is_dict d ->
  encode E (ADict d) sp' = (Ok (s, enc), d') ->
  encode E (ADict d) sp = (Ok (s, enc), d')
  \/ exists k e, In (k, e) enc /\ (sget k sp = None
       \/ exists fs fs' ml v n, sget k sp = Some fs /\ sget k sp' = Some fs' /\ fs_max_len fs = Some ml
            /\ value d k = Some v /\ encodes_value E fs' v (e_data e) n /\ (ml < n)%Z).
Proof. exact extend_encode_back. Qed.
Print Assumptions C46_only_dicts_with_new_fields_are_new.
Example C46_example : extends default wide_pan.
Proof. exact wide_pan_extends. Qed.
Example C46_example_more_fields : extends default more_fields.
Proof. exact more_fields_extends. Qed.
Example C46_example_new : exists d, fst (encode cpython311 (ADict d) default) <> fst (encode cpython311 (ADict d) wide_pan)
  /\ exists r, fst (encode cpython311 (ADict d) wide_pan) = Ok r.
Proof. exact long_pan. Qed.
(** A longer fixed field is another field. *)
Theorem C46_fixed_length_refuted :
  exists s r, decode cpython311 s default = Ok r /\ decode cpython311 s long_code <> Ok r.
Proof. exact fixed_refuted. Qed.
Print Assumptions C46_fixed_length_refuted.
