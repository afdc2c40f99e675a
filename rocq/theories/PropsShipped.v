(** * PropsShipped: what a spec can carry (C50, C51). *)
From Verif Require Import PyBase BaseFacts Types Decoder Encoder Wire WireEncode Claims Claims5 CPython311 Specs Samples.
From Verif Require Import EncodeSamples Shipped Size SizeSamples DecoderFacts.
Local Open Scope string_scope. Local Open Scope list_scope.

(** C50 *)
Theorem C50_shipped_specs_send_exactly_the_proper_messages : forall E sp d,
  env_ok E -> has_ascii E -> sp = default \/ sp = default_ascii -> str_dict d -> canonical_keys E d ->
  ((exists s enc d', encode E (ADict d) sp = (Ok (s, enc), d')) <-> proper_message sp d).
Proof. exact shipped_sends. Qed.
Print Assumptions C50_shipped_specs_send_exactly_the_proper_messages.
Example C50_example :
  sends_it [("t", "0200"); ("2", "")] default = true
  /\ sends_it [("t", "0200"); ("2", "1234567890123456789"); ("1", "junk"); ("65", "junk"); ("extra", "x")] default = true
  /\ sends_it [("t", "0200"); ("2", "12345678901234567890")] default = false
  /\ sends_it [("t", "0200"); ("3", "12345")] default = false
  /\ sends_it [("t", "0200"); ("52", "0123456789abCDEF")] default = true
  /\ sends_it [("t", "0200"); ("52", "0123456789abCDE")] default = false
  /\ sends_it [("t", "0200"); ("55", "0x")] default = false
  /\ sends_it [("t", "0200"); ("55", "0x")] default_ascii = true
  /\ sends_it [("t", "020"); ("2", "")] default = false
  /\ sends_it [("2", "")] default = false
  /\ sends_it [("t", "0200"); ("129", "")] default = false
  /\ sends_it [("t", "0200"); ("0", "")] default = false.
Proof. exact sends_cases. Qed.

(** C51. [enc] lists the parts of the message; the sizes of each come from the
    spec alone. *)
Theorem C51_decoded_messages_are_bounded : forall E sp s b dec enc,
  bitmaps_fit E sp -> holds s b -> decode E s sp = Ok (dec, enc) ->
  (total (least sp) (map fst enc) <= zlen b <= total (most sp) (map fst enc))%Z
  /\ (total (most sp) (map fst enc) <= capacity sp)%Z.
Proof. exact decode_size. Qed.
Print Assumptions C51_decoded_messages_are_bounded.
Theorem C51_encoded_messages_are_bounded : forall E sp d s enc d',
  narrow_text E sp -> is_dict d -> encode E (ADict d) sp = (Ok (s, enc), d') ->
  (total (least sp) (map fst enc) <= zlen s <= total (most sp) (map fst enc))%Z
  /\ (total (most sp) (map fst enc) <= capacity sp)%Z.
Proof. exact encode_size. Qed.
Print Assumptions C51_encoded_messages_are_bounded.
Theorem C51_fixed_parts_fix_the_size_decoded : forall E sp s b dec enc,
  bitmaps_fit E sp -> holds s b -> decode E s sp = Ok (dec, enc) ->
  Forall (one_size sp) (map fst enc) -> zlen b = total (most sp) (map fst enc).
Proof. exact decode_one_size. Qed.
Print Assumptions C51_fixed_parts_fix_the_size_decoded.
Theorem C51_fixed_parts_fix_the_size_encoded : forall E sp d s enc d',
  narrow_text E sp -> is_dict d -> encode E (ADict d) sp = (Ok (s, enc), d') ->
  Forall (one_size sp) (map fst enc) -> zlen s = total (most sp) (map fst enc).
Proof. exact encode_one_size. Qed.
Print Assumptions C51_fixed_parts_fix_the_size_encoded.
Theorem C51_shipped_specs_decoded : forall E s b dec enc, has_ascii E -> holds s b ->
  (decode E s default = Ok (dec, enc) -> 12 <= zlen b <= 35806)%Z
  /\ (decode E s default_ascii = Ok (dec, enc) -> 20 <= zlen b <= 36117)%Z.
Proof. exact shipped_decode_size. Qed.
Print Assumptions C51_shipped_specs_decoded.
Theorem C51_shipped_specs_encoded : forall E d s enc d', has_ascii E -> is_dict d ->
  (encode E (ADict d) default = (Ok (s, enc), d') -> 12 <= zlen s <= 35806)%Z
  /\ (encode E (ADict d) default_ascii = (Ok (s, enc), d') -> 20 <= zlen s <= 36117)%Z.
Proof. exact shipped_encode_size. Qed.
Print Assumptions C51_shipped_specs_encoded.
(** The bounds are reached. *)
Example C51_example : accepted_size full_default default = Some 35806%Z /\ accepted_size full_ascii default_ascii = Some 36117%Z
  /\ accepted_size (asc "0200" ++ repeat x00 8) default = Some 12%Z
  /\ accepted_size (asc "0200" ++ repeat x30 16) default_ascii = Some 20%Z.
Proof. exact sizes_reached. Qed.
Example C51_example_narrow : narrow_text cpython311 default.
Proof. exact (plain_narrow cpython311 default c311_ascii default_plain). Qed.
Example C51_example_fixed : exists enc d', encode cpython311 (ADict (sdict [("t", "0200"); ("3", "123456")])) default
    = (Ok (asc "0200" ++ x20 :: repeat x00 7 ++ asc "123456", enc), d')
  /\ Forall (one_size default) (map fst enc) /\ total (most default) (map fst enc) = 18%Z.
Proof. exact fixed_message. Qed.
