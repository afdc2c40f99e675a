(** * PropsRoundtrip: the round-trip properties. Statements only; proofs are elsewhere. *)
From Verif Require Import PyBase BaseFacts Types Decoder Encoder Wire WireEncode Claims CPython311 Specs Samples.
From Verif Require Import CodecFacts SampleFacts EncodeSamples Roundtrip Roundtrip2 Roundtrip3 Shipped RoundtripSamples.

(** C01 *)
Theorem C01_decode_returns_what_was_encoded :
  forall E sp d s enc d' buf, env_ok E -> str_dict d -> reversible_spec E sp ->
  encode E (ADict d) sp = (Ok (s, enc), d') -> holds buf s ->
  exists dec, decode E buf sp = Ok (dec, enc)
    /\ forall k t, sget k dec = Some t
         <-> wire_key sp k /\ exists fs v, sget k sp = Some fs /\ value d' k = Some (VStr v) /\ t = normal fs v.
Proof. exact encode_decode. Qed.
Print Assumptions C01_decode_returns_what_was_encoded.
(** No wire key is lost for want of a spec entry. *)
Theorem C01_every_wire_key_is_specified :
  forall E sp d s enc d' k v, env_ok E -> str_dict d -> encode E (ADict d) sp = (Ok (s, enc), d') ->
  wire_key sp k -> value d' k = Some (VStr v) -> exists fs, sget k sp = Some fs.
Proof. exact wire_specified. Qed.
Print Assumptions C01_every_wire_key_is_specified.
Example C01_example : env_ok cpython311 /\ str_dict doc_rich /\ reversible_spec cpython311 rich.
Proof. exact (conj c311_env_ok (conj doc_rich_str rich_reversible)). Qed.
Example C01_example_run : exists enc, encode cpython311 (ADict doc_rich) rich = (Ok (msg_rich, enc), doc_rich_after)
  /\ map fst enc = [u "h"; u "t"; u "p"; u "1"; u "2"; u "3"; u "66"; u "130"].
Proof. exact doc_rich_encodes. Qed.
(** With CPython's codecs the pads and the size of the length prefix are all that matters. *)
Theorem C01_specs_of_CPython_codecs_are_reversible :
  forall sp, (forall k fs, sget k sp = Some fs -> k <> u "t" -> k <> u "p" -> k <> u "1" ->
      pads_upper fs /\ forall lt, fs_len_type fs = Some lt -> (lt <= 2150)%Z) ->
  reversible_spec cpython311 sp.
Proof. exact c311_specs_reversible. Qed.
Print Assumptions C01_specs_of_CPython_codecs_are_reversible.
(** A lower-case pad breaks the round trip. *)
Theorem C01_lower_case_pad_refuted : exists sp d s enc d' e, spec_complete sp /\ str_dict d
  /\ encode cpython311 (ADict d) sp = (Ok (s, enc), d')
  /\ decode cpython311 (InBytes s) sp = Raise (XDecodeError e).
Proof. exact lowpad_refutes. Qed.
Print Assumptions C01_lower_case_pad_refuted.

(** C18 *)
Theorem C18_encode_undoes_decode_of_canonical_messages :
  forall E sp buf b dec enc, env_ok E -> bitmaps_fit E sp -> faithful_spec E sp ->
  holds buf b -> decode E buf sp = Ok (dec, enc) -> canonical_message E sp dec enc ->
  encodes_to E sp (as_dict dec) b enc.
Proof. exact decode_encode. Qed.
Print Assumptions C18_encode_undoes_decode_of_canonical_messages.
Example C18_example : bitmaps_fit cpython311 rich /\ faithful_spec cpython311 rich
  /\ exists dec enc, decode cpython311 (InBytes msg_rich) rich = Ok (dec, enc)
       /\ canonical_message cpython311 rich dec enc.
Proof. exact (conj (c311_fit rich) (conj rich_faithful msg_rich_canonical)). Qed.
Theorem C18_specs_of_CPython_codecs_are_faithful :
  forall sp, (forall k fs, sget k sp = Some fs ->
      (exists de, fs_data_enc fs = Some de /\ (is_binary de \/ codec_of cpython311 de <> None))
      /\ forall le, fs_len_enc fs = Some le -> is_binary le \/ is_bcd le \/ codec_of cpython311 le <> None) ->
  faithful_spec cpython311 sp.
Proof. exact c311_specs_faithful. Qed.
Print Assumptions C18_specs_of_CPython_codecs_are_faithful.
(** Each clause of [canonical_message] is needed. *)
Theorem C18_lower_case_bitmap_refuted : rewritten rich msg_rich_lower.
Proof. exact lower_rewritten. Qed.
Print Assumptions C18_lower_case_bitmap_refuted.
Theorem C18_unneeded_bitmap_refuted : rewritten default msg_unneeded.
Proof. exact unneeded_rewritten. Qed.
Print Assumptions C18_unneeded_bitmap_refuted.
Theorem C18_length_syntax_refuted : rewritten default (msg_length " 4") /\ rewritten default (msg_length "+4").
Proof. exact (conj space_rewritten plus_rewritten). Qed.
Print Assumptions C18_length_syntax_refuted.
Theorem C18_other_pad_refuted : rewritten rich (msg_pad [3; 18; 63]%N).
Proof. exact pad_rewritten. Qed.
Print Assumptions C18_other_pad_refuted.
Theorem C18_odd_nibbles_of_text_refuted :
  rewritten nib_text (asc "0200" ++ raw [64; 0; 0; 0; 0; 0; 0; 0; 3; 65; 66]%N).
Proof. exact nibble_rewritten. Qed.
Print Assumptions C18_odd_nibbles_of_text_refuted.

(** C19 *)
Theorem C19_reencoding_is_stable :
  forall E sp d s enc d' buf dec enc', env_ok E -> str_dict d -> reversible_spec E sp ->
  ~ has_field E d 1 -> ~ has_field E d 65 ->
  encode E (ADict d) sp = (Ok (s, enc), d') -> holds buf s -> decode E buf sp = Ok (dec, enc') ->
  enc' = enc /\ encodes_to E sp (as_dict dec) s enc.
Proof. exact encode_decode_encode. Qed.
Print Assumptions C19_reencoding_is_stable.
Theorem C19_reencoding_is_stable_for_canonical_keys :
  forall E sp d s enc d' buf dec enc', env_ok E -> str_dict d -> reversible_spec E sp ->
  canonical_keys E d -> encode E (ADict d) sp = (Ok (s, enc), d') -> holds buf s ->
  decode E buf sp = Ok (dec, enc') -> enc' = enc /\ encodes_to E sp (as_dict dec) s enc.
Proof. exact encode_decode_encode_canonical. Qed.
Print Assumptions C19_reencoding_is_stable_for_canonical_keys.
Example C19_example : str_dict doc_rich /\ canonical_keys cpython311 doc_rich /\ reversible_spec cpython311 rich.
Proof. exact (conj doc_rich_str (conj doc_rich_canonical rich_reversible)). Qed.
(** A key such as "01" sends an empty secondary bitmap, which is not sent again. *)
Theorem C19_key_01_refuted : exists d s enc d' dec, str_dict d /\ encode cpython311 (ADict d) (full []) = (Ok (s, enc), d')
  /\ decode cpython311 (InBytes s) (full []) = Ok (dec, enc) /\ ~ encodes_to cpython311 (full []) (as_dict dec) s enc.
Proof. exact doc_01_rewritten. Qed.
Print Assumptions C19_key_01_refuted.

(** C20 *)
Theorem C20_encode_is_injective :
  forall E sp d1 d2 s enc1 enc2 d1' d2', env_ok E -> reversible_spec E sp -> str_dict d1 -> str_dict d2 ->
  encode E (ADict d1) sp = (Ok (s, enc1), d1') -> encode E (ADict d2) sp = (Ok (s, enc2), d2') ->
  enc1 = enc2 /\ forall k, message_key sp k -> same_up_to_case sp k (value d1 k) (value d2 k).
Proof. exact encode_injective. Qed.
Print Assumptions C20_encode_is_injective.
Example C20_example : exists s enc1 enc2 d1 d2, str_dict doc_mixed /\ str_dict doc_MIXED
  /\ encode cpython311 (ADict doc_mixed) rich = (Ok (s, enc1), d1)
  /\ encode cpython311 (ADict doc_MIXED) rich = (Ok (s, enc2), d2).
Proof. exact doc_mixed_same. Qed.

(** C24 *)
Theorem C24_default_round_trips :
  forall E d s enc d' buf, env_ok E -> has_ascii E -> str_dict d ->
  encode E (ADict d) default = (Ok (s, enc), d') -> holds buf s ->
  exists dec, decode E buf default = Ok (dec, enc)
    /\ forall k t, sget k dec = Some t <-> wire_key default k
         /\ exists v, value d' k = Some (VStr v) /\ t = if existsb (str_eqb k) default_binary then py_upper v else v.
Proof. exact default_roundtrip. Qed.
Print Assumptions C24_default_round_trips.
Theorem C24_default_ascii_round_trips :
  forall E d s enc d' buf, env_ok E -> has_ascii E -> str_dict d ->
  encode E (ADict d) default_ascii = (Ok (s, enc), d') -> holds buf s ->
  exists dec, decode E buf default_ascii = Ok (dec, enc)
    /\ forall k t, sget k dec = Some t <-> wire_key default_ascii k /\ value d' k = Some (VStr t).
Proof. exact default_ascii_roundtrip. Qed.
Print Assumptions C24_default_ascii_round_trips.
Example C24_example : env_ok cpython311 /\ has_ascii cpython311 /\ exists s enc d', str_dict doc_default
  /\ encode cpython311 (ADict doc_default) default = (Ok (s, enc), d') /\ length s = 32%nat.
Proof. exact (conj c311_env_ok (conj c311_ascii doc_default_encodes)). Qed.
Example C24_example_ascii : exists s enc d', str_dict doc_default
  /\ encode cpython311 (ADict doc_default) default_ascii = (Ok (s, enc), d') /\ length s = 48%nat.
Proof. exact doc_ascii_encodes. Qed.

(** C25 *)
Theorem C25_default_lengths_fit :
  forall E d e d', has_ascii E -> encode E (ADict d) default = (Raise (XEncodeError e), d') ->
  ee_msg e <> u "Failed to encode field length, field length does not fit into configured field size".
Proof. exact default_fits. Qed.
Print Assumptions C25_default_lengths_fit.
Theorem C25_default_ascii_lengths_fit :
  forall E d e d', has_ascii E -> encode E (ADict d) default_ascii = (Raise (XEncodeError e), d') ->
  ee_msg e <> u "Failed to encode field length, field length does not fit into configured field size".
Proof. exact default_ascii_fits. Qed.
Print Assumptions C25_default_ascii_lengths_fit.
(** Any spec whose maximum lengths fit their prefixes. *)
Theorem C25_lengths_fit :
  forall E sp, (forall k fs, k <> u "t" -> k <> u "p" -> k <> u "1" -> sget k sp = Some fs -> lengths_expressible E fs) ->
  forall d e d', encode E (ADict d) sp = (Raise (XEncodeError e), d') ->
  ee_msg e <> u "Failed to encode field length, field length does not fit into configured field size".
Proof. exact lengths_always_fit. Qed.
Print Assumptions C25_lengths_fit.
(** Other specs do raise it, and the shipped ones raise other errors. *)
Example C25_example : exists e d', encode cpython311 (ADict doc_wide) wide = (Raise (XEncodeError e), d')
  /\ ee_msg e = u "Failed to encode field length, field length does not fit into configured field size".
Proof. exact doc_wide_does_not_fit. Qed.
Example C25_example_default : exists e d',
  encode cpython311 (ADict (sdict [("t", "0200"); ("2", "12345678901234567890")]%string)) default = (Raise (XEncodeError e), d')
  /\ ee_msg e = u "Field data is 20 bytes, larger than maximum 19".
Proof. exact doc_long_default. Qed.
