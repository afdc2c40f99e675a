(** * PropsEncode: the properties of encode. Statements only; proofs are elsewhere. *)
From Coq Require Import Sorted Permutation.
From Verif Require Import PyBase BaseFacts Types Numerals Decoder Encoder Wire WireEncode Claims CPython311 Specs Samples.
From Verif Require Import CodecFacts SampleFacts EncodeWhole EncodeTheorems EncodeTheorems2 EncodeTheorems3 EncodeSamples ShownSamples.

(** C04 *)
Theorem C04_output_is_the_concatenation_in_wire_order :
  forall E sp d s enc d', is_dict d -> encode E (ADict d) sp = (Ok (s, enc), d') ->
  s = wire_bytes enc /\ NoDup (map fst enc)
  /\ exists hs xs fields, map fst enc = hs ++ [u "t"; u "p"] ++ xs ++ map zstr fields
       /\ (hs = [] \/ hs = [u "h"]) /\ (xs = [] \/ xs = [u "1"])
       /\ StronglySorted Z.lt fields /\ Forall data_field fields.
Proof. exact encode_order. Qed.
Print Assumptions C04_output_is_the_concatenation_in_wire_order.
Example C04_example : exists enc,
  encode cpython311 (ADict doc_rich) rich = (Ok (msg_rich, enc), doc_rich_after)
  /\ map fst enc = [u "h"; u "t"; u "p"; u "1"; u "2"; u "3"; u "66"; u "130"].
Proof. exact doc_rich_encodes. Qed.

(** C05 *)
Theorem C05_bitmaps_name_exactly_the_fields_present :
  forall E sp d s enc d', env_ok E -> is_dict d -> canonical_keys E d ->
  encode E (ADict d) sp = (Ok (s, enc), d') ->
  exists bm1 bm2 bm3, sent_bitmaps E sp enc bm1 bm2 bm3
    /\ (forall n, data_field n -> (announced bm1 bm2 bm3 n = true <-> has_key d (zstr n)))
    /\ (bit bm1 1 = true <-> exists n, (66 <= n <= 192)%Z /\ has_key d (zstr n))
    /\ (bit bm2 1 = true <-> exists n, (129 <= n <= 192)%Z /\ has_key d (zstr n)).
Proof. exact encode_bitmaps. Qed.
Print Assumptions C05_bitmaps_name_exactly_the_fields_present.
(** For any keys: "has field n" then means that some numeric key denotes n. *)
Theorem C05_bitmaps_of_any_dict :
  forall E sp d s enc d', is_dict d -> encode E (ADict d) sp = (Ok (s, enc), d') ->
  exists bm1 bm2 bm3, sent_bitmaps E sp enc bm1 bm2 bm3
    /\ (forall n, data_field n -> (announced bm1 bm2 bm3 n = true <-> has_field E d n))
    /\ (bit bm1 1 = true <-> has_field E d 1 \/ exists n, (65 <= n <= 192)%Z /\ has_field E d n)
    /\ (bit bm2 1 = true <-> has_field E d 65 \/ exists n, (129 <= n <= 192)%Z /\ has_field E d n).
Proof. exact encode_bitmaps_any. Qed.
Print Assumptions C05_bitmaps_of_any_dict.
Example C05_example : env_ok cpython311 /\ str_dict doc_rich /\ canonical_keys cpython311 doc_rich.
Proof. exact (conj c311_env_ok (conj doc_rich_str doc_rich_canonical)). Qed.
(** Without canonical keys bit 1 may be on although no field 65..192 is present. *)
Theorem C05_noncanonical_refuted : exists d s enc d',
  encode cpython311 (ADict d) (full []) = (Ok (s, enc), d')
  /\ str_dict d /\ has_key d' (u "1") /\ forall n, (65 <= n <= 192)%Z -> ~ has_key d (zstr n).
Proof. exact noncanonical_bitmap. Qed.
Print Assumptions C05_noncanonical_refuted.

(** C08. As stated, for any str dict, the claim is false. *)
Theorem C08_str_dict_KeyError_refuted : exists d k d', str_dict d /\ spec_complete (full []) /\ widths_ok (full [])
  /\ limits_ok cpython311 (full [])
  /\ encode cpython311 (ADict d) (full []) = (Raise (XKeyError k), d').
Proof. exact str_dict_keyerror. Qed.
Print Assumptions C08_str_dict_KeyError_refuted.
Theorem C08_str_dict_ValueError_refuted : exists d d', str_dict d /\ spec_complete (full []) /\ widths_ok (full [])
  /\ limits_ok cpython311 (full [])
  /\ encode cpython311 (ADict d) (full []) = (Raise XValueError, d').
Proof. exact str_dict_valueerror. Qed.
Print Assumptions C08_str_dict_ValueError_refuted.
(** These two are the only ways, for every str dict and complete spec, apart from
    the ValueError of a negative len_type or of a max_len too long to be shown; with
    canonical keys there is none. *)
Theorem C08_any_str_dict_partial :
  forall E sp d x d', spec_complete sp -> str_dict d -> encode E (ADict d) sp = (Raise x, d') ->
  (exists e, x = XEncodeError e)
  \/ (exists n, data_field n /\ x = XKeyError (zstr n) /\ has_field E d n /\ ~ has_key d (zstr n))
  \/ (x = XValueError /\ exists k, has_key d k /\ isnumeric E k = true /\ not_int E k)
  \/ (x = XValueError /\ exists k, negative_width sp k \/ long_limit E sp k).
Proof. exact encode_exceptions. Qed.
Print Assumptions C08_any_str_dict_partial.
Theorem C08_canonical_keys_only_EncodeError_partial :
  forall E sp d x d', env_ok E -> spec_complete sp -> widths_ok sp -> limits_ok E sp -> str_dict d -> canonical_keys E d ->
  encode E (ADict d) sp = (Raise x, d') -> exists e, x = XEncodeError e.
Proof. exact encode_only_encode_error. Qed.
Print Assumptions C08_canonical_keys_only_EncodeError_partial.
(** C38: the correct form of C08. *)
Theorem C38_exceptions_of_encode :
  forall E sp d x d', spec_complete sp -> str_dict d -> encode E (ADict d) sp = (Raise x, d') ->
  (exists e, x = XEncodeError e)
  \/ (exists n, data_field n /\ x = XKeyError (zstr n) /\ has_field E d n /\ ~ has_key d (zstr n))
  \/ (x = XValueError /\ exists k, has_key d k /\ isnumeric E k = true /\ not_int E k)
  \/ (x = XValueError /\ exists k, negative_width sp k \/ long_limit E sp k).
Proof. exact encode_exceptions. Qed.
Print Assumptions C38_exceptions_of_encode.
Theorem C38_canonical_keys_only_EncodeError :
  forall E sp d x d', env_ok E -> spec_complete sp -> widths_ok sp -> limits_ok E sp -> str_dict d -> canonical_keys E d ->
  encode E (ADict d) sp = (Raise x, d') -> exists e, x = XEncodeError e.
Proof. exact encode_only_encode_error. Qed.
Print Assumptions C38_canonical_keys_only_EncodeError.
Example C08_example : exists e d', encode cpython311 (ADict doc_short) rich = (Raise (XEncodeError e), d')
  /\ ee_field e = u "3" /\ map fst (ee_doc_enc e) = [u "h"; u "t"; u "p"; u "2"; u "3"]
  /\ ee_msg e = u "Field data is 5 bytes, expecting 6" /\ str_dict doc_short /\ canonical_keys cpython311 doc_short.
Proof. exact doc_short_fails. Qed.
Example C38_example_width :
  exists d', encode cpython311 (ADict (sdict [("t", "0200"); ("2", "1")]%string)) negative = (Raise XValueError, d')
  /\ spec_complete negative /\ str_dict (sdict [("t", "0200"); ("2", "1")]%string) /\ negative_width negative (u "2").
Proof. exact doc_negative. Qed.
Example C38_example_widths : widths_ok rich /\ widths_ok default /\ widths_ok default_ascii.
Proof. exact (conj rich_widths shipped_widths). Qed.
Example C38_example_limits : limits_ok cpython311 rich /\ limits_ok cpython311 default /\ limits_ok cpython311 default_ascii.
Proof. exact (conj rich_limits shipped_limits). Qed.
Example C38_example_limit : (exists d', encode strict311 (ADict doc_2) (fixed_2 (10 ^ 640)) = (Raise XValueError, d'))
  /\ str_dict doc_2 /\ canonical_keys strict311 doc_2 /\ long_limit strict311 (fixed_2 (10 ^ 640)) (u "2")
  /\ exists e d', encode strict311 (ADict doc_2) (fixed_2 (10 ^ 639)) = (Raise (XEncodeError e), d') /\ ee_field e = u "2".
Proof. exact encode_unshown. Qed.
(** The shipped specs are not complete. *)
Theorem C08_default_spec_refuted : exists d k d', encode cpython311 (ADict d) default = (Raise (XKeyError k), d')
  /\ str_dict d /\ canonical_keys cpython311 d.
Proof. exact default_keyerror. Qed.
Print Assumptions C08_default_spec_refuted.

(** C11. The caller's dict (by reference) is [d']; [done] are the fields before
    the failing one, completely encoded, in wire order. *)
Theorem C11_EncodeError_is_truthful :
  forall E sp d e d', is_dict d -> encode E (ADict d) sp = (Raise (XEncodeError e), d') ->
  ee_doc_dec e = d' /\ ee_args0 e = ee_msg e ++ u ": field " ++ ee_field e
  /\ exists bm1 bm2 bm3 done tail rest, bitmaps_for E d bm1 bm2 bm3
       /\ ee_doc_enc e = done ++ tail /\ Forall (entry_sent E sp d bm1 bm2 bm3) done
       /\ (tail = [] \/ exists x, tail = [(ee_field e, x)])
       /\ plan sp bm1 bm2 bm3 = map fst done ++ ee_field e :: rest.
Proof. exact encode_error_truth. Qed.
Print Assumptions C11_EncodeError_is_truthful.
Example C11_example : exists e d', encode cpython311 (ADict doc_short) rich = (Raise (XEncodeError e), d')
  /\ ee_field e = u "3" /\ map fst (ee_doc_enc e) = [u "h"; u "t"; u "p"; u "2"; u "3"]
  /\ ee_msg e = u "Field data is 5 bytes, expecting 6" /\ str_dict doc_short /\ canonical_keys cpython311 doc_short.
Proof. exact doc_short_fails. Qed.

(** C12: whatever the outcome; [content] is the dict without p, 1 and 65. *)
Theorem C12_only_bitmaps_change :
  forall E sp d, content (snd (encode E (ADict d) sp)) = content d
  /\ (is_dict d -> is_dict (snd (encode E (ADict d) sp))).
Proof. exact encode_keeps. Qed.
Print Assumptions C12_only_bitmaps_change.
Example C12_example : length doc_rich = 8%nat /\ length (content doc_rich) = 6%nat
  /\ content doc_rich = content doc_rich_after.
Proof. exact doc_rich_content. Qed.

(** C13 *)
Theorem C13_encode_is_idempotent :
  forall E sp d s enc d', env_ok E -> is_dict d ->
  encode E (ADict d) sp = (Ok (s, enc), d') -> encode E (ADict d') sp = (Ok (s, enc), d').
Proof. exact encode_idempotent. Qed.
Print Assumptions C13_encode_is_idempotent.
Example C13_example : exists enc,
  encode cpython311 (ADict doc_rich) rich = (Ok (msg_rich, enc), doc_rich_after)
  /\ map fst enc = [u "h"; u "t"; u "p"; u "1"; u "2"; u "3"; u "66"; u "130"].
Proof. exact doc_rich_encodes. Qed.

(** C14 *)
Theorem C14_bytes_depend_on_content_only :
  forall E sp d1 d2 s enc, env_ok E -> is_dict d1 -> is_dict d2 -> same_content d1 d2 ->
  (encodes_to E sp d1 s enc <-> encodes_to E sp d2 s enc).
Proof. exact encode_content. Qed.
Print Assumptions C14_bytes_depend_on_content_only.
Theorem C14_earlier_encodes_do_not_matter :
  forall E sp ops d s enc, env_ok E -> is_dict d ->
  (encodes_to E sp (history E ops d) s enc <-> encodes_to E sp (history E (edits ops) d) s enc).
Proof. exact encode_history. Qed.
Print Assumptions C14_earlier_encodes_do_not_matter.
Example C14_example :
  history cpython311 [Enc rich; Put (KStr (u "1")) (VStr []); Enc rich] doc_rich = doc_rich_after
  /\ same_content doc_rich_after (rev (content doc_rich)).
Proof. exact doc_rich_history. Qed.

(** C15, encoder half *)
Theorem C15_encoded_lengths_respect_the_spec :
  forall E sp d s enc d' k e, is_dict d -> encode E (ADict d) sp = (Ok (s, enc), d') ->
  sget k enc = Some e -> k <> u "t" -> k <> u "p" -> k <> u "1" ->
  exists fs v n ml lt, sget k sp = Some fs /\ value d k = Some v
    /\ fs_max_len fs = Some ml /\ fs_len_type fs = Some (Z.of_nat lt)
    /\ units fs v (e_data e) n /\ (if (lt =? 0)%nat then n = ml /\ e_len e = [] else n <= ml)%Z
    /\ occupies fs n (zlen (e_data e)).
Proof. exact encode_limits. Qed.
Print Assumptions C15_encoded_lengths_respect_the_spec.

(** C16 *)
Theorem C16_length_prefixes_are_exact :
  forall E sp d s enc d' k e, is_dict d -> encode E (ADict d) sp = (Ok (s, enc), d') ->
  sget k enc = Some e -> k <> u "t" -> k <> u "p" -> k <> u "1" ->
  exists fs v n lt, sget k sp = Some fs /\ value d k = Some v /\ fs_len_type fs = Some (Z.of_nat lt)
    /\ units fs v (e_data e) n
    /\ (lt = 0%nat -> e_len e = [])
    /\ (lt <> 0%nat -> exists le, fs_len_enc fs = Some le /\ prefix_exact E le lt n (e_len e)).
Proof. exact encode_prefixes. Qed.
Print Assumptions C16_length_prefixes_are_exact.
Theorem C16_too_long_is_rejected :
  forall E sp d k fs v data n lt le,
  env_ok E -> spec_complete sp -> widths_ok sp -> limits_ok E sp -> str_dict d -> canonical_keys E d ->
  k = u "h" /\ header_on sp \/ (exists f, data_field f /\ k = zstr f) ->
  value d k = Some v -> sget k sp = Some fs -> encodes_value E fs v data n ->
  fs_len_type fs = Some (Z.of_nat lt) -> lt <> 0%nat -> fs_len_enc fs = Some le -> too_long E le lt n ->
  exists e d', encode E (ADict d) sp = (Raise (XEncodeError e), d').
Proof. exact encode_rejects_long. Qed.
Print Assumptions C16_too_long_is_rejected.
Example C16_example : spec_complete wide /\ widths_ok wide /\ limits_ok cpython311 wide /\ str_dict doc_wide /\ canonical_keys cpython311 doc_wide
  /\ value doc_wide (zstr 2) = Some (VStr (repeat 65%N 300)) /\ sget (zstr 2) wide = Some fs_wide
  /\ encodes_value cpython311 fs_wide (VStr (repeat 65%N 300)) (repeat (n2b 65) 300) 300
  /\ too_long cpython311 (u "b") 1 300.
Proof. exact doc_wide_long. Qed.

(** C17 *)
Theorem C17_encode_pads_odd_digits_only :
  forall E sp d s enc d' k e fs de h, is_dict d -> encode E (ADict d) sp = (Ok (s, enc), d') ->
  sget k enc = Some e -> k <> u "t" -> k <> u "p" -> k <> u "1" ->
  sget k sp = Some fs -> fs_data_enc fs = Some de -> is_binary de -> in_nibbles fs = true ->
  value d k = Some (VStr h) ->
  encodes_length E fs (zlen h) (e_len e)
  /\ (Nat.even (length h) = true -> spells h (e_data e))
  /\ (Nat.odd (length h) = true -> exists w, pad_digits fs h w /\ spells w (e_data e)).
Proof. exact encode_nibbles. Qed.
Print Assumptions C17_encode_pads_odd_digits_only.
Theorem C17_decode_removes_exactly_the_pad :
  forall E sp s b dec enc k e fs de n, holds s b -> decode E s sp = Ok (dec, enc) ->
  sget k enc = Some e -> k <> u "t" -> k <> u "p" -> k <> u "1" ->
  sget k sp = Some fs -> fs_data_enc fs = Some de -> is_binary de -> in_nibbles fs = true ->
  announces E fs (e_len e) n ->
  exists t, sget k dec = Some t /\ zlen t = n
    /\ (Z.odd n = false -> t = HEX (e_data e)) /\ (Z.odd n = true -> padded fs (HEX (e_data e)) t).
Proof. exact decode_padded. Qed.
Print Assumptions C17_decode_removes_exactly_the_pad.
Theorem C17_odd_digits_without_pad_are_rejected :
  forall E sp d k fs de h, env_ok E -> spec_complete sp -> widths_ok sp -> limits_ok E sp -> str_dict d -> canonical_keys E d ->
  k = u "h" /\ header_on sp \/ (exists f, data_field f /\ k = zstr f) ->
  value d k = Some (VStr h) -> sget k sp = Some fs ->
  fs_data_enc fs = Some de -> is_binary de -> in_nibbles fs = true -> Nat.odd (length h) = true ->
  pad_char (fs_left_pad fs) = None -> pad_char (fs_right_pad fs) = None ->
  exists e d', encode E (ADict d) sp = (Raise (XEncodeError e), d').
Proof. exact encode_rejects_odd. Qed.
Print Assumptions C17_odd_digits_without_pad_are_rejected.
Example C17_example : exists enc d', encode cpython311 (ADict doc_pads) rich =
    (Ok (raw [2]%N ++ asc "HD" ++ asc "0200" ++ asc "4000000020000001" ++ raw [5; 1; 35; 69]%N ++ raw [3; 10; 188]%N
         ++ raw [18; 52; 86; 120; 144; 18; 52; 95]%N, enc), d')%list
  /\ is_dict doc_pads.
Proof. exact doc_pads_encodes. Qed.
Example C17_example_odd : spec_complete nopad /\ widths_ok nopad /\ limits_ok cpython311 nopad /\ str_dict doc_odd /\ canonical_keys cpython311 doc_odd
  /\ value doc_odd (zstr 2) = Some (VStr (u "123")) /\ sget (zstr 2) nopad = Some fs_nopad.
Proof. exact doc_odd_hyp. Qed.

(** C21 *)
Theorem C21_replacing_a_value_changes_only_its_segment :
  forall E sp d f v0 v fs l b s enc d', env_ok E -> is_dict d -> data_field f ->
  encode E (ADict d) sp = (Ok (s, enc), d') -> value d (zstr f) = Some v0 ->
  sget (zstr f) sp = Some fs -> field_encodes E fs v l b ->
  exists pre e post, enc = pre ++ (zstr f, e) :: post
    /\ s = wire_bytes pre ++ (e_len e ++ e_data e) ++ wire_bytes post
    /\ encodes_to E sp (dset key_eqb (KStr (zstr f)) v d)
         (wire_bytes pre ++ (l ++ b) ++ wire_bytes post) (pre ++ (zstr f, mkEntry l b) :: post).
Proof. exact encode_replace. Qed.
Print Assumptions C21_replacing_a_value_changes_only_its_segment.
Example C21_example : value doc_rich (zstr 2) = Some (VStr (u "12345")) /\ sget (zstr 2) rich = Some fs_2
  /\ field_encodes cpython311 fs_2 (VStr (u "6789")) (raw [4]%N) (raw [103; 137]%N).
Proof. exact doc_rich_replace. Qed.

(** C31 *)
Theorem C31_bitmap_keys_are_managed :
  forall E sp d s enc d', env_ok E -> is_dict d -> canonical_keys E d ->
  encode E (ADict d) sp = (Ok (s, enc), d') ->
  exists bm1 bm2 bm3, sent_bitmaps E sp enc bm1 bm2 bm3
    /\ value d' (u "p") = Some (VStr (HEX bm1)) /\ ~ has_key d' (u "65")
    /\ (has_key d' (u "1") <-> exists n, (66 <= n <= 192)%Z /\ has_key d (zstr n))
    /\ ((exists n, (66 <= n <= 192)%Z /\ has_key d (zstr n)) ->
        (forall n, (129 <= n <= 192)%Z -> ~ has_key d (zstr n)) ->
        value d' (u "1") = Some (VStr (HEX bm2)))
    /\ ((exists n, (129 <= n <= 192)%Z /\ has_key d (zstr n)) ->
        value d' (u "1") = Some (VStr (HEX bm2 ++ HEX bm3))).
Proof. exact encode_leaves_bitmaps. Qed.
Print Assumptions C31_bitmap_keys_are_managed.
Example C31_example : exists enc,
  encode cpython311 (ADict doc_rich) rich = (Ok (msg_rich, enc), doc_rich_after)
  /\ map fst enc = [u "h"; u "t"; u "p"; u "1"; u "2"; u "3"; u "66"; u "130"].
Proof. exact doc_rich_encodes. Qed.

(** C32. Any outcome but success is an exception ([encode] is total), and an
    EncodeError when the spec is complete (C08). *)
Theorem C32_encode_succeeds_exactly_on_encodable_messages :
  forall E sp d, env_ok E -> str_dict d -> canonical_keys E d -> bitmaps_sendable E sp ->
  header_on sp \/ header_off sp ->
  ((exists s enc d', encode E (ADict d) sp = (Ok (s, enc), d'))
   <-> type_encodable E sp d
       /\ (header_on sp -> encodable E sp d (u "h"))
       /\ (forall n, (0 <= n)%Z -> has_key d (zstr n) -> (1 <= n <= 192)%Z)
       /\ (forall n, data_field n -> has_key d (zstr n) -> encodable E sp d (zstr n))).
Proof. exact encode_success. Qed.
Print Assumptions C32_encode_succeeds_exactly_on_encodable_messages.
(** For every dict and spec: success is exactly the declarative encoding. *)
Theorem C32_encode_characterised :
  forall E sp d s enc d', is_dict d ->
  (encode E (ADict d) sp = (Ok (s, enc), d') <->
   exists bm1 bm2 bm3, encoding E sp d bm1 bm2 bm3 enc /\ s = wire_bytes enc
                       /\ d' = with_bitmaps d bm1 bm2 bm3).
Proof. exact encode_ok. Qed.
Print Assumptions C32_encode_characterised.
Example C32_example : str_dict doc_rich /\ canonical_keys cpython311 doc_rich
  /\ bitmaps_sendable cpython311 rich /\ header_on rich.
Proof. exact (conj doc_rich_str (conj doc_rich_canonical (conj rich_sendable rich_header_on))). Qed.

(** C34 *)
Theorem C34_encode_pads_left_when_both :
  forall E sp d s enc d' k e fs de h c, is_dict d -> encode E (ADict d) sp = (Ok (s, enc), d') ->
  sget k enc = Some e -> k <> u "t" -> k <> u "p" -> k <> u "1" ->
  sget k sp = Some fs -> fs_data_enc fs = Some de -> is_binary de -> in_nibbles fs = true ->
  value d k = Some (VStr h) -> Nat.odd (length h) = true -> pad_char (fs_left_pad fs) = Some c ->
  spells (c :: h) (e_data e).
Proof. exact encode_pads_left. Qed.
Print Assumptions C34_encode_pads_left_when_both.
Theorem C34_decode_removes_left_pad_first :
  forall E sp s b dec enc k e fs de n c t, holds s b -> decode E s sp = Ok (dec, enc) ->
  sget k enc = Some e -> k <> u "t" -> k <> u "p" -> k <> u "1" ->
  sget k sp = Some fs -> fs_data_enc fs = Some de -> is_binary de -> in_nibbles fs = true ->
  announces E fs (e_len e) n -> Z.odd n = true -> pad_char (fs_left_pad fs) = Some c ->
  HEX (e_data e) = c :: t -> sget k dec = Some t.
Proof. exact decode_strips_left. Qed.
Print Assumptions C34_decode_removes_left_pad_first.
Example C34_example : exists enc d', encode cpython311 (ADict doc_pads) rich =
    (Ok (raw [2]%N ++ asc "HD" ++ asc "0200" ++ asc "4000000020000001" ++ raw [5; 1; 35; 69]%N ++ raw [3; 10; 188]%N
         ++ raw [18; 52; 86; 120; 144; 18; 52; 95]%N, enc), d')%list
  /\ is_dict doc_pads.
Proof. exact doc_pads_encodes. Qed.

(** C35, encoder half *)
Theorem C35_header_encoded_iff_enabled :
  forall E sp d s enc d', is_dict d -> encode E (ADict d) sp = (Ok (s, enc), d') ->
  (In (u "h") (map fst enc) <-> header_on sp) /\ (header_on sp \/ header_off sp).
Proof. exact encode_header_present. Qed.
Print Assumptions C35_header_encoded_iff_enabled.
Theorem C35_disabled_header_is_ignored :
  forall E sp d v s enc, env_ok E -> is_dict d -> header_off sp ->
  (encodes_to E sp d s enc <-> encodes_to E sp (dset key_eqb (KStr (u "h")) v d) s enc).
Proof. exact encode_header_ignored. Qed.
Print Assumptions C35_disabled_header_is_ignored.
Theorem C35_missing_header_is_rejected :
  forall E sp d, header_on sp -> ~ has_key d (u "h") ->
  exists d', encode E (ADict d) sp =
    (Raise (XEncodeError (EncodeError (u "Field data is required according to specifications") d' [] (u "h"))), d').
Proof. exact encode_header_missing. Qed.
Print Assumptions C35_missing_header_is_rejected.
Example C35_example : header_on rich /\ header_off default.
Proof. exact (conj rich_header_on default_header_off). Qed.

(** C36 *)
Theorem C36_iteration_order_is_irrelevant :
  forall E k fs off b l l' st, Permutation l l' ->
  encode_bitmap E k fs off b l st = encode_bitmap E k fs off b l' st.
Proof. exact encode_bitmap_perm. Qed.
Print Assumptions C36_iteration_order_is_irrelevant.
Example C36_example : make_bitmap 0 [2; 3; 64]%Z = make_bitmap 0 [64; 2; 3]%Z
  /\ make_bitmap 0 [2; 3; 64]%Z = raw [96; 0; 0; 0; 0; 0; 0; 1]%N.
Proof. exact (conj eq_refl eq_refl). Qed.
