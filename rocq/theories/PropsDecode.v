(** * PropsDecode: the properties of decode. Statements only; proofs are elsewhere. *)
From Verif Require Import PyBase BaseFacts Types Numerals Decoder Wire CPython311 Specs Samples.
From Verif Require Import DecodeTheorems SampleFacts.

(** C02. [bitmaps_fit] holds for every codec that does not decode bytes to more
    characters than bytes (see [C02_hypothesis]). *)
Theorem C02_decode_accepts_exactly_the_wire_language :
  forall E sp s b dec enc, bitmaps_fit E sp -> holds s b ->
  (decode E s sp = Ok (dec, enc) <->
   exists segs, message E sp segs /\ b = bytes_of segs /\ dec = dec_of segs /\ enc = enc_of segs).
Proof. exact decode_iff. Qed.
Print Assumptions C02_decode_accepts_exactly_the_wire_language.
Theorem C02_hypothesis : forall E sp, (forall enc, never_expands E enc) -> bitmaps_fit E sp.
Proof. exact fit_of_shrink. Qed.
Print Assumptions C02_hypothesis.
Theorem C02_hypothesis_holds_on_CPython : forall sp, bitmaps_fit cpython311 sp.
Proof. exact c311_fit. Qed.
Print Assumptions C02_hypothesis_holds_on_CPython.
Example C02_example : bitmaps_fit cpython311 rich /\ exists dec enc,
  decode cpython311 (InBytes msg_rich) rich = Ok (dec, enc)
  /\ map fst dec = [u "h"; u "t"; u "p"; u "1"; u "2"; u "3"; u "66"; u "130"]
  /\ sget (u "2") dec = Some (u "12345") /\ sget (u "130") dec = Some (u "abc").
Proof. exact (conj (c311_fit rich) rich_decodes). Qed.

(** C03 *)
Theorem C03_decode_accounts_for_every_byte :
  forall E sp s b dec enc, holds s b -> decode E s sp = Ok (dec, enc) ->
  wire_bytes enc = b /\ map fst dec = map fst enc /\ NoDup (map fst enc).
Proof. exact decode_accounts. Qed.
Print Assumptions C03_decode_accounts_for_every_byte.
Example C03_example : holds (InBytearray msg_rich) msg_rich.
Proof. exact (holds_bytearray msg_rich). Qed.

(** C06 *)
Theorem C06_decoded_keys_are_the_announced_ones :
  forall E sp s b dec enc, bitmaps_fit E sp -> holds s b -> decode E s sp = Ok (dec, enc) ->
  exists bm1 bm2 bm3 tp,
    sget (u "p") dec = Some tp /\ hex_spelling tp bm1
    /\ (sget (u "1") dec = None /\ bit bm1 1 = false /\ bm2 = [] /\ bm3 = []
        \/ exists t2 t3, sget (u "1") dec = Some (t2 ++ t3) /\ bit bm1 1 = true
             /\ hex_spelling t2 bm2 /\ hex_spelling t3 bm3 /\ (bit bm2 1 = false -> t3 = []))
    /\ (forall k, In k (map fst dec) <-> named sp bm1 bm2 bm3 k)
    /\ ~ In (u "65") (map fst dec).
Proof. exact decode_keys. Qed.
Print Assumptions C06_decoded_keys_are_the_announced_ones.
Example C06_example : exists dec enc, decode cpython311 (InBytes msg_rich) rich = Ok (dec, enc)
  /\ map fst dec = [u "h"; u "t"; u "p"; u "1"; u "2"; u "3"; u "66"; u "130"]
  /\ sget (u "2") dec = Some (u "12345") /\ sget (u "130") dec = Some (u "abc").
Proof. exact rich_decodes. Qed.

(** C07 *)
Theorem C07_decode_raises_only_DecodeError :
  forall E sp s b x, bitmaps_fit E sp -> spec_complete sp -> numbers_ok E sp -> holds s b ->
  decode E s sp = Raise x -> exists e, x = XDecodeError e.
Proof. exact decode_only_decode_error. Qed.
Print Assumptions C07_decode_raises_only_DecodeError.
(** For every spec, complete or not, the only other exceptions are KeyError, and
    ValueError where a number is too long to be shown. *)
Theorem C07_any_spec_exceptions :
  forall E sp s b x, holds s b -> decode E s sp = Raise x ->
  (exists e, x = XDecodeError e) \/ (exists k, x = XKeyError k) \/ (x = XValueError /\ ~ numbers_ok E sp).
Proof. exact decode_exceptions. Qed.
Print Assumptions C07_any_spec_exceptions.
(** The shipped specs are not complete: hostile bytes make decode raise KeyError. *)
Theorem C07_default_spec_refuted :
  exists b k, decode cpython311 (InBytes b) default = Raise (XKeyError k).
Proof. exact (ex_intro _ hostile (ex_intro _ (u "129") default_keyerror)). Qed.
Print Assumptions C07_default_spec_refuted.
Theorem C07_default_ascii_spec_refuted :
  exists b k, decode cpython311 (InBytes b) default_ascii = Raise (XKeyError k).
Proof. exact (ex_intro _ hostile_ascii (ex_intro _ (u "129") default_ascii_keyerror)). Qed.
Print Assumptions C07_default_ascii_spec_refuted.
Example C07_example : spec_complete rich /\ bitmaps_fit cpython311 rich /\ numbers_ok cpython311 rich.
Proof. exact (conj rich_complete (conj (c311_fit rich) rich_numbers)). Qed.

(** C09 *)
Theorem C09_extensions_are_rejected :
  forall E sp s b s' rest dec enc, bitmaps_fit E sp -> holds s b -> holds s' (b ++ rest) ->
  rest <> [] -> decode E s sp = Ok (dec, enc) ->
  decode E s' sp = Raise (XDecodeError (DecodeError (u "Extra data after last field") s' dec enc
                                          (zlen b) (last (map fst enc) []))).
Proof. exact decode_extension. Qed.
Print Assumptions C09_extensions_are_rejected.
Theorem C09_prefixes_are_rejected :
  forall E sp s b s' b' rest dec enc, bitmaps_fit E sp -> holds s b -> holds s' b' ->
  b = b' ++ rest -> rest <> [] -> decode E s sp = Ok (dec, enc) ->
  exists x, decode E s' sp = Raise x.
Proof. exact decode_prefix. Qed.
Print Assumptions C09_prefixes_are_rejected.
Example C09_example : exists e, decode cpython311 (InBytes (firstn 60 msg_rich)) rich = Raise (XDecodeError e)
  /\ de_field e = u "3" /\ de_pos e = 59%Z.
Proof. exact rich_fails. Qed.

(** C10 *)
Theorem C10_DecodeError_is_truthful :
  forall E sp s b e, holds s b -> decode E s sp = Raise (XDecodeError e) ->
  truthful_decode_error E sp s b e.
Proof. exact decode_error_truth. Qed.
Print Assumptions C10_DecodeError_is_truthful.
Example C10_example : exists e, decode cpython311 (InBytes (firstn 60 msg_rich)) rich = Raise (XDecodeError e)
  /\ de_field e = u "3" /\ de_pos e = 59%Z.
Proof. exact rich_fails. Qed.

(** C15, decoder half *)
Theorem C15_decoded_lengths_respect_the_spec :
  forall E sp s b dec enc k e, holds s b -> decode E s sp = Ok (dec, enc) -> sget k enc = Some e ->
  k <> u "t" -> k <> u "p" -> k <> u "1" ->
  exists fs n ml lt, sget k sp = Some fs /\ fs_max_len fs = Some ml /\ fs_len_type fs = Some (Z.of_nat lt)
    /\ length (e_len e) = lt /\ (if (lt =? 0)%nat then n = ml else n <= ml)%Z
    /\ occupies fs n (zlen (e_data e)) /\ announces E fs (e_len e) n.
Proof. exact decode_limits. Qed.
Print Assumptions C15_decoded_lengths_respect_the_spec.
Example C15_example : exists dec enc, decode cpython311 (InBytes msg_rich) rich = Ok (dec, enc)
  /\ map fst dec = [u "h"; u "t"; u "p"; u "1"; u "2"; u "3"; u "66"; u "130"]
  /\ sget (u "2") dec = Some (u "12345") /\ sget (u "130") dec = Some (u "abc").
Proof. exact rich_decodes. Qed.

(** C23 *)
Theorem C23_bytes_and_bytearray_decode_alike : forall E sp b,
  match decode E (InBytes b) sp, decode E (InBytearray b) sp with
  | Ok r, Ok r' => r = r'
  | Raise (XDecodeError e), Raise (XDecodeError e') =>
      de_msg e = de_msg e' /\ de_args0 e = de_args0 e' /\ de_pos e = de_pos e'
      /\ de_field e = de_field e' /\ de_doc_dec e = de_doc_dec e' /\ de_doc_enc e = de_doc_enc e'
      /\ de_s e = InBytes b /\ de_s e' = InBytearray b
  | Raise x, Raise x' => x = x'
  | _, _ => False
  end.
Proof. exact decode_bytes_bytearray. Qed.
Print Assumptions C23_bytes_and_bytearray_decode_alike.
Theorem C23_other_inputs_raise_TypeError : forall E cls sp, decode E (InOther cls) sp =
  Raise (XTypeError (u "Encoded ISO8583 data must be bytes or bytearray, not " ++ cls)).
Proof. exact decode_other. Qed.
Print Assumptions C23_other_inputs_raise_TypeError.

(** C33 *)
Theorem C33_bitmap_letter_case_is_irrelevant :
  forall E sp s b s' dec enc enc', bitmaps_fit E sp -> holds s b -> decode E s sp = Ok (dec, enc) ->
  Forall2 (recased_entry E sp) enc enc' -> holds s' (wire_bytes enc') ->
  exists dec', decode E s' sp = Ok (dec', enc')
    /\ forall k, k <> u "p" -> k <> u "1" -> sget k dec' = sget k dec.
Proof. exact decode_recased. Qed.
Print Assumptions C33_bitmap_letter_case_is_irrelevant.
Example C33_example : exists dec dec' enc enc',
  decode cpython311 (InBytes msg_rich) rich = Ok (dec, enc)
  /\ Forall2 (recased_entry cpython311 rich) enc enc'
  /\ wire_bytes enc' = msg_rich_lower /\ enc <> enc'
  /\ decode cpython311 (InBytes msg_rich_lower) rich = Ok (dec', enc')
  /\ sget (u "2") dec' = Some (u "12345").
Proof. exact rich_lower_decodes. Qed.

(** C35, decoder half *)
Theorem C35_header_decoded_iff_enabled :
  forall E sp s b dec enc, holds s b -> bitmaps_fit E sp -> decode E s sp = Ok (dec, enc) ->
  forall fs ml, sget (u "h") sp = Some fs -> fs_max_len fs = Some ml ->
  (In (u "h") (map fst enc) <-> (0 < ml)%Z).
Proof. exact decode_header_iff. Qed.
Print Assumptions C35_header_decoded_iff_enabled.

(** C37 *)
Theorem C37_binary_values_decode_to_canonical_hex :
  forall E sp s b dec enc k e fs de t, holds s b -> decode E s sp = Ok (dec, enc) ->
  sget k enc = Some e -> sget k dec = Some t -> sget k sp = Some fs ->
  fs_data_enc fs = Some de -> is_binary de ->
  t = HEX (e_data e)
  \/ in_nibbles fs = true /\ length t = (2 * length (e_data e) - 1)%nat
     /\ exists c, HEX (e_data e) = c :: t \/ HEX (e_data e) = t ++ [c].
Proof. exact decode_binary_hex. Qed.
Print Assumptions C37_binary_values_decode_to_canonical_hex.
Example C37_example : exists dec enc, decode cpython311 (InBytes msg_rich) rich = Ok (dec, enc)
  /\ map fst dec = [u "h"; u "t"; u "p"; u "1"; u "2"; u "3"; u "66"; u "130"]
  /\ sget (u "2") dec = Some (u "12345") /\ sget (u "130") dec = Some (u "abc").
Proof. exact rich_decodes. Qed.
