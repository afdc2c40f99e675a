(** * PropsTools: properties of spec rewriting, pp and the error classes.
    Statements only; proofs are elsewhere. *)
From Verif Require Import PyBase BaseFacts Types Decoder Encoder Tools Wire WireEncode Claims Claims2 Pretty CPython311 Specs Samples.
From Verif Require Import CodecFacts SampleFacts EncodeSamples DontCare PrettyFacts PrettyFacts2 PrettyExact SpecKeys PrettySamples.
Local Open Scope string_scope.

(** C22 *)
Theorem C22_decode_ignores_other_properties :
  forall E s sp sp', same_for sp sp' (u "h") ->
  (forall k, decode_mentions (decode E s sp) k -> same_for sp sp' k) ->
  decode E s sp' = decode E s sp.
Proof. exact decode_same. Qed.
Print Assumptions C22_decode_ignores_other_properties.
Theorem C22_encode_ignores_other_properties :
  forall E doc sp sp', same_for sp sp' (u "h") ->
  (forall k, encode_mentions (fst (encode E doc sp)) k -> same_for sp sp' k) ->
  encode E doc sp' = encode E doc sp.
Proof. exact encode_same. Qed.
Print Assumptions C22_encode_ignores_other_properties.
(** The same for a rewriting of the whole spec. *)
Theorem C22_rewritten_spec_decodes_alike :
  forall E s sp f, (forall k fs, same_entry k fs (f k fs)) -> decode E s (respec f sp) = decode E s sp.
Proof. exact respec_decode. Qed.
Print Assumptions C22_rewritten_spec_decodes_alike.
Theorem C22_rewritten_spec_encodes_alike :
  forall E doc sp f, (forall k fs, same_entry k fs (f k fs)) -> encode E doc (respec f sp) = encode E doc sp.
Proof. exact respec_encode. Qed.
Print Assumptions C22_rewritten_spec_encodes_alike.
(** And for the entry of a field that does not occur. *)
Theorem C22_absent_field_decodes_alike :
  forall E s sp k fs, k <> u "h" -> ~ decode_mentions (decode E s sp) k ->
  decode E s (sset k fs sp) = decode E s sp.
Proof. exact absent_decode. Qed.
Print Assumptions C22_absent_field_decodes_alike.
Theorem C22_absent_field_encodes_alike :
  forall E doc sp k fs, k <> u "h" -> ~ encode_mentions (fst (encode E doc sp)) k ->
  encode E doc (sset k fs sp) = encode E doc sp.
Proof. exact absent_encode. Qed.
Print Assumptions C22_absent_field_encodes_alike.
Example C22_example : (forall k fs, same_entry k fs (scrub k fs))
  /\ respec scrub rich <> rich /\ respec scrub default <> default.
Proof. exact (conj scrub_same scrub_changes). Qed.
Example C22_example_absent : u "4" <> u "h"
  /\ ~ decode_mentions (decode cpython311 (InBytes msg_rich) rich) (u "4")
  /\ exists r, decode cpython311 (InBytes msg_rich) rich = Ok r.
Proof. exact msg_rich_absent. Qed.

(** C26 *)
Theorem C26_pp_prints_the_shown_keys_in_order :
  forall E sp dw lw d out, env_ok E -> NoDup (map fst d) -> pp E d sp dw lw = (Ok tt, out) ->
  exists ks es, shown_keys E sp d ks /\ NoDup ks
    /\ Forall2 (entry_of E sp dw lw d) ks es /\ out = concat es.
Proof. exact pp_output_nodup. Qed.
Print Assumptions C26_pp_prints_the_shown_keys_in_order.
Theorem C26_pp_succeeds_exactly_when_ready :
  forall E sp dw lw d, NoDup (map fst d) ->
  ((exists out, pp E d sp dw lw = (Ok tt, out)) <-> pp_ready E sp dw d).
Proof. exact pp_succeeds. Qed.
Print Assumptions C26_pp_succeeds_exactly_when_ready.
Theorem C26_the_output_is_determined :
  forall E sp dw lw d out, NoDup (map fst d) -> (pp E d sp dw lw = (Ok tt, out)
  <-> exists ks es, shown_keys E sp d ks /\ Forall2 (entry_of E sp dw lw d) ks es /\ out = concat es).
Proof. exact pp_ok_iff. Qed.
Print Assumptions C26_the_output_is_determined.
Theorem C26_pp_raises_exactly_where_it_must_stop :
  forall E sp dw lw d x out, NoDup (map fst d) ->
  (pp E d sp dw lw = (Raise x, out) <-> pp_stops E sp dw lw d x out).
Proof. exact pp_raise_iff. Qed.
Print Assumptions C26_pp_raises_exactly_where_it_must_stop.
Example C26_example : env_ok cpython311 /\ NoDup (map fst pp_doc)
  /\ forall k v, In (KStr k, v) pp_doc -> (length k <= 3)%nat.
Proof. exact pp_doc_keys. Qed.
Example C26_example_output : pp cpython311 pp_doc rich 6 30 = (Ok tt, u (
  "h   Messag: 'HD'" ++ lf ++
  "t   Messag: '0200'" ++ lf ++
  "p   Bitmap: '4000000000000000'" ++ lf ++
  "2   sample: b'10' b""AB'CDEFGH""" ++ lf ++
  "                  b'I'" ++ lf ++
  "35  sample: b'Y'" ++ lf)).
Proof. exact pp_doc_printed. Qed.
Example C26_example_no_entry :
  pp cpython311 [(KStr (u "t"), PStr (u "0200")); (KStr (u "129"), PStr (u "x"))] default 6 30 =
  (Raise (XKeyError (u "129")), u ("t   Messag: '0200'" ++ lf ++ "129")).
Proof. exact pp_no_entry. Qed.
Example C26_example_no_number :
  pp cpython311 [(KStr (u "t"), PStr (u "0200")); (KStr [189%N], PStr (u "x"))] default 6 30 =
  (Raise XValueError, u ("t   Messag: '0200'" ++ lf)).
Proof. exact pp_no_number. Qed.
Example C26_example_odd_values : NoDup (map fst pp_odd)
  /\ pp cpython311 pp_odd default 6 20 = (Ok tt, u (
  "t   Messag: ['0200', '0210']" ++ lf ++
  "2   Primar: 'two' <object that is never folded>" ++ lf ++
  "3   Proces: b''" ++ lf ++
  "4   Amount: 'abc'" ++ lf)).
Proof. exact pp_odd_printed. Qed.
Example C26_example_bad_length :
  pp cpython311 [(KStr (u "t"), PStr (u "0200"));
                 (KStr (u "2"), PDict (Some (OOther None (u "2"))) (Some (OBytes (asc "X"))))] default 6 30 =
  (Raise (XTypeError (u "object has no len()")), u ("t   Messag: '0200'" ++ lf ++ "2   Primar: ")).
Proof. exact pp_bad_length. Qed.

(** C27 *)
Theorem C27_folding_bytes :
  forall obj w parts, cut_bytes w obj parts <-> parts = wrap_bytes obj w.
Proof. exact wrap_bytes_iff. Qed.
Print Assumptions C27_folding_bytes.
Example C27_example : wrap_bytes (asc "AB'CDEFGHI") 7 = [asc "AB'C"; asc "DEFG"; asc "HI"].
Proof. exact wrap_bytes_example. Qed.

(** C28 *)
Theorem C28_folding_str :
  forall obj w parts, cut_str w obj parts <-> parts = wrap_str obj w.
Proof. exact wrap_str_iff. Qed.
Print Assumptions C28_folding_str.
Example C28_example : wrap_str (u "AB'CDEFGHI") 6 = [u "AB'C"; u "DEFG"; u "HI"].
Proof. exact wrap_str_example. Qed.

(** C29 *)
Theorem C29_lines_fit :
  forall E sp dw lw d out, pp E d sp dw lw = (Ok tt, out) -> (0 <= lw)%Z ->
  (forall k v, In (KStr k, v) d -> (length k <= 3)%nat /\ room E dw lw v
     /\ forall l s, parts_of v l (OStr s) -> unescaped E s) ->
  lines_fit lw out.
Proof. exact pp_lines_fit. Qed.
Print Assumptions C29_lines_fit.
Example C29_example : (forall k v, In (KStr k, v) pp_narrow ->
    (length k <= 3)%nat /\ room cpython311 6 25 v /\ forall l s, parts_of v l (OStr s) -> unescaped cpython311 s)
  /\ pp cpython311 pp_narrow rich 6 25 = (Ok tt, u (
  "t   Messag: '0200'" ++ lf ++
  "2   sample: b'10' b""AB'C""" ++ lf ++
  "                  b'DEFG'" ++ lf ++
  "                  b'HI'" ++ lf)).
Proof. exact pp_narrow_fits. Qed.
(** Text that repr() escapes is cut too late. *)
Theorem C29_escapes_refuted :
  exists d out, (forall k v, In (KStr k, v) d -> (length k <= 3)%nat /\ room cpython311 6 20 v)
  /\ pp cpython311 d default 6 20 = (Ok tt, out) /\ ~ lines_fit 20 out.
Proof. exact escapes_overflow. Qed.
Print Assumptions C29_escapes_refuted.
(** A key of more than three characters is not accounted for. *)
Theorem C29_long_keys_refuted :
  exists d out,
  (forall k v, In (KStr k, v) d -> room cpython311 0 10 v /\ forall l s, parts_of v l (OStr s) -> unescaped cpython311 s)
  /\ pp cpython311 d default 0 10 = (Ok tt, out) /\ ~ lines_fit 10 out.
Proof. exact long_keys_overflow. Qed.
Print Assumptions C29_long_keys_refuted.

(** C30 *)
Theorem C30_decode_errors_survive_pickling :
  forall E s sp e, decode E s sp = Raise (XDecodeError e) ->
  let '(msg, s', doc_dec, doc_enc, pos, field) := DecodeError_reduce e in
  DecodeError msg s' doc_dec doc_enc pos field = e.
Proof. exact decode_pickle. Qed.
Print Assumptions C30_decode_errors_survive_pickling.
Theorem C30_encode_errors_survive_pickling :
  forall E doc sp e d', encode E doc sp = (Raise (XEncodeError e), d') ->
  let '(msg, doc_dec, doc_enc, field) := EncodeError_reduce e in
  EncodeError msg doc_dec doc_enc field = e.
Proof. exact encode_pickle. Qed.
Print Assumptions C30_encode_errors_survive_pickling.
(** Also errors the caller constructs. *)
Theorem C30_constructed_decode_errors_survive_pickling :
  forall msg s doc_dec doc_enc pos field,
  let '(msg', s', doc_dec', doc_enc', pos', field') :=
    DecodeError_reduce (DecodeError msg s doc_dec doc_enc pos field) in
  DecodeError msg' s' doc_dec' doc_enc' pos' field' = DecodeError msg s doc_dec doc_enc pos field.
Proof. exact made_decode_pickle. Qed.
Print Assumptions C30_constructed_decode_errors_survive_pickling.
Theorem C30_constructed_encode_errors_survive_pickling :
  forall msg doc_dec doc_enc field,
  let '(msg', doc_dec', doc_enc', field') := EncodeError_reduce (EncodeError msg doc_dec doc_enc field) in
  EncodeError msg' doc_dec' doc_enc' field' = EncodeError msg doc_dec doc_enc field.
Proof. exact made_encode_pickle. Qed.
Print Assumptions C30_constructed_encode_errors_survive_pickling.
Example C30_example : exists e, decode cpython311 (InBytes (asc "02")) default = Raise (XDecodeError e)
  /\ de_args0 e = u "Field data is 2 bytes, expecting 4: field t pos 0".
Proof. exact short_type. Qed.

(** C39 *)
Theorem C39_decode_uses_only_spec_keys :
  forall E sp s, match decode E s sp with
  | Ok (dec, enc) => Forall (specified sp) (map fst dec) /\ Forall (specified sp) (map fst enc)
  | Raise (XDecodeError e) =>
      Forall (specified sp) (map fst (de_doc_dec e)) /\ Forall (specified sp) (map fst (de_doc_enc e))
  | _ => True end.
Proof. exact decode_spec_keys. Qed.
Print Assumptions C39_decode_uses_only_spec_keys.
Theorem C39_encode_uses_only_spec_keys :
  forall E sp doc, match fst (encode E doc sp) with
  | Ok (_, enc) => Forall (specified sp) (map fst enc)
  | Raise (XEncodeError e) => Forall (specified sp) (map fst (ee_doc_enc e))
  | _ => True end.
Proof. exact encode_spec_keys. Qed.
Print Assumptions C39_encode_uses_only_spec_keys.
Theorem C39_pp_prints_decode_results :
  forall E sp s dw lw, spec_described E sp -> match decode E s sp with
  | Ok (dec, enc) => (exists out, pp E (show_dec dec) sp dw lw = (Ok tt, out))
                     /\ (exists out, pp E (show_enc enc) sp dw lw = (Ok tt, out))
  | Raise (XDecodeError e) => (exists out, pp E (show_dec (de_doc_dec e)) sp dw lw = (Ok tt, out))
                     /\ (exists out, pp E (show_enc (de_doc_enc e)) sp dw lw = (Ok tt, out))
  | _ => True end.
Proof. exact pp_after_decode. Qed.
Print Assumptions C39_pp_prints_decode_results.
Theorem C39_pp_prints_encode_results :
  forall E sp doc dw lw, spec_described E sp -> match fst (encode E doc sp) with
  | Ok (_, enc) => exists out, pp E (show_enc enc) sp dw lw = (Ok tt, out)
  | Raise (XEncodeError e) => exists out, pp E (show_enc (ee_doc_enc e)) sp dw lw = (Ok tt, out)
  | _ => True end.
Proof. exact pp_after_encode. Qed.
Print Assumptions C39_pp_prints_encode_results.
Theorem C39_pp_prints_the_encoded_dict :
  forall E sp d s enc d' dw lw, env_ok E -> spec_described E sp -> str_dict d -> canonical_keys E d ->
  encode E (ADict d) sp = (Ok (s, enc), d') ->
  forall reps, exists out, pp E (show_dict reps d') sp dw lw = (Ok tt, out).
Proof. exact pp_after_encode_dict. Qed.
Print Assumptions C39_pp_prints_the_encoded_dict.
Theorem C39_shipped_specs_are_described :
  forall E, env_ok E -> spec_described E default /\ spec_described E default_ascii.
Proof. exact shipped_described. Qed.
Print Assumptions C39_shipped_specs_are_described.
Example C39_example : env_ok cpython311 /\ spec_described cpython311 rich
  /\ str_dict doc_rich /\ canonical_keys cpython311 doc_rich.
Proof. exact (conj c311_env_ok (conj (rich_described _ c311_env_ok) (conj doc_rich_str doc_rich_canonical))). Qed.
(** A dict that encode accepts need not be printable when its keys are not canonical. *)
Theorem C39_noncanonical_key_refuted :
  exists d s enc d', str_dict d /\ spec_described cpython311 default
  /\ encode cpython311 (ADict d) default = (Ok (s, enc), d')
  /\ forall reps, fst (pp cpython311 (show_dict reps d') default 30 80) = Raise (XKeyError (u "02")).
Proof. exact noncanonical_unprintable. Qed.
Print Assumptions C39_noncanonical_key_refuted.
