(** * PropsSession: properties of sequences of calls, the library run from its text.
    Statements only; proofs are elsewhere. *)
From Verif Require Import PyBase BaseFacts Types Decoder Encoder CPython311 Specs Samples Wire WireEncode Claims Claims2 Shipped PyAst Source SourceSpecs PySem SemClaims SessionClaims.
From Verif Require Import CodecFacts SampleFacts EncodeSamples RoundtripSamples SourceSessions SourceSamples SourceShipped SourceErrors SessionSamples.
Local Open Scope string_scope.
Local Open Scope list_scope.

(** C63 *)
Theorem C63_round_trip_of_the_text : forall E order, machine E order -> forall spv sp,
  forall r1 r2 h a d sv ev h1 o h2, spec_rep h spv sp -> spec_apart h spv (RefV a) -> reversible_spec E sp -> text_dict h a d ->
  call_encode E order r1 [RefV a; spv] h = (Done (TupleV [sv; ev]), h1) -> possible h1 sv ->
  call_decode E order r2 [sv; spv] h1 = (o, h2) ->
  exists e b c, ev = RefV e /\ o = Done (TupleV [RefV b; RefV c]) /\ same_entries h2 e c /\ ~ In a [e; b; c] /\
    (forall k v, item h2 b k = Some v <->
       wire_key sp k /\ exists fs t, sget k sp = Some fs /\ item h2 a k = Some (StrV t) /\ v = StrV (normal fs t)) /\
    (forall k, k <> u "p" -> k <> u "1" -> k <> u "65" -> item h2 a k = item h a k).
Proof. exact session_round_trip. Qed.
Print Assumptions C63_round_trip_of_the_text.
Theorem C63_encoding_twice : forall E order, machine E order -> forall spv sp,
  forall r1 r2 h a d sv ev h1 o h2, spec_rep h spv sp -> spec_apart h spv (RefV a) -> text_dict h a d ->
  call_encode E order r1 [RefV a; spv] h = (Done (TupleV [sv; ev]), h1) ->
  call_encode E order r2 [RefV a; spv] h1 = (o, h2) ->
  exists s e s' e', sv = RefV s /\ ev = RefV e /\ o = Done (TupleV [RefV s'; RefV e']) /\ s <> s' /\
    same_bytes h2 s s' /\ same_entries h2 e e' /\ hget h2 a = hget h1 a.
Proof. exact session_encode_twice. Qed.
Print Assumptions C63_encoding_twice.
Theorem C63_encoding_what_was_decoded : forall E order, machine E order -> forall spv sp,
  forall r1 r2 h sv s b a e h1 dec enc inner o h2, spec_rep h spv sp -> bitmaps_fit E sp -> faithful_spec E sp ->
  input_rep h sv s -> holds s b -> (zlen b < 2 ^ 63)%Z ->
  call_decode E order r1 [sv; spv] h = (Done (TupleV [RefV a; RefV e]), h1) ->
  dec_dict h1 a dec -> enc_dict h1 e inner enc -> canonical_message E sp dec enc -> possible h1 (RefV a) ->
  call_encode E order r2 [RefV a; spv] h1 = (o, h2) ->
  exists s' e', o = Done (TupleV [RefV s'; RefV e']) /\ hget h2 s' = Some (BytearrayO b) /\ same_entries h2 e e'.
Proof. exact session_send_on. Qed.
Print Assumptions C63_encoding_what_was_decoded.
Theorem C63_decode_raises_only_DecodeError : forall E order, machine E order -> forall spv sp,
  forall r h sv s b o h', spec_rep h spv sp -> bitmaps_fit E sp -> spec_complete sp -> numbers_ok E sp ->
  input_rep h sv s -> holds s b -> (zlen b < 2 ^ 63)%Z -> call_decode E order r [sv; spv] h = (o, h') ->
  (exists a e, o = Done (TupleV [RefV a; RefV e])) \/ raises "DecodeError" o h'.
Proof. exact session_decode_errors. Qed.
Print Assumptions C63_decode_raises_only_DecodeError.
Theorem C63_encode_raises_only_EncodeError : forall E order, machine E order -> forall spv sp,
  forall r h a d o h', spec_rep h spv sp -> spec_apart h spv (RefV a) -> spec_complete sp -> widths_ok sp -> limits_ok E sp ->
  text_dict h a d -> canonical_keys E (as_dict d) -> call_encode E order r [RefV a; spv] h = (o, h') ->
  (exists s e, o = Done (TupleV [RefV s; RefV e])) \/ raises "EncodeError" o h'.
Proof. exact session_encode_errors. Qed.
Print Assumptions C63_encode_raises_only_EncodeError.
Theorem C63_printing_what_was_decoded : forall E order, machine E order -> forall spv sp,
  forall r1 r2 h sv s b a e h1 w t dv dw lv lw v o h2, spec_rep h spv sp -> spec_described E sp ->
  input_rep h sv s -> holds s b -> (zlen b < 2 ^ 63)%Z -> hget h w = Some (StreamO t) ->
  call_decode E order r1 [sv; spv] h = (Done (TupleV [RefV a; RefV e]), h1) ->
  width_rep E dv dw -> width_rep E lv lw -> v = a \/ v = e ->
  call_pp E order r2 [RefV v; spv; dv; RefV w; lv] h1 = (o, h2) ->
  o = Done NoneV /\ (exists out, hget h2 w = Some (StreamO (t ++ out))) /\ forall l, l < length h1 -> l <> w -> hget h2 l = hget h1 l.
Proof. exact session_decode_print. Qed.
Print Assumptions C63_printing_what_was_decoded.
Theorem C63_machine_exists : forall order, any_order order -> machine cpython311 order.
Proof. exact c311_session. Qed.
Print Assumptions C63_machine_exists.
Theorem C63_heaps_exist : forall sp, let h := spec_dicts heap0 sp in
  text_dict h 1 doc0 /\ spec_rep h (RefV (2 + length sp)) sp /\ spec_apart h (RefV (2 + length sp)) (RefV 1).
Proof. exact heap0_spec. Qed.
Print Assumptions C63_heaps_exist.
Example C63_hypotheses : reversible_spec cpython311 rich /\ faithful_spec cpython311 rich
  /\ bitmaps_fit cpython311 rich /\ spec_complete rich /\ numbers_ok cpython311 rich.
Proof. exact (conj rich_reversible (conj rich_faithful (conj (c311_fit rich) (conj rich_complete rich_numbers)))). Qed.
Example C63_sample :
  let (o, h) := session (@rev Z) default in
  exists s d s2, o = Done (TupleV [RefV s; RefV d; RefV s2]) /\
    hget h s = hget h s2 /\ s <> s2 /\
    hget h 1 = Some (text_items [("t", "0200"); ("52", "abcdef0123456789"); ("2", "1234"); ("p", "4000000000001000")]) /\
    hget h d = Some (text_items [("t", "0200"); ("p", "4000000000001000"); ("2", "1234"); ("52", "ABCDEF0123456789")]) /\
    hget h 0 = Some (StreamO (u ("t  : '0200'" ++ lf ++ "p  : '4000000000001000'" ++ lf ++ "2  : '1234'" ++ lf ++ "52 : 'ABCDEF0123456789'" ++ lf))).
Proof. exact session_runs. Qed.

(** C64 *)
Theorem C64_specs_as_written : forall E order r h, exists l m h',
  run_module E order r specs_py h = (Next, [("default", RefV l); ("default_ascii", RefV m)], h') /\ untouched h h' /\
  spec_rep h' (RefV l) default /\ spec_rep h' (RefV m) default_ascii /\
  own_entries h' (RefV l) /\ own_entries h' (RefV m) /\
  (forall x, part_of h' (RefV l) x -> part_of h' (RefV m) x -> False) /\
  forall x, part_of h' (RefV l) x \/ part_of h' (RefV m) x -> exists a, x = RefV a /\ length h <= a.
Proof. exact specs_as_written. Qed.
Print Assumptions C64_specs_as_written.
Theorem C64_round_trip_with_the_shipped_specs : forall E order, machine E order -> has_ascii E ->
  forall r h rm h0, run_module E order r specs_py h = (Next, rm, h0) ->
  forall name sp spv, shipped name sp -> lookup name rm = Some spv ->
  forall r1 r2 a d sv ev h1 o h2, text_dict h a d ->
  call_encode E order r1 [RefV a; spv] h0 = (Done (TupleV [sv; ev]), h1) -> possible h1 sv ->
  call_decode E order r2 [sv; spv] h1 = (o, h2) ->
  exists e b c, ev = RefV e /\ o = Done (TupleV [RefV b; RefV c]) /\ same_entries h2 e c /\ ~ In a [e; b; c] /\
    (forall k v, item h2 b k = Some v <->
       wire_key sp k /\ exists fs t, sget k sp = Some fs /\ item h2 a k = Some (StrV t) /\ v = StrV (normal fs t)) /\
    (forall k, k <> u "p" -> k <> u "1" -> k <> u "65" -> item h2 a k = item h a k).
Proof. exact shipped_session_round_trip. Qed.
Print Assumptions C64_round_trip_with_the_shipped_specs.
Example C64_hypotheses : machine cpython311 (@rev Z) /\ has_ascii cpython311.
Proof. exact (conj (c311_session _ (fun l => Permutation.Permutation_sym (Permutation.Permutation_rev l))) c311_ascii). Qed.
Example C64_sample :
  let (o, h) := shipped_session (@rev Z) "default_ascii" in
  exists s d, o = Done (TupleV [RefV s; RefV d]) /\
    hget h s = Some (BytearrayO (asc "02004000000000001000041234abcdef0123456789")) /\
    hget h d = Some (text_items [("t", "0200"); ("p", "4000000000001000"); ("2", "1234"); ("52", "abcdef0123456789")]).
Proof. exact shipped_session_runs. Qed.

(** C65 *)
Theorem C65_decode_errors_of_the_text : forall E order, machine E order -> forall r h spv sp sv s b l h1,
  spec_rep h spv sp -> input_rep h sv s -> holds s b -> (zlen b < 2 ^ 63)%Z ->
  call_decode E order r [sv; spv] h = (Thrown (RefV l), h1) ->
  exists er a e inner, truthful_decode_error E sp s b er /\
    hget h1 l = Some (decode_error_at (de_msg er) sv (RefV a) (RefV e) (de_pos er) (de_field er)) /\
    dec_dict h1 a (de_doc_dec er) /\ enc_dict h1 e inner (de_doc_enc er) /\ fresh h (l :: a :: e :: inner) /\ untouched h h1 /\
    forall r2 r3 h2 sv' dv ev,
      reduce_decode_error E order r2 (RefV l) h1 =
        (Done (TupleV [TypeV "DecodeError"; TupleV [StrV (de_msg er); sv; RefV a; RefV e; IntV (de_pos er); StrV (de_field er)]]), h1) /\
      new_decode_error E order r3 [StrV (de_msg er); sv'; dv; ev; IntV (de_pos er); StrV (de_field er)] h2 =
        (Done (RefV (length h2)), h2 ++ [decode_error_at (de_msg er) sv' dv ev (de_pos er) (de_field er)]).
Proof. exact session_decode_error. Qed.
Print Assumptions C65_decode_errors_of_the_text.
Theorem C65_encode_errors_of_the_text : forall E order, machine E order -> forall r h spv sp a d l h1,
  spec_rep h spv sp -> spec_apart h spv (RefV a) ->
  dict_rep h (RefV a) (ADict d) -> in_memory (ADict d) -> is_dict d ->
  call_encode E order r [RefV a; spv] h = (Thrown (RefV l), h1) ->
  exists er e inner d', truthful_encode_error E sp d er d' /\
    hget h1 l = Some (encode_error_at (ee_msg er) (RefV a) (RefV e) (ee_field er)) /\
    dict_left h (RefV a) d' h1 /\ enc_dict h1 e inner (ee_doc_enc er) /\ fresh h (l :: e :: inner) /\
    forall r2 r3 h2 dv ev,
      reduce_encode_error E order r2 (RefV l) h1 =
        (Done (TupleV [TypeV "EncodeError"; TupleV [StrV (ee_msg er); RefV a; RefV e; StrV (ee_field er)]]), h1) /\
      new_encode_error E order r3 [StrV (ee_msg er); dv; ev; StrV (ee_field er)] h2 =
        (Done (RefV (length h2)), h2 ++ [encode_error_at (ee_msg er) dv ev (ee_field er)]).
Proof. exact session_encode_error. Qed.
Print Assumptions C65_encode_errors_of_the_text.
Theorem C65_making_DecodeErrors : forall E order, machine E order -> forall r h msg sv dv ev pos field,
  (0 <= pos < 2 ^ 70)%Z ->
  new_decode_error E order r [StrV msg; sv; dv; ev; IntV pos; StrV field] h =
    (Done (RefV (length h)), h ++ [decode_error_at msg sv dv ev pos field]).
Proof. exact decode_error_made. Qed.
Print Assumptions C65_making_DecodeErrors.
Theorem C65_making_EncodeErrors : forall E order, forall r h msg dv ev field,
  new_encode_error E order r [StrV msg; dv; ev; StrV field] h = (Done (RefV (length h)), h ++ [encode_error_at msg dv ev field]).
Proof. exact encode_error_made. Qed.
Print Assumptions C65_making_EncodeErrors.
Theorem C65_reduce_of_DecodeErrors : forall E order, forall r h l msg sv dv ev pos field,
  hget h l = Some (decode_error_at msg sv dv ev pos field) ->
  reduce_decode_error E order r (RefV l) h = (Done (TupleV [TypeV "DecodeError"; TupleV [StrV msg; sv; dv; ev; IntV pos; StrV field]]), h).
Proof. exact decode_error_taken. Qed.
Print Assumptions C65_reduce_of_DecodeErrors.
Theorem C65_reduce_of_EncodeErrors : forall E order, forall r h l msg dv ev field,
  hget h l = Some (encode_error_at msg dv ev field) ->
  reduce_encode_error E order r (RefV l) h = (Done (TupleV [TypeV "EncodeError"; TupleV [StrV msg; dv; ev; StrV field]]), h).
Proof. exact encode_error_taken. Qed.
Print Assumptions C65_reduce_of_EncodeErrors.
Example C65_sample :
  let (o, h) := error_session (@rev Z) in
  exists l l' d e, o = Done (TupleV [RefV l; RefV l']) /\ l <> l' /\ hget h l' = hget h l /\
    hget h l = Some (decode_error_at (u "Field data is 2 bytes, expecting 8") (BytesV (asc "020040")) (RefV d) (RefV e) 4 (u "p")).
Proof. exact error_session_runs. Qed.
