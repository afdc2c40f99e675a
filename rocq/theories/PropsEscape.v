(** * PropsEscape: the properties about encode failing otherwise than by EncodeError.
    Statements only; proofs are elsewhere. *)
From Verif Require Import PyBase BaseFacts Types Encoder Wire WireEncode Claims CPython311 Specs Samples SampleFacts
  DecodeFault EncodeFault EncodeEscape EncodeEscapeWhole EncodeSamples GapSamples EscapeSamples.
Local Open Scope string_scope.
Local Open Scope list_scope.
Local Opaque data_fields.

(** C49 *)
Theorem C49_other_failures_are_exactly_the_escapes : forall E sp d x d', is_dict d ->
  (encode E (ADict d) sp = (Raise x, d') /\ (forall e, x <> XEncodeError e)
   <-> encode_escape E sp d x d').
Proof. exact encode_escape_iff. Qed.
Print Assumptions C49_other_failures_are_exactly_the_escapes.
Theorem C49_other_arguments_raise_TypeError : forall E cls sp, fst (encode E (AOther cls) sp) =
  Raise (XTypeError (u "Decoded ISO8583 data must be dict, not " ++ cls)).
Proof. exact encode_other. Qed.
Print Assumptions C49_other_arguments_raise_TypeError.
Theorem C49_message_fault_or_escape : forall E sp d, is_dict d ->
  let message := exists bm1 bm2 bm3 enc, encoding E sp d bm1 bm2 bm3 enc in
  let fault := exists msg k d' enc, encode_fault E sp d msg k d' enc in
  let escape := exists x d', encode_escape E sp d x d' in
  (message \/ fault \/ escape)
  /\ ~ (message /\ fault) /\ ~ (message /\ escape) /\ ~ (fault /\ escape).
Proof. exact encode_one_outcome. Qed.
Print Assumptions C49_message_fault_or_escape.
Theorem C49_shipped_specs_lack_fields_129_to_192_only : forall E sp d x,
  env_ok E -> sp = default \/ sp = default_ascii -> str_dict d -> canonical_keys E d ->
  ((exists d', encode E (ADict d) sp = (Raise x, d')) /\ (forall e, x <> XEncodeError e)
   <-> exists bm1 bm2 bm3 done f rest, (129 <= f <= 192)%Z /\ x = XKeyError (zstr f)
         /\ keys_ok E d /\ bitmaps_for E d bm1 bm2 bm3
         /\ plan sp bm1 bm2 bm3 = map fst done ++ zstr f :: rest
         /\ Forall (entry_sent E sp d bm1 bm2 bm3) done).
Proof. exact shipped_encode_escapes. Qed.
Print Assumptions C49_shipped_specs_lack_fields_129_to_192_only.
Example C49_example :
  let ks := map (fun s => KStr (u s)) in
  let with2 fs := sset (u "2") fs default in
  let d2 v := sdict [("t", "0200")] ++ [(KStr (u "2"), v)] in
  escape_case (sdict [("t", "0200"); ("130", "1")]) default = Some (XKeyError (u "130"), ks ["t"; "130"; "p"; "1"])
  /\ escape_case (sdict [("t", "0200"); ("1", "x")]) [] = Some (XKeyError (u "h"), ks ["t"])
  /\ escape_case (sdict [("t", "0200"); ("02", "12")]) default = Some (XKeyError (u "2"), ks ["t"; "02"; "p"])
  /\ escape_case (sdict [("t", "0200")] ++ [(KStr [189%N], VStr [])]) default = Some (XValueError, [KStr (u "t"); KStr [189%N]])
  /\ escape_case (sdict [("t", "020")] ++ [(KStr [189%N], VStr [])]) default = None
  /\ escape_case (d2 (VStr (u "1234"))) (with2 (entry_with (Some "ascii") (Some "ascii") None (Some 19%Z))) = Some (XKeyError (u "len_type"), ks ["t"; "2"; "p"])
  /\ escape_case (d2 (VStr (u "1234"))) (with2 (entry_with (Some "ascii") None (Some 2%Z) (Some 19%Z))) = Some (XKeyError (u "len_enc"), ks ["t"; "2"; "p"])
  /\ escape_case (d2 (VStr (u "1234"))) (with2 (entry_with (Some "ascii") None (Some 2%Z) (Some 3%Z))) = None
  /\ escape_case (d2 (VStr (u "1234"))) (with2 (entry_with (Some "ascii") None (Some 0%Z) (Some 4%Z))) = None
  /\ escape_case (d2 (VOther None)) (with2 nib_fld) = Some (XUnboundLocalError, ks ["t"; "2"; "p"])
  /\ escape_case (d2 (VBytes (asc "123"))) (with2 nib_fld) = Some (XUnboundLocalError, ks ["t"; "2"; "p"])
  /\ escape_case (d2 (VBytes (asc "1234"))) (with2 nib_fld) = None
  /\ escape_case (d2 (VOther None)) (with2 (fld "b" "b" 1 19 "hex")) = Some (XTypeError (u "object has no len()"), ks ["t"; "2"; "p"])
  /\ escape_case (d2 (VStr (u "1"))) (with2 (fld "ascii" "bcd" (-1) 19 "")) = Some (XValueError, ks ["t"; "2"; "p"])
  /\ escape_case (d2 (VOther None)) default = None.
Proof. exact escape_cases. Qed.
Example C49_example_escape : forall d sp x keys, is_dict d -> escape_case d sp = Some (x, keys) ->
  exists d', encode_escape cpython311 sp d x d' /\ map fst d' = keys.
Proof. exact escape_case_escape. Qed.
