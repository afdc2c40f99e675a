(** * PropsEncodeFaults: the properties about dicts that cannot be sent.
    Nothing but theorems here; the proofs are in EncodeFaultWhole.v. *)
From Verif Require Import PyBase BaseFacts Types Encoder Wire WireEncode Claims CPython311 Specs Samples SampleFacts
  DecodeFault EncodeFault EncodeSamples EncodeFaultFacts EncodeFaultWhole EncodeFaultSamples.
Local Open Scope string_scope.
Local Open Scope list_scope.
Local Opaque data_fields.

(** C43 *)
Theorem C43_encode_errors_are_exactly_the_faults : forall E sp d e d', is_dict d ->
  (encode E (ADict d) sp = (Raise (XEncodeError e), d')
   <-> exists msg k enc, encode_fault E sp d msg k d' enc /\ e = EncodeError msg d' enc k).
Proof. exact encode_fault_iff. Qed.
Print Assumptions C43_encode_errors_are_exactly_the_faults.
Theorem C43_the_fault_is_unique : forall E sp d msg k d' enc msg2 k2 d2 enc2, is_dict d ->
  encode_fault E sp d msg k d' enc -> encode_fault E sp d msg2 k2 d2 enc2 ->
  msg = msg2 /\ k = k2 /\ d' = d2 /\ enc = enc2.
Proof. exact encode_fault_unique. Qed.
Print Assumptions C43_the_fault_is_unique.
Theorem C43_message_or_fault : forall E sp d,
  env_ok E -> spec_complete sp -> widths_ok sp -> limits_ok E sp -> str_dict d -> canonical_keys E d ->
  (exists bm1 bm2 bm3 enc, encoding E sp d bm1 bm2 bm3 enc)
  \/ exists msg k d' enc, encode_fault E sp d msg k d' enc.
Proof. exact encode_total. Qed.
Print Assumptions C43_message_or_fault.
Theorem C43_never_both : forall E sp d bm1 bm2 bm3 enc msg k d' enc', is_dict d ->
  encoding E sp d bm1 bm2 bm3 enc -> encode_fault E sp d msg k d' enc' -> False.
Proof. exact encode_not_both. Qed.
Print Assumptions C43_never_both.
Example C43_example :
  refusal (sdict [("t", "0200")]) rich
    = Some (u "Field data is required according to specifications", u "h", [])
  /\ refusal (sdict [("h", "12345678901"); ("t", "0200")]) rich
    = Some (u "Field data is 11 bytes, larger than maximum 10", u "h", [u "h"])
  /\ refusal (sdict [("h", "")]) rich = Some (u "Field data is required", u "t", [u "h"])
  /\ refusal (sdict [("t", "200")]) default = Some (u "Field data is 3 bytes, expecting 4", u "t", [u "t"])
  /\ refusal (sdict [("t", "0200"); ("193", ""); ("0", ""); ("200", "")]) default
    = Some (u "Dictionary contains fields outside of 1-192 range [0, 193, 200]", u "p", [u "t"])
  /\ refusal (sdict [("t", "0200")] ++ [(KOther 0 (u "2"), VStr (u "1"))]) default
    = Some (u "Dictionary contains invalid fields [2]", u "p", [u "t"])
  /\ refusal (sdict [("t", "0200"); ("70", "")]) bad_bitmap
    = Some (u "Failed to encode field, unknown encoding specified", u "1", [u "t"; u "p"; u "1"])
  /\ refusal (sdict [("t", "0200"); ("2", "123")]) (full odd_head)
    = Some (u "Failed to encode field, odd-length nibble data, specify pad", u "2", [u "t"; u "p"; u "2"])
  /\ refusal (sdict [("t", "0200"); ("2", "12"); ("3", "1")]) (full odd_head)
    = Some (u "Failed to encode field, unknown encoding specified", u "3", [u "t"; u "p"; u "2"; u "3"])
  /\ refusal (sdict [("t", "0200"); ("5", "1234567890")]) (full odd_head) = Some (too_wide, u "5", [u "t"; u "p"; u "5"])
  /\ refusal (sdict [("t", "0200"); ("4", "1")]) (full odd_head)
    = Some (u "Failed to encode field length, unknown encoding specified", u "4", [u "t"; u "p"; u "4"])
  /\ refusal (sdict [("t", "0200"); ("6", "1")]) (full odd_head)
    = Some (u "Failed to encode field, non-hex data", u "6", [u "t"; u "p"; u "6"])
  /\ refusal (sdict [("t", "0200"); ("2", "1g")]) (full odd_head)
    = Some (u "Failed to encode field, non-hex data", u "2", [u "t"; u "p"; u "2"])
  /\ refusal (sdict [("t", "0200"); ("2", "1")]) (sset (u "2") (fld "ascii" "ascii" (-1) 19 "") default)
    = Some (u "Failed to encode field length, Invalid format specifier '0-1d' for object of type 'int'", u "2", [u "t"; u "p"; u "2"])
  /\ refusal (sdict [("t", "0200"); ("3", "1")]) default
    = Some (u "Field data is 1 bytes, expecting 6", u "3", [u "t"; u "p"; u "3"])
  /\ refusal (sdict [("t", "0200")] ++ [(KStr (u "3"), VOther None)]) default
    = Some (u "Failed to encode field, invalid data", u "3", [u "t"; u "p"; u "3"]).
Proof. exact refusals. Qed.
Example C43_example_fault : forall d sp msg k keys, is_dict d -> refusal d sp = Some (msg, k, keys) ->
  exists d' enc, encode_fault cpython311 sp d msg k d' enc /\ map fst enc = keys.
Proof. exact refusal_fault. Qed.
