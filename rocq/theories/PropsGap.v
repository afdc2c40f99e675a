(** * PropsGap: properties about incomplete specs.
    Statements only; proofs are elsewhere. *)
From Verif Require Import PyBase BaseFacts Types Decoder Wire DecodeFault DecodeGap CPython311 Specs Samples SampleFacts.
From Verif Require Import DecodeGapFacts GapSamples.
Local Open Scope string_scope.
Local Open Scope list_scope.

(** C48 *)
Theorem C48_key_errors_are_exactly_the_gaps : forall E sp s input nm,
  bitmaps_fit E sp -> holds s input ->
  (decode E s sp = Raise (XKeyError nm) <-> spec_gap E sp input nm).
Proof. exact decode_gap_iff. Qed.
Print Assumptions C48_key_errors_are_exactly_the_gaps.
Theorem C48_no_other_outcome : forall E sp s input, bitmaps_fit E sp -> holds s input ->
  (exists dec enc, decode E s sp = Ok (dec, enc)) \/ (exists e, decode E s sp = Raise (XDecodeError e))
  \/ decode E s sp = Raise XValueError \/ exists nm, decode E s sp = Raise (XKeyError nm).
Proof. exact decode_outcomes. Qed.
Print Assumptions C48_no_other_outcome.
Theorem C48_message_fault_or_gap : forall E sp input, bitmaps_fit E sp ->
  let msg := exists segs, message E sp segs /\ input = bytes_of segs in
  let fault := exists m pos segs last, decode_fault E sp input m pos segs last in
  let gap := exists nm, spec_gap E sp input nm in
  (msg \/ fault \/ gap) /\ ~ (msg /\ fault) /\ ~ (msg /\ gap) /\ ~ (fault /\ gap).
Proof. exact one_outcome. Qed.
Print Assumptions C48_message_fault_or_gap.
Theorem C48_shipped_specs_lack_fields_129_to_192_only : forall E s input nm sp,
  sp = default \/ sp = default_ascii -> bitmaps_fit E sp -> holds s input ->
  (decode E s sp = Raise (XKeyError nm)
   <-> exists f segs rest, (129 <= f <= 192)%Z /\ nm = zstr f /\ reaches E sp input segs (zstr f) rest).
Proof. exact shipped_key_errors. Qed.
Print Assumptions C48_shipped_specs_lack_fields_129_to_192_only.
Example C48_example :
  gap_case (entry_with (Some "ascii") (Some "ascii") None (Some 19%Z)) "041234" = Some (u "len_type")
  /\ gap_case (entry_with (Some "ascii") None (Some 2%Z) (Some 19%Z)) "041234" = Some (u "len_enc")
  /\ gap_case (entry_with (Some "ascii") None (Some 2%Z) (Some 19%Z)) "0" = None
  /\ gap_case (entry_with (Some "ascii") None (Some 0%Z) (Some 4%Z)) "1234" = None
  /\ gap_case (entry_with (Some "ascii") (Some "ascii") (Some 2%Z) None) "041234" = Some (u "max_len")
  /\ gap_case (entry_with (Some "ascii") (Some "ascii") (Some 2%Z) None) "0x1234" = None
  /\ gap_case (entry_with None (Some "ascii") (Some 2%Z) (Some 19%Z)) "041234" = Some (u "data_enc")
  /\ gap_case (entry_with None (Some "ascii") (Some 2%Z) (Some 19%Z)) "00" = None.
Proof. exact gap_cases. Qed.
Example C48_example_gap : forall fs data nm, gap_case fs data = Some nm ->
  spec_gap cpython311 (sset (u "2") fs default) (asc "0200" ++ raw [64; 0; 0; 0; 0; 0; 0; 0]%N ++ asc data) nm.
Proof. exact gap_case_gap. Qed.
Example C48_example_shipped : decode cpython311 (InBytes msg_130) default = Raise (XKeyError (u "130")).
Proof. exact default_130. Qed.
