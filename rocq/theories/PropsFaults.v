(** * PropsFaults: the properties about unreadable, cut and concatenated messages.
    Nothing but theorems here; the proofs are in DecodeFaultFacts.v and DecodeCut.v. *)
From Verif Require Import PyBase BaseFacts Types Decoder Wire CPython311 Specs Samples SampleFacts DecodeFault Claims3
  DecodeFaultFacts DecodeCut FaultSamples ShownSamples.
Local Open Scope string_scope.
Local Open Scope list_scope.
Local Opaque data_fields.

(** C40 *)
Theorem C40_decode_errors_are_exactly_the_faults : forall E sp s input e,
  bitmaps_fit E sp -> holds s input ->
  (decode E s sp = Raise (XDecodeError e)
   <-> exists msg pos segs last, decode_fault E sp input msg pos segs last
                                 /\ presentable E msg /\ reports s msg pos segs last e).
Proof. exact decode_fault_iff. Qed.
Print Assumptions C40_decode_errors_are_exactly_the_faults.
Theorem C40_value_errors_are_exactly_the_faults_that_cannot_be_shown : forall E sp s input,
  bitmaps_fit E sp -> holds s input ->
  (decode E s sp = Raise XValueError
   <-> exists msg pos segs last, decode_fault E sp input msg pos segs last /\ ~ presentable E msg).
Proof. exact decode_value_error_iff. Qed.
Print Assumptions C40_value_errors_are_exactly_the_faults_that_cannot_be_shown.
Theorem C40_every_fault_can_be_shown : forall E sp input msg pos segs last,
  numbers_ok E sp -> decode_fault E sp input msg pos segs last -> presentable E msg.
Proof. exact decode_fault_presentable. Qed.
Print Assumptions C40_every_fault_can_be_shown.
Theorem C40_the_fault_is_unique : forall E sp input msg pos segs last msg' pos' segs' last',
  bitmaps_fit E sp -> decode_fault E sp input msg pos segs last -> presentable E msg ->
  decode_fault E sp input msg' pos' segs' last' ->
  presentable E msg' /\ text_of msg = text_of msg' /\ pos = pos' /\ segs = segs' /\ last = last'.
Proof. exact decode_fault_unique. Qed.
Print Assumptions C40_the_fault_is_unique.
Theorem C40_message_or_fault : forall E sp input, bitmaps_fit E sp -> spec_complete sp ->
  (exists segs, message E sp segs /\ input = bytes_of segs)
  \/ exists msg pos segs last, decode_fault E sp input msg pos segs last.
Proof. exact decode_total. Qed.
Print Assumptions C40_message_or_fault.
Example C40_example :
  fault_case (raw [11]%N) rich = Some (u "Field data is 11 bytes, larger than maximum 10", u "h", 0%Z)
  /\ fault_case (raw [1]%N ++ asc "H02") rich = Some (u "Field data is 2 bytes, expecting 4", u "t", 2%Z)
  /\ fault_case (asc "0200" ++ raw [64]%N) default = Some (u "Field data is 1 bytes, expecting 8", u "p", 4%Z)
  /\ fault_case (raw [0]%N ++ asc "0200G000000000000000") rich = Some (u "Failed to decode field, non-hex data", u "p", 5%Z)
  /\ fault_case (asc "0200" ++ raw [64; 0; 0; 0; 0; 0; 0; 0]%N ++ asc "0x") default
     = Some (u "Failed to decode field length, non-numeric data", u "2", 12%Z)
  /\ fault_case (asc "0200" ++ raw [64; 0; 0; 0; 0; 0; 0; 0]%N ++ asc "041") default
     = Some (u "Field data is 1 bytes, expecting 4", u "2", 14%Z)
  /\ fault_case (asc "0200" ++ raw [64; 0; 0; 0; 0; 0; 0; 0]%N ++ asc "-91") default
     = Some (u "Field data is 0 bytes, expecting -9", u "2", 14%Z)
  /\ fault_case (asc "0200" ++ raw [64; 0; 0; 0; 0; 0; 0; 0]%N ++ asc "041234") (sset (u "2") (fld "ascii" "ascii" (-13) 19 "") default)
     = Some (u "Field length is 5 bytes wide, expecting -13", u "2", 12%Z)
  /\ fault_case (firstn 42 msg_rich) rich = Some (u "Field data is 19 bytes, expecting 32", u "1", 39%Z)
  /\ fault_case (firstn 56 msg_rich ++ raw [17; 35; 69]%N) rich = Some (u "Field data is 6 nibbles, expecting 5", u "2", 56%Z)
  /\ fault_case (msg_rich ++ asc "!") rich = Some (u "Extra data after last field", u "130", 72%Z).
Proof. exact fault_cases. Qed.
Example C40_example_fault : forall input sp msg k pos, fault_case input sp = Some (msg, k, pos) ->
  exists m segs last, decode_fault cpython311 sp input m pos segs last /\ text_of m = msg /\ sg_key last = k.
Proof. exact fault_case_fault. Qed.
Example C40_example_unshown : env_ok strict311 /\ spec_complete (fixed_2 (10 ^ 640))
  /\ decode strict311 (InBytes msg_2) (fixed_2 (10 ^ 640)) = Raise XValueError
  /\ exists e, decode strict311 (InBytes msg_2) (fixed_2 (10 ^ 639)) = Raise (XDecodeError e) /\ de_field e = u "2".
Proof. exact decode_unshown. Qed.
Example C40_example_numbers : numbers_ok cpython311 rich /\ numbers_ok cpython311 default /\ numbers_ok cpython311 default_ascii.
Proof. exact sample_numbers. Qed.

(** C41 *)
Theorem C41_truncation_is_reported_at_the_cut : forall E sp s b s' b' cut dec enc,
  bitmaps_fit E sp -> numbers_ok E sp -> holds s b -> decode E s sp = Ok (dec, enc) ->
  b = b' ++ cut -> cut <> [] -> holds s' b' ->
  exists e pre sg post l more,
    decode E s' sp = Raise (XDecodeError e)
    /\ dec = dec_of (pre ++ sg :: post) /\ enc = enc_of (pre ++ sg :: post)
    /\ de_doc_dec e = dec_of (pre ++ [l]) /\ de_doc_enc e = enc_of (pre ++ [l])
    /\ de_field e = sg_key sg /\ sg_key l = sg_key sg
    /\ sg_bytes sg = sg_bytes l ++ more /\ more <> [] /\ wire_bytes (de_doc_enc e) = b'.
Proof. exact decode_truncated. Qed.
Print Assumptions C41_truncation_is_reported_at_the_cut.
Example C41_example :
  (exists dec enc, decode cpython311 (InBytes msg_rich) rich = Ok (dec, enc)
     /\ map fst dec = [u "h"; u "t"; u "p"; u "1"; u "2"; u "3"; u "66"; u "130"]
     /\ sget (u "2") dec = Some (u "12345") /\ sget (u "130") dec = Some (u "abc"))
  /\ exists e, decode cpython311 (InBytes (firstn 60 msg_rich)) rich = Raise (XDecodeError e)
     /\ de_field e = u "3" /\ de_pos e = 59%Z.
Proof. exact (conj rich_decodes rich_fails). Qed.

(** C42 *)
Theorem C42_a_stream_splits_in_one_way_only : forall E sp, bitmaps_fit E sp -> forall l1 l2,
  Forall (accepts E sp) l1 -> Forall (accepts E sp) l2 -> concat l1 = concat l2 -> l1 = l2.
Proof. exact streams_injective. Qed.
Print Assumptions C42_a_stream_splits_in_one_way_only.
Theorem C42_so_do_the_first_messages : forall E sp, bitmaps_fit E sp -> forall l1 l2 r1 r2,
  Forall (accepts E sp) l1 -> Forall (accepts E sp) l2 ->
  concat l1 ++ r1 = concat l2 ++ r2 -> length l1 = length l2 -> l1 = l2 /\ r1 = r2.
Proof. exact streams_unique. Qed.
Print Assumptions C42_so_do_the_first_messages.
Example C42_example : accepts cpython311 rich msg_rich /\ accepts cpython311 rich msg_rich_lower
  /\ msg_rich <> msg_rich_lower.
Proof. exact rich_accepted. Qed.
