(** * PropsCorrupt: properties of altered messages. Statements only; proofs are elsewhere. *)
From Verif Require Import PyBase BaseFacts Types Decoder Wire Claims Claims6 CPython311 Specs Samples SampleFacts.
From Verif Require Import Corrupt Causal CorruptSamples.
Local Open Scope string_scope.
Local Open Scope list_scope.

(** C52 *)
Theorem C52_altered_data_stays_local :
  forall E sp s b dec enc k e data' s', bitmaps_fit E sp -> numbers_ok E sp -> holds s b -> decode E s sp = Ok (dec, enc) ->
  k <> u "p" -> k <> u "1" -> sget k enc = Some e -> length data' = length (e_data e) ->
  holds s' (wire_bytes (sset k (mkEntry (e_len e) data') enc)) ->
  (exists t, decode E s' sp = Ok (sset k t dec, sset k (mkEntry (e_len e) data') enc))
  \/ exists er d1 d2 e1 e2 v v', decode E s' sp = Raise (XDecodeError er)
       /\ dec = d1 ++ (k, v) :: d2 /\ enc = e1 ++ (k, e) :: e2
       /\ de_field er = k /\ de_pos er = (zlen (wire_bytes e1) + zlen (e_len e))%Z
       /\ de_doc_dec er = d1 ++ [(k, v')] /\ de_doc_enc er = e1 ++ [(k, mkEntry (e_len e) data')].
Proof. exact decode_other_data. Qed.
Print Assumptions C52_altered_data_stays_local.
Theorem C52_altered_data_has_the_value_of_its_bytes :
  forall E sp s b dec enc k e fs data' s' t, bitmaps_fit E sp -> holds s b -> decode E s sp = Ok (dec, enc) ->
  k <> u "p" -> k <> u "1" -> sget k enc = Some e -> length data' = length (e_data e) -> data' <> [] ->
  sget k sp = Some fs -> k = u "t" \/ in_nibbles fs = false ->
  holds s' (wire_bytes (sset k (mkEntry (e_len e) data') enc)) ->
  decode E s' sp = Ok (sset k t dec, sset k (mkEntry (e_len e) data') enc) <-> reads_as E fs data' t.
Proof. exact decode_other_value. Qed.
Print Assumptions C52_altered_data_has_the_value_of_its_bytes.
Example C52_example : bitmaps_fit cpython311 default
  /\ decode cpython311 (InBytes (two (asc "1111"))) default = Ok (two_dec (u "1111"), two_enc (asc "1111"))
  /\ two_enc (asc "9876") = sset (u "2") (mkEntry (asc "04") (asc "9876")) (two_enc (asc "1111"))
  /\ wire_bytes (two_enc (asc "9876")) = two (asc "9876")
  /\ decode cpython311 (InBytes (two (asc "9876"))) default = Ok (sset (u "2") (u "9876") (two_dec (u "1111")), two_enc (asc "9876")).
Proof. exact (conj (c311_fit default) two_decodes). Qed.
Example C52_example_error : exists er, decode cpython311 (InBytes (two (raw [49; 200; 49; 49]%N))) default = Raise (XDecodeError er)
  /\ de_field er = u "2" /\ de_pos er = 14%Z /\ map fst (de_doc_dec er) = [u "t"; u "p"; u "2"].
Proof. exact two_broken. Qed.

(** C53 *)
Theorem C53_what_was_read_depends_only_on_its_bytes :
  forall E sp s1 b1 s2 r d1 x1 e1 y1, bitmaps_fit E sp -> holds s1 b1 ->
  completed (decode E s1 sp) (d1 ++ x1) (e1 ++ y1) -> length d1 = length e1 ->
  holds s2 (wire_bytes e1 ++ r) ->
  (forall d e, recorded (decode E s2 sp) d e -> exists x y, d = d1 ++ x /\ e = e1 ++ y)
  /\ (forall er, decode E s2 sp = Raise (XDecodeError er) -> (zlen (wire_bytes e1) <= de_pos er)%Z).
Proof. exact decode_causal. Qed.
Print Assumptions C53_what_was_read_depends_only_on_its_bytes.
Example C53_example : completed (decode cpython311 (InBytes (two (asc "1111"))) default)
    (firstn 3 (two_dec (u "1111")) ++ [(u "3", u "123456")]) (firstn 3 (two_enc (asc "1111")) ++ [(u "3", mkEntry [] (asc "123456"))])
  /\ exists er, decode cpython311 (InBytes (wire_bytes (firstn 3 (two_enc (asc "1111"))) ++ raw [49; 200]%N)) default = Raise (XDecodeError er)
       /\ firstn 3 (de_doc_dec er) = firstn 3 (two_dec (u "1111")) /\ map fst (de_doc_dec er) = [u "t"; u "p"; u "2"; u "3"]
       /\ de_pos er = 18%Z.
Proof. exact two_cut. Qed.
