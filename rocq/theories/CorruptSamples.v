(** * CorruptSamples: concrete cases for C52 and C53. *)
From Verif Require Import PyBase BaseFacts Types Decoder Wire Claims Claims6 CPython311 Specs Samples SampleFacts.
Local Open Scope string_scope.
Local Open Scope list_scope.

(** 0200 with fields 2 and 3 in the default spec, [d] being the data of field 2. *)
Definition two (d : bytes) : bytes :=
  asc "0200" ++ raw [96; 0; 0; 0; 0; 0; 0; 0]%N ++ asc "04" ++ d ++ asc "123456".
Definition two_enc (d : bytes) : edoc :=
  [(u "t", mkEntry [] (asc "0200")); (u "p", mkEntry [] (raw [96; 0; 0; 0; 0; 0; 0; 0]%N));
   (u "2", mkEntry (asc "04") d); (u "3", mkEntry [] (asc "123456"))].
Definition two_dec (d : pystr) : ddoc :=
  [(u "t", u "0200"); (u "p", u "6000000000000000"); (u "2", d); (u "3", u "123456")].
Lemma two_decodes :
  decode cpython311 (InBytes (two (asc "1111"))) default = Ok (two_dec (u "1111"), two_enc (asc "1111"))
  /\ two_enc (asc "9876") = sset (u "2") (mkEntry (asc "04") (asc "9876")) (two_enc (asc "1111"))
  /\ wire_bytes (two_enc (asc "9876")) = two (asc "9876")
  /\ decode cpython311 (InBytes (two (asc "9876"))) default = Ok (sset (u "2") (u "9876") (two_dec (u "1111")), two_enc (asc "9876")).
Proof. vm_compute. repeat split. Qed.
(** A byte that is not ASCII is reported in field 2. *)
Lemma two_broken : exists er, decode cpython311 (InBytes (two (raw [49; 200; 49; 49]%N))) default = Raise (XDecodeError er)
  /\ de_field er = u "2" /\ de_pos er = 14%Z /\ map fst (de_doc_dec er) = [u "t"; u "p"; u "2"].
Proof. eexists. vm_compute. repeat split. Qed.
(** The same beginning, up to field 2, with something else behind it. *)
Lemma two_cut : completed (decode cpython311 (InBytes (two (asc "1111"))) default)
    (firstn 3 (two_dec (u "1111")) ++ [(u "3", u "123456")]) (firstn 3 (two_enc (asc "1111")) ++ [(u "3", mkEntry [] (asc "123456"))])
  /\ exists er, decode cpython311 (InBytes (wire_bytes (firstn 3 (two_enc (asc "1111"))) ++ raw [49; 200]%N)) default = Raise (XDecodeError er)
       /\ firstn 3 (de_doc_dec er) = firstn 3 (two_dec (u "1111")) /\ map fst (de_doc_dec er) = [u "t"; u "p"; u "2"; u "3"]
       /\ de_pos er = 18%Z.
Proof. split; [left; vm_compute; reflexivity|]. eexists. vm_compute. repeat split. Qed.
