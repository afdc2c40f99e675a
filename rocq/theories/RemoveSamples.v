(** * RemoveSamples: concrete cases for C55. *)
From Verif Require Import PyBase BaseFacts Types Decoder Encoder Wire WireEncode Claims Claims8 CPython311 Specs Samples.
From Verif Require Import CodecFacts SampleFacts EncodeSamples.
Local Open Scope string_scope.
Local Open Scope list_scope.

(** [doc_rich] without fields 3, 66 and 130. *)
Definition doc_fewer : pdoc := sdict [("h", "HD"); ("t", "0200"); ("2", "12345")].
Definition gone_rich (k : pystr) : bool := existsb (str_eqb k) [u "3"; u "66"; u "130"].
Lemma fewer_rich : env_ok cpython311 /\ bitmaps_sendable cpython311 rich /\ header_on rich
  /\ str_dict doc_rich /\ str_dict doc_fewer /\ canonical_keys cpython311 doc_rich
  /\ (exists r, fst (encode cpython311 (ADict doc_rich) rich) = Ok r)
  /\ same_fields_but gone_rich doc_rich doc_fewer /\ gone_rich (u "t") = false /\ gone_rich (u "h") = false.
Proof.
  split; [exact c311_env_ok|]. split; [exact rich_sendable|]. split; [exact rich_header_on|].
  split; [exact doc_rich_str|]. split; [apply str_dict_check; vm_compute; reflexivity|]. split; [exact doc_rich_canonical|].
  split; [eexists; vm_compute; reflexivity|]. split; [|split; reflexivity].
  intros k N1 N2 N3. unfold value, doc_fewer, doc_rich, gone_rich. cbn [sdict map dget existsb]. cbv beta iota.
  repeat match goal with |- context [key_eqb (KStr k) (KStr ?q)] => change (key_eqb (KStr k) (KStr q)) with (str_eqb k q) end.
  repeat match goal with |- context [str_eqb k ?q] =>
    let Q := fresh in destruct (str_eqb k q) eqn:Q; [apply str_eqb_eq in Q; subst k; (contradiction || vm_compute; reflexivity)|] end.
  cbn [orb fst] in *. rewrite H2, H3, H4. reflexivity.
Qed.
Lemma fewer_sent : exists s1 enc1 d1 s2 enc2 d2,
  encode cpython311 (ADict doc_rich) rich = (Ok (s1, enc1), d1) /\ encode cpython311 (ADict doc_fewer) rich = (Ok (s2, enc2), d2)
  /\ map fst enc1 = [u "h"; u "t"; u "p"; u "1"; u "2"; u "3"; u "66"; u "130"]
  /\ map fst enc2 = [u "h"; u "t"; u "p"; u "2"]
  /\ wire_bytes (without_bitmaps enc2) = raw [2]%N ++ asc "HD" ++ asc "0200" ++ raw [5; 1; 35; 69]%N.
Proof.
  destruct (encode cpython311 (ADict doc_rich) rich) as [[[s1 enc1]|x] d1] eqn:H1; [|vm_compute in H1; discriminate].
  destruct (encode cpython311 (ADict doc_fewer) rich) as [[[s2 enc2]|x] d2] eqn:H2; [|vm_compute in H2; discriminate].
  vm_compute in H1, H2. injection H1 as <- <- <-. injection H2 as <- <- <-.
  repeat eexists; vm_compute; reflexivity.
Qed.
