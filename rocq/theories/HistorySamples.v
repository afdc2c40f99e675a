(** * HistorySamples: an execution on CPython 3.11. *)
From Verif Require Import PyBase BaseFacts Types Decoder Encoder Tools CPython311 Specs Samples Wire WireEncode Claims Claims2 PyAst Source PySem SemClaims SessionClaims HistoryClaims SemFacts SemHeap SourceSessions SourceHistory SourceSamples SessionSamples.
Local Open Scope string_scope.
Local Open Scope list_scope.

(** The dict is encoded, edited twice, somebody decodes two bytes, the dict is encoded once more. *)
Definition h_start : heap := spec_dicts heap0 default.
Definition spv0 : PySem.value := RefV (2 + length default).
Definition h_encoded : heap := snd (call_encode cpython311 (@rev Z) rest0 [RefV 1; spv0] h_start).
Definition set_in (h : heap) (k t : pystr) : heap :=
  match hget h 1 with Some (DictO items) => hset h 1 (DictO (dset key_eqb (KStr k) (StrV t) items)) | _ => h end.
Definition del_in (h : heap) (k : pystr) : heap :=
  match hget h 1 with Some (DictO items) => hset h 1 (DictO (dpop key_eqb (KStr k) items)) | _ => h end.
Definition h_edited : heap := del_in (set_in h_encoded (u "2") (u "99")) (u "52").
Definition h_decoded : heap := snd (call_decode cpython311 (@rev Z) rest0 [BytesV (asc "02"); spv0] h_edited).
Definition edits0 : list edit := [SetItem (u "2") (u "99"); DelItem (u "52")].
Lemma start_holds : holding 1 spv0 default h_start.
Proof. destruct (heap0_spec default) as (D & R & A). split; [exists doc0; exact D|split; [exact R|exact A]]. Qed.
Lemma set_event h k t : holding 1 spv0 default h -> (zlen t < 2 ^ 62)%Z -> event cpython311 (@rev Z) 1 spv0 h [SetItem k t] (set_in h k t).
Proof.
  intros ((d & D) & _) B. unfold set_in. assert (G := proj1 D). unfold dec_dict in G. rewrite G. eapply Setting; [exact G|exact B| |].
  - apply hget_hset. exact (hget_lt _ _ _ G).
  - intros l N. apply hget_hset_other. congruence.
Qed.
Lemma del_event h k : holding 1 spv0 default h -> event cpython311 (@rev Z) 1 spv0 h [DelItem k] (del_in h k).
Proof.
  intros ((d & D) & _). unfold del_in. assert (G := proj1 D). unfold dec_dict in G. rewrite G. eapply Deleting; [exact G| |].
  - apply hget_hset. exact (hget_lt _ _ _ G).
  - intros l N. apply hget_hset_other. congruence.
Qed.
Lemma rev_machine : machine cpython311 (@rev Z).
Proof. apply c311_session. intro l. apply Permutation.Permutation_sym, Permutation.Permutation_rev. Qed.
Lemma sample_execution : execution cpython311 (@rev Z) 1 spv0 h_start edits0 h_decoded.
Proof.
  assert (M := rev_machine). assert (H0 := start_holds).
  assert (E1 : event cpython311 (@rev Z) 1 spv0 h_start [] h_encoded).
  { destruct H0 as ((d & D) & R & A). destruct (text_dict_rep _ _ _ D) as [Rd I]. unfold h_encoded.
    destruct (call_encode cpython311 (@rev Z) rest0 [RefV 1; spv0] h_start) as [o h'] eqn:C. cbn [snd].
    eapply Encoding; [exact Rd|exact I|exact R|exact A|exact A|exact C]. }
  destruct (event_kept _ _ M 1 spv0 default _ _ _ E1 H0) as [H1 _].
  assert (E2 := set_event h_encoded (u "2") (u "99") H1 ltac:(vm_compute; reflexivity)).
  destruct (event_kept _ _ M 1 spv0 default _ _ _ E2 H1) as [H2 _]. assert (E3 := del_event _ (u "52") H2).
  destruct (event_kept _ _ M 1 spv0 default _ _ _ E3 H2) as [H3 _]. fold h_edited in E3, H3.
  assert (E4 : event cpython311 (@rev Z) 1 spv0 h_edited [] h_decoded).
  { destruct H3 as (_ & R & _). unfold h_decoded.
    destruct (call_decode cpython311 (@rev Z) rest0 [BytesV (asc "02"); spv0] h_edited) as [o h'] eqn:C. cbn [snd].
    eapply (Decoding _ _ _ _ _ _ (InBytes (asc "02"))); [reflexivity|exact R|vm_compute; reflexivity|exact C]. }
  apply (Continues _ _ _ _ _ ([] ++ edits0) h_edited []); [|exact E4].
  apply (Continues _ _ _ _ _ [SetItem (u "2") (u "99")] (set_in h_encoded (u "2") (u "99")) [DelItem (u "52")]); [|exact E3].
  apply (Continues _ _ _ _ _ [] h_encoded [SetItem (u "2") (u "99")]); [|exact E2].
  apply (Continues _ _ _ _ _ [] h_start []); [apply Starts|exact E1].
Qed.
Lemma sample_final : let (o, h) := call_encode cpython311 (@rev Z) rest0 [RefV 1; spv0] h_decoded in
  exists s e, o = Done (TupleV [RefV s; RefV e]) /\ hget h s = Some (BytearrayO (asc "0200" ++ [x40; x00; x00; x00; x00; x00; x00; x00] ++ asc "0299")) /\
    hget h 1 = Some (text_items [("t", "0200"); ("2", "99"); ("p", "4000000000000000")]).
Proof. vm_compute. do 2 eexists. repeat split. Qed.
(** Edited once more, so that it cannot be encoded. *)
Lemma sample_refused : let (o, h) := call_encode cpython311 (@rev Z) rest0 [RefV 1; spv0] (set_in h_decoded (u "3") (u "12")) in
  exists l e, o = Thrown (RefV l) /\ hget h l = Some (encode_error_at (u "Field data is 2 bytes, expecting 6") (RefV 1) (RefV e) (u "3")).
Proof. vm_compute. do 2 eexists. split; reflexivity. Qed.
(** A specification for printing only. *)
Definition captions (k : pystr) (fs : fspec) : fspec :=
  {| fs_data_enc := None; fs_len_enc := None; fs_len_type := None; fs_max_len := fs_max_len fs; fs_len_count := None;
     fs_left_pad := None; fs_right_pad := None; fs_desc := fs_desc fs |}.
Lemma captions_differ : (forall k fs, fs_desc (captions k fs) = fs_desc fs /\ fs_max_len (captions k fs) = fs_max_len fs) /\ respec captions default <> default.
Proof.
  split; [split; reflexivity|]. intro H. apply (f_equal (sget (u "2"))) in H. vm_compute in H. discriminate.
Qed.
Lemma bare_alike : prints_alike cpython311 [(KStr (u "t"), PStr (u "0200")); (KStr (u "2"), PStr (u "12"))] 0 default [].
Proof. split; [|intros; lia]. intros [H|[H|[]]]; vm_compute in H; discriminate. Qed.
