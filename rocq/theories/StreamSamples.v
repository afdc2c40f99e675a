(** * StreamSamples: the hypotheses of the properties about streams hold for the calls of ThreadSamples. *)
From Coq Require Import Lia.
From Verif Require Import PyBase BaseFacts Types Decoder Encoder Tools CPython311 Specs PyAst Source PySem SemClaims SessionClaims SourceSamples Threads ThreadClaims ThreadTasks ThreadSamples SafeClaims SafeSamples.
Local Open Scope string_scope.
Local Open Scope list_scope.

Lemma alone1 (w : loc) i : existsb (fun p => match snd (snd p) with CallPp _ _ _ st _ => match (match st with NoneV => r_stdout (fst (snd p)) | _ => st end) with RefV l => Nat.eqb l w | _ => false end && negb (Nat.eqb (fst p) i) | _ => false end)
    (combine (seq 0 (length calls1)) calls1) = false ->
  forall j rc, nth_error calls1 j = Some rc -> to_print [rc] w -> j = i.
Proof.
  intros X j rc N (r & doc & sp & dw & st & lw & [->|[]] & P). rewrite <- not_true_iff_false in X. destruct (Nat.eq_dec j i) as [|NE]; [assumption|].
  exfalso. apply X. apply existsb_exists. exists (j, (r, CallPp doc sp dw st lw)). split.
  - assert (G : forall (l : list (rest * call)) k m x, nth_error l k = Some x -> In (m + k, x) (combine (seq m (length l)) l)).
    { induction l as [|y l IH]; intros [|k] m x Q; cbn in *; try discriminate; [injection Q as ->; left; f_equal; lia|]. right. replace (m + S k) with (S m + k) by lia. now apply IH. }
    exact (G calls1 j 0 _ N).
  - cbn. apply Nat.eqb_neq in NE. rewrite NE. destruct P as [->|[-> ->]]; now rewrite Nat.eqb_refl.
Qed.
Lemma prints_to_alone : forall j rc, nth_error calls1 j = Some rc -> to_print [rc] 0 -> j = 2.
Proof. apply alone1. reflexivity. Qed.
Lemma prints_out_alone : forall j rc, nth_error calls1 j = Some rc -> to_print [rc] 2 -> j = 3.
Proof. apply alone1. reflexivity. Qed.
Lemma streams1 : hget h_shared 0 = Some (StreamO []) /\ hget h_shared 2 = Some (StreamO (u "x")).
Proof. split; rewrite shared_get by lia; reflexivity. Qed.
Lemma printing1 : exists ts, threads_ready cpython311 (@rev Z) h_shared shared1 ts /\ map t_run ts = threads_of cpython311 (@rev Z) calls1 /\
  exists th, nth_error ts 2 = Some th /\ nth_error calls1 2 = Some (rest5 NoneV, CallPp (RefV 3) (RefV top) (IntV 0) (RefV 0) (IntV 80)) /\
  doc_rep cpython311 h_shared (RefV 3) doc3 /\ inside (t_own th) (RefV 3) /\ shared_spec h_shared shared1 (RefV top) default /\ width_rep cpython311 (IntV 0) 0 /\
  width_rep cpython311 (IntV 80) 80 /\ stream_rep NoneV (RefV 0) 0 /\ hget h_shared 0 = Some (StreamO []) /\ inside (t_own th) (RefV 0) /\ inside (t_own th) NoneV.
Proof.
  destruct threads1_ready as (ts & R & O & T). exists ts. split; [exact T|]. split; [rewrite calls1_threads; exact R|].
  destruct ts as [|a [|b [|c ts]]]; try discriminate. cbn in O. injection O as _ _ O _. exists c. rewrite O. cbn.
  split; [reflexivity|]. split; [reflexivity|]. split; [|split; [tauto|]].
  - exists 3, [(KStr (u "t"), StrV (u "0210")); (KStr (u "2"), StrV (u "77"))]. split; [reflexivity|]. split; [rewrite shared_get by lia; reflexivity|]. repeat constructor.
  - split; [exact default_shared|]. split; [left; reflexivity|]. split; [left; reflexivity|]. split; [left; reflexivity|]. split; [exact (proj1 streams1)|]. tauto.
Qed.
Lemma robin_part : hget (snd (robin 10)) 0 = Some (StreamO (u "t  : ")) /\ snd (pp cpython311 doc3 default 0 80) = u "t  : " ++ u ("'0210'" ++ lf ++ "2  : '77'" ++ lf).
Proof. split; [exact (proj1 (proj2 moment_text))|]. vm_compute. reflexivity. Qed.
