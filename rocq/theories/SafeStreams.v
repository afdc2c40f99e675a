(** * SafeStreams: a stream that one thread prints to only grows; threads can always run on until all have ended. *)
From Coq Require Import Lia.
From Verif Require Import PyBase BaseFacts Types PyAst Source PySem SemClaims SessionClaims Threads ThreadMachine SafeClaims SafeFacts SafeLib.
Local Open Scope string_scope.
Local Open Scope list_scope.

Section Streams.
  Context (h0 : heap) (E : pyenv) (order : list Z -> list Z) (cs : list (rest * call)).
  Lemma at_most_one (w : loc) i : (forall j rc, nth_error cs j = Some rc -> to_print [rc] w -> j = i) -> one_writer (map (writer (Some w)) cs).
  Proof.
    intros U b1 b2 Q.
    assert (O : own (Some w) w = true) by apply PeanoNat.Nat.eqb_refl.
    assert (N : forall j, nth_error (map (writer (Some w)) cs) j = Some true -> j = i).
    { intros j J. rewrite nth_error_map in J. destruct (nth_error cs j) as [rc|] eqn:G; [|discriminate]. cbn in J. injection J as J.
      apply (U j rc G). now apply (writer_prints (Some w) rc w O). }
    rewrite Q in N. assert (I : length b1 = i) by (apply N; rewrite nth_error_app2, PeanoNat.Nat.sub_diag by lia; reflexivity).
    split; apply Forall_forall; intros b B; destruct b; try reflexivity; exfalso.
    - apply In_nth_error in B as [j J]. assert (L : j < length b1) by (apply nth_error_Some; congruence).
      assert (j = i) by (apply N; now rewrite nth_error_app1). lia.
    - apply In_nth_error in B as [j J].
      assert (S (length b1 + j) = i); [|lia]. apply N. rewrite nth_error_app2 by lia. replace (S (length b1 + j) - length b1) with (S j) by lia. exact J.
  Qed.
  Theorem streams_grow : tame_heap h0 -> Forall no_functions cs ->
    forall w t i, hget h0 w = Some (StreamO t) -> (forall j rc, nth_error cs j = Some rc -> to_print [rc] w -> j = i) ->
    forall s1 s2, schedule (threads_of E order cs, h0) s1 -> schedule s1 s2 ->
    exists a b, hget (snd s1) w = Some (StreamO (t ++ a)) /\ hget (snd s2) w = Some (StreamO (t ++ a ++ b)).
  Proof.
    intros T F w t i G U s1 s2 S1 S2.
    assert (O : own (Some w) w = true) by apply PeanoNat.Nat.eqb_refl.
    destruct (existsb (writer (Some w)) cs) eqn:X.
    - apply existsb_exists in X as (rc & IN & X). apply (writer_prints (Some w) rc w O) in X.
      assert (P : to_print cs w). { destruct X as (r & doc & sp & dw & st & lw & [->|[]] & X). exists r, doc, sp, dw, st, lw. now split. }
      assert (W : forall l, own (Some w) l = true -> to_print cs l /\ exists t, hget h0 l = Some (StreamO t)).
      { intros l L. apply PeanoNat.Nat.eqb_eq in L as ->. split; [exact P|now exists t]. }
      assert (ST : safe_state h0 (to_encode cs) (to_print cs) (Some w) (map (writer (Some w)) cs) t (threads_of E order cs, h0)).
      { apply start_safe; try assumption. intros l L. now apply PeanoNat.Nat.eqb_eq in L as ->. }
      pose proof (at_most_one w i U) as ONE.
      destruct (schedule_safe h0 (to_encode cs) (to_print cs) (Some w) W _ ONE _ _ S1 _ ST) as [a A].
      destruct (schedule_safe h0 (to_encode cs) (to_print cs) (Some w) W _ ONE _ _ S2 _ A) as [b B].
      exists a, b. rewrite app_assoc. split; [apply A, O|apply B, O].
    - assert (N : ~ to_print cs w).
      { intros (r & doc & sp & dw & st & lw & IN & P). rewrite <- Bool.not_true_iff_false in X. apply X. apply existsb_exists. eexists. split; [exact IN|].
        apply (writer_prints (Some w) _ w O). do 6 eexists. split; [left; reflexivity|exact P]. }
      assert (K : forall s, schedule (threads_of E order cs, h0) s -> hget (snd s) w = Some (StreamO t)).
      { intros [ms h'] S. destruct (objects_safe h0 E order cs T F ms h' S w _ G) as (o' & G' & [->|[[_ (d & d' & Q & _)]|[Q _]]]); [exact G'|discriminate|contradiction]. }
      exists [], []. cbn. rewrite app_nil_r. split; apply K; [exact S1|]. clear - S1 S2. induction S1; [exact S2|]. eapply Slice_of; eauto.
  Qed.
End Streams.

Lemma runs_out : forall s, exists s', schedule s s' /\ Forall (fun m => exists o, m = End o) (fst s').
Proof.
  apply (well_founded_ind switch_wf). intros [ms h] IH.
  assert (X : Forall (fun m => exists o, m = End o) ms \/ exists s, switch (ms, h) s).
  { clear IH. induction ms as [|m ms [F|[s S]]]; [left; constructor| |].
    - destruct m as [o|l k|l o k|o k] eqn:M; [left; constructor; eauto| | |];
        (right; destruct (access m h) as [m' h'] eqn:A; exists ([] ++ m' :: ms, h'); rewrite <- M; change (m :: ms) with ([] ++ m :: ms); econstructor; [intros ? ?; congruence|exact A]).
    - right. inversion S; subst. eexists. change (m :: before ++ m0 :: after) with ((m :: before) ++ m0 :: after). econstructor; eassumption. }
  destruct X as [F|[s S]]; [exists (ms, h); split; [constructor|exact F]|]. destruct (IH s S) as (s' & S' & F). exists s'. split; [eapply Slice_of; eassumption|exact F].
Qed.
