(** * StreamOrder: an interrupted pp() has written an initial part of its output. *)
From Coq Require Import Lia.
From Verif Require Import PyBase BaseFacts Types Decoder Encoder Tools PyAst Source PySem SemClaims SessionClaims Threads ThreadClaims ThreadTasks ThreadMachine ThreadLib SafeClaims SafeStreams.
Local Open Scope string_scope.
Local Open Scope list_scope.

Theorem pp_in_order E order (M : machine E order) h shared ts cs : threads_ready E order h shared ts -> tame_heap h -> Forall no_functions cs ->
  map t_run ts = threads_of E order cs ->
  forall i th r docv doc sv sp dv dw stv w t lv lw, nth_error ts i = Some th -> nth_error cs i = Some (r, CallPp docv sv dv stv lv) ->
  doc_rep E h docv doc -> inside (t_own th) docv -> shared_spec h shared sv sp -> width_rep E dv dw -> width_rep E lv lw ->
  stream_rep (r_stdout r) stv w -> hget h w = Some (StreamO t) -> inside (t_own th) stv -> inside (t_own th) (r_stdout r) ->
  (forall j rc, nth_error cs j = Some rc -> to_print [rc] w -> j = i) ->
  forall ms h', schedule (map t_run ts, h) (ms, h') ->
  exists p q, hget h' w = Some (StreamO (t ++ p)) /\ snd (pp E doc sp dw lw) = p ++ q /\ (forall o, nth_error ms i = Some (End o) -> q = []).
Proof.
  intros (ND & OW & TK) TH NF RUNS i th r docv doc sv sp dv dw stv w t lv lw NT NC D1 D2 SS W1 W2 SR G I1 I2 U ms h' S.
  assert (NR : nth_error (map t_run ts) i = Some (runs_call E order r (CallPp docv sv dv stv lv))).
  { rewrite RUNS. unfold threads_of. now rewrite nth_error_map, NC. }
  rewrite nth_error_map, NT in NR. cbn [option_map] in NR. injection NR as NR.
  set (th' := {| t_own := t_own th; t_run := t_run th;
                 t_claim := fun o h' => hget h' w = Some (StreamO (t ++ snd (pp E doc sp dw lw))) /\ pp_ended (fst (pp E doc sp dw lw)) o |}).
  destruct (nth_error_split _ _ NT) as (bf & af & -> & <-).
  set (ts' := bf ++ th' :: af).
  assert (RUNS' : map t_run ts' = map t_run (bf ++ th :: af)) by (unfold ts'; rewrite !map_app; reflexivity).
  assert (R : threads_ready E order h shared ts').
  { split; [|split].
    - unfold ts'. rewrite !map_app in *. exact ND.
    - unfold ts'. apply Forall_app in OW as [A B]. inversion_clear B. apply Forall_app. split; [exact A|]. constructor; assumption.
    - unfold ts'. apply Forall_app in TK as [A B]. inversion_clear B as [|? ? _ C]. apply Forall_app. split; [exact A|]. constructor; [|exact C].
      cbn. rewrite NR. now econstructor; try eassumption. }
  assert (NT' : nth_error ts' (length bf) = Some th') by (unfold ts'; rewrite nth_error_app2, PeanoNat.Nat.sub_diag by lia; reflexivity).
  rewrite <- RUNS' in S.
  destruct (runs_out (ms, h')) as ([ms2 h2] & S2 & ENDED). cbn in ENDED.
  assert (S12 : schedule (map t_run ts', h) (ms2, h2)) by (clear - S S2; induction S; [exact S2|eapply Slice_of; eauto]).
  destruct (threads_end E order M h shared ts' R _ _ S12) as (LEN & _ & CL).
  assert (X : exists o, nth_error ms2 (length bf) = Some (End o)).
  { destruct (nth_error ms2 (length bf)) as [m|] eqn:Q; [|apply nth_error_None in Q; rewrite LEN in Q; unfold ts' in Q; rewrite app_length in Q; cbn in Q; lia].
    apply nth_error_In in Q. rewrite Forall_forall in ENDED. destruct (ENDED _ Q) as [o ->]. now exists o. }
  destruct X as [o X]. destruct (CL _ _ _ NT' X) as [FULL _].
  rewrite RUNS', RUNS in S. destruct (streams_grow h E order cs TH NF w t _ G U _ _ S S2) as (p & q & P & Q). cbn in P, Q.
  rewrite FULL in Q. injection Q as Q. apply app_inv_head in Q. exists p, q. split; [exact P|]. split; [exact Q|].
  intros o1 X1. rewrite <- RUNS, <- RUNS' in S. destruct (threads_end E order M h shared ts' R _ _ S) as (_ & _ & CL1). destruct (CL1 _ _ _ NT' X1) as [FULL1 _].
  rewrite P in FULL1. injection FULL1 as FULL1. apply app_inv_head in FULL1. rewrite <- FULL1 in Q.
  apply (f_equal (@length _)) in Q. rewrite app_length in Q. cbn in Q. destruct q; [reflexivity|cbn in Q; lia].
Qed.
