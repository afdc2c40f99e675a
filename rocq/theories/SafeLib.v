(** * SafeLib: the caller's objects at every moment of any number of calls of the library. *)
From Coq Require Import Lia.
From Verif Require Import PyBase BaseFacts Types PyAst Source PyFormat PySem SemClaims SessionClaims Threads ThreadClaims ThreadFacts ThreadMachine ThreadRun SafeClaims SafeCheck SafeSigs SafeFacts.
Local Open Scope string_scope.
Local Open Scope list_scope.

Section Calls.
  Context (h0 : heap) (edits prints : loc -> Prop) (E : pyenv) (order : list Z -> list Z) (stdout : value) (table : list (string * string)).
  Context (keys : list pystr) (touch : loc -> Prop) (writes sysout : bool) (targets : option (list string)).
  Context (KEYS : forall k, In k keys -> bitmap_key (KStr k) = true) (EDITS : keys <> [] -> forall l, touch l -> edits l).
  Context (STDOUT : inert stdout) (WRITES : writes = true -> forall l, touch l -> prints l).
  Context (watched : option loc) (mine : bool) (MINE : writes = true -> forall l, touch l -> own watched l = true -> mine = true).
  Context (OWN : forall l, own watched l = true -> prints l /\ exists t, hget h0 l = Some (StreamO t)).
  Context (TARGETS : forall fs, targets = Some fs -> incl (map snd table) fs) (TOUCHED : sysout = true -> touched h0 touch stdout).
  Context (prog : list (string * fundef)) (sigs : list (string * (vars * ty))) (CHECKED : check_prog keys writes sysout targets prog sigs = true).
  Local Notation sat := (sat h0 table keys touch).
  Local Notation co := (co h0 edits prints watched mine).
  Local Ltac ok := exact (fun _ _ => I).
  Lemma immutable_inert vs : forallb immutable vs = true -> Forall inert vs.
  Proof. intro F. apply Forall_forall. intros v V. rewrite forallb_forall in F. specialize (F v V). destruct v; try discriminate; exact I. Qed.
  Lemma sig_checked f sig : dget String.eqb f sigs = Some sig -> check_fun keys writes sysout targets prog sigs f sig = true.
  Proof.
    intro D. unfold check_prog in CHECKED. rewrite forallb_forall in CHECKED.
    assert (X : In (f, sig) sigs).
    { clear - D. induction sigs as [|[x y] l IH]; cbn in D; [discriminate|]. destruct (String.eqb_spec f x); [injection D as <-; subst; now left|]. right. now apply IH. }
    exact (CHECKED _ X).
  Qed.
  Lemma call_sound : forall depth f ps ret args, params prog sigs f = Some (ps, ret) -> Forall2 sat ps args ->
    co (call_fun_t E order stdout table prog depth f args) (sat ret).
  Proof.
    induction depth as [|depth IH]; intros f ps ret args P A; [ok|]. cbn [call_fun_t]. unfold params in P.
    destruct (dget String.eqb f sigs) as [[g r]|] eqn:DS; [|discriminate]. destruct (dget String.eqb f prog) as [fd|] eqn:DP; [|discriminate]. injection P as <- <-.
    pose proof (sig_checked _ _ DS) as C. unfold check_fun in C. rewrite DP in C. cbn [fst snd] in C. apply andb_prop in C as [C CB]. apply andb_prop in C as [C CR]. apply andb_prop in C as [CP CL].
    unfold run_body_t. destruct (negb _); [ok|]. destruct (negb _); [ok|]. destruct (existsb yields (f_body fd)) eqn:Y.
    - destruct (negb _); [ok|]. destruct (exec_block _ _ _ _ _ _ _ _ _) as [[c r'] h']. destruct c; try ok; destruct h' as [|[] h']; try ok;
        (destruct (forallb immutable elems) eqn:F; [|ok]; eapply co_weaken; [apply co_new; exact (immutable_inert _ F)|]; intros; eapply fresh_sat; eassumption).
    - cbn [orb] in CB. eapply co_seq; [exact OWN| |].
      + eapply check_block with (g := g) (ret := r); try eassumption.
        * intros x t V. rewrite forallb_forall in CL. unfold var in V. clear - V CL. induction g as [|[y w] g IH]; cbn in V; [discriminate|].
          destruct (String.eqb_spec x y); [subst; apply (CL (y, w)); now left|]. apply IH; [|exact V]. intros z Z. apply CL. now right.
        * unfold env_ok. clear - A CP. revert args A. induction (f_params fd) as [|x l IH]; intros args A; cbn in *; [constructor|]. inversion A; subst. cbn in CP. apply andb_prop in CP as [C1 C2].
          constructor; [|now apply IH]. cbn. destruct (var g x) as [t|]; [|discriminate]. exists t. now split.
      + intros [c r'] [R' X]. cbn in *. destruct c; [apply co_done; eapply fresh_sat; [exact CR|exact I]|apply co_done; exact X|exact (fun _ _ => X)|ok].
  Qed.
End Calls.

(** ** The machine *)
Section Machine.
  Context (h0 : heap) (edits prints : loc -> Prop).
  Local Notation obj_ok := (obj_ok h0 edits prints).
  Context (watched : option loc) (OWN : forall l, own watched l = true -> prints l /\ exists t, hget h0 l = Some (StreamO t)).
  Local Notation conf := (conf h0 edits prints watched).
  Definition safe_heap (h : heap) (t : pystr) : Prop :=
    (forall l o, hget h l = Some o -> obj_ok l o) /\ length h0 <= length h /\ forall l, own watched l = true -> hget h l = Some (StreamO t).
  (** [bits]: which thread writes to the watched stream. *)
  Definition safe_state (bits : list bool) (t : pystr) (s : machine_state) : Prop :=
    safe_heap (snd s) t /\ Forall2 (fun b m => conf b t m (out h0 (new_value h0))) bits (fst s).
  Definition one_writer (bits : list bool) : Prop := forall b1 b2, bits = b1 ++ true :: b2 -> Forall (eq false) b1 /\ Forall (eq false) b2.
  Lemma access_safe b t m h m' h' : access m h = (m', h') -> safe_heap h t -> conf b t m (out h0 (new_value h0)) ->
    exists s, (b = false -> s = []) /\ safe_heap h' (t ++ s) /\ conf b (t ++ s) m' (out h0 (new_value h0)).
  Proof.
    intros A (O & L & W) C. destruct m as [o|l k|l o k|o k]; cbn in A, C.
    - injection A as <- <-. exists []. rewrite app_nil_r. repeat split; auto.
    - destruct (hget h l) as [o|] eqn:G; injection A as <- <-; exists []; rewrite app_nil_r; (split; [reflexivity|]); (split; [repeat split; auto|]); [|exact I].
      destruct (own watched l && b)%bool eqn:B; [|now apply C, O]. apply andb_prop in B as [B _]. rewrite (W _ B) in G. now injection G as <-.
    - injection A as <- <-. destruct (own watched l) eqn:B.
      + destruct C as (-> & s & -> & C). exists s. split; [discriminate|]. split; [|exact C]. split; [|split].
        * intros l' o' G. pose proof (hget_size _ _ _ G) as LT. rewrite hset_size in LT.
          destruct (PeanoNat.Nat.eq_dec l l') as [->|N]; [|rewrite hset_other in G by exact N; now apply O]. rewrite hset_same in G by exact LT. injection G as <-.
          apply (text_more h0 edits prints watched OWN); [|exact B]. intros x X. now apply O, W.
        * now rewrite hset_size.
        * intros l' B'. replace l' with l; [apply hset_same; eapply hget_size, W, B|]. unfold own in *. destruct watched as [x|]; [|discriminate]. apply PeanoNat.Nat.eqb_eq in B, B'. congruence.
      + exists []. rewrite app_nil_r. split; [reflexivity|]. split; [|apply C]. split; [|split].
        * intros l' o' G. pose proof (hget_size _ _ _ G) as LT. rewrite hset_size in LT.
          destruct (PeanoNat.Nat.eq_dec l l') as [->|N]; [rewrite hset_same in G by exact LT; injection G as <-; apply C|]. rewrite hset_other in G by exact N. now apply O.
        * now rewrite hset_size.
        * intros l' B'. rewrite hset_other by congruence. now apply W.
    - injection A as <- <-. assert (N : new h0 (length h)) by (apply nth_error_None; exact L). exists []. rewrite app_nil_r. split; [reflexivity|]. split; [|now apply C]. split; [|split].
      + intros l o' G. pose proof (hget_size _ _ _ G) as LT. rewrite app_length in LT. cbn in LT. destruct (PeanoNat.Nat.eq_dec l (length h)) as [->|NE].
        * rewrite hget_new in G. injection G as <-. rewrite obj_ok_new by exact N. apply C.
        * apply O. unfold hget in *. rewrite nth_error_app1 in G by lia. exact G.
      + rewrite app_length. lia.
      + intros l B. pose proof (W l B) as G. unfold hget in *. rewrite nth_error_app1; [exact G|]. eapply hget_size, G.
  Qed.
  Lemma others bits ms t t' : Forall (eq false) bits -> Forall2 (fun b m => conf b t m (out h0 (new_value h0))) bits ms -> Forall2 (fun b m => conf b t' m (out h0 (new_value h0))) bits ms.
  Proof.
    intros F X. induction X as [|b m bits ms C X IH]; [constructor|]. inversion_clear F as [|? ? Y F']. constructor; [|now apply IH]. eapply conf_free; [now symmetry|exact C].
  Qed.
  Lemma schedule_safe bits : one_writer bits -> forall s s', schedule s s' -> forall t, safe_state bits t s -> exists x, safe_state bits (t ++ x) s'.
  Proof.
    intros ONE. induction 1 as [s|s s1 s' SW _ IH]; intros t S; [exists []; now rewrite app_nil_r|].
    assert (X : exists x, safe_state bits (t ++ x) s1); [|destruct X as [x X]; destruct (IH _ X) as [y Y]; exists (x ++ y); now rewrite app_assoc].
    clear IH. destruct SW as [bf m m' af h h' _ A]. destruct S as [O F]. cbn in *.
    apply Forall2_app_inv_r in F as (b1 & b2' & F1 & F2 & ->). inversion F2 as [|b ? b2 ? C F3]; subst.
    destruct (access_safe _ _ _ _ _ _ A O C) as (x & Z & O' & C'). exists x. split; [exact O'|]. cbn. destruct b.
    - destruct (ONE _ _ eq_refl) as [Z1 Z2]. apply Forall2_app; [eapply others; eassumption|]. constructor; [exact C'|]. eapply others; eassumption.
    - rewrite Z, app_nil_r in * by reflexivity. apply Forall2_app; [exact F1|]. now constructor.
  Qed.
End Machine.

(** ** The library *)
Section Writer.
  Context (watched : option loc).
  (** Whether a call writes to the watched stream. *)
  Definition writer (rc : rest * call) : bool :=
    match snd rc with
    | CallPp _ _ _ st _ => match (match st with NoneV => r_stdout (fst rc) | _ => st end) with RefV l => own watched l | _ => false end
    | _ => false
    end.
  Lemma writer_prints rc l : own watched l = true -> (writer rc = true <-> to_print [rc] l).
  Proof.
    intro O. destruct rc as [r c]. unfold writer, to_print. cbn.
    assert (REF : forall v, match v with RefV x => own watched x | _ => false end = true <-> v = RefV l).
    { intro v. unfold own in *. destruct watched as [w|]; [|discriminate]. apply PeanoNat.Nat.eqb_eq in O as ->.
      destruct v; split; try discriminate; [intro Q; apply PeanoNat.Nat.eqb_eq in Q; now subst|intros [= ->]; apply PeanoNat.Nat.eqb_refl]. }
    destruct c; cbn; try (split; [discriminate|intros (? & ? & ? & ? & ? & ? & [[=]|[]] & _)]).
    rewrite REF. split.
    - intro X. do 6 eexists. split; [left; reflexivity|]. destruct stream; auto.
    - intros (? & ? & ? & ? & ? & ? & [[= <- <- <- <- <- <-]|[]] & [->|[-> X]]); [reflexivity|exact X].
  Qed.
End Writer.

Section Library.
  Context (h0 : heap) (E : pyenv) (order : list Z -> list Z) (cs : list (rest * call)).
  Context (watched : option loc) (WATCHED : forall l, own watched l = true -> to_print cs l /\ exists t, hget h0 l = Some (StreamO t)).
  Lemma runs_safe r c : In (r, c) cs -> no_functions (r, c) ->
    co h0 (to_encode cs) (to_print cs) watched (writer watched (r, c)) (runs_call E order r c) (new_value h0).
  Proof.
    intros IN [SO GV]. cbn in SO, GV. destruct c as [s sp|d sp|doc sp dw st lw]; cbn in GV; inversion_clear GV as [|? ? G1 GV']; rename GV' into GV.
    - eapply (call_sound h0 (to_encode cs) (to_print cs) E order (r_stdout r) (r_table r) [] (fun _ => False) false false None) with (ret := TFresh);
        try exact decoder_checked; try (intros; discriminate); try (intros; contradiction); [exact SO|exact WATCHED|vm_compute; reflexivity|].
      inversion_clear GV. repeat constructor; assumption.
    - eapply (call_sound h0 (to_encode cs) (to_print cs) E order (r_stdout r) (r_table r) bitmap_names (fun l => d = RefV l) false false None) with (ret := TFresh);
        try exact encoder_checked; try (intros; discriminate); [|intros _ l ->; exists r, sp; exact IN|exact SO|exact WATCHED|vm_compute; reflexivity|].
      + intros k K. destruct K as [<-|[<-|[<-|[]]]]; reflexivity.
      + inversion_clear GV. constructor; [split; [assumption|intros l Q; right; exact Q]|]. repeat constructor; assumption.
    - inversion_clear GV as [|? ? G2 GV2]. inversion_clear GV2 as [|? ? G3 GV3]. inversion_clear GV3 as [|? ? G4 GV4]. inversion_clear GV4 as [|? ? G5 GV5].
      assert (D : st = NoneV \/ st <> NoneV) by (destruct st; auto; right; discriminate). destruct D as [->|D].
      + eapply (call_sound h0 (to_encode cs) (to_print cs) E order (r_stdout r) tools_table [] (fun l => r_stdout r = RefV l) true true (Some (map snd tools_table))) with (ret := TFresh);
          try exact tools_checked; [intros k []|intros N; now destruct N| exact SO| | |exact WATCHED| | |vm_compute; reflexivity|].
        * intros _ l L. exists r, doc, sp, dw, NoneV, lw. split; [exact IN|right; now split].
        * intros _ l L O. apply (writer_prints _ _ l O). do 6 eexists. split; [left; reflexivity|right; now split].
        * intros fs [= <-] x X. exact X.
        * intros _. split; [exact SO|]. intros l Q. right. exact Q.
        * do 3 (constructor; [assumption|]). constructor; [split; [assumption|discriminate]|]. repeat constructor; assumption.
      + eapply (call_sound h0 (to_encode cs) (to_print cs) E order (r_stdout r) tools_table [] (fun l => st = RefV l) true false (Some (map snd tools_table))) with (ret := TFresh);
          try exact tools_checked_given; [intros k []|intros N; now destruct N| exact SO| | |exact WATCHED| |intros; discriminate|vm_compute; reflexivity|].
        * intros _ l L. exists r, doc, sp, dw, st, lw. split; [exact IN|left; exact L].
        * intros _ l L O. apply (writer_prints _ _ l O). do 6 eexists. split; [left; reflexivity|left; exact L].
        * intros fs [= <-] x X. exact X.
        * do 3 (constructor; [assumption|]). constructor; [split; [|exact D]; split; [assumption|intros l Q; right; exact Q]|]. repeat constructor; assumption.
  Qed.
  Lemma start_safe t : tame_heap h0 -> Forall no_functions cs -> (forall l, own watched l = true -> hget h0 l = Some (StreamO t)) ->
    safe_state h0 (to_encode cs) (to_print cs) watched (map (writer watched) cs) t (threads_of E order cs, h0).
  Proof.
    intros T F W. assert (O : forall l o, hget h0 l = Some o -> obj_ok h0 (to_encode cs) (to_print cs) l o).
    { intros l o G. unfold SafeFacts.obj_ok. rewrite G. split; [constructor|]. eapply T, G. }
    split; [repeat split; [exact O|apply le_n|exact W]|]. cbn. unfold threads_of.
    assert (X : forall rc, In rc cs -> conf h0 (to_encode cs) (to_print cs) watched (writer watched rc) t (runs_call E order (fst rc) (snd rc)) (out h0 (new_value h0))).
    { intros [r c] IN. rewrite Forall_forall in F. apply runs_safe; [exact IN|now apply F|]. intros l OW. now apply O, W. }
    assert (Y : forall l, incl l cs -> Forall2 (fun b m => conf h0 (to_encode cs) (to_print cs) watched b t m (out h0 (new_value h0)))
        (map (writer watched) l) (map (fun rc => runs_call E order (fst rc) (snd rc)) l)); [|apply Y, incl_refl].
    intro l. induction l as [|rc l IH]; intro J; constructor; [apply X, J; now left|]. apply IH. intros x Z. apply J. now right.
  Qed.
End Library.

Section Objects.
  Context (h0 : heap) (E : pyenv) (order : list Z -> list Z) (cs : list (rest * call)).
  Lemma library_safe ms h' : tame_heap h0 -> Forall no_functions cs -> schedule (threads_of E order cs, h0) (ms, h') ->
    exists t, safe_state h0 (to_encode cs) (to_print cs) None (map (writer None) cs) t (ms, h').
  Proof.
    intros T F S. assert (N : forall l, own None l = true -> to_print cs l /\ exists t, hget h0 l = Some (StreamO t)) by (intros; discriminate).
    assert (Z : forall rc, writer None rc = false). { intros [r c]. destruct c; try reflexivity. unfold writer. cbn. destruct stream, (r_stdout r); reflexivity. }
    destruct (schedule_safe h0 (to_encode cs) (to_print cs) None N (map (writer None) cs)) with (t := @nil BinNums.N) (2 := S) as [x X]; [|apply start_safe; try assumption; intros; discriminate|eauto].
    intros b1 b2 Q. exfalso. assert (H : In true (map (writer None) cs)) by (rewrite Q; apply in_or_app; right; now left). apply in_map_iff in H as (rc & H & _). now rewrite Z in H.
  Qed.
  Theorem objects_safe : tame_heap h0 -> Forall no_functions cs -> forall ms h', schedule (threads_of E order cs, h0) (ms, h') ->
    forall l o, hget h0 l = Some o -> exists o', hget h' l = Some o' /\
      (o' = o \/ to_encode cs l /\ (exists d d', o = DictO d /\ o' = DictO d' /\ data_items d' = data_items d /\
         (forall k v, In (k, v) d' -> In (k, v) d \/ exists t, v = StrV t) /\ (NoDup (map fst d) -> NoDup (map fst d')))
       \/ to_print cs l /\ exists t s, o = StreamO t /\ o' = StreamO (t ++ s)).
  Proof.
    intros T F ms h' S l o G. destruct (library_safe _ _ T F S) as [tx [(O & L & _) _]]. cbn in O, L. pose proof (hget_size _ _ _ G) as LT.
    destruct (hget h' l) as [o'|] eqn:G'; [|apply nth_error_None in G'; lia]. exists o'. split; [reflexivity|]. specialize (O _ _ G'). unfold SafeFacts.obj_ok in O. rewrite G in O.
    destruct O as [C _]. destruct C as [|? ? ? ? []|]; [now left|right; left|right; right]; eauto 10.
  Qed.
  Theorem results_new : tame_heap h0 -> Forall no_functions cs -> forall ms h', schedule (threads_of E order cs, h0) (ms, h') ->
    (forall v, In (End (Done v)) ms \/ In (End (Thrown v)) ms -> new_value h0 v) /\
    forall l d, hget h0 l = None -> hget h' l = Some (DictO d) -> Forall (fun kv => new_value h0 (snd kv)) d.
  Proof.
    intros T F ms h' S. destruct (library_safe _ _ T F S) as [tx [(O & L & _) C]]. cbn in O, C. split.
    - intros v V. clear - C V. induction C as [|b m bs ms' X C IH]; [destruct V as [[]|[]]|]. destruct V as [[->|V]|[->|V]]; [exact X|now apply IH; left|exact X|now apply IH; right].
    - intros l d N G. specialize (O _ _ G). rewrite obj_ok_new in O by exact N. exact O.
  Qed.
End Objects.
