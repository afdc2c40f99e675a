(** * ThreadMachine: whatever the schedule, each thread ends as it does alone. *)
From Coq Require Import Lia.
From Verif Require Import PyBase BaseFacts Types PyAst PySem Threads ThreadClaims ThreadFacts.
Local Open Scope list_scope.

Lemma hset_same h : forall l o, l < length h -> hget (hset h l o) l = Some o.
Proof. unfold hget. induction h as [|x h IH]; intros [|l] o L; cbn in *; try lia; [reflexivity|]. apply IH. lia. Qed.
Lemma hset_other h : forall l l' o, l <> l' -> hget (hset h l o) l' = hget h l'.
Proof. unfold hget. induction h as [|x h IH]; intros [|l] [|l'] o N; cbn; try reflexivity; [congruence|]. apply IH. congruence. Qed.
Lemma hset_size h : forall l o, length (hset h l o) = length h.
Proof. induction h as [|x h IH]; intros [|l] o; cbn; try reflexivity. now rewrite IH. Qed.
Lemma hget_size h l o : hget h l = Some o -> l < length h.
Proof. intro H. apply nth_error_Some. unfold hget in H. congruence. Qed.
Lemma hget_old h o l x : hget h l = Some x -> hget (h ++ [o]) l = Some x.
Proof. intro H. unfold hget in *. rewrite nth_error_app1; [exact H|]. apply nth_error_Some. congruence. Qed.
Lemma hget_new h o : hget (h ++ [o]) (length h) = Some o.
Proof. unfold hget. rewrite nth_error_app2 by lia. now rewrite PeanoNat.Nat.sub_diag. Qed.

Lemma fst_unique {A B} (b : list (A * B)) x y z : NoDup (map fst b) -> In (x, y) b -> In (x, z) b -> y = z.
Proof.
  induction b as [|[p q] b IH]; cbn; [tauto|]. intros N. inversion N as [|? ? N1 N2]; subst. intros [Q|H] [R|K]; [congruence| | |auto].
  - exfalso. apply N1. injection Q as -> _. now apply (in_map fst) in K.
  - exfalso. apply N1. injection R as -> _. now apply (in_map fst) in H.
Qed.
Lemma snd_unique {A B} (b : list (A * B)) x y z : NoDup (map snd b) -> In (x, z) b -> In (y, z) b -> x = y.
Proof.
  induction b as [|[p q] b IH]; cbn; [tauto|]. intros N. inversion N as [|? ? N1 N2]; subst. intros [Q|H] [R|K]; [congruence| | |auto].
  - exfalso. apply N1. injection Q as _ ->. now apply (in_map snd) in K.
  - exfalso. apply N1. injection R as _ ->. now apply (in_map snd) in H.
Qed.

Section M.
  Context (frozen : loc -> option object) (H0 : heap).
  Local Notation alike := (alike frozen).
  Local Notation alike_obj := (alike_obj frozen).
  Local Notation shows_heap := (shows_heap frozen).
  Local Notation ok := (ok frozen).
  Local Notation good := (good frozen).
  (** What a thread starts with, and what it ends with alone. *)
  Definition goal := (view * (outcome value * heap))%type.
  Definition grown (b0 b : view) : Prop := incl b0 b /\ forall l l', In (l, l') b -> In (l, l') b0 \/ length H0 <= l.
  Definition thread_ok (H : heap) (b : view) (m : act value) (g : goal) : Prop :=
    exists h, ok b h m (ends_alike frozen (fst g) alike (snd g)) /\ good b h /\ shows_heap b H h /\ grown (fst g) b.
  Definition Inv (goals : list goal) (s : machine_state) : Prop :=
    let (ms, H) := s in
    length ms = length goals /\ length H0 <= length H /\ (forall l o, frozen l = Some o -> hget H l = Some o) /\
    exists B : nat -> view,
      (forall i, length ms <= i -> B i = []) /\
      (forall i m g, nth_error ms i = Some m -> nth_error goals i = Some g -> thread_ok H (B i) m g) /\
      (forall i j l, i <> j -> In l (map fst (B i)) -> ~ In l (map fst (B j))).

  Definition put_view (B : nat -> view) (n : nat) (b : view) : nat -> view := fun i => if Nat.eqb i n then b else B i.
  Lemma put_view_at B n b : put_view B n b n = b.
  Proof. unfold put_view. now rewrite PeanoNat.Nat.eqb_refl. Qed.
  Lemma put_view_other B n b i : i <> n -> put_view B n b i = B i.
  Proof. intro N. unfold put_view. now rewrite (proj2 (PeanoNat.Nat.eqb_neq i n) N). Qed.
  Lemma nth_middle {A} (l : list A) x r : nth_error (l ++ x :: r) (length l) = Some x.
  Proof. rewrite nth_error_app2 by lia. now rewrite PeanoNat.Nat.sub_diag. Qed.
  Lemma nth_others {A} (l : list A) x y r i : i <> length l -> nth_error (l ++ x :: r) i = nth_error (l ++ y :: r) i.
  Proof.
    intro N. destruct (Compare_dec.le_lt_dec (length l) i) as [L|L].
    - rewrite !nth_error_app2 by lia. destruct (i - length l) eqn:D; [lia|reflexivity].
    - now rewrite !nth_error_app1 by lia.
  Qed.

  Lemma shown_lt b H h l l' : shows_heap b H h -> In (l, l') b -> l < length H.
  Proof. intros S I. destruct (S _ _ I) as (o & o' & G & _). eapply hget_size, G. Qed.
  Lemma shown_write_self b H h l l' o o' : good b h -> shows_heap b H h -> In (l, l') b -> alike_obj b o o' -> shows_heap b (hset H l o) (hset h l' o').
  Proof.
    intros [(N1 & N2 & _) L] S I O x x' X. destruct (PeanoNat.Nat.eq_dec l x) as [<-|N].
    - rewrite (fst_unique _ _ _ _ N1 X I). exists o, o'. rewrite hset_same by (eapply shown_lt; eassumption). rewrite hset_same by (eapply L; eassumption). auto.
    - assert (l' <> x') by (intros <-; apply N; eapply snd_unique; eassumption). rewrite !hset_other by assumption. now apply S.
  Qed.
  Lemma shown_write_else b H h l o : shows_heap b H h -> ~ In l (map fst b) -> shows_heap b (hset H l o) h.
  Proof. intros S N x x' X. rewrite hset_other; [now apply S|]. intros ->. apply N. now apply (in_map fst) in X. Qed.
  Lemma shown_alloc_else b H h o : shows_heap b H h -> shows_heap b (H ++ [o]) h.
  Proof. intros S x x' X. destruct (S _ _ X) as (p & p' & P & R). exists p, p'. split; [now apply hget_old|exact R]. Qed.
  Lemma shown_alloc_self b H h o o' : shows_heap b H h -> alike_obj b o o' -> shows_heap ((length H, length h) :: b) (H ++ [o]) (h ++ [o']).
  Proof.
    intros S O x x' [[= <- <-]|X].
    - exists o, o'. rewrite !hget_new. repeat split. eapply alike_obj_mono; [|exact O]. apply incl_tl, incl_refl.
    - destruct (S _ _ X) as (p & p' & P & R & Q). exists p, p'. split; [now apply hget_old|]. split; [now apply hget_old|]. eapply alike_obj_mono; [|exact Q]. apply incl_tl, incl_refl.
  Qed.

  Lemma inv_switch goals s s' : Inv goals s -> switch s s' -> Inv goals s'.
  Proof.
    intros V W. destruct W as [before m m' after H H' NE A]. destruct V as (LEN & GROW & FR & B & OUT & OK & DIS).
    set (n := length before) in *.
    assert (Hm : nth_error (before ++ m :: after) n = Some m) by apply nth_middle.
    assert (Hg : exists g, nth_error goals n = Some g).
    { destruct (nth_error goals n) eqn:G; [eauto|]. apply nth_error_None in G. rewrite <- LEN, app_length in G. cbn in G. subst n. lia. }
    destruct Hg as (g & Hg). destruct (OK _ _ _ Hm Hg) as (h & K & GD & S & GR).
    assert (LEN' : length (before ++ m' :: after) = length goals) by (rewrite <- LEN, !app_length; reflexivity).
    assert (STEP : forall b H1, length H <= length H1 -> (forall l o, frozen l = Some o -> hget H1 l = Some o) ->
        thread_ok H1 b m' g -> (forall l, In l (map fst b) -> In l (map fst (B n)) \/ l = length H) ->
        (forall i h2, i <> n -> shows_heap (B i) H h2 -> shows_heap (B i) H1 h2) -> Inv goals (before ++ m' :: after, H1)).
    { intros b H1 L1 F1 T1 NEW ELSE. split; [exact LEN'|]. split; [lia|]. split; [exact F1|]. exists (put_view B n b). split; [|split].
      - intros i I. rewrite put_view_other; [apply OUT|].
        + rewrite app_length in *. exact I.
        + rewrite app_length in I. cbn in I. subst n. lia.
      - intros i mi gi Mi Gi. destruct (PeanoNat.Nat.eq_dec i n) as [->|N].
        + rewrite put_view_at. unfold n in Mi. rewrite nth_middle in Mi. injection Mi as <-. replace gi with g by congruence. exact T1.
        + rewrite put_view_other by exact N. rewrite (nth_others _ m' m) in Mi by exact N.
          destruct (OK _ _ _ Mi Gi) as (hi & Ki & GDi & Si & GRi). exists hi. repeat split; auto; try apply GDi; apply GRi.
      - assert (LT : forall i, i <> n -> ~ In (length H) (map fst (B i))).
        { intros i N I. destruct (nth_error (before ++ m :: after) i) as [mi|] eqn:Mi.
          - destruct (nth_error goals i) as [gi|] eqn:Gi.
            + destruct (OK _ _ _ Mi Gi) as (hi & _ & _ & Si & _). apply in_map_iff in I as [[x x'] [X I]]. cbn in X. subst x.
              pose proof (shown_lt _ _ _ _ _ Si I). lia.
            + apply nth_error_None in Gi. rewrite <- LEN in Gi. apply nth_error_None in Gi. congruence.
          - apply nth_error_None in Mi. rewrite (OUT _ Mi) in I. exact I. }
        intros i j l N I J. destruct (PeanoNat.Nat.eq_dec i n) as [->|Ni]; [|destruct (PeanoNat.Nat.eq_dec j n) as [->|Nj]].
        + rewrite put_view_at in I. rewrite put_view_other in J by congruence. destruct (NEW _ I) as [I'| ->]; [exact (DIS n j l N I' J)|exact (LT j (not_eq_sym N) J)].
        + rewrite put_view_at in J. rewrite put_view_other in I by exact Ni. destruct (NEW _ J) as [J'| ->]; [exact (DIS i n l N I J')|exact (LT i Ni I)].
        + rewrite put_view_other in I by exact Ni. rewrite put_view_other in J by exact Nj. exact (DIS i j l N I J). }
    destruct m as [o|l k|l o k|o k]; cbn in A, K.
    - exfalso. eapply NE. reflexivity.
    - destruct K as [(l' & o' & I & G & K)|(o & F & K)].
      + destruct (S _ _ I) as (p & p' & P1 & P2 & P3). rewrite P1 in A. injection A as <- <-. replace p' with o' in P3 by congruence.
        apply (STEP (B n) H); auto. exists h. auto.
      + rewrite (FR _ _ F) in A. injection A as <- <-. apply (STEP (B n) H); auto. exists h. auto.
    - injection A as <- <-. destruct K as (l' & o' & I & O & K). assert (IN : In l (map fst (B n))) by now apply (in_map fst) in I.
      apply (STEP (B n) (hset H l o)); [now rewrite hset_size| | |auto|].
      + intros x y F. rewrite hset_other; [now apply FR|]. intros <-. destruct GD as [(_ & _ & NF) _]. rewrite (NF _ IN) in F. discriminate.
      + exists (hset h l' o'). split; [exact K|]. split; [now apply good_write|]. split; [|exact GR]. now apply shown_write_self.
      + intros i h2 N S2. apply shown_write_else; [exact S2|]. intro J. exact (DIS i n l N J IN).
    - injection A as <- <-. destruct K as (o' & O & K).
      assert (NI : ~ In (length H) (map fst (B n))).
      { intro I. apply in_map_iff in I as [[x x'] [X I]]. cbn in X. subst x. pose proof (shown_lt _ _ _ _ _ S I). lia. }
      assert (NF : frozen (length H) = None).
      { destruct (frozen (length H)) as [x|] eqn:F; [|reflexivity]. apply FR in F. apply hget_size in F. lia. }
      apply (STEP ((length H, length h) :: B n) (H ++ [o])); [rewrite app_length; cbn; lia| | | |].
      + intros x y F. apply hget_old. now apply FR.
      + exists (h ++ [o']). split; [apply K; assumption|]. split; [now apply good_alloc|]. split; [now apply shown_alloc_self|].
        destruct GR as [G1 G2]. split; [now apply incl_tl|]. intros x x' [[= <- <-]|X]; [right; exact GROW|now apply G2].
      + cbn. intros x [<-|X]; auto.
      + intros i h2 N S2. now apply shown_alloc_else.
  Qed.
  Lemma inv_schedule goals s s' : schedule s s' -> Inv goals s -> Inv goals s'.
  Proof. induction 1; intros V; [exact V|]. apply IHschedule. eapply inv_switch; eassumption. Qed.

  (** What is known of a thread that has ended. *)
  Lemma inv_end goals ms H i o g : Inv goals (ms, H) -> nth_error ms i = Some (End o) -> nth_error goals i = Some g ->
    exists b, grown (fst g) b /\ proper_view frozen b /\ shows_heap b H (snd (snd g)) /\ alike_outcome frozen b o (fst (snd g)).
  Proof.
    intros (_ & _ & _ & B & _ & OK & _) M G. destruct (OK _ _ _ M G) as (h & K & [P _] & S & GR). cbn in K. destruct K as (_ & _ & -> & K).
    exists (B i). repeat split; try apply GR; try apply P; try exact S. unfold alike_outcome. destruct o, (fst (snd g)); tauto.
  Qed.
End M.

(** ** Every schedule comes to an end *)
Definition child {A} (m' m : act A) : Prop := (forall o, m <> End o) /\ exists h h', access m h = (m', h').
Lemma child_acc {A} (m : act A) : Acc child m.
Proof.
  assert (EA : forall o, Acc child (End o : act A)). { intro o. constructor. intros m' [N _]. exfalso. eapply N. reflexivity. }
  induction m as [o|l k IH|l o k IH|o k IH]; [apply EA| | |]; constructor; intros m' (_ & h & h' & X); cbn in X.
  - destruct (hget h l); injection X as <- <-; auto.
  - injection X as <- <-. exact IH.
  - injection X as <- <-. apply IH.
Qed.
Inductive step_list {A} : list (act A) -> list (act A) -> Prop :=
| StepList before m m' after : child m' m -> step_list (before ++ m' :: after) (before ++ m :: after).
Lemma step_list_acc {A} (ms : list (act A)) : Acc step_list ms.
Proof.
  induction ms as [|m ms IH].
  - constructor. intros y Y. inversion Y as [b x x' a C E1 E2]. destruct b; discriminate.
  - revert ms IH. induction (child_acc m) as [m _ IHm]. intros ms AL. induction AL as [ms AL IHl]. constructor. intros y Y. inversion Y as [b x x' a C E1 E2].
    destruct b as [|z b]; cbn in *.
    + injection E2 as -> ->. apply IHm; [exact C|]. constructor. exact AL.
    + injection E2 as -> <-. apply IHl. now constructor.
Qed.
Lemma switch_wf : well_founded (fun s' s => switch s s').
Proof.
  intros [ms h]. revert h. induction (step_list_acc ms) as [ms _ IH]. intro h. constructor. intros [ms' h'] W.
  inversion W as [b m m' a hh hh' NE A]; subst. apply IH. constructor. split; [exact NE|]. eauto.
Qed.
Lemma no_switch_ended ms h : (forall s, ~ switch (ms, h) s) -> Forall (fun m => exists o, m = End o) ms.
Proof.
  intro N. apply Forall_forall. intros m I. apply in_split in I as (b & a & ->).
  destruct (access m h) as [m' h'] eqn:A. destruct m as [o|l k|l o k|o k]; [eauto| | |]; exfalso; eapply N; (econstructor; [discriminate|exact A]).
Qed.
