(** * ThreadFacts: rules for comparing a thread with the same call running alone. *)
From Verif Require Import PyBase BaseFacts Types PyAst PySem Threads ThreadClaims.
Local Open Scope string_scope.
Local Open Scope list_scope.

Lemma alike_mono frozen b b2 (I : incl b b2) : forall v v', alike frozen b v v' -> alike frozen b2 v v'.
Proof.
  fix IH 3. intros v v' H. destruct H.
  all: try solve [constructor; auto].
  - constructor. revert l l' H. fix IHl 3. intros l l' H. destruct H as [|x y l l' H1 H2]; constructor; [apply IH; exact H1|apply IHl; exact H2].
  - econstructor; [eassumption|assumption|]. intros k v' K. destruct (H1 k v' K) as (v & G & X). exists v. split; [exact G|apply IH; exact X].
Qed.
Lemma alikes_mono frozen b b2 l l' : incl b b2 -> Forall2 (alike frozen b) l l' -> Forall2 (alike frozen b2) l l'.
Proof. intros I H. induction H; constructor; auto. eapply alike_mono; eauto. Qed.
Lemma alike_items_mono {K} frozen b b2 (l l' : list (K * value)) : incl b b2 -> alike_items frozen b l l' -> alike_items frozen b2 l l'.
Proof. intros I H. induction H as [|x y l l' [H1 H2]]; constructor; auto. split; [exact H1|]. eapply alike_mono; eauto. Qed.
Lemma alike_obj_mono frozen b b2 o o' : incl b b2 -> alike_obj frozen b o o' -> alike_obj frozen b2 o o'.
Proof. intros I H. destruct H; constructor; eauto using alikes_mono, alike_items_mono. Qed.

Section F.
  Context (frozen : loc -> option object).
  Local Notation alike := (alike frozen).
  Local Notation alikes b := (Forall2 (alike b)).
  Local Notation alike_obj := (alike_obj frozen).
  Local Notation alike_items := (alike_items frozen).

  Definition good (b : view) (h : heap) : Prop := proper_view frozen b /\ forall l l', In (l, l') b -> l' < length h.
  (** The thread [m], seen with [b] beside the heap [h] it has alone, ends as [Q] says, whatever the others do to the
      rest of the heap. *)
  Fixpoint ok {A} (b : view) (h : heap) (m : act A) (Q : view -> heap -> outcome A -> Prop) : Prop :=
    match m with
    | End o => Q b h o
    | Read l k => (exists l' o', In (l, l') b /\ hget h l' = Some o' /\ forall o, alike_obj b o o' -> ok b h (k o) Q)
                  \/ exists o, frozen l = Some o /\ ok b h (k o) Q
    | Write l o k => exists l' o', In (l, l') b /\ alike_obj b o o' /\ ok b (hset h l' o') k Q
    | Alloc o k => exists o', alike_obj b o o' /\
        forall l, ~ In l (map fst b) -> frozen l = None -> ok ((l, length h) :: b) (h ++ [o']) (k l) Q
    end.
  Lemma ok_weaken {A} (m : act A) : forall b h (Q Q' : view -> heap -> outcome A -> Prop),
    ok b h m Q -> (forall b h o, Q b h o -> Q' b h o) -> ok b h m Q'.
  Proof.
    induction m as [o|l k IH|l o k IH|o k IH]; intros b h Q Q' H W; cbn in *.
    - auto.
    - destruct H as [(l' & o' & I & G & H)|(o & F & H)]; [left; exists l', o'; repeat split; auto; intros; eapply IH; eauto|right; eauto].
    - destruct H as (l' & o' & I & G & H). exists l', o'. repeat split; auto. eapply IH; eauto.
    - destruct H as (o' & G & H). exists o'. split; [exact G|]. intros. eapply IH; eauto.
  Qed.
  Lemma ok_then {A B} (m : act A) (k : outcome A -> act B) : forall b h Q,
    ok b h m (fun b h o => ok b h (k o) Q) -> ok b h (then_t m k) Q.
  Proof.
    induction m as [o|l f IH|l o f IH|o f IH]; intros b h Q H; cbn in *.
    - exact H.
    - destruct H as [(l' & o' & I & G & H)|(o & F & H)]; [left; exists l', o'; repeat split; auto|right; eauto].
    - destruct H as (l' & o' & I & G & H). exists l', o'. repeat split; auto.
    - destruct H as (o' & G & H). exists o'. split; [exact G|]. auto.
  Qed.
  (** The thread [m] ends like [m'] alone, results related by [P], unless [m'] is stuck. *)
  Definition ends_alike {A A'} (b : view) (P : view -> A -> A' -> Prop) (r : outcome A' * heap) (b2 : view) (h2 : heap) (o : outcome A) : Prop :=
    incl b b2 /\ good b2 h2 /\ h2 = snd r /\
    match o, fst r with Done a, Done a' => P b2 a a' | Thrown x, Thrown x' => alike b2 x x' | _, _ => False end.
  Definition sim {A A'} (b : view) (P : view -> A -> A' -> Prop) (m : act A) (m' : comp A') : Prop :=
    forall h, good b h -> match fst (m' h) with Stuck _ => True | _ => ok b h m (ends_alike b P (m' h)) end.
  Definition same {A} (b : view) (x y : A) : Prop := x = y.

  Lemma sim_stuck {A A'} b (P : view -> A -> A' -> Prop) m w : sim b P m (stuck w).
  Proof. intros h G. exact I. Qed.
  Lemma sim_done {A A'} b (P : view -> A -> A' -> Prop) a a' : P b a a' -> sim b P (done_t a) (done a').
  Proof. intros H h G. cbn. split; [apply incl_refl|]. auto. Qed.
  Lemma sim_throw {A A'} b (P : view -> A -> A' -> Prop) c t : sim b P (throw_t c t) (throw c t).
  Proof. intros h G. cbn. split; [apply incl_refl|]. split; [exact G|]. split; [reflexivity|constructor]. Qed.
  Lemma sim_get b l l' : In (l, l') b -> sim b alike_obj (get_t l) (get l').
  Proof.
    intros I h G. unfold get. destruct (hget h l') as [o'|] eqn:Ho; cbn; [|exact Logic.I]. left. exists l', o'. repeat split; auto using incl_refl.
    all: apply G.
  Qed.
  Lemma good_write b h l o : good b h -> good b (hset h l o).
  Proof.
    intros [P L]. split; [exact P|]. intros x y I. specialize (L x y I). assert (length (hset h l o) = length h) as ->; [|exact L].
    clear. revert l. induction h as [|a h IH]; intros [|l]; cbn; auto.
  Qed.
  Lemma sim_put b l l' o o' : In (l, l') b -> alike_obj b o o' -> sim b same (put_t l o) (put l' o').
  Proof. intros I O h G. cbn. exists l', o'. split; [exact I|]. split; [exact O|]. split; [apply incl_refl|]. split; [apply good_write, G|]. split; reflexivity. Qed.
  Lemma good_alloc b h l o : good b h -> ~ In l (map fst b) -> frozen l = None -> good ((l, length h) :: b) (h ++ [o]).
  Proof.
    intros [(N1 & N2 & F) L] Nl Fl. split; [split; [|split]|].
    - cbn. constructor; assumption.
    - cbn. constructor; [|assumption]. intro X. apply in_map_iff in X as ([x y] & E & X). cbn in E. subst y. specialize (L _ _ X). lia.
    - intros x [<-|X]; auto.
    - intros x y [[= <- <-]|X]; rewrite app_length; cbn; [lia|]. specialize (L _ _ X). lia.
  Qed.
  Lemma sim_new b o o' : alike_obj b o o' -> sim b alike (new_t o) (new o').
  Proof.
    intros O h G. cbn. exists o'. split; [exact O|]. intros l Nl Fl. split; [apply incl_tl, incl_refl|]. split; [apply good_alloc; assumption|].
    split; [reflexivity|]. constructor. left. reflexivity.
  Qed.
  Lemma sim_then {A A' B B'} b (P : view -> A -> A' -> Prop) (P2 : view -> B -> B' -> Prop) m m' k (k' : outcome A' -> comp B') :
    sim b P m m' -> (forall w, exists w', forall h, k' (Stuck w) h = (Stuck w', h)) ->
    (forall b2 a a', incl b b2 -> P b2 a a' -> sim b2 P2 (k (Done a)) (k' (Done a'))) ->
    (forall b2 x x', incl b b2 -> alike b2 x x' -> sim b2 P2 (k (Thrown x)) (k' (Thrown x'))) ->
    sim b P2 (then_t m k) (fun h => k' (fst (m' h)) (snd (m' h))).
  Proof.
    intros S K HD HT h G. specialize (S h G). destruct (m' h) as [o' h'] eqn:M. cbn [fst snd] in *.
    destruct o' as [a'|x'|w].
    - destruct (k' (Done a') h') as [r' h2] eqn:K'. assert (W := ok_then m k b h). destruct r' as [c'|x'|w]; cbn [fst] in *; [| |exact I].
      all: apply W; eapply ok_weaken; [exact S|]; intros b2 h3 o (I2 & G2 & E2 & M2); cbn in E2, M2; subst h3; destruct o as [a|x|w]; try contradiction;
        specialize (HD b2 a a' I2 M2 h' G2); rewrite K' in HD; cbn [fst] in HD; eapply ok_weaken; [exact HD|];
        intros b3 h3 o (I3 & X); split; [eapply incl_tran; eauto|exact X].
    - destruct (k' (Thrown x') h') as [r' h2] eqn:K'. assert (W := ok_then m k b h). destruct r' as [c'|y'|w]; cbn [fst] in *; [| |exact I].
      all: apply W; eapply ok_weaken; [exact S|]; intros b2 h3 o (I2 & G2 & E2 & M2); cbn in E2, M2; subst h3; destruct o as [a|x|w]; try contradiction;
        specialize (HT b2 x x' I2 M2 h' G2); rewrite K' in HT; cbn [fst] in HT; eapply ok_weaken; [exact HT|];
        intros b3 h3 o (I3 & X); split; [eapply incl_tran; eauto|exact X].
    - destruct (K w) as (w' & ->). exact I.
  Qed.
  Lemma sim_same {A A'} b (P : view -> A -> A' -> Prop) m m1 m2 : sim b P m m1 -> (forall h, m1 h = m2 h) -> sim b P m m2.
  Proof. intros S X h G. rewrite <- X. apply S, G. Qed.
  Lemma sim_thrown {A A'} b (P : view -> A -> A' -> Prop) x x' : alike b x x' -> sim b P (End (Thrown x)) (fun h => (Thrown x', h)).
  Proof. intros X h G. cbn. split; [apply incl_refl|]. auto. Qed.
  Lemma sim_seq {A A' B B'} b (P : view -> A -> A' -> Prop) (P2 : view -> B -> B' -> Prop) m m' k k' :
    sim b P m m' -> (forall b2 a a', incl b b2 -> P b2 a a' -> sim b2 P2 (k a) (k' a')) -> sim b P2 (seq_t m k) (seqc m' k').
  Proof.
    intros S K. eapply sim_same.
    - apply (sim_then b P P2 m m' _ (fun o => match o with Done a => k' a | Thrown x => fun h => (Thrown x, h) | Stuck w => fun h => (Stuck w, h) end) S).
      + intro w. exists w. reflexivity.
      + exact K.
      + intros b2 x x' _ X. apply sim_thrown, X.
    - intro h. unfold seqc. destruct (m' h) as [[a|x|w] h']; reflexivity.
  Qed.
  Lemma sim_weaken {A A'} b (P P' : view -> A -> A' -> Prop) m m' : sim b P m m' -> (forall b2 a a', incl b b2 -> P b2 a a' -> P' b2 a a') -> sim b P' m m'.
  Proof.
    intros S W h G. specialize (S h G). destruct (m' h) as [[a'|x'|w] h']; cbn [fst] in *; [| |exact I].
    all: eapply ok_weaken; [exact S|]; intros b2 h2 o (I2 & G2 & E2 & M2); split; [exact I2|]; split; [exact G2|]; split; [exact E2|];
      destruct o; cbn in *; auto.
  Qed.
  Lemma sim_read_frozen {A A'} b (P : view -> A -> A' -> Prop) l o k m' : frozen l = Some o -> sim b P (k o) m' -> sim b P (seq_t (get_t l) k) m'.
  Proof.
    intros F S h G. specialize (S h G). destruct (m' h) as [[a'|x'|w] h']; cbn [fst] in *; [| |exact I].
    all: cbn; right; exists o; split; [exact F|exact S].
  Qed.
End F.
