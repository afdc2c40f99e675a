(** * ThreadSim: a thread running a function does what the function does alone. *)
From Verif Require Import PyBase BaseFacts PyFormat Types PyAst PySem Threads ThreadClaims ThreadFacts.
Local Open Scope string_scope.
Local Open Scope list_scope.

Lemma forall2_length {A B} (P : A -> B -> Prop) l l' : Forall2 P l l' -> length l = length l'.
Proof. induction 1; cbn; congruence. Qed.
Lemma forall2_impl {A B} (P Q : A -> B -> Prop) l l' : (forall a b, P a b -> Q a b) -> Forall2 P l l' -> Forall2 Q l l'.
Proof. intros W H. induction H; constructor; auto. Qed.
Section S.
  Context (frozen : loc -> option object).
  Local Notation alike := (alike frozen).
  Local Notation alikes b := (Forall2 (alike b)).
  Local Notation alike_obj := (alike_obj frozen).
  Local Notation alike_items := (alike_items frozen).
  Local Notation sim := (sim frozen).

  (** ** Dicts and lists *)
  Lemma key_of_alike b v v' : alike b v v' -> key_of v = key_of v'.
  Proof. now destruct 1. Qed.
  Definition alike_opt (b : view) (o o' : option value) : Prop :=
    match o, o' with Some v, Some v' => alike b v v' | None, None => True | _, _ => False end.
  Lemma dget_alike {K} (eqb : K -> K -> bool) b k i i' : alike_items b i i' -> alike_opt b (dget eqb k i) (dget eqb k i').
  Proof. intro H. induction H as [|[x v] [y v'] i i' [E A] H IH]; cbn in *; [exact I|]. subst y. destruct (eqb k x); [exact A|exact IH]. Qed.
  Lemma dset_alike {K} (eqb : K -> K -> bool) b k v v' i i' : alike b v v' -> alike_items b i i' -> alike_items b (dset eqb k v i) (dset eqb k v' i').
  Proof.
    intros V H. induction H as [|[x w] [y w'] i i' [E A] H IH]; cbn in *.
    - constructor; [split; [reflexivity|exact V]|constructor].
    - subst y. destruct (eqb k x); constructor; auto; split; auto.
  Qed.
  Lemma dpop_alike {K} (eqb : K -> K -> bool) b k (i i' : list (K * value)) : alike_items b i i' -> alike_items b (dpop eqb k i) (dpop eqb k i').
  Proof. intro H. induction H as [|[x w] [y w'] i i' [E A] H IH]; cbn in *; [constructor|]. subst y. destruct (eqb k x); [exact H|constructor; auto]. Qed.
  Lemma keys_alike {K} b (i i' : list (K * value)) : alike_items b i i' -> map fst i = map fst i'.
  Proof. intro H. induction H as [|[x w] [y w'] i i' [E A] H IH]; cbn in *; congruence. Qed.
  Lemma dmem_alike {K} (eqb : K -> K -> bool) b k (i i' : list (K * value)) : alike_items b i i' -> dmem eqb k i = dmem eqb k i'.
  Proof. intro H. unfold dmem. apply (dget_alike eqb b k) in H. unfold alike_opt in H. destruct (dget eqb k i), (dget eqb k i'); tauto. Qed.
  Lemma same_dmem {K} (eqb : K -> K -> bool) b k (i i' : list (K * value)) : alike_items b i i' -> same b (dmem eqb k i) (dmem eqb k i').
  Proof. apply dmem_alike. Qed.
  Lemma from_items_alike b i i' : alike_items b i i' -> alike_items b (from_items i) (from_items i').
  Proof.
    unfold from_items. assert (X : forall j j', alike_items b i i' -> alike_items b j j' ->
      alike_items b (fold_left (fun d kv => dset key_eqb (fst kv) (snd kv) d) i j) (fold_left (fun d kv => dset key_eqb (fst kv) (snd kv) d) i' j')).
    { intros j j' H. revert j j'. induction H as [|[x w] [y w'] i i' [E A] H IH]; cbn in *; intros j j' J; [exact J|]. subst y. apply IH. now apply dset_alike. }
    intro H. apply X; [exact H|constructor].
  Qed.
  Lemma immutable_alike b l l' : alikes b l l' -> forallb immutable l' = true -> l = l'.
  Proof.
    intro H. induction H as [|v v' l l' A H IH]; cbn; [reflexivity|]. intro X. apply andb_prop in X as [X Y]. f_equal; [|auto].
    destruct A; try discriminate; reflexivity.
  Qed.
  Lemma immutable_same b l l' : alikes b l l' -> forallb immutable l = forallb immutable l' \/ forallb immutable l' = false.
  Proof. intro H. destruct (forallb immutable l') eqn:E; [left|right; reflexivity]. now rewrite (immutable_alike _ _ _ H E). Qed.
  Lemma alikes_immutable b l : forallb immutable l = true -> alikes b l l.
  Proof. induction l as [|v l IH]; cbn; [constructor|]. intro H. apply andb_prop in H as [H1 H2]. constructor; [|auto]. destruct v; try discriminate; constructor. Qed.
  Lemma alikes_ints b l : alikes b (map IntV l) (map IntV l).
  Proof. induction l; cbn; constructor; auto. constructor. Qed.
  Lemma alikes_count b n : forall s k, alikes b (count_from n s k) (count_from n s k).
  Proof. induction n; intros; cbn; constructor; auto. constructor. Qed.
  Lemma alikes_keys b (d d' : list (pykey * value)) : alike_items b d d' -> alikes b (map (fun kv => of_key (fst kv)) d) (map (fun kv => of_key (fst kv)) d').
  Proof. intro H. induction H as [|[k x] [k' x'] d d' [K V] H IH]; cbn in *; constructor; auto. subst k'. destruct k; constructor. Qed.
  Lemma alikes_enumerated b x : alikes b (enumerated x) (enumerated x).
  Proof. unfold enumerated. induction (combine _ _); cbn; constructor; auto. constructor. repeat constructor. Qed.
  Lemma alikes_app b l l' m m' : alikes b l l' -> alikes b m m' -> alikes b (l ++ m) (l' ++ m').
  Proof. apply Forall2_app. Qed.
  Lemma alikes_concat b l l' : Forall2 (alikes b) l l' -> alikes b (concat l) (concat l').
  Proof. intro H. induction H; cbn; [constructor|]. now apply alikes_app. Qed.
  Lemma combine_alike b (p : list string) a a' : alikes b a a' -> alike_items b (combine p a) (combine p a').
  Proof. intro H. revert p. induction H as [|v v' a a' V H IH]; intros [|x p]; cbn; constructor; [split; [reflexivity|exact V]|apply IH]. Qed.
  Definition alike_keyed (b : view) (x y : Z * value) : Prop := fst x = fst y /\ alike b (snd x) (snd y).
  Lemma sort_alike b l l' : Forall2 (alike_keyed b) l l' -> alikes b (sort_by l) (sort_by l').
  Proof.
    intro H. unfold sort_by. assert (X : Forall2 (alike_keyed b) (fold_right insert_key [] l) (fold_right insert_key [] l')).
    { induction H as [|x y l l' A H IH]; cbn; [constructor|]. revert IH A. clear. intros H A. induction H as [|z w m m' B H IH]; cbn; [repeat constructor; apply A|].
      destruct A as [A1 A2], B as [B1 B2]. rewrite A1, B1. destruct (fst y <=? fst w)%Z; repeat constructor; auto. }
    clear H. induction X as [|x y m m' [_ A] X IH]; cbn; constructor; auto.
  Qed.
  Lemma sim_each {A A' B B'} (Pa : view -> A -> A' -> Prop) (Pb : view -> B -> B' -> Prop) f f' :
    (forall b b2 x y, incl b b2 -> Pa b x y -> Pa b2 x y) -> (forall b b2 x y, incl b b2 -> Pb b x y -> Pb b2 x y) ->
    forall b l l', Forall2 (Pa b) l l' -> (forall b2 a a', incl b b2 -> Pa b2 a a' -> sim b2 Pb (f a) (f' a')) ->
    sim b (fun b => Forall2 (Pb b)) (each_t f l) (each f' l').
  Proof.
    intros Ma Mb b l l' H. revert b H. intros b H. revert H. generalize l'. clear l'. induction l as [|a l IH] in b |- *; intros l' H F; inversion H as [|? a' ? m' H1 H2]; subst; cbn.
    - apply sim_done. constructor.
    - eapply sim_seq; [apply F; [apply incl_refl|exact H1]|]. intros b2 x x' I X. eapply sim_seq.
      + apply (IH b2 m'); [|intros b3 y y' J; apply F; eapply incl_tran; eauto]. eapply forall2_impl; [|exact H2]. intros; eapply Ma; eauto.
      + intros b3 y y' J Y. apply sim_done. constructor; [eapply Mb; eauto|exact Y].
  Qed.
End S.

Ltac up I :=
  repeat match type of I with
         | incl ?b ?b2 =>
           match goal with
           | H : alike _ b _ _ |- _ => apply (alike_mono _ _ _ I) in H
           | H : Forall2 (alike _ b) _ _ |- _ => apply (alikes_mono _ _ _ _ _ I) in H
           | H : alike_items _ b _ _ |- _ => apply (alike_items_mono _ _ _ _ _ I) in H
           | H : alike_obj _ b _ _ |- _ => apply (alike_obj_mono _ _ _ _ _ I) in H
           | H : In _ b |- _ => apply I in H
           end
         end.
Create HintDb sim.
Create HintDb alike.
Ltac al := solve [eauto 6 with alike | constructor; eauto 6 with alike | repeat (constructor; eauto 4 with alike)].
(** One step, led by what runs alone. *)
Ltac st1 :=
  cbv beta iota zeta;
  match goal with
  | H : same ?b ?x ?y |- _ => unfold same in H; subst
  | |- sim _ _ _ _ (stuck _) => apply sim_stuck
  | |- sim _ _ _ (throw_t _ _) (throw _ _) => apply sim_throw
  | |- sim _ _ _ (done_t _) (done _) => apply sim_done; first [reflexivity|al|idtac]
  | |- sim _ _ _ (new_t _) (new _) => apply sim_new; first [al|idtac]
  | |- sim _ _ _ (put_t _ _) (put _ _) => apply sim_put; [eassumption|first [al|idtac]]
  | |- sim _ _ _ (get_t _) (get _) => apply sim_get; eassumption
  | |- sim _ _ _ (seq_t _ _) (seqc _ _) =>
      eapply sim_seq; [solve [eauto 6 with sim alike|st1; fail]|let I := fresh "I" in intros ? ? ? I ?; up I]
  | H : alike _ _ ?v ?v' |- sim _ _ _ _ (match ?v' with _ => _ end) => destruct H
  | H : alike_items _ _ ?i ?i' |- sim _ _ _ _ (match dget ?q ?k ?i' with _ => _ end) =>
      let X := fresh "X" in pose proof (dget_alike _ q _ k _ _ H) as X; unfold alike_opt in X; destruct (dget q k i), (dget q k i'); try contradiction
  | H : alike_obj _ _ ?v ?v' |- sim _ _ _ _ (match ?v' with _ => _ end) => destruct H
  | H : Forall2 (alike _ _) ?v ?v' |- sim _ _ _ _ (match ?v' with _ => _ end) => destruct H
  | |- sim _ _ _ _ (if ?c then _ else _) => destruct c eqn:?
  | |- sim _ _ _ _ (match ?c with _ => _ end) => destruct c eqn:?
  | |- sim _ _ _ _ _ => solve [eauto 6 with sim alike]
  end.
Ltac st := repeat st1.
Global Hint Resolve sim_get sim_put sim_new : sim.
Global Hint Constructors alike alike_obj : alike.
Global Hint Resolve alikes_ints alikes_count alikes_keys alikes_enumerated alikes_app alikes_concat combine_alike sort_alike
  same_dmem dset_alike dpop_alike from_items_alike alikes_immutable : alike.

Section Prim.
  Context (frozen : loc -> option object) (E : pyenv) (order : list Z -> list Z).
  Local Notation alike := (alike frozen).
  Local Notation alikes b := (Forall2 (alike b)).
  Local Notation alike_obj := (alike_obj frozen).
  Local Notation alike_items := (alike_items frozen).
  Local Notation sim := (sim frozen).
  Local Notation alike_keyed := (alike_keyed frozen).

  Lemma sim_truth b v v' : alike b v v' -> sim b same (truth_t v) (truth v').
  Proof. intro H. unfold truth_t, truth. st. Qed.
  Lemma sim_int_text b n : sim b same (int_text_t E n) (int_text E n).
  Proof. unfold int_text_t, int_text. st. Qed.
  Hint Resolve sim_truth sim_int_text : sim.
  Lemma sim_repr b v v' : alike b v v' -> sim b same (repr_of_t E v) (repr_of E v').
  Proof. intro H. unfold repr_of_t, repr_of. st. Qed.
  Hint Resolve sim_repr : sim.
  Lemma sim_each_same {B} b l l' (f : value -> act B) f' : alikes b l l' -> (forall b v v', alike b v v' -> sim b same (f v) (f' v')) ->
    sim b same (each_t f l) (each f' l').
  Proof.
    intros H F. eapply sim_weaken; [apply (sim_each frozen alike same f f')|].
    - intros; eapply alike_mono; eauto.
    - intros ? ? ? ? _ X. exact X.
    - exact H.
    - intros b2 a a' _ X. apply F, X.
    - intros b2 a a' _ X. unfold same in *. induction X; congruence.
  Qed.
  Hint Resolve sim_each_same : sim.
  Lemma sim_str_of b v v' : alike b v v' -> sim b same (str_of_t E v) (str_of E v').
  Proof. intro H. unfold str_of_t, str_of. st. Qed.
  Lemma sim_binop b op v v' w w' : alike b v v' -> alike b w w' -> sim b alike (binop_t op v w) (binop op v' w').
  Proof. intros H G. unfold binop_t, binop. st. Qed.
  Hint Resolve sim_str_of sim_binop : sim.
  Lemma sim_inplace b op v v' w w' : alike b v v' -> alike b w w' -> sim b alike (inplace_t op v w) (inplace op v' w').
  Proof.
    intros H G. assert (B := sim_binop b op v v' w w' H G). unfold inplace_t, inplace. destruct op; try exact B. destruct H; try exact B.
    - destruct G; try exact B. st.
    - destruct G; exact B.
  Qed.
  Lemma sim_equal b v v' w w' : alike b v v' -> alike b w w' -> sim b same (equal_t v w) (equal v' w').
  Proof. intros H G. unfold equal_t, equal. st. Qed.
  Lemma sim_is_none b v v' w w' : alike b v v' -> alike b w w' -> sim b same (is_none_t v w) (is_none v' w').
  Proof. intros H G. unfold is_none_t, is_none. destruct G; try apply sim_stuck. apply sim_done. destruct H; reflexivity. Qed.
  Lemma sim_contains b v v' w w' : alike b v v' -> alike b w w' -> sim b same (contains_t v w) (contains v' w').
  Proof. intros H G. unfold contains_t, contains. rewrite (key_of_alike _ _ _ _ H). st. Qed.
  Hint Resolve sim_inplace sim_equal sim_is_none sim_contains : sim.
  Lemma sim_compare b op v v' w w' : alike b v v' -> alike b w w' -> sim b same (compare_t op v w) (compare op v' w').
  Proof. intros H G. unfold compare_t, compare. st. Qed.
  Lemma sim_getitem b v v' w w' : alike b v v' -> alike b w w' -> sim b alike (getitem_t v w) (getitem v' w').
  Proof.
    intros H G. assert (K := key_of_alike _ _ _ _ G). unfold getitem_t, getitem. destruct H; try apply sim_stuck.
    - rewrite K. clear K. st.
    - clear K. destruct G; try apply sim_stuck. eapply sim_read_frozen; [eassumption|]. cbn [key_of]. destruct (sget s m) as [v'|] eqn:Q.
      + destruct (H1 _ _ Q) as (v & -> & V). apply sim_done, V.
      + rewrite (H0 _ Q). apply sim_throw.
  Qed.
  Lemma sim_setitem b v v' w w' x x' : alike b v v' -> alike b w w' -> alike b x x' -> sim b same (setitem_t v w x) (setitem v' w' x').
  Proof. intros H G X. unfold setitem_t, setitem. rewrite (key_of_alike _ _ _ _ G). st. Qed.
  Lemma cut_alike {A} b (s : list A) v v' w w' : alike b v v' -> alike b w w' -> cut s v w = cut s v' w'.
  Proof. intros H G. unfold cut. destruct H, G; reflexivity. Qed.
  Lemma sim_getslice b v v' w w' x x' : alike b v v' -> alike b w w' -> alike b x x' -> sim b alike (getslice_t v w x) (getslice v' w' x').
  Proof.
    intros H G X. assert (C := fun A s => @cut_alike A b s _ _ _ _ G X). unfold getslice_t, getslice.
    destruct H; try apply sim_stuck; rewrite ?C; clear C; st. rewrite (cut_alike _ _ _ _ _ _ G X), Heqo. st.
  Qed.
  Lemma sim_bytes_of b v v' : alike b v v' -> sim b same (bytes_of_t v) (bytes_of v').
  Proof. intro H. unfold bytes_of_t, bytes_of. st. Qed.
  Hint Resolve sim_compare sim_getitem sim_setitem sim_getslice sim_bytes_of : sim.
  (** Watching an object during an iteration. *)
  Inductive alike_watch (b : view) : option (loc * watch) -> option (loc * watch) -> Prop :=
  | NoWatch : alike_watch b None None
  | Watch l l' x : In (l, l') b -> alike_watch b (Some (l, x)) (Some (l', x)).
  Hint Constructors alike_watch : alike.
  Lemma sim_unchanged b w w' : alike_watch b w w' -> sim b same (unchanged_t w) (unchanged w').
  Proof.
    intro H. unfold unchanged_t, unchanged. destruct H; [apply sim_done; reflexivity|].
    eapply sim_seq; [apply sim_get; eassumption|]. intros b2 o o' I O. destruct x, O as [i i' Hi| | | | | | | | |]; try apply sim_stuck.
    - rewrite (keys_alike _ _ _ _ Hi). st.
    - st.
    - st.
  Qed.
  Lemma sim_watched b v v' : alike b v v' -> sim b alike_watch (watched_t v) (watched v').
  Proof.
    intro H. unfold watched_t, watched. destruct H; try (apply sim_done; constructor).
    - st.
    - eapply sim_read_frozen; [eassumption|]. apply sim_done. constructor.
    - eapply sim_seq; [apply sim_get; eassumption|]. intros b2 o o' I O. up I. destruct O as [i i' Hi| | | | | | | | |]; try apply sim_stuck.
      apply sim_done. rewrite (keys_alike _ _ _ _ Hi). now constructor.
  Qed.
  Hint Resolve sim_unchanged sim_watched : sim.
  Lemma sim_iterate b v v' : alike b v v' -> sim b (fun b => alikes b) (iterate_t order v) (iterate order v').
  Proof. intro H. unfold iterate_t, iterate. st. Qed.
  Hint Resolve sim_iterate : sim.
  Lemma sim_int_of b v v' : alike b v v' -> sim b same (int_of_t v) (int_of v').
  Proof. intro H. unfold int_of_t, int_of. st. Qed.
  Lemma sim_range_of b v v' : alike b v v' -> sim b same (range_of_t v) (range_of v').
  Proof. intro H. unfold range_of_t, range_of. st. Qed.
  Lemma format_arg_alike b v v' : alike b v v' -> format_arg v = format_arg v'.
  Proof. intro H. now destruct H. Qed.
  Lemma sim_format b t a a' k k' : alikes b a a' -> alike_items b k k' -> sim b alike (format_t E t a k) (format E t a' k').
  Proof.
    intros H K. unfold format_t, format.
    replace (map format_arg a) with (map format_arg a')
      by (clear K; induction H as [|v v' l l' V H IH]; cbn; [reflexivity|]; now rewrite IH, (format_arg_alike _ _ _ V)).
    replace (map (fun kv => (fst kv, format_arg (snd kv))) k) with (map (fun kv => (fst kv, format_arg (snd kv))) k')
      by (clear H; induction K as [|x y l l' [F V] K IH]; cbn; [reflexivity|]; now rewrite IH, F, (format_arg_alike _ _ _ V)).
    st.
  Qed.
  Lemma sim_len b v v' : alike b v v' -> sim b alike (py_len_t v) (py_len v').
  Proof. intro H. unfold py_len_t, py_len. st. rewrite (forall2_length _ _ _ H). constructor. Qed.
  Lemma sim_to_int b v v' : alike b v v' -> sim b alike (to_int_t E v) (to_int E v').
  Proof. intro H. unfold to_int_t, to_int. st. Qed.
  Lemma sim_cres_str b r : sim b alike (cres_str_t r) (cres_str r).
  Proof. unfold cres_str_t, cres_str. st. Qed.
  Lemma sim_cres_bytes b w r : sim b alike (cres_bytes_t w r) (cres_bytes w r).
  Proof. unfold cres_bytes_t, cres_bytes. st. Qed.
  Hint Resolve sim_int_of sim_range_of sim_format sim_len sim_to_int sim_cres_str sim_cres_bytes : sim.
  Lemma type_of_alike b o o' : alike_obj b o o' -> type_of [o] (RefV 0) = type_of [o'] (RefV 0).
  Proof. now destruct 1. Qed.
  Lemma sim_type_of b v v' : alike b v v' -> sim b (fun _ x y => x = y /\ ((exists c, x = TypeV c) \/ exists c, x = OtherTypeV c)) (type_of_t v) (fun h => (Done (type_of h v'), h)).
  Proof.
    intro H. destruct H; try (unfold type_of_t; cbn [type_of]; apply (sim_done frozen); split; [reflexivity|cbn; eauto]; fail).
    - intros h G. unfold type_of_t. destruct (hget h l') as [o'|] eqn:Q; [cbn; left|exfalso].
      + exists l', o'. split; [exact H|]. split; [exact Q|]. intros o O. cbn. split; [apply incl_refl|]. split; [exact G|]. split; [reflexivity|].
        cbn. rewrite ?Q. destruct O; cbn; eauto.
      + destruct G as [_ G]. specialize (G _ _ H). apply nth_error_None in Q. Lia.lia.
    - eapply sim_read_frozen; [eassumption|]. cbn [type_of]. apply (sim_done frozen). cbn. eauto.
  Qed.
  Lemma sim_type b v v' : alike b v v' -> sim b alike (type_of_t v) (fun h => (Done (type_of h v'), h)).
  Proof. intro H. eapply sim_weaken; [apply sim_type_of, H|]. intros b2 x y _ [-> [(c & ->)|(c & ->)]]; constructor. Qed.
  Lemma sim_exc_class b v v' : alike b v v' -> sim b same (exc_class_t v) (fun h => (Done (exc_class h v'), h)).
  Proof.
    intro H. destruct H; try (unfold exc_class_t; cbn [exc_class]; apply (sim_done frozen); reflexivity).
    - intros h G. unfold exc_class_t. destruct (hget h l') as [o'|] eqn:Q; [cbn; left|exfalso].
      + exists l', o'. split; [exact H|]. split; [exact Q|]. intros o O. cbn. split; [apply incl_refl|]. split; [exact G|]. split; [reflexivity|].
        cbn. rewrite ?Q. destruct O; reflexivity.
      + destruct G as [_ G]. specialize (G _ _ H). apply nth_error_None in Q. Lia.lia.
    - eapply sim_read_frozen; [eassumption|]. cbn [exc_class]. apply (sim_done frozen). reflexivity.
  Qed.
  Hint Resolve sim_type sim_exc_class : sim.
  Lemma sim_call_type b c a a' : alikes b a a' -> sim b alike (call_type_t E order c a) (call_type E order c a').
  Proof.
    intro H. unfold call_type_t, call_type. destruct H as [|v v' a0 a0' V [|w w' a1 a1' W [|]]]; [st| | |apply sim_stuck].
    - st.
    - st.
  Qed.
  Hint Resolve sim_call_type : sim.
  Lemma alike_keyed_mono b b2 x y : incl b b2 -> alike_keyed b x y -> alike_keyed b2 x y.
  Proof. intros I [A B]. split; [exact A|]. eapply alike_mono; eauto. Qed.
  Lemma sim_keyed b f f' v v' : alike b v v' -> (forall b2 w w', alike b2 w w' -> sim b2 alike (f w) (f' w')) ->
    sim b alike_keyed (keyed_t f v) (keyed f' v').
  Proof.
    intros V F. unfold keyed_t, keyed. eapply sim_seq; [apply F, V|]. intros b2 x y I X. up I.
    eapply sim_seq; [apply sim_int_of, X|]. intros b3 n m I2 Y. up I2. unfold same in Y. subst m. apply sim_done. split; [reflexivity|exact V].
  Qed.
  Lemma sim_sorted b f f' v v' : alike b v v' -> (forall b2 w w', alike b2 w w' -> sim b2 alike (f w) (f' w')) ->
    sim b alike (let> vs := iterate_t order v in let> ks := each_t (keyed_t f) vs in new_t (ListO (sort_by ks)))
      (let* vs := iterate order v' in let* ks := each (keyed f') vs in new (ListO (sort_by ks))).
  Proof.
    intros V F. eapply sim_seq; [apply sim_iterate, V|]. intros b2 x y I X. eapply sim_seq.
    - eapply (sim_each frozen alike alike_keyed); [intros; eapply alike_mono; eauto|exact alike_keyed_mono|exact X|]. intros. apply sim_keyed; auto.
    - intros b3 k k' I2 K. apply sim_new. constructor. now apply sort_alike.
  Qed.
  Lemma alikes_types b cs cs' : alikes b cs cs' -> forallb (fun c => match c with TypeV _ => true | _ => false end) cs' = true -> cs = cs'.
  Proof.
    intro H. induction H as [|v v' l l' A H IH]; cbn; [reflexivity|]. intro X. apply andb_prop in X as [X Y]. f_equal; [|auto].
    destruct A; try discriminate; reflexivity.
  Qed.
  Lemma sim_type_then b v v' (g : value -> bool) : alike b v v' ->
    sim b alike (let> t := type_of_t v in done_t (BoolV (g t))) (fun h => (Done (BoolV (g (type_of h v'))), h)).
  Proof.
    intro V. apply (sim_same frozen) with (m1 := let* t := (fun h => (Done (type_of h v'), h)) in done (BoolV (g t))); [|reflexivity].
    eapply sim_seq; [apply sim_type_of, V|]. intros b2 x y I [<- _]. apply sim_done. constructor.
  Qed.
  Lemma sim_isinstance b v v' w w' : alike b v v' -> alike b w w' ->
    sim b alike (call_builtin_t E order "isinstance" [v; w] []) (call_builtin E order "isinstance" [v'; w'] []).
  Proof.
    intros V W. cbn. destruct W; try apply sim_stuck.
    - destruct (forallb _ l') eqn:T; [|apply sim_stuck]. rewrite (alikes_types _ _ _ H T), T.
      now apply (sim_type_then b v v' (fun t => existsb (is_type t) l')).
    - now apply (sim_type_then b v v' (fun t => is_type t (TypeV c))).
  Qed.
  Lemma sim_call_builtin b f a a' k k' : alikes b a a' -> alike_items b k k' -> sim b alike (call_builtin_t E order f a k) (call_builtin E order f a' k').
  Proof.
    intros H K. unfold call_builtin_t, call_builtin.
    replace (match k with [] => false | _ => negb (f =? "sorted")%string end) with (match k' with [] => false | _ => negb (f =? "sorted")%string end) by now destruct K.
    destruct (match k' with [] => false | _ => _ end); [apply sim_stuck|].
    destruct (f =? "len")%string; [destruct H as [|v v' a0 a0' V [|]]; try apply sim_stuck; now apply sim_len|].
    destruct (f =? "repr")%string; [destruct H as [|v v' a0 a0' V [|]]; try apply sim_stuck; st|].
    destruct (f =? "isinstance")%string eqn:EF.
    { apply String.eqb_eq in EF. subst f. destruct H as [|v v' a0 a0' V [|w w' a1 a1' W [|]]]; try apply sim_stuck.
      - apply (sim_isinstance b v v' w w' V W).
      - destruct W; apply sim_stuck. }
    destruct (f =? "range")%string.
    { destruct H as [|v v' a0 a0' V [|w w' a1 a1' W [|x x' a2 a2' X [|]]]]; try apply sim_stuck.
      - destruct V; apply sim_stuck.
      - destruct V, W; try apply sim_stuck. st.
      - destruct V, W, X; try apply sim_stuck. st.
      - destruct V, W, X; apply sim_stuck. }
    destruct (f =? "enumerate")%string.
    { destruct H as [|v v' a0 a0' V [|w w' a1 a1' W H]]; try apply sim_stuck; [|destruct V; apply sim_stuck].
      destruct V; try apply sim_stuck.
      - st.
      - st. }
    destruct (f =? "sorted")%string.
    { destruct H as [|v v' a0 a0' V [|w w' a1 a1' W H]]; try apply sim_stuck.
      destruct K as [|[kx x] [ky y] k0 k0' [KE X] K].
      - apply sim_sorted; [exact V|]. intros. now apply sim_done.
      - cbn in KE, X. subst ky.
        repeat match goal with
          | |- sim _ _ _ (match ?y with EmptyString => _ | String _ _ => _ end) => destruct y; try apply sim_stuck
          | |- sim _ _ _ (match ?y with Ascii.Ascii _ _ _ _ _ _ _ _ => _ end) => destruct y
          | |- sim _ _ _ (match ?y with true => _ | false => _ end) => destruct y; try apply sim_stuck
          | |- sim _ _ _ (match ?y with NoneV => _ | _ => _ end) => destruct X; try apply sim_stuck
          end.
        destruct K; [|apply sim_stuck]. apply sim_sorted; [exact V|exact sim_to_int]. }
    destruct (f =? "a2b_hex")%string; [|apply sim_stuck].
    { destruct H as [|v v' a0 a0' V [|w w' a1 a1' W H]]; try apply sim_stuck; [|destruct V; apply sim_stuck].
      destruct V; st. }
  Qed.
  Hint Resolve sim_call_builtin : sim.
  Context (stdout stdout' : value) (table : list (string * string)).
  Lemma lookup_alike b x r r' : alike_items b r r' -> alike_opt frozen b (lookup x r) (lookup x r').
  Proof. apply dget_alike. Qed.
  Lemma sim_getattr b v v' a : alike b stdout stdout' -> alike b v v' -> sim b alike (getattr_t stdout v a) (getattr stdout' v' a).
  Proof.
    intros S H. unfold getattr_t, getattr. destruct (a =? "__class__")%string; [now apply sim_type|].
    destruct H; try apply sim_stuck.
    all: try (st; fail).
    - eapply sim_seq; [apply sim_get; eassumption|]. intros b2 o o' I O. up I. destruct O; try (st; fail).
      apply (lookup_alike b2 a) in H0. unfold alike_opt in H0. destruct (lookup a _), (lookup a _); try contradiction; [|apply sim_stuck]. now apply sim_done.
    - destruct (a =? "get")%string eqn:A; [|apply sim_stuck]. apply String.eqb_eq in A. subst a. eapply sim_read_frozen; [eassumption|]. cbn. apply sim_done. constructor. eapply AlikeMap; eassumption.
  Qed.
  Lemma bindv_alike b x v v' r r' : alike b v v' -> alike_items b r r' -> alike_items b (bindv x v r) (bindv x v' r').
  Proof. apply dset_alike. Qed.
  Hint Resolve bindv_alike : alike.
  Lemma sim_setattr b v v' a x x' : alike b v v' -> alike b x x' -> sim b same (setattr_t v a x) (setattr v' a x').
  Proof. intros H X. unfold setattr_t, setattr. st. Qed.
  Hint Resolve sim_getattr sim_setattr : sim.
  Lemma sim_no_args b a a' v v' : alikes b a a' -> alike b v v' -> sim b alike (no_args_t a (done_t v)) (no_args a' (done v')).
  Proof. intros A V. unfold no_args_t, no_args. destruct A; [now apply sim_done|apply sim_stuck]. Qed.
  Lemma unsigned_alike b k k' : alike_items b k k' -> unsigned k = unsigned k'.
  Proof.
    intro H. unfold unsigned. destruct H as [|[x v] [x' v'] k k' [X V] [|]]; [reflexivity| |]; cbn in X, V; subst x'; [|destruct V; reflexivity].
    destruct V; reflexivity.
  Qed.
  Lemma get_alike b k d d' x x' : alike_items b d d' -> alike b x x' ->
    alike b (match dget key_eqb k d with Some v => v | None => x end) (match dget key_eqb k d' with Some v => v | None => x' end).
  Proof. intros D X. apply (dget_alike frozen key_eqb b k) in D. unfold alike_opt in D. destruct (dget _ _ d), (dget _ _ d'); tauto. Qed.
  Lemma alike_fun b o x x' : alike b x x' -> alike b (match o with Some f => FunV f | None => x end) (match o with Some f => FunV f | None => x' end).
  Proof. destruct o; [constructor|auto]. Qed.
  Lemma sim_method b v v' m a a' k k' : alike b v v' -> alikes b a a' -> alike_items b k k' ->
    sim b alike (call_method_t E order table v m a k) (call_method E order table v' m a' k').
  Proof.
    intros V A K. unfold call_method_t, call_method.
    replace (match k with [] => false | _ => negb (mem m ["format"; "to_bytes"; "from_bytes"]) end)
      with (match k' with [] => false | _ => negb (mem m ["format"; "to_bytes"; "from_bytes"]) end) by now destruct K.
    destruct (match k' with [] => false | _ => _ end); [apply sim_stuck|]. assert (U := unsigned_alike _ _ _ K).
    destruct V; try apply sim_stuck.
    - destruct (m =? "to_bytes")%string; [|apply sim_stuck]. rewrite U.
      destruct A as [|v v' a a' V [|w w' a1 a1' W [|]]]; try apply sim_stuck; [destruct V; apply sim_stuck| |destruct V, W; apply sim_stuck].
      destruct V; try apply sim_stuck. destruct W; st.
    - repeat (destruct (_ =? _)%string; [first [apply sim_no_args; [exact A|constructor]|apply sim_format; assumption|idtac]|]); [|apply sim_stuck].
      st.
    - repeat (destruct (_ =? _)%string; [first [apply sim_no_args; [exact A|constructor]|idtac]|]); [|apply sim_stuck].
      st.
    - eapply sim_seq; [apply sim_get; eassumption|]. intros b2 o o' I O. up I. clear U. destruct O; try apply sim_stuck.
      + repeat (destruct (_ =? _)%string; [first [apply sim_no_args; [exact A|al]|idtac]|]); [| |apply sim_stuck].
        * destruct A as [|v v' a a' V [|w w' a1 a1' W [|]]]; try apply sim_stuck. rewrite (key_of_alike _ _ _ _ V). destruct (key_of v'); [|apply sim_stuck].
          apply sim_done. now apply get_alike.
        * destruct A as [|v v' a a' V [|w w' a1 a1' W [|]]]; try apply sim_stuck. rewrite (key_of_alike _ _ _ _ V). destruct (key_of v'); [|apply sim_stuck].
          st. now apply get_alike.
      + assert (ONE : forall f f', (forall v v', alike b2 v v' -> sim b2 alike (f v) (f' v')) ->
          sim b2 alike (match a with [v] => f v | _ => stuck_t m end) (match a' with [v] => f' v | _ => stuck m end)).
        { intros f f' F. destruct A as [|v v' a a' V [|]]; try apply sim_stuck. now apply F. }
        repeat (destruct (_ =? _)%string; [first [apply ONE; intros v v' V; clear ONE A|clear ONE]|]); [| | | | | |apply sim_stuck].
        * eapply sim_seq; [apply sim_iterate, V|]. intros b3 x y I2 X. up I2. eapply sim_seq; [apply (sim_each_same b3 x y); [exact X|exact sim_int_of]|].
          intros b4 n n' I3 N. up I3. st.
        * destruct A as [|v v' a a' V [|w w' a1 a1' W A]]; try apply sim_stuck; [|destruct V; apply sim_stuck]. st.
        * destruct A as [|v v' a a' V [|w w' a1 a1' W A]]; try apply sim_stuck; [|destruct V; apply sim_stuck]. st.
        * st.
        * st.
        * st.
      + repeat (destruct (_ =? _)%string; [first [apply sim_no_args; [exact A|constructor]|idtac]|]); [|apply sim_stuck]. st.
      + st.
    - eapply sim_read_frozen; [eassumption|]. destruct (m =? "get")%string eqn:M; [|apply sim_stuck]. apply String.eqb_eq in M. subst m. cbn.
      destruct A as [|v v' a a' V [|w w' a1 a1' W A]]; try apply sim_stuck; [destruct V; apply sim_stuck|]. destruct V; try apply sim_stuck.
      destruct A; [|apply sim_stuck]. cbn. apply sim_done. destruct (sget s m0) as [v'|] eqn:Q.
      + destruct (H1 _ _ Q) as (v & D & V). now rewrite D.
      + now rewrite (H0 _ Q).
    - destruct ((c =? "bytes")%string && (m =? "fromhex")%string).
      { destruct A as [|v v' a a' V [|w w' a1 a1' W A]]; try apply sim_stuck; [|destruct V; apply sim_stuck]. st. }
      destruct ((c =? "int")%string && (m =? "from_bytes")%string).
      { destruct A as [|v v' a a' V [|w w' a1 a1' W A]]; try apply sim_stuck. destruct W; try apply sim_stuck. destruct A; [|apply sim_stuck].
        rewrite U. destruct (_ && _); [|apply sim_stuck]. eapply sim_seq; [apply sim_bytes_of, V|]. intros b2 x y I ->. apply sim_done. constructor. }
      destruct ((c =? "ValueError")%string && (m =? "__init__")%string); [|apply sim_stuck].
      destruct A as [|v v' a a' V A]; [apply sim_stuck|]. destruct V; try apply sim_stuck. st.
    - destruct ((m0 =? "_dispatch")%string && (m =? "get")%string); [|apply sim_stuck].
      destruct A as [|v v' a a' V A]; [apply sim_stuck|]. destruct V as [| | | | | | | | | | | | | | |v v' r V|]; try apply sim_stuck. destruct V; try apply sim_stuck.
      + destruct A as [|w w' a a' W [|]]; try apply sim_stuck. destruct (r =? "__repr__")%string; [|apply sim_stuck]. apply sim_done.
        unfold lookup. induction table as [|[x y] t IH]; cbn; [exact W|]. destruct (c =? x)%string; [constructor|exact IH].
      + destruct A as [|w w' a a' W [|]]; try apply sim_stuck. now apply sim_done.
  Qed.
End Prim.
