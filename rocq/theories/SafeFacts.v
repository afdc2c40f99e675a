(** * SafeFacts: programs SafeCheck accepts write only where they may, at every moment. *)
From Coq Require Import Lia.
From Verif Require Import PyBase BaseFacts Types EncoderFacts PyAst PyFormat PySem Threads ThreadRun SafeClaims SafeCheck.
Local Open Scope string_scope.
Local Open Scope list_scope.

Section Safe.
  Context (h0 : heap) (edits prints : loc -> Prop).
  (** Every item of the dict is one it had or a text; no key is there twice. *)
  Definition texts_set (d d' : list (pykey * value)) : Prop :=
    (forall k v, In (k, v) d' -> In (k, v) d \/ exists t, v = StrV t) /\ (NoDup (map fst d) -> NoDup (map fst d')).
  (** What may become of an object of the caller. *)
  Inductive changed (l : loc) : object -> object -> Prop :=
  | ChangedNot o : changed l o o
  | ChangedDict d d' : edits l -> data_items d' = data_items d -> texts_set d d' -> changed l (DictO d) (DictO d')
  | ChangedStream t s : prints l -> changed l (StreamO t) (StreamO (t ++ s)).
  Definition new (l : loc) : Prop := hget h0 l = None.
  Local Notation fresh := (new_value h0).
  Definition ok_new (o : object) : Prop := match o with DictO items => Forall (fun kv => fresh (snd kv)) items | _ => tame o end.
  Definition obj_ok (l : loc) (o : object) : Prop :=
    match hget h0 l with Some o0 => changed l o0 o /\ tame o | None => ok_new o end.

  Lemma fresh_tuple l : fresh (TupleV l) <-> Forall fresh l.
  Proof. induction l as [|x l IH]; cbn in *; [split; constructor|]. rewrite IH. split; [intros [? ?]; now constructor|intro F; inversion F; auto]. Qed.
  Lemma inert_tuple l : inert (TupleV l) <-> Forall inert l.
  Proof. induction l as [|x l IH]; cbn in *; [split; constructor|]. rewrite IH. split; [intros [? ?]; now constructor|intro F; inversion F; auto]. Qed.
  Lemma inert_map m k v : inert (MapV m) -> sget k m = Some v -> inert v.
  Proof.
    unfold sget. induction m as [|[x y] m IH]; cbn; [discriminate|]. intros [I J]. destruct (str_eqb k x); [now intros [= <-]|]. intro G. apply IH; assumption.
  Qed.
  Lemma fresh_inert : forall v, fresh v -> inert v.
  Proof.
    fix IH 1. intros v F. destruct v; cbn in F; try exact I; try contradiction.
    revert l F. fix IHl 1. intros l F. destruct l as [|x l]; [exact I|]. destruct F as [X F]. split; [apply IH, X|apply IHl, F].
  Qed.
  Lemma new_tame o : ok_new o -> tame o.
  Proof. destruct o; cbn; try tauto. intro F. eapply Forall_impl; [|exact F]. intros kv. apply fresh_inert. Qed.
  Lemma ok_tame l o : obj_ok l o -> tame o.
  Proof. unfold obj_ok. destruct (hget h0 l); [tauto|apply new_tame]. Qed.
  Lemma changed_trans l a b c : changed l a b -> changed l b c -> changed l a c.
  Proof.
    intros X Y. destruct X as [o|d d' ED D X|t s PR]; [exact Y| |]; inversion Y as [|? d2 ? D2 X2|]; subst; try (constructor; assumption); try (rewrite <- app_assoc; now constructor).
    constructor; [assumption|congruence|]. split; [|intro N; now apply X2, X]. intros k v V. destruct (proj1 X2 _ _ V) as [V1|V1]; [now apply X|now right].
  Qed.

  (** ** Rules
      One stream may be watched: [mine] says whether this thread writes to it. If it does, nobody else does and [t] is what
      the stream holds. *)
  Context (watched : option loc) (mine : bool).
  Definition own (l : loc) : bool := match watched with Some x => Nat.eqb l x | None => false end.
  Context (OWN : forall l, own l = true -> prints l /\ exists t, hget h0 l = Some (StreamO t)).
  Fixpoint conf {A} (t : pystr) (m : act A) (P : outcome A -> Prop) : Prop :=
    match m with
    | End o => P o
    | Read l k => if (own l && mine)%bool then conf t (k (StreamO t)) P else forall o, obj_ok l o -> conf t (k o) P
    | Write l o k => if own l then mine = true /\ exists s, o = StreamO (t ++ s) /\ conf (t ++ s) k P else obj_ok l o /\ conf t k P
    | Alloc o k => ok_new o /\ forall l, new l -> conf t (k l) P
    end.
  Definition text_ok (t : pystr) : Prop := forall l, own l = true -> obj_ok l (StreamO t).
  Definition out {A} (P : A -> Prop) (o : outcome A) : Prop := match o with Done a => P a | Thrown x => fresh x | Stuck _ => True end.
  Definition co {A} (m : act A) (P : A -> Prop) : Prop := forall t, text_ok t -> conf t m (out P).
  Definition T {A} (a : A) : Prop := True.
  Arguments co : simpl never.
  Arguments seq_t : simpl never.
  Ltac ok := first [exact I|exact (fun _ _ => I)].
  Lemma text_more t s : text_ok t -> text_ok (t ++ s).
  Proof.
    intros X l O. specialize (X l O). unfold obj_ok in *. destruct (OWN l O) as [PR [t0 G]]. rewrite G in *. split; [|exact I].
    eapply changed_trans; [apply X|]. now constructor.
  Qed.
  Lemma not_own l o : obj_ok l o -> (forall t, o <> StreamO t) -> own l = false.
  Proof.
    intros O N. destruct (own l) eqn:W; [|reflexivity]. destruct (OWN l W) as [_ [t G]]. unfold obj_ok in O. rewrite G in O. destruct O as [C _].
    inversion C; subst; now destruct (N _ eq_refl).
  Qed.
  Lemma new_not_own l : new l -> own l = false.
  Proof. intro N. destruct (own l) eqn:W; [|reflexivity]. destruct (OWN l W) as [_ [t G]]. unfold new in N. congruence. Qed.
  Lemma conf_then {A B} (m : act A) (k : outcome A -> act B) P Q : forall t, text_ok t -> conf t m P -> (forall t' o, text_ok t' -> P o -> conf t' (k o) Q) -> conf t (then_t m k) Q.
  Proof.
    intros t X M K. revert t X M. induction m as [o|l f IH|l o f IH|o f IH]; cbn; intros t X M; [auto| | |].
    - destruct (own l && mine)%bool; auto.
    - destruct (own l); [|destruct M; auto]. destruct M as (Y & s & -> & M). split; [exact Y|]. exists s. split; [reflexivity|]. apply IH; [now apply text_more|exact M].
    - destruct M; auto.
  Qed.
  Lemma conf_weaken {A} (m : act A) (P Q : outcome A -> Prop) t : conf t m P -> (forall o, P o -> Q o) -> conf t m Q.
  Proof.
    intros M K. revert t M. induction m as [o|l f IH|l o f IH|o f IH]; cbn; intros t M; [auto| | |].
    - destruct (own l && mine)%bool; auto.
    - destruct (own l); [|destruct M; auto]. destruct M as (Y & s & -> & M). split; [exact Y|]. exists s. split; [reflexivity|auto].
    - destruct M; auto.
  Qed.
  Lemma conf_free {A} (m : act A) P t t' : mine = false -> conf t m P -> conf t' m P.
  Proof.
    intros Y M. revert t t' M. induction m as [o|l f IH|l o f IH|o f IH]; cbn; intros t t' M; [auto| | |].
    - rewrite Y, Bool.andb_false_r in *. intros o O. eapply IH, M, O.
    - destruct (own l); [destruct M; congruence|]. destruct M as [O M]. split; [exact O|eapply IH, M].
    - destruct M as [O M]. split; [exact O|]. intros l N. eapply IH, M, N.
  Qed.
  Lemma co_weaken {A} (m : act A) (P Q : A -> Prop) : co m P -> (forall a, P a -> Q a) -> co m Q.
  Proof. intros M K t X. eapply conf_weaken; [exact (M t X)|]. intros [a|x|y]; cbn; auto. Qed.
  Lemma co_any {A} (m : act A) (P : A -> Prop) : co m P -> co m T.
  Proof. intro M. eapply co_weaken; [exact M|]. intros; exact I. Qed.
  Lemma co_then {A B} (m : act A) (k : outcome A -> act B) P Q : co m P -> (forall o, out P o -> co (k o) Q) -> co (then_t m k) Q.
  Proof. intros M K t X. eapply conf_then; [exact X|exact (M t X)|]. intros t' o X' O. exact (K o O t' X'). Qed.
  Lemma co_seq {A B} (m : act A) (k : A -> act B) P Q : co m P -> (forall a, P a -> co (k a) Q) -> co (seq_t m k) Q.
  Proof. intros M K. eapply co_then; [exact M|]. intros [a|x|y] O; [apply K, O|exact (fun _ _ => O)|exact (fun _ _ => I)]. Qed.
  Lemma co_done {A} (a : A) (P : A -> Prop) : P a -> co (done_t a) P.
  Proof. exact (fun p _ _ => p). Qed.
  Lemma co_read {A} l (k : object -> act A) P : (forall o, obj_ok l o -> co (k o) P) -> co (seq_t (get_t l) k) P.
  Proof.
    intros H t X. unfold seq_t, get_t. cbn. destruct (own l && mine)%bool eqn:O; [apply andb_prop in O as [O _]; exact (H _ (X l O) t X)|]. intros o Ok. exact (H o Ok t X).
  Qed.
  Lemma co_put l o : obj_ok l o -> (forall t, o <> StreamO t) -> co (put_t l o) T.
  Proof. intros O N t X. cbn. rewrite (not_own l o O N). split; [exact O|exact I]. Qed.
  Lemma co_new o : ok_new o -> co (new_t o) fresh.
  Proof. intros O t X. split; [exact O|]. intros l N. exact N. Qed.
  Lemma co_each {A B} (f : A -> act B) (P : A -> Prop) (Q : B -> Prop) l : Forall P l -> (forall a, P a -> co (f a) Q) -> co (each_t f l) (Forall Q).
  Proof.
    intros L F. induction L as [|a l Pa L IH]; cbn; [constructor|]. eapply co_seq; [apply F, Pa|]. intros b Qb. eapply co_seq; [exact IH|]. intros bs Qs. now constructor.
  Qed.
  Lemma co_map_end {A} (f : outcome A -> outcome A) (m : act A) P : co m P -> (forall o, out P o -> out P (f o)) -> co (map_end f m) P.
  Proof. intros M K t X. eapply conf_then; [exact X|exact (M t X)|]. intros t' o X' O. now apply K. Qed.

  (** ** Primitives *)
  Context (E : pyenv) (order : list Z -> list Z) (stdout : value) (table : list (string * string)).
  Ltac triv := match goal with
    | |- co (stuck_t _) _ => ok
    | |- co (throw_t _ _) _ => ok
    | |- co (done_t _) T => ok
    | |- co (done_t _) _ => apply co_done; first [ok|constructor|idtac]
    end.
  Ltac cases := repeat first [progress triv | match goal with
    | |- co (match ?x with _ => _ end) _ => destruct x eqn:?
    | |- co (if ?x then _ else _) _ => destruct x eqn:?
    end].
  Lemma co_type_of v : co (type_of_t v) T.
  Proof. unfold type_of_t. destruct v; try (apply co_done; ok). apply co_read. intros. apply co_done. ok. Qed.
  Lemma co_exc_class v : co (exc_class_t v) T.
  Proof. unfold exc_class_t. destruct v; try (apply co_done; ok). apply co_read. intros. apply co_done. ok. Qed.
  Lemma co_truth v : co (truth_t v) T.
  Proof. unfold truth_t. destruct v; try triv. apply co_read. intros o _. destruct o; triv. Qed.
  Lemma co_int_text n : co (int_text_t E n) T.
  Proof. unfold int_text_t. cases. Qed.
  Lemma co_repr v : co (repr_of_t E v) T.
  Proof. unfold repr_of_t. destruct v; try triv; [apply co_int_text|]. apply co_read. intros o _. destruct o; triv. Qed.
  Lemma co_str v : co (str_of_t E v) T.
  Proof.
    unfold str_of_t. destruct v; try triv; [apply co_int_text| |].
    - apply co_read. intros o _. destruct o; try triv. eapply co_seq; [eapply co_each with (P := T) (Q := T); [apply Forall_forall; intros; ok|intros; apply co_repr]|].
      intros. triv.
    - destruct (_ =? _); triv.
  Qed.
  Lemma co_binop op a b : co (binop_t op a b) fresh.
  Proof. unfold binop_t. destruct op; destruct a; try triv; destruct b; try triv; cases. Qed.
  Lemma obj_ok_new l o : new l -> obj_ok l o = ok_new o.
  Proof. unfold new, obj_ok. now intros ->. Qed.
  Lemma co_inplace op a b : (op = Add -> fresh a) -> co (inplace_t op a b) fresh.
  Proof.
    intro F. unfold inplace_t. destruct op; try apply co_binop. specialize (F eq_refl). destruct a; try apply co_binop. destruct b; try apply co_binop.
    apply co_read. intros o O. destruct o; try triv. eapply co_seq; [apply co_put; [|discriminate]; rewrite obj_ok_new by exact F; ok|]. intros. apply co_done. exact F.
  Qed.
  Lemma co_equal a b : co (equal_t a b) T.
  Proof. unfold equal_t. destruct a; try triv; destruct b; triv. Qed.
  Lemma co_contains a b : co (contains_t a b) T.
  Proof. unfold contains_t. destruct b; try triv. apply co_read. intros o _. destruct o; try triv; cases. Qed.
  Lemma co_is_none a b : co (is_none_t a b) T.
  Proof. unfold is_none_t. destruct b; triv. Qed.
  Lemma co_compare op a b : co (compare_t op a b) T.
  Proof.
    unfold compare_t. destruct op; try apply co_equal; try apply co_contains; try apply co_is_none; try (destruct a; try triv; destruct b; triv).
    all: eapply co_seq; [first [apply co_equal|apply co_contains|apply co_is_none]|]; intros; triv.
  Qed.
  Lemma dget_forall {K} (eqb : K -> K -> bool) (P : value -> Prop) k (d : list (K * value)) v : Forall (fun kv => P (snd kv)) d -> dget eqb k d = Some v -> P v.
  Proof. induction 1 as [|[x y] d X D IH]; cbn; [discriminate|]. destruct (eqb k x); [intros [= <-]; exact X|exact IH]. Qed.
  Lemma dset_forall {K} (eqb : K -> K -> bool) (P : value -> Prop) k v (d : list (K * value)) : P v -> Forall (fun kv => P (snd kv)) d -> Forall (fun kv => P (snd kv)) (dset eqb k v d).
  Proof. intros V. induction 1 as [|[x y] d X D IH]; cbn; [repeat constructor; exact V|]. destruct (eqb k x); constructor; auto. Qed.
  Lemma dpop_forall {K} (eqb : K -> K -> bool) (P : value -> Prop) k (d : list (K * value)) : Forall (fun kv => P (snd kv)) d -> Forall (fun kv => P (snd kv)) (dpop eqb k d).
  Proof. induction 1 as [|[x y] d X D IH]; cbn; [constructor|]. destruct (eqb k x); [assumption|]. constructor; auto. Qed.
  (** Items under the keys [ks] *)
  Definition item_ok (P : value -> Prop) (v : value) (i : value) : Prop := P v.
  Lemma co_getitem_any v i : inert v -> co (getitem_t v i) inert.
  Proof.
    intro V. unfold getitem_t. destruct v; try triv.
    - apply co_read. intros o O. apply ok_tame in O. destruct o; try triv; cases. eapply (dget_forall key_eqb inert); [exact O|eassumption].
    - destruct i; try triv. destruct (sget s m) eqn:G; [|triv]. apply co_done. eapply inert_map; eassumption.
  Qed.
  Lemma co_getitem_fresh v i : fresh v -> co (getitem_t v i) fresh.
  Proof.
    intro V. unfold getitem_t. destruct v; try triv; [|contradiction].
    apply co_read. intros o O. rewrite obj_ok_new in O by exact V. destruct o; try triv; cases. eapply (dget_forall key_eqb fresh); [exact O|eassumption].
  Qed.
  Lemma co_getitem v i : co (getitem_t v i) T.
  Proof.
    unfold getitem_t. destruct v; try triv.
    - apply co_read. intros o O. destruct o; try triv; cases.
    - cases.
  Qed.
  Lemma co_setitem_fresh v i x : fresh v -> fresh x -> co (setitem_t v i x) T.
  Proof.
    intros V X. unfold setitem_t. destruct v; try triv. apply co_read. intros o O. rewrite obj_ok_new in O by exact V. destruct o; try triv.
    - destruct (key_of i); [|triv]. apply co_put; [|discriminate]. rewrite obj_ok_new by exact V. now apply (dset_forall key_eqb fresh).
    - destruct i; try triv. destruct x; try triv. cases. apply co_put; [|discriminate]. rewrite obj_ok_new by exact V. ok.
  Qed.
  Context (keys : list pystr) (touch : loc -> Prop).
  Context (KEYS : forall k, In k keys -> bitmap_key (KStr k) = true) (EDITS : keys <> [] -> forall l, touch l -> edits l).
  Definition touched (v : value) : Prop := inert v /\ forall l, v = RefV l -> new l \/ touch l.
  Definition is_key (v : value) : Prop := exists k, v = StrV k /\ In k keys.
  Lemma key_same k y : bitmap_key k = true -> key_eqb k y = true -> y = k.
  Proof. destruct k, y; cbn; try discriminate. intros _ Q. apply str_eqb_eq in Q. now subst. Qed.
  Lemma data_items_set k x d : bitmap_key k = true -> data_items (dset key_eqb k x d) = data_items d.
  Proof.
    intro B. unfold data_items. induction d as [|[y z] d IH]; cbn [dset filter fst snd]; [now rewrite B|]. destruct (key_eqb k y) eqn:Q.
    - rewrite (key_same k y B Q). cbn [filter fst snd]. now rewrite B.
    - cbn [filter fst snd]. now rewrite IH.
  Qed.
  Lemma data_items_pop k d : bitmap_key k = true -> data_items (dpop key_eqb k d) = data_items d.
  Proof.
    intro B. unfold data_items. induction d as [|[y z] d IH]; cbn [dpop filter fst snd]; [reflexivity|]. destruct (key_eqb k y) eqn:Q.
    - rewrite (key_same k y B Q). cbn [filter fst snd]. now rewrite B.
    - cbn [filter fst snd]. now rewrite IH.
  Qed.
  Lemma touch_dict l d d' : touch l -> keys <> [] -> data_items d' = data_items d -> texts_set d d' -> obj_ok l (DictO d) -> tame (DictO d') ->
    (new l -> ok_new (DictO d')) -> obj_ok l (DictO d').
  Proof.
    intros L K D X O M N. unfold obj_ok in *. destruct (hget h0 l) as [o0|] eqn:G; [|now apply N]. split; [|exact M].
    eapply changed_trans; [apply O|]. constructor; [now apply EDITS|exact D|exact X].
  Qed.
  Lemma texts_dset k t d : texts_set d (dset key_eqb k (StrV t) d).
  Proof.
    split; [|apply dset_nodup, key_eqb_spec]. intros k' v. induction d as [|[y z] d IH]; cbn; [intros [[= <- <-]|[]]; right; now exists t|]. destruct (key_eqb k y); cbn; [intros [[= <- <-]|I]; [right; now exists t|auto]|].
    intros [[= <- <-]|I]; [auto|]. destruct (IH I); auto.
  Qed.
  Lemma texts_dpop k d : texts_set d (dpop key_eqb k d).
  Proof.
    split; [|apply dpop_nodup, key_eqb_spec]. intros k' v. induction d as [|[y z] d IH]; cbn; [intros []|]. destruct (key_eqb k y); cbn; [auto|]. intros [[= <- <-]|I]; [auto|]. destruct (IH I); auto.
  Qed.
  Definition is_text (v : value) : Prop := exists t, v = StrV t.
  Lemma co_setitem_touch v i x : touched v -> is_key i -> is_text x -> co (setitem_t v i x) T.
  Proof.
    intros [IV V] (k & -> & K) [s ->]. pose proof (I : fresh (StrV s)) as X. unfold setitem_t. destruct v; try triv. destruct (V _ eq_refl) as [N|L]; [now apply (co_setitem_fresh (RefV l) (StrV k) (StrV s))|].
    apply co_read. intros o O. destruct o; try triv. cbn [key_of]. apply co_put; [|discriminate]. eapply touch_dict; [exact L| | |apply texts_dset|exact O| |].
    - intros ->. destruct K.
    - apply data_items_set. auto.
    - apply (dset_forall key_eqb inert); [now apply fresh_inert|]. exact (ok_tame _ _ O).
    - intro N. rewrite obj_ok_new in O by exact N. now apply (dset_forall key_eqb fresh).
  Qed.
  Lemma co_getslice v i j : co (getslice_t v i j) fresh.
  Proof. unfold getslice_t. destruct v; try triv; cases. apply co_read. intros o _. destruct o; try triv. cases. apply co_new. ok. Qed.
  Lemma co_bytes_of v : co (bytes_of_t v) T.
  Proof. unfold bytes_of_t. destruct v; try triv. apply co_read. intros o _. destruct o; triv. Qed.
  Lemma co_unchanged w : co (unchanged_t w) T.
  Proof. unfold unchanged_t. destruct w as [[l x]|]; [|triv]. apply co_read. intros o _. match goal with |- co (if ?x then _ else _) _ => destruct x end; triv. Qed.
  Lemma co_watched v : co (watched_t v) T.
  Proof. unfold watched_t. destruct v; try triv; apply co_read; intros o _; destruct o; try triv. cases. Qed.
  Lemma co_stepping {B} w (m : act B) P : co m P -> co (stepping_t w m) P.
  Proof. intro M. unfold stepping_t. destruct w; [|exact M]. eapply co_seq; [exact M|]. intros b Pb. eapply co_seq; [apply co_unchanged|]. intros. now apply co_done. Qed.
  Lemma range_inert a b s : Forall inert (range_list a b s).
  Proof. unfold range_list. generalize (Z.to_nat ((b - a + s - 1) / s)). intro n. revert a. induction n as [|n IH]; intro a; cbn; constructor; [ok|apply IH]. Qed.
  Definition viewed (v : value) : Prop := fresh v \/ exists l, v = KeysV l.
  Lemma co_iterate v : viewed v -> co (iterate_t order v) (Forall inert).
  Proof.
    intro N. assert (NEW : forall l, v = RefV l -> new l) by (intros l ->; destruct N as [N|[l' N]]; [exact N|discriminate]). clear N. unfold iterate_t. destruct v; try triv.
    - apply co_read. intros o O. pose proof (ok_tame _ _ O) as TM. destruct o as [| |vs| |c vs src| |]; try triv.
      + apply Forall_forall. intros x X. apply in_map_iff in X as (n & <- & _). ok.
      + exact TM.
      + destruct vs as [vs|]; [|triv]. destruct src as [[b x]|].
        * eapply co_seq; [apply co_unchanged|]. intros. eapply co_seq; [apply co_put; [|discriminate]; rewrite obj_ok_new by (apply NEW; reflexivity); ok|]. intros. apply co_done. exact TM.
        * eapply co_seq; [apply co_put; [|discriminate]; rewrite obj_ok_new by (apply NEW; reflexivity); ok|]. intros. apply co_done. exact TM.
    - apply range_inert.
    - apply co_read. intros o O. destruct o; try triv. apply Forall_forall. intros x X. apply in_map_iff in X as (kv & <- & _). destruct (fst kv); ok.
  Qed.

  (** ** Calls of built-in classes, functions and methods *)
  Lemma co_int_of v : co (int_of_t v) T.
  Proof. unfold int_of_t. destruct v; triv. Qed.
  Lemma co_range_of v : co (range_of_t v) T.
  Proof. unfold range_of_t. destruct v; try triv. cases. Qed.
  Lemma co_format t a k : co (format_t E t a k) fresh.
  Proof. unfold format_t. cases. Qed.
  Lemma co_len v : co (py_len_t v) fresh.
  Proof. unfold py_len_t. destruct v; try triv; cases. apply co_read. intros o _. destruct o; triv. Qed.
  Lemma co_to_int v : co (to_int_t E v) fresh.
  Proof. unfold to_int_t. destruct v; try triv. cases. Qed.
  Lemma co_cres_str c : co (cres_str_t c) fresh.
  Proof. unfold cres_str_t. cases. Qed.
  Lemma co_cres_bytes w c : co (cres_bytes_t w c) fresh.
  Proof. unfold cres_bytes_t. cases. Qed.
  Lemma co_ints vs : co (each_t int_of_t vs) T.
  Proof. eapply co_any, (co_each _ T T); [apply Forall_forall; intros; ok|]. intros. apply co_int_of. Qed.
  Ltac sq L := eapply co_seq; [apply L|intros ? ?].
  Lemma co_call_type c a : c <> "type" -> (c = "set" -> Forall fresh a) -> co (call_type_t E order c a) fresh.
  Proof.
    intros N A. unfold call_type_t. destruct a as [|v [|w [|]]]; try triv.
    - destruct (c =? _); [apply co_new; ok|]. destruct (c =? _); [apply co_new; ok|triv].
    - destruct (c =? "bytes"); [sq co_bytes_of; triv|]. destruct (c =? "bytearray"); [sq co_bytes_of; apply co_new; ok|].
      destruct (c =? "str"); [sq co_str; triv|]. destruct (c =? "int"); [apply co_to_int|].
      destruct (String.eqb_spec c "set"); [specialize (A e); inversion A; eapply co_seq; [apply co_iterate; left; assumption|intros ? ?]; sq co_ints; apply co_new; ok|].
      destruct (c =? "type") eqn:Q; [apply String.eqb_eq in Q; congruence|]. destruct (c =? "TypeError"); [destruct v; triv|triv].
    - destruct (c =? "int"); [destruct v; try triv; destruct w; try triv; cases; apply co_to_int|].
      destruct (c =? "bytes"); [|triv]. destruct v; try triv. destruct w; try triv. apply co_cres_bytes.
  Qed.
  Lemma co_call_type_any c a : (c = "set" -> Forall fresh a) -> co (call_type_t E order c a) T.
  Proof.
    intro A. destruct (String.eqb_spec c "type") as [->|N]; [|eapply co_any, co_call_type; assumption]. destruct a as [|v [|w [|]]]; [ok|apply co_type_of|ok|ok].
  Qed.
  Lemma insert_inert x l : inert (snd x) -> Forall (fun y => inert (snd y)) l -> Forall (fun y => inert (snd y)) (insert_key x l).
  Proof. intros X. induction 1 as [|y l Y L IH]; cbn; [repeat constructor; exact X|]. destruct (_ <=? _)%Z; repeat constructor; auto. Qed.
  Lemma sort_inert l : Forall (fun x => inert (snd x)) l -> Forall inert (sort_by l).
  Proof.
    intro L. unfold sort_by. apply Forall_map. induction L as [|x l X L IH]; cbn; [constructor|]. now apply insert_inert.
  Qed.
  Lemma co_keyed f v : (forall v, co (f v) T) -> inert v -> co (keyed_t f v) (fun x => inert (snd x)).
  Proof. intros F V. unfold keyed_t. eapply co_seq; [apply F|]. intros. sq co_int_of. apply co_done. exact V. Qed.
  Lemma co_builtin f a k : (f = "sorted" -> Forall fresh a) -> co (call_builtin_t E order f a k) fresh.
  Proof.
    intro AF.
    unfold call_builtin_t. match goal with |- co (if ?x then _ else _) _ => destruct x; [triv|] end.
    destruct (f =? "len"); [destruct a as [|? [|]]; try triv; apply co_len|].
    destruct (f =? "repr"); [destruct a as [|? [|]]; try triv; sq co_repr; triv|].
    destruct (f =? "isinstance").
    { repeat match goal with |- co (match ?x with _ => _ end) _ => is_var x; destruct x; try triv end.
      - match goal with |- co (if ?x then _ else _) _ => destruct x; [|triv] end. sq co_type_of. triv.
      - sq co_type_of. triv. }
    destruct (f =? "range").
    { destruct a as [|v a]; try triv. destruct v; try triv. destruct a as [|v a]; try triv. destruct v; try triv. destruct a as [|v a]; try triv.
      destruct v; try triv. destruct a; try triv. cases. }
    destruct (f =? "enumerate").
    { assert (EN : forall b, Forall inert (enumerated b)).
      { intro b. unfold enumerated. apply Forall_forall. intros x X. apply in_map_iff in X as (y & <- & _). cbn. auto. }
      destruct a as [|v a]; try triv. destruct v; try triv; destruct a; try triv; [apply co_new; apply EN|]. sq co_bytes_of. apply co_new. apply EN. }
    destruct (String.eqb_spec f "sorted") as [FS|].
    { specialize (AF FS). destruct a as [|v [|]]; try triv. assert (FV : fresh v) by now inversion AF.
      assert (S : forall f, (forall v, co (f v) T) -> co (let> vs := iterate_t order v in let> ks := each_t (keyed_t f) vs in new_t (ListO (sort_by ks))) fresh).
      { intros g G. eapply co_seq; [apply co_iterate; left; exact FV|]. intros vs VS. eapply co_seq; [eapply co_each; [exact VS|intros; apply co_keyed; assumption]|].
        intros ks KS. apply co_new. now apply sort_inert. }
      destruct k as [|[x y] k]; [apply S; intros; apply co_done; ok|].
      repeat match goal with |- co (match ?x with _ => _ end) _ => destruct x; try triv end. apply S. intros. eapply co_any, co_to_int. }
    destruct (f =? "a2b_hex"); [|triv].
    destruct a as [|v a]; try triv. destruct v; try triv; destruct a; try triv; cases.
    sq co_bytes_of. cases.
  Qed.
  Context (STDOUT : inert stdout).
  (** The attribute [a] of [v], to be called. *)
  Definition bound (v : value) (a : string) (g : value) : Prop := g = MethodV v a \/ v = ModuleV "binascii" /\ a = "a2b_hex" /\ g = FunV "a2b_hex" \/ inert g.
  Lemma co_getattr v a : a <> "__class__" -> co (getattr_t stdout v a) (bound v a).
  Proof.
    intro N. unfold getattr_t. destruct (String.eqb_spec a "__class__"); [congruence|].
    assert (M : bound v a (MethodV v a)) by (left; reflexivity).
    Local Ltac tb M := match goal with
      | |- co (stuck_t _) _ => ok
      | |- co (throw_t _ _) _ => ok
      | |- co (done_t (MethodV _ _)) _ => apply co_done; exact M
      | |- co (done_t (StrV _)) _ => apply co_done; right; right; ok
      | |- co (if mem _ _ then _ else _) _ => destruct (mem _ _); tb M
      | |- co (if (_ =? _)%string then _ else _) _ => destruct (_ =? _)%string; tb M
      | |- _ => idtac
      end.
    destruct v; tb M.
    - apply co_read. intros o O. apply ok_tame in O. destruct o; tb M.
      destruct (lookup a attrs) eqn:L; [|ok]. apply co_done. right. right. eapply (dget_forall String.eqb inert); [exact (proj1 O)|exact L].
    - repeat match goal with |- co (if ?x then _ else _) _ => destruct x eqn:? end; tb M.
      + right. left. match goal with H : (_ && _)%bool = true |- _ => apply andb_prop in H; destruct H as [H H2]; apply String.eqb_eq in H, H2 end. subst. now repeat split.
      + right. right. exact STDOUT.
  Qed.
  Lemma co_getattr_any v a : co (getattr_t stdout v a) T.
  Proof.
    destruct (String.eqb_spec a "__class__") as [->|N]; [|eapply co_any, co_getattr, N]. unfold getattr_t. cbn. apply co_type_of.
  Qed.
  Lemma co_setattr v a x : fresh v -> inert x -> co (setattr_t v a x) T.
  Proof.
    intros V X. unfold setattr_t. destruct v; try triv. apply co_read. intros o O. rewrite obj_ok_new in O by exact V. destruct o; try triv.
    apply co_put; [|discriminate]. rewrite obj_ok_new by exact V. destruct O as [O1 O2]. split; [|exact O2]. now apply (dset_forall String.eqb inert).
  Qed.
  Lemma co_no_args a m P : co m P -> co (no_args_t a m) P.
  Proof. intro M. unfold no_args_t. destruct a; [exact M|triv]. Qed.
  Local Notation call_method_t := (call_method_t E order table).
  Ltac nm := match goal with
    | |- co (if (?m =? ?s)%string then _ else _) _ => destruct (String.eqb_spec m s); [subst m; try discriminate|]
    | |- co (if ((_ =? _)%string && (?m =? ?s)%string)%bool then _ else _) _ =>
        destruct (String.eqb_spec m s); [subst m; try discriminate|rewrite andb_false_r]
    end.
  Ltac args a := repeat match goal with |- co (match ?x with _ => _ end) _ => is_var x; destruct x; try triv end.
  Lemma co_reader self m a k : mem m readers = true -> co (call_method_t self m a k) fresh.
  Proof.
    intro R. unfold Threads.call_method_t. match goal with |- co (if ?x then _ else _) _ => destruct x; [triv|] end.
    destruct self; try triv.
    - nm; [args a; cases|triv].
    - nm; [apply co_no_args; triv|]. nm; [apply co_no_args; triv|]. nm; [apply co_format|]. nm; [args a; apply co_cres_bytes|triv].
    - nm; [apply co_no_args; triv|]. nm; [args a; apply co_cres_str|triv].
    - apply co_read. intros o O. destruct o; try triv.
      + nm. nm. nm. triv.
      + nm. nm. nm. nm; [args a; sq co_range_of; triv|]. nm; [args a; sq co_range_of; apply co_new; ok|]. nm; [args a; sq co_range_of; apply co_new; ok|triv].
      + nm; [apply co_no_args; triv|]. nm; [args a; apply co_cres_str|triv].
      + nm. triv.
    - nm. triv.
    - match goal with |- context [(?c =? "bytes")%string] => destruct (c =? "bytes")%string; cbn [andb]; destruct (c =? "int")%string; cbn [andb]; destruct (c =? "ValueError")%string; cbn [andb] end.
      all: repeat nm; try triv; args a; cases; sq co_bytes_of; triv.
    - nm. triv.
  Qed.
  Lemma co_keys self a k : co (call_method_t self "keys" a k) viewed.
  Proof.
    unfold Threads.call_method_t. match goal with |- co (if ?x then _ else _) _ => destruct x; [triv|] end.
    destruct self; try ok.
    - apply co_read. intros o O. destruct o; try ok. cbn. apply co_no_args, co_done. right. exists l. reflexivity.
    - cbn. rewrite !andb_false_r. ok.
    - cbn. rewrite !andb_false_r. ok.
  Qed.
  Lemma co_dict_get self a0 d k : inert self -> inert d -> co (call_method_t self "get" [a0; d] k) inert.
  Proof.
    intros S D. unfold Threads.call_method_t. match goal with |- co (if ?x then _ else _) _ => destruct x; [triv|] end.
    destruct self; try ok; try contradiction.
    - apply co_read. intros o O. apply ok_tame in O. destruct o; try ok. cbn [String.eqb]. cbn -[dget key_of]. destruct (key_of a0); [|ok]. apply co_done.
      destruct (dget key_eqb p items) eqn:G; [|exact D]. eapply (dget_forall key_eqb inert); [exact O|exact G].
    - cbn -[sget]. destruct a0; try ok. apply co_done. destruct (sget s m) eqn:G; [|exact D]. eapply inert_map; eassumption.
  Qed.
  Lemma co_set_write self m a k : mem m ["update"; "add"; "remove"] = true -> fresh self -> Forall fresh a -> co (call_method_t self m a k) fresh.
  Proof.
    intros M S A. unfold Threads.call_method_t. match goal with |- co (if ?x then _ else _) _ => destruct x; [triv|] end.
    destruct self; try ok; try contradiction; try (repeat nm; triv).
    apply co_read. intros o O. destruct o; try triv; try (repeat nm; triv).
    nm; [args a; inversion A; eapply co_seq; [apply co_iterate; left; assumption|intros ? ?]; sq co_ints; eapply co_seq; [apply co_put; [|discriminate]; rewrite obj_ok_new by exact S; ok|intros; triv]|].
    nm; [args a; eapply co_seq; [apply co_put; [|discriminate]; rewrite obj_ok_new by exact S; ok|intros; triv]|].
    nm; [args a; match goal with |- co (if ?x then _ else _) _ => destruct x; [|triv] end; eapply co_seq; [apply co_put; [|discriminate]; rewrite obj_ok_new by exact S; ok|intros; triv]|].
    repeat nm; triv.
  Qed.
  Lemma co_pop self x d k : inert d -> fresh self \/ touched self /\ is_key x -> co (call_method_t self "pop" [x; d] k) inert.
  Proof.
    intros D S. unfold Threads.call_method_t. match goal with |- co (if ?x then _ else _) _ => destruct x; [triv|] end.
    assert (IN : inert self) by (destruct S as [S|[[S _] _]]; [now apply fresh_inert|exact S]). destruct self; try ok; try contradiction.
    apply co_read. intros o O. destruct o; try ok. cbn -[dget dpop key_of]. destruct (key_of x) as [k'|] eqn:K; [|ok].
    assert (X : obj_ok l (DictO (dpop key_eqb k' items))).
    { destruct S as [F|[[_ TC] (s & -> & IK)]].
      - rewrite obj_ok_new in * by exact F. now apply (dpop_forall key_eqb fresh).
      - injection K as <-. destruct (TC _ eq_refl) as [N|L]; [rewrite obj_ok_new in * by exact N; now apply (dpop_forall key_eqb fresh)|].
        eapply touch_dict; [exact L| | |apply texts_dpop|exact O| |].
        + intros ->. destruct IK.
        + apply data_items_pop. auto.
        + apply (dpop_forall key_eqb inert). exact (ok_tame _ _ O).
        + intro N. rewrite obj_ok_new in O by exact N. now apply (dpop_forall key_eqb fresh). }
    eapply co_seq; [apply co_put; [exact X|discriminate]|]. intros. apply co_done. destruct (dget key_eqb k' items) eqn:G; [|exact D].
    eapply (dget_forall key_eqb inert); [exact (ok_tame _ _ O)|exact G].
  Qed.
  Context (writes : bool) (WRITES : writes = true -> forall l, touch l -> prints l)
    (MINE : writes = true -> forall l, touch l -> own l = true -> mine = true).
  Lemma co_write self a k : writes = true -> touched self -> co (call_method_t self "write" a k) fresh.
  Proof.
    intros W [IN S]. unfold Threads.call_method_t. match goal with |- co (if ?x then _ else _) _ => destruct x; [triv|] end.
    destruct self; try ok; try contradiction.
    assert (PUT : forall o t s, obj_ok l o -> o = StreamO t -> own l = false -> co (put_t l (StreamO (t ++ s))) T).
    { intros o t s O -> N t' X. cbn. rewrite N. split; [|exact I].
      destruct (S _ eq_refl) as [NW|L]; [now rewrite obj_ok_new by exact NW|]. unfold obj_ok in *. destruct (hget h0 l) as [o0|]; [|ok].
      split; [|ok]. eapply changed_trans; [apply O|]. constructor. now apply WRITES. }
    destruct (own l) eqn:N.
    - assert (Y : mine = true).
      { destruct (S _ eq_refl) as [NW|L]; [|exact (MINE W _ L N)]. apply new_not_own in NW. congruence. }
      intros t X. unfold seq_t, get_t. cbn. rewrite N, Y. cbn. destruct a as [|v [|v2 a]]; [ok|destruct v; try ok|destruct v; ok]. unfold put_t. cbn. rewrite N. split; [exact Y|]. eexists. split; [reflexivity|exact I].
    - apply co_read. intros o O. destruct o; try ok. cbn. args a. eapply co_seq; [eapply PUT; [exact O|reflexivity|reflexivity]|intros; triv].
  Qed.
  Lemma co_exc_init self a k : fresh self -> Forall inert a -> co (call_method_t (TypeV "ValueError") "__init__" (self :: a) k) fresh.
  Proof.
    intros S A. unfold Threads.call_method_t. match goal with |- co (if ?x then _ else _) _ => destruct x; [triv|] end. cbn.
    destruct self; try triv. apply co_read. intros o O. rewrite obj_ok_new in O by exact S. destruct o; try triv.
    eapply co_seq; [apply co_put; [|discriminate]|intros; triv]. rewrite obj_ok_new by exact S. split; [apply O|exact A].
  Qed.
  Lemma co_dispatch a0 k : co (call_method_t (ModuleV "_dispatch") "get" [a0; NoneV] k) (fun v => v = NoneV \/ exists f, v = FunV f /\ In f (map snd table)).
  Proof.
    unfold Threads.call_method_t. match goal with |- co (if ?x then _ else _) _ => destruct x; [triv|] end. cbn -[lookup].
    destruct a0; try triv. destruct a0; try triv; [|reflexivity]. destruct (_ =? _); [|triv]. apply co_done.
    destruct (lookup _ _) eqn:L; [|now left]. right. clear - L. unfold lookup in L. induction table as [|[x y] tb IH]; cbn in L; [discriminate|].
    match type of L with (if ?b then _ else _) = _ => destruct b end; [injection L as <-; exists y; split; [reflexivity|left; reflexivity]|]. destruct (IH L) as (f & Q & F). exists f. split; [exact Q|right; exact F].
  Qed.

  Lemma co_add_text a b : is_text b -> co (binop_t Add a b) is_text.
  Proof. intros [s ->]. destruct a; try ok. apply co_done. eexists. reflexivity. Qed.
  Lemma co_upper self a k : co (call_method_t self "upper" a k) is_text.
  Proof.
    unfold Threads.call_method_t. match goal with |- co (if ?x then _ else _) _ => destruct x; [triv|] end.
    destruct self; try ok; cbn.
    - unfold no_args. destruct a; [|ok]. apply co_done. eexists. reflexivity.
    - apply co_read. intros o _. destruct o; ok.
    - rewrite !Bool.andb_false_r. ok.
    - rewrite Bool.andb_false_r. ok.
  Qed.

  (** ** What the types say *)
  Context (targets : option (list string)) (TARGETS : forall fs, targets = Some fs -> incl (map snd table) fs).
  Context (sysout : bool) (STDOUT_TOUCHED : sysout = true -> touched stdout).
  Context (prog : list (string * fundef)) (sigs : list (string * (vars * ty))).
  Definition sat (t : ty) (v : value) : Prop :=
    match t with
    | TNone => v = NoneV
    | TKey => is_key v
    | TText => is_text v
    | TFresh => fresh v
    | TView => viewed v
    | TTouch => touched v
    | TThere => touched v /\ v <> NoneV
    | TAny => inert v
    | TFuns => v = NoneV \/ exists f, v = FunV f /\ In f (map snd table)
    | TCode => True
    end.
  Lemma fresh_touched v : fresh v -> touched v.
  Proof. intro F. split; [now apply fresh_inert|]. intros l ->. left. exact F. Qed.
  Lemma le_sat a b v : le a b = true -> sat a v -> sat b v.
  Proof.
    destruct a, b; cbn; intros L S; try discriminate; try ok; try exact S; try (now apply fresh_touched); try (now apply fresh_inert);
      try (left; exact S); try (subst v; left; ok); try (destruct S as (k & -> & _); left; ok); try (destruct S as [S|[l ->]]; [now apply fresh_inert|ok]);
      try (subst v; first [ok|left; reflexivity|now apply (fresh_touched NoneV)]); try (destruct S as (k & -> & _); first [ok|eexists; reflexivity|now apply (fresh_touched (StrV k))]);
      try (destruct S as [k ->]; first [ok|left; ok|now apply (fresh_touched (StrV k))]).
    all: apply S.
  Qed.
  Lemma le_join a b : le a (join a b) = true /\ le b (join a b) = true.
  Proof. destruct a, b; split; reflexivity. Qed.
  Lemma les_sat a b vs : les a b = true -> Forall2 sat a vs -> Forall2 sat b vs.
  Proof.
    intros L F. revert b L. induction F as [|t v a vs V F IH]; intros [|t' b] L; try discriminate; constructor; cbn in L; apply andb_prop in L as [L1 L2].
    - eapply le_sat; eassumption.
    - now apply IH.
  Qed.
  Lemma all_le t ts vs : forallb (fun x => le x t) ts = true -> Forall2 sat ts vs -> Forall (sat t) vs.
  Proof.
    intros L F. induction F as [|x v ts vs V F IH]; cbn in *; constructor; apply andb_prop in L as [L1 L2]; [eapply le_sat; eassumption|now apply IH].
  Qed.
  Local Notation params := (params prog sigs).
  Local Notation infer := (infer keys writes sysout targets prog sigs).
  Context (call_t : string -> list value -> act value) (locals : list string).
  Context (CALL : forall f ps ret args, params f = Some (ps, ret) -> Forall2 sat ps args -> co (call_t f args) (sat ret)).
  Local Notation eval_t := (eval_t E order stdout table call_t locals).
  Local Notation apply_t := (apply_t E order table call_t).

  Definition good (g : vars) (r : env) : Prop :=
    (forall x v, lookup x r = Some v -> exists t, var g x = Some t /\ sat t v) /\ (forall x t, var g x = Some t -> lookup x r = None -> mem x locals = true).
  Definition global_value (x : string) : value :=
    if mem x type_names then TypeV x else if mem x module_names then ModuleV x else FunV x.
  Definition of_name (g : vars) (x : string) (v : value) : Prop := match var g x with Some t => sat t v | None => v = global_value x end.
  Lemma co_name g r x : good g r -> co (name_t locals r x) (of_name g x).
  Proof.
    intros [R D]. unfold name_t, of_name. destruct (lookup x r) as [v|] eqn:L.
    - apply co_done. destruct (R _ _ L) as (t & V & S). now rewrite V.
    - destruct (mem x locals) eqn:M; [ok|]. destruct (var g x) eqn:V; [rewrite (D _ _ V L) in M; discriminate|].
      unfold global_t, global_value. destruct (mem x type_names); [apply co_done; reflexivity|]. destruct (mem x module_names); apply co_done; reflexivity.
  Qed.
  Lemma fresh_sat t v : le TFresh t = true -> fresh v -> sat t v.
  Proof. intros L F. eapply le_sat; [exact L|exact F]. Qed.
  Lemma co_call_name g x ts ret v vs ks : call_name targets prog sigs g x ts = Some ret -> of_name g x v -> Forall2 sat ts vs -> co (apply_t v vs ks) (sat ret).
  Proof.
    unfold call_name, of_name. intros C V S. destruct (var g x) as [[]|] eqn:G; try discriminate.
    - destruct targets as [fs|] eqn:TG; [|discriminate]. destruct (forallb _ fs) eqn:A; [|discriminate]. injection C as <-.
      destruct V as [->|(f & -> & F)]; [ok|]. unfold Threads.apply_t. apply (TARGETS _ eq_refl) in F. rewrite forallb_forall in A. specialize (A _ F).
      apply andb_prop in A as [A NB]. destruct (mem f _); [discriminate|]. destruct ks; [|ok]. unfold accepts in A.
      destruct (params f) as [[ps r]|] eqn:P; [|discriminate]. eapply co_any, CALL; [exact P|]. eapply les_sat; eassumption.
    - subst v. unfold global_value. destruct (mem x type_names) eqn:MT.
      + unfold Threads.apply_t. destruct ks; [|ok]. destruct (mem x ["DecodeError"; "EncodeError"]).
        * destruct (params _) as [[[|p ps] r]|] eqn:P; try discriminate. destruct (_ && _)%bool eqn:L; [|discriminate]. injection C as <-. apply andb_prop in L as [L1 L2].
          unfold instantiate_t. eapply co_seq; [apply co_new; repeat constructor|]. intros self F. eapply co_seq.
          -- eapply CALL; [exact P|]. constructor; [now eapply fresh_sat|]. eapply les_sat; eassumption.
          -- intros. apply co_done. exact F.
        * match type of C with (if ?b then _ else _) = _ => destruct b eqn:B; [discriminate|] end. injection C as <-.
          assert (A : x = "set" -> Forall fresh vs).
          { intros ->. rewrite String.eqb_refl in B. cbn [andb] in B. apply negb_false_iff in B. exact (all_le TFresh _ _ B S). }
          destruct (String.eqb_spec x "type"); [now apply co_call_type_any|now apply co_call_type].
      + destruct (mem x module_names); [discriminate|]. unfold Threads.apply_t. destruct (mem x ("a2b_hex" :: builtin_names)); [|].
        { match type of C with (if ?b then _ else _) = _ => destruct b eqn:B; [discriminate|] end. injection C as <-. apply co_builtin.
          intros ->. rewrite String.eqb_refl in B. cbn [andb] in B. apply negb_false_iff in B. exact (all_le TFresh _ _ B S). }
        destruct (params x) as [[ps r]|] eqn:P; [|discriminate]. destruct (les ts ps) eqn:L; [|discriminate]. injection C as <-. destruct ks; [|ok].
        eapply CALL; [exact P|]. eapply les_sat; eassumption.
  Qed.
  Lemma co_call_attr g e t m ts ret v f vs ks : call_attr writes targets g e t m ts = Some ret -> sat t v -> (forall x, unbound g e x = true -> v = global_value x) ->
    bound v m f -> Forall2 sat ts vs -> co (apply_t f vs ks) (sat ret).
  Proof.
    intros C V G [->|[(-> & -> & ->)|B]] S.
    - unfold Threads.apply_t. unfold call_attr in C. destruct (String.eqb_spec m "upper"); [subst m; injection C as <-; apply co_upper|].
      destruct (mem m readers) eqn:MR; [injection C as <-; now apply co_reader|].
      destruct (String.eqb_spec m "keys"); [subst m; injection C as <-; apply co_keys|].
      destruct (String.eqb_spec m "get"); [subst m|].
      { destruct (unbound g e "_dispatch") eqn:U.
        - destruct targets; [|discriminate]. destruct ts as [|a [|d [|]]]; try discriminate. destruct (le d TNone) eqn:L; [|discriminate]. injection C as <-.
          inversion S as [|? x ? xs X S1]; subst. inversion S1 as [|? y ? ys Y S2]; subst. inversion S2; subst. apply (le_sat _ _ _ L) in Y. cbn in Y. subst y.
          rewrite (G _ U). apply co_dispatch.
        - destruct ts as [|a [|d [|]]]; try discriminate. destruct (_ && _)%bool eqn:L; [|discriminate]. apply andb_prop in L as [L1 L2]. injection C as <-.
          inversion S as [|? x ? xs X S1]; subst. inversion S1 as [|? y ? ys Y S2]; subst. inversion S2; subst.
          apply co_dict_get; [exact (le_sat _ _ _ L1 V)|exact (le_sat _ _ _ L2 Y)]. }
      destruct (mem m ["update"; "add"; "remove"]) eqn:MW; [destruct (_ && _)%bool eqn:L; [|discriminate]; apply andb_prop in L as [L LA]; injection C as <-; apply co_set_write; [exact MW|exact (le_sat _ _ _ L V)|exact (all_le TFresh _ _ LA S)]|].
      destruct (String.eqb_spec m "pop"); [subst m|].
      { destruct ts as [|a [|d [|]]]; try discriminate. destruct (_ && _)%bool eqn:L; [|discriminate]. apply andb_prop in L as [L1 L2]. injection C as <-.
        inversion S as [|? x ? xs X S1]; subst. inversion S1 as [|? y ? ys Y S2]; subst. inversion S2; subst. apply co_pop; [exact (le_sat _ _ _ L1 Y)|].
        apply orb_prop in L2 as [L2|L2]; [left; exact (le_sat _ _ _ L2 V)|]. apply andb_prop in L2 as [L2 L3]. right. split; [exact (le_sat _ _ _ L2 V)|exact (le_sat _ _ _ L3 X)]. }
      destruct (String.eqb_spec m "write"); [subst m|].
      { destruct (_ && _)%bool eqn:L; [|discriminate]. apply andb_prop in L as [W L]. injection C as <-. apply co_write; [exact W|exact (le_sat _ _ _ L V)]. }
      destruct (String.eqb_spec m "__init__"); [subst m|discriminate].
      destruct (unbound g e "ValueError") eqn:U; [|discriminate]. rewrite (G _ U). destruct ts as [|s rest]; [discriminate|].
      destruct (_ && _)%bool eqn:L; [|discriminate]. apply andb_prop in L as [L1 L2]. injection C as <-.
      inversion S as [|? x ? xs X S1]; subst. apply co_exc_init; [exact (le_sat _ _ _ L1 X)|]. exact (all_le TAny _ _ L2 S1).
    - injection C as <-.
      eapply co_weaken; [apply (co_builtin "a2b_hex"); discriminate|]. intros. now eapply fresh_sat.
    - destruct f; try ok; contradiction.
  Qed.

  (** ** Expressions *)
  Definition checks_expr (e : expr) : Prop := forall g r t, good g r -> infer g e = Some t -> co (eval_t r e) (sat t).
  Definition checks_part (e : expr) : Prop := checks_expr e /\ match e with Attribute e' _ => checks_expr e' | _ => True end.
  Local Notation infers g := (fix infers (l : list expr) : option (list ty) :=
      match l with
      | [] => Some []
      | e :: l' => match infer g e, infers l' with Some t, Some ts => Some (t :: ts) | _, _ => None end
      end).
  Local Notation evals r := (fix evals (l : list expr) : act (list value) :=
      match l with
      | [] => done_t []
      | e :: l' => let> v := eval_t r e in let> vs := evals l' in done_t (v :: vs)
      end).
  Lemma co_evals l : Forall checks_part l -> forall g r ts, good g r -> infers g l = Some ts -> co (evals r l) (Forall2 sat ts).
  Proof.
    induction 1 as [|e l [He _] H IH]; intros g r ts G Q; [injection Q as <-; apply co_done; constructor|].
    destruct (infer g e) as [t|] eqn:Qe; [|discriminate]. destruct (infers g l) as [ts'|] eqn:Ql; [|discriminate]. injection Q as <-.
    eapply co_seq; [eapply He; eassumption|]. intros v V. eapply co_seq; [eapply IH; eassumption|]. intros vs VS. apply co_done. now constructor.
  Qed.
  Lemma co_unbound e g r t : checks_expr e -> good g r -> infer g e = Some t ->
    co (eval_t r e) (fun v => sat t v /\ forall x, unbound g e x = true -> v = global_value x).
  Proof.
    intros He G Q. destruct e; try (eapply co_weaken; [eapply He; eassumption|]; intros v V; split; [exact V|]; intros ? U; discriminate U).
    cbn in *. eapply co_weaken; [apply co_name; exact G|]. intros v V. unfold of_name in V. injection Q as <-. destruct (var g id) eqn:Vg.
    - split; [exact V|]. intros x U. rewrite andb_false_r in U. discriminate.
    - split; [ok|]. intros x U. rewrite andb_true_r in U. apply String.eqb_eq in U. now subst.
  Qed.
  Lemma lookup_bind y x v r : lookup y (bindv x v r) = if y =? x then Some v else lookup y r.
  Proof.
    unfold lookup, bindv. induction r as [|[z w] r IH]; cbn; [reflexivity|].
    destruct (String.eqb_spec x z); cbn.
    - subst z. destruct (y =? x); reflexivity.
    - rewrite IH. destruct (String.eqb_spec y z), (String.eqb_spec y x); congruence.
  Qed.
  Lemma bind_new g x v r : inert v -> good g r -> good ((x, TAny) :: g) (bindv x v r).
  Proof.
    intros V [R D]. split.
    - intros y w L. rewrite lookup_bind in L. unfold var. cbn. destruct (String.eqb_spec y x); [|now apply R]. injection L as <-. exists TAny. now split.
    - intros y t Y L. rewrite lookup_bind in L. unfold var in Y. cbn in Y. destruct (String.eqb_spec y x); [discriminate|]. eapply D; eassumption.
  Qed.
  Lemma unpack_new ts : forall vs g g' r r', named ts g = Some g' -> Forall inert vs -> unpack_names ts vs r = Some r' -> good g r -> good g' r'.
  Proof.
    induction ts as [|e ts IH]; intros vs g g' r r' N V U G; cbn in *.
    - destruct vs; [|discriminate]. now injection U as <-; injection N as <-.
    - destruct e; try discriminate. destruct vs as [|v vs]; [discriminate|]. inversion V; subst. eapply IH; [exact N| |exact U|]; [assumption|]. now apply bind_new.
  Qed.
  Lemma co_bind_target t v g g' r : with_target t g = Some g' -> inert v -> good g r -> co (bind_target_t t v r) (good g').
  Proof.
    intros W V G. unfold bind_target_t, with_target in *. destruct t; try ok.
    - injection W as <-. apply co_done. now apply bind_new.
    - destruct v; try ok. destruct (unpack_names _ _ r) eqn:U; [|ok]. apply co_done. eapply unpack_new; [exact W| |exact U|exact G]. now apply inert_tuple.
  Qed.
  Lemma co_nested {B} (m : act B) P : co m P -> co (nested_t m) P.
  Proof. intro M. apply co_map_end; [exact M|]. intros [a|x|w]; cbn; auto. destruct x; cbn; auto. destruct (_ =? _); cbn; auto. Qed.
  Lemma from_items_fresh d : Forall (fun kv => fresh (snd kv)) d -> Forall (fun kv => fresh (snd kv)) (from_items d).
  Proof.
    unfold from_items.
    assert (X : forall d a, Forall (fun kv : pykey * value => fresh (snd kv)) a -> Forall (fun kv => fresh (snd kv)) d ->
      Forall (fun kv => fresh (snd kv)) (fold_left (fun acc kv => dset key_eqb (fst kv) (snd kv) acc) d a)).
    { clear. induction d as [|[k v] d IH]; intros a A D; [exact A|]. inversion D; subst. cbn. apply IH; [|assumption]. now apply (dset_forall key_eqb fresh). }
    intro D. apply X; [constructor|exact D].
  Qed.
  Ltac ifs Q := match type of Q with
    | (match ?x with _ => _ end) = Some _ => destruct x eqn:?; try discriminate
    end.
  Ltac sv H := eapply co_seq; [eapply H; eassumption|intros ? ?].
  Lemma infer_sound : forall e, checks_part e.
  Proof.
    apply expr_induction; unfold checks_part, checks_expr.
    - intros c. split; [|ok]. intros g r t G Q. cbn in *. apply co_done. destruct c; injection Q as <-; try ok; try reflexivity.
      destruct (existsb _ keys) eqn:X; [|ok]. apply existsb_exists in X as (k & K & X). apply str_eqb_eq in X. subst k. exists (u s). now split.
    - intros x. split; [|ok]. intros g r t G Q. cbn in *. injection Q as <-. eapply co_weaken; [apply co_name, G|]. intros v V. unfold of_name in V. destruct (var g x); [exact V|ok].
    - intros e a [He _]. split; [|exact He]. intros g r t G Q. cbn in *. destruct (infer g e) as [t0|] eqn:Qe; [|discriminate]. injection Q as <-.
      eapply co_seq; [eapply co_unbound; eassumption|]. intros v [V GV]. destruct (_ && _ && _)%bool eqn:B; [|apply co_getattr_any].
      apply andb_prop in B as [B W]. apply andb_prop in B as [B A]. rewrite (GV _ B). apply String.eqb_eq in A. subst a. cbn. apply co_done. now apply STDOUT_TOUCHED.
    - intros e i [He _] [Hi _] Hs. split; [|ok]. intros g r t G Q. cbn in Q |- *. destruct (infer g e) as [t0|] eqn:Qe; [|discriminate]. sv He.
      assert (ITEM : forall i, (forall g r t, good g r -> infer g i = Some t -> co (eval_t r i) (sat t)) ->
        match infer g i with Some _ => Some (if le t0 TFresh then TFresh else if le t0 TAny then TAny else TCode) | None => None end = Some t ->
        co (let> k := eval_t r i in getitem_t a k) (sat t)).
      { clear Q. intros j Hj Q. destruct (infer g j) eqn:Qj; [|discriminate]. injection Q as <-. sv Hj. destruct (le t0 TFresh) eqn:L1; [apply co_getitem_fresh; eapply (le_sat _ TFresh); eassumption|].
        destruct (le t0 TAny) eqn:L2; [apply co_getitem_any; eapply (le_sat _ TAny); eassumption|apply co_getitem]. }
      destruct i; try (apply ITEM; [exact Hi|exact Q]). clear ITEM. destruct Hs as [HL HH].
      match type of Q with (if (?x && ?y)%bool then _ else _) = _ => destruct x eqn:B1; [|discriminate]; destruct y eqn:B2; [|discriminate] end. injection Q as <-.
      eapply co_seq with (P := T); [destruct lower; [|ok]; destruct (infer g e0) eqn:Q1; [|discriminate]; eapply co_any, (proj1 HL); eassumption|]. intros x _.
      eapply co_seq with (P := T); [destruct upper; [|ok]; destruct (infer g e0) eqn:Q1; [|discriminate]; eapply co_any, (proj1 HH); eassumption|]. intros y _.
      apply co_getslice.
    - intros lo hi. split; [|ok]. intros. ok.
    - intros f a k [Hf Hf'] Ha Hk. split; [|ok]. intros g r t G Q. cbn in Q |- *.
      match type of Q with context [match ?x with Some _ => _ | None => _ end] => destruct x as [ts|] eqn:Qa; [|discriminate] end.
      match type of Q with context [if ?x then _ else _] => destruct x eqn:Qk; [|discriminate] end.
      assert (KS : co ((fix evalk (l : list (string * expr)) : act env :=
          match l with [] => done_t [] | (k, e) :: l' => let> v := eval_t r e in let> ks := evalk l' in done_t ((k, v) :: ks) end) k) T).
      { clear - OWN Hk Qk G. induction Hk as [|[x e] k [He _] Hk IH]; [ok|]. cbn in *. apply andb_prop in Qk as [Q1 Q2]. destruct (infer g e) eqn:Qe; [|discriminate].
        sv He. eapply co_seq; [apply IH, Q2|]. intros. ok. }
      destruct f; try discriminate.
      + cbn. eapply co_seq; [apply co_name, G|]. intros v V. eapply co_seq; [eapply co_evals; eassumption|]. intros vs VS. eapply co_seq; [exact KS|]. intros ks _.
        eapply co_call_name; eassumption.
      + destruct (infer g f) as [t0|] eqn:Qf; [|discriminate]. cbn [Threads.eval_t].
        assert (N : attr <> "__class__") by (intros ->; cbn in Q; discriminate).
        eapply co_seq with (P := fun w => exists v, sat t0 v /\ (forall x, unbound g f x = true -> v = global_value x) /\ bound v attr w).
        { eapply co_seq; [eapply co_unbound; eassumption|]. intros v [V GV]. eapply co_weaken; [apply co_getattr, N|]. intros w W. exists v. auto. }
        intros w (v & V & GV & W). eapply co_seq; [eapply co_evals; eassumption|]. intros vs VS. eapply co_seq; [exact KS|]. intros ks _.
        eapply co_call_attr; eassumption.
    - intros x o y [Hx _] [Hy _]. split; [|ok]. intros g r t G Q. cbn in Q |- *. destruct (infer g x) eqn:Qx; [|discriminate]. destruct (infer g y) as [ty1|] eqn:Qy; [|discriminate]. injection Q as <-.
      sv Hx. sv Hy. destruct o; try apply co_binop. destruct (le ty1 TText) eqn:L; [|apply co_binop]. apply co_add_text. eapply (le_sat _ TText); eassumption.
    - intros x y [Hx _] [Hy _]. split; [|ok]. intros g r t G Q. cbn in Q |- *. destruct (infer g x) as [a|] eqn:Qx; [|discriminate]. destruct (infer g y) as [b|] eqn:Qy; [|discriminate]. injection Q as <-.
      destruct (le_join a b) as [J1 J2]. eapply co_seq; [eapply Hx; eassumption|]. intros v V. eapply co_seq; [apply co_truth|].
      intros [] _; [eapply co_weaken; [eapply Hy; eassumption|]; intros w W; exact (le_sat _ _ _ J2 W)|]. apply co_done. exact (le_sat _ _ _ J1 V).
    - intros x [Hx _]. split; [|ok]. intros g r t G Q. cbn in Q |- *. destruct (infer g x) eqn:Qx; [|discriminate]. injection Q as <-. sv Hx. eapply co_seq; [apply co_truth|]. intros. ok.
    - intros x [Hx _]. split; [|ok]. intros g r t G Q. cbn in Q |- *. destruct (infer g x) eqn:Qx; [|discriminate]. injection Q as <-. sv Hx. destruct a; ok.
    - intros x o y [Hx _] [Hy _]. split; [|ok]. intros g r t G Q. cbn in Q |- *. destruct (infer g x) eqn:Qx; [|discriminate]. destruct (infer g y) eqn:Qy; [|discriminate]. injection Q as <-.
      sv Hx. sv Hy. eapply co_seq; [apply co_compare|]. intros. ok.
    - intros x y z [Hx _] [Hy _] [Hz _]. split; [|ok]. intros g r t G Q. cbn in Q |- *. destruct (infer g x) eqn:Qx; [|discriminate]. destruct (infer g y) as [a|] eqn:Qy; [|discriminate].
      destruct (infer g z) as [b|] eqn:Qz; [|discriminate]. injection Q as <-. destruct (le_join a b) as [J1 J2]. sv Hx. eapply co_seq; [apply co_truth|].
      intros [] _; (eapply co_weaken; [first [eapply Hy; eassumption|eapply Hz; eassumption]|]; intros w W; first [exact (le_sat _ _ _ J1 W)|exact (le_sat _ _ _ J2 W)]).
    - intros l Hl. split; [|ok]. intros g r t G Q. cbn in Q |- *. match type of Q with context [match ?x with Some _ => _ | None => _ end] => destruct x as [ts|] eqn:Ql; [|discriminate] end. injection Q as <-.
      eapply co_seq; [eapply co_evals; eassumption|]. intros vs VS. apply co_done.
      destruct (forallb _ ts) eqn:L1; [apply fresh_tuple; exact (all_le TFresh _ _ L1 VS)|]. clear L1. destruct (forallb _ ts) eqn:L1; [apply inert_tuple; exact (all_le TAny _ _ L1 VS)|ok].
    - intros l Hl. split; [|ok]. intros g r t G Q. cbn in Q |- *. match type of Q with context [match ?x with Some _ => _ | None => _ end] => destruct x as [ts|] eqn:Ql; [|discriminate] end.
      destruct (forallb _ ts) eqn:L1; [|discriminate]. injection Q as <-.
      eapply co_seq; [eapply co_evals; eassumption|]. intros vs VS. apply co_new. exact (all_le TAny _ _ L1 VS).
    - intros l Hl. split; [|ok]. intros g r t G Q. cbn in Q |- *. destruct (forallb _ l) eqn:L1; [|discriminate]. injection Q as <-.
      eapply co_seq with (P := Forall (fun kv => fresh (snd kv))); [|intros d D; apply co_new; now apply from_items_fresh].
      clear - OWN Hl L1 G. induction Hl as [|[k e] l [[Hk _] [He _]] Hl IH]; [apply co_done; constructor|]. cbn in L1, Hk, He. apply andb_prop in L1 as [L1 L2].
      destruct (infer g k) eqn:Qk; [|discriminate]. destruct (infer g e) eqn:Qe; [|discriminate]. sv Hk. eapply co_seq; [eapply He; eassumption|]. intros v V. eapply co_seq; [apply IH, L2|]. intros d D.
      destruct (key_of a); [|ok]. apply co_done. constructor; [exact (le_sat _ TFresh _ L1 V)|exact D].
    - intros e l [He _] Hl. split; [|ok]. intros g r t G Q. cbn in Q |- *.
      enough (X : co ((fix gen (gens : list (expr * expr * list expr)) (r : env) : act (list value) :=
          match gens with
          | [] => let> v := eval_t r e in done_t [v]
          | (t, it, ifs) :: gens' =>
              let> i := eval_t r it in
              let> w := watched_t i in
              let> vs := iterate_t order i in
              let> parts := each_t (fun v => stepping_t w (nested_t (
                let> r' := bind_target_t t v r in
                let> ok := (fix tests (l : list expr) : act bool :=
                  match l with
                  | [] => done_t true
                  | e :: l' => let> x := eval_t r' e in let> b := truth_t x in if b then tests l' else done_t false
                  end) ifs in
                if ok then gen gens' r' else done_t []))) vs in
              done_t (concat parts)
          end) l r) (Forall inert) /\ t = TFresh).
      { destruct X as [X ->]. eapply co_seq; [exact X|]. intros vs VS. now apply co_new. }
      revert g r t G Q. induction Hl as [|[[tg it] ifs] l [[Hit _] Hifs] Hl IH]; intros g r t G Q.
      + destruct (infer g e) as [te|] eqn:Qe; [|discriminate]. destruct (le te TAny) eqn:L; [|discriminate]. injection Q as <-. split; [|reflexivity].
        eapply co_seq; [eapply He; eassumption|]. intros v V. apply co_done. constructor; [exact (le_sat _ TAny _ L V)|constructor].
      + cbn in Hit, Hifs. destruct (infer g it) as [ti|] eqn:Qi; [|discriminate]. destruct (with_target tg g) as [g'|] eqn:W; [|discriminate].
        destruct (_ && _)%bool eqn:F; [|discriminate]. apply andb_prop in F as [LI F].
        assert (TT : t = TFresh).
        { clear - Q. revert Q. generalize g'. induction l as [|[[a b] c] l IH]; intros g0 Q.
          - destruct (infer g0 e) as [te|]; [|discriminate]. destruct (le te TAny); [|discriminate]. now injection Q as <-.
          - destruct (infer g0 b); [|discriminate]. destruct (with_target a g0) as [g1|]; [|discriminate]. destruct (_ && _)%bool; [|discriminate]. now apply (IH g1). }
        split; [|exact TT]. eapply co_seq; [eapply Hit; eassumption|]. intros i FI. eapply co_seq; [apply co_watched|]. intros w _. eapply co_seq; [apply co_iterate; exact (le_sat _ TView _ LI FI)|]. intros vs VS.
        eapply co_seq with (P := Forall (Forall inert)).
        * eapply co_each; [exact VS|]. intros v V. apply co_stepping, co_nested. eapply co_seq; [eapply co_bind_target; eassumption|]. intros r' G'.
          eapply co_seq with (P := T).
          -- clear - OWN Hifs F G'. induction Hifs as [|c ifs [Hc _] Hifs IH]; [ok|]. cbn in F. apply andb_prop in F as [F1 F2]. destruct (infer g' c) eqn:Qc; [|discriminate].
             sv Hc. eapply co_seq; [apply co_truth|]. intros [] _; [now apply IH|ok].
          -- intros [] _; [|apply co_done; constructor]. exact (proj1 (IH g' r' t G' Q)).
        * intros parts PS. apply co_done. clear - PS. induction PS as [|p ps P PS IH]; cbn; [constructor|]. apply Forall_app. now split.
    - intros l Hl. split; [|ok]. intros g r t G Q. cbn in Q |- *. match type of Q with context [match ?x with Some _ => _ | None => _ end] => destruct x as [ts|] eqn:Ql; [|discriminate] end. injection Q as <-.
      eapply co_seq with (P := T); [|intros; ok].
      revert ts Ql. induction Hl as [|e l [He _] Hl IH]; intros ts Ql; [ok|]. destruct (infer g e) eqn:Qe; [|discriminate].
      match type of Ql with context [match ?x with Some _ => _ | None => _ end] => destruct x as [ts'|] eqn:Ql'; [|discriminate] end.
      sv He. eapply co_seq; [apply co_str|]. intros s _. destruct l; [ok|]. eapply co_seq; [eapply IH; reflexivity|]. intros. ok.
  Qed.

  (** ** Statements *)
  Context (g : vars) (ret : ty) (RET : le TFresh ret = true) (LOCALS : forall x t, var g x = Some t -> mem x locals = true).
  Local Notation exec_t := (exec_t E order stdout table call_t locals).
  Local Notation check := (check keys writes sysout targets prog sigs g ret).
  Definition env_ok (r : env) : Prop := Forall (fun xv => exists t, var g (fst xv) = Some t /\ sat t (snd xv)) r.
  Definition post (cr : ctl * env) : Prop :=
    env_ok (snd cr) /\ match fst cr with Returned v => sat ret v | Threw x => fresh x | _ => True end.
  Lemma env_good r : env_ok r -> good g r.
  Proof.
    intro R. split; [|intros x t V _; eapply LOCALS, V]. intros x v L. unfold lookup in L. induction R as [|[y w] r X R IH]; cbn in L; [discriminate|].
    destruct (String.eqb_spec x y); [|now apply IH]. subst y. injection L as <-. exact X.
  Qed.
  Lemma bind_ok x t v r : var g x = Some t -> sat t v -> env_ok r -> env_ok (bindv x v r).
  Proof.
    intros V S. unfold env_ok, bindv. induction 1 as [|[y w] r X R IH]; cbn; [constructor; [exists t; now split|constructor]|].
    destruct (String.eqb_spec x y); constructor; auto. subst. exists t. now split.
  Qed.
  Lemma unbind_ok x r : env_ok r -> env_ok (unbindv x r).
  Proof.
    unfold unbindv, env_ok. destruct x as [x|]; [|auto]. induction 1 as [|[y w] r X R IH]; cbn; [constructor|]. destruct (x =? y); [exact R|]. now constructor.
  Qed.
  Lemma co_expr_then {A} (m : act A) P k r : co m P -> env_ok r -> (forall a, P a -> co (k a r) post) -> co (expr_then_t m k r) post.
  Proof. intros M R K. eapply co_then; [exact M|]. intros [a|x|y] O; [apply K, O| |ok]. intros t X. split; [exact R|exact O]. Qed.
  Lemma co_next r : env_ok r -> co (finish_t Next r) post.
  Proof. intro R. split; [exact R|ok]. Qed.
  Definition runs_ok (s : sem_t) : Prop := forall r, env_ok r -> co (s r) post.
  Lemma co_andthen a b : runs_ok a -> runs_ok b -> runs_ok (andthen_t a b).
  Proof.
    intros A B r R. unfold andthen_t. eapply co_seq; [apply A, R|]. intros [[] r'] [R' P]; cbn in *; [now apply B|..]; apply co_done; now split.
  Qed.
  Lemma infer_co e r t : env_ok r -> infer g e = Some t -> co (eval_t r e) (sat t).
  Proof. intros R Q. apply (proj1 (infer_sound e)) with (g := g); [now apply env_good|exact Q]. Qed.
  Lemma infer_le_co e r t : env_ok r -> infer_le keys writes sysout targets prog sigs g e t = true -> co (eval_t r e) (sat t).
  Proof.
    unfold infer_le. intros R L. destruct (infer g e) as [t'|] eqn:Q; [|discriminate]. eapply co_weaken; [eapply infer_co; eassumption|]. intros v V. exact (le_sat _ _ _ L V).
  Qed.
  Lemma co_assign_to t v ty : fits keys writes sysout targets prog sigs g ty t = true -> sat ty v -> runs_ok (assign_to_t E order stdout table call_t locals t v).
  Proof.
    intros F S r R. unfold assign_to_t, with_env_t. destruct t; try discriminate; cbn in F.
    - destruct (var g id) as [t'|] eqn:V; [|discriminate]. split; [|ok]. eapply bind_ok; [exact V|exact (le_sat _ _ _ F S)|exact R].
    - apply andb_prop in F as [F L]. eapply co_expr_then; [eapply infer_le_co; eassumption|exact R|]. intros o O.
      eapply co_expr_then; [apply co_setattr; [exact O|exact (le_sat _ TAny _ L S)]|exact R|]. intros. now apply co_next.
    - apply orb_prop in F as [F|F]; apply andb_prop in F as [F F2]; apply andb_prop in F as [L F1].
      + apply (le_sat _ TFresh _ L) in S. eapply co_expr_then; [eapply infer_le_co; eassumption|exact R|]. intros d D. eapply co_expr_then; [eapply infer_le_co; eassumption|exact R|]. intros k K.
        eapply co_expr_then; [apply co_setitem_fresh; [exact D|exact S]|exact R|]. intros. now apply co_next.
      + apply (le_sat _ TText _ L) in S. eapply co_expr_then; [eapply infer_le_co; eassumption|exact R|]. intros d D. eapply co_expr_then; [eapply infer_le_co; eassumption|exact R|]. intros k K.
        eapply co_expr_then; [apply co_setitem_touch; [exact D|exact K|exact S]|exact R|]. intros. now apply co_next.
  Qed.
  Lemma co_assign_all ty ts : forall vs, forallb (fits keys writes sysout targets prog sigs g ty) ts = true -> Forall (sat ty) vs -> runs_ok (assign_all_t E order stdout table call_t locals ts vs).
  Proof.
    induction ts as [|t ts IH]; intros [|v vs] F S; cbn in *; try (intros r R; ok); [intros r R; now apply co_next|].
    apply andb_prop in F as [F1 F2]. inversion S; subst. apply co_andthen; [eapply co_assign_to; eassumption|now apply IH].
  Qed.
  Lemma co_assign t v ty : fits_all keys writes sysout targets prog sigs g ty t = true -> sat ty v -> runs_ok (assign_t E order stdout table call_t locals t v).
  Proof.
    intros F S. unfold assign_t, fits_all in *. destruct t; try (eapply co_assign_to; eassumption).
    destruct v; try (intros r R; ok). destruct (le ty TFresh) eqn:L.
    - eapply co_assign_all; [exact F|]. apply fresh_tuple. exact (le_sat _ TFresh _ L S).
    - apply andb_prop in F as [L2 F]. eapply co_assign_all; [exact F|]. apply inert_tuple. exact (le_sat _ TAny _ L2 S).
  Qed.
  Lemma co_loop f (P : value -> Prop) l : Forall P l -> (forall v, P v -> runs_ok (f v)) -> runs_ok (loop_t f l).
  Proof. intros L F. induction L as [|v l V L IH]; [intros r R; now apply co_next|]. cbn. apply co_andthen; [now apply F|exact IH]. Qed.
  Lemma co_step_of w s : runs_ok s -> runs_ok (step_of_t w s).
  Proof.
    intro S. unfold step_of_t. destruct w as [w|]; [|exact S]. apply co_andthen; [exact S|]. intros r R. eapply co_expr_then; [apply co_unchanged|exact R|]. intros. now apply co_next.
  Qed.
  Local Notation block := (fix block (l : list stmt) : sem_t :=
      match l with
      | [] => finish_t Next
      | s :: l' => andthen_t (exec_t s) (block l')
      end).
  Definition checks_stmt (s : stmt) : Prop := check s = true -> runs_ok (exec_t s).
  Lemma co_block l : Forall checks_stmt l -> forallb check l = true -> runs_ok (block l).
  Proof.
    induction 1 as [|s l S H IH]; intro C; [intros r R; now apply co_next|]. cbn in C. apply andb_prop in C as [C1 C2]. apply co_andthen; [now apply S|now apply IH].
  Qed.
  Lemma co_refuted c r : refuted g c = true -> env_ok r -> co (let> x := eval_t r c in truth_t x) (eq false).
  Proof.
    intros F R. unfold refuted in F. repeat match type of F with match ?x with _ => _ end = _ => destruct x eqn:?; try discriminate end. subst. match goal with X : var g _ = Some TThere |- _ => rename X into V end.
    eapply co_seq with (P := eq (BoolV false)); [|intros ? <-; now apply co_done]. cbn.
    eapply co_seq; [apply co_name; now apply env_good|]. intros v S. unfold of_name in S. rewrite V in S. destruct S as [_ N]. apply co_seq with (P := eq false); [|intros ? <-; now apply co_done].
    destruct v; now apply co_done.
  Qed.
  Lemma check_sound : forall s, checks_stmt s.
  Proof.
    apply stmt_induction; unfold checks_stmt.
    - intros e C r R. cbn in *. unfold with_env_t. eapply co_expr_then; [eapply infer_le_co; eassumption|exact R|]. intros. now apply co_next.
    - intros t e C r R. cbn in C |- *. unfold with_env_t. destruct (infer g e) as [ty|] eqn:Q; [|discriminate]. eapply co_expr_then; [eapply infer_co; eassumption|exact R|].
      intros v V. eapply co_assign; eassumption.
    - intros t o e C r R. cbn in C |- *. apply andb_prop in C as [C1 C2]. unfold augassign_t, with_env_t. destruct t; try discriminate.
      + eapply co_expr_then; [apply co_name; now apply env_good|exact R|]. intros a A. unfold of_name in A. destruct (var g id) as [t|] eqn:V; [|discriminate].
        eapply co_expr_then; [eapply infer_le_co; eassumption|exact R|]. intros b _. eapply co_expr_then; [apply co_inplace|exact R|].
        * intros ->. destruct t; try discriminate. exact A.
        * intros v F. split; [|ok]. eapply bind_ok; [exact V| |exact R]. destruct t; try discriminate; [exact F|now apply fresh_inert].
      + apply andb_prop in C2 as [C2 C3]. eapply co_expr_then; [eapply infer_le_co; eassumption|exact R|]. intros d D. eapply co_expr_then; [eapply infer_le_co; eassumption|exact R|]. intros i _.
        eapply co_expr_then; [apply co_getitem_fresh, D|exact R|]. intros a A. eapply co_expr_then; [eapply infer_le_co; eassumption|exact R|]. intros b _.
        eapply co_expr_then; [apply co_inplace; intros _; exact A|exact R|]. intros v V. eapply co_expr_then; [apply co_setitem_fresh; [exact D|exact V]|exact R|]. intros. now apply co_next.
    - intros c a b Ha Hb C r R. cbn -[refuted] in C |- *. apply andb_prop in C as [C Cb]. apply andb_prop in C as [C Ca]. unfold with_env_t. apply orb_prop in Ca as [F|Ca].
      { eapply co_expr_then; [apply co_refuted; [exact F|exact R]|exact R|]. intros ? <-. eapply co_block; eassumption. }
      eapply co_expr_then; [|exact R|]; [eapply co_seq; [eapply infer_le_co; eassumption|intros; apply co_truth]|]. intros [] _; eapply co_block; eassumption.
    - intros t i b Hb C r R. cbn in C |- *. apply andb_prop in C as [C Cb]. apply andb_prop in C as [C Ct]. unfold with_env_t.
      eapply co_expr_then; [eapply infer_le_co; eassumption|exact R|]. intros x X. eapply co_expr_then; [apply co_watched|exact R|]. intros w _.
      eapply co_expr_then; [apply co_iterate, X|exact R|]. intros vs VS. revert r R. eapply co_loop; [exact VS|]. intros v V. apply co_step_of, co_andthen; [eapply co_assign; [exact Ct|exact V]|now apply co_block].
    - intros [e|] C r R; cbn in C |- *.
      + unfold with_env_t. eapply co_expr_then; [eapply infer_le_co; eassumption|exact R|]. intros v V. split; [exact R|exact V].
      + split; [exact R|]. eapply fresh_sat; [exact RET|ok].
    - intros e C r R. cbn in C |- *. unfold with_env_t. eapply co_expr_then; [eapply infer_le_co; eassumption|exact R|]. intros v V. split; [exact R|exact V].
    - intros b hs Hb Hh C r R. cbn -[subclass] in C |- *. apply andb_prop in C as [C Ch]. eapply co_seq; [eapply co_block; eassumption|]. intros [c r'] [R' P]. cbn in R', P.
      destruct c; try (apply co_done; split; [exact R'|exact P]). eapply co_seq; [apply co_exc_class|]. intros cx _.
      clear - OWN Hh Ch R' P. induction Hh as [|[[k nm] hb] hs Hb Hh IH]; [apply co_done; split; [exact R'|exact P]|]. cbn in Ch, Hb. apply andb_prop in Ch as [C1 C2].
      apply andb_prop in C1 as [C0 C1]. destruct (subclass cx k); [|now apply IH]. eapply co_seq.
      + eapply co_block; [exact Hb|exact C1|]. destruct nm as [n|]; [|exact R']. destruct (var g n) as [t|] eqn:V; [|discriminate]. eapply bind_ok; [exact V|exact (le_sat TAny _ _ C0 (fresh_inert _ P))|exact R'].
      + intros [c2 r2] [R2 P2]. apply co_done. split; [now apply unbind_ok|exact P2].
    - intros e C. discriminate.
  Qed.
  Lemma check_block l : forallb check l = true -> runs_ok (exec_block_t E order stdout table call_t locals l).
  Proof.
    induction l as [|s l IH]; cbn; intro C; [intros r R; now apply co_next|]. apply andb_prop in C as [C1 C2]. apply co_andthen; [now apply check_sound|now apply IH].
  Qed.
End Safe.
