(** * SemHeap: the objects decode and encode work on, and how operations change them. *)
From Coq Require Import ZifyBool ZifyNat ZifyN.
From Verif Require Import PyBase BaseFacts Types Decoder PyAst PySem SemClaims SemFacts.
Local Open Scope string_scope.
Local Open Scope list_scope.

(** {"len": ..., "data": ...} *)
Definition entry_obj (e : entry) : object :=
  DictO [(KStr (u "len"), BytesV (e_len e)); (KStr (u "data"), BytesV (e_data e))].
(** doc_enc, given where the entries are. *)
Definition enc_items (refs : list (pystr * loc)) : list (pykey * value) :=
  map (fun kl => (KStr (fst kl), RefV (snd kl))) refs.
Definition is_dict_obj (o : object) : bool := match o with DictO _ => true | _ => false end.

(** The heap h in the middle of a call that began in h0: doc_dec is the dict at a with
    the given items, doc_enc the dict at b, one object of its own per entry; everything that
    existed in h0 is unchanged, but for the dict at a. *)
Record Inv (h0 : heap) (a b : loc) (h : heap) (items : list (pykey * value)) (ed : edoc) : Prop := {
  inv_dec : hget h a = Some (DictO items);
  inv_enc : exists refs,
    hget h b = Some (DictO (enc_items refs)) /\
    Forall2 (fun kl ke => fst kl = fst ke /\ hget h (snd kl) = Some (entry_obj (snd ke))) refs ed /\
    NoDup (a :: b :: map snd refs) /\ Forall (fun l => length h0 <= l) (b :: map snd refs);
  inv_frame : forall l, l < length h0 -> l <> a -> hget h l = hget h0 l
}.
(** Everything there was in [h0] is still so in [h], but for the object at [a]. *)
Definition framed (h0 : heap) (a : loc) (h : heap) : Prop := forall l, l < length h0 -> l <> a -> hget h l = hget h0 l.
Lemma inv_framed h0 a b h items ed : Inv h0 a b h items ed -> framed h0 a h.
Proof. intros [_ _ F]. exact F. Qed.
(** A mapping other than the object at [a]; a spec of such mappings. *)
Definition held (h0 : heap) (a : loc) (v : value) (m : list (pystr * value)) : Prop := v <> RefV a /\ reads h0 v m.
Definition fs_held (h0 : heap) (a : loc) (v : value) (fs : fspec) : Prop := exists m, held h0 a v m /\ fs_rep m fs.
Definition spec_held (h0 : heap) (a : loc) (v : value) (sp : spec) : Prop :=
  exists m, held h0 a v m /\
  forall k, match sget k sp with
            | Some fs => exists fv, sget k m = Some fv /\ fs_held h0 a fv fs
            | None => sget k m = None
            end.
Lemma spec_rep_held h0 a v sp : spec_rep h0 v sp -> spec_apart h0 v (RefV a) -> spec_held h0 a v sp.
Proof.
  intros (m & R & K) (N & S). exists m. split; [split; assumption|]. intro k. specialize (K k). destruct (sget k sp); [|exact K].
  destruct K as (fv & fm & G & R' & F). exists fv. split; [exact G|]. exists fm. split; [split; [eapply S; eauto|exact R']|exact F].
Qed.
Lemma reads_same h v m m' k : reads h v m -> reads h v m' -> sget k m = sget k m'.
Proof.
  intros R R'. destruct v; cbn [reads] in R, R'; try contradiction.
  - destruct R as (i1 & G1 & K1), R' as (i2 & G2 & K2). rewrite G1 in G2. injection G2 as <-. rewrite <- K1, K2. reflexivity.
  - congruence.
Qed.
(** An object that is not there yet, or not a dict. *)
Lemma spec_rep_apart h0 a v sp : spec_rep h0 v sp -> (forall items, hget h0 a <> Some (DictO items)) -> spec_apart h0 v (RefV a).
Proof.
  intros (m & R & K) L. split.
  - intros ->. destruct R as (items & G & _). exact (L _ G).
  - intros m' k fv R' G ->. rewrite (reads_same _ _ _ _ k R' R) in G.
    specialize (K k). rewrite G in K. destruct (sget k sp); [|discriminate]. destruct K as (fv & fm & [= <-] & (items & Gl & _) & _).
    exact (L _ Gl).
Qed.
Lemma spec_new h0 v sp : spec_rep h0 v sp -> spec_apart h0 v (RefV (length h0)).
Proof. intro R. apply (spec_rep_apart _ _ _ _ R). intros items G. apply hget_lt in G. lia. Qed.
(** What changes [x] only leaves the spec. *)
Lemma reads_moved h h' v x m : v <> x -> (forall l o, hget h l = Some o -> RefV l <> x -> hget h' l = Some o) -> reads h v m -> reads h' v m.
Proof.
  intros N H R. destruct v; cbn [reads] in *; auto. destruct R as (items & G & K). exists items. auto.
Qed.
Lemma spec_moved h h' v sp x : spec_rep h v sp -> spec_apart h v x ->
  (forall l o, hget h l = Some o -> RefV l <> x -> hget h' l = Some o) -> spec_rep h' v sp /\ spec_apart h' v x.
Proof.
  intros (m & R & K) (N & A) H. assert (R' : reads h' v m) by (eapply reads_moved; eauto). split.
  - exists m. split; [exact R'|]. intro k. specialize (K k). destruct (sget k sp); [|exact K].
    destruct K as (fv & fm & G & Rf & F). exists fv, fm. split; [exact G|]. split; [|exact F]. eapply reads_moved; [eapply A; eauto|exact H|exact Rf].
  - split; [exact N|]. intros m' k fv R1 G. rewrite (reads_same _ _ _ _ k R1 R') in G. eapply A; eauto.
Qed.
Lemma spec_untouched h h' v sp : spec_rep h v sp -> (forall l o, hget h l = Some o -> hget h' l = Some o) -> spec_rep h' v sp.
Proof.
  intros R H. destruct (spec_moved h h' v sp (RefV (length h)) R (spec_new _ _ _ R)) as [R' _]; [|exact R']. intros l o G _. exact (H _ _ G).
Qed.
(** Objects other than dicts stay as they are, but for those at places in [ex]. *)
Definition keeps (ex : list loc) (h h' : heap) : Prop :=
  forall l o, hget h l = Some o -> is_dict_obj o = false -> ~ In l ex -> hget h' l = Some o.
Lemma keeps_refl ex h : keeps ex h h.
Proof. intros l o H _ _. exact H. Qed.
Lemma keeps_trans ex h h' h'' : keeps ex h h' -> keeps ex h' h'' -> keeps ex h h''.
Proof. unfold keeps. intros A B l o H D N. eauto. Qed.
Lemma keeps_weaken ex h h' : keeps [] h h' -> keeps ex h h'.
Proof. unfold keeps. intros A l o H D N. eauto. Qed.
Lemma keeps_new ex h o : keeps ex h (h ++ [o]).
Proof. intros l o' H _ _. rewrite hget_app; eauto using hget_lt. Qed.
Lemma keeps_hset_dict ex h l items o : hget h l = Some (DictO items) -> keeps ex h (hset h l o).
Proof.
  intros H l' o' H' D _. rewrite hget_hset_other; [exact H'|]. intros ->. rewrite H in H'. injection H' as <-. discriminate.
Qed.
Lemma keeps_hset_ex ex h l o : In l ex -> keeps ex h (hset h l o).
Proof. intros I l' o' H' D N. rewrite hget_hset_other; [exact H'|]. intros ->. contradiction. Qed.
Lemma keeps_drop h h' : keeps [length h] h h' -> keeps [] h h'.
Proof. intros K k o H D _. apply K; auto. intros [<-|[]]. apply hget_lt in H. lia. Qed.

Lemma key_eqb_str a b : key_eqb (KStr a) (KStr b) = str_eqb a b.
Proof. reflexivity. Qed.
Lemma enc_items_get k refs : dget key_eqb (KStr k) (enc_items refs) = option_map RefV (sget k refs).
Proof.
  induction refs as [|[k' l] refs IH]; cbn; [reflexivity|]. destruct (str_eqb k k'); [reflexivity|]. exact IH.
Qed.
Lemma enc_items_set k l refs : dset key_eqb (KStr k) (RefV l) (enc_items refs) = enc_items (sset k l refs).
Proof.
  induction refs as [|[k' l'] refs IH]; cbn; [reflexivity|]. destruct (str_eqb k k'); [reflexivity|].
  cbn. f_equal. exact IH.
Qed.
Lemma sset_snd_in {V} k (l : V) refs x : In x (map snd (sset k l refs)) -> x = l \/ In x (map snd refs).
Proof.
  induction refs as [|[k' l'] refs IH]; cbn; [intuition|]. destruct (str_eqb k k'); cbn; intuition.
Qed.
Lemma sset_nodup {V} k (l : V) refs : ~ In l (map snd refs) -> NoDup (map snd refs) -> NoDup (map snd (sset k l refs)).
Proof.
  induction refs as [|[k' l'] refs IH]; cbn; intros N D; [constructor; auto; constructor|].
  inversion D; subst. destruct (str_eqb k k'); cbn; constructor; auto.
  intro I. apply sset_snd_in in I. intuition congruence.
Qed.

Lemma Forall2_weaken {A B} (P Q : A -> B -> Prop) l m :
  (forall x y, P x y -> Q x y) -> Forall2 P l m -> Forall2 Q l m.
Proof. intros H F. induction F; constructor; auto. Qed.

Lemma Forall2_sset (P : loc -> entry -> Prop) k l e refs ed :
  Forall2 (fun kl ke => fst kl = fst ke /\ P (snd kl) (snd ke)) refs ed -> P l e ->
  Forall2 (fun kl ke => fst kl = fst ke /\ P (snd kl) (snd ke)) (sset k l refs) (sset k e ed).
Proof.
  intros F H. induction F as [|[k1 l1] [k2 e2] r e' [A B] F1 IH]; cbn.
  - constructor; [split; [reflexivity|exact H]|constructor].
  - cbn in A. subst k2. destruct (str_eqb k k1); constructor; auto.
Qed.

Section Inv.
  Context (h0 : heap) (a b : loc).
  Notation inv := (Inv h0 a b).
  Ltac refs I := let r := fresh "refs" in
    destruct (inv_enc _ _ _ _ _ _ I) as (r & ?Hb & ?HF & ?HN & ?HL).

  Lemma inv_new h items ed o : inv h items ed -> inv (h ++ [o]) items ed.
  Proof.
    intro I. refs I. split.
    - rewrite hget_app; eauto using hget_lt, inv_dec.
    - exists refs. split; [rewrite hget_app; eauto using hget_lt|]. split; [|auto].
      eapply Forall2_weaken; [|exact HF]. cbn. intros x y [A B]. split; [exact A|]. rewrite hget_app; eauto using hget_lt.
    - intros l L N. rewrite <- (inv_frame _ _ _ _ _ _ I) by assumption.
      destruct (hget h l) eqn:G; [rewrite hget_app; eauto using hget_lt|].
      destruct (hget h0 l) eqn:G0; [|apply nth_error_Some in L; unfold hget in G0; congruence].
      rewrite (inv_frame _ _ _ _ _ _ I) in G by assumption. congruence.
  Qed.
  Lemma inv_length h items ed : inv h items ed -> length h0 <= length h.
  Proof. intro I. refs I. inversion HL; subst. apply hget_lt in Hb. lia. Qed.
  (** doc_dec[k] = v and the like. *)
  Lemma inv_set_dec h items items' ed : inv h items ed -> inv (hset h a (DictO items')) items' ed.
  Proof.
    intro I. refs I. inversion HN as [|x y N1 N2]; subst. inversion N2 as [|x y N3 N4]; subst.
    pose proof (inv_dec _ _ _ _ _ _ I) as Ha. split.
    - apply hget_hset. eauto using hget_lt.
    - exists refs. rewrite hget_hset_other by (intros ->; apply N1; left; reflexivity). repeat split; auto.
      clear -HF N1. induction HF as [|x y r e [A B] HF IH]; constructor.
      + split; [exact A|]. rewrite hget_hset_other; [exact B|]. intro Z. apply N1. right. left. exact Z.
      + apply IH. intros [H|H]; apply N1; [left|right; right]; assumption.
    - intros l L N. rewrite hget_hset_other by assumption. apply (inv_frame _ _ _ _ _ _ I); assumption.
  Qed.
  (** An object that is no dict changes. *)
  Lemma inv_put h items ed l o o' : inv h items ed -> hget h l = Some o -> is_dict_obj o = false ->
    length h0 <= l -> inv (hset h l o') items ed.
  Proof.
    intros I G D L. refs I.
    assert (X : forall k d, hget h k = Some (DictO d) -> hget (hset h l o') k = Some (DictO d)).
    { intros k d Hk. rewrite hget_hset_other; [exact Hk|]. intros ->. rewrite G in Hk. injection Hk as ->. discriminate. }
    split.
    - apply X. eauto using inv_dec.
    - exists refs. split; [auto|]. split; [|auto]. eapply Forall2_weaken; [|exact HF].
      cbn. intros x y [A B]. split; [exact A|]. apply X. exact B.
    - intros k L' N. rewrite hget_hset_other by lia. apply (inv_frame _ _ _ _ _ _ I); assumption.
  Qed.
  (** doc_enc[k] = {...}, the dict having just been made. *)
  Lemma inv_set_enc h items ed k e : inv h items ed -> exists d,
    hget (h ++ [entry_obj e]) b = Some (DictO d) /\
    inv (hset (h ++ [entry_obj e]) b (DictO (dset key_eqb (KStr k) (RefV (length h)) d))) items (sset k e ed).
  Proof.
    intro I. pose proof (inv_new _ _ _ (entry_obj e) I) as I'. refs I.
    pose proof (inv_dec _ _ _ _ _ _ I) as Ha.
    exists (enc_items refs). split; [rewrite hget_app; eauto using hget_lt|].
    inversion HN as [|x y N1 N2]; subst. inversion N2 as [|x y N3 N4]; subst.
    assert (Lh : length h0 <= length h).
    { inversion HL. apply hget_lt in Hb. lia. }
    set (h1 := h ++ [entry_obj e]) in *.
    assert (R : forall l, In l (map snd refs) -> l < length h).
    { intros l Hl. clear -Hl HF. induction HF as [|x y r e' [A B] HF IH]; [destruct Hl|]. destruct Hl as [<-|Hl]; eauto using hget_lt. }
    rewrite enc_items_set. split.
    - rewrite hget_hset_other by (intros ->; apply N1; left; reflexivity). eauto using inv_dec.
    - exists (sset k (length h) refs). repeat split.
      + apply hget_hset. unfold h1. rewrite app_length. apply hget_lt in Hb. lia.
      + assert (F1 : Forall2 (fun kl ke => fst kl = fst ke /\ hget (hset h1 b (DictO (enc_items (sset k (length h) refs)))) (snd kl) = Some (entry_obj (snd ke))) refs ed).
        { assert (Z : forall d, Forall2 (fun kl ke => fst kl = fst ke /\ hget (hset h1 b (DictO d)) (snd kl) = Some (entry_obj (snd ke))) refs ed).
          { clear -HF N3. intro d. induction HF as [|x y r e' [A B] HF IH]; constructor.
            - split; [exact A|]. rewrite hget_hset_other by (intro Z; apply N3; left; exact Z).
              unfold h1. rewrite hget_app; eauto using hget_lt.
            - apply IH. intro H. apply N3. right. exact H. }
          apply Z. }
        assert (F2 : hget (hset h1 b (DictO (enc_items (sset k (length h) refs)))) (length h) = Some (entry_obj e)).
        { rewrite hget_hset_other; [apply hget_new|]. apply hget_lt in Hb. lia. }
        exact (Forall2_sset (fun l e => hget _ l = Some (entry_obj e)) _ _ _ _ _ F1 F2).
      + constructor; [|constructor].
        * intros [H|H]; [apply N1; left; exact H|]. apply sset_snd_in in H. destruct H as [->|H].
          -- apply hget_lt in Ha. lia.
          -- apply N1. right. exact H.
        * intro H. apply sset_snd_in in H. destruct H as [->|H]; [apply hget_lt in Hb; lia|auto].
        * apply sset_nodup; auto. intro H. apply R in H. lia.
      + inversion HL; subst. constructor; auto. rewrite Forall_forall in *. intros x Hx.
        apply sset_snd_in in Hx. destruct Hx as [->|Hx]; auto.
    - intros l L N. rewrite hget_hset_other by (inversion HL; lia). apply (inv_frame _ _ _ _ _ _ I'); assumption.
  Qed.
  (** doc_enc[k] *)
  Lemma inv_get_enc h items ed k : inv h items ed -> exists d, hget h b = Some (DictO d) /\
    match sget k ed with
    | Some e => exists l, dget key_eqb (KStr k) d = Some (RefV l) /\ hget h l = Some (entry_obj e) /\
        forall e', inv (hset h l (entry_obj e')) items (sset k e' ed)
    | None => dget key_eqb (KStr k) d = None
    end.
  Proof.
    intro I. refs I. exists (enc_items refs). split; [exact Hb|]. rewrite enc_items_get.
    destruct (sget k ed) as [e|] eqn:G.
    - assert (X : exists l, sget k refs = Some l /\ hget h l = Some (entry_obj e) /\ In l (map snd refs) /\
        forall e', NoDup (map snd refs) -> Forall2 (fun kl ke => fst kl = fst ke /\ hget (hset h l (entry_obj e')) (snd kl) = Some (entry_obj (snd ke))) refs (sset k e' ed)).
      { clear -HF G. induction HF as [|[k1 l1] [k2 e2] r e' [A B] F1 IH]; cbn in *; [discriminate|]. subst k2.
        destruct (str_eqb k k1) eqn:K.
        - injection G as ->. exists l1. repeat split; auto. intros e'' ND. inversion ND; subst. constructor.
          + split; [reflexivity|]. cbn. apply hget_hset. eauto using hget_lt.
          + cbn. clear -F1 H1. induction F1 as [|x y r e3 [A' B'] F1 IH]; constructor.
            * split; [exact A'|]. rewrite hget_hset_other; [exact B'|]. intro Z. apply H1. left. exact Z.
            * apply IH. intro H. apply H1. right. exact H.
        - destruct (IH G) as (l & X1 & X2 & X3 & X4). exists l. repeat split; auto. intros e'' ND. inversion ND; subst.
          constructor; [|auto]. split; [reflexivity|]. cbn. rewrite hget_hset_other; [exact B|]. intros ->. auto. }
      destruct X as (l & X1 & X2 & X3 & X4). exists l. rewrite X1. repeat split; auto.
      + inversion HN as [|x y N1 N2]; subst. rewrite hget_hset_other; [eauto using inv_dec|].
        intros ->. apply N1. right. exact X3.
      + inversion HN as [|x y N1 N2]; subst. inversion N2 as [|x y N3 N4]; subst.
        exists refs. repeat split; auto. rewrite hget_hset_other; [exact Hb|]. intros ->. auto.
      + intros l' L N. rewrite hget_hset_other; [apply (inv_frame _ _ _ _ _ _ I); assumption|].
        intros ->. rewrite Forall_forall in HL. assert (length h0 <= l) by (apply HL; right; exact X3). lia.
    - assert (X : sget k refs = None).
      { clear -HF G. induction HF as [|[k1 l1] [k2 e2] r e' [A B] F1 IH]; cbn in *; [reflexivity|]. subst k2.
        destruct (str_eqb k k1); [discriminate|auto]. }
      rewrite X. reflexivity.
  Qed.
End Inv.
