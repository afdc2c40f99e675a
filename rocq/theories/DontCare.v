(** * DontCare: spec properties that do not matter (C22). *)
From Coq Require Import ZifyBool ZifyNat ZifyN.
From Verif Require Import PyBase BaseFacts Types Decoder Encoder Wire WireEncode Claims Claims2 DecoderFacts DecodeRun EncoderFacts EncodeRun.
Ltac Zify.zify_post_hook ::= Z.div_mod_to_equations.
Local Opaque data_fields.

(** ** Computations that use the spec only for the fields they mention *)
Section Track.
  Context {S : Type} (keys : S -> list pystr) (says : exn -> S -> Prop) (okx : exn -> Prop) (agree : pystr -> Prop).
  Definition usable {A} (r : res exn A) : Prop := match r with Ok _ => True | Raise x => okx x end.
  Definition reports {A} (r : res exn A) (st : S) : Prop := match r with Ok _ => True | Raise x => says x st end.
  (** [m'] does what [m] does if the keys [m] leaves in the state agree. *)
  Definition tracks {A} (m m' : M exn S A) : Prop := forall st r st1, m st = (r, st1) ->
    incl (keys st) (keys st1) /\ reports r st1
    /\ ((forall k, In k (keys st1) -> agree k) -> usable r -> m' st = (r, st1)).
  Lemma tracks_bind_post {A B} (P : A -> Prop) (m m' : M exn S A) (f f' : A -> M exn S B) : tracks m m' ->
    (forall st a st1, m st = (Ok a, st1) -> P a) -> (forall a, P a -> tracks (f a) (f' a)) -> tracks (bind m f) (bind m' f').
  Proof.
    intros Hm HP Hf st r st1. unfold bind. destruct (m st) as [[a|x] st2] eqn:H; intro H1.
    - destruct (Hm _ _ _ H) as (I1 & _ & E1). destruct (Hf a (HP _ _ _ H) _ _ _ H1) as (I2 & S2 & E2).
      split; [eapply incl_tran; eauto|]. split; [assumption|]. intros Ha Hu. rewrite E1; [apply E2; auto|auto|exact I].
    - injection H1 as <- <-. destruct (Hm _ _ _ H) as (I1 & S1 & E1). split; [assumption|]. split; [assumption|].
      intros Ha Hu. now rewrite E1.
  Qed.
  Lemma tracks_bind {A B} (m m' : M exn S A) (f f' : A -> M exn S B) : tracks m m' ->
    (forall a, tracks (f a) (f' a)) -> tracks (bind m f) (bind m' f').
  Proof. intros Hm Hf. apply tracks_bind_post with (P := fun _ => True); auto. Qed.
  Lemma tracks_refl {A} (m : M exn S A) :
    (forall st, incl (keys st) (keys (snd (m st))) /\ reports (fst (m st)) (snd (m st))) -> tracks m m.
  Proof. intros H st r st1 H1. specialize (H st). rewrite H1 in H. destruct H. auto. Qed.
  Lemma tracks_ret {A} (a : A) : tracks (ret a) (ret a).
  Proof. apply tracks_refl. intro st. split; [apply incl_refl|exact I]. Qed.
  Lemma tracks_raise {A} x : (forall st, says x st) -> tracks (@raise exn S A x) (raise x).
  Proof. intro H. apply tracks_refl. intro st. split; [apply incl_refl|apply H]. Qed.
  Lemma tracks_prop {A} (o : option A) n : (forall st, says (XKeyError n) st) -> tracks (prop o n) (prop o n).
  Proof. intro H. destruct o; [apply tracks_ret|now apply tracks_raise]. Qed.
  Definition same_presence {A} (o o' : option A) : Prop := (o = None <-> o' = None).
  (** Reading an entry that agrees anyway. *)
  Lemma tracks_spec_known {A} sp sp' k (f f' : fspec -> M exn S A) : (forall st, says (XKeyError k) st) ->
    same_presence (sget k sp) (sget k sp') ->
    (forall fs fs', sget k sp = Some fs -> sget k sp' = Some fs' -> tracks (f fs) (f' fs')) ->
    tracks (bind (spec_get sp k) f) (bind (spec_get sp' k) f').
  Proof.
    intros Hy [Hs1 Hs2] Ht st r st1. unfold bind, spec_get.
    destruct (sget k sp) as [fs|] eqn:H1, (sget k sp') as [fs'|] eqn:H2;
      [|discriminate (Hs2 eq_refl)|discriminate (Hs1 eq_refl)|]; cbv [ret raise]; intro H.
    - now apply (Ht fs fs' eq_refl eq_refl).
    - injection H as <- <-. split; [apply incl_refl|]. split; [apply Hy|reflexivity].
  Qed.
  (** Reading the entry of [k], which [f] mentions unless it dies of a KeyError. *)
  Hypothesis all_or_none : forall k, okx (XKeyError k) -> forall k', agree k'.
  Lemma tracks_spec {A} sp sp' k (f f' : fspec -> M exn S A) : (forall st, says (XKeyError k) st) ->
    (agree k -> same_presence (sget k sp) (sget k sp')) ->
    (forall fs, tracks (f fs) (f fs)) ->
    (forall fs st r st1, f fs st = (r, st1) -> In k (keys st1) \/ exists nm, r = Raise (XKeyError nm)) ->
    (forall fs fs', agree k -> sget k sp = Some fs -> sget k sp' = Some fs' -> tracks (f fs) (f' fs')) ->
    tracks (bind (spec_get sp k) f) (bind (spec_get sp' k) f').
  Proof.
    intros Hy Hs Hf Hk Ht st r st1. unfold bind, spec_get. destruct (sget k sp) as [fs|] eqn:H1; cbv [ret raise]; intro H.
    - destruct (Hf fs _ _ _ H) as (I1 & S1 & _). pose proof (Hk fs _ _ _ H) as K1. split; [assumption|]. split; [assumption|].
      intros Ha Hu. assert (Hag : agree k). { destruct K1 as [K1|[nm ->]]; [auto|]. now apply all_or_none with nm. }
      destruct (Hs Hag) as [_ Hs2]. destruct (sget k sp') as [fs'|] eqn:H2; [|discriminate (Hs2 eq_refl)].
      apply (Ht fs fs' Hag eq_refl eq_refl) in H as (_ & _ & H). auto.
    - injection H as <- <-. split; [apply incl_refl|]. split; [apply Hy|]. intros Ha Hu. pose proof (all_or_none _ Hu k) as Hag.
      destruct (Hs Hag) as [Hs1 _]. now rewrite (Hs1 eq_refl).
  Qed.
  (** A step that mentions [k], or dies of a KeyError before. *)
  Definition mentions {A} k (m : M exn S A) : Prop :=
    forall st r st1, m st = (r, st1) -> In k (keys st1) \/ exists nm, r = Raise (XKeyError nm).
  Lemma mentions_first {A B} k (m : M exn S A) (f : A -> M exn S B) : mentions k m -> (forall a, tracks (f a) (f a)) ->
    mentions k (bind m f).
  Proof.
    intros Hm Hf st r st1. unfold bind. destruct (m st) as [[a|x] st2] eqn:H; intro H1.
    - left. destruct (Hm _ _ _ H) as [K|[nm K]]; [|discriminate]. apply (Hf a _ _ _ H1), K.
    - injection H1 as <- <-. destruct (Hm _ _ _ H) as [K|[nm K]]; [now left|right; exists nm; congruence].
  Qed.
  Lemma mentions_prop {A B} k (o : option A) n (f : A -> M exn S B) : (forall a, mentions k (f a)) -> mentions k (bind (prop o n) f).
  Proof.
    intros H st r st1. unfold bind, prop. destruct o; cbv [ret raise]; [apply H|]. intros [= <- <-]. right. eauto.
  Qed.
  Lemma mentions_silent {A B} k (m : M exn S A) (f : A -> M exn S B) : (forall st, exists a, fst (m st) = Ok a) ->
    (forall a, mentions k (f a)) -> mentions k (bind m f).
  Proof.
    intros H Hf st r st1. unfold bind. destruct (H st) as [a Ha]. destruct (m st) as [r0 st2]. cbn in Ha. subst r0. apply Hf.
  Qed.
End Track.

(** ** decode *)
Definition dkeys (st : dstate) : list pystr := map fst (d_enc st).
Lemma dkeys_set_enc k e st : incl (dkeys st) (dkeys (snd (set_enc k e st))).
Proof. intros x Hx. unfold dkeys. cbn. apply (in_dset_keys str_eqb str_eqb_spec). now right. Qed.

Definition dsays (x : exn) (st : dstate) : Prop := match x with XDecodeError e => de_doc_enc e = d_enc st | _ => True end.

Section Decode.
  Variables (E : pyenv) (okx : exn -> Prop) (agree : pystr -> Prop).
  Notation tr := (tracks dkeys dsays okx agree).
  Lemma dtr_draise {A} s msg i k : tr (@draise A s msg i k) (draise s msg i k).
  Proof. apply tracks_refl. intro st. split; [apply incl_refl|try reflexivity; exact I]. Qed.
  Lemma dtr_formatted {A} ns s msg i k : tr (formatted E ns (@draise A s msg i k)) (formatted E ns (draise s msg i k)).
  Proof. unfold formatted. destruct (forallb _ _); [apply dtr_draise|]. apply tracks_refl. intro st. split; [apply incl_refl|exact I]. Qed.
  Lemma dtr_set_dec k v : tr (set_dec k v) (set_dec k v).
  Proof. apply tracks_refl. intro st. split; [apply incl_refl|try reflexivity; exact I]. Qed.
  Lemma dtr_set_enc k e : tr (set_enc k e) (set_enc k e).
  Proof. apply tracks_refl. intro st. split; [apply dkeys_set_enc|exact I]. Qed.
  Lemma dtr_get_dec k : tr (get_dec k) (get_dec k).
  Proof. apply tracks_refl. intro st. unfold get_dec. destruct (sget k (d_dec st)); (split; [apply incl_refl|exact I]). Qed.
  Lemma dtr_get_enc k : tr (get_enc k) (get_enc k).
  Proof. apply tracks_refl. intro st. unfold get_enc. destruct (sget k (d_enc st)); (split; [apply incl_refl|exact I]). Qed.
End Decode.
Create HintDb tr.
Global Hint Extern 1 (forall st, dsays _ st) => (intro; exact I) : tr.
Global Hint Resolve tracks_ret tracks_raise tracks_prop dtr_draise dtr_formatted dtr_set_dec dtr_set_enc dtr_get_dec dtr_get_enc : tr.
Ltac tr_step :=
  match goal with
  | |- tracks _ _ _ _ (bind _ _) (bind _ _) => apply tracks_bind; [|intro]
  | |- tracks _ _ _ _ (if ?b then _ else _) _ => destruct b
  | |- tracks _ _ _ _ (match ?x with _ => _ end) _ => destruct x
  | |- tracks _ _ _ _ (let x := _ in _) _ => cbv zeta
  | |- _ => solve [eauto with tr]
  end.
Lemma dtr_set_enc_data okx agree k b : tracks dkeys dsays okx agree (set_enc_data k b) (set_enc_data k b).
Proof. unfold set_enc_data. repeat tr_step. Qed.
Global Hint Resolve dtr_set_enc_data : tr.

Lemma first_pad o : firstn 1 (prop_default o []) = match pad_char o with Some c => [c] | None => [] end.
Proof. destruct o as [[|c l]|]; reflexivity. Qed.
Lemma unit_default fs : prop_default (fs_len_count fs) str_bytes = unit_name fs.
Proof. unfold unit_name. now destruct (fs_len_count fs). Qed.
Lemma nibbles_unit fs : str_eqb (unit_name fs) str_nibbles = in_nibbles fs.
Proof. unfold unit_name, in_nibbles. now destruct (fs_len_count fs). Qed.

Section DecodeSame.
  Variables (E : pyenv) (okx : exn -> Prop) (agree : pystr -> Prop).
  Notation tr := (tracks dkeys dsays okx agree).
  Lemma dtr_text s data i k fs fs' : fs_data_enc fs = fs_data_enc fs' ->
    tr (decode_text_data E s data i k fs) (decode_text_data E s data i k fs').
  Proof. intro H. unfold decode_text_data. rewrite <- H. repeat tr_step. Qed.
  Lemma dtr_pad s i k fs fs' n : pad_char (fs_left_pad fs) = pad_char (fs_left_pad fs') ->
    pad_char (fs_right_pad fs) = pad_char (fs_right_pad fs') ->
    tr (remove_pad_field E s i k fs n) (remove_pad_field E s i k fs' n).
  Proof. intros H1 H2. unfold remove_pad_field. cbv zeta. rewrite !first_pad, H1, H2. repeat tr_step. Qed.
  Lemma dtr_length s i k fs fs' lt c : fs_max_len fs = fs_max_len fs' -> (lt <> 0%Z -> fs_len_enc fs = fs_len_enc fs') ->
    tr (decode_length E s i k fs lt c) (decode_length E s i k fs' lt c).
  Proof.
    intros H1 H2. unfold decode_length. cbv zeta. rewrite <- H1. destruct (Z.eqb_spec lt 0) as [Hz|Hz]; [repeat tr_step|].
    rewrite <- (H2 Hz). repeat tr_step.
  Qed.
  Lemma dtr_field s i k fs fs' : same_field fs fs' -> tr (decode_field E s i k fs) (decode_field E s i k fs').
  Proof.
    intros (H1 & H2 & H3 & H4 & H5 & H6). unfold decode_field. rewrite !unit_default, <- H2.
    destruct (fs_len_type fs) as [lt|]; [|unfold bind; cbn; apply tracks_refl; intro; split; [apply incl_refl|exact I]].
    apply tracks_bind_post with (P := fun l => l = lt).
    { now apply tracks_prop. }
    { intros st a st1 [= <- _]. reflexivity. }
    intros ? ->. cbv zeta. rewrite <- H4. apply tracks_bind; [eauto with tr|intro]. apply tracks_bind; [eauto with tr|intro].
    destruct (negb _); [eauto with tr|]. apply tracks_bind; [apply dtr_length; [assumption|intro; now apply (H5 lt)]|]. intro n.
    destruct (n =? 0)%Z; [eauto with tr|]. apply tracks_bind; [eauto with tr|intro]. destruct (negb _); [eauto with tr|].
    rewrite <- H1. destruct (fs_data_enc fs) as [de|] eqn:Hde; [|unfold bind; cbn; apply tracks_refl; intro; split; [apply incl_refl|exact I]].
    apply tracks_bind_post with (P := fun l => l = de).
    { now apply tracks_prop. }
    { intros st b st1 [= <- _]. reflexivity. }
    intros ? ->. apply tracks_bind; [|intro; eauto with tr]. destruct (str_eqb_spec de str_b) as [->|Hb].
    - apply tracks_bind; [eauto with tr|intro]. rewrite nibbles_unit in *.
      destruct (in_nibbles fs) eqn:Hn; [|cbn [andb]; eauto with tr].
      destruct (H6 eq_refl eq_refl) as [P1 P2]. destruct (true && Z.odd n); [|eauto with tr].
      apply tracks_bind; [now apply dtr_pad|intro; eauto with tr].
    - apply tracks_bind; [apply dtr_text; congruence|intro; eauto with tr].
  Qed.
  Lemma dtr_bitmap s i k fs fs' off x fl : fs_data_enc fs = fs_data_enc fs' ->
    tr (decode_bitmap E s i k fs off x fl) (decode_bitmap E s i k fs' off x fl).
  Proof.
    intro H. unfold decode_bitmap. rewrite <- H. apply tracks_bind; [eauto with tr|]. intro de. cbv zeta.
    apply tracks_bind; [repeat tr_step|intro]. destruct (negb _); [repeat tr_step|].
    apply tracks_bind; [|intro; eauto with tr]. destruct (str_eqb de str_b); [repeat tr_step|].
    apply tracks_bind; [now apply dtr_text|intro]. repeat tr_step.
  Qed.
End DecodeSame.

Lemma dment_set_enc k e : mentions dkeys k (set_enc k e).
Proof. intros st r st1 [= <- <-]. left. unfold dkeys. cbn. apply (in_dset_keys str_eqb str_eqb_spec). now left. Qed.
Lemma dment_field E s i k fs : mentions dkeys k (decode_field E s i k fs).
Proof.
  unfold decode_field. apply mentions_prop. intro lt. cbv zeta. apply mentions_silent; [intro; now exists tt|intro].
  apply (mentions_first dkeys dsays (fun _ => True) (fun _ => True)); [apply dment_set_enc|intro].
  pose proof (dtr_length E (fun _ => True) (fun _ => True) s i k fs fs lt (prop_default (fs_len_count fs) str_bytes) eq_refl (fun _ => eq_refl)).
  pose proof (fun d j => dtr_text E (fun _ => True) (fun _ => True) s d j k fs fs eq_refl).
  pose proof (fun j n => dtr_pad E (fun _ => True) (fun _ => True) s j k fs fs n eq_refl eq_refl).
  repeat tr_step.
Qed.
Lemma dment_bitmap E s i k fs off fl : mentions dkeys k (decode_bitmap E s i k fs off false fl).
Proof.
  unfold decode_bitmap. apply mentions_prop. intro de. cbv zeta.
  pose proof (fun d j => dtr_text E (fun _ => True) (fun _ => True) s d j k fs fs eq_refl).
  apply (mentions_first dkeys dsays (fun _ => True) (fun _ => True)).
  - apply mentions_silent; [intro; now exists tt|intro]. apply dment_set_enc.
  - intro. repeat tr_step.
Qed.
Lemma dment_bitmap_ext E s i k fs off fl : mentions dkeys k (decode_bitmap E s i k fs off true fl).
Proof.
  unfold decode_bitmap. apply mentions_prop. intro de. cbv zeta.
  pose proof (fun d j => dtr_text E (fun _ => True) (fun _ => True) s d j k fs fs eq_refl).
  apply (mentions_first dkeys dsays (fun _ => True) (fun _ => True)).
  - intros st r st1. unfold bind, get_enc. destruct (sget k (d_enc st)); [apply dment_set_enc|]. intros [= <- <-]. right. eauto.
  - intro. repeat tr_step.
Qed.

Lemma same_presence_for sp sp' k : same_for sp sp' k -> same_presence (sget k sp) (sget k sp').
Proof. unfold same_for, same_presence. destruct (sget k sp), (sget k sp'); intuition discriminate. Qed.
Lemma same_for_entry sp sp' k fs fs' : same_for sp sp' k -> sget k sp = Some fs -> sget k sp' = Some fs' -> same_entry k fs fs'.
Proof. unfold same_for. intros H H1 H2. now rewrite H1, H2 in H. Qed.
Lemma same_field_refl fs : same_field fs fs.
Proof. repeat split. Qed.
Lemma same_for_field sp sp' f fs fs' : (2 <= f)%Z -> same_for sp sp' (zstr f) -> sget (zstr f) sp = Some fs ->
  sget (zstr f) sp' = Some fs' -> same_field fs fs'.
Proof.
  intros Hf H H1 H2. pose proof (same_for_entry _ _ _ _ _ H H1 H2) as H3. unfold same_entry in H3.
  destruct (str_eqb_spec (zstr f) (u "t")) as [H4|_]; [exfalso; revert H4; apply zstr_neq_t; lia|].
  destruct (str_eqb_spec (zstr f) (u "p")) as [H4|_]; [exfalso; revert H4; apply zstr_neq_p; lia|].
  destruct (str_eqb_spec (zstr f) (u "1")) as [H4|_]; [exfalso; revert H4; apply zstr_neq_1; lia|].
  cbn in H3. destruct H3 as [H3|[H4 _]]; [assumption|exfalso; revert H4; apply zstr_neq_h; lia].
Qed.
Lemma same_for_enc sp sp' k fs fs' : k = u "t" \/ k = u "p" \/ k = u "1" -> same_for sp sp' k -> sget k sp = Some fs ->
  sget k sp' = Some fs' -> fs_data_enc fs = fs_data_enc fs'.
Proof. intros Hk H H1 H2. pose proof (same_for_entry _ _ _ _ _ H H1 H2) as H3. destruct Hk as [-> | [-> | ->] ]; exact H3. Qed.
Lemma bit_pos bm i : bit bm i = true -> (1 <= i)%Z.
Proof. unfold bit. destruct (Z.leb_spec 1 i); [auto|discriminate]. Qed.
Lemma decode_bitmap_set E s i k fs off x fl st r st1 : decode_bitmap E s i k fs off x fl st = (Ok r, st1) ->
  exists bm, snd r = zupdate fl (bitmap_fields off bm).
Proof.
  unfold decode_bitmap. unfold bind at 1. destruct (prop (fs_data_enc fs) _ st) as [[de|] st2]; [|discriminate]. cbv zeta.
  unfold bind at 1. match goal with |- match ?m with _ => _ end = _ -> _ => destruct m as [[?|] st3] end; [|discriminate].
  destruct (negb _).
  { unfold bind. destruct (get_enc k st3) as [[e|] st4]; discriminate. }
  unfold bind at 1. match goal with |- match ?m with _ => _ end = _ -> _ => destruct m as [[bm|] st4] end; [|discriminate].
  intros [= <- _]. now exists bm.
Qed.

Section DecodeBody.
  Variables (E : pyenv) (okx : exn -> Prop) (sp sp' : spec).
  Notation agree := (same_for sp sp').
  Hypothesis all_or_none : forall k, okx (XKeyError k) -> forall k', agree k'.
  Hypothesis header : agree (u "h").
  Notation tr := (tracks dkeys dsays okx agree).
  Lemma dtr_header s i : tr (decode_header E s i sp) (decode_header E s i sp').
  Proof.
    unfold decode_header. apply tracks_spec_known; [intro; exact I|now apply same_presence_for|]. intros fs fs' H1 H2.
    pose proof (same_for_entry _ _ _ _ _ header H1 H2) as [H|[_ (ml & ml' & M1 & M2 & L1 & L2)]].
    - replace (fs_max_len fs') with (fs_max_len fs) by apply H. apply tracks_bind; [eauto with tr|]. intro ml.
      destruct (ml <=? 0)%Z; [eauto with tr|]. now apply dtr_field.
    - rewrite M1, M2. unfold bind. cbv [prop ret]. rewrite (proj2 (Z.leb_le _ _) L1), (proj2 (Z.leb_le _ _) L2). apply tracks_ret.
  Qed.
  Lemma dtr_type s i : tr (decode_type E s i sp) (decode_type E s i sp').
  Proof.
    unfold decode_type. apply (tracks_spec _ _ _ _ all_or_none); [intro; exact I|apply same_presence_for| | |].
    - intro fs. pose proof (fun d => dtr_text E okx agree s d i (u "t") fs fs eq_refl). repeat tr_step.
    - intro fs. apply mentions_prop. intro de. cbv zeta. apply mentions_silent; [intro; now exists tt|intro].
      apply (mentions_first dkeys dsays (fun _ => True) (fun _ => True)); [apply dment_set_enc|intro].
      pose proof (fun d => dtr_text E (fun _ => True) (fun _ => True) s d i (u "t") fs fs eq_refl). repeat tr_step.
    - intros fs fs' Ha H1 H2. assert (H := same_for_enc _ _ _ _ _ (or_introl eq_refl) Ha H1 H2). rewrite <- H.
      pose proof (fun d => dtr_text E okx agree s d i (u "t") fs fs' H). repeat tr_step.
  Qed.
  Lemma dtr_fields s l : Forall (fun f => 2 <= f)%Z l -> forall i k, tr (decode_fields E s i sp l k) (decode_fields E s i sp' l k).
  Proof.
    induction 1 as [|f l Hf Hl IH]; intros i k; [apply tracks_ret|]. cbn [decode_fields].
    assert (R : forall okx agree fl a b, tracks dkeys dsays okx agree (decode_fields E s a sp fl b) (decode_fields E s a sp fl b)).
    { intros okx' agree'. induction fl as [|g fl IHl]; intros a b; [apply tracks_ret|]. cbn [decode_fields].
      apply tracks_spec_known; [intro; exact I|split; auto|]. intros fs fs' H1 H2. assert (fs = fs') as <- by congruence.
      apply tracks_bind; [apply dtr_field, same_field_refl|intro; apply IHl]. }
    apply (tracks_spec _ _ _ _ all_or_none); [intro; exact I|apply same_presence_for| | |].
    - intro fs. apply tracks_bind; [apply dtr_field, same_field_refl|intro; apply R].
    - intros fs. apply (mentions_first dkeys dsays (fun _ => True) (fun _ => True)); [apply dment_field|intro; apply R].
    - intros fs fs' Ha H1 H2. apply tracks_bind; [|intro; apply IH]. apply dtr_field. eapply same_for_field; eauto.
  Qed.
  Lemma dtr_any_bitmap {A} s i k off x fl (g : Z * zset -> A) : k = u "p" \/ k = u "1" ->
    tr (fs <- spec_get sp k ;; r <- decode_bitmap E s i k fs off x fl ;; ret (g r))
       (fs <- spec_get sp' k ;; r <- decode_bitmap E s i k fs off x fl ;; ret (g r)).
  Proof.
    intro Hk. apply (tracks_spec _ _ _ _ all_or_none); [intro; exact I|apply same_presence_for| | |].
    - intro fs. apply tracks_bind; [now apply dtr_bitmap|intro; apply tracks_ret].
    - intro fs. apply (mentions_first dkeys dsays (fun _ => True) (fun _ => True)); [|intro; apply tracks_ret].
      destruct x; [apply dment_bitmap_ext|apply dment_bitmap].
    - intros fs fs' Ha H1 H2. apply tracks_bind; [|intro; apply tracks_ret]. apply dtr_bitmap.
      eapply same_for_enc; eauto.
  Qed.
  Lemma bind_assoc {X S A B C} (m : M X S A) (f : A -> M X S B) (g : B -> M X S C) st :
    bind (bind m f) g st = bind m (fun a => bind (f a) g) st.
  Proof. unfold bind. now destruct (m st) as [[a|x] st1]. Qed.
  Lemma step_apart {X S A B C} (m : M X S A) (f : A -> M X S B) (g : B -> M X S C) st :
    bind m (fun a => bind (f a) g) st = bind (bind m (fun a => bind (f a) (fun r => ret r))) g st.
  Proof. unfold bind, ret. destruct (m st) as [[a|x] st1]; [|reflexivity]. now destruct (f a st1) as [[b|y] st2]. Qed.
  Lemma tracks_ext {A} (m1 m2 m1' m2' : DM A) : (forall st, m1 st = m2 st) -> (forall st, m1' st = m2' st) -> tr m1 m1' -> tr m2 m2'.
  Proof. intros H1 H2 H st r st1. rewrite <- H1, <- H2. apply H. Qed.
  Lemma spec_bitmap_set sq k E' s i off x fl {A} (g : Z * zset -> A) st a st1 :
    (fs <- spec_get sq k ;; r <- decode_bitmap E' s i k fs off x fl ;; ret (g r)) st = (Ok a, st1) ->
    exists idx bm, a = g (idx, zupdate fl (bitmap_fields off bm)).
  Proof.
    unfold bind, spec_get. destruct (sget k sq) as [fs|]; [|discriminate]. cbv [ret]. 
    destruct (decode_bitmap E' s i k fs off x fl st) as [[[idx fl']|y] st2] eqn:H; [|discriminate].
    intros [= <- _]. apply decode_bitmap_set in H as [bm H]. cbn in H. subst fl'. now exists idx, bm.
  Qed.
  Lemma dtr_body s : tr (decode_body E s sp) (decode_body E s sp').
  Proof.
    unfold decode_body. apply tracks_bind; [apply dtr_header|]. intro i1. apply tracks_bind; [apply dtr_type|]. intro i2. cbv zeta.
    eapply tracks_ext; [intro st; symmetry; apply step_apart|intro st; symmetry; apply step_apart|].
    apply tracks_bind_post with (P := fun r => exists bm, snd r = zupdate [] (bitmap_fields 0 bm)).
    { apply (dtr_any_bitmap s i2 (u "p") 0 false [] (fun r => r)). now left. }
    { intros st a st1 H. apply (spec_bitmap_set _ _ _ _ _ _ _ _ (fun r => r)) in H as (i & bm & ->). now exists bm. }
    intros [i3 F] [bm HF]. cbn [snd] in HF.
    assert (HF1 : forall f, In f F -> (1 <= f)%Z).
    { intros f Hf. rewrite HF in Hf. apply zupdate_in in Hf as [Hf|Hf]; [destruct Hf|].
      apply bitmap_fields_in, bit_pos in Hf. lia. }
    clear HF bm. apply tracks_bind_post with (P := fun r => (forall f, In f (snd (fst r)) -> 2 <= f)%Z /\ (snd r = u "p" \/ snd r = u "1")).
    { destruct (zmem 1 F); [|apply tracks_ret]. apply (dtr_any_bitmap s i3 (u "1") 64 false F (fun r => (fst r, zremove 1 (snd r), u "1"))). now right. }
    { intros st a st1 H. destruct (zmem 1 F) eqn:Hm.
      - apply (spec_bitmap_set _ _ _ _ _ _ _ _ (fun r => (fst r, zremove 1 (snd r), u "1"))) in H as (i & bm & ->). cbn [fst snd].
        split; [|now right]. intros f Hf. apply zremove_in in Hf as [Hf Hn]. apply zupdate_in in Hf as [Hf|Hf]; [apply HF1 in Hf; lia|].
        apply bitmap_fields_in, bit_pos in Hf. lia.
      - injection H as <- _. cbn [fst snd]. split; [|now left]. intros f Hf. apply zmem_not_in in Hm.
        assert (f <> 1)%Z by congruence. apply HF1 in Hf. lia. }
    intros [[i4 F2] k] [HF2 Hk]. cbn [fst snd] in HF2, Hk.
    apply tracks_bind_post with (P := fun r => (forall f, In f (snd r) -> 2 <= f)%Z).
    { destruct (zmem 65 F2); [|apply tracks_ret]. now apply (dtr_any_bitmap s i4 k 128 true F2 (fun r => (fst r, zremove 65 (snd r)))). }
    { intros st a st1 H. destruct (zmem 65 F2) eqn:Hm.
      - apply (spec_bitmap_set _ _ _ _ _ _ _ _ (fun r => (fst r, zremove 65 (snd r)))) in H as (i & bm & ->). cbn [snd].
        intros f Hf. apply zremove_in in Hf as [Hf Hn]. apply zupdate_in in Hf as [Hf|Hf]; [auto|].
        apply bitmap_fields_in, bit_pos in Hf. lia.
      - injection H as <- _. cbn [snd]. exact HF2. }
    intros [i5 F3] HF3. cbn [snd] in HF3. apply tracks_bind; [now apply dtr_fields, Forall_forall|].
    intros [i6 k6]. destruct (negb _); eauto with tr.
  Qed.
End DecodeBody.

(** decode looks at nothing of the spec but what the same_for relation keeps, of the
    header and of the fields it mentions. *)
Lemma decode_same E s sp sp' : same_for sp sp' (u "h") ->
  (forall k, decode_mentions (decode E s sp) k -> same_for sp sp' k) -> decode E s sp' = decode E s sp.
Proof.
  intros Hh Hk. set (okx := fun x => match x with XDecodeError _ => True | _ => forall k, same_for sp sp' k end).
  assert (Hn : forall k, okx (XKeyError k) -> forall k', same_for sp sp' k') by (intros k Hx; exact Hx).
  pose proof (dtr_body E okx sp sp' Hn Hh s (mkD [] [])) as B.
  assert (D : forall sq, decode E s sq = match s with InOther _ => decode E s sq | _ =>
              match decode_body E s sq (mkD [] []) with (Ok _, st) => Ok (d_dec st, d_enc st) | (Raise x, _) => Raise x end end)
    by (intro; now destruct s).
  destruct (decode_body E s sp (mkD [] [])) as [r st1] eqn:H. destruct (B _ _ eq_refl) as (_ & Hs & He). clear B.
  destruct s as [b|b|c]; [| |reflexivity].
  1, 2: rewrite D, He; clear He; [unfold decode; rewrite H; reflexivity| |].
  all: unfold decode in Hk; rewrite H in Hk; clear H D; destruct r as [[]|x]; cbn in Hk, Hs |- *; auto.
  all: destruct x; cbn in Hk, Hs |- *; auto. all: unfold dkeys; now rewrite <- Hs.
Qed.

(** ** encode *)
Definition ekeys (st : estate) : list pystr := map fst (s_enc st).
Definition esays (x : exn) (st : estate) : Prop := match x with XEncodeError e => ee_doc_enc e = s_enc st | _ => True end.
Section Encode.
  Variables (okx : exn -> Prop) (agree : pystr -> Prop).
  Notation tr := (tracks ekeys esays okx agree).
  Lemma etr_eraise {A} msg k : tr (@eraise A msg k) (eraise msg k).
  Proof. apply tracks_refl. intro st. split; [apply incl_refl|reflexivity]. Qed.
  Lemma etr_formatted {A} E ns msg k : tr (formatted E ns (@eraise A msg k)) (formatted E ns (eraise msg k)).
  Proof. unfold formatted. destruct (forallb _ _); [apply etr_eraise|]. apply tracks_refl. intro st. split; [apply incl_refl|exact I]. Qed.
  Lemma etr_set_dec k v : tr (eset_dec k v) (eset_dec k v).
  Proof. apply tracks_refl. intro st. split; [apply incl_refl|exact I]. Qed.
  Lemma etr_pop_dec k : tr (epop_dec k) (epop_dec k).
  Proof. apply tracks_refl. intro st. split; [apply incl_refl|exact I]. Qed.
  Lemma etr_read_dec : tr eread_dec eread_dec.
  Proof. apply tracks_refl. intro st. split; [apply incl_refl|exact I]. Qed.
  Lemma etr_get_dec k : tr (eget_dec k) (eget_dec k).
  Proof. apply tracks_refl. intro st. unfold eget_dec. destruct (pget (KStr k) (s_dec st)); (split; [apply incl_refl|exact I]). Qed.
  Lemma etr_get_enc k : tr (eget_enc k) (eget_enc k).
  Proof. apply tracks_refl. intro st. unfold eget_enc. destruct (sget k (s_enc st)); (split; [apply incl_refl|exact I]). Qed.
  Lemma etr_set_enc k e : tr (eset_enc k e) (eset_enc k e).
  Proof.
    apply tracks_refl. intro st. split; [|exact I]. intros x Hx. unfold ekeys. cbn. apply (in_dset_keys str_eqb str_eqb_spec). now right.
  Qed.
End Encode.
Global Hint Extern 1 (forall st, esays _ st) => (intro; exact I) : tr.
Global Hint Resolve etr_eraise etr_formatted etr_set_dec etr_pop_dec etr_read_dec etr_get_dec etr_get_enc etr_set_enc : tr.
Lemma etr_set_enc_data okx agree k b : tracks ekeys esays okx agree (eset_enc_data k b) (eset_enc_data k b).
Proof. unfold eset_enc_data. repeat tr_step. Qed.
Lemma etr_set_enc_len okx agree k b : tracks ekeys esays okx agree (eset_enc_len k b) (eset_enc_len k b).
Proof. unfold eset_enc_len. repeat tr_step. Qed.
Global Hint Resolve etr_set_enc_data etr_set_enc_len : tr.
Lemma ement_set_enc k e : mentions ekeys k (eset_enc k e).
Proof. intros st r st1 [= <- <-]. left. unfold ekeys. cbn. apply (in_dset_keys str_eqb str_eqb_spec). now left. Qed.

Lemma add_pad_same s fs fs' : pad_char (fs_left_pad fs) = pad_char (fs_left_pad fs') ->
  pad_char (fs_right_pad fs) = pad_char (fs_right_pad fs') -> add_pad_field s fs = add_pad_field s fs'.
Proof. intros H1 H2. unfold add_pad_field. cbv zeta. now rewrite !first_pad, H1, H2. Qed.
Lemma has_pad_same fs fs' : pad_char (fs_left_pad fs) = pad_char (fs_left_pad fs') ->
  pad_char (fs_right_pad fs) = pad_char (fs_right_pad fs') -> has_pad fs = has_pad fs'.
Proof. intros H1 H2. unfold has_pad. now rewrite !first_pad, H1, H2. Qed.
Section EncodeSame.
  Variables (E : pyenv) (okx : exn -> Prop) (agree : pystr -> Prop).
  Notation tr := (tracks ekeys esays okx agree).
  Lemma etr_hex_failure {A} v k c : tr (@hex_failure A v k c) (hex_failure v k c).
  Proof. unfold hex_failure. repeat tr_step. Qed.
  Lemma etr_binary v k fs fs' c : (str_eqb c str_nibbles = true -> pad_char (fs_left_pad fs) = pad_char (fs_left_pad fs')
      /\ pad_char (fs_right_pad fs) = pad_char (fs_right_pad fs')) ->
    tr (encode_binary_field v k fs c) (encode_binary_field v k fs' c).
  Proof.
    intro H. unfold encode_binary_field. cbv zeta. pose proof (fun A v => @etr_hex_failure A v k c) as HF.
    destruct (str_eqb c str_nibbles); [|destruct (val_a2b v); eauto with tr].
    destruct (H eq_refl) as [P1 P2]. rewrite <- (has_pad_same fs fs') by assumption.
    destruct (val_len v) as [n|]; [|eauto with tr]. destruct (Nat.odd n); [|destruct (val_a2b v); eauto with tr].
    destruct v as [s|b|o].
    - rewrite <- (add_pad_same s fs fs') by assumption. destruct (val_a2b _); eauto with tr.
    - destruct (has_pad fs); [eauto with tr|]. destruct (val_a2b _); eauto with tr.
    - destruct (has_pad fs); [eauto with tr|]. destruct (val_a2b _); eauto with tr.
  Qed.
  Lemma etr_text v k fs fs' c : fs_data_enc fs = fs_data_enc fs' -> tr (encode_text_field E v k fs c) (encode_text_field E v k fs' c).
  Proof. intro H. unfold encode_text_field. rewrite <- H. repeat tr_step. Qed.
  Lemma etr_length k fs fs' lt n : fs_len_enc fs = fs_len_enc fs' -> tr (encode_length E k fs lt n) (encode_length E k fs' lt n).
  Proof. intro H. unfold encode_length. rewrite <- H. repeat tr_step. Qed.
  Lemma etr_field k fs fs' : same_field fs fs' -> tr (encode_field E k fs) (encode_field E k fs').
  Proof.
    intros (H1 & H2 & H3 & H4 & H5 & H6). unfold encode_field. rewrite !unit_default, <- H4, <- H1, <- H2, <- H3. cbv zeta.
    apply tracks_bind; [eauto with tr|intro].
    destruct (fs_data_enc fs) as [de|] eqn:Hde; [|unfold bind; cbn; apply tracks_refl; intro; split; [apply incl_refl|exact I]].
    apply tracks_bind_post with (P := fun l => l = de).
    { now apply tracks_prop. }
    { intros st b st1 [= <- _]. reflexivity. }
    intros ? ->. apply tracks_bind; [eauto with tr|]. intro v. apply tracks_bind.
    { destruct (str_eqb_spec de str_b) as [->|Hb].
      - apply etr_binary. rewrite nibbles_unit. now apply H6.
      - apply etr_text. congruence. }
    intros [b n]. apply tracks_bind; [eauto with tr|intro].
    destruct (fs_len_type fs) as [lt|]; [|unfold bind; cbn; apply tracks_refl; intro; split; [apply incl_refl|exact I]].
    apply tracks_bind_post with (P := fun l => l = lt).
    { now apply tracks_prop. }
    { intros st x st1 [= <- _]. reflexivity. }
    intros ? ->. apply tracks_bind; [eauto with tr|]. intro ml. destruct (Z.eqb_spec lt 0) as [Hz|Hz]; [repeat tr_step|].
    destruct (ml <? n)%Z; [eauto with tr|]. apply tracks_bind; [apply etr_length; now apply (H5 lt)|intro; repeat tr_step].
  Qed.
  Lemma etr_bitmap k fs fs' off x fl : fs_data_enc fs = fs_data_enc fs' ->
    tr (encode_bitmap E k fs off x fl) (encode_bitmap E k fs' off x fl).
  Proof.
    intro H. pose proof (fun v c => etr_text v k fs fs' c H). unfold encode_bitmap. rewrite <- H. repeat tr_step.
  Qed.
End EncodeSame.
Lemma ement_field E k fs : mentions ekeys k (encode_field E k fs).
Proof.
  unfold encode_field. apply (mentions_first ekeys esays (fun _ => True) (fun _ => True)); [apply ement_set_enc|intro]. cbv zeta.
  pose proof (fun v c => etr_binary (fun _ => True) (fun _ => True) v k fs fs c (fun _ => conj eq_refl eq_refl)).
  pose proof (fun v c => etr_text E (fun _ => True) (fun _ => True) v k fs fs c eq_refl).
  pose proof (fun lt n => etr_length E (fun _ => True) (fun _ => True) k fs fs lt n eq_refl).
  repeat tr_step.
Qed.
Lemma ement_bitmap E k fs off fl : mentions ekeys k (encode_bitmap E k fs off false fl).
Proof.
  unfold encode_bitmap. cbv zeta. pose proof (fun v c => etr_text E (fun _ => True) (fun _ => True) v k fs fs c eq_refl).
  apply (mentions_first ekeys esays (fun _ => True) (fun _ => True)); [|intro; repeat tr_step].
  apply mentions_silent; [intro; now exists tt|intro]. apply ement_set_enc.
Qed.

Section EncodeBody.
  Variables (E : pyenv) (okx : exn -> Prop) (sp sp' : spec).
  Notation agree := (same_for sp sp').
  Hypothesis all_or_none : forall k, okx (XKeyError k) -> forall k', agree k'.
  Hypothesis header : agree (u "h").
  Notation tr := (tracks ekeys esays okx agree).
  Lemma etr_header : tr (encode_header E sp) (encode_header E sp').
  Proof.
    unfold encode_header. apply tracks_spec_known; [intro; exact I|now apply same_presence_for|]. intros fs fs' H1 H2.
    pose proof (same_for_entry _ _ _ _ _ header H1 H2) as [H|[_ (ml & ml' & M1 & M2 & L1 & L2)]].
    - replace (fs_max_len fs') with (fs_max_len fs) by apply H. pose proof (etr_field E okx agree (u "h") fs fs' H). repeat tr_step.
    - rewrite M1, M2. unfold bind. cbv [prop ret]. rewrite (proj2 (Z.leb_le _ _) L1), (proj2 (Z.leb_le _ _) L2). apply tracks_ret.
  Qed.
  Lemma etr_type : tr (encode_type E sp) (encode_type E sp').
  Proof.
    unfold encode_type. apply tracks_bind; [eauto with tr|]. intro d. destruct (negb _); [eauto with tr|].
    apply (tracks_spec _ _ _ _ all_or_none); [intro; exact I|apply same_presence_for| | |].
    - intro fs. pose proof (fun v => etr_binary okx agree v (u "t") fs fs str_bytes (fun _ => conj eq_refl eq_refl)).
      pose proof (fun v => etr_text E okx agree v (u "t") fs fs str_bytes eq_refl). repeat tr_step.
    - intro fs. apply mentions_prop. intro de. cbv zeta.
      pose proof (fun v => etr_binary (fun _ => True) (fun _ => True) v (u "t") fs fs str_bytes (fun _ => conj eq_refl eq_refl)).
      pose proof (fun v => etr_text E (fun _ => True) (fun _ => True) v (u "t") fs fs str_bytes eq_refl).
      apply (mentions_first ekeys esays (fun _ => True) (fun _ => True)); [apply ement_set_enc|intro]. repeat tr_step.
    - intros fs fs' Ha H1 H2. assert (H := same_for_enc _ _ _ _ _ (or_introl eq_refl) Ha H1 H2). rewrite <- H.
      assert (Hb : forall v, tr (encode_binary_field v (u "t") fs str_bytes) (encode_binary_field v (u "t") fs' str_bytes)).
      { intro v. apply etr_binary. discriminate. }
      pose proof (fun v => etr_text E okx agree v (u "t") fs fs' str_bytes H). repeat tr_step.
  Qed.
  Lemma etr_fields_refl okx' agree' fl : forall a, tracks ekeys esays okx' agree' (encode_fields E sp fl a) (encode_fields E sp fl a).
  Proof.
    induction fl as [|g fl IHl]; intro a; [apply tracks_ret|]. cbn [encode_fields].
    apply tracks_spec_known; [intro; exact I|split; auto|]. intros fs fs' H1 H2. assert (fs = fs') as <- by congruence.
    apply tracks_bind; [apply etr_field, same_field_refl|intro; apply IHl].
  Qed.
  Lemma etr_fields l : Forall (fun f => 2 <= f)%Z l -> forall s, tr (encode_fields E sp l s) (encode_fields E sp' l s).
  Proof.
    induction 1 as [|f l Hf Hl IH]; intro s; [apply tracks_ret|]. cbn [encode_fields].
    apply (tracks_spec _ _ _ _ all_or_none); [intro; exact I|apply same_presence_for| | |].
    - intro fs. apply tracks_bind; [apply etr_field, same_field_refl|intro; apply etr_fields_refl].
    - intros fs. apply (mentions_first ekeys esays (fun _ => True) (fun _ => True)); [apply ement_field|intro; apply etr_fields_refl].
    - intros fs fs' Ha H1 H2. apply tracks_bind; [|intro; apply IH]. apply etr_field. eapply same_for_field; eauto.
  Qed.
  Lemma tracks_pointwise {A} (m1 m2 m1' m2' : EM A) : (forall st, m1 st = m2 st) -> (forall st, m1' st = m2' st) -> tr m1 m1' -> tr m2 m2'.
  Proof. intros H1 H2 H st r st1. rewrite <- H1, <- H2. apply H. Qed.
  (** The secondary and tertiary bitmaps and the fields. *)
  Definition ext_rest (sq : spec) (T : zset) (fields : zset) (s : bytes) : EM bytes :=
    r <- (if zmem 65 fields then
            fs <- spec_get sq (u "1") ;; b <- encode_bitmap E (u "1") fs 128 true T ;; ret (b, zremove 65 fields)
          else ret ([], fields)) ;;
    let '(bt, fields) := r in encode_fields E sq fields (s ++ bt).
  Lemma ext_rest_refl okx' agree' T fl s : tracks ekeys esays okx' agree' (ext_rest sp T fl s) (ext_rest sp T fl s).
  Proof.
    unfold ext_rest. apply tracks_bind; [|intros [bt F]; apply etr_fields_refl]. destruct (zmem 65 fl); [|apply tracks_ret].
    apply tracks_spec_known; [intro; exact I|split; auto|]. intros fs fs' H1 H2. assert (fs = fs') as <- by congruence.
    apply tracks_bind; [now apply etr_bitmap|intro; apply tracks_ret].
  Qed.
  Lemma etr_ext_rest T fl s : Forall (fun f => 2 <= f)%Z fl -> (zmem 65 fl = true -> agree (u "1")) ->
    tr (ext_rest sp T fl s) (ext_rest sp' T fl s).
  Proof.
    intros Hf Ha. unfold ext_rest. apply tracks_bind_post with (P := fun r => Forall (fun f => 2 <= f)%Z (snd r)).
    - destruct (zmem 65 fl); [|apply tracks_ret]. specialize (Ha eq_refl).
      apply tracks_spec_known; [intro; exact I|now apply same_presence_for|]. intros fs fs' H1 H2.
      apply tracks_bind; [apply etr_bitmap|intro; apply tracks_ret]. eapply same_for_enc; eauto.
    - intros st a st1 H. destruct (zmem 65 fl).
      + unfold bind, spec_get in H. destruct (sget (u "1") sp) as [fs|]; [|discriminate]. cbv [ret] in H.
        destruct (encode_bitmap E (u "1") fs 128 true T st) as [[b|x] st2]; [|discriminate]. injection H as <- _. cbn [snd].
        apply Forall_forall. intros f H. apply zremove_in in H as [H _]. now apply (proj1 (Forall_forall _ _) Hf).
      + injection H as <- _. exact Hf.
    - intros [bt F] H. now apply etr_fields.
  Qed.
  Definition ext_all (sq : spec) (S T F : zset) (s : bytes) : EM bytes :=
    if zmem 1 F then fs <- spec_get sq (u "1") ;; b <- encode_bitmap E (u "1") fs 64 false S ;; ext_rest sq T (zremove 1 F) (s ++ b)
    else ext_rest sq T F s.
  Lemma etr_ext_all S T F s : (forall f, In f F -> 1 <= f)%Z -> (In 65%Z F -> In 1%Z F) ->
    tr (ext_all sp S T F s) (ext_all sp' S T F s).
  Proof.
    intros HF H65. unfold ext_all. destruct (zmem 1 F) eqn:Hm.
    - apply (tracks_spec _ _ _ _ all_or_none); [intro; exact I|apply same_presence_for| | |].
      + intro fs. apply tracks_bind; [now apply etr_bitmap|intro; apply ext_rest_refl].
      + intro fs. apply (mentions_first ekeys esays (fun _ => True) (fun _ => True)); [apply ement_bitmap|intro; apply ext_rest_refl].
      + intros fs fs' Ha H1 H2. apply tracks_bind; [apply etr_bitmap; eapply (same_for_enc sp sp'); eauto|intro].
        apply etr_ext_rest; [|auto]. apply Forall_forall. intros f Hf. apply zremove_in in Hf as [Hf Hn]. apply HF in Hf. lia.
    - apply zmem_not_in in Hm. apply etr_ext_rest.
      + apply Forall_forall. intros f Hf. assert (f <> 1)%Z by congruence. apply HF in Hf. lia.
      + intro H. apply zmem_in in H. now apply H65 in H.
  Qed.
  Lemma encode_msg_ext sq h t F st : encode_msg E sq h t F st =
    (p <- spec_get sq (u "p") ;; bp <- encode_bitmap E (u "p") p 0 false (zinter_range 1 65 (with1 F)) ;;
     ext_all sq (secondary_of F) (tertiary_of F) (with1 F) (h ++ t ++ bp)) st.
  Proof.
    assert (X : forall {A B} (m : EM A) (f g : A -> EM B) st, (forall a st, f a st = g a st) -> bind m f st = bind m g st).
    { intros A B m f g st0 H. unfold bind. destruct (m st0) as [[a|x] st1]; auto. }
    unfold encode_msg. apply X. intros p st1. apply X. intros bp st2. unfold ext_all. destruct (zmem 1 (with1 F)).
    - rewrite bind_assoc. apply X. intros fs st3. rewrite bind_assoc. apply X. intros b st4. unfold bind at 1, ret at 1.
      unfold ext_rest. apply X. intros [bt G] st5. now rewrite <- !app_assoc.
    - unfold bind at 1, ret at 1. unfold ext_rest. apply X. intros [bt G] st5. now rewrite <- !app_assoc.
  Qed.
  Lemma ext_all_refl okx' agree' S T F s : tracks ekeys esays okx' agree' (ext_all sp S T F s) (ext_all sp S T F s).
  Proof.
    unfold ext_all. destruct (zmem 1 F); [|apply ext_rest_refl].
    apply tracks_spec_known; [intro; exact I|split; auto|]. intros fs fs' H1 H2. assert (fs = fs') as <- by congruence.
    apply tracks_bind; [now apply etr_bitmap|intro; apply ext_rest_refl].
  Qed.
  Lemma etr_msg h t F : (forall f, In f F -> 1 <= f)%Z -> tr (encode_msg E sp h t F) (encode_msg E sp' h t F).
  Proof.
    intro HF. eapply tracks_pointwise; [intro; symmetry; apply encode_msg_ext|intro; symmetry; apply encode_msg_ext|].
    apply (tracks_spec _ _ _ _ all_or_none); [intro; exact I|apply same_presence_for| | |].
    - intro fs. apply tracks_bind; [now apply etr_bitmap|intro; apply ext_all_refl].
    - intro fs. apply (mentions_first ekeys esays (fun _ => True) (fun _ => True)); [apply ement_bitmap|intro; apply ext_all_refl].
    - intros fs fs' Ha H1 H2. apply tracks_bind; [apply etr_bitmap; apply (same_for_enc sp sp' (u "p")); auto|intro].
      apply etr_ext_all.
      + intros f Hf. apply with1_in in Hf as [Hf|[-> _]]; [|lia]. apply with65_in in Hf as [Hf|[-> _]]; [auto|lia].
      + intro H. apply with1_in. apply with1_in in H as [H|[H _]]; [|lia]. right. split; [reflexivity|]. exists 65%Z.
        unfold secondary_of. apply zinter_in. split; [assumption|lia].
  Qed.
  Lemma etr_body : tr (encode_body E sp) (encode_body E sp').
  Proof.
    unfold encode_body. apply tracks_bind; [eauto with tr|intro]. apply tracks_bind; [eauto with tr|intro].
    apply tracks_bind; [apply etr_header|]. intro h. apply tracks_bind; [apply etr_type|]. intro t.
    apply tracks_bind; [eauto with tr|]. intro d. destruct (numeric_keys E (map fst d)) as [[|]|ks]; [eauto with tr..|].
    cbv zeta. destruct (negb (zsubset_range 1 193 (zset_of ks))) eqn:Hr; [eauto with tr|].
    change (tr (encode_msg E sp h t (zset_of ks)) (encode_msg E sp' h t (zset_of ks))). apply etr_msg.
    intros f Hf. apply negb_false_iff in Hr. unfold zsubset_range in Hr. rewrite forallb_forall in Hr. apply Hr in Hf.
    unfold in_range in Hf. lia.
  Qed.
End EncodeBody.

Lemma encode_same E doc sp sp' : same_for sp sp' (u "h") ->
  (forall k, encode_mentions (fst (encode E doc sp)) k -> same_for sp sp' k) -> encode E doc sp' = encode E doc sp.
Proof.
  intros Hh Hk. destruct doc as [d|c]; [|reflexivity]. unfold encode in *.
  set (okx := fun x => match x with XEncodeError _ => True | _ => forall k, same_for sp sp' k end).
  assert (Hn : forall k, okx (XKeyError k) -> forall k', same_for sp sp' k') by (intros k Hx; exact Hx).
  pose proof (etr_body E okx sp sp' Hn Hh (mkE d [])) as B.
  destruct (encode_body E sp (mkE d [])) as [r st1]. destruct (B _ _ eq_refl) as (_ & Hs & He). clear B.
  rewrite He; [reflexivity| |].
  all: destruct r as [b|x]; cbn in Hk, Hs |- *; auto. all: destruct x; cbn in Hk, Hs |- *; auto. all: unfold ekeys; now rewrite <- Hs.
Qed.
