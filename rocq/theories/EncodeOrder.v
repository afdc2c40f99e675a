(** * EncodeOrder: the EncodeErrors of two dicts with the same content. *)
From Verif Require Import PyBase BaseFacts Types Encoder Wire WireEncode Claims EncodeFault.
From Verif Require Import DecoderFacts DecodeRun EncoderFacts EncodeRun EncodeTheorems EncodeFaultFacts EncodeFaultWhole.
Local Opaque data_fields.

Section Same.
  Variables (E : pyenv) (sp : spec) (d1 d2 : pdoc).
  Hypothesis (HE : env_ok E).
  Hypothesis (Hs : forall k, is_bitmap_key k = false -> dget key_eqb k d1 = dget key_eqb k d2).
  Lemma co_sym k : is_bitmap_key k = false -> dget key_eqb k d2 = dget key_eqb k d1.
  Proof. intro H. symmetry. auto. Qed.
  Lemma co_field f : has_field E d1 f <-> has_field E d2 f.
  Proof. split; eapply same_has_field; eauto using co_sym. Qed.
  Lemma co_sends f : sends E d1 f <-> sends E d2 f.
  Proof.
    unfold sends. rewrite co_field. split; (intros [H|[(-> & g & Hg & H)|(-> & g & Hg & H)]]; [auto|right; left|right; right]);
      (split; [reflexivity|]; exists g; split; [assumption|]; now apply co_field).
  Qed.
  Lemma co_bitmaps bm1 bm2 bm3 : bitmaps_for E d1 bm1 bm2 bm3 -> bitmaps_for E d2 bm1 bm2 bm3.
  Proof. intros (L1 & L2 & L3 & H2). repeat (split; [assumption|]). intros i Hi. rewrite <- !co_sends. now apply H2. Qed.
  Lemma co_keys_ok : keys_ok E d1 -> keys_ok E d2.
  Proof. eapply same_keys_ok; eauto using co_sym. Qed.
  Lemma co_value k : k = u "h" \/ k = u "t" \/ (exists f, In f data_fields /\ k = zstr f) -> value d1 k = value d2 k.
  Proof.
    intro H. assert (N : k <> u "p" /\ k <> u "1" /\ k <> u "65").
    { destruct H as [->|[->|(f & Hf & ->)]]; [repeat split; discriminate..|]. apply zstr_name in Hf. tauto. }
    apply (same_value d1 d2); tauto.
  Qed.
  Lemma co_sent bm1 bm2 bm3 ke : entry_sent E sp d1 bm1 bm2 bm3 ke -> entry_sent E sp d2 bm1 bm2 bm3 ke.
  Proof.
    intro H. inversion H; subst.
    - econstructor; eauto. rewrite <- co_value; [assumption|]. tauto.
    - eapply SentType; eauto. rewrite <- co_value; auto.
    - eapply SentPrimary; eauto.
    - eapply SentSecondary; eauto.
    - eapply SentTertiary; eauto.
  Qed.
  (** The cleared dicts have the same keys, except perhaps "p". *)
  Lemma cleared_keys d k : is_dict d -> (In k (map fst (cleared d)) <-> In k (map fst d) /\ k <> KStr (u "1") /\ k <> KStr (u "65")).
  Proof.
    intro Hd. unfold cleared.
    assert (A : forall (d : pdoc) j k, NoDup (map fst d) -> (In k (map fst (dpop key_eqb j d)) <-> In k (map fst d) /\ k <> j)).
    { clear. intros d j k Hd. induction d as [|[j' v] d IH]; cbn; [tauto|]. inversion Hd as [|? ? Hd1 Hd2]; subst.
      destruct (key_eqb_spec j j') as [->|Hn]; cbn.
      - split; [intro Hi; split; [auto|intros ->; contradiction]|]. intros [[->|Hi] Hk]; [congruence|assumption].
      - rewrite IH by assumption. split; [intros [->|[Hi Hk]]; [split; [auto|congruence]|auto]|]. tauto. }
    rewrite A by now apply dpop_nodup; [apply key_eqb_spec|]. rewrite A by assumption. tauto.
  Qed.
  Lemma co_readable : is_dict d1 -> is_dict d2 -> Forall (readable_key E) (map fst (cleared d1)) -> Forall (readable_key E) (map fst (cleared d2)).
  Proof.
    intros D1 D2. rewrite !Forall_forall. intros H k Hk. apply cleared_keys in Hk as (Hk & K1 & K2); [|assumption].
    destruct (is_bitmap_key k) eqn:Hb.
    - apply bitmap_key_cases in Hb as [->|[->| ->]]; [|congruence|congruence]. exists (u "p"). split; [reflexivity|]. rewrite p_not_numeric by assumption. discriminate.
    - apply H. apply cleared_keys; [assumption|]. repeat split; auto. apply (dget_keys d2 d1 k); [|assumption]. now apply co_sym.
  Qed.
  Lemma co_refused bm1 bm2 bm3 k msg d' tail : is_dict d1 -> is_dict d2 -> (forall j, In j (map fst d1) -> exists s, j = KStr s) ->
    key_refused E sp d1 bm1 bm2 bm3 k msg d' tail -> exists d'', key_refused E sp d2 bm1 bm2 bm3 k msg d'' tail.
  Proof.
    intros D1 D2 K H. inversion H; subst.
    - eexists. eapply HeaderMissing; eauto. rewrite <- co_value; auto.
    - eexists. eapply HeaderRefused; eauto. rewrite <- co_value; auto.
    - eexists. eapply TypeMissing; eauto. rewrite <- co_value; auto.
    - eexists. eapply TypeRefused; eauto. rewrite <- co_value; auto.
    - exfalso. assert (Q : In (KOther ident r) (map fst (cleared d1))) by (rewrite H0; apply in_elt). apply cleared_keys in Q as (Q & _); [|assumption].
      apply K in Q as (s & [=]).
    - eexists. eapply OutOfRange; eauto using co_readable. intro f. rewrite <- co_field. auto.
    - eexists. eapply PrimaryRefused; eauto using co_keys_ok.
    - eexists. eapply SecondaryRefused; eauto using co_keys_ok.
    - eexists. eapply TertiaryRefused; eauto using co_keys_ok.
    - eexists. eapply FieldRefused; eauto using co_keys_ok. rewrite <- co_value; eauto.
  Qed.
End Same.
Lemma encode_error_content E sp d1 d2 e d1' : env_ok E -> is_dict d1 -> is_dict d2 -> same_content d1 d2 ->
  (forall j, In j (map fst d1) -> exists s, j = KStr s) ->
  encode E (ADict d1) sp = (Raise (XEncodeError e), d1') ->
  exists e' d2', encode E (ADict d2) sp = (Raise (XEncodeError e'), d2')
    /\ ee_msg e' = ee_msg e /\ ee_args0 e' = ee_args0 e /\ ee_field e' = ee_field e /\ ee_doc_enc e' = ee_doc_enc e
    /\ same_content d1' d2'.
Proof.
  intros HE D1 D2 Hs K H. assert (Hg := proj1 (same_content_get d1 d2 D1 D2) Hs). pose proof (encode_keeps E sp d1) as KE1. rewrite H in KE1. cbn [snd] in KE1.
  apply encode_fault_iff in H as (msg & k & enc & (bm1 & bm2 & bm3 & done & rest & tail & B & P & S & R & ->) & ->); [|assumption].
  destruct (co_refused E sp d1 d2 HE Hg _ _ _ _ _ _ _ D1 D2 K R) as (d2' & R').
  exists (EncodeError msg d2' (done ++ tail) k), d2'.
  assert (Q : encode E (ADict d2) sp = (Raise (XEncodeError (EncodeError msg d2' (done ++ tail) k)), d2')).
  { apply encode_fault_iff; [assumption|]. exists msg, k, (done ++ tail). split; [|reflexivity]. exists bm1, bm2, bm3, done, rest, tail.
    split; [eapply co_bitmaps; eauto|]. split; [assumption|]. split; [|auto]. eapply Forall_impl; [|exact S]. intros a Ha. eapply co_sent; eauto. }
  split; [exact Q|]. repeat (split; [reflexivity|]). pose proof (encode_keeps E sp d2) as KE2. rewrite Q in KE2. cbn [snd] in KE2.
  intros j v Hj. assert (A : forall d : pdoc, In (j, v) d <-> In (j, v) (content d)).
  { intro d. unfold content. rewrite filter_In. cbn [fst]. rewrite Hj. tauto. }
  rewrite (A d1'), (A d2'). rewrite (proj1 KE1), (proj1 KE2). rewrite <- (A d1), <- (A d2). auto.
Qed.
