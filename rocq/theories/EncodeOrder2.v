(** * EncodeOrder2: the other exceptions of two dicts with the same content. *)
From Verif Require Import PyBase BaseFacts Types Numerals Encoder Wire WireEncode Claims EncodeFault EncodeEscape.
From Verif Require Import NumeralFacts DecoderFacts DecodeRun EncoderFacts EncodeRun EncodeTheorems EncodeFaultFacts EncodeFaultWhole EncodeEscapeWhole EncodeOrder.
Local Opaque data_fields.

(** The first key that is a number but none int() reads. *)
Lemma first_unreadable E keys : (forall k, In k keys -> exists s, k = KStr s) ->
  (exists s, In (KStr s) keys /\ isnumeric E s = true /\ not_int E s) ->
  exists pre s post, keys = pre ++ KStr s :: post /\ Forall (readable_key E) pre /\ isnumeric E s = true /\ not_int E s.
Proof.
  induction keys as [|k keys IH]; intros K (s & I & N & X); [destruct I|].
  destruct (K k (or_introl eq_refl)) as (t & ->).
  assert (D : readable_key E (KStr t) \/ isnumeric E t = true /\ not_int E t).
  { destruct (isnumeric E t) eqn:Nt; [|left; exists t; split; [reflexivity|congruence]].
    destruct (py_int E t) as [n|] eqn:P.
    - left. exists t. split; [reflexivity|]. intros _. exists n. now apply py_int_text.
    - right. split; [reflexivity|]. intros n Hn. apply py_int_text in Hn. congruence. }
  destruct D as [D|[Nt Xt]]; [|exists [], t, keys; auto].
  destruct IH as (pre & s' & post & -> & F & N' & X').
  - intros k Hk. apply K. right. exact Hk.
  - exists s. split; [|auto]. destruct I as [[= ->]|I]; [|exact I]. destruct D as (s0 & [= <-] & R). destruct (R N) as (n & Hn). destruct (X n Hn).
  - exists (KStr t :: pre), s', post. split; [reflexivity|]. auto.
Qed.
Section Same.
  Variables (E : pyenv) (sp : spec) (d1 d2 : pdoc).
  Hypothesis (HE : env_ok E).
  Hypothesis (Hs : forall k, is_bitmap_key k = false -> dget key_eqb k d1 = dget key_eqb k d2).
  Lemma co_escape bm1 bm2 bm3 k x d' : is_dict d1 -> is_dict d2 -> (forall j, In j (map fst d1) -> exists s, j = KStr s) ->
    key_escape E sp d1 bm1 bm2 bm3 k x d' -> exists d'', key_escape E sp d2 bm1 bm2 bm3 k x d''.
  Proof.
    intros D1 D2 K H. assert (V := co_value d1 d2 Hs). assert (KO := co_keys_ok E d1 d2 HE Hs). inversion H; subst.
    - eexists. now eapply HeaderEntryMissing.
    - eexists. eapply HeaderMaxLenMissing; eauto.
    - eexists. eapply HeaderEncMissing; eauto. rewrite <- V; eauto.
    - eexists. eapply HeaderEscapes; eauto. rewrite <- V; eauto.
    - eexists. eapply TypeEntryMissing; eauto. rewrite <- V; eauto.
    - eexists. eapply TypeEncMissing; eauto. rewrite <- V; eauto.
    - eexists. eapply TypeEscapes; eauto. rewrite <- V; eauto.
    - eexists. assert (K2 : forall j, In j (map fst (cleared d2)) -> exists t, j = KStr t).
      { intros j Hj. apply cleared_keys in Hj as (Hj & _); [|assumption]. destruct (is_bitmap_key j) eqn:B.
        - apply bitmap_key_cases in B as [->|[->| ->]]; eauto.
        - apply K. apply (dget_keys d2 d1 j); [|exact Hj]. symmetry. now apply Hs. }
      destruct (first_unreadable E _ K2) as (pre' & s' & post' & Q & F & N' & X'); [|eapply UnreadableKey; eauto].
      exists s. split; [|auto]. assert (I : In (KStr s) (map fst (cleared d1))) by (rewrite H0; apply in_elt).
      apply cleared_keys in I as (I & I1 & I2); [|assumption]. apply cleared_keys; [assumption|]. split; [|auto].
      apply (dget_keys d1 d2 (KStr s)); [|exact I]. apply Hs. apply not_true_iff_false. intro B.
      apply bitmap_key_cases in B as [B|[B|B]]; [|congruence..]. injection B as ->. rewrite p_not_numeric in * by assumption. discriminate.
    - eexists. eapply PrimaryEntryMissing; eauto.
    - eexists. eapply PrimaryEncMissing; eauto.
    - eexists. eapply ExtraEntryMissing; eauto.
    - eexists. eapply ExtraEncMissing; eauto.
    - eexists. eapply FieldEntryMissing; eauto.
    - eexists. eapply FieldEncMissing; eauto.
    - eexists. eapply OtherSpelling; eauto. rewrite <- V; eauto.
    - eexists. eapply FieldEscapes; eauto. rewrite <- V; eauto.
  Qed.
End Same.
Lemma kept_contents E sp d1 d2 : same_content d1 d2 ->
  same_content (snd (encode E (ADict d1) sp)) (snd (encode E (ADict d2) sp)).
Proof.
  intros Hs j v Hj. assert (A : forall d : pdoc, In (j, v) d <-> In (j, v) (content d)).
  { intro d. unfold content. rewrite filter_In. cbn [fst]. rewrite Hj. tauto. }
  rewrite (A (snd _)), (A (snd (encode E (ADict d2) sp))), (proj1 (encode_keeps E sp d1)), (proj1 (encode_keeps E sp d2)), <- !A. auto.
Qed.
Lemma encode_escape_content E sp d1 d2 x d1' : env_ok E -> is_dict d1 -> is_dict d2 -> same_content d1 d2 ->
  (forall j, In j (map fst d1) -> exists s, j = KStr s) ->
  encode E (ADict d1) sp = (Raise x, d1') -> (forall e, x <> XEncodeError e) ->
  exists d2', encode E (ADict d2) sp = (Raise x, d2') /\ same_content d1' d2'.
Proof.
  intros HE D1 D2 Hs K H Nx. assert (Hg := proj1 (same_content_get d1 d2 D1 D2) Hs). assert (R := H).
  assert (X : encode_escape E sp d1 x d1') by (apply encode_escape_iff; auto).
  destruct X as (bm1 & bm2 & bm3 & done & k & rest & B & P & S & Q).
  destruct (co_escape E sp d1 d2 HE Hg _ _ _ _ _ _ D1 D2 K Q) as (d2' & Q'). exists d2'.
  assert (Y : encode E (ADict d2) sp = (Raise x, d2')).
  { apply encode_escape_iff; [assumption|]. exists bm1, bm2, bm3, done, k, rest.
    split; [eapply co_bitmaps; eauto|]. split; [assumption|]. split; [|assumption]. eapply Forall_impl; [|exact S]. intros a Ha. eapply co_sent; eauto. }
  split; [exact Y|]. pose proof (kept_contents E sp d1 d2 Hs) as Z. rewrite R, Y in Z. exact Z.
Qed.
