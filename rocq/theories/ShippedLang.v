(** * ShippedLang: what the shipped specs can send. *)
From Coq Require Import ZifyBool ZifyNat ZifyN.
From Verif Require Import PyBase BaseFacts Types Numerals NumeralFacts Decoder Encoder Wire WireEncode Claims Claims5 CPython311 Specs Samples CodecFacts.
From Verif Require Import DecoderFacts DecodeRun EncoderFacts EncodeRun EncodeWhole EncodeTheorems EncodeTheorems2 EncodeTheorems3 Roundtrip SampleFacts Shipped.
From Verif Require Import DecodeGapFacts.
Ltac Zify.zify_post_hook ::= Z.div_mod_to_equations.
Local Opaque data_fields.

Lemma hex_digit_value c : (48 <= c <= 57 \/ 65 <= c <= 70 \/ 97 <= c <= 102)%N <-> exists v, hexval c = Some v.
Proof.
  unfold hexval. destruct ((48 <=? c) && (c <=? 57))%N eqn:A, ((97 <=? c) && (c <=? 102))%N eqn:B, ((65 <=? c) && (c <=? 70))%N eqn:C;
  split; intro H; try (eexists; reflexivity); try lia; destruct H as [v H]; discriminate.
Qed.
Lemma hex_text_spells n : forall s, hex_text s -> length s = (2 * n)%nat -> exists data, spells s data /\ length data = n.
Proof.
  induction n as [|n IH]; intros s Hs Hl.
  - destruct s; [|simpl in Hl; lia]. exists []. split; reflexivity.
  - destruct s as [|c [|d s]]; simpl in Hl; try lia. inversion Hs as [|? ? Hc H1]; subst. inversion H1 as [|? ? Hd H2]; subst.
    destruct (IH s H2 ltac:(lia)) as (data & Ha & Hn). apply spells_a2b in Ha.
    apply hex_digit_value in Hc as [v Hv]. apply hex_digit_value in Hd as [w Hw].
    assert (A : exists b, a2b_hex (c :: d :: s) = Some (b :: data)) by (cbn [a2b_hex]; rewrite Hv, Hw, Ha; eauto).
    destruct A as [b A]. exists (b :: data). split; [now apply spells_a2b|]. simpl. lia.
Qed.
Lemma spells_hex_text s : forall data, spells s data -> hex_text s.
Proof.
  assert (A : forall n s, (length s <= n)%nat -> forall data, a2b_hex s = Some data -> hex_text s).
  { clear. induction n as [|n IH]; intros s Hl data H.
    - destruct s; [constructor|simpl in Hl; lia].
    - destruct s as [|c [|d s]]; [constructor|discriminate|]. cbn [a2b_hex] in H.
      destruct (hexval c) as [v|] eqn:Hv; [|discriminate]. destruct (hexval d) as [w|] eqn:Hw; [|discriminate].
      destruct (a2b_hex s) as [r|] eqn:Hr; [|discriminate].
      constructor; [apply hex_digit_value; eauto|]. constructor; [apply hex_digit_value; eauto|].
      eapply IH; [simpl in Hl; lia|exact Hr]. }
  intros data H. apply spells_a2b in H. eapply A; eauto.
Qed.

Lemma ascii_encode E s : has_ascii E -> ascii_text s -> exists b, str_encode E (u "ascii") s = COk b /\ length b = length s.
Proof.
  intros Ha Hs. destruct (ascii_writes s Hs) as [b Hb]. exists b.
  assert (H : str_encode E (u "ascii") s = COk b) by (unfold str_encode; rewrite Ha, Hb; reflexivity).
  split; [assumption|]. destruct (ascii_facts E Ha) as (_ & _ & _ & Hw & _). eapply Hw; eauto.
Qed.
Lemma ascii_encode_inv E s b : has_ascii E -> str_encode E (u "ascii") s = COk b -> ascii_text s /\ length b = length s.
Proof.
  intros Ha H. assert (Hs : ascii_text s).
  { unfold str_encode in H. rewrite Ha in H. destruct (c_enc ascii_codec s) as [b'|] eqn:Hb; [|discriminate]. clear H.
    revert b' Hb. induction s as [|c s IH]; intros b' Hb; [constructor|]. cbn in Hb.
    destruct (c <? 128)%N eqn:Hc; [|discriminate]. destruct (mapM _ s) as [r|] eqn:Hr; [|discriminate].
    constructor; [lia|]. eapply IH. exact Hr. }
  split; [assumption|]. destruct (ascii_facts E Ha) as (_ & _ & _ & Hw & _). eapply Hw; eauto.
Qed.

(** A length up to the maximum of a plain field can be written. *)
Lemma plain_length E sp k fs n : has_ascii E -> plain sp -> sget k sp = Some fs -> right_size fs n ->
  exists lenb, encodes_length E fs (Z.of_nat n) lenb.
Proof.
  intros Ha Hp Hk (lt & ml & Hlt & Hml & Hn). destruct (plain_inv _ _ _ Hp Hk) as (de & lt' & ml' & H1 & H2 & H3 & H4 & H5 & H6 & H7 & H8).
  assert (lt = Z.of_nat lt') by congruence. assert (ml' = ml) by congruence. subst lt ml'. rename lt' into lt. destruct (Z.eqb_spec (Z.of_nat lt) 0) as [Hz|Hz].
  - exists []. rewrite Hz in Hlt. subst ml. apply EncFixed; auto.
  - specialize (H8 ltac:(lia)).
    assert (Hd : ascii_text (fmt0d lt (Z.to_N (Z.of_nat n)))).
    { eapply Forall_impl; [|apply fmt0d_digits]. intros c Hc. cbv beta in *. unfold is_digit in Hc. lia. }
    destruct (ascii_encode E _ Ha Hd) as (b & Hb & Hl). exists b. eapply EncVariable; eauto; [lia|].
    apply EncPrefixText; [discriminate|discriminate|assumption|]. rewrite Hl.
    rewrite (proj2 (fmt0d_length_iff lt (Z.to_N (Z.of_nat n)) ltac:(lia))); [lia|]. apply N_of_Z_lt with ml; auto; lia.
Qed.
Lemma plain_size E fs n lenb : encodes_length E fs (Z.of_nat n) lenb -> right_size fs n.
Proof.
  intros [Hlt Hml _|lt le ml Hlt Hz Hml Hn Hle _].
  - exists 0%Z, (Z.of_nat n). simpl. repeat split; auto.
  - exists (Z.of_nat lt), ml. destruct (Z.eqb_spec (Z.of_nat lt) 0); [lia|auto].
Qed.

Lemma plain_nibbles sp k fs : plain sp -> sget k sp = Some fs -> in_nibbles fs = false.
Proof. intros Hp Hk. destruct (plain_inv _ _ _ Hp Hk) as (de & lt & ml & _ & _ & _ & _ & H & _). unfold in_nibbles. now rewrite H. Qed.

Lemma plain_field E sp k fs s : has_ascii E -> plain sp -> sget k sp = Some fs ->
  ((exists lenb data, field_encodes E fs (VStr s) lenb data) <-> proper_value fs s).
Proof.
  intros Ha Hp Hk. pose proof (plain_nibbles _ _ _ Hp Hk) as Hnib.
  destruct (plain_inv _ _ _ Hp Hk) as (de & lt & ml & H1 & H2 & H3 & H4 & H5 & H6 & H7 & H8). split.
  - intros (lenb & data & n & Hv & Hl). inversion Hv as [de' v d data' D1 D2 D3 D4 D5|de' d w data' D1 D2 D3|de' s' data' D1 D2 D3]; subst.
    + rewrite Hnib in Hl. injection D3 as <-. right. unfold is_binary in D2. split; [congruence|].
      split; [eapply spells_hex_text; eauto|]. exists (length data). split; [now apply spells_length|]. eapply plain_size, Hl.
    + rewrite Hnib in D3. discriminate.
    + rewrite Hnib in Hl. left. assert (de' = de) by congruence. subst de'. destruct H6 as [->| ->]; [|now destruct D2].
      destruct (ascii_encode_inv E s data Ha D3) as [A1 A2]. split; [congruence|]. split; [assumption|]. rewrite <- A2. eapply plain_size, Hl.
  - intros [(D1 & D2 & D3)|(D1 & D2 & n & D3 & D4)].
    + destruct (ascii_encode E s Ha D2) as (data & A1 & A2). rewrite <- A2 in D3. destruct (plain_length E sp k fs _ Ha Hp Hk D3) as [lenb Hl].
      exists lenb, data, (Z.of_nat (length data)). split; [|assumption].
      pose proof (EncText E fs (u "ascii") s data D1 ltac:(discriminate) A1) as X. rewrite Hnib in X. exact X.
    + destruct (hex_text_spells n s D2 D3) as (data & A1 & A2). rewrite <- A2 in D4. destruct (plain_length E sp k fs _ Ha Hp Hk D4) as [lenb Hl].
      exists lenb, data, (Z.of_nat (length data)). split; [|assumption].
      pose proof (EncHex E fs (u "b") (VStr s) s data D1 eq_refl eq_refl ltac:(now rewrite Hnib) A1) as X. rewrite Hnib in X. exact X.
Qed.

Lemma plain_type E sp fs s : has_ascii E -> sget (u "t") sp = Some fs -> fs_data_enc fs = Some (u "ascii") ->
  ((exists data, type_encodes E fs (VStr s) data) <-> ascii_text s /\ length s = 4%nat).
Proof.
  intros Ha Hk Hde. split.
  - intros (data & H). inversion H as [de v d data' D1 D2 D3 D4 D5|de s' data' D1 D2 D3 D4]; subst.
    + unfold is_binary in D2. rewrite Hde in D1. injection D1 as <-. discriminate.
    + rewrite Hde in D1. injection D1 as <-. destruct (ascii_encode_inv E s data Ha D3) as [A1 A2]. split; [assumption|lia].
  - intros [H1 H2]. destruct (ascii_encode E s Ha H1) as (data & A1 & A2). exists data. eapply EncTypeText; eauto; [discriminate|lia].
Qed.

Lemma HEX_ascii b : ascii_text (HEX b).
Proof.
  induction b as [|x b IH]; [constructor|]. rewrite HEX_cons. pose proof (b2n_lt x).
  constructor; [|constructor; [|exact IH]]; unfold hexdig_upper; destruct (_ <? 10)%N eqn:?; lia.
Qed.
Lemma plain_sendable E sp : has_ascii E -> plain sp -> (forall k, k = u "p" \/ k = u "1" -> exists fs, sget k sp = Some fs) ->
  bitmaps_sendable E sp.
Proof.
  intros Ha Hp Hk k bm Hpk Hl. destruct (Hk k Hpk) as [fs Hfs]. exists fs.
  destruct (plain_inv _ _ _ Hp Hfs) as (de & lt & ml & H1 & H2 & H3 & H4 & H5 & [->| ->] & H7 & H8).
  - destruct (ascii_encode E (HEX bm) Ha (HEX_ascii bm)) as (data & A & _). exists data. split; [assumption|].
    eapply EncBitmapText; eauto. discriminate.
  - exists bm. split; [assumption|]. eapply EncBitmapBinary; eauto. reflexivity.
Qed.

Lemma value_has d k v : value d k = Some v -> has_key d k.
Proof. intro H. apply (dget_some_in key_eqb key_eqb_spec). eauto. Qed.
Lemma has_str d k : str_dict d -> has_key d k -> exists s, value d k = Some (VStr s).
Proof.
  intros Hd Hk. apply (dget_some_in key_eqb key_eqb_spec) in Hk as [v Hv].
  destruct (str_dict_value d k v Hd Hv) as [s ->]. eauto.
Qed.

Lemma classic_sends E sp d : env_ok E -> has_ascii E -> plain sp -> classic sp -> header_off sp ->
  (exists fs, sget (u "t") sp = Some fs /\ fs_data_enc fs = Some (u "ascii")) ->
  str_dict d -> canonical_keys E d ->
  ((exists s enc d', encode E (ADict d) sp = (Ok (s, enc), d')) <-> proper_message sp d).
Proof.
  intros HE Ha Hp (Hc1 & Hc2 & Hc3) Hh (ft & Hft & Hde) Hd Hk.
  rewrite encode_success; auto; [|apply plain_sendable; auto; intros k Hpk; destruct (Hc1 k ltac:(tauto)) as (fs & Hfs & _); eauto].
  unfold proper_message. split.
  - intros ((fs & v & data & T1 & T2 & T3) & _ & Hr & Hf).
    destruct (has_str d (u "t") Hd (value_has _ _ _ T2)) as [t Ht]. split; [|split].
    + exists t. split; [assumption|]. rewrite T2 in Ht. injection Ht as ->. rewrite Hft in T1. injection T1 as <-.
      apply (plain_type E sp ft t Ha Hft Hde). eauto.
    + intros n H0 Hn. specialize (Hr n H0 Hn). destruct (Z.le_gt_cases n 128); [lia|]. exfalso.
      destruct (Hf n ltac:(unfold data_field; lia) Hn) as (fs' & v' & lenb & dt & F1 & _). rewrite Hc3 in F1 by lia. discriminate.
    + intros n Hn Hn' Hin. destruct (Hf n ltac:(unfold data_field; lia) Hin) as (fs' & v' & lenb & dt & F1 & F2 & F3).
      destruct (has_str d (zstr n) Hd Hin) as [s Hs]. rewrite F2 in Hs. injection Hs as ->. exists fs', s. split; [assumption|]. split; [assumption|].
      apply (plain_field E sp (zstr n) fs' s Ha Hp F1). eauto.
  - intros ((t & T1 & T2) & Hr & Hf). split; [|split; [|split]].
    + destruct (proj2 (plain_type E sp ft t Ha Hft Hde) T2) as [data Hdata]. exists ft, (VStr t), data. auto.
    + intros (fs & ml & A1 & A2 & A3). destruct Hh as (fs' & ml' & B1 & B2 & B3). exfalso. rewrite A1 in B1. injection B1 as <-. rewrite A2 in B2. injection B2 as <-. lia.
    + intros n H0 Hn. specialize (Hr n H0 Hn). lia.
    + intros n Hn Hin. assert (Hr' := Hr n ltac:(unfold data_field in Hn; lia) Hin).
      destruct (Hf n ltac:(unfold data_field in Hn; lia) ltac:(unfold data_field in Hn; lia) Hin) as (fs & s & F1 & F2 & F3).
      apply (plain_field E sp _ fs s Ha Hp F1) in F3 as (lenb & data & F3). exists fs, (VStr s), lenb, data. auto.
Qed.
