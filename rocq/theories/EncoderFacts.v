(** * EncoderFacts: what each function of the encoder does, in terms of Wire. *)
From Coq Require Import ZifyBool ZifyNat ZifyN Sorted Permutation.
From Verif Require Import PyBase BaseFacts Types Decoder Encoder Numerals NumeralFacts Wire WireEncode Shown DecoderFacts.
Ltac Zify.zify_post_hook ::= Z.div_mod_to_equations.

Lemma key_eqb_spec a b : reflect (a = b) (key_eqb a b).
Proof.
  destruct a as [x|i x], b as [y|j y]; simpl; try (constructor; congruence).
  - destruct (str_eqb_spec x y); constructor; congruence.
  - destruct (N.eqb_spec i j), (str_eqb_spec x y); constructor; congruence.
Qed.

(** ** Hexadecimal *)
Lemma spells_a2b w data : a2b_hex w = Some data <-> spells w data.
Proof.
  unfold spells. rewrite HEX_eq. split; [apply a2b_hex_some|].
  revert w; induction data as [|b data IH]; intros w H.
  - destruct w; [reflexivity|discriminate].
  - rewrite py_HEX_cons in H. destruct w as [|c [|d w]]; try discriminate. injection H as H1 H2 H3.
    pose proof (b2n_lt b) as Hb.
    assert (Hv : forall c v, (v < 16)%N -> upper_char c = hexdig_upper v -> hexval c = Some v).
    { clear. intros c v Hv H. unfold upper_char, hexdig_upper, hexval in *.
      destruct ((97 <=? c) && (c <=? 122))%N eqn:E1; destruct (v <? 10)%N eqn:E2;
      destruct ((48 <=? c) && (c <=? 57))%N eqn:E3; destruct ((97 <=? c) && (c <=? 102))%N eqn:E4;
      destruct ((65 <=? c) && (c <=? 70))%N eqn:E5; try (f_equal; lia); exfalso; lia. }
    apply Hv in H1; [|lia]. apply Hv in H2; [|lia]. cbn [a2b_hex]. rewrite H1, H2, (IH w H3).
    do 2 f_equal. rewrite <- (n2b_b2n b) at 3. f_equal. lia.
Qed.
Lemma spells_length w data : spells w data -> length w = (2 * length data)%nat.
Proof. intro H. apply spells_a2b in H. now apply a2b_hex_length. Qed.
Lemma spells_fun w a b : spells w a -> spells w b -> a = b.
Proof. intros Ha Hb. apply spells_a2b in Ha, Hb. congruence. Qed.

(** ** BCD *)
Lemma hexdig_upper_digit v : (v < 16)%N -> is_digit (hexdig_upper v) = (v <? 10)%N.
Proof. intro H. unfold hexdig_upper, is_digit. destruct (v <? 10)%N eqn:E; lia. Qed.
Lemma bcd_from_HEX raw : forall acc v, bcd_from acc raw = Some v <->
  all_digits (HEX raw) /\ v = fold_left (fun a c => (a * 10 + (c - 48))%N) (HEX raw) acc.
Proof.
  unfold all_digits. induction raw as [|b raw IH]; intros acc v.
  - cbn. split; [intros [= ->]; split; [constructor|reflexivity]|]. intros [_ ->]. reflexivity.
  - pose proof (b2n_lt b).
    rewrite HEX_cons.
    cbn [bcd_from fold_left]. rewrite !Forall_cons_iff, !hexdig_upper_digit by lia.
    destruct (b2n b / 16 <? 10)%N eqn:E1; destruct (b2n b mod 16 <? 10)%N eqn:E2; cbn [andb];
      try (split; [discriminate|intuition discriminate]).
    rewrite IH. unfold hexdig_upper. rewrite E1, E2.
    replace ((acc * 10 + (48 + b2n b / 16 - 48)) * 10 + (48 + b2n b mod 16 - 48))%N
      with (acc * 100 + b2n b / 16 * 10 + b2n b mod 16)%N by lia. tauto.
Qed.
Lemma bcd_value_HEX raw v : bcd_value raw = Some v <-> all_digits (HEX raw) /\ v = dec_value (HEX raw).
Proof. apply bcd_from_HEX. Qed.
Lemma HEX_length b : length (HEX b) = (2 * length b)%nat.
Proof. rewrite HEX_eq. apply py_HEX_length. Qed.
Lemma upper_digits s : all_digits s -> py_upper s = s.
Proof. induction 1 as [|c s Hc Hs IH]; [reflexivity|]. unfold py_upper in *. simpl. rewrite IH. f_equal.
  unfold upper_char, is_digit in *. destruct ((97 <=? c) && (c <=? 122))%N eqn:E1; lia. Qed.

Lemma bcd_prefix lt n lenb : lt <> O ->
  ((length (fmt0d (lt * 2) n) <= lt * 2)%nat /\ a2b_hex (fmt0d (lt * 2) n) = Some lenb
   <-> length lenb = lt /\ bcd_value lenb = Some n).
Proof.
  intro Hlt. rewrite spells_a2b. unfold spells. rewrite (upper_digits _ (fmt0d_digits _ _)), bcd_value_HEX.
  pose proof (fmt0d_length_ge (lt * 2) n) as Hge. split.
  - intros [Hl H]. split; [apply (f_equal (@length N)) in H; rewrite HEX_length in H; lia|].
    rewrite <- H. split; [apply fmt0d_digits|]. symmetry. apply fmt0d_value.
  - intros [Hl [Hd Hv]].
    assert (n < 10 ^ N.of_nat (lt * 2))%N as Hn.
    { pose proof (dec_value_bound _ Hd) as Hb. rewrite <- Hv, HEX_length, Hl in Hb.
      replace (lt * 2)%nat with (2 * lt)%nat by lia. exact Hb. }
    apply fmt0d_length_iff in Hn; [|lia]. split; [lia|].
    apply dec_value_inj; [apply fmt0d_digits|assumption|rewrite HEX_length; lia|].
    rewrite fmt0d_value. assumption.
Qed.
Lemma bcd_hex_total lt n : (length (fmt0d (lt * 2) n) <= lt * 2)%nat -> exists b, a2b_hex (fmt0d (lt * 2) n) = Some b.
Proof.
  intro Hl. pose proof (fmt0d_length_ge (lt * 2) n) as Hge. pose proof (fmt0d_digits (lt * 2) n) as Hd.
  remember (fmt0d (lt * 2) n) as w. clear Heqw. assert (length w = (2 * lt)%nat) as Hw by lia. clear Hl Hge.
  revert w Hd Hw. induction lt as [|lt IH]; intros w Hd Hw.
  - destruct w; [|discriminate]. eexists. reflexivity.
  - destruct w as [|c [|d w]]; try (simpl in Hw; lia).
    inversion Hd as [|? ? Hc Hd1]; subst. inversion Hd1 as [|? ? Hc2 Hd2]; subst.
    destruct (IH w Hd2) as [b Hb]; [simpl in Hw; lia|]. cbn [a2b_hex]. rewrite Hb.
    unfold hexval. unfold is_digit in Hc, Hc2. rewrite Hc, Hc2. eexists. reflexivity.
Qed.

Lemma to_be_prefix lt n lenb : to_be lt n = Some lenb <-> length lenb = lt /\ big_endian lenb = n.
Proof.
  rewrite <- from_be_value.
  unfold to_be. split.
  - destruct (n <? 256 ^ N.of_nat lt)%N eqn:E1; [|discriminate]. intros [= <-].
    split; [apply be_digits_length|]. apply from_be_be_digits. lia.
  - intros [<- <-]. pose proof (from_be_bound lenb). replace (_ <? _)%N with true by lia.
    f_equal. apply be_digits_from_be.
Qed.

(** ** Pads *)
Lemma add_pad_cases d fs :
  (pad_digits fs d (add_pad_field d fs) /\ has_pad fs = true)
  \/ (pad_char (fs_left_pad fs) = None /\ pad_char (fs_right_pad fs) = None /\ add_pad_field d fs = d
      /\ has_pad fs = false).
Proof.
  unfold add_pad_field, has_pad, pad_digits. rewrite !firstn1_pad.
  destruct (pad_char (fs_left_pad fs)) as [c|]; destruct (pad_char (fs_right_pad fs)) as [c'|];
  cbn; [left; split; [left; eauto|reflexivity]|left; split; [left; eauto|reflexivity]| |right; auto].
  left. split; [|reflexivity]. right. eauto.
Qed.
Lemma pad_digits_fun fs d w w' : pad_digits fs d w -> pad_digits fs d w' -> w = w'.
Proof. intros [(c & H1 & ->)|[H1 (c & H2 & ->)]] [(c' & H3 & ->)|[H3 (c' & H4 & ->)]]; congruence. Qed.
Lemma pad_digits_length fs d w : pad_digits fs d w -> length w = S (length d).
Proof. intros [(c & H1 & ->)|[H1 (c & H2 & ->)]]; [reflexivity|]. rewrite app_length. simpl. lia. Qed.

(** ** Values *)
Lemma val_a2b_digits v data : val_a2b v = Some data <-> exists d, digits_of v = Some d /\ spells d data.
Proof.
  destruct v as [s|b|l]; simpl.
  - rewrite spells_a2b. split; [eauto|]. intros (d & [= <-] & H). assumption.
  - rewrite spells_a2b. split; [eauto|]. intros (d & [= <-] & H). assumption.
  - split; [discriminate|]. intros (d & H & _). discriminate.
Qed.
Lemma digits_len v d : digits_of v = Some d -> val_len v = Some (length d).
Proof. destruct v; simpl; intros [= <-]; rewrite ?map_length; reflexivity. Qed.

Lemma nat_odd_zodd n : Nat.odd n = Z.odd (Z.of_nat n).
Proof. destruct (Nat.odd n) eqn:H; symmetry.
  - apply Z.odd_spec. apply Nat.odd_spec in H as [m ->]. exists (Z.of_nat m). lia.
  - rewrite <- Z.negb_even. apply negb_false_iff. apply Z.even_spec.
    rewrite <- Nat.negb_even in H. apply negb_false_iff, Nat.even_spec in H as [m ->]. exists (Z.of_nat m). lia. Qed.

Definition eerr (k : pystr) (x : exn) (st' : estate) : Prop :=
  exists msg, x = XEncodeError (EncodeError msg (s_dec st') (s_enc st') k).

Lemma hex_failure_run {A} v k lc st r st' :
  @hex_failure A v k lc st = (r, st') ->
  st' = st /\ exists x, r = Raise x /\ (eerr k x st \/ bad_value v x).
Proof.
  unfold hex_failure, eraise, raise, bad_value, eerr, is_str. intro H.
  destruct (val_len v) as [n|] eqn:Hv.
  - destruct (Nat.odd n); [destruct (str_eqb lc str_nibbles)|];
    injection H as <- <-; (split; [reflexivity|]); eexists; (split; [reflexivity|]); left; eauto.
  - injection H as <- <-. split; [reflexivity|]. eexists. split; [reflexivity|]. right.
    split; [|now right]. intros [s ->]. discriminate.
Qed.

Definition data_step (E : pyenv) (de : pystr) (v : pyval) (k : pystr) (fs : fspec) (lc : pystr) : EM (bytes * Z) :=
  if str_eqb de str_b then encode_binary_field v k fs lc else encode_text_field E v k fs lc.

Lemma hex_failure_not_ok {A} v k lc st (a : A) st' : hex_failure v k lc st <> (Ok a, st').
Proof. intro H. apply hex_failure_run in H as (_ & x & Hx & _). discriminate. Qed.

(** The binary branch. *)
Lemma encode_binary_ok fs v k lc st data n st' E de :
  fs_data_enc fs = Some de -> is_binary de -> str_eqb lc str_nibbles = in_nibbles fs ->
  (encode_binary_field v k fs lc st = (Ok (data, n), st') <-> st' = st /\ encodes_value E fs v data n).
Proof.
  intros Hde Hb Hlc. unfold encode_binary_field. rewrite Hlc.
  split.
  - intro H. destruct (in_nibbles fs) eqn:Hn.
    + destruct (val_len v) as [m|] eqn:Hm; [|discriminate].
      destruct (Nat.odd m) eqn:Ho.
      * destruct v as [s|b|l].
        -- simpl in Hm. injection Hm as <-.
           destruct (val_a2b (VStr (add_pad_field s fs))) as [x|] eqn:Ha; [|now apply hex_failure_not_ok in H].
           injection H as -> <- <-. split; [reflexivity|]. apply spells_a2b in Ha.
           destruct (add_pad_cases s fs) as [[Hp _]|(_ & _ & Hp & _)].
           ++ eapply EncPaddedHex; eauto. rewrite Hn. exact Ho.
           ++ rewrite Hp in Ha. apply spells_length in Ha. rewrite Ha, Nat.odd_mul in Ho. discriminate.
        -- simpl in Hm. injection Hm as <-. destruct (has_pad fs); [discriminate|].
           destruct (val_a2b (VBytes b)) as [x|] eqn:Ha; [|now apply hex_failure_not_ok in H].
           apply spells_a2b, spells_length in Ha. rewrite map_length in Ha.
           rewrite Ha, Nat.odd_mul in Ho. discriminate.
        -- destruct (has_pad fs); [discriminate|]. now apply hex_failure_not_ok in H.
      * destruct (val_a2b v) as [x|] eqn:Ha; [|now apply hex_failure_not_ok in H].
        injection H as -> <- <-. split; [reflexivity|]. apply val_a2b_digits in Ha as (d & Hd & Hs).
        rewrite (digits_len _ _ Hd) in Hm. injection Hm as <-.
        replace (Z.of_nat (length d)) with (if in_nibbles fs then zlen d else zlen data) by now rewrite Hn.
        eapply EncHex; eauto. rewrite Hn. exact Ho.
    + destruct (val_a2b v) as [x|] eqn:Ha; [|now apply hex_failure_not_ok in H].
      injection H as -> <- <-. split; [reflexivity|]. apply val_a2b_digits in Ha as (d & Hd & Hs).
      replace (zlen data) with (if in_nibbles fs then zlen d else zlen data) by now rewrite Hn.
      eapply EncHex; eauto. rewrite Hn. reflexivity.
  - intros [-> H]. inversion H as [de' v' d data' Hde' Hb' Hd Ho Hs|de' d w data' Hde' Hb' Ho Hp Hs|de' s data' Hde' Hb' Hs]; subst.
    + assert (Ha : val_a2b v = Some data) by (apply val_a2b_digits; eauto).
      destruct (in_nibbles fs) eqn:Hn.
      * cbn [andb] in Ho. rewrite (digits_len _ _ Hd), Ho, Ha. reflexivity.
      * rewrite Ha. reflexivity.
    + destruct (in_nibbles fs) eqn:Hn; [|discriminate]. cbn [andb] in Ho. cbn [val_len]. rewrite Ho.
      destruct (add_pad_cases d fs) as [[Hp' _]|(H1 & H2 & _)].
      * rewrite (pad_digits_fun _ _ _ _ Hp' Hp). cbn [val_a2b]. apply spells_a2b in Hs. rewrite Hs. reflexivity.
      * exfalso. destruct Hp as [(c & Hc & _)|[_ (c & Hc & _)]]; congruence.
    + congruence.
Qed.

Lemma encode_binary_raise fs v k lc st x st' :
  encode_binary_field v k fs lc st = (Raise x, st') -> st' = st /\ (eerr k x st \/ bad_value v x).
Proof.
  unfold encode_binary_field. intro H.
  assert (Hfail : forall v' , (~ is_str v' -> ~ is_str v) -> @hex_failure (bytes * Z) v' k lc st = (Raise x, st') ->
             st' = st /\ (eerr k x st \/ bad_value v x)).
  { intros v' Hv Hf. apply hex_failure_run in Hf as (-> & y & [= <-] & [He|[Hs Hx]]); (split; [reflexivity|]); [now left|].
    right. split; auto. }
  assert (Hunb : forall w : pyval, w = v -> ~ is_str w -> (@raise exn estate (bytes * Z) XUnboundLocalError st) = (Raise x, st') ->
             st' = st /\ (eerr k x st \/ bad_value v x)).
  { intros w -> Hw Hf. injection Hf as <- <-. split; [reflexivity|]. right. split; auto. }
  destruct (str_eqb lc str_nibbles).
  - destruct (val_len v) as [m|] eqn:Hm.
    2:{ eapply Hunb; eauto. intros [s ->]. discriminate. }
    destruct (Nat.odd m).
    + destruct v as [s|b|l].
      * destruct (val_a2b _); [discriminate|]. eapply (Hfail (VStr _)); [|exact H]. intros Hn. exfalso. apply Hn. eexists; reflexivity.
      * destruct (has_pad fs).
        -- eapply Hunb; eauto. intros [s Hs]. discriminate.
        -- destruct (val_a2b _); [discriminate|]. eapply Hfail; eauto.
      * destruct (has_pad fs).
        -- eapply Hunb; eauto. intros [s Hs]. discriminate.
        -- destruct (val_a2b _); [discriminate|]. eapply Hfail; eauto.
    + destruct (val_a2b _); [discriminate|]. eapply Hfail; eauto.
  - destruct (val_a2b _); [discriminate|]. eapply Hfail; eauto.
Qed.

Lemma encode_text_ok E fs v k lc st data n st' de :
  fs_data_enc fs = Some de -> ~ is_binary de -> str_eqb lc str_nibbles = in_nibbles fs ->
  (encode_text_field E v k fs lc st = (Ok (data, n), st') <-> st' = st /\ encodes_value E fs v data n).
Proof.
  intros Hde Hb Hlc. unfold encode_text_field. rewrite Hlc, Hde. split.
  - intro H. destruct v as [s|b|l]; [|discriminate|discriminate].
    destruct (str_encode E de s) as [x| |] eqn:Hs; [|discriminate|discriminate].
    unfold ret in H. injection H as -> <- <-. split; [reflexivity|].
    replace (zlen data * 2)%Z with (2 * zlen data)%Z by lia. eapply EncText; eauto.
  - intros [-> H]. inversion H as [de' v' d data' Hde' Hb' Hd Ho Hs|de' d w data' Hde' Hb' Ho Hp Hs|de' s data' Hde' Hb' Hs]; subst;
      try congruence.
    assert (de' = de) by congruence. subst. rewrite Hs. unfold ret.
    replace (zlen data * 2)%Z with (2 * zlen data)%Z by lia. reflexivity.
Qed.
Lemma encode_text_raise E fs v k lc st x st' :
  encode_text_field E v k fs lc st = (Raise x, st') -> st' = st /\ eerr k x st.
Proof.
  unfold encode_text_field. intro H.
  match type of H with match ?m with _ => _ end _ = _ => destruct m end; [discriminate| |];
  injection H as <- <-; (split; [reflexivity|]); eexists; reflexivity.
Qed.

Lemma data_step_ok E fs v k lc st data n st' de :
  fs_data_enc fs = Some de -> str_eqb lc str_nibbles = in_nibbles fs ->
  (data_step E de v k fs lc st = (Ok (data, n), st') <-> st' = st /\ encodes_value E fs v data n).
Proof.
  intros Hde Hlc. unfold data_step. destruct (binary_cases de) as [[Hb ->]|[Hb ->]].
  - eapply encode_binary_ok; eauto. - eapply encode_text_ok; eauto.
Qed.
Lemma data_step_raise E fs v k lc st x st' de :
  data_step E de v k fs lc st = (Raise x, st') -> st' = st /\ (eerr k x st \/ bad_value v x).
Proof.
  unfold data_step. destruct (str_eqb de str_b); intro H.
  - now apply encode_binary_raise in H.
  - apply encode_text_raise in H as [-> H]. auto.
Qed.
Lemma encodes_value_nonneg E fs v data n : encodes_value E fs v data n -> (0 <= n)%Z.
Proof. intros [de v' d data' _ _ _ _ _|de d w data' _ _ _ _ _|de s data' _ _ _];
  try destruct (in_nibbles fs); unfold zlen; lia. Qed.

(** ** Fields *)
Definition eput (k : pystr) (lenb data : bytes) (st : estate) : estate :=
  mkE (s_dec st) (sset k (mkEntry lenb data) (s_enc st)).
Lemma eput_dec k lenb data st : s_dec (eput k lenb data st) = s_dec st.
Proof. reflexivity. Qed.
Lemma eput_eput k l d l' d' st : eput k l' d' (eput k l d st) = eput k l' d' st.
Proof. unfold eput. cbn [s_dec s_enc]. now rewrite sset_sset. Qed.
Lemma eset_enc_put k l d st : eset_enc k (mkEntry l d) st = (Ok tt, eput k l d st).
Proof. reflexivity. Qed.
Lemma eget_enc_put k l d st : eget_enc k (eput k l d st) = (Ok (mkEntry l d), eput k l d st).
Proof. unfold eget_enc, eput. cbn [s_enc]. now rewrite sget_sset. Qed.
Lemma eset_enc_data_put k l d d' st : eset_enc_data k d' (eput k l d st) = (Ok tt, eput k l d' st).
Proof. unfold eset_enc_data, bind. rewrite eget_enc_put. unfold eset_enc. fold (eput k l d' (eput k l d st)).
  change (e_len (mkEntry l d)) with l. fold (eput k l d' (eput k l d st)). now rewrite eput_eput. Qed.
Lemma eset_enc_len_put k l d l' st : eset_enc_len k l' (eput k l d st) = (Ok tt, eput k l' d st).
Proof. unfold eset_enc_len, bind. rewrite eget_enc_put. unfold eset_enc.
  change (e_data (mkEntry l d)) with d. fold (eput k l' d (eput k l d st)). now rewrite eput_eput. Qed.

Lemma encode_length_nat E k fs lt n data st st' : lt <> O -> (0 <= n)%Z ->
  (encode_length E k fs (Z.of_nat lt) n (eput k [] data st) = (Ok tt, st') <->
   exists le lenb, fs_len_enc fs = Some le /\ encodes_prefix E le lt n lenb /\ st' = eput k lenb data st).
Proof.
  intros Hlt Hn. unfold encode_length, bind. rewrite !Nat2Z.id. replace (Z.of_nat lt <? 0)%Z with false by lia.
  destruct (fs_len_enc fs) as [le|] eqn:Hle.
  2:{ cbn. split; [discriminate|]. intros (? & ? & ? & _). discriminate. }
  cbn [prop]. unfold ret at 1.
  destruct (len_enc_cases le) as [[Hb ->]|[(Hnb & Hb & -> & ->)|(Hb & Hc & -> & ->)]].
  - split.
    + destruct (to_be lt (Z.to_N n)) as [b|] eqn:Ht; [|discriminate].
      rewrite eset_enc_len_put. intros [= <-]. apply to_be_prefix in Ht as [H1 H2].
      exists le, b. split; [reflexivity|]. split; [|reflexivity]. apply EncPrefixBinary; auto. lia.
    + intros (le' & lenb & [= <-] & [_ H1 H2|v H1|H1 _ _ _] & ->).
      * assert (Ht : to_be lt (Z.to_N n) = Some lenb) by (apply to_be_prefix; split; [assumption|lia]).
        rewrite Ht. apply eset_enc_len_put.
      * exfalso. eapply bcd_not_binary; eauto.
      * tauto.
  - cbv zeta. split.
    + destruct (Nat.ltb_spec (lt * 2) (length (fmt0d (lt * 2) (Z.to_N n)))) as [Hl|Hl]; [discriminate|].
      destruct (a2b_hex (fmt0d (lt * 2) (Z.to_N n))) as [b|] eqn:Ha; [|discriminate].
      rewrite eset_enc_len_put. intros [= <-]. destruct (proj1 (bcd_prefix lt _ b Hlt) (conj Hl Ha)) as [H1 H2].
      exists le, b. split; [reflexivity|]. split; [|reflexivity]. eapply EncPrefixBcd; eauto. lia.
    + intros (le' & lenb & [= <-] & [H1 _ _|v _ H1 H2 H3|_ H1 _ _] & ->).
      * exfalso. eapply bcd_not_binary; eauto.
      * subst n. rewrite N2Z.id. destruct (proj2 (bcd_prefix lt v lenb Hlt) (conj H1 H2)) as [H3 H4].
        destruct (Nat.ltb_spec (lt * 2) (length (fmt0d (lt * 2) v))); [lia|]. rewrite H4. apply eset_enc_len_put.
      * tauto.
  - split.
    + destruct (str_encode E le (fmt0d lt (Z.to_N n))) as [b| |] eqn:Hs; try discriminate.
      rewrite eset_enc_len_put. destruct (Nat.ltb_spec lt (length b)) as [Hl|Hl]; [discriminate|].
      intros [= <-]. exists le, b. split; [reflexivity|]. split; [|reflexivity]. now apply EncPrefixText.
    + intros (le' & lenb & [= <-] & [H1 _ _|v H1|_ _ H1 H2] & ->); try tauto.
      rewrite H1, eset_enc_len_put. destruct (Nat.ltb_spec lt (length lenb)); [lia|reflexivity].
Qed.
(** A negative width is never written. *)
Lemma encode_length_negative E k fs lt n st : (lt < 0)%Z ->
  encode_length E k fs lt n st =
  match fs_len_enc fs with
  | None => (Raise (XKeyError (u "len_enc")), st)
  | Some le => if str_eqb le str_b || str_eqb le str_bcd then (Raise XValueError, st)
               else eraise (u "Failed to encode field length, " ++ format_why E lt) k st
  end.
Proof.
  intro Hlt. unfold encode_length, bind. replace (lt <? 0)%Z with true by lia.
  destruct (fs_len_enc fs) as [le|]; [|reflexivity]. cbn [prop]. unfold ret.
  destruct (str_eqb le str_b); [reflexivity|]. destruct (str_eqb le str_bcd); reflexivity.
Qed.
Lemma encode_length_ok E k fs lt n data st st' : lt <> 0%Z -> (0 <= n)%Z ->
  (encode_length E k fs lt n (eput k [] data st) = (Ok tt, st') <->
   exists w le lenb, lt = Z.of_nat w /\ fs_len_enc fs = Some le /\ encodes_prefix E le w n lenb /\ st' = eput k lenb data st).
Proof.
  intros Hlt Hn. destruct (Z.ltb_spec lt 0) as [Hneg|Hpos].
  - rewrite encode_length_negative by assumption. split; [|intros (w & _ & _ & -> & _); lia].
    destruct (fs_len_enc fs) as [le|]; [|discriminate]. destruct (_ || _); discriminate.
  - destruct (Z_of_nat_complete lt Hpos) as [w ->]. rewrite encode_length_nat by lia. split.
    + intros (le & lenb & H). exists w, le, lenb. tauto.
    + intros (w' & le & lenb & H & H'). apply Nat2Z.inj in H as <-. exists le, lenb. exact H'.
Qed.
Lemma encode_length_raise E k fs lt n data st x st' :
  encode_length E k fs lt n (eput k [] data st) = (Raise x, st') ->
  (exists lenb, st' = eput k lenb data st) /\
  ((x = XKeyError (u "len_enc") /\ fs_len_enc fs = None) \/ (x = XValueError /\ (lt < 0)%Z) \/ eerr k x st').
Proof.
  destruct (Z.ltb_spec lt 0) as [Hneg|Hpos].
  { rewrite encode_length_negative by assumption. destruct (fs_len_enc fs) as [le|].
    - destruct (_ || _); intros [= <- <-]; (split; [eauto|]); right; [left; auto|]. right. eexists. reflexivity.
    - intros [= <- <-]. eauto. }
  destruct (Z_of_nat_complete lt Hpos) as [w ->]. clear Hpos. rename w into lt.
  unfold encode_length, bind. rewrite !Nat2Z.id. replace (Z.of_nat lt <? 0)%Z with false by lia.
  destruct (fs_len_enc fs) as [le|] eqn:Hle.
  2:{ cbn. intros [= <- <-]. eauto. }
  cbn [prop]. unfold ret at 1. destruct (str_eqb le str_b).
  { destruct (to_be lt (Z.to_N n)); [rewrite eset_enc_len_put; discriminate|].
    intros [= <- <-]. split; [eauto|]. right. right. eexists. reflexivity. }
  destruct (str_eqb le str_bcd).
  { cbv zeta. destruct (Nat.ltb_spec (lt * 2) (length (fmt0d (lt * 2) (Z.to_N n)))) as [Hl|Hl].
    - intros [= <- <-]. split; [eauto|]. right. right. eexists. reflexivity.
    - destruct (bcd_hex_total _ _ Hl) as [b ->]. rewrite eset_enc_len_put. discriminate. }
  destruct (str_encode E le (fmt0d lt (Z.to_N n))) as [b| |].
  - rewrite eset_enc_len_put. destruct (lt <? length b)%nat; [|discriminate].
    intros [= <- <-]. split; [eauto|]. right. right. eexists. reflexivity.
  - intros [= <- <-]. split; [eauto|]. right. right. eexists. reflexivity.
  - intros [= <- <-]. split; [eauto|]. right. right. eexists. reflexivity.
Qed.

Lemma formatted_eraise {A} E n msg k st :
  formatted E [n] (@eraise A msg k) st
  = if prints E n then eraise msg k st else (Raise XValueError, st).
Proof. unfold formatted. cbn [forallb]. rewrite Bool.andb_true_r. now destruct (prints E n). Qed.
Lemma formatted_eraise_not {A} E ns msg k st a st' : formatted E ns (@eraise A msg k) st = (Ok a, st') -> False.
Proof. unfold formatted. destruct (forallb _ _); discriminate. Qed.

Definition encode_field_rest (E : pyenv) (k : pystr) (fs : fspec) (n : Z) : EM bytes :=
  let len_count := prop_default (fs_len_count fs) str_bytes in
  len_type <- prop (fs_len_type fs) (u "len_type") ;;
  max_len <- prop (fs_max_len fs) (u "max_len") ;;
  if (len_type =? 0)%Z then
    if negb (n =? max_len)%Z then
      formatted E [max_len]
        (eraise (u "Field data is " ++ zstr n ++ u " " ++ len_count ++ u ", expecting " ++ zstr max_len) k)
    else
      eset_enc_len k [] ;;;
      e <- eget_enc k ;; ret (e_data e)
  else if (max_len <? n)%Z then
    formatted E [max_len]
      (eraise (u "Field data is " ++ zstr n ++ u " " ++ len_count ++ u ", larger than maximum " ++ zstr max_len) k)
  else
    encode_length E k fs len_type n ;;;
    e <- eget_enc k ;; ret (e_len e ++ e_data e).

Lemma encode_field_eq E k fs st : encode_field E k fs st =
  match fs_data_enc fs with
  | None => (Raise (XKeyError (u "data_enc")), eput k [] [] st)
  | Some de =>
      match pget (KStr k) (s_dec st) with
      | None => (Raise (XKeyError k), eput k [] [] st)
      | Some v =>
          match data_step E de v k fs (prop_default (fs_len_count fs) str_bytes) (eput k [] [] st) with
          | (Ok (data, n), st1) => (eset_enc_data k data ;;; encode_field_rest E k fs n) st1
          | (Raise x, st1) => (Raise x, st1)
          end
      end
  end.
Proof.
  unfold encode_field, bind at 1. rewrite eset_enc_put. unfold bind at 1.
  destruct (fs_data_enc fs) as [de|]; [|reflexivity]. cbn [prop]. unfold ret at 1. unfold bind at 1.
  unfold eget_dec at 1. rewrite eput_dec. destruct (pget (KStr k) (s_dec st)) as [v|]; [|reflexivity].
  unfold bind at 1, data_step. cbv zeta.
  destruct (str_eqb de str_b);
  match goal with |- context [let (_, _) := ?r in _] => destruct r as [[[data n]|x] st1] end; reflexivity.
Qed.

Lemma encode_field_rest_ok E k fs n data st out st' : (0 <= n)%Z ->
  (encode_field_rest E k fs n (eput k [] data st) = (Ok out, st') <->
   exists lenb, encodes_length E fs n lenb /\ out = lenb ++ data /\ st' = eput k lenb data st).
Proof.
  intro Hn. unfold encode_field_rest. cbv zeta. unfold bind at 1.
  destruct (fs_len_type fs) as [lt|] eqn:Hlt; cbn [prop].
  2:{ cbn. split; [discriminate|]. intros (lenb & [H1 _ _|? ? ? H1] & _); congruence. }
  unfold ret at 1. unfold bind at 1. destruct (fs_max_len fs) as [ml|] eqn:Hml; cbn [prop].
  2:{ cbn. split; [discriminate|]. intros (lenb & [H1 H2 _|? ? ? H1 _ H2] & _); congruence. }
  unfold ret at 1. destruct (Z.eqb_spec lt 0) as [->|Hl].
  - destruct (Z.eqb_spec n ml) as [->|Hne]; cbn [negb].
    + unfold bind. rewrite eset_enc_len_put, eget_enc_put. unfold ret. cbn [e_data]. split.
      * intros [= <- <-]. exists []. split; [|split; reflexivity]. now apply EncFixed.
      * intros (lenb & [H1 H2 ->|w ? ? H1 H2] & -> & ->); [reflexivity|]. assert (Z.of_nat w = 0%Z) by congruence. lia.
    + split; [intro H; now apply formatted_eraise_not in H|]. intros (lenb & [H1 H2 _|w ? ? H1 H2] & _); [congruence|]. assert (Z.of_nat w = 0%Z) by congruence. lia.
  - destruct (Z.ltb_spec ml n) as [Hgt|Hle].
    + split; [intro H; now apply formatted_eraise_not in H|]. intros (lenb & [H1 H2 _|lt' le ml' H1 H2 H3 H4 _ _] & _); [congruence|].
      assert (ml' = ml) by congruence. lia.
    + unfold bind at 1. destruct (encode_length E k fs lt n (eput k [] data st)) as [[[]|x] st1] eqn:He.
      * apply encode_length_ok in He as (w & le & lenb & -> & H1 & H2 & ->); auto. unfold bind. rewrite eget_enc_put. unfold ret. split.
        -- intros [= <- <-]. exists lenb. split; [eapply EncVariable; eauto; lia|split; reflexivity].
        -- intros (lenb' & Hl' & -> & ->). assert (lenb' = lenb) as ->; [|reflexivity].
           destruct Hl' as [H3|lt' le' ml' H3 H4 H5 H6 H7 H8]; [congruence|].
           assert (lt' = w) by (apply Nat2Z.inj; congruence). assert (le' = le) by congruence. subst.
           assert (Ha : forall b, encodes_prefix E le w n b -> encode_length E k fs (Z.of_nat w) n (eput k [] data st) = (Ok tt, eput k b data st)).
           { intros b Hb. apply encode_length_nat; eauto. }
           pose proof (Ha _ H2) as A1. pose proof (Ha _ H8) as A2. rewrite A1 in A2. injection A2 as A2.
           apply (f_equal (@Some entry)) in A2 || idtac.
           assert (A3 : eget_enc k (eput k lenb data st) = eget_enc k (eput k lenb' data st)) by (unfold eput; now rewrite A2).
           rewrite !eget_enc_put in A3. congruence.
      * split; [discriminate|]. intros (lenb & [H3|lt' le' ml' H3 H4 H5 H6 H7 H8] & _); [congruence|].
        assert (Z.of_nat lt' = lt) by congruence. subst lt.
        assert (encode_length E k fs (Z.of_nat lt') n (eput k [] data st) = (Ok tt, eput k lenb data st)) by (apply encode_length_nat; eauto).
        congruence.
Qed.

Lemma encode_field_ok E k fs st out st' :
  encode_field E k fs st = (Ok out, st') <->
  exists v lenb data, pget (KStr k) (s_dec st) = Some v /\ field_encodes E fs v lenb data
    /\ out = lenb ++ data /\ st' = eput k lenb data st.
Proof.
  rewrite encode_field_eq. destruct (fs_data_enc fs) as [de|] eqn:Hde.
  2:{ split; [discriminate|]. intros (v & lenb & data & _ & (n & Hv & _) & _).
      destruct Hv; congruence. }
  destruct (pget (KStr k) (s_dec st)) as [v|].
  2:{ split; [discriminate|]. intros (v & lenb & data & ? & _). discriminate. }
  assert (Hlc := nibbles_eq fs). split.
  - destruct (data_step _ _ _ _ _ _ _) as [[[data n]|x] st1] eqn:Hd; [|discriminate].
    apply (data_step_ok E fs v k _ _ data n st1 de Hde Hlc) in Hd as [-> Hv].
    unfold bind at 1. rewrite eset_enc_data_put. intro H.
    apply encode_field_rest_ok in H as (lenb & H1 & -> & ->); [|eapply encodes_value_nonneg; eauto].
    exists v, lenb, data. split; [reflexivity|]. split; [exists n; auto|auto].
  - intros (v' & lenb & data & [= <-] & (n & Hv & Hl) & -> & ->).
    rewrite (proj2 (data_step_ok E fs v k _ (eput k [] [] st) data n (eput k [] [] st) de Hde Hlc) (conj eq_refl Hv)).
    unfold bind at 1. rewrite eset_enc_data_put. apply encode_field_rest_ok; [eapply encodes_value_nonneg; eauto|]. eauto.
Qed.

(** What can go wrong with one field. *)
Definition field_failure (E : pyenv) (k : pystr) (fs : fspec) (st : estate) (x : exn) (st' : estate) : Prop :=
  (exists lenb data, st' = eput k lenb data st) /\
  (eerr k x st' \/ (x = XKeyError k /\ pget (KStr k) (s_dec st) = None)
   \/ (exists nm, x = XKeyError nm /\ ~ mandatory fs)
   \/ (x = XValueError /\ ((exists lt, fs_len_type fs = Some lt /\ (lt < 0)%Z)
                            \/ exists ml, fs_max_len fs = Some ml /\ ~ showable E ml))
   \/ exists v, pget (KStr k) (s_dec st) = Some v /\ bad_value v x).

Lemma eerr_same k x st st' : st = st' -> eerr k x st -> eerr k x st'.
Proof. intros ->. auto. Qed.

Lemma encode_field_raise E k fs st x st' : encode_field E k fs st = (Raise x, st') -> field_failure E k fs st x st'.
Proof.
  rewrite encode_field_eq. unfold field_failure. destruct (fs_data_enc fs) as [de|] eqn:Hde.
  2:{ intros [= <- <-]. split; [eauto|]. right. right. left. eexists. split; [reflexivity|]. intros (H & _). congruence. }
  destruct (pget (KStr k) (s_dec st)) as [v|] eqn:Hv.
  2:{ intros [= <- <-]. split; [eauto|]. right. left. auto. }
  destruct (data_step _ _ _ _ _ _ _) as [[[data n]|y] st1] eqn:Hd.
  2:{ intros [= <- <-]. apply data_step_raise in Hd as [-> [He|Hb]]; (split; [eauto|]); [now left|]. right. right. right. right. eauto. }
  apply (data_step_ok E fs v k _ _ data n st1 de Hde (nibbles_eq fs)) in Hd as [-> Hev].
  unfold bind at 1. rewrite eset_enc_data_put. unfold encode_field_rest. cbv zeta. unfold bind at 1.
  destruct (fs_len_type fs) as [lt|] eqn:Hlt; cbn [prop].
  2:{ cbn. intros [= <- <-]. split; [eauto|]. right. right. left. eexists. split; [reflexivity|]. intros (_ & _ & H & _). congruence. }
  unfold ret at 1. unfold bind at 1. destruct (fs_max_len fs) as [ml|] eqn:Hml; cbn [prop].
  2:{ cbn. intros [= <- <-]. split; [eauto|]. right. right. left. eexists. split; [reflexivity|]. intros (_ & _ & _ & H). congruence. }
  unfold ret at 1. destruct (Z.eqb_spec lt 0) as [->|Hl].
  - destruct (Z.eqb_spec n ml) as [->|Hne]; cbn [negb].
    + unfold bind. rewrite eset_enc_len_put, eget_enc_put. discriminate.
    + rewrite formatted_eraise. destruct (prints E ml) eqn:Hp; intros [= <- <-]; (split; [eauto|]).
      * left. eexists. reflexivity.
      * right. right. right. left. split; [reflexivity|]. right. exists ml. rewrite <- prints_not. auto.
  - destruct (Z.ltb_spec ml n) as [Hgt|Hle].
    + rewrite formatted_eraise. destruct (prints E ml) eqn:Hp; intros [= <- <-]; (split; [eauto|]).
      * left. eexists. reflexivity.
      * right. right. right. left. split; [reflexivity|]. right. exists ml. rewrite <- prints_not. auto.
    + unfold bind at 1. destruct (encode_length E k fs lt n (eput k [] data st)) as [[[]|y] st1] eqn:He.
      * apply encode_length_ok in He as (w & le & lenb & H0 & H1 & H2 & ->); auto; [|eapply encodes_value_nonneg; eauto].
        unfold bind. rewrite eget_enc_put. discriminate.
      * apply encode_length_raise in He as [[lenb ->] H]. intros [= <- <-]. split; [eauto|].
        destruct H as [[-> H]|[[-> H]|H]]; [|right; right; right; left; split; [reflexivity|left; exists lt; auto]|now left]. right. right. left. eexists. split; [reflexivity|]. intros (_ & H' & _). congruence.
Qed.

Lemma field_encodes_fun E fs v l d l' d' : field_encodes E fs v l d -> field_encodes E fs v l' d' -> l = l' /\ d = d'.
Proof.
  intros H H'. set (k := u "x"). set (st := mkE [(KStr k, v)] []).
  assert (Hg : pget (KStr k) (s_dec st) = Some v) by reflexivity.
  assert (A : encode_field E k fs st = (Ok (l ++ d), eput k l d st)) by (apply encode_field_ok; eauto 10).
  assert (B : encode_field E k fs st = (Ok (l' ++ d'), eput k l' d' st)) by (apply encode_field_ok; eauto 10).
  rewrite A in B. injection B as _ B1 B2. auto.
Qed.

(** ** Message type *)
Lemma encode_type_eq E sp st : encode_type E sp st =
  match pget (KStr (u "t")) (s_dec st) with
  | None => eraise (u "Field data is required") (u "t") st
  | Some v =>
    match sget (u "t") sp with
    | None => (Raise (XKeyError (u "t")), st)
    | Some fs =>
      match fs_data_enc fs with
      | None => (Raise (XKeyError (u "data_enc")), st)
      | Some de =>
        match data_step E de v (u "t") fs str_bytes (eput (u "t") [] [] st) with
        | (Ok (data, n), st1) =>
            let expected := if str_eqb de str_b then 2%Z else 4%Z in
            (eset_enc_data (u "t") data ;;;
             if negb (n =? expected)%Z then
               eraise (u "Field data is " ++ zstr n ++ u " bytes, expecting " ++ zstr expected) (u "t")
             else e <- eget_enc (u "t") ;; ret (e_data e)) st1
        | (Raise x, st1) => (Raise x, st1)
        end
      end
    end
  end.
Proof.
  unfold encode_type, bind at 1, eread_dec. unfold pmem, dmem. fold (pget (KStr (u "t")) (s_dec st)).
  destruct (pget (KStr (u "t")) (s_dec st)) as [v|] eqn:Hv; [|reflexivity]. cbn [negb].
  unfold bind at 1, spec_get. destruct (sget (u "t") sp) as [fs|]; [|reflexivity]. unfold ret at 1.
  unfold bind at 1. destruct (fs_data_enc fs) as [de|]; [|reflexivity]. cbn [prop]. unfold ret at 1. cbv zeta.
  unfold bind at 1. rewrite eset_enc_put. unfold bind at 1. unfold eget_dec at 1. rewrite eput_dec, Hv.
  unfold bind at 1, data_step.
  destruct (str_eqb de str_b);
  match goal with |- context [let (_, _) := ?r in _] => destruct r as [[[data n]|x] st1] end; reflexivity.
Qed.

Definition bytes_spec (fs : fspec) : fspec :=
  {| fs_data_enc := fs_data_enc fs; fs_len_enc := fs_len_enc fs; fs_len_type := fs_len_type fs; fs_max_len := fs_max_len fs;
     fs_len_count := None; fs_left_pad := fs_left_pad fs; fs_right_pad := fs_right_pad fs; fs_desc := fs_desc fs |}.
Lemma data_step_bytes E de v k fs st : data_step E de v k fs str_bytes st = data_step E de v k (bytes_spec fs) str_bytes st.
Proof. reflexivity. Qed.
Lemma type_value E fs v data de : fs_data_enc fs = Some de ->
  (type_encodes E fs v data <->
   encodes_value E (bytes_spec fs) v data (zlen data) /\ zlen data = if str_eqb de str_b then 2%Z else 4%Z).
Proof.
  intro Hde. split.
  - intros [de' v' d data' H1 H2 H3 H4 H5|de' s data' H1 H2 H3 H4]; assert (de' = de) by congruence; subst de'.
    + unfold is_binary in H2. subst de. split; [|unfold zlen; rewrite H5; reflexivity].
      apply (EncHex E (bytes_spec fs) (u "b") v' d data'); auto. reflexivity.
    + destruct (binary_cases de) as [[Hb _]|[_ ->]]; [contradiction|]. split; [|unfold zlen; rewrite H4; reflexivity].
      apply (EncText E (bytes_spec fs) de s data'); auto.
  - intros [Hv Hl]. inversion Hv as [de' v' d data' H1 H2 H3 H4 H5 A B C|de' d w data' H1 H2 H3|de' s data' H1 H2 H3 A B C]; subst.
    + cbn in H1. rewrite Hde in H1. injection H1 as ->. rewrite (proj2 (str_eqb_eq de' str_b)) in Hl by assumption.
      eapply EncTypeBinary; eauto. unfold zlen in Hl. lia.
    + discriminate.
    + cbn in H1. rewrite Hde in H1. injection H1 as ->. destruct (binary_cases de') as [[Hb _]|[_ Hb]]; [contradiction|].
      rewrite Hb in Hl. eapply EncTypeText; eauto. unfold zlen in Hl. lia.
Qed.
Lemma bytes_value E fs v data n : encodes_value E (bytes_spec fs) v data n -> n = zlen data.
Proof. intros [de v' d data' _ _ _ _ _|de d w data' _ _ H|de s data' _ _ _]; [reflexivity|discriminate|reflexivity]. Qed.

Lemma encode_type_ok E sp st out st' :
  encode_type E sp st = (Ok out, st') <->
  exists fs v, sget (u "t") sp = Some fs /\ pget (KStr (u "t")) (s_dec st) = Some v /\ type_encodes E fs v out
    /\ st' = eput (u "t") [] out st.
Proof.
  rewrite encode_type_eq. destruct (pget (KStr (u "t")) (s_dec st)) as [v|].
  2:{ split; [discriminate|]. intros (? & ? & _ & ? & _). discriminate. }
  destruct (sget (u "t") sp) as [fs|].
  2:{ split; [discriminate|]. intros (? & ? & ? & _). discriminate. }
  destruct (fs_data_enc fs) as [de|] eqn:Hde.
  2:{ split; [discriminate|]. intros (? & ? & [= <-] & _ & Ht & _). destruct Ht; congruence. }
  rewrite data_step_bytes. split.
  - destruct (data_step _ _ _ _ _ _ _) as [[[data n]|x] st1] eqn:Hd; [|discriminate].
    apply (data_step_ok E (bytes_spec fs) v _ str_bytes _ data n st1 de Hde eq_refl) in Hd as [-> Hv].
    cbv zeta. unfold bind. rewrite eset_enc_data_put. pose proof (bytes_value _ _ _ _ _ Hv) as ->.
    destruct (Z.eqb_spec (zlen data) (if str_eqb de str_b then 2 else 4)%Z) as [Hn|]; [|discriminate]. cbn [negb].
    rewrite eget_enc_put. intros [= <- <-]. exists fs, v. repeat (split; [reflexivity|]). split; [|reflexivity].
    eapply type_value; eauto.
  - intros (fs' & v' & [= <-] & [= <-] & Ht & ->). apply (type_value _ _ _ _ _ Hde) in Ht as [Hv Hl].
    rewrite (proj2 (data_step_ok E (bytes_spec fs) v _ str_bytes (eput (u "t") [] [] st) out _ (eput (u "t") [] [] st) de Hde eq_refl) (conj eq_refl Hv)).
    cbv zeta. unfold bind. rewrite eset_enc_data_put. rewrite <- Hl, Z.eqb_refl. cbn [negb]. rewrite eget_enc_put. reflexivity.
Qed.

Lemma encode_type_raise E sp st x st' : encode_type E sp st = (Raise x, st') ->
  (st' = st \/ exists data, st' = eput (u "t") [] data st) /\
  (eerr (u "t") x st' \/ (exists nm, x = XKeyError nm /\ ~ entry_complete sp (u "t"))
   \/ exists v, pget (KStr (u "t")) (s_dec st) = Some v /\ bad_value v x).
Proof.
  rewrite encode_type_eq. destruct (pget (KStr (u "t")) (s_dec st)) as [v|].
  2:{ intros [= <- <-]. split; [now left|]. left. eexists. reflexivity. }
  destruct (sget (u "t") sp) as [fs|] eqn:Hsp.
  2:{ intros [= <- <-]. split; [now left|]. right. left. eexists. split; [reflexivity|]. intros (? & ? & _). congruence. }
  destruct (fs_data_enc fs) as [de|] eqn:Hde.
  2:{ intros [= <- <-]. split; [now left|]. right. left. eexists. split; [reflexivity|].
      intros (? & ? & H & _). congruence. }
  rewrite data_step_bytes. destruct (data_step _ _ _ _ _ _ _) as [[[data n]|y] st1] eqn:Hd.
  - apply (data_step_ok E (bytes_spec fs) v _ str_bytes _ data n st1 de Hde eq_refl) in Hd as [-> Hv].
    cbv zeta. unfold bind. rewrite eset_enc_data_put.
    destruct (Z.eqb_spec n (if str_eqb de str_b then 2 else 4)%Z) as [Hn|]; cbn [negb].
    + rewrite eget_enc_put. discriminate.
    + intros [= <- <-]. split; [eauto|]. left. eexists. reflexivity.
  - intros [= <- <-]. apply data_step_raise in Hd as [-> [He|Hb]]; (split; [eauto|]); [now left|]. right. right. eauto.
Qed.

(** ** Header *)
Definition header_failure (E : pyenv) (sp : spec) (st : estate) (x : exn) (st' : estate) : Prop :=
  (st' = st \/ exists lenb data, st' = eput (u "h") lenb data st) /\
  (eerr (u "h") x st' \/ (exists nm, x = XKeyError nm /\ ~ entry_complete sp (u "h"))
   \/ (x = XValueError /\ (negative_width sp (u "h") \/ long_limit E sp (u "h")))
   \/ exists v, pget (KStr (u "h")) (s_dec st) = Some v /\ bad_value v x).

Lemma encode_header_ok E sp st out st' :
  encode_header E sp st = (Ok out, st') <->
  exists fs ml, sget (u "h") sp = Some fs /\ fs_max_len fs = Some ml /\
    ((ml <= 0)%Z /\ out = [] /\ st' = st
     \/ (0 < ml)%Z /\ exists v lenb data, pget (KStr (u "h")) (s_dec st) = Some v
         /\ field_encodes E fs v lenb data /\ out = lenb ++ data /\ st' = eput (u "h") lenb data st).
Proof.
  unfold encode_header, bind at 1, spec_get. destruct (sget (u "h") sp) as [fs|].
  2:{ split; [discriminate|]. intros (? & ? & ? & _). discriminate. }
  unfold ret at 1, bind at 1. destruct (fs_max_len fs) as [ml|] eqn:Hml.
  2:{ split; [discriminate|]. intros (? & ? & [= <-] & ? & _). congruence. }
  cbn [prop]. unfold ret at 1. destruct (Z.leb_spec ml 0) as [Hle|Hgt].
  - unfold ret. split.
    + intros [= <- <-]. exists fs, ml. auto 10.
    + intros (fs' & ml' & [= <-] & H & [(_ & -> & ->)|(H1 & _)]); [reflexivity|].
      rewrite Hml in H. injection H as <-. lia.
  - unfold bind at 1, eread_dec. unfold pmem, dmem. fold (pget (KStr (u "h")) (s_dec st)).
    destruct (pget (KStr (u "h")) (s_dec st)) as [v|] eqn:Hv; cbn [negb].
    + rewrite encode_field_ok. rewrite Hv. split.
      * intros (v' & lenb & data & [= <-] & H1 & H2 & H3). exists fs, ml. split; [reflexivity|]. split; [assumption|].
        right. split; [assumption|]. exists v, lenb, data. auto.
      * intros (fs' & ml' & [= <-] & H & [(H1 & _)|(_ & H1)]); [|assumption].
        rewrite Hml in H. injection H as <-. lia.
    + split; [discriminate|]. intros (fs' & ml' & [= <-] & H & [(H1 & _)|(_ & v & ? & ? & ? & _)]); [|congruence].
      rewrite Hml in H. injection H as <-. lia.
Qed.
Lemma encode_header_raise E sp st x st' : encode_header E sp st = (Raise x, st') -> header_failure E sp st x st'.
Proof.
  unfold encode_header, bind at 1, spec_get, header_failure. destruct (sget (u "h") sp) as [fs|] eqn:Hsp.
  2:{ intros [= <- <-]. split; [now left|]. right. left. eexists. split; [reflexivity|]. intros (? & ? & _). congruence. }
  unfold ret at 1, bind at 1. destruct (fs_max_len fs) as [ml|] eqn:Hml.
  2:{ intros [= <- <-]. split; [now left|]. right. left. eexists. split; [reflexivity|].
      intros (? & ? & _ & _ & _ & ?). congruence. }
  cbn [prop]. unfold ret at 1. destruct (Z.leb_spec ml 0) as [Hle|Hgt]; [discriminate|].
  unfold bind at 1, eread_dec. unfold pmem, dmem. fold (pget (KStr (u "h")) (s_dec st)).
  destruct (pget (KStr (u "h")) (s_dec st)) as [v|] eqn:Hv; cbn [negb].
  - intro H. apply encode_field_raise in H as [(lenb & data & ->) H]. split; [eauto|].
    destruct H as [H|[[_ H]|[(nm & -> & H)|[(-> & [(lt & H & H')|(ml' & H & H')])|H]]]]; [now left|congruence| |right; right; left; split; [reflexivity|left; exists fs, lt; auto]|right; right; left; split; [reflexivity|right; exists fs, ml'; auto]|now rewrite Hv in H; eauto].
    right. left. eexists. split; [reflexivity|]. intros (fs' & H1 & H2). assert (fs' = fs) by congruence. subst. contradiction.
  - intros [= <- <-]. split; [now left|]. left. eexists. reflexivity.
Qed.
