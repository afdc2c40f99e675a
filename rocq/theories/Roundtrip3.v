(** * Roundtrip3: canonical messages are re-encoded byte for byte. *)
From Coq Require Import ZifyBool ZifyNat ZifyN Sorted.
From Verif Require Import PyBase BaseFacts Types Numerals NumeralFacts Decoder Encoder Wire WireEncode Claims.
From Verif Require Import DecoderFacts DecodeRun DecodeComplete DecodeTheorems EncoderFacts EncodeRun EncodeWhole.
From Verif Require Import EncodeTheorems EncodeTheorems2 EncodeTheorems3 Roundtrip Roundtrip2.
Ltac Zify.zify_post_hook ::= Z.div_mod_to_equations.
Local Opaque data_fields.

(** ** Fields *)
Lemma py_int_digits_some E s n : all_digits s -> int_text E s n -> n = Z.of_N (dec_value s).
Proof.
  intros H Hp. apply py_int_text in Hp. destruct s as [|c s].
  - unfold py_int in Hp. cbn in Hp. discriminate.
  - unfold py_int in Hp. rewrite map_int_char_digits in Hp by assumption. inversion H as [|? ? Hc Hs]; subst. cbn [lstrip_c] in Hp.
    replace (c_space c) with false in Hp by (unfold is_digit in Hc; unfold c_space; lia).
    replace (c =? 43)%N with false in Hp by (unfold is_digit in Hc; lia).
    replace (c =? 45)%N with false in Hp by (unfold is_digit in Hc; lia).
    unfold int_unsigned in Hp. rewrite int_digits_all in Hp; [|assumption|left; discriminate].
    destruct (int_max_digits E) as [m|].
    + destruct (m <? 0 + N.of_nat (length (c :: s)))%N; [discriminate|]. injection Hp as <-. reflexivity.
    + injection Hp as <-. reflexivity.
Qed.

Lemma field_rewrite E fs lenb data text de :
  fs_data_enc fs = Some de -> (is_binary de \/ faithful E de /\ str_encode E de [] = COk []) ->
  (forall le, fs_len_enc fs = Some le -> is_binary le \/ is_bcd le \/ faithful E le) ->
  canonical_entry E fs lenb data text -> field_wire E fs lenb data text -> field_encodes E fs (VStr text) lenb data.
Proof.
  intros Hde Hfd Hfl [Hcl Hcd] (n & Han & Hocc & Hcar).
  assert (Hv : encodes_value E fs (VStr text) data n /\ (n = -1 -> False)%Z).
  { destruct Hcar as [-> ->|de' Hn Hde' Hb Hodd ->|de' Hn Hde' Hb Hodd Hpad|de' Hn Hde' Hb Hdec].
    - assert (zlen data = 0)%Z as Hz by (unfold occupies, zlen in *; destruct (in_nibbles fs); lia). apply zlen_zero in Hz. subst data.
      split; [|lia]. destruct (binary_cases de) as [[Hb _]|[Hb _]].
      + pose proof (EncHex E fs de (VStr []) [] [] Hde Hb eq_refl) as H. cbn [length Nat.odd] in H. rewrite andb_false_r in H.
        specialize (H eq_refl eq_refl). change (zlen (@nil N)) with 0%Z in H. change (zlen (@nil byte)) with 0%Z in H.
        destruct (in_nibbles fs); exact H.
      + destruct Hfd as [Hc|[_ He]]; [contradiction|]. pose proof (EncText E fs de [] [] Hde Hb He) as H.
        change (2 * zlen (@nil byte))%Z with 0%Z in H. change (zlen (@nil byte)) with 0%Z in H. destruct (in_nibbles fs); exact H.
    - assert (de' = de) by congruence. subst de'.
      assert (He : Nat.odd (length (HEX data)) = false) by (rewrite HEX_length, nat_odd_zodd; rewrite Nat2Z.inj_mul, Z.odd_mul; reflexivity).
      pose proof (EncHex E fs de (VStr (HEX data)) (HEX data) data Hde Hb eq_refl) as H. rewrite He, andb_false_r in H.
      specialize (H eq_refl (upper_HEX data)). unfold occupies in Hocc.
      destruct (in_nibbles fs).
      + cbn [andb] in Hodd. assert (n = zlen (HEX data)) as -> by (unfold zlen in *; rewrite HEX_length; pose proof (Zodd_mod n); pose proof (Z.odd_spec n); rewrite Zodd_even_bool in Hodd; apply negb_false_iff, Zeven_bool_iff, Zeven_ex in Hodd as (m & ->); lia).
        split; [exact H|]. unfold zlen. lia.
      + subst n. split; [exact H|]. unfold zlen. lia.
    - assert (de' = de) by congruence. subst de'. apply andb_true_iff in Hodd as [Hnib Hodd]. rewrite Hnib in *. cbn [andb] in *.
      unfold occupies in Hocc. rewrite Hnib in Hocc.
      assert (Hlt : length (HEX data) = S (length text)).
      { destruct Hpad as [(c & _ & ->)|(_ & c & _ & ->)]; [reflexivity|]. rewrite app_length. cbn. lia. }
      rewrite HEX_length in Hlt. apply Zodd_bool_iff, Zodd_ex in Hodd as (m & ->).
      assert (2 * m + 1 = zlen text)%Z as -> by (unfold zlen in *; lia).
      assert (Ho : Nat.odd (length text) = true) by (apply Nat.odd_spec; exists (length data - 1)%nat; lia).
      split; [|unfold zlen; lia]. apply EncPaddedHex with de (HEX data); auto.
      + rewrite Hnib, Ho. reflexivity.
      + specialize (Hcd eq_refl de Hde). rewrite Hb in Hcd. change (str_eqb (u "b") (u "b")) with true in Hcd. auto.
      + apply upper_HEX.
    - assert (de' = de) by congruence. subst de'. destruct Hfd as [Hc|[Hf _]]; [contradiction|]. apply Hf in Hdec.
      pose proof (EncText E fs de text data Hde Hb Hdec) as H. unfold occupies in Hocc. destruct (in_nibbles fs).
      + specialize (Hcd eq_refl de Hde). destruct (str_eqb_spec de (u "b")); [contradiction|]. specialize (Hcd n Han).
        apply Zeven_bool_iff, Zeven_ex in Hcd as (m & ->).
        assert (2 * m = 2 * zlen data)%Z as Heq by lia. rewrite Heq. split; [exact H|]. unfold zlen. lia.
      + subst n. split; [exact H|unfold zlen; lia]. }
  destruct Hv as [Hv Hneg]. exists n. split; [assumption|].
  pose proof (encodes_value_nonneg _ _ _ _ _ Hv) as Hn0.
  destruct Han as [A1 A2 A3|lt le ml A1 A2 A3 A4 A5 A6 A7]; [now apply EncFixed|].
  apply EncVariable with lt le ml; auto. destruct A5 as [B1 B2|v B1 B2 B3 B4|t B1 B2 B3 B4].
  - now apply EncPrefixBinary.
  - now apply EncPrefixBcd with v.
  - destruct (Hcl lt le t A1 A2 A4 B1 B2 B3) as (m & ->).
    pose proof (py_int_digits_some _ _ _ (fmt0d_digits lt m) B4) as Hm. rewrite fmt0d_value in Hm. subst n. rewrite <- (N2Z.id m) in B3.
    apply EncPrefixText; auto; [|lia]. destruct (Hfl le A4) as [C|[C|C]]; [contradiction..|]. apply C. exact B3.
Qed.
Lemma type_rewrite E fs data text de :
  fs_data_enc fs = Some de -> (is_binary de \/ faithful E de) -> type_wire E fs data text -> type_encodes E fs (VStr text) data.
Proof.
  intros Hde Hf [de' H1 H2 H3 ->|de' H1 H2 H3 H4]; assert (de' = de) by congruence; subst de'.
  - apply EncTypeBinary with de (HEX data); auto. apply upper_HEX.
  - apply EncTypeText with de; auto. destruct Hf as [Hf|Hf]; [contradiction|auto].
Qed.

(** ** Bitmaps *)
Lemma upper_hex_val c : upper_hex_digit c -> exists v, (v < 16)%N /\ c = hexdig_upper v /\ hexval c = Some v.
Proof.
  intro H. unfold upper_hex_digit in H. exists (if (c <=? 57)%N then c - 48 else c - 55)%N.
  destruct (c <=? 57)%N eqn:E1.
  - split; [lia|]. unfold hexdig_upper, hexval. replace (c - 48 <? 10)%N with true by lia.
    replace ((48 <=? c) && (c <=? 57))%N with true by lia. split; [lia|reflexivity].
  - split; [lia|]. unfold hexdig_upper, hexval. replace (c - 55 <? 10)%N with false by lia.
    replace ((48 <=? c) && (c <=? 57))%N with false by lia. replace ((97 <=? c) && (c <=? 102))%N with false by lia.
    replace ((65 <=? c) && (c <=? 70))%N with true by lia. split; [lia|f_equal; lia].
Qed.
Lemma fromhex_canonical t bm : Forall upper_hex_digit t -> fromhex t = Some bm -> t = HEX bm.
Proof.
  revert bm. induction t as [|c|c c' t IH] using list_ind2; intros bm Hu H.
  - injection H as <-. reflexivity.
  - apply Forall_inv in Hu. destruct (upper_hex_val _ Hu) as (v & Hv & -> & _). cbn [fromhex] in H.
    rewrite hexdig_upper_not_space in H by assumption. discriminate.
  - inversion Hu as [|? ? U1 Hu']; subst. inversion Hu' as [|? ? U2 U3]; subst.
    destruct (upper_hex_val _ U1) as (v & Hv & -> & H1). destruct (upper_hex_val _ U2) as (w & Hw & -> & H2).
    cbn [fromhex] in H. rewrite hexdig_upper_not_space in H by assumption. rewrite H1, H2 in H.
    destruct (fromhex t) as [b|] eqn:Hf; [|discriminate]. injection H as <-. rewrite (IH b U3 eq_refl), !HEX_eq, py_HEX_cons.
    rewrite b2n_n2b by lia. replace ((16 * v + w) / 16)%N with v by lia. replace ((16 * v + w) mod 16)%N with w by lia. reflexivity.
Qed.
Lemma upper_hex_ascii t : Forall upper_hex_digit t -> Forall (fun c => (c < 128)%N) t.
Proof. apply Forall_impl. unfold upper_hex_digit. intros. lia. Qed.
Lemma bitmap_rewrite E fs data text bm de : fs_data_enc fs = Some de ->
  (is_binary de \/ faithful E de /\ ascii_width E de) ->
  Forall upper_hex_digit text -> bitmap_wire E fs data text bm ->
  bitmap_encodes E fs bm data /\ length bm = 8%nat /\ text = HEX bm.
Proof.
  intros Hde Hf Hu [de' H1 H2 H3 -> ->|de' H1 H2 H3 H4 H5]; assert (de' = de) by congruence; subst de'.
  - split; [now apply EncBitmapBinary with de|auto].
  - destruct Hf as [Hf|[Hf Hw]]; [contradiction|]. apply Hf in H4. pose proof (Hw _ _ (upper_hex_ascii _ Hu) H4) as Hl.
    pose proof (fromhex_canonical _ _ Hu (proj2 (fromhex_spelling _ _) H5)) as Ht. subst text. rewrite HEX_length in Hl.
    split; [now apply EncBitmapText with de|]. split; [lia|reflexivity].
Qed.

(** ** Messages *)
Definition zeros : bytes := repeat (n2b 0) 8.
Lemma bit_zeros i : bit zeros i = false.
Proof.
  unfold bit. destruct (1 <=? i)%Z; [|reflexivity]. destruct (nth_error zeros _) as [b|] eqn:Hb; [|reflexivity].
  apply nth_error_In in Hb. unfold zeros in Hb. apply repeat_spec in Hb. subst b. rewrite b2n_n2b by lia. apply N.bits_0.
Qed.

Lemma NoDup_app_in {A} (l1 l2 : list A) x : NoDup (l1 ++ l2) -> In x l1 -> ~ In x l2.
Proof. induction l1 as [|a l1 IH]; intros H Hi; [destruct Hi|]. inversion H as [|? ? Hn H']; subst. destruct Hi as [->|Hi]; [|auto].
  intro Hc. apply Hn, in_app_iff. auto. Qed.

(** C18 *)
Lemma decode_encode E sp buf b dec enc : env_ok E -> bitmaps_fit E sp -> faithful_spec E sp -> holds buf b ->
  decode E buf sp = Ok (dec, enc) -> canonical_message E sp dec enc -> encodes_to E sp (as_dict dec) b enc.
Proof.
  intros HE Hfit Hfs Hb Hdec (Cb & C1 & C2 & Cf).
  pose proof (decode_accounts _ _ _ _ _ _ Hb Hdec) as (Hwire & Hkeys & Hnd).
  apply (decode_iff _ _ _ _ _ _ Hfit Hb) in Hdec as (segs & Hm & -> & -> & ->).
  rewrite keys_enc in Hnd. destruct Hm as (hs & t & p & xs & fields & bm1 & bm2 & bm3 & Hsegs & Hh & Ht & Hp & Hx & Hfk & Hff).
  assert (Hget : forall sg, In sg segs -> sget (sg_key sg) (dec_of segs) = Some (sg_text sg)
                           /\ sget (sg_key sg) (enc_of segs) = Some (mkEntry (sg_len sg) (sg_data sg))).
  { intros sg Hi. split; [now apply sget_dec|now apply sget_enc]. }
  (* bitmaps *)
  destruct Hp as (fsp & Hspp & Hpk & Hpl & Hpw).
  assert (Ip : In p segs) by (rewrite Hsegs; apply in_app_iff; cbn; auto).
  assert (Up : Forall upper_hex_digit (sg_text p)).
  { apply (Cb (u "p")); [auto|]. rewrite <- Hpk. now apply Hget. }
  destruct (Hfs _ _ Hspp) as [(dep & Hdep & Hcp) _].
  destruct (bitmap_rewrite E fsp _ _ _ dep Hdep ltac:(tauto) Up Hpw) as (Be1 & L1 & T1).
  set (bm2' := if bit bm1 1 then bm2 else zeros). set (bm3' := if bit bm1 1 && bit bm2 1 then bm3 else zeros).
  assert (Hext : length bm2' = 8%nat /\ length bm3' = 8%nat
    /\ (bit bm1 1 = false -> xs = [] /\ bm2 = [] /\ bm3 = [])
    /\ (bit bm1 1 = true -> bit bm2 1 = false -> bm3 = [])
    /\ (bit bm1 1 = true -> exists sg fs d2 d3, xs = [sg] /\ sg_key sg = u "1" /\ sg_len sg = [] /\ sget (u "1") sp = Some fs
         /\ sg_data sg = d2 ++ d3 /\ bitmap_encodes E fs bm2' d2 /\ (if bit bm2 1 then bitmap_encodes E fs bm3' d3 else d3 = [])
         /\ (bit bm2 1 = true -> length (sg_text sg) = 32%nat))).
  { unfold bm2', bm3'. destruct Hx as [B|fs sg bm2 B S1 S2 S3 W2 B2|fs sg d2 t2 bm2 d3 t3 bm3 B S1 S2 S3 Sd St W2 W3 B2].
    - rewrite B. cbn [andb]. repeat split; discriminate.
    - rewrite B, B2. cbn [andb]. assert (Is : In sg segs) by (rewrite Hsegs; apply in_app_iff; cbn; auto).
      assert (Us : Forall upper_hex_digit (sg_text sg)) by (apply (Cb (u "1")); [auto|]; rewrite <- S2; now apply Hget).
      destruct (Hfs _ _ S1) as [(de & Hde & Hc) _].
      destruct (bitmap_rewrite E fs _ _ _ de Hde ltac:(tauto) Us W2) as (Be2 & L2 & T2).
      split; [assumption|]. split; [reflexivity|]. split; [discriminate|]. split; [reflexivity|]. intros _.
      exists sg, fs, (sg_data sg), []. rewrite app_nil_r. repeat (split; [assumption || reflexivity|]). discriminate.
    - rewrite B, B2. cbn [andb]. assert (Is : In sg segs) by (rewrite Hsegs; apply in_app_iff; cbn; auto).
      assert (Us : Forall upper_hex_digit (sg_text sg)) by (apply (Cb (u "1")); [auto|]; rewrite <- S2; now apply Hget).
      rewrite St in Us. apply Forall_app in Us as [U2 U3].
      destruct (Hfs _ _ S1) as [(de & Hde & Hc) _].
      destruct (bitmap_rewrite E fs _ _ _ de Hde ltac:(tauto) U2 W2) as (Be2 & L2 & T2).
      destruct (bitmap_rewrite E fs _ _ _ de Hde ltac:(tauto) U3 W3) as (Be3 & L3 & T3).
      repeat (split; [assumption || discriminate|]). intros _.
      exists sg, fs, d2, d3. repeat (split; [assumption || reflexivity|]). intros _. rewrite St, T2, T3, app_length, !HEX_length. lia. }
  destruct Hext as (L2 & L3 & X0 & X2 & X1).
  assert (Hann : forall f, announced bm1 bm2 bm3 f = announced bm1 bm2' bm3' f).
  { intro f. unfold announced, bm2', bm3'. destruct (f <=? 64)%Z; [reflexivity|].
    destruct (bit bm1 1) eqn:B1; cbn [andb].
    - destruct (f <=? 128)%Z; [reflexivity|]. destruct (bit bm2 1) eqn:B2; [reflexivity|]. rewrite (X2 eq_refl eq_refl), bit_nil, bit_zeros. reflexivity.
    - destruct (X0 eq_refl) as (_ & -> & ->). rewrite !bit_nil, !bit_zeros. reflexivity. }
  assert (Hplan : map sg_key segs = plan sp bm1 bm2' bm3').
  { rewrite Hsegs. unfold plan. rewrite (filter_ext _ _ (fun f => eq_sym (Hann f))). rewrite map_app. cbn [map]. rewrite map_app.
    destruct Ht as (fst & _ & -> & _). rewrite Hpk, Hfk. f_equal; [|do 3 f_equal].
    - unfold header_key. destruct Hh as [fs ml H1 H2 H3|fs ml sg H1 H2 H3 H4 H5]; rewrite H1, H2.
      + replace (ml <=? 0)%Z with true by lia. reflexivity.
      + replace (ml <=? 0)%Z with false by lia. cbn [map]. now rewrite H4.
    - destruct (bit bm1 1) eqn:B1.
      + destruct (X1 eq_refl) as (sg & fs & d2 & d3 & -> & Hk & _). cbn [map]. now rewrite Hk.
      + destruct (X0 eq_refl) as (-> & _). reflexivity. }
  assert (Hplan' : map fst (dec_of segs) = plan sp bm1 bm2' bm3') by now rewrite keys_dec.
  assert (Hkey : forall k, In k (plan sp bm1 bm2' bm3') <-> sget k (dec_of segs) <> None).
  { intro k. rewrite <- Hplan'. rewrite (dget_some_in str_eqb str_eqb_spec). unfold sget. destruct (dget str_eqb k (dec_of segs)).
    - split; [discriminate|eauto].
    - split; [intros [? ?]; discriminate|congruence]. }
  assert (Hfield : forall g, data_field g -> (sget (zstr g) (dec_of segs) <> None <-> announced bm1 bm2' bm3' g = true)).
  { intros g Hg. rewrite <- Hkey, plan_in. split.
    - intros [H|[H|[H|[[H _]|(f & Hf & Ha & He)]]]].
      + exfalso. apply data_fields_in, zstr_name in Hg. destruct (header_key_cases sp) as [Hh'|Hh']; rewrite Hh' in H; [destruct H|].
        destruct H as [H|[]]. intuition congruence.
      + apply data_fields_in, zstr_name in Hg. tauto.
      + apply data_fields_in, zstr_name in Hg. tauto.
      + apply data_fields_in, zstr_name in Hg. tauto.
      + apply data_fields_in in Hf. unfold data_field in Hg. apply zstr_inj in He; [|lia..]. now subst f.
    - intro Ha. do 4 right. exists g. split; [now apply data_fields_in|auto]. }
  assert (Hb2 : bit bm2' 1 = true -> bit bm1 1 = true /\ bit bm2 1 = true).
  { unfold bm2'. destruct (bit bm1 1); [auto|]. rewrite bit_zeros. discriminate. }
  exists (with_bitmaps (as_dict (dec_of segs)) bm1 bm2' bm3'). apply encode_ok; [apply as_dict_is; now rewrite keys_dec|].
  exists bm1, bm2', bm3'. split; [|split; [symmetry; apply wire_bytes_enc|reflexivity]].
  split; [|split; [|split]].
  - eapply plan_keys_ok; eauto.
  - eapply plan_bitmaps; eauto.
    + split.
      * intro B1. assert (H1 : sget (u "1") (dec_of segs) <> None) by (apply Hkey, plan_in; auto 6).
        apply C1 in H1 as (g & Hg & Hg'). destruct (Z.eq_dec g 65) as [->|Hne]; [lia|]. exists g. split; [assumption|].
        apply Hfield; [unfold data_field; lia|assumption].
      * intros (g & Hg & Ha). destruct (bit bm1 1) eqn:B1; [reflexivity|]. exfalso. unfold announced, bm2', bm3' in Ha. rewrite ?B1 in Ha. cbn [andb] in Ha.
        rewrite !bit_zeros in Ha. replace (g <=? 64)%Z with false in Ha by lia. destruct (g <=? 128)%Z; discriminate.
    + split.
      * intro B2. destruct (Hb2 B2) as [B1 B2']. destruct (X1 B1) as (sg & fs & d2 & d3 & Hxs & Hk & Hl & _ & _ & _ & _ & H32).
        destruct (C2 (sg_text sg)) as (g & Hg & Hg').
        { rewrite <- Hk. apply Hget. rewrite Hsegs, Hxs. apply in_app_iff. cbn. auto. }
        { rewrite (H32 B2'). lia. }
        exists g. split; [assumption|]. apply Hfield; [unfold data_field; lia|assumption].
      * intros (g & Hg & Ha). unfold bm2'. destruct (bit bm1 1 && bit bm2 1) eqn:B; [apply andb_true_iff in B as [-> B2]; exact B2|].
        exfalso. unfold announced, bm3' in Ha. rewrite ?B, bit_zeros in Ha. replace (g <=? 64)%Z with false in Ha by lia.
        replace (g <=? 128)%Z with false in Ha by lia. discriminate.
  - rewrite keys_enc. exact Hplan.
  - assert (Hfld : forall sg, In sg segs -> field_key (sg_key sg) -> field_segment E sp sg ->
      entry_sent E sp (as_dict (dec_of segs)) bm1 bm2' bm3' (sg_key sg, mkEntry (sg_len sg) (sg_data sg))).
    { intros sg Hi Hk (fs & H1 & H2). destruct (Hget sg Hi) as [G1 G2]. destruct (Hfs _ _ H1) as [(de & Hde & Hc) Hlc].
      apply SentField with fs (VStr (sg_text sg)); auto.
      - rewrite as_dict_value, G1. reflexivity.
      - apply field_rewrite with de; auto; [tauto|]. apply field_key_not in Hk as (K1 & K2 & K3 & _). exact (Cf _ _ _ _ K1 K2 K3 H1 G2 G1). }
    unfold enc_of. apply Forall_map. rewrite Hsegs in Hget, Hfld |- *. apply Forall_app. split; [|constructor; [|constructor; [|apply Forall_app; split]]].
    + destruct Hh as [fs ml H1 H2 H3|fs ml sg H1 H2 H3 H4 H5]; constructor; [|constructor].
      apply Hfld; [cbn; auto|left; assumption|assumption].
    + destruct Ht as (fst & Hst & Htk & Htl & Htw). destruct (Hget t) as [G1 G2]; [apply in_app_iff; cbn; auto|].
      rewrite Htk in G1 |- *. rewrite Htl. destruct (Hfs _ _ Hst) as [(de & Hde & Hc) _].
      apply SentType with fst (VStr (sg_text t)); auto; [rewrite as_dict_value, G1; reflexivity|].
      apply type_rewrite with de; auto. tauto.
    + rewrite Hpk, Hpl. now apply SentPrimary with fsp.
    + destruct (bit bm1 1) eqn:B1; [|destruct (X0 eq_refl) as (-> & _); constructor].
      destruct (X1 eq_refl) as (sg & fs & d2 & d3 & -> & Hk & Hl & Hsp & Hd & E2 & E3 & _). constructor; [|constructor].
      rewrite Hk, Hl, Hd. unfold bm2' in *. destruct (bit bm2 1) eqn:B2.
      * now apply SentTertiary with fs.
      * subst d3. rewrite app_nil_r. now apply SentSecondary with fs.
    + apply Forall_forall. intros sg Hi. apply Hfld.
      * apply in_app_iff. right. do 2 right. apply in_app_iff. auto.
      * right. apply (in_map sg_key) in Hi. rewrite Hfk in Hi. apply in_map_iff in Hi as (f & Hf & Hif). exists f. split; [|auto].
        apply filter_In in Hif. tauto.
      * rewrite Forall_forall in Hff. auto.
Qed.
