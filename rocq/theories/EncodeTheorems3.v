(** * EncodeTheorems3: single fields of an encoded message. *)
From Coq Require Import ZifyBool ZifyNat ZifyN Sorted Permutation.
From Verif Require Import PyBase BaseFacts Types Numerals NumeralFacts Decoder Encoder Wire WireEncode Claims DecoderFacts DecodeRun DecodeTheorems EncoderFacts EncodeRun EncodeWhole EncodeTheorems EncodeTheorems2.
Ltac Zify.zify_post_hook ::= Z.div_mod_to_equations.
Local Opaque data_fields.

Lemma encode_bitmap_perm E k fs off b l l' st : Permutation l l' ->
  encode_bitmap E k fs off b l st = encode_bitmap E k fs off b l' st.
Proof. intro H. unfold encode_bitmap. now rewrite (make_bitmap_perm off l l' H). Qed.

(** ** Entries are functions of the values *)
Lemma type_encodes_fun E fs v a b : type_encodes E fs v a -> type_encodes E fs v b -> a = b.
Proof.
  intros H1 H2. destruct H1 as [de v d a A1 A2 A3 A4 A5|de s a A1 A2 A3 A4].
  - destruct H2 as [de' v d' b B1 B2 B3 B4 B5|de' s b B1 B2 B3 B4]; [|congruence].
    assert (d' = d) by congruence. subst. eapply spells_fun; eauto.
  - inversion H2 as [de' v d' b' B1 B2 B3 B4 B5|de' s' b' B1 B2 B3 B4]; subst; [congruence|].
    assert (de' = de) by congruence. subst. congruence.
Qed.
Lemma bitmap_encodes_fun E fs bm a b : bitmap_encodes E fs bm a -> bitmap_encodes E fs bm b -> a = b.
Proof.
  intros [de A1 A2 A3|de A1 A2 A3] [de' B1 B2 B3|de' B1 B2 B3]; try congruence.
Qed.
Lemma sent_fun E sp d1 d2 bm1 bm2 bm3 k e1 e2 : entry_sent E sp d1 bm1 bm2 bm3 (k, e1) -> entry_sent E sp d2 bm1 bm2 bm3 (k, e2) ->
  (k <> u "p" -> k <> u "1" -> value d1 k = value d2 k) -> e1 = e2.
Proof.
  intros H1 H2 Hv. assert (Hc : field_key k \/ k = u "t" \/ k = u "p" \/ k = u "1").
  { remember (k, e1) as ke eqn:He. destruct H1; injection He as <- _; auto. }
  destruct e1 as [l1 b1], e2 as [l2 b2].
  destruct Hc as [Hk|[->|[->| ->]]].
  - destruct (sent_field_inv _ _ _ _ _ _ _ _ Hk H1) as (fs & v & A1 & A2 & A3).
    destruct (sent_field_inv _ _ _ _ _ _ _ _ Hk H2) as (fs' & v' & B1 & B2 & B3). apply field_key_not in Hk.
    assert (fs' = fs) by congruence. assert (v' = v) by (rewrite Hv in A2 by tauto; congruence). subst.
    destruct (field_encodes_fun _ _ _ _ _ _ _ A3 B3). cbn in *. congruence.
  - destruct (sent_type_inv _ _ _ _ _ _ _ H1) as (fs & v & A1 & A2 & A3 & A4).
    destruct (sent_type_inv _ _ _ _ _ _ _ H2) as (fs' & v' & B1 & B2 & B3 & B4).
    assert (fs' = fs) by congruence. assert (v' = v) by (rewrite Hv in A2 by discriminate; congruence). subst.
    assert (Hb := type_encodes_fun _ _ _ _ _ A4 B4). cbn in *. congruence.
  - destruct (sent_p_inv _ _ _ _ _ _ _ H1) as (fs & A1 & A3 & A4).
    destruct (sent_p_inv _ _ _ _ _ _ _ H2) as (fs' & B1 & B3 & B4). assert (fs' = fs) by congruence. subst.
    assert (Hb := bitmap_encodes_fun _ _ _ _ _ A4 B4). cbn in *. congruence.
  - destruct (sent_1_inv _ _ _ _ _ _ _ H1) as (fs & a2 & a3 & A1 & A2 & A3 & A4 & A5).
    destruct (sent_1_inv _ _ _ _ _ _ _ H2) as (fs' & c2 & c3 & B1 & B2 & B3 & B4 & B5). assert (fs' = fs) by congruence. subst.
    assert (Hb := bitmap_encodes_fun _ _ _ _ _ A4 B4). subst.
    assert (a3 = c3). { destruct (bit bm2 1); [eapply bitmap_encodes_fun; eauto|congruence]. } cbn in *. congruence.
Qed.

(** C21 *)
Lemma encode_replace E sp d f v0 v fs l b s enc d' : env_ok E -> is_dict d -> data_field f ->
  encode E (ADict d) sp = (Ok (s, enc), d') -> value d (zstr f) = Some v0 ->
  sget (zstr f) sp = Some fs -> field_encodes E fs v l b ->
  exists pre e post, enc = pre ++ (zstr f, e) :: post
    /\ s = wire_bytes pre ++ (e_len e ++ e_data e) ++ wire_bytes post
    /\ encodes_to E sp (dset key_eqb (KStr (zstr f)) v d)
         (wire_bytes pre ++ (l ++ b) ++ wire_bytes post) (pre ++ (zstr f, mkEntry l b) :: post).
Proof.
  intros HE Hd Hf H Hv0 Hsp Hfe. set (d2 := dset key_eqb (KStr (zstr f)) v d).
  assert (Hd2 : is_dict d2) by (apply dset_nodup; [apply key_eqb_spec|assumption]).
  apply encode_ok in H as (bm1 & bm2 & bm3 & He & Hs & _); [|assumption].
  assert (Hkey : In (KStr (zstr f)) (map fst d)) by (apply (dget_some_in key_eqb key_eqb_spec); eauto).
  assert (Hkeys : map fst d2 = map fst d) by (apply dset_keys; [apply key_eqb_spec|assumption]).
  assert (Hin : In f data_fields) by (now apply data_fields_in).
  assert (Hhas : has_field E d f).
  { unfold data_field in Hf. exists (zstr f). split; [assumption|]. apply zstr_name in Hin as Hn.
    split; [tauto|]. split; [tauto|]. assert (0 <= f)%Z by lia.
    assert (Hne : zstr f <> []) by (rewrite zstr_nonneg by assumption; apply dec_nonempty). split.
    - apply isnumeric_digits; auto using zstr_digits.
    - apply py_int_text. rewrite py_int_digits; auto using zstr_digits.
      + rewrite zstr_nonneg by assumption. destruct (dec_spec (Z.to_N f)) as (_ & Hx & _). rewrite Hx. f_equal. lia.
      + rewrite zstr_nonneg by assumption. pose proof (dec_length_bound (Z.to_N f) 3) as Hx. change (10 ^ N.of_nat 3)%N with 1000%N in Hx. lia. }
  destruct (enc_has _ _ _ _ _ _ _ He (zstr f)) as [e Hg].
  { apply plan_in. do 4 right. exists f. split; [assumption|]. split; [|reflexivity].
    apply (announced_spec E d); [apply He|unfold data_field in Hf; lia|]. now apply sends_data. }
  apply (enc_get _ _ _ _ _ _ _ He) in Hg. apply in_split in Hg as (pre & post & ->).
  exists pre, e, post. split; [reflexivity|]. split; [rewrite Hs, wire_bytes_app, wire_bytes_cons; reflexivity|].
  pose proof (enc_nodup _ _ _ _ _ _ _ He) as Hnd. rewrite map_app in Hnd. cbn [map fst] in Hnd. apply NoDup_remove_2 in Hnd.
  eexists. apply encode_ok; [assumption|]. exists bm1, bm2, bm3. split; [|split; [rewrite wire_bytes_app, wire_bytes_cons; reflexivity|reflexivity]].
  destruct He as (H1 & H2 & H3 & H4). split; [|split; [|split]].
  - unfold keys_ok in *. now rewrite Hkeys.
  - assert (A : forall g, has_field E d2 g <-> has_field E d g) by (intro g; unfold has_field; now rewrite Hkeys).
    destruct H2 as (L1 & L2 & L3 & H2). repeat (split; [assumption|]). intros i Hi.
    assert (Hse : forall g, sends E d2 g <-> sends E d g).
    { intro g. unfold sends. rewrite A. split; (intros [H|[(-> & x & Hx & H)|(-> & x & Hx & H)]]; [auto|right; left|right; right]);
        (split; [reflexivity|]; exists x; split; [assumption|]; now apply A). }
    rewrite !Hse. now apply H2.
  - rewrite <- H3, !map_app. reflexivity.
  - assert (Hother : forall k x, In (k, x) (pre ++ post) -> entry_sent E sp d bm1 bm2 bm3 (k, x) -> entry_sent E sp d2 bm1 bm2 bm3 (k, x)).
    { intros k x Hi Hx. assert (Hk : k <> zstr f).
      { intros ->. apply Hnd. rewrite <- map_app. change (zstr f) with (fst (zstr f, x)). now apply in_map. }
      assert (Hval : value d2 k = value d k). { unfold value, d2. apply dget_dset_other; [apply key_eqb_spec|congruence]. }
      remember (k, x) as kx eqn:Hkx. destruct Hx; injection Hkx as <- <-.
      + eapply SentField; eauto. congruence.
      + eapply SentType; eauto. congruence.
      + eapply SentPrimary; eauto.
      + eapply SentSecondary; eauto.
      + eapply SentTertiary; eauto. }
    apply Forall_app in H4 as [H4 H5]. apply Forall_cons_iff in H5 as [_ H5]. rewrite Forall_forall in H4, H5.
    apply Forall_app. split; [|constructor].
    + apply Forall_forall. intros [k x] Hi. apply Hother; [apply in_app_iff; auto|auto].
    + apply SentField with fs v; eauto. unfold value, d2. apply dget_dset_same, key_eqb_spec.
    + apply Forall_forall. intros [k x] Hi. apply Hother; [apply in_app_iff; auto|auto].
Qed.

(** ** Lengths *)
Lemma encode_entry E sp d s enc d' k e : is_dict d -> encode E (ADict d) sp = (Ok (s, enc), d') -> sget k enc = Some e ->
  k <> u "t" -> k <> u "p" -> k <> u "1" ->
  exists fs v, sget k sp = Some fs /\ value d k = Some v /\ field_encodes E fs v (e_len e) (e_data e).
Proof.
  intros Hd H Hg N1 N2 N3. apply encode_ok in H as (bm1 & bm2 & bm3 & He & _); [|assumption].
  pose proof (enc_sent _ _ _ _ _ _ _ He _ _ Hg) as Hs. eapply sent_field_inv; [|exact Hs].
  remember (k, e) as ke eqn:Hke. destruct Hs; injection Hke as <- _; [assumption|congruence..].
Qed.
Lemma encodes_value_units E fs v data n : encodes_value E fs v data n -> units fs v data n /\ occupies fs n (zlen data).
Proof.
  unfold units, occupies. intros [de v' d data' A1 A2 A3 A4 A5|de d w data' A1 A2 A3 A4 A5|de s data' A1 A2 A3].
  - apply spells_length in A5. destruct (in_nibbles fs); [|auto]. split; [left; eauto 6|]. unfold zlen. lia.
  - apply spells_length in A5. apply pad_digits_length in A4. apply andb_true_iff in A3 as [A3 _]. rewrite A3.
    split; [left; exists de, d; auto|]. unfold zlen. lia.
  - destruct (in_nibbles fs); [|auto]. split; [right; eauto|]. lia.
Qed.
Lemma encodes_prefix_exact E le lt n lenb : lt <> O -> (0 <= n)%Z -> encodes_prefix E le lt n lenb -> prefix_exact E le lt n lenb.
Proof.
  intros Hlt Hn H. unfold prefix_exact. destruct H as [A1 A2 A3|v A1 A2 A3 A4|A1 A2 A3 A4].
  - split; [auto|]. split; [|congruence]. unfold is_binary, is_bcd in *. intros ->. discriminate.
  - split; [unfold is_binary, is_bcd in *; intros ->; discriminate|]. split; [eauto|congruence].
  - split; [congruence|]. split; [congruence|]. intros _ _ Hw.
    assert (Hd : Forall (fun c => (c < 128)%N) (fmt0d lt (Z.to_N n))).
    { eapply Forall_impl; [|apply fmt0d_digits]. cbv beta. unfold is_digit. lia. }
    pose proof (Hw _ _ Hd A3) as Hl.
    pose proof (fmt0d_length_ge lt (Z.to_N n)). split; [lia|]. split; [lia|assumption].
Qed.
(** C15, encoder half *)
Lemma encode_limits E sp d s enc d' k e : is_dict d -> encode E (ADict d) sp = (Ok (s, enc), d') -> sget k enc = Some e ->
  k <> u "t" -> k <> u "p" -> k <> u "1" ->
  exists fs v n ml lt, sget k sp = Some fs /\ value d k = Some v /\ fs_max_len fs = Some ml /\ fs_len_type fs = Some (Z.of_nat lt)
    /\ units fs v (e_data e) n /\ (if (lt =? 0)%nat then n = ml /\ e_len e = [] else n <= ml)%Z
    /\ occupies fs n (zlen (e_data e)).
Proof.
  intros Hd H Hg N1 N2 N3. destruct (encode_entry _ _ _ _ _ _ _ _ Hd H Hg N1 N2 N3) as (fs & v & H1 & H2 & n & H3 & H4).
  apply encodes_value_units in H3 as [H3 H5]. destruct H4 as [A1 A2 A3|lt le ml A1 A2 A3 A4 A5 A6].
  - exists fs, v, n, n, O. cbn [Nat.eqb]. auto 10.
  - exists fs, v, n, ml, lt. destruct (Nat.eqb_spec lt 0); [congruence|]. auto 10.
Qed.
(** C16 *)
Lemma encode_prefixes E sp d s enc d' k e : is_dict d -> encode E (ADict d) sp = (Ok (s, enc), d') -> sget k enc = Some e ->
  k <> u "t" -> k <> u "p" -> k <> u "1" ->
  exists fs v n lt, sget k sp = Some fs /\ value d k = Some v /\ fs_len_type fs = Some (Z.of_nat lt)
    /\ units fs v (e_data e) n
    /\ (lt = 0%nat -> e_len e = [])
    /\ (lt <> 0%nat -> exists le, fs_len_enc fs = Some le /\ prefix_exact E le lt n (e_len e)).
Proof.
  intros Hd H Hg N1 N2 N3. destruct (encode_entry _ _ _ _ _ _ _ _ Hd H Hg N1 N2 N3) as (fs & v & H1 & H2 & n & H3 & H4).
  pose proof (encodes_value_nonneg _ _ _ _ _ H3) as Hn.
  apply encodes_value_units in H3 as [H3 H5]. destruct H4 as [A1 A2 A3|lt le ml A1 A2 A3 A4 A5 A6].
  - exists fs, v, n, O. do 4 (split; [assumption|]). split; [auto|congruence].
  - exists fs, v, n, lt. do 4 (split; [assumption|]). split; [congruence|]. intros _. exists le. split; [assumption|]. now apply encodes_prefix_exact.
Qed.
Lemma encodes_value_fun E fs v a n b m : encodes_value E fs v a n -> encodes_value E fs v b m -> a = b /\ n = m.
Proof.
  intros H1 H2. destruct H1 as [de v d a A1 A2 A3 A4 A5|de d w a A1 A2 A3 A4 A5|de s a A1 A2 A3].
  - inversion H2 as [de' v' d' b' B1 B2 B3 B4 B5|de' d' w' b' B1 B2 B3 B4 B5|de' s' b' B1 B2 B3]; subst.
    + assert (d' = d) by congruence. subst. assert (b = a) by (eapply spells_fun; eauto). subst. auto.
    + cbn in A3. injection A3 as <-. congruence.
    + congruence.
  - inversion H2 as [de' v' d' b' B1 B2 B3 B4 B5|de' d' w' b' B1 B2 B3 B4 B5|de' s' b' B1 B2 B3]; subst.
    + cbn in B3. injection B3 as <-. congruence.
    + assert (w' = w) by (eapply pad_digits_fun; eauto). subst. assert (b = a) by (eapply spells_fun; eauto). subst. auto.
    + congruence.
  - inversion H2 as [de' v' d' b' B1 B2 B3 B4 B5|de' d' w' b' B1 B2 B3 B4 B5|de' s' b' B1 B2 B3]; subst; [congruence..|].
    assert (de' = de) by congruence. subst. assert (b = a) by congruence. subst. auto.
Qed.
Lemma bcd_value_bound raw v : bcd_value raw = Some v -> (v < 100 ^ N.of_nat (length raw))%N.
Proof.
  intro H. apply bcd_value_HEX in H as [H1 ->]. pose proof (dec_value_bound _ H1) as Hb. rewrite HEX_length in Hb.
  replace (N.of_nat (2 * length raw)) with (2 * N.of_nat (length raw))%N in Hb by lia. now rewrite N.pow_mul_r in Hb.
Qed.
Lemma too_long_no_prefix E le lt n lenb : lt <> O -> (0 <= n)%Z -> too_long E le lt n -> ~ encodes_prefix E le lt n lenb.
Proof.
  intros Hlt Hn Ht H. apply encodes_prefix_exact in H as (A1 & A2 & A3); auto.
  destruct Ht as [[B1 B2]|[[B1 B2]|(B1 & B1' & B1'' & B2)]].
  - destruct (A1 B1) as [C1 C2]. pose proof (from_be_bound lenb) as Hb. rewrite from_be_value in Hb. rewrite C1 in Hb. apply N2Z.inj_lt in Hb. rewrite N2Z.inj_pow, nat_N_Z in Hb. lia.
  - destruct (A2 B1) as (C1 & v & C2 & C3). pose proof (bcd_value_bound _ _ C2) as Hb. rewrite C1 in Hb. apply N2Z.inj_lt in Hb. rewrite N2Z.inj_pow, nat_N_Z in Hb. lia.
  - destruct (A3 B1 B1' B1'') as (C1 & C2 & C3). pose proof (dec_value_bound _ (fmt0d_digits lt (Z.to_N n))) as Hb. rewrite fmt0d_value, C2 in Hb.
    apply N2Z.inj_lt in Hb. rewrite N2Z.inj_pow, nat_N_Z, Z2N.id in Hb by assumption. lia.
Qed.

(** A field that cannot be sent makes encode fail. *)
Lemma encode_rejects E sp d k : env_ok E -> spec_complete sp -> widths_ok sp -> limits_ok E sp -> str_dict d -> canonical_keys E d ->
  k = u "h" /\ header_on sp \/ (exists f, data_field f /\ k = zstr f) -> has_key d k -> ~ encodable E sp d k ->
  exists e d', encode E (ADict d) sp = (Raise (XEncodeError e), d').
Proof.
  intros HE Hc Hwd Hlim Hd Hk Hf Hi Hn. destruct (encode E (ADict d) sp) as [[[s enc]|x] d'] eqn:H.
  - exfalso. apply Hn. apply encode_ok in H as (bm1 & bm2 & bm3 & He & _); [|apply Hd].
    destruct (enc_has _ _ _ _ _ _ _ He k) as [e Hg].
    { apply plan_in. destruct Hf as [[-> (fs & ml & A1 & A2 & A3)]|(f & Hf & ->)].
      - left. rewrite (header_key_on _ _ _ A1 A2 A3). now left.
      - do 4 right. exists f. split; [now apply data_fields_in|]. split; [|reflexivity].
        apply (announced_spec E d); [apply He|unfold data_field in Hf; lia|]. apply sends_data; [assumption|].
        apply canonical_field; auto. unfold data_field in Hf. split; [assumption|lia]. }
    pose proof (enc_sent _ _ _ _ _ _ _ He _ _ Hg) as Hs. apply sent_field_inv in Hs as (fs & v & A1 & A2 & A3).
    + exists fs, v, (e_len e), (e_data e). auto.
    + destruct Hf as [[-> _]|(f & Hf & ->)]; [now left|]. right. exists f. split; [now apply data_fields_in|reflexivity].
  - apply encode_only_encode_error in H as Hx; auto. destruct Hx as [e ->]. eauto.
Qed.
Lemma encode_rejects_long E sp d k fs v data n lt le : env_ok E -> spec_complete sp -> widths_ok sp -> limits_ok E sp -> str_dict d -> canonical_keys E d ->
  k = u "h" /\ header_on sp \/ (exists f, data_field f /\ k = zstr f) ->
  value d k = Some v -> sget k sp = Some fs -> encodes_value E fs v data n ->
  fs_len_type fs = Some (Z.of_nat lt) -> lt <> 0%nat -> fs_len_enc fs = Some le -> too_long E le lt n ->
  exists e d', encode E (ADict d) sp = (Raise (XEncodeError e), d').
Proof.
  intros HE Hc Hwd Hlim Hd Hk Hf Hv Hsp Hev Hl Hlt Hle Ht. apply encode_rejects with k; auto.
  - apply (dget_some_in key_eqb key_eqb_spec). eauto.
  - intros (fs' & v' & l & b & A1 & A2 & m & A3 & A4). assert (fs' = fs) by congruence. assert (v' = v) by congruence. subst fs' v'.
    destruct (encodes_value_fun _ _ _ _ _ _ _ Hev A3) as [<- <-].
    destruct A4 as [B1 B2 B3|lt' le' ml B1 B2 B3 B4 B5 B6]; [rewrite Hl in B1; injection B1; lia|].
    assert (lt' = lt) by (rewrite Hl in B1; injection B1; lia). assert (le' = le) by congruence. subst lt' le'. apply too_long_no_prefix in B6; auto.
    eapply encodes_value_nonneg; eauto.
Qed.

(** ** Nibbles *)
Lemma encode_nibbles E sp d s enc d' k e fs de h : is_dict d -> encode E (ADict d) sp = (Ok (s, enc), d') ->
  sget k enc = Some e -> k <> u "t" -> k <> u "p" -> k <> u "1" ->
  sget k sp = Some fs -> fs_data_enc fs = Some de -> is_binary de -> in_nibbles fs = true -> value d k = Some (VStr h) ->
  encodes_length E fs (zlen h) (e_len e)
  /\ (Nat.even (length h) = true -> spells h (e_data e))
  /\ (Nat.odd (length h) = true -> exists w, pad_digits fs h w /\ spells w (e_data e)).
Proof.
  intros Hd H Hg N1 N2 N3 Hsp Hde Hb Hnib Hv.
  destruct (encode_entry _ _ _ _ _ _ _ _ Hd H Hg N1 N2 N3) as (fs' & v & A1 & A2 & n & A3 & A4).
  assert (fs' = fs) by congruence. assert (v = VStr h) by congruence. subst.
  inversion A3 as [de' v' d0 b' B1 B2 B3 B4 B5|de' d0 w' b' B1 B2 B3 B4 B5|de' s' b' B1 B2 B3]; subst.
  - cbn in B3. injection B3 as <-. rewrite Hnib in *. cbn [andb] in B4. split; [assumption|]. split; [auto|congruence].
  - rewrite Hnib in B3. cbn [andb] in B3. split; [assumption|]. split; [|eauto]. intro Hx.
    rewrite <- Nat.negb_even in B3. rewrite Hx in B3. discriminate.
  - congruence.
Qed.
Lemma encode_rejects_odd E sp d k fs de h : env_ok E -> spec_complete sp -> widths_ok sp -> limits_ok E sp -> str_dict d -> canonical_keys E d ->
  k = u "h" /\ header_on sp \/ (exists f, data_field f /\ k = zstr f) -> value d k = Some (VStr h) -> sget k sp = Some fs -> fs_data_enc fs = Some de -> is_binary de ->
  in_nibbles fs = true -> Nat.odd (length h) = true -> pad_char (fs_left_pad fs) = None -> pad_char (fs_right_pad fs) = None ->
  exists e d', encode E (ADict d) sp = (Raise (XEncodeError e), d').
Proof.
  intros HE Hc Hwd Hlim Hd Hk Hf Hv Hsp Hde Hb Hn Ho P1 P2. apply encode_rejects with k; auto.
  - apply (dget_some_in key_eqb key_eqb_spec). eauto.
  - intros (fs' & v' & l & b & A1 & A2 & m & A3 & A4). assert (fs' = fs) by congruence. assert (v' = VStr h) by congruence. subst fs' v'.
    inversion A3 as [de' v' d0 b' B1 B2 B3 B4 B5|de' d0 w' b' B1 B2 B3 B4 B5|de' s' b' B1 B2 B3]; subst.
    + cbn in B3. injection B3 as <-. rewrite Hn, Ho in B4. discriminate.
    + destruct B4 as [(c & C & _)|(_ & c & C & _)]; congruence.
    + congruence.
Qed.
(** The decoder's side: what comes out of the padded digits. *)
Lemma decode_padded E sp s b dec enc k e fs de n : holds s b -> decode E s sp = Ok (dec, enc) -> sget k enc = Some e ->
  k <> u "t" -> k <> u "p" -> k <> u "1" ->
  sget k sp = Some fs -> fs_data_enc fs = Some de -> is_binary de -> in_nibbles fs = true ->
  announces E fs (e_len e) n ->
  exists t, sget k dec = Some t /\ zlen t = n
    /\ (Z.odd n = false -> t = HEX (e_data e)) /\ (Z.odd n = true -> padded fs (HEX (e_data e)) t).
Proof.
  intros Hs H Hg N1 N2 N3 Hsp Hde Hb Hnib Ha.
  destruct (decode_field_entry _ _ _ _ _ _ _ _ Hs H Hg N1 N2 N3) as (fs' & t & A1 & A2 & m & A3 & A4 & A5).
  assert (fs' = fs) by congruence. subst fs'.
  assert (m = n). { destruct A3 as [C1 C2 C3|lt le ml C1 C2 C3 C4 C5 C6 C7], Ha as [D1 D2 D3|lt' le' ml' D1 D2 D3 D4 D5 D6 D7]; try congruence;
      try (exfalso; rewrite C1 in D1; injection D1; lia).
    assert (le' = le) by congruence. subst. destruct C5 as [X1 X2|vx X1 X2 X3 X4|tx X1 X2 X3 X4], D5 as [Y1 Y2|vy Y1 Y2 Y3 Y4|ty Y1 Y2 Y3 Y4]; try congruence.
    - unfold is_binary, is_bcd in *. rewrite X1 in Y1; discriminate Y1.
    - unfold is_binary, is_bcd in *. rewrite X1 in Y1; discriminate Y1.
    - assert (ty = tx) by congruence. subst ty. eapply int_text_unique; eassumption. }
  subst m. exists t. split; [assumption|]. unfold occupies in A4. rewrite Hnib in A4.
  pose proof (HEX_length (e_data e)) as Hl.
  destruct A5 as [B1 B2|de' B1 B2 B3 B4 B5|de' B1 B2 B3 B4 B5|de' B1 B2 B3 B4].
  - subst. split; [reflexivity|]. assert (e_data e = []) as -> by (apply zlen_zero; lia). split; [auto|discriminate].
  - rewrite Hnib in B4. cbn [andb] in B4. subst t. split; [|split; [auto|congruence]]. unfold zlen in *. rewrite Hl.
    rewrite <- Z.negb_even in B4. destruct (Z.even n) eqn:He; [|discriminate]. apply Z.even_spec in He as [x ->]. lia.
  - rewrite Hnib in B4. cbn [andb] in B4. split; [|split; [congruence|auto]]. apply Z.odd_spec in B4 as [x ->].
    unfold zlen in *. destruct B5 as [(c & _ & B5)|(_ & c & _ & B5)]; rewrite B5 in Hl; [cbn [length] in Hl|rewrite app_length in Hl; cbn [length] in Hl]; lia.
  - congruence.
Qed.
(** C34 *)
Lemma encode_pads_left E sp d s enc d' k e fs de h c : is_dict d -> encode E (ADict d) sp = (Ok (s, enc), d') ->
  sget k enc = Some e -> k <> u "t" -> k <> u "p" -> k <> u "1" ->
  sget k sp = Some fs -> fs_data_enc fs = Some de -> is_binary de -> in_nibbles fs = true -> value d k = Some (VStr h) ->
  Nat.odd (length h) = true -> pad_char (fs_left_pad fs) = Some c -> spells (c :: h) (e_data e).
Proof.
  intros Hd H Hg N1 N2 N3 Hsp Hde Hb Hnib Hv Ho Hc.
  destruct (encode_nibbles _ _ _ _ _ _ _ _ _ _ _ Hd H Hg N1 N2 N3 Hsp Hde Hb Hnib Hv) as (_ & _ & A).
  destruct (A Ho) as (w & [(c' & B1 & ->)|(B1 & _)] & B2); congruence.
Qed.
Lemma decode_strips_left E sp s b dec enc k e fs de n c t : holds s b -> decode E s sp = Ok (dec, enc) -> sget k enc = Some e ->
  k <> u "t" -> k <> u "p" -> k <> u "1" ->
  sget k sp = Some fs -> fs_data_enc fs = Some de -> is_binary de -> in_nibbles fs = true ->
  announces E fs (e_len e) n -> Z.odd n = true -> pad_char (fs_left_pad fs) = Some c -> HEX (e_data e) = c :: t ->
  sget k dec = Some t.
Proof.
  intros Hs H Hg N1 N2 N3 Hsp Hde Hb Hnib Ha Ho Hc Ht.
  destruct (decode_padded _ _ _ _ _ _ _ _ _ _ _ Hs H Hg N1 N2 N3 Hsp Hde Hb Hnib Ha) as (t' & A1 & _ & _ & A2).
  rewrite A1. f_equal. destruct (A2 Ho) as [(c' & B1 & B2)|(B1 & _)].
  - congruence.
  - exfalso. apply (B1 c Hc). now rewrite Ht.
Qed.
