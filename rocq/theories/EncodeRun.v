(** * EncodeRun: a whole run of encode, in terms of WireEncode. *)
From Coq Require Import ZifyBool ZifyNat ZifyN Sorted Permutation.
From Verif Require Import PyBase BaseFacts Types Numerals NumeralFacts Decoder Encoder Wire WireEncode DecoderFacts DecodeRun EncoderFacts.
Ltac Zify.zify_post_hook ::= Z.div_mod_to_equations.

(** ** Bitmaps *)
Lemma lor_lt256 a b : (a < 256 -> b < 256 -> N.lor a b < 256)%N.
Proof.
  intros Ha Hb. destruct (N.eq_dec (N.lor a b) 0) as [->|H]; [lia|].
  change 256%N with (2 ^ 8)%N. apply N.log2_lt_pow2; [lia|]. rewrite N.log2_lor.
  assert (Hl : forall x, (x < 256)%N -> (N.log2 x < 8)%N).
  { intros x Hx. destruct (N.eq_dec x 0) as [->|]; [reflexivity|]. apply N.log2_lt_pow2; lia. }
  apply N.max_lub_lt; auto.
Qed.
Lemma or_byte_length i v bm : length (or_byte i v bm) = length bm.
Proof. revert i. induction bm as [|b bm IH]; intros [|i]; simpl; congruence. Qed.
Lemma or_byte_nth i v bm j : nth_error (or_byte i v bm) j =
  if (j =? i)%nat then option_map (fun b => n2b (N.lor (b2n b) v)) (nth_error bm j) else nth_error bm j.
Proof.
  revert i j. induction bm as [|b bm IH]; intros [|i] [|j]; try reflexivity.
  - simpl. destruct (j =? i)%nat; reflexivity.
  - simpl. apply IH.
Qed.
Lemma set_bit_length off bm f : length (set_bit off bm f) = length bm.
Proof. apply or_byte_length. Qed.
Lemma shiftl_lt256 k : (k < 8)%N -> (N.shiftl 1 k < 256)%N.
Proof. intro H. rewrite N.shiftl_1_l. change 256%N with (2 ^ 8)%N. apply N.pow_lt_mono_r; lia. Qed.

Lemma set_bit_bit off bm f i : length bm = 8%nat -> (off < f <= off + 64)%Z -> (1 <= i <= 64)%Z ->
  bit (set_bit off bm f) i = ((i =? f - off)%Z || bit bm i).
Proof.
  intros Hl Hf Hi. unfold bit. replace (1 <=? i)%Z with true by lia. unfold set_bit. cbv zeta.
  rewrite or_byte_nth.
  destruct (nth_error bm (Z.to_nat ((i - 1) / 8))) as [b|] eqn:Hn.
  2:{ apply nth_error_None in Hn. lia. }
  destruct (Nat.eqb_spec (Z.to_nat ((i - 1) / 8)) (Z.to_nat ((f - (1 + off)) / 8))) as [He|He].
  - cbn [option_map]. rewrite b2n_n2b by (apply lor_lt256; [apply b2n_lt|apply shiftl_lt256; lia]).
    rewrite N.lor_spec, N.shiftl_1_l, N.pow2_bits_eqb, orb_comm. f_equal.
    destruct (Z.eqb_spec i (f - off)) as [->|Hne].
    + apply N.eqb_eq. f_equal. lia.
    + apply N.eqb_neq. lia.
  - destruct (Z.eqb_spec i (f - off)) as [->|Hne]; [|reflexivity]. exfalso. apply He. f_equal. f_equal. lia.
Qed.
Lemma make_bitmap_fold off l : forall bm, length bm = 8%nat -> Forall (fun f => (off < f <= off + 64)%Z) l ->
  length (fold_left (set_bit off) l bm) = 8%nat
  /\ forall i, (1 <= i <= 64)%Z -> (bit (fold_left (set_bit off) l bm) i = true <-> In (off + i)%Z l \/ bit bm i = true).
Proof.
  induction l as [|f l IH]; intros bm Hl Hf; simpl; [split; [assumption|tauto]|].
  inversion Hf as [|? ? Hf1 Hf2]; subst. destruct (IH (set_bit off bm f)) as [H1 H2].
  - now rewrite set_bit_length. - assumption.
  - split; [assumption|]. intros i Hi. rewrite H2 by assumption. rewrite set_bit_bit, orb_true_iff, Z.eqb_eq by assumption.
    split; [intros [H|[H|H]]|intros [[H|H]|H]]; auto; [left; left; lia|right; left; lia].
Qed.
Lemma bit_zeros i : bit (repeat x00 8) i = false.
Proof.
  destruct (bit (repeat x00 8) i) eqn:H; [|reflexivity]. exfalso. pose proof (bit_range _ _ H) as Hr. revert H. unfold bit.
  destruct (1 <=? i)%Z; [|discriminate].
  destruct (nth_error (repeat x00 8) (Z.to_nat ((i - 1) / 8))) as [b|] eqn:Hn; [|discriminate].
  apply nth_error_In in Hn. apply repeat_spec in Hn. subst. cbn. intro H. now rewrite N.bits_0 in H || discriminate.
Qed.
Lemma make_bitmap_spec off l : Forall (fun f => (off < f <= off + 64)%Z) l ->
  length (make_bitmap off l) = 8%nat
  /\ forall i, (1 <= i <= 64)%Z -> (bit (make_bitmap off l) i = true <-> In (off + i)%Z l).
Proof.
  intro H. destruct (make_bitmap_fold off l (repeat x00 8) eq_refl H) as [H1 H2]. split; [exact H1|].
  intros i Hi. unfold make_bitmap. rewrite H2 by assumption. rewrite bit_zeros. split; [intros [|]; [assumption|discriminate]|auto].
Qed.

Lemma nth_error_same {A} (a b : list A) : (forall j, nth_error a j = nth_error b j) -> a = b.
Proof.
  revert b. induction a as [|x a IH]; intros [|y b] H; [reflexivity|specialize (H O); discriminate..|].
  f_equal; [specialize (H O); simpl in H; congruence|]. apply IH. intro j. apply (H (S j)).
Qed.
(** 64 bits determine 8 bytes. *)
Lemma bitmap_ext a b : length a = 8%nat -> length b = 8%nat ->
  (forall i, (1 <= i <= 64)%Z -> (bit a i = true <-> bit b i = true)) -> a = b.
Proof.
  intros Ha Hb H. apply nth_error_same. intro j.
  destruct (nth_error a j) as [x|] eqn:Hx; destruct (nth_error b j) as [y|] eqn:Hy; [|exfalso..|reflexivity].
  2:{ assert (j < length a)%nat by (apply nth_error_Some; congruence). apply nth_error_None in Hy. lia. }
  2:{ assert (j < length b)%nat by (apply nth_error_Some; congruence). apply nth_error_None in Hx. lia. }
  f_equal. apply b2n_inj. apply N.bits_inj. intro k.
  assert (Hj : (j < 8)%nat) by (rewrite <- Ha; apply nth_error_Some; congruence).
  destruct (N.lt_ge_cases k 8) as [Hk|Hk].
  - specialize (H (Z.of_nat j * 8 + 8 - Z.of_N k)%Z ltac:(lia)). unfold bit in H.
    replace (1 <=? _)%Z with true in H by lia.
    replace (Z.to_nat ((Z.of_nat j * 8 + 8 - Z.of_N k - 1) / 8)) with j in H by lia.
    replace (Z.to_N (7 - (Z.of_nat j * 8 + 8 - Z.of_N k - 1) mod 8)) with k in H by lia.
    rewrite Hx, Hy in H. destruct (N.testbit (b2n x) k), (N.testbit (b2n y) k); intuition congruence.
  - assert (Hhi : forall z, N.testbit (b2n z) k = false).
    { intro z. apply N.bits_above_log2. pose proof (b2n_lt z). destruct (N.eq_dec (b2n z) 0) as [->|]; [simpl; lia|].
      assert (N.log2 (b2n z) < 8)%N by (apply N.log2_lt_pow2; [lia|assumption]). lia. }
    now rewrite !Hhi.
Qed.

(** ** The fields of a dict *)
Definition has_fieldb (E : pyenv) (d : pdoc) (f : Z) : bool :=
  existsb (fun k => match k with
    | KStr s => negb (str_eqb s (u "1")) && negb (str_eqb s (u "65")) && isnumeric E s
                && match py_int E s with Some n => (n =? f)%Z | None => false end
    | KOther _ _ => false end) (map fst d).
Lemma has_fieldb_spec E d f : has_fieldb E d f = true <-> has_field E d f.
Proof.
  unfold has_fieldb, has_field. rewrite existsb_exists. split.
  - intros ([s|i r] & Hi & H); [|discriminate]. rewrite !andb_true_iff in H. destruct H as [[[H1 H2] H3] H4].
    exists s. split; [assumption|]. rewrite negb_true_iff in H1, H2. apply str_eqb_neq in H1, H2.
    destruct (py_int E s) as [n|] eqn:Hi'; [|discriminate]. apply Z.eqb_eq in H4. subst. apply py_int_text in Hi'. auto.
  - intros (s & Hi & H1 & H2 & H3 & H4). exists (KStr s). split; [assumption|].
    apply py_int_text in H4. rewrite H3, H4, Z.eqb_refl. apply str_eqb_neq in H1, H2. now rewrite H1, H2.
Qed.
Definition zrange (a : Z) (n : nat) : list Z := map (fun i => (a + Z.of_nat i)%Z) (seq 0 n).
Lemma zrange_in a n x : In x (zrange a n) <-> (a <= x < a + Z.of_nat n)%Z.
Proof. unfold zrange. rewrite in_map_iff. split.
  - intros (i & <- & Hi). apply in_seq in Hi. lia.
  - intro H. exists (Z.to_nat (x - a)). split; [lia|]. apply in_seq. lia. Qed.
Definition sendsb (E : pyenv) (d : pdoc) (f : Z) : bool :=
  has_fieldb E d f || (f =? 65)%Z && existsb (has_fieldb E d) (zrange 129 64)
  || (f =? 1)%Z && existsb (has_fieldb E d) (zrange 65 128).
Lemma sendsb_spec E d f : sendsb E d f = true <-> sends E d f.
Proof.
  unfold sendsb, sends. rewrite !orb_true_iff, !andb_true_iff, !existsb_exists, has_fieldb_spec, !Z.eqb_eq.
  assert (A : forall a n, (exists x, In x (zrange a n) /\ has_fieldb E d x = true)
              <-> exists g, (a <= g < a + Z.of_nat n)%Z /\ has_field E d g).
  { intros a n. split; intros (x & H1 & H2); exists x.
    - apply zrange_in in H1. apply has_fieldb_spec in H2. auto.
    - rewrite zrange_in, has_fieldb_spec. auto. }
  rewrite !A. split.
  - intros [[H|(H & g & H1 & H2)]|(H & g & H1 & H2)]; [auto|right; left|right; right];
      (split; [assumption|]); exists g; (split; [lia|assumption]).
  - intros [H|[(H & g & H1 & H2)|(H & g & H1 & H2)]]; [auto|left; right|right];
      (split; [assumption|]); exists g; (split; [lia|assumption]).
Qed.
Lemma bitmaps_exist E d : exists bm1 bm2 bm3, bitmaps_for E d bm1 bm2 bm3.
Proof.
  set (bm off := make_bitmap off (filter (sendsb E d) (zrange (off + 1) 64))).
  assert (H : forall off, length (bm off) = 8%nat
            /\ forall i, (1 <= i <= 64)%Z -> (bit (bm off) i = true <-> sends E d (off + i))).
  { intro off. unfold bm. destruct (make_bitmap_spec off (filter (sendsb E d) (zrange (off + 1) 64))) as [H1 H2].
    - apply Forall_forall. intros x Hx. apply filter_In in Hx as [Hx _]. apply zrange_in in Hx. lia.
    - split; [assumption|]. intros i Hi. rewrite H2 by assumption. rewrite filter_In, zrange_in, sendsb_spec. intuition lia. }
  exists (bm 0%Z), (bm 64%Z), (bm 128%Z). unfold bitmaps_for.
  split; [apply H|]. split; [apply H|]. split; [apply H|]. intros i Hi.
  split; [now apply (H 0%Z)|]. split; now apply H.
Qed.
Lemma bitmaps_for_fun E d bm1 bm2 bm3 bm1' bm2' bm3' :
  bitmaps_for E d bm1 bm2 bm3 -> bitmaps_for E d bm1' bm2' bm3' -> bm1 = bm1' /\ bm2 = bm2' /\ bm3 = bm3'.
Proof.
  intros (A1 & A2 & A3 & A) (B1 & B2 & B3 & B).
  split; [|split]; apply bitmap_ext; auto; intros i Hi; destruct (A i Hi) as (X1 & X2 & X3); destruct (B i Hi) as (Y1 & Y2 & Y3).
  - now rewrite X1, Y1. - now rewrite X2, Y2. - now rewrite X3, Y3.
Qed.

Lemma numeric_keys_spec E keys :
  match numeric_keys E keys with
  | inr ks =>
      (forall k, In k keys -> exists s, k = KStr s /\ (isnumeric E s = true -> exists n, int_text E s n))
      /\ forall n, In n ks <-> exists s, In (KStr s) keys /\ isnumeric E s = true /\ int_text E s n
  | inl true => exists s, In (KStr s) keys /\ isnumeric E s = true /\ not_int E s
  | inl false => exists i r, In (KOther i r) keys
  end.
Proof.
  induction keys as [|k keys IH]; simpl.
  - split; [tauto|]. intro n. split; [tauto|]. intros (s & [] & _).
  - destruct k as [s|i r]; [|eauto 6].
    destruct (isnumeric E s) eqn:Hn.
    + destruct (py_int E s) as [n|] eqn:Hi; [apply py_int_text in Hi|apply py_int_no_text in Hi; eauto 6].
      destruct (numeric_keys E keys) as [[|]|ks].
      * destruct IH as (s' & H1 & H2). eauto.
      * destruct IH as (i & r & H). eauto.
      * destruct IH as [H1 H2]. split.
        -- intros k [<-|Hk]; eauto.
        -- intro m. simpl. rewrite H2. split.
           ++ intros [<-|(s' & H3 & H4)]; [exists s; auto|eauto].
           ++ intros (s' & [[= <-]|H3] & H4 & H5); [left; eapply int_text_unique; eassumption|right; eauto].
    + destruct (numeric_keys E keys) as [[|]|ks].
      * destruct IH as (s' & H1 & H2). eauto.
      * destruct IH as (i & r & H). eauto.
      * destruct IH as [H1 H2]. split.
        -- intros k [<-|Hk]; [|eauto]. exists s. split; [reflexivity|congruence].
        -- intro m. rewrite H2. split.
           ++ intros (s' & H3 & H4). eauto.
           ++ intros (s' & [[= <-]|H3] & H4 & H5); [congruence|eauto].
Qed.

(** ** One bitmap *)
Definition bitmap_data (E : pyenv) (bm : bytes) (k : pystr) (fs : fspec) (de : pystr) : EM bytes :=
  if str_eqb de str_b then ret bm
  else r <- encode_text_field E (VStr (HEX bm)) k fs str_bytes ;; ret (fst r).
Lemma bitmap_data_ok E bm k fs de st out st' : fs_data_enc fs = Some de ->
  (bitmap_data E bm k fs de st = (Ok out, st') <-> bitmap_encodes E fs bm out /\ st' = st).
Proof.
  intro Hde. unfold bitmap_data. destruct (binary_cases de) as [[Hb ->]|[Hb ->]].
  - unfold ret. split.
    + intros [= <- <-]. split; [|reflexivity]. eapply EncBitmapBinary; eauto.
    + intros [[de' H1 H2 ->|de' H1 H2 H3] ->]; [reflexivity|]. assert (de' = de) by congruence. subst. contradiction.
  - unfold bind, encode_text_field. rewrite Hde. split.
    + destruct (str_encode E de (HEX bm)) as [b| |] eqn:Hs; try discriminate.
      unfold ret. intros [= <- <-]. split; [|reflexivity]. eapply EncBitmapText; eauto.
    + intros [[de' H1 H2 H3|de' H1 H2 H3] ->]; assert (de' = de) by congruence; subst; [contradiction|].
      rewrite H3. reflexivity.
Qed.
Lemma bitmap_data_raise E bm k fs de st x st' : bitmap_data E bm k fs de st = (Raise x, st') -> st' = st /\ eerr k x st.
Proof.
  unfold bitmap_data. destruct (str_eqb de str_b); [discriminate|]. unfold bind.
  destruct (encode_text_field E (VStr (HEX bm)) k fs str_bytes st) as [[r|y] st1] eqn:Ht; [discriminate|].
  intros [= <- <-]. now apply encode_text_raise in Ht.
Qed.

Definition bput (k : pystr) (text : pystr) (e : entry) (st : estate) : estate :=
  mkE (pset (KStr k) (VStr text) (s_dec st)) (sset k e (s_enc st)).

Lemma bitmap_fresh_eq E k fs off fields st : encode_bitmap E k fs off false fields st =
  let bm := make_bitmap off fields in
  let st1 := bput k (HEX bm) (mkEntry [] []) st in
  match fs_data_enc fs with
  | None => (Raise (XKeyError (u "data_enc")), st1)
  | Some de => match bitmap_data E bm k fs de st1 with
               | (Ok out, st2) => (eset_enc_data k out ;;; ret out) st2
               | (Raise x, st2) => (Raise x, st2)
               end
  end.
Proof.
  unfold encode_bitmap. cbv zeta. rewrite py_upper_hex. unfold bind at 1 2, eset_dec, eset_enc.
  unfold bind at 1. cbn [s_dec s_enc]. fold (bput k (HEX (make_bitmap off fields)) (mkEntry [] []) st).
  destruct (fs_data_enc fs) as [de|]; [|reflexivity]. cbn [prop]. unfold ret at 1. unfold bitmap_data. unfold bind at 1.
  destruct (str_eqb de str_b);
  match goal with |- context [let (_, _) := ?r in _] => destruct r as [[out|x] st2] end; reflexivity.
Qed.
Lemma bput_enc k t e st : sget k (s_enc (bput k t e st)) = Some e.
Proof. unfold bput. cbn [s_enc]. apply sget_sset. Qed.
Lemma eset_enc_data_bput k t l b d st : eset_enc_data k d (bput k t (mkEntry l b) st) = (Ok tt, bput k t (mkEntry l d) st).
Proof.
  unfold eset_enc_data, bind, eget_enc. rewrite bput_enc. unfold eset_enc, bput. cbn [s_enc s_dec e_len].
  now rewrite sset_sset.
Qed.
Lemma bitmap_fresh_ok E k fs off fields st out st' :
  encode_bitmap E k fs off false fields st = (Ok out, st') <->
  bitmap_encodes E fs (make_bitmap off fields) out
  /\ st' = bput k (HEX (make_bitmap off fields)) (mkEntry [] out) st.
Proof.
  rewrite bitmap_fresh_eq. cbv zeta. set (bm := make_bitmap off fields). destruct (fs_data_enc fs) as [de|] eqn:Hde.
  2:{ split; [discriminate|]. intros [[de H1 H2 H3|de H1 H2 H3] _]; congruence. }
  split.
  - destruct (bitmap_data _ _ _ _ _ _) as [[o|x] st2] eqn:Hd; [|discriminate].
    apply bitmap_data_ok in Hd as [H1 ->]; [|assumption]. unfold bind. rewrite eset_enc_data_bput. intros [= <- <-]. auto.
  - intros [H ->]. rewrite (proj2 (bitmap_data_ok E bm k fs de _ out _ Hde) (conj H eq_refl)).
    unfold bind. now rewrite eset_enc_data_bput.
Qed.
Lemma bitmap_fresh_raise E k fs off fields st x st' :
  encode_bitmap E k fs off false fields st = (Raise x, st') ->
  st' = bput k (HEX (make_bitmap off fields)) (mkEntry [] []) st
  /\ (eerr k x st' \/ exists nm, x = XKeyError nm /\ ~ mandatory fs).
Proof.
  rewrite bitmap_fresh_eq. cbv zeta. destruct (fs_data_enc fs) as [de|] eqn:Hde.
  2:{ intros [= <- <-]. split; [reflexivity|]. right. eexists. split; [reflexivity|]. intros (H & _). congruence. }
  destruct (bitmap_data _ _ _ _ _ _) as [[o|y] st2] eqn:Hd.
  - apply bitmap_data_ok in Hd as [H1 ->]; [|assumption]. unfold bind. rewrite eset_enc_data_bput. discriminate.
  - apply bitmap_data_raise in Hd as [-> H]. intros [= <- <-]. auto.
Qed.

Lemma bitmap_ext_eq E k fs off fields st o : pget (KStr k) (s_dec st) = Some (VStr o) ->
  encode_bitmap E k fs off true fields st =
  let bm := make_bitmap off fields in
  let st1 := mkE (pset (KStr k) (VStr (o ++ HEX bm)) (s_dec st)) (s_enc st) in
  match fs_data_enc fs with
  | None => (Raise (XKeyError (u "data_enc")), st1)
  | Some de => match bitmap_data E bm k fs de st1 with
               | (Ok out, st2) => ((e <- eget_enc k ;; eset_enc k (mkEntry (e_len e) (e_data e ++ out))) ;;; ret out) st2
               | (Raise x, st2) => (Raise x, st2)
               end
  end.
Proof.
  intro Ho. unfold encode_bitmap. cbv zeta. rewrite py_upper_hex. unfold bind at 1 2, eget_dec. rewrite Ho.
  unfold eset_dec, bind at 1.
  destruct (fs_data_enc fs) as [de|]; [|reflexivity]. cbn [prop]. unfold ret at 1. unfold bitmap_data. unfold bind at 1.
  destruct (str_eqb de str_b);
  match goal with |- context [let (_, _) := ?r in _] => destruct r as [[out|x] st2] end; reflexivity.
Qed.
Lemma bitmap_ext_ok E k fs off fields st out st' o l b : pget (KStr k) (s_dec st) = Some (VStr o) ->
  sget k (s_enc st) = Some (mkEntry l b) ->
  (encode_bitmap E k fs off true fields st = (Ok out, st') <->
   bitmap_encodes E fs (make_bitmap off fields) out
   /\ st' = bput k (o ++ HEX (make_bitmap off fields)) (mkEntry l (b ++ out)) st).
Proof.
  intros Ho Hb. rewrite (bitmap_ext_eq _ _ _ _ _ _ _ Ho). cbv zeta. set (bm := make_bitmap off fields).
  destruct (fs_data_enc fs) as [de|] eqn:Hde.
  2:{ split; [discriminate|]. intros [[de H1 H2 H3|de H1 H2 H3] _]; congruence. }
  split.
  - destruct (bitmap_data _ _ _ _ _ _) as [[o'|x] st2] eqn:Hd; [|discriminate].
    apply bitmap_data_ok in Hd as [H1 ->]; [|assumption]. unfold bind, eget_enc. cbn [s_enc]. rewrite Hb.
    unfold eset_enc. cbn [s_enc s_dec e_len e_data]. intros [= <- <-]. auto.
  - intros [H ->]. rewrite (proj2 (bitmap_data_ok E bm k fs de _ out _ Hde) (conj H eq_refl)).
    unfold bind, eget_enc. cbn [s_enc]. rewrite Hb. reflexivity.
Qed.
Lemma bitmap_ext_raise E k fs off fields st x st' o e : pget (KStr k) (s_dec st) = Some (VStr o) ->
  sget k (s_enc st) = Some e ->
  encode_bitmap E k fs off true fields st = (Raise x, st') ->
  st' = mkE (pset (KStr k) (VStr (o ++ HEX (make_bitmap off fields))) (s_dec st)) (s_enc st)
  /\ (eerr k x st' \/ exists nm, x = XKeyError nm /\ ~ mandatory fs).
Proof.
  intros Ho He. rewrite (bitmap_ext_eq _ _ _ _ _ _ _ Ho). cbv zeta. destruct (fs_data_enc fs) as [de|] eqn:Hde.
  2:{ intros [= <- <-]. split; [reflexivity|]. right. eexists. split; [reflexivity|]. intros (H & _). congruence. }
  destruct (bitmap_data _ _ _ _ _ _) as [[o'|y] st2] eqn:Hd.
  - apply bitmap_data_ok in Hd as [H1 ->]; [|assumption]. unfold bind, eget_enc. cbn [s_enc]. rewrite He. discriminate.
  - apply bitmap_data_raise in Hd as [-> H]. intros [= <- <-]. auto.
Qed.

(** ** The field loop *)
(** [ke] is the complete encoding of a field whose value is in [d]. *)
Definition sent_field (E : pyenv) (sp : spec) (d : pdoc) (ke : pystr * entry) : Prop :=
  exists fs v, sget (fst ke) sp = Some fs /\ pget (KStr (fst ke)) d = Some v
    /\ field_encodes E fs v (e_len (snd ke)) (e_data (snd ke)).

Lemma eput_fresh k l b st : ~ In k (map fst (s_enc st)) ->
  eput k l b st = mkE (s_dec st) (s_enc st ++ [(k, mkEntry l b)]).
Proof. intro H. unfold eput. f_equal. apply dset_fresh; [apply str_eqb_spec|assumption]. Qed.
Lemma wire_bytes_cons ke enc : wire_bytes (ke :: enc) = (e_len (snd ke) ++ e_data (snd ke)) ++ wire_bytes enc.
Proof. reflexivity. Qed.
Lemma wire_bytes_app a b : wire_bytes (a ++ b) = wire_bytes a ++ wire_bytes b.
Proof. unfold wire_bytes. apply flat_map_app. Qed.

Lemma encode_fields_ok E sp fl : forall s st out st',
  NoDup (map zstr fl) -> (forall f, In f fl -> ~ In (zstr f) (map fst (s_enc st))) ->
  (encode_fields E sp fl s st = (Ok out, st') <->
   exists ents, map fst ents = map zstr fl /\ Forall (sent_field E sp (s_dec st)) ents
     /\ out = s ++ wire_bytes ents /\ st' = mkE (s_dec st) (s_enc st ++ ents)).
Proof.
  induction fl as [|f fl IH]; intros s st out st' Hn Hf; simpl.
  - unfold ret. split.
    + intros [= <- <-]. exists []. rewrite !app_nil_r. destruct st; auto.
    + intros (ents & Hk & _ & -> & ->). destruct ents; [|discriminate]. rewrite !app_nil_r. destruct st; reflexivity.
  - inversion Hn as [|? ? Hn1 Hn2]; subst. unfold bind at 1, spec_get.
    destruct (sget (zstr f) sp) as [fs|] eqn:Hsp.
    2:{ split; [discriminate|]. intros ([|[k e] ents] & Hk & Ha & _); [discriminate|]. inversion Ha as [|? ? (fs & v & H & _) _]; subst.
        injection Hk as Hk _. simpl in Hk, H. subst k. rewrite Hsp in H. discriminate. }
    unfold ret at 1. unfold bind at 1.
    assert (Hff : ~ In (zstr f) (map fst (s_enc st))) by (apply Hf; now left).
    destruct (encode_field E (zstr f) fs st) as [[b|x] st1] eqn:He.
    + apply encode_field_ok in He as (v & lenb & data & H1 & H2 & -> & ->). rewrite eput_fresh by assumption.
      rewrite IH; auto; cbn [s_dec s_enc].
      2:{ intros g Hg. rewrite map_app, in_app_iff. intros [H|[H|[]]]; [apply (Hf g); [now right|assumption]|].
          apply Hn1. simpl in H. rewrite H. apply in_map. assumption. }
      split.
      * intros (ents & H3 & H4 & -> & ->). exists ((zstr f, mkEntry lenb data) :: ents). simpl. rewrite H3, <- !app_assoc.
        repeat split; auto. constructor; auto. exists fs, v. auto.
      * intros (ents' & H3 & H4 & -> & ->). destruct ents' as [|[k [l d]] ents]; [discriminate|]. injection H3 as H3 H3'.
        simpl in H3. subst k. inversion H4 as [|? ? (fs' & v' & A1 & A2 & A3) A4]; subst. cbn [fst snd e_len e_data] in A1, A2, A3.
        assert (fs' = fs) by congruence. assert (v' = v) by congruence. subst.
        destruct (field_encodes_fun _ _ _ _ _ _ _ A3 H2) as [-> ->].
        exists ents. rewrite wire_bytes_cons. cbn [snd e_len e_data]. rewrite <- !app_assoc. auto 6.
    + split; [discriminate|]. intros ([|[k [l d]] ents] & Hk & Ha & _); [discriminate|].
      inversion Ha as [|? ? (fs' & v & H1 & H2 & H3) _]; subst. injection Hk as Hk _. cbn [fst snd e_len e_data] in *. subst k.
      assert (fs' = fs) by congruence. subst.
      assert (encode_field E (zstr f) fs st = (Ok (l ++ d), eput (zstr f) l d st)) by (apply encode_field_ok; eauto 8).
      congruence.
Qed.

Lemma encode_fields_raise E sp fl : forall s st x st',
  NoDup (map zstr fl) -> (forall f, In f fl -> ~ In (zstr f) (map fst (s_enc st))) ->
  encode_fields E sp fl s st = (Raise x, st') ->
  exists pre f post ents tail, fl = pre ++ f :: post /\ map fst ents = map zstr pre
    /\ Forall (sent_field E sp (s_dec st)) ents
    /\ (tail = [] \/ exists e, tail = [(zstr f, e)])
    /\ st' = mkE (s_dec st) (s_enc st ++ ents ++ tail)
    /\ (eerr (zstr f) x st' \/ (x = XKeyError (zstr f) /\ pget (KStr (zstr f)) (s_dec st) = None)
        \/ (exists nm, x = XKeyError nm /\ ~ entry_complete sp (zstr f))
        \/ (x = XValueError /\ (negative_width sp (zstr f) \/ long_limit E sp (zstr f)))
        \/ exists v, pget (KStr (zstr f)) (s_dec st) = Some v /\ bad_value v x).
Proof.
  induction fl as [|f fl IH]; intros s st x st' Hn Hf; simpl; [discriminate|].
  inversion Hn as [|? ? Hn1 Hn2]; subst. unfold bind at 1, spec_get.
  destruct (sget (zstr f) sp) as [fs|] eqn:Hsp.
  2:{ intros [= <- <-]. exists [], f, fl, [], []. simpl. rewrite app_nil_r. destruct st. repeat split; auto.
      right. right. left. eexists. split; [reflexivity|]. intros (fs & H & _). congruence. }
  unfold ret at 1. unfold bind at 1.
  assert (Hff : ~ In (zstr f) (map fst (s_enc st))) by (apply Hf; now left).
  destruct (encode_field E (zstr f) fs st) as [[b|y] st1] eqn:He.
  - apply encode_field_ok in He as (v & lenb & data & H1 & H2 & -> & ->). rewrite eput_fresh by assumption.
    intro H. apply IH in H as (pre & g & post & ents & tail & -> & A1 & A2 & A3 & -> & A4); auto; cbn [s_dec s_enc] in *.
    2:{ intros g Hg. rewrite map_app, in_app_iff. intros [H'|[H'|[]]]; [apply (Hf g); [now right|assumption]|].
        apply Hn1. simpl in H'. rewrite H'. apply in_map. assumption. }
    exists (f :: pre), g, post, ((zstr f, mkEntry lenb data) :: ents), tail. rewrite <- app_assoc in *. cbn [map app fst]. rewrite A1.
    repeat split; auto. constructor; auto. exists fs, v. auto.
  - intros [= <- <-]. apply encode_field_raise in He as [(lenb & data & ->) H]. rewrite eput_fresh in * by assumption.
    exists [], f, fl, [], [(zstr f, mkEntry lenb data)]. simpl. repeat split; auto; [right; eauto|].
    destruct H as [H|[H|[(nm & -> & H)|[(-> & [(lt & H & H')|(ml & H & H')])|H]]]]; auto.
    2:{ right. right. right. left. split; [reflexivity|]. left. exists fs, lt. auto. }
    2:{ right. right. right. left. split; [reflexivity|]. right. exists fs, ml. auto. }
    right. right. left. eexists. split; [reflexivity|]. intros (fs' & H1 & H2). assert (fs' = fs) by congruence. subst. contradiction.
Qed.

(** ** The sets of fields *)
Definition tertiary_of (F : zset) : zset := zinter_range 129 193 F.
Definition with65 (F : zset) : zset := match tertiary_of F with [] => F | _ => zadd 65 F end.
Definition secondary_of (F : zset) : zset := zinter_range 65 129 (with65 F).
Definition with1 (F : zset) : zset := match secondary_of F with [] => with65 F | _ => zadd 1 (with65 F) end.

Lemma zinter_in a b l x : In x (zinter_range a b l) <-> In x l /\ (a <= x < b)%Z.
Proof. unfold zinter_range. now rewrite filter_In, in_range_spec. Qed.
Lemma nil_or_in {A} (l : list A) : l = [] \/ exists x, In x l.
Proof. destruct l as [|x l]; [auto|]. right. exists x. now left. Qed.
Lemma with65_in F x : In x (with65 F) <-> In x F \/ (x = 65%Z /\ exists g, In g (tertiary_of F)).
Proof.
  unfold with65. destruct (tertiary_of F) as [|g l].
  - split; [auto|]. intros [H|[_ [g []]]]; assumption.
  - rewrite zadd_in. split; [intros [H|H]; auto; right; split; [assumption|exists g; now left]|intros [H|[H _]]; auto].
Qed.
Lemma with1_in F x : In x (with1 F) <-> In x (with65 F) \/ (x = 1%Z /\ exists g, In g (secondary_of F)).
Proof.
  unfold with1. destruct (secondary_of F) as [|g l].
  - split; [auto|]. intros [H|[_ [g []]]]; assumption.
  - rewrite zadd_in. split; [intros [H|H]; auto; right; split; [assumption|exists g; now left]|intros [H|[H _]]; auto].
Qed.
Lemma with65_sorted F : zsorted F -> zsorted (with65 F).
Proof. intro H. unfold with65. destruct (tertiary_of F); [assumption|now apply zadd_sorted]. Qed.
Lemma with1_sorted F : zsorted F -> zsorted (with1 F).
Proof. intro H. unfold with1. destruct (secondary_of F); [now apply with65_sorted|apply zadd_sorted; now apply with65_sorted]. Qed.

Section Sets.
  Variables (E : pyenv) (d : pdoc) (F : zset) (bm1 bm2 bm3 : bytes).
  Hypothesis Hsort : zsorted F.
  Hypothesis HF : forall f, In f F <-> has_field E d f.
  Hypothesis Hrange : forall f, In f F -> (1 <= f <= 192)%Z.
  Hypothesis Hbm : bitmaps_for E d bm1 bm2 bm3.

  Lemma with65_sends f : f <> 1%Z -> (In f (with65 F) <-> sends E d f).
  Proof using HF. clear Hrange.
    intro H1. rewrite with65_in. unfold sends, tertiary_of. rewrite HF. split.
    - intros [H|[-> [g Hg]]]; [auto|]. apply zinter_in in Hg as [Hg Hr]. right. left. split; [reflexivity|].
      exists g. rewrite <- HF. split; [lia|assumption].
    - intros [H|[(-> & g & Hr & Hg)|(-> & _)]]; [auto| |lia]. right. split; [reflexivity|]. exists g.
      apply zinter_in. rewrite HF. split; [assumption|lia].
  Qed.
  Lemma with1_sends f : In f (with1 F) <-> sends E d f.
  Proof using HF. clear Hrange.
    rewrite with1_in. destruct (Z.eq_dec f 1) as [->|Hf].
    - rewrite with65_in. unfold sends. rewrite HF. split.
      + intros [[H|[H _]]|[_ [g Hg]]]; [auto|lia|]. right. right. split; [reflexivity|].
        apply zinter_in in Hg as [Hg Hr]. apply with65_in in Hg as [Hg|[-> [h Hh]]].
        * exists g. rewrite <- HF. split; [lia|assumption].
        * apply zinter_in in Hh as [Hh Hr']. exists h. rewrite <- HF. split; [lia|assumption].
      + intros [H|[(H & _)|(_ & g & Hr & Hg)]]; [auto|lia|]. right. split; [reflexivity|].
        destruct (Z.le_gt_cases g 128).
        * exists g. apply zinter_in. split; [|lia]. apply with65_in. left. now apply HF.
        * exists 65%Z. apply zinter_in. split; [|lia]. apply with65_in. right. split; [reflexivity|]. exists g.
          apply zinter_in. rewrite HF. split; [assumption|lia].
    - rewrite <- with65_sends by assumption. split; [intros [H|[H _]]; [assumption|contradiction]|auto].
  Qed.
  Lemma sends_range f : sends E d f -> (1 <= f <= 192)%Z.
  Proof using HF Hrange.
    intros [H|[(-> & _)|(-> & _)]]; [|lia..]. now apply Hrange, HF.
  Qed.
  Lemma primary_bitmap : make_bitmap 0 (zinter_range 1 65 (with1 F)) = bm1.
  Proof using HF Hbm. clear Hrange.
    destruct Hbm as (L1 & L2 & L3 & H). destruct (make_bitmap_spec 0 (zinter_range 1 65 (with1 F))) as [A1 A2].
    { apply Forall_forall. intros x Hx. apply zinter_in in Hx as [_ Hx]. lia. }
    apply bitmap_ext; auto. intros i Hi. rewrite A2 by assumption. destruct (H i Hi) as [B _]. rewrite B.
    rewrite zinter_in, with1_sends. simpl. intuition lia.
  Qed.
  Lemma secondary_bitmap : make_bitmap 64 (secondary_of F) = bm2.
  Proof using HF Hbm. clear Hrange.
    destruct Hbm as (L1 & L2 & L3 & H). destruct (make_bitmap_spec 64 (secondary_of F)) as [A1 A2].
    { apply Forall_forall. intros x Hx. apply zinter_in in Hx as [_ Hx]. lia. }
    apply bitmap_ext; auto. intros i Hi. rewrite A2 by assumption. destruct (H i Hi) as [_ [B _]]. rewrite B.
    unfold secondary_of. rewrite zinter_in, with65_sends by lia. intuition lia.
  Qed.
  Lemma tertiary_bitmap : make_bitmap 128 (tertiary_of F) = bm3.
  Proof using HF Hbm. clear Hrange.
    destruct Hbm as (L1 & L2 & L3 & H). destruct (make_bitmap_spec 128 (tertiary_of F)) as [A1 A2].
    { apply Forall_forall. intros x Hx. apply zinter_in in Hx as [_ Hx]. lia. }
    apply bitmap_ext; auto. intros i Hi. rewrite A2 by assumption. destruct (H i Hi) as [_ [_ B]]. rewrite B.
    unfold tertiary_of. rewrite zinter_in, HF. unfold sends. intuition lia.
  Qed.
  Lemma mem1 : zmem 1 (with1 F) = bit bm1 1.
  Proof using HF Hbm. clear Hrange.
    destruct Hbm as (L1 & L2 & L3 & H). destruct (H 1%Z ltac:(lia)) as [B _].
    destruct (zmem 1 (with1 F)) eqn:Hm; destruct (bit bm1 1) eqn:Hb; try reflexivity; exfalso.
    - apply zmem_in, with1_sends, B in Hm. congruence.
    - apply zmem_not_in in Hm. apply Hm, with1_sends, B. reflexivity.
  Qed.
  Lemma mem65 G : (forall f, In f G <-> sends E d f /\ f <> 1%Z) -> zmem 65 G = bit bm2 1.
  Proof using Hbm. clear Hrange HF.
    intro HG. destruct Hbm as (L1 & L2 & L3 & H). destruct (H 1%Z ltac:(lia)) as [_ [B _]].
    destruct (zmem 65 G) eqn:Hm; destruct (bit bm2 1) eqn:Hb; try reflexivity; exfalso.
    - apply zmem_in, HG in Hm as [Hm _]. apply B in Hm. congruence.
    - apply zmem_not_in in Hm. apply Hm, HG. split; [apply B; reflexivity|lia].
  Qed.
  Lemma bit2_bit1 : bit bm2 1 = true -> bit bm1 1 = true.
  Proof using Hbm. clear Hrange HF.
    destruct Hbm as (L1 & L2 & L3 & H). destruct (H 1%Z ltac:(lia)) as [B1 [B2 _]]. rewrite B1, B2.
    intros [H'|[(_ & g & Hg & H')|(? & _)]]; [| |lia]; right; right; (split; [reflexivity|]).
    - exists 65%Z. split; [lia|assumption]. - exists g. split; [lia|assumption].
  Qed.
  Lemma announced_sends f : In f data_fields -> (announced bm1 bm2 bm3 f = true <-> sends E d f).
  Proof using Hbm. clear Hrange HF.
    intro Hf. apply data_fields_in in Hf. destruct Hbm as (L1 & L2 & L3 & H). unfold announced.
    destruct (Z.leb_spec f 64); [|destruct (Z.leb_spec f 128)].
    - destruct (H f ltac:(lia)) as [B _]. exact B.
    - destruct (H (f - 64)%Z ltac:(lia)) as [_ [B _]]. rewrite B. replace (64 + (f - 64))%Z with f by lia. tauto.
    - destruct (H (f - 128)%Z ltac:(lia)) as [_ [_ B]]. rewrite B. replace (128 + (f - 128))%Z with f by lia. tauto.
  Qed.
  Lemma final_fields G : zsorted G -> (forall f, In f G <-> sends E d f /\ f <> 1%Z /\ f <> 65%Z) ->
    G = filter (announced bm1 bm2 bm3) data_fields.
  Proof using HF Hrange Hbm.
    intros Hs HG. apply zsorted_ext; [assumption|apply filter_sorted, data_fields_sorted|]. intro f.
    rewrite HG, filter_In. split.
    - intros (H1 & H2 & H3). pose proof (sends_range _ H1). assert (Hd : In f data_fields) by (apply data_fields_in; lia).
      split; [assumption|]. now apply announced_sends.
    - intros [Hd Ha]. apply announced_sends in Ha; [|assumption]. apply data_fields_in in Hd. intuition lia.
  Qed.
End Sets.

(** ** After the field numbers are known *)
Definition encode_msg (E : pyenv) (sp : spec) (h t : bytes) (F : zset) : EM bytes :=
  p <- spec_get sp (u "p") ;;
  bp <- encode_bitmap E (u "p") p 0 false (zinter_range 1 65 (with1 F)) ;;
  r <- (if zmem 1 (with1 F) then
          fs <- spec_get sp (u "1") ;;
          b <- encode_bitmap E (u "1") fs 64 false (secondary_of F) ;;
          ret (b, zremove 1 (with1 F))
        else ret ([], with1 F)) ;;
  let '(bs, fields) := r in
  r <- (if zmem 65 fields then
          fs <- spec_get sp (u "1") ;;
          b <- encode_bitmap E (u "1") fs 128 true (tertiary_of F) ;;
          ret (b, zremove 65 fields)
        else ret ([], fields)) ;;
  let '(bt, fields) := r in
  encode_fields E sp fields (h ++ t ++ bp ++ bs ++ bt).

Definition pops (d : pdoc) : pdoc := ppop (KStr (u "65")) (ppop (KStr (u "1")) d).

Lemma encode_body_eq E sp d : encode_body E sp (mkE d []) =
  match encode_header E sp (mkE (pops d) []) with
  | (Raise x, st) => (Raise x, st)
  | (Ok h, st) =>
    match encode_type E sp st with
    | (Raise x, st) => (Raise x, st)
    | (Ok t, st) =>
      match numeric_keys E (map fst (s_dec st)) with
      | inl false => eraise (u "Dictionary contains invalid fields " ++ list_repr (other_keys (map fst (s_dec st)))) (u "p") st
      | inl true => (Raise XValueError, st)
      | inr ks =>
          if negb (zsubset_range 1 193 (zset_of ks)) then
            eraise (u "Dictionary contains fields outside of 1-192 range "
                    ++ list_repr (map zstr (zdiff_range 1 193 (zset_of ks)))) (u "p") st
          else encode_msg E sp h t (zset_of ks) st
      end
    end
  end.
Proof.
  unfold encode_body, bind at 1, epop_dec at 1. cbn [s_dec s_enc]. unfold bind at 1, epop_dec at 1. cbn [s_dec s_enc].
  change (ppop (KStr (u "65")) (ppop (KStr (u "1")) d)) with (pops d).
  unfold bind at 1. destruct (encode_header E sp (mkE (pops d) [])) as [[h|x] st1]; [|reflexivity].
  unfold bind at 1. destruct (encode_type E sp st1) as [[t|x] st2]; [|reflexivity].
  unfold bind at 1, eread_dec. destruct (numeric_keys E (map fst (s_dec st2))) as [[|]|ks]; [reflexivity..|].
  cbv zeta. destruct (negb (zsubset_range 1 193 (zset_of ks))); reflexivity.
Qed.

Lemma pget_pset_other k k' v d : k <> k' -> pget (KStr k) (pset (KStr k') v d) = pget (KStr k) d.
Proof. intro H. apply dget_dset_other; [apply key_eqb_spec|congruence]. Qed.
Lemma pget_pset k v d : pget (KStr k) (pset (KStr k) v d) = Some v.
Proof. apply dget_dset_same, key_eqb_spec. Qed.
Lemma pops_other k d : k <> u "1" -> k <> u "65" -> pget (KStr k) (pops d) = value d k.
Proof. intros H1 H2. unfold pops, pget, ppop, value. rewrite !dget_dpop_other; [reflexivity|apply key_eqb_spec|congruence|apply key_eqb_spec|congruence]. Qed.
Lemma pops_keys d k : is_dict d -> (In k (map fst (pops d)) <-> In k (map fst d) /\ k <> KStr (u "1") /\ k <> KStr (u "65")).
Proof.
  intro Hd. unfold pops, ppop.
  assert (H1 := dpop_nodup key_eqb key_eqb_spec (KStr (u "1")) d Hd).
  assert (A : forall k0 k (d : pdoc), NoDup (map fst d) -> (In k (map fst (dpop key_eqb k0 d)) <-> In k (map fst d) /\ k <> k0)).
  { clear. intros k0 k d Hd. rewrite !(dget_some_in key_eqb key_eqb_spec). destruct (key_eqb_spec k k0) as [->|Hn].
    - split; [|tauto]. intros H. exfalso. apply (dget_some_in key_eqb key_eqb_spec) in H.
      revert H. now apply (dpop_removes key_eqb key_eqb_spec).
    - rewrite dget_dpop_other by (apply key_eqb_spec || assumption). tauto. }
  rewrite A by assumption. rewrite A by assumption. tauto.
Qed.

Lemma bput_fresh k t e st : ~ In k (map fst (s_enc st)) ->
  bput k t e st = mkE (pset (KStr k) (VStr t) (s_dec st)) (s_enc st ++ [(k, e)]).
Proof. intro H. unfold bput. f_equal. apply dset_fresh; [apply str_eqb_spec|assumption]. Qed.
Lemma bput_last k t e e0 st enc : s_enc st = enc ++ [(k, e0)] -> ~ In k (map fst enc) ->
  bput k t e st = mkE (pset (KStr k) (VStr t) (s_dec st)) (enc ++ [(k, e)]).
Proof. intros H1 H. unfold bput. f_equal. rewrite H1. apply dset_last; [apply str_eqb_spec|assumption]. Qed.

Lemma zstr_name f : In f data_fields -> zstr f <> u "h" /\ zstr f <> u "t" /\ zstr f <> u "p" /\ zstr f <> u "1" /\ zstr f <> u "65".
Proof.
  intro H. apply data_fields_in in H. split; [apply zstr_neq_h; lia|]. split; [apply zstr_neq_t; lia|].
  split; [apply zstr_neq_p; lia|]. split; [apply zstr_neq_1; lia|]. intro He. change (u "65") with (zstr 65) in He.
  apply zstr_inj in He; lia.
Qed.
Lemma zstr_nodup l : (forall f, In f l -> (0 <= f)%Z) -> NoDup l -> NoDup (map zstr l).
Proof.
  induction l as [|f l IH]; intros Hp H; simpl; [constructor|]. inversion H; subst. constructor.
  - intro Hi. apply in_map_iff in Hi as (g & He & Hg). apply zstr_inj in He; [subst; contradiction| |]; apply Hp; simpl; auto.
  - apply IH; auto. intros; apply Hp; now right.
Qed.
