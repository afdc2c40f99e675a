(** * DecoderFacts: what each function of the decoder does, in terms of Wire. *)
From Coq Require Import ZifyBool ZifyNat ZifyN Sorted Permutation.
From Verif Require Import PyBase BaseFacts Types Decoder Numerals NumeralFacts Wire DecodeFault Shown.
Ltac Zify.zify_post_hook ::= Z.div_mod_to_equations.

Lemma HEX_eq b : HEX b = py_HEX b.
Proof.
  induction b as [|x b IH]; [reflexivity|]. rewrite py_HEX_cons, <- IH. pose proof (b2n_lt x).
  unfold HEX. cbn [flat_map app]. rewrite !HEX_digit_eq by lia. reflexivity.
Qed.
Lemma HEX_cons b s : HEX (b :: s) = hexdig_upper (b2n b / 16) :: hexdig_upper (b2n b mod 16) :: HEX s.
Proof. rewrite !HEX_eq. apply py_HEX_cons. Qed.
Lemma py_upper_hex b : py_upper (py_hex b) = HEX b.
Proof. now rewrite HEX_eq. Qed.

Lemma hexdig_lower_range v : (v < 16)%N ->
  is_digit (hexdig_lower v) = (v <? 10)%N /\ c_space (hexdig_lower v) = false
  /\ (hexdig_lower v <? 127)%N = true /\ (hexdig_lower v =? 95)%N = false
  /\ (hexdig_lower v =? 43)%N = false /\ (hexdig_lower v =? 45)%N = false
  /\ ((v < 10)%N -> (hexdig_lower v - 48 = v)%N).
Proof. intro H. unfold hexdig_lower, is_digit, c_space. destruct (v <? 10)%N eqn:E; repeat split; lia. Qed.

Lemma int_digits_hex raw : forall prev acc cnt, prev = true \/ raw <> [] ->
  int_digits (py_hex raw) prev acc cnt
  = option_map (fun v => (v, cnt + N.of_nat (2 * length raw))%N) (bcd_from acc raw).
Proof.
  induction raw as [|b raw IH]; intros prev acc cnt H.
  - destruct H as [->|H]; [|congruence]. cbn. do 2 f_equal. lia.
  - clear H. pose proof (b2n_lt b).
    change (py_hex (b :: raw)) with (hexdig_lower (b2n b / 16) :: hexdig_lower (b2n b mod 16) :: py_hex raw).
    cbn [int_digits bcd_from].
    destruct (hexdig_lower_range (b2n b / 16)) as (-> & Hs1 & _ & -> & _ & _ & Hv1); [lia|].
    destruct (hexdig_lower_range (b2n b mod 16)) as (-> & Hs2 & _ & -> & _ & _ & Hv2); [lia|].
    destruct (b2n b / 16 <? 10)%N eqn:E1.
    + destruct (b2n b mod 16 <? 10)%N eqn:E2; cbn [andb].
      * rewrite IH by auto. rewrite Hv1, Hv2 by lia.
        replace ((acc * 10 + b2n b / 16) * 10 + b2n b mod 16)%N
          with (acc * 100 + b2n b / 16 * 10 + b2n b mod 16)%N by ring.
        destruct (bcd_from _ raw); [|reflexivity]. cbn [option_map length]. do 2 f_equal. lia.
      * cbn [forallb]. rewrite Hs2. reflexivity.
    + cbn [forallb andb]. rewrite Hs1. now rewrite andb_false_r.
Qed.
Lemma map_int_char_hex E raw : map (int_char E) (py_hex raw) = py_hex raw.
Proof.
  induction raw as [|b raw IH]; [reflexivity|]. pose proof (b2n_lt b).
  change (py_hex (b :: raw)) with (hexdig_lower (b2n b / 16) :: hexdig_lower (b2n b mod 16) :: py_hex raw).
  cbn [map]. rewrite IH. unfold int_char.
  destruct (hexdig_lower_range (b2n b / 16)) as (_ & _ & -> & _); [lia|].
  destruct (hexdig_lower_range (b2n b mod 16)) as (_ & _ & -> & _); [lia|]. reflexivity.
Qed.
Lemma py_int_hex E raw n : raw <> [] ->
  (py_int E (py_hex raw) = Some n
   <-> exists v, bcd_value raw = Some v /\ n = Z.of_N v /\ within_digit_limit E (2 * length raw)).
Proof.
  intro Hne. unfold py_int. rewrite map_int_char_hex.
  destruct raw as [|b raw]; [congruence|]. pose proof (b2n_lt b).
  change (py_hex (b :: raw)) with (hexdig_lower (b2n b / 16) :: hexdig_lower (b2n b mod 16) :: py_hex raw).
  cbn [lstrip_c].
  destruct (hexdig_lower_range (b2n b / 16)) as (_ & -> & _ & _ & -> & -> & _); [lia|].
  change (hexdig_lower (b2n b / 16) :: hexdig_lower (b2n b mod 16) :: py_hex raw) with (py_hex (b :: raw)).
  unfold int_unsigned, bcd_value, within_digit_limit. rewrite int_digits_hex by auto.
  destruct (bcd_from 0 (b :: raw)) as [v|]; cbn [option_map].
  - destruct (int_max_digits E) as [m|]; cbn [option_map].
    + destruct (m <? 0 + N.of_nat (2 * length (b :: raw)))%N eqn:Em; cbn [option_map]; split; intro H0.
      * discriminate.
      * destruct H0 as (v' & _ & _ & Hw). specialize (Hw m eq_refl). lia.
      * injection H0 as <-. exists v. repeat split. intros m' [= <-]. lia.
      * destruct H0 as (v' & [= <-] & -> & _). reflexivity.
    + split; intro H0.
      * injection H0 as <-. exists v. repeat split. discriminate.
      * destruct H0 as (v' & [= <-] & -> & _). reflexivity.
  - split; [discriminate|]. intros (v & H0 & _). discriminate.
Qed.

(** ** Running monadic code *)
Lemma sset_sset {V} k (v v' : V) d : sset k v' (sset k v d) = sset k v' d.
Proof. apply dset_dset, str_eqb_spec. Qed.
Lemma sget_sset {V} k (v : V) d : sget k (sset k v d) = Some v.
Proof. apply dget_dset_same, str_eqb_spec. Qed.

Lemma pair_ok_inj {X A S} (a a' : A) (s s' : S) : (@Ok X A a, s) = (Ok a', s') -> a = a' /\ s = s'.
Proof. intro H. injection H. auto. Qed.

Lemma bind_ret_l {X S A B} (a : A) (k : A -> M X S B) st : bind (ret a) k st = k a st.
Proof. reflexivity. Qed.
Lemma bind_ok {X S A B} (m : M X S A) (k : A -> M X S B) st b st' :
  bind m k st = (Ok b, st') <-> exists a st1, m st = (Ok a, st1) /\ k a st1 = (Ok b, st').
Proof.
  unfold bind. destruct (m st) as [[a|x] st1]; split; intro H.
  - eauto. - destruct H as (a' & st1' & H1 & H2). injection H1 as <- <-. assumption.
  - discriminate. - destruct H as (a' & st1' & H1 & H2). discriminate.
Qed.
Lemma bind_raise {X S A B} (m : M X S A) (k : A -> M X S B) st x st' :
  bind m k st = (Raise x, st') <->
  m st = (Raise x, st') \/ exists a st1, m st = (Ok a, st1) /\ k a st1 = (Raise x, st').
Proof.
  unfold bind. destruct (m st) as [[a|y] st1]; split; intro H.
  - right. eauto.
  - destruct H as [H|(a' & st1' & H1 & H2)]; [discriminate|]. injection H1 as <- <-. assumption.
  - left. injection H as -> ->. reflexivity.
  - destruct H as [H|(a' & st1' & H1 & H2)]; [injection H as -> ->; reflexivity|discriminate].
Qed.

(** [x] stands at position [idx] of the input and ends at [idx']. *)
Definition stands (s : bytes) (idx : Z) (x : bytes) (idx' : Z) : Prop :=
  exists pre post, s = pre ++ x ++ post /\ zlen pre = idx /\ idx' = (idx + zlen x)%Z.

Lemma stands_slice s idx n :
  (0 <= idx <= zlen s)%Z -> (0 <= n)%Z -> zlen (py_slice s idx (idx + n)) = n ->
  stands s idx (py_slice s idx (idx + n)) (idx + n).
Proof.
  intros Hi Hn Hl. destruct (py_slice_split s idx n Hi Hn Hl) as [H1 H2].
  exists (firstn (Z.to_nat idx) s), (skipn (Z.to_nat (idx + n)) s).
  split; [exact H1|]. unfold zlen in *. rewrite firstn_length. lia.
Qed.
Lemma stands_slice_eq s idx x idx' n :
  stands s idx x idx' -> zlen x = n -> py_slice s idx (idx + n) = x.
Proof. intros (pre & post & -> & <- & ->) <-. apply py_slice_app. Qed.
Lemma stands_bounds s idx x idx' : stands s idx x idx' -> (0 <= idx <= idx' /\ idx' <= zlen s)%Z.
Proof. intros (pre & post & -> & <- & ->). rewrite !zlen_app.
  pose proof (zlen_nonneg pre). pose proof (zlen_nonneg x). pose proof (zlen_nonneg post). lia. Qed.
Lemma app_len_inv {A} (a b c d : list A) : length a = length c -> a ++ b = c ++ d -> a = c /\ b = d.
Proof. revert c; induction a as [|x a IH]; intros [|y c] Hl H; try discriminate; [auto|].
  simpl in *. injection H as -> H. destruct (IH c) as [-> ->]; auto. Qed.
Lemma stands_app s idx x idx1 y idx2 :
  stands s idx x idx1 -> stands s idx1 y idx2 -> stands s idx (x ++ y) idx2.
Proof.
  intros (pre & post & -> & <- & ->) (pre2 & post2 & H & Hl & ->).
  rewrite app_assoc in H.
  apply app_len_inv in H as [<- ->]; [|unfold zlen in *; rewrite app_length; lia].
  exists pre, post2. rewrite zlen_app, <- app_assoc. repeat split; lia.
Qed.
Lemma stands_app_inv s idx x y idx2 :
  stands s idx (x ++ y) idx2 -> stands s idx x (idx + zlen x) /\ stands s (idx + zlen x) y idx2.
Proof.
  intros (pre & post & -> & <- & ->). split.
  - exists pre, (y ++ post). rewrite <- app_assoc. auto.
  - exists (pre ++ x), post. rewrite zlen_app, zlen_app, <- !app_assoc. repeat split; lia.
Qed.
Lemma stands_nil s idx : (0 <= idx <= zlen s)%Z -> stands s idx [] idx.
Proof. intro H. exists (firstn (Z.to_nat idx) s), (skipn (Z.to_nat idx) s).
  unfold zlen in *. rewrite firstn_length. split; [symmetry; apply firstn_skipn|]. simpl. lia. Qed.
Lemma zlen_zero {A} (l : list A) : zlen l = 0%Z -> l = [].
Proof. destruct l; [reflexivity|]. unfold zlen. simpl. lia. Qed.

Lemma nibbles_eq fs : str_eqb (prop_default (fs_len_count fs) str_bytes) str_nibbles = in_nibbles fs.
Proof. unfold prop_default, in_nibbles. destruct (fs_len_count fs); reflexivity. Qed.

Lemma byte_len_occupies fs n k :
  occupies fs n k <-> k = byte_len (prop_default (fs_len_count fs) str_bytes) n.
Proof.
  unfold occupies, byte_len. rewrite nibbles_eq. destruct (in_nibbles fs); [|reflexivity].
  pose proof (Zodd_mod n) as H1. pose proof (Zeven_mod n).
  rewrite Zodd_mod. destruct (Zeq_bool (n mod 2) 1) eqn:E.
  - apply Zeq_bool_eq in E. lia.
  - apply Zeq_bool_neq in E. lia.
Qed.

(** ** Pads *)
Lemma firstn1_pad o : firstn 1 (prop_default o []) = match pad_char o with Some c => [c] | None => [] end.
Proof. destruct o as [[|c p]|]; reflexivity. Qed.

Lemma last_split {A} (d : list A) : d <> [] -> exists i x, d = i ++ [x].
Proof. intro H. destruct (exists_last H) as (i & x & ->). eauto. Qed.
Lemma skipn_last {A} (i : list A) x : skipn (length (i ++ [x]) - 1) (i ++ [x]) = [x].
Proof. rewrite app_length. simpl. replace (length i + 1 - 1)%nat with (length i) by lia.
  rewrite skipn_app, skipn_all, Nat.sub_diag. reflexivity. Qed.
Lemma removelast_last {A} (i : list A) x : removelast (i ++ [x]) = i.
Proof. apply removelast_last. Qed.

Lemma formatted_draise {A} E ns s msg idx k st r st' :
  formatted E ns (@draise A s msg idx k) st = (r, st') ->
  st' = st /\ (forallb (prints E) ns = true /\ r = Raise (XDecodeError (DecodeError msg s (d_dec st) (d_enc st) idx k))
               \/ forallb (prints E) ns = false /\ r = Raise XValueError).
Proof. unfold formatted, draise, raise. destruct (forallb _ _); intro H; injection H as <- <-; auto. Qed.
Lemma formatted_draise_not {A} E ns s msg idx k st a st' : formatted E ns (@draise A s msg idx k) st = (Ok a, st') -> False.
Proof. intro H. apply formatted_draise in H as (_ & [[_ H]|[_ H]]); discriminate. Qed.

Lemma remove_pad_ok E s idx k fs n st t st' :
  sget k (d_dec st) <> None ->
  (remove_pad_field E s idx k fs n st = (Ok t, st')
   <-> st' = st /\ exists d, sget k (d_dec st) = Some d /\ padded fs d t).
Proof.
  intro Hk. unfold remove_pad_field, formatted. rewrite !firstn1_pad. unfold bind, get_dec, ret.
  destruct (sget k (d_dec st)) as [d|] eqn:Hd; [|congruence]. clear Hk.
  unfold padded.
  assert (HL : forall c, str_eqb (firstn 1 d) [c] = true <-> exists r, d = c :: r).
  { intro c. rewrite str_eqb_eq. destruct d as [|x d]; simpl; split; intro H.
    - discriminate. - destruct H; discriminate.
    - injection H as ->. eauto. - destruct H as [r [= -> _]]. reflexivity. }
  assert (HR : forall c, str_eqb (skipn (length d - 1) d) [c] = true <-> exists r, d = r ++ [c]).
  { intro c. rewrite str_eqb_eq. destruct (list_eq_dec N.eq_dec d []) as [->|Hn].
    - simpl. split; [discriminate|]. intros [[|] H]; discriminate.
    - destruct (last_split d Hn) as (i & x & ->). rewrite skipn_last. split.
      + intros [= ->]. eauto. + intros [r H]. apply app_inj_tail in H as [_ ->]. reflexivity. }
  destruct (pad_char (fs_left_pad fs)) as [c|] eqn:Hl;
  destruct (pad_char (fs_right_pad fs)) as [c'|] eqn:Hr; unfold zlen; cbn [length andb];
  change (0 <? Z.of_nat 1)%Z with true; change (0 <? Z.of_nat 0)%Z with false; cbn [andb].
  - destruct (str_eqb (firstn 1 d) [c]) eqn:E1.
    + apply HL in E1 as [r ->]. simpl skipn. split.
      * intro H; injection H as -> ->. split; [reflexivity|]. exists (c :: t). split; [reflexivity|]. left; eauto.
      * intros (-> & d' & [= <-] & [(x & [= <-] & [= <-])|[H _]]); [reflexivity|].
        exfalso. apply (H c); reflexivity.
    + destruct (str_eqb (skipn (length d - 1) d) [c']) eqn:E2.
      * apply HR in E2 as [r ->]. rewrite removelast_last. split.
        -- intro H; injection H as -> ->. split; [reflexivity|]. exists (t ++ [c']). split; [reflexivity|].
           right. split; [|eauto]. intros x [= <-] Hh.
           destruct (t ++ [c']) as [|y l] eqn:Ey; [discriminate|]. simpl in Hh. injection Hh as ->.
           assert (str_eqb (firstn 1 (c :: l)) [c] = true) by (apply HL; eauto). congruence.
        -- intros (-> & d' & [= <-] & [(x & [= <-] & Hx)|[H (x & [= <-] & Hx)]]).
           ++ assert (str_eqb (firstn 1 (r ++ [c'])) [c] = true) by (apply HL; eauto). congruence.
           ++ apply app_inj_tail in Hx as [-> _]. reflexivity.
      * split; [unfold draise, raise; destruct (forallb _ _); discriminate|].
        intros (-> & d' & [= <-] & [(x & [= <-] & Hx)|[H (x & [= <-] & Hx)]]).
        -- assert (str_eqb (firstn 1 d) [c] = true) by (apply HL; eauto). congruence.
        -- assert (str_eqb (skipn (length d - 1) d) [c'] = true) by (apply HR; eauto). congruence.
  - destruct (str_eqb (firstn 1 d) [c]) eqn:E1.
    + apply HL in E1 as [r ->]. simpl skipn. split.
      * intro H; injection H as -> ->. split; [reflexivity|]. exists (c :: t). split; [reflexivity|]. left; eauto.
      * intros (-> & d' & [= <-] & [(x & [= <-] & [= <-])|[H _]]); [reflexivity|].
        exfalso. apply (H c); reflexivity.
    + split; [unfold draise, raise; destruct (forallb _ _); discriminate|].
      intros (-> & d' & [= <-] & [(x & [= <-] & Hx)|[H (x & Hx & _)]]); [|discriminate].
      assert (str_eqb (firstn 1 d) [c] = true) by (apply HL; eauto). congruence.
  - destruct (str_eqb (skipn (length d - 1) d) [c']) eqn:E2.
    + apply HR in E2 as [r ->]. rewrite removelast_last. split.
      * intro H; injection H as -> ->. split; [reflexivity|]. exists (t ++ [c']). split; [reflexivity|].
        right. split; [discriminate|]. eauto.
      * intros (-> & d' & [= <-] & [(x & Hx & _)|[H (x & [= <-] & Hx)]]); [discriminate|].
        apply app_inj_tail in Hx as [-> _]. reflexivity.
    + split; [unfold draise, raise; destruct (forallb _ _); discriminate|].
      intros (-> & d' & [= <-] & [(x & Hx & _)|[H (x & [= <-] & Hx)]]); [discriminate|].
      assert (str_eqb (skipn (length d - 1) d) [c'] = true) by (apply HR; eauto). congruence.
  - split; [unfold draise, raise; destruct (forallb _ _); discriminate|].
    intros (-> & d' & [= <-] & [(x & Hx & _)|[H (x & Hx & _)]]); discriminate.
Qed.

(** ** Length prefix *)
Lemma len_enc_cases le : (is_binary le /\ str_eqb le str_b = true)
  \/ (~ is_binary le /\ is_bcd le /\ str_eqb le str_b = false /\ str_eqb le str_bcd = true)
  \/ (~ is_binary le /\ ~ is_bcd le /\ str_eqb le str_b = false /\ str_eqb le str_bcd = false).
Proof.
  unfold is_binary, is_bcd, str_b, str_bcd.
  destruct (str_eqb_spec le (u "b")); [auto|]. right. destruct (str_eqb_spec le (u "bcd")); [left|right]; auto.
Qed.
Lemma binary_cases de : (is_binary de /\ str_eqb de str_b = true) \/ (~ is_binary de /\ str_eqb de str_b = false).
Proof. unfold is_binary, str_b. destruct (str_eqb_spec de (u "b")); auto. Qed.
Lemma bcd_not_binary le : is_bcd le -> ~ is_binary le.
Proof. intros -> H. discriminate. Qed.

Lemma decode_length_ok E s idx k fs lt lc st n st' :
  fs_len_type fs = Some (Z.of_nat lt) ->
  length (py_slice (buf_bytes s) idx (idx + Z.of_nat lt)) = lt ->
  (decode_length E s idx k fs (Z.of_nat lt) lc st = (Ok n, st')
   <-> st' = st /\ announces E fs (py_slice (buf_bytes s) idx (idx + Z.of_nat lt)) n).
Proof.
  intros Hlt Hraw. unfold decode_length. set (raw := py_slice _ _ _) in *.
  destruct (Z.eqb_spec (Z.of_nat lt) 0) as [Hz|Hz]; [assert (lt = 0)%nat as -> by lia; clear Hz|].
  - destruct raw as [|]; [|discriminate]. unfold prop. split.
    + destruct (fs_max_len fs) eqn:Hm; intro H; [|discriminate]. injection H as -> ->.
      split; [reflexivity|]. now apply AnnouncesFixed.
    + intros [-> [_ _ Hm|lt' le ml H1 H2]]; [|exfalso; assert (Z.of_nat lt' = Z.of_nat 0) by congruence; lia]. now rewrite Hm.
  - assert (raw <> []) as Hne by (intro Hr; rewrite Hr in Hraw; cbn in Hraw; lia).
    unfold prop. destruct (fs_len_enc fs) as [le|] eqn:Hle.
    2:{ split; [discriminate|]. intros [-> [H1|lt' le ml H1 H2 H3 H4]]; [|congruence]. exfalso. apply Hz. congruence. }
    assert (Hden : forall m, prefix_denotes E le raw m <->
      (if str_eqb le str_b then ret (Z.of_N (from_be raw))
       else if str_eqb le str_bcd then
         match py_int E (py_hex raw) with
         | Some n => ret n
         | None => draise s (u "Failed to decode field length, invalid BCD data") idx k
         end
       else
         match bytes_decode E le raw with
         | CLookup => draise s (u "Failed to decode field length, unknown encoding specified") idx k
         | CFail => draise s (u "Failed to decode field length, invalid data") idx k
         | COk t =>
             match py_int E t with
             | Some n => ret n
             | None => draise s (u "Failed to decode field length, non-numeric data") idx k
             end
         end) st = (Ok m, st)).
    { intro m. destruct (len_enc_cases le) as [[Hb ->]|[(Hb & Hc & -> & ->)|(Hb & Hc & -> & ->)]].
      - unfold ret. split.
        + intros [_ ->|v Hc|t Hc]; [now rewrite from_be_value| |congruence]. now apply bcd_not_binary in Hc.
        + intro H. injection H as <-. apply PrefixBinary; [assumption|]. now rewrite from_be_value.
      - split.
        + intros [Hx|v _ H1 H2 H3|t Hx Hy]; [congruence| |congruence].
          assert (py_int E (py_hex raw) = Some m) as -> by (apply py_int_hex; eauto). reflexivity.
        + destruct (py_int E (py_hex raw)) as [m'|] eqn:Hp; [|discriminate].
          intro H. injection H as <-. apply py_int_hex in Hp as (v & H1 & H2 & H3); [|assumption].
          eapply PrefixBcd; eauto.
      - split.
        + intros [Hx|v Hx|t _ _ H1 H2]; [congruence|congruence|]. apply py_int_text in H2. rewrite H1, H2. reflexivity.
        + destruct (bytes_decode E le raw) as [t| |] eqn:Ht; try discriminate.
          destruct (py_int E t) as [m'|] eqn:Hp; [|discriminate]. intro H. injection H as <-.
          apply py_int_text in Hp. eapply PrefixText; eauto. }
    rewrite bind_ret_l.
    match goal with |- context [bind ?m _ st] => set (M0 := m) in * end.
    rewrite bind_ok. split.
    + intros (m & st1 & H1 & H2).
      assert (st1 = st) as ->.
      { clear -H1. subst M0. unfold ret, draise in H1.
        repeat match goal with H : context [match ?x with _ => _ end _ = _] |- _ => destruct x; try discriminate H
               | H : (if ?x then _ else _) _ = _ |- _ => destruct x end; congruence. }
      apply Hden in H1. destruct (fs_max_len fs) as [ml|] eqn:Hm; [|discriminate].
      unfold bind, ret, formatted in H2. destruct (ml <? m)%Z eqn:El; [now destruct (forallb _ _)|]. injection H2 as <- <-.
      split; [reflexivity|]. eapply AnnouncesVariable; eauto; lia.
    + intros [-> [Hx|lt' le' ml H1 H2 H3 H4 H5 H6 H7]]; [exfalso; apply Hz; congruence|].
      assert (le' = le) by congruence. subst le'. exists n, st. split; [now apply Hden|].
      rewrite H6. unfold bind, ret. replace (ml <? n)%Z with false by lia. reflexivity.
Qed.

Lemma decode_text_ok E s data idx k fs st t st' :
  decode_text_data E s data idx k fs st = (Ok t, st')
  <-> st' = st /\ exists de, fs_data_enc fs = Some de /\ bytes_decode E de data = COk t.
Proof.
  unfold decode_text_data. destruct (fs_data_enc fs) as [de|].
  - destruct (bytes_decode E de data) as [x| |] eqn:Hd; unfold ret, draise; split; intro H.
    + injection H as -> ->. eauto.
    + destruct H as (-> & de' & [= <-] & H). congruence.
    + discriminate.
    + destruct H as (-> & de' & [= <-] & H). congruence.
    + discriminate.
    + destruct H as (-> & de' & [= <-] & H). congruence.
  - split; [discriminate|]. intros (_ & de & H & _). discriminate.
Qed.

Definition put (k : pystr) (lenb data : bytes) (text : pystr) (st : dstate) : dstate :=
  mkD (sset k text (d_dec st)) (sset k (mkEntry lenb data) (d_enc st)).

Lemma prop_ok {S A} (o : option A) nm (st : S) a st' :
  prop o nm st = (Ok a, st') <-> o = Some a /\ st' = st.
Proof. unfold prop, ret, raise. destruct o; split; intro H.
  - injection H as -> ->. auto. - destruct H as [[= ->] ->]. reflexivity.
  - discriminate. - destruct H; discriminate. Qed.

Lemma set_enc_data_put k lenb st d e :
  sget k (d_enc st) = Some e -> e_len e = lenb ->
  set_enc_data k d st = (Ok tt, mkD (d_dec st) (sset k (mkEntry lenb d) (d_enc st))).
Proof. intros H1 <-. unfold set_enc_data, bind, get_enc. rewrite H1. reflexivity. Qed.

Lemma decode_field_sound E s idx k fs st idx' st' :
  (0 <= idx <= zlen (buf_bytes s))%Z ->
  decode_field E s idx k fs st = (Ok idx', st') ->
  exists lenb data text, field_wire E fs lenb data text
    /\ stands (buf_bytes s) idx (lenb ++ data) idx' /\ st' = put k lenb data text st.
Proof.
  intros Hi H. unfold decode_field in H.
  apply bind_ok in H as (lt & st1 & H1 & H). apply prop_ok in H1 as [Hlt ->].
  apply bind_ok in H as (? & st2 & H2 & H). injection H2 as _ <-.
  apply bind_ok in H as (? & st3 & H3 & H). injection H3 as _ <-.
  destruct (Z.eqb_spec (zlen (py_slice (buf_bytes s) idx (idx + lt))) lt) as [Hraw|Hraw]; cbn [negb] in H; [|now apply formatted_draise_not in H].
  destruct (Z_of_nat_complete lt) as [lt' ->]; [rewrite <- Hraw; apply zlen_nonneg|]. rename lt' into lt.
  set (raw := py_slice (buf_bytes s) idx (idx + Z.of_nat lt)) in *.
  apply bind_ok in H as (n & st4 & H4 & H).
  apply decode_length_ok in H4 as [-> Han]; [|assumption|subst raw; unfold zlen in Hraw; lia].
  pose proof (stands_slice (buf_bytes s) idx (Z.of_nat lt) Hi ltac:(lia) Hraw) as Hst.
  fold raw in Hst, Han.
  destruct (Z.eqb_spec n 0) as [->|Hn0].
  - injection H as <- <-. exists raw, [], []. split.
    + exists 0%Z. split; [assumption|]. split; [|now apply CarriesNothing].
      unfold occupies. change (zlen (@nil byte)) with 0%Z. destruct (in_nibbles fs); lia.
    + rewrite app_nil_r. split; [assumption|]. reflexivity.
  - set (bl := byte_len _ n) in *.
    set (data := py_slice (buf_bytes s) (idx + Z.of_nat lt) (idx + Z.of_nat lt + bl)) in *.
    apply bind_ok in H as (? & st5 & H5 & H).
    erewrite set_enc_data_put in H5 by (cbn; rewrite ?sget_sset; reflexivity).
    injection H5 as _ <-.
    destruct (Z.eqb_spec (zlen data) bl) as [Hdl|]; cbn [negb] in H; [|now apply formatted_draise_not in H].
    pose proof (zlen_nonneg data) as Hnn.
    assert (Hst2 : stands (buf_bytes s) (idx + Z.of_nat lt) data (idx + Z.of_nat lt + bl)).
    { apply stands_slice; [apply stands_bounds in Hst; lia|lia|assumption]. }
    assert (Hoc : occupies fs n (zlen data)) by (apply byte_len_occupies; exact Hdl).
    apply bind_ok in H as (de & st6 & H6 & H). apply prop_ok in H6 as [Hde ->].
    apply bind_ok in H as (? & st7 & H7 & H). injection H as <- <-.
    pose proof (stands_app _ _ _ _ _ _ Hst Hst2) as Hst3.
    destruct (binary_cases de) as [[Hb Eb]|[Hb Eb]]; rewrite Eb in H7.
    + apply bind_ok in H7 as (? & st8 & H8 & H7). injection H8 as _ <-.
      rewrite nibbles_eq, py_upper_hex in H7. cbn [d_dec d_enc] in H7.
      destruct (in_nibbles fs && Z.odd n) eqn:Eo.
      * apply bind_ok in H7 as (t & st9 & H9 & H7). injection H7 as _ <-.
        apply remove_pad_ok in H9 as (-> & d & Hd & Hp); cbn in *; rewrite ?sget_sset in *; [|congruence].
        injection Hd as <-. exists raw, data, t. split.
        { exists n. split; [assumption|]. split; [assumption|]. eapply CarriesPaddedHex; eauto. }
        split; [assumption|]. unfold put. cbn. now rewrite !sset_sset.
      * injection H7 as _ <-. exists raw, data, (HEX data). split.
        { exists n. split; [assumption|]. split; [assumption|]. eapply CarriesHex; eauto. }
        split; [assumption|]. unfold put. cbn. now rewrite !sset_sset.
    + apply bind_ok in H7 as (t & st8 & H8 & H7). apply decode_text_ok in H8 as (-> & de' & Hde' & Ht).
      injection H7 as _ <-. assert (de' = de) by congruence. subst de'. exists raw, data, t. split.
      { exists n. split; [assumption|]. split; [assumption|]. eapply CarriesText; eauto. }
      split; [assumption|]. unfold put. cbn. now rewrite !sset_sset.
Qed.

Lemma announces_len E fs lenb n lt :
  announces E fs lenb n -> fs_len_type fs = Some lt -> zlen lenb = lt.
Proof. intros [H1 -> _|lt' le ml H1 H2 <- _ _ _ _] H; rewrite H1 in H; now injection H as <-. Qed.
Lemma announces_len_type E fs lenb n : announces E fs lenb n -> fs_len_type fs = Some (zlen lenb).
Proof. intros [H1 -> _|lt' le ml H1 H2 <- _ _ _ _]; assumption. Qed.

Lemma decode_field_complete E s idx k fs st idx' lenb data text :
  field_wire E fs lenb data text -> stands (buf_bytes s) idx (lenb ++ data) idx' ->
  decode_field E s idx k fs st = (Ok idx', put k lenb data text st).
Proof.
  intros (n & Han & Hoc & Hca) Hst.
  destruct (stands_app_inv _ _ _ _ _ Hst) as [Hs1 Hs2].
  pose proof (announces_len_type _ _ _ _ Han) as Hlt. set (lt := length lenb) in *.
  unfold decode_field. apply bind_ok. exists (Z.of_nat lt), st. split; [now apply prop_ok|].
  assert (Hraw : py_slice (buf_bytes s) idx (idx + Z.of_nat lt) = lenb)
    by (eapply stands_slice_eq; [exact Hs1|reflexivity]).
  rewrite Hraw. apply bind_ok. eexists _, _. split; [reflexivity|].
  apply bind_ok. eexists _, _. split; [reflexivity|].
  replace (zlen lenb =? Z.of_nat lt)%Z with true by (unfold zlen; subst lt; lia). cbn [negb].
  apply bind_ok. exists n. eexists. split.
  { apply decode_length_ok; [assumption|now rewrite Hraw|]. rewrite Hraw. split; [reflexivity|assumption]. }
  replace (idx + Z.of_nat lt)%Z with (idx + zlen lenb)%Z by reflexivity.
  destruct (Z.eqb_spec n 0) as [->|Hn0].
  - assert (data = []) as ->.
    { apply zlen_zero. unfold occupies in Hoc. destruct (in_nibbles fs); lia. }
    assert (text = []) as -> by (destruct Hca; congruence).
    destruct Hst as (pre & post & H1 & H2 & ->). unfold ret, put. rewrite app_nil_r. reflexivity.
  - apply byte_len_occupies in Hoc. set (bl := byte_len _ n) in *. rewrite <- Hoc.
    assert (Hdata : py_slice (buf_bytes s) (idx + zlen lenb) (idx + zlen lenb + zlen data) = data)
      by (eapply stands_slice_eq; [exact Hs2|reflexivity]).
    rewrite Hdata. apply bind_ok. eexists _, _. split.
    { eapply set_enc_data_put; cbn; rewrite ?sget_sset; reflexivity. }
    rewrite Z.eqb_refl. cbn [negb d_dec d_enc].
    assert (Hidx : (idx + zlen lenb + zlen data)%Z = idx').
    { destruct Hst as (pre & post & H1 & H2 & ->). rewrite zlen_app. lia. }
    rewrite Hidx.
    assert (exists de, fs_data_enc fs = Some de) as [de Hde] by (destruct Hca; eauto; congruence).
    apply bind_ok. exists de. eexists. split; [now apply prop_ok|].
    apply bind_ok. eexists tt, _. split; [|reflexivity].
    destruct (binary_cases de) as [[Hb Eb]|[Hb Eb]]; rewrite Eb.
    + apply bind_ok. eexists _, _. split; [reflexivity|]. rewrite nibbles_eq, py_upper_hex. cbn [d_dec d_enc].
      destruct Hca as [?|de' _ Hde' Hb' Eo ->|de' _ Hde' Hb' Eo Hp|de' _ Hde' Hb' Ht]; [congruence| | |].
      * rewrite Eo. unfold ret, put. now rewrite !sset_sset.
      * rewrite Eo. apply bind_ok. exists text. eexists. split.
        { apply remove_pad_ok; cbn; rewrite sget_sset; [discriminate|]. split; [reflexivity|]. eauto. }
        unfold set_dec, put. cbn. now rewrite !sset_sset.
      * congruence.
    + apply bind_ok. exists text. eexists. split.
      { apply decode_text_ok. split; [reflexivity|]. exists de. split; [assumption|].
        destruct Hca as [?|de' _ Hde' Hb' Eo _|de' _ Hde' Hb' Eo Hp|de' _ Hde' Hb' Ht]; congruence. }
      unfold set_dec, put. cbn. now rewrite !sset_sset.
Qed.

(** ** Failure of a field *)
(** A DecodeError of the step on field [k] starting at [idx]: the dicts it
    carries are the final ones, in which only entry [k] was written, with bytes
    really found at [idx]. *)
Definition step_error (s : pybuf) (idx : Z) (k : pystr) (st : dstate) (x : exn) (st' : dstate) : Prop :=
  exists msg pos e t,
    x = XDecodeError (DecodeError msg s (d_dec st') (d_enc st') pos k)
    /\ (pos = idx \/ pos = idx + zlen (e_len e))%Z
    /\ (exists i', stands (buf_bytes s) idx (e_len e ++ e_data e) i')
    /\ st' = put k (e_len e) (e_data e) t st.

Lemma slice_stands_any s idx j : (0 <= idx <= zlen s)%Z ->
  exists i', stands s idx (py_slice s idx j) i'.
Proof.
  intro Hi. unfold py_slice. set (i' := slice_index _ idx). set (j' := slice_index _ j).
  assert (i' = idx) as ->.
  { unfold i', slice_index, zlen in *. replace (idx <? 0)%Z with false by lia. lia. }
  exists (idx + zlen (firstn (Z.to_nat (j' - idx)) (skipn (Z.to_nat idx) s)))%Z.
  exists (firstn (Z.to_nat idx) s), (skipn (Z.to_nat (j' - idx)) (skipn (Z.to_nat idx) s)).
  rewrite firstn_skipn, firstn_skipn. split; [reflexivity|]. split; [|reflexivity].
  unfold zlen in *. rewrite firstn_length. lia.
Qed.
Lemma stands_join s idx x i1 y i2 j : stands s idx x i1 -> j = (idx + zlen x)%Z -> stands s j y i2 ->
  exists i', stands s idx (x ++ y) i'.
Proof. intros H1 -> H2. exists i2. assert (i1 = idx + zlen x)%Z as Hi by (destruct H1 as (? & ? & _ & _ & ->); lia).
  subst. eapply stands_app; eauto. Qed.

(** Numbers that can be shown whatever the input *)
Lemma prefix_shown E fs le raw n : shows_numbers E fs -> fs_len_enc fs = Some le -> fs_len_type fs = Some (zlen raw) ->
  prefix_denotes E le raw n -> raw <> [] -> showable E n.
Proof.
  intros [H1 H2] Hle Hlt Hd Hne. destruct Hd as [Hb ->|v Hb Hv -> Hl|t Hb Hc Ht Hi].
  - apply (H2 le (zlen raw)); auto. rewrite <- from_be_value. pose proof (from_be_bound raw) as B. split; [lia|].
    unfold zlen. apply N2Z.inj_lt in B. rewrite N2Z.inj_pow, nat_N_Z in B. exact B.
  - assert (py_int E (py_hex raw) = Some (Z.of_N v)) as Hp by (apply py_int_hex; eauto). apply int_prints in Hp. now apply prints_showable.
  - eapply int_showable; eauto.
Qed.
Lemma announced_shown E fs raw n : shows_numbers E fs -> announces E fs raw n -> showable E n.
Proof.
  intros H [H1 H2 H3|lt le ml H1 H2 H3 H4 H5 H6 H7].
  - apply H; auto.
  - eapply prefix_shown; eauto; [unfold zlen; congruence|]. intros ->. cbn in H3. congruence.
Qed.

Lemma decode_length_raise E s idx k fs lt lc st x st' :
  fs_len_type fs = Some lt -> zlen (py_slice (buf_bytes s) idx (idx + lt)) = lt ->
  decode_length E s idx k fs lt lc st = (Raise x, st') ->
  st' = st /\ ((exists nm, x = XKeyError nm /\ ~ mandatory fs)
               \/ (x = XValueError /\ ~ shows_numbers E fs)
               \/ exists msg, x = XDecodeError (DecodeError msg s (d_dec st) (d_enc st) idx k)).
Proof.
  intros Hlt Hraw.
  unfold decode_length, prop, mandatory. intro H.
  destruct (lt =? 0)%Z.
  - destruct (fs_max_len fs); [discriminate|]. injection H as <- <-. split; [reflexivity|]. left.
    eexists. split; [reflexivity|]. intuition congruence.
  - destruct (fs_len_enc fs) as [le|] eqn:Hle; [|injection H as <- <-; split; [reflexivity|]; left; eexists; split; [reflexivity|]; intuition congruence].
    rewrite bind_ret_l in H. apply bind_raise in H as [H|(n & st1 & H1 & H)].
    + unfold draise, ret in H.
      repeat match type of H with
      | (if ?c then _ else _) _ = _ => destruct c
      | match ?c with _ => _ end _ = _ => destruct c
      end; try discriminate; injection H as <- <-; split; try reflexivity; right; right; eauto.
    + assert (st1 = st /\ (shows_numbers E fs -> showable E n)) as [-> Hn].
      { clear H. unfold ret, draise in H1.
        destruct (str_eqb le str_b) eqn:Eb; [|destruct (str_eqb le str_bcd) eqn:Ec].
        - injection H1 as <- <-. split; [reflexivity|]. intros [_ Hs]. apply str_eqb_eq in Eb.
          apply (Hs le lt); auto. pose proof (from_be_bound (py_slice (buf_bytes s) idx (idx + lt))) as B. split; [lia|].
          rewrite <- Hraw at 2. unfold zlen. apply N2Z.inj_lt in B. rewrite N2Z.inj_pow, nat_N_Z in B. exact B.
        - destruct (py_int _ _) as [m|] eqn:Hp; [|discriminate]. injection H1 as <- <-. split; [reflexivity|].
          intros _. apply prints_showable. eauto using int_prints.
        - destruct (bytes_decode _ _ _) as [t| |]; try discriminate. destruct (py_int _ _) as [m|] eqn:Hp; [|discriminate].
          injection H1 as <- <-. split; [reflexivity|]. intros _. apply prints_showable. eauto using int_prints. }
      destruct (fs_max_len fs) as [ml|] eqn:Hml; [|injection H as <- <-; split; [reflexivity|]; left; eexists; split; [reflexivity|]; intuition congruence].
      rewrite bind_ret_l in H. destruct (ml <? n)%Z; [|discriminate].
      apply formatted_draise in H as (-> & [[_ H]|[Hf H]]); injection H as ->; (split; [reflexivity|]); right; [right; eauto|left].
      split; [reflexivity|]. intro Hs. specialize (Hn Hs). destruct Hs as [Hs _]. apply prints_showable in Hn.
      assert (prints E ml = true) as Hm by (apply prints_showable; auto). cbn [forallb] in Hf. rewrite Hn, Hm in Hf. discriminate.
Qed.

Lemma decode_field_raise E s idx k fs st x st' :
  (0 <= idx <= zlen (buf_bytes s))%Z ->
  decode_field E s idx k fs st = (Raise x, st') ->
  (exists nm, x = XKeyError nm /\ ~ mandatory fs) \/ (x = XValueError /\ ~ shows_numbers E fs) \/ step_error s idx k st x st'.
Proof.
  intros Hi H. unfold decode_field in H.
  apply bind_raise in H as [H|(lt & st1 & H1 & H)].
  { unfold prop in H. destruct (fs_len_type fs) eqn:Hlt; [discriminate|]. injection H as <- <-.
    left. eexists. split; [reflexivity|]. unfold mandatory. tauto. }
  apply prop_ok in H1 as [Hlt ->].
  apply bind_raise in H as [H|(? & st2 & H2 & H)]; [discriminate|]. injection H2 as _ <-.
  apply bind_raise in H as [H|(? & st3 & H3 & H)]; [discriminate|]. injection H3 as _ <-.
  set (raw := py_slice (buf_bytes s) idx (idx + lt)) in *.
  destruct (slice_stands_any (buf_bytes s) idx (idx + lt) Hi) as [i1 Hst]. fold raw in Hst.
  assert (Hshort : forall msg, step_error s idx k st
    (XDecodeError (DecodeError msg s (sset k [] (d_dec st)) (sset k (mkEntry raw []) (d_enc st)) idx k))
    (mkD (sset k [] (d_dec st)) (sset k (mkEntry raw []) (d_enc st)))).
  { intro msg. exists msg, idx, (mkEntry raw []), []. cbn. rewrite app_nil_r. repeat split; eauto. }
  destruct (Z.eqb_spec (zlen raw) lt) as [Hraw|Hraw]; cbn [negb] in H.
  2:{ apply formatted_draise in H as (-> & [[_ H]|[Hf H]]); injection H as ->; right; [right; apply Hshort|left].
      split; [reflexivity|]. intros [Hs _]. assert (prints E lt = true) as Hm by (apply prints_showable; auto).
      cbn [forallb] in Hf. rewrite Hm in Hf. discriminate. }
  apply bind_raise in H as [H|(n & st4 & H4 & H)].
  { apply decode_length_raise in H as [-> [(nm & -> & Hm)|[Hv|(msg & ->)]]]; [left; eauto|auto|right; right; apply Hshort|assumption|exact Hraw]. }
  destruct (Z_of_nat_complete lt) as [l Hl]; [rewrite <- Hraw; apply zlen_nonneg|].
  assert (Han : st4 = mkD (sset k [] (d_dec st)) (sset k (mkEntry raw []) (d_enc st)) /\ announces E fs raw n).
  { assert (Hr : py_slice (buf_bytes s) idx (idx + Z.of_nat l) = raw) by (unfold raw; now rewrite Hl).
    rewrite Hl in H4. apply decode_length_ok in H4; [rewrite Hr in H4; exact H4|congruence|]. rewrite Hr. unfold zlen in Hraw. lia. }
  destruct Han as [-> Han]. clear H4.
  destruct (Z.eqb_spec n 0) as [Hn0|Hn0]; [discriminate|].
  set (bl := byte_len _ n) in *.
  set (data := py_slice (buf_bytes s) (idx + lt) (idx + lt + bl)) in *.
  assert (Hi2 : (0 <= idx + lt <= zlen (buf_bytes s))%Z).
  { assert (i1 = idx + zlen raw)%Z by (destruct Hst as (? & ? & _ & _ & ->); lia).
    apply stands_bounds in Hst. lia. }
  destruct (slice_stands_any (buf_bytes s) _ (idx + lt + bl) Hi2) as [i2 Hst2]. fold data in Hst2.
  assert (Hst3 : exists i', stands (buf_bytes s) idx (raw ++ data) i')
    by (eapply stands_join; [exact Hst| |exact Hst2]; lia).
  assert (Hlate : forall msg t, step_error s idx k st
    (XDecodeError (DecodeError msg s (sset k t (d_dec st)) (sset k (mkEntry raw data) (d_enc st))
                               (idx + lt) k))
    (mkD (sset k t (d_dec st)) (sset k (mkEntry raw data) (d_enc st)))).
  { intros msg t. exists msg, (idx + lt)%Z, (mkEntry raw data), t. cbn [e_len e_data].
    split; [reflexivity|]. split; [lia|]. split; [assumption|reflexivity]. }
  apply bind_raise in H as [H|(? & st5 & H5 & H)].
  { erewrite set_enc_data_put in H by (cbn; rewrite ?sget_sset; reflexivity). discriminate. }
  erewrite set_enc_data_put in H5 by (cbn; rewrite ?sget_sset; reflexivity).
  injection H5 as _ <-. cbn [d_dec d_enc] in H. rewrite sset_sset in H.
  destruct (Z.eqb_spec (zlen data) bl) as [Hdl|]; cbn [negb] in H.
  2:{ apply formatted_draise in H as (-> & [[_ H]|[Hf H]]); injection H as ->; right; [right; apply Hlate|left].
      split; [reflexivity|]. intros Hs. cbn [forallb] in Hf.
      rewrite (proj2 (prints_showable _ _) (announced_shown _ _ _ _ Hs Han)) in Hf. discriminate. }
  apply bind_raise in H as [H|(de & st6 & H6 & H)].
  { unfold prop in H. destruct (fs_data_enc fs) eqn:Hde; [discriminate|]. injection H as <- <-.
    left. eexists. split; [reflexivity|]. unfold mandatory. tauto. }
  apply prop_ok in H6 as [Hde ->].
  apply bind_raise in H as [H|(? & st7 & H7 & H)]; [|discriminate].
  right. destruct (str_eqb de str_b).
  - apply bind_raise in H as [H|(? & st8 & H8 & H)]; [discriminate|]. injection H8 as _ <-.
    cbn [d_dec d_enc] in H. rewrite sset_sset in H.
    destruct (str_eqb _ str_nibbles && Z.odd n); [|discriminate].
    apply bind_raise in H as [H|(t & st9 & H9 & H)]; [|discriminate].
    unfold remove_pad_field in H. apply bind_raise in H as [H|(d & st10 & H10 & H)].
    { unfold get_dec in H. cbn in H. rewrite sget_sset in H. discriminate. }
    unfold get_dec in H10. cbn in H10. rewrite sget_sset in H10. injection H10 as <- <-.
    destruct (_ && _); [discriminate|]. destruct (_ && _); [discriminate|].
    apply formatted_draise in H as (-> & [[_ H]|[Hf H]]); injection H as ->; [right; apply Hlate|left].
    split; [reflexivity|]. intros Hs. cbn [forallb] in Hf.
    rewrite (proj2 (prints_showable _ _) (announced_shown _ _ _ _ Hs Han)) in Hf. discriminate.
  - right. apply bind_raise in H as [H|(t & st8 & H8 & H)]; [|discriminate].
    unfold decode_text_data in H. rewrite Hde in H.
    destruct (bytes_decode E de data); [discriminate| |]; injection H as <- <-; apply Hlate.
Qed.
