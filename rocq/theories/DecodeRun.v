(** * DecodeRun: the decoder's outcome on a whole message, success or failure. *)
From Coq Require Import ZifyBool ZifyNat ZifyN Sorted Permutation.
From Verif Require Import PyBase BaseFacts Types Numerals NumeralFacts Decoder Wire DecoderFacts.
Ltac Zify.zify_post_hook ::= Z.div_mod_to_equations.

(** ** Bits *)
Lemma in_combine_seq {A} (l : list A) n i x :
  In (i, x) (combine (seq n (length l)) l) <-> (n <= i)%nat /\ nth_error l (i - n) = Some x.
Proof.
  revert n; induction l as [|a l IH]; intro n; simpl.
  - split; [tauto|]. intros [_ H]. destruct (i - n)%nat; discriminate.
  - rewrite IH. split.
    + intros [H|[H1 H2]].
      * injection H as -> ->. split; [lia|]. now rewrite Nat.sub_diag.
      * split; [lia|]. now replace (i - n)%nat with (S (i - S n)) by lia.
    + intros [H1 H2]. destruct (Nat.eq_dec i n) as [->|Hn].
      * rewrite Nat.sub_diag in H2. injection H2 as ->. now left.
      * right. split; [lia|]. replace (i - n)%nat with (S (i - S n)) in H2 by lia. exact H2.
Qed.

Lemma bitmap_fields_in off bm f : In f (bitmap_fields off bm) <-> bit bm (f - off) = true.
Proof.
  unfold bitmap_fields, bit. rewrite in_flat_map. split.
  - intros (b & Hb & H). apply in_flat_map in H as ([i x] & Hi & H).
    apply in_combine_seq in Hi as [_ Hi]. rewrite Nat.sub_0_r in Hi. cbn [fst snd] in H.
    destruct (N.testbit (b2n x) (8 - b)) eqn:Ht; [|destruct H].
    destruct H as [<-|[]].
    assert (1 <= b <= 8)%N by (simpl in Hb; intuition lia).
    replace (1 <=? off + Z.of_nat i * 8 + Z.of_N b - off)%Z with true by lia.
    replace (Z.to_nat ((off + Z.of_nat i * 8 + Z.of_N b - off - 1) / 8)) with i by lia.
    rewrite Hi. rewrite <- Ht. f_equal. lia.
  - intro H. destruct (1 <=? f - off)%Z eqn:E1; [|discriminate].
    destruct (nth_error bm (Z.to_nat ((f - off - 1) / 8))) as [x|] eqn:Hx; [|discriminate].
    set (i := Z.to_nat ((f - off - 1) / 8)) in *.
    exists (Z.to_N ((f - off - 1) mod 8 + 1))%N. split.
    + assert (0 <= (f - off - 1) mod 8 < 8)%Z as Hm by lia. simpl.
      assert (Z.to_N ((f - off - 1) mod 8 + 1) = 1 \/ Z.to_N ((f - off - 1) mod 8 + 1) = 2
        \/ Z.to_N ((f - off - 1) mod 8 + 1) = 3 \/ Z.to_N ((f - off - 1) mod 8 + 1) = 4
        \/ Z.to_N ((f - off - 1) mod 8 + 1) = 5 \/ Z.to_N ((f - off - 1) mod 8 + 1) = 6
        \/ Z.to_N ((f - off - 1) mod 8 + 1) = 7 \/ Z.to_N ((f - off - 1) mod 8 + 1) = 8)%N by lia.
      intuition congruence.
    + apply in_flat_map. exists (i, x). split.
      * apply in_combine_seq. rewrite Nat.sub_0_r. split; [lia|assumption].
      * cbn [fst snd].
        replace (8 - Z.to_N ((f - off - 1) mod 8 + 1))%N with (Z.to_N (7 - (f - off - 1) mod 8)) by lia.
        rewrite H. left. subst i. lia.
Qed.
Lemma bit_range bm i : bit bm i = true -> (1 <= i <= 8 * Z.of_nat (length bm))%Z.
Proof.
  unfold bit. destruct (1 <=? i)%Z eqn:E1; [|discriminate].
  destruct (nth_error bm _) eqn:Hx; [|discriminate]. intros _.
  assert (Z.to_nat ((i - 1) / 8) < length bm)%nat by (apply nth_error_Some; congruence). lia.
Qed.
Lemma bit_nil i : bit [] i = false.
Proof. destruct (bit [] i) eqn:H; [|reflexivity]. apply bit_range in H. simpl in H. lia. Qed.

(** ** Type *)
Lemma decode_type_sound E s idx sp st idx' st' :
  (0 <= idx <= zlen (buf_bytes s))%Z ->
  decode_type E s idx sp st = (Ok idx', st') ->
  exists fs data text, sget (u "t") sp = Some fs /\ type_wire E fs data text
    /\ stands (buf_bytes s) idx data idx' /\ st' = put (u "t") [] data text st.
Proof.
  intros Hi H. unfold decode_type in H.
  apply bind_ok in H as (fs & st1 & H1 & H). unfold spec_get in H1.
  destruct (sget (u "t") sp) as [fs'|] eqn:Hsp; [|discriminate]. injection H1 as <- <-.
  apply bind_ok in H as (de & st2 & H2 & H). apply prop_ok in H2 as [Hde ->].
  apply bind_ok in H as (? & st3 & H3 & H). injection H3 as _ <-.
  apply bind_ok in H as (? & st4 & H4 & H). injection H4 as _ <-.
  set (expected := if str_eqb de str_b then 2%Z else 4%Z) in *.
  set (data := py_slice _ _ _) in *.
  destruct (Z.eqb_spec (zlen data) expected) as [Hl|]; cbn [negb] in H; [|discriminate].
  assert (0 <= expected)%Z by (subst expected; destruct (str_eqb de str_b); lia).
  pose proof (stands_slice (buf_bytes s) idx expected Hi H0 Hl) as Hst. fold data in Hst.
  apply bind_ok in H as (? & st5 & H5 & H). injection H as <- <-.
  destruct (binary_cases de) as [[Hb Eb]|[Hb Eb]]; rewrite Eb in H5.
  - injection H5 as _ <-. exists fs', data, (HEX data). split; [reflexivity|]. split.
    { eapply TypeBinary; eauto. subst expected. rewrite Eb in Hl. unfold zlen in Hl. lia. }
    split; [assumption|]. unfold put. cbn [d_dec d_enc]. now rewrite sset_sset, py_upper_hex.
  - apply bind_ok in H5 as (t & st6 & H6 & H5). apply decode_text_ok in H6 as (-> & de' & Hde' & Ht).
    injection H5 as _ <-. assert (de' = de) by congruence. subst de'.
    exists fs', data, t. split; [reflexivity|]. split.
    { eapply TypeText; eauto. subst expected. rewrite Eb in Hl. unfold zlen in Hl. lia. }
    split; [assumption|]. unfold put. cbn [d_dec d_enc]. now rewrite sset_sset.
Qed.
Lemma decode_type_complete E s idx sp st idx' fs data text :
  sget (u "t") sp = Some fs -> type_wire E fs data text -> stands (buf_bytes s) idx data idx' ->
  decode_type E s idx sp st = (Ok idx', put (u "t") [] data text st).
Proof.
  intros Hsp Hw Hst. unfold decode_type. apply bind_ok. exists fs, st. split; [unfold spec_get; now rewrite Hsp|].
  assert (exists de, fs_data_enc fs = Some de) as [de Hde] by (destruct Hw; eauto).
  apply bind_ok. exists de, st. split; [now apply prop_ok|].
  assert (Hl : (if str_eqb de str_b then 2 else 4)%Z = zlen data).
  { unfold zlen. destruct (binary_cases de) as [[Hb ->]|[Hb ->]]; destruct Hw as [de' H1 H2 ->|de' H1 H2 ->];
      reflexivity || congruence. }
  rewrite Hl. rewrite (stands_slice_eq _ _ _ _ _ Hst eq_refl).
  apply bind_ok. eexists _, _. split; [reflexivity|]. apply bind_ok. eexists _, _. split; [reflexivity|].
  rewrite Z.eqb_refl. cbn [negb].
  assert ((idx + zlen data)%Z = idx') as -> by (destruct Hst as (? & ? & _ & _ & ->); reflexivity).
  apply bind_ok. eexists tt, _. split; [|reflexivity].
  destruct (binary_cases de) as [[Hb ->]|[Hb ->]]; destruct Hw as [de' H1 H2 _ ->|de' H1 H2 _ Ht]; try congruence.
  - unfold set_dec, put. cbn [d_dec d_enc]. now rewrite sset_sset, py_upper_hex.
  - apply bind_ok. exists text. eexists. split.
    + apply decode_text_ok. split; [reflexivity|]. eauto.
    + unfold set_dec, put. cbn [d_dec d_enc]. now rewrite sset_sset.
Qed.
Lemma decode_type_raise E s idx sp st x st' :
  (0 <= idx <= zlen (buf_bytes s))%Z ->
  decode_type E s idx sp st = (Raise x, st') ->
  (exists nm, x = XKeyError nm /\ ~ entry_complete sp (u "t")) \/ step_error s idx (u "t") st x st'.
Proof.
  intros Hi H. unfold decode_type in H. unfold entry_complete, mandatory.
  apply bind_raise in H as [H|(fs & st1 & H1 & H)].
  { unfold spec_get in H. destruct (sget (u "t") sp) eqn:Hsp; [discriminate|]. injection H as <- <-.
    left. eexists. split; [reflexivity|]. intros (fs & Hfs & _). congruence. }
  unfold spec_get in H1. destruct (sget (u "t") sp) as [fs'|] eqn:Hsp; [|discriminate]. injection H1 as <- <-.
  apply bind_raise in H as [H|(de & st2 & H2 & H)].
  { unfold prop in H. destruct (fs_data_enc fs') eqn:Hde; [discriminate|]. injection H as <- <-.
    left. eexists. split; [reflexivity|]. intros (fs & [= <-] & H & _). congruence. }
  apply prop_ok in H2 as [Hde ->].
  apply bind_raise in H as [H|(? & st3 & H3 & H)]; [discriminate|]. injection H3 as _ <-.
  apply bind_raise in H as [H|(? & st4 & H4 & H)]; [discriminate|]. injection H4 as _ <-.
  set (expected := if str_eqb de str_b then 2%Z else 4%Z) in *.
  destruct (slice_stands_any (buf_bytes s) idx (idx + expected) Hi) as [i1 Hst].
  set (data := py_slice _ _ _) in *. right.
  assert (Herr : forall msg, step_error s idx (u "t") st
    (XDecodeError (DecodeError msg s (sset (u "t") [] (d_dec st)) (sset (u "t") (mkEntry [] data) (d_enc st)) idx (u "t")))
    (mkD (sset (u "t") [] (d_dec st)) (sset (u "t") (mkEntry [] data) (d_enc st)))).
  { intro msg. exists msg, idx, (mkEntry [] data), []. cbn [e_len e_data app].
    split; [reflexivity|]. split; [now left|]. split; [eauto|reflexivity]. }
  destruct (Z.eqb_spec (zlen data) expected) as [Hl|]; cbn [negb] in H.
  2:{ injection H as <- <-. apply Herr. }
  apply bind_raise in H as [H|(? & st5 & H5 & H)]; [|discriminate].
  destruct (str_eqb de str_b); [discriminate|].
  apply bind_raise in H as [H|(t & st6 & H6 & H)]; [|discriminate].
  unfold decode_text_data in H. rewrite Hde in H.
  destruct (bytes_decode E de data); [discriminate| |]; injection H as <- <-; apply Herr.
Qed.

(** ** Bitmap *)
(** [old_e], [old_t]: what is already recorded under the key, for an extension. *)
Definition bitmap_start (ext : bool) (k : pystr) (st : dstate) (old_e : entry) (old_t : pystr) : Prop :=
  if ext then sget k (d_dec st) = Some old_t /\ sget k (d_enc st) = Some old_e
  else old_e = mkEntry [] [] /\ old_t = [].

(** The part of decode_bitmap that records the raw data. *)
Lemma bitmap_record ext k st old_e old_t data :
  bitmap_start ext k st old_e old_t ->
  (if ext then e <- get_enc k ;; set_enc k (mkEntry (e_len e) (e_data e ++ data))
   else set_dec k [] ;;; set_enc k (mkEntry [] data)) st
  = (Ok tt, put k (e_len old_e) (e_data old_e ++ data) old_t st).
Proof.
  destruct ext; simpl.
  - intros [H1 H2]. unfold bind, get_enc. rewrite H2. unfold set_enc, put. simpl. f_equal. f_equal.
    symmetry. apply dset_same_id; [apply str_eqb_spec|exact H1].
  - intros [-> ->]. reflexivity.
Qed.
Lemma bitmap_text ext k st old_e old_t lenb data t :
  bitmap_start ext k st old_e old_t ->
  (if ext then old <- get_dec k ;; set_dec k (old ++ t) else set_dec k t) (put k lenb data old_t st)
  = (Ok tt, put k lenb data (old_t ++ t) st).
Proof.
  destruct ext; simpl.
  - intros [H1 H2]. unfold bind, get_dec, put. cbn [d_dec d_enc]. rewrite sget_sset. unfold set_dec. cbn [d_dec d_enc].
    now rewrite sset_sset.
  - intros [-> ->]. unfold set_dec, put. cbn [d_dec d_enc app]. now rewrite sset_sset.
Qed.

Lemma decode_bitmap_sound E s idx k fs off ext fields st r st' old_e old_t :
  (0 <= idx <= zlen (buf_bytes s))%Z -> bitmap_start ext k st old_e old_t ->
  decode_bitmap E s idx k fs off ext fields st = (Ok r, st') ->
  exists data text bm, bitmap_wire E fs data text bm
    /\ stands (buf_bytes s) idx data (fst r)
    /\ snd r = zupdate fields (bitmap_fields off bm)
    /\ st' = put k (e_len old_e) (e_data old_e ++ data) (old_t ++ text) st.
Proof.
  intros Hi Hs H. unfold decode_bitmap in H.
  apply bind_ok in H as (de & st1 & H1 & H). apply prop_ok in H1 as [Hde ->].
  set (expected := if str_eqb de str_b then 8%Z else 16%Z) in *.
  set (data := py_slice _ _ _) in *.
  apply bind_ok in H as (? & st2 & H2 & H). rewrite (bitmap_record _ _ _ _ _ _ Hs) in H2. injection H2 as _ <-.
  destruct (Z.eqb_spec (zlen data) expected) as [Hl|]; cbn [negb] in H.
  2:{ apply bind_ok in H as (? & ? & ? & H). discriminate. }
  assert (0 <= expected)%Z by (subst expected; destruct (str_eqb de str_b); lia).
  pose proof (stands_slice (buf_bytes s) idx expected Hi H0 Hl) as Hst. fold data in Hst.
  apply bind_ok in H as (bm & st3 & H3 & H). injection H as <- <-. cbn [fst snd].
  destruct (binary_cases de) as [[Hb Eb]|[Hb Eb]]; rewrite Eb in H3.
  - apply bind_ok in H3 as (? & st4 & H4 & H3). rewrite (bitmap_text _ _ _ _ _ _ _ _ Hs) in H4.
    injection H4 as _ <-. injection H3 as <- <-. exists data, (HEX data), data. split.
    { eapply BitmapBinary; eauto. subst expected. rewrite Eb in Hl. unfold zlen in Hl. lia. }
    split; [assumption|]. split; [reflexivity|]. now rewrite py_upper_hex.
  - apply bind_ok in H3 as (t & st4 & H4 & H3). apply decode_text_ok in H4 as (-> & de' & Hde' & Ht).
    assert (de' = de) by congruence. subst de'.
    apply bind_ok in H3 as (? & st5 & H5 & H3). rewrite (bitmap_text _ _ _ _ _ _ _ _ Hs) in H5.
    injection H5 as _ <-. destruct (fromhex t) as [b|] eqn:Hf; [|discriminate]. injection H3 as <- <-. apply fromhex_spelling in Hf.
    exists data, t, b. split.
    { eapply BitmapText; eauto. subst expected. rewrite Eb in Hl. unfold zlen in Hl. lia. }
    repeat split; assumption.
Qed.
Lemma decode_bitmap_complete E s idx k fs off ext fields st idx' old_e old_t data text bm :
  bitmap_start ext k st old_e old_t -> bitmap_wire E fs data text bm ->
  stands (buf_bytes s) idx data idx' ->
  decode_bitmap E s idx k fs off ext fields st
  = (Ok (idx', zupdate fields (bitmap_fields off bm)),
     put k (e_len old_e) (e_data old_e ++ data) (old_t ++ text) st).
Proof.
  intros Hs Hw Hst. unfold decode_bitmap.
  assert (exists de, fs_data_enc fs = Some de) as [de Hde] by (destruct Hw; eauto).
  apply bind_ok. exists de, st. split; [now apply prop_ok|].
  assert (Hl : (if str_eqb de str_b then 8 else 16)%Z = zlen data).
  { unfold zlen. destruct (binary_cases de) as [[Hb ->]|[Hb ->]]; destruct Hw as [de' H1 H2 ->|de' H1 H2 ->];
      reflexivity || congruence. }
  rewrite Hl. rewrite (stands_slice_eq _ _ _ _ _ Hst eq_refl).
  apply bind_ok. eexists _, _. split; [apply (bitmap_record _ _ _ _ _ _ Hs)|].
  rewrite Z.eqb_refl. cbn [negb].
  assert ((idx + zlen data)%Z = idx') as -> by (destruct Hst as (? & ? & _ & _ & ->); reflexivity).
  apply bind_ok. exists bm. eexists. split; [|reflexivity].
  destruct (binary_cases de) as [[Hb ->]|[Hb ->]]; destruct Hw as [de' H1 H2 _ -> ->|de' H1 H2 _ Ht Hf]; try congruence.
  - apply bind_ok. eexists _, _. split; [apply (bitmap_text _ _ _ _ _ _ _ _ Hs)|]. now rewrite py_upper_hex.
  - apply bind_ok. exists text. eexists. split.
    + apply decode_text_ok. split; [reflexivity|]. eauto.
    + apply bind_ok. eexists _, _. split; [apply (bitmap_text _ _ _ _ _ _ _ _ Hs)|]. apply fromhex_spelling in Hf. now rewrite Hf.
Qed.
(** On failure the new bytes have been recorded under the key. *)
Lemma decode_bitmap_raise E s idx k fs off ext fields st x st' old_e old_t :
  (0 <= idx <= zlen (buf_bytes s))%Z -> bitmap_start ext k st old_e old_t ->
  decode_bitmap E s idx k fs off ext fields st = (Raise x, st') ->
  (exists nm, x = XKeyError nm /\ ~ mandatory fs) \/
  exists msg data t i', stands (buf_bytes s) idx data i'
    /\ st' = put k (e_len old_e) (e_data old_e ++ data) t st
    /\ x = XDecodeError (DecodeError msg s (d_dec st') (d_enc st') idx k).
Proof.
  intros Hi Hs H. unfold decode_bitmap in H.
  apply bind_raise in H as [H|(de & st1 & H1 & H)].
  { unfold prop in H. destruct (fs_data_enc fs) eqn:Hde; [discriminate|]. injection H as <- <-.
    left. eexists. split; [reflexivity|]. unfold mandatory. tauto. }
  apply prop_ok in H1 as [Hde ->]. right.
  set (expected := if str_eqb de str_b then 8%Z else 16%Z) in *.
  destruct (slice_stands_any (buf_bytes s) idx (idx + expected) Hi) as [i1 Hst].
  set (data := py_slice _ _ _) in *.
  apply bind_raise in H as [H|(? & st2 & H2 & H)].
  { rewrite (bitmap_record _ _ _ _ _ _ Hs) in H. discriminate. }
  rewrite (bitmap_record _ _ _ _ _ _ Hs) in H2. injection H2 as _ <-.
  destruct (Z.eqb_spec (zlen data) expected) as [Hl|]; cbn [negb] in H.
  2:{ apply bind_raise in H as [H|(e & st3 & H3 & H)].
      { unfold get_enc, put in H. cbn [d_enc] in H. rewrite sget_sset in H. discriminate. }
      unfold get_enc, put in H3. cbn [d_enc] in H3. rewrite sget_sset in H3. injection H3 as <- <-.
      injection H as <- <-. (eexists _, data, _, i1; split; [assumption|split; reflexivity]). }
  apply bind_raise in H as [H|(bm & st3 & H3 & H)]; [|discriminate].
  destruct (str_eqb de str_b).
  - apply bind_raise in H as [H|(? & st4 & H4 & H)]; [|discriminate].
    rewrite (bitmap_text _ _ _ _ _ _ _ _ Hs) in H. discriminate.
  - apply bind_raise in H as [H|(t & st4 & H4 & H)].
    { unfold decode_text_data in H. rewrite Hde in H.
      destruct (bytes_decode E de data); [discriminate| |]; injection H as <- <-; (eexists _, data, _, i1; split; [assumption|split; reflexivity]). }
    apply decode_text_ok in H4 as (-> & _).
    apply bind_raise in H as [H|(? & st5 & H5 & H)].
    { rewrite (bitmap_text _ _ _ _ _ _ _ _ Hs) in H. discriminate. }
    rewrite (bitmap_text _ _ _ _ _ _ _ _ Hs) in H5. injection H5 as _ <-.
    destruct (fromhex t); [discriminate|]. injection H as <- <-. (eexists _, data, _, i1; split; [assumption|split; reflexivity]).
Qed.

(** ** The whole message *)
Definition trace (s : bytes) (st : dstate) (idx : Z) (segs : list segment) : Prop :=
  d_dec st = dec_of segs /\ d_enc st = enc_of segs /\ stands s 0 (bytes_of segs) idx
  /\ NoDup (map sg_key segs).

Lemma keys_dec segs : map fst (dec_of segs) = map sg_key segs.
Proof. unfold dec_of. rewrite map_map. reflexivity. Qed.
Lemma keys_enc segs : map fst (enc_of segs) = map sg_key segs.
Proof. unfold enc_of. rewrite map_map. reflexivity. Qed.
Lemma dec_of_app a b : dec_of (a ++ b) = dec_of a ++ dec_of b.
Proof. apply map_app. Qed.
Lemma enc_of_app a b : enc_of (a ++ b) = enc_of a ++ enc_of b.
Proof. apply map_app. Qed.
Lemma bytes_of_app a b : bytes_of (a ++ b) = bytes_of a ++ bytes_of b.
Proof. unfold bytes_of. rewrite !flat_map_concat_map, map_app, concat_app. reflexivity. Qed.
Lemma bytes_of_one sg : bytes_of [sg] = sg_bytes sg.
Proof. unfold bytes_of. simpl. apply app_nil_r. Qed.

Lemma trace_bounds s st idx segs : trace s st idx segs -> (0 <= idx <= zlen s)%Z.
Proof. intros (_ & _ & H & _). apply stands_bounds in H. lia. Qed.
Lemma trace_start s : trace s (mkD [] []) 0 [].
Proof. repeat split; [|constructor]. apply stands_nil. pose proof (zlen_nonneg s). lia. Qed.
Lemma trace_idx s st idx segs : trace s st idx segs -> idx = zlen (bytes_of segs).
Proof. intros (_ & _ & (pre & post & _ & H1 & ->) & _). lia. Qed.

Lemma NoDup_snoc {A} (l : list A) x : NoDup l -> ~ In x l -> NoDup (l ++ [x]).
Proof. intros H1 H2.
  induction H1 as [|y l Hy H1 IH]; simpl; [repeat constructor; tauto|].
  constructor.
  - rewrite in_app_iff. simpl. intros [H|[H|[]]]; [tauto|]. subst. apply H2. now left.
  - apply IH. intro. apply H2. now right.
Qed.

Lemma put_fresh k lenb data text st segs :
  d_dec st = dec_of segs -> d_enc st = enc_of segs -> ~ In k (map sg_key segs) ->
  d_dec (put k lenb data text st) = dec_of (segs ++ [mkSeg k lenb data text])
  /\ d_enc (put k lenb data text st) = enc_of (segs ++ [mkSeg k lenb data text]).
Proof.
  intros H1 H2 H3. unfold put. cbn [d_dec d_enc]. rewrite H1, H2, dec_of_app, enc_of_app. unfold sset.
  rewrite !(dset_fresh str_eqb str_eqb_spec); [auto| |]; rewrite ?keys_enc, ?keys_dec; assumption.
Qed.
Lemma trace_put s st idx segs k lenb data text idx' :
  trace s st idx segs -> ~ In k (map sg_key segs) -> stands s idx (lenb ++ data) idx' ->
  trace s (put k lenb data text st) idx' (segs ++ [mkSeg k lenb data text]).
Proof.
  intros (H1 & H2 & H3 & H4) Hk Hst.
  destruct (put_fresh k lenb data text st segs H1 H2 Hk) as [H5 H6].
  split; [assumption|]. split; [assumption|]. split.
  - rewrite bytes_of_app, bytes_of_one. eapply stands_app; eassumption.
  - rewrite map_app. apply NoDup_snoc; assumption.
Qed.
Lemma put_last sg lenb data text st segs :
  d_dec st = dec_of (segs ++ [sg]) -> d_enc st = enc_of (segs ++ [sg]) ->
  ~ In (sg_key sg) (map sg_key segs) ->
  d_dec (put (sg_key sg) lenb data text st) = dec_of (segs ++ [mkSeg (sg_key sg) lenb data text])
  /\ d_enc (put (sg_key sg) lenb data text st) = enc_of (segs ++ [mkSeg (sg_key sg) lenb data text]).
Proof.
  intros H1 H2 H3. unfold put. cbn [d_dec d_enc]. rewrite H1, H2, !dec_of_app, !enc_of_app. unfold sset.
  cbn [dec_of enc_of map]. rewrite !(dset_last str_eqb str_eqb_spec); [auto| |];
  rewrite ?keys_enc, ?keys_dec; assumption.
Qed.
Lemma nodup_snoc_inv {A} (l : list A) x : NoDup (l ++ [x]) -> NoDup l /\ ~ In x l.
Proof. intro H. split.
  - apply NoDup_remove_1 in H. now rewrite app_nil_r in H.
  - apply NoDup_remove_2 in H. now rewrite app_nil_r in H. Qed.
Lemma trace_extend s st idx segs sg data text idx' :
  trace s st idx (segs ++ [sg]) -> stands s idx data idx' ->
  trace s (put (sg_key sg) (sg_len sg) (sg_data sg ++ data) text st) idx'
        (segs ++ [mkSeg (sg_key sg) (sg_len sg) (sg_data sg ++ data) text]).
Proof.
  intros (H1 & H2 & H3 & H4) Hst.
  rewrite map_app in H4. apply nodup_snoc_inv in H4 as [H4 H5].
  destruct (put_last sg (sg_len sg) (sg_data sg ++ data) text st segs H1 H2 H5) as [H6 H7].
  split; [assumption|]. split; [assumption|]. split.
  - rewrite bytes_of_app, bytes_of_one in *. unfold sg_bytes in *. cbn [sg_len sg_data].
    rewrite !app_assoc in *. eapply stands_app; eassumption.
  - rewrite map_app. apply NoDup_snoc; assumption.
Qed.

Lemma stands_prefix s x i : stands s 0 x i -> exists rest, s = x ++ rest.
Proof. intros (pre & post & -> & H & _). apply zlen_zero in H. subst. exists post. reflexivity. Qed.

Definition failed (E : pyenv) (sp : spec) (s : pybuf) (x : exn) : Prop :=
  (exists e, x = XDecodeError e /\ truthful_decode_error E sp s (buf_bytes s) e)
  \/ (x = XValueError /\ ~ numbers_ok E sp).

Lemma step_error_failed E sp s st idx segs k x st' :
  trace (buf_bytes s) st idx segs -> Forall (segment_ok E sp) segs -> ~ In k (map sg_key segs) ->
  step_error s idx k st x st' -> failed E sp s x.
Proof.
  intros Ht Hok Hk (msg & pos & e & t & -> & Hpos & [i' Hst] & ->).
  left. eexists. split; [reflexivity|]. split; [reflexivity|]. split; [reflexivity|].
  pose proof (trace_put _ _ _ _ k (e_len e) (e_data e) t i' Ht Hk Hst) as Ht2.
  destruct Ht2 as (H1 & H2 & H3 & H4).
  destruct (stands_prefix _ _ _ H3) as [rest Hrest].
  exists segs, (mkSeg k (e_len e) (e_data e) t), rest.
  split; [exact H1|]. split; [exact H2|]. split; [reflexivity|]. split; [exact H4|].
  split; [assumption|]. split; [assumption|].
  cbn [de_pos DecodeError]. apply trace_idx in Ht. rewrite bytes_of_app, bytes_of_one.
  unfold sg_bytes. cbn [sg_len sg_data]. rewrite !zlen_app.
  pose proof (zlen_nonneg (e_len e)). pose proof (zlen_nonneg (e_data e)). destruct Hpos; lia.
Qed.

Lemma zstr_not_name f k : (0 <= f)%Z -> zstr f = k -> all_digits k.
Proof. intros H <-. now apply zstr_digits. Qed.
Lemma zstr_neq_h f : (0 <= f)%Z -> zstr f <> u "h".
Proof. intros H E. apply zstr_not_name in E; [|assumption]. inversion E. discriminate. Qed.
Lemma zstr_neq_t f : (0 <= f)%Z -> zstr f <> u "t".
Proof. intros H E. apply zstr_not_name in E; [|assumption]. inversion E. discriminate. Qed.
Lemma zstr_neq_p f : (0 <= f)%Z -> zstr f <> u "p".
Proof. intros H E. apply zstr_not_name in E; [|assumption]. inversion E. discriminate. Qed.
Lemma zstr_neq_1 f : (2 <= f)%Z -> zstr f <> u "1".
Proof. intros H E. change (u "1") with (zstr 1) in E. apply zstr_inj in E; lia. Qed.

(** Header *)
Lemma decode_header_run E s sp r st :
  decode_header E s 0 sp (mkD [] []) = (r, st) ->
  match r with
  | Ok idx => exists hs, header_part E sp hs /\ trace (buf_bytes s) st idx hs
                         /\ Forall (segment_ok E sp) hs /\ (forall k, In k (map sg_key hs) -> k = u "h")
  | Raise x => failed E sp s x \/ exists nm, x = XKeyError nm /\ ~ entry_complete sp (u "h")
  end.
Proof.
  intro H. pose proof (trace_start (buf_bytes s)) as Ht. unfold decode_header, spec_get in H.
  destruct (sget (u "h") sp) as [fs|] eqn:Hsp.
  2:{ injection H as <- <-. right. eexists. split; [reflexivity|]. intros (fs & H & _). congruence. }
  rewrite bind_ret_l in H. unfold prop in H. destruct (fs_max_len fs) as [ml|] eqn:Hml.
  2:{ injection H as <- <-. right. eexists. split; [reflexivity|]. intros (fs' & H & Hm). unfold mandatory in Hm.
      assert (fs' = fs) by congruence. subst. tauto. }
  rewrite bind_ret_l in H. destruct (ml <=? 0)%Z eqn:El.
  - injection H as <- <-. exists []. split; [econstructor; eauto; lia|].
    split; [assumption|]. split; [constructor|]. intros k [].
  - destruct r as [idx|x].
    + apply decode_field_sound in H as (lenb & data & text & Hw & Hst & ->); [|eapply trace_bounds; eauto].
      exists [mkSeg (u "h") lenb data text].
      assert (field_segment E sp (mkSeg (u "h") lenb data text)) by (exists fs; auto).
      split; [econstructor; eauto; lia|]. split; [|split].
      * apply (trace_put (buf_bytes s) (mkD [] []) 0 []); auto.
      * constructor; [|constructor]. apply OkField; try discriminate; assumption.
      * intros k [<-|[]]. reflexivity.
    + apply decode_field_raise in H as [(nm & -> & Hm)|[[-> Hm]|Herr]]; [|left; right; split; [reflexivity|intro Hs; apply Hm; eauto] | |eapply trace_bounds; eauto].
      * right. eexists. split; [reflexivity|]. intros (fs' & H & Hm'). congruence.
      * left. eapply step_error_failed; eauto.
Qed.

Lemma decode_type_run E s sp idx st segs r st' :
  trace (buf_bytes s) st idx segs -> Forall (segment_ok E sp) segs -> ~ In (u "t") (map sg_key segs) ->
  decode_type E s idx sp st = (r, st') ->
  match r with
  | Ok idx' => exists t, type_part E sp t /\ trace (buf_bytes s) st' idx' (segs ++ [t])
  | Raise x => failed E sp s x \/ exists nm, x = XKeyError nm /\ ~ entry_complete sp (u "t")
  end.
Proof.
  intros Ht Hok Hk H. pose proof (trace_bounds _ _ _ _ Ht) as Hb. destruct r as [idx'|x].
  - apply decode_type_sound in H as (fs & data & text & Hsp & Hw & Hst & ->); [|assumption].
    exists (mkSeg (u "t") [] data text). split; [exists fs; auto|]. eapply trace_put; eauto.
  - apply decode_type_raise in H as [(nm & -> & Hm)|Herr]; [right; eauto| |assumption].
    left. eapply step_error_failed; eauto.
Qed.

(** Data fields *)
Lemma decode_fields_run E s sp fl : forall idx st segs field r st',
  trace (buf_bytes s) st idx segs -> Forall (segment_ok E sp) segs ->
  zsorted fl -> (forall f, In f fl -> (2 <= f)%Z /\ ~ In (zstr f) (map sg_key segs)) ->
  (exists pre sg, segs = pre ++ [sg] /\ sg_key sg = field) ->
  decode_fields E s idx sp fl field st = (r, st') ->
  match r with
  | Ok (idx', field') =>
      exists fsegs, map sg_key fsegs = map zstr fl /\ Forall (field_segment E sp) fsegs
        /\ trace (buf_bytes s) st' idx' (segs ++ fsegs) /\ Forall (segment_ok E sp) (segs ++ fsegs)
        /\ exists pre sg, segs ++ fsegs = pre ++ [sg] /\ sg_key sg = field'
  | Raise x => failed E sp s x
               \/ exists nm f, x = XKeyError nm /\ In f fl /\ ~ entry_complete sp (zstr f)
  end.
Proof.
  induction fl as [|f fl IH]; intros idx st segs field r st' Ht Hok Hs Hf Hlast H.
  - injection H as <- <-. exists []. rewrite !app_nil_r. split; [reflexivity|]. split; [constructor|]. auto.
  - cbn [decode_fields] in H. unfold spec_get in H.
    destruct (sget (zstr f) sp) as [fs|] eqn:Hsp.
    2:{ injection H as <- <-. right. exists (zstr f), f. split; [reflexivity|]. split; [now left|].
        intros (fs & H & _). congruence. }
    rewrite bind_ret_l in H. unfold bind in H.
    destruct (Hf f (or_introl eq_refl)) as [Hf2 Hk].
    destruct (decode_field E s idx (zstr f) fs st) as [[idx1|x] st1] eqn:Hd.
    2:{ injection H as <- <-. apply decode_field_raise in Hd as [(nm & -> & Hm)|[[-> Hm]|Herr]];
          [|left; right; split; [reflexivity|intro Hnum; apply Hm; eauto] | |eapply trace_bounds; eauto].
        - right. exists nm, f. split; [reflexivity|]. split; [now left|]. intros (fs' & H & Hm'). congruence.
        - left. eapply step_error_failed; eauto. }
    apply decode_field_sound in Hd as (lenb & data & text & Hw & Hst & ->); [|eapply trace_bounds; eauto].
    set (sg := mkSeg (zstr f) lenb data text) in *.
    assert (Hfs : field_segment E sp sg) by (exists fs; auto).
    assert (Hsok : segment_ok E sp sg).
    { apply OkField; [apply zstr_neq_t|apply zstr_neq_p|apply zstr_neq_1|assumption]; lia. }
    inversion Hs as [|? ? Hs' Hlt]; subst.
    apply IH with (segs := segs ++ [sg]) in H.
    + destruct r as [[idx' field']|x].
      * destruct H as (fsegs & H1 & H2 & H3 & H4 & H5). exists (sg :: fsegs).
        rewrite <- app_assoc in *. split; [simpl; now rewrite H1|]. split; [now constructor|]. auto.
      * destruct H as [H|(nm & g & H1 & H2 & H3)]; [now left|]. right. exists nm, g.
        split; [assumption|]. split; [now right|assumption].
    + eapply trace_put; eauto.
    + apply Forall_app. split; [assumption|]. now constructor.
    + assumption.
    + intros g Hg. destruct (Hf g (or_intror Hg)) as [Hg2 Hgk]. split; [assumption|].
      rewrite map_app, in_app_iff. simpl. intros [?|[E0|[]]]; [tauto|].
      rewrite Forall_forall in Hlt. specialize (Hlt g Hg). apply zstr_inj in E0; lia.
    + exists segs, sg. auto.
Qed.

(** ** Bitmaps of a message *)
Fixpoint sortedb (l : list Z) : bool :=
  match l with
  | x :: (y :: _) as r => (x <? y)%Z && sortedb r
  | _ => true
  end.
Lemma sortedb_zsorted l : sortedb l = true -> zsorted l.
Proof.
  intro H. apply Sorted_StronglySorted; [intros x y z; lia|].
  induction l as [|x l IH]; [constructor|]. destruct l as [|y l]; [repeat constructor|].
  cbn [sortedb] in H. apply andb_true_iff in H as [H1 H2]. constructor; [auto|]. constructor. lia.
Qed.
Lemma data_fields_sorted : zsorted data_fields.
Proof. apply sortedb_zsorted. reflexivity. Qed.
Lemma data_fields_in f : In f data_fields <-> (2 <= f <= 64 \/ 66 <= f <= 192)%Z.
Proof.
  unfold data_fields. rewrite in_map_iff. split.
  - intros (n & <- & H). apply in_app_iff in H as [H|H]; apply in_seq in H; lia.
  - intro H. exists (Z.to_nat f). split; [lia|]. apply in_app_iff. rewrite !in_seq. lia.
Qed.

Definition bitmap_stage (E : pyenv) (s : pybuf) (idx : Z) (sp : spec) : DM (Z * zset * pystr) :=
  p <- spec_get sp (u "p") ;;
  r <- decode_bitmap E s idx (u "p") p 0 false [] ;;
  r <- (if zmem 1 (snd r) then
          fs <- spec_get sp (u "1") ;;
          r' <- decode_bitmap E s (fst r) (u "1") fs 64 false (snd r) ;;
          ret (fst r', zremove 1 (snd r'), u "1")
        else ret (fst r, snd r, u "p")) ;;
  let '(idx, fields, field) := r in
  r <- (if zmem 65 fields then
          fs <- spec_get sp field ;;
          r <- decode_bitmap E s idx field fs 128 true fields ;;
          ret (fst r, zremove 65 (snd r))
        else ret (idx, fields)) ;;
  ret (fst r, snd r, field).

Lemma decode_body_eq E s sp st :
  decode_body E s sp st =
  (idx <- decode_header E s 0 sp ;;
   idx <- decode_type E s idx sp ;;
   r <- bitmap_stage E s idx sp ;;
   let '(idx, fields, field) := r in
   r <- decode_fields E s idx sp fields field ;;
   let '(idx, field) := r in
   if negb (idx =? zlen (buf_bytes s))%Z then
     draise s (u "Extra data after last field") idx field
   else ret tt) st.
Proof.
  unfold decode_body, bitmap_stage, bind.
  destruct (decode_header E s 0 sp st) as [[i0|] st0]; [|reflexivity].
  destruct (decode_type E s i0 sp st0) as [[i1|] st1]; [|reflexivity].
  destruct (spec_get sp (u "p") st1) as [[fs|] st2]; [|reflexivity].
  destruct (decode_bitmap E s i1 (u "p") fs 0 false [] st2) as [[[i2 F]|] st3]; [|reflexivity].
  cbn [fst snd]. destruct (zmem 1 F).
  - destruct (spec_get sp (u "1") st3) as [[fs1|] st4]; [|reflexivity].
    destruct (decode_bitmap E s i2 (u "1") fs1 64 false F st4) as [[[i3 F2]|] st5]; [|reflexivity].
    unfold ret. cbn [fst snd]. destruct (zmem 65 (zremove 1 F2)).
    + destruct (spec_get sp (u "1") st5) as [[fs2|] st6]; [|reflexivity].
      destruct (decode_bitmap E s i3 (u "1") fs2 128 true (zremove 1 F2) st6) as [[[i4 F3]|] st7]; reflexivity.
    + reflexivity.
  - unfold ret. cbn [fst snd]. destruct (zmem 65 F).
    + destruct (spec_get sp (u "p") st3) as [[fs2|] st6]; [|reflexivity].
      destruct (decode_bitmap E s i2 (u "p") fs2 128 true F st6) as [[[i4 F3]|] st7]; reflexivity.
    + reflexivity.
Qed.

Lemma spec_get_run {S} sp k (st : S) r st' : spec_get sp k st = (r, st') ->
  match r with
  | Ok fs => sget k sp = Some fs /\ st' = st
  | Raise x => x = XKeyError k /\ ~ entry_complete sp k
  end.
Proof.
  unfold spec_get. destruct (sget k sp) as [fs|] eqn:Hs; intro H; injection H as <- <-; [auto|].
  split; [reflexivity|]. intros (fs & H & _). congruence.
Qed.

(** A fresh bitmap. *)
Lemma bitmap_fresh_run E s sp idx st segs k fs off fields r st' :
  trace (buf_bytes s) st idx segs -> Forall (segment_ok E sp) segs -> ~ In k (map sg_key segs) ->
  sget k sp = Some fs ->
  decode_bitmap E s idx k fs off false fields st = (r, st') ->
  match r with
  | Ok (idx', fields') => exists data text bm, bitmap_wire E fs data text bm
      /\ trace (buf_bytes s) st' idx' (segs ++ [mkSeg k [] data text])
      /\ fields' = zupdate fields (bitmap_fields off bm)
  | Raise x => failed E sp s x \/ exists nm, x = XKeyError nm /\ ~ entry_complete sp k
  end.
Proof.
  intros Ht Hok Hk Hsp H. pose proof (trace_bounds _ _ _ _ Ht) as Hb.
  assert (Hstart : bitmap_start false k st (mkEntry [] []) []) by (split; reflexivity).
  destruct r as [[idx' F]|x].
  - apply (decode_bitmap_sound _ _ _ _ _ _ _ _ _ _ _ _ _ Hb Hstart) in H as (data & text & bm & Hw & Hst & HF & ->).
    exists data, text, bm. split; [assumption|]. split; [|assumption]. cbn [e_len e_data app].
    eapply trace_put; eauto.
  - apply (decode_bitmap_raise _ _ _ _ _ _ _ _ _ _ _ _ _ Hb Hstart) in H
      as [(nm & -> & Hm)|(msg & data & t & i' & Hst & -> & ->)].
    + right. eexists. split; [reflexivity|]. intros (fs' & H & Hm'). congruence.
    + left. eapply step_error_failed; eauto. exists msg, idx, (mkEntry [] data), t.
      cbn [e_len e_data app]. repeat split; eauto.
Qed.

(** An extension of the last segment. *)
Lemma bitmap_extend_run E s sp idx st segs sg fs off fields r st' :
  trace (buf_bytes s) st idx (segs ++ [sg]) -> Forall (segment_ok E sp) segs ->
  sget (sg_key sg) sp = Some fs ->
  decode_bitmap E s idx (sg_key sg) fs off true fields st = (r, st') ->
  match r with
  | Ok (idx', fields') => exists data text bm, bitmap_wire E fs data text bm
      /\ trace (buf_bytes s) st' idx'
               (segs ++ [mkSeg (sg_key sg) (sg_len sg) (sg_data sg ++ data) (sg_text sg ++ text)])
      /\ fields' = zupdate fields (bitmap_fields off bm)
  | Raise x => failed E sp s x \/ exists nm, x = XKeyError nm /\ ~ entry_complete sp (sg_key sg)
  end.
Proof.
  intros Ht Hok Hsp H. pose proof (trace_bounds _ _ _ _ Ht) as Hb.
  assert (Hnd : NoDup (map sg_key (segs ++ [sg]))) by apply Ht.
  assert (Hstart : bitmap_start true (sg_key sg) st (mkEntry (sg_len sg) (sg_data sg)) (sg_text sg)).
  { destruct Ht as (H1 & H2 & _). split.
    - rewrite H1. apply (dget_in_nodup str_eqb str_eqb_spec); [now rewrite keys_dec|].
      unfold dec_of. apply in_map_iff. exists sg. split; [reflexivity|]. apply in_app_iff. right. now left.
    - rewrite H2. apply (dget_in_nodup str_eqb str_eqb_spec); [now rewrite keys_enc|].
      unfold enc_of. apply in_map_iff. exists sg. split; [reflexivity|]. apply in_app_iff. right. now left. }
  destruct r as [[idx' F]|x].
  - apply (decode_bitmap_sound _ _ _ _ _ _ _ _ _ _ _ _ _ Hb Hstart) in H as (data & text & bm & Hw & Hst & HF & ->).
    exists data, text, bm. split; [assumption|]. split; [|assumption]. cbn [e_len e_data app].
    eapply trace_extend; eauto.
  - apply (decode_bitmap_raise _ _ _ _ _ _ _ _ _ _ _ _ _ Hb Hstart) in H
      as [(nm & -> & Hm)|(msg & data & t & i' & Hst & -> & ->)].
    + right. eexists. split; [reflexivity|]. intros (fs' & H & Hm'). congruence.
    + left. cbn [e_len e_data].
      pose proof (trace_extend _ _ _ _ _ data t i' Ht Hst) as Ht2.
      pose proof (trace_idx _ _ _ _ Ht) as Hidx.
      destruct Ht2 as (H1 & H2 & H3 & H4).
      destruct (stands_prefix _ _ _ H3) as [rest Hrest].
      left. eexists. split; [reflexivity|]. split; [reflexivity|]. split; [reflexivity|].
      eexists segs, _, rest. split; [exact H1|]. split; [exact H2|]. split; [reflexivity|].
      split; [exact H4|]. split; [assumption|]. split; [exact Hrest|].
      cbn [de_pos DecodeError]. rewrite Hidx, !bytes_of_app, !bytes_of_one. unfold sg_bytes. cbn [sg_len sg_data].
      rewrite !zlen_app. pose proof (zlen_nonneg (sg_len sg)). pose proof (zlen_nonneg (sg_data sg)).
      pose proof (zlen_nonneg data). lia.
Qed.

Lemma announced_filter_ext bm1 bm2 bm3 F :
  zsorted F -> (forall f, In f F <-> In f data_fields /\ announced bm1 bm2 bm3 f = true) ->
  F = filter (announced bm1 bm2 bm3) data_fields.
Proof.
  intros HF H. apply zsorted_ext; [assumption|apply filter_sorted, data_fields_sorted|].
  intro f. rewrite filter_In. apply H.
Qed.

(** Membership in the field set after the three bitmaps, when they fit. *)
Lemma announced_cases bm1 bm2 bm3 f :
  (length bm1 <= 8)%nat -> (length bm2 <= 8)%nat -> (length bm3 <= 8)%nat ->
  ((bit bm1 (f - 0) = true \/ bit bm2 (f - 64) = true \/ bit bm3 (f - 128) = true) /\ f <> 1 /\ f <> 65
   <-> In f data_fields /\ announced bm1 bm2 bm3 f = true)%Z.
Proof.
  intros L1 L2 L3. rewrite data_fields_in. rewrite Z.sub_0_r. unfold announced.
  destruct (bit bm1 f) eqn:B1; [pose proof (bit_range _ _ B1)|];
  destruct (bit bm2 (f - 64)) eqn:B2; try pose proof (bit_range _ _ B2);
  destruct (bit bm3 (f - 128)) eqn:B3; try pose proof (bit_range _ _ B3);
  destruct (f <=? 64)%Z eqn:E1; try destruct (f <=? 128)%Z eqn:E2; intuition (congruence || lia).
Qed.

Lemma bitmap_stage_run E s sp idx st segs r st' :
  trace (buf_bytes s) st idx segs -> Forall (segment_ok E sp) segs ->
  (forall k, In k (map sg_key segs) -> k = u "h" \/ k = u "t") ->
  bitmap_stage E s idx sp st = (r, st') ->
  match r with
  | Ok (idx', F, field) => exists p xs bm1 bm2 bm3,
      trace (buf_bytes s) st' idx' (segs ++ p :: xs)
      /\ Forall (segment_ok E sp) (segs ++ p :: xs)
      /\ (exists pre sg, segs ++ p :: xs = pre ++ [sg] /\ sg_key sg = field)
      /\ (forall k, In k (map sg_key (p :: xs)) -> k = u "p" \/ k = u "1")
      /\ zsorted F /\ (forall f, In f F -> (2 <= f)%Z)
      /\ (bitmaps_fit E sp -> primary_part E sp p bm1 /\ extra_part E sp bm1 xs bm2 bm3
                              /\ F = filter (announced bm1 bm2 bm3) data_fields)
  | Raise x => failed E sp s x
      \/ exists nm, x = XKeyError nm /\ ~ (entry_complete sp (u "p") /\ entry_complete sp (u "1"))
  end.
Proof.
  intros Ht Hok Hkeys H. unfold bitmap_stage in H.
  assert (Hp : ~ In (u "p") (map sg_key segs)) by (intro Hi; destruct (Hkeys _ Hi); discriminate).
  assert (H1k : ~ In (u "1") (map sg_key segs)) by (intro Hi; destruct (Hkeys _ Hi); discriminate).
  unfold bind at 1 in H. destruct (spec_get sp (u "p") st) as [[fsp|x] st1] eqn:Hg; apply spec_get_run in Hg.
  2:{ injection H as <- <-. destruct Hg as [-> Hg]. right. eexists. split; [reflexivity|]. tauto. }
  destruct Hg as [Hsp ->].
  unfold bind at 1 in H.
  destruct (decode_bitmap E s idx (u "p") fsp 0 false [] st) as [[[i1 F1]|x] st1] eqn:Hd;
    apply (bitmap_fresh_run _ _ sp _ _ segs) in Hd; auto.
  2:{ injection H as <- <-. destruct Hd as [Hd|(nm & -> & Hd)]; [now left|]. right. eexists. split; [reflexivity|]. tauto. }
  destruct Hd as (data1 & text1 & bm1 & Hw1 & Ht1 & ->). cbn [fst snd] in H.
  set (p := mkSeg (u "p") [] data1 text1) in *.
  assert (Hpok : segment_ok E sp p) by (eapply OkBitmaps; eauto; now apply OneBitmap with bm1).
  assert (Hok1 : Forall (segment_ok E sp) (segs ++ [p])) by (apply Forall_app; auto).
  assert (HF1 : forall f, In f (zupdate [] (bitmap_fields 0 bm1)) <-> bit bm1 (f - 0) = true).
  { intro f. rewrite zupdate_in, bitmap_fields_in. simpl. tauto. }
  assert (HS1 : zsorted (zupdate [] (bitmap_fields 0 bm1))) by (apply zupdate_sorted; constructor).
  assert (Hprim : primary_part E sp p bm1) by (exists fsp; auto).
  destruct (zmem 1 (zupdate [] (bitmap_fields 0 bm1))) eqn:Hm1.
  - apply zmem_in, HF1 in Hm1. change (1 - 0)%Z with 1%Z in Hm1.
    unfold bind at 1 in H. unfold bind at 1 in H.
    destruct (spec_get sp (u "1") st1) as [[fs1|x] st2] eqn:Hg; apply spec_get_run in Hg.
    2:{ injection H as <- <-. destruct Hg as [-> Hg]. right. eexists. split; [reflexivity|]. tauto. }
    destruct Hg as [Hsp1 ->]. unfold bind at 1 in H.
    set (F1 := zupdate [] (bitmap_fields 0 bm1)) in *.
    destruct (decode_bitmap E s i1 (u "1") fs1 64 false F1 st1) as [[[i2 F2]|x] st2] eqn:Hd;
      apply (bitmap_fresh_run _ _ sp _ _ (segs ++ [p])) in Hd; auto;
      try (rewrite map_app, in_app_iff; simpl; intros [?|[?|[]]]; [tauto|discriminate]).
    2:{ injection H as <- <-. destruct Hd as [Hd|(nm & -> & Hd)]; [now left|]. right. eexists. split; [reflexivity|]. tauto. }
    destruct Hd as (data2 & text2 & bm2 & Hw2 & Ht2 & ->). cbn [fst snd ret] in H. unfold ret in H at 1. cbn beta iota in H.
    set (F2 := zremove 1 (zupdate F1 (bitmap_fields 64 bm2))) in *.
    assert (HF2 : forall f, In f F2 <-> (bit bm1 (f - 0) = true \/ bit bm2 (f - 64) = true) /\ f <> 1%Z).
    { intro f. unfold F2. rewrite zremove_in, zupdate_in, bitmap_fields_in, HF1. tauto. }
    assert (HS2 : zsorted F2) by (apply filter_sorted, zupdate_sorted, HS1).
    set (sg1 := mkSeg (u "1") [] data2 text2) in *.
    assert (Hsg1 : segment_ok E sp sg1) by (eapply OkBitmaps; eauto; now apply OneBitmap with bm2).
    assert (Hge : forall f, In f F2 -> (2 <= f)%Z).
    { intros f Hf. apply HF2 in Hf as [[Hf|Hf] Hn]; apply bit_range in Hf; lia. }
    destruct (zmem 65 F2) eqn:Hm2.
    + apply zmem_in in Hm2. unfold bind in H. unfold spec_get in H. rewrite Hsp1 in H. cbn [ret] in H. unfold ret in H at 1.
      destruct (decode_bitmap E s i2 (u "1") fs1 128 true F2 st2) as [[[i3 F3]|x] st3] eqn:Hd;
        change (u "1") with (sg_key sg1) in Hd;
        apply (bitmap_extend_run _ _ sp _ _ (segs ++ [p])) in Hd; auto.
      2:{ injection H as <- <-. destruct Hd as [Hd|(nm & -> & Hd)]; [now left|]. right. eexists. split; [reflexivity|].
          simpl in Hd. tauto. }
      destruct Hd as (data3 & text3 & bm3 & Hw3 & Ht3 & ->). unfold ret in H. cbn [fst snd] in H. injection H as <- <-.
      cbn [sg_key sg_len sg_data sg_text sg1] in Ht3. rewrite <- app_assoc in Ht3. cbn [app] in Ht3.
      set (sg := mkSeg (u "1") [] (data2 ++ data3) (text2 ++ text3)) in *.
      assert (Hsg : segment_ok E sp sg).
      { eapply OkBitmaps; [now right|reflexivity|exact Hsp1|]. eapply MoreBitmaps; [eapply OneBitmap|]; eassumption. }
      exists p, [sg], bm1, bm2, bm3. split; [exact Ht3|]. split; [apply Forall_app; auto|].
      split; [exists (segs ++ [p]), sg; rewrite <- app_assoc; auto|].
      split; [simpl; intuition congruence|].
      split; [apply filter_sorted, zupdate_sorted, HS2|].
      assert (HF3 : forall f, In f (zremove 65 (zupdate F2 (bitmap_fields 128 bm3))) <->
         ((bit bm1 (f - 0) = true \/ bit bm2 (f - 64) = true \/ bit bm3 (f - 128) = true) /\ f <> 1 /\ f <> 65)%Z).
      { intro f. rewrite zremove_in, zupdate_in, bitmap_fields_in, HF2.
        split; intros [Ha Hb]; repeat split; try tauto.
        destruct Ha as [?|Ha]; [tauto|]. apply bit_range in Ha. lia. }
      split.
      { intros f Hf. apply HF3 in Hf as [[Hf|[Hf|Hf]] Hn]; apply bit_range in Hf; lia. }
      intro Hfit. split; [assumption|].
      assert (L1 : (length bm1 <= 8)%nat) by (eapply (Hfit (u "p")); eauto).
      assert (L2 : (length bm2 <= 8)%nat) by (eapply (Hfit (u "1")); eauto).
      assert (L3 : (length bm3 <= 8)%nat) by (eapply (Hfit (u "1")); eauto).
      split.
      * eapply Tertiary with (d2 := data2) (d3 := data3) (t2 := text2) (t3 := text3); eauto. apply HF2 in Hm2 as [[Hm2|Hm2] _]; [apply bit_range in Hm2; lia|exact Hm2].
      * apply announced_filter_ext; [apply filter_sorted, zupdate_sorted, HS2|]. intro f. rewrite HF3.
        now apply announced_cases.
    + apply zmem_not_in in Hm2. unfold bind, ret in H. cbn [fst snd] in H. injection H as <- <-.
      rewrite <- app_assoc in Ht2. cbn [app] in Ht2.
      exists p, [sg1], bm1, bm2, []. split; [exact Ht2|]. split; [apply Forall_app; auto|].
      split; [exists (segs ++ [p]), sg1; rewrite <- app_assoc; auto|].
      split; [simpl; intuition congruence|].
      split; [assumption|]. split; [assumption|].
      intro Hfit. split; [assumption|].
      assert (L1 : (length bm1 <= 8)%nat) by (eapply (Hfit (u "p")); eauto).
      assert (L2 : (length bm2 <= 8)%nat) by (eapply (Hfit (u "1")); eauto).
      assert (Hb2 : bit bm2 1 = false).
      { destruct (bit bm2 1) eqn:Hb; [|reflexivity]. exfalso. apply Hm2, HF2. split; [now right|lia]. }
      split.
      * eapply Secondary; eauto.
      * apply announced_filter_ext; [assumption|]. intro f. rewrite <- announced_cases by (simpl; lia).
        rewrite bit_nil. rewrite HF2. split; [|intuition congruence].
        intros [Ha Hn]. split; [tauto|]. split; [assumption|]. intros ->.
        apply Hm2, HF2. split; [assumption|lia].
  - apply zmem_not_in in Hm1. unfold bind at 1 in H. unfold ret in H at 1. cbn beta iota in H.
    assert (Hb1 : bit bm1 1 = false).
    { destruct (bit bm1 1) eqn:Hb; [|reflexivity]. exfalso. apply Hm1, HF1. exact Hb. }
    set (F1 := zupdate [] (bitmap_fields 0 bm1)) in *.
    assert (Hge : forall f, In f F1 -> (2 <= f)%Z).
    { intros f Hf. assert (f <> 1%Z) by (intros ->; tauto). apply HF1, bit_range in Hf. lia. }
    destruct (zmem 65 F1) eqn:Hm2.
    + apply zmem_in in Hm2. unfold bind in H. unfold spec_get in H. rewrite Hsp in H. cbn [ret] in H. unfold ret in H at 1.
      destruct (decode_bitmap E s i1 (u "p") fsp 128 true F1 st1) as [[[i3 F3]|x] st3] eqn:Hd;
        change (u "p") with (sg_key p) in Hd;
        apply (bitmap_extend_run _ _ sp _ _ segs) in Hd; auto.
      2:{ injection H as <- <-. destruct Hd as [Hd|(nm & -> & Hd)]; [now left|]. right. eexists. split; [reflexivity|].
          simpl in Hd. tauto. }
      destruct Hd as (data3 & text3 & bm3 & Hw3 & Ht3 & ->). unfold ret in H. cbn [fst snd] in H. injection H as <- <-.
      cbn [sg_key sg_len sg_data sg_text p] in Ht3.
      set (sg := mkSeg (u "p") [] (data1 ++ data3) (text1 ++ text3)) in *.
      assert (Hsg : segment_ok E sp sg).
      { eapply OkBitmaps; [now left|reflexivity|exact Hsp|]. eapply MoreBitmaps; [eapply OneBitmap|]; eassumption. }
      exists sg, [], bm1, [], []. split; [exact Ht3|]. split; [apply Forall_app; auto|].
      split; [exists segs, sg; auto|].
      split; [simpl; intuition congruence|].
      split; [apply filter_sorted, zupdate_sorted, HS1|]. split.
      { intros f Hf. apply zremove_in in Hf as [Hf _]. apply zupdate_in in Hf as [Hf|Hf]; [auto|].
        apply bitmap_fields_in, bit_range in Hf. lia. }
      intro Hfit. exfalso.
      assert (L1 : (length bm1 <= 8)%nat) by (eapply (Hfit (u "p")); eauto).
      apply HF1, bit_range in Hm2. lia.
    + apply zmem_not_in in Hm2. unfold bind, ret in H. cbn [fst snd] in H. injection H as <- <-.
      exists p, [], bm1, [], []. split; [exact Ht1|]. split; [apply Forall_app; auto|].
      split; [exists segs, p; auto|].
      split; [simpl; intuition congruence|].
      split; [assumption|]. split; [assumption|].
      intro Hfit. split; [assumption|].
      assert (L1 : (length bm1 <= 8)%nat) by (eapply (Hfit (u "p")); eauto).
      split; [now apply NoExtra|].
      apply announced_filter_ext; [assumption|]. intro f. rewrite <- announced_cases by (simpl; lia).
      rewrite !bit_nil, HF1. split; [|intuition congruence].
      intro Ha. split; [tauto|]. split; intros ->; [apply Hm1|apply Hm2]; now apply HF1.
Qed.

Theorem decode_body_run E s sp r st :
  decode_body E s sp (mkD [] []) = (r, st) ->
  match r with
  | Ok _ => exists segs, trace (buf_bytes s) st (zlen (buf_bytes s)) segs
      /\ Forall (segment_ok E sp) segs /\ (bitmaps_fit E sp -> message E sp segs)
  | Raise x => failed E sp s x
      \/ exists nm, x = XKeyError nm /\ (bitmaps_fit E sp -> ~ spec_complete sp)
  end.
Proof.
  intro H. rewrite decode_body_eq in H. unfold bind at 1 in H.
  destruct (decode_header E s 0 sp (mkD [] [])) as [[i0|x] st0] eqn:Hd; apply decode_header_run in Hd.
  2:{ injection H as <- <-. destruct Hd as [|(nm & -> & Hd)]; [now left|]. right. eexists. split; [reflexivity|].
      intros _ (Hc & _). tauto. }
  destruct Hd as (hs & Hh & Ht0 & Hok0 & Hk0).
  unfold bind at 1 in H.
  destruct (decode_type E s i0 sp st0) as [[i1|x] st1] eqn:Hd; apply (decode_type_run _ _ _ _ _ hs) in Hd; auto;
    try (intro Hi; apply Hk0 in Hi; discriminate).
  2:{ injection H as <- <-. destruct Hd as [|(nm & -> & Hd)]; [now left|]. right. eexists. split; [reflexivity|].
      intros _ (_ & Hc & _). tauto. }
  destruct Hd as (t & Htp & Ht1).
  assert (Hok1 : Forall (segment_ok E sp) (hs ++ [t])).
  { apply Forall_app. split; [assumption|]. constructor; [now apply OkType|constructor]. }
  assert (Hkt : sg_key t = u "t") by (destruct Htp as (? & _ & ? & _); assumption).
  assert (Hk1 : forall k, In k (map sg_key (hs ++ [t])) -> k = u "h" \/ k = u "t").
  { intros k Hk. rewrite map_app, in_app_iff in Hk. simpl in Hk.
    destruct Hk as [Hk|[<-|[]]]; [apply Hk0 in Hk|]; auto. }
  unfold bind at 1 in H.
  destruct (bitmap_stage E s i1 sp st1) as [[[[i2 F] field]|x] st2] eqn:Hd;
    apply (bitmap_stage_run _ _ _ _ _ (hs ++ [t])) in Hd; auto.
  2:{ injection H as <- <-. destruct Hd as [|(nm & -> & Hd)]; [now left|]. right. eexists. split; [reflexivity|].
      intros _ (_ & _ & Hc & Hc' & _). tauto. }
  destruct Hd as (p & xs & bm1 & bm2 & bm3 & Ht2 & Hok2 & Hlast & Hk2 & HS & HF & Hmsg).
  assert (Hfl : forall f, In f F -> (2 <= f)%Z /\ ~ In (zstr f) (map sg_key ((hs ++ [t]) ++ p :: xs))).
  { intros f Hf. split; [auto|]. rewrite map_app, in_app_iff. specialize (HF f Hf). intros [Hi|Hi].
    + apply Hk1 in Hi as [Hi|Hi]; [eapply zstr_neq_h|eapply zstr_neq_t]; try exact Hi; lia.
    + apply Hk2 in Hi as [Hi|Hi]; [eapply zstr_neq_p|eapply zstr_neq_1]; try exact Hi; lia. }
  unfold bind at 1 in H.
  destruct (decode_fields E s i2 sp F field st2) as [[[i3 field']|x] st3] eqn:Hd;
    apply (decode_fields_run _ _ _ _ _ _ ((hs ++ [t]) ++ p :: xs)) in Hd; auto.
  - destruct Hd as (fsegs & Hfk & Hfs & Ht3 & Hok3 & pre & lst & Hlast' & Hlk).
    destruct (Z.eqb_spec i3 (zlen (buf_bytes s))) as [->|Hne]; cbn [negb] in H.
    + injection H as <- <-. eexists. split; [exact Ht3|]. split; [assumption|].
      intro Hfit. destruct (Hmsg Hfit) as (H1 & H2 & ->).
      exists hs, t, p, xs, fsegs, bm1, bm2, bm3. split; [rewrite <- !app_assoc; reflexivity|].
      repeat (split; [assumption|]). assumption.
    + injection H as <- <-. left. left. eexists. split; [reflexivity|]. split; [reflexivity|]. split; [reflexivity|].
      pose proof (trace_idx _ _ _ _ Ht3) as Hidx.
      rewrite Hlast' in *. destruct Ht3 as (H1 & H2 & H3 & H4).
      destruct (stands_prefix _ _ _ H3) as [rest Hrest].
      exists pre, lst, rest. split; [exact H1|]. split; [exact H2|]. split; [now symmetry|].
      split; [assumption|]. split; [now apply Forall_app in Hok3|]. split; [assumption|].
      cbn [de_pos DecodeError]. rewrite Hidx. split; [|lia].
      rewrite bytes_of_app, zlen_app. pose proof (zlen_nonneg (bytes_of [lst])). lia.
  - injection H as <- <-. destruct Hd as [|(nm & f & -> & Hf & Hd)]; [now left|].
    right. eexists. split; [reflexivity|]. intros Hfit (_ & _ & _ & _ & Hc).
    destruct (Hmsg Hfit) as (_ & _ & ->). apply filter_In in Hf as [Hf _]. apply Hd, Hc, Hf.
Qed.
