(** * DecodeGapFacts: decode's KeyErrors are exactly those of DecodeGap. *)
From Coq Require Import ZifyBool ZifyNat ZifyN Sorted Permutation.
From Verif Require Import PyBase BaseFacts Types Decoder Wire DecoderFacts DecodeRun DecodeComplete Texts TextFacts DecodeFault Shown DecodeFaultFacts DecodeGap.
From Verif Require Import DecodeTheorems Specs.
Ltac Zify.zify_post_hook ::= Z.div_mod_to_equations.
Local Opaque data_fields.

(** ** A field *)
Lemma field_gap_sound E s k fs st before input nm st' :
  buf_bytes s = before ++ input ->
  decode_field E s (zlen before) k fs st = (Raise (XKeyError nm), st') -> field_gap E fs input nm.
Proof.
  intros Hs H.
  assert (Hno : ~ field_failure E s k fs before input st (Raise (XKeyError nm), st')).
  { intros (msg & off & l & d & t & _ & Q). unfold raised, outcome in Q. destruct (presents E msg); discriminate Q. }
  destruct (fs_len_type fs) as [lt|] eqn:Hlt.
  2:{ unfold decode_field in H. rewrite Hlt in H. injection H as <- <-. now apply NoLenType. }
  assert (Hgo : forall msg off lenb data text, ~ field_fault E fs before input msg off lenb data text).
  { intros msg off lenb data text Hf. apply Hno. exists msg, off, lenb, data, text. split; [assumption|].
    rewrite <- H. now apply (field_fault_complete E s k fs st before input). }
  destruct (Z.ltb_spec lt 0) as [Hneg|Hpos].
  { exfalso. eapply Hgo. eapply NegativePrefix; eauto. now apply slice_stretch. }
  destruct (Z_of_nat_complete lt Hpos) as [w ->]. clear Hpos. rename w into lt.
  assert (Hslice : py_slice (buf_bytes s) (zlen before) (zlen before + Z.of_nat lt) = firstn lt input).
  { rewrite Hs, slice_rel by lia. now rewrite Nat2Z.id. }
  destruct (le_lt_dec lt (length input)) as [Hc|Hc].
  2:{ exfalso. eapply Hgo. eapply PrefixCut; eauto. }
  set (raw := firstn lt input) in *. set (rest := skipn lt input).
  assert (Hin : input = raw ++ rest) by (symmetry; apply firstn_skipn).
  assert (Hl : length raw = lt) by (unfold raw; rewrite firstn_length; lia).
  rewrite (decode_field_start _ _ _ _ _ _ _ _ Hlt Hslice Hl) in H.
  apply bind_raise in H as [H|(n & st4 & H4 & H)].
  { destruct (Nat.eq_dec lt 0) as [Hz|Hz].
    - unfold decode_length in H. rewrite Hz in H. cbn [Z.of_nat Z.eqb] in H. unfold prop in H.
      destruct (fs_max_len fs) eqn:Hm; [discriminate|]. injection H as <- <-. apply NoFixedLength; [now rewrite Hz in Hlt|assumption].
    - rewrite (decode_length_eq _ _ _ _ _ _ _ _ raw Hz Hslice) in H.
      assert (Hne : raw <> []) by (intro He; rewrite He in Hl; simpl in Hl; congruence).
      unfold bind at 1, prop in H. destruct (fs_len_enc fs) as [le|] eqn:Hle.
      2:{ injection H as <- <-. eapply NoLenEnc; eauto. }
      unfold ret at 1 in H. apply bind_raise in H as [H|(n & st1 & H1 & H)].
      { apply prefix_reader_raise in H as (msg & Hf & _); [|assumption]. exfalso. eapply Hgo. eapply PrefixUnreadable; eauto. }
      pose proof (prefix_reader_state _ _ _ _ _ _ _ _ _ H1). subst st1.
      apply prefix_reader_ok in H1; [|assumption].
      destruct (fs_max_len fs) as [ml|] eqn:Hml.
      2:{ injection H as <- <-. eapply NoMaxLen; eauto. }
      unfold bind, ret in H. destruct (ml <? n)%Z eqn:Hgt; [|discriminate]. unfold formatted in H. destruct (forallb _ _); discriminate. }
  apply decode_length_ok in H4 as [-> Han]; [|assumption|now rewrite Hslice]. rewrite Hslice in Han.
  destruct (Z.eqb_spec n 0) as [->|Hn0]; [discriminate|].
  set (bl := byte_len _ n) in *. cbv zeta in H.
  assert (Ho : occupies fs n bl) by now apply byte_len_occupies.
  apply bind_raise in H as [H|(? & st5 & H5 & H)].
  { erewrite set_enc_data_put in H by (cbn; rewrite ?sget_sset; reflexivity). discriminate. }
  erewrite set_enc_data_put in H5 by (cbn; rewrite ?sget_sset; reflexivity).
  injection H5 as _ <-.
  destruct (Z.ltb_spec bl 0) as [Hneg|Hpos].
  { exfalso. eapply Hgo. eapply NegativeLength; eauto. now apply slice_stretch. }
  destruct (Z.ltb_spec (zlen rest) bl) as [Hcut|Hfull].
  { exfalso. eapply Hgo. eapply DataCut; eauto. }
  set (data := firstn (Z.to_nat bl) rest) in *.
  assert (Hd : py_slice (buf_bytes s) (zlen before + Z.of_nat lt) (zlen before + Z.of_nat lt + bl) = data).
  { rewrite Hs, Hin, app_assoc. replace (zlen before + Z.of_nat lt)%Z with (zlen (before ++ raw)) by (rewrite zlen_app; unfold zlen; lia).
    now apply slice_rel. }
  rewrite Hd in H.
  assert (Hdl : zlen data = bl) by (unfold data; rewrite zlen_firstn by lia; lia).
  assert (Hin2 : input = raw ++ data ++ skipn (Z.to_nat bl) rest) by (unfold data; rewrite firstn_skipn; assumption).
  rewrite <- Hdl in Ho.
  rewrite Hdl, Z.eqb_refl in H. cbn [negb] in H.
  apply bind_raise in H as [H|(de & st6 & H6 & H)].
  { unfold prop in H. destruct (fs_data_enc fs) eqn:Hde; [discriminate|]. injection H as <- <-. eapply NoDataEnc; eauto. }
  apply prop_ok in H6 as [Hde ->]. exfalso.
  apply bind_raise in H as [H|(? & st7 & H7 & H)]; [|discriminate].
  destruct (binary_cases de) as [[Hb Eb]|[Hb Eb]]; rewrite Eb in H.
  - apply bind_raise in H as [H|(? & st8 & H8 & H)]; [discriminate|]. injection H8 as _ <-.
    rewrite nibbles_eq in H. destruct (in_nibbles fs && Z.odd n) eqn:Hodd; [|discriminate].
    apply bind_raise in H as [H|(t & st9 & H9 & H)]; [|discriminate].
    eapply Hgo. eapply PadMissing; eauto. intros t Ht.
    match type of H with remove_pad_field ?z ?a ?b ?c ?d ?e ?st1 = _ =>
      assert (remove_pad_field z a b c d e st1 = (Ok t, st1)) end.
    { apply remove_pad_ok; cbn [d_dec]; rewrite sget_sset; [discriminate|]. split; [reflexivity|].
      eexists. split; [reflexivity|]. now rewrite py_upper_hex. }
    congruence.
  - apply bind_raise in H as [H|(t & st8 & H8 & H)]; [|discriminate].
    rewrite (text_fault _ _ _ _ _ _ de) in H by assumption.
    destruct (bytes_decode E de data) as [t| |] eqn:Ht; discriminate.
Qed.

Definition stops {A} (m : res exn A * dstate) (nm : pystr) : Prop := fst m = Raise (XKeyError nm).
Lemma stops_bind {A B} (m : DM A) (k : A -> DM B) st nm : stops (m st) nm -> stops (bind m k st) nm.
Proof. unfold stops, bind. destruct (m st) as [[a|x] st1]; cbn [fst]; [discriminate|]. intros [= ->]. reflexivity. Qed.

Lemma field_gap_complete E s k fs st before input nm :
  buf_bytes s = before ++ input -> field_gap E fs input nm ->
  stops (decode_field E s (zlen before) k fs st) nm.
Proof.
  intros Hs H.
  destruct H as [Hlt|Hlt Hml|lt Hlt Hz Hc Hle|lt le raw rest n Hlt Hz Hin Hl Hle Hpd Hml|raw data rest n Hin Han Hn0 Ho Hde].
  - unfold decode_field. rewrite Hlt. reflexivity.
  - assert (Hslice : py_slice (buf_bytes s) (zlen before) (zlen before + Z.of_nat 0) = []) by (rewrite Hs, slice_rel by lia; reflexivity).
    rewrite (decode_field_start E s _ k fs st 0 [] Hlt Hslice eq_refl). apply stops_bind. unfold decode_length. cbn [Z.of_nat Z.eqb]. rewrite Hml. reflexivity.
  - assert (Hslice : py_slice (buf_bytes s) (zlen before) (zlen before + Z.of_nat lt) = firstn lt input) by (rewrite Hs, slice_rel by lia; now rewrite Nat2Z.id).
    rewrite (decode_field_start _ _ _ _ _ _ _ _ Hlt Hslice) by (rewrite firstn_length; lia). apply stops_bind.
    rewrite (decode_length_eq _ _ _ _ _ _ _ _ _ Hz Hslice). apply stops_bind. rewrite Hle. reflexivity.
  - assert (Hslice : py_slice (buf_bytes s) (zlen before) (zlen before + Z.of_nat lt) = raw).
    { rewrite Hs, slice_rel by lia. rewrite Nat2Z.id, Hin, <- Hl. apply firstn_app_exact || (rewrite firstn_app, Nat.sub_diag, firstn_all, firstn_O; apply app_nil_r). }
    assert (Hne : raw <> []) by (intro He; rewrite He in Hl; simpl in Hl; congruence).
    rewrite (decode_field_start _ _ _ _ _ _ _ _ Hlt Hslice Hl). apply stops_bind.
    rewrite (decode_length_eq _ _ _ _ _ _ _ _ _ Hz Hslice). rewrite Hle. unfold prop at 1. rewrite bind_ret_l.
    rewrite (ok_bind _ _ _ _ _ (proj2 (prefix_reader_ok E s _ k le raw _ n Hne) Hpd)). apply stops_bind. rewrite Hml. reflexivity.
  - assert (exists lt, fs_len_type fs = Some (Z.of_nat lt) /\ length raw = lt) as (lt & Hlt & Hl).
    { destruct Han as [A1 A2 A3|lt le ml A1 A2 A3]; [exists O; subst raw; auto|exists lt; auto]. }
    assert (Hslice : py_slice (buf_bytes s) (zlen before) (zlen before + Z.of_nat lt) = raw).
    { rewrite Hs, slice_rel by lia. rewrite Nat2Z.id, Hin, <- Hl, firstn_app, Nat.sub_diag, firstn_all, firstn_O. apply app_nil_r. }
    rewrite (decode_field_start _ _ _ _ _ _ _ _ Hlt Hslice Hl).
    assert (HL : decode_length E s (zlen before) k fs (Z.of_nat lt) (prop_default (fs_len_count fs) str_bytes) (put k raw [] [] st) = (Ok n, put k raw [] [] st)).
    { apply decode_length_ok; [assumption|now rewrite Hslice|]. rewrite Hslice. auto. }
    rewrite (ok_bind _ _ _ _ _ HL). replace (n =? 0)%Z with false by lia. cbv zeta.
    assert (Hbl : byte_len (prop_default (fs_len_count fs) str_bytes) n = zlen data) by (symmetry; now apply byte_len_occupies).
    rewrite Hbl.
    assert (Hd : py_slice (buf_bytes s) (zlen before + Z.of_nat lt) (zlen before + Z.of_nat lt + zlen data) = data).
    { rewrite Hs, Hin, app_assoc. replace (zlen before + Z.of_nat lt)%Z with (zlen (before ++ raw)) by (rewrite zlen_app; unfold zlen; lia).
      rewrite slice_rel by apply zlen_nonneg. unfold zlen. rewrite Nat2Z.id, firstn_app, Nat.sub_diag, firstn_all, firstn_O. apply app_nil_r. }
    rewrite Hd. erewrite ok_bind by (erewrite set_enc_data_put by (cbn; rewrite ?sget_sset; reflexivity); reflexivity).
    rewrite Z.eqb_refl. cbn [negb]. apply stops_bind. rewrite Hde. reflexivity.
Qed.

(** ** The type and the bitmaps *)
Lemma type_gap_sound E s sp st before input nm st' :
  buf_bytes s = before ++ input -> decode_type E s (zlen before) sp st = (Raise (XKeyError nm), st') ->
  (sget (u "t") sp = None /\ nm = u "t") \/ exists fs, sget (u "t") sp = Some fs /\ entry_gap E (u "t") fs input nm.
Proof.
  intros Hs H. pose proof H as H0. destruct (sget (u "t") sp) as [fs|] eqn:Hsp.
  2:{ left. unfold decode_type, spec_get in H. rewrite Hsp in H. injection H as <- <-. auto. }
  right. exists fs. split; [reflexivity|]. destruct (fs_data_enc fs) as [de|] eqn:Hde.
  2:{ unfold decode_type, spec_get in H. rewrite Hsp in H. unfold bind, ret, prop in H. rewrite Hde in H.
      injection H as <- <-. split; [assumption|reflexivity]. }
  exfalso. destruct (type_cases E fs input) as [(msg & data & Hf)|(data & text & rest & Hw & Hin)]; [congruence| |].
  - rewrite (type_fault_complete E s sp st fs before input _ _ Hs Hsp Hf) in H. unfold raised, outcome in H. destruct (presents E msg); discriminate.
  - rewrite (decode_type_complete E s (zlen before) sp st (zlen before + zlen data) fs data text) in H; auto; [discriminate|].
    exists before, rest. rewrite <- Hin. auto.
Qed.
Lemma bitmap_gap_sound E s k fs off (ext : bool) fields st old_e old_t before input nm st' :
  buf_bytes s = before ++ input -> bitmap_start ext k st old_e old_t ->
  decode_bitmap E s (zlen before) k fs off ext fields st = (Raise (XKeyError nm), st') ->
  fs_data_enc fs = None /\ nm = u "data_enc".
Proof.
  intros Hs Hst H. destruct (fs_data_enc fs) as [de|] eqn:Hde.
  2:{ unfold decode_bitmap in H. rewrite Hde in H. injection H as <- <-. auto. }
  exfalso. destruct (bitmap_cases E fs (if ext then Some (e_data old_e) else None) input)
    as [(msg & data & text & Hf)|(data & text & bm & rest & Hw & Hin)]; [congruence| |].
  - rewrite (bitmap_fault_complete E s k fs off ext fields st old_e old_t before input _ _ _ Hs Hst Hf) in H. unfold raised, outcome in H. destruct (presents E msg); discriminate.
  - rewrite (decode_bitmap_complete E s (zlen before) k fs off ext fields st (zlen before + zlen data) old_e old_t data text bm) in H; auto; [discriminate|].
    exists before, rest. rewrite <- Hin. auto.
Qed.
Lemma header_gap_sound E sp s nm st' :
  decode_header E s 0 sp (mkD [] []) = (Raise (XKeyError nm), st') -> spec_gap E sp (buf_bytes s) nm.
Proof.
  intro H. exists [], (u "h"), (buf_bytes s). split; [constructor|]. unfold decode_header, spec_get in H.
  destruct (sget (u "h") sp) as [fs|] eqn:Hsp; [right|left; injection H as <- <-; auto].
  exists fs. split; [reflexivity|]. unfold entry_gap. rewrite str_eqb_refl.
  rewrite bind_ret_l in H. unfold prop in H. destruct (fs_max_len fs) as [ml|] eqn:Hml; [right|left; injection H as <- <-; auto].
  exists ml. rewrite bind_ret_l in H. destruct (ml <=? 0)%Z eqn:El; [discriminate|]. split; [reflexivity|]. split; [lia|].
  exact (field_gap_sound E s (u "h") fs _ [] (buf_bytes s) _ _ eq_refl H).
Qed.

Lemma number_key f : (2 <= f)%Z -> str_eqb (zstr f) (u "h") = false
  /\ str_eqb (zstr f) (u "t") || str_eqb (zstr f) (u "p") || str_eqb (zstr f) (u "1") = false.
Proof.
  intro H. assert (N : forall k, zstr f <> k -> str_eqb (zstr f) k = false) by (intros k; apply str_eqb_neq).
  rewrite !N; [auto|apply zstr_neq_1|apply zstr_neq_p|apply zstr_neq_t|apply zstr_neq_h]; lia.
Qed.
Lemma fields_gap_sound E sp s hs t p xs bm1 bm2 bm3 :
  header_part E sp hs -> type_part E sp t -> primary_part E sp p bm1 -> extra_part E sp bm1 xs bm2 bm3 ->
  forall todo done segs idx st field nm st',
  filter (announced bm1 bm2 bm3) data_fields = done ++ todo ->
  map sg_key segs = map zstr done -> Forall (field_segment E sp) segs ->
  trace (buf_bytes s) st idx (hs ++ t :: p :: xs ++ segs) -> zsorted todo ->
  (forall f, In f todo -> (2 <= f)%Z /\ ~ In (zstr f) (map sg_key (hs ++ t :: p :: xs ++ segs))) ->
  decode_fields E s idx sp todo field st = (Raise (XKeyError nm), st') -> spec_gap E sp (buf_bytes s) nm.
Proof.
  intros Hh Htp Hp Hx todo.
  induction todo as [|f todo IH]; intros done segs idx st field nm st' Hd Hk Hf Ht Hs Hfr H; [discriminate|].
  cbn [decode_fields] in H. unfold spec_get in H.
  destruct (Hfr f (or_introl eq_refl)) as [Hf2 Hnk].
  destruct (trace_split _ _ _ _ Ht) as (rest & Hin & ->).
  assert (R : reaches E sp (buf_bytes s) (hs ++ t :: p :: xs ++ segs) (zstr f) rest) by (eapply AtField; eauto).
  destruct (sget (zstr f) sp) as [fs|] eqn:Hsp.
  2:{ injection H as <- <-. do 3 eexists. split; [exact R|]. left. auto. }
  rewrite bind_ret_l in H. unfold bind in H.
  destruct (decode_field E s (zlen (bytes_of (hs ++ t :: p :: xs ++ segs))) (zstr f) fs st) as [[idx1|y] st1] eqn:Hdf.
  2:{ injection H as -> <-. apply (field_gap_sound E s (zstr f) fs st _ rest _ _ Hin) in Hdf.
      do 3 eexists. split; [exact R|]. right. exists fs. split; [assumption|]. unfold entry_gap. destruct (number_key f Hf2) as [-> ->]. assumption. }
  apply decode_field_sound in Hdf as (lenb & data & text & Hw & Hst & ->); [|apply trace_bounds in Ht; assumption].
  set (sg := mkSeg (zstr f) lenb data text) in *.
  assert (Hfs : field_segment E sp sg) by (exists fs; auto).
  inversion Hs as [|? ? Hs' Hlt]; subst.
  assert (Happ : hs ++ t :: p :: xs ++ segs ++ [sg] = (hs ++ t :: p :: xs ++ segs) ++ [sg])
    by (rewrite <- !app_assoc; cbn [app]; rewrite <- !app_assoc; reflexivity).
  apply (IH (done ++ [f]) (segs ++ [sg])) in H; [assumption|..].
  - rewrite <- app_assoc. assumption.
  - rewrite !map_app, Hk. reflexivity.
  - apply Forall_app. auto.
  - rewrite Happ. eapply trace_put; eauto.
  - assumption.
  - intros g Hg. destruct (Hfr g (or_intror Hg)) as [Hg2 Hgk]. split; [assumption|].
    rewrite Happ. rewrite map_app, in_app_iff. cbn [map In sg_key sg]. intros [?|[E0|[]]]; [tauto|].
    rewrite Forall_forall in Hlt. specialize (Hlt g Hg). apply zstr_inj in E0; lia.
Qed.

Lemma bitmaps_gap_sound E sp s hs t idx st nm st' :
  bitmaps_fit E sp -> header_part E sp hs -> type_part E sp t ->
  trace (buf_bytes s) st idx (hs ++ [t]) ->
  (forall k, In k (map sg_key (hs ++ [t])) -> k = u "h" \/ k = u "t") ->
  bitmap_stage E s idx sp st = (Raise (XKeyError nm), st') -> spec_gap E sp (buf_bytes s) nm.
Proof.
  intros Hfit Hh Htp Ht Hkeys H. unfold bitmap_stage in H.
  assert (Hp : ~ In (u "p") (map sg_key (hs ++ [t]))) by (intro Hi; destruct (Hkeys _ Hi); discriminate).
  assert (H1k : ~ In (u "1") (map sg_key (hs ++ [t]))) by (intro Hi; destruct (Hkeys _ Hi); discriminate).
  destruct (trace_split _ _ _ _ Ht) as (rest & Hin & ->).
  assert (R : reaches E sp (buf_bytes s) (hs ++ [t]) (u "p") rest) by (eapply AtPrimary; eauto).
  unfold bind at 1, spec_get at 1 in H. destruct (sget (u "p") sp) as [fsp|] eqn:Hsp.
  2:{ injection H as <- <-. do 3 eexists. split; [exact R|]. left. auto. }
  unfold ret at 1 in H. unfold bind at 1 in H.
  assert (Hstart : forall k st0, bitmap_start false k st0 (mkEntry [] []) []) by (split; reflexivity).
  destruct (decode_bitmap E s (zlen (bytes_of (hs ++ [t]))) (u "p") fsp 0 false [] st) as [[[i1 F1]|y] st1] eqn:Hd.
  2:{ injection H as -> <-. do 3 eexists. split; [exact R|]. right. exists fsp. split; [assumption|].
      exact (bitmap_gap_sound _ _ _ _ _ _ _ _ _ _ _ _ _ _ Hin (Hstart (u "p") st) Hd). }
  apply (decode_bitmap_sound _ _ _ _ _ _ _ _ _ _ _ _ _ ltac:(apply trace_bounds in Ht; exact Ht) (Hstart (u "p") st)) in Hd
    as (data1 & text1 & bm1 & Hw1 & Hst1 & HF1' & ->).
  cbn [fst snd e_len e_data app] in *. subst F1.
  pose proof (trace_put _ _ _ _ (u "p") [] data1 text1 _ Ht Hp Hst1) as Ht1.
  set (p := mkSeg (u "p") [] data1 text1) in *.
  assert (Hprim : primary_part E sp p bm1) by (exists fsp; auto).
  assert (L1 : (length bm1 <= 8)%nat) by (eapply (Hfit (u "p")); eauto).
  rewrite <- app_assoc in Ht1. cbn [app] in Ht1. rewrite bit1_members in H.
  destruct (bit bm1 1) eqn:Hm1.
  2:{ exfalso. unfold bind, ret in H. cbn [fst snd] in H.
      destruct (zmem 65 (zupdate [] (bitmap_fields 0 bm1))) eqn:Hm2; [|discriminate].
      apply zmem_in in Hm2. rewrite zupdate_in, bitmap_fields_in in Hm2. destruct Hm2 as [[]|Hm2]. apply bit_range in Hm2. lia. }
  destruct (trace_split _ _ _ _ Ht1) as (rest1 & Hin1 & ->).
  assert (R1 : reaches E sp (buf_bytes s) (hs ++ [t; p]) (u "1") rest1) by (eapply AtSecondary; eauto).
  unfold bind at 1 in H. unfold bind at 1, spec_get at 1 in H. destruct (sget (u "1") sp) as [fs1|] eqn:Hsp1.
  2:{ injection H as <- <-. do 3 eexists. split; [exact R1|]. left. auto. }
  unfold ret at 1 in H. unfold bind at 1 in H.
  set (st1 := put (u "p") [] data1 text1 st) in *. set (F1 := zupdate [] (bitmap_fields 0 bm1)) in *.
  destruct (decode_bitmap E s (zlen (bytes_of (hs ++ [t; p]))) (u "1") fs1 64 false F1 st1) as [[[i2 F2']|y] st2] eqn:Hd.
  2:{ injection H as -> <-. do 3 eexists. split; [exact R1|]. right. exists fs1. split; [assumption|].
      exact (bitmap_gap_sound _ _ _ _ _ _ _ _ _ _ _ _ _ _ Hin1 (Hstart (u "1") st1) Hd). }
  apply (decode_bitmap_sound _ _ _ _ _ _ _ _ _ _ _ _ _ ltac:(apply trace_bounds in Ht1; exact Ht1) (Hstart (u "1") st1)) in Hd
    as (data2 & text2 & bm2 & Hw2 & Hst2 & HF2' & ->).
  cbn [fst snd e_len e_data app] in *. subst F2'. unfold ret at 1 in H. cbn beta iota in H.
  destruct (zmem 65 (zremove 1 (zupdate F1 (bitmap_fields 64 bm2)))); [|discriminate].
  exfalso. assert (H1k' : ~ In (u "1") (map sg_key (hs ++ [t; p]))).
  { change [t; p] with ([t] ++ [p]). rewrite app_assoc, map_app, in_app_iff. cbn [map In sg_key p].
    intros [?|[?|[]]]; [tauto|discriminate]. }
  pose proof (trace_put _ _ _ _ (u "1") [] data2 text2 _ Ht1 H1k' Hst2) as Ht2.
  set (st2 := put (u "1") [] data2 text2 st1) in *.
  destruct (trace_split _ _ _ _ Ht2) as (rest2 & Hin2 & Hi2).
  assert (Hstart2 : bitmap_start true (u "1") st2 (mkEntry [] data2) text2).
  { unfold st2, put. split; cbn [d_dec d_enc]; apply sget_sset. }
  unfold bind, spec_get in H. rewrite Hsp1 in H. unfold ret at 1 in H. rewrite Hi2 in H.
  destruct (decode_bitmap E s (zlen (bytes_of ((hs ++ [t; p]) ++ [mkSeg (u "1") [] data2 text2]))) (u "1") fs1 128 true
     (zremove 1 (zupdate F1 (bitmap_fields 64 bm2))) st2) as [[[i3 F3]|y] st3] eqn:Hd; [discriminate|].
  injection H as -> <-. destruct (bitmap_gap_sound _ _ _ _ _ _ _ _ _ _ _ _ _ _ Hin2 Hstart2 Hd) as [Hn _].
  destruct Hw2; congruence.
Qed.

Lemma body_gap_sound E sp s nm st' : bitmaps_fit E sp ->
  decode_body E s sp (mkD [] []) = (Raise (XKeyError nm), st') -> spec_gap E sp (buf_bytes s) nm.
Proof.
  intros Hfit H. rewrite decode_body_eq in H. unfold bind at 1 in H.
  destruct (decode_header E s 0 sp (mkD [] [])) as [[i0|y] st0] eqn:Hd.
  2:{ injection H as -> <-. now apply header_gap_sound in Hd. }
  apply decode_header_run in Hd as (hs & Hh & Ht0 & Hok0 & Hk0).
  assert (Hnt : ~ In (u "t") (map sg_key hs)) by (intro Hi; apply Hk0 in Hi; discriminate).
  unfold bind at 1 in H.
  destruct (decode_type E s i0 sp st0) as [[i1|y] st1] eqn:Hd.
  2:{ injection H as -> <-. destruct (trace_split _ _ _ _ Ht0) as (rest & Hin & ->).
      apply (type_gap_sound _ _ _ _ _ _ _ _ Hin) in Hd. exists hs, (u "t"), rest. split; [eapply AtType; eauto|assumption]. }
  apply (decode_type_run _ _ _ _ _ hs) in Hd as (t & Htp & Ht1); auto.
  assert (Hok1 : Forall (segment_ok E sp) (hs ++ [t])).
  { apply Forall_app. split; [assumption|]. constructor; [now apply OkType|constructor]. }
  assert (Hkt : sg_key t = u "t") by (destruct Htp as (? & _ & ? & _); assumption).
  assert (Hk1 : forall k, In k (map sg_key (hs ++ [t])) -> k = u "h" \/ k = u "t").
  { intros k Hk. rewrite map_app, in_app_iff in Hk. simpl in Hk.
    destruct Hk as [Hk|[<-|[]]]; [apply Hk0 in Hk|]; auto. }
  unfold bind at 1 in H.
  destruct (bitmap_stage E s i1 sp st1) as [[[[i2 F] field]|y] st2] eqn:Hd.
  2:{ injection H as -> <-. eapply bitmaps_gap_sound; eauto. }
  apply (bitmap_stage_run _ _ _ _ _ (hs ++ [t])) in Hd; auto.
  destruct Hd as (p & xs & bm1 & bm2 & bm3 & Ht2 & Hok2 & Hlast & Hk2 & HS & HF & Hmsg).
  destruct (Hmsg Hfit) as (Hprim & Hex & HFeq).
  assert (Happ : (hs ++ [t]) ++ p :: xs = hs ++ t :: p :: xs ++ []).
  { rewrite <- app_assoc, app_nil_r. reflexivity. }
  assert (Hfl : forall f, In f F -> (2 <= f)%Z /\ ~ In (zstr f) (map sg_key ((hs ++ [t]) ++ p :: xs))).
  { intros f Hf. split; [auto|]. rewrite map_app, in_app_iff. specialize (HF f Hf). intros [Hi|Hi].
    + apply Hk1 in Hi as [Hi|Hi]; [eapply zstr_neq_h|eapply zstr_neq_t]; try exact Hi; lia.
    + apply Hk2 in Hi as [Hi|Hi]; [eapply zstr_neq_p|eapply zstr_neq_1]; try exact Hi; lia. }
  unfold bind at 1 in H.
  destruct (decode_fields E s i2 sp F field st2) as [[[i3 field']|y] st3] eqn:Hd.
  - exfalso. destruct (negb (i3 =? zlen (buf_bytes s))%Z); discriminate.
  - injection H as -> <-. rewrite Happ in Ht2, Hfl.
    apply (fields_gap_sound E sp s hs t p xs bm1 bm2 bm3 Hh Htp Hprim Hex F [] [] i2 st2 field nm st3); auto.
Qed.

(** ** Completeness *)
Lemma bitmap_gap_complete E s idx k fs off ext fields st : fs_data_enc fs = None ->
  stops (decode_bitmap E s idx k fs off ext fields st) (u "data_enc").
Proof. intro H. unfold decode_bitmap. apply stops_bind. rewrite H. reflexivity. Qed.
Lemma get_gap {A} sp k nm (m : fspec -> DM A) st :
  (sget k sp = None /\ nm = k) \/ (exists fs, sget k sp = Some fs /\ stops (m fs st) nm) ->
  stops (bind (spec_get sp k) m st) nm.
Proof.
  intros [[H ->]|(fs & H & Hm)].
  - apply stops_bind. unfold spec_get. rewrite H. reflexivity.
  - unfold spec_get. rewrite H, bind_ret_l. assumption.
Qed.
Lemma body_gap_complete E sp s nm : bitmaps_fit E sp -> spec_gap E sp (buf_bytes s) nm ->
  stops (decode_body E s sp (mkD [] [])) nm.
Proof.
  intros Hfit (segs & k & rest & R & G). rewrite decode_body_eq.
  assert (Q : forall (P : fspec -> Prop), (sget k sp = None /\ nm = k) \/ (exists fs, sget k sp = Some fs /\ entry_gap E k fs rest nm) ->
     (forall fs, entry_gap E k fs rest nm -> P fs) -> (sget k sp = None /\ nm = k) \/ (exists fs, sget k sp = Some fs /\ P fs)).
  { intros P [A|(fs & A & B)] C; [left; exact A|right; exists fs; auto]. }
  destruct R as [|hs rest Hh Hin|hs t rest Hh Htp Hin|hs t p bm1 rest Hh Htp Hp Hb1 Hin
    |hs t p xs bm1 bm2 bm3 done f todo fsegs rest Hh Htp Hp Hx Hfl Hfk Hfs Hin].
  - apply stops_bind. unfold decode_header. apply get_gap, (Q _ G). intros fs. unfold entry_gap. rewrite str_eqb_refl.
    intros [[Hm ->]|(ml & Hm & Hpos & Hg)]; unfold prop; rewrite Hm; [reflexivity|]. rewrite bind_ret_l. replace (ml <=? 0)%Z with false by lia.
    exact (field_gap_complete E s (u "h") fs (mkD [] []) [] (buf_bytes s) nm eq_refl Hg).
  - destruct (DecodeFaultFacts.header_ok E sp s _ rest Hh Hin) as (st0 & H0 & Ht0 & Hk0). rewrite (ok_bind _ _ _ _ _ H0).
    apply stops_bind. unfold decode_type. apply get_gap, (Q _ G). intros fs [Hde ->]. apply stops_bind. rewrite Hde. reflexivity.
  - destruct (DecodeFaultFacts.header_ok E sp s hs (sg_bytes t ++ rest) Hh) as (st0 & H0 & Ht0 & Hk0).
    { rewrite bytes_of_snoc, <- app_assoc in Hin. exact Hin. }
    rewrite (ok_bind _ _ _ _ _ H0).
    destruct (DecodeFaultFacts.type_ok E sp s hs t rest st0 Htp Ht0 Hk0 Hin) as (st1 & H1 & Ht1 & Hk1). rewrite (ok_bind _ _ _ _ _ H1).
    apply stops_bind. unfold bitmap_stage. apply get_gap, (Q _ G). intros fs [Hde ->]. apply stops_bind. now apply bitmap_gap_complete.
  - assert (Hq : hs ++ [t; p] = (hs ++ [t]) ++ [p]) by (rewrite <- app_assoc; reflexivity). rewrite Hq in *. clear Hq.
    destruct (DecodeFaultFacts.header_ok E sp s hs (sg_bytes t ++ sg_bytes p ++ rest) Hh) as (st0 & H0 & Ht0 & Hk0).
    { rewrite !bytes_of_snoc, <- !app_assoc in Hin. exact Hin. }
    rewrite (ok_bind _ _ _ _ _ H0).
    destruct (DecodeFaultFacts.type_ok E sp s hs t (sg_bytes p ++ rest) st0 Htp Ht0 Hk0) as (st1 & H1 & Ht1 & Hk1).
    { rewrite bytes_of_snoc, <- app_assoc in Hin. exact Hin. }
    rewrite (ok_bind _ _ _ _ _ H1).
    apply stops_bind. destruct Hp as (fsp & Hspp & Hpk & Hpl & Hwp).
    unfold bitmap_stage, spec_get at 1. rewrite Hspp, bind_ret_l.
    assert (Hnp : ~ In (u "p") (map sg_key (hs ++ [t]))) by (intro Hi; apply Hk1 in Hi as [Hi|Hi]; discriminate).
    destruct (bitmap_ok E s (u "p") fsp 0 [] (hs ++ [t]) p rest st1 bm1 Hpk Hpl Hwp Ht1 Hnp Hin) as (st2 & H2 & Ht2).
    rewrite (ok_bind _ _ _ _ _ H2). cbn [fst snd]. rewrite bit1_members, Hb1.
    apply stops_bind. apply get_gap, (Q _ G). intros fs [Hde ->]. apply stops_bind. now apply bitmap_gap_complete.
  - assert (Happ : hs ++ t :: p :: xs ++ fsegs = ((hs ++ [t]) ++ p :: xs) ++ fsegs) by (rewrite <- !app_assoc; reflexivity).
    rewrite Happ in *. rewrite bytes_of_app in Hin.
    assert (Hpx : bytes_of ((hs ++ [t]) ++ p :: xs) = bytes_of hs ++ sg_bytes t ++ bytes_of (p :: xs)).
    { rewrite !bytes_of_app, bytes_of_one, <- app_assoc. reflexivity. }
    destruct (DecodeFaultFacts.header_ok E sp s hs (sg_bytes t ++ bytes_of (p :: xs) ++ bytes_of fsegs ++ rest) Hh) as (st0 & H0 & Ht0 & Hk0).
    { rewrite Hpx, <- !app_assoc in Hin. exact Hin. }
    rewrite (ok_bind _ _ _ _ _ H0).
    destruct (DecodeFaultFacts.type_ok E sp s hs t (bytes_of (p :: xs) ++ bytes_of fsegs ++ rest) st0 Htp Ht0 Hk0) as (st1 & H1 & Ht1 & Hk1).
    { rewrite bytes_of_snoc. rewrite Hpx, <- !app_assoc in Hin. rewrite <- app_assoc. exact Hin. }
    rewrite (ok_bind _ _ _ _ _ H1).
    assert (Hb : (length bm1 <= 8 /\ length bm2 <= 8 /\ length bm3 <= 8)%nat).
    { destruct Hp as (fsp & Hspp & _ & _ & Hwp). split; [eapply (Hfit (u "p")); eauto|].
      destruct Hx; simpl; split; try lia; eapply (Hfit (u "1")); eauto. }
    assert (Hs5 : stands (buf_bytes s) (zlen (bytes_of (hs ++ [t]))) (bytes_of (p :: xs)) (zlen (bytes_of ((hs ++ [t]) ++ p :: xs)))).
    { exists (bytes_of (hs ++ [t])), (bytes_of fsegs ++ rest). split; [|split; [reflexivity|]].
      - rewrite bytes_of_snoc, <- !app_assoc. rewrite Hpx, <- !app_assoc in Hin. exact Hin.
      - rewrite (bytes_of_app (hs ++ [t])), zlen_app. reflexivity. }
    destruct (bitmap_stage_complete E s sp _ _ (hs ++ [t]) p xs bm1 bm2 bm3 _ Ht1 Hk1 Hp Hx (proj1 Hb) (proj1 (proj2 Hb)) (proj2 (proj2 Hb)) Hs5) as (st2 & Hd2 & Ht2).
    rewrite (ok_bind _ _ _ _ _ Hd2). apply stops_bind.
    assert (Hk2 : forall k, In k (map sg_key (p :: xs)) -> k = u "p" \/ k = u "1").
    { destruct Hp as (_ & _ & Hpk & _). destruct Hx; simpl; intros k Hk; intuition congruence. }
    assert (Hfr : forall g, In g (done ++ f :: todo) -> (2 <= g)%Z /\ ~ In (zstr g) (map sg_key ((hs ++ [t]) ++ p :: xs))).
    { intros g Hg. rewrite <- Hfl in Hg. apply filter_In in Hg as [Hg _]. apply data_fields_in in Hg. split; [lia|].
      rewrite map_app, in_app_iff. intros [Hi|Hi].
      - apply Hk1 in Hi as [Hi|Hi]; [eapply zstr_neq_h|eapply zstr_neq_t]; try exact Hi; lia.
      - apply Hk2 in Hi as [Hi|Hi]; [eapply zstr_neq_p|eapply zstr_neq_1]; try exact Hi; lia. }
    pose proof (filter_sorted (announced bm1 bm2 bm3) _ DecodeRun.data_fields_sorted) as HS. rewrite Hfl in HS |- *.
    assert (HSd : zsorted done).
    { clear -HS. induction done as [|a done IH]; [constructor|].
      inversion HS as [|? ? HS' Hlt]; subst. specialize (IH HS'). rewrite Forall_forall in Hlt.
      constructor; [assumption|]. rewrite Forall_forall. intros g Hg. apply Hlt, in_app_iff. now left. }
    assert (Hs6 : stands (buf_bytes s) (zlen (bytes_of ((hs ++ [t]) ++ p :: xs))) (bytes_of fsegs) (zlen (bytes_of (((hs ++ [t]) ++ p :: xs) ++ fsegs)))).
    { exists (bytes_of ((hs ++ [t]) ++ p :: xs)), rest. split; [|split; [reflexivity|]].
      - rewrite <- app_assoc in Hin. exact Hin.
      - rewrite (bytes_of_app _ fsegs), zlen_app. reflexivity. }
    destruct (decode_fields_complete E s sp done fsegs _ st2 _ (List.last (map sg_key (p :: xs)) []) _ Ht2 Hfk Hfs HSd
                (fun g Hg => Hfr g (in_or_app _ _ _ (or_introl Hg))) Hs6) as (st3 & Hd3 & Ht3).
    rewrite decode_fields_app. rewrite (ok_bind _ _ _ _ _ Hd3). cbn [fst snd decode_fields].
    apply get_gap, (Q _ G). intros fs Hg. apply stops_bind. unfold entry_gap in Hg.
    destruct (number_key f) as [N1 N2]; [apply (Hfr f), in_or_app; right; now left|]. rewrite N1, N2 in Hg.
    eapply field_gap_complete; eauto. rewrite bytes_of_app. assumption.
Qed.

(** ** decode *)
Lemma decode_body_run_eq E s sp input : holds s input -> buf_bytes s = input /\
  decode E s sp = match decode_body E s sp (mkD [] []) with (Ok _, st) => Ok (d_dec st, d_enc st) | (Raise x, _) => Raise x end.
Proof. intros [-> | ->]; split; reflexivity. Qed.
Theorem decode_gap_iff E sp s input nm : bitmaps_fit E sp -> holds s input ->
  (decode E s sp = Raise (XKeyError nm) <-> spec_gap E sp input nm).
Proof.
  intros Hfit Hs. destruct (decode_body_run_eq E s sp input Hs) as [Hb ->]. subst input. split.
  - destruct (decode_body E s sp (mkD [] [])) as [[a|x] st] eqn:Hr; [discriminate|]. intros [= ->]. now apply body_gap_sound in Hr.
  - intro G. apply body_gap_complete in G; [|assumption]. unfold stops in G.
    destruct (decode_body E s sp (mkD [] [])) as [[a|x] st]; cbn [fst] in G; [discriminate|]. now injection G as ->.
Qed.
(** Message, fault or gap: nothing else happens. *)
Theorem decode_outcomes E sp s input : bitmaps_fit E sp -> holds s input ->
  (exists dec enc, decode E s sp = Ok (dec, enc)) \/ (exists e, decode E s sp = Raise (XDecodeError e))
  \/ decode E s sp = Raise XValueError \/ exists nm, decode E s sp = Raise (XKeyError nm).
Proof.
  intros Hfit Hs. destruct (decode_body_run_eq E s sp input Hs) as [Hb ->].
  destruct (decode_body E s sp (mkD [] [])) as [[a|x] st] eqn:Hr; [left; eauto|]. right.
  apply body_fault_sound in Hr as [(msg & pos & segs & last & Hf & ->)|(nm & -> & _)]; eauto.
  unfold outcome. destruct (presents E msg); eauto.
Qed.

(** ** Specs that define h, t, p, 1 and 2..128 *)
Definition classic (sp : spec) : Prop :=
  (forall k, k = u "h" \/ k = u "t" \/ k = u "p" \/ k = u "1" -> entry_complete sp k)
  /\ (forall f, In f data_fields -> (f <= 128)%Z -> entry_complete sp (zstr f))
  /\ (forall f, (129 <= f <= 192)%Z -> sget (zstr f) sp = None).
Lemma field_gap_mandatory E fs rest nm : mandatory fs -> ~ field_gap E fs rest nm.
Proof. intros (H1 & H2 & H3 & H4) H. destruct H; congruence. Qed.
Lemma entry_gap_mandatory E k fs rest nm : mandatory fs -> ~ entry_gap E k fs rest nm.
Proof.
  intros H G. unfold entry_gap in G. assert (N := field_gap_mandatory E fs rest nm H). destruct H as (H1 & H2 & H3 & H4).
  destruct (str_eqb k (u "h")); [destruct G as [[G _]|(ml & _ & _ & G)]; auto|].
  destruct (str_eqb k (u "t") || str_eqb k (u "p") || str_eqb k (u "1")); [destruct G; auto|auto].
Qed.
Lemma reaches_key E sp input segs k rest : reaches E sp input segs k rest ->
  (k = u "h" \/ k = u "t" \/ k = u "p" \/ k = u "1") \/ exists f, In f data_fields /\ k = zstr f.
Proof.
  intros []; auto 6. right. exists f. split; [|reflexivity].
  assert (H7 : In f (filter (announced bm1 bm2 bm3) data_fields)).
  { match goal with H : filter _ _ = _ |- _ => rewrite H end. apply in_app_iff. right. now left. }
  now apply filter_In in H7.
Qed.
Lemma classic_gap E sp input nm : classic sp ->
  (spec_gap E sp input nm <-> exists f segs rest, (129 <= f <= 192)%Z /\ nm = zstr f /\ reaches E sp input segs (zstr f) rest).
Proof.
  intros (H1 & H2 & H3). split.
  - intros (segs & k & rest & R & G).
    assert (C : entry_complete sp k \/ exists f, (129 <= f <= 192)%Z /\ k = zstr f).
    { destruct (reaches_key _ _ _ _ _ _ R) as [Hk|(f & Hf & ->)]; [left; auto|].
      destruct (Z.leb_spec f 128); [left; auto|right]. exists f. apply data_fields_in in Hf. split; [lia|reflexivity]. }
    destruct C as [(fs & Hs & Hm)|(f & Hf & ->)].
    + exfalso. destruct G as [[G _]|(fs' & G1 & G2)]; [congruence|]. assert (fs' = fs) by congruence. subst. revert G2. now apply entry_gap_mandatory.
    + exists f, segs, rest. split; [assumption|]. split; [|assumption]. specialize (H3 f Hf). destruct G as [[_ G]|(fs & G & _)]; [assumption|congruence].
  - intros (f & segs & rest & Hf & -> & R). exists segs, (zstr f), rest. split; [assumption|]. left. auto.
Qed.
Definition completeb' (sp : spec) (k : pystr) : bool :=
  match sget k sp with
  | Some fs => match fs_data_enc fs, fs_len_enc fs, fs_len_type fs, fs_max_len fs with
               | Some _, Some _, Some _, Some _ => true | _, _, _, _ => false end
  | None => false
  end.
Lemma completeb'_ok sp k : completeb' sp k = true -> entry_complete sp k.
Proof.
  unfold completeb', entry_complete, mandatory. destruct (sget k sp) as [fs|]; [|discriminate]. intro H. exists fs.
  split; [reflexivity|]. destruct (fs_data_enc fs), (fs_len_enc fs), (fs_len_type fs), (fs_max_len fs); try discriminate.
  repeat split; discriminate.
Qed.
Lemma classic_check sp :
  forallb (completeb' sp) ([u "h"; u "t"; u "p"; u "1"] ++ map (fun i => zstr (Z.of_nat i)) (seq 2 63 ++ seq 66 63)) = true ->
  forallb (fun i => match sget (zstr (Z.of_nat i)) sp with None => true | _ => false end) (seq 129 64) = true -> classic sp.
Proof.
  intros H N. rewrite forallb_forall in H, N. split; [|split].
  - intros k Hk. apply completeb'_ok, H, in_app_iff. left. cbn. intuition.
  - intros f Hf Hl. apply completeb'_ok, H, in_app_iff. right. apply data_fields_in in Hf. apply in_map_iff. exists (Z.to_nat f).
    split; [f_equal; lia|]. apply in_app_iff. rewrite !in_seq. lia.
  - intros f Hf. specialize (N (Z.to_nat f)). rewrite Z2Nat.id in N by lia. assert (In (Z.to_nat f) (seq 129 64)) by (apply in_seq; lia).
    specialize (N H0). destruct (sget (zstr f) sp); [discriminate|reflexivity].
Qed.
Lemma default_classic : classic Specs.default.
Proof. apply classic_check; vm_compute; reflexivity. Qed.
Lemma default_ascii_classic : classic Specs.default_ascii.
Proof. apply classic_check; vm_compute; reflexivity. Qed.
Theorem shipped_key_errors E s input nm sp : sp = Specs.default \/ sp = Specs.default_ascii -> bitmaps_fit E sp -> holds s input ->
  (decode E s sp = Raise (XKeyError nm)
   <-> exists f segs rest, (129 <= f <= 192)%Z /\ nm = zstr f /\ reaches E sp input segs (zstr f) rest).
Proof.
  intros Hsp Hfit Hs. rewrite (decode_gap_iff E sp s input nm Hfit Hs). apply classic_gap.
  destruct Hsp as [-> | ->]; [exact default_classic|exact default_ascii_classic].
Qed.
Lemma one_outcome E sp input : bitmaps_fit E sp ->
  let msg := exists segs, message E sp segs /\ input = bytes_of segs in
  let fault := exists m pos segs last, decode_fault E sp input m pos segs last in
  let gap := exists nm, spec_gap E sp input nm in
  (msg \/ fault \/ gap) /\ ~ (msg /\ fault) /\ ~ (msg /\ gap) /\ ~ (fault /\ gap).
Proof.
  intros Hfit msg fault gap. assert (Hs : holds (InBytes input) input) by now left.
  assert (A : msg <-> exists r, decode E (InBytes input) sp = Ok r).
  { split.
    - intros (segs & M & Q). eexists. apply (DecodeTheorems.decode_iff E sp _ input (dec_of segs) (enc_of segs) Hfit Hs). eauto.
    - intros [[dec enc] H]. apply (DecodeTheorems.decode_iff E sp _ input _ _ Hfit Hs) in H as (segs & M & Q & _). exists segs. auto. }
  assert (B : fault <-> (exists e, decode E (InBytes input) sp = Raise (XDecodeError e)) \/ decode E (InBytes input) sp = Raise XValueError).
  { split.
    - intros (m & pos & segs & last & F). rewrite (decode_fault_complete _ _ _ _ _ _ _ _ Hfit Hs F). unfold outcome. destruct (presents E m); eauto.
    - intros [[e H]|H].
      + apply (decode_fault_iff E sp _ input _ Hfit Hs) in H as (m & pos & segs & last & F & _). exists m, pos, segs, last. auto.
      + apply (decode_value_error_iff E sp _ input Hfit Hs) in H as (m & pos & segs & last & F & _). exists m, pos, segs, last. auto. }
  assert (C : gap <-> exists nm, decode E (InBytes input) sp = Raise (XKeyError nm)).
  { split; intros [nm H]; exists nm; now apply (decode_gap_iff E sp _ input _ Hfit Hs). }
  rewrite A, B, C. split; [|split; [|split]; intros [H1 H2]; repeat match goal with H : _ \/ _ |- _ => destruct H | H : exists _, _ |- _ => destruct H end; congruence].
  destruct (decode_outcomes E sp _ input Hfit Hs) as [(dec & enc & H)|[H|[H|H]]]; eauto.
Qed.
