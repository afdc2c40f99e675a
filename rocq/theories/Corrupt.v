(** * Corrupt: a message whose bytes are altered. *)
From Verif Require Import PyBase BaseFacts Types Decoder Wire DecodeFault Claims.
From Verif Require Import DecoderFacts DecodeRun DecodeTheorems DecodeFaultFacts Replace.
Local Opaque data_fields.

(** ** Other data of the same length in one field *)
Lemma padded_dec fs d : (exists t, padded fs d t) \/ forall t, ~ padded fs d t.
Proof.
  assert (A : (exists c t, pad_char (fs_left_pad fs) = Some c /\ d = c :: t)
    \/ (forall c, pad_char (fs_left_pad fs) = Some c -> hd_error d <> Some c)).
  { destruct (pad_char (fs_left_pad fs)) as [c|]; [|right; discriminate]. destruct d as [|x d]; [right; discriminate|].
    destruct (N.eq_dec x c) as [->|N]; [left; eauto|]. right. intros y [= <-] [= Q]. contradiction. }
  destruct A as [(c & t & P & Q)|A]; [left; exists t; left; eauto|].
  assert (B : (exists c t, pad_char (fs_right_pad fs) = Some c /\ d = t ++ [c])
    \/ (forall c t, pad_char (fs_right_pad fs) = Some c -> d <> t ++ [c])).
  { destruct (pad_char (fs_right_pad fs)) as [c|]; [|right; discriminate]. destruct d as [|y d] using rev_ind.
    - right. intros x [|z t] _; discriminate.
    - destruct (N.eq_dec y c) as [->|N]; [left; eauto|]. right. intros x t [= <-] Q. apply app_inj_tail in Q as [_ Q]. contradiction. }
  destruct B as [(c & t & P & Q)|B]; [left; exists t; right; eauto|].
  right. intros t [(c & P & Q)|(_ & c & P & Q)]; [|exact (B c t P Q)]. apply (A c P). now rewrite Q.
Qed.
Lemma field_other E fs lenb data text data' before rest : field_wire E fs lenb data text -> length data' = length data ->
  (exists t, field_wire E fs lenb data' t)
  \/ exists msg t, field_fault E fs before (lenb ++ data' ++ rest) msg (zlen lenb) lenb data' t.
Proof.
  intros (n & A & O & C) L. assert (O' : occupies fs n (zlen data')) by (unfold zlen in *; now rewrite L).
  destruct C as [H1 H2|de H1 H2 H3 H4 H5|de H1 H2 H3 H4 H5|de H1 H2 H3 H4].
  - left. exists []. exists n. split; [assumption|]. split; [assumption|]. now apply CarriesNothing.
  - left. exists (HEX data'). exists n. split; [assumption|]. split; [assumption|]. eapply CarriesHex; eauto.
  - destruct (padded_dec fs (HEX data')) as [[t P]|P].
    + left. exists t. exists n. split; [assumption|]. split; [assumption|]. eapply CarriesPaddedHex; eauto.
    + right. eexists _, _. eapply PadMissing; eauto.
  - destruct (bytes_decode E de data') as [t| |] eqn:D.
    + left. exists t. exists n. split; [assumption|]. split; [assumption|]. eapply CarriesText; eauto.
    + right. eexists _, []. eapply DataUnreadable; eauto. now constructor.
    + right. eexists _, []. eapply DataUnreadable; eauto. now constructor.
Qed.
Lemma type_other E fs data text data' rest : type_wire E fs data text -> length data' = length data ->
  (exists t, type_wire E fs data' t) \/ exists msg, type_fault E fs (data' ++ rest) msg data'.
Proof.
  intros [de H1 H2 H3 H4|de H1 H2 H3 H4] L.
  - left. exists (HEX data'). eapply TypeBinary; eauto. congruence.
  - destruct (bytes_decode E de data') as [t| |] eqn:D.
    + left. exists t. eapply TypeText; eauto. congruence.
    + right. eexists. eapply TypeUnreadable; eauto; [congruence|]. now constructor.
    + right. eexists. eapply TypeUnreadable; eauto; [congruence|]. now constructor.
Qed.

Lemma in_segments k e segs : sget k (enc_of segs) = Some e -> exists pre sg post,
  segs = pre ++ sg :: post /\ sg_key sg = k /\ e = mkEntry (sg_len sg) (sg_data sg) /\ ~ In k (map sg_key pre).
Proof.
  unfold sget, enc_of. induction segs as [|sg l IH]; cbn [map dget]; [discriminate|]. destruct (str_eqb k (sg_key sg)) eqn:Q.
  - apply str_eqb_eq in Q. intros [= <-]. exists [], sg, l. auto.
  - intro H. destruct (IH H) as (pre & x & post & -> & H1 & H2 & H3). exists (sg :: pre), x, post. repeat (split; [auto; fail|]).
    cbn. intros [W|W]; [|contradiction]. apply str_eqb_neq in Q. congruence.
Qed.

(** ** Where the reader is after the segments [pre], with [sg] to be read *)
Inductive stage (E : pyenv) (sp : spec) : list segment -> segment -> Prop :=
| AtHeader fs ml sg : sget (u "h") sp = Some fs -> fs_max_len fs = Some ml -> (0 < ml)%Z ->
    sg_key sg = u "h" -> field_segment E sp sg -> stage E sp [] sg
| AtType hs sg : header_part E sp hs -> type_part E sp sg -> stage E sp hs sg
| AtPrimary hs t sg bm1 : header_part E sp hs -> type_part E sp t -> primary_part E sp sg bm1 ->
    stage E sp (hs ++ [t]) sg
| AtExtra hs t p sg bm1 bm2 bm3 : header_part E sp hs -> type_part E sp t -> primary_part E sp p bm1 ->
    extra_part E sp bm1 [sg] bm2 bm3 -> stage E sp (hs ++ [t; p]) sg
| AtField hs t p xs bm1 bm2 bm3 done f todo segs sg :
    header_part E sp hs -> type_part E sp t -> primary_part E sp p bm1 -> extra_part E sp bm1 xs bm2 bm3 ->
    filter (announced bm1 bm2 bm3) data_fields = done ++ f :: todo ->
    map sg_key segs = map zstr done -> Forall (field_segment E sp) segs ->
    sg_key sg = zstr f -> field_segment E sp sg -> stage E sp (hs ++ t :: p :: xs ++ segs) sg.
Lemma extra_one E sp bm1 xs bm2 bm3 : extra_part E sp bm1 xs bm2 bm3 -> xs = [] \/ exists sg, xs = [sg].
Proof. intros [?|? sg|? sg]; eauto. Qed.
Lemma message_stage E sp pre sg post : message E sp (pre ++ sg :: post) -> stage E sp pre sg.
Proof.
  intros (hs & t & p & xs & fields & bm1 & bm2 & bm3 & Q & H1 & H2 & H3 & H4 & H5 & H6).
  assert (G : forall m, pre = hs ++ m -> stage E sp pre sg).
  { intros m ->. rewrite <- app_assoc in Q. apply app_inv_head in Q.
    destruct m as [|a m]; cbn [app] in Q; injection Q as ? Q; subst; [rewrite app_nil_r; now apply AtType|].
    destruct m as [|b m]; cbn [app] in Q; injection Q as ? Q; subst; [eapply AtPrimary; eauto|].
    destruct (extra_one _ _ _ _ _ _ H4) as [->|[x ->]]; cbn [app] in Q.
    - subst fields. rewrite map_app in H5. cbn [map] in H5. symmetry in H5. apply map_eq_app in H5 as (d & r & W & W1 & W2).
      apply map_eq_cons in W2 as (f & todo & -> & W2 & _). apply Forall_app in H6 as [F1 F2]. inversion F2; subst.
      apply (AtField E sp hs t p [] bm1 bm2 bm3 d f todo m sg); auto.
    - destruct m as [|c m]; cbn [app] in Q; injection Q as ? Q; subst; [eapply AtExtra; eauto|].
      rewrite map_app in H5. cbn [map] in H5. symmetry in H5. apply map_eq_app in H5 as (d & r & W & W1 & W2).
      apply map_eq_cons in W2 as (f & todo & -> & W2 & _). apply Forall_app in H6 as [F1 F2]. inversion F2; subst.
      apply (AtField E sp hs t p [x] bm1 bm2 bm3 d f todo m sg); auto. }
  destruct H1 as [fs ml A1 A2 A3|fs ml h A1 A2 A3 A4 A5]; [now apply (G pre)|].
  destruct pre as [|a pre]; cbn [app] in Q; injection Q as ? Q; subst; [eapply AtHeader; eauto|]. now apply (G pre).
Qed.
(** The fault when other data of the same length, of a readable segment, is unreadable. *)
Lemma stage_other E sp pre sg data' rest : stage E sp pre sg -> sg_key sg <> u "p" -> sg_key sg <> u "1" ->
  length data' = length (sg_data sg) ->
  (exists t, let sg' := mkSeg (sg_key sg) (sg_len sg) data' t in
     if str_eqb (sg_key sg) (u "t") then type_part E sp sg' else field_segment E sp sg')
  \/ exists msg t, decode_fault E sp (bytes_of pre ++ sg_len sg ++ data' ++ rest) msg (zlen (bytes_of pre) + zlen (sg_len sg))
       pre (mkSeg (sg_key sg) (sg_len sg) data' t).
Proof.
  intros [fs ml sg0 A1 A2 A3 A4 (fs' & B1 & B2)|hs sg0 A1 (fs & B1 & B2 & B3 & B4)|hs t sg0 bm1 A1 A2 (fs & B1 & B2 & B3)|hs t p sg0 bm1 bm2 bm3 A1 A2 A3 A4
    |hs t p xs bm1 bm2 bm3 done f todo segs sg0 A1 A2 A3 A4 A5 A6 A7 A8 (fs & B1 & B2)] Np N1 L.
  - rewrite A4 in *. assert (fs' = fs) by congruence. subst fs'. cbn [str_eqb].
    destruct (field_other E fs _ _ _ data' [] rest B2 L) as [[t W]|(msg & t & W)].
    + left. exists t. exists fs. auto.
    + right. exists msg, t. eapply HeaderFault; eauto.
  - rewrite B2 in *. destruct (type_other E fs _ _ data' rest B4 L) as [[t W]|(msg & W)].
    + left. exists t. exists fs. auto.
    + right. exists msg, []. rewrite B3. replace (zlen (bytes_of hs) + zlen [])%Z with (zlen (bytes_of hs)) by (unfold zlen; cbn [length]; lia).
      eapply TypeFault; eauto.
  - congruence.
  - inversion A4; congruence.
  - assert (N : (2 <= f)%Z). { assert (I : In f (filter (announced bm1 bm2 bm3) data_fields)) by (rewrite A5; apply in_elt). apply filter_In in I as [I _]. apply data_fields_in in I. lia. }
    assert (Nt : sg_key sg0 <> u "t") by (rewrite A8; apply zstr_neq_t; lia). apply str_eqb_neq in Nt. rewrite Nt. rewrite A8 in *.
    destruct (field_other E fs _ _ _ data' (bytes_of (hs ++ t :: p :: xs ++ segs)) rest B2 L) as [[v W]|(msg & v & W)].
    + left. exists v. exists fs. auto.
    + right. exists msg, v. eapply FieldFault; eauto.
Qed.

(** Other bytes of the same length under one key are accepted, changing nothing
    else, or are reported there. *)
Theorem decode_other_data E sp s b dec enc k e data' s' : bitmaps_fit E sp -> numbers_ok E sp -> holds s b -> decode E s sp = Ok (dec, enc) ->
  k <> u "p" -> k <> u "1" -> sget k enc = Some e -> length data' = length (e_data e) ->
  holds s' (wire_bytes (sset k (mkEntry (e_len e) data') enc)) ->
  (exists t, decode E s' sp = Ok (sset k t dec, sset k (mkEntry (e_len e) data') enc))
  \/ exists er d1 d2 e1 e2 v v', decode E s' sp = Raise (XDecodeError er)
       /\ dec = d1 ++ (k, v) :: d2 /\ enc = e1 ++ (k, e) :: e2
       /\ de_field er = k /\ de_pos er = (zlen (wire_bytes e1) + zlen (e_len e))%Z
       /\ de_doc_dec er = d1 ++ [(k, v')] /\ de_doc_enc er = e1 ++ [(k, mkEntry (e_len e) data')].
Proof.
  intros Hf Hnum Hs D Np N1 He L Hs'. assert (ND := decode_accounts E sp s b dec enc Hs D). destruct ND as (_ & _ & ND).
  assert (D0 := D). apply (decode_iff E sp s b dec enc Hf Hs) in D as (segs & M & -> & -> & ->).
  destruct (in_segments k e segs He) as (pre & sg & post & -> & Hk & -> & Hn). cbn [e_len e_data] in *. subst k.
  destruct (stage_other E sp pre sg data' (bytes_of post) (message_stage _ _ _ _ _ M) Np N1 L) as [[t W]|(msg & t & W)].
  - left. exists t. refine (decode_put E sp s _ _ _ (mkSeg (sg_key sg) (sg_len sg) data' t) s' Hf Hs D0 _ Np N1 W Hs').
    cbn. rewrite keys_enc, map_app. apply in_elt.
  - right. set (sg' := mkSeg (sg_key sg) (sg_len sg) data' t) in *.
    exists (DecodeError (text_of msg) s' (dec_of (pre ++ [sg'])) (enc_of (pre ++ [sg'])) (zlen (bytes_of pre) + zlen (sg_len sg)) (sg_key sg)),
      (dec_of pre), (dec_of post), (enc_of pre), (enc_of post), (sg_text sg), t.
    assert (B : wire_bytes (sset (sg_key sg) (mkEntry (sg_len sg) data') (enc_of (pre ++ sg :: post))) = bytes_of pre ++ sg_len sg ++ data' ++ bytes_of post).
    { assert (I : In (sg_key sg) (map sg_key (pre ++ sg :: post))) by (rewrite map_app; apply in_elt). rewrite keys_enc in ND.
      assert (Q := put_sset (fun x => mkEntry (sg_len x) (sg_data x)) sg' _ I ND). cbn [sg' sg_key sg_len sg_data] in Q. unfold enc_of. rewrite <- Q.
      change (wire_bytes (enc_of (map (put_seg sg') (pre ++ sg :: post))) = bytes_of pre ++ sg_len sg ++ data' ++ bytes_of post). rewrite wire_bytes_enc.
      rewrite map_app in ND. cbn [map] in ND. assert (ND2 := NoDup_remove_2 _ _ _ ND).
      assert (P : forall l, (forall x, In x l -> sg_key x <> sg_key sg) -> map (put_seg sg') l = l).
      { induction l as [|x l IH]; intro H; cbn [map]; [reflexivity|]. rewrite IH by (intros y Hy; apply H; now right). rewrite put_other; [reflexivity|]. apply H. now left. }
      rewrite map_app. cbn [map]. rewrite !P.
      - unfold put_seg. cbn [sg' sg_key]. rewrite (proj2 (str_eqb_eq _ _) eq_refl). rewrite bytes_of_app. f_equal. cbn. unfold sg_bytes. cbn. now rewrite <- app_assoc.
      - intros x Hx Hc. apply ND2. rewrite in_app_iff. right. rewrite <- Hc. now apply in_map.
      - intros x Hx Hc. apply ND2. rewrite in_app_iff. left. rewrite <- Hc. now apply in_map. }
    split; [apply (decode_fault_iff E sp s' _ _ Hf Hs'); exists msg, (zlen (bytes_of pre) + zlen (sg_len sg))%Z, pre, sg'; rewrite B; split; [exact W|split; [eauto using decode_fault_presentable|reflexivity]]|].
    cbn [DecodeError de_field de_pos de_doc_dec de_doc_enc]. rewrite dec_of_app, !enc_of_app, wire_bytes_enc. rewrite dec_of_app. cbn. auto 6.
Qed.
