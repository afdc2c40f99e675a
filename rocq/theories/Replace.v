(** * Replace: a message with one field replaced. *)
From Verif Require Import PyBase BaseFacts Types Decoder Wire Claims.
From Verif Require Import DecoderFacts DecodeRun DecodeTheorems.
Local Opaque data_fields.

Definition put_seg (sg' sg : segment) : segment := if str_eqb (sg_key sg') (sg_key sg) then sg' else sg.
Lemma put_key sg' sg : sg_key (put_seg sg' sg) = sg_key sg.
Proof. unfold put_seg. destruct (str_eqb _ _) eqn:E; [|reflexivity]. now apply str_eqb_eq in E. Qed.
Lemma put_keys sg' l : map sg_key (map (put_seg sg') l) = map sg_key l.
Proof. rewrite map_map. apply map_ext, put_key. Qed.
Lemma put_other sg' sg : sg_key sg <> sg_key sg' -> put_seg sg' sg = sg.
Proof. unfold put_seg. intro H. destruct (str_eqb _ _) eqn:E; [|reflexivity]. apply str_eqb_eq in E. congruence. Qed.
(** sset replaces in place. *)
Lemma put_sset {V} (f : segment -> V) sg' l : In (sg_key sg') (map sg_key l) -> NoDup (map sg_key l) ->
  map (fun sg => (sg_key sg, f sg)) (map (put_seg sg') l) = sset (sg_key sg') (f sg') (map (fun sg => (sg_key sg, f sg)) l).
Proof.
  unfold sset. induction l as [|sg l IH]; cbn [map In]; [contradiction|]. intros H N. inversion N as [|? ? N1 N2]; subst. cbn [dset].
  unfold put_seg at 1 2. destruct (str_eqb (sg_key sg') (sg_key sg)) eqn:E.
  - apply str_eqb_eq in E. rewrite E. f_equal. rewrite map_map. apply map_ext_in. intros s Hs. rewrite put_other; [reflexivity|]. rewrite E. intro Q. apply N1. rewrite <- Q. now apply in_map.
  - f_equal. apply str_eqb_neq in E. destruct H as [H|H]; [congruence|]. now apply IH.
Qed.
Lemma message_put E sp segs sg' : message E sp segs -> sg_key sg' <> u "p" -> sg_key sg' <> u "1" ->
  (if str_eqb (sg_key sg') (u "t") then type_part E sp sg' else field_segment E sp sg') ->
  message E sp (map (put_seg sg') segs).
Proof.
  intros (hs & t & p & xs & fields & bm1 & bm2 & bm3 & -> & H1 & H2 & H3 & H4 & H5 & H6) Np N1 W.
  assert (F : forall sg, sg_key sg <> u "t" -> field_segment E sp sg -> field_segment E sp (put_seg sg' sg)).
  { intros sg Nt H. unfold put_seg. destruct (str_eqb (sg_key sg') (sg_key sg)) eqn:Q; [|assumption]. apply str_eqb_eq in Q.
    destruct (str_eqb (sg_key sg') (u "t")) eqn:Q'; [|assumption]. apply str_eqb_eq in Q'. congruence. }
  exists (map (put_seg sg') hs), (put_seg sg' t), (put_seg sg' p), (map (put_seg sg') xs), (map (put_seg sg') fields), bm1, bm2, bm3.
  split; [now rewrite map_app; cbn [map]; rewrite map_app|]. split; [|split; [|split; [|split]]].
  - destruct H1 as [fs ml A1 A2 A3|fs ml sg A1 A2 A3 A4 A5]; [eapply NoHeader; eauto|]. cbn [map]. eapply Header; eauto; [now rewrite put_key|]. apply F; [now rewrite A4|assumption].
  - destruct H2 as (fs & A1 & A2 & A3 & A4). unfold put_seg. destruct (str_eqb (sg_key sg') (sg_key t)) eqn:Q; [|exists fs; auto].
    rewrite A2 in Q. rewrite Q in W. exact W.
  - rewrite put_other; [assumption|]. destruct H3 as (fs & A1 & A2 & A3 & A4). congruence.
  - destruct H4 as [A|fs sg bm2 A1 A2 A3 A4 A5 A6|fs sg d2 t2 bm2 d3 t3 bm3 A1 A2 A3 A4 A5 A6 A7 A8 A9]; cbn [map]; [now apply NoExtra| |]; rewrite put_other by congruence.
    + eapply Secondary; eauto.
    + eapply Tertiary; eauto.
  - split; [now rewrite put_keys|]. apply Forall_map. rewrite Forall_forall in H6. apply Forall_forall. intros sg Hsg. apply F; [|now apply H6].
    assert (Q : In (sg_key sg) (map sg_key fields)) by now apply in_map. rewrite H5 in Q. apply in_map_iff in Q as (f & <- & Hf). apply filter_In in Hf as [Hf _].
    intro C. assert (D : all_digits (zstr f)) by (apply zstr_digits; apply data_fields_in in Hf; lia). rewrite C in D. now inversion D.
Qed.
Lemma bytes_wire segs : wire_bytes (enc_of segs) = bytes_of segs.
Proof. unfold wire_bytes, enc_of, bytes_of. rewrite flat_map_concat_map, map_map, <- flat_map_concat_map. reflexivity. Qed.
Lemma decode_put E sp s b dec enc sg' s' : bitmaps_fit E sp -> holds s b -> decode E s sp = Ok (dec, enc) ->
  In (sg_key sg') (map fst enc) -> sg_key sg' <> u "p" -> sg_key sg' <> u "1" ->
  (if str_eqb (sg_key sg') (u "t") then type_part E sp sg' else field_segment E sp sg') ->
  let enc' := sset (sg_key sg') (mkEntry (sg_len sg') (sg_data sg')) enc in
  holds s' (wire_bytes enc') ->
  decode E s' sp = Ok (sset (sg_key sg') (sg_text sg') dec, enc').
Proof.
  intros Hf Hs D Hi Np N1 W enc' Hs'. assert (ND := decode_accounts E sp s b dec enc Hs D). destruct ND as (_ & _ & ND).
  apply (decode_iff E sp s b dec enc Hf Hs) in D as (segs & M & -> & -> & ->).
  assert (K : map fst (enc_of segs) = map sg_key segs) by (unfold enc_of; rewrite map_map; reflexivity). rewrite K in *.
  apply (decode_iff E sp s' (wire_bytes enc') _ _ Hf Hs'). exists (map (put_seg sg') segs). split; [now apply message_put|].
  assert (Q : enc_of (map (put_seg sg') segs) = enc').
  { unfold enc', enc_of. exact (put_sset (fun sg => mkEntry (sg_len sg) (sg_data sg)) sg' segs Hi ND). }
  split; [rewrite <- bytes_wire; now rewrite Q|]. split; [|now symmetry]. symmetry. exact (put_sset sg_text sg' segs Hi ND).
Qed.
(** The segment of another message. *)
Lemma segment_of E sp s b dec enc k e t : bitmaps_fit E sp -> holds s b -> decode E s sp = Ok (dec, enc) -> k <> u "p" -> k <> u "1" ->
  sget k enc = Some e -> sget k dec = Some t ->
  (if str_eqb k (u "t") then type_part E sp (mkSeg k (e_len e) (e_data e) t) else field_segment E sp (mkSeg k (e_len e) (e_data e) t)).
Proof.
  intros Hf Hs D Np N1 He Ht. apply (decode_iff E sp s b dec enc Hf Hs) in D as (segs & M & -> & -> & ->).
  assert (A : forall l, sget k (enc_of l) = Some e -> sget k (dec_of l) = Some t -> exists sg, In sg l /\ sg_key sg = k /\ sg_len sg = e_len e /\ sg_data sg = e_data e /\ sg_text sg = t).
  { unfold sget. induction l as [|sg l IH]; cbn; [discriminate|]. destruct (str_eqb k (sg_key sg)) eqn:Q.
    - apply str_eqb_eq in Q. intros [= <-] [= <-]. exists sg. cbn. auto 6.
    - intros H1 H2. destruct (IH H1 H2) as (sg0 & I & J). exists sg0. auto. }
  destruct (A segs He Ht) as (sg & Hi & Q1 & Q2 & Q3 & Q4). clear A. rewrite <- Q1, <- Q2, <- Q3, <- Q4 in *.
  replace {| sg_key := sg_key sg; sg_len := sg_len sg; sg_data := sg_data sg; sg_text := sg_text sg |} with sg by now destruct sg.
  destruct M as (hs & t0 & p & xs & fields & bm1 & bm2 & bm3 & -> & H1 & H2 & H3 & H4 & H5 & H6).
  apply in_app_iff in Hi as [Hi|[<-|[<-|Hi]]].
  - destruct H1 as [|fs ml sg0 A1 A2 A3 A4 A5]; [contradiction|]. destruct Hi as [<-|[]]. now rewrite A4.
  - destruct H2 as (fs & A1 & A2 & A3 & A4). rewrite A2. exists fs. auto.
  - destruct H3 as (fs & A1 & A2 & _). congruence.
  - apply in_app_iff in Hi as [Hi|Hi].
    + destruct H4 as [A|fs sg0 bm2 A1 A2 A3 A4 A5 A6|fs sg0 d2 t2 bm2 d3 t3 bm3 A1 A2 A3 A4 A5 A6 A7 A8 A9]; [contradiction| |]; (destruct Hi as [<-|[]]; congruence).
    + rewrite Forall_forall in H6. assert (W := H6 _ Hi). apply (in_map sg_key) in Hi. rewrite H5 in Hi. apply in_map_iff in Hi as (f & Q & Hf'). apply filter_In in Hf' as [Hf' _].
      destruct (str_eqb (sg_key sg) (u "t")) eqn:C; [|assumption]. apply str_eqb_eq in C. exfalso.
      assert (D : all_digits (zstr f)) by (apply zstr_digits; apply data_fields_in in Hf'; lia). rewrite Q, C in D. now inversion D.
Qed.
Lemma decode_paste E sp s1 b1 dec1 enc1 s2 b2 dec2 enc2 k e t s' : bitmaps_fit E sp -> holds s1 b1 -> holds s2 b2 ->
  decode E s1 sp = Ok (dec1, enc1) -> decode E s2 sp = Ok (dec2, enc2) -> k <> u "p" -> k <> u "1" ->
  In k (map fst enc1) -> sget k enc2 = Some e -> sget k dec2 = Some t -> holds s' (wire_bytes (sset k e enc1)) ->
  decode E s' sp = Ok (sset k t dec1, sset k e enc1).
Proof.
  intros Hf Hs1 Hs2 D1 D2 Np N1 Hi He Ht Hs'. assert (W := segment_of E sp s2 b2 dec2 enc2 k e t Hf Hs2 D2 Np N1 He Ht).
  destruct e as [l d]. exact (decode_put E sp s1 b1 dec1 enc1 (mkSeg k l d t) s' Hf Hs1 D1 Hi Np N1 W Hs').
Qed.
