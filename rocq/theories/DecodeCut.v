(** * DecodeCut: cut messages and streams of messages. *)
From Coq Require Import ZifyBool ZifyNat ZifyN Sorted Permutation.
From Verif Require Import PyBase BaseFacts Types Decoder Wire DecoderFacts DecodeRun DecodeComplete DecodeTheorems
  DecodeFault Shown DecodeFaultFacts Claims3.
Ltac Zify.zify_post_hook ::= Z.div_mod_to_equations.
Local Opaque data_fields.

(** ** Where a message is cut *)
Lemma app_cut {A} (a b c d : list A) : a ++ b = c ++ d ->
  (length c < length a /\ exists m, m <> [] /\ a = c ++ m /\ d = m ++ b)%nat
  \/ (exists m, c = a ++ m /\ b = m ++ d).
Proof.
  revert c; induction a as [|x a IH]; intros c H.
  - right. exists c. auto.
  - destruct c as [|y c]; cbn [app] in H.
    + left. split; [simpl; lia|]. exists (x :: a). split; [discriminate|]. auto.
    + injection H as -> H. destruct (IH c H) as [[Hl (m & Hm & -> & ->)]|(m & -> & ->)].
      * left. split; [simpl in *; lia|]. exists m. auto.
      * right. exists m. auto.
Qed.
Lemma cut_point segs : forall b cut, bytes_of segs = b ++ cut -> cut <> [] ->
  exists pre sg post got more, segs = pre ++ sg :: post /\ b = bytes_of pre ++ got
    /\ sg_bytes sg = got ++ more /\ more <> [].
Proof.
  induction segs as [|sg segs IH]; intros b cut H Hc.
  - symmetry in H. apply app_eq_nil in H as [_ ->]. congruence.
  - change (bytes_of (sg :: segs)) with (sg_bytes sg ++ bytes_of segs) in H.
    apply app_cut in H as [[_ (m & Hm & H1 & H2)]|(m & -> & H2)].
    + exists [], sg, segs, b, m. auto.
    + destruct (IH m cut H2 Hc) as (pre & sg' & post & got & more & -> & -> & H3 & H4).
      exists (sg :: pre), sg', post, got, more. split; [reflexivity|]. split; [|auto].
      change (bytes_of (sg :: pre)) with (sg_bytes sg ++ bytes_of pre). now rewrite <- app_assoc.
Qed.

Lemma field_cut E fs before lenb data text got more :
  field_wire E fs lenb data text -> lenb ++ data = got ++ more -> more <> [] ->
  exists msg off l d, field_fault E fs before got msg off l d [] /\ got = l ++ d.
Proof.
  intros (n & Ha & Ho & Hc) H Hm. pose proof (announces_len_type _ _ _ _ Ha) as Hlt.
  apply app_cut in H as [[Hl _]|(rest & -> & H2)].
  - eexists _, _, got, []. split; [eapply PrefixCut; eauto|]. now rewrite app_nil_r.
  - eexists _, _, lenb, rest. split; [|reflexivity].
    assert (Hlen : (zlen rest < zlen data)%Z).
    { rewrite H2, zlen_app. destruct more; [congruence|]. unfold zlen. cbn [length]. lia. }
    eapply DataCut; eauto. intros ->. unfold occupies in Ho. pose proof (zlen_nonneg rest).
    destruct (in_nibbles fs); lia.
Qed.
Lemma type_cut E fs data text got more :
  type_wire E fs data text -> data = got ++ more -> more <> [] -> exists msg, type_fault E fs got msg got.
Proof.
  intros Hw H Hm.
  assert (exists de w, fs_data_enc fs = Some de /\ type_width de w /\ length data = w) as (de & w & H1 & H2 & H3).
  { destruct Hw as [de ? ? ? _|de ? ? ? _]; exists de; eexists; (split; [eassumption|]); split; [|eassumption| |eassumption]; [left|right]; auto. }
  eexists. eapply TypeCut; eauto. rewrite <- H3, H, app_length. destruct more; [congruence|]. simpl. lia.
Qed.
Lemma bitmap_cut E fs old data text bm got more :
  bitmap_wire E fs data text bm -> data = got ++ more -> more <> [] ->
  exists msg, bitmap_fault E fs old got msg got [].
Proof.
  intros Hw H Hm.
  assert (exists de w, fs_data_enc fs = Some de /\ bitmap_width de w /\ length data = w) as (de & w & H1 & H2 & H3).
  { destruct Hw as [de ? ? ? _ _|de ? ? ? _ _]; exists de; eexists; (split; [eassumption|]); split; [|eassumption| |eassumption]; [left|right]; auto. }
  eexists. eapply BitmapCut; eauto. rewrite <- H3, H, app_length. destruct more; [congruence|]. simpl. lia.
Qed.

Lemma fold_app2 {A} (a : list A) x b c : (a ++ x :: b) ++ c = a ++ x :: b ++ c.
Proof. now rewrite <- app_assoc. Qed.

(** The fault of a message cut within segment [sg]. *)
Lemma message_cut E sp pre sg post got more :
  message E sp (pre ++ sg :: post) -> sg_bytes sg = got ++ more -> more <> [] ->
  exists msg pos l, decode_fault E sp (bytes_of pre ++ got) msg pos pre l
    /\ sg_key l = sg_key sg /\ sg_bytes l = got.
Proof.
  intros (hs & t & p & xs & fields & bm1 & bm2 & bm3 & Heq & Hh & Htp & Hp & Hx & Hfk & Hfs) Hc Hm.
  apply app_cut in Heq as [[_ (m & Hm' & Hpre & Htail)]|(m & Hpre & Htail)].
  { (* within or after type *)
    destruct m as [|t' m]; [congruence|]. injection Htail as <- Htail. clear Hm'.
    destruct m as [|p' m]; cbn [app] in Htail.
    { (* primary bitmap *)
      injection Htail as <- _. destruct Hp as (fs & Hsp & Hk & Hl & Hw).
      unfold sg_bytes in Hc. rewrite Hl in Hc. cbn [app] in Hc.
      destruct (bitmap_cut _ _ None _ _ _ _ _ Hw Hc Hm) as [msg Hf].
      exists msg. eexists _, (mkSeg (u "p") [] got []). rewrite Hpre. split; [eapply PrimaryFault; eauto|]. auto. }
    injection Htail as <- Htail.
    apply app_cut in Htail as [[_ (m' & Hm' & Hxs & Htail)]|(m' & Hxs & Htail)].
    - (* within the extra bitmaps *)
      destruct Hx as [Hb1|fs sg' bm2 Hb1 Hsp Hk Hl Hw Hb2|fs sg' d2 t2 bm2 d3 t3 bm3 Hb1 Hsp Hk Hl Hd Ht Hw2 Hw3 Hb2].
      + symmetry in Hxs. apply app_eq_nil in Hxs as [_ ->]. congruence.
      + destruct m as [|a m]; [|destruct m; destruct m'; discriminate || congruence].
        destruct m' as [|b m']; [congruence|]. cbn [app] in Hxs. injection Hxs as <- <-. injection Htail as <- _.
        unfold sg_bytes in Hc. rewrite Hl in Hc. cbn [app] in Hc.
        destruct (bitmap_cut _ _ None _ _ _ _ _ Hw Hc Hm) as [msg Hf].
        exists msg. eexists _, (mkSeg (u "1") [] got []). rewrite Hpre. split; [eapply SecondaryFault; eauto|]. auto.
      + destruct m as [|a m]; [|destruct m; destruct m'; discriminate || congruence].
        destruct m' as [|b m']; [congruence|]. cbn [app] in Hxs. injection Hxs as <- <-. injection Htail as <- _.
        unfold sg_bytes in Hc. rewrite Hl in Hc. cbn [app] in Hc. rewrite Hd in Hc.
        apply app_cut in Hc as [[_ (m & Hmm & H1 & _)]|(m & H1 & H2)].
        * destruct (bitmap_cut _ _ None _ _ _ _ _ Hw2 H1 Hmm) as [msg Hf].
          exists msg. eexists _, (mkSeg (u "1") [] got []). rewrite Hpre. split; [eapply SecondaryFault; eauto|]. auto.
        * destruct (bitmap_cut _ _ (Some d2) _ _ _ _ _ Hw3 H2 Hm) as [msg Hf].
          exists msg. eexists _, (mkSeg (u "1") [] (d2 ++ m) (t2 ++ [])). rewrite Hpre, H1.
          split; [eapply TertiaryFault; eauto|]. auto.
    - (* a data field *)
      rewrite Hxs, Htail in *. clear m Hxs Htail. rename m' into done.
      rewrite map_app in Hfk. cbn [map] in Hfk. apply Forall_app in Hfs as [Hf1 Hf2].
      inversion Hf2 as [|? ? Hseg _]; subst. destruct Hseg as (fs & Hsp & Hw).
      assert (Hsplit : exists d f todo, filter (announced bm1 bm2 bm3) data_fields = d ++ f :: todo
                /\ map sg_key done = map zstr d /\ sg_key sg = zstr f).
      { symmetry in Hfk. apply map_eq_app in Hfk as (d & r & -> & H1 & H2).
        apply map_eq_cons in H2 as (f & todo & -> & H2 & _). exists d, f, todo. auto. }
      destruct Hsplit as (d & f & todo & H1 & H2 & H3).
      set (before := bytes_of (hs ++ t :: p :: xs ++ done)).
      destruct (field_cut E fs before _ _ _ _ _ Hw Hc Hm) as (msg & off & l & d' & Hff & Hg).
      exists msg. eexists _, (mkSeg (zstr f) l d' []). rewrite H3 in Hsp. split; [|auto].
      eapply FieldFault; eauto. }
  (* header or type *)
  destruct m as [|t' m].
  - (* type *)
    cbn [app] in Htail. injection Htail as <- _. rewrite app_nil_r in Hpre. subst hs.
    destruct Htp as (fs & Hsp & Hk & Hl & Hw).
    unfold sg_bytes in Hc. rewrite Hl in Hc. cbn [app] in Hc.
    destruct (type_cut _ _ _ _ _ _ Hw Hc Hm) as [msg Hf].
    exists msg. eexists _, (mkSeg (u "t") [] got []). split; [eapply TypeFault; eauto|]. auto.
  - cbn [app] in Htail. injection Htail as <- _.
    destruct Hh as [fs ml Hsp Hml Hle|fs ml sg' Hsp Hml Hle Hk Hseg].
    + symmetry in Hpre. apply app_eq_nil in Hpre as [_ Hx']. discriminate.
    + destruct pre as [|a pre]; [|destruct pre; discriminate]. cbn [app] in Hpre. injection Hpre as <- <-.
      destruct Hseg as (fs' & Hsp' & Hw). rewrite Hk in Hsp'. assert (fs' = fs) by congruence. subst fs'.
      destruct (field_cut E fs [] _ _ _ _ _ Hw Hc Hm) as (msg & off & l & d' & Hff & Hg).
      exists msg. eexists _, (mkSeg (u "h") l d' []). split; [eapply HeaderFault; eauto|]. auto.
Qed.

Theorem decode_truncated E sp s b s' b' cut dec enc :
  bitmaps_fit E sp -> numbers_ok E sp -> holds s b -> decode E s sp = Ok (dec, enc) ->
  b = b' ++ cut -> cut <> [] -> holds s' b' ->
  exists e pre sg post l more,
    decode E s' sp = Raise (XDecodeError e)
    /\ dec = dec_of (pre ++ sg :: post) /\ enc = enc_of (pre ++ sg :: post)
    /\ de_doc_dec e = dec_of (pre ++ [l]) /\ de_doc_enc e = enc_of (pre ++ [l])
    /\ de_field e = sg_key sg /\ sg_key l = sg_key sg
    /\ sg_bytes sg = sg_bytes l ++ more /\ more <> [] /\ wire_bytes (de_doc_enc e) = b'.
Proof.
  intros Hfit Hnum Hs H Hb Hc Hs'.
  apply (decode_sound _ _ _ _ _ _ Hs) in H as (segs & Hbs & -> & -> & _ & _ & Hm). specialize (Hm Hfit).
  rewrite Hb in Hbs. symmetry in Hbs.
  apply cut_point in Hbs as (pre & sg & post & got & more & -> & -> & Hsg & Hne); [|assumption].
  destruct (message_cut _ _ _ _ _ _ _ Hm Hsg Hne) as (msg & pos & l & Hf & Hk & Hg).
  exists (DecodeError (text_of msg) s' (dec_of (pre ++ [l])) (enc_of (pre ++ [l])) pos (sg_key l)), pre, sg, post, l, more.
  split; [apply (decode_fault_iff E sp s' _ _ Hfit Hs'); exists msg, pos, pre, l; split; [exact Hf|split; [eauto using decode_fault_presentable|reflexivity]]|].
  cbn [de_doc_dec de_doc_enc de_field DecodeError].
  repeat (split; [congruence || assumption || reflexivity|]).
  rewrite wire_bytes_enc, bytes_of_snoc, Hg. reflexivity.
Qed.

(** ** Streams *)

Lemma type_wire_nonempty E fs d t : type_wire E fs d t -> d <> [].
Proof. intros [? ? ? H _|? ? ? H _] ->; discriminate. Qed.
Lemma accepts_nonempty E sp : bitmaps_fit E sp -> ~ accepts E sp [].
Proof.
  intros Hfit (dec & enc & H).
  apply (decode_sound _ _ [] _ _ _ (or_introl eq_refl)) in H as (segs & Hbs & _ & _ & _ & _ & Hm).
  destruct (Hm Hfit) as (hs & t & p & xs & fields & bm1 & bm2 & bm3 & -> & _ & (fs & _ & _ & _ & Hw) & _).
  rewrite bytes_of_app in Hbs. symmetry in Hbs. apply app_eq_nil in Hbs as [_ Hbs].
  change (bytes_of (t :: p :: xs ++ fields)) with (sg_bytes t ++ bytes_of (p :: xs ++ fields)) in Hbs.
  apply app_eq_nil in Hbs as [Hbs _]. apply app_eq_nil in Hbs as [_ Hbs]. now apply type_wire_nonempty in Hw.
Qed.
Lemma accepts_prefix_free E sp b rest : bitmaps_fit E sp -> accepts E sp b -> accepts E sp (b ++ rest) -> rest = [].
Proof.
  intros Hfit (d & e & H) (d' & e' & H'). destruct rest as [|x rest]; [reflexivity|].
  rewrite (decode_extension E sp (InBytes b) b _ (x :: rest) d e) in H'; try discriminate; auto; now left.
Qed.
Theorem streams_unique E sp : bitmaps_fit E sp -> forall l1 l2 r1 r2,
  Forall (accepts E sp) l1 -> Forall (accepts E sp) l2 ->
  concat l1 ++ r1 = concat l2 ++ r2 -> length l1 = length l2 -> l1 = l2 /\ r1 = r2.
Proof.
  intros Hfit l1. induction l1 as [|a l1 IH]; intros [|b l2] r1 r2 H1 H2 H Hl; try discriminate; [auto|].
  inversion H1 as [|? ? Ha H1']; inversion H2 as [|? ? Hb H2']; subst.
  cbn [concat] in H. rewrite <- !app_assoc in H.
  assert (a = b) as ->.
  { apply app_cut in H as [[_ (m & Hm & -> & _)]|(m & -> & _)].
    - exfalso. exact (Hm (accepts_prefix_free E sp b m Hfit Hb Ha)).
    - rewrite (accepts_prefix_free E sp a m Hfit Ha Hb). now rewrite app_nil_r. }
  apply app_inv_head in H. destruct (IH l2 r1 r2 H1' H2' H) as [-> ->]; [simpl in Hl; lia|]. auto.
Qed.
Theorem streams_injective E sp : bitmaps_fit E sp -> forall l1 l2,
  Forall (accepts E sp) l1 -> Forall (accepts E sp) l2 -> concat l1 = concat l2 -> l1 = l2.
Proof.
  intros Hfit l1. induction l1 as [|a l1 IH]; intros [|b l2] H1 H2 H.
  - reflexivity.
  - exfalso. inversion H2 as [|? ? Hb _]; subst. cbn [concat] in H. symmetry in H. apply app_eq_nil in H as [-> _].
    now apply accepts_nonempty in Hb.
  - exfalso. inversion H1 as [|? ? Hb _]; subst. cbn [concat] in H. apply app_eq_nil in H as [-> _].
    now apply accepts_nonempty in Hb.
  - inversion H1 as [|? ? Ha H1']; inversion H2 as [|? ? Hb H2']; subst. cbn [concat] in H.
    assert (a = b) as ->.
    { apply app_cut in H as [[_ (m & Hm & -> & _)]|(m & -> & _)].
      - exfalso. exact (Hm (accepts_prefix_free E sp b m Hfit Hb Ha)).
      - rewrite (accepts_prefix_free E sp a m Hfit Ha Hb). now rewrite app_nil_r. }
    apply app_inv_head in H. now rewrite (IH l2 H1' H2' H).
Qed.

(** ** Every input is a message or has exactly one fault *)
Lemma decode_fault_unique E sp input msg pos segs last msg' pos' segs' last' :
  bitmaps_fit E sp -> decode_fault E sp input msg pos segs last -> presentable E msg ->
  decode_fault E sp input msg' pos' segs' last' ->
  presentable E msg' /\ text_of msg = text_of msg' /\ pos = pos' /\ segs = segs' /\ last = last'.
Proof.
  intros Hfit H1 Hp1 H2.
  assert (Hs : holds (InBytes input) input) by now left.
  pose proof (decode_fault_complete _ _ _ _ _ _ _ _ Hfit Hs H1) as D1.
  pose proof (decode_fault_complete _ _ _ _ _ _ _ _ Hfit Hs H2) as D2.
  rewrite D1 in D2. unfold outcome in D2. apply presents_iff in Hp1. rewrite Hp1 in D2.
  destruct (presents E msg') eqn:Hp2; [|discriminate]. split; [now apply presents_iff|].
  injection D2 as _ Hmsg Hdec Henc _ Hpos.
  assert (Hsegs : segs ++ [last] = segs' ++ [last']).
  { revert Hdec Henc. generalize (segs ++ [last]) (segs' ++ [last']). clear. intro a.
    induction a as [|x a IH]; intros [|y b] H1 H2; try discriminate; [reflexivity|].
    unfold dec_of, enc_of in H1, H2. cbn [map] in H1, H2. injection H1 as K1 T1 H1. injection H2 as K2 L2 D2 H2.
    rewrite (IH b H1 H2). destruct x, y; cbn in *. congruence. }
  apply app_inj_tail in Hsegs as [-> ->]. auto.
Qed.
Lemma decode_total E sp input : bitmaps_fit E sp -> spec_complete sp ->
  (exists segs, message E sp segs /\ input = bytes_of segs)
  \/ exists msg pos segs last, decode_fault E sp input msg pos segs last.
Proof.
  intros Hfit Hc. assert (Hs : holds (InBytes input) input) by now left.
  destruct (decode E (InBytes input) sp) as [[dec enc]|x] eqn:H.
  - left. apply (decode_sound _ _ _ _ _ _ Hs) in H as (segs & Hb & _ & _ & _ & _ & Hm). eauto.
  - right. destruct (decode_fault_sound _ _ _ _ _ Hfit Hs H) as [(msg & pos & segs & last & Hf & _)|(nm & _ & Hn)]; [eauto 6|contradiction].
Qed.
