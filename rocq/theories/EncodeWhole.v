(** * EncodeWhole: encode succeeds exactly on the declarative encodings. *)
From Coq Require Import ZifyBool ZifyNat ZifyN Sorted Permutation.
From Verif Require Import PyBase BaseFacts Types Numerals NumeralFacts Decoder Encoder Wire WireEncode DecoderFacts DecodeRun EncoderFacts EncodeRun.
Ltac Zify.zify_post_hook ::= Z.div_mod_to_equations.

(** What comes after the type. *)
Definition rest_keys (bm1 bm2 bm3 : bytes) : list pystr :=
  u "p" :: (if bit bm1 1 then [u "1"] else []) ++ map zstr (filter (announced bm1 bm2 bm3) data_fields).

Lemma rest_split (all : edoc) (b : bool) (zs : list pystr) :
  map fst all = u "p" :: (if b then [u "1"] else []) ++ zs ->
  (b = true /\ exists e1 e2 ents, all = (u "p", e1) :: (u "1", e2) :: ents /\ map fst ents = zs)
  \/ (b = false /\ exists e1 ents, all = (u "p", e1) :: ents /\ map fst ents = zs).
Proof.
  intro H. destruct all as [|[k1 e1] all]; [discriminate|]. injection H as H1 H. cbn [fst] in H1. subst k1.
  destruct b; [left|right]; (split; [reflexivity|]).
  - destruct all as [|[k2 e2] ents]; [discriminate|]. injection H as H1 H. cbn [fst] in H1. subst k2. exists e1, e2, ents. auto.
  - exists e1, all. auto.
Qed.

Section Msg.
  Variables (E : pyenv) (sp : spec) (d : pdoc) (bm1 bm2 bm3 : bytes) (F : zset) (done : edoc) (h t : bytes).
  Hypothesis Hdict : is_dict d.
  Hypothesis Hsort : zsorted F.
  Hypothesis HF : forall f, In f F <-> has_field E d f.
  Hypothesis Hrange : forall f, In f F -> (1 <= f <= 192)%Z.
  Hypothesis Hbm : bitmaps_for E d bm1 bm2 bm3.
  Hypothesis Hdone : forall k, In k (map fst done) -> k = u "h" \/ k = u "t".

  Notation fl := (filter (announced bm1 bm2 bm3) data_fields).
  Lemma fl_in f : In f fl -> In f data_fields.
  Proof. intro H. apply filter_In in H as [H _]. exact H. Qed.
  Lemma fl_nodup : NoDup (map zstr fl).
  Proof.
    apply zstr_nodup.
    - intros f Hf. apply fl_in, data_fields_in in Hf. lia.
    - apply zsorted_nodup, filter_sorted, data_fields_sorted.
  Qed.
  Definition d1 : pdoc := pset (KStr (u "p")) (VStr (HEX bm1)) (pops d).
  Definition d2 : pdoc := pset (KStr (u "1")) (VStr (HEX bm2)) d1.
  Definition d3 : pdoc := pset (KStr (u "1")) (VStr (HEX bm2 ++ HEX bm3)) d2.
  Lemma d1_field f : In f data_fields -> pget (KStr (zstr f)) d1 = value d (zstr f).
  Proof. intro H. destruct (zstr_name f H) as (A & B & C & D & G). unfold d1. rewrite pget_pset_other by assumption. now apply pops_other. Qed.
  Lemma d2_field f : In f data_fields -> pget (KStr (zstr f)) d2 = value d (zstr f).
  Proof. intro H. destruct (zstr_name f H) as (A & B & C & D & G). unfold d2. rewrite pget_pset_other by assumption. now apply d1_field. Qed.
  Lemma d3_field f : In f data_fields -> pget (KStr (zstr f)) d3 = value d (zstr f).
  Proof. intro H. destruct (zstr_name f H) as (A & B & C & D & G). unfold d3. rewrite pget_pset_other by assumption. now apply d2_field. Qed.

  Lemma sent_iff dd ents : (forall f, In f data_fields -> pget (KStr (zstr f)) dd = value d (zstr f)) ->
    map fst ents = map zstr fl ->
    (Forall (sent_field E sp dd) ents <-> Forall (entry_sent E sp d bm1 bm2 bm3) ents).
  Proof.
    intros Hdd Hk.
    assert (Hin : forall ke, In ke ents -> exists f, In f data_fields /\ fst ke = zstr f).
    { intros ke Hke. apply (in_map fst) in Hke. rewrite Hk in Hke. apply in_map_iff in Hke as (f & Hf & Hi).
      exists f. split; [apply fl_in; assumption|auto]. }
    rewrite !Forall_forall. split; intros H [k [l b]] Hke; destruct (Hin _ Hke) as (f & Hf & Hfk); specialize (H _ Hke); simpl in Hfk; subst k.
    - destruct H as (fs & v & H1 & H2 & H3). cbn [fst snd e_len e_data] in *. rewrite Hdd in H2 by assumption.
      eapply SentField; eauto.
    - destruct (zstr_name f Hf) as (N1 & N2 & N3 & N4 & N5).
      inversion H; subst; try congruence. exists fs, v. cbn [fst snd e_len e_data]. rewrite Hdd by assumption. auto.
  Qed.

  Lemma fresh_p : ~ In (u "p") (map fst done).
  Proof. intro H. apply Hdone in H as [H|H]; discriminate. Qed.
  Lemma fresh_1 e : ~ In (u "1") (map fst (done ++ [(u "p", e)])).
  Proof. rewrite map_app, in_app_iff. intros [H|[H|[]]]; [|discriminate]. apply Hdone in H as [H|H]; discriminate. Qed.
  Lemma fresh_f extra f : In f fl -> (forall k, In k (map fst extra) -> k = u "p" \/ k = u "1") ->
    ~ In (zstr f) (map fst (done ++ extra)).
  Proof.
    intros Hf He. destruct (zstr_name f (fl_in _ Hf)) as (A & B & C & D & G).
    rewrite map_app, in_app_iff. intros [H|H]; [apply Hdone in H as [H|H]|apply He in H as [H|H]]; contradiction.
  Qed.

  (** What is left in the dict, and the entries of the bitmaps. *)
  Inductive bitmap_entries : edoc -> pdoc -> Prop :=
  | BE1 fp p : sget (u "p") sp = Some fp -> bitmap_encodes E fp bm1 p -> bit bm1 1 = false ->
      bitmap_entries [(u "p", mkEntry [] p)] d1
  | BE2 fp p fs s : sget (u "p") sp = Some fp -> bitmap_encodes E fp bm1 p -> bit bm1 1 = true ->
      sget (u "1") sp = Some fs -> bitmap_encodes E fs bm2 s -> bit bm2 1 = false ->
      bitmap_entries [(u "p", mkEntry [] p); (u "1", mkEntry [] s)] d2
  | BE3 fp p fs s s' : sget (u "p") sp = Some fp -> bitmap_encodes E fp bm1 p -> bit bm1 1 = true ->
      sget (u "1") sp = Some fs -> bitmap_encodes E fs bm2 s -> bit bm2 1 = true ->
      bitmap_encodes E fs bm3 s' ->
      bitmap_entries [(u "p", mkEntry [] p); (u "1", mkEntry [] (s ++ s'))] d3.

  Lemma encode_msg_eq : encode_msg E sp h t F (mkE (pops d) done) =
    match sget (u "p") sp with
    | None => (Raise (XKeyError (u "p")), mkE (pops d) done)
    | Some fp =>
      match encode_bitmap E (u "p") fp 0 false (zinter_range 1 65 (with1 F)) (mkE (pops d) done) with
      | (Raise x, st) => (Raise x, st)
      | (Ok p, st) =>
        if bit bm1 1 then
          match sget (u "1") sp with
          | None => (Raise (XKeyError (u "1")), st)
          | Some fs =>
            match encode_bitmap E (u "1") fs 64 false (secondary_of F) st with
            | (Raise x, st) => (Raise x, st)
            | (Ok s, st) =>
              if bit bm2 1 then
                match encode_bitmap E (u "1") fs 128 true (tertiary_of F) st with
                | (Raise x, st) => (Raise x, st)
                | (Ok s', st) => encode_fields E sp fl (h ++ t ++ p ++ s ++ s') st
                end
              else encode_fields E sp fl (h ++ t ++ p ++ s ++ []) st
            end
          end
        else encode_fields E sp fl (h ++ t ++ p ++ [] ++ []) st
      end
    end.
  Proof.
    unfold encode_msg, bind at 1, spec_get. destruct (sget (u "p") sp) as [fp|]; [|reflexivity]. unfold ret at 1.
    unfold bind at 1.
    destruct (encode_bitmap E (u "p") fp 0 false (zinter_range 1 65 (with1 F)) (mkE (pops d) done)) as [[p|x] st1]; [|reflexivity].
    unfold bind at 1. rewrite (mem1 E d F bm1 bm2 bm3 HF Hbm). destruct (bit bm1 1) eqn:B1.
    - unfold bind at 1. destruct (sget (u "1") sp) as [fs|] eqn:Hs; [|reflexivity]. unfold ret at 1. unfold bind at 1.
      destruct (encode_bitmap E (u "1") fs 64 false (secondary_of F) st1) as [[s|x] st2]; [|reflexivity]. unfold ret at 1.
      assert (HG : forall f, In f (zremove 1 (with1 F)) <-> sends E d f /\ f <> 1%Z).
      { intro f. rewrite zremove_in, (with1_sends E d F HF). tauto. }
      unfold bind at 1. rewrite (mem65 E d bm1 bm2 bm3 Hbm _ HG). destruct (bit bm2 1) eqn:B2.
      + unfold bind at 1. unfold ret at 1. unfold bind at 1.
        destruct (encode_bitmap E (u "1") fs 128 true (tertiary_of F) st2) as [[s'|x] st3]; [|reflexivity]. unfold ret at 1.
        assert (Hfl : zremove 65 (zremove 1 (with1 F)) = fl); [apply (final_fields E d F bm1 bm2 bm3 HF Hrange Hbm)|cbv iota beta; rewrite Hfl; reflexivity].
        * apply filter_sorted, filter_sorted, with1_sorted, Hsort.
        * intro f. rewrite zremove_in, HG. tauto.
      + unfold ret at 1.
        assert (Hfl : zremove 1 (with1 F) = fl); [apply (final_fields E d F bm1 bm2 bm3 HF Hrange Hbm)|cbv iota beta; rewrite Hfl; reflexivity].
        * apply filter_sorted, with1_sorted, Hsort.
        * intro f. rewrite HG. split; [|tauto]. intros [H1 H2]. split; [assumption|split; [assumption|]]. intros ->.
          destruct Hbm as (_ & _ & _ & Hb). destruct (Hb 1%Z ltac:(lia)) as [_ [B _]]. apply B in H1. congruence.
    - unfold ret at 1. unfold bind at 1.
      assert (HG : forall f, In f (with1 F) <-> sends E d f /\ f <> 1%Z /\ f <> 65%Z).
      { intro f. rewrite (with1_sends E d F HF). split; [|tauto]. intro H1. split; [assumption|].
        destruct Hbm as (_ & _ & _ & Hb). destruct (Hb 1%Z ltac:(lia)) as [B [B' _]]. split; intros ->.
        - apply B in H1. congruence.
        - assert (bit bm2 1 = true) as Hb2 by (apply B'; exact H1). apply (bit2_bit1 E d bm1 bm2 bm3 Hbm) in Hb2. congruence. }
      replace (zmem 65 (with1 F)) with false.
      2:{ symmetry. apply zmem_not_in. rewrite HG. intros (_ & _ & H). now apply H. }
      unfold ret at 1.
      assert (Hfl : with1 F = fl); [apply (final_fields E d F bm1 bm2 bm3 HF Hrange Hbm); [now apply with1_sorted|exact HG]|cbv iota beta; rewrite Hfl; reflexivity].
  Qed.

  Lemma st_p p : ~ In (u "p") (map fst done) ->
    bput (u "p") (HEX bm1) (mkEntry [] p) (mkE (pops d) done) = mkE d1 (done ++ [(u "p", mkEntry [] p)]).
  Proof. intro H. rewrite bput_fresh by assumption. reflexivity. Qed.
  Lemma st_1 p s : bput (u "1") (HEX bm2) (mkEntry [] s) (mkE d1 (done ++ [(u "p", p)]))
    = mkE d2 ((done ++ [(u "p", p)]) ++ [(u "1", mkEntry [] s)]).
  Proof. rewrite bput_fresh by apply fresh_1. reflexivity. Qed.
  Lemma st_1' p e s t' : bput (u "1") (HEX bm2 ++ t') (mkEntry [] s) (mkE d2 ((done ++ [(u "p", p)]) ++ [(u "1", e)]))
    = mkE (pset (KStr (u "1")) (VStr (HEX bm2 ++ t')) d2) ((done ++ [(u "p", p)]) ++ [(u "1", mkEntry [] s)]).
  Proof. erewrite bput_last; [reflexivity|reflexivity|apply fresh_1]. Qed.
  Lemma get_1 p e : sget (u "1") ((done ++ [(u "p", p)]) ++ [(u "1", e)]) = Some e.
  Proof.
    unfold sget. rewrite dget_app. rewrite (proj2 (dget_none str_eqb str_eqb_spec _ _)) by apply fresh_1. reflexivity.
  Qed.
  Lemma extra_pf p e f : In f fl -> ~ In (zstr f) (map fst ((done ++ [(u "p", p)]) ++ [(u "1", e)])).
  Proof. intro Hf. rewrite <- app_assoc. apply fresh_f; [assumption|]. simpl. intros k [<-|[<-|[]]]; auto. Qed.

  Lemma encode_msg_ok out st' : encode_msg E sp h t F (mkE (pops d) done) = (Ok out, st') <->
    exists bents d' ents, bitmap_entries bents d' /\ map fst ents = map zstr fl /\ Forall (sent_field E sp d') ents
      /\ out = h ++ t ++ wire_bytes bents ++ wire_bytes ents /\ st' = mkE d' (done ++ bents ++ ents).
  Proof.
    rewrite encode_msg_eq. split.
    - destruct (sget (u "p") sp) as [fp|] eqn:Hp; [|discriminate].
      destruct (encode_bitmap E (u "p") fp 0 false _ _) as [[p|x] st1] eqn:H1; [|discriminate].
      apply bitmap_fresh_ok in H1 as [H1 ->]. rewrite (primary_bitmap E d F bm1 bm2 bm3 HF Hbm) in *.
      rewrite st_p by apply fresh_p. destruct (bit bm1 1) eqn:B1.
      + destruct (sget (u "1") sp) as [fs|] eqn:Hs; [|discriminate].
        destruct (encode_bitmap E (u "1") fs 64 false _ _) as [[s|x] st2] eqn:H2; [|discriminate].
        apply bitmap_fresh_ok in H2 as [H2 ->]. rewrite (secondary_bitmap E d F bm1 bm2 bm3 HF Hbm) in *. rewrite st_1.
        destruct (bit bm2 1) eqn:B2.
        * destruct (encode_bitmap E (u "1") fs 128 true _ _) as [[s'|x] st3] eqn:H3; [|discriminate].
          eapply bitmap_ext_ok in H3; [|apply pget_pset|apply get_1]. destruct H3 as [H3 ->].
          rewrite (tertiary_bitmap E d F bm1 bm2 bm3 HF Hbm) in *. rewrite st_1'. fold d3. intro H4.
          apply encode_fields_ok in H4 as (ents & A1 & A2 & -> & ->); [|apply fl_nodup|intros; apply extra_pf; assumption].
          cbn [s_dec s_enc] in *. exists [(u "p", mkEntry [] p); (u "1", mkEntry [] (s ++ s'))], d3, ents.
          split; [eapply BE3; eauto|]. split; [assumption|]. split; [assumption|]. simpl. rewrite <- !app_assoc. auto.
        * intro H4.
          apply encode_fields_ok in H4 as (ents & A1 & A2 & -> & ->); [|apply fl_nodup|intros; apply extra_pf; assumption].
          cbn [s_dec s_enc] in *. exists [(u "p", mkEntry [] p); (u "1", mkEntry [] s)], d2, ents.
          split; [eapply BE2; eauto|]. split; [assumption|]. split; [assumption|]. simpl. rewrite <- !app_assoc. auto.
      + intro H4.
        apply encode_fields_ok in H4 as (ents & A1 & A2 & -> & ->); [|apply fl_nodup|].
        2:{ intros f Hf. apply fresh_f; [assumption|]. simpl. intros k [<-|[]]; auto. }
        cbn [s_dec s_enc] in *. exists [(u "p", mkEntry [] p)], d1, ents.
        split; [eapply BE1; eauto|]. split; [assumption|]. split; [assumption|]. simpl. rewrite <- !app_assoc. auto.
    - intros (bents & d' & ents & Hb & Hk & Hf & -> & ->).
      destruct Hb as [fp p Hp H1 B1|fp p fs s Hp H1 B1 Hs H2 B2|fp p fs s s' Hp H1 B1 Hs H2 B2 H3].
      + rewrite Hp. rewrite <- (primary_bitmap E d F bm1 bm2 bm3 HF Hbm) in H1.
        rewrite (proj2 (bitmap_fresh_ok E (u "p") fp 0 _ (mkE (pops d) done) p _) (conj H1 eq_refl)).
        rewrite (primary_bitmap E d F bm1 bm2 bm3 HF Hbm), B1, st_p by apply fresh_p.
        apply encode_fields_ok; [apply fl_nodup| |].
        * intros f Hf'. apply fresh_f; [assumption|]. simpl. intros k [<-|[]]; auto.
        * exists ents. split; [assumption|]. split; [assumption|]. simpl. rewrite <- !app_assoc. auto.
      + rewrite Hp. rewrite <- (primary_bitmap E d F bm1 bm2 bm3 HF Hbm) in H1.
        rewrite (proj2 (bitmap_fresh_ok E (u "p") fp 0 _ (mkE (pops d) done) p _) (conj H1 eq_refl)).
        rewrite (primary_bitmap E d F bm1 bm2 bm3 HF Hbm), B1, st_p by apply fresh_p.
        rewrite Hs. rewrite <- (secondary_bitmap E d F bm1 bm2 bm3 HF Hbm) in H2.
        rewrite (proj2 (bitmap_fresh_ok E (u "1") fs 64 _ (mkE d1 (done ++ [(u "p", mkEntry [] p)])) s _) (conj H2 eq_refl)).
        rewrite (secondary_bitmap E d F bm1 bm2 bm3 HF Hbm), B2, st_1.
        apply encode_fields_ok; [apply fl_nodup|intros; apply extra_pf; assumption|].
        exists ents. split; [assumption|]. split; [assumption|]. simpl. rewrite <- !app_assoc. auto.
      + rewrite Hp. rewrite <- (primary_bitmap E d F bm1 bm2 bm3 HF Hbm) in H1.
        rewrite (proj2 (bitmap_fresh_ok E (u "p") fp 0 _ (mkE (pops d) done) p _) (conj H1 eq_refl)).
        rewrite (primary_bitmap E d F bm1 bm2 bm3 HF Hbm), B1, st_p by apply fresh_p.
        rewrite Hs. rewrite <- (secondary_bitmap E d F bm1 bm2 bm3 HF Hbm) in H2.
        rewrite (proj2 (bitmap_fresh_ok E (u "1") fs 64 _ (mkE d1 (done ++ [(u "p", mkEntry [] p)])) s _) (conj H2 eq_refl)).
        rewrite (secondary_bitmap E d F bm1 bm2 bm3 HF Hbm), B2, st_1.
        rewrite <- (tertiary_bitmap E d F bm1 bm2 bm3 HF Hbm) in H3.
        rewrite (proj2 (bitmap_ext_ok E (u "1") fs 128 _ (mkE d2 ((done ++ [(u "p", mkEntry [] p)]) ++ [(u "1", mkEntry [] s)]))
                          s' _ (HEX bm2) [] s (pget_pset _ _ _) (get_1 _ _)) (conj H3 eq_refl)).
        rewrite (tertiary_bitmap E d F bm1 bm2 bm3 HF Hbm), st_1'. fold d3.
        apply encode_fields_ok; [apply fl_nodup|intros; apply extra_pf; assumption|].
        exists ents. split; [assumption|]. split; [assumption|]. simpl. rewrite <- !app_assoc. auto.
  Qed.

  Lemma bitmap_entries_keys bents d' : bitmap_entries bents d' ->
    map fst bents = u "p" :: (if bit bm1 1 then [u "1"] else [])
    /\ Forall (entry_sent E sp d bm1 bm2 bm3) bents /\ d' = with_bitmaps d bm1 bm2 bm3
    /\ (forall f, In f data_fields -> pget (KStr (zstr f)) d' = value d (zstr f)).
  Proof.
    intros [fp p Hp H1 B1|fp p fs s Hp H1 B1 Hs H2 B2|fp p fs s s' Hp H1 B1 Hs H2 B2 H3]; rewrite B1; (split; [reflexivity|]).
    - split; [|split]; [repeat constructor; eapply SentPrimary; eauto| |exact d1_field].
      unfold with_bitmaps. rewrite B1. reflexivity.
    - split; [|split]; [repeat constructor; [eapply SentPrimary; eauto|eapply SentSecondary; eauto]| |exact d2_field].
      unfold with_bitmaps. rewrite B1, B2, app_nil_r. reflexivity.
    - split; [|split]; [repeat constructor; [eapply SentPrimary; eauto|eapply SentTertiary; eauto]| |exact d3_field].
      unfold with_bitmaps. rewrite B1, B2. unfold d3, d2, pset. rewrite dset_dset by apply key_eqb_spec. reflexivity.
  Qed.

  Lemma msg_ok_1 out st' : encode_msg E sp h t F (mkE (pops d) done) = (Ok out, st') ->
    exists ents, map fst ents = rest_keys bm1 bm2 bm3 /\ Forall (entry_sent E sp d bm1 bm2 bm3) ents
      /\ out = h ++ t ++ wire_bytes ents /\ st' = mkE (with_bitmaps d bm1 bm2 bm3) (done ++ ents).
  Proof.
    rewrite encode_msg_ok. intros (bents & d' & ents & Hb & Hk & Hf & -> & ->). apply bitmap_entries_keys in Hb as (K & A & -> & G).
      exists (bents ++ ents). unfold rest_keys. rewrite map_app, K, Hk, wire_bytes_app, Forall_app.
      split; [reflexivity|]. split; [|auto]. split; [assumption|]. eapply sent_iff; eauto.
  Qed.
  Lemma not_field k : k = u "p" \/ k = u "1" -> ~ (k = u "h" \/ exists f, In f data_fields /\ k = zstr f).
  Proof.
    intros Hk [H|(f & Hf & H)]; [destruct Hk; subst; discriminate|]. destruct (zstr_name f Hf) as (? & ? & ? & ? & _).
    destruct Hk; congruence.
  Qed.
  Lemma one_bitmap e1 : bit bm1 1 = false -> entry_sent E sp d bm1 bm2 bm3 (u "p", e1) -> bitmap_entries [(u "p", e1)] d1.
  Proof.
    intros B1 Hp. inversion Hp as [k fs v l b Hk| | | |]; subst; [exfalso; eapply not_field; [|exact Hk]; auto|].
    eapply BE1; eauto.
  Qed.
  Lemma two_bitmaps e1 e2 : bit bm1 1 = true -> entry_sent E sp d bm1 bm2 bm3 (u "p", e1) ->
    entry_sent E sp d bm1 bm2 bm3 (u "1", e2) -> exists d', bitmap_entries [(u "p", e1); (u "1", e2)] d'.
  Proof.
    intros B1 Hp Hs. inversion Hp as [k fs v l b Hk| | | |]; subst; [exfalso; eapply not_field; [|exact Hk]; auto|].
    inversion Hs as [k fs' v l b Hk| | | |]; subst; [exfalso; eapply not_field; [|exact Hk]; auto| |].
    - eexists. eapply BE2; eauto.
    - eexists. eapply BE3; eauto.
  Qed.
  Lemma msg_ok_2 out st' :
    (exists ents, map fst ents = rest_keys bm1 bm2 bm3 /\ Forall (entry_sent E sp d bm1 bm2 bm3) ents
      /\ out = h ++ t ++ wire_bytes ents /\ st' = mkE (with_bitmaps d bm1 bm2 bm3) (done ++ ents)) ->
    encode_msg E sp h t F (mkE (pops d) done) = (Ok out, st').
  Proof.
    rewrite encode_msg_ok. intros (all & Hk & Ha & -> & ->). apply rest_split in Hk as [(B1 & e1 & e2 & ents & -> & Hk)|(B1 & e1 & ents & -> & Hk)];
    pose proof (Forall_inv Ha) as Hp; pose proof (Forall_inv_tail Ha) as Ha'.
    - pose proof (Forall_inv Ha') as Hs. pose proof (Forall_inv_tail Ha') as Hf.
      destruct (two_bitmaps _ _ B1 Hp Hs) as [d' Hb]. exists [(u "p", e1); (u "1", e2)], d', ents.
      split; [assumption|]. split; [assumption|].
      apply bitmap_entries_keys in Hb as (K & A & -> & G). split; [eapply sent_iff; eauto|].
      rewrite !wire_bytes_cons. cbn [snd]. change (wire_bytes []) with (@nil byte). rewrite app_nil_r, <- !app_assoc.
      split; reflexivity.
    - pose proof (one_bitmap _ B1 Hp) as Hb. exists [(u "p", e1)], d1, ents.
      split; [assumption|]. split; [assumption|].
      apply bitmap_entries_keys in Hb as (K & A & Hd' & G). split; [eapply sent_iff; eauto|].
      rewrite !wire_bytes_cons. cbn [snd]. change (wire_bytes []) with (@nil byte). rewrite app_nil_r, <- Hd', <- !app_assoc.
      split; reflexivity.
  Qed.

  Definition msg_fails (x : exn) (st' : estate) : Prop :=
    exists ents k tail rest, rest_keys bm1 bm2 bm3 = map fst ents ++ k :: rest
      /\ Forall (entry_sent E sp d bm1 bm2 bm3) ents
      /\ (tail = [] \/ exists e, tail = [(k, e)]) /\ s_enc st' = done ++ ents ++ tail
      /\ failure_cause E sp d (s_dec st') (s_enc st') k x.

  Lemma eerr_cause k x st' : eerr k x st' -> failure_cause E sp d (s_dec st') (s_enc st') k x.
  Proof. intros [msg ->]. constructor. Qed.
  Lemma cause_bitmap k x st' fs : sget k sp = Some fs ->
    eerr k x st' \/ (exists nm, x = XKeyError nm /\ ~ mandatory fs) -> failure_cause E sp d (s_dec st') (s_enc st') k x.
  Proof.
    intros Hs [H|(nm & -> & H)]; [now apply eerr_cause|]. apply CauseSpec. intros (fs' & H1 & H2). congruence.
  Qed.
  Lemma fields_fail bents d' x st' s : bitmap_entries bents d' ->
    encode_fields E sp fl s (mkE d' (done ++ bents)) = (Raise x, st') -> msg_fails x st'.
  Proof.
    intros Hb H. apply bitmap_entries_keys in Hb as (K & A & _ & G).
    apply encode_fields_raise in H as (pre & f & post & ents & tail & Hfl & A1 & A2 & A3 & -> & A4).
    - cbn [s_dec s_enc] in *.
      assert (Hf : In f fl) by (rewrite Hfl; apply in_or_app; right; now left).
      assert (Hfd := fl_in f Hf).
      assert (Hsent : Forall (entry_sent E sp d bm1 bm2 bm3) ents).
      { apply Forall_forall. intros [k [l b]] Hke. rewrite Forall_forall in A2.
        destruct (A2 _ Hke) as (fs & v & B1 & B2 & B3). cbn [fst snd e_len e_data] in *.
        assert (Hk : In k (map zstr pre)) by (rewrite <- A1; now apply (in_map fst) in Hke).
        apply in_map_iff in Hk as (g & <- & Hg).
        assert (Hgd : In g data_fields) by (apply fl_in; rewrite Hfl; apply in_or_app; now left).
        rewrite G in B2 by assumption. eapply SentField; eauto. }
      exists (bents ++ ents), (zstr f), tail, (map zstr post). split.
      + unfold rest_keys. rewrite Hfl, !map_app, K, A1. cbn [map]. rewrite <- !app_assoc. reflexivity.
      + split; [apply Forall_app; split; assumption|]. split; [assumption|]. split; [cbn [s_enc]; rewrite <- !app_assoc; reflexivity|].
        rewrite G in A4 by assumption.
        destruct A4 as [H|[[-> H]|[(nm & -> & H)|[[-> H]|(v & H1 & H2)]]]].
        * apply eerr_cause; assumption.
        * eapply CauseKey; eauto. apply filter_In in Hf as [_ Hf]. apply (announced_sends E d bm1 bm2 bm3 Hbm f Hfd) in Hf.
          apply data_fields_in in Hfd. destruct Hf as [Hf|[[-> _]|[-> _]]]; [assumption|lia..].
        * apply CauseSpec; assumption.
        * destruct H as [H|H]; [now apply CauseWidth|now apply CauseLimit].
        * eapply CauseValue; eauto.
    - apply fl_nodup.
    - intros f Hf. cbn [s_enc]. apply fresh_f; [assumption|]. intros k Hk. rewrite K in Hk.
      destruct (bit bm1 1); simpl in Hk; intuition.
  Qed.
  Lemma msg_raise x st' : encode_msg E sp h t F (mkE (pops d) done) = (Raise x, st') -> msg_fails x st'.
  Proof.
    rewrite encode_msg_eq. destruct (sget (u "p") sp) as [fp|] eqn:Hp.
    2:{ intros [= <- <-]. exists [], (u "p"), [], ((if bit bm1 1 then [u "1"] else []) ++ map zstr fl). cbn [s_enc s_dec].
        split; [reflexivity|]. split; [constructor|]. split; [now left|]. rewrite app_nil_r. split; [reflexivity|].
        apply CauseSpec. intros (fs & H & _). congruence. }
    destruct (encode_bitmap E (u "p") fp 0 false _ _) as [[p|y] st1] eqn:H1.
    2:{ intros [= <- <-]. apply bitmap_fresh_raise in H1 as [-> H]. rewrite (primary_bitmap E d F bm1 bm2 bm3 HF Hbm) in *.
        rewrite st_p in * by apply fresh_p. exists [], (u "p"), [(u "p", mkEntry [] [])], ((if bit bm1 1 then [u "1"] else []) ++ map zstr fl).
        split; [reflexivity|]. split; [constructor|]. split; [right; eauto|]. split; [reflexivity|].
        eapply cause_bitmap; eauto. }
    apply bitmap_fresh_ok in H1 as [H1 ->]. rewrite (primary_bitmap E d F bm1 bm2 bm3 HF Hbm) in *.
    rewrite st_p by apply fresh_p.
    assert (Hsp : Forall (entry_sent E sp d bm1 bm2 bm3) [(u "p", mkEntry [] p)]).
    { repeat constructor. eapply SentPrimary; eauto. }
    destruct (bit bm1 1) eqn:B1.
    2:{ intro H. eapply fields_fail; [|exact H]. eapply BE1; eauto. }
    assert (Hk1 : rest_keys bm1 bm2 bm3 = map fst [(u "p", mkEntry [] p)] ++ u "1" :: map zstr fl).
    { unfold rest_keys. rewrite B1. reflexivity. }
    destruct (sget (u "1") sp) as [fs|] eqn:Hs.
    2:{ intros [= <- <-]. exists [(u "p", mkEntry [] p)], (u "1"), [], (map zstr fl).
        split; [assumption|]. split; [assumption|]. split; [now left|]. cbn [s_enc s_dec]. rewrite app_nil_r. split; [reflexivity|].
        apply CauseSpec. intros (fs & H & _). congruence. }
    destruct (encode_bitmap E (u "1") fs 64 false _ _) as [[s|y] st2] eqn:H2.
    2:{ intros [= <- <-]. apply bitmap_fresh_raise in H2 as [-> H]. rewrite (secondary_bitmap E d F bm1 bm2 bm3 HF Hbm) in *.
        rewrite st_1 in *. exists [(u "p", mkEntry [] p)], (u "1"), [(u "1", mkEntry [] [])], (map zstr fl).
        split; [assumption|]. split; [assumption|]. split; [right; eauto|]. split; [cbn [s_enc]; now rewrite <- app_assoc|].
        eapply cause_bitmap; eauto. }
    apply bitmap_fresh_ok in H2 as [H2 ->]. rewrite (secondary_bitmap E d F bm1 bm2 bm3 HF Hbm) in *. rewrite st_1.
    destruct (bit bm2 1) eqn:B2.
    2:{ intro H. eapply fields_fail; [eapply BE2; eauto|]. rewrite <- app_assoc in H. exact H. }
    destruct (encode_bitmap E (u "1") fs 128 true _ _) as [[s'|y] st3] eqn:H3.
    - eapply bitmap_ext_ok in H3; [|apply pget_pset|apply get_1]. destruct H3 as [H3 ->].
      rewrite (tertiary_bitmap E d F bm1 bm2 bm3 HF Hbm) in *. rewrite st_1'. fold d3. intro H.
      eapply fields_fail; [eapply BE3; eauto|]. rewrite <- app_assoc in H. exact H.
    - intros [= <- <-]. eapply bitmap_ext_raise in H3; [|apply pget_pset|apply get_1]. destruct H3 as [-> H].
      exists [(u "p", mkEntry [] p)], (u "1"), [(u "1", mkEntry [] s)], (map zstr fl).
      split; [assumption|]. split; [assumption|]. split; [right; eauto|]. split; [cbn [s_enc]; now rewrite <- app_assoc|].
      eapply cause_bitmap; eauto.
  Qed.
End Msg.

(** ** Header and type *)
Lemma plan_split sp bm1 bm2 bm3 : plan sp bm1 bm2 bm3 = (header_key sp ++ [u "t"]) ++ rest_keys bm1 bm2 bm3.
Proof. unfold plan, rest_keys. rewrite <- app_assoc. reflexivity. Qed.

Lemma header_key_off sp fs ml : sget (u "h") sp = Some fs -> fs_max_len fs = Some ml -> (ml <= 0)%Z -> header_key sp = [].
Proof. intros H1 H2 H3. unfold header_key. rewrite H1, H2. destruct (Z.leb_spec ml 0); [reflexivity|lia]. Qed.
Lemma header_key_on sp fs ml : sget (u "h") sp = Some fs -> fs_max_len fs = Some ml -> (0 < ml)%Z -> header_key sp = [u "h"].
Proof. intros H1 H2 H3. unfold header_key. rewrite H1, H2. destruct (Z.leb_spec ml 0); [lia|reflexivity]. Qed.

Definition head_run (E : pyenv) (sp : spec) (st : estate) : res exn (bytes * bytes) * estate :=
  (h <- encode_header E sp ;; t <- encode_type E sp ;; ret (h, t)) st.

Lemma field_encodes_max E fs v l b : field_encodes E fs v l b -> exists ml, fs_max_len fs = Some ml.
Proof. intros (n & _ & [H1 H2 _|lt le ml H1 H2 H3 _ _ _]); eauto. Qed.

Section Head.
  Variables (E : pyenv) (sp : spec) (d : pdoc) (bm1 bm2 bm3 : bytes).
  Notation sent := (entry_sent E sp d bm1 bm2 bm3).

  Lemma get_pops k : k <> u "1" -> k <> u "65" -> pget (KStr k) (s_dec (mkE (pops d) [])) = value d k.
  Proof. intros. now apply pops_other. Qed.

  Lemma header_ok out st' : encode_header E sp (mkE (pops d) []) = (Ok out, st') <->
    exists hs, map fst hs = header_key sp /\ Forall sent hs /\ out = wire_bytes hs /\ st' = mkE (pops d) hs.
  Proof.
    rewrite encode_header_ok. split.
    - intros (fs & ml & H1 & H2 & [(H3 & -> & ->)|(H3 & v & lenb & data & H4 & H5 & -> & ->)]).
      + exists []. erewrite header_key_off by eauto. auto.
      + exists [(u "h", mkEntry lenb data)]. erewrite header_key_on by eauto. rewrite get_pops in H4 by discriminate.
        rewrite eput_fresh by (simpl; tauto). rewrite wire_bytes_cons. change (wire_bytes []) with (@nil byte). rewrite app_nil_r.
        split; [reflexivity|]. split; [|auto]. repeat constructor. eapply SentField; eauto.
    - intros (hs & Hk & Hf & -> & ->).
      assert (Hcase : (exists fs ml, sget (u "h") sp = Some fs /\ fs_max_len fs = Some ml /\ (ml <= 0)%Z /\ hs = [])
                      \/ exists e, hs = [(u "h", e)] /\ sent (u "h", e) /\ header_key sp = [u "h"]).
      { unfold header_key in *. destruct (sget (u "h") sp) as [fs|] eqn:Hs.
        - destruct (fs_max_len fs) as [ml|] eqn:Hm.
          + destruct (Z.leb_spec ml 0).
            * left. exists fs, ml. destruct hs; [auto|discriminate].
            * right. destruct hs as [|[k e] [|]]; [discriminate| |discriminate]. injection Hk as ->.
              exists e. split; [reflexivity|]. split; [now apply Forall_inv in Hf|reflexivity].
          + right. destruct hs as [|[k e] [|]]; [discriminate| |discriminate]. injection Hk as ->.
            exists e. split; [reflexivity|]. split; [now apply Forall_inv in Hf|reflexivity].
        - right. destruct hs as [|[k e] [|]]; [discriminate| |discriminate]. injection Hk as ->.
          exists e. split; [reflexivity|]. split; [now apply Forall_inv in Hf|reflexivity]. }
      destruct Hcase as [(fs & ml & H1 & H2 & H3 & ->)|(e & -> & He & Hhk)].
      + exists fs, ml. split; [assumption|]. split; [assumption|]. left. auto.
      + inversion He as [k fs v l b _ H1 H2 H3| | | |]; subst.
        destruct (field_encodes_max _ _ _ _ _ H3) as [ml Hml]. exists fs, ml. split; [assumption|]. split; [assumption|].
        right. split.
        * destruct (Z.le_gt_cases ml 0); [|assumption]. erewrite header_key_off in Hhk by eauto. discriminate.
        * exists v, l, b. rewrite get_pops by discriminate. rewrite eput_fresh by (simpl; tauto).
          split; [assumption|]. split; [assumption|]. split; [|reflexivity]. rewrite wire_bytes_cons.
          change (wire_bytes []) with (@nil byte). now rewrite app_nil_r.
  Qed.

  Lemma header_key_in hs k : map fst hs = header_key sp -> In k (map fst (hs : edoc)) -> k = u "h".
  Proof.
    intros -> . unfold header_key. destruct (sget (u "h") sp) as [fs|]; [destruct (fs_max_len fs) as [ml|]; [destruct (ml <=? 0)%Z|]|];
    simpl; intuition.
  Qed.

  Lemma type_ok hs out st' : map fst hs = header_key sp ->
    (encode_type E sp (mkE (pops d) hs) = (Ok out, st') <->
     exists e, sent (u "t", e) /\ out = e_len e ++ e_data e /\ st' = mkE (pops d) (hs ++ [(u "t", e)])).
  Proof.
    intro Hk. assert (Hfresh : ~ In (u "t") (map fst hs)) by (intro Hi; apply (header_key_in _ _ Hk) in Hi; discriminate).
    rewrite encode_type_ok. split.
    - intros (fs & v & H1 & H2 & H3 & ->). cbn [s_dec] in H2. rewrite pops_other in H2 by discriminate.
      exists (mkEntry [] out). rewrite eput_fresh by assumption. split; [eapply SentType; eauto|]. auto.
    - intros (e & He & -> & ->). inversion He as [k fs v l b Hf| |  | |]; subst.
      + exfalso. destruct Hf as [Hf|(f & Hf & Hzf)]; [discriminate|]. destruct (zstr_name f Hf) as (? & ? & _). congruence.
      + exists fs, v. cbn [s_dec e_len e_data app]. rewrite pops_other by discriminate. rewrite eput_fresh by assumption. auto.
  Qed.

  Lemma header_raise x st' : encode_header E sp (mkE (pops d) []) = (Raise x, st') ->
    exists tail rest, header_key sp = u "h" :: rest /\ (tail = [] \/ exists e, tail = [(u "h", e)]) /\ s_enc st' = tail
      /\ failure_cause E sp d (s_dec st') (s_enc st') (u "h") x.
  Proof.
    intro H. assert (Hhk : exists rest, header_key sp = u "h" :: rest).
    { unfold header_key. unfold encode_header, bind, spec_get in H. destruct (sget (u "h") sp) as [fs|]; [|eauto].
      unfold ret at 1 in H. destruct (fs_max_len fs) as [ml|]; [|eauto]. cbn [prop] in H. unfold ret at 1 in H.
      destruct (ml <=? 0)%Z; [discriminate|eauto]. }
    destruct Hhk as [rest Hhk]. apply encode_header_raise in H as [Hst H].
    assert (Hc : failure_cause E sp d (s_dec st') (s_enc st') (u "h") x).
    { destruct H as [[msg ->]|[(nm & -> & H)|[[-> [H|H]]|(v & H1 & H2)]]]; [constructor|now apply CauseSpec|now apply CauseWidth|now apply CauseLimit|].
      rewrite get_pops in H1 by discriminate. eapply CauseValue; eauto. }
    destruct Hst as [->|(l & b & ->)].
    - exists [], rest. auto.
    - exists [(u "h", mkEntry l b)], rest. rewrite eput_fresh in * by (simpl; tauto). split; [assumption|]. split; [right; eauto|]. auto.
  Qed.
  Lemma type_raise hs x st' : map fst hs = header_key sp -> encode_type E sp (mkE (pops d) hs) = (Raise x, st') ->
    exists tail, (tail = [] \/ exists e, tail = [(u "t", e)]) /\ s_enc st' = hs ++ tail
      /\ failure_cause E sp d (s_dec st') (s_enc st') (u "t") x.
  Proof.
    intros Hk H. assert (Hfresh : ~ In (u "t") (map fst hs)) by (intro Hi; apply (header_key_in _ _ Hk) in Hi; discriminate).
    apply encode_type_raise in H as [Hst H].
    assert (Hc : failure_cause E sp d (s_dec st') (s_enc st') (u "t") x).
    { destruct H as [[msg ->]|[(nm & -> & H)|(v & H1 & H2)]]; [constructor|now apply CauseSpec|].
      cbn [s_dec] in H1. rewrite pops_other in H1 by discriminate. eapply CauseValue; eauto. }
    destruct Hst as [->|(b & ->)].
    - exists []. rewrite app_nil_r. auto.
    - exists [(u "t", mkEntry [] b)]. rewrite eput_fresh in * by assumption. split; [right; eauto|]. auto.
  Qed.
End Head.

Lemma pops_numeric E d ks : is_dict d -> numeric_keys E (map fst (pops d)) = inr ks ->
  (forall f, In f (zset_of ks) <-> has_field E d f)
  /\ (keys_ok E d <-> zsubset_range 1 193 (zset_of ks) = true).
Proof.
  intros Hd Hk. pose proof (numeric_keys_spec E (map fst (pops d))) as Hs. rewrite Hk in Hs. destruct Hs as [H1 H2].
  assert (A : forall f, In f (zset_of ks) <-> has_field E d f).
  { intro f. unfold zset_of. rewrite zupdate_in. unfold has_field. split.
    - intros [[]|H]. apply H2 in H as (s & Hi & Hn & Hp). apply pops_keys in Hi as (Hi & N1 & N2); [|assumption].
      exists s. split; [assumption|]. split; [congruence|]. split; [congruence|]. auto.
    - intros (s & Hi & N1 & N2 & Hn & Hp). right. apply H2. exists s. rewrite pops_keys by assumption.
      split; [|auto]. split; [assumption|]. split; congruence. }
  split; [exact A|]. unfold zsubset_range. rewrite forallb_forall. unfold keys_ok. split.
  - intros H x Hx. apply A in Hx as (s & Hi & N1 & N2 & Hn & Hp). apply in_range_spec.
    destruct (H _ Hi) as (s' & [= <-] & Hs). destruct (Hs N1 N2 Hn) as (f & Hf & Hr). pose proof (int_text_unique _ _ _ _ Hf Hp). lia.
  - intros H k Hk'. destruct (key_eqb_spec k (KStr (u "1"))) as [->|N1]; [exists (u "1"); split; [reflexivity|congruence]|].
    destruct (key_eqb_spec k (KStr (u "65"))) as [->|N2]; [exists (u "65"); split; [reflexivity|congruence]|].
    destruct (H1 k) as (s & -> & Hs); [apply pops_keys; auto|]. exists s. split; [reflexivity|]. intros M1 M2 Hn.
    destruct (Hs Hn) as [f Hf]. exists f. split; [assumption|].
    assert (Hx : In f (zset_of ks)). { apply A. exists s. auto. }
    apply H, in_range_spec in Hx. lia.
Qed.
Lemma keys_ok_numeric E d : is_dict d -> keys_ok E d -> exists ks, numeric_keys E (map fst (pops d)) = inr ks.
Proof.
  intros Hd H. pose proof (numeric_keys_spec E (map fst (pops d))) as Hs.
  destruct (numeric_keys E (map fst (pops d))) as [[|]|ks]; [exfalso..|eauto].
  - destruct Hs as (s & Hi & Hn & Hp). apply pops_keys in Hi as (Hi & N1 & N2); [|assumption].
    destruct (H _ Hi) as (s' & [= <-] & Hs). destruct (Hs ltac:(congruence) ltac:(congruence) Hn) as (f & Hf & _). exact (Hp f Hf).
  - destruct Hs as (i & r & Hi). apply pops_keys in Hi as (Hi & _); [|assumption]. destruct (H _ Hi) as (s & ? & _). discriminate.
Qed.

Lemma zset_sorted ks : zsorted (zset_of ks).
Proof. apply zupdate_sorted. constructor. Qed.

(** ** encode *)
Lemma encode_ok E sp d s enc d' : is_dict d ->
  (encode E (ADict d) sp = (Ok (s, enc), d') <->
   exists bm1 bm2 bm3, encoding E sp d bm1 bm2 bm3 enc /\ s = wire_bytes enc /\ d' = with_bitmaps d bm1 bm2 bm3).
Proof.
  intro Hd. destruct (bitmaps_exist E d) as (bm1 & bm2 & bm3 & Hbm). unfold encode. rewrite encode_body_eq. split.
  - destruct (encode_header E sp (mkE (pops d) [])) as [[h|x] st1] eqn:Hh; [|discriminate].
    apply (header_ok E sp d bm1 bm2 bm3) in Hh as (hs & Hhk & Hhf & -> & ->).
    destruct (encode_type E sp _) as [[t|x] st2] eqn:Ht; [|discriminate].
    apply (type_ok E sp d bm1 bm2 bm3 hs _ _ Hhk) in Ht as (e & Hte & -> & ->). cbn [s_dec].
    destruct (numeric_keys E (map fst (pops d))) as [[|]|ks] eqn:Hn; [discriminate..|].
    destruct (pops_numeric E d ks Hd Hn) as [HF Hko].
    destruct (zsubset_range 1 193 (zset_of ks)) eqn:Hr; [|discriminate]. cbn [negb].
    destruct (encode_msg _ _ _ _ _ _) as [[out|x] st3] eqn:Hm; [|discriminate].
    apply (msg_ok_1 E sp d bm1 bm2 bm3) in Hm as (ents & Hek & Hef & -> & ->);
      [|apply zset_sorted|assumption| |assumption|].
    + cbn [s_enc s_dec]. intros [= <- <- <-]. exists bm1, bm2, bm3. split; [|split; [|reflexivity]].
      * split; [now apply Hko|]. split; [assumption|]. split.
        -- rewrite plan_split, !map_app, Hhk, Hek. reflexivity.
        -- apply Forall_app. split; [|assumption]. apply Forall_app. auto.
      * rewrite !wire_bytes_app, wire_bytes_cons. change (wire_bytes []) with (@nil byte). rewrite app_nil_r, <- !app_assoc. reflexivity.
    + intros f Hf. unfold zsubset_range in Hr. rewrite forallb_forall in Hr. apply Hr, in_range_spec in Hf. lia.
    + intros k Hk. rewrite map_app, in_app_iff in Hk. destruct Hk as [Hk|[<-|[]]]; [left; eapply header_key_in; eauto|now right].
  - clear bm1 bm2 bm3 Hbm. intros (bm1 & bm2 & bm3 & (Hko & Hbm & Hpl & Hent) & -> & ->).
    rewrite plan_split in Hpl. apply map_eq_app in Hpl as (he & ents & -> & Hhe & Hek).
    apply map_eq_app in Hhe as (hs & ts & -> & Hhk & Htk). destruct ts as [|[k e] [|]]; [discriminate| |discriminate].
    injection Htk as ->. rewrite !Forall_app in Hent. destruct Hent as [[Hhf Hte] Hef]. apply Forall_inv in Hte.
    rewrite (proj2 (header_ok E sp d bm1 bm2 bm3 (wire_bytes hs) (mkE (pops d) hs))) by eauto.
    rewrite (proj2 (type_ok E sp d bm1 bm2 bm3 hs (e_len e ++ e_data e) _ Hhk)) by eauto. cbn [s_dec].
    destruct (keys_ok_numeric E d Hd Hko) as [ks Hn]. rewrite Hn. destruct (pops_numeric E d ks Hd Hn) as [HF Hko'].
    rewrite (proj1 Hko' Hko). cbn [negb].
    rewrite (msg_ok_2 E sp d bm1 bm2 bm3 (zset_of ks) (hs ++ [(u "t", e)]) (wire_bytes hs) (e_len e ++ e_data e))
      with (out := wire_bytes ((hs ++ [(u "t", e)]) ++ ents)) (st' := mkE (with_bitmaps d bm1 bm2 bm3) ((hs ++ [(u "t", e)]) ++ ents)).
    + reflexivity.
    + apply zset_sorted.
    + assumption.
    + intros f Hf. pose proof (proj1 Hko' Hko) as Hr. unfold zsubset_range in Hr. rewrite forallb_forall in Hr.
      apply Hr, in_range_spec in Hf. lia.
    + assumption.
    + intros k Hk. rewrite map_app, in_app_iff in Hk. destruct Hk as [Hk|[<-|[]]]; [left; eapply header_key_in; eauto|now right].
    + exists ents. split; [assumption|]. split; [assumption|]. split; [|reflexivity].
      rewrite !wire_bytes_app, wire_bytes_cons. change (wire_bytes []) with (@nil byte). rewrite app_nil_r, <- !app_assoc. reflexivity.
Qed.

Lemma encode_fails E sp d x d' : is_dict d -> encode E (ADict d) sp = (Raise x, d') -> exists k, fails_at E sp d d' x k.
Proof.
  intros Hd. destruct (bitmaps_exist E d) as (bm1 & bm2 & bm3 & Hbm). unfold encode. rewrite encode_body_eq.
  destruct (encode_header E sp (mkE (pops d) [])) as [[h|y] st1] eqn:Hh.
  2:{ intros [= <- <-]. apply (header_raise E sp d) in Hh as (tail & rest & A1 & A2 & A3 & A4).
      exists (u "h"), bm1, bm2, bm3, [], tail, (rest ++ [u "t"] ++ rest_keys bm1 bm2 bm3).
      split; [assumption|]. split; [rewrite plan_split, A1, <- app_assoc; reflexivity|]. split; [constructor|].
      split; [assumption|]. cbn [app]. rewrite <- A3. assumption. }
  apply (header_ok E sp d bm1 bm2 bm3) in Hh as (hs & Hhk & Hhf & -> & ->).
  destruct (encode_type E sp _) as [[t|y] st2] eqn:Ht.
  2:{ intros [= <- <-]. apply (type_raise E sp d hs _ _ Hhk) in Ht as (tail & A2 & A3 & A4).
      exists (u "t"), bm1, bm2, bm3, hs, tail, (rest_keys bm1 bm2 bm3).
      split; [assumption|]. split; [rewrite plan_split, <- app_assoc, Hhk; reflexivity|]. split; [assumption|].
      split; [assumption|]. rewrite <- A3. assumption. }
  apply (type_ok E sp d bm1 bm2 bm3 hs _ _ Hhk) in Ht as (e & Hte & -> & ->). cbn [s_dec].
  set (he := hs ++ [(u "t", e)]). assert (Hhe : map fst he = header_key sp ++ [u "t"]) by (unfold he; rewrite map_app, Hhk; reflexivity).
  assert (Hhef : Forall (entry_sent E sp d bm1 bm2 bm3) he) by (apply Forall_app; auto).
  assert (Hpp : forall y d0, failure_cause E sp d d0 he (u "p") y -> exists k, fails_at E sp d d0 y k).
  { intros y d0 Hc. exists (u "p"), bm1, bm2, bm3, he, [], ((if bit bm1 1 then [u "1"] else []) ++ map zstr (filter (announced bm1 bm2 bm3) data_fields)).
    split; [assumption|]. split; [rewrite plan_split, Hhe; reflexivity|]. split; [assumption|]. split; [now left|]. now rewrite app_nil_r. }
  destruct (numeric_keys E (map fst (pops d))) as [[|]|ks] eqn:Hn.
  - intros [= <- <-]. apply Hpp. pose proof (numeric_keys_spec E (map fst (pops d))) as Hs. rewrite Hn in Hs.
    destruct Hs as (s & Hi & H1 & H2). apply pops_keys in Hi as [Hi _]; [|assumption]. eapply CauseNumeric; eauto.
  - intros [= <- <-]. apply Hpp. cbn [s_dec s_enc]. apply CauseEncodeError.
  - destruct (pops_numeric E d ks Hd Hn) as [HF Hko].
    destruct (zsubset_range 1 193 (zset_of ks)) eqn:Hr; cbn [negb].
    2:{ intros [= <- <-]. apply Hpp. cbn [s_dec s_enc]. apply CauseEncodeError. }
    destruct (encode_msg _ _ _ _ _ _) as [[out|y] st3] eqn:Hm; [discriminate|].
    intros [= <- <-]. apply (msg_raise E sp d bm1 bm2 bm3) in Hm as (ents & k & tail & rest & A1 & A2 & A3 & A4 & A5);
      [|apply zset_sorted|assumption| |assumption|].
    + exists k, bm1, bm2, bm3, (he ++ ents), tail, rest. split; [assumption|].
      split; [rewrite plan_split, map_app, Hhe, A1, <- !app_assoc; reflexivity|].
      split; [apply Forall_app; auto|]. split; [assumption|]. rewrite <- app_assoc, <- A4. assumption.
    + intros f Hf. unfold zsubset_range in Hr. rewrite forallb_forall in Hr. apply Hr, in_range_spec in Hf. lia.
    + intros k Hk. rewrite Hhe, in_app_iff in Hk. destruct Hk as [Hk|[<-|[]]]; [left|now right].
      rewrite <- Hhk in Hk. eapply header_key_in; eauto.
Qed.
