(** * DecodeComplete: every message of the wire language is accepted. *)
From Coq Require Import ZifyBool ZifyNat ZifyN Sorted Permutation.
From Verif Require Import PyBase BaseFacts Types Decoder Wire DecoderFacts DecodeRun.
Ltac Zify.zify_post_hook ::= Z.div_mod_to_equations.

(** ** Completeness: every message of the wire language is accepted *)
Lemma trace_state s st idx segs : trace s st idx segs -> st = mkD (dec_of segs) (enc_of segs).
Proof. intros (H1 & H2 & _). destruct st as [a b]. cbn [d_dec d_enc] in *. congruence. Qed.

Lemma seg_eta sg : mkSeg (sg_key sg) (sg_len sg) (sg_data sg) (sg_text sg) = sg.
Proof. now destruct sg. Qed.

Lemma decode_fields_complete E s sp fl : forall fsegs idx st segs field idx',
  trace (buf_bytes s) st idx segs ->
  map sg_key fsegs = map zstr fl -> Forall (field_segment E sp) fsegs ->
  zsorted fl -> (forall f, In f fl -> (2 <= f)%Z /\ ~ In (zstr f) (map sg_key segs)) ->
  stands (buf_bytes s) idx (bytes_of fsegs) idx' ->
  exists st', decode_fields E s idx sp fl field st
              = (Ok (idx', last (map zstr fl) field), st')
              /\ trace (buf_bytes s) st' idx' (segs ++ fsegs).
Proof.
  induction fl as [|f fl IH]; intros fsegs idx st segs field idx' Ht Hk Hf Hs Hfr Hst.
  - destruct fsegs; [|discriminate]. exists st. rewrite app_nil_r.
    assert (idx' = idx) as -> by (destruct Hst as (? & ? & _ & _ & ->); change (zlen (bytes_of [])) with 0%Z; lia). split; [reflexivity|assumption].
  - destruct fsegs as [|sg fsegs]; [discriminate|]. injection Hk as Hk1 Hk2. inversion Hf as [|? ? Hf1 Hf2]; subst.
    change (bytes_of (sg :: fsegs)) with (sg_bytes sg ++ bytes_of fsegs) in Hst.
    destruct (stands_app_inv _ _ _ _ _ Hst) as [Hst1 Hst2].
    inversion Hs as [|? ? Hs' Hlt]; subst. destruct (Hfr f (or_introl eq_refl)) as [Hf3 Hnk].
    destruct Hf1 as (fs & Hsp & Hw). rewrite Hk1 in Hsp.
    pose proof (decode_field_complete E s idx (zstr f) fs st _ _ _ _ Hw Hst1) as Hd.
    pose proof (trace_put _ _ _ _ (zstr f) (sg_len sg) (sg_data sg) (sg_text sg) _ Ht Hnk Hst1) as Ht1.
    rewrite <- Hk1 in Ht1 at 2. rewrite seg_eta in Ht1.
    destruct (IH fsegs _ _ (segs ++ [sg]) (zstr f) idx' Ht1 Hk2 Hf2 Hs') as (st' & H1 & H2); [|assumption|].
    + intros g Hg. destruct (Hfr g (or_intror Hg)) as [Hg2 Hgk]. split; [assumption|].
      rewrite map_app, in_app_iff. simpl. rewrite Hk1. intros [?|[E0|[]]]; [tauto|].
      rewrite Forall_forall in Hlt. specialize (Hlt g Hg). apply zstr_inj in E0; lia.
    + exists st'. rewrite <- app_assoc in H2. split; [|assumption]. cbn [decode_fields]. unfold bind, spec_get.
      rewrite Hsp. unfold ret. rewrite Hd. rewrite H1. cbn [map last].
      do 3 f_equal. clear. destruct fl; [reflexivity|]. cbn [map]. 
      change (last (zstr z :: map zstr fl) (zstr f) = last (zstr z :: map zstr fl) field).
      generalize (zstr z). induction (map zstr fl) as [|a l IHl]; intro b; [reflexivity|]. apply (IHl a).
Qed.

Definition message_parts (E : pyenv) (sp : spec) hs t p xs fields bm1 bm2 bm3 : Prop :=
  header_part E sp hs /\ type_part E sp t /\ primary_part E sp p bm1
  /\ extra_part E sp bm1 xs bm2 bm3 /\ fields_part E sp bm1 bm2 bm3 fields.

Lemma bitmap_stage_complete E s sp idx st segs p xs bm1 bm2 bm3 idx' :
  trace (buf_bytes s) st idx segs ->
  (forall k, In k (map sg_key segs) -> k = u "h" \/ k = u "t") ->
  primary_part E sp p bm1 -> extra_part E sp bm1 xs bm2 bm3 ->
  (length bm1 <= 8)%nat -> (length bm2 <= 8)%nat -> (length bm3 <= 8)%nat ->
  stands (buf_bytes s) idx (bytes_of (p :: xs)) idx' ->
  exists st', bitmap_stage E s idx sp st
    = (Ok (idx', filter (announced bm1 bm2 bm3) data_fields, last (map sg_key (p :: xs)) []), st')
    /\ trace (buf_bytes s) st' idx' (segs ++ p :: xs).
Proof.
  intros Ht Hkeys (fsp & Hsp & Hpk & Hpl & Hw1) Hx L1 L2 L3 Hst.
  assert (Hp : ~ In (u "p") (map sg_key segs)) by (intro Hi; destruct (Hkeys _ Hi); discriminate).
  assert (H1k : ~ In (u "1") (map sg_key segs)) by (intro Hi; destruct (Hkeys _ Hi); discriminate).
  change (bytes_of (p :: xs)) with (sg_bytes p ++ bytes_of xs) in Hst.
  unfold sg_bytes in Hst. rewrite Hpl in Hst. cbn [app] in Hst.
  destruct (stands_app_inv _ _ _ _ _ Hst) as [Hs1 Hs2].
  assert (Hb0 : bitmap_start false (u "p") st (mkEntry [] []) []) by (split; reflexivity).
  pose proof (decode_bitmap_complete E s idx (u "p") fsp 0 false [] st _ _ _ _ _ _ Hb0 Hw1 Hs1) as Hd1.
  cbn [e_len e_data app] in Hd1.
  pose proof (trace_put _ _ _ _ (u "p") [] (sg_data p) (sg_text p) _ Ht Hp Hs1) as Ht1.
  rewrite <- Hpl in Ht1 at 2. rewrite <- Hpk in Ht1 at 2. rewrite seg_eta in Ht1.
  set (F1 := zupdate [] (bitmap_fields 0 bm1)) in *.
  assert (HF1 : forall f, In f F1 <-> bit bm1 (f - 0) = true).
  { intro f. unfold F1. rewrite zupdate_in, bitmap_fields_in. simpl. tauto. }
  assert (HS1 : zsorted F1) by (apply zupdate_sorted; constructor).
  unfold bitmap_stage. unfold bind at 1. unfold spec_get at 1. rewrite Hsp. unfold ret at 1.
  unfold bind at 1. rewrite Hd1. cbn [fst snd].
  destruct Hx as [Hb1|fs1 sg bm2 Hb1 Hsp1 Hsk Hsl Hw2 Hb2|fs1 sg d2 t2 bm2 d3 t3 bm3 Hb1 Hsp1 Hsk Hsl Hsd Hst' Hw2 Hw3 Hb2].
  - assert (Hm1 : zmem 1 F1 = false) by (apply zmem_not_in; rewrite HF1; change (1 - 0)%Z with 1%Z; congruence).
    assert (Hm2 : zmem 65 F1 = false).
    { apply zmem_not_in. rewrite HF1. intro Hb. apply bit_range in Hb. lia. }
    rewrite Hm1. unfold bind, ret. cbn [fst snd]. rewrite Hm2. cbn [fst snd].
    assert (idx' = idx + zlen (sg_data p))%Z as ->.
    { destruct Hs2 as (? & ? & _ & _ & ->). change (zlen (bytes_of [])) with 0%Z. lia. }
    eexists. split; [|exact Ht1]. cbn [map last]. rewrite Hpk.
    rewrite (announced_filter_ext bm1 [] [] F1 HS1); [reflexivity|].
    intro f. rewrite <- announced_cases by (simpl; lia). rewrite !bit_nil, HF1. split; [|intuition congruence].
    intro Hb. split; [tauto|]. split; intros ->; [change (1 - 0)%Z with 1%Z in Hb; congruence|]. apply bit_range in Hb. lia.
  - assert (Hm1 : zmem 1 F1 = true) by (apply zmem_in; rewrite HF1; assumption).
    rewrite Hm1. unfold bytes_of in Hs2. cbn [flat_map] in Hs2. unfold sg_bytes in Hs2. rewrite Hsl, app_nil_r in Hs2.
    cbn [app] in Hs2.
    assert (H1k' : ~ In (u "1") (map sg_key (segs ++ [p]))).
    { rewrite map_app, in_app_iff. simpl. rewrite Hpk. intros [?|[?|[]]]; [tauto|discriminate]. }
    match type of Ht1 with trace _ ?st1 _ _ => set (st1' := st1) in * end.
    assert (Hb0' : bitmap_start false (u "1") st1' (mkEntry [] []) []) by (split; reflexivity).
    pose proof (decode_bitmap_complete E s _ (u "1") fs1 64 false F1 st1' _ _ _ _ _ _ Hb0' Hw2 Hs2) as Hd2.
    cbn [e_len e_data app] in Hd2.
    pose proof (trace_put _ _ _ _ (u "1") [] (sg_data sg) (sg_text sg) _ Ht1 H1k' Hs2) as Ht2.
    rewrite <- Hsl in Ht2 at 2. rewrite <- Hsk in Ht2 at 2. rewrite seg_eta in Ht2.
    set (F2 := zremove 1 (zupdate F1 (bitmap_fields 64 bm2))) in *.
    assert (HF2 : forall f, In f F2 <-> (bit bm1 (f - 0) = true \/ bit bm2 (f - 64) = true) /\ f <> 1%Z).
    { intro f. unfold F2. rewrite zremove_in, zupdate_in, bitmap_fields_in, HF1. tauto. }
    assert (HS2 : zsorted F2) by (apply filter_sorted, zupdate_sorted, HS1).
    assert (Hm2 : zmem 65 F2 = false).
    { apply zmem_not_in. rewrite HF2. intros [[Hb|Hb] _].
      - apply bit_range in Hb. lia. - change (65 - 64)%Z with 1%Z in Hb. congruence. }
    unfold bind. unfold spec_get at 1. rewrite Hsp1. unfold ret at 1. rewrite Hd2. unfold ret. cbn [fst snd].
    fold F2. rewrite Hm2. cbn [fst snd].
    eexists. split; [|rewrite <- app_assoc in Ht2; exact Ht2]. cbn [map last]. rewrite Hsk.
    rewrite (announced_filter_ext bm1 bm2 [] F2 HS2); [reflexivity|].
    intro f. rewrite <- announced_cases by (simpl; lia). rewrite bit_nil, HF2. split; [|intuition congruence].
    intros [Hb Hn]. split; [tauto|]. split; [assumption|]. intros ->.
    apply zmem_not_in in Hm2. apply Hm2, HF2. split; [assumption|lia].
  - assert (Hm1 : zmem 1 F1 = true) by (apply zmem_in; rewrite HF1; assumption).
    rewrite Hm1. unfold bytes_of in Hs2. cbn [flat_map] in Hs2. unfold sg_bytes in Hs2. rewrite Hsl, app_nil_r in Hs2.
    cbn [app] in Hs2. rewrite Hsd in Hs2. destruct (stands_app_inv _ _ _ _ _ Hs2) as [Hs3 Hs4].
    assert (H1k' : ~ In (u "1") (map sg_key (segs ++ [p]))).
    { rewrite map_app, in_app_iff. simpl. rewrite Hpk. intros [?|[?|[]]]; [tauto|discriminate]. }
    match type of Ht1 with trace _ ?st1 _ _ => set (st1' := st1) in * end.
    assert (Hb0' : bitmap_start false (u "1") st1' (mkEntry [] []) []) by (split; reflexivity).
    pose proof (decode_bitmap_complete E s _ (u "1") fs1 64 false F1 st1' _ _ _ _ _ _ Hb0' Hw2 Hs3) as Hd2.
    cbn [e_len e_data app] in Hd2.
    pose proof (trace_put _ _ _ _ (u "1") [] d2 t2 _ Ht1 H1k' Hs3) as Ht2.
    set (sg1 := mkSeg (u "1") [] d2 t2) in *.
    match type of Ht2 with trace _ ?st1 _ _ => set (st2' := st1) in * end.
    set (F2 := zremove 1 (zupdate F1 (bitmap_fields 64 bm2))) in *.
    assert (HF2 : forall f, In f F2 <-> (bit bm1 (f - 0) = true \/ bit bm2 (f - 64) = true) /\ f <> 1%Z).
    { intro f. unfold F2. rewrite zremove_in, zupdate_in, bitmap_fields_in, HF1. tauto. }
    assert (HS2 : zsorted F2) by (apply filter_sorted, zupdate_sorted, HS1).
    assert (Hm2 : zmem 65 F2 = true).
    { apply zmem_in. rewrite HF2. split; [now right|lia]. }
    assert (Hb3 : bitmap_start true (u "1") st2' (mkEntry [] d2) t2).
    { subst st2'. unfold put. split; cbn [d_dec d_enc]; apply sget_sset. }
    pose proof (decode_bitmap_complete E s _ (u "1") fs1 128 true F2 st2' _ _ _ _ _ _ Hb3 Hw3 Hs4) as Hd3.
    cbn [e_len e_data app] in Hd3.
    pose proof (trace_extend _ _ _ _ sg1 d3 (t2 ++ t3) _ Ht2 Hs4) as Ht3.
    cbn [sg_key sg_len sg_data sg1] in Ht3.
    assert (mkSeg (u "1") [] (d2 ++ d3) (t2 ++ t3) = sg) as Hsg.
    { rewrite <- Hsk, <- Hsl, <- Hsd, <- Hst'. apply seg_eta. }
    rewrite Hsg in Ht3.
    unfold bind. unfold spec_get at 1. rewrite Hsp1. unfold ret at 1. rewrite Hd2. unfold ret. cbn [fst snd].
    fold F2. rewrite Hm2. unfold spec_get. rewrite Hsp1. unfold ret at 1. rewrite Hd3. cbn [fst snd].
    eexists. split; [|rewrite <- app_assoc in Ht3; exact Ht3]. cbn [map last]. rewrite Hsk.
    rewrite (announced_filter_ext bm1 bm2 bm3 (zremove 65 (zupdate F2 (bitmap_fields 128 bm3)))); [reflexivity| |].
    + apply filter_sorted, zupdate_sorted, HS2.
    + intro f. rewrite <- announced_cases by assumption. rewrite zremove_in, zupdate_in, bitmap_fields_in, HF2.
      split; intros [Ha Hb]; repeat split; try tauto.
      destruct Ha as [?|Ha]; [tauto|]. apply bit_range in Ha. lia.
Qed.

Lemma last_not_nil_default {A} (l : list A) d d' : l <> [] -> last l d = last l d'.
Proof. induction l as [|a [|b l] IH]; intro H; [congruence|reflexivity|]. apply IH. discriminate. Qed.
Lemma last_snoc_app {A} (a b : list A) d : last (a ++ b) d = last b (last a d).
Proof. induction a as [|x a IH]; [reflexivity|]. destruct a as [|y a].
  - cbn [app last]. destruct b; [reflexivity|]. change (last (x :: a :: b) d) with (last (a :: b) d).
    apply last_not_nil_default. discriminate.
  - change (last ((x :: y :: a) ++ b) d) with (last ((y :: a) ++ b) d). exact IH. Qed.

Theorem decode_body_complete E s sp hs t p xs fields bm1 bm2 bm3 rest :
  message_parts E sp hs t p xs fields bm1 bm2 bm3 ->
  (length bm1 <= 8)%nat -> (length bm2 <= 8)%nat -> (length bm3 <= 8)%nat ->
  let segs := hs ++ t :: p :: xs ++ fields in
  buf_bytes s = bytes_of segs ++ rest ->
  decode_body E s sp (mkD [] []) =
    (match rest with
     | [] => Ok tt
     | _ => Raise (XDecodeError (DecodeError (u "Extra data after last field") s (dec_of segs) (enc_of segs)
                     (zlen (bytes_of segs)) (last (map sg_key segs) [])))
     end, mkD (dec_of segs) (enc_of segs)).
Proof.
  intros (Hh & Htp & Hp & Hx & Hfk & Hff) L1 L2 L3 segs Hbuf.
  assert (Hst : stands (buf_bytes s) 0 (bytes_of segs) (zlen (bytes_of segs))).
  { exists [], rest. split; [exact Hbuf|]. split; [reflexivity|lia]. }
  unfold segs in Hst at 1. rewrite bytes_of_app in Hst.
  destruct (stands_app_inv _ _ _ _ _ Hst) as [Hs1 Hs2].
  change (bytes_of (t :: p :: xs ++ fields)) with (sg_bytes t ++ bytes_of ((p :: xs) ++ fields)) in Hs2.
  destruct (stands_app_inv _ _ _ _ _ Hs2) as [Hs3 Hs4]. rewrite bytes_of_app in Hs4.
  destruct (stands_app_inv _ _ _ _ _ Hs4) as [Hs5 Hs6].
  rewrite decode_body_eq.
  (* header *)
  assert (Hhd : exists st0, decode_header E s 0 sp (mkD [] []) = (Ok (0 + zlen (bytes_of hs))%Z, st0)
                  /\ trace (buf_bytes s) st0 (0 + zlen (bytes_of hs)) hs
                  /\ (forall k, In k (map sg_key hs) -> k = u "h")).
  { unfold decode_header, spec_get. destruct Hh as [fs ml Hsp Hml Hle|fs ml sg Hsp Hml Hle Hk Hseg].
    - rewrite Hsp. rewrite bind_ret_l. unfold prop. rewrite Hml, bind_ret_l.
      replace (ml <=? 0)%Z with true by lia. eexists. split; [reflexivity|]. split; [apply trace_start|]. intros k [].
    - rewrite Hsp. rewrite bind_ret_l. unfold prop. rewrite Hml, bind_ret_l.
      replace (ml <=? 0)%Z with false by lia.
      rewrite bytes_of_one in *. destruct Hseg as (fs' & Hsp' & Hw). rewrite Hk in Hsp'.
      assert (fs' = fs) by congruence. subst fs'.
      pose proof (decode_field_complete E s 0 (u "h") fs (mkD [] []) _ _ _ _ Hw Hs1) as Hd.
      eexists. split; [exact Hd|]. split.
      + pose proof (trace_put (buf_bytes s) (mkD [] []) 0 [] (u "h") (sg_len sg) (sg_data sg) (sg_text sg) _
                      (trace_start _) (fun x => x) Hs1) as Ht.
        rewrite <- Hk in Ht at 2. rewrite seg_eta in Ht. exact Ht.
      + intros k [<-|[]]. assumption. }
  destruct Hhd as (st0 & Hd0 & Ht0 & Hk0).
  unfold bind at 1. rewrite Hd0.
  (* type *)
  destruct Htp as (fst' & Hspt & Hkt & Hlt & Hwt).
  unfold sg_bytes in Hs3. rewrite Hlt in Hs3. cbn [app] in Hs3.
  pose proof (decode_type_complete E s _ sp st0 _ _ _ _ Hspt Hwt Hs3) as Hd1.
  unfold bind at 1. rewrite Hd1.
  assert (Hnt : ~ In (u "t") (map sg_key hs)) by (intro Hi; apply Hk0 in Hi; discriminate).
  pose proof (trace_put _ _ _ _ (u "t") [] (sg_data t) (sg_text t) _ Ht0 Hnt Hs3) as Ht1.
  rewrite <- Hlt in Ht1 at 2. rewrite <- Hkt in Ht1 at 2. rewrite seg_eta in Ht1.
  assert (Hk1 : forall k, In k (map sg_key (hs ++ [t])) -> k = u "h" \/ k = u "t").
  { intros k Hk. rewrite map_app, in_app_iff in Hk. simpl in Hk.
    destruct Hk as [Hk|[<-|[]]]; [apply Hk0 in Hk|]; auto. }
  unfold sg_bytes in Hs5, Hs6. rewrite Hlt in Hs5, Hs6. cbn [app] in Hs5, Hs6.
  (* bitmaps *)
  destruct (bitmap_stage_complete E s sp _ _ (hs ++ [t]) p xs bm1 bm2 bm3 _ Ht1 Hk1 Hp Hx L1 L2 L3 Hs5) as (st2 & Hd2 & Ht2).
  unfold bind at 1. rewrite Hd2.
  assert (Hk2 : forall k, In k (map sg_key (p :: xs)) -> k = u "p" \/ k = u "1").
  { destruct Hp as (_ & _ & Hpk & _). destruct Hx; simpl; intros k Hk; intuition congruence. }
  assert (Hfl : forall f, In f (filter (announced bm1 bm2 bm3) data_fields) ->
    (2 <= f)%Z /\ ~ In (zstr f) (map sg_key ((hs ++ [t]) ++ p :: xs))).
  { intros f Hf. apply filter_In in Hf as [Hf _]. apply data_fields_in in Hf. split; [lia|].
    rewrite map_app, in_app_iff. intros [Hi|Hi].
    - apply Hk1 in Hi as [Hi|Hi]; [eapply zstr_neq_h|eapply zstr_neq_t]; try exact Hi; lia.
    - apply Hk2 in Hi as [Hi|Hi]; [eapply zstr_neq_p|eapply zstr_neq_1]; try exact Hi; lia. }
  destruct (decode_fields_complete E s sp (filter (announced bm1 bm2 bm3) data_fields) fields _ st2 _
              (last (map sg_key (p :: xs)) []) _ Ht2 Hfk Hff
              (filter_sorted _ _ data_fields_sorted) Hfl Hs6) as (st3 & Hd3 & Ht3).
  unfold bind at 1. rewrite Hd3.
  assert (Hsegs : ((hs ++ [t]) ++ p :: xs) ++ fields = segs) by (unfold segs; rewrite <- !app_assoc; reflexivity).
  rewrite Hsegs in Ht3. pose proof (trace_state _ _ _ _ Ht3) as Hst3. subst st3.
  assert (Hlast : last (map zstr (filter (announced bm1 bm2 bm3) data_fields)) (last (map sg_key (p :: xs)) [])
                  = last (map sg_key segs) []).
  { rewrite <- Hfk, <- Hsegs. rewrite (map_app _ _ fields), last_snoc_app, (map_app _ _ (p :: xs)), last_snoc_app.
    f_equal. apply last_not_nil_default. discriminate. }
  rewrite Hlast, Hbuf, zlen_app. destruct rest as [|b rest].
  - rewrite zlen_nil, Z.add_0_r, Z.eqb_refl. reflexivity.
  - replace (_ =? _)%Z with false by (unfold zlen; simpl; lia). cbn [negb]. unfold draise. cbn [d_dec d_enc]. reflexivity.
Qed.
