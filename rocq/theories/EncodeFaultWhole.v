(** * EncodeFaultWhole: the whole run of encode, for EncodeFault. *)
From Coq Require Import ZifyBool ZifyNat ZifyN Sorted Permutation.
From Verif Require Import PyBase BaseFacts Types Numerals NumeralFacts Decoder Encoder Wire WireEncode DecodeFault EncodeFault DecoderFacts DecodeRun
  EncoderFacts EncodeRun EncodeWhole Claims EncodeTheorems EncodeTheorems2 DecodeFaultFacts EncodeFaultFacts.
Ltac Zify.zify_post_hook ::= Z.div_mod_to_equations.
Local Opaque data_fields.

Lemma nodup_split {A} (x : A) a b a' b' : NoDup (a ++ x :: b) -> a ++ x :: b = a' ++ x :: b' -> a = a' /\ b = b'.
Proof.
  revert a'. induction a as [|y a IH]; intros [|z a'] Hn He; cbn in *.
  - injection He as ->. auto.
  - injection He as -> ->. exfalso. inversion Hn as [|? ? H _]. apply H, in_or_app. right. now left.
  - injection He as -> He. exfalso. inversion Hn as [|? ? H _]. apply H, in_or_app. right. now left.
  - injection He as -> He. inversion Hn as [|? ? _ H]; subst. destruct (IH a' H He) as [-> ->]. auto.
Qed.

Section Msg.
  Variables (E : pyenv) (sp : spec) (d : pdoc) (bm1 bm2 bm3 : bytes) (F : zset) (done : edoc) (h t : bytes).
  Hypothesis Hdict : is_dict d.
  Hypothesis Hsort : zsorted F.
  Hypothesis HF : forall f, In f F <-> has_field E d f.
  Hypothesis Hrange : forall f, In f F -> (1 <= f <= 192)%Z.
  Hypothesis Hbm : bitmaps_for E d bm1 bm2 bm3.
  Hypothesis Hdone : forall k, In k (map fst done) -> k = u "h" \/ k = u "t".
  Hypothesis Hkeys : keys_ok E d.
  Notation fl := (filter (announced bm1 bm2 bm3) data_fields).
  Notation sent := (entry_sent E sp d bm1 bm2 bm3).

  (** A failure after the message type. *)
  Definition msg_fault (e : encode_error) (st' : estate) : Prop :=
    exists ents k rest msg d' tail, rest_keys bm1 bm2 bm3 = map fst ents ++ k :: rest
      /\ Forall sent ents /\ key_refused E sp d bm1 bm2 bm3 k msg d' tail
      /\ (Raise (XEncodeError e), st') = @refuses bytes k msg (mkE d' (done ++ ents ++ tail)).

  Lemma fields_fault bents d' e st' s : bitmap_entries E sp d bm1 bm2 bm3 bents d' ->
    (encode_fields E sp fl s (mkE d' (done ++ bents)) = (Raise (XEncodeError e), st') <->
     exists pre f post ents fs v msg lenb data, fl = pre ++ f :: post /\ map fst ents = map zstr pre
       /\ Forall sent ents /\ sget (zstr f) sp = Some fs /\ value d (zstr f) = Some v /\ field_refused E fs v msg lenb data
       /\ (Raise (XEncodeError e), st') = @refuses bytes (zstr f) msg
            (mkE (with_bitmaps d bm1 bm2 bm3) (done ++ (bents ++ ents) ++ [(zstr f, mkEntry lenb data)]))).
  Proof.
    intro Hb. apply bitmap_entries_keys in Hb as (K & A & -> & G).
    assert (Hin : forall pre f post, fl = pre ++ f :: post -> In f data_fields /\ forall g, In g pre -> In g data_fields).
    { intros pre f post H. split; [|intros g Hg]; apply (fl_in bm1 bm2 bm3); rewrite H; apply in_or_app; [right; now left|now left]. }
    assert (Hsent : forall pre ents, (forall g, In g pre -> In g data_fields) -> map fst ents = map zstr pre ->
      (Forall (sent_field E sp (with_bitmaps d bm1 bm2 bm3)) ents <-> Forall sent ents)).
    { intros pre ents Hg Hk. rewrite !Forall_forall. split; intros H [k [l b]] Hke.
      - destruct (H _ Hke) as (fs & v & B1 & B2 & B3). cbn [fst snd e_len e_data] in *.
        assert (Hk' : In k (map zstr pre)) by (rewrite <- Hk; now apply (in_map fst) in Hke).
        apply in_map_iff in Hk' as (g & <- & Hg'). rewrite G in B2 by auto. eapply SentField; eauto.
      - assert (Hk' : In k (map zstr pre)) by (rewrite <- Hk; now apply (in_map fst) in Hke).
        apply in_map_iff in Hk' as (g & <- & Hg'). pose proof (Hg _ Hg') as Hgd. destruct (zstr_name g Hgd) as (N1 & N2 & N3 & N4 & N5).
        specialize (H _ Hke). inversion H; subst; try congruence. exists fs, v. cbn [fst snd e_len e_data]. rewrite G by assumption. auto. }
    rewrite encode_fields_refuses.
    - cbn [s_dec s_enc]. split.
      + intros (pre & f & post & ents & fs & v & msg & lenb & data & H1 & H2 & H3 & H4 & H5 & H6 & H7).
        destruct (Hin _ _ _ H1) as [Hf Hp]. rewrite G in H5 by assumption. rewrite (Hsent pre) in H3 by assumption.
        exists pre, f, post, ents, fs, v, msg, lenb, data. rewrite <- !app_assoc in *. auto 10.
      + intros (pre & f & post & ents & fs & v & msg & lenb & data & H1 & H2 & H3 & H4 & H5 & H6 & H7).
        destruct (Hin _ _ _ H1) as [Hf Hp]. rewrite <- (Hsent pre) in H3 by assumption.
        exists pre, f, post, ents, fs, v, msg, lenb, data. rewrite G by assumption. rewrite <- !app_assoc in *. auto 10.
    - apply (fl_nodup E d bm1 bm2 bm3 F); assumption.
    - intros f Hf. cbn [s_enc]. apply (fresh_f bm1 bm2 bm3); [assumption|assumption|]. intros k Hk. rewrite K in Hk.
      destruct (bit bm1 1); simpl in Hk; intuition.
  Qed.

  Lemma fields_fault_1 bents d' e st' s : bitmap_entries E sp d bm1 bm2 bm3 bents d' ->
    encode_fields E sp fl s (mkE d' (done ++ bents)) = (Raise (XEncodeError e), st') -> msg_fault e st'.
  Proof.
    intros Hb H. apply (fields_fault _ _ _ _ _ Hb) in H as (pre & f & post & ents & fs & v & msg & lenb & data & H1 & H2 & H3 & H4 & H5 & H6 & H7).
    apply bitmap_entries_keys in Hb as (K & A & _ & G).
    assert (Hf : In f data_fields) by (apply (fl_in bm1 bm2 bm3); rewrite H1; apply in_or_app; right; now left).
    exists (bents ++ ents), (zstr f), (map zstr post), msg, (with_bitmaps d bm1 bm2 bm3), [(zstr f, mkEntry lenb data)].
    split; [unfold rest_keys; rewrite H1, !map_app, K, H2; cbn [map]; rewrite <- !app_assoc; reflexivity|].
    split; [apply Forall_app; auto|]. split; [eapply FieldRefused; eauto|assumption].
  Qed.

  Lemma msg_refuses_1 e st' : encode_msg E sp h t F (mkE (pops d) done) = (Raise (XEncodeError e), st') -> msg_fault e st'.
  Proof.
    rewrite (encode_msg_eq E sp d bm1 bm2 bm3 F done h t Hsort HF Hrange Hbm). destruct (sget (u "p") sp) as [fp|] eqn:Hp; [|discriminate].
    pose proof (fresh_p done Hdone) as Hfp.
    destruct (encode_bitmap E (u "p") fp 0 false _ _) as [[p|y] st1] eqn:H1.
    2:{ intros [= -> ->]. apply bitmap_fresh_refuses in H1 as (msg & H1 & H2). rewrite (primary_bitmap E d F bm1 bm2 bm3 HF Hbm) in *.
        rewrite st_p in H2 by assumption.
        exists [], (u "p"), ((if bit bm1 1 then [u "1"] else []) ++ map zstr fl), msg, (with_primary d bm1), [(u "p", mkEntry [] [])].
        split; [reflexivity|]. split; [constructor|]. split; [eapply PrimaryRefused; eauto|exact H2]. }
    apply bitmap_fresh_ok in H1 as [H1 ->]. rewrite (primary_bitmap E d F bm1 bm2 bm3 HF Hbm) in *.
    rewrite st_p by assumption.
    assert (Hsp : Forall sent [(u "p", mkEntry [] p)]).
    { repeat constructor. eapply SentPrimary; eauto. }
    destruct (bit bm1 1) eqn:B1.
    2:{ intro H. eapply fields_fault_1; [|exact H]. eapply BE1; eauto. }
    assert (Hk1 : rest_keys bm1 bm2 bm3 = map fst [(u "p", mkEntry [] p)] ++ u "1" :: map zstr fl).
    { unfold rest_keys. rewrite B1. reflexivity. }
    destruct (sget (u "1") sp) as [fs|] eqn:Hs; [|discriminate].
    destruct (encode_bitmap E (u "1") fs 64 false _ _) as [[s|y] st2] eqn:H2.
    2:{ intros [= -> ->]. apply bitmap_fresh_refuses in H2 as (msg & H2 & H3). rewrite (secondary_bitmap E d F bm1 bm2 bm3 HF Hbm) in *.
        rewrite (st_1 d bm1 bm2 done Hdone) in H3. rewrite <- app_assoc in H3.
        exists [(u "p", mkEntry [] p)], (u "1"), (map zstr fl), msg, (with_extra d bm1 (HEX bm2)), [(u "1", mkEntry [] [])].
        split; [assumption|]. split; [assumption|]. split; [eapply SecondaryRefused; eauto|exact H3]. }
    apply bitmap_fresh_ok in H2 as [H2 ->]. rewrite (secondary_bitmap E d F bm1 bm2 bm3 HF Hbm) in *. rewrite (st_1 d bm1 bm2 done Hdone).
    destruct (bit bm2 1) eqn:B2.
    2:{ intro H. eapply fields_fault_1; [eapply BE2; eauto|]. rewrite <- app_assoc in H. exact H. }
    destruct (encode_bitmap E (u "1") fs 128 true _ _) as [[s'|y] st3] eqn:H3.
    - eapply bitmap_ext_ok in H3; [|apply pget_pset|apply (get_1 done Hdone)]. destruct H3 as [H3 ->].
      rewrite (tertiary_bitmap E d F bm1 bm2 bm3 HF Hbm) in *. rewrite (st_1' d bm1 bm2 done Hdone). fold (d3 d bm1 bm2 bm3). intro H.
      eapply fields_fault_1; [eapply BE3; eauto|]. rewrite <- app_assoc in H. exact H.
    - intros [= -> ->]. eapply bitmap_ext_refuses in H3; [|apply pget_pset|apply (get_1 done Hdone)]. destruct H3 as (msg & H3 & H4).
      rewrite (tertiary_bitmap E d F bm1 bm2 bm3 HF Hbm) in *. cbn [s_dec s_enc] in H4. rewrite <- app_assoc in H4.
      unfold d2, pset in H4. rewrite dset_dset in H4 by apply key_eqb_spec.
      exists [(u "p", mkEntry [] p)], (u "1"), (map zstr fl), msg, (with_extra d bm1 (HEX bm2 ++ HEX bm3)), [(u "1", mkEntry [] s)].
      split; [assumption|]. split; [assumption|]. split; [eapply TertiaryRefused; eauto|exact H4].
  Qed.

  Lemma zstr_not_p f : In f data_fields -> zstr f <> u "p" /\ zstr f <> u "1".
  Proof. intro H. destruct (zstr_name f H) as (_ & _ & A & B & _). auto. Qed.
  Lemma rest_ht k : k = u "h" \/ k = u "t" -> ~ In k (rest_keys bm1 bm2 bm3).
  Proof.
    intros Hk [Hi|Hi]; [destruct Hk; subst; discriminate|]. apply in_app_iff in Hi as [Hi|Hi].
    - destruct (bit bm1 1); [|contradiction]. destruct Hi as [Hi|[]]. destruct Hk; subst; discriminate.
    - apply in_map_iff in Hi as (f & Hf & Hi). apply filter_In in Hi as [Hi _]. apply zstr_name in Hi. destruct Hk; subst; tauto.
  Qed.
  Lemma rest_p ents rest : rest_keys bm1 bm2 bm3 = map fst (ents : edoc) ++ u "p" :: rest -> ents = [].
  Proof.
    unfold rest_keys. destruct ents as [|[k e] ents]; [reflexivity|]. intro H. exfalso. injection H as _ H.
    assert (Hi : In (u "p") ((if bit bm1 1 then [u "1"] else []) ++ map zstr fl)) by (rewrite H; apply in_or_app; right; now left).
    apply in_app_iff in Hi as [Hi|Hi].
    - destruct (bit bm1 1); [|contradiction]. destruct Hi as [Hi|[]]. discriminate.
    - apply in_map_iff in Hi as (f & Hf & Hi). apply filter_In in Hi as [Hi _]. apply zstr_not_p in Hi. tauto.
  Qed.
  Lemma rest_1 ents rest : rest_keys bm1 bm2 bm3 = map fst (ents : edoc) ++ u "1" :: rest -> bit bm1 1 = true /\ exists e, ents = [(u "p", e)].
  Proof.
    unfold rest_keys. intro H.
    assert (Hz : ~ In (u "1") (map zstr fl)).
    { intro Hi. apply in_map_iff in Hi as (f & Hf & Hi). apply filter_In in Hi as [Hi _]. apply zstr_not_p in Hi. tauto. }
    destruct ents as [|[k e] ents]; [discriminate|]. cbn [map fst app] in H. injection H as <- H.
    destruct (bit bm1 1).
    - split; [reflexivity|]. exists e. destruct ents as [|[k2 e2] ents]; [reflexivity|]. exfalso. injection H as _ H. apply Hz. rewrite H.
      apply in_or_app. right. now left.
    - exfalso. apply Hz. cbn [app] in H. rewrite H. apply in_or_app. right. now left.
  Qed.
  Lemma rest_f ents f rest : In f data_fields -> rest_keys bm1 bm2 bm3 = map fst (ents : edoc) ++ zstr f :: rest -> Forall sent ents ->
    exists bents d' fents pre post, ents = bents ++ fents /\ bitmap_entries E sp d bm1 bm2 bm3 bents d'
      /\ fl = pre ++ f :: post /\ map fst fents = map zstr pre.
  Proof.
    intros Hf Hk Ha. destruct (zstr_not_p f Hf) as [N1 N2]. unfold rest_keys in Hk.
    assert (Hfl : forall fents : edoc, map zstr fl = map fst fents ++ zstr f :: rest -> exists pre post, fl = pre ++ f :: post /\ map fst fents = map zstr pre).
    { intros fents H. apply map_eq_app in H as (pre & post & Hfl & H1 & H2). destruct post as [|g post]; [discriminate|]. injection H2 as H2 _.
      assert (Hg : In g data_fields) by (apply (fl_in bm1 bm2 bm3); rewrite Hfl; apply in_or_app; right; now left).
      apply data_fields_in in Hg, Hf. apply zstr_inj in H2; [|lia|lia]. subst g. eauto. }
    destruct ents as [|[k e1] ents]; [injection Hk; congruence|]. cbn [map fst app] in Hk. injection Hk as <- Hk.
    pose proof (Forall_inv Ha) as Hp. apply Forall_inv_tail in Ha.
    destruct (bit bm1 1) eqn:B1.
    - destruct ents as [|[k2 e2] ents]; [injection Hk; congruence|]. cbn [map fst app] in Hk. injection Hk as <- Hk.
      pose proof (Forall_inv Ha) as Hs. destruct (two_bitmaps E sp d bm1 bm2 bm3 e1 e2 B1 Hp Hs) as [d' Hb].
      destruct (Hfl _ Hk) as (pre & post & H1 & H2). exists [(u "p", e1); (u "1", e2)], d', ents, pre, post. auto.
    - cbn [app] in Hk. destruct (Hfl _ Hk) as (pre & post & H1 & H2).
      exists [(u "p", e1)], (d1 d bm1), ents, pre, post. split; [reflexivity|]. split; [now apply one_bitmap|]. auto.
  Qed.

  Lemma not_foreign pre i r post : map fst (cleared d) = pre ++ KOther i r :: post -> False.
  Proof.
    intro H. assert (Hi : In (KOther i r) (map fst (pops d))) by (change (pops d) with (cleared d); rewrite H; apply in_or_app; right; now left).
    apply pops_keys in Hi as [Hi _]; [|assumption]. destruct (Hkeys _ Hi) as (s & ? & _). discriminate.
  Qed.

  Lemma primary_ok p fp : sget (u "p") sp = Some fp -> bitmap_encodes E fp bm1 p ->
    encode_bitmap E (u "p") fp 0 false (zinter_range 1 65 (with1 F)) (mkE (pops d) done)
    = (Ok p, mkE (d1 d bm1) (done ++ [(u "p", mkEntry [] p)])).
  Proof.
    intros Hp H1. rewrite <- (st_p d bm1 done p (fresh_p done Hdone)). apply bitmap_fresh_ok.
    now rewrite (primary_bitmap E d F bm1 bm2 bm3 HF Hbm).
  Qed.
  Lemma secondary_ok e s fs : bitmap_encodes E fs bm2 s ->
    encode_bitmap E (u "1") fs 64 false (secondary_of F) (mkE (d1 d bm1) (done ++ [(u "p", e)]))
    = (Ok s, mkE (d2 d bm1 bm2) ((done ++ [(u "p", e)]) ++ [(u "1", mkEntry [] s)])).
  Proof.
    intros H1. rewrite <- (st_1 d bm1 bm2 done Hdone). apply bitmap_fresh_ok.
    now rewrite (secondary_bitmap E d F bm1 bm2 bm3 HF Hbm).
  Qed.
  Lemma tertiary_ok e s s' fs : bitmap_encodes E fs bm3 s' ->
    encode_bitmap E (u "1") fs 128 true (tertiary_of F) (mkE (d2 d bm1 bm2) ((done ++ [(u "p", e)]) ++ [(u "1", mkEntry [] s)]))
    = (Ok s', mkE (d3 d bm1 bm2 bm3) ((done ++ [(u "p", e)]) ++ [(u "1", mkEntry [] (s ++ s'))])).
  Proof.
    intros H1. unfold d3. rewrite <- (st_1' d bm1 bm2 done Hdone e (mkEntry [] s)).
    eapply bitmap_ext_ok; [apply pget_pset|apply (get_1 done Hdone)|].
    now rewrite (tertiary_bitmap E d F bm1 bm2 bm3 HF Hbm).
  Qed.
  Lemma sent_p e : sent (u "p", e) -> exists fp p, sget (u "p") sp = Some fp /\ bitmap_encodes E fp bm1 p /\ e = mkEntry [] p.
  Proof.
    intro H. inversion H as [k fs v l b Hk| | | |]; subst; [exfalso; revert Hk; apply not_field; auto|eauto].
  Qed.

  Lemma msg_refuses_2 e st' : msg_fault e st' -> encode_msg E sp h t F (mkE (pops d) done) = (Raise (XEncodeError e), st').
  Proof.
    intros (ents & k & rest & msg & d' & tail & Hk & Ha & Hr & Heq).
    rewrite (encode_msg_eq E sp d bm1 bm2 bm3 F done h t Hsort HF Hrange Hbm).
    destruct Hr as [fs ml|fs ml v msg lenb data| |fs v msg data|pre i r post Hm _|l Hread Hl1 Hl2 Hl3|fs msg _ Hp Hr|fs msg _ Hs Hr|fs s msg _ Hs B2 H2 Hr|f fs v msg lenb data _ Hf Hs Hv Hr].
    - exfalso. apply (rest_ht (u "h")); [auto|]. rewrite Hk. apply in_or_app. right. now left.
    - exfalso. apply (rest_ht (u "h")); [auto|]. rewrite Hk. apply in_or_app. right. now left.
    - exfalso. apply (rest_ht (u "t")); [auto|]. rewrite Hk. apply in_or_app. right. now left.
    - exfalso. apply (rest_ht (u "t")); [auto|]. rewrite Hk. apply in_or_app. right. now left.
    - exfalso. eapply not_foreign; eauto.
    - exfalso. destruct l as [|f l]; [now apply Hl3|]. destruct (proj1 (Hl2 f)) as [Hh Hr]; [now left|].
      apply HF, Hrange in Hh. contradiction.
    - pose proof (rest_p _ _ Hk) as ->. cbn [app] in Heq. rewrite Hp.
      rewrite (proj2 (bitmap_fresh_refuses E (u "p") fs 0 _ (mkE (pops d) done) e st')); [reflexivity|].
      exists msg. rewrite (primary_bitmap E d F bm1 bm2 bm3 HF Hbm). split; [assumption|].
      rewrite st_p by apply (fresh_p done Hdone). exact Heq.
    - destruct (rest_1 _ _ Hk) as [B1 [e1 ->]]. apply Forall_inv, sent_p in Ha as (fp & p & Hp & H1 & ->).
      rewrite Hp, (primary_ok p fp Hp H1), B1, Hs.
      rewrite (proj2 (bitmap_fresh_refuses E (u "1") fs 64 _ _ e st')); [reflexivity|].
      exists msg. rewrite (secondary_bitmap E d F bm1 bm2 bm3 HF Hbm). split; [assumption|].
      rewrite (st_1 d bm1 bm2 done Hdone), <- app_assoc. exact Heq.
    - destruct (rest_1 _ _ Hk) as [B1 [e1 ->]]. apply Forall_inv, sent_p in Ha as (fp & p & Hp & H1 & ->).
      rewrite Hp, (primary_ok p fp Hp H1), B1, Hs, (secondary_ok _ s fs H2), B2.
      match goal with |- context [encode_bitmap E (u "1") fs 128 true (tertiary_of F) ?st0] =>
        rewrite (proj2 (bitmap_ext_refuses E (u "1") fs 128 (tertiary_of F) st0 e st' (HEX bm2) (mkEntry [] s)
          (pget_pset (u "1") _ (d1 d bm1)) (get_1 done Hdone (mkEntry [] p) (mkEntry [] s)))); [reflexivity|] end.
      exists msg. rewrite (tertiary_bitmap E d F bm1 bm2 bm3 HF Hbm). split; [assumption|].
      cbn [s_dec s_enc]. unfold d2, pset. rewrite dset_dset by apply key_eqb_spec. rewrite <- app_assoc. exact Heq.
    - destruct (rest_f _ _ _ Hf Hk Ha) as (bents & d' & fents & pre & post & -> & Hb & Hfl & Hfk).
      apply Forall_app in Ha as [Hab Haf].
      assert (Hfields : forall s, encode_fields E sp fl s (mkE d' (done ++ bents)) = (Raise (XEncodeError e), st')).
      { intro s. apply (fields_fault _ _ _ _ _ Hb). exists pre, f, post, fents, fs, v, msg, lenb, data. auto 10. }
      destruct Hb as [fp p Hp H1 B1|fp p fs' s Hp H1 B1 Hs' H2 B2|fp p fs' s s' Hp H1 B1 Hs' H2 B2 H3];
      rewrite Hp, (primary_ok p fp Hp H1), B1; [apply Hfields|rewrite Hs', (secondary_ok _ s fs' H2), B2..].
      + rewrite <- app_assoc. apply Hfields.
      + rewrite (tertiary_ok _ s s' fs' H3). rewrite <- app_assoc. apply Hfields.
  Qed.
End Msg.

(** ** The keys of the dict *)
Lemma numeric_foreign E keys : numeric_keys E keys = inl false <->
  exists pre i r post, keys = pre ++ KOther i r :: post /\ Forall (readable_key E) pre.
Proof.
  induction keys as [|k keys IH]; cbn [numeric_keys].
  - split; [discriminate|]. intros ([|] & ? & ? & ? & ? & _); discriminate.
  - destruct k as [s|i r].
    2:{ split; [|reflexivity]. intros _. exists [], i, r, keys. auto. }
    assert (Hstep : readable_key E (KStr s) ->
      ((exists pre i r post, keys = pre ++ KOther i r :: post /\ Forall (readable_key E) pre) <->
       exists pre i r post, KStr s :: keys = pre ++ KOther i r :: post /\ Forall (readable_key E) pre)).
    { intro Hs. split.
      - intros (pre & i & r & post & -> & H). exists (KStr s :: pre), i, r, post. auto.
      - intros ([|k pre] & i & r & post & H & Hf); [discriminate|]. injection H as <- ->. inversion Hf; subst. eauto 8. }
    destruct (isnumeric E s) eqn:Hn.
    + destruct (py_int E s) as [n|] eqn:Hi; [apply py_int_text in Hi|apply py_int_no_text in Hi].
      * rewrite <- Hstep, <- IH; [|exists s; split; [reflexivity|eauto]].
        destruct (numeric_keys E keys) as [[|]|ks]; split; congruence.
      * split; [discriminate|]. intros ([|k pre] & i & r & post & H & Hf); [discriminate|]. injection H as <- ->.
        apply Forall_inv in Hf as (s' & [= <-] & Hs). destruct (Hs Hn) as [n Hx]. destruct (Hi n Hx).
    + rewrite <- Hstep, <- IH; [reflexivity|]. exists s. split; [reflexivity|congruence].
Qed.
Lemma numeric_readable E keys ks : numeric_keys E keys = inr ks -> Forall (readable_key E) keys.
Proof.
  intro H. pose proof (numeric_keys_spec E keys) as Hs. rewrite H in Hs. destruct Hs as [Hs _]. apply Forall_forall.
  intros k Hk. destruct (Hs k Hk) as (s & -> & Hn). exists s. split; [reflexivity|]. exact Hn.
Qed.
Lemma readable_numeric E keys : Forall (readable_key E) keys -> exists ks, numeric_keys E keys = inr ks.
Proof.
  intro H. rewrite Forall_forall in H. pose proof (numeric_keys_spec E keys) as Hs.
  destruct (numeric_keys E keys) as [[|]|ks]; [exfalso..|eauto].
  - destruct Hs as (s & Hi & Hn & Hp). destruct (H _ Hi) as (s' & [= <-] & Hs). destruct (Hs Hn) as [n Hx]. exact (Hp n Hx).
  - destruct Hs as (i & r & Hi). destruct (H _ Hi) as (s & ? & _). discriminate.
Qed.
Lemma out_of_range E d ks : is_dict d -> numeric_keys E (map fst (pops d)) = inr ks ->
  forall f, In f (zdiff_range 1 193 (zset_of ks)) <-> has_field E d f /\ ~ (1 <= f <= 192)%Z.
Proof.
  intros Hd Hn f. destruct (pops_numeric E d ks Hd Hn) as [HF _]. unfold zdiff_range. rewrite filter_In, HF, negb_true_iff.
  rewrite <- not_true_iff_false, in_range_spec. split; intros [H1 H2]; (split; [assumption|]); lia.
Qed.

(** ** encode *)
Lemma header_plan sp fs ml : sget (u "h") sp = Some fs -> fs_max_len fs = Some ml ->
  In (u "h") (header_key sp) -> (0 < ml)%Z.
Proof. intros H1 H2 H. unfold header_key in H. rewrite H1, H2 in H. destruct (Z.leb_spec ml 0); [contradiction|assumption]. Qed.

Lemma encode_fault_1 E sp d e d' : is_dict d -> encode E (ADict d) sp = (Raise (XEncodeError e), d') ->
  exists msg k enc, encode_fault E sp d msg k d' enc /\ e = EncodeError msg d' enc k.
Proof.
  intros Hd. destruct (bitmaps_exist E d) as (bm1 & bm2 & bm3 & Hbm). unfold encode. rewrite encode_body_eq.
  destruct (encode_header E sp (mkE (pops d) [])) as [[h|y] st1] eqn:Hh.
  { apply (EncodeWhole.header_ok E sp d bm1 bm2 bm3) in Hh as (hs & Hhk & Hhf & -> & ->).
    destruct (encode_type E sp _) as [[t|y] st2] eqn:Ht.
    2:{ intros [= -> <-].
        assert (Hfresh : ~ In (u "t") (map fst hs)) by (intro Hi; apply (EncodeWhole.header_key_in sp _ _ Hhk) in Hi; discriminate).
        assert (Hplan : plan sp bm1 bm2 bm3 = map fst hs ++ u "t" :: rest_keys bm1 bm2 bm3) by (rewrite plan_split, <- app_assoc, Hhk; reflexivity).
        apply encode_type_refuses in Ht as [[H1 H2]|(fs & v & msg & data & H1 & H2 & H3 & H4)]; cbn [s_dec] in *; rewrite pops_other in * by discriminate.
        - injection H2 as -> ->. eexists _, (u "t"), hs. split; [|reflexivity].
          exists bm1, bm2, bm3, hs, (rest_keys bm1 bm2 bm3), []. split; [assumption|]. split; [assumption|]. split; [assumption|].
          split; [now apply TypeMissing|]. now rewrite app_nil_r.
        - rewrite eput_fresh in H4 by assumption. injection H4 as -> ->. eexists msg, (u "t"), _. split; [|reflexivity].
          exists bm1, bm2, bm3, hs, (rest_keys bm1 bm2 bm3), [(u "t", mkEntry [] data)]. split; [assumption|]. split; [assumption|]. split; [assumption|].
          split; [eapply TypeRefused; eauto|reflexivity]. }
    apply (EncodeWhole.type_ok E sp d bm1 bm2 bm3 hs _ _ Hhk) in Ht as (en & Hte & -> & ->). cbn [s_dec].
    set (he := hs ++ [(u "t", en)]). assert (Hhe : map fst he = header_key sp ++ [u "t"]) by (unfold he; rewrite map_app, Hhk; reflexivity).
    assert (Hhef : Forall (entry_sent E sp d bm1 bm2 bm3) he) by (apply Forall_app; auto).
    assert (Hpp : forall msg, key_refused E sp d bm1 bm2 bm3 (u "p") msg (cleared d) [] -> encode_fault E sp d msg (u "p") (cleared d) he).
    { intros msg Hc. exists bm1, bm2, bm3, he, ((if bit bm1 1 then [u "1"] else []) ++ map zstr (filter (announced bm1 bm2 bm3) data_fields)), [].
      split; [assumption|]. split; [rewrite plan_split, Hhe; reflexivity|]. split; [assumption|]. split; [assumption|]. now rewrite app_nil_r. }
    destruct (numeric_keys E (map fst (pops d))) as [[|]|ks] eqn:Hn; [discriminate| |].
    - intros [= <- <-]. apply numeric_foreign in Hn as (pre & i & r & post & H1 & H2).
      eexists _, (u "p"), he. split; [|reflexivity]. apply Hpp. exact (ForeignKeys E sp d bm1 bm2 bm3 pre i r post H1 H2).
    - pose proof (out_of_range E d ks Hd Hn) as Hout. destruct (pops_numeric E d ks Hd Hn) as [HF Hko].
      destruct (zsubset_range 1 193 (zset_of ks)) eqn:Hr; cbn [negb].
      2:{ intros [= <- <-]. eexists _, (u "p"), he. split; [|reflexivity]. apply Hpp. apply OutOfRange.
          - eapply numeric_readable; eauto.
          - apply filter_sorted, zset_sorted.
          - exact Hout.
          - intro Hnil. assert (zsubset_range 1 193 (zset_of ks) = true); [|congruence]. unfold zsubset_range. apply forallb_forall.
            intros x Hx. destruct (in_range 1 193 x) eqn:Hx2; [reflexivity|].
            assert (Hin : In x (zdiff_range 1 193 (zset_of ks))) by (apply filter_In; rewrite Hx2; auto). rewrite Hnil in Hin. contradiction. }
      destruct (encode_msg _ _ _ _ _ _) as [[out|y] st3] eqn:Hm; [discriminate|].
      intros [= -> <-]. apply (msg_refuses_1 E sp d bm1 bm2 bm3) in Hm as (ents & k & rest & msg & d' & tail & A1 & A2 & A3 & A4);
        [|apply zset_sorted|assumption| |assumption| |now apply Hko].
      + injection A4 as -> ->. eexists msg, k, _. split; [|reflexivity]. exists bm1, bm2, bm3, (he ++ ents), rest, tail. cbn [s_dec s_enc].
        split; [assumption|]. split; [rewrite plan_split, map_app, Hhe, A1, <- !app_assoc; reflexivity|].
        split; [apply Forall_app; auto|]. split; [assumption|]. rewrite <- app_assoc. reflexivity.
      + intros f Hf. unfold zsubset_range in Hr. rewrite forallb_forall in Hr. apply Hr, in_range_spec in Hf. lia.
      + intros k Hk. rewrite Hhe, in_app_iff in Hk. destruct Hk as [Hk|[<-|[]]]; [left|now right].
        rewrite <- Hhk in Hk. eapply EncodeWhole.header_key_in; eauto. }
  intros [= -> <-]. apply encode_header_refuses in Hh as (fs & ml & H1 & H2 & H3 & H). cbn [s_dec] in H. rewrite pops_other in H by discriminate.
  assert (Hplan : plan sp bm1 bm2 bm3 = map fst (@nil (pystr * entry)) ++ u "h" :: [u "t"] ++ rest_keys bm1 bm2 bm3).
  { rewrite plan_split. erewrite header_key_on by eauto. cbn [map app]. reflexivity. }
  destruct H as [[H4 H5]|(v & msg & lenb & data & H4 & H5 & H6)].
  - injection H5 as -> ->. eexists _, (u "h"), []. split; [|reflexivity].
    exists bm1, bm2, bm3, [], ([u "t"] ++ rest_keys bm1 bm2 bm3), []. split; [assumption|]. split; [assumption|]. split; [constructor|].
    split; [eapply HeaderMissing; eauto|reflexivity].
  - rewrite eput_fresh in H6 by (simpl; tauto). injection H6 as -> ->. eexists msg, (u "h"), _. split; [|reflexivity].
    exists bm1, bm2, bm3, [], ([u "t"] ++ rest_keys bm1 bm2 bm3), [(u "h", mkEntry lenb data)]. split; [assumption|]. split; [assumption|]. split; [constructor|].
    split; [eapply HeaderRefused; eauto|reflexivity].
Qed.

Lemma header_key_two sp : header_key sp = [] \/ header_key sp = [u "h"].
Proof. unfold header_key. destruct (sget (u "h") sp) as [fs|]; [destruct (fs_max_len fs) as [ml|]; [destruct (ml <=? 0)%Z|]|]; auto. Qed.
Lemma plan_at_h sp bm1 bm2 bm3 a b : plan sp bm1 bm2 bm3 = a ++ u "h" :: b -> a = [] /\ header_key sp = [u "h"].
Proof.
  intro H. destruct (header_key_two sp) as [Hh|Hh].
  - exfalso. assert (Hi : In (u "h") (plan sp bm1 bm2 bm3)) by (rewrite H; apply in_or_app; right; now left).
    rewrite plan_split, Hh in Hi. destruct Hi as [Hi|Hi]; [discriminate|]. revert Hi. apply rest_ht. auto.
  - pose proof (plan_nodup sp bm1 bm2 bm3) as Hn. rewrite H in Hn.
    assert (H' : a ++ u "h" :: b = [] ++ u "h" :: [u "t"] ++ rest_keys bm1 bm2 bm3).
    { rewrite <- H, plan_split, Hh. cbn [app]. reflexivity. }
    destruct (nodup_split _ _ _ _ _ Hn H') as [-> _]. auto.
Qed.
Lemma plan_at_t sp bm1 bm2 bm3 a b : plan sp bm1 bm2 bm3 = a ++ u "t" :: b -> a = header_key sp.
Proof.
  intro H. pose proof (plan_nodup sp bm1 bm2 bm3) as Hn. rewrite H in Hn.
  assert (H' : a ++ u "t" :: b = header_key sp ++ u "t" :: rest_keys bm1 bm2 bm3).
  { rewrite <- H, plan_split, <- app_assoc. cbn [app]. reflexivity. }
  now destruct (nodup_split _ _ _ _ _ Hn H') as [-> _].
Qed.
Lemma plan_later sp bm1 bm2 bm3 (done : edoc) k rest : k <> u "h" -> k <> u "t" ->
  plan sp bm1 bm2 bm3 = map fst done ++ k :: rest ->
  exists hs en ents, done = (hs ++ [(u "t", en)]) ++ ents /\ map fst hs = header_key sp /\ rest_keys bm1 bm2 bm3 = map fst ents ++ k :: rest.
Proof.
  intros N1 N2 H. rewrite plan_split in H.
  assert (Hl : exists l, map fst done = (header_key sp ++ [u "t"]) ++ l /\ rest_keys bm1 bm2 bm3 = l ++ k :: rest).
  { apply app_eq_app in H as (l & [[H1 H2]|[H1 H2]]).
    - destruct l as [|x l].
      + rewrite app_nil_r in H1. exists []. rewrite app_nil_r. auto.
      + exfalso. injection H2 as <- _. assert (Hi : In k (header_key sp ++ [u "t"])) by (rewrite H1; apply in_or_app; right; now left).
        apply in_app_iff in Hi as [Hi|[Hi|[]]]; [|congruence].
        destruct (header_key_two sp) as [Hh|Hh]; rewrite Hh in Hi; [destruct Hi|destruct Hi as [Hi|[]]; congruence].
    - eauto. }
  destruct Hl as (l & H1 & H2). apply map_eq_app in H1 as (he & ents & -> & H3 & <-).
  apply map_eq_app in H3 as (hs & ts & -> & H3 & H4). destruct ts as [|[k' en] [|]]; [discriminate| |discriminate].
  injection H4 as ->. eauto 6.
Qed.

Lemma encode_fault_2 E sp d msg k d' enc : is_dict d -> encode_fault E sp d msg k d' enc ->
  encode E (ADict d) sp = (Raise (XEncodeError (EncodeError msg d' enc k)), d').
Proof.
  intros Hd (bm1 & bm2 & bm3 & done & rest & tail & Hbm & Hplan & Hsent & Hr & ->).
  unfold encode. rewrite encode_body_eq.
  assert (Hhead : k <> u "h" -> k <> u "t" -> exists hs en ents h t,
    done = (hs ++ [(u "t", en)]) ++ ents /\ map fst hs = header_key sp /\ rest_keys bm1 bm2 bm3 = map fst ents ++ k :: rest
    /\ Forall (entry_sent E sp d bm1 bm2 bm3) ents
    /\ encode_header E sp (mkE (pops d) []) = (Ok h, mkE (pops d) hs)
    /\ encode_type E sp (mkE (pops d) hs) = (Ok t, mkE (pops d) (hs ++ [(u "t", en)]))).
  { intros N1 N2. destruct (plan_later _ _ _ _ _ _ _ N1 N2 Hplan) as (hs & en & ents & -> & Hhk & Hrk).
    rewrite !Forall_app in Hsent. destruct Hsent as [[Hs1 Hs2] Hs3]. apply Forall_inv in Hs2.
    exists hs, en, ents, (wire_bytes hs), (e_len en ++ e_data en). split; [reflexivity|]. split; [assumption|]. split; [assumption|].
    split; [assumption|]. split; [apply (EncodeWhole.header_ok E sp d bm1 bm2 bm3); eauto|].
    apply (EncodeWhole.type_ok E sp d bm1 bm2 bm3 hs); eauto. }
  assert (Hmsg : keys_ok E d -> k <> u "h" -> k <> u "t" -> encode E (ADict d) sp = (Raise (XEncodeError (EncodeError msg d' (done ++ tail) k)), d')).
  { intros Hko N1 N2. destruct (Hhead N1 N2) as (hs & en & ents & h & t & -> & Hhk & Hrk & Hse & Hh & Ht).
    unfold encode. rewrite encode_body_eq, Hh, Ht. cbn [s_dec].
    destruct (keys_ok_numeric E d Hd Hko) as [ks Hn]. rewrite Hn. destruct (pops_numeric E d ks Hd Hn) as [HF Hko'].
    pose proof (proj1 Hko' Hko) as Hrg. rewrite Hrg. cbn [negb].
    rewrite (msg_refuses_2 E sp d bm1 bm2 bm3 (zset_of ks) (hs ++ [(u "t", en)]) h t Hd (zset_sorted ks) HF)
      with (e := EncodeError msg d' (((hs ++ [(u "t", en)]) ++ ents) ++ tail) k) (st' := mkE d' (((hs ++ [(u "t", en)]) ++ ents) ++ tail)).
    - reflexivity.
    - intros f Hf. unfold zsubset_range in Hrg. rewrite forallb_forall in Hrg. apply Hrg, in_range_spec in Hf. lia.
    - assumption.
    - intros k' Hk. rewrite map_app, in_app_iff in Hk. destruct Hk as [Hk|[<-|[]]]; [left; eapply EncodeWhole.header_key_in; eauto|now right].
    - assumption.
    - exists ents, k, rest, msg, d', tail. split; [assumption|]. split; [assumption|]. split; [assumption|]. rewrite <- app_assoc. reflexivity. }
  unfold encode in Hmsg. rewrite encode_body_eq in Hmsg.
  destruct Hr as [fs ml H1 H2 H3|fs ml v msg lenb data H1 H2 H3 H4|H1|fs v msg data H1 H2 H3|pre i r post H1 H2|l H1 H2 H3 H4|fs msg Hko H1 H2|fs msg Hko H1 H2|fs s2 msg Hko H1 H2 H3 H4|f fs v msg lenb data Hko H1 H2 H3 H4].
  - apply plan_at_h in Hplan as [Hdn Hh]. destruct done; [|discriminate].
    assert (0 < ml)%Z by (eapply header_plan; eauto; rewrite Hh; now left).
    rewrite (proj2 (encode_header_refuses E sp (mkE (pops d) [])
      (EncodeError (u "Field data is required according to specifications") (pops d) [] (u "h")) (mkE (pops d) []))); [reflexivity|].
    exists fs, ml. do 3 (split; [assumption|]). left. cbn [s_dec]. rewrite pops_other by discriminate. split; [assumption|reflexivity].
  - apply plan_at_h in Hplan as [Hdn Hh]. destruct done; [|discriminate].
    assert (0 < ml)%Z by (eapply header_plan; eauto; rewrite Hh; now left).
    rewrite (proj2 (encode_header_refuses E sp (mkE (pops d) []) (EncodeError msg (pops d) [(u "h", mkEntry lenb data)] (u "h")) (mkE (pops d) [(u "h", mkEntry lenb data)]))); [reflexivity|].
    exists fs, ml. do 3 (split; [assumption|]). right. cbn [s_dec]. rewrite pops_other by discriminate. exists v, msg, lenb, data. split; [assumption|].
    split; [assumption|]. rewrite eput_fresh by (simpl; tauto). reflexivity.
  - apply plan_at_t in Hplan. rewrite (proj2 (EncodeWhole.header_ok E sp d bm1 bm2 bm3 (wire_bytes done) (mkE (pops d) done))) by eauto.
    rewrite (proj2 (encode_type_refuses E sp (mkE (pops d) done) (EncodeError (u "Field data is required") (pops d) (done ++ []) (u "t")) (mkE (pops d) done))); [reflexivity|].
    left. cbn [s_dec]. rewrite pops_other by discriminate. split; [assumption|]. rewrite app_nil_r. reflexivity.
  - apply plan_at_t in Hplan. rewrite (proj2 (EncodeWhole.header_ok E sp d bm1 bm2 bm3 (wire_bytes done) (mkE (pops d) done))) by eauto.
    assert (Hfresh : ~ In (u "t") (map fst done)) by (intro Hi; apply (EncodeWhole.header_key_in sp _ _ Hplan) in Hi; discriminate).
    rewrite (proj2 (encode_type_refuses E sp (mkE (pops d) done) (EncodeError msg (pops d) (done ++ [(u "t", mkEntry [] data)]) (u "t")) (mkE (pops d) (done ++ [(u "t", mkEntry [] data)])))); [reflexivity|].
    right. exists fs, v, msg, data. cbn [s_dec]. rewrite pops_other by discriminate. split; [assumption|]. split; [assumption|]. split; [assumption|].
    rewrite eput_fresh by assumption. reflexivity.
  - destruct (Hhead ltac:(discriminate) ltac:(discriminate)) as (hs & en & ents & h & t & -> & Hhk & Hrk & Hse & Hh & Ht).
    pose proof (rest_p _ _ _ _ _ Hrk) as ->. rewrite Hh, Ht. cbn [s_dec]. change (cleared d) with (pops d) in *.
    rewrite (proj2 (numeric_foreign E (map fst (pops d)))) by eauto 6. rewrite !app_nil_r. reflexivity.
  - destruct (Hhead ltac:(discriminate) ltac:(discriminate)) as (hs & en & ents & h & t & -> & Hhk & Hrk & Hse & Hh & Ht).
    pose proof (rest_p _ _ _ _ _ Hrk) as ->. rewrite Hh, Ht. cbn [s_dec]. change (cleared d) with (pops d) in *.
    destruct (readable_numeric E _ H1) as [ks Hn]. rewrite Hn. pose proof (out_of_range E d ks Hd Hn) as Hout.
    assert (Hl : zdiff_range 1 193 (zset_of ks) = l).
    { apply zsorted_ext; [apply filter_sorted, zset_sorted|assumption|]. intro f. rewrite Hout, H3. reflexivity. }
    destruct (zsubset_range 1 193 (zset_of ks)) eqn:Hrg; cbn [negb].
    + exfalso. apply H4. rewrite <- Hl. unfold zsubset_range in Hrg. unfold zdiff_range. clear -Hrg.
      induction (zset_of ks) as [|x l IH]; [reflexivity|]. cbn [forallb] in Hrg. apply andb_true_iff in Hrg as [A B]. cbn [filter]. rewrite A. cbn [negb]. auto.
    + rewrite Hl, !app_nil_r. reflexivity.
  - apply Hmsg; [assumption|discriminate|discriminate].
  - apply Hmsg; [assumption|discriminate|discriminate].
  - apply Hmsg; [assumption|discriminate|discriminate].
  - destruct (zstr_name f H1) as (N1 & N2 & _). apply Hmsg; assumption.
Qed.

Theorem encode_fault_iff E sp d e d' : is_dict d ->
  (encode E (ADict d) sp = (Raise (XEncodeError e), d') <->
   exists msg k enc, encode_fault E sp d msg k d' enc /\ e = EncodeError msg d' enc k).
Proof.
  intro Hd. split; [now apply encode_fault_1|]. intros (msg & k & enc & H & ->). now apply encode_fault_2.
Qed.

Theorem encode_fault_unique E sp d msg k d' enc msg2 k2 d2 enc2 : is_dict d ->
  encode_fault E sp d msg k d' enc -> encode_fault E sp d msg2 k2 d2 enc2 ->
  msg = msg2 /\ k = k2 /\ d' = d2 /\ enc = enc2.
Proof.
  intros Hd H1 H2. apply encode_fault_2 in H1, H2; [|assumption..]. rewrite H1 in H2. injection H2 as _ A B C D. auto.
Qed.
