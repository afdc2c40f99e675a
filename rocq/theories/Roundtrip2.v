(** * Roundtrip2: re-encoding what was decoded. *)
From Coq Require Import ZifyBool ZifyNat ZifyN Sorted.
From Verif Require Import PyBase BaseFacts Types Numerals NumeralFacts Decoder Encoder Wire WireEncode Claims.
From Verif Require Import DecoderFacts DecodeRun DecodeComplete DecodeTheorems EncoderFacts EncodeRun EncodeWhole.
From Verif Require Import EncodeTheorems EncodeTheorems2 EncodeTheorems3 Roundtrip.
Ltac Zify.zify_post_hook ::= Z.div_mod_to_equations.
Local Opaque data_fields.

(** C20 *)
Lemma encode_injective E sp d1 d2 s enc1 enc2 d1' d2' : env_ok E -> reversible_spec E sp -> str_dict d1 -> str_dict d2 ->
  encode E (ADict d1) sp = (Ok (s, enc1), d1') -> encode E (ADict d2) sp = (Ok (s, enc2), d2') ->
  enc1 = enc2 /\ forall k, message_key sp k -> same_up_to_case sp k (value d1 k) (value d2 k).
Proof.
  intros HE Hrev S1 S2 H1 H2. assert (Hb : holds (InBytes s) s) by now left.
  destruct (encode_decode _ _ _ _ _ _ _ HE S1 Hrev H1 Hb) as (dec & D1 & K1).
  destruct (encode_decode _ _ _ _ _ _ _ HE S2 Hrev H2 Hb) as (dec2 & D2 & K2).
  assert (dec2 = dec /\ enc2 = enc1) as [-> ->] by (split; congruence). split; [reflexivity|]. clear D2.
  assert (Hv : forall d s enc d', str_dict d -> encode E (ADict d) sp = (Ok (s, enc), d') ->
               forall k, message_key sp k -> wire_key sp k /\ value d' k = value d k /\ (value d k <> None -> exists fs, sget k sp = Some fs)).
  { clear - HE. intros d s enc d' Hs H k Hk. apply encode_ok in H as (bm1 & bm2 & bm3 & Henc & _ & ->); [|apply Hs].
    assert (Hn : k <> u "p" /\ k <> u "1" /\ k <> u "65").
    { destruct Hk as [[-> _]|[->|(n & Hn & ->)]]; [repeat split; discriminate..|]. apply data_fields_in, zstr_name in Hn. tauto. }
    split; [unfold wire_key, message_key in *; tauto|]. split; [now apply value_kept with bm1 bm2 bm3|].
    intro Hne. destruct (value d k) as [v|] eqn:Hv; [|congruence].
    assert (Hi : In k (plan sp bm1 bm2 bm3)).
    { apply plan_in. destruct Hk as [[-> Ho]|[->|(n & Hd & ->)]]; auto.
      - left. apply header_key_in. now apply header_on_off.
      - do 4 right. exists n. split; [now apply data_fields_in|]. split; [|reflexivity].
        apply (announced_spec E d); [apply Henc|unfold data_field in Hd; lia|]. left. apply zstr_has_field; auto.
        unfold has_key. apply (dget_some_in key_eqb key_eqb_spec). exists v. exact Hv. }
    destruct (enc_has _ _ _ _ _ _ _ Henc _ Hi) as [e He]. pose proof (enc_sent _ _ _ _ _ _ _ Henc _ _ He) as Hsent.
    remember (k, e) as ke eqn:Hke. destruct Hsent; injection Hke as <- <-; eauto. }
  intros k Hk. destruct (Hv _ _ _ _ S1 H1 k Hk) as (Hw & V1 & F1). destruct (Hv _ _ _ _ S2 H2 k Hk) as (_ & V2 & F2).
  unfold same_up_to_case. destruct (value d1 k) as [v1|] eqn:E1, (value d2 k) as [v2|] eqn:E2.
  - destruct (str_dict_value _ _ _ S1 E1) as (t1 & ->). destruct (str_dict_value _ _ _ S2 E2) as (t2 & ->).
    destruct (F1 ltac:(discriminate)) as (fs & Hfs). exists fs. split; [assumption|].
    assert (A : sget k dec = Some (normal fs t1)) by (apply K1; eauto 6).
    apply K2 in A as (_ & fs' & v & G1 & G2 & G3). congruence.
  - destruct (str_dict_value _ _ _ S1 E1) as (t1 & ->).
    destruct (F1 ltac:(discriminate)) as (fs & Hfs). 
    assert (A : sget k dec = Some (normal fs t1)) by (apply K1; eauto 6).
    apply K2 in A as (_ & fs' & v & G1 & G2 & G3). congruence.
  - destruct (str_dict_value _ _ _ S2 E2) as (t1 & ->).
    destruct (F2 ltac:(discriminate)) as (fs & Hfs). 
    assert (A : sget k dec = Some (normal fs t1)) by (apply K2; eauto 6).
    apply K1 in A as (_ & fs' & v & G1 & G2 & G3). congruence.
  - exact I.
Qed.

(** ** The decoded dict as input *)
Lemma as_dict_keys dec : map fst (as_dict dec) = map KStr (map fst dec).
Proof. unfold as_dict. rewrite !map_map. reflexivity. Qed.
Lemma as_dict_has dec k : has_key (as_dict dec) k <-> In k (map fst dec).
Proof.
  unfold has_key. rewrite as_dict_keys, in_map_iff. split; [|eauto]. intros (x & Hx & Hi). injection Hx as ->. assumption.
Qed.
Lemma as_dict_value dec k : value (as_dict dec) k = option_map VStr (sget k dec).
Proof.
  unfold value, sget. induction dec as [|[k' t] dec IH]; [reflexivity|]. cbn [as_dict map dget fst snd].
  change (key_eqb (KStr k) (KStr k')) with (str_eqb k k'). destruct (str_eqb k k'); [reflexivity|]. exact IH.
Qed.
Lemma as_dict_is dec : NoDup (map fst dec) -> is_dict (as_dict dec).
Proof. intro H. unfold is_dict. rewrite as_dict_keys. apply FinFun.Injective_map_NoDup; [|assumption]. intros a b Hab. congruence. Qed.

Lemma plan_field E sp bm1 bm2 bm3 dec f : env_ok E -> map fst dec = plan sp bm1 bm2 bm3 ->
  (has_field E (as_dict dec) f <-> data_field f /\ announced bm1 bm2 bm3 f = true).
Proof.
  intros HE Hp. split.
  - intros (k & Hk & N1 & N65 & Hnum & Hint). apply as_dict_has in Hk. rewrite Hp in Hk.
    apply plan_in in Hk as [Hk|[->|[->|[[-> _]|(g & Hg & Ha & ->)]]]].
    + assert (k = u "h") as -> by (destruct (header_key_cases sp) as [Hh|Hh]; rewrite Hh in Hk; [destruct Hk|destruct Hk as [<-|[]]; reflexivity]).
      rewrite not_numeric_keys in Hnum; auto; discriminate.
    + rewrite not_numeric_keys in Hnum; auto; discriminate.
    + rewrite not_numeric_keys in Hnum; auto; discriminate.
    + congruence.
    + apply data_fields_in in Hg. destruct (zstr_field E g HE ltac:(lia)) as [_ Hz]. assert (f = g) by (eapply int_text_unique; eassumption). subst g. auto.
  - intros [Hd Ha]. apply zstr_has_field; auto. apply as_dict_has. rewrite Hp. apply plan_in. do 4 right. exists f.
    split; [now apply data_fields_in|auto].
Qed.
Lemma plan_keys_ok E sp bm1 bm2 bm3 dec : env_ok E -> map fst dec = plan sp bm1 bm2 bm3 -> keys_ok E (as_dict dec).
Proof.
  intros HE Hp k Hk. rewrite as_dict_keys in Hk. apply in_map_iff in Hk as (x & <- & Hk). exists x. split; [reflexivity|].
  intros N1 N65 Hnum. rewrite Hp in Hk. apply plan_in in Hk as [Hk|[->|[->|[[-> _]|(g & Hg & Ha & ->)]]]].
  + assert (x = u "h") as -> by (destruct (header_key_cases sp) as [Hh|Hh]; rewrite Hh in Hk; [destruct Hk|destruct Hk as [<-|[]]; reflexivity]).
    rewrite not_numeric_keys in Hnum; auto; discriminate.
  + rewrite not_numeric_keys in Hnum; auto; discriminate.
  + rewrite not_numeric_keys in Hnum; auto; discriminate.
  + congruence.
  + apply data_fields_in in Hg. exists g. split; [apply (zstr_field E g HE); lia|lia].
Qed.
Lemma plan_bitmaps E sp bm1 bm2 bm3 dec : env_ok E -> map fst dec = plan sp bm1 bm2 bm3 ->
  length bm1 = 8%nat -> length bm2 = 8%nat -> length bm3 = 8%nat ->
  (bit bm1 1 = true <-> exists g, (66 <= g <= 192)%Z /\ announced bm1 bm2 bm3 g = true) ->
  (bit bm2 1 = true <-> exists g, (129 <= g <= 192)%Z /\ announced bm1 bm2 bm3 g = true) ->
  bitmaps_for E (as_dict dec) bm1 bm2 bm3.
Proof.
  intros HE Hp L1 L2 L3 B1 B2. repeat (split; [assumption|]). intros i Hi.
  pose proof (fun f => plan_field E sp bm1 bm2 bm3 dec f HE Hp) as Hf.
  assert (G1 : sends E (as_dict dec) 1 <-> bit bm1 1 = true).
  { rewrite B1. unfold sends. split.
    - intros [H|[[H _]|(_ & g & Hg & H)]]; [apply Hf in H as [H _]; unfold data_field in H; lia|lia|].
      apply Hf in H as [H Ha]. exists g. unfold data_field in H. split; [lia|assumption].
    - intros (g & Hg & Ha). right. right. split; [reflexivity|]. exists g. split; [lia|]. apply Hf. unfold data_field. split; [lia|assumption]. }
  assert (G65 : sends E (as_dict dec) 65 <-> bit bm2 1 = true).
  { rewrite B2. unfold sends. split.
    - intros [H|[(_ & g & Hg & H)|[H _]]]; [apply Hf in H as [H _]; unfold data_field in H; lia| |lia].
      apply Hf in H as [H Ha]. exists g. split; [lia|assumption].
    - intros (g & Hg & Ha). right. left. split; [reflexivity|]. exists g. split; [lia|]. apply Hf. unfold data_field. split; [lia|assumption]. }
  assert (Gf : forall f, data_field f -> (sends E (as_dict dec) f <-> announced bm1 bm2 bm3 f = true)).
  { intros f Hd. rewrite sends_data by assumption. rewrite Hf. tauto. }
  split; [|split].
  - destruct (Z.eq_dec i 1) as [->|]; [tauto|]. rewrite Gf by (unfold data_field; lia). unfold announced.
    replace (i <=? 64)%Z with true by lia. tauto.
  - destruct (Z.eq_dec i 1) as [->|]; [tauto|]. rewrite Gf by (unfold data_field; lia). unfold announced.
    replace (64 + i <=? 64)%Z with false by lia. replace (64 + i <=? 128)%Z with true by lia. replace (64 + i - 64)%Z with i by lia. tauto.
  - rewrite Gf by (unfold data_field; lia). unfold announced.
    replace (128 + i <=? 64)%Z with false by lia. replace (128 + i <=? 128)%Z with false by lia. replace (128 + i - 128)%Z with i by lia. tauto.
Qed.

(** ** Normalised values are sent alike *)
Lemma upper_upper s : py_upper (py_upper s) = py_upper s.
Proof.
  unfold py_upper. rewrite map_map. apply map_ext. intro c. unfold upper_char.
  destruct ((97 <=? c) && (c <=? 122))%N eqn:E1; [|rewrite E1; reflexivity].
  replace ((97 <=? c - 32) && (c - 32 <=? 122))%N with false by lia. reflexivity.
Qed.
Lemma value_normal E fs v data n : encodes_value E fs (VStr v) data n -> encodes_value E fs (VStr (normal fs v)) data n.
Proof.
  intro H. remember (VStr v) as x eqn:Hx. destruct H as [de x d data H1 H2 H3 H4 H5|de d w data H1 H2 H3 H4 H5|de t data H1 H2 H3].
  - subst x. injection H3 as <-. rewrite (normal_binary _ _ _ H1 H2).
    replace (zlen v) with (zlen (py_upper v)) by (unfold zlen; now rewrite py_upper_length).
    apply EncHex with de; auto.
    + now rewrite py_upper_length.
    + unfold spells. now rewrite upper_upper.
  - injection Hx as ->. rewrite (normal_binary _ _ _ H1 H2).
    replace (zlen v) with (zlen (py_upper v)) by (unfold zlen; now rewrite py_upper_length).
    unfold spells in H5. destruct H4 as [(c & Hl & ->)|(Hl & c & Hr & ->)].
    + apply EncPaddedHex with de (c :: py_upper v); auto; [now rewrite py_upper_length|left; eauto|].
      unfold spells. cbn [py_upper map] in *. change (map upper_char ?l) with (py_upper l) in *. now rewrite upper_upper.
    + apply EncPaddedHex with de (py_upper v ++ [c]); auto; [now rewrite py_upper_length|right; eauto|].
      unfold spells. rewrite upper_app in *. now rewrite upper_upper.
  - injection Hx as ->. rewrite (normal_text _ _ _ H1 H2). now apply EncText with de.
Qed.
Lemma field_normal E fs v lenb data : field_encodes E fs (VStr v) lenb data -> field_encodes E fs (VStr (normal fs v)) lenb data.
Proof. intros (n & H1 & H2). exists n. split; [now apply value_normal|assumption]. Qed.
Lemma type_normal E fs v data : type_encodes E fs (VStr v) data -> type_encodes E fs (VStr (normal fs v)) data.
Proof.
  intro H. remember (VStr v) as x eqn:Hx. destruct H as [de x d data H1 H2 H3 H4 H5|de t data H1 H2 H3 H4].
  - subst x. injection H3 as <-. rewrite (normal_binary _ _ _ H1 H2). apply EncTypeBinary with de (py_upper v); auto.
    unfold spells. now rewrite upper_upper.
  - injection Hx as ->. rewrite (normal_text _ _ _ H1 H2). now apply EncTypeText with de.
Qed.

(** C19 *)
Lemma encode_decode_encode E sp d s enc d' buf dec enc' : env_ok E -> str_dict d -> reversible_spec E sp ->
  ~ has_field E d 1 -> ~ has_field E d 65 ->
  encode E (ADict d) sp = (Ok (s, enc), d') -> holds buf s -> decode E buf sp = Ok (dec, enc') ->
  enc' = enc /\ encodes_to E sp (as_dict dec) s enc.
Proof.
  intros HE Hstr Hrev N1 N65 He Hb Hdec.
  destruct (encode_decode _ _ _ _ _ _ _ HE Hstr Hrev He Hb) as (dec0 & Hdec0 & Hk).
  assert (dec0 = dec /\ enc' = enc) as [-> ->] by (split; congruence). clear Hdec0. split; [reflexivity|].
  pose proof (decode_accounts _ _ _ _ _ _ Hb Hdec) as (_ & Hkeys & Hnd).
  apply encode_ok in He as (bm1 & bm2 & bm3 & Henc & -> & Hd'); [|apply Hstr].
  pose proof (proj1 (proj2 (proj2 Henc))) as Hplan. rewrite <- Hkeys in Hplan.
  pose proof (proj1 (proj2 Henc)) as Hbm. pose proof Hbm as (L1 & L2 & L3 & Hbits).
  exists (with_bitmaps (as_dict dec) bm1 bm2 bm3). apply encode_ok; [apply as_dict_is; now rewrite Hkeys|].
  exists bm1, bm2, bm3. split; [|auto]. split; [|split; [|split]].
  - eapply plan_keys_ok; eauto.
  - eapply plan_bitmaps; eauto.
    + destruct (Hbits 1%Z ltac:(lia)) as (-> & _). unfold sends. split.
      * intros [H|[[H _]|(_ & g & Hg & H)]]; [contradiction|lia|]. destruct (Z.eq_dec g 65) as [->|Hne]; [contradiction|].
        exists g. split; [lia|]. apply (announced_spec E d); auto; [lia|]. now left.
      * intros (g & Hg & Ha). right. right. split; [reflexivity|]. exists g. split; [lia|].
        apply (announced_spec E d) in Ha; [|assumption|lia]. apply sends_data in Ha; [assumption|unfold data_field; lia].
    + destruct (Hbits 1%Z ltac:(lia)) as (_ & -> & _). change (64 + 1)%Z with 65%Z. unfold sends. split.
      * intros [H|[(_ & g & Hg & H)|[H _]]]; [contradiction| |lia]. 
        exists g. split; [lia|]. apply (announced_spec E d); auto; [lia|]. now left.
      * intros (g & Hg & Ha). right. left. split; [reflexivity|]. exists g. split; [lia|].
        apply (announced_spec E d) in Ha; [|assumption|lia]. apply sends_data in Ha; [assumption|unfold data_field; lia].
  - rewrite <- Hkeys. exact Hplan.
  - apply Forall_forall. intros [k e] Hi. apply (enc_get _ _ _ _ _ _ _ Henc) in Hi.
    pose proof (enc_sent _ _ _ _ _ _ _ Henc _ _ Hi) as Hs.
    assert (Hval : forall fs v, sget k sp = Some fs -> value d k = Some v -> k <> u "p" -> k <> u "1" -> k <> u "65" ->
      exists t, v = VStr t /\ value (as_dict dec) k = Some (VStr (normal fs t))).
    { intros fs v Hfs Hv P1 P2 P3. destruct (str_dict_value _ _ _ Hstr Hv) as (t & ->). exists t. split; [reflexivity|].
      rewrite as_dict_value.
      assert (Hdk : In k (map fst dec)) by (rewrite Hkeys; apply (dget_some_in str_eqb str_eqb_spec); eauto).
      apply (dget_some_in str_eqb str_eqb_spec) in Hdk as [t' Ht']. change (sget k dec = Some t') in Ht'. rewrite Ht'.
      apply Hk in Ht' as (_ & fs' & v' & G1 & G2 & ->). rewrite (value_kept d d' bm1 bm2 bm3 Hstr Hd' k P1 P2 P3) in G2.
      cbn [option_map]. congruence. }
    remember (k, e) as ke eqn:Hke. destruct Hs as [k' fs v lenb data Hfk Hfs Hv Hfe|fs v data Hfs Hv Hte|fs data Hfs Hbe|fs data Hb2 Hfs Hbe|fs d2 d3 Hb2 Hfs Hbe2 Hbe3];
      injection Hke as <- <-.
    + pose proof (field_key_not _ Hfk) as (_ & P1 & P2 & P3). destruct (Hval fs v Hfs Hv P1 P2 P3) as (t & -> & Hval').
      apply SentField with fs (VStr (normal fs t)); auto. now apply field_normal.
    + destruct (Hval fs v Hfs Hv ltac:(discriminate) ltac:(discriminate) ltac:(discriminate)) as (t & -> & Hval').
      apply SentType with fs (VStr (normal fs t)); auto. now apply type_normal.
    + now apply SentPrimary with fs.
    + now apply SentSecondary with fs.
    + now apply SentTertiary with fs.
Qed.
