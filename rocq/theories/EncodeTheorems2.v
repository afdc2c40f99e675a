(** * EncodeTheorems2: bitmaps, failures and single fields of encode. *)
From Coq Require Import ZifyBool ZifyNat ZifyN Sorted Permutation.
From Verif Require Import PyBase BaseFacts Types Numerals NumeralFacts Decoder Encoder Wire WireEncode Claims DecoderFacts DecodeRun EncoderFacts EncodeRun EncodeWhole EncodeTheorems.
Ltac Zify.zify_post_hook ::= Z.div_mod_to_equations.
Local Opaque data_fields.

Lemma dec_nonempty n : dec n <> [].
Proof. apply dec_spec. Qed.
Lemma canonical_field E d f : env_ok E -> canonical_keys E d ->
  (has_field E d f <-> has_key d (zstr f) /\ (0 <= f)%Z /\ f <> 1%Z /\ f <> 65%Z).
Proof.
  intros HE Hc. split.
  - intros (k & Hi & N1 & N65 & Hn & Hp). destruct (Hc k Hi Hn) as (Hl & n & Hn0 & ->).
    apply py_int_text in Hp. rewrite py_int_digits in Hp; auto using zstr_digits.
    + rewrite (zstr_nonneg n Hn0) in Hp. destruct (dec_spec (Z.to_N n)) as (_ & Hv & _). rewrite Hv in Hp.
      injection Hp as <-. rewrite Z2N.id by assumption. repeat (split; auto).
      * intros ->. now apply N1.
      * intros ->. now apply N65.
    + rewrite zstr_nonneg by assumption. apply dec_nonempty.
  - intros (Hi & H0 & N1 & N65). assert (Hn : isnumeric E (zstr f) = true).
    { apply isnumeric_digits; auto using zstr_digits. rewrite zstr_nonneg by assumption. apply dec_nonempty. }
    exists (zstr f). split; [assumption|]. split; [|split; [|split; [assumption|]]].
    + change (u "1") with (zstr 1). intro He. apply zstr_inj in He; lia.
    + change (u "65") with (zstr 65). intro He. apply zstr_inj in He; lia.
    + destruct (Hc _ Hi Hn) as [Hl _]. apply py_int_text. rewrite py_int_digits; auto using zstr_digits.
      * rewrite zstr_nonneg by assumption. destruct (dec_spec (Z.to_N f)) as (_ & Hv & _). rewrite Hv. f_equal. lia.
      * rewrite zstr_nonneg by assumption. apply dec_nonempty.
Qed.

Lemma plan_nodup sp bm1 bm2 bm3 : NoDup (plan sp bm1 bm2 bm3).
Proof.
  assert (Hsort : StronglySorted Z.lt (filter (announced bm1 bm2 bm3) data_fields)) by (apply filter_sorted, data_fields_sorted).
  assert (Hin : forall f, In f (filter (announced bm1 bm2 bm3) data_fields) -> In f data_fields)
    by (intros f Hf; apply filter_In in Hf; tauto).
  unfold plan. generalize dependent (filter (announced bm1 bm2 bm3) data_fields). intros fl Hsort Hin.
  assert (Hnd : NoDup (map zstr fl)).
  { apply zstr_nodup; [|now apply zsorted_nodup]. intros f Hf. apply Hin, data_fields_in in Hf. lia. }
  assert (Hn : forall k, In k (map zstr fl) -> k <> u "h" /\ k <> u "t" /\ k <> u "p" /\ k <> u "1").
  { intros k Hk. apply in_map_iff in Hk as (f & <- & Hf). apply Hin, zstr_name in Hf. tauto. }
  assert (A : NoDup ((if bit bm1 1 then [u "1"] else []) ++ map zstr fl)).
  { destruct (bit bm1 1); [|assumption]. constructor; [|assumption]. intro Hc. now apply Hn in Hc. }
  assert (Hn2 : forall k, In k ((if bit bm1 1 then [u "1"] else []) ++ map zstr fl) -> k <> u "h" /\ k <> u "t" /\ k <> u "p").
  { intros k Hk. apply in_app_iff in Hk as [Hk|Hk]; [|apply Hn in Hk; tauto]. destruct (bit bm1 1); [|contradiction].
    destruct Hk as [<-|[]]. repeat split; discriminate. }
  assert (B : NoDup (u "t" :: u "p" :: (if bit bm1 1 then [u "1"] else []) ++ map zstr fl)).
  { constructor; [|constructor; [|assumption]].
    - intros [Hc|Hc]; [discriminate|]. now apply Hn2 in Hc.
    - intro Hc. now apply Hn2 in Hc. }
  destruct (header_key_cases sp) as [->| ->]; [assumption|]. constructor; [|assumption].
  intros [Hc|[Hc|Hc]]; [discriminate..|]. now apply Hn2 in Hc.
Qed.
Lemma plan_in sp bm1 bm2 bm3 k : In k (plan sp bm1 bm2 bm3) <->
  (In k (header_key sp) \/ k = u "t" \/ k = u "p" \/ (k = u "1" /\ bit bm1 1 = true)
   \/ exists f, In f data_fields /\ announced bm1 bm2 bm3 f = true /\ k = zstr f).
Proof.
  unfold plan. assert (Hin : forall f, In f (filter (announced bm1 bm2 bm3) data_fields) <-> In f data_fields /\ announced bm1 bm2 bm3 f = true)
    by (intro f; apply filter_In).
  generalize dependent (filter (announced bm1 bm2 bm3) data_fields). intros fl Hin.
  rewrite in_app_iff. cbn [In]. rewrite in_app_iff, in_map_iff. split.
  - intros [H|[H|[H|[H|(f & H & Hf)]]]]; auto.
    + destruct (bit bm1 1); [|contradiction]. destruct H as [<-|[]]. do 3 right. left. auto.
    + do 4 right. exists f. apply Hin in Hf. split; [tauto|]. split; [tauto|congruence].
  - intros [H|[H|[H|[[H Hb]|(f & H & Hf & ->)]]]]; auto.
    + do 3 right. left. rewrite Hb. now left.
    + do 4 right. exists f. split; [reflexivity|]. apply Hin. auto.
Qed.

(** ** Inversion of [entry_sent] *)
Section Sent.
  Variables (E : pyenv) (sp : spec) (d : pdoc) (bm1 bm2 bm3 : bytes).
  Notation sent := (entry_sent E sp d bm1 bm2 bm3).
  Definition field_key (k : pystr) : Prop := k = u "h" \/ exists f, In f data_fields /\ k = zstr f.
  Lemma field_key_not k : field_key k -> k <> u "t" /\ k <> u "p" /\ k <> u "1" /\ k <> u "65".
  Proof. intros [->|(f & Hf & ->)]; [repeat split; discriminate|]. apply zstr_name in Hf. tauto. Qed.
  Lemma sent_field_inv k e : field_key k -> sent (k, e) ->
    exists fs v, sget k sp = Some fs /\ value d k = Some v /\ field_encodes E fs v (e_len e) (e_data e).
  Proof.
    intros Hk H. apply field_key_not in Hk. remember (k, e) as ke eqn:He. destruct H; injection He as <- <-; [|intuition congruence..].
    exists fs, v. auto.
  Qed.
  Lemma sent_type_inv e : sent (u "t", e) -> exists fs v, sget (u "t") sp = Some fs /\ value d (u "t") = Some v
    /\ e_len e = [] /\ type_encodes E fs v (e_data e).
  Proof.
    intros H. remember (u "t", e) as ke eqn:He. destruct H as [k fs v lenb data Hk| | | |]; [injection He as -> <-| |discriminate He..].
    - exfalso. apply field_key_not in Hk. tauto.
    - injection He as <-. cbn [e_len e_data]. eauto 8.
  Qed.
  Lemma sent_p_inv e : sent (u "p", e) -> exists fs, sget (u "p") sp = Some fs /\ e_len e = [] /\ bitmap_encodes E fs bm1 (e_data e).
  Proof.
    intros H. remember (u "p", e) as ke eqn:He. destruct H as [k fs v lenb data Hk| | | |]; [injection He as -> <-|discriminate He| |discriminate He..].
    - exfalso. apply field_key_not in Hk. tauto.
    - injection He as <-. cbn [e_len e_data]. eauto 8.
  Qed.
  Lemma sent_1_inv e : sent (u "1", e) -> exists fs d2 d3, sget (u "1") sp = Some fs /\ e_len e = [] /\ e_data e = d2 ++ d3
    /\ bitmap_encodes E fs bm2 d2 /\ if bit bm2 1 then bitmap_encodes E fs bm3 d3 else d3 = [].
  Proof.
    intros H. remember (u "1", e) as ke eqn:He. destruct H as [k fs v lenb data Hk| | |fs data Hb|fs d2 d3 Hb]; [injection He as -> <-|discriminate He|discriminate He| |].
    - exfalso. apply field_key_not in Hk. tauto.
    - injection He as <-. exists fs, data, []. rewrite Hb. cbn [e_len e_data]. rewrite app_nil_r. auto.
    - injection He as <-. exists fs, d2, d3. rewrite Hb. auto.
  Qed.
End Sent.

(** ** Entries of a successful encoding *)
Section Enc.
  Variables (E : pyenv) (sp : spec) (d : pdoc) (bm1 bm2 bm3 : bytes) (enc : edoc).
  Hypothesis Henc : encoding E sp d bm1 bm2 bm3 enc.
  Lemma enc_nodup : NoDup (map fst enc).
  Proof using Henc. destruct Henc as (_ & _ & -> & _). apply plan_nodup. Qed.
  Lemma enc_get k e : In (k, e) enc <-> sget k enc = Some e.
  Proof using Henc.
    split; [apply dget_in_nodup; [apply str_eqb_spec|apply enc_nodup]|apply dget_in, str_eqb_spec].
  Qed.
  Lemma enc_sent k e : sget k enc = Some e -> entry_sent E sp d bm1 bm2 bm3 (k, e).
  Proof using Henc. intro H. apply enc_get in H. destruct Henc as (_ & _ & _ & Hf). rewrite Forall_forall in Hf. auto. Qed.
  Lemma enc_has k : In k (plan sp bm1 bm2 bm3) -> exists e, sget k enc = Some e.
  Proof using Henc. intro H. destruct Henc as (_ & _ & Hp & _). rewrite <- Hp in H.
    now apply (dget_some_in str_eqb str_eqb_spec) in H. Qed.
  Lemma enc_none k : ~ In k (plan sp bm1 bm2 bm3) -> sget k enc = None.
  Proof using Henc. intro H. destruct Henc as (_ & _ & Hp & _). apply (dget_none str_eqb str_eqb_spec). now rewrite Hp. Qed.
  Lemma enc_bitmaps : sent_bitmaps E sp enc bm1 bm2 bm3.
  Proof using Henc.
    destruct Henc as (_ & (L1 & L2 & L3 & _) & _ & _). repeat (split; [assumption|]). split; [|split].
    - destruct (enc_has (u "p")) as [[l b] He]; [apply plan_in; auto|]. destruct (sent_p_inv _ _ _ _ _ _ _ (enc_sent _ _ He)) as (fs & H1 & H2 & H3).
      cbn [e_len e_data] in *. subst l. eauto.
    - intro Hb. apply enc_none. rewrite plan_in. intros [H|[H|[H|[[_ H]|(f & Hf & _ & H)]]]]; try discriminate.
      + destruct (header_key_cases sp) as [He|He]; rewrite He in H; [destruct H|destruct H as [H|[]]; discriminate].
      + congruence.
      + apply zstr_name in Hf. intuition congruence.
    - intro Hb. destruct (enc_has (u "1")) as [[l b] He]; [apply plan_in; auto 6|].
      destruct (sent_1_inv _ _ _ _ _ _ _ (enc_sent _ _ He)) as (fs & d2 & d3 & H1 & H2 & H3 & H4). cbn [e_len e_data] in *. subst. eauto 6.
  Qed.
End Enc.

Lemma announced_spec E d bm1 bm2 bm3 n : bitmaps_for E d bm1 bm2 bm3 -> (1 <= n <= 192)%Z ->
  (announced bm1 bm2 bm3 n = true <-> sends E d n).
Proof.
  intros (_ & _ & _ & H) Hn. unfold announced. destruct (n <=? 64)%Z eqn:E1; [apply H; lia|].
  destruct (n <=? 128)%Z eqn:E2.
  - destruct (H (n - 64)%Z ltac:(lia)) as (_ & A & _). rewrite A. replace (64 + (n - 64))%Z with n by lia. tauto.
  - destruct (H (n - 128)%Z ltac:(lia)) as (_ & _ & A). rewrite A. replace (128 + (n - 128))%Z with n by lia. tauto.
Qed.
Lemma sends_data E d n : data_field n -> (sends E d n <-> has_field E d n).
Proof. intro Hn. unfold sends, data_field in *. split; [|auto]. intros [H|[[H _]|[H _]]]; [assumption|lia|lia]. Qed.

(** C05 *)
Lemma encode_bitmaps E sp d s enc d' : env_ok E -> is_dict d -> canonical_keys E d ->
  encode E (ADict d) sp = (Ok (s, enc), d') ->
  exists bm1 bm2 bm3, sent_bitmaps E sp enc bm1 bm2 bm3
    /\ (forall n, data_field n -> (announced bm1 bm2 bm3 n = true <-> has_key d (zstr n)))
    /\ (bit bm1 1 = true <-> exists n, (66 <= n <= 192)%Z /\ has_key d (zstr n))
    /\ (bit bm2 1 = true <-> exists n, (129 <= n <= 192)%Z /\ has_key d (zstr n)).
Proof.
  intros HE Hd Hc H. apply encode_ok in H as (bm1 & bm2 & bm3 & He & _); [|assumption].
  exists bm1, bm2, bm3. split; [now apply enc_bitmaps with d|]. destruct He as (_ & Hb & _ & _).
  assert (Hf := fun f => canonical_field E d f HE Hc). split; [|split].
  - intros n Hn. rewrite (announced_spec E d) by (assumption || (unfold data_field in Hn; lia)). rewrite sends_data by assumption.
    rewrite Hf. unfold data_field in Hn. split; [tauto|]. intro. split; [assumption|lia].
  - destruct Hb as (_ & _ & _ & Hb). rewrite (proj1 (Hb 1%Z ltac:(lia))). unfold sends. split.
    + intros [H|[[H _]|(_ & g & Hg & H)]]; [apply Hf in H; lia|lia|]. apply Hf in H. exists g. split; [lia|tauto].
    + intros (n & Hn & Hk). right. right. split; [reflexivity|]. exists n. split; [lia|]. apply Hf. split; [assumption|lia].
  - destruct Hb as (_ & _ & _ & Hb). destruct (Hb 1%Z ltac:(lia)) as (_ & A & _). rewrite A. change (64 + 1)%Z with 65%Z. unfold sends. split.
    + intros [H|[(_ & g & Hg & H)|[H _]]]; [apply Hf in H; lia| |lia]. apply Hf in H. exists g. split; [lia|tauto].
    + intros (n & Hn & Hk). right. left. split; [reflexivity|]. exists n. split; [lia|]. apply Hf. split; [assumption|lia].
Qed.
(** The same without canonical keys. *)
Lemma encode_bitmaps_any E sp d s enc d' : is_dict d -> encode E (ADict d) sp = (Ok (s, enc), d') ->
  exists bm1 bm2 bm3, sent_bitmaps E sp enc bm1 bm2 bm3
    /\ (forall n, data_field n -> (announced bm1 bm2 bm3 n = true <-> has_field E d n))
    /\ (bit bm1 1 = true <-> has_field E d 1 \/ exists n, (65 <= n <= 192)%Z /\ has_field E d n)
    /\ (bit bm2 1 = true <-> has_field E d 65 \/ exists n, (129 <= n <= 192)%Z /\ has_field E d n).
Proof.
  intros Hd H. apply encode_ok in H as (bm1 & bm2 & bm3 & He & _); [|assumption].
  exists bm1, bm2, bm3. split; [now apply enc_bitmaps with d|]. destruct He as (_ & Hb & _ & _).
  split; [|split].
  - intros n Hn. rewrite (announced_spec E d) by (assumption || (unfold data_field in Hn; lia)). now rewrite sends_data by assumption.
  - destruct Hb as (_ & _ & _ & Hb). rewrite (proj1 (Hb 1%Z ltac:(lia))). unfold sends. split.
    + intros [H|[[H _]|(_ & g & Hg & H)]]; [auto|lia|eauto].
    + intros [H|(n & Hn & Hk)]; [auto|]. right. right. eauto.
  - destruct Hb as (_ & _ & _ & Hb). destruct (Hb 1%Z ltac:(lia)) as (_ & A & _). rewrite A. change (64 + 1)%Z with 65%Z. unfold sends. split.
    + intros [H|[(_ & g & Hg & H)|[H _]]]; [auto| eauto|lia].
    + intros [H|(n & Hn & Hk)]; [auto|]. right. left. eauto.
Qed.

(** C31 *)
Lemma encode_leaves_bitmaps E sp d s enc d' : env_ok E -> is_dict d -> canonical_keys E d ->
  encode E (ADict d) sp = (Ok (s, enc), d') ->
  exists bm1 bm2 bm3, sent_bitmaps E sp enc bm1 bm2 bm3
    /\ value d' (u "p") = Some (VStr (HEX bm1)) /\ ~ has_key d' (u "65")
    /\ (has_key d' (u "1") <-> exists n, (66 <= n <= 192)%Z /\ has_key d (zstr n))
    /\ ((exists n, (66 <= n <= 192)%Z /\ has_key d (zstr n)) ->
        (forall n, (129 <= n <= 192)%Z -> ~ has_key d (zstr n)) -> value d' (u "1") = Some (VStr (HEX bm2)))
    /\ ((exists n, (129 <= n <= 192)%Z /\ has_key d (zstr n)) -> value d' (u "1") = Some (VStr (HEX bm2 ++ HEX bm3))).
Proof.
  intros HE Hd Hc H. pose proof H as H0. apply encode_ok in H0 as (bm1 & bm2 & bm3 & He & _ & Hw); [|assumption].
  apply encode_bitmaps in H as (cm1 & cm2 & cm3 & Hs & _ & H1 & H2); auto. pose proof Hs as Hs'.
  assert (Hbb := He). destruct Hbb as (_ & Hb & _ & _). assert (Hf := fun f => canonical_field E d f HE Hc).
  assert (A1 : bit bm1 1 = true <-> exists n, (66 <= n <= 192)%Z /\ has_key d (zstr n)).
  { destruct Hb as (_ & _ & _ & Hb). rewrite (proj1 (Hb 1%Z ltac:(lia))). unfold sends. split.
    + intros [H|[[H _]|(_ & g & Hg & H)]]; [apply Hf in H; lia|lia|]. apply Hf in H. exists g. split; [lia|tauto].
    + intros (n & Hn & Hk). right. right. split; [reflexivity|]. exists n. split; [lia|]. apply Hf. split; [assumption|lia]. }
  assert (A2 : bit bm2 1 = true <-> exists n, (129 <= n <= 192)%Z /\ has_key d (zstr n)).
  { destruct Hb as (_ & _ & _ & Hb). destruct (Hb 1%Z ltac:(lia)) as (_ & A & _). rewrite A. change (64 + 1)%Z with 65%Z. unfold sends. split.
    + intros [H|[(_ & g & Hg & H)|[H _]]]; [apply Hf in H; lia| |lia]. apply Hf in H. exists g. split; [lia|tauto].
    + intros (n & Hn & Hk). right. left. split; [reflexivity|]. exists n. split; [lia|]. apply Hf. split; [assumption|lia]. }
  destruct (with_bitmaps_facts d bm1 bm2 bm3 Hd) as (_ & F1 & F2 & F3 & _). rewrite <- Hw in F1, F2, F3.
  exists bm1, bm2, bm3. split; [now apply enc_bitmaps with d|]. split; [assumption|]. split; [|split; [|split]].
  - unfold has_key. now apply (dget_none key_eqb key_eqb_spec).
  - rewrite <- A1. unfold has_key. rewrite (dget_some_in key_eqb key_eqb_spec). unfold value in F2. rewrite F2.
    destruct (bit bm1 1); split; intro H; eauto; [destruct H|]; discriminate.
  - intros B1 B2. rewrite F2. rewrite (proj2 A1 B1). destruct (bit bm2 1) eqn:Hb2; [|now rewrite app_nil_r].
    destruct (proj1 A2 eq_refl) as (n & Hn & Hk). exfalso. eapply B2; eauto.
  - intros (n & Hn & Hk). rewrite F2. rewrite (proj2 A1), (proj2 A2); [reflexivity|eauto|]. exists n. split; [lia|assumption].
Qed.

(** ** Failures *)
Lemma encode_error_truth E sp d e d' : is_dict d -> encode E (ADict d) sp = (Raise (XEncodeError e), d') ->
  ee_doc_dec e = d' /\ ee_args0 e = ee_msg e ++ u ": field " ++ ee_field e
  /\ exists bm1 bm2 bm3 done tail rest, bitmaps_for E d bm1 bm2 bm3
       /\ ee_doc_enc e = done ++ tail /\ Forall (entry_sent E sp d bm1 bm2 bm3) done
       /\ (tail = [] \/ exists x, tail = [(ee_field e, x)])
       /\ plan sp bm1 bm2 bm3 = map fst done ++ ee_field e :: rest.
Proof.
  intros Hd H. apply encode_fails in H as (k & bm1 & bm2 & bm3 & done & tail & rest & H1 & H2 & H3 & H4 & H5); [|assumption].
  inversion H5; subst.
  - cbn. split; [reflexivity|]. split; [reflexivity|]. exists bm1, bm2, bm3, done, tail, rest. auto.
  - exfalso. match goal with H : bad_value _ _ |- _ => destruct H as [_ [?|?]]; discriminate end.
Qed.

Lemma str_dict_value d k v : str_dict d -> value d k = Some v -> is_str v.
Proof. intros [_ H] Hv. apply (dget_in key_eqb key_eqb_spec) in Hv. now apply H in Hv. Qed.
Lemma plan_complete sp bm1 bm2 bm3 k : spec_complete sp -> In k (plan sp bm1 bm2 bm3) -> entry_complete sp k.
Proof.
  intros (C1 & C2 & C3 & C4 & C5) H. apply plan_in in H as [H|[->|[->|[[-> _]|(f & Hf & _ & ->)]]]]; auto.
  destruct (header_key_cases sp) as [He|He]; rewrite He in H; [destruct H|]. destruct H as [<-|[]]. assumption.
Qed.
Lemma encode_exceptions E sp d x d' : spec_complete sp -> str_dict d -> encode E (ADict d) sp = (Raise x, d') ->
  (exists e, x = XEncodeError e)
  \/ (exists n, data_field n /\ x = XKeyError (zstr n) /\ has_field E d n /\ ~ has_key d (zstr n))
  \/ (x = XValueError /\ exists k, has_key d k /\ isnumeric E k = true /\ not_int E k)
  \/ (x = XValueError /\ exists k, negative_width sp k \/ long_limit E sp k).
Proof.
  intros Hc Hd H. apply encode_fails in H as (k & bm1 & bm2 & bm3 & done & tail & rest & H1 & H2 & H3 & H4 & H5); [|apply Hd].
  inversion H5; subst.
  - eauto.
  - exfalso. apply H. eapply plan_complete; [eassumption|]. rewrite H2. apply in_app_iff. right. now left.
  - right. left. exists f. apply data_fields_in in H. split; [assumption|]. split; [reflexivity|]. split; [assumption|].
    now apply (dget_none key_eqb key_eqb_spec).
  - right. right. left. split; [reflexivity|]. eauto.
  - right. right. right. split; [reflexivity|]. eauto.
  - right. right. right. split; [reflexivity|]. eauto.
  - exfalso. destruct H0 as [H0 _]. apply H0. eapply str_dict_value; eauto.
Qed.
Lemma encode_only_encode_error E sp d x d' : env_ok E -> spec_complete sp -> widths_ok sp -> limits_ok E sp -> str_dict d -> canonical_keys E d ->
  encode E (ADict d) sp = (Raise x, d') -> exists e, x = XEncodeError e.
Proof.
  intros HE Hc Hw Hl0 Hd Hk H. apply encode_exceptions in H as [H|[(n & Hn & _ & H1 & H2)|[(_ & k & H1 & H2 & H3)|(_ & k & H1)]]]; auto; exfalso; [| |destruct H1 as [H1|H1]; [now apply Hw in H1|now apply Hl0 in H1]].
  - apply canonical_field in H1; auto. tauto.
  - destruct (Hk k H1 H2) as (Hl & n & Hn & ->). apply py_int_no_text in H3. rewrite py_int_digits in H3; auto using zstr_digits; [discriminate|].
    rewrite zstr_nonneg by assumption. apply dec_nonempty.
Qed.

(** ** Exactly the encodable messages *)
Lemma header_key_in sp : In (u "h") (header_key sp) <-> ~ header_off sp.
Proof.
  unfold header_key, header_off. destruct (sget (u "h") sp) as [fs|].
  - destruct (fs_max_len fs) as [ml|] eqn:Hm.
    + destruct (ml <=? 0)%Z eqn:Hl; split; intro H; try (now left).
      * destruct H.
      * exfalso. apply H. exists fs, ml. repeat split; auto. lia.
      * intros (fs' & ml' & [= <-] & Hm' & Hl'). assert (ml' = ml) by congruence. lia.
    + split; [|intros _; now left]. intros _ (fs' & ml' & [= <-] & Hm' & _). congruence.
  - split; [|intros _; now left]. intros _ (fs' & ml' & H & _). discriminate.
Qed.
Lemma header_on_off sp : header_on sp -> ~ header_off sp.
Proof. intros (fs & ml & H1 & H2 & H3) (fs' & ml' & G1 & G2 & G3). assert (fs' = fs) by congruence. subst. assert (ml' = ml) by congruence. lia. Qed.

Lemma not_numeric_keys E k : env_ok E -> k = u "h" \/ k = u "t" \/ k = u "p" -> isnumeric E k = false.
Proof. intros HE [->|[->| ->]]; now apply letter_not_numeric. Qed.

Lemma encode_success E sp d : env_ok E -> str_dict d -> canonical_keys E d -> bitmaps_sendable E sp ->
  header_on sp \/ header_off sp ->
  ((exists s enc d', encode E (ADict d) sp = (Ok (s, enc), d'))
   <-> type_encodable E sp d
       /\ (header_on sp -> encodable E sp d (u "h"))
       /\ (forall n, (0 <= n)%Z -> has_key d (zstr n) -> (1 <= n <= 192)%Z)
       /\ (forall n, data_field n -> has_key d (zstr n) -> encodable E sp d (zstr n))).
Proof.
  intros HE [Hd Hstr] Hc Hbs Hho. assert (Hf := fun f => canonical_field E d f HE Hc). split.
  - intros (s & enc & d' & H). apply encode_ok in H as (bm1 & bm2 & bm3 & He & _); [|assumption].
    assert (Hsent : forall k, In k (plan sp bm1 bm2 bm3) -> k = u "h" \/ (exists f, In f data_fields /\ k = zstr f) -> encodable E sp d k).
    { intros k Hi Hk. destruct (enc_has _ _ _ _ _ _ _ He k Hi) as [e Hg]. pose proof (enc_sent _ _ _ _ _ _ _ He _ _ Hg) as Hs.
      destruct (sent_field_inv _ _ _ _ _ _ _ _ Hk Hs) as (fs & v & A1 & A2 & A3). exists fs, v, (e_len e), (e_data e). auto. }
    split; [|split; [|split]].
    + destruct (enc_has _ _ _ _ _ _ _ He (u "t")) as [e Hg]; [apply plan_in; auto|].
      pose proof (enc_sent _ _ _ _ _ _ _ He _ _ Hg) as Hs. apply sent_type_inv in Hs as (fs & v & A1 & A2 & _ & A3). exists fs, v, (e_data e). auto.
    + intro Ho. apply Hsent; [|now left]. apply plan_in. left. now apply header_key_in, header_on_off.
    + intros n Hn Hk. destruct He as (Hko & _). destruct (Hko _ Hk) as (s' & [= <-] & Hr).
      destruct (Z.eq_dec n 65) as [->|N65]; [lia|]. destruct (Z.eq_dec n 1) as [->|N1]; [lia|].
      destruct (proj2 (Hf n) (conj Hk (conj Hn (conj N1 N65)))) as (k & Hi & M1 & M2 & Hnum & Hp).
      destruct (Hc k Hi Hnum) as (Hl & m & Hm & ->).
      assert (Hnn : zstr n <> u "1" /\ zstr n <> u "65").
      { split; intro Hx; [change (u "1") with (zstr 1) in Hx|change (u "65") with (zstr 65) in Hx]; apply zstr_inj in Hx; lia. }
      assert (Hnum' : isnumeric E (zstr n) = true).
      { apply isnumeric_digits; auto using zstr_digits. rewrite zstr_nonneg by assumption. apply dec_nonempty. }
      destruct Hnn as [Hx1 Hx2]. destruct (Hr Hx1 Hx2 Hnum') as (g & Hg & Hgr).
      apply py_int_text in Hg. rewrite py_int_digits in Hg; auto using zstr_digits.
      * rewrite zstr_nonneg in Hg by assumption. destruct (dec_spec (Z.to_N n)) as (_ & Hv & _). rewrite Hv in Hg. injection Hg as <-. lia.
      * rewrite zstr_nonneg by assumption. apply dec_nonempty.
      * apply (Hc (zstr n)); assumption.
    + intros n Hn Hk. apply Hsent.
      * apply plan_in. do 4 right. exists n. split; [now apply data_fields_in|]. split; [|reflexivity].
        destruct He as (_ & Hb & _). apply (announced_spec E d); [assumption|unfold data_field in Hn; lia|].
        apply sends_data; [assumption|]. apply Hf. unfold data_field in Hn. split; [assumption|lia].
      * right. exists n. split; [now apply data_fields_in|reflexivity].
  - intros (Ht & Hh & Hr & Hfl). destruct (bitmaps_exist E d) as (bm1 & bm2 & bm3 & Hb).
    assert (Hent : forall k, In k (plan sp bm1 bm2 bm3) -> exists e, entry_sent E sp d bm1 bm2 bm3 (k, e)).
    { destruct Hb as (L1 & L2 & L3 & Hb). intros k Hk. apply plan_in in Hk as [Hk|[->|[->|[[-> Hk]|(f & Hi & Ha & ->)]]]].
      - destruct (header_key_cases sp) as [He|He]; rewrite He in Hk; [destruct Hk|]. destruct Hk as [<-|[]].
        assert (Hon : header_on sp). { destruct Hho as [|Ho]; [assumption|]. exfalso. assert (Hx : In (u "h") (header_key sp)) by (rewrite He; now left).
          apply header_key_in in Hx. now apply Hx. }
        destruct (Hh Hon) as (fs & v & l & b & A1 & A2 & A3). exists (mkEntry l b). eapply SentField; eauto.
      - destruct Ht as (fs & v & b & A1 & A2 & A3). exists (mkEntry [] b). eapply SentType; eauto.
      - destruct (Hbs (u "p") bm1 (or_introl eq_refl) L1) as (fs & b & A1 & A2). exists (mkEntry [] b). eapply SentPrimary; eauto.
      - destruct (Hbs (u "1") bm2 (or_intror eq_refl) L2) as (fs & b & A1 & A2).
        destruct (Hbs (u "1") bm3 (or_intror eq_refl) L3) as (fs' & b' & A1' & A2'). assert (fs' = fs) by congruence. subst fs'.
        destruct (bit bm2 1) eqn:Hb2; [exists (mkEntry [] (b ++ b')); eapply SentTertiary; eauto|].
        exists (mkEntry [] b). eapply SentSecondary; eauto.
      - assert (Hdf : data_field f) by (now apply data_fields_in).
        apply (announced_spec E d) in Ha; [|repeat split; auto; apply Hb; assumption|unfold data_field in Hdf; lia].
        apply sends_data, Hf in Ha; [|assumption]. destruct (Hfl f Hdf) as (fs & v & l & b & A1 & A2 & A3); [tauto|].
        exists (mkEntry l b). eapply SentField; eauto. }
    assert (Hlist : forall ks, (forall k, In k ks -> exists e, entry_sent E sp d bm1 bm2 bm3 (k, e)) ->
       exists enc, map fst enc = ks /\ Forall (entry_sent E sp d bm1 bm2 bm3) enc).
    { clear. induction ks as [|k ks IH]; intro H; [exists []; auto|]. destruct IH as (enc & I1 & I2); [intros; apply H; now right|].
      destruct (H k) as [e He]; [now left|]. exists ((k, e) :: enc). cbn [map fst]. rewrite I1. auto. }
    destruct (Hlist _ Hent) as (enc & H1 & H2). exists (wire_bytes enc), enc, (with_bitmaps d bm1 bm2 bm3).
    apply encode_ok; [assumption|]. exists bm1, bm2, bm3. split; [|auto]. split; [|auto].
    intros k Hk. assert (Hks : exists s, k = KStr s).
    { apply in_map_iff in Hk as ([k' v] & <- & Hi). now apply Hstr in Hi. }
    destruct Hks as [s ->]. exists s. split; [reflexivity|]. intros N1 N65 Hn. destruct (Hc s Hk Hn) as (Hl & n & Hn0 & ->).
    exists n. split.
    + apply py_int_text. rewrite py_int_digits; auto using zstr_digits.
      * rewrite zstr_nonneg by assumption. destruct (dec_spec (Z.to_N n)) as (_ & Hv & _). rewrite Hv. f_equal. lia.
      * rewrite zstr_nonneg by assumption. apply dec_nonempty.
    + now apply Hr.
Qed.

(** ** Header *)
Lemma encode_header_missing E sp d : header_on sp -> ~ has_key d (u "h") ->
  exists d', encode E (ADict d) sp =
    (Raise (XEncodeError (EncodeError (u "Field data is required according to specifications") d' [] (u "h"))), d').
Proof.
  intros (fs & ml & H1 & H2 & H3) Hk. exists (pops d). unfold encode. rewrite encode_body_eq. unfold encode_header, bind at 1.
  unfold spec_get. rewrite H1. unfold ret at 1, bind at 1. rewrite H2. cbn [prop]. unfold ret at 1.
  replace (ml <=? 0)%Z with false by lia. unfold bind at 1, eread_dec. cbn [s_dec].
  assert (Hm : pmem (u "h") (pops d) = false).
  { unfold pmem, dmem. change (dget key_eqb (KStr (u "h")) (pops d)) with (pget (KStr (u "h")) (pops d)).
    rewrite pops_other by discriminate. unfold value. apply (dget_none key_eqb key_eqb_spec) in Hk. now rewrite Hk. }
  rewrite Hm. reflexivity.
Qed.
Lemma encode_header_present E sp d s enc d' : is_dict d -> encode E (ADict d) sp = (Ok (s, enc), d') ->
  (In (u "h") (map fst enc) <-> header_on sp) /\ (header_on sp \/ header_off sp).
Proof.
  intros Hd H. apply encode_ok in H as (bm1 & bm2 & bm3 & He & _); [|assumption].
  assert (Hin : In (u "h") (map fst enc) <-> In (u "h") (header_key sp)).
  { destruct He as (_ & _ & -> & _). rewrite plan_in. split; [|auto].
    intros [H|[H|[H|[[H _]|(f & Hf & _ & H)]]]]; try discriminate; [assumption|]. apply zstr_name in Hf. intuition congruence. }
  assert (Hdec : header_on sp \/ header_off sp).
  { destruct (header_key_cases sp) as [Hk|Hk].
    - right. unfold header_key in Hk. destruct (sget (u "h") sp) as [fs|] eqn:H1; [|discriminate]. destruct (fs_max_len fs) as [ml|] eqn:H2; [|discriminate].
      destruct (ml <=? 0)%Z eqn:H3; [|discriminate]. exists fs, ml. repeat split; auto. lia.
    - left. destruct (enc_has _ _ _ _ _ _ _ He (u "h")) as [e Hg]; [apply plan_in; left; rewrite Hk; now left|].
      pose proof (enc_sent _ _ _ _ _ _ _ He _ _ Hg) as Hs. apply sent_field_inv in Hs as (fs & v & A1 & _ & A3); [|now left].
      apply field_encodes_max in A3 as [ml Hm]. unfold header_key in Hk. rewrite A1, Hm in Hk. destruct (ml <=? 0)%Z eqn:H3; [discriminate|]. exists fs, ml. repeat split; auto. lia. }
  split; [|assumption]. rewrite Hin, header_key_in. split; [tauto|apply header_on_off].
Qed.
(** With the header off, "h" is just another key. *)
Lemma encode_header_ignored E sp d v s enc : env_ok E -> is_dict d -> header_off sp ->
  (encodes_to E sp d s enc <-> encodes_to E sp (dset key_eqb (KStr (u "h")) v d) s enc).
Proof.
  intros HE Hd Hoff. set (d2 := dset key_eqb (KStr (u "h")) v d).
  assert (Hd2 : is_dict d2) by (apply dset_nodup; [apply key_eqb_spec|assumption]).
  assert (Hg : forall k, k <> KStr (u "h") -> dget key_eqb k d2 = dget key_eqb k d) by (intros; apply dget_dset_other; auto using key_eqb_spec).
  assert (A : forall d1 d2 bm1 bm2 bm3, (forall k, k <> KStr (u "h") -> dget key_eqb k d2 = dget key_eqb k d1) ->
     encoding E sp d1 bm1 bm2 bm3 enc -> encoding E sp d2 bm1 bm2 bm3 enc).
  { clear d d2 Hd Hd2 Hg. intros d d2 bm1 bm2 bm3 Hg (H1 & H2 & H3 & H4).
    assert (Hn : isnumeric E (u "h") = false) by (apply not_numeric_keys; auto).
    assert (Hf : forall f, has_field E d f <-> has_field E d2 f).
    { intro f. unfold has_field. split; intros (k & Hi & N1 & N2 & Hnk & Hp); exists k; repeat (split; auto);
        (assert (Hkh : KStr k <> KStr (u "h")) by (intros [= ->]; congruence)); specialize (Hg (KStr k) Hkh); apply dget_keys in Hg; tauto. }
    assert (Hse : forall f, sends E d f <-> sends E d2 f).
    { intro f. unfold sends. rewrite Hf. split; (intros [H|[(-> & g & Hgg & H)|(-> & g & Hgg & H)]]; [auto|right; left|right; right]);
        (split; [reflexivity|]; exists g; split; [assumption|]; now apply Hf). }
    split; [|split; [|split; [assumption|]]].
    - intros k Hi. destruct (key_eqb_spec k (KStr (u "h"))) as [->|Hk]; [|apply H1; now rewrite <- (dget_keys _ _ _ (Hg k Hk))].
      exists (u "h"). split; [reflexivity|]. intros; congruence.
    - destruct H2 as (L1 & L2 & L3 & H2). repeat (split; [assumption|]). intros i Hi. rewrite <- !Hse. now apply H2.
    - apply Forall_forall. intros [k e] Hi. rewrite Forall_forall in H4. specialize (H4 _ Hi).
      assert (Hkh : k <> u "h").
      { intros ->. assert (Hi2 : In (u "h") (map fst enc)) by (change (u "h") with (fst (u "h", e)); now apply in_map).
        rewrite H3, plan_in in Hi2. destruct Hi2 as [H|[H|[H|[[H _]|(f & Hff & _ & H)]]]]; try discriminate.
        - apply header_key_in in H. now apply H.
        - apply zstr_name in Hff. intuition congruence. }
      assert (Hv : value d2 k = value d k) by (unfold value; apply Hg; congruence).
      inversion H4; subst.
      + eapply SentField; eauto. congruence.
      + eapply SentType; eauto. congruence.
      + eapply SentPrimary; eauto.
      + eapply SentSecondary; eauto.
      + eapply SentTertiary; eauto. }
  unfold encodes_to. split; intros [d' H].
  - apply encode_ok in H as (bm1 & bm2 & bm3 & He & Hs & _); [|assumption]. eexists. apply encode_ok; [assumption|].
    exists bm1, bm2, bm3. split; [|auto]. now apply (A d).
  - apply encode_ok in H as (bm1 & bm2 & bm3 & He & Hs & _); [|assumption]. eexists. apply encode_ok; [assumption|].
    exists bm1, bm2, bm3. split; [|auto]. apply (A d2); [|assumption]. intros k Hk. symmetry. auto.
Qed.

(** ** Bitmaps and iteration order *)
Lemma or_byte_comm i j v w bm : (v < 256)%N -> (w < 256)%N -> or_byte i v (or_byte j w bm) = or_byte j w (or_byte i v bm).
Proof.
  intros Hv Hw. revert i j. induction bm as [|b bm IH]; intros i j; [now destruct i, j|].
  destruct i, j; cbn [or_byte]; try reflexivity; [|now rewrite IH].
  f_equal. f_equal. pose proof (b2n_lt b). rewrite !b2n_n2b by (apply lor_lt256; assumption).
  rewrite <- !N.lor_assoc. f_equal. apply N.lor_comm.
Qed.
Lemma make_bitmap_perm off l l' : Permutation l l' -> make_bitmap off l = make_bitmap off l'.
Proof.
  intro H. unfold make_bitmap. generalize (repeat x00 8) as bm. induction H; intro bm; cbn [fold_left].
  - reflexivity.
  - apply IHPermutation.
  - f_equal. unfold set_bit. apply or_byte_comm; apply shiftl_lt256; lia.
  - congruence.
Qed.
