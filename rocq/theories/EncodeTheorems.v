(** * EncodeTheorems: consequences of the encoder characterisation. *)
From Coq Require Import ZifyBool ZifyNat ZifyN Sorted Permutation.
From Verif Require Import PyBase BaseFacts Types Decoder Encoder Wire WireEncode Claims DecoderFacts DecodeRun EncoderFacts EncodeRun EncodeWhole.
Ltac Zify.zify_post_hook ::= Z.div_mod_to_equations.
Local Opaque data_fields.

(** ** The dict left behind: content and shape *)
Lemma content_dset k v d : is_bitmap_key k = true -> content (dset key_eqb k v d) = content d.
Proof.
  intro Hk. unfold content. induction d as [|[k' v'] d IH]; cbn [dset filter fst negb].
  - now rewrite Hk.
  - destruct (key_eqb_spec k k') as [->|Hn]; cbn [filter fst].
    + now rewrite Hk.
    + rewrite IH. reflexivity.
Qed.
Lemma content_dpop k d : is_bitmap_key k = true -> content (dpop key_eqb k d) = content d.
Proof.
  intro Hk. unfold content. induction d as [|[k' v'] d IH]; cbn [dpop filter fst]; [reflexivity|].
  destruct (key_eqb_spec k k') as [->|Hn]; cbn [filter fst].
  - now rewrite Hk.
  - rewrite IH. reflexivity.
Qed.

(** [m] keeps the content of the dict, and keeps it a dict, whatever happens. *)
Definition keeps {A} (m : EM A) : Prop := forall st,
  content (s_dec (snd (m st))) = content (s_dec st) /\ (is_dict (s_dec st) -> is_dict (s_dec (snd (m st)))).
Lemma keeps_bind {A B} (m : EM A) (f : A -> EM B) : keeps m -> (forall a, keeps (f a)) -> keeps (bind m f).
Proof.
  intros Hm Hf st. unfold bind. specialize (Hm st). destruct (m st) as [[a|x] st1]; cbn [snd] in *; [|assumption].
  destruct Hm as [H1 H2]. destruct (Hf a st1) as [H3 H4]. split; [congruence|auto].
Qed.
Lemma keeps_same {A} (m : EM A) : (forall st, s_dec (snd (m st)) = s_dec st) -> keeps m.
Proof. intros H st. rewrite H. auto. Qed.
Lemma keeps_ret {A} (a : A) : keeps (ret a). Proof. now apply keeps_same. Qed.
Lemma keeps_raise {A} x : keeps (@raise exn estate A x). Proof. now apply keeps_same. Qed.
Lemma keeps_eraise {A} m k : keeps (@eraise A m k). Proof. now apply keeps_same. Qed.
Lemma keeps_formatted {A} E ns (m : EM A) : keeps m -> keeps (formatted E ns m).
Proof. intro H. unfold formatted. destruct (forallb _ _); [assumption|apply keeps_raise]. Qed.
Lemma keeps_set_enc k e : keeps (eset_enc k e). Proof. now apply keeps_same. Qed.
Lemma keeps_get_enc k : keeps (eget_enc k).
Proof. apply keeps_same. intro st. unfold eget_enc. destruct (sget k (s_enc st)); reflexivity. Qed.
Lemma keeps_get_dec k : keeps (eget_dec k).
Proof. apply keeps_same. intro st. unfold eget_dec. destruct (pget (KStr k) (s_dec st)); reflexivity. Qed.
Lemma keeps_read : keeps eread_dec. Proof. now apply keeps_same. Qed.
Lemma keeps_prop {A} (o : option A) n : keeps (prop o n).
Proof. destruct o; [apply keeps_ret|apply keeps_raise]. Qed.
Lemma keeps_spec sp k : keeps (spec_get sp k).
Proof. unfold spec_get. destruct (sget k sp); [apply keeps_ret|apply keeps_raise]. Qed.
Lemma keeps_set_dec k v : is_bitmap_key (KStr k) = true -> keeps (eset_dec k v).
Proof.
  intros Hk st. cbn [eset_dec snd s_dec]. split; [now apply content_dset|].
  apply dset_nodup, key_eqb_spec.
Qed.
Lemma keeps_pop_dec k : is_bitmap_key (KStr k) = true -> keeps (epop_dec k).
Proof.
  intros Hk st. cbn [epop_dec snd s_dec]. split; [now apply content_dpop|].
  apply dpop_nodup, key_eqb_spec.
Qed.
Create HintDb keeps.
Global Hint Resolve keeps_ret keeps_raise keeps_eraise keeps_formatted keeps_set_enc keeps_get_enc keeps_get_dec keeps_read keeps_prop keeps_spec : keeps.
Ltac keeps_step :=
  match goal with
  | |- keeps (bind _ _) => apply keeps_bind; [|intro]
  | |- keeps (if ?b then _ else _) => destruct b
  | |- keeps (match ?x with _ => _ end) => destruct x
  | |- keeps (let x := _ in _) => cbv zeta
  | |- keeps _ => solve [eauto with keeps]
  end.
Lemma keeps_set_enc_data k b : keeps (eset_enc_data k b).
Proof. unfold eset_enc_data. repeat keeps_step. Qed.
Lemma keeps_set_enc_len k b : keeps (eset_enc_len k b).
Proof. unfold eset_enc_len. repeat keeps_step. Qed.
Global Hint Resolve keeps_set_enc_data keeps_set_enc_len : keeps.
Lemma keeps_hex_failure {A} v k lc : keeps (@hex_failure A v k lc).
Proof. unfold hex_failure. repeat keeps_step. Qed.
Global Hint Resolve keeps_hex_failure : keeps.
Lemma keeps_binary v k fs lc : keeps (encode_binary_field v k fs lc).
Proof. unfold encode_binary_field. repeat keeps_step. Qed.
Lemma keeps_text E v k fs lc : keeps (encode_text_field E v k fs lc).
Proof. unfold encode_text_field. repeat keeps_step. Qed.
Global Hint Resolve keeps_binary keeps_text : keeps.
Lemma keeps_length E k fs lt n : keeps (encode_length E k fs lt n).
Proof. unfold encode_length. repeat keeps_step. Qed.
Global Hint Resolve keeps_length : keeps.
Lemma keeps_field E k fs : keeps (encode_field E k fs).
Proof. unfold encode_field. repeat keeps_step. Qed.
Global Hint Resolve keeps_field : keeps.
Lemma keeps_header E sp : keeps (encode_header E sp).
Proof. unfold encode_header. repeat keeps_step. Qed.
Lemma keeps_type E sp : keeps (encode_type E sp).
Proof. unfold encode_type. repeat keeps_step. Qed.
Lemma keeps_bitmap E k fs off b fields : is_bitmap_key (KStr k) = true -> keeps (encode_bitmap E k fs off b fields).
Proof. intro Hk. unfold encode_bitmap. repeat (keeps_step || (apply keeps_set_dec; assumption)). Qed.
Lemma keeps_fields E sp fl : forall s, keeps (encode_fields E sp fl s).
Proof. induction fl as [|f fl IH]; intro s; cbn [encode_fields]; repeat (keeps_step || apply IH). Qed.
Global Hint Resolve keeps_header keeps_type keeps_fields : keeps.
Lemma keeps_body E sp : keeps (encode_body E sp).
Proof.
  unfold encode_body. repeat (keeps_step || (apply keeps_pop_dec; reflexivity) || (apply keeps_bitmap; reflexivity)).
Qed.
Lemma encode_keeps E sp d : content (snd (encode E (ADict d) sp)) = content d
  /\ (is_dict d -> is_dict (snd (encode E (ADict d) sp))).
Proof.
  unfold encode. pose proof (keeps_body E sp (mkE d [])) as H.
  destruct (encode_body E sp (mkE d [])) as [[s|x] st]; exact H.
Qed.

(** ** Order of the message *)
Lemma header_key_cases sp : header_key sp = [] \/ header_key sp = [u "h"].
Proof. unfold header_key. destruct (sget (u "h") sp) as [fs|]; [|auto]. destruct (fs_max_len fs) as [ml|]; [|auto]. destruct (ml <=? 0)%Z; auto. Qed.
Lemma data_fields_sorted : StronglySorted Z.lt data_fields.
Proof.
  Local Transparent data_fields. unfold data_fields. Local Opaque data_fields.
  assert (A : forall l, StronglySorted lt l -> StronglySorted Z.lt (map Z.of_nat l)).
  { induction 1 as [|a l Hl IH Ha]; simpl; constructor; auto. rewrite Forall_map. eapply Forall_impl; [|exact Ha]. intros; lia. }
  apply A. assert (B : forall n a, StronglySorted lt (seq a n)).
  { induction n as [|n IH]; intro a; simpl; constructor; auto. apply Forall_forall. intros x Hx. apply in_seq in Hx. lia. }
  assert (C : forall a b, StronglySorted lt a -> StronglySorted lt b -> (forall x y, In x a -> In y b -> (x < y)%nat) -> StronglySorted lt (a ++ b)).
  { clear. induction a as [|x a IH]; intros b Ha Hb H; simpl; [assumption|]. inversion Ha; subst. constructor.
    - apply IH; auto. intros; apply H; simpl; auto.
    - apply Forall_app. split; [assumption|]. apply Forall_forall. intros y Hy. apply H; simpl; auto. }
  apply C; auto. intros x y Hx Hy. apply in_seq in Hx, Hy. lia.
Qed.
Lemma encode_order E sp d s enc d' : is_dict d -> encode E (ADict d) sp = (Ok (s, enc), d') ->
  s = wire_bytes enc /\ NoDup (map fst enc)
  /\ exists hs xs fields, map fst enc = hs ++ [u "t"; u "p"] ++ xs ++ map zstr fields
       /\ (hs = [] \/ hs = [u "h"]) /\ (xs = [] \/ xs = [u "1"])
       /\ StronglySorted Z.lt fields /\ Forall data_field fields.
Proof.
  intros Hd H. apply encode_ok in H as (bm1 & bm2 & bm3 & (_ & _ & Hpl & _) & Hs & _); [|assumption].
  split; [assumption|].
  assert (Hsort : StronglySorted Z.lt (filter (announced bm1 bm2 bm3) data_fields)) by (apply filter_sorted, data_fields_sorted).
  assert (Hin : forall f, In f (filter (announced bm1 bm2 bm3) data_fields) -> In f data_fields)
    by (intros f Hf; apply filter_In in Hf; tauto).
  rewrite Hpl. unfold plan. generalize dependent (filter (announced bm1 bm2 bm3) data_fields).
  intros fl Hsort Hin. clear Hpl. split.
  - assert (Hnd : NoDup (map zstr fl)).
    { apply zstr_nodup; [|now apply zsorted_nodup]. intros f Hf. apply Hin, data_fields_in in Hf. lia. }
    assert (Hn : forall k, In k (map zstr fl) -> k <> u "h" /\ k <> u "t" /\ k <> u "p" /\ k <> u "1").
    { intros k Hk. apply in_map_iff in Hk as (f & <- & Hf). apply Hin, zstr_name in Hf. tauto. }
    assert (A : NoDup ((if bit bm1 1 then [u "1"] else []) ++ map zstr fl)).
    { destruct (bit bm1 1); [|assumption]. constructor; [|assumption]. intro Hc. now apply Hn in Hc. }
    assert (Hn2 : forall k, In k ((if bit bm1 1 then [u "1"] else []) ++ map zstr fl) -> k <> u "h" /\ k <> u "t" /\ k <> u "p").
    { intros k Hk. apply in_app_iff in Hk as [Hk|Hk]; [|apply Hn in Hk; tauto]. destruct (bit bm1 1); [|contradiction].
      destruct Hk as [<-|[]]. repeat split; discriminate. }
    assert (B : NoDup (u "t" :: u "p" :: (if bit bm1 1 then [u "1"] else []) ++ map zstr fl)).
    { constructor; [|constructor; [|assumption]].
      - intros [Hc|Hc]; [discriminate|]. now apply Hn2 in Hc.
      - intro Hc. now apply Hn2 in Hc. }
    destruct (header_key_cases sp) as [->| ->]; [assumption|]. constructor; [|assumption].
    intros [Hc|[Hc|Hc]]; [discriminate..|]. now apply Hn2 in Hc.
  - exists (header_key sp), (if bit bm1 1 then [u "1"] else []), fl. split; [reflexivity|].
    split; [apply header_key_cases|]. split; [destruct (bit bm1 1); auto|]. split; [assumption|].
    apply Forall_forall. intros f Hf. now apply data_fields_in, Hin.
Qed.

(** ** Idempotence *)
Lemma with_bitmaps_facts d bm1 bm2 bm3 : is_dict d -> let d' := with_bitmaps d bm1 bm2 bm3 in
  with_bitmaps d' bm1 bm2 bm3 = d'
  /\ value d' (u "p") = Some (VStr (HEX bm1))
  /\ value d' (u "1") = (if bit bm1 1 then Some (VStr (HEX bm2 ++ if bit bm2 1 then HEX bm3 else [])) else None)
  /\ value d' (u "65") = None
  /\ forall k, is_bitmap_key k = false -> dget key_eqb k d' = dget key_eqb k d.
Proof.
  intros Hd. cbv zeta. unfold with_bitmaps at 2 3 4 5 6 7.
  set (d0 := dpop key_eqb (KStr (u "65")) (dpop key_eqb (KStr (u "1")) d)).
  assert (Hd1 : is_dict (dpop key_eqb (KStr (u "1")) d)) by (apply dpop_nodup; [apply key_eqb_spec|assumption]).
  assert (Hd0 : is_dict d0) by (apply dpop_nodup; [apply key_eqb_spec|assumption]).
  assert (Hk : forall k, In k (map fst d0) -> k <> KStr (u "1") /\ k <> KStr (u "65")).
  { intros k Hk. apply (pops_keys d k Hd) in Hk. tauto. }
  set (t2 := VStr (HEX bm2 ++ if bit bm2 1 then HEX bm3 else [])).
  set (dp := dset key_eqb (KStr (u "p")) (VStr (HEX bm1)) d0).
  assert (Hkp : forall k, In k (map fst dp) -> k <> KStr (u "1") /\ k <> KStr (u "65")).
  { intros k Hi. apply (in_dset_keys key_eqb key_eqb_spec) in Hi as [->|Hi]; [split; discriminate|auto]. }
  assert (N1 : ~ In (KStr (u "1")) (map fst dp)) by (intro Hc; now apply Hkp in Hc).
  assert (N65 : ~ In (KStr (u "65")) (map fst dp)) by (intro Hc; now apply Hkp in Hc).
  assert (Gp : dget key_eqb (KStr (u "p")) dp = Some (VStr (HEX bm1))) by (apply dget_dset_same, key_eqb_spec).
  assert (Go : forall k, is_bitmap_key k = false -> dget key_eqb k dp = dget key_eqb k d).
  { intros k Hb. unfold is_bitmap_key in Hb. rewrite !orb_false_iff in Hb. destruct Hb as [[B1 B2] B3].
    assert (A1 : k <> KStr (u "p")) by (intros ->; discriminate). assert (A2 : k <> KStr (u "1")) by (intros ->; discriminate).
    assert (A3 : k <> KStr (u "65")) by (intros ->; discriminate).
    unfold dp, d0. rewrite dget_dset_other, !dget_dpop_other; auto using key_eqb_spec. }
  destruct (bit bm1 1) eqn:Hb.
  - rewrite (dset_fresh key_eqb key_eqb_spec _ _ dp N1). repeat split.
    + unfold with_bitmaps. rewrite Hb. fold t2.
      assert (A : forall (l : pdoc) v, ~ In (KStr (u "1")) (map fst l) -> dpop key_eqb (KStr (u "1")) (l ++ [(KStr (u "1"), v)]) = l).
      { clear. induction l as [|[k v] l IH]; intros w H; [reflexivity|]. cbn [app dpop].
        destruct (key_eqb_spec (KStr (u "1")) k) as [<-|Hn]; [exfalso; apply H; now left|]. rewrite IH; [reflexivity|].
        intro Hc. apply H. now right. }
      rewrite A by assumption. rewrite (dpop_fresh key_eqb key_eqb_spec _ dp N65).
      rewrite (dset_same_id key_eqb key_eqb_spec _ _ dp Gp). apply (dset_fresh key_eqb key_eqb_spec _ _ dp N1).
    + unfold value. rewrite dget_app, Gp. reflexivity.
    + unfold value. rewrite dget_app. rewrite (proj2 (dget_none key_eqb key_eqb_spec _ dp) N1). reflexivity.
    + unfold value. rewrite dget_app. rewrite (proj2 (dget_none key_eqb key_eqb_spec _ dp) N65). reflexivity.
    + intros k Hk'. rewrite dget_app, (Go k Hk'). destruct (dget key_eqb k d); [reflexivity|]. cbn [dget].
      destruct (key_eqb_spec k (KStr (u "1"))) as [->|]; [discriminate|reflexivity].
  - repeat split; auto.
    + unfold with_bitmaps. rewrite Hb. rewrite (dpop_fresh key_eqb key_eqb_spec _ dp N1), (dpop_fresh key_eqb key_eqb_spec _ dp N65).
      apply (dset_same_id key_eqb key_eqb_spec _ _ dp Gp).
    + apply dget_none; [apply key_eqb_spec|assumption].
    + apply dget_none; [apply key_eqb_spec|assumption].
Qed.

(** ** Dependence on the content only *)
Lemma in_dget (d : pdoc) : is_dict d -> forall k v, In (k, v) d <-> dget key_eqb k d = Some v.
Proof. intros Hd k v. split; [now apply dget_in_nodup; [apply key_eqb_spec|]|apply dget_in, key_eqb_spec]. Qed.
Lemma same_content_get d1 d2 : is_dict d1 -> is_dict d2 ->
  (same_content d1 d2 <-> forall k, is_bitmap_key k = false -> dget key_eqb k d1 = dget key_eqb k d2).
Proof.
  intros H1 H2. unfold same_content. split; intros H k.
  - intro Hb. destruct (dget key_eqb k d1) as [v|] eqn:Hv.
    + apply in_dget in Hv; [|assumption]. apply H in Hv; [|assumption]. now apply in_dget in Hv.
    + destruct (dget key_eqb k d2) as [w|] eqn:Hw; [|reflexivity]. apply in_dget in Hw; [|assumption].
      apply H in Hw; [|assumption]. apply in_dget in Hw; [|assumption]. congruence.
  - intros v Hb. rewrite !in_dget by assumption. now rewrite (H k Hb).
Qed.
Lemma dget_keys (d1 d2 : pdoc) k : dget key_eqb k d1 = dget key_eqb k d2 -> (In k (map fst d1) <-> In k (map fst d2)).
Proof. intro H. rewrite !(dget_some_in key_eqb key_eqb_spec), H. tauto. Qed.
Lemma letter_not_numeric E c : env_ok E -> (c < 128)%N -> is_digit c = false -> isnumeric E [c] = false.
Proof. intros HE H1 H2. unfold isnumeric. cbn [forallb]. rewrite (proj1 HE) by assumption. now rewrite H2. Qed.
Lemma p_not_numeric E : env_ok E -> isnumeric E (u "p") = false.
Proof. intro HE. now apply letter_not_numeric. Qed.
Lemma bitmap_key_cases k : is_bitmap_key k = true -> k = KStr (u "p") \/ k = KStr (u "1") \/ k = KStr (u "65").
Proof.
  unfold is_bitmap_key. rewrite !orb_true_iff. intros [[H|H]|H]; [left|right; left|right; right].
  - now destruct (key_eqb_spec (KStr (u "p")) k).
  - now destruct (key_eqb_spec (KStr (u "1")) k).
  - now destruct (key_eqb_spec (KStr (u "65")) k).
Qed.
Lemma str_key_not_bitmap k : k <> u "p" -> k <> u "1" -> k <> u "65" -> is_bitmap_key (KStr k) = false.
Proof.
  intros H1 H2 H3. destruct (is_bitmap_key (KStr k)) eqn:H; [|reflexivity].
  apply bitmap_key_cases in H as [[= H]|[[= H]|[= H]]]; subst k; exfalso; [apply H1|apply H2|apply H3]; reflexivity.
Qed.

Section Same.
  Variables (E : pyenv) (sp : spec) (d1 d2 : pdoc).
  Hypothesis HE : env_ok E.
  Hypothesis Hsame : forall k, is_bitmap_key k = false -> dget key_eqb k d1 = dget key_eqb k d2.
  Lemma same_has_field f : has_field E d1 f -> has_field E d2 f.
  Proof using HE Hsame.
    intros (k & Hi & N1 & N65 & Hn & Hp). exists k. repeat (split; auto).
    apply (dget_keys d1 d2 (KStr k)); [|assumption]. apply Hsame, str_key_not_bitmap; auto.
    intros ->. rewrite p_not_numeric in Hn by assumption. discriminate.
  Qed.
  Lemma same_keys_ok : keys_ok E d2 -> keys_ok E d1.
  Proof using HE Hsame.
    intros H k Hi. destruct (is_bitmap_key k) eqn:Hb.
    - apply bitmap_key_cases in Hb as [->|[->| ->]]; eexists; (split; [reflexivity|]); intros M1 M2 Hn.
      + rewrite p_not_numeric in Hn by assumption. discriminate.
      + now destruct M1.
      + now destruct M2.
    - apply H. apply (dget_keys d1 d2 k); auto.
  Qed.
  Lemma same_value k : k <> u "p" -> k <> u "1" -> k <> u "65" -> value d1 k = value d2 k.
  Proof using Hsame. intros. apply Hsame, str_key_not_bitmap; assumption. Qed.
End Same.
Lemma same_encoding E sp d1 d2 bm1 bm2 bm3 enc : env_ok E ->
  (forall k, is_bitmap_key k = false -> dget key_eqb k d1 = dget key_eqb k d2) ->
  encoding E sp d1 bm1 bm2 bm3 enc -> encoding E sp d2 bm1 bm2 bm3 enc.
Proof.
  intros HE Hs (H1 & H2 & H3 & H4).
  assert (Hs' : forall k, is_bitmap_key k = false -> dget key_eqb k d2 = dget key_eqb k d1) by (intros; symmetry; auto).
  assert (Hf : forall f, has_field E d1 f <-> has_field E d2 f) by (intro f; split; eapply same_has_field; eauto).
  assert (Hse : forall f, sends E d1 f <-> sends E d2 f).
  { intro f. unfold sends. rewrite Hf. split; (intros [H|[(-> & g & Hg & H)|(-> & g & Hg & H)]]; [auto|right; left|right; right]);
      (split; [reflexivity|]; exists g; split; [assumption|]; now apply Hf). }
  split; [eapply same_keys_ok; eauto|]. split.
  - destruct H2 as (L1 & L2 & L3 & H2). repeat (split; [assumption|]). intros i Hi. rewrite <- !Hse. now apply H2.
  - split; [assumption|]. eapply Forall_impl; [|exact H4]. intros [k e] H. inversion H; subst.
    + econstructor; eauto. rewrite <- (same_value d1 d2); auto.
      * destruct H6 as [->|(f & Hf' & ->)]; [discriminate|]. apply zstr_name in Hf'. tauto.
      * destruct H6 as [->|(f & Hf' & ->)]; [discriminate|]. apply zstr_name in Hf'. tauto.
      * destruct H6 as [->|(f & Hf' & ->)]; [discriminate|]. apply zstr_name in Hf'. tauto.
    + eapply SentType; eauto. rewrite <- (same_value d1 d2); auto; discriminate.
    + eapply SentPrimary; eauto.
    + eapply SentSecondary; eauto.
    + eapply SentTertiary; eauto.
Qed.

Lemma encode_idempotent E sp d s enc d' : env_ok E -> is_dict d ->
  encode E (ADict d) sp = (Ok (s, enc), d') -> encode E (ADict d') sp = (Ok (s, enc), d').
Proof.
  intros HE Hd H. pose proof (encode_keeps E sp d) as [_ Hd']. rewrite H in Hd'. cbn [snd] in Hd'. specialize (Hd' Hd).
  apply encode_ok in H as (bm1 & bm2 & bm3 & He & Hs & Hw); [|assumption].
  destruct (with_bitmaps_facts d bm1 bm2 bm3 Hd) as (F1 & _ & _ & _ & F2). cbv zeta in *. rewrite <- Hw in F1, F2.
  apply encode_ok; [assumption|]. exists bm1, bm2, bm3. split; [|auto].
  eapply same_encoding; [assumption| |exact He]. intros k Hk. now rewrite F2.
Qed.

Lemma encode_content E sp d1 d2 s enc : env_ok E -> is_dict d1 -> is_dict d2 -> same_content d1 d2 ->
  (encodes_to E sp d1 s enc <-> encodes_to E sp d2 s enc).
Proof.
  intros HE H1 H2 Hs. assert (Hg := proj1 (same_content_get d1 d2 H1 H2) Hs). unfold encodes_to. split; intros [d' H].
  - apply encode_ok in H as (bm1 & bm2 & bm3 & He & Hb & _); [|assumption]. eexists. apply encode_ok; [assumption|].
    exists bm1, bm2, bm3. split; [|auto]. eapply same_encoding; eauto.
  - apply encode_ok in H as (bm1 & bm2 & bm3 & He & Hb & _); [|assumption]. eexists. apply encode_ok; [assumption|].
    exists bm1, bm2, bm3. split; [|auto]. eapply same_encoding; [assumption| |exact He]. intros; symmetry; auto.
Qed.

Lemma content_same d1 d2 : content d1 = content d2 -> same_content d1 d2.
Proof.
  intros H k v Hb. assert (A : forall d : pdoc, In (k, v) d <-> In (k, v) (content d)).
  { intro d. unfold content. rewrite filter_In. cbn [fst]. rewrite Hb. tauto. }
  now rewrite (A d1), (A d2), H.
Qed.
Lemma content_put k v d : content (dset key_eqb k v d) =
  if is_bitmap_key k then content d else dset key_eqb k v (content d).
Proof.
  destruct (is_bitmap_key k) eqn:Hk; [now apply content_dset|]. unfold content.
  induction d as [|[k' v'] d IH]; cbn [dset filter fst negb].
  - rewrite Hk. reflexivity.
  - destruct (key_eqb_spec k k') as [->|Hn]; cbn [filter fst].
    + rewrite Hk. cbn [negb dset]. destruct (key_eqb_spec k' k'); congruence.
    + rewrite IH. destruct (is_bitmap_key k'); cbn [negb dset]; [reflexivity|]. destruct (key_eqb_spec k k'); congruence.
Qed.
Lemma content_del k d : content (dpop key_eqb k d) =
  if is_bitmap_key k then content d else dpop key_eqb k (content d).
Proof.
  destruct (is_bitmap_key k) eqn:Hk; [now apply content_dpop|]. unfold content.
  induction d as [|[k' v'] d IH]; cbn [dpop filter fst negb]; [reflexivity|].
  destruct (key_eqb_spec k k') as [->|Hn]; cbn [filter fst].
  - rewrite Hk. cbn [negb dpop]. destruct (key_eqb_spec k' k'); congruence.
  - rewrite IH. destruct (is_bitmap_key k'); cbn [negb dpop]; [reflexivity|]. destruct (key_eqb_spec k k'); congruence.
Qed.
Lemma step_content E o d1 d2 : content d1 = content d2 -> content (step E d1 o) = content (step E d2 o).
Proof.
  intro H. destruct o as [k v|k|sp]; cbn [step].
  - now rewrite !content_put, H.
  - now rewrite !content_del, H.
  - now rewrite !(proj1 (encode_keeps _ _ _)).
Qed.
Lemma history_content E ops : forall d1 d2, content d1 = content d2 ->
  content (history E ops d1) = content (history E (edits ops) d2).
Proof.
  induction ops as [|o ops IH]; intros d1 d2 H; [assumption|].
  cbn [edits filter]. destruct o as [k v|k|sp]; cbn [is_edit].
  - cbn [history fold_left]. apply IH. now apply step_content.
  - cbn [history fold_left]. apply IH. now apply step_content.
  - change (history E (Enc sp :: ops) d1) with (history E ops (step E d1 (Enc sp))). apply IH.
    cbn [step]. rewrite (proj1 (encode_keeps _ _ _)). assumption.
Qed.
Lemma history_dict E ops : forall d, is_dict d -> is_dict (history E ops d).
Proof.
  induction ops as [|o ops IH]; intros d H; [assumption|]. cbn [history fold_left]. apply IH. destruct o; cbn [step].
  - apply dset_nodup; [apply key_eqb_spec|assumption].
  - apply dpop_nodup; [apply key_eqb_spec|assumption].
  - now apply encode_keeps.
Qed.
Lemma encode_history E sp ops d s enc : env_ok E -> is_dict d ->
  (encodes_to E sp (history E ops d) s enc <-> encodes_to E sp (history E (edits ops) d) s enc).
Proof.
  intros HE Hd. apply encode_content; auto using history_dict. apply content_same. now apply history_content.
Qed.
