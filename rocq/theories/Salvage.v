(** * Salvage: what was read before a DecodeError is a message of its own. *)
From Coq Require Import Sorted.
From Verif Require Import PyBase BaseFacts Types Numerals NumeralFacts Texts Decoder Encoder Wire WireEncode DecodeFault Claims Claims8 Claims10.
From Verif Require Import DecoderFacts DecodeRun DecodeTheorems EncoderFacts EncodeRun EncodeWhole EncodeTheorems EncodeTheorems2 EncodeTheorems3 DecodeFaultFacts.
From Verif Require Import Roundtrip Roundtrip2 Roundtrip3 Replace2 Forward Remove Repair.
Local Opaque data_fields.

(** The completely read segments, once the type was read. *)
Definition good_start (E : pyenv) (sp : spec) (segs : list segment) : Prop :=
  exists hs t bs fields done, segs = hs ++ t :: bs ++ fields /\ header_part E sp hs /\ type_part E sp t
    /\ Forall (fun sg => sg_key sg = u "p" \/ sg_key sg = u "1") bs
    /\ map sg_key fields = map zstr done /\ StronglySorted Z.lt done /\ incl done data_fields
    /\ Forall (field_segment E sp) fields.

Lemma sorted_prefix a b : StronglySorted Z.lt (a ++ b) -> StronglySorted Z.lt a.
Proof.
  induction a as [|x a IH]; [constructor|]. cbn [app]. intro H. inversion H as [|? ? Hs Hf]; subst. constructor; [auto|].
  rewrite Forall_forall in *. intros y Hy. apply Hf, in_or_app. auto.
Qed.
Lemma extra_keys E sp bm1 xs bm2 bm3 : extra_part E sp bm1 xs bm2 bm3 -> xs = [] \/ exists sg, xs = [sg] /\ sg_key sg = u "1".
Proof. intros [|fs sg b2 _ _ H|fs sg d2 t2 b2 d3 t3 b3 _ _ H]; eauto. Qed.

Lemma fault_start E sp input msg pos segs last : decode_fault E sp input msg pos segs last ->
  sg_key last <> u "h" -> sg_key last <> u "t" -> good_start E sp segs.
Proof.
  intros H Nh Nt. destruct H as [fs ml msg off lenb data text A1 A2 A3 A4|hs rest fs msg data A1 A2 A3 A4
    |hs t rest fs msg data text A1 A2 A3 A4 A5|hs t p bm1 rest fs msg data text A1 A2 A3 A4 A5 A6 A7
    |hs t p bm1 d2 t2 bm2 rest fs msg data text A1 A2 A3 A4 A5 A6 A7 A8 A9
    |hs t p xs bm1 bm2 bm3 done f todo segs rest fs msg off lenb data text A1 A2 A3 A4 A5 A6 A7 A8 A9 A10
    |segs last rest (hs & t & p & xs & fields & bm1 & bm2 & bm3 & M1 & M2 & M3 & M4 & M5 & M6 & M7) A2 A3]; cbn [sg_key] in *; try congruence.
  - exists hs, t, [], [], []. do 6 (split; [first [assumption|reflexivity|constructor]|]). split; [apply incl_nil_l|constructor].
  - exists hs, t, [p], [], []. split; [reflexivity|]. do 2 (split; [assumption|]).
    split; [constructor; [left; now destruct A3 as (? & _ & ? & _)|constructor]|]. split; [reflexivity|]. split; [constructor|]. split; [apply incl_nil_l|constructor].
  - exists hs, t, [p], [], []. split; [reflexivity|]. do 2 (split; [assumption|]).
    split; [constructor; [left; now destruct A3 as (? & _ & ? & _)|constructor]|]. split; [reflexivity|]. split; [constructor|]. split; [apply incl_nil_l|constructor].
  - exists hs, t, (p :: xs), segs, done. split; [reflexivity|]. split; [assumption|]. split; [assumption|].
    split; [constructor; [left; now destruct A3 as (? & _ & ? & _)|]; apply extra_keys in A4 as [->|(sg & -> & Hx)]; [constructor|constructor; [auto|constructor]]|].
    split; [assumption|]. pose proof (filter_sorted (announced bm1 bm2 bm3) _ data_fields_sorted) as Hs. rewrite A5 in Hs.
    split; [exact (sorted_prefix _ _ Hs)|]. split; [|assumption]. intros x Hx.
    assert (Hi : In x (done ++ f :: todo)) by (apply in_or_app; auto). rewrite <- A5 in Hi. apply filter_In in Hi. tauto.
  - assert (Hp : sg_key p = u "p") by now destruct M4 as (? & _ & ? & _).
    destruct fields as [|fd fields _] using rev_ind.
    + apply extra_keys in M5 as [->|(sg & -> & Hx)].
      * rewrite app_nil_r in M1. change (t :: p :: []) with ([t] ++ [p]) in M1. rewrite app_assoc in M1. apply app_inj_tail in M1 as [-> ->].
        exists hs, t, [], [], []. do 6 (split; [first [assumption|reflexivity|constructor]|]). split; [apply incl_nil_l|constructor].
      * change (t :: p :: [sg] ++ []) with ([t; p] ++ [sg]) in M1. rewrite app_assoc in M1. apply app_inj_tail in M1 as [-> ->].
        exists hs, t, [p], [], []. split; [reflexivity|]. do 2 (split; [assumption|]).
        split; [constructor; [auto|constructor]|]. split; [reflexivity|]. split; [constructor|]. split; [apply incl_nil_l|constructor].
    + change (t :: p :: xs ++ fields ++ [fd]) with ([t; p] ++ xs ++ fields ++ [fd]) in M1. rewrite !app_assoc in M1. apply app_inj_tail in M1 as [-> <-].
      rewrite map_app in M6. cbn [map] in M6. symmetry in M6. apply map_eq_app in M6 as (done & l2 & F1 & F2 & F3).
      exists hs, t, (p :: xs), fields, done. split; [now rewrite <- !app_assoc|]. split; [assumption|]. split; [assumption|].
      split; [constructor; [auto|]; apply extra_keys in M5 as [->|(sg & -> & Hx)]; [constructor|constructor; [auto|constructor]]|].
      split; [now symmetry|]. pose proof (filter_sorted (announced bm1 bm2 bm3) _ data_fields_sorted) as Hs. rewrite F1 in Hs.
      split; [exact (sorted_prefix _ _ Hs)|]. split; [|now apply Forall_app in M7]. intros x Hx.
      assert (Hi : In x (done ++ l2)) by (apply in_or_app; auto). rewrite <- F1 in Hi. apply filter_In in Hi. tauto.
Qed.

Lemma sorted_same (a b : list Z) : StronglySorted Z.lt a -> StronglySorted Z.lt b -> (forall x, In x a <-> In x b) -> a = b.
Proof.
  revert b. induction a as [|x a IH]; intros b Ha Hb H.
  - destruct b as [|y b]; [reflexivity|]. exfalso. apply (H y). now left.
  - destruct b as [|y b]; [exfalso; apply (H x); now left|].
    inversion Ha as [|? ? Ha' Fa]; subst. inversion Hb as [|? ? Hb' Fb]; subst. rewrite Forall_forall in Fa, Fb.
    assert (x = y).
    { destruct (proj1 (H x) (or_introl eq_refl)) as [->|Hx]; [reflexivity|]. destruct (proj2 (H y) (or_introl eq_refl)) as [->|Hy]; [reflexivity|].
      specialize (Fa _ Hy). specialize (Fb _ Hx). lia. }
    subst y. f_equal. apply IH; auto. intro z. split; intro Hz.
    + destruct (proj1 (H z) (or_intror Hz)) as [<-|Hx]; [|assumption]. specialize (Fa _ Hz). lia.
    + destruct (proj2 (H z) (or_intror Hz)) as [<-|Hx]; [|assumption]. specialize (Fb _ Hz). lia.
Qed.

Section Start.
  Variables (E : pyenv) (sp : spec) (segs : list segment).
  Hypotheses (HE : env_ok E) (Hfs : faithful_spec E sp) (Hb : bitmaps_sendable E sp)
    (Hg : good_start E sp segs) (Hn : NoDup (map sg_key segs)).
  Hypothesis Hc : forall sg fs, In sg segs -> sg_key sg <> u "t" -> sg_key sg <> u "p" -> sg_key sg <> u "1" ->
    sget (sg_key sg) sp = Some fs -> canonical_entry E fs (sg_len sg) (sg_data sg) (sg_text sg).
  Let d := as_dict (dec_of segs).

  Lemma start_keys sg : In sg segs -> sg_key sg = u "h" /\ header_on sp /\ field_segment E sp sg
    \/ sg_key sg = u "t" /\ type_part E sp sg \/ sg_key sg = u "p" \/ sg_key sg = u "1"
    \/ (exists f, In f data_fields /\ sg_key sg = zstr f) /\ field_segment E sp sg.
  Proof.
    clear d Hc Hn. destruct Hg as (hs & t & bs & fields & done & -> & G1 & G2 & G3 & G4 & G5 & G6 & G7). rewrite in_app_iff. cbn [In]. rewrite in_app_iff.
    intros [H|[<-|[H|H]]].
    - left. destruct G1 as [fs ml A1 A2 A3|fs ml sg' A1 A2 A3 A4 A5]; [destruct H|]. destruct H as [<-|[]]. split; [assumption|]. split; [|assumption]. exists fs, ml. auto.
    - right. left. split; [|assumption]. now destruct G2 as (? & _ & ? & _).
    - rewrite Forall_forall in G3. destruct (G3 _ H); auto 6.
    - do 4 right. rewrite Forall_forall in G7. split; [|auto]. assert (Hi : In (sg_key sg) (map zstr done)) by (rewrite <- G4; now apply in_map).
      apply in_map_iff in Hi as (f & Hf & Hi). exists f. split; [now apply G6|now symmetry].
  Qed.
  Lemma start_dict : str_dict d /\ canonical_keys E d /\ forall n, (0 <= n)%Z -> has_key d (zstr n) -> n = 1%Z \/ data_field n.
  Proof.
    clear Hc Hb Hfs.
    split; [|split].
    - split; [unfold d; apply as_dict_is; now rewrite keys_dec|]. intros k v Hi. apply in_map_iff in Hi as ([k' t] & Hx & _). injection Hx as <- <-.
      split; eexists; reflexivity.
    - intros k Hk Hnum. unfold d in Hk. apply as_dict_has in Hk. rewrite keys_dec in Hk. apply in_map_iff in Hk as (sg & <- & Hi).
      apply start_keys in Hi as [[Hi _]|[[Hi _]|[Hi|[Hi|[(f & Hf & Hi) _]]]]]; rewrite Hi in *.
      + rewrite not_numeric_keys in Hnum; auto; discriminate.
      + rewrite not_numeric_keys in Hnum; auto; discriminate.
      + rewrite not_numeric_keys in Hnum; auto; discriminate.
      + split; [apply (short_keys 1); lia|]. exists 1%Z. split; [lia|reflexivity].
      + apply data_fields_in in Hf. split; [apply short_keys; lia|]. exists f. split; [lia|reflexivity].
    - intros n H0 Hk. unfold d in Hk. apply as_dict_has in Hk. rewrite keys_dec in Hk. apply in_map_iff in Hk as (sg & Hk & Hi).
      apply start_keys in Hi as [[Hi _]|[[Hi _]|[Hi|[Hi|[(f & Hf & Hi) _]]]]]; rewrite Hi in Hk; symmetry in Hk.
      + exfalso. exact (zstr_neq_h n H0 Hk).
      + exfalso. exact (zstr_neq_t n H0 Hk).
      + exfalso. exact (zstr_neq_p n H0 Hk).
      + left. change (u "1") with (zstr 1) in Hk. apply zstr_inj in Hk; lia.
      + right. apply data_fields_in in Hf. apply zstr_inj in Hk; [subst; exact Hf|lia|lia].
  Qed.
  Lemma start_value sg : In sg segs -> value d (sg_key sg) = Some (VStr (sg_text sg)).
  Proof. intro H. unfold d. rewrite as_dict_value, sget_dec; auto. Qed.
  Lemma start_field sg : In sg segs -> sg_key sg <> u "t" -> sg_key sg <> u "p" -> sg_key sg <> u "1" ->
    exists fs, sget (sg_key sg) sp = Some fs /\ field_encodes E fs (VStr (sg_text sg)) (sg_len sg) (sg_data sg).
  Proof.
    intros H N1 N2 N3. assert (Hs : field_segment E sp sg) by (apply start_keys in H; intuition congruence).
    destruct Hs as (fs & Hk & Hw). exists fs. split; [assumption|]. destruct (Hfs _ _ Hk) as [(de & Hde & Hx) Hl].
    apply field_rewrite with de; auto. tauto.
  Qed.
  Lemma start_has : (header_on sp -> exists sg, In sg segs /\ sg_key sg = u "h") /\ exists sg, In sg segs /\ sg_key sg = u "t" /\ type_part E sp sg.
  Proof.
    clear d Hc Hn. destruct Hg as (hs & t & bs & fields & done & -> & G1 & G2 & _). split.
    - intros (fs & ml & A1 & A2 & A3). destruct G1 as [fs' ml' B1 B2 B3|fs' ml' sg B1 B2 B3 B4 B5].
      + assert (fs' = fs) by congruence. subst. assert (ml' = ml) by congruence. lia.
      + exists sg. split; [|assumption]. apply in_or_app. left. now left.
    - exists t. split; [apply in_or_app; right; now left|]. split; [now destruct G2 as (? & _ & ? & _)|assumption].
  Qed.
  Lemma start_header : header_on sp \/ header_off sp.
  Proof.
    clear d Hc Hn. destruct Hg as (hs & t & bs & fields & done & _ & G1 & _).
    destruct G1 as [fs ml B1 B2 B3|fs ml sg B1 B2 B3 B4 B5]; [right|left]; exists fs, ml; auto.
  Qed.
  Lemma start_encodes : exists s enc d', encode E (ADict d) sp = (Ok (s, enc), d').
  Proof.
    destruct start_dict as (D1 & D2 & D3). destruct start_has as (T1 & (tg & T2 & T3 & T4)). apply encode_success; auto using start_header.
    assert (F : forall k, k <> u "t" -> k <> u "p" -> k <> u "1" -> In k (map sg_key segs) -> encodable E sp d k).
    { intros k N1 N2 N3 Hi. apply in_map_iff in Hi as (sg & <- & Hi). destruct (start_field sg Hi N1 N2 N3) as (fs & A & B).
      exists fs, (VStr (sg_text sg)), (sg_len sg), (sg_data sg). split; [assumption|]. split; [|assumption]. now apply start_value. }
    split; [|split; [|split]].
    - destruct T4 as (fs & A1 & _ & A3 & A4). exists fs, (VStr (sg_text tg)), (sg_data tg). split; [assumption|].
      split; [rewrite <- T3; now apply start_value|]. destruct (Hfs _ _ A1) as [(de & Hde & Hx) _]. apply type_rewrite with de; auto. tauto.
    - intro Ho. destruct (T1 Ho) as (sg & Hi & Hk). apply F; try discriminate. rewrite <- Hk. now apply in_map.
    - intros n H0 Hk. destruct (D3 n H0 Hk) as [->|Hd]; [lia|unfold data_field in Hd; lia].
    - intros n Hd Hk. apply data_fields_in in Hd. assert (Z := zstr_name n Hd). unfold d in Hk. apply as_dict_has in Hk. rewrite keys_dec in Hk. apply F; tauto.
  Qed.
  Lemma start_part s enc d' : encode E (ADict d) sp = (Ok (s, enc), d') -> without_bitmaps enc = without_bitmaps (enc_of segs).
  Proof.
    intro H. destruct start_dict as (D1 & D2 & D3). apply encode_ok in H as (bm1 & bm2 & bm3 & He & _); [|apply D1].
    assert (He' := He). destruct He' as (_ & Hbm & Hk & Hsent). unfold without_bitmaps.
    set (P := fun k => negb (str_eqb k (u "p") || str_eqb k (u "1"))).
    change (filter (fun ke => P (fst ke)) enc = filter (fun ke => P (fst ke)) (enc_of segs)). apply entries_eq.
    - rewrite <- !filter_map, Hk, keys_enc. unfold plan.
      assert (Hg' := Hg). destruct Hg' as (hs & t & bs & fields & done & S0 & G1 & G2 & G3 & G4 & G5 & G6 & G7).
      assert (Hdone : filter (announced bm1 bm2 bm3) data_fields = done).
      { apply sorted_same; [apply filter_sorted, data_fields_sorted|assumption|]. intro f. rewrite filter_In. split.
        - intros [Hf Ha]. apply (announced_value E sp d enc bm1 bm2 bm3 f HE He Hf) in Ha. apply in_key_value in Ha. unfold d in Ha.
          apply as_dict_has in Ha. rewrite keys_dec in Ha. rewrite S0, map_app in Ha. cbn [map] in Ha. rewrite map_app in Ha.
          assert (Z := zstr_name f Hf). apply in_app_iff in Ha as [Ha|[Ha|Ha]].
          + apply (header_part_keys _ _ _ G1) in Ha as [Ha _]. tauto.
          + destruct G2 as (? & _ & G2 & _). exfalso. intuition congruence.
          + apply in_app_iff in Ha as [Ha|Ha].
            * apply in_map_iff in Ha as (sg & Hs & Hi). rewrite Forall_forall in G3. destruct (G3 _ Hi); exfalso; intuition congruence.
            * rewrite G4 in Ha. apply in_map_iff in Ha as (g & Hs & Hi). assert (Hgd := G6 _ Hi). apply data_fields_in in Hgd, Hf.
              apply zstr_inj in Hs; [now subst|lia|lia].
        - intro Hf. assert (Hfd := G6 _ Hf). split; [assumption|]. apply (announced_value E sp d enc bm1 bm2 bm3 f HE He Hfd).
          apply in_key_value. unfold d. apply as_dict_has. rewrite keys_dec, S0, map_app. apply in_or_app. right. cbn [map]. right. rewrite map_app.
          apply in_or_app. right. rewrite G4. now apply in_map. }
      rewrite Hdone, S0, map_app. cbn [map]. rewrite map_app, G4.
      assert (Ht : sg_key t = u "t") by now destruct G2 as (? & _ & ? & _). rewrite Ht.
      assert (Hh : map sg_key hs = header_key sp).
      { unfold header_key. destruct G1 as [fs ml A1 A2 A3|fs ml sg A1 A2 A3 A4 A5]; rewrite A1, A2.
        - apply Z.leb_le in A3. now rewrite A3.
        - assert (X : (ml <=? 0)%Z = false) by (apply Z.leb_gt; lia). rewrite X. cbn [map]. now rewrite A4. }
      rewrite Hh, !filter_app. f_equal. cbn [filter]. change (P (u "t")) with true. change (P (u "p")) with false. cbv iota. f_equal.
      rewrite !filter_app. f_equal.
      transitivity (@nil pystr).
      + destruct (bit bm1 1); reflexivity.
      + symmetry. clear -G3. induction bs as [|sg bs IH]; [reflexivity|]. inversion G3 as [|? ? Hx Hf]; subst. cbn [map filter].
        assert (X : P (sg_key sg) = false) by (destruct Hx as [Hx|Hx]; rewrite Hx; reflexivity). rewrite X. auto.
    - intros k e1 e2 I1 I2. apply filter_In in I1 as [I1 Hp], I2 as [I2 _]. cbn [fst] in Hp. unfold P in Hp.
      apply negb_true_iff, orb_false_iff in Hp as [N1 N2]. rewrite str_eqb_neq in N1, N2.
      apply in_map_iff in I2 as (sg & Hx & I2). injection Hx as <- <-. rewrite Forall_forall in Hsent. specialize (Hsent _ I1).
      assert (Hv := start_value sg I2). destruct e1 as [l1 b1]. destruct (str_eqb_spec (sg_key sg) (u "t")) as [Ht|Nt].
      + rewrite Ht in *. destruct (sent_type_inv _ _ _ _ _ _ _ Hsent) as (fs & v & A1 & A2 & A3 & A4). cbn [e_len e_data] in *.
        assert (v = VStr (sg_text sg)) by congruence. subst v.
        assert (Hs : type_part E sp sg).
        { destruct (start_keys sg I2) as [Hs|[Hs|[Hs|[Hs|[(f & Hf & Hs) _]]]]].
          - destruct Hs as [Hs _]. rewrite Ht in Hs. discriminate. - tauto. - rewrite Ht in Hs. discriminate. - rewrite Ht in Hs. discriminate. - exfalso. apply zstr_name in Hf. intuition congruence. }
        destruct Hs as (fs' & B1 & _ & B3 & B4). assert (fs' = fs) by congruence. subst fs'.
        destruct (Hfs _ _ A1) as [(de & Hde & Hx) _]. apply (type_rewrite E fs _ _ de) in B4; [|assumption|tauto].
        assert (Heq := type_encodes_fun _ _ _ _ _ A4 B4). rewrite B3. congruence.
      + destruct (start_field sg I2 Nt N1 N2) as (fs & A1 & A2).
        assert (Hkk : field_key (sg_key sg)).
        { destruct (start_keys sg I2) as [Hs|[Hs|[Hs|[Hs|[(f & Hf & Hs) _]]]]]; [left; tauto|tauto|congruence|congruence|right; eauto]. }
        destruct (sent_field_inv _ _ _ _ _ _ _ _ Hkk Hsent) as (fs' & v & B1 & B2 & B3). cbn [e_len e_data] in *.
        assert (fs' = fs) by congruence. assert (v = VStr (sg_text sg)) by congruence. subst.
        destruct (field_encodes_fun _ _ _ _ _ _ _ A2 B3). congruence.
  Qed.
End Start.

Lemma filter_all {A} (p : A -> bool) l : (forall x, In x l -> p x = true) -> filter p l = l.
Proof. induction l as [|x l IH]; intro H; [reflexivity|]. cbn. rewrite (H x) by now left. f_equal. apply IH. intros y Hy. apply H. now right. Qed.

(** The error in terms of segments. *)
Lemma salvaged_segs E sp buf b e : bitmaps_fit E sp -> holds buf b -> decode E buf sp = Raise (XDecodeError e) ->
  de_field e <> u "h" -> de_field e <> u "t" ->
  exists segs, good_start E sp segs /\ NoDup (map sg_key segs) /\ salvaged_dec e = dec_of segs /\ salvaged_enc e = enc_of segs.
Proof.
  intros Hf Hs H Nh Nt. assert (Ht := decode_error_truth E sp buf b e Hs H).
  apply (decode_fault_iff _ _ _ _ _ Hf Hs) in H as (msg & pos & segs & last & H & _ & He). red in He. subst e. cbn [de_field] in *.
  assert (Hn : NoDup (map sg_key (segs ++ [last]))).
  { destruct Ht as (_ & _ & segs' & last' & rest' & T & _ & _ & Hn & _). change (dec_of (segs ++ [last]) = dec_of (segs' ++ [last'])) in T.
    rewrite <- keys_dec, T, keys_dec. exact Hn. }
  exists segs. rewrite map_app in Hn. cbn [map] in Hn.
  assert (Hi : forall sg, In sg segs -> str_eqb (sg_key last) (sg_key sg) = false).
  { intros sg Hi. apply str_eqb_neq. intro Hx. apply NoDup_remove_2 in Hn. apply Hn. rewrite app_nil_r, Hx. now apply in_map. }
  split; [exact (fault_start _ _ _ _ _ _ _ H Nh Nt)|]. split; [now apply NoDup_remove_1 in Hn; rewrite app_nil_r in Hn|].
  assert (Hl : forall V (f : segment -> pystr * V), (forall sg, fst (f sg) = sg_key sg) ->
    filter (fun kt : pystr * V => negb (str_eqb (sg_key last) (fst kt))) (map f (segs ++ [last])) = map f segs).
  { intros V f Hx. rewrite map_app, filter_app. cbn [map filter]. rewrite Hx, str_eqb_refl. cbn [negb]. rewrite app_nil_r.
    apply filter_all. intros y Hy. apply in_map_iff in Hy as (sg & <- & Hy). now rewrite Hx, Hi. }
  split; [apply (Hl pystr (fun sg => (sg_key sg, sg_text sg)))|apply (Hl entry (fun sg => (sg_key sg, mkEntry (sg_len sg) (sg_data sg))))]; reflexivity.
Qed.

Lemma canonical_segs E sp e segs : NoDup (map sg_key segs) -> salvaged_dec e = dec_of segs -> salvaged_enc e = enc_of segs ->
  salvaged_canonical E sp e -> forall sg fs, In sg segs -> sg_key sg <> u "t" -> sg_key sg <> u "p" -> sg_key sg <> u "1" ->
    sget (sg_key sg) sp = Some fs -> canonical_entry E fs (sg_len sg) (sg_data sg) (sg_text sg).
Proof.
  intros Hn Hd He Hc sg fs Hi N1 N2 N3 Hk. apply (Hc (sg_key sg) fs (mkEntry (sg_len sg) (sg_data sg)) (sg_text sg)); auto.
  - rewrite He. now apply sget_enc.
  - rewrite Hd. now apply sget_dec.
Qed.

Lemma salvage_encodes E sp buf b e : env_ok E -> bitmaps_fit E sp -> faithful_spec E sp -> bitmaps_sendable E sp ->
  holds buf b -> decode E buf sp = Raise (XDecodeError e) -> de_field e <> u "h" -> de_field e <> u "t" ->
  salvaged_canonical E sp e ->
  exists s enc d, encode E (ADict (as_dict (salvaged_dec e))) sp = (Ok (s, enc), d)
    /\ without_bitmaps enc = without_bitmaps (salvaged_enc e).
Proof.
  intros HE Hf Hfs Hb Hh H Nh Nt Hc. destruct (salvaged_segs E sp buf b e Hf Hh H Nh Nt) as (segs & Hg & Hn & Hd & He).
  assert (Hc' := canonical_segs E sp e segs Hn Hd He Hc). rewrite Hd, He.
  destruct (start_encodes E sp segs) as (s & enc & d & Hx); auto. exists s, enc, d. split; [assumption|].
  now apply (start_part E sp segs) in Hx.
Qed.

Lemma upper_tail c t : py_upper (c :: t) = c :: t -> py_upper t = t.
Proof. unfold py_upper. cbn [map]. intro H. now injection H. Qed.
Lemma upper_init t c : py_upper (t ++ [c]) = t ++ [c] -> py_upper t = t.
Proof. unfold py_upper. rewrite map_app. cbn [map]. intro H. now apply app_inj_tail in H as [H _]. Qed.
Lemma field_read_normal E fs l b t : field_wire E fs l b t -> normal fs t = t.
Proof.
  intros (n & _ & _ & H). unfold normal. destruct H as [H1 ->|de H1 H2 H3 H4 ->|de H1 H2 H3 H4 H5|de H1 H2 H3 H4].
  - destruct (fs_data_enc fs) as [de|]; [|reflexivity]. now destruct (str_eqb de (u "b")).
  - rewrite H2. destruct (str_eqb de (u "b")); [apply upper_HEX|reflexivity].
  - rewrite H2. destruct (str_eqb de (u "b")); [|reflexivity]. assert (Hu := upper_HEX b).
    destruct H5 as [(c & _ & H6)|(_ & c & _ & H6)]; rewrite H6 in Hu; [now apply upper_tail in Hu|now apply upper_init in Hu].
  - rewrite H2. destruct (str_eqb_spec de (u "b")); [contradiction|reflexivity].
Qed.
Lemma type_read_normal E fs b t : type_wire E fs b t -> normal fs t = t.
Proof.
  unfold normal. intros [de H1 H2 H3 ->|de H1 H2 H3 H4]; rewrite H1.
  - destruct (str_eqb de (u "b")); [apply upper_HEX|reflexivity].
  - destruct (str_eqb_spec de (u "b")); [contradiction|reflexivity].
Qed.

Lemma salvage_survives E sp buf b e s enc d buf' : env_ok E -> bitmaps_fit E sp -> faithful_spec E sp -> reversible_spec E sp ->
  holds buf b -> decode E buf sp = Raise (XDecodeError e) -> de_field e <> u "h" -> de_field e <> u "t" ->
  encode E (ADict (as_dict (salvaged_dec e))) sp = (Ok (s, enc), d) -> holds buf' s ->
  exists dec, decode E buf' sp = Ok (dec, enc)
    /\ forall k, k <> u "p" -> k <> u "1" -> sget k dec = sget k (salvaged_dec e).
Proof.
  intros HE Hf Hfs Hr Hh H Nh Nt Hx Hh'. destruct (salvaged_segs E sp buf b e Hf Hh H Nh Nt) as (segs & Hg & Hn & Hd & _). rewrite Hd in *.
  assert (D := start_dict E sp segs HE Hg Hn). cbv zeta in D. destruct D as (D1 & D2 & D3).
  destruct (encode_decode E sp _ s enc d buf' HE D1 Hr Hx Hh') as (dec & Hdec & Hk). exists dec. split; [assumption|]. intros k N1 N2.
  assert (Hv : k <> u "65" -> value d k = option_map VStr (sget k (dec_of segs))).
  { intro N3. assert (Hkp := encode_keeps E sp (as_dict (dec_of segs))). rewrite Hx in Hkp. cbn [snd] in Hkp. destruct Hkp as [K1 K2].
    apply content_same in K1. rewrite <- as_dict_value. unfold value. apply same_content_get; [apply K2, D1|apply D1|assumption|].
    now apply str_key_not_bitmap. }
  assert (Hw : forall t, sget k (dec_of segs) = Some t -> k <> u "65" /\ wire_key sp k /\ exists fs, sget k sp = Some fs /\ normal fs t = t).
  { intros t Hs. assert (Hi : In k (map fst (dec_of segs))) by (apply (dget_in _ str_eqb_spec) in Hs; now apply (in_map fst) in Hs). rewrite keys_dec in Hi.
    apply in_map_iff in Hi as (sg & <- & Hi). rewrite (sget_dec segs sg Hn Hi) in Hs. injection Hs as <-.
    apply start_keys with (sp := sp) (E := E) in Hi as [(K & Ho & fs & K1 & K2)|[(K & fs & K1 & _ & _ & K2)|[K|[K|((f & K0 & K) & fs & K1 & K2)]]]]; auto; try congruence.
    - rewrite K. split; [discriminate|]. split; [left; auto|]. exists fs. split; [now rewrite <- K|]. eapply field_read_normal, K2.
    - rewrite K. split; [discriminate|]. split; [right; now left|]. exists fs. split; [assumption|]. eapply type_read_normal, K2.
    - split; [rewrite K; now apply zstr_name in K0|]. split; [do 4 right; exists f; split; [now apply data_fields_in|assumption]|].
      exists fs. split; [assumption|]. eapply field_read_normal, K2. }
  destruct (sget k (dec_of segs)) as [t|] eqn:Hs.
  - destruct (Hw t eq_refl) as (N3 & Hk' & fs & F1 & F2). apply Hk. split; [assumption|]. exists fs, t. auto.
  - destruct (sget k dec) as [t|] eqn:Ht; [|reflexivity]. exfalso. apply Hk in Ht as (Hk' & fs & v & F1 & F2 & _).
    rewrite Hv in F2; [discriminate|]. intros ->.
    destruct Hk' as [[Hk' _]|[Hk'|[Hk'|[Hk'|(f & Hff & Hk')]]]]; try discriminate. apply data_fields_in, zstr_name in Hff. intuition congruence.
Qed.
