(** * Extend: what a larger spec changes. *)
From Verif Require Import PyBase BaseFacts Types Decoder Encoder Wire WireEncode Claims Claims4.
From Verif Require Import DecodeRun DecodeTheorems EncodeWhole.
Local Opaque data_fields.

Section Field.
  Variables (E : pyenv) (fs fs' : fspec).
  Hypothesis W : wider fs fs'.
  Lemma w_de : fs_data_enc fs' = fs_data_enc fs. Proof. apply W. Qed.
  Lemma w_le : fs_len_enc fs' = fs_len_enc fs. Proof. apply W. Qed.
  Lemma w_lt : fs_len_type fs' = fs_len_type fs. Proof. apply W. Qed.
  Lemma w_nib : in_nibbles fs' = in_nibbles fs.
  Proof. unfold in_nibbles. now rewrite (proj1 (proj2 (proj2 (proj2 W)))). Qed.
  Lemma w_left : fs_left_pad fs' = fs_left_pad fs. Proof. apply W. Qed.
  Lemma w_right : fs_right_pad fs' = fs_right_pad fs. Proof. apply W. Qed.
  Lemma w_max ml : fs_max_len fs = Some ml -> exists ml', fs_max_len fs' = Some ml' /\ (ml <= ml')%Z /\ (fs_len_type fs = Some 0%Z -> ml = ml').
  Proof. intro H. destruct W as (_ & _ & _ & _ & _ & _ & M). rewrite H in M. destruct (fs_max_len fs') as [ml'|]; [|contradiction]. exists ml'. tauto. Qed.
  Lemma w_max' ml' : fs_max_len fs' = Some ml' -> exists ml, fs_max_len fs = Some ml /\ (ml <= ml')%Z /\ (fs_len_type fs = Some 0%Z -> ml = ml').
  Proof. intro H. destruct W as (_ & _ & _ & _ & _ & _ & M). rewrite H in M. destruct (fs_max_len fs) as [ml|]; [|contradiction]. exists ml. tauto. Qed.
  Lemma w_occupies n k : occupies fs' n k <-> occupies fs n k.
  Proof. unfold occupies. now rewrite w_nib. Qed.
  Lemma w_padded a b : padded fs' a b <-> padded fs a b.
  Proof. unfold padded. now rewrite w_left, w_right. Qed.
  Lemma w_carries n d t : carries E fs' n d t <-> carries E fs n d t.
  Proof.
    split; intros [H1 H2|de H1 H2 H3 H4 H5|de H1 H2 H3 H4 H5|de H1 H2 H3 H4].
    1, 5: now apply CarriesNothing.
    - rewrite w_de in H2. rewrite w_nib in H4. eapply CarriesHex; eauto.
    - rewrite w_de in H2. rewrite w_nib in H4. rewrite w_padded in H5. eapply CarriesPaddedHex; eauto.
    - rewrite w_de in H2. eapply CarriesText; eauto.
    - rewrite <- w_de in H2. rewrite <- w_nib in H4. eapply CarriesHex; eauto.
    - rewrite <- w_de in H2. rewrite <- w_nib in H4. rewrite <- w_padded in H5. eapply CarriesPaddedHex; eauto.
    - rewrite <- w_de in H2. eapply CarriesText; eauto.
  Qed.
  Lemma w_announces l n : announces E fs l n -> announces E fs' l n.
  Proof.
    intros [H1 H2 H3|lt le ml H1 H2 H3 H4 H5 H6 H7].
    - apply AnnouncesFixed; [now rewrite w_lt|assumption|]. destruct (w_max _ H3) as (ml' & M & _ & Q). now rewrite M, Q.
    - destruct (w_max _ H6) as (ml' & M & Q & _). eapply AnnouncesVariable; eauto; [now rewrite w_lt|now rewrite w_le|lia].
  Qed.
  Lemma w_announces' l n : announces E fs' l n -> announces E fs l n \/ exists ml, fs_max_len fs = Some ml /\ (ml < n)%Z.
  Proof.
    intros [H1 H2 H3|lt le ml H1 H2 H3 H4 H5 H6 H7].
    - left. rewrite w_lt in H1. apply AnnouncesFixed; auto. destruct (w_max' _ H3) as (ml & M & _ & Q). now rewrite M, Q.
    - rewrite w_lt in H1. rewrite w_le in H4. destruct (w_max' _ H6) as (ml0 & M & Q & _). destruct (Z_le_gt_dec n ml0).
      + left. eapply AnnouncesVariable; eauto.
      + right. exists ml0. split; [assumption|lia].
  Qed.
  Lemma w_field l d t : field_wire E fs l d t -> field_wire E fs' l d t.
  Proof. intros (n & H1 & H2 & H3). exists n. split; [now apply w_announces|]. now rewrite w_occupies, w_carries. Qed.
  Lemma w_field' l d t : field_wire E fs' l d t -> field_wire E fs l d t \/ exists ml n, fs_max_len fs = Some ml /\ announces E fs' l n /\ (ml < n)%Z.
  Proof.
    intros (n & H1 & H2 & H3). rewrite w_occupies in H2. rewrite w_carries in H3. destruct (w_announces' _ _ H1) as [H|(ml & M & L)].
    - left. exists n. auto.
    - right. exists ml, n. auto.
  Qed.
  Lemma w_type d t : type_wire E fs' d t <-> type_wire E fs d t.
  Proof. split; intros [de H1 H2 H3 H4|de H1 H2 H3 H4]; rewrite w_de in H1 || rewrite <- w_de in H1; [eapply TypeBinary|eapply TypeText|eapply TypeBinary|eapply TypeText]; eauto. Qed.
  Lemma w_bitmap d t bm : bitmap_wire E fs' d t bm <-> bitmap_wire E fs d t bm.
  Proof. split; intros [de H1 H2 H3 H4 H5|de H1 H2 H3 H4 H5]; rewrite w_de in H1 || rewrite <- w_de in H1; [eapply BitmapBinary|eapply BitmapText|eapply BitmapBinary|eapply BitmapText]; eauto. Qed.
End Field.

Section Decode.
  Variables (E : pyenv) (sp sp' : spec).
  Hypothesis X : extends sp sp'.
  Lemma x_get k fs : sget k sp = Some fs -> exists fs', sget k sp' = Some fs' /\ wider fs fs'.
  Proof. intro H. apply X in H as (fs' & H1 & H2 & _). eauto. Qed.
  Lemma x_fit : (forall k, k = u "p" \/ k = u "1" -> sget k sp <> None) -> bitmaps_fit E sp -> bitmaps_fit E sp'.
  Proof.
    intros N F k fs' d t bm Hk H B. destruct (sget k sp) as [fs|] eqn:G; [|now apply N in G].
    destruct (x_get k fs G) as (fs0 & G0 & W). assert (fs0 = fs') by congruence. subst fs0. apply (w_bitmap E fs fs' W) in B. eapply F; eauto.
  Qed.
  Lemma x_segment sg : field_segment E sp sg -> field_segment E sp' sg.
  Proof. intros (fs & H1 & H2). destruct (x_get _ _ H1) as (fs' & G & W). exists fs'. split; [assumption|]. eapply w_field; eauto. Qed.
  Lemma x_header hs : header_part E sp hs -> header_part E sp' hs.
  Proof.
    intros [fs ml H1 H2 H3|fs ml sg H1 H2 H3 H4 H5]; destruct X as [_ X0]; destruct (X0 _ _ H1) as (fs' & G & W & Q); destruct (w_max _ _ W _ H2) as (ml' & M & L & _);
      specialize (Q eq_refl ml ml' H2 M).
    - eapply NoHeader; eauto. lia.
    - eapply Header; eauto; [lia|]. now apply x_segment.
  Qed.
  Lemma x_message segs : message E sp segs -> message E sp' segs.
  Proof.
    intros (hs & t & p & xs & fields & bm1 & bm2 & bm3 & -> & H1 & H2 & H3 & H4 & H5 & H6).
    exists hs, t, p, xs, fields, bm1, bm2, bm3. split; [reflexivity|]. split; [now apply x_header|]. split; [|split; [|split; [|split]]].
    - destruct H2 as (fs & A & B & C & D). destruct (x_get _ _ A) as (fs' & G & W). exists fs'. repeat split; auto. now apply (w_type E fs fs' W).
    - destruct H3 as (fs & A & B & C & D). destruct (x_get _ _ A) as (fs' & G & W). exists fs'. repeat split; auto. now apply (w_bitmap E fs fs' W).
    - destruct H4 as [H|fs sg bm2 A1 A2 A3 A4 A5 A6|fs sg d2 t2 bm2 d3 t3 bm3 A1 A2 A3 A4 A5 A6 A7 A8 A9].
      + now apply NoExtra.
      + destruct (x_get _ _ A2) as (fs' & G & W). eapply Secondary; eauto. now apply (w_bitmap E fs fs' W).
      + destruct (x_get _ _ A2) as (fs' & G & W). eapply Tertiary; eauto; now apply (w_bitmap E fs fs' W).
    - assumption.
    - eapply Forall_impl; [|exact H6]. apply x_segment.
  Qed.
End Decode.

Section DecodeBack.
  Variables (E : pyenv) (sp sp' : spec).
  Hypothesis X : extends sp sp'.
  Lemma x_fit' : bitmaps_fit E sp' -> bitmaps_fit E sp.
  Proof.
    intros F k fs d t bm Hk H B. destruct (x_get sp sp' X _ _ H) as (fs' & G & W). apply (w_bitmap E fs fs' W) in B. eapply F; eauto.
  Qed.
  Lemma x_back k : sget k sp = None \/ exists fs fs', sget k sp = Some fs /\ sget k sp' = Some fs' /\ wider fs fs'.
  Proof. destruct (sget k sp) as [fs|] eqn:G; [|now left]. right. destruct (x_get sp sp' X _ _ G) as (fs' & G' & W). eauto. Qed.
  Lemma x_segment' sg : field_segment E sp' sg -> field_segment E sp sg \/ beyond E sp sp' (sg_key sg) (sg_len sg).
  Proof.
    intros (fs' & H1 & H2). destruct (x_back (sg_key sg)) as [N|(fs & fs0 & G & G0 & W)]; [right; now left|].
    assert (fs0 = fs') by congruence. subst fs0. destruct (w_field' E fs fs' W _ _ _ H2) as [H|(ml & n & M & A & L)].
    - left. exists fs. auto.
    - right. right. exists fs, fs', ml, n. auto.
  Qed.
  Lemma x_segments' l : Forall (field_segment E sp') l -> Forall (field_segment E sp) l \/ exists sg, In sg l /\ beyond E sp sp' (sg_key sg) (sg_len sg).
  Proof.
    induction 1 as [|sg l H _ IH]; [now left|]. destruct (x_segment' _ H) as [A|B]; [|right; exists sg; cbn; auto].
    destruct IH as [IH|(s & I1 & I2)]; [left; auto|right; exists s; cbn; auto].
  Qed.
  Lemma x_header' hs : header_part E sp' hs -> header_part E sp hs \/ exists sg, In sg hs /\ beyond E sp sp' (sg_key sg) (sg_len sg).
  Proof.
    intro H. destruct X as [(fs & G) X0]. destruct (X0 _ _ G) as (fs' & G' & W & Q).
    destruct H as [fs0 ml' H1 H2 H3|fs0 ml' sg H1 H2 H3 H4 H5]; assert (fs0 = fs') by congruence; subst fs0; destruct (w_max' _ _ W _ H2) as (ml & M & L & _); specialize (Q eq_refl ml ml' M H2).
    - left. eapply NoHeader; eauto. lia.
    - destruct (x_segment' _ H5) as [A|B].
      + left. eapply Header; eauto. lia.
      + right. exists sg. cbn. auto.
  Qed.
  Lemma x_message' segs : message E sp' segs -> message E sp segs \/ exists sg, In sg segs /\ beyond E sp sp' (sg_key sg) (sg_len sg).
  Proof.
    intros (hs & t & p & xs & fields & bm1 & bm2 & bm3 & -> & H1 & H2 & H3 & H4 & H5 & H6).
    destruct (x_header' _ H1) as [A1|(sg & I1 & B1)]; [|right; exists sg; split; [apply in_app_iff; now left|assumption]].
    destruct H2 as (ft & T1 & T2 & T3 & T4). destruct (x_back (u "t")) as [N|(fs & fs0 & G & G0 & W)];
      [right; exists t; split; [apply in_elt|left; now rewrite T2]|]. assert (fs0 = ft) by congruence. subst fs0. apply (w_type E fs ft W) in T4.
    assert (A2 : type_part E sp t) by (exists fs; auto). clear G G0 W T4 fs.
    destruct H3 as (fp & P1 & P2 & P3 & P4). destruct (x_back (u "p")) as [N|(fs & fs0 & G & G0 & W)];
      [right; exists p; split; [apply in_app_iff; right; right; now left|left; now rewrite P2]|]. assert (fs0 = fp) by congruence. subst fs0. apply (w_bitmap E fs fp W) in P4.
    assert (A3 : primary_part E sp p bm1) by (exists fs; auto). clear G G0 W P4 fs.
    assert (A4 : extra_part E sp bm1 xs bm2 bm3 \/ exists sg, In sg xs /\ beyond E sp sp' (sg_key sg) (sg_len sg)).
    { destruct (x_back (u "1")) as [N|(fs & fs0 & G & G0 & W)];
      (destruct H4 as [H|f1 sg bm2 Q1 Q2 Q3 Q4 Q5 Q6|f1 sg d2 t2 bm2 d3 t3 bm3 Q1 Q2 Q3 Q4 Q5 Q6 Q7 Q8 Q9]; [left; now apply NoExtra| |]).
      1, 2: right; exists sg; split; [now left|left; now rewrite Q3].
      all: assert (fs0 = f1) by congruence; subst fs0; left.
      - eapply Secondary; eauto. now apply (w_bitmap E fs f1 W).
      - eapply Tertiary; eauto; now apply (w_bitmap E fs f1 W). }
    destruct A4 as [A4|(sg & I1 & B1)]; [|right; exists sg; split; [apply in_app_iff; right; right; right; apply in_app_iff; now left|assumption]].
    destruct (x_segments' _ H6) as [A5|(sg & I1 & B1)]; [|right; exists sg; split; [apply in_app_iff; right; right; right; apply in_app_iff; now right|assumption]].
    left. exists hs, t, p, xs, fields, bm1, bm2, bm3. split; [reflexivity|]. split; [assumption|]. repeat (split; [assumption|]). assumption.
  Qed.
End DecodeBack.
Lemma extend_decode E sp sp' s b r : extends sp sp' -> bitmaps_fit E sp' -> holds s b -> decode E s sp = Ok r -> decode E s sp' = Ok r.
Proof.
  intros X F H D. destruct r as [dec enc]. apply (decode_iff E sp s b) in D as (segs & M & H1 & H2 & H3); [|eapply x_fit'; eauto|assumption].
  apply (decode_iff E sp' s b); [assumption|assumption|]. exists segs. split; [eapply x_message; eauto|auto].
Qed.
Lemma extend_decode_back E sp sp' s b dec enc : extends sp sp' -> bitmaps_fit E sp' -> holds s b -> decode E s sp' = Ok (dec, enc) ->
  decode E s sp = Ok (dec, enc) \/ exists k e, In (k, e) enc /\ beyond E sp sp' k (e_len e).
Proof.
  intros X F H D. apply (decode_iff E sp' s b) in D as (segs & M & H1 & H2 & H3); [|assumption|assumption].
  destruct (x_message' E sp sp' X segs M) as [M'|(sg & Hi & B)].
  - left. apply (decode_iff E sp s b); [eapply x_fit'; eauto|assumption|]. eauto.
  - right. exists (sg_key sg), (mkEntry (sg_len sg) (sg_data sg)). split; [|exact B]. rewrite H3. unfold enc_of. apply in_map_iff. eauto.
Qed.

(** ** Encoding *)
Section EncodeField.
  Variables (E : pyenv) (fs fs' : fspec).
  Hypothesis W : wider fs fs'.
  Lemma w_value v d n : encodes_value E fs' v d n <-> encodes_value E fs v d n.
  Proof.
    assert (P : forall a b, pad_digits fs' a b <-> pad_digits fs a b) by (intros; unfold pad_digits; now rewrite (w_left _ _ W), (w_right _ _ W)).
    assert (N := w_nib _ _ W). assert (D := w_de _ _ W). split; intros [de v0 d0 dt H1 H2 H3 H4 H5|de d0 w dt H1 H2 H3 H4 H5|de s0 dt H1 H2 H3].
    - rewrite N in *. rewrite D in H1. eapply EncHex; eauto.
    - rewrite N in *. rewrite D in H1. rewrite P in H4. eapply EncPaddedHex; eauto.
    - rewrite N in *. rewrite D in H1. eapply EncText; eauto.
    - rewrite <- N in *. rewrite <- D in H1. eapply EncHex; eauto.
    - rewrite <- N in *. rewrite <- D in H1. rewrite <- P in H4. eapply EncPaddedHex; eauto.
    - rewrite <- N in *. rewrite <- D in H1. eapply EncText; eauto.
  Qed.
  Lemma w_length n l : encodes_length E fs n l -> encodes_length E fs' n l.
  Proof.
    intros [H1 H2 H3|lt le ml H1 H2 H3 H4 H5 H6].
    - destruct (w_max _ _ W _ H2) as (ml' & M & _ & Q). apply EncFixed; [now rewrite (w_lt _ _ W)|now rewrite M, Q|assumption].
    - destruct (w_max _ _ W _ H3) as (ml' & M & Q & _). eapply EncVariable; eauto; [now rewrite (w_lt _ _ W)|lia|now rewrite (w_le _ _ W)].
  Qed.
  Lemma w_length' n l : encodes_length E fs' n l -> encodes_length E fs n l \/ exists ml, fs_max_len fs = Some ml /\ (ml < n)%Z.
  Proof.
    intros [H1 H2 H3|lt le ml H1 H2 H3 H4 H5 H6].
    - left. rewrite (w_lt _ _ W) in H1. destruct (w_max' _ _ W _ H2) as (ml & M & _ & Q). apply EncFixed; auto. now rewrite M, Q.
    - rewrite (w_lt _ _ W) in H1. rewrite (w_le _ _ W) in H5. destruct (w_max' _ _ W _ H3) as (ml0 & M & Q & _). destruct (Z_le_gt_dec n ml0).
      + left. eapply EncVariable; eauto.
      + right. exists ml0. split; [assumption|lia].
  Qed.
  Lemma w_encodes v l d : field_encodes E fs v l d -> field_encodes E fs' v l d.
  Proof. intros (n & H1 & H2). exists n. split; [now apply w_value|now apply w_length]. Qed.
  Lemma w_type_encodes v d : type_encodes E fs' v d <-> type_encodes E fs v d.
  Proof. assert (D := w_de _ _ W). split; intros [de v0 d0 dt H1 H2 H3 H4 H5|de s0 dt H1 H2 H3 H4]; rewrite D in H1 || rewrite <- D in H1; [eapply EncTypeBinary|eapply EncTypeText|eapply EncTypeBinary|eapply EncTypeText]; eauto. Qed.
  Lemma w_bitmap_encodes bm d : bitmap_encodes E fs' bm d <-> bitmap_encodes E fs bm d.
  Proof. assert (D := w_de _ _ W). split; intros [de H1 H2 H3|de H1 H2 H3]; rewrite D in H1 || rewrite <- D in H1; [eapply EncBitmapBinary|eapply EncBitmapText|eapply EncBitmapBinary|eapply EncBitmapText]; eauto. Qed.
End EncodeField.
Section Encode.
  Variables (E : pyenv) (sp sp' : spec).
  Hypothesis X : extends sp sp'.
  Lemma x_plan bm1 bm2 bm3 : plan sp' bm1 bm2 bm3 = plan sp bm1 bm2 bm3.
  Proof.
    unfold plan. f_equal. unfold header_key. destruct X as [(fs & G) X0]. destruct (X0 _ _ G) as (fs' & G' & W & Q). rewrite G, G'.
    destruct (fs_max_len fs) as [ml|] eqn:M.
    - destruct (w_max _ _ W _ M) as (ml' & M' & _ & _). rewrite M'. specialize (Q eq_refl ml ml' eq_refl M').
      destruct (ml' <=? 0)%Z eqn:A, (ml <=? 0)%Z eqn:B; try reflexivity; exfalso; lia.
    - destruct (fs_max_len fs') as [ml'|] eqn:M'; [|reflexivity]. destruct (w_max' _ _ W _ M') as (ml & M0 & _). congruence.
  Qed.
  Lemma x_sent d bm1 bm2 bm3 ke : entry_sent E sp d bm1 bm2 bm3 ke -> entry_sent E sp' d bm1 bm2 bm3 ke.
  Proof.
    intros [k fs v lenb data H1 H2 H3 H4|fs v data H1 H2 H3|fs data H1 H2|fs data H0 H1 H2|fs e2 e3 H0 H1 H2 H3].
    - destruct (x_get sp sp' X _ _ H2) as (fs' & G & W). eapply SentField; eauto. eapply w_encodes; eauto.
    - destruct (x_get sp sp' X _ _ H1) as (fs' & G & W). eapply SentType; eauto. now apply (w_type_encodes E fs fs' W).
    - destruct (x_get sp sp' X _ _ H1) as (fs' & G & W). eapply SentPrimary; eauto. now apply (w_bitmap_encodes E fs fs' W).
    - destruct (x_get sp sp' X _ _ H1) as (fs' & G & W). eapply SentSecondary; eauto. now apply (w_bitmap_encodes E fs fs' W).
    - destruct (x_get sp sp' X _ _ H1) as (fs' & G & W). eapply SentTertiary; eauto; now apply (w_bitmap_encodes E fs fs' W).
  Qed.
  (** Field [k] is too long for [sp], or not specified by it. *)
  Lemma x_sent' d bm1 bm2 bm3 k e : entry_sent E sp' d bm1 bm2 bm3 (k, e) -> entry_sent E sp d bm1 bm2 bm3 (k, e)
    \/ sget k sp = None \/ exists fs fs' ml v n, sget k sp = Some fs /\ sget k sp' = Some fs' /\ fs_max_len fs = Some ml
                        /\ value d k = Some v /\ encodes_value E fs' v (e_data e) n /\ (ml < n)%Z.
  Proof.
    intro H. inversion H; subst.
    - destruct (x_back sp sp' X k) as [N|(fs0 & fs1 & G & G1 & W)]; [auto|]. assert (fs1 = fs) by congruence. subst fs1.
      match goal with F : field_encodes _ _ _ _ _ |- _ => destruct F as (n & V & L) end. destruct (w_length' E fs0 fs W _ _ L) as [L'|(ml & M & Q)].
      + left. eapply SentField; eauto. exists n. split; [now apply (w_value E fs0 fs W)|assumption].
      + right. right. exists fs0, fs, ml, v, n. auto 6.
    - destruct (x_back sp sp' X (u "t")) as [N|(fs0 & fs1 & G & G1 & W)]; [auto|]. assert (fs1 = fs) by congruence. subst fs1. left. eapply SentType; eauto. now apply (w_type_encodes E fs0 fs W).
    - destruct (x_back sp sp' X (u "p")) as [N|(fs0 & fs1 & G & G1 & W)]; [auto|]. assert (fs1 = fs) by congruence. subst fs1. left. eapply SentPrimary; eauto. now apply (w_bitmap_encodes E fs0 fs W).
    - destruct (x_back sp sp' X (u "1")) as [N|(fs0 & fs1 & G & G1 & W)]; [auto|]. assert (fs1 = fs) by congruence. subst fs1. left. eapply SentSecondary; eauto. now apply (w_bitmap_encodes E fs0 fs W).
    - destruct (x_back sp sp' X (u "1")) as [N|(fs0 & fs1 & G & G1 & W)]; [auto|]. assert (fs1 = fs) by congruence. subst fs1. left. eapply SentTertiary; eauto; now apply (w_bitmap_encodes E fs0 fs W).
  Qed.
  Lemma extend_encode d r d' : is_dict d -> encode E (ADict d) sp = (Ok r, d') -> encode E (ADict d) sp' = (Ok r, d').
  Proof.
    intros D H. destruct r as [s enc]. apply encode_ok in H as (bm1 & bm2 & bm3 & (K & B & P & S) & H1 & H2); [|assumption].
    apply encode_ok; [assumption|]. exists bm1, bm2, bm3. split; [|auto]. split; [assumption|]. split; [assumption|]. split; [now rewrite x_plan|].
    eapply Forall_impl; [|exact S]. apply x_sent.
  Qed.
  Lemma extend_encode_back d s enc d' : is_dict d -> encode E (ADict d) sp' = (Ok (s, enc), d') ->
    encode E (ADict d) sp = (Ok (s, enc), d')
    \/ exists k e, In (k, e) enc /\ (sget k sp = None \/ exists fs fs' ml v n, sget k sp = Some fs /\ sget k sp' = Some fs' /\ fs_max_len fs = Some ml
                        /\ value d k = Some v /\ encodes_value E fs' v (e_data e) n /\ (ml < n)%Z).
  Proof.
    intros D H. apply encode_ok in H as (bm1 & bm2 & bm3 & (K & B & P & S) & H1 & H2); [|assumption].
    assert (Q : Forall (entry_sent E sp d bm1 bm2 bm3) enc \/ exists k e, In (k, e) enc /\ (sget k sp = None \/ exists fs fs' ml v n, sget k sp = Some fs /\ sget k sp' = Some fs' /\ fs_max_len fs = Some ml
                        /\ value d k = Some v /\ encodes_value E fs' v (e_data e) n /\ (ml < n)%Z)).
    { clear P H1. induction S as [|[k e] l HS _ IH]; [now left|]. destruct (x_sent' _ _ _ _ _ _ HS) as [A|A]; [|right; exists k, e; cbn; auto].
      destruct IH as [IH|(k' & e' & I1 & I2)]; [left; auto|right; exists k', e'; cbn; auto]. }
    destruct Q as [Q|Q]; [left|now right]. apply encode_ok; [assumption|]. exists bm1, bm2, bm3. split; [|auto]. split; [assumption|]. split; [assumption|]. split; [|assumption]. now rewrite <- x_plan.
  Qed.
End Encode.
