(** * Repair: EncodeError names the first field that cannot be sent. *)
From Coq Require Import Sorted.
From Verif Require Import PyBase BaseFacts Types Numerals NumeralFacts Texts Decoder Encoder Wire WireEncode DecodeFault EncodeFault Claims Claims10.
From Verif Require Import DecoderFacts DecodeRun DecodeTheorems EncoderFacts EncodeRun EncodeWhole EncodeTheorems EncodeTheorems2 EncodeTheorems3 DecodeFaultFacts EncodeFaultFacts EncodeFaultWhole EncodeEscape EncodeEscapeFacts EncodeEscapeWhole Replace2 Remove.
Local Opaque data_fields.

Lemma sorted_later l a f b g : StronglySorted Z.lt l -> l = a ++ f :: b -> In g b -> (f < g)%Z.
Proof.
  intros Hs -> Hg. induction a as [|x a IH]; cbn [app] in Hs.
  - inversion Hs as [|? ? _ Hf]; subst. rewrite Forall_forall in Hf. auto.
  - inversion Hs; subst. auto.
Qed.
Lemma filter_sorted p l : StronglySorted Z.lt l -> StronglySorted Z.lt (filter p l).
Proof.
  induction 1 as [|x l Hs IH Hf]; cbn [filter]; [constructor|]. destruct (p x); [|assumption]. constructor; [assumption|].
  rewrite Forall_forall in *. intros y Hy. apply filter_In in Hy as [Hy _]. auto.
Qed.

(** Before field [f] of the plan come all smaller fields of the message. *)
Lemma plan_before sp bm1 bm2 bm3 (done : edoc) f rest n : In f data_fields -> In n data_fields -> (n < f)%Z ->
  announced bm1 bm2 bm3 n = true ->
  plan sp bm1 bm2 bm3 = map fst done ++ zstr f :: rest -> In (zstr n) (map fst done).
Proof.
  intros Hf Hn Hlt Ha Hp. assert (Hi : In (zstr n) (plan sp bm1 bm2 bm3)) by (apply plan_in; do 4 right; eauto).
  rewrite Hp in Hi. apply in_app_iff in Hi as [Hi|[Hi|Hi]]; [assumption| |].
  - apply data_fields_in in Hf, Hn. apply zstr_inj in Hi; lia.
  - exfalso. unfold plan in Hp. set (L := filter (announced bm1 bm2 bm3) data_fields) in *.
    assert (HL : forall g, In g L -> In g data_fields) by (intros g Hg; apply filter_In in Hg; tauto).
    set (x := if bit bm1 1 then [u "1"] else []) in *.
    assert (Hpre : exists pre, header_key sp ++ u "t" :: u "p" :: x ++ map zstr L = pre ++ map zstr L /\ ~ In (zstr f) pre).
    { exists (header_key sp ++ u "t" :: u "p" :: x). split; [now rewrite <- app_assoc|]. destruct (zstr_name f Hf) as (Q1 & Q2 & Q3 & Q4 & _).
      rewrite in_app_iff. intros [Hx|[Hx|[Hx|Hx]]]; try congruence.
      - destruct (header_key_cases sp) as [Hh|Hh]; rewrite Hh in Hx; cbn [In] in Hx; intuition congruence.
      - unfold x in Hx. destruct (bit bm1 1); cbn [In] in Hx; intuition congruence. }
    destruct Hpre as (pre & Hpe & Hno). rewrite Hpe in Hp. apply app_eq_app in Hp as (m & [[H1 H2]|[H1 H2]]).
    + destruct m as [|y m].
      * cbn [app] in H2. symmetry in H2. apply (map_eq_app zstr _ []) in H2 as (l1 & l2 & HLe & H3 & H4). destruct l1; [|discriminate]. destruct l2 as [|g l2]; [discriminate|].
        cbn [map] in H4. injection H4 as H4 H5. cbn [app] in HLe.
        assert (g = f) by (apply zstr_inj in H4; [auto|specialize (HL g ltac:(rewrite HLe; now left)); apply data_fields_in in HL; lia|apply data_fields_in in Hf; lia]). subst g.
        rewrite <- H5 in Hi. apply in_map_iff in Hi as (g & Hg & Hgi).
        assert (g = n) by (apply zstr_inj in Hg; [auto|specialize (HL g ltac:(rewrite HLe; now right)); apply data_fields_in in HL; lia|apply data_fields_in in Hn; lia]). subst g.
        pose proof (sorted_later L [] f l2 n (filter_sorted _ _ data_fields_sorted) HLe Hgi). lia.
      * injection H2 as <- _. apply Hno. rewrite H1. apply in_or_app. right. now left.
    + symmetry in H2. symmetry in H2. apply map_eq_app in H2 as (l1 & l2 & HLe & H3 & H4). destruct l2 as [|g l2]; [discriminate|].
      cbn [map] in H4. injection H4 as H4 H5.
      assert (g = f) by (apply zstr_inj in H4; [auto|specialize (HL g ltac:(rewrite HLe; apply in_or_app; right; now left)); apply data_fields_in in HL; lia|apply data_fields_in in Hf; lia]). subst g.
      rewrite <- H5 in Hi. apply in_map_iff in Hi as (g & Hg & Hgi).
      assert (g = n) by (apply zstr_inj in Hg; [auto|specialize (HL g ltac:(rewrite HLe; apply in_or_app; right; now right)); apply data_fields_in in HL; lia|apply data_fields_in in Hn; lia]). subst g.
      pose proof (sorted_later L l1 f l2 n (filter_sorted _ _ data_fields_sorted) HLe Hgi). lia.
Qed.

Section Frame.
  Variables (E : pyenv) (sp : spec) (d : pdoc).
  Hypotheses (HE : env_ok E) (SF : sendable_frame E sp d).

  Lemma frame_only_encode_error x d' : encode E (ADict d) sp = (Raise x, d') -> exists e, x = XEncodeError e.
  Proof using HE SF.
    intro H. destruct SF as [Hd Hk _ _ _ _ _ He Hw Hlim].
    apply encode_fails in H as (k & bm1 & bm2 & bm3 & done & tail & rest & H1 & H2 & H3 & H4 & H5); [|apply Hd].
    assert (Hi : In k (plan sp bm1 bm2 bm3)) by (rewrite H2; apply in_app_iff; right; now left).
    destruct H5 as [msg|nm Hn|f Hf -> Hv Hh|s _ G1 G2 G3|Hn|Hn|v y Hv [Hy _]].
    - eauto.
    - exfalso. apply Hn, He. apply plan_in in Hi as [Hi|[Hi|[Hi|[[Hi _]|(f & Hf & Ha & Hi)]]]]; auto.
      + left. destruct (header_key_cases sp) as [Hx|Hx]; rewrite Hx in Hi; cbn [In] in Hi; [contradiction|]. destruct Hi as [Hi|[]]. now symmetry.
      + do 4 right. apply data_fields_in in Hf as Hdf. exists f. split; [exact Hdf|]. split; [assumption|]. subst k.
        rewrite (announced_spec E d) in Ha by (assumption || (unfold data_field in *; lia)).
        apply sends_data in Ha; [|exact Hdf]. apply canonical_field in Ha; auto. tauto.
    - exfalso. apply canonical_field in Hh as [Hx _]; auto. apply has_value in Hx as [v Hx]. congruence.
    - exfalso. destruct (Hk s G1 G2) as (Hl & n & Hn & ->). apply py_int_no_text in G3.
      rewrite py_int_digits in G3; auto using zstr_digits; [discriminate|]. rewrite zstr_nonneg by assumption. apply dec_nonempty.
    - exfalso. exact (Hw _ Hn).
    - exfalso. exact (Hlim _ Hn).
    - exfalso. apply Hy. eapply str_dict_value; eauto.
  Qed.

  (** The error is about a data field. *)
  Lemma frame_error e d' : encode E (ADict d) sp = (Raise (XEncodeError e), d') ->
    exists n, ee_field e = zstr n /\ unsendable E sp d n /\ forall m, unsendable E sp d m -> (n <= m)%Z.
  Proof using HE SF.
    intro H. destruct SF as [Hd Hk Hb Hho Ht Hh Hr He Hw Hlim].
    apply encode_fault_iff in H as (msg & k & enc & (bm1 & bm2 & bm3 & done & rest & tail & B & P & D & R & ->) & ->); [|apply Hd].
    cbn [EncodeError ee_field].
    destruct R as [fs ml A1 A2 A3|fs ml v msg lenb data A1 A2 A3 A4|A1|fs v msg data A1 A2 A3|pre i r post A1 A2|l A1 A2 A3 A4|fs msg A1 A2 A3|fs msg A1 A2 A3|fs b2 msg A1 A2 A3 A4 A5|f fs v msg lenb data A1 A2 A3 A4 A5].
    - exfalso. assert (Ho : header_on sp).
      { destruct Hho as [Ho|Ho]; [assumption|]. exfalso. assert (Hi : In (u "h") (plan sp bm1 bm2 bm3)) by (rewrite P; apply in_app_iff; right; now left).
        apply plan_in in Hi as [Hi|[Hi|[Hi|[[Hi _]|(f & Hf & _ & Hi)]]]]; try discriminate; [now apply header_key_in in Hi|]. apply zstr_name in Hf. intuition congruence. }
      destruct (Hh Ho) as (? & v & ? & ? & _ & Hv & _). congruence.
    - exfalso. assert (Ho : header_on sp).
      { destruct Hho as [Ho|Ho]; [assumption|]. exfalso. assert (Hi : In (u "h") (plan sp bm1 bm2 bm3)) by (rewrite P; apply in_app_iff; right; now left).
        apply plan_in in Hi as [Hi|[Hi|[Hi|[[Hi _]|(f & Hf & _ & Hi)]]]]; try discriminate; [now apply header_key_in in Hi|]. apply zstr_name in Hf. intuition congruence. }
      destruct (Hh Ho) as (fs' & v' & ? & ? & B1 & B2 & B3). assert (fs' = fs) by congruence. assert (v' = v) by congruence. subst.
      eapply field_refused_sent; eauto.
    - exfalso. destruct Ht as (? & v & ? & _ & Hv & _). congruence.
    - exfalso. destruct Ht as (fs' & v' & ? & B1 & B2 & B3). assert (fs' = fs) by congruence. assert (v' = v) by congruence. subst.
      eapply type_refused_sent; eauto.
    - exfalso. assert (Hi : In (KOther i r) (map fst (pops d))) by (change (pops d) with (cleared d); rewrite A1; apply in_or_app; right; now left).
      apply pops_keys in Hi as [Hi _]; [|apply Hd]. apply in_map_iff in Hi as ([k' v'] & Hx & Hi). cbn [fst] in Hx. subst k'.
      destruct (proj2 Hd _ _ Hi) as [[s Hs] _]. discriminate.
    - exfalso. destruct l as [|f l]; [congruence|]. destruct (proj1 (A3 f) (or_introl eq_refl)) as [Hf Hx].
      apply canonical_field in Hf as (G1 & G2 & _); auto.
    - exfalso. destruct (Hb (u "p") bm1 (or_introl eq_refl) (proj1 B)) as (fs' & data & B1 & B2). assert (fs' = fs) by congruence. subst.
      eapply bitmap_not_both; eauto.
    - exfalso. destruct (Hb (u "1") bm2 (or_intror eq_refl) (proj1 (proj2 B))) as (fs' & data & B1 & B2). assert (fs' = fs) by congruence. subst.
      eapply bitmap_not_both; eauto.
    - exfalso. destruct (Hb (u "1") bm3 (or_intror eq_refl) (proj1 (proj2 (proj2 B)))) as (fs' & data & B1 & B2). assert (fs' = fs) by congruence. subst.
      eapply bitmap_not_both; eauto.
    - exists f. split; [reflexivity|]. assert (Hdf : data_field f) by (apply data_fields_in in A2; exact A2). split.
      + split; [exact Hdf|]. split; [apply (dget_some_in key_eqb key_eqb_spec); unfold value in A4; eauto|].
        intros (fs' & v' & ? & ? & B1 & B2 & B3). assert (fs' = fs) by congruence. assert (v' = v) by congruence. subst.
        eapply field_refused_sent; eauto.
      + intros m (M1 & M2 & M3). destruct (Z.le_gt_cases f m) as [Hle|Hlt]; [assumption|]. exfalso. apply M3.
        assert (Hm : In m data_fields) by (apply data_fields_in; exact M1).
        assert (Ha : announced bm1 bm2 bm3 m = true).
        { rewrite (announced_spec E d) by (assumption || (unfold data_field in *; lia)). apply sends_data; [exact M1|]. now apply named_field. }
        assert (Hi := plan_before _ _ _ _ _ _ _ _ A2 Hm Hlt Ha P). apply in_map_iff in Hi as ([k' e'] & Hx & Hi). cbn [fst] in Hx. subst k'.
        rewrite Forall_forall in D. specialize (D _ Hi). apply sent_field_inv in D as (fs' & v' & B1 & B2 & B3); [|right; eauto].
        exists fs', v', (e_len e'), (e_data e'). auto.
  Qed.
  Lemma frame_outcome : (exists s enc d', encode E (ADict d) sp = (Ok (s, enc), d'))
    \/ exists e d', encode E (ADict d) sp = (Raise (XEncodeError e), d').
  Proof using HE SF.
    destruct (encode E (ADict d) sp) as [[[s enc]|x] d'] eqn:H; [left; eauto|]. right.
    destruct (frame_only_encode_error _ _ H) as [e ->]. eauto.
  Qed.
  Lemma frame_success : (exists s enc d', encode E (ADict d) sp = (Ok (s, enc), d')) <-> forall n, ~ unsendable E sp d n.
  Proof using HE SF.
    assert (S := SF). destruct S as [Hd Hk Hb Hho Ht Hh Hr _ _ _]. split.
    - intros H n (H1 & H2 & H3). apply encode_success in H as (_ & _ & _ & H); auto.
    - intro H. destruct frame_outcome as [Ho|(e & d' & Ho)]; [assumption|]. exfalso.
      destruct (frame_error _ _ Ho) as (n & _ & Hu & _). exact (H n Hu).
  Qed.
  Theorem reported_first n : data_field n ->
    ((exists e d', encode E (ADict d) sp = (Raise (XEncodeError e), d') /\ ee_field e = zstr n)
     <-> unsendable E sp d n /\ forall m, unsendable E sp d m -> (n <= m)%Z).
  Proof using HE SF.
    intro Hn. split.
    - intros (e & d' & H & Hf). destruct (frame_error _ _ H) as (m & Hm & Hu & Hl).
      assert (m = n) by (rewrite Hm in Hf; apply zstr_inj in Hf; [assumption|destruct Hu as [Hu _]; unfold data_field in Hu; lia|unfold data_field in Hn; lia]). subst m. auto.
    - intros [Hu Hl]. destruct frame_outcome as [Ho|(e & d' & Ho)].
      + exfalso. exact (proj1 frame_success Ho n Hu).
      + exists e, d'. split; [assumption|]. destruct (frame_error _ _ Ho) as (m & Hm & Hu' & Hl'). specialize (Hl m Hu'). specialize (Hl' n Hu).
        assert (m = n) by lia. now subst.
  Qed.
End Frame.

(** ** Dropping fields one after the other *)
Lemma in_key_value d k : has_key d k <-> value d k <> None.
Proof.
  unfold has_key, value. rewrite (dget_some_in key_eqb key_eqb_spec). destruct (dget key_eqb (KStr k) d); split; intro H; try congruence; [eauto|].
  destruct H; discriminate.
Qed.
Lemma encodable_value E sp d d2 k : value d2 k = value d k -> encodable E sp d k -> encodable E sp d2 k.
Proof. intros Hv (fs & v & l & b & H1 & H2 & H3). exists fs, v, l, b. rewrite Hv. auto. Qed.

Lemma frame_same E sp d d2 : env_ok E -> sendable_frame E sp d -> str_dict d2 ->
  (forall k, k <> u "p" -> k <> u "1" -> k <> u "65" -> value d2 k = value d k
     \/ value d2 k = None /\ exists n, data_field n /\ k = zstr n) ->
  sendable_frame E sp d2.
Proof.
  intros HE [Hd Hk Hb Hho Ht Hh Hr He Hw Hlim] Hd2 V.
  assert (K : forall k, k <> u "p" -> k <> u "1" -> k <> u "65" -> has_key d2 k -> has_key d k).
  { intros k N1 N2 N3 H. apply in_key_value in H. apply in_key_value. destruct (V k N1 N2 N3) as [Hv|[Hv _]]; congruence. }
  constructor; auto.
  - intros k Hi Hn. destruct (str_eqb k (u "p")) eqn:M1; [apply str_eqb_eq in M1; subst k; rewrite not_numeric_keys in Hn by auto; discriminate|].
    destruct (str_eqb k (u "1")) eqn:M2; [apply str_eqb_eq in M2; subst k; split; [apply Nat.leb_le; reflexivity|now exists 1%Z]|].
    destruct (str_eqb k (u "65")) eqn:M3; [apply str_eqb_eq in M3; subst k; split; [apply Nat.leb_le; reflexivity|now exists 65%Z]|].
    apply str_eqb_neq in M1, M2, M3. apply Hk; auto.
  - destruct Ht as (fs & v & b & H1 & H2 & H3). exists fs, v, b. destruct (V (u "t")) as [Hv|[_ (n & Hn & Hx)]]; [discriminate..| |].
    + rewrite Hv. auto.
    + exfalso. apply data_fields_in in Hn. apply zstr_name in Hn. intuition congruence.
  - intro Ho. apply encodable_value with d; [|auto]. destruct (V (u "h")) as [Hv|[_ (n & Hn & Hx)]]; [discriminate..|assumption|].
    exfalso. apply data_fields_in in Hn. apply zstr_name in Hn. intuition congruence.
  - intros n H0 Hi. destruct (Z.eq_dec n 1) as [->|N1]; [lia|]. destruct (Z.eq_dec n 65) as [->|N2]; [lia|].
    apply Hr; [assumption|]. apply K; [now apply zstr_neq_p| | |assumption].
    + change (u "1") with (zstr 1). intro X. apply zstr_inj in X; lia.
    + change (u "65") with (zstr 65). intro X. apply zstr_inj in X; lia.
  - intros k [H|[H|[H|[H|(n & H1 & H2 & H3)]]]]; auto 6. apply He. do 4 right. exists n. split; [assumption|]. split; [assumption|].
    subst k. apply data_fields_in in H1. assert (Z := zstr_name n H1). apply K; tauto.
Qed.

(** The caller's dict is still one of str after an error about a data field. *)
Lemma frame_after E sp d e d' : env_ok E -> sendable_frame E sp d -> encode E (ADict d) sp = (Raise (XEncodeError e), d') ->
  str_dict d' /\ forall k, k <> u "p" -> k <> u "1" -> k <> u "65" -> value d' k = value d k.
Proof.
  intros HE SF H. pose proof (encode_keeps E sp d) as [Hc Hd']. rewrite H in Hc, Hd'. cbn [snd] in Hc, Hd'.
  assert (Hd := sf_dict _ _ _ SF). specialize (Hd' (proj1 Hd)).
  assert (V : forall k, is_bitmap_key k = false -> dget key_eqb k d' = dget key_eqb k d).
  { intros k Hk. apply (proj1 (same_content_get d' d Hd' (proj1 Hd))); [|assumption]. now apply content_same. }
  split; [|intros k N1 N2 N3; apply V; now apply str_key_not_bitmap].
  destruct (frame_error E sp d HE SF e d' H) as (n & Hf & Hu & _).
  apply encode_fault_iff in H as (msg & k & enc & (bm1 & bm2 & bm3 & done & rest & tail & B & P & D & R & ->) & ->); [|apply Hd].
  cbn [EncodeError ee_field] in Hf. subst k.
  assert (Hw : d' = with_bitmaps d bm1 bm2 bm3).
  { destruct Hu as [Hu _]. apply data_fields_in in Hu. apply zstr_name in Hu. remember (zstr n) as k eqn:Hk. destruct R; try (exfalso; intuition congruence). reflexivity. }
  split; [assumption|]. intros k v Hi. apply (in_dget d' Hd') in Hi. destruct (is_bitmap_key k) eqn:Hb.
  - destruct (with_bitmaps_facts d bm1 bm2 bm3 (proj1 Hd)) as (_ & F1 & F2 & F3 & _). rewrite <- Hw in *. unfold value in F1, F2, F3.
    apply bitmap_key_cases in Hb as [->|[->| ->]]; (split; [eauto|]).
    + rewrite Hi in F1. injection F1 as ->. eexists. reflexivity.
    + rewrite Hi in F2. destruct (bit bm1 1); [|discriminate]. injection F2 as ->. eexists. reflexivity.
    + congruence.
  - rewrite (V k Hb) in Hi. apply (dget_in key_eqb key_eqb_spec) in Hi. exact (proj2 Hd _ _ Hi).
Qed.

Lemma dpop_length k (d : pdoc) : In k (map fst d) -> (length (dpop key_eqb k d) < length d)%nat.
Proof.
  induction d as [|[k' v'] d IH]; cbn [map fst In dpop length]; [contradiction|].
  destruct (key_eqb_spec k k') as [->|Hn]; [lia|]. intros [Hx|Hx]; [congruence|]. cbn [length]. specialize (IH Hx). lia.
Qed.
Lemma content_length d : (length (content d) <= length d)%nat.
Proof. unfold content. induction d as [|x d IH]; cbn; [lia|]. destruct (negb _); cbn; lia. Qed.

Theorem repair_ends E sp : env_ok E -> forall tries d, sendable_frame E sp d -> (length d < tries)%nat ->
  (exists s enc d', encode E (ADict (repair E sp tries d)) sp = (Ok (s, enc), d'))
  /\ forall k, k <> u "p" -> k <> u "1" -> k <> u "65" ->
       ((exists n, k = zstr n /\ unsendable E sp d n) -> value (repair E sp tries d) k = None)
       /\ (~ (exists n, k = zstr n /\ unsendable E sp d n) -> value (repair E sp tries d) k = value d k).
Proof.
  intros HE tries d SF Hl. assert (Hl' : (length (content d) < tries)%nat) by (pose proof (content_length d); lia). clear Hl.
  revert d SF Hl'. induction tries as [|tries IH]; intros d SF Hl; [lia|]. cbn [repair].
  assert (Hd := sf_dict _ _ _ SF). destruct (frame_outcome E sp d HE SF) as [(s & enc & d' & H)|(e & d' & H)]; rewrite H.
  - split; [exists s, enc, d'; now apply encode_idempotent with d; [| apply Hd|]|].
    pose proof (encode_keeps E sp d) as [Hc Hd']. rewrite H in Hc, Hd'. cbn [snd] in Hc, Hd'. specialize (Hd' (proj1 Hd)).
    intros k N1 N2 N3. split.
    + intros (n & _ & Hu). exfalso. exact (proj1 (frame_success E sp d HE SF) (ex_intro _ s (ex_intro _ enc (ex_intro _ d' H))) n Hu).
    + intros _. apply (proj1 (same_content_get d' d Hd' (proj1 Hd))); [now apply content_same|now apply str_key_not_bitmap].
  - destruct (frame_after E sp d e d' HE SF H) as [Hd' V]. destruct (frame_error E sp d HE SF e d' H) as (n & -> & Hu & _).
    assert (Hn := proj1 Hu). apply data_fields_in in Hn. assert (Z := zstr_name n Hn). apply data_fields_in in Hn.
    set (d2 := dpop key_eqb (KStr (zstr n)) d').
    assert (Hd2 : str_dict d2).
    { split; [apply dpop_nodup, Hd'; apply key_eqb_spec|]. intros k v Hi. apply (dpop_keys_incl key_eqb key_eqb_spec) in Hi. now apply Hd'. }
    assert (Vn : value d2 (zstr n) = None).
    { apply (dget_none key_eqb key_eqb_spec). apply dpop_removes; [apply key_eqb_spec|apply Hd']. }
    assert (V2 : forall k, k <> u "p" -> k <> u "1" -> k <> u "65" -> k <> zstr n -> value d2 k = value d k).
    { intros k N1 N2 N3 N4. unfold value, d2. rewrite dget_dpop_other; [now apply V|apply key_eqb_spec|congruence]. }
    assert (SF2 : sendable_frame E sp d2).
    { apply frame_same with d; auto. intros k N1 N2 N3. destruct (str_eqb_spec k (zstr n)) as [->|N4]; [right; eauto|left; now apply V2]. }
    assert (Hl2 : (length (content d2) < tries)%nat).
    { pose proof (encode_keeps E sp d) as [Hc _]. rewrite H in Hc. cbn [snd] in Hc. unfold d2. rewrite content_del.
      rewrite str_key_not_bitmap by tauto. rewrite Hc.
      assert (Hi : In (KStr (zstr n)) (map fst (content d))).
      { destruct Hu as (_ & Hi & _). apply in_map_iff in Hi as ([k v] & Hx & Hi). cbn [fst] in Hx. subst k.
        apply (in_map fst _ (KStr (zstr n), v)). apply filter_In. split; [assumption|]. cbn [fst]. rewrite str_key_not_bitmap by tauto. reflexivity. }
      apply dpop_length in Hi. lia. }
    destruct (IH d2 SF2 Hl2) as [IH1 IH2]. fold d2. split; [exact IH1|].
    assert (U : forall m, data_field m -> m <> n -> (unsendable E sp d2 m <-> unsendable E sp d m)).
    { intros m Hm Nm. assert (Hmi := Hm). apply data_fields_in in Hmi. assert (Zm := zstr_name m Hmi).
      assert (Vm : value d2 (zstr m) = value d (zstr m)).
      { apply V2; try tauto. intro X. apply zstr_inj in X; unfold data_field in *; lia. }
      unfold unsendable. rewrite !in_key_value, Vm. split; intros (A & B & C); (split; [assumption|split; [assumption|]]); intro Hx; apply C.
      - now apply encodable_value with d.
      - now apply encodable_value with d2. }
    intros k N1 N2 N3. destruct (IH2 k N1 N2 N3) as [J1 J2]. split.
    + intros (m & -> & Hum). destruct (Z.eq_dec m n) as [->|Nm].
      * rewrite J2; [exact Vn|]. intros (q & Hq & Huq). apply in_key_value in Vn; [contradiction|].
        rewrite Hq. exact (proj1 (proj2 Huq)).
      * apply J1. exists m. split; [reflexivity|]. apply U; auto. apply Hum.
    + intro Hnot. assert (Nk : k <> zstr n) by (intros ->; apply Hnot; eauto). rewrite J2; [now apply V2|].
      intros (m & -> & Hum). apply Hnot. exists m. split; [reflexivity|]. assert (Hm := proj1 Hum). apply U; auto. congruence.
Qed.
