(** * EncodeEscapeWhole: the whole run of encode, for EncodeEscape. *)
From Coq Require Import ZifyBool ZifyNat ZifyN Sorted Permutation.
From Verif Require Import PyBase BaseFacts Types Numerals NumeralFacts Decoder Encoder Wire WireEncode DecodeFault EncodeFault EncodeEscape DecoderFacts DecodeRun
  EncoderFacts EncodeRun EncodeWhole Claims EncodeTheorems EncodeTheorems2 DecodeFaultFacts EncodeFaultFacts EncodeFaultWhole EncodeEscapeFacts.
Ltac Zify.zify_post_hook ::= Z.div_mod_to_equations.
Local Opaque data_fields.

(** ** From the run to the escape *)
Section Msg.
  Variables (E : pyenv) (sp : spec) (d : pdoc) (bm1 bm2 bm3 : bytes) (F : zset) (done : edoc) (h t : bytes).
  Hypothesis Hdict : is_dict d.
  Hypothesis Hsort : zsorted F.
  Hypothesis HF : forall f, In f F <-> has_field E d f.
  Hypothesis Hrange : forall f, In f F -> (1 <= f <= 192)%Z.
  Hypothesis Hbm : bitmaps_for E d bm1 bm2 bm3.
  Hypothesis Hdone : forall k, In k (map fst done) -> k = u "h" \/ k = u "t".
  Hypothesis Hkeys : keys_ok E d.
  Notation fl := (filter (announced bm1 bm2 bm3) data_fields).
  Notation sent := (entry_sent E sp d bm1 bm2 bm3).

  (** An escape after the message type. *)
  Definition msg_escape (x : exn) (d' : pdoc) : Prop :=
    exists ents k rest, rest_keys bm1 bm2 bm3 = map fst ents ++ k :: rest
      /\ Forall sent ents /\ key_escape E sp d bm1 bm2 bm3 k x d'.

  Lemma fields_escape bents d' x st' s : bitmap_entries E sp d bm1 bm2 bm3 bents d' ->
    encode_fields E sp fl s (mkE d' (done ++ bents)) = (Raise x, st') -> stray x -> msg_escape x (s_dec st').
  Proof.
    intros Hb H Hx. pose proof Hb as Hb'. apply bitmap_entries_keys in Hb as (K & A & -> & G).
    apply encode_fields_stray in H as (H0 & pre & f & post & ents & H1 & H2 & H3 & H4); [| | |assumption].
    2:{ apply (fl_nodup E d bm1 bm2 bm3 F); assumption. }
    2:{ intros f Hf. cbn [s_enc]. apply (fresh_f bm1 bm2 bm3); [assumption|assumption|]. intros k Hk. rewrite K in Hk.
        destruct (bit bm1 1); simpl in Hk; intuition. }
    cbn [s_dec] in *. rewrite H0.
    assert (Hf : In f data_fields) by (apply (fl_in bm1 bm2 bm3); rewrite H1; apply in_or_app; right; now left).
    rewrite G in H4 by assumption.
    exists (bents ++ ents), (zstr f), (map zstr post).
    split; [unfold rest_keys; rewrite H1, !map_app, K, H2; cbn [map]; rewrite <- !app_assoc; reflexivity|].
    split.
    - apply Forall_app. split; [assumption|]. rewrite Forall_forall in *. intros [k [l b]] Hke.
      destruct (H3 _ Hke) as (fs & v & B1 & B2 & B3). cbn [fst snd e_len e_data] in *.
      assert (Hk' : In k (map zstr pre)) by (rewrite <- H2; now apply (in_map fst) in Hke).
      apply in_map_iff in Hk' as (g & <- & Hg').
      assert (Hg : In g data_fields) by (apply (fl_in bm1 bm2 bm3); rewrite H1; apply in_or_app; now left).
      rewrite G in B2 by auto. eapply SentField; eauto.
    - destruct H4 as [[H4 ->]|(fs & H4 & [[H5 ->]|[(de & H5 & H6 & ->)|(v & H5 & H6)]])].
      + now apply FieldEntryMissing. + eapply FieldEncMissing; eauto. + eapply OtherSpelling; eauto. + eapply FieldEscapes; eauto.
  Qed.

  Lemma msg_stray x st' : encode_msg E sp h t F (mkE (pops d) done) = (Raise x, st') -> stray x -> msg_escape x (s_dec st').
  Proof.
    rewrite (encode_msg_eq E sp d bm1 bm2 bm3 F done h t Hsort HF Hrange Hbm). intros Hrun Hx. revert Hrun.
    assert (Hk0 : rest_keys bm1 bm2 bm3 = map fst (@nil (pystr * entry)) ++ u "p" :: (if bit bm1 1 then [u "1"] else []) ++ map zstr fl) by reflexivity.
    destruct (sget (u "p") sp) as [fp|] eqn:Hp.
    2:{ intros [= <- <-]. exists [], (u "p"). eexists. split; [exact Hk0|]. split; [constructor|]. now apply PrimaryEntryMissing. }
    pose proof (fresh_p done Hdone) as Hfp.
    destruct (encode_bitmap E (u "p") fp 0 false _ _) as [[p|y] st1] eqn:H1.
    2:{ intros [= -> ->]. apply bitmap_fresh_stray in H1 as (H1 & -> & ->); [|assumption]. rewrite (primary_bitmap E d F bm1 bm2 bm3 HF Hbm).
        exists [], (u "p"). eexists. split; [exact Hk0|]. split; [constructor|]. exact (PrimaryEncMissing E sp d bm1 bm2 bm3 fp Hkeys Hp H1). }
    apply bitmap_fresh_ok in H1 as [H1 ->]. rewrite (primary_bitmap E d F bm1 bm2 bm3 HF Hbm) in *.
    rewrite st_p by assumption.
    assert (Hsp : Forall sent [(u "p", mkEntry [] p)]).
    { repeat constructor. eapply SentPrimary; eauto. }
    destruct (bit bm1 1) eqn:B1.
    2:{ intro H. eapply fields_escape; [|exact H|assumption]. eapply BE1; eauto. }
    assert (Hk1 : rest_keys bm1 bm2 bm3 = map fst [(u "p", mkEntry [] p)] ++ u "1" :: map zstr fl).
    { unfold rest_keys. rewrite B1. reflexivity. }
    destruct (sget (u "1") sp) as [fs|] eqn:Hs.
    2:{ intros [= <- <-]. exists [(u "p", mkEntry [] p)], (u "1"). eexists. split; [exact Hk1|]. split; [assumption|].
        exact (ExtraEntryMissing E sp d bm1 bm2 bm3 Hkeys Hs). }
    destruct (encode_bitmap E (u "1") fs 64 false _ _) as [[s|y] st2] eqn:H2.
    2:{ intros [= -> ->]. apply bitmap_fresh_stray in H2 as (H2 & -> & ->); [|assumption]. rewrite (secondary_bitmap E d F bm1 bm2 bm3 HF Hbm).
        exists [(u "p", mkEntry [] p)], (u "1"). eexists. split; [exact Hk1|]. split; [assumption|].
        exact (ExtraEncMissing E sp d bm1 bm2 bm3 fs Hkeys Hs H2). }
    apply bitmap_fresh_ok in H2 as [H2 ->]. rewrite (secondary_bitmap E d F bm1 bm2 bm3 HF Hbm) in *. rewrite (st_1 d bm1 bm2 done Hdone).
    destruct (bit bm2 1) eqn:B2.
    2:{ intro H. eapply fields_escape; [eapply BE2; eauto| |assumption]. rewrite <- app_assoc in H. exact H. }
    destruct (encode_bitmap E (u "1") fs 128 true _ _) as [[s'|y] st3] eqn:H3.
    - eapply bitmap_ext_ok in H3; [|apply pget_pset|apply (get_1 done Hdone)]. destruct H3 as [H3 ->].
      rewrite (tertiary_bitmap E d F bm1 bm2 bm3 HF Hbm) in *. rewrite (st_1' d bm1 bm2 done Hdone). fold (d3 d bm1 bm2 bm3). intro H.
      eapply fields_escape; [eapply BE3; eauto| |assumption]. rewrite <- app_assoc in H. exact H.
    - intros [= -> ->]. exfalso.
      assert (exists de, fs_data_enc fs = Some de) as [de Hde] by (destruct H2; eauto).
      eapply bitmap_ext_stray in H3; [contradiction|apply pget_pset|apply (get_1 done Hdone)|exact Hde].
  Qed.
End Msg.

Lemma numeric_unreadable E keys : numeric_keys E keys = inl true <->
  exists pre s post, keys = pre ++ KStr s :: post /\ Forall (readable_key E) pre /\ isnumeric E s = true /\ not_int E s.
Proof.
  induction keys as [|k keys IH]; cbn [numeric_keys].
  - split; [discriminate|]. intros ([|] & ? & ? & ? & _); discriminate.
  - destruct k as [s|i r].
    2:{ split; [discriminate|]. intros ([|k pre] & s & post & H & Hf & _); [discriminate|]. injection H as <- _.
        apply Forall_inv in Hf as (s' & ? & _). discriminate. }
    assert (Hstep : readable_key E (KStr s) ->
      ((exists pre s post, keys = pre ++ KStr s :: post /\ Forall (readable_key E) pre /\ isnumeric E s = true /\ not_int E s) <->
       exists pre s' post, KStr s :: keys = pre ++ KStr s' :: post /\ Forall (readable_key E) pre /\ isnumeric E s' = true /\ not_int E s')).
    { intro Hs. split.
      - intros (pre & s' & post & -> & H & H1). exists (KStr s :: pre), s', post. auto.
      - intros ([|k pre] & s' & post & H & Hf & H1 & H2).
        + injection H as <- <-. destruct Hs as (s' & [= <-] & Hs). destruct (Hs H1) as [n Hx]. destruct (H2 n Hx).
        + injection H as <- ->. inversion Hf; subst. eauto 8. }
    destruct (isnumeric E s) eqn:Hn.
    + destruct (py_int E s) as [n|] eqn:Hi; [apply py_int_text in Hi|apply py_int_no_text in Hi].
      * rewrite <- Hstep, <- IH; [|exists s; split; [reflexivity|eauto]].
        destruct (numeric_keys E keys) as [[|]|ks]; split; congruence.
      * split; [|reflexivity]. intros _. exists [], s, keys. auto.
    + rewrite <- Hstep, <- IH; [reflexivity|]. exists s. split; [reflexivity|congruence].
Qed.

Lemma encode_stray E sp d x d' : is_dict d -> encode E (ADict d) sp = (Raise x, d') -> stray x -> encode_escape E sp d x d'.
Proof.
  intros Hd Hrun Hx. revert Hrun. destruct (bitmaps_exist E d) as (bm1 & bm2 & bm3 & Hbm). unfold encode. rewrite encode_body_eq.
  destruct (encode_header E sp (mkE (pops d) [])) as [[h|y] st1] eqn:Hh.
  { apply (EncodeWhole.header_ok E sp d bm1 bm2 bm3) in Hh as (hs & Hhk & Hhf & -> & ->).
    destruct (encode_type E sp _) as [[t|y] st2] eqn:Ht.
    2:{ intros [= -> <-].
        apply encode_type_stray in Ht as (H0 & v & H1 & H2); [|assumption]. cbn [s_dec] in *. rewrite pops_other in * by discriminate. rewrite H0.
        exists bm1, bm2, bm3, hs, (u "t"), (rest_keys bm1 bm2 bm3). split; [assumption|].
        split; [rewrite plan_split, <- app_assoc, Hhk; reflexivity|]. split; [assumption|].
        change (pops d) with (cleared d). destruct H2 as [[H2 ->]|(fs & H2 & [[H3 ->]|H3])].
        - eapply TypeEntryMissing; eauto. - eapply TypeEncMissing; eauto. - eapply TypeEscapes; eauto. }
    apply (EncodeWhole.type_ok E sp d bm1 bm2 bm3 hs _ _ Hhk) in Ht as (en & Hte & -> & ->). cbn [s_dec].
    set (he := hs ++ [(u "t", en)]). assert (Hhe : map fst he = header_key sp ++ [u "t"]) by (unfold he; rewrite map_app, Hhk; reflexivity).
    assert (Hhef : Forall (entry_sent E sp d bm1 bm2 bm3) he) by (apply Forall_app; auto).
    destruct (numeric_keys E (map fst (pops d))) as [[|]|ks] eqn:Hn.
    - intros [= <- <-]. apply numeric_unreadable in Hn as (pre & s & post & H1 & H2 & H3 & H4).
      exists bm1, bm2, bm3, he, (u "p"). eexists. split; [assumption|]. split; [rewrite plan_split, Hhe; reflexivity|]. split; [assumption|].
      exact (UnreadableKey E sp d bm1 bm2 bm3 pre s post H1 H2 H3 H4).
    - intros [= <- <-]. exfalso. now apply (Hx _ eq_refl).
    - destruct (pops_numeric E d ks Hd Hn) as [HF Hko].
      destruct (zsubset_range 1 193 (zset_of ks)) eqn:Hr; cbn [negb].
      2:{ intros [= <- <-]. exfalso. now apply (Hx _ eq_refl). }
      destruct (encode_msg _ _ _ _ _ _) as [[out|y] st3] eqn:Hm; [discriminate|].
      intros [= -> <-]. apply (msg_stray E sp d bm1 bm2 bm3) in Hm as (ents & k & rest & A1 & A2 & A3);
        [|apply zset_sorted|assumption| |assumption| |now apply Hko|assumption].
      + exists bm1, bm2, bm3, (he ++ ents), k, rest.
        split; [assumption|]. split; [rewrite plan_split, map_app, Hhe, A1, <- !app_assoc; reflexivity|].
        split; [apply Forall_app; auto|]. assumption.
      + intros f Hf. unfold zsubset_range in Hr. rewrite forallb_forall in Hr. apply Hr, in_range_spec in Hf. lia.
      + intros k Hk. rewrite Hhe, in_app_iff in Hk. destruct Hk as [Hk|[<-|[]]]; [left|now right].
        rewrite <- Hhk in Hk. eapply EncodeWhole.header_key_in; eauto. }
  intros [= -> <-]. apply encode_header_stray in Hh as [H0 H]; [|assumption]. cbn [s_dec] in *. rewrite pops_other in H by discriminate. rewrite H0.
  exists bm1, bm2, bm3, [], (u "h"), ([u "t"] ++ rest_keys bm1 bm2 bm3). split; [assumption|].
  assert (Hplan : header_key sp = [u "h"] -> plan sp bm1 bm2 bm3 = map fst (@nil (pystr * entry)) ++ u "h" :: [u "t"] ++ rest_keys bm1 bm2 bm3).
  { intro Hk. rewrite plan_split, Hk. cbn [map app]. reflexivity. }
  change (pops d) with (cleared d).
  destruct H as [[H1 ->]|(fs & H1 & [[H2 ->]|(ml & v & H2 & H3 & H4 & [[H5 ->]|H5])])].
  - split; [apply Hplan; unfold header_key; now rewrite H1|]. split; [constructor|]. now apply HeaderEntryMissing.
  - split; [apply Hplan; unfold header_key; now rewrite H1, H2|]. split; [constructor|]. eapply HeaderMaxLenMissing; eauto.
  - split; [apply Hplan; eapply header_key_on; eauto|]. split; [constructor|]. eapply HeaderEncMissing; eauto.
  - split; [apply Hplan; eapply header_key_on; eauto|]. split; [constructor|]. eapply HeaderEscapes; eauto.
Qed.

(** ** Sent, refused and escaping exclude each other *)
Lemma value_escape_sized fs nib v x : value_escape fs nib v x -> exists de, fs_data_enc fs = Some de /\ is_binary de /\
  ((size_of v = None /\ x = if nib then XUnboundLocalError else XTypeError (u "object has no len()"))
   \/ (exists n, nib = true /\ size_of v = Some n /\ Nat.odd n = true /\ ~ is_str v /\ ~ unpadded fs /\ x = XUnboundLocalError)).
Proof.
  intros [de H1 H2 -> H3|de n H1 H2 -> H3 H4 H5 H6|de H1 H2 -> H3]; exists de; do 2 (split; [assumption|]); [left; auto|right; eauto 8|left; auto].
Qed.
Lemma value_escape_fun fs nib v x y : value_escape fs nib v x -> value_escape fs nib v y -> x = y.
Proof.
  intros A B. apply value_escape_sized in A as (de & _ & _ & A). apply value_escape_sized in B as (de' & _ & _ & B).
  destruct A as [[A ->]|(n & An & A & _ & _ & _ & ->)], B as [[B ->]|(m & Bn & B & _ & _ & _ & ->)]; congruence.
Qed.
Lemma value_escape_sent E fs v x data n : value_escape fs (in_nibbles fs) v x -> encodes_value E fs v data n -> False.
Proof.
  intros A B. apply value_escape_sized in A as (de & A1 & A2 & A).
  destruct B as [de' v d data B1 B2 B3 B4 B5|de' d w data B1 B2 B3 B4 B5|de' s data B1 B2 B3].
  - apply digits_len in B3. destruct A as [[A _]|(m & A & A3 & A4 & _)].
    + rewrite size_val_len in A. congruence.
    + rewrite size_val_len, B3 in A3. injection A3 as <-. rewrite A, A4 in B4. discriminate.
  - destruct A as [[A _]|(m & _ & _ & _ & A & _)]; [discriminate|]. apply A. eexists. reflexivity.
  - congruence.
Qed.
Lemma value_escape_refused E fs nib v x msg : value_escape fs nib v x -> value_refused E fs nib v msg -> False.
Proof.
  intros A B. apply value_escape_sized in A as (de & A1 & A2 & A).
  destruct B as [de' v n B1 B2 B3 B4 B5 B6|de' v n B1 B2 B3 B4 B5|de' v n B1 B2 B3 B4 B5|de' d w B1 B2 B3 B4 B5 B6|de' s why B1 B2 B3|de' v B1 B2 B3];
  try congruence; (destruct A as [[A _]|(m & A & A3 & A4 & A5 & A6 & _)]; [try congruence|]); try congruence; try contradiction.
  - discriminate.
  - apply A5. eexists. reflexivity.
Qed.
Lemma value_escape_type E fs v x data : value_escape fs false v x -> type_sent_as E fs v data -> False.
Proof.
  intros A B. apply value_escape_sized in A as (de & A1 & A2 & [[A _]|(m & A & _)]); [|discriminate].
  destruct B as [de' v d data B1 B2 B3 B4|de' s data B1 B2 B3]; [|congruence].
  apply digits_len in B3. rewrite size_val_len in A. congruence.
Qed.
Lemma type_encodes_sent E fs v data : type_encodes E fs v data -> type_sent_as E fs v data.
Proof. intros [de v' d data' H1 H2 H3 H4 _|de s data' H1 H2 H3 _]; [eapply TypeHex|eapply TypeChars]; eauto. Qed.
Lemma encodes_value_enc E fs v data n : encodes_value E fs v data n -> fs_data_enc fs <> None.
Proof. intros []; congruence. Qed.
Lemma field_refused_enc E fs v msg lenb data : field_refused E fs v msg lenb data -> fs_data_enc fs <> None.
Proof.
  intros [m H|dat n ml H _ _ _ _|dat n lt ml H _ _ _ _ _|dat n lt ml le lb m H _ _ _ _ _ _|dat n lt ml le H _ _ _ _ _ _ _]; try (eapply encodes_value_enc; eassumption).
  apply value_refused_enc in H as [? ?]. congruence.
Qed.
Lemma field_escape_enc E fs v x : field_escape E fs v x -> fs_data_enc fs <> None.
Proof. intros [y [] |data n H _|data n lt H _ _|data n lt ml H _ _ _ _ _|data n lt ml le H _ _ _ _ _ _|data n ml H _ _ _ _|data n lt ml H _ _ _ _ _]; try congruence; eapply encodes_value_enc; eauto. Qed.
Lemma field_escape_sent E fs v x lenb data : field_escape E fs v x -> field_encodes E fs v lenb data -> False.
Proof.
  intros A (n & B1 & B2). destruct A as [x A|dat m A1 A2|dat m lt A1 A2 A3|dat m lt ml A1 A2 A3 A4 A5 A6|dat m lt ml le A1 A2 A3 A4 A5 A6 A7|dat m ml A1 A2 A3 A4 A5|dat m lt ml A1 A2 A3 A4 A5 A6].
  - eapply value_escape_sent; eauto.
  - destruct B2; congruence.
  - destruct B2; congruence.
  - destruct B2; congruence.
  - destruct B2 as [C _ _|w ? ? C _ _ _ _ _]; rewrite A2 in C; injection C as C; lia.
  - destruct (encodes_value_fun _ _ _ _ _ _ _ A1 B1) as [<- <-]. destruct B2 as [_ C _|w ? ? C Cw _ _ _ _]; [congruence|].
    rewrite A2 in C. injection C as C. lia.
  - destruct (encodes_value_fun _ _ _ _ _ _ _ A1 B1) as [<- <-]. destruct B2 as [C _ _|w ? ml' C Cx Cm Cy Cl Cz]; [congruence|].
    assert (ml' = ml) by congruence. lia.
Qed.
Lemma prefix_refused_le E fs v msg lenb data : field_refused E fs v msg lenb data -> forall x, field_escape E fs v x -> False.
Proof.
  intros A x B. destruct A as [msg A|dat n ml A1 A2 A3 A4 Ash|dat n lt ml A1 A2 A3 A4 A5 Ash|dat n lt ml le lenb msg A1 A2 A3 A4 A5 A6 A7|dat n lt ml le A1 A2 A3 A4 A5 A6 A7 A8],
    B as [y B|dat' m B1 B2|dat' m lt' B1 B2 B3|dat' m lt' ml' B1 B2 B3 B4 B5 B6|dat' m lt' ml' le' B1 B2 B3 B4 B5 B6 B7|dat' m ml' B1 B2 B3 B4 B5|dat' m lt' ml' B1 B2 B3 B4 B5 B6]; try congruence.
  all: try (eapply value_escape_refused; eassumption).
  all: try (eapply value_escape_sent; eassumption).
  all: try (eapply value_refused_not; eassumption).
  all: destruct (encodes_value_fun _ _ _ _ _ _ _ A1 B1) as [<- <-]; rewrite B2 in A2; injection A2 as A2;
    try (assert (ml' = ml) by congruence); try (assert (le' = le) by congruence); subst; first [lia|tauto].
Qed.
Lemma field_escape_fun E fs v x y : field_escape E fs v x -> field_escape E fs v y -> x = y.
Proof.
  intros [x' A|dat n A1 A2|dat n lt A1 A2 A3|dat n lt ml A1 A2 A3 A4 A5 A6|dat n lt ml le A1 A2 A3 A4 A5 A6 A7|dat n ml A1 A2 A3 A4 A5|dat n lt ml A1 A2 A3 A4 A5 A6] [y' B|dat' m B1 B2|dat' m lt' B1 B2 B3|dat' m lt' ml' B1 B2 B3 B4 B5 B6|dat' m lt' ml' le' B1 B2 B3 B4 B5 B6 B7|dat' m ml' B1 B2 B3 B4 B5|dat' m lt' ml' B1 B2 B3 B4 B5 B6];
  try congruence; try (exfalso; eapply value_escape_sent; eassumption).
  1: eapply value_escape_fun; eauto.
  all: exfalso; destruct (encodes_value_fun _ _ _ _ _ _ _ A1 B1) as [<- <-]; assert (ml' = ml) by congruence; lia.
Qed.

Section Keys.
  Variables (E : pyenv) (sp : spec) (d : pdoc) (bm1 bm2 bm3 : bytes).
  Hypothesis Hdict : is_dict d.
  Notation esc := (key_escape E sp d bm1 bm2 bm3).
  Notation ref := (key_refused E sp d bm1 bm2 bm3).
  Notation sent := (entry_sent E sp d bm1 bm2 bm3).

  Definition fld_esc (k : pystr) (x : exn) : Prop :=
    (sget k sp = None /\ x = XKeyError k)
    \/ exists fs, sget k sp = Some fs /\
       ((fs_data_enc fs = None /\ x = XKeyError (u "data_enc"))
        \/ (fs_data_enc fs <> None /\ value d k = None /\ x = XKeyError k)
        \/ exists v, value d k = Some v /\ field_escape E fs v x).
  Ltac names := exfalso; match goal with H : In _ data_fields |- _ => apply zstr_name in H; intuition congruence end.
  Lemma esc_h x d' : esc (u "h") x d' -> d' = cleared d /\
    ((sget (u "h") sp = None /\ x = XKeyError (u "h"))
     \/ exists fs, sget (u "h") sp = Some fs /\
       ((fs_max_len fs = None /\ x = XKeyError (u "max_len"))
        \/ exists ml v, fs_max_len fs = Some ml /\ value d (u "h") = Some v
           /\ ((fs_data_enc fs = None /\ x = XKeyError (u "data_enc")) \/ field_escape E fs v x))).
  Proof.
    intro H. remember (u "h") as k eqn:Hk. destruct H; try discriminate Hk; try names; (split; [reflexivity|]);
    [left; auto|right; eauto 6|right; eauto 10|right; eauto 10].
  Qed.
  Lemma esc_t x d' : esc (u "t") x d' -> d' = cleared d /\ exists v, value d (u "t") = Some v /\
    ((sget (u "t") sp = None /\ x = XKeyError (u "t"))
     \/ exists fs, sget (u "t") sp = Some fs /\
       ((fs_data_enc fs = None /\ x = XKeyError (u "data_enc")) \/ value_escape fs false v x)).
  Proof.
    intro H. remember (u "t") as k eqn:Hk. destruct H; try discriminate Hk; try names; (split; [reflexivity|]); eauto 10.
  Qed.
  Lemma esc_p x d' : esc (u "p") x d' ->
    (numeric_keys E (map fst (cleared d)) = inl true /\ x = XValueError /\ d' = cleared d)
    \/ (keys_ok E d /\ ((sget (u "p") sp = None /\ x = XKeyError (u "p") /\ d' = cleared d)
       \/ exists fs, sget (u "p") sp = Some fs /\ fs_data_enc fs = None /\ x = XKeyError (u "data_enc") /\ d' = with_primary d bm1)).
  Proof.
    intro H. remember (u "p") as k eqn:Hk. destruct H; try discriminate Hk; try names.
    - left. split; [|auto]. apply numeric_unreadable. eauto 8.
    - right. auto.
    - right. eauto 8.
  Qed.
  Lemma esc_1 x d' : esc (u "1") x d' -> keys_ok E d /\
    ((sget (u "1") sp = None /\ x = XKeyError (u "1") /\ d' = with_primary d bm1)
     \/ exists fs, sget (u "1") sp = Some fs /\ fs_data_enc fs = None /\ x = XKeyError (u "data_enc") /\ d' = with_extra d bm1 (HEX bm2)).
  Proof.
    intro H. remember (u "1") as k eqn:Hk. destruct H; try discriminate Hk; try names; eauto 10.
  Qed.
  Lemma esc_f f x d' : In f data_fields -> esc (zstr f) x d' -> keys_ok E d /\ d' = with_bitmaps d bm1 bm2 bm3 /\ fld_esc (zstr f) x.
  Proof.
    intros Hf H. remember (zstr f) as k eqn:Hk. unfold fld_esc.
    destruct H; try names; (split; [assumption|]; split; [reflexivity|]).
    - left. auto. - right. eauto 6. - right. eexists. split; [eassumption|]. right. left. split; [congruence|auto].
    - right. eauto 8.
  Qed.
  Lemma esc_key k x d' : esc k x d' -> k = u "h" \/ k = u "t" \/ k = u "p" \/ k = u "1" \/ exists f, In f data_fields /\ k = zstr f.
  Proof. intros []; eauto 8. Qed.

  Lemma keys_ok_readable : keys_ok E d -> exists ks, numeric_keys E (map fst (cleared d)) = inr ks.
  Proof. intro H. apply keys_ok_numeric; assumption. Qed.

  Lemma esc_fun k x d' y d2 : esc k x d' -> esc k y d2 -> x = y /\ d' = d2.
  Proof.
    intros A B. destruct (esc_key _ _ _ A) as [->|[->|[->|[->|(f & Hf & ->)]]]].
    - apply esc_h in A as [-> A]. apply esc_h in B as [-> B]. split; [|reflexivity].
      destruct A as [[A ->]|(fs & A & A')], B as [[B ->]|(fs2 & B & B')]; try congruence.
      assert (fs2 = fs) by congruence. subst.
      destruct A' as [[A1 ->]|(ml & v & A1 & A2 & A3)], B' as [[B1 ->]|(ml2 & v2 & B1 & B2 & B3)]; try congruence.
      assert (v2 = v) by congruence. subst.
      destruct A3 as [[A3 ->]|A3], B3 as [[B3 ->]|B3]; [reflexivity| | |eapply field_escape_fun; eauto].
      + apply field_escape_enc in B3. congruence. + apply field_escape_enc in A3. congruence.
    - apply esc_t in A as (-> & v & A1 & A). apply esc_t in B as (-> & v2 & B1 & B). split; [|reflexivity].
      assert (v2 = v) by congruence. subst.
      destruct A as [[A ->]|(fs & A & A')], B as [[B ->]|(fs2 & B & B')]; try congruence.
      assert (fs2 = fs) by congruence. subst.
      destruct A' as [[A2 ->]|A2], B' as [[B2 ->]|B2]; [reflexivity| | |eapply value_escape_fun; eauto].
      + apply value_escape_sized in B2 as (? & ? & _). congruence. + apply value_escape_sized in A2 as (? & ? & _). congruence.
    - apply esc_p in A as [(A & -> & ->)|[A A']]; apply esc_p in B as [(B & -> & ->)|[B B']].
      + auto. + destruct (keys_ok_readable B). congruence. + destruct (keys_ok_readable A). congruence.
      + destruct A' as [(A' & -> & ->)|(fs & A1 & A2 & -> & ->)], B' as [(B' & -> & ->)|(fs2 & B1 & B2 & -> & ->)]; try congruence; auto.
    - apply esc_1 in A as [_ A']. apply esc_1 in B as [_ B'].
      destruct A' as [(A' & -> & ->)|(fs & A1 & A2 & -> & ->)], B' as [(B' & -> & ->)|(fs2 & B1 & B2 & -> & ->)]; try congruence; auto.
    - apply esc_f in A as (_ & -> & A); [|assumption]. apply esc_f in B as (_ & -> & B); [|assumption]. split; [|reflexivity].
      destruct A as [[A ->]|(fs & A & A')], B as [[B ->]|(fs2 & B & B')]; try congruence.
      assert (fs2 = fs) by congruence. subst.
      destruct A' as [[A1 ->]|[(A1 & A2 & ->)|(v & A1 & A2)]], B' as [[B1 ->]|[(B1 & B2 & ->)|(v2 & B1 & B2)]]; try congruence.
      + apply field_escape_enc in B2. congruence.
      + apply field_escape_enc in A2. congruence.
      + assert (v2 = v) by congruence. subst. eapply field_escape_fun; eauto.
  Qed.

  (** Once past the primary bitmap the keys are fine. *)
  Definition later (k : pystr) : Prop := k <> u "h" /\ k <> u "t" /\ k <> u "p".
  Lemma esc_later k x d' : esc k x d' -> later k -> keys_ok E d.
  Proof. intros H (N1 & N2 & N3). destruct H; try assumption; congruence. Qed.
  Lemma ref_later k msg d' tail : ref k msg d' tail -> later k -> keys_ok E d.
  Proof. intros H (N1 & N2 & N3). destruct H; try assumption; congruence. Qed.

  Lemma esc_sent k x d' e : esc k x d' -> sent (k, e) -> k = u "p" /\ ~ keys_ok E d.
  Proof.
    intros A B. destruct (esc_key _ _ _ A) as [->|[->|[->|[->|(f & Hf & ->)]]]].
    - exfalso. apply esc_h in A as [_ A]. apply sent_field_inv in B as (fs & v & B1 & B2 & B3); [|now left].
      destruct A as [[A _]|(fs2 & A & A')]; [congruence|]. assert (fs2 = fs) by congruence. subst.
      destruct B3 as (n & B3 & B4).
      destruct A' as [[A1 _]|(ml & v2 & A1 & A2 & [[A3 _]|A3])].
      + destruct B4; congruence.
      + apply encodes_value_enc in B3. congruence.
      + assert (v2 = v) by congruence. subst. eapply field_escape_sent; eauto. exists n. eauto.
    - exfalso. apply esc_t in A as (_ & v & A1 & A). apply sent_type_inv in B as (fs & v2 & B1 & B2 & _ & B3).
      assert (v2 = v) by congruence. subst. destruct A as [[A _]|(fs2 & A & [[A2 _]|A2])]; [congruence| |]; assert (fs2 = fs) by congruence; subst.
      + destruct B3; congruence.
      + eapply value_escape_type; eauto. apply type_encodes_sent. eassumption.
    - split; [reflexivity|]. apply esc_p in A as [(A & _)|[_ A]].
      + intro H. destruct (keys_ok_readable H). congruence.
      + exfalso. apply sent_p in B as (fs & p & B1 & B2 & _). destruct A as [(A & _)|(fs2 & A1 & A2 & _)]; [congruence|].
        assert (fs2 = fs) by congruence. subst. destruct B2; congruence.
    - exfalso. apply esc_1 in A as [_ A].
      assert (exists fs b, sget (u "1") sp = Some fs /\ bitmap_encodes E fs bm2 b) as (fs & b & B1 & B2).
      { inversion B as [k fs v l b Hk| | |fs b H1 H2 H3|fs b c H1 H2 H3 H4]; subst; [exfalso; revert Hk; apply not_field; auto|eauto|eauto]. }
      destruct A as [(A & _)|(fs2 & A1 & A2 & _)]; [congruence|]. assert (fs2 = fs) by congruence. subst. destruct B2; congruence.
    - exfalso. apply esc_f in A as (_ & _ & A); [|assumption]. apply sent_field_inv in B as (fs & v & B1 & B2 & B3); [|right; eauto].
      destruct A as [[A _]|(fs2 & A & A')]; [congruence|]. assert (fs2 = fs) by congruence. subst.
      destruct A' as [[A1 _]|[(A1 & A2 & _)|(v2 & A1 & A2)]].
      + destruct B3 as (n & B3 & B4). apply encodes_value_enc in B3. congruence.
      + congruence.
      + assert (v2 = v) by congruence. subst. eapply field_escape_sent; eauto.
  Qed.

  Lemma esc_ref k x d' msg d2 tail : esc k x d' -> ref k msg d2 tail -> False.
  Proof.
    intros A B. destruct (esc_key _ _ _ A) as [->|[->|[->|[->|(f & Hf & ->)]]]].
    - apply esc_h in A as [_ A]. remember (u "h") as k eqn:Hk. destruct B; try discriminate Hk; try names; subst;
      (destruct A as [[A _]|(fs2 & A & A')]; [congruence|]); assert (fs2 = fs) by congruence; subst;
      (destruct A' as [[A1 _]|(ml2 & v2 & A1 & A2 & A3)]; [congruence|]); try congruence.
      assert (v2 = v) by congruence. subst. destruct A3 as [[A3 _]|A3]; [|eapply prefix_refused_le; eauto].
      match goal with H : field_refused _ _ _ _ _ _ |- _ => apply field_refused_enc in H end. congruence.
    - apply esc_t in A as (_ & v & A1 & A). remember (u "t") as k eqn:Hk. destruct B; try discriminate Hk; try names; subst; try congruence.
      assert (v0 = v) by congruence. subst. destruct A as [[A _]|(fs2 & A & A')]; [congruence|]. assert (fs2 = fs) by congruence. subst.
      match goal with H : type_refused _ _ _ _ _ |- _ => destruct H as [m T|de dat w T T1 T2 T3] end.
      + destruct A' as [[A' _]|A']; [apply value_refused_enc in T as [? ?]; congruence|eapply value_escape_refused; eauto].
      + destruct A' as [[A' _]|A']; [congruence|eapply value_escape_type; eauto].
    - apply esc_p in A. remember (u "p") as k eqn:Hk. destruct B; try discriminate Hk; try names; subst.
      + assert (numeric_keys E (map fst (cleared d)) = inl false) by (apply numeric_foreign; eauto 6).
        destruct A as [(A & _)|[A _]]; [congruence|]. destruct (keys_ok_readable A). congruence.
      + match goal with H : Forall _ _ |- _ => destruct (readable_numeric E _ H) as [ks Hks] end.
        destruct A as [(A & _)|[A _]]; [congruence|].
        destruct l as [|f l]; [congruence|].
        match goal with H : forall f, In f _ <-> _ |- _ => destruct (proj1 (H f) (or_introl eq_refl)) as [(k & K1 & K2 & K3 & K4 & K5) K6] end.
        destruct (A _ K1) as (s & [= <-] & K7). destruct (K7 K2 K3 K4) as (f' & K8 & K9). assert (f' = f) by (eapply int_text_unique; eassumption). subst. contradiction.
      + destruct A as [(A & _)|[_ A]].
        * match goal with H : keys_ok _ _ |- _ => destruct (keys_ok_readable H) end. congruence.
        * match goal with H : bitmap_refused _ _ _ _ |- _ => destruct H end. destruct A as [(A & _)|(fs2 & A1 & A2 & _)]; congruence.
    - apply esc_1 in A as [_ A]. remember (u "1") as k eqn:Hk. destruct B; try discriminate Hk; try names; subst;
      match goal with H : bitmap_refused _ _ _ _ |- _ => destruct H end; destruct A as [(A & _)|(fs2 & A1 & A2 & _)]; congruence.
    - apply esc_f in A as (_ & _ & A); [|assumption]. remember (zstr f) as k eqn:Hk. destruct B; try names; subst.
      destruct A as [[A _]|(fs2 & A & A')]; [congruence|]. assert (fs2 = fs) by congruence. subst.
      destruct A' as [[A1 _]|[(A1 & A2 & _)|(v2 & A1 & A2)]].
      + match goal with H : field_refused _ _ _ _ _ _ |- _ => apply field_refused_enc in H end. congruence.
      + congruence.
      + assert (v2 = v) by congruence. subst. eapply prefix_refused_le; eauto.
  Qed.

  Lemma field_refused_sent fs v msg lenb data lenb' data' : field_refused E fs v msg lenb data -> field_encodes E fs v lenb' data' -> False.
  Proof.
    intros A B. set (k := u "x"). set (st := mkE [(KStr k, v)] []).
    assert (Hg : pget (KStr k) (s_dec st) = Some v) by reflexivity.
    assert (H1 : encode_field E k fs st = (Ok (lenb' ++ data'), eput k lenb' data' st)) by (apply encode_field_ok; eauto 10).
    assert (H2 : encode_field E k fs st = @refuses bytes k msg (eput k lenb data st)) by (apply encode_field_refuses; eauto 10).
    unfold refuses in H2. congruence.
  Qed.
  Lemma type_refused_sent fs v msg data data' : type_refused E fs v msg data -> type_encodes E fs v data' -> False.
  Proof.
    intros [m A|de dat w A1 A2 A3 A4] B.
    - apply type_encodes_sent, type_sent_bytes in B. apply value_refused_bytes in A. eapply (value_refused_not E (bytes_spec fs)); eauto.
    - assert (length data' = w).
      { destruct B as [de' v' dd data'' B1 B2 B3 B4 B5|de' s data'' B1 B2 B3 B4]; assert (de' = de) by congruence; subst; destruct A3; tauto || intuition congruence. }
      apply type_encodes_sent, type_sent_bytes in B. apply type_sent_bytes in A2.
      destruct (encodes_value_fun _ _ _ _ _ _ _ A2 B) as [-> _]. congruence.
  Qed.
  Lemma ref_sent k msg d2 tail e : ref k msg d2 tail -> sent (k, e) -> k = u "p" /\ ~ keys_ok E d.
  Proof.
    intros A B. destruct A as [fs ml A1 A2 A3|fs ml v msg lenb data A1 A2 A3 A4|A1|fs v msg data A1 A2 A3|pre i r post A1 A2|l A1 A2 A3 A4|fs msg A1 A2 A3|fs msg A1 A2 A3|fs b2 msg A1 A2 A3 A4 A5|f fs v msg lenb data A1 A2 A3 A4 A5].
    - exfalso. apply sent_field_inv in B as (fs2 & v & B1 & B2 & B3); [|now left]. congruence.
    - exfalso. apply sent_field_inv in B as (fs2 & v2 & B1 & B2 & B3); [|now left].
      assert (fs2 = fs) by congruence. assert (v2 = v) by congruence. subst. eapply field_refused_sent; eauto.
    - exfalso. apply sent_type_inv in B as (fs & v2 & B1 & B2 & _ & B3). congruence.
    - exfalso. apply sent_type_inv in B as (fs2 & v2 & B1 & B2 & _ & B3).
      assert (fs2 = fs) by congruence. assert (v2 = v) by congruence. subst. eapply type_refused_sent; eauto.
    - split; [reflexivity|]. intro H. destruct (keys_ok_readable H).
      assert (numeric_keys E (map fst (cleared d)) = inl false) by (apply numeric_foreign; eauto 6). congruence.
    - split; [reflexivity|]. intro H. destruct l as [|f l]; [congruence|].
      destruct (proj1 (A3 f) (or_introl eq_refl)) as [(k & K1 & K2 & K3 & K4 & K5) K6].
      destruct (H _ K1) as (s & [= <-] & K7). destruct (K7 K2 K3 K4) as (f' & K8 & K9). assert (f' = f) by (eapply int_text_unique; eassumption). subst. contradiction.
    - exfalso. apply sent_p in B as (fs2 & p & B1 & B2 & _). assert (fs2 = fs) by congruence. subst. eapply bitmap_not_both; eauto.
    - exfalso. inversion B as [k fs2 v l b Hk| | |fs2 b H1 H2 H3|fs2 b c H1 H2 H3 H4]; subst; [exfalso; revert Hk; apply not_field; auto|..];
      assert (fs2 = fs) by congruence; subst; eapply bitmap_not_both; eauto.
    - exfalso. inversion B as [k fs2 v l b Hk| | |fs2 b H1 H2 H3|fs2 b c H1 H2 H3 H4]; subst; [exfalso; revert Hk; apply not_field; auto|..];
      [congruence|]. assert (fs2 = fs) by congruence. subst. eapply (bitmap_not_both E fs bm3); eauto.
    - exfalso. apply sent_field_inv in B as (fs2 & v2 & B1 & B2 & B3); [|right; eauto].
      assert (fs2 = fs) by congruence. assert (v2 = v) by congruence. subst. eapply field_refused_sent; eauto.
  Qed.
End Keys.

(** ** Where it happens *)
Lemma plan_position sp bm1 bm2 bm3 (a : edoc) k rest (b : edoc) k2 rest2 :
  plan sp bm1 bm2 bm3 = map fst a ++ k :: rest -> plan sp bm1 bm2 bm3 = map fst b ++ k2 :: rest2 ->
  (k = k2) \/ In k (map fst b) \/ In k2 (map fst a).
Proof.
  intros H1 H2. rewrite H1 in H2. apply app_eq_app in H2 as (l & [[H2 H3]|[H2 H3]]).
  - destruct l as [|x l]; [injection H3 as ->; auto|]. injection H3 as <- _. right. right. rewrite H2. apply in_or_app. right. now left.
  - destruct l as [|x l]; [injection H3 as ->; auto|]. injection H3 as <- _. right. left. rewrite H2. apply in_or_app. right. now left.
Qed.
Lemma plan_past_p sp bm1 bm2 bm3 (a : edoc) k rest : plan sp bm1 bm2 bm3 = map fst a ++ k :: rest -> In (u "p") (map fst a) -> later k.
Proof.
  intros H Hp. pose proof (plan_nodup sp bm1 bm2 bm3) as Hn. rewrite H in Hn.
  assert (Hs : forall x, In x (map fst a) -> x <> k).
  { intros x Hx ->. apply NoDup_remove_2 in Hn. apply Hn, in_or_app. auto. }
  unfold later. split; [|split].
  - intros ->. apply plan_at_h in H as [H _]. rewrite H in Hp. contradiction.
  - intros ->. apply plan_at_t in H. rewrite H in Hp. destruct (header_key_two sp) as [Hh|Hh]; rewrite Hh in Hp; simpl in Hp; intuition discriminate.
  - intros ->. now apply (Hs _ Hp).
Qed.

Lemma in_done E sp d bm1 bm2 bm3 (a : edoc) k : Forall (entry_sent E sp d bm1 bm2 bm3) a -> In k (map fst a) ->
  exists e, entry_sent E sp d bm1 bm2 bm3 (k, e).
Proof. intros Ha Hk. rewrite Forall_forall in Ha. apply in_map_iff in Hk as ([k' e] & <- & Hk). exists e. now apply Ha. Qed.

Lemma escape_not_message E sp d x d' bm1 bm2 bm3 enc : is_dict d -> encode_escape E sp d x d' -> encoding E sp d bm1 bm2 bm3 enc -> False.
Proof.
  intros Hd (c1 & c2 & c3 & done & k & rest & Hbm & Hplan & Hsent & He) (Hk & Hbm' & Hp & Hs).
  destruct (bitmaps_for_fun _ _ _ _ _ _ _ _ Hbm Hbm') as (-> & -> & ->).
  assert (Hin : In k (map fst enc)) by (rewrite Hp, Hplan; apply in_or_app; right; now left).
  destruct (in_done _ _ _ _ _ _ _ _ Hs Hin) as [e Hke].
  now destruct (esc_sent _ _ _ _ _ _ Hd _ _ _ _ He Hke).
Qed.
Lemma escape_not_fault E sp d x d' msg k2 d2 enc : is_dict d -> encode_escape E sp d x d' -> encode_fault E sp d msg k2 d2 enc -> False.
Proof.
  intros Hd (c1 & c2 & c3 & done & k & rest & Hbm & Hplan & Hsent & He) (bm1 & bm2 & bm3 & done2 & rest2 & tail & Hbm2 & Hplan2 & Hsent2 & Hr & _).
  destruct (bitmaps_for_fun _ _ _ _ _ _ _ _ Hbm Hbm2) as (-> & -> & ->).
  destruct (plan_position _ _ _ _ _ _ _ _ _ _ Hplan Hplan2) as [->|[H|H]].
  - eapply esc_ref; eauto.
  - destruct (in_done _ _ _ _ _ _ _ _ Hsent2 H) as [e Hke]. destruct (esc_sent _ _ _ _ _ _ Hd _ _ _ _ He Hke) as [-> Hno].
    apply Hno. eapply ref_later; eauto. eapply plan_past_p; eauto.
  - destruct (in_done _ _ _ _ _ _ _ _ Hsent H) as [e Hke].
    destruct (ref_sent _ _ _ _ _ _ Hd _ _ _ _ _ Hr Hke) as [-> Hno].
    apply Hno. eapply esc_later; eauto. eapply plan_past_p; eauto.
Qed.
Lemma escape_fun E sp d x d' y d2 : is_dict d -> encode_escape E sp d x d' -> encode_escape E sp d y d2 -> x = y /\ d' = d2.
Proof.
  intros Hd (c1 & c2 & c3 & done & k & rest & Hbm & Hplan & Hsent & He) (bm1 & bm2 & bm3 & done2 & k2 & rest2 & Hbm2 & Hplan2 & Hsent2 & He2).
  destruct (bitmaps_for_fun _ _ _ _ _ _ _ _ Hbm Hbm2) as (-> & -> & ->).
  destruct (plan_position _ _ _ _ _ _ _ _ _ _ Hplan Hplan2) as [->|[H|H]].
  - eapply esc_fun; eauto.
  - exfalso. destruct (in_done _ _ _ _ _ _ _ _ Hsent2 H) as [e Hke]. destruct (esc_sent _ _ _ _ _ _ Hd _ _ _ _ He Hke) as [-> Hno].
    apply Hno. apply (esc_later _ _ _ _ _ _ _ _ _ He2). eapply plan_past_p; eauto.
  - exfalso. destruct (in_done _ _ _ _ _ _ _ _ Hsent H) as [e Hke]. destruct (esc_sent _ _ _ _ _ _ Hd _ _ _ _ He2 Hke) as [-> Hno].
    apply Hno. apply (esc_later _ _ _ _ _ _ _ _ _ He). eapply plan_past_p; eauto.
Qed.
Lemma escape_stray E sp d x d' : encode_escape E sp d x d' -> stray x.
Proof.
  assert (V : forall fs nib v x, value_escape fs nib v x -> stray x) by (intros fs nib v y []; congruence).
  assert (W : forall E fs v x, field_escape E fs v x -> stray x) by (intros E' fs v y []; try congruence; eauto).
  intros (c1 & c2 & c3 & done & k & rest & _ & _ & _ & []); try discriminate; eauto.
Qed.

(** ** The theorems *)
Lemma encode_runs E sp d : exists r d', encode E (ADict d) sp = (r, d').
Proof. destruct (encode E (ADict d) sp) as [r d']. eauto. Qed.
Theorem encode_escape_iff E sp d x d' : is_dict d ->
  (encode E (ADict d) sp = (Raise x, d') /\ (forall e, x <> XEncodeError e) <-> encode_escape E sp d x d').
Proof.
  intro Hd. split; [intros [H1 H2]; now apply encode_stray|]. intro H. pose proof (escape_stray _ _ _ _ _ H) as Hx. split; [|exact Hx].
  destruct (encode E (ADict d) sp) as [[[s enc]|y] d2] eqn:Hrun.
  - exfalso. apply (encode_ok E sp d s enc d2 Hd) in Hrun as (bm1 & bm2 & bm3 & He & _). eapply escape_not_message; eauto.
  - assert (Hy : stray y \/ exists e, y = XEncodeError e) by (destruct y; try (left; intro; discriminate); eauto).
    destruct Hy as [Hy|[e ->]].
    + pose proof (encode_stray _ _ _ _ _ Hd Hrun Hy) as H'. destruct (escape_fun _ _ _ _ _ _ _ Hd H H') as [-> ->]. reflexivity.
    + exfalso. apply encode_fault_1 in Hrun as (msg & k & enc & Hf & _); [|assumption]. eapply escape_not_fault; eauto.
Qed.
Theorem encode_one_outcome E sp d : is_dict d ->
  let message := exists bm1 bm2 bm3 enc, encoding E sp d bm1 bm2 bm3 enc in
  let fault := exists msg k d' enc, encode_fault E sp d msg k d' enc in
  let escape := exists x d', encode_escape E sp d x d' in
  (message \/ fault \/ escape) /\ ~ (message /\ fault) /\ ~ (message /\ escape) /\ ~ (fault /\ escape).
Proof.
  intros Hd message fault escape. split; [|split; [|split]].
  - destruct (encode E (ADict d) sp) as [[[s enc]|y] d2] eqn:Hrun.
    + left. apply (encode_ok E sp d s enc d2 Hd) in Hrun as (bm1 & bm2 & bm3 & He & _). unfold message. eauto.
    + assert (Hy : stray y \/ exists e, y = XEncodeError e) by (destruct y; try (left; intro; discriminate); eauto).
      right. destruct Hy as [Hy|[e ->]].
      * right. exists y, d2. now apply encode_stray.
      * left. apply encode_fault_1 in Hrun as (msg & k & enc & Hf & _); [|assumption]. unfold fault. eauto.
  - intros [(bm1 & bm2 & bm3 & enc & H1) (msg & k & d' & enc' & H2)].
    apply encode_fault_2 in H2; [|assumption].
    assert (A : encode E (ADict d) sp = (Ok (wire_bytes enc, enc), with_bitmaps d bm1 bm2 bm3)) by (apply (encode_ok E sp d _ enc _ Hd); eauto 8).
    congruence.
  - intros [(bm1 & bm2 & bm3 & enc & H1) (x & d' & H2)]. eapply escape_not_message; eauto.
  - intros [(msg & k & d2 & enc & H1) (x & d' & H2)]. eapply escape_not_fault; eauto.
Qed.
