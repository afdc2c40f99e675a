(** * Size: bounds on the size of messages. *)
From Coq Require Import ZifyBool ZifyNat ZifyN.
From Verif Require Import PyBase BaseFacts Types Numerals NumeralFacts Decoder Encoder Wire WireEncode Claims Claims5 CPython311 Specs Samples CodecFacts.
From Verif Require Import DecoderFacts DecodeRun DecodeTheorems EncoderFacts EncodeRun EncodeWhole EncodeTheorems EncodeTheorems2 EncodeTheorems3 SampleFacts Shipped ShippedLang.
Ltac Zify.zify_post_hook ::= Z.div_mod_to_equations.
Local Opaque data_fields.

Lemma total_app f a b : total f (a ++ b) = (total f a + total f b)%Z.
Proof. induction a as [|x a IH]; [reflexivity|]. cbn [app total fold_right] in *. unfold total in *. cbn [fold_right]. lia. Qed.
Lemma total_cons f x a : total f (x :: a) = (f x + total f a)%Z.
Proof. reflexivity. Qed.
Lemma total_pos f l : (forall k, 0 <= f k)%Z -> (0 <= total f l)%Z.
Proof. intro H. induction l as [|x l IH]; [reflexivity|]. rewrite total_cons. specialize (H x). lia. Qed.
Lemma total_incl f ks : forall l, (forall k, 0 <= f k)%Z -> NoDup ks -> incl ks l -> (total f ks <= total f l)%Z.
Proof.
  induction ks as [|k ks IH]; intros l H0 Hn Hi; [now apply total_pos|].
  assert (Hk : In k l) by (apply Hi; now left). apply in_split in Hk as (a & b & ->). inversion Hn as [|? ? Hk Hn']; subst.
  rewrite total_app, !total_cons. assert (Hle := IH (a ++ b) H0 Hn'). rewrite total_app in Hle. enough (total f ks <= total f a + total f b)%Z by lia.
  apply Hle. intros x Hx. assert (Hx' : In x (a ++ k :: b)) by (apply Hi; now right). apply in_app_iff in Hx' as [Hx'|[->|Hx']]; [|contradiction|]; apply in_app_iff; auto.
Qed.
Lemma max_bytes_pos fs : (0 <= max_bytes fs)%Z.
Proof. unfold max_bytes. destruct (fs_max_len fs); [|lia]. destruct (in_nibbles fs); lia. Qed.
Lemma prefix_bytes_pos fs : (0 <= prefix_bytes fs)%Z.
Proof. unfold prefix_bytes. destruct (fs_len_type fs); lia. Qed.
Lemma most_pos sp k : (0 <= most sp k)%Z.
Proof.
  unfold most. destruct (sget k sp) as [fs|]; [|lia]. pose proof (max_bytes_pos fs). pose proof (prefix_bytes_pos fs).
  destruct (is_text _), (str_eqb k (u "t")), (str_eqb k (u "p")), (str_eqb k (u "1")); lia.
Qed.

Definition within (sp : spec) (ke : pystr * entry) : Prop :=
  (least sp (fst ke) <= zlen (e_len (snd ke) ++ e_data (snd ke)) <= most sp (fst ke))%Z.
Lemma wire_within sp enc : Forall (within sp) enc ->
  (total (least sp) (map fst enc) <= zlen (wire_bytes enc) <= total (most sp) (map fst enc))%Z.
Proof.
  induction 1 as [|[k e] enc H _ IH]; [split; apply Z.le_refl|]. cbn [map fst]. rewrite !total_cons. unfold within in H. cbn [fst snd] in H.
  change (wire_bytes ((k, e) :: enc)) with ((e_len e ++ e_data e) ++ wire_bytes enc). rewrite zlen_app. lia.
Qed.

(** ** One field *)
Lemma field_within sp k fs lt ml n (lenb data : bytes) : k <> u "t" -> k <> u "p" -> k <> u "1" ->
  sget k sp = Some fs -> fs_len_type fs = Some (Z.of_nat lt) -> fs_max_len fs = Some ml -> length lenb = lt ->
  (if (lt =? 0)%nat then n = ml else n <= ml)%Z -> occupies fs n (zlen data) -> within sp (k, mkEntry lenb data).
Proof.
  intros H1 H2 H3 Hk Hlt Hml Hl Hn Ho. unfold within, least, most. cbn [fst snd e_len e_data]. rewrite Hk.
  apply str_eqb_neq in H1, H2, H3. rewrite H1, H2, H3. unfold prefix_bytes, max_bytes. rewrite Hlt, Hml, zlen_app. rewrite Z.max_r by lia.
  unfold occupies in Ho. pose proof (zlen_nonneg data). assert (zlen lenb = Z.of_nat lt) by (unfold zlen; lia).
  destruct (Nat.eqb_spec lt 0) as [->|Hz].
  - subst n. change (Z.of_nat 0 =? 0)%Z with true. cbv iota. destruct (in_nibbles fs); [destruct Ho; lia|lia].
  - replace (Z.of_nat lt =? 0)%Z with false by lia. destruct (in_nibbles fs); [destruct Ho; lia|lia].
Qed.

Lemma text_true de : de <> u "b" -> is_text (Some de) = true.
Proof. intro H. cbn. apply str_eqb_neq in H. now rewrite H. Qed.
Lemma text_factor fs de : fs_data_enc fs = Some de -> is_binary de -> is_text (fs_data_enc fs) = false.
Proof. intros -> ->. reflexivity. Qed.
Lemma text_factor' fs de : fs_data_enc fs = Some de -> ~ is_binary de -> is_text (fs_data_enc fs) = true.
Proof. intros -> H. now apply text_true. Qed.
Lemma type_within sp fs (data : bytes) : sget (u "t") sp = Some fs ->
  length data = (if is_text (fs_data_enc fs) then 4 else 2)%nat -> within sp (u "t", mkEntry [] data).
Proof.
  intros Hk Hl. unfold within, least, most. cbn [fst snd e_len e_data app]. rewrite Hk.
  change (str_eqb (u "t") (u "t")) with true. cbv iota zeta. unfold zlen. destruct (is_text _); lia.
Qed.
Lemma primary_within sp fs (data : bytes) : sget (u "p") sp = Some fs ->
  length data = (if is_text (fs_data_enc fs) then 16 else 8)%nat -> within sp (u "p", mkEntry [] data).
Proof.
  intros Hk Hl. unfold within, least, most. cbn [fst snd e_len e_data app]. rewrite Hk.
  change (str_eqb (u "p") (u "t")) with false. change (str_eqb (u "p") (u "p")) with true. cbv iota zeta. unfold zlen. destruct (is_text _); lia.
Qed.
Lemma extra_within sp fs (data : bytes) : sget (u "1") sp = Some fs ->
  length data = (if is_text (fs_data_enc fs) then 16 else 8)%nat \/ length data = (if is_text (fs_data_enc fs) then 32 else 16)%nat ->
  within sp (u "1", mkEntry [] data).
Proof.
  intros Hk Hl. unfold within, least, most. cbn [fst snd e_len e_data app]. rewrite Hk.
  change (str_eqb (u "1") (u "t")) with false. change (str_eqb (u "1") (u "p")) with false. change (str_eqb (u "1") (u "1")) with true.
  cbv iota zeta. unfold zlen. destruct (is_text _); lia.
Qed.

(** ** Decoding *)
Lemma bitmap_wire_size E fs data text bm : bitmap_wire E fs data text bm ->
  length data = (if is_text (fs_data_enc fs) then 16 else 8)%nat.
Proof. intros [de H1 H2 H3 _ _|de H1 H2 H3 _ _]; [rewrite (text_factor _ _ H1 H2)|rewrite (text_factor' _ _ H1 H2)]; assumption. Qed.
Lemma segment_within E sp sg : sg_key sg <> u "t" -> sg_key sg <> u "p" -> sg_key sg <> u "1" -> field_segment E sp sg ->
  within sp (sg_key sg, mkEntry (sg_len sg) (sg_data sg)).
Proof.
  intros H1 H2 H3 (fs & Hk & n & Ha & Ho & _). destruct Ha as [Hl Hb Hm|lt le ml Hl Hlt Hb He Hp Hm Hle].
  - eapply (field_within sp _ fs 0); eauto. { now rewrite Hb. } reflexivity.
  - eapply field_within; eauto. destruct (Nat.eqb_spec lt 0); [contradiction|assumption].
Qed.
Definition seg_within (sp : spec) (sg : segment) : Prop := within sp (sg_key sg, mkEntry (sg_len sg) (sg_data sg)).
Lemma header_within E sp hs : header_part E sp hs -> Forall (seg_within sp) hs.
Proof.
  intros [fs ml _ _ _|fs ml sg _ _ _ Hk Hs]; [constructor|]. constructor; [|constructor]. apply segment_within with E; auto; rewrite Hk; discriminate.
Qed.
Lemma fields_within E sp bm1 bm2 bm3 fields : fields_part E sp bm1 bm2 bm3 fields -> Forall (seg_within sp) fields.
Proof.
  intros [Hkeys Hf]. rewrite Forall_forall in *. intros sg Hi. assert (Hk : In (sg_key sg) (map zstr (filter (announced bm1 bm2 bm3) data_fields))) by (rewrite <- Hkeys; now apply in_map).
  apply in_map_iff in Hk as (f & Hk & Hfi). apply filter_In in Hfi as [Hfi _]. apply data_fields_in in Hfi.
  apply segment_within with E; [rewrite <- Hk; apply zstr_neq_t; lia|rewrite <- Hk; apply zstr_neq_p; lia|rewrite <- Hk; apply zstr_neq_1; lia|now apply Hf].
Qed.
Lemma type_wire_size E fs data text : type_wire E fs data text -> length data = (if is_text (fs_data_enc fs) then 4 else 2)%nat.
Proof. intros [de H1 H2 H3 _|de H1 H2 H3 _]; [rewrite (text_factor _ _ H1 H2)|rewrite (text_factor' _ _ H1 H2)]; assumption. Qed.
Lemma seg_of_key sp sg k lenb : sg_key sg = k -> sg_len sg = lenb -> within sp (k, mkEntry lenb (sg_data sg)) -> seg_within sp sg.
Proof. now intros <- <-. Qed.
Lemma message_within E sp segs : message E sp segs -> Forall (seg_within sp) segs.
Proof.
  intros (hs & t & p & xs & fields & bm1 & bm2 & bm3 & -> & Hh & (ft & Ht & Kt & Lt & Wt) & (fp & Hp & Kp & Lp & Wp) & Hx & Hf).
  apply Forall_app. split; [eapply header_within; eauto|]. constructor.
  { eapply seg_of_key; eauto. eapply type_within; eauto. eapply type_wire_size; eauto. }
  constructor. { eapply seg_of_key; eauto. eapply primary_within; eauto. eapply bitmap_wire_size; eauto. }
  apply Forall_app. split; [|eapply fields_within; eauto].
  destruct Hx as [_|fs sg bm2 _ Hk K L W _|fs sg d2 t2 bm2 d3 t3 bm3 _ Hk K L D T W2 W3 _]; [constructor| |].
  - constructor; [|constructor]. eapply seg_of_key; eauto. eapply extra_within; eauto. left. eapply bitmap_wire_size; eauto.
  - constructor; [|constructor]. eapply seg_of_key; eauto. eapply extra_within; eauto. right. rewrite D, app_length.
    apply bitmap_wire_size in W2, W3. destruct (is_text _); lia.
Qed.
Lemma message_parts E sp segs : message E sp segs -> incl (map sg_key segs) (all_parts sp).
Proof.
  intros (hs & t & p & xs & fields & bm1 & bm2 & bm3 & -> & Hh & (ft & Ht & Kt & Lt & Wt) & (fp & Hp & Kp & Lp & Wp) & Hx & [Hf _]).
  unfold all_parts. rewrite map_app. cbn [map]. rewrite map_app, Kt, Kp, Hf. apply incl_app.
  - apply incl_appl. intros k Hk. destruct Hh as [|fs ml sg H1 H2 H3 H4 _]; [destruct Hk|]. destruct Hk as [<-|[]]. rewrite H4.
    unfold header_key. rewrite H1, H2. replace (ml <=? 0)%Z with false by lia. now left.
  - apply incl_appr. apply incl_cons; [now left|]. apply incl_cons; [now right; left|]. apply incl_app.
    + intros k Hk. right. right. left. destruct Hx as [|? ? ? ? ? K|? ? ? ? ? ? ? ? ? ? K]; [destruct Hk| |]; destruct Hk as [<-|[]]; symmetry; assumption.
    + intros k Hk. right. right. right. apply in_map_iff in Hk as (f & <- & Hk). apply filter_In in Hk as [Hk _]. now apply in_map.
Qed.
Lemma within_enc sp segs : Forall (seg_within sp) segs -> Forall (within sp) (enc_of segs).
Proof. induction 1 as [|sg segs H _ IH]; constructor; assumption. Qed.

Lemma decode_size E sp s b dec enc : bitmaps_fit E sp -> holds s b -> decode E s sp = Ok (dec, enc) ->
  (total (least sp) (map fst enc) <= zlen b <= total (most sp) (map fst enc))%Z
  /\ (total (most sp) (map fst enc) <= capacity sp)%Z.
Proof.
  intros Hfit Hs H. destruct (decode_accounts _ _ _ _ _ _ Hs H) as (Hb & _ & Hn).
  apply (decode_iff _ _ _ _ _ _ Hfit Hs) in H as (segs & Hm & -> & -> & ->). rewrite <- Hb. split.
  - apply wire_within. apply within_enc. eapply message_within; eauto.
  - apply total_incl; auto using most_pos. rewrite keys_enc. eapply message_parts; eauto.
Qed.

(** ** Encoding *)
Lemma value_size E fs v data n lt ml : encodes_value E fs v data n -> fs_len_type fs = Some (Z.of_nat lt) -> fs_max_len fs = Some ml ->
  occupies fs n (zlen data).
Proof.
  intros H _ _. unfold occupies. destruct H as [de v d data H1 H2 H3 H4 H5|de d w data H1 H2 H3 H4 H5|de s data H1 H2 H3].
  - apply spells_length in H5. destruct (in_nibbles fs); [|reflexivity]. unfold zlen. lia.
  - apply spells_length in H5. apply andb_true_iff in H3 as [-> _]. right.
    destruct H4 as [(c & _ & ->)|(_ & c & _ & ->)]; unfold zlen; [|rewrite app_length in H5]; simpl in H5; lia.
  - destruct (in_nibbles fs); [|reflexivity]. lia.
Qed.
Lemma prefix_size E sp k fs le lt n lenb : narrow_text E sp -> sget k sp = Some fs -> fs_len_enc fs = Some le ->
  encodes_prefix E le lt n lenb -> length lenb = lt.
Proof.
  intros Hn Hk Hle [H1 H2 _|v _ H2 _ _|H1 H2 H3 H4]; auto. unfold is_binary in H1.
  assert (Hw := Hn k fs le Hk H1 (or_introl Hle)). apply Hw in H3.
  - pose proof (fmt0d_length_ge lt (Z.to_N n)). lia.
  - eapply Forall_impl; [|apply fmt0d_digits]. intros c Hc. cbv beta in *. unfold is_digit in Hc. lia.
Qed.
Lemma bitmap_size E sp k fs bm data : narrow_text E sp -> k = u "p" \/ k = u "1" -> sget k sp = Some fs -> length bm = 8%nat ->
  bitmap_encodes E fs bm data -> length data = (if is_text (fs_data_enc fs) then 16 else 8)%nat.
Proof.
  intros Hn Hpk Hk Hl [de H1 H2 ->|de H1 H2 H3].
  - now rewrite (text_factor _ _ H1 H2).
  - rewrite (text_factor' _ _ H1 H2). unfold is_binary in H2. assert (Hw := Hn k fs de Hk H2 (or_intror (conj Hpk H1))).
    rewrite (Hw _ _ (HEX_ascii bm) H3). rewrite HEX_eq, py_HEX_length. lia.
Qed.
Lemma type_size E fs v data : type_encodes E fs v data -> length data = (if is_text (fs_data_enc fs) then 4 else 2)%nat.
Proof. intros [de v' d data' H1 H2 _ _ H3|de s data' H1 H2 _ H3]; [rewrite (text_factor _ _ H1 H2)|rewrite (text_factor' _ _ H1 H2)]; assumption. Qed.
Lemma sent_within E sp d bm1 bm2 bm3 ke : narrow_text E sp -> length bm1 = 8%nat -> length bm2 = 8%nat -> length bm3 = 8%nat ->
  entry_sent E sp d bm1 bm2 bm3 ke -> within sp ke.
Proof.
  intros Hn L1 L2 L3 [k fs v lenb data Hk Hfs Hv (n & Hval & Hlen)|fs v data Hfs Hv He|fs data Hfs He|fs data Hb Hfs He|fs d2 d3 Hb Hfs He2 He3].
  - assert (Hk' : k <> u "t" /\ k <> u "p" /\ k <> u "1").
    { destruct Hk as [->|(f & Hf & ->)]; [repeat split; discriminate|]. apply data_fields_in in Hf.
      split; [apply zstr_neq_t; lia|split; [apply zstr_neq_p; lia|apply zstr_neq_1; lia]]. }
    destruct Hk' as (K1 & K2 & K3). destruct Hlen as [Hlt Hml ->|lt le ml Hlt Hz Hml Hle Hle' Hp].
    + eapply (field_within sp k fs 0); eauto; [reflexivity|]. apply (value_size E fs v data n 0 n); auto.
    + eapply field_within; eauto; [eapply prefix_size; eauto| |eapply value_size; eauto]. destruct (Nat.eqb_spec lt 0); [contradiction|assumption].
  - eapply type_within; eauto. eapply type_size; eauto.
  - eapply primary_within; eauto. apply (bitmap_size E sp (u "p") fs bm1 data); auto.
  - eapply extra_within; eauto. left. apply (bitmap_size E sp (u "1") fs bm2 data); auto.
  - eapply extra_within; eauto. right. rewrite app_length, (bitmap_size E sp (u "1") fs bm2 d2), (bitmap_size E sp (u "1") fs bm3 d3); auto.
    destruct (is_text _); reflexivity.
Qed.
Lemma plan_parts sp bm1 bm2 bm3 : incl (plan sp bm1 bm2 bm3) (all_parts sp).
Proof.
  unfold plan, all_parts. apply incl_app; [apply incl_appl, incl_refl|]. apply incl_appr. apply incl_cons; [now left|]. apply incl_cons; [now right; left|]. apply incl_app.
  - intros k Hk. right. right. left. destruct (bit bm1 1); [destruct Hk as [<-|[]]; reflexivity|destruct Hk].
  - intros k Hk. right. right. right. apply in_map_iff in Hk as (f & <- & Hk). apply filter_In in Hk as [Hk _]. now apply in_map.
Qed.
Lemma encode_size E sp d s enc d' : narrow_text E sp -> is_dict d -> encode E (ADict d) sp = (Ok (s, enc), d') ->
  (total (least sp) (map fst enc) <= zlen s <= total (most sp) (map fst enc))%Z
  /\ (total (most sp) (map fst enc) <= capacity sp)%Z.
Proof.
  intros Hn Hd H. apply encode_ok in H as (bm1 & bm2 & bm3 & (Hk & Hb & Hp & Hs) & -> & _); [|assumption].
  destruct Hb as (L1 & L2 & L3 & _). split.
  - apply wire_within. eapply Forall_impl; [|exact Hs]. intros ke. now apply sent_within.
  - apply total_incl; auto using most_pos; rewrite Hp; [apply plan_nodup|apply plan_parts].
Qed.
Lemma total_ext f g l : (forall k, In k l -> f k = g k) -> total f l = total g l.
Proof. induction l as [|x l IH]; intro H; [reflexivity|]. rewrite !total_cons, (H x), IH; auto using in_eq, in_cons. Qed.

Lemma plain_narrow E sp : has_ascii E -> plain sp -> narrow_text E sp.
Proof.
  intros Ha Hp k fs enc Hk Hb H. destruct (ascii_facts E Ha) as (_ & _ & _ & Hw & _).
  destruct (plain_inv _ _ _ Hp Hk) as (de & lt & ml & H1 & H2 & _ & _ & _ & H6 & _).
  destruct H as [H|[_ H]].
  - rewrite H2 in H. injection H as <-. exact Hw.
  - rewrite H1 in H. injection H as <-. destruct H6 as [->| ->]; [exact Hw|contradiction].
Qed.
Lemma plain_fit E sp : has_ascii E -> plain sp -> bitmaps_fit E sp.
Proof.
  intros Ha Hp k fs data text bm Hpk Hk W. destruct (ascii_facts E Ha) as (_ & _ & _ & _ & Hne).
  destruct (plain_inv _ _ _ Hp Hk) as (de & lt & ml & H1 & H2 & _ & _ & _ & H6 & _).
  destruct W as [de' D1 D2 D3 D4 ->|de' D1 D2 D3 D4 D5]; [lia|].
  rewrite H1 in D1. injection D1 as <-. destruct H6 as [->| ->]; [|now destruct D2].
  apply Hne in D4. apply fromhex_spelling, fromhex_length in D5. lia.
Qed.

Lemma least_pos sp k : (0 <= least sp k)%Z.
Proof.
  unfold least. destruct (sget k sp) as [fs|]; [|lia]. pose proof (max_bytes_pos fs). pose proof (prefix_bytes_pos fs).
  destruct (is_text _), (str_eqb k (u "t")), (str_eqb k (u "p")), (str_eqb k (u "1")), (prefix_bytes fs =? 0)%Z; lia.
Qed.
Lemma least_floor sp ks : In (u "t") ks -> In (u "p") ks -> (least sp (u "t") + least sp (u "p") <= total (least sp) ks)%Z.
Proof.
  intros Ht Hp. replace (least sp (u "t") + least sp (u "p"))%Z with (total (least sp) [u "t"; u "p"]) by (cbn; lia).
  apply total_incl; [apply least_pos| |].
  - constructor; [intros [H|[]]; discriminate|]. constructor; [easy|constructor].
  - intros k [<-|[<-|[]]]; assumption.
Qed.
Lemma plan_tp sp bm1 bm2 bm3 : In (u "t") (plan sp bm1 bm2 bm3) /\ In (u "p") (plan sp bm1 bm2 bm3).
Proof. unfold plan. split; apply in_app_iff; right; [now left|now right; left]. Qed.

Lemma decode_floor E sp s b dec enc : bitmaps_fit E sp -> holds s b -> decode E s sp = Ok (dec, enc) ->
  (least sp (u "t") + least sp (u "p") <= zlen b <= capacity sp)%Z.
Proof.
  intros Hfit Hs H. destruct (decode_size E sp s b dec enc Hfit Hs H) as [H1 H2].
  apply (decode_iff _ _ _ _ _ _ Hfit Hs) in H as (segs & Hm & _ & _ & ->).
  pose proof (least_floor sp (map fst (enc_of segs))) as H3. enough (In (u "t") (map fst (enc_of segs)) /\ In (u "p") (map fst (enc_of segs))) as [H4 H5] by (specialize (H3 H4 H5); lia).
  rewrite keys_enc. destruct Hm as (hs & t & p & xs & fields & bm1 & bm2 & bm3 & -> & _ & (ft & _ & Kt & _) & (fp & _ & Kp & _) & _).
  rewrite map_app. cbn [map]. rewrite Kt, Kp. split; apply in_app_iff; right; [now left|now right; left].
Qed.
Lemma encode_floor E sp d s enc d' : narrow_text E sp -> is_dict d -> encode E (ADict d) sp = (Ok (s, enc), d') ->
  (least sp (u "t") + least sp (u "p") <= zlen s <= capacity sp)%Z.
Proof.
  intros Hn Hd H. destruct (encode_size E sp d s enc d' Hn Hd H) as [H1 H2].
  apply encode_ok in H as (bm1 & bm2 & bm3 & (Hk & Hb & Hp & Hs) & -> & _); [|assumption].
  pose proof (least_floor sp (map fst enc)) as H3. rewrite Hp in *. destruct (plan_tp sp bm1 bm2 bm3) as [H4 H5]. specialize (H3 H4 H5). lia.
Qed.

Lemma one_size_least sp k : one_size sp k -> least sp k = most sp k.
Proof.
  intro H. unfold least, most. destruct H as [->|[->|(H1 & fs & H2 & H3)]].
  - destruct (sget (u "t") sp); reflexivity.
  - destruct (sget (u "p") sp); reflexivity.
  - rewrite H2. apply str_eqb_neq in H1. rewrite H1. unfold prefix_bytes. rewrite H3.
    destruct (str_eqb k (u "t")); [reflexivity|]. destruct (str_eqb k (u "p")); reflexivity.
Qed.
Lemma one_size_total sp ks : Forall (one_size sp) ks -> total (least sp) ks = total (most sp) ks.
Proof. intro H. apply total_ext. rewrite Forall_forall in H. intros k Hk. apply one_size_least. auto. Qed.
Lemma decode_one_size E sp s b dec enc : bitmaps_fit E sp -> holds s b -> decode E s sp = Ok (dec, enc) ->
  Forall (one_size sp) (map fst enc) -> zlen b = total (most sp) (map fst enc).
Proof. intros Hfit Hs H H1. destruct (decode_size E sp s b dec enc Hfit Hs H) as [H2 _]. apply one_size_total in H1. lia. Qed.
Lemma encode_one_size E sp d s enc d' : narrow_text E sp -> is_dict d -> encode E (ADict d) sp = (Ok (s, enc), d') ->
  Forall (one_size sp) (map fst enc) -> zlen s = total (most sp) (map fst enc).
Proof. intros Hn Hd H H1. destruct (encode_size E sp d s enc d' Hn Hd H) as [H2 _]. apply one_size_total in H1. lia. Qed.

