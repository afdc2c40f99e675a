(** * EncodeEscapeFacts: encode fails otherwise than by EncodeError exactly as EncodeEscape says. *)
From Coq Require Import ZifyBool ZifyNat ZifyN Sorted Permutation.
From Verif Require Import PyBase BaseFacts Types Decoder Encoder Wire WireEncode DecodeFault EncodeFault EncodeEscape Shown DecoderFacts DecodeRun
  EncoderFacts EncodeRun EncodeWhole Claims EncodeTheorems EncodeTheorems2 DecodeFaultFacts EncodeFaultFacts EncodeFaultWhole.
Ltac Zify.zify_post_hook ::= Z.div_mod_to_equations.
Local Opaque data_fields.

Definition stray (x : exn) : Prop := forall e, x <> XEncodeError e.

(** ** Values, prefixes, fields *)
Lemma not_str_bytes b : ~ is_str (VBytes b). Proof. intros [s ?]. discriminate. Qed.
Lemma not_str_other l : ~ is_str (VOther l). Proof. intros [s ?]. discriminate. Qed.
Lemma eraise_stray {A} msg k st x (st' : estate) : @eraise A msg k st = (Raise x, st') -> stray x -> False.
Proof. intros [= <- _] H. now apply (H _ eq_refl). Qed.
Lemma hex_failure_stray {A} v k lc st x st' : @hex_failure A v k lc st = (Raise x, st') -> stray x ->
  size_of v = None /\ x = XTypeError (u "object has no len()") /\ st' = st.
Proof.
  unfold hex_failure. pose proof (size_val_len v) as Hs. destruct (val_len v) as [n|].
  - intros H Hx. exfalso. destruct (Nat.odd n); [destruct (str_eqb lc str_nibbles)|]; eapply eraise_stray; eauto.
  - unfold raise. intros [= <- <-] _. auto.
Qed.
Lemma data_step_stray E fs v k lc nib st x st' de :
  fs_data_enc fs = Some de -> str_eqb lc str_nibbles = nib ->
  data_step E de v k fs lc st = (Raise x, st') -> stray x -> value_escape fs nib v x /\ st' = st.
Proof.
  intros Hde Hlc. unfold data_step. destruct (binary_cases de) as [[Hb ->]|[Hb ->]]; intros H Hx.
  2:{ exfalso. unfold encode_text_field in H. revert H. destruct (match v with VStr s => _ | _ => _ end).
      - discriminate. - intro H. eapply eraise_stray; eauto. - intro H. eapply eraise_stray; eauto. }
  unfold encode_binary_field in H. rewrite Hlc in H.
  assert (Hfin : forall w (n : nat), match val_a2b w with
     | Some encoded => ret (encoded, if nib then Z.of_nat n else zlen encoded)
     | None => hex_failure w k lc
     end st = (Raise x, st') -> size_of w = None /\ x = XTypeError (u "object has no len()") /\ st' = st).
  { intros w n. destruct (val_a2b w); [discriminate|]. intro H'. eapply hex_failure_stray; eauto. }
  destruct nib.
  - destruct (val_len v) as [m|] eqn:Hm.
    2:{ injection H as <- <-. split; [|reflexivity]. eapply NoNibbleCount; eauto. }
    change (size_of v = Some m) in Hm.
    destruct (Nat.odd m) eqn:Ho.
    + assert (Hp : ~ is_str v -> (if has_pad fs then raise XUnboundLocalError else
        match val_a2b v with
        | Some encoded => ret (encoded, Z.of_nat m)
        | None => hex_failure v k lc
        end) st = (Raise x, st') -> value_escape fs true v x /\ st' = st).
      { intros Hns H'. destruct (has_pad fs) eqn:Hpad.
        - injection H' as <- <-. split; [|reflexivity]. eapply PadNotText; eauto. intro U. apply has_pad_spec in U. congruence.
        - apply Hfin in H' as [H' _]. congruence. }
      destruct v as [s|b|l].
      * apply Hfin in H as [H _]. discriminate.
      * apply Hp; [apply not_str_bytes|exact H].
      * apply Hp; [apply not_str_other|exact H].
    + apply Hfin in H as [H _]. congruence.
  - apply (Hfin v 0%nat) in H as (H1 & -> & ->). split; [|reflexivity]. eapply NoSize; eauto.
Qed.
Lemma encode_length_stray E k fs lt n data st x st' : lt <> 0%Z ->
  encode_length E k fs lt n (eput k [] data st) = (Raise x, st') -> stray x ->
  s_dec st' = s_dec st
  /\ (fs_len_enc fs = None /\ x = XKeyError (u "len_enc")
      \/ exists le, fs_len_enc fs = Some le /\ (lt < 0)%Z /\ (is_binary le \/ is_bcd le) /\ x = XValueError).
Proof.
  intros Hlt H Hx. destruct (Z.ltb_spec lt 0) as [Hneg|Hpos].
  { rewrite encode_length_negative in H by assumption. destruct (fs_len_enc fs) as [le|].
    2:{ injection H as <- <-. rewrite eput_dec. auto. }
    destruct (len_enc_cases le) as [[Hb Eb]|[(Hnb & Hb & Eb & Ec)|(Hb & Hc & Eb & Ec)]]; rewrite Eb, ?Ec in H; cbn [orb] in H.
    - injection H as <- <-. rewrite eput_dec. split; [reflexivity|]. right. eauto 6.
    - injection H as <- <-. rewrite eput_dec. split; [reflexivity|]. right. eauto 6.
    - exfalso. eapply eraise_stray; eauto. }
  destruct (Z_of_nat_complete lt Hpos) as [w ->]. rename w into lw. set (lt := lw) in *.
  unfold encode_length, bind in H. rewrite !Nat2Z.id in H. replace (Z.of_nat lt <? 0)%Z with false in H by lia.
  destruct (fs_len_enc fs) as [le|].
  2:{ injection H as <- <-. rewrite eput_dec. auto. }
  exfalso. cbn [prop] in H. unfold ret at 1 in H. revert H.
  destruct (len_enc_cases le) as [[Hb ->]|[(Hnb & Hb & -> & ->)|(Hb & Hc & -> & ->)]].
  - destruct (to_be lt (Z.to_N n)); [rewrite eset_enc_len_put; discriminate|]. intro H. eapply eraise_stray; eauto.
  - cbv zeta. destruct (Nat.ltb_spec (lt * 2) (length (fmt0d (lt * 2) (Z.to_N n)))) as [Hl|Hl].
    + intro H. eapply eraise_stray; eauto.
    + destruct (bcd_hex_total _ _ Hl) as [b ->]. rewrite eset_enc_len_put. discriminate.
  - destruct (str_encode E le (fmt0d lt (Z.to_N n))) as [b| |].
    + rewrite eset_enc_len_put. destruct (Nat.ltb_spec lt (length b)); [|discriminate]. intro H2. eapply eraise_stray; eauto.
    + intro H. eapply eraise_stray; eauto.
    + intro H. eapply eraise_stray; eauto.
Qed.
Lemma encode_field_stray E k fs st x st' : encode_field E k fs st = (Raise x, st') -> stray x ->
  s_dec st' = s_dec st /\
  ((fs_data_enc fs = None /\ x = XKeyError (u "data_enc"))
   \/ (exists de, fs_data_enc fs = Some de /\ pget (KStr k) (s_dec st) = None /\ x = XKeyError k)
   \/ exists v, pget (KStr k) (s_dec st) = Some v /\ field_escape E fs v x).
Proof.
  rewrite encode_field_eq. destruct (fs_data_enc fs) as [de|] eqn:Hde.
  2:{ intros [= <- <-] _. rewrite eput_dec. auto. }
  destruct (pget (KStr k) (s_dec st)) as [v|] eqn:Hv.
  2:{ intros [= <- <-] _. rewrite eput_dec. split; [reflexivity|]. right. left. eauto. }
  assert (Hlc := nibbles_eq fs). intros H Hx.
  destruct (data_step _ _ _ _ _ _ _) as [[[data n]|y] st1] eqn:Hd.
  2:{ injection H as -> ->. apply (data_step_stray E fs v k _ _ _ x st' de Hde Hlc) in Hd as [Hd ->]; [|assumption].
      rewrite eput_dec. split; [reflexivity|]. right. right. exists v. split; [reflexivity|]. now apply ValueEscapes. }
  apply (data_step_ok E fs v k _ _ data n st1 de Hde Hlc) in Hd as [-> Hev].
  unfold bind at 1 in H. rewrite eset_enc_data_put in H.
  assert (Hn := encodes_value_nonneg _ _ _ _ _ Hev).
  unfold encode_field_rest in H. cbv zeta in H. unfold bind at 1 in H.
  assert (Hin : forall P, s_dec st' = s_dec st /\ field_escape E fs v x -> s_dec st' = s_dec st /\
    (P \/ (exists de0, Some de = Some de0 /\ Some v = None /\ x = XKeyError k)
     \/ (exists v0, Some v = Some v0 /\ field_escape E fs v0 x))).
  { intros P [H1 H2]. split; [assumption|]. right. right. eauto. }
  apply Hin.
  destruct (fs_len_type fs) as [lt|] eqn:Hlt; cbn [prop] in H.
  2:{ injection H as <- <-. rewrite eput_dec. split; [reflexivity|]. eapply LenTypeMissing; eauto. }
  unfold ret at 1 in H. unfold bind at 1 in H. destruct (fs_max_len fs) as [ml|] eqn:Hml; cbn [prop] in H.
  2:{ injection H as <- <-. rewrite eput_dec. split; [reflexivity|]. eapply MaxLenMissing; eauto. }
  unfold ret at 1 in H. destruct (Z.eqb_spec lt 0) as [->|Hl].
  - destruct (Z.eqb_spec n ml) as [->|Hne]; cbn [negb] in H.
    + exfalso. unfold bind in H. rewrite eset_enc_len_put, eget_enc_put in H. discriminate.
    + rewrite formatted_eraise in H. destruct (prints E ml) eqn:Hp; [exfalso; eapply eraise_stray; eauto|].
      apply prints_not in Hp. injection H as <- <-. rewrite eput_dec. split; [reflexivity|]. eapply FixedLengthUnshown; eauto.
  - destruct (Z.ltb_spec ml n) as [Hgt|Hle].
    { rewrite formatted_eraise in H. destruct (prints E ml) eqn:Hp; [exfalso; eapply eraise_stray; eauto|].
      apply prints_not in Hp. injection H as <- <-. rewrite eput_dec. split; [reflexivity|]. eapply MaximumUnshown; eauto. }
    unfold bind at 1 in H. destruct (encode_length E k fs lt n (eput k [] data st)) as [[[]|y] st1] eqn:He.
    + exfalso. apply encode_length_ok in He as (w & le & lenb & H0 & H1 & H2 & ->); auto. unfold bind in H. rewrite eget_enc_put in H. discriminate.
    + injection H as -> ->. apply encode_length_stray in He as (H2 & [[H1 ->]|(le & H1 & H3 & H4 & ->)]); [| |assumption..]; (split; [assumption|]).
      * eapply LenEncMissing; eauto.
      * eapply NegativeNumberWidth; eauto.
Qed.

(** ** Header, type, bitmaps *)
Lemma encode_header_stray E sp st x st' : encode_header E sp st = (Raise x, st') -> stray x ->
  s_dec st' = s_dec st /\
  ((sget (u "h") sp = None /\ x = XKeyError (u "h"))
   \/ exists fs, sget (u "h") sp = Some fs /\
      ((fs_max_len fs = None /\ x = XKeyError (u "max_len"))
       \/ exists ml v, fs_max_len fs = Some ml /\ (0 < ml)%Z /\ pget (KStr (u "h")) (s_dec st) = Some v
          /\ ((fs_data_enc fs = None /\ x = XKeyError (u "data_enc")) \/ field_escape E fs v x))).
Proof.
  intros H Hx. unfold encode_header, bind at 1, spec_get in H. destruct (sget (u "h") sp) as [fs|].
  2:{ injection H as <- <-. auto. }
  unfold ret at 1, bind at 1 in H. destruct (fs_max_len fs) as [ml|] eqn:Hml.
  2:{ injection H as <- <-. split; [reflexivity|]. right. eauto. }
  cbn [prop] in H. unfold ret at 1 in H. destruct (Z.leb_spec ml 0) as [Hle|Hgt]; [discriminate|].
  unfold bind at 1, eread_dec in H. unfold pmem, dmem in H. fold (pget (KStr (u "h")) (s_dec st)) in H.
  destruct (pget (KStr (u "h")) (s_dec st)) as [v|] eqn:Hv; cbn [negb] in H; [|exfalso; eapply eraise_stray; eauto].
  apply encode_field_stray in H as [H1 H2]; [|assumption]. split; [assumption|]. right. exists fs. split; [reflexivity|]. right.
  exists ml, v. do 3 (split; [auto|]). destruct H2 as [H2|[(de & _ & H2 & _)|(v' & H2 & H3)]]; [auto|congruence|].
  right. congruence.
Qed.
Lemma encode_type_stray E sp st x st' : encode_type E sp st = (Raise x, st') -> stray x ->
  s_dec st' = s_dec st /\ exists v, pget (KStr (u "t")) (s_dec st) = Some v /\
  ((sget (u "t") sp = None /\ x = XKeyError (u "t"))
   \/ exists fs, sget (u "t") sp = Some fs /\
      ((fs_data_enc fs = None /\ x = XKeyError (u "data_enc")) \/ value_escape fs false v x)).
Proof.
  rewrite encode_type_eq. destruct (pget (KStr (u "t")) (s_dec st)) as [v|].
  2:{ intros H Hx. exfalso. eapply eraise_stray; eauto. }
  destruct (sget (u "t") sp) as [fs|].
  2:{ intros [= <- <-] _. eauto 6. }
  destruct (fs_data_enc fs) as [de|] eqn:Hde.
  2:{ intros [= <- <-] _. eauto 10. }
  destruct (data_step _ _ _ _ _ _ _) as [[[data n]|y] st1] eqn:Hd.
  - rewrite data_step_bytes in Hd. apply (data_step_ok E (bytes_spec fs) v _ str_bytes _ data n st1 de Hde eq_refl) in Hd as [-> Hv].
    cbv zeta. unfold bind. rewrite eset_enc_data_put.
    destruct (_ =? _)%Z; cbn [negb]; [rewrite eget_enc_put; discriminate|]. intros H Hx. exfalso. eapply eraise_stray; eauto.
  - intros [= -> ->] Hx. apply (data_step_stray E fs v _ str_bytes false _ x st' de Hde eq_refl) in Hd as [Hd ->]; [|assumption].
    rewrite eput_dec. eauto 10.
Qed.
Lemma bitmap_data_stray E bm k fs de st x st' : fs_data_enc fs = Some de -> bitmap_data E bm k fs de st = (Raise x, st') -> ~ stray x.
Proof.
  intros Hde. unfold bitmap_data. destruct (str_eqb de str_b); [discriminate|]. unfold bind, encode_text_field. rewrite Hde.
  intros H Hx. revert H. destruct (str_encode E de (HEX bm)); [discriminate| |]; intros [= <- _]; now apply (Hx _ eq_refl).
Qed.
Lemma bitmap_fresh_stray E k fs off fields st x st' :
  encode_bitmap E k fs off false fields st = (Raise x, st') -> stray x ->
  fs_data_enc fs = None /\ x = XKeyError (u "data_enc") /\ st' = bput k (HEX (make_bitmap off fields)) (mkEntry [] []) st.
Proof.
  rewrite bitmap_fresh_eq. cbv zeta. set (bm := make_bitmap off fields). destruct (fs_data_enc fs) as [de|] eqn:Hde.
  2:{ intros [= <- <-] _. auto. }
  destruct (bitmap_data _ _ _ _ _ _) as [[o|y] st2] eqn:Hd.
  - apply bitmap_data_ok in Hd as [H1 ->]; [|assumption]. unfold bind. rewrite eset_enc_data_bput. discriminate.
  - intros [= -> ->] Hx. exfalso. eapply bitmap_data_stray; eauto.
Qed.
Lemma bitmap_ext_stray E k fs off fields st x st' o en data : pget (KStr k) (s_dec st) = Some (VStr o) ->
  sget k (s_enc st) = Some en -> fs_data_enc fs = Some data ->
  encode_bitmap E k fs off true fields st = (Raise x, st') -> ~ stray x.
Proof.
  intros Ho He Hde. rewrite (bitmap_ext_eq _ _ _ _ _ _ _ Ho). cbv zeta. rewrite Hde.
  destruct (bitmap_data _ _ _ _ _ _) as [[o'|y] st2] eqn:Hd.
  - apply bitmap_data_ok in Hd as [H1 ->]; [|assumption]. unfold bind, eget_enc. cbn [s_enc]. rewrite He. discriminate.
  - intros [= -> ->]. eapply bitmap_data_stray; eauto.
Qed.
Lemma encode_fields_stray E sp fl : forall s st x st',
  NoDup (map zstr fl) -> (forall f, In f fl -> ~ In (zstr f) (map fst (s_enc st))) ->
  encode_fields E sp fl s st = (Raise x, st') -> stray x ->
  s_dec st' = s_dec st /\
  exists pre f post ents, fl = pre ++ f :: post /\ map fst ents = map zstr pre
    /\ Forall (sent_field E sp (s_dec st)) ents
    /\ ((sget (zstr f) sp = None /\ x = XKeyError (zstr f))
        \/ exists fs, sget (zstr f) sp = Some fs /\
            ((fs_data_enc fs = None /\ x = XKeyError (u "data_enc"))
             \/ (exists de, fs_data_enc fs = Some de /\ pget (KStr (zstr f)) (s_dec st) = None /\ x = XKeyError (zstr f))
             \/ exists v, pget (KStr (zstr f)) (s_dec st) = Some v /\ field_escape E fs v x)).
Proof.
  induction fl as [|f fl IH]; intros s st x st' Hn Hf; simpl; [discriminate|].
  inversion Hn as [|? ? Hn1 Hn2]; subst. unfold bind at 1, spec_get.
  destruct (sget (zstr f) sp) as [fs|] eqn:Hsp.
  2:{ intros [= <- <-] _. split; [reflexivity|]. exists [], f, fl, []. auto 8. }
  unfold ret at 1. unfold bind at 1.
  assert (Hff : ~ In (zstr f) (map fst (s_enc st))) by (apply Hf; now left).
  destruct (encode_field E (zstr f) fs st) as [[b|y] st1] eqn:He.
  - apply encode_field_ok in He as (v & lenb & data & H1 & H2 & -> & ->). rewrite eput_fresh by assumption.
    intros H Hx. apply IH in H as (H0 & pre & g & post & ents & -> & A1 & A2 & A3); [|assumption| |assumption].
    + cbn [s_dec] in *. split; [assumption|]. exists (f :: pre), g, post, ((zstr f, mkEntry lenb data) :: ents).
      cbn [map fst app]. rewrite A1. do 2 (split; [reflexivity|]). split; [|assumption]. constructor; auto. exists fs, v. auto.
    + intros g Hg. cbn [s_enc]. rewrite map_app, in_app_iff. intros [H'|[H'|[]]]; [apply (Hf g); [now right|assumption]|].
      apply Hn1. simpl in H'. rewrite H'. apply in_map. assumption.
  - intros [= -> ->] Hx. apply encode_field_stray in He as [H1 H2]; [|assumption]. split; [assumption|].
    exists [], f, fl, []. do 3 (split; [auto|]). right. exists fs. auto.
Qed.
