(** * EncodeFaultFacts: encode raises EncodeError exactly on the declarative faults. *)
From Coq Require Import ZifyBool ZifyNat ZifyN Sorted Permutation.
From Verif Require Import PyBase BaseFacts Types Decoder Encoder Numerals Wire WireEncode DecodeFault EncodeFault Shown DecoderFacts DecodeRun
  EncoderFacts EncodeRun EncodeWhole Claims EncodeTheorems EncodeTheorems2 DecodeFaultFacts.
Ltac Zify.zify_post_hook ::= Z.div_mod_to_equations.
Local Opaque data_fields.

(** The run ends in EncodeError for [k] with this message, in state [st]. *)
Definition refuses {A} (k msg : pystr) (st : estate) : res exn A * estate :=
  (Raise (XEncodeError (EncodeError msg (s_dec st) (s_enc st) k)), st).
Lemma eraise_refuses {A} msg k st : @eraise A msg k st = refuses k msg st.
Proof. reflexivity. Qed.
Lemma refuses_inv {A B} e st' k msg st : (Raise e, st') = @refuses A k msg st -> (Raise e, st') = @refuses B k msg st.
Proof. unfold refuses. congruence. Qed.

Lemma size_val_len v : size_of v = val_len v.
Proof. destruct v; reflexivity. Qed.
Lemma is_hex_a2b v : is_hex v <-> val_a2b v <> None.
Proof.
  unfold is_hex. split.
  - intros (d & data & H1 & H2) H. assert (val_a2b v = Some data) by (apply val_a2b_digits; eauto). congruence.
  - intro H. destruct (val_a2b v) as [data|] eqn:Ha; [|congruence]. apply val_a2b_digits in Ha as (d & H1 & H2). eauto.
Qed.
Lemma odd_not_hex v n : val_len v = Some n -> Nat.odd n = true -> val_a2b v = None.
Proof.
  intros Hn Ho. destruct (val_a2b v) as [data|] eqn:Ha; [|reflexivity]. exfalso.
  apply val_a2b_digits in Ha as (d & H1 & H2). apply digits_len in H1. apply spells_length in H2.
  assert (n = length d) by congruence. subst. rewrite H2 in Ho. rewrite Nat.odd_mul in Ho. discriminate.
Qed.
Lemma has_pad_spec fs : has_pad fs = false <-> unpadded fs.
Proof.
  unfold has_pad, unpadded, pad_char. destruct (fs_left_pad fs) as [[|c l]|], (fs_right_pad fs) as [[|c' r]|]; cbn; intuition discriminate.
Qed.

(** ** Values *)
Lemma hex_failure_refuses {A} v k lc nib st e st' : str_eqb lc str_nibbles = nib ->
  (@hex_failure A v k lc st = (Raise (XEncodeError e), st') <->
   exists n msg, val_len v = Some n /\ (Raise (XEncodeError e), st') = @refuses A k msg st
     /\ msg = if Nat.odd n then if nib then u "Failed to encode field, odd-length nibble data, specify pad"
              else u "Failed to encode field, odd-length hex data" else u "Failed to encode field, non-hex data").
Proof.
  intros <-. unfold hex_failure. destruct (val_len v) as [n|].
  2:{ unfold raise. split; [discriminate|]. intros (n & msg & ? & _). discriminate. }
  split.
  - intro H. exists n. destruct (Nat.odd n); [destruct (str_eqb lc str_nibbles)|]; eexists; (split; [reflexivity|]);
    (split; [symmetry; exact H|reflexivity]).
  - intros (n' & msg & [= <-] & -> & ->). destruct (Nat.odd n); [destruct (str_eqb lc str_nibbles)|]; reflexivity.
Qed.

Lemma encode_binary_refuses E fs v k lc nib st e st' de :
  fs_data_enc fs = Some de -> is_binary de -> str_eqb lc str_nibbles = nib ->
  (encode_binary_field v k fs lc st = (Raise (XEncodeError e), st') <->
   exists msg, value_refused E fs nib v msg /\ (Raise (XEncodeError e), st') = @refuses (bytes * Z) k msg st).
Proof.
  intros Hde Hb Hlc. unfold encode_binary_field. rewrite Hlc.
  (* the part after padding *)
  assert (Hfin : forall w m, val_len w = Some m -> forall (n : nat),
    (match val_a2b w with
     | Some encoded => ret (encoded, if nib then Z.of_nat n else zlen encoded)
     | None => hex_failure w k lc
     end st = (Raise (XEncodeError e), st') <->
     exists msg, val_a2b w = None /\ (Raise (XEncodeError e), st') = @refuses (bytes * Z) k msg st
       /\ msg = if Nat.odd m then if nib then u "Failed to encode field, odd-length nibble data, specify pad"
                else u "Failed to encode field, odd-length hex data" else u "Failed to encode field, non-hex data")).
  { intros w m Hm n. destruct (val_a2b w) as [b|].
    - unfold ret. split; [discriminate|]. intros (msg & ? & _). discriminate.
    - rewrite (hex_failure_refuses w k lc nib) by assumption. rewrite Hm. split.
      + intros (n' & msg & [= <-] & H1 & H2). eauto.
      + intros (msg & _ & H1 & H2). eauto. }
  assert (Hval : forall msg, value_refused E fs nib v msg <->
     (exists n, size_of v = Some n /\
        ((Nat.odd n = true /\ nib = true /\ unpadded fs /\ msg = u "Failed to encode field, odd-length nibble data, specify pad")
         \/ (Nat.odd n = true /\ nib = false /\ msg = u "Failed to encode field, odd-length hex data")
         \/ (Nat.odd n = false /\ ~ is_hex v /\ msg = u "Failed to encode field, non-hex data")
         \/ (Nat.odd n = true /\ nib = true /\ exists d w, v = VStr d /\ pad_digits fs d w /\ (forall data, ~ spells w data)
             /\ msg = u "Failed to encode field, non-hex data")))).
  { intro msg. split.
    - intros [de' v' n H1 H2 H3 H4 H5 H6|de' v' n H1 H2 H3 H4 H5|de' v' n H1 H2 H3 H4 H5|de' d w H1 H2 H3 H4 H5 H6|de' s why H1 H2|de' v' H1 H2].
      + exists n. auto 10. + exists n. auto 10. + exists n. auto 10.
      + exists (length d). split; [reflexivity|]. right. right. right. eauto 8.
      + congruence. + congruence.
    - intros (n & H1 & [(H2 & H3 & H4 & ->)|[(H2 & H3 & ->)|[(H2 & H3 & ->)|(H2 & H3 & d & w & -> & H4 & H5 & ->)]]]).
      + eapply NoPad; eauto. + eapply OddHex; eauto. + eapply NotHex; eauto.
      + injection H1 as <-. eapply PaddedNotHex; eauto. }
  setoid_rewrite Hval. setoid_rewrite size_val_len. clear Hval.
  destruct nib.
  - destruct (val_len v) as [m|] eqn:Hm.
    2:{ unfold raise. split; [discriminate|]. intros (msg & (n & ? & _) & _). discriminate. }
    destruct (Nat.odd m) eqn:Ho.
    + assert (Hnopad : unpadded fs -> forall n,
        (match val_a2b v with
         | Some encoded => ret (encoded, Z.of_nat n)
         | None => hex_failure v k lc
         end st = (Raise (XEncodeError e), st') <->
         exists msg, (exists n, Some m = Some n /\
           ((Nat.odd n = true /\ true = true /\ unpadded fs /\ msg = u "Failed to encode field, odd-length nibble data, specify pad")
           \/ (Nat.odd n = true /\ true = false /\ msg = u "Failed to encode field, odd-length hex data")
           \/ (Nat.odd n = false /\ ~ is_hex v /\ msg = u "Failed to encode field, non-hex data")
           \/ (Nat.odd n = true /\ true = true /\ exists d w, v = VStr d /\ pad_digits fs d w /\ (forall data, ~ spells w data)
              /\ msg = u "Failed to encode field, non-hex data"))) /\ (Raise (XEncodeError e), st') = @refuses (bytes * Z) k msg st)).
      { intros Hp n. rewrite (Hfin v m Hm n). rewrite Ho. split.
        - intros (msg & H1 & H2 & H3). exists msg. split; [|assumption]. exists m. split; [reflexivity|]. left. auto.
        - intros (msg & (n' & [= <-] & [(_ & _ & _ & ->)|[(_ & H & _)|[(H & _)|(_ & _ & d & w & _ & Hd & _)]]]) & H2);
          [|congruence|congruence|].
          + eexists. split; [eapply odd_not_hex; eauto|]. split; [exact H2|reflexivity].
          + exfalso. destruct Hp as [P1 P2]. destruct Hd as [(c & Hc & _)|[_ (c & Hc & _)]]; congruence. }
      destruct v as [d|b|l].
      * cbn in Hm. injection Hm as <-.
        destruct (add_pad_cases d fs) as [[Hp _]|(Hl & Hr & Heq & _)].
        -- set (w := add_pad_field d fs) in *.
           assert (Hlw : val_len (VStr w) = Some (S (length d))) by (cbn; now rewrite (pad_digits_length _ _ _ Hp)).
           rewrite (Hfin (VStr w) _ Hlw). rewrite Nat.odd_succ, <- Nat.negb_odd, Ho. cbn [negb].
           assert (Hw : val_a2b (VStr w) = None <-> forall data, ~ spells w data).
           { cbn [val_a2b]. split.
             - intros Hn data Hs. apply spells_a2b in Hs. congruence.
             - intro Hn. destruct (a2b_hex w) as [b|] eqn:Ha; [|reflexivity]. apply spells_a2b in Ha. now apply Hn in Ha. }
           split.
           ++ intros (msg & H1 & H2 & ->). pose proof (proj1 Hw H1) as H1'. clear H1. rename H1' into H1. eexists. split; [|exact H2]. exists (length d). split; [reflexivity|]. right. right. right.
              split; [assumption|]. split; [reflexivity|]. exists d, w. auto.
           ++ intros (msg & (n' & [= <-] & [(_ & _ & [P1 P2] & _)|[(_ & H & _)|[(H & _)|(_ & _ & d' & w' & [= <-] & Hd & Hs & ->)]]]) & H2);
              [|congruence|congruence|].
              ** exfalso. destruct Hp as [(c & Hc & _)|[_ (c & Hc & _)]]; congruence.
              ** rewrite (pad_digits_fun _ _ _ _ Hd Hp) in Hs. pose proof (proj2 Hw Hs). eauto.
        -- rewrite Heq. apply Hnopad. split; assumption.
      * destruct (has_pad fs) eqn:Hpad.
        -- unfold raise. split; [discriminate|].
           intros (msg & (n' & [= <-] & [(_ & _ & P & _)|[(_ & H & _)|[(H & _)|(_ & _ & d' & w' & H & _)]]]) & H2); try congruence.
           apply has_pad_spec in P. congruence.
        -- apply Hnopad. now apply has_pad_spec.
      * destruct (has_pad fs) eqn:Hpad.
        -- unfold raise. split; [discriminate|].
           intros (msg & (n' & [= <-] & [(_ & _ & P & _)|[(_ & H & _)|[(H & _)|(_ & _ & d' & w' & H & _)]]]) & H2); try congruence.
           apply has_pad_spec in P. congruence.
        -- apply Hnopad. now apply has_pad_spec.
    + rewrite (Hfin v m Hm m), Ho. split.
      * intros (msg & H1 & H2 & ->). eexists. split; [|exact H2]. exists m. split; [reflexivity|]. right. right. left.
        split; [assumption|]. split; [|reflexivity]. rewrite is_hex_a2b. congruence.
      * intros (msg & (n' & [= <-] & [(H & _)|[(H & _)|[(_ & H & ->)|(H & _)]]]) & H2); try congruence.
        eexists. split; [|split; [exact H2|reflexivity]]. rewrite is_hex_a2b in H. destruct (val_a2b v); [exfalso; apply H; discriminate|reflexivity].
  - destruct (val_len v) as [m|] eqn:Hm.
    + rewrite (Hfin v m Hm 0%nat). split.
      * intros (msg & H1 & H2 & ->). eexists. split; [|exact H2]. exists m. split; [reflexivity|].
        destruct (Nat.odd m) eqn:Ho; [right; left; auto|]. right. right. left. rewrite is_hex_a2b. split; [reflexivity|]. split; [congruence|reflexivity].
      * intros (msg & (n' & [= <-] & [(_ & H & _)|[(Ho & _ & ->)|[(Ho & H & ->)|(_ & H & _)]]]) & H2); try congruence.
        -- eexists. split; [eapply odd_not_hex; eauto|]. split; [exact H2|now rewrite Ho].
        -- eexists. split; [|split; [exact H2|now rewrite Ho]]. rewrite is_hex_a2b in H. destruct (val_a2b v); [exfalso; apply H; discriminate|reflexivity].
    + split; [|intros (msg & (n & ? & _) & _); discriminate].
      destruct (val_a2b v) as [b|]; [discriminate|]. unfold hex_failure. rewrite Hm. discriminate.
Qed.

Lemma encode_text_refuses E fs v k lc nib st e st' de :
  fs_data_enc fs = Some de -> ~ is_binary de ->
  (encode_text_field E v k fs lc st = (Raise (XEncodeError e), st') <->
   exists msg, value_refused E fs nib v msg /\ (Raise (XEncodeError e), st') = @refuses (bytes * Z) k msg st).
Proof.
  intros Hde Hb. unfold encode_text_field. rewrite Hde. split.
  - destruct v as [s|b|l].
    + destruct (str_encode E de s) as [b| |] eqn:Hs; [discriminate| |]; intro H; (eexists; split; [|symmetry; exact H]).
      * apply (BadText E fs nib de s (u "unknown encoding specified") Hde Hb (UnknownEncoding _ _ _ Hs)).
      * apply (BadText E fs nib de s (u "invalid data") Hde Hb (InvalidText _ _ _ Hs)).
    + intro H. eexists; split; [|symmetry; exact H]. eapply NotText; eauto. intros [s ?]. discriminate.
    + intro H. eexists; split; [|symmetry; exact H]. eapply NotText; eauto. intros [s ?]. discriminate.
  - intros (msg & Hr & Heq). rewrite Heq.
    destruct Hr as [de' v n H1 H2|de' v n H1 H2|de' v n H1 H2|de' d w H1 H2|de' s why H1 H2 Hu|de' v H1 H2 Hn];
    assert (de' = de) by congruence; subst de'; try contradiction.
    + destruct Hu as [Hu|Hu]; rewrite Hu; reflexivity.
    + destruct v as [s|b|l]; [|reflexivity..]. exfalso. apply Hn. eexists. reflexivity.
Qed.

Lemma data_step_refuses E fs v k lc nib st e st' de :
  fs_data_enc fs = Some de -> str_eqb lc str_nibbles = nib ->
  (data_step E de v k fs lc st = (Raise (XEncodeError e), st') <->
   exists msg, value_refused E fs nib v msg /\ (Raise (XEncodeError e), st') = @refuses (bytes * Z) k msg st).
Proof.
  intros Hde Hlc. unfold data_step. destruct (binary_cases de) as [[Hb ->]|[Hb ->]].
  - eapply encode_binary_refuses; eauto. - eapply encode_text_refuses; eauto.
Qed.

(** ** Length prefixes *)
Lemma encode_length_nat_refuses E k fs lt n data st e st' : lt <> O -> (0 <= n)%Z ->
  (encode_length E k fs (Z.of_nat lt) n (eput k [] data st) = (Raise (XEncodeError e), st') <->
   exists le lenb msg, fs_len_enc fs = Some le /\ prefix_refused E le lt n lenb msg
     /\ (Raise (XEncodeError e), st') = @refuses unit k msg (eput k lenb data st)).
Proof.
  intros Hlt Hn. unfold encode_length, bind. rewrite !Nat2Z.id. replace (Z.of_nat lt <? 0)%Z with false by lia.
  destruct (fs_len_enc fs) as [le|] eqn:Hle.
  2:{ cbn. split; [discriminate|]. intros (? & ? & ? & ? & _). discriminate. }
  cbn [prop]. unfold ret at 1.
  destruct (len_enc_cases le) as [[Hb ->]|[(Hnb & Hb & -> & ->)|(Hb & Hc & -> & ->)]].
  - split.
    + destruct (to_be lt (Z.to_N n)) as [b|] eqn:Ht; [rewrite eset_enc_len_put; discriminate|].
      intro H. exists le, [], too_wide. split; [reflexivity|]. split; [|symmetry; exact H].
      apply NumberTooWide; [now left|]. intros lenb [_ H1 H2|v H1|H1 _ _ _].
      * assert (to_be lt (Z.to_N n) = Some lenb) by (apply to_be_prefix; split; [assumption|lia]). congruence.
      * eapply bcd_not_binary; eauto.
      * tauto.
    + intros (le' & lenb & msg & [= <-] & Hp & ->). destruct Hp as [_ Hno|lenb H1|H1|H1]; try contradiction.
      destruct (to_be lt (Z.to_N n)) as [b|] eqn:Ht; [|reflexivity]. exfalso. apply to_be_prefix in Ht as [H1 H2].
      apply (Hno b). apply EncPrefixBinary; auto. lia.
  - cbv zeta. split.
    + destruct (Nat.ltb_spec (lt * 2) (length (fmt0d (lt * 2) (Z.to_N n)))) as [Hl|Hl].
      2:{ destruct (bcd_hex_total _ _ Hl) as [b ->]. rewrite eset_enc_len_put. discriminate. }
      intro H. exists le, [], too_wide. split; [reflexivity|]. split; [|symmetry; exact H].
      apply NumberTooWide; [now right|]. intros lenb [H1 _ _|v _ H1 H2 H3|_ H1 _ _].
      * eapply bcd_not_binary; eauto.
      * subst n. rewrite N2Z.id in Hl. destruct (proj2 (bcd_prefix lt v lenb Hlt) (conj H1 H2)). lia.
      * tauto.
    + intros (le' & lenb & msg & [= <-] & Hp & ->). destruct Hp as [_ Hno|lenb H1 H2|H1 H2|H1 H2]; try contradiction.
      destruct (Nat.ltb_spec (lt * 2) (length (fmt0d (lt * 2) (Z.to_N n)))) as [Hl|Hl]; [reflexivity|].
      exfalso. destruct (bcd_hex_total _ _ Hl) as [b Ha]. destruct (proj1 (bcd_prefix lt _ b Hlt) (conj Hl Ha)) as [H1 H2].
      apply (Hno b). eapply EncPrefixBcd; eauto. lia.
  - split.
    + destruct (str_encode E le (fmt0d lt (Z.to_N n))) as [b| |] eqn:Hs.
      * rewrite eset_enc_len_put. destruct (Nat.ltb_spec lt (length b)) as [Hl|Hl]; [|discriminate].
        intro H. exists le, b, too_wide. split; [reflexivity|]. split; [|symmetry; exact H]. now apply TextTooWide.
      * intro H. eexists le, [], _. split; [reflexivity|]. split; [|symmetry; exact H]. now apply PrefixUnknownEncoding.
      * intro H. eexists le, [], _. split; [reflexivity|]. split; [|symmetry; exact H]. now apply PrefixInvalidText.
    + intros (le' & lenb & msg & [= <-] & Hp & ->). destruct Hp as [H _|lenb H1 H2 H3 H4|H1 H2 H3|H1 H2 H3]; [tauto|rewrite H3..].
      * rewrite eset_enc_len_put. destruct (Nat.ltb_spec lt (length lenb)); [reflexivity|lia].
      * reflexivity.
      * reflexivity.
Qed.
Definition length_refused (E : pyenv) (fs : fspec) (lt n : Z) (lenb : bytes) (msg : pystr) : Prop :=
  exists le, fs_len_enc fs = Some le
    /\ ((exists w, lt = Z.of_nat w /\ prefix_refused E le w n lenb msg)
        \/ ((lt < 0)%Z /\ ~ is_binary le /\ ~ is_bcd le /\ lenb = []
            /\ msg = u "Failed to encode field length, " ++ format_why E lt)).
Lemma encode_length_refuses E k fs lt n data st e st' : lt <> 0%Z -> (0 <= n)%Z ->
  (encode_length E k fs lt n (eput k [] data st) = (Raise (XEncodeError e), st') <->
   exists lenb msg, length_refused E fs lt n lenb msg
     /\ (Raise (XEncodeError e), st') = @refuses unit k msg (eput k lenb data st)).
Proof.
  intros Hlt Hn. unfold length_refused. destruct (Z.ltb_spec lt 0) as [Hneg|Hpos].
  - rewrite encode_length_negative by assumption. destruct (fs_len_enc fs) as [le|].
    2:{ split; [discriminate|]. intros (? & ? & (? & ? & _) & _). discriminate. }
    destruct (len_enc_cases le) as [[Hb ->]|[(Hnb & Hb & -> & ->)|(Hb & Hc & -> & ->)]]; cbn [orb].
    + split; [discriminate|]. intros (lenb & msg & (le' & [= <-] & [(w & -> & _)|(_ & H & _)]) & _); [lia|tauto].
    + split; [discriminate|]. intros (lenb & msg & (le' & [= <-] & [(w & -> & _)|(_ & _ & H & _)]) & _); [lia|tauto].
    + split.
      * intro H. eexists [], _. split; [|symmetry; exact H]. exists le. split; [reflexivity|]. right. auto.
      * intros (lenb & msg & (le' & [= <-] & [(w & -> & _)|(_ & _ & _ & -> & ->)]) & ->); [lia|reflexivity].
  - destruct (Z_of_nat_complete lt Hpos) as [w ->]. rewrite encode_length_nat_refuses by lia. split.
    + intros (le & lenb & msg & H1 & H2 & H3). exists lenb, msg. split; [|assumption]. exists le. split; [assumption|]. left. eauto.
    + intros (lenb & msg & (le & H1 & [(w' & Hw & H2)|(H2 & _)]) & H3); [|lia]. apply Nat2Z.inj in Hw. subst w'. eauto 7.
Qed.

(** ** Fields *)
Lemma encodes_value_fun E fs v data n data' n' : encodes_value E fs v data n -> encodes_value E fs v data' n' -> data = data' /\ n = n'.
Proof.
  intros H H'.
  assert (Hde : exists de, fs_data_enc fs = Some de) by (destruct H; eauto). destruct Hde as [de Hde].
  pose proof (proj2 (data_step_ok E fs v [] _ (mkE [] []) data n (mkE [] []) de Hde (nibbles_eq fs)) (conj eq_refl H)) as A.
  pose proof (proj2 (data_step_ok E fs v [] _ (mkE [] []) data' n' (mkE [] []) de Hde (nibbles_eq fs)) (conj eq_refl H')) as B.
  rewrite A in B. injection B as -> ->. auto.
Qed.
Lemma value_refused_enc E fs nib v msg : value_refused E fs nib v msg -> exists de, fs_data_enc fs = Some de.
Proof. intros []; eauto. Qed.
Lemma value_refused_not E fs v msg data n : value_refused E fs (in_nibbles fs) v msg -> ~ encodes_value E fs v data n.
Proof.
  intros Hr Hv. destruct (value_refused_enc _ _ _ _ _ Hr) as [de Hde].
  pose proof (proj2 (data_step_ok E fs v [] _ (mkE [] []) data n (mkE [] []) de Hde (nibbles_eq fs)) (conj eq_refl Hv)) as A.
  pose proof (proj2 (data_step_refuses E fs v [] _ (in_nibbles fs) (mkE [] []) (EncodeError msg [] [] []) (mkE [] []) de Hde (nibbles_eq fs))) as B.
  rewrite A in B. discriminate B. eauto.
Qed.
Lemma unit_name_count fs : unit_name fs = prop_default (fs_len_count fs) str_bytes.
Proof. unfold unit_name. destruct (fs_len_count fs); reflexivity. Qed.

Lemma encode_field_refuses E k fs st e st' :
  encode_field E k fs st = (Raise (XEncodeError e), st') <->
  exists v msg lenb data, pget (KStr k) (s_dec st) = Some v /\ field_refused E fs v msg lenb data
    /\ (Raise (XEncodeError e), st') = @refuses bytes k msg (eput k lenb data st).
Proof.
  rewrite encode_field_eq. destruct (fs_data_enc fs) as [de|] eqn:Hde.
  2:{ split; [discriminate|]. intros (v & msg & lenb & data & _ & Hr & _).
      assert (exists de, fs_data_enc fs = Some de) as [de H]; [|congruence].
      destruct Hr as [msg H|data n ml H _ _ _ _|data n lt ml H _ _ _ _ _|data n lt ml le lenb msg H _ _ _ _ _ _|data n lt ml le H _ _ _ _ _ _ _];
      [eapply value_refused_enc; eauto|destruct H; eauto..]. }
  destruct (pget (KStr k) (s_dec st)) as [v|] eqn:Hv.
  2:{ split; [discriminate|]. intros (? & ? & ? & ? & ? & _). discriminate. }
  assert (Hlc := nibbles_eq fs).
  destruct (data_step _ _ _ _ _ _ _) as [[[data n]|y] st1] eqn:Hd.
  2:{ split.
      - intros [= -> ->]. apply (data_step_refuses E fs v k _ _ _ e st' de Hde Hlc) in Hd as (msg & H1 & H2).
        exists v, msg, [], []. split; [reflexivity|]. split; [now apply ValueRefused|]. eapply refuses_inv. exact H2.
      - intros (v' & msg & lenb & data & [= <-] & Hr & Heq).
        assert (Hno : forall data n, ~ encodes_value E fs v data n).
        { intros data' n' Hev. rewrite (proj2 (data_step_ok E fs v k _ (eput k [] [] st) data' n' _ de Hde Hlc) (conj eq_refl Hev)) in Hd. discriminate. }
        destruct Hr as [msg H|data n ml H _ _ _ _|data n lt ml H _ _ _ _ _|data n lt ml le lenb msg H _ _ _ _ _ _|data n lt ml le H _ _ _ _ _ _ _];
        try (exfalso; eapply Hno; eassumption).
        pose proof (proj2 (data_step_refuses E fs v k _ _ (eput k [] [] st) _ _ de Hde Hlc)
          (ex_intro _ msg (conj H (refuses_inv _ _ _ _ _ Heq)))) as B. rewrite B in Hd. congruence. }
  apply (data_step_ok E fs v k _ _ data n st1 de Hde Hlc) in Hd as [-> Hev].
  unfold bind at 1. rewrite eset_enc_data_put.
  assert (Hn := encodes_value_nonneg _ _ _ _ _ Hev).
  (* every refusal is for this value *)
  assert (Hall : forall msg lenb dat, field_refused E fs v msg lenb dat ->
    dat = data /\ exists lt ml, fs_len_type fs = Some lt /\ fs_max_len fs = Some ml /\
      ((lt = 0%Z /\ n <> ml /\ showable E ml /\ lenb = [] /\ msg = u "Field data is " ++ num n ++ u " " ++ unit_name fs ++ u ", expecting " ++ num ml)
       \/ (lt <> 0%Z /\ (ml < n)%Z /\ showable E ml /\ lenb = [] /\ msg = u "Field data is " ++ num n ++ u " " ++ unit_name fs ++ u ", larger than maximum " ++ num ml)
       \/ (lt <> 0%Z /\ (n <= ml)%Z /\ length_refused E fs lt n lenb msg))).
  { intros msg lenb dat [msg' H|dat' n' ml H H1 H2 H3 Hsh|dat' n' lt ml H H1 H2 H3 H4 Hsh|dat' n' lt ml le lenb' msg' H H1 H2 H3 H4 H5 H6|dat' n' lt ml le H H1 H2 H3 H4 H5 H6 H7].
    - exfalso. eapply value_refused_not; eauto.
    - destruct (encodes_value_fun _ _ _ _ _ _ _ Hev H) as [<- <-]. split; [reflexivity|]. exists 0%Z, ml. split; [assumption|]. split; [assumption|]. left. auto 6.
    - destruct (encodes_value_fun _ _ _ _ _ _ _ Hev H) as [<- <-]. split; [reflexivity|]. exists lt, ml. split; [assumption|]. split; [assumption|]. right. left. auto 6.
    - destruct (encodes_value_fun _ _ _ _ _ _ _ Hev H) as [<- <-]. split; [reflexivity|]. exists (Z.of_nat lt), ml. split; [assumption|]. split; [assumption|]. right. right.
      split; [lia|]. split; [assumption|]. exists le. split; [assumption|]. left. eauto.
    - destruct (encodes_value_fun _ _ _ _ _ _ _ Hev H) as [<- <-]. split; [reflexivity|]. exists lt, ml. split; [assumption|]. split; [assumption|]. right. right.
      split; [lia|]. split; [assumption|]. exists le. split; [assumption|]. right. auto. }
  unfold encode_field_rest. cbv zeta. unfold bind at 1.
  destruct (fs_len_type fs) as [lt|] eqn:Hlt; cbn [prop].
  2:{ cbn. split; [discriminate|]. intros (v' & msg & lenb & dat & [= <-] & Hr & _).
      apply Hall in Hr as (_ & lt & ml & ? & _). discriminate. }
  unfold ret at 1. unfold bind at 1. destruct (fs_max_len fs) as [ml|] eqn:Hml; cbn [prop].
  2:{ cbn. split; [discriminate|]. intros (v' & msg & lenb & dat & [= <-] & Hr & _).
      apply Hall in Hr as (_ & lt' & ml & _ & ? & _). discriminate. }
  unfold ret at 1. destruct (Z.eqb_spec lt 0) as [->|Hl].
  - destruct (Z.eqb_spec n ml) as [->|Hne]; cbn [negb].
    + unfold bind. rewrite eset_enc_len_put, eget_enc_put. split; [discriminate|].
      intros (v' & msg & lenb & dat & [= <-] & Hr & _). apply Hall in Hr as (_ & lt' & ml' & [= <-] & [= <-] & [(_ & H & _)|[(H & _)|(H & _)]]); congruence.
    + split.
      * intro H. rewrite formatted_eraise in H. destruct (prints E ml) eqn:Hp; [|discriminate]. apply prints_showable in Hp.
        eexists v, _, [], data. split; [reflexivity|]. split; [eapply WrongFixedLength; eauto|]. rewrite unit_name_count. symmetry. exact H.
      * intros (v' & msg & lenb & dat & [= <-] & Hr & ->).
        apply Hall in Hr as (-> & lt' & ml' & [= <-] & [= <-] & [(_ & _ & Hp & -> & ->)|[(H & _)|(H & _)]]); [|congruence..].
        apply prints_showable in Hp. rewrite formatted_eraise, Hp, unit_name_count. reflexivity.
  - destruct (Z.ltb_spec ml n) as [Hgt|Hle].
    + split.
      * intro H. rewrite formatted_eraise in H. destruct (prints E ml) eqn:Hp; [|discriminate]. apply prints_showable in Hp.
        eexists v, _, [], data. split; [reflexivity|]. split; [eapply OverMaximum; eauto|]. rewrite unit_name_count. symmetry. exact H.
      * intros (v' & msg & lenb & dat & [= <-] & Hr & ->).
        apply Hall in Hr as (-> & lt' & ml' & [= <-] & [= <-] & [(H & _)|[(_ & _ & Hp & -> & ->)|(_ & H & _)]]); [congruence| |lia].
        apply prints_showable in Hp. rewrite formatted_eraise, Hp, unit_name_count. reflexivity.
    + unfold bind at 1. destruct (encode_length E k fs lt n (eput k [] data st)) as [[[]|y] st1] eqn:He.
      * split.
        -- apply encode_length_ok in He as (w & le & lenb & H0 & H1 & H2 & ->); auto. unfold bind. rewrite eget_enc_put. discriminate.
        -- intros (v' & msg & lenb & dat & [= <-] & Hr & Heq).
           apply Hall in Hr as (-> & lt' & ml' & [= <-] & [= <-] & [(H & _)|[(_ & H & _)|(_ & _ & H1)]]); [congruence|lia|].
           pose proof (proj2 (encode_length_refuses E k fs lt n data st e st' Hl Hn)
             (ex_intro _ lenb (ex_intro _ msg (conj H1 (refuses_inv _ _ _ _ _ Heq))))) as B. rewrite B in He. discriminate.
      * split.
        -- intros [= -> ->]. apply encode_length_refuses in He as (lenb & msg & H1 & H3); [|assumption..].
           exists v, msg, lenb, data. split; [reflexivity|]. split; [|eapply refuses_inv; exact H3]. destruct H1 as (le & H1 & [(w & -> & H2)|(H2 & H4 & H5 & -> & ->)]);
             [eapply PrefixRefused; eauto; lia|eapply NegativeWidth; eauto].
        -- intros (v' & msg & lenb & dat & [= <-] & Hr & Heq).
           apply Hall in Hr as (-> & lt' & ml' & [= <-] & [= <-] & [(H & _)|[(_ & H & _)|(_ & _ & H1)]]); [congruence|lia|].
           pose proof (proj2 (encode_length_refuses E k fs lt n data st e st' Hl Hn)
             (ex_intro _ lenb (ex_intro _ msg (conj H1 (refuses_inv _ _ _ _ _ Heq))))) as B. rewrite B in He. injection He as <- <-. reflexivity.
Qed.

(** ** Message type and header *)
Lemma value_refused_bytes E fs v msg : value_refused E (bytes_spec fs) false v msg <-> value_refused E fs false v msg.
Proof.
  assert (A : forall f g, fs_data_enc f = fs_data_enc g -> fs_left_pad f = fs_left_pad g -> fs_right_pad f = fs_right_pad g ->
    value_refused E f false v msg -> value_refused E g false v msg).
  2:{ split; apply A; reflexivity. }
  clear fs. intros f g Hd Hl Hr.
  intros [de v' n H1 H2 H3 H4 H5 H6|de v' n H1 H2 H3 H4 H5|de v' n H1 H2 H3 H4 H5|de d w H1 H2 H3 H4 H5 H6|de s why H1 H2 H3|de v' H1 H2 H3]; rewrite Hd in H1;
  [discriminate|exact (OddHex _ _ _ _ _ _ H1 H2 H3 H4 H5)|exact (NotHex _ _ _ _ _ _ H1 H2 H3 H4 H5)
  |discriminate|exact (BadText _ _ _ _ _ _ H1 H2 H3)|exact (NotText _ _ _ _ _ H1 H2 H3)].
Qed.
Lemma type_sent_bytes E fs v data : type_sent_as E fs v data <-> encodes_value E (bytes_spec fs) v data (zlen data).
Proof.
  split.
  - intros [de v' d data' H1 H2 H3 H4|de s data' H1 H2 H3].
    + apply (EncHex E (bytes_spec fs) de v' d data'); auto.
    + apply (EncText E (bytes_spec fs) de s data'); auto.
  - intro H. inversion H as [de v' d data' H1 H2 H3 H4 H5|de d w data' H1 H2 H3|de s data' H1 H2 H3]; subst.
    + eapply TypeHex; eauto. + discriminate. + eapply TypeChars; eauto.
Qed.

Lemma encode_type_refuses E sp st e st' :
  encode_type E sp st = (Raise (XEncodeError e), st') <->
  (pget (KStr (u "t")) (s_dec st) = None
   /\ (Raise (XEncodeError e), st') = @refuses bytes (u "t") (u "Field data is required") st)
  \/ exists fs v msg data, sget (u "t") sp = Some fs /\ pget (KStr (u "t")) (s_dec st) = Some v
     /\ type_refused E fs v msg data
     /\ (Raise (XEncodeError e), st') = @refuses bytes (u "t") msg (eput (u "t") [] data st).
Proof.
  rewrite encode_type_eq. destruct (pget (KStr (u "t")) (s_dec st)) as [v|].
  2:{ split; [intro H; left; split; [reflexivity|symmetry; exact H]|]. intros [[_ H]|(? & ? & ? & ? & _ & ? & _)]; [symmetry; exact H|discriminate]. }
  destruct (sget (u "t") sp) as [fs|].
  2:{ split; [discriminate|]. intros [[? _]|(? & ? & ? & ? & ? & _)]; discriminate. }
  destruct (fs_data_enc fs) as [de|] eqn:Hde.
  2:{ split; [discriminate|]. intros [[? _]|(fs' & v' & msg & data & [= <-] & [= <-] & H & _)]; [discriminate|].
      destruct H as [msg H|de data w H _ _ _]; [|congruence]. destruct (value_refused_enc _ _ _ _ _ H). congruence. }
  rewrite data_step_bytes.
  destruct (data_step _ _ _ _ _ _ _) as [[[data n]|y] st1] eqn:Hd.
  - apply (data_step_ok E (bytes_spec fs) v _ str_bytes _ data n st1 de Hde eq_refl) in Hd as [-> Hv].
    pose proof (bytes_value _ _ _ _ _ Hv) as ->. cbv zeta. unfold bind. rewrite eset_enc_data_put.
    destruct (Z.eqb_spec (zlen data) (if str_eqb de str_b then 2 else 4)%Z) as [Hn|Hn]; cbn [negb].
    + rewrite eget_enc_put. split; [discriminate|].
      intros [[? _]|(fs' & v' & msg & data' & [= <-] & [= <-] & H & _)]; [discriminate|]. exfalso.
      destruct H as [msg H|de' data' w H1 H2 H3 H4].
      * apply value_refused_bytes in H. eapply (value_refused_not E (bytes_spec fs)); eauto.
      * apply type_sent_bytes in H2. destruct (encodes_value_fun _ _ _ _ _ _ _ Hv H2) as [<- _].
        assert (de' = de) by congruence. subst de'. apply type_width_eq in H3. unfold zlen in Hn. lia.
    + split.
      * intro H. right. exists fs, v. do 2 eexists. split; [reflexivity|]. split; [reflexivity|]. split; [|symmetry; exact H].
        assert (exists w, type_width de w) as [w Hw].
        { unfold type_width. destruct (binary_cases de) as [[Hb _]|[Hb _]]; eauto. }
        replace (if str_eqb de str_b then 2 else 4)%Z with (Z.of_nat w) by now apply type_width_eq.
        eapply TypeWrongLength; eauto; [now apply type_sent_bytes|]. apply type_width_eq in Hw. unfold zlen in Hn. lia.
      * intros [[? _]|(fs' & v' & msg & data' & [= <-] & [= <-] & H & ->)]; [discriminate|].
        destruct H as [msg H|de' data' w H1 H2 H3 H4].
        -- exfalso. apply value_refused_bytes in H. eapply (value_refused_not E (bytes_spec fs)); eauto.
        -- apply type_sent_bytes in H2. destruct (encodes_value_fun _ _ _ _ _ _ _ Hv H2) as [<- _].
           assert (de' = de) by congruence. subst de'. apply type_width_eq in H3. rewrite H3. reflexivity.
  - split.
    + intros [= -> ->]. apply (data_step_refuses E (bytes_spec fs) v _ str_bytes false _ e st' de Hde eq_refl) in Hd as (msg & H1 & H2).
      right. exists fs, v, msg, []. split; [reflexivity|]. split; [reflexivity|]. split; [apply TypeValueRefused; now apply value_refused_bytes|].
      eapply refuses_inv. exact H2.
    + intros [[? _]|(fs' & v' & msg & data' & [= <-] & [= <-] & H & Heq)]; [discriminate|].
      destruct H as [msg H|de' data' w H1 H2 H3 H4].
      * apply value_refused_bytes in H.
        pose proof (proj2 (data_step_refuses E (bytes_spec fs) v (u "t") str_bytes false (eput (u "t") [] [] st) _ _ de Hde eq_refl)
          (ex_intro _ msg (conj H (refuses_inv _ _ _ _ _ Heq)))) as B. rewrite B in Hd. injection Hd as <- <-. reflexivity.
      * exfalso. apply type_sent_bytes in H2.
        rewrite (proj2 (data_step_ok E (bytes_spec fs) v (u "t") str_bytes (eput (u "t") [] [] st) _ _ _ de Hde eq_refl) (conj eq_refl H2)) in Hd. discriminate.
Qed.

Lemma encode_header_refuses E sp st e st' :
  encode_header E sp st = (Raise (XEncodeError e), st') <->
  exists fs ml, sget (u "h") sp = Some fs /\ fs_max_len fs = Some ml /\ (0 < ml)%Z /\
    ((pget (KStr (u "h")) (s_dec st) = None
      /\ (Raise (XEncodeError e), st') = @refuses bytes (u "h") (u "Field data is required according to specifications") st)
     \/ exists v msg lenb data, pget (KStr (u "h")) (s_dec st) = Some v /\ field_refused E fs v msg lenb data
        /\ (Raise (XEncodeError e), st') = @refuses bytes (u "h") msg (eput (u "h") lenb data st)).
Proof.
  unfold encode_header, bind at 1, spec_get. destruct (sget (u "h") sp) as [fs|].
  2:{ split; [discriminate|]. intros (? & ? & ? & _). discriminate. }
  unfold ret at 1, bind at 1. destruct (fs_max_len fs) as [ml|] eqn:Hml.
  2:{ split; [discriminate|]. intros (? & ? & [= <-] & ? & _). congruence. }
  cbn [prop]. unfold ret at 1. destruct (Z.leb_spec ml 0) as [Hle|Hgt].
  { unfold ret. split; [discriminate|]. intros (fs' & ml' & [= <-] & H & H1 & _). rewrite Hml in H. injection H as <-. lia. }
  unfold bind at 1, eread_dec. unfold pmem, dmem. fold (pget (KStr (u "h")) (s_dec st)).
  destruct (pget (KStr (u "h")) (s_dec st)) as [v|] eqn:Hv; cbn [negb].
  - rewrite encode_field_refuses. rewrite Hv. split.
    + intro H. exists fs, ml. auto 6.
    + intros (fs' & ml' & [= <-] & _ & _ & [[H _]|H]); [discriminate|assumption].
  - split.
    + intro H. exists fs, ml. do 3 (split; [auto|]). left. split; [reflexivity|]. symmetry. exact H.
    + intros (fs' & ml' & _ & _ & _ & [[_ H]|(? & ? & ? & ? & ? & _)]); [symmetry; exact H|discriminate].
Qed.

(** ** Bitmaps *)
Lemma bitmap_data_refuses E bm k fs de st e st' : fs_data_enc fs = Some de ->
  (bitmap_data E bm k fs de st = (Raise (XEncodeError e), st') <->
   exists msg, bitmap_refused E fs bm msg /\ (Raise (XEncodeError e), st') = @refuses bytes k msg st).
Proof.
  intro Hde. unfold bitmap_data. destruct (binary_cases de) as [[Hb ->]|[Hb ->]].
  - unfold ret. split; [discriminate|]. intros (msg & [de' why H1 H2] & _). assert (de' = de) by congruence. subst. contradiction.
  - unfold bind, encode_text_field. rewrite Hde. split.
    + destruct (str_encode E de (HEX bm)) as [b| |] eqn:Hs; [discriminate| |]; intro H; (eexists; split; [|symmetry; exact H]).
      * apply (BitmapBadText E fs bm de (u "unknown encoding specified") Hde Hb (UnknownEncoding _ _ _ Hs)).
      * apply (BitmapBadText E fs bm de (u "invalid data") Hde Hb (InvalidText _ _ _ Hs)).
    + intros (msg & [de' why H1 H2 H3] & ->). assert (de' = de) by congruence. subst. destruct H3 as [H3|H3]; rewrite H3; reflexivity.
Qed.
Lemma bitmap_fresh_refuses E k fs off fields st e st' :
  encode_bitmap E k fs off false fields st = (Raise (XEncodeError e), st') <->
  exists msg, bitmap_refused E fs (make_bitmap off fields) msg
    /\ (Raise (XEncodeError e), st') = @refuses bytes k msg (bput k (HEX (make_bitmap off fields)) (mkEntry [] []) st).
Proof.
  rewrite bitmap_fresh_eq. cbv zeta. set (bm := make_bitmap off fields). destruct (fs_data_enc fs) as [de|] eqn:Hde.
  2:{ split; [discriminate|]. intros (msg & [de why H _] & _). congruence. }
  rewrite <- (bitmap_data_refuses E bm k fs de) by assumption.
  destruct (bitmap_data _ _ _ _ _ _) as [[o|y] st2] eqn:Hd; [|reflexivity].
  apply bitmap_data_ok in Hd as [H1 ->]; [|assumption]. unfold bind. rewrite eset_enc_data_bput. split; discriminate.
Qed.
Lemma bitmap_ext_refuses E k fs off fields st e st' o en : pget (KStr k) (s_dec st) = Some (VStr o) ->
  sget k (s_enc st) = Some en ->
  (encode_bitmap E k fs off true fields st = (Raise (XEncodeError e), st') <->
   exists msg, bitmap_refused E fs (make_bitmap off fields) msg
    /\ (Raise (XEncodeError e), st') = @refuses bytes k msg
         (mkE (pset (KStr k) (VStr (o ++ HEX (make_bitmap off fields))) (s_dec st)) (s_enc st))).
Proof.
  intros Ho He. rewrite (bitmap_ext_eq _ _ _ _ _ _ _ Ho). cbv zeta. set (bm := make_bitmap off fields).
  destruct (fs_data_enc fs) as [de|] eqn:Hde.
  2:{ split; [discriminate|]. intros (msg & [de why H _] & _). congruence. }
  rewrite <- (bitmap_data_refuses E bm k fs de) by assumption.
  destruct (bitmap_data _ _ _ _ _ _) as [[o'|y] st2] eqn:Hd; [|reflexivity].
  apply bitmap_data_ok in Hd as [H1 ->]; [|assumption]. unfold bind, eget_enc. cbn [s_enc]. rewrite He. split; discriminate.
Qed.
Lemma bitmap_not_both E fs bm msg data : bitmap_refused E fs bm msg -> ~ bitmap_encodes E fs bm data.
Proof. intros [de why H1 H2 H3] [de' H4 H5 H6|de' H4 H5 H6]; assert (de' = de) by congruence; subst; [contradiction|]. destruct H3; congruence. Qed.

(** ** The field loop *)
Lemma encode_fields_refuses E sp fl : forall s st e st',
  NoDup (map zstr fl) -> (forall f, In f fl -> ~ In (zstr f) (map fst (s_enc st))) ->
  (encode_fields E sp fl s st = (Raise (XEncodeError e), st') <->
   exists pre f post ents fs v msg lenb data, fl = pre ++ f :: post /\ map fst ents = map zstr pre
    /\ Forall (sent_field E sp (s_dec st)) ents
    /\ sget (zstr f) sp = Some fs /\ pget (KStr (zstr f)) (s_dec st) = Some v /\ field_refused E fs v msg lenb data
    /\ (Raise (XEncodeError e), st') = @refuses bytes (zstr f) msg (mkE (s_dec st) (s_enc st ++ ents ++ [(zstr f, mkEntry lenb data)]))).
Proof.
  induction fl as [|f fl IH]; intros s st e st' Hn Hf; simpl.
  { split; [discriminate|]. intros ([|] & ? & ? & ? & ? & ? & ? & ? & ? & ? & _); discriminate. }
  inversion Hn as [|? ? Hn1 Hn2]; subst. unfold bind at 1, spec_get.
  destruct (sget (zstr f) sp) as [fs|] eqn:Hsp.
  2:{ split; [discriminate|]. intros (pre & g & post & ents & fs & v & msg & lenb & data & H1 & H2 & H3 & H4 & _).
      destruct pre as [|p pre]; injection H1 as <- H1; [congruence|]. destruct ents as [|[k en] ents]; [discriminate|].
      injection H2 as H2 _. cbn [fst] in H2. subst k. apply Forall_inv in H3 as (fs' & _ & H3 & _). cbn [fst] in H3. congruence. }
  unfold ret at 1. unfold bind at 1.
  assert (Hff : ~ In (zstr f) (map fst (s_enc st))) by (apply Hf; now left).
  destruct (encode_field E (zstr f) fs st) as [[b|y] st1] eqn:He.
  - apply encode_field_ok in He as (v & lenb & data & H1 & H2 & -> & ->). rewrite eput_fresh by assumption.
    rewrite IH; [|assumption|].
    2:{ intros g Hg. cbn [s_enc]. rewrite map_app, in_app_iff. intros [H'|[H'|[]]]; [apply (Hf g); [now right|assumption]|].
        apply Hn1. simpl in H'. rewrite H'. apply in_map. assumption. }
    cbn [s_dec s_enc]. split.
    + intros (pre & g & post & ents & fs' & v' & msg & lenb' & data' & -> & A1 & A2 & A3 & A4 & A5 & A6).
      exists (f :: pre), g, post, ((zstr f, mkEntry lenb data) :: ents), fs', v', msg, lenb', data'.
      cbn [map fst app]. rewrite A1. rewrite <- app_assoc in A6. split; [reflexivity|]. split; [reflexivity|].
      split; [|auto]. constructor; auto. exists fs, v. auto.
    + intros (pre & g & post & ents & fs' & v' & msg & lenb' & data' & B1 & A1 & A2 & A3 & A4 & A5 & A6).
      destruct pre as [|p pre].
      * exfalso. injection B1 as <- ->. assert (fs' = fs) by congruence. assert (v' = v) by congruence. subst.
        assert (encode_field E (zstr f) fs st = (Ok (lenb ++ data), eput (zstr f) lenb data st)) by (apply encode_field_ok; eauto 8).
        assert (encode_field E (zstr f) fs st = @refuses bytes (zstr f) msg (eput (zstr f) lenb' data' st)) by (apply encode_field_refuses; eauto 10).
        unfold refuses in *. congruence.
      * injection B1 as <- B1. destruct ents as [|[k [l0 b0]] ents]; [discriminate|]. injection A1 as A0 A1. cbn [fst] in A0. subst k.
        pose proof (Forall_inv A2) as (fs2 & v2 & C1 & C2 & C3). apply Forall_inv_tail in A2. cbn [fst snd e_len e_data] in *.
        assert (fs2 = fs) by congruence. assert (v2 = v) by congruence. subst fs2 v2.
        destruct (field_encodes_fun _ _ _ _ _ _ _ C3 H2) as [-> ->].
        exists pre, g, post, ents, fs', v', msg, lenb', data'. rewrite <- app_assoc. auto 10.
  - split.
    + intros [= -> ->]. apply encode_field_refuses in He as (v & msg & lenb & data & H1 & H2 & H3). rewrite eput_fresh in H3 by assumption.
      exists [], f, fl, [], fs, v, msg, lenb, data. cbn [map app]. auto 10.
    + intros (pre & g & post & ents & fs' & v' & msg & lenb' & data' & B1 & A1 & A2 & A3 & A4 & A5 & A6).
      destruct pre as [|p pre].
      * injection B1 as <- ->. assert (fs' = fs) by congruence. subst fs'. destruct ents; [|discriminate]. cbn [app] in A6.
        rewrite <- (eput_fresh (zstr f) lenb' data' st Hff) in A6.
        rewrite (proj2 (encode_field_refuses E (zstr f) fs st e st')) in He by eauto 10. injection He as <- <-. reflexivity.
      * exfalso. injection B1 as <- B1. destruct ents as [|[k [l0 b0]] ents]; [discriminate|]. injection A1 as A0 A1. cbn [fst] in A0. subst k.
        pose proof (Forall_inv A2) as (fs2 & v2 & C1 & C2 & C3). cbn [fst snd e_len e_data] in *.
        assert (fs2 = fs) by congruence. subst.
        assert (encode_field E (zstr f) fs st = (Ok (l0 ++ b0), eput (zstr f) l0 b0 st)) by (apply encode_field_ok; eauto 8). congruence.
Qed.
