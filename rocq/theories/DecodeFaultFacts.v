(** * DecodeFaultFacts: the decoder's failures are exactly those of DecodeFault. *)
From Coq Require Import ZifyBool ZifyNat ZifyN Sorted Permutation.
From Verif Require Import PyBase BaseFacts Types Numerals NumeralFacts Texts TextFacts Decoder Wire DecoderFacts DecodeRun DecodeComplete DecodeFault Shown.
Ltac Zify.zify_post_hook ::= Z.div_mod_to_equations.
Local Opaque data_fields.

(** ** Reads at the head of the rest of the input *)
Lemma slice_rel (before input : bytes) n : (0 <= n)%Z ->
  py_slice (before ++ input) (zlen before) (zlen before + n) = firstn (Z.to_nat n) input.
Proof.
  intro Hn. pose proof (zlen_nonneg before). rewrite py_slice_in by lia. unfold zlen.
  rewrite Nat2Z.id, skipn_app, skipn_all, Nat.sub_diag. reflexivity.
Qed.
Lemma slice_negative {A} (s : list A) i k : (0 <= i <= zlen s)%Z -> (k < 0)%Z ->
  exists rest, skipn (Z.to_nat i) s = py_slice s i (i + k) ++ rest.
Proof.
  intros Hi Hk. unfold py_slice. set (a := slice_index _ i). set (b := slice_index _ (i + k)).
  assert (a = i) as -> by (unfold a, slice_index, zlen in *; replace (i <? 0)%Z with false by lia; lia).
  eexists. symmetry. apply firstn_skipn.
Qed.
Lemma zlen_firstn {A} n (l : list A) : (0 <= n)%Z -> zlen (firstn (Z.to_nat n) l) = Z.min n (zlen l).
Proof. intro H. unfold zlen. rewrite firstn_length. lia. Qed.
Lemma firstn_short {A} n (l : list A) : zlen (firstn (Z.to_nat n) l) <> n -> (0 <= n)%Z ->
  firstn (Z.to_nat n) l = l /\ (zlen l < n)%Z.
Proof. intros H Hn. rewrite zlen_firstn in H by assumption. split; [|lia].
  apply firstn_all2. unfold zlen in H. lia. Qed.
Lemma firstn_full {A} n (l : list A) : zlen (firstn (Z.to_nat n) l) = n -> (0 <= n)%Z ->
  l = firstn (Z.to_nat n) l ++ skipn (Z.to_nat n) l.
Proof. intros _ _. symmetry. apply firstn_skipn. Qed.

Lemma unit_name_eq fs : prop_default (fs_len_count fs) str_bytes = unit_name fs.
Proof. unfold prop_default, unit_name. now destruct (fs_len_count fs). Qed.

(** The exception for message [m]: the message may be impossible to write. *)
Definition outcome (E : pyenv) (s : pybuf) (m : list part) (dec : ddoc) (enc : edoc) (pos : Z) (k : pystr) : exn :=
  if presents E m then XDecodeError (DecodeError (text_of m) s dec enc pos k) else XValueError.
Definition raised {A} (E : pyenv) (s : pybuf) (m : list part) (pos : Z) (k : pystr) (st : dstate) : res exn A * dstate :=
  (Raise (outcome E s m (d_dec st) (d_enc st) pos k), st).
Lemma formatted_raised {A} E s m ns msg pos k st : ns = numbers m -> msg = text_of m ->
  formatted E ns (@draise A s msg pos k) st = raised E s m pos k st.
Proof.
  intros -> ->. unfold formatted, raised, outcome, presents, draise, raise. now destruct (forallb _ _).
Qed.
Lemma draise_raised {A} E s m msg pos k st : numbers m = [] -> msg = text_of m ->
  @draise A s msg pos k st = raised E s m pos k st.
Proof. intros H ->. unfold raised, outcome, presents. rewrite H. reflexivity. Qed.

(** ** Text data *)
Lemma text_fault E s data idx k fs de st : fs_data_enc fs = Some de ->
  decode_text_data E s data idx k fs st
  = match bytes_decode E de data with
    | COk t => (Ok t, st)
    | CLookup => draise s (u "Failed to decode field, " ++ u "unknown encoding specified") idx k st
    | CFail => draise s (u "Failed to decode field, " ++ u "invalid data") idx k st
    end.
Proof. intro H. unfold decode_text_data. rewrite H. destruct (bytes_decode E de data); reflexivity. Qed.

(** ** Length prefix *)
Lemma bcd_unreadable E raw : raw <> [] ->
  py_int E (py_hex raw) = None <-> bcd_value raw = None \/ ~ within_digit_limit E (2 * length raw).
Proof.
  intro Hne. destruct (py_int E (py_hex raw)) as [n|] eqn:H; split; try discriminate.
  - apply py_int_hex in H as (v & H1 & _ & H2); [|assumption]. intros [H3|H3]; [congruence|tauto].
  - intros _. destruct (bcd_value raw) as [v|] eqn:Hv; [|now left]. right. intro Hw.
    assert (py_int E (py_hex raw) = Some (Z.of_N v)) by (apply py_int_hex; eauto). congruence.
  - reflexivity.
Qed.

Definition prefix_reader (E : pyenv) (s : pybuf) (idx : Z) (k le : pystr) (raw : bytes) : DM Z :=
  if str_eqb le str_b then ret (Z.of_N (from_be raw))
  else if str_eqb le str_bcd then
    match py_int E (py_hex raw) with
    | Some n => ret n
    | None => draise s (u "Failed to decode field length, invalid BCD data") idx k
    end
  else
    match bytes_decode E le raw with
    | CLookup => draise s (u "Failed to decode field length, unknown encoding specified") idx k
    | CFail => draise s (u "Failed to decode field length, invalid data") idx k
    | COk t =>
        match py_int E t with
        | Some n => ret n
        | None => draise s (u "Failed to decode field length, non-numeric data") idx k
        end
    end.

Lemma prefix_reader_raise E s idx k le raw st x st' : raw <> [] ->
  prefix_reader E s idx k le raw st = (Raise x, st') ->
  exists msg, prefix_fault E le raw msg /\ raised (A:=Z) E s msg idx k st = (Raise x, st').
Proof.
  intros Hne H. unfold prefix_reader in H.
  destruct (len_enc_cases le) as [[Hb Eb]|[(Hb & Hc & Eb & Ec)|(Hb & Hc & Eb & Ec)]]; rewrite ?Eb, ?Ec in H.
  - discriminate.
  - destruct (py_int E (py_hex raw)) eqn:Hp; [discriminate|]. exists [Txt (u "Failed to decode field length, invalid BCD data")]. split; [|exact H].
    apply BadBcd; [assumption|]. now apply bcd_unreadable.
  - destruct (bytes_decode E le raw) as [t| |] eqn:Ht.
    + destruct (py_int E t) eqn:Hp; [discriminate|]. apply py_int_no_text in Hp. exists [Txt (u "Failed to decode field length, non-numeric data")]. split; [|exact H]. eapply NotANumber; eauto.
    + exists [Txt (u "Failed to decode field length, "); Txt (u "unknown encoding specified")].
      split; [|exact H]. apply BadPrefixText; auto. now constructor.
    + exists [Txt (u "Failed to decode field length, "); Txt (u "invalid data")].
      split; [|exact H]. apply BadPrefixText; auto. now constructor.
Qed.
Lemma prefix_reader_fault E s idx k le raw st msg : raw <> [] -> prefix_fault E le raw msg ->
  prefix_reader E s idx k le raw st = raised E s msg idx k st.
Proof.
  intros Hne H. unfold prefix_reader.
  destruct (len_enc_cases le) as [[Hb Eb]|[(Hb & Hc & Eb & Ec)|(Hb & Hc & Eb & Ec)]]; rewrite ?Eb, ?Ec;
    inversion H as [Hx Hy|why Hx Hy Hz|t Hx Hy Hz Hp]; subst; try (exfalso; tauto).
  - apply bcd_not_binary in Hx. tauto.
  - now rewrite (proj2 (bcd_unreadable E raw Hne) Hy).
  - inversion Hz as [Hu|Hu]; rewrite Hu; reflexivity.
  - apply py_int_no_text in Hp. now rewrite Hz, Hp.
Qed.
Lemma prefix_reader_ok E s idx k le raw st n : raw <> [] ->
  prefix_reader E s idx k le raw st = (Ok n, st) <-> prefix_denotes E le raw n.
Proof.
  intro Hne. unfold prefix_reader.
  destruct (len_enc_cases le) as [[Hb ->]|[(Hb & Hc & -> & ->)|(Hb & Hc & -> & ->)]].
  - unfold ret. split.
    + intro H. injection H as <-. apply PrefixBinary; [assumption|]. now rewrite from_be_value.
    + intros [_ ->|v Hc|t Hc]; [now rewrite from_be_value| |congruence]. now apply bcd_not_binary in Hc.
  - split.
    + destruct (py_int E (py_hex raw)) as [m'|] eqn:Hp; [|discriminate].
      intro H. injection H as <-. apply py_int_hex in Hp as (v & H1 & H2 & H3); [|assumption].
      eapply PrefixBcd; eauto.
    + intros [Hx|v _ H1 H2 H3|t Hx Hy]; [congruence| |congruence].
      assert (py_int E (py_hex raw) = Some n) as -> by (apply py_int_hex; eauto). reflexivity.
  - split.
    + destruct (bytes_decode E le raw) as [t| |] eqn:Ht; try discriminate.
      destruct (py_int E t) as [m'|] eqn:Hp; [|discriminate]. intro H. injection H as <-.
      apply py_int_text in Hp. eapply PrefixText; eauto.
    + intros [Hx|v Hx|t _ _ H1 H2]; [congruence|congruence|]. apply py_int_text in H2. rewrite H1, H2. reflexivity.
Qed.
Lemma prefix_reader_state E s idx k le raw st r st' : prefix_reader E s idx k le raw st = (r, st') -> st' = st.
Proof.
  unfold prefix_reader, ret, draise. intro H.
  repeat match type of H with
  | (if ?c then _ else _) _ = _ => destruct c
  | match ?c with _ => _ end _ = _ => destruct c
  end; congruence.
Qed.
Lemma decode_length_eq E s idx k fs lt lc st raw :
  lt <> O -> py_slice (buf_bytes s) idx (idx + Z.of_nat lt) = raw ->
  decode_length E s idx k fs (Z.of_nat lt) lc st =
  (le <- prop (fs_len_enc fs) (u "len_enc") ;;
   n <- prefix_reader E s idx k le raw ;;
   ml <- prop (fs_max_len fs) (u "max_len") ;;
   if (ml <? n)%Z
   then formatted E [n; ml] (draise s (u "Field data is " ++ zstr n ++ u " " ++ lc ++ u ", larger than maximum " ++ zstr ml) idx k)
   else ret n) st.
Proof. intros Hlt <-. unfold decode_length. destruct (Z.eqb_spec (Z.of_nat lt) 0); [lia|]. reflexivity. Qed.

(** ** A field *)
Lemma decode_field_start E s idx k fs st lt raw :
  fs_len_type fs = Some (Z.of_nat lt) -> py_slice (buf_bytes s) idx (idx + Z.of_nat lt) = raw -> length raw = lt ->
  decode_field E s idx k fs st =
  (n <- decode_length E s idx k fs (Z.of_nat lt) (prop_default (fs_len_count fs) str_bytes) ;;
   if (n =? 0)%Z then ret (idx + Z.of_nat lt)%Z
   else
     let bl := byte_len (prop_default (fs_len_count fs) str_bytes) n in
     let data := py_slice (buf_bytes s) (idx + Z.of_nat lt) (idx + Z.of_nat lt + bl) in
     set_enc_data k data ;;;
     if negb (zlen data =? bl)%Z then
       let actual := if str_eqb (prop_default (fs_len_count fs) str_bytes) str_nibbles then (zlen data * 2)%Z else zlen data in
       formatted E [n] (draise s (u "Field data is " ++ zstr actual ++ u " " ++ prop_default (fs_len_count fs) str_bytes
                 ++ u ", expecting " ++ zstr n) (idx + Z.of_nat lt)%Z k)
     else
       data_enc <- prop (fs_data_enc fs) (u "data_enc") ;;
       (if str_eqb data_enc str_b then
          set_dec k (py_upper (py_hex data)) ;;;
          if str_eqb (prop_default (fs_len_count fs) str_bytes) str_nibbles && Z.odd n then
            t <- remove_pad_field E s (idx + Z.of_nat lt) k fs n ;;
            set_dec k t
          else ret tt
        else
          t <- decode_text_data E s data (idx + Z.of_nat lt) k fs ;;
          set_dec k t) ;;;
       ret (idx + Z.of_nat lt + bl)%Z) (put k raw [] [] st).
Proof.
  intros Hlt Hr Hl. unfold decode_field. rewrite Hlt. unfold bind at 1 2 3. unfold prop at 1, ret at 1, set_dec at 1, set_enc at 1.
  rewrite Hr. replace (zlen raw =? Z.of_nat lt)%Z with true by (unfold zlen; lia). reflexivity.
Qed.

Lemma field_fault_complete E s k fs st before input msg off lenb data text :
  buf_bytes s = before ++ input -> field_fault E fs before input msg off lenb data text ->
  decode_field E s (zlen before) k fs st
  = raised E s msg (zlen before + off) k (put k lenb data text st).
Proof.
  intros Hs H.
  assert (Hrun : forall lt raw rest, fs_len_type fs = Some (Z.of_nat lt) -> input = raw ++ rest -> length raw = lt ->
    py_slice (buf_bytes s) (zlen before) (zlen before + Z.of_nat lt) = raw).
  { intros lt raw rest _ -> Hl. rewrite Hs. rewrite slice_rel by lia. rewrite Nat2Z.id, <- Hl.
    rewrite firstn_app, Nat.sub_diag, firstn_all. apply app_nil_r. }
  assert (Hann : forall raw n, announces E fs raw n -> fs_len_type fs = Some (Z.of_nat (length raw)))
    by (intros; eapply announces_len_type; eauto).
  destruct H as [lt Hlt Hc|lt raw Hlt Hneg Hdt|lt le raw rest msg Hlt Hz Hin Hl Hle Hf|lt le raw rest n ml Hlt Hz Hin Hl Hle Hd Hml Hgt
                |raw rest n k' Hin Ha Hn Ho Hc|raw rest n k' data Hin Ha Ho Hneg Hdt
                |raw data rest n de why Hin Ha Hn Ho Hde Hb Hu|raw data rest n de Hin Ha Hn Ho Hde Hb Hodd Hpad].
  - unfold decode_field. rewrite Hlt. unfold bind, prop, ret, set_dec, set_enc. cbn [d_dec d_enc].
    assert (Hr : py_slice (buf_bytes s) (zlen before) (zlen before + Z.of_nat lt) = input).
    { rewrite Hs, slice_rel by lia. rewrite Nat2Z.id. apply firstn_all2. lia. }
    rewrite Hr. replace (zlen input =? Z.of_nat lt)%Z with false by (unfold zlen; lia). cbn [negb].
    unfold put. rewrite Z.add_0_r. apply formatted_raised; reflexivity.
  - unfold decode_field. rewrite Hlt. unfold bind, prop, ret, set_dec, set_enc. cbn [d_dec d_enc].
    apply slice_stretch in Hdt. rewrite Hs, <- Hdt. pose proof (zlen_nonneg raw).
    replace (zlen raw =? lt)%Z with false by lia. cbn [negb].
    unfold put. rewrite Z.add_0_r. apply formatted_raised; reflexivity.
  - rewrite (decode_field_start _ _ _ _ _ _ _ _ Hlt (Hrun _ _ _ Hlt Hin Hl) Hl). unfold bind at 1.
    rewrite (decode_length_eq _ _ _ _ _ _ _ _ raw Hz (Hrun _ _ _ Hlt Hin Hl)), Hle.
    assert (raw <> []) by (intros ->; simpl in Hl; congruence).
    unfold bind, prop, ret. rewrite (prefix_reader_fault _ _ _ _ _ _ _ msg); auto.
    now rewrite Z.add_0_r.
  - rewrite (decode_field_start _ _ _ _ _ _ _ _ Hlt (Hrun _ _ _ Hlt Hin Hl) Hl). unfold bind at 1.
    rewrite (decode_length_eq _ _ _ _ _ _ _ _ raw Hz (Hrun _ _ _ Hlt Hin Hl)), Hle.
    assert (raw <> []) by (intros ->; simpl in Hl; congruence).
    unfold bind, prop, ret. rewrite (proj2 (prefix_reader_ok E _ _ _ _ _ _ n H) Hd), Hml.
    replace (ml <? n)%Z with true by lia.
    rewrite Z.add_0_r, unit_name_eq. match goal with |- _ = raised E s ?m _ _ _ => rewrite (formatted_raised E s m) by reflexivity end. reflexivity.
  - pose proof (Hann _ _ Ha) as Hlt. rewrite (decode_field_start _ _ _ _ _ _ _ _ Hlt (Hrun _ _ _ Hlt Hin eq_refl) eq_refl). unfold bind at 1.
    rewrite (proj2 (decode_length_ok E s (zlen before) k fs _ _ _ n _ Hlt ltac:(now rewrite (Hrun _ _ _ Hlt Hin eq_refl))))
      by (rewrite (Hrun _ _ _ Hlt Hin eq_refl); split; [reflexivity|assumption]).
    destruct (Z.eqb_spec n 0) as [|_]; [congruence|].
    apply byte_len_occupies in Ho. rewrite <- Ho.
    pose proof (zlen_nonneg rest).
    assert (Hdata : py_slice (buf_bytes s) (zlen before + Z.of_nat (length raw)) (zlen before + Z.of_nat (length raw) + k') = rest).
    { rewrite Hs, Hin, app_assoc. change (Z.of_nat (length raw)) with (zlen raw). rewrite <- zlen_app, slice_rel by lia. apply firstn_all2. unfold zlen in *. lia. }
    rewrite Hdata. unfold bind at 1. erewrite set_enc_data_put by (cbn; rewrite ?sget_sset; reflexivity).
    replace (zlen rest =? k')%Z with false by lia. cbn [negb]. rewrite nibbles_eq, unit_name_eq.
    unfold put. cbn [d_dec d_enc]. rewrite sset_sset. rewrite (Z.mul_comm (zlen rest)). apply formatted_raised; reflexivity.
  - pose proof (Hann _ _ Ha) as Hlt. rewrite (decode_field_start _ _ _ _ _ _ _ _ Hlt (Hrun _ _ _ Hlt Hin eq_refl) eq_refl). unfold bind at 1.
    rewrite (proj2 (decode_length_ok E s (zlen before) k fs _ _ _ n _ Hlt ltac:(now rewrite (Hrun _ _ _ Hlt Hin eq_refl))))
      by (rewrite (Hrun _ _ _ Hlt Hin eq_refl); split; [reflexivity|assumption]).
    destruct (Z.eqb_spec n 0) as [->|_].
    { exfalso. unfold occupies in Ho. destruct (in_nibbles fs); lia. }
    apply byte_len_occupies in Ho. rewrite <- Ho.
    assert (Hdata : py_slice (buf_bytes s) (zlen before + Z.of_nat (length raw)) (zlen before + Z.of_nat (length raw) + k') = data).
    { apply slice_stretch in Hdt. rewrite Hdt, Hs. rewrite zlen_app. reflexivity. }
    rewrite Hdata. unfold bind at 1. erewrite set_enc_data_put by (cbn; rewrite ?sget_sset; reflexivity).
    pose proof (zlen_nonneg data).
    replace (zlen data =? k')%Z with false by lia. cbn [negb]. rewrite nibbles_eq, unit_name_eq.
    unfold put. cbn [d_dec d_enc]. rewrite sset_sset. rewrite (Z.mul_comm (zlen data)). apply formatted_raised; reflexivity.
  - pose proof (Hann _ _ Ha) as Hlt. rewrite (decode_field_start _ _ _ _ _ _ _ _ Hlt (Hrun _ _ _ Hlt Hin eq_refl) eq_refl). unfold bind at 1.
    rewrite (proj2 (decode_length_ok E s (zlen before) k fs _ _ _ n _ Hlt ltac:(now rewrite (Hrun _ _ _ Hlt Hin eq_refl))))
      by (rewrite (Hrun _ _ _ Hlt Hin eq_refl); split; [reflexivity|assumption]).
    destruct (Z.eqb_spec n 0) as [|_]; [congruence|].
    apply byte_len_occupies in Ho. rewrite <- Ho.
    assert (Hdata : py_slice (buf_bytes s) (zlen before + Z.of_nat (length raw)) (zlen before + Z.of_nat (length raw) + zlen data) = data).
    { rewrite Hs, Hin, app_assoc. change (Z.of_nat (length raw)) with (zlen raw). rewrite <- zlen_app. apply py_slice_app. }
    rewrite Hdata. unfold bind at 1. erewrite set_enc_data_put by (cbn; rewrite ?sget_sset; reflexivity).
    rewrite Z.eqb_refl. cbn [negb]. rewrite Hde. unfold bind, prop, ret.
    destruct (binary_cases de) as [[Hb' Eb]|[_ Eb]]; [tauto|]. rewrite Eb, (text_fault _ _ _ _ _ _ de) by assumption.
    inversion Hu as [Hx|Hx]; subst why; rewrite Hx; unfold draise, raised, put; cbn [d_dec d_enc]; rewrite sset_sset; reflexivity.
  - pose proof (Hann _ _ Ha) as Hlt. rewrite (decode_field_start _ _ _ _ _ _ _ _ Hlt (Hrun _ _ _ Hlt Hin eq_refl) eq_refl). unfold bind at 1.
    rewrite (proj2 (decode_length_ok E s (zlen before) k fs _ _ _ n _ Hlt ltac:(now rewrite (Hrun _ _ _ Hlt Hin eq_refl))))
      by (rewrite (Hrun _ _ _ Hlt Hin eq_refl); split; [reflexivity|assumption]).
    destruct (Z.eqb_spec n 0) as [|_]; [congruence|].
    apply byte_len_occupies in Ho. rewrite <- Ho.
    assert (Hdata : py_slice (buf_bytes s) (zlen before + Z.of_nat (length raw)) (zlen before + Z.of_nat (length raw) + zlen data) = data).
    { rewrite Hs, Hin, app_assoc. change (Z.of_nat (length raw)) with (zlen raw). rewrite <- zlen_app. apply py_slice_app. }
    rewrite Hdata. unfold bind at 1. erewrite set_enc_data_put by (cbn; rewrite ?sget_sset; reflexivity).
    rewrite Z.eqb_refl. cbn [negb]. rewrite Hde. unfold bind at 1. unfold prop, ret at 1.
    destruct (binary_cases de) as [[Hb' Eb]|[Hb' Eb]]; [|tauto]. rewrite Eb. rewrite nibbles_eq, Hodd, py_upper_hex.
    unfold bind, set_dec at 1. cbn [d_dec d_enc].
    match goal with |- context [remove_pad_field ?z ?a ?b ?c ?d ?e ?st1] => destruct (remove_pad_field z a b c d e st1) as [[t|x] st2] eqn:Hr end.
    + apply remove_pad_ok in Hr as (_ & d & Hd & Hp); cbn [d_dec] in *; rewrite ?sget_sset in *; [|discriminate].
      injection Hd as <-. now apply Hpad in Hp.
    + unfold remove_pad_field in Hr. unfold bind at 1 in Hr. unfold get_dec in Hr. cbn [d_dec] in Hr. rewrite sget_sset in Hr.
      destruct (_ && _) in Hr; [discriminate|]. destruct (_ && _) in Hr; [discriminate|].
      replace (zlen (HEX data)) with (2 * zlen data)%Z in Hr; [match goal with |- _ = raised E s ?m _ _ _ => rewrite (formatted_raised E s m) in Hr by reflexivity end; unfold raised in Hr; injection Hr as <- <-; unfold raised, put; cbn [d_dec d_enc]; rewrite !sset_sset; reflexivity|].
      unfold HEX, zlen. clear. induction data as [|x l IH]; [reflexivity|]. cbn [flat_map length app]. lia.
Qed.

Definition field_failure E (s : pybuf) k fs before input st (r : res exn Z * dstate) : Prop :=
  exists msg off lenb data text, field_fault E fs before input msg off lenb data text
    /\ r = raised E s msg (zlen before + off) k (put k lenb data text st).

Lemma field_fault_sound E s k fs st before input x st' :
  buf_bytes s = before ++ input ->
  decode_field E s (zlen before) k fs st = (Raise x, st') ->
  (exists nm, x = XKeyError nm /\ ~ mandatory fs)
  \/ field_failure E s k fs before input st (Raise x, st').
Proof.
  intros Hs H. destruct (fs_len_type fs) as [lt|] eqn:Hlt.
  2:{ unfold decode_field in H. rewrite Hlt in H. injection H as <- <-. left. eexists. split; [reflexivity|].
      unfold mandatory. tauto. }
  destruct (Z.ltb_spec lt 0) as [Hneg|Hpos].
  { right.
    assert (Hf : field_fault E fs before input [Txt (u "Field length is "); Size (zlen (py_slice (before ++ input) (zlen before) (zlen before + lt))); Txt (u " bytes wide, expecting "); Num lt]
                   0 (py_slice (before ++ input) (zlen before) (zlen before + lt)) [] []).
    { apply NegativePrefix; auto. now apply slice_stretch. }
    eexists _, _, _, _, _. split; [exact Hf|]. rewrite <- H. now apply (field_fault_complete E s k fs st before input). }
  destruct (Z_of_nat_complete lt Hpos) as [w ->]. clear Hpos. rename w into lt.
  assert (Hslice : py_slice (buf_bytes s) (zlen before) (zlen before + Z.of_nat lt) = firstn lt input).
  { rewrite Hs, slice_rel by lia. now rewrite Nat2Z.id. }
  destruct (le_lt_dec lt (length input)) as [Hc|Hc].
  2:{ right. exists [Txt (u "Field length is "); Size (zlen input); Txt (u " bytes wide, expecting "); Num (Z.of_nat lt)], 0%Z, input, [], [].
      assert (Hf : field_fault E fs before input [Txt (u "Field length is "); Size (zlen input); Txt (u " bytes wide, expecting "); Num (Z.of_nat lt)] 0 input [] [])
        by now constructor.
      split; [exact Hf|]. rewrite <- H. now apply (field_fault_complete E s k fs st before input). }
  set (raw := firstn lt input) in *. set (rest := skipn lt input).
  assert (Hin : input = raw ++ rest) by (symmetry; apply firstn_skipn).
  assert (Hl : length raw = lt) by (unfold raw; rewrite firstn_length; lia).
  assert (Hgo : forall msg off lenb data text, field_fault E fs before input msg off lenb data text ->
    field_failure E s k fs before input st (Raise x, st')).
  { intros msg off lenb data text Hf. exists msg, off, lenb, data, text. split; [assumption|].
    rewrite <- H. now apply (field_fault_complete E s k fs st before input). }
  pose proof H as H0.
  rewrite (decode_field_start _ _ _ _ _ _ _ _ Hlt Hslice Hl) in H.
  apply bind_raise in H as [H|(n & st4 & H4 & H)].
  { destruct (Nat.eq_dec lt 0) as [Hz|Hz].
    - unfold decode_length in H. rewrite Hz in H. cbn [Z.of_nat Z.eqb] in H. unfold prop in H.
      destruct (fs_max_len fs) eqn:Hm; [discriminate|]. injection H as <- <-. left. eexists. split; [reflexivity|].
      unfold mandatory. tauto.
    - rewrite (decode_length_eq _ _ _ _ _ _ _ _ raw Hz Hslice) in H.
      assert (Hne : raw <> []) by (intro He; rewrite He in Hl; simpl in Hl; congruence).
      unfold bind at 1, prop in H. destruct (fs_len_enc fs) as [le|] eqn:Hle.
      2:{ injection H as <- <-. left. eexists. split; [reflexivity|]. unfold mandatory. tauto. }
      unfold ret at 1 in H. apply bind_raise in H as [H|(n & st1 & H1 & H)].
      { apply prefix_reader_raise in H as (msg & Hf & _); [|assumption]. right.
        apply (Hgo msg 0%Z raw [] []). eapply PrefixUnreadable; eauto. }
      pose proof (prefix_reader_state _ _ _ _ _ _ _ _ _ H1). subst st1.
      apply prefix_reader_ok in H1; [|assumption].
      destruct (fs_max_len fs) as [ml|] eqn:Hml.
      2:{ injection H as <- <-. left. eexists. split; [reflexivity|]. unfold mandatory. tauto. }
      unfold bind, ret in H. destruct (ml <? n)%Z eqn:Hgt; [|discriminate]. right.
      eapply Hgo. eapply LengthTooLarge; eauto. lia. }
  apply decode_length_ok in H4 as [-> Han]; [|assumption|now rewrite Hslice]. rewrite Hslice in Han.
  destruct (Z.eqb_spec n 0) as [->|Hn0]; [discriminate|].
  set (bl := byte_len _ n) in *. cbv zeta in H.
  assert (Ho : occupies fs n bl) by now apply byte_len_occupies.
  apply bind_raise in H as [H|(? & st5 & H5 & H)].
  { erewrite set_enc_data_put in H by (cbn; rewrite ?sget_sset; reflexivity). discriminate. }
  erewrite set_enc_data_put in H5 by (cbn; rewrite ?sget_sset; reflexivity).
  injection H5 as _ <-.
  destruct (Z.ltb_spec bl 0) as [Hneg|Hpos].
  { right. eapply Hgo. eapply NegativeLength; eauto. now apply slice_stretch. }
  destruct (Z.ltb_spec (zlen rest) bl) as [Hcut|Hfull].
  { right. eapply Hgo. eapply DataCut; eauto. }
  set (data := firstn (Z.to_nat bl) rest) in *.
  assert (Hd : py_slice (buf_bytes s) (zlen before + Z.of_nat lt) (zlen before + Z.of_nat lt + bl) = data).
  { rewrite Hs, Hin, app_assoc. replace (zlen before + Z.of_nat lt)%Z with (zlen (before ++ raw)) by (rewrite zlen_app; unfold zlen; lia).
    now apply slice_rel. }
  rewrite Hd in H.
  assert (Hdl : zlen data = bl) by (unfold data; rewrite zlen_firstn by lia; lia).
  assert (Hin2 : input = raw ++ data ++ skipn (Z.to_nat bl) rest) by (unfold data; rewrite firstn_skipn; assumption).
  rewrite <- Hdl in Ho.
  rewrite Hdl, Z.eqb_refl in H. cbn [negb] in H.
  apply bind_raise in H as [H|(de & st6 & H6 & H)].
  { unfold prop in H. destruct (fs_data_enc fs) eqn:Hde; [discriminate|]. injection H as <- <-.
    left. eexists. split; [reflexivity|]. unfold mandatory. tauto. }
  apply prop_ok in H6 as [Hde ->]. right.
  apply bind_raise in H as [H|(? & st7 & H7 & H)]; [|discriminate].
  destruct (binary_cases de) as [[Hb Eb]|[Hb Eb]]; rewrite Eb in H.
  - apply bind_raise in H as [H|(? & st8 & H8 & H)]; [discriminate|]. injection H8 as _ <-.
    rewrite nibbles_eq in H. destruct (in_nibbles fs && Z.odd n) eqn:Hodd; [|discriminate].
    apply bind_raise in H as [H|(t & st9 & H9 & H)]; [|discriminate].
    eapply Hgo. eapply PadMissing; eauto. intros t Ht.
    match type of H with remove_pad_field ?z ?a ?b ?c ?d ?e ?st1 = _ =>
      assert (remove_pad_field z a b c d e st1 = (Ok t, st1)) end.
    { apply remove_pad_ok; cbn [d_dec]; rewrite sget_sset; [discriminate|]. split; [reflexivity|].
      eexists. split; [reflexivity|]. now rewrite py_upper_hex. }
    congruence.
  - apply bind_raise in H as [H|(t & st8 & H8 & H)]; [|discriminate].
    rewrite (text_fault _ _ _ _ _ _ de) in H by assumption.
    destruct (bytes_decode E de data) as [t| |] eqn:Ht; [discriminate| |];
      eapply Hgo; eapply DataUnreadable; eauto; now constructor.
Qed.

(** ** The message type *)
Lemma type_width_eq de w : type_width de w <-> Z.of_nat w = (if str_eqb de str_b then 2 else 4)%Z.
Proof.
  unfold type_width. destruct (binary_cases de) as [[Hb ->]|[Hb ->]]; split; intro H.
  - destruct H as [[_ ->]|[H _]]; [reflexivity|tauto].
  - left. split; [assumption|lia].
  - destruct H as [[H _]|[_ ->]]; [tauto|reflexivity].
  - right. split; [assumption|lia].
Qed.
Lemma bitmap_width_eq de w : bitmap_width de w <-> Z.of_nat w = (if str_eqb de str_b then 8 else 16)%Z.
Proof.
  unfold bitmap_width. destruct (binary_cases de) as [[Hb ->]|[Hb ->]]; split; intro H.
  - destruct H as [[_ ->]|[H _]]; [reflexivity|tauto].
  - left. split; [assumption|lia].
  - destruct H as [[H _]|[_ ->]]; [tauto|reflexivity].
  - right. split; [assumption|lia].
Qed.

Lemma type_fault_complete E s sp st fs before input msg data :
  buf_bytes s = before ++ input -> sget (u "t") sp = Some fs -> type_fault E fs input msg data ->
  decode_type E s (zlen before) sp st = raised E s msg (zlen before) (u "t") (put (u "t") [] data [] st).
Proof.
  intros Hs Hsp H. unfold decode_type, spec_get. rewrite Hsp. unfold bind, prop, ret.
  destruct H as [de w Hde Hw Hc|de data rest why Hde Hb Hin Hl Hu].
  - rewrite Hde. unfold set_dec at 1, set_enc at 1. cbn [d_dec d_enc].
    apply type_width_eq in Hw. cbv zeta. rewrite <- Hw.
    assert (Hd : py_slice (buf_bytes s) (zlen before) (zlen before + Z.of_nat w) = input).
    { rewrite Hs, slice_rel by lia. apply firstn_all2. lia. }
    rewrite Hd. replace (zlen input =? Z.of_nat w)%Z with false by (unfold zlen; lia). reflexivity.
  - rewrite Hde. unfold set_dec at 1, set_enc at 1. cbn [d_dec d_enc].
    destruct (binary_cases de) as [[Hb' Eb]|[_ Eb]]; [tauto|]. rewrite Eb.
    assert (Hd : py_slice (buf_bytes s) (zlen before) (zlen before + 4) = data).
    { rewrite Hs, Hin. replace 4%Z with (zlen data) by (unfold zlen; lia). apply py_slice_app. }
    rewrite Hd. replace (zlen data =? 4)%Z with true by (unfold zlen; lia). cbn [negb].
    rewrite (text_fault _ _ _ _ _ _ de) by assumption.
    inversion Hu as [Hx|Hx]; rewrite Hx; reflexivity.
Qed.
Lemma type_cases E fs input : fs_data_enc fs <> None ->
  (exists msg data, type_fault E fs input msg data)
  \/ exists data text rest, type_wire E fs data text /\ input = data ++ rest.
Proof.
  intro Hm. destruct (fs_data_enc fs) as [de|] eqn:Hde; [|congruence].
  assert (exists w, type_width de w) as [w Hw].
  { destruct (binary_cases de) as [[Hb _]|[Hb _]]; [exists 2%nat; left; auto|exists 4%nat; right; auto]. }
  destruct (le_lt_dec w (length input)) as [Hc|Hc].
  2:{ left. eexists _, _. eapply TypeCut; eauto. }
  set (data := firstn w input).
  assert (Hl : length data = w) by (unfold data; rewrite firstn_length; lia).
  assert (Hin : input = data ++ skipn w input) by (symmetry; apply firstn_skipn).
  destruct Hw as [[Hb Hw]|[Hb Hw]].
  - right. exists data, (HEX data), (skipn w input). split; [|assumption].
    eapply TypeBinary; eauto; lia.
  - destruct (bytes_decode E de data) as [t| |] eqn:Ht.
    + right. exists data, t, (skipn w input). split; [|assumption]. eapply TypeText; eauto; lia.
    + left. eexists _, data. eapply TypeUnreadable; eauto; [lia|now constructor].
    + left. eexists _, data. eapply TypeUnreadable; eauto; [lia|now apply InvalidData].
Qed.
Lemma type_fault_sound E s sp st before input x st' :
  buf_bytes s = before ++ input ->
  decode_type E s (zlen before) sp st = (Raise x, st') ->
  (exists nm, x = XKeyError nm /\ ~ entry_complete sp (u "t"))
  \/ exists fs msg data, sget (u "t") sp = Some fs /\ type_fault E fs input msg data
       /\ (Raise x, st') = raised (A:=Z) E s msg (zlen before) (u "t") (put (u "t") [] data [] st).
Proof.
  intros Hs H. destruct (sget (u "t") sp) as [fs|] eqn:Hsp.
  2:{ unfold decode_type, spec_get in H. rewrite Hsp in H. injection H as <- <-. left.
      eexists. split; [reflexivity|]. intros (fs & Hf & _). congruence. }
  destruct (fs_data_enc fs) as [de|] eqn:Hde.
  2:{ unfold decode_type, spec_get in H. rewrite Hsp in H. unfold bind, ret, prop in H. rewrite Hde in H.
      injection H as <- <-. left. eexists. split; [reflexivity|].
      intros (fs' & Hf & Hm). assert (fs' = fs) by congruence. subst. unfold mandatory in Hm. tauto. }
  right. destruct (type_cases E fs input) as [(msg & data & Hf)|(data & text & rest & Hw & Hin)]; [congruence| |].
  - exists fs, msg, data. split; [reflexivity|]. split; [assumption|].
    rewrite <- H. now apply (type_fault_complete E s sp st fs before input).
  - exfalso. rewrite (decode_type_complete E s (zlen before) sp st (zlen before + zlen data) fs data text) in H; auto.
    + discriminate.
    + exists before, rest. rewrite <- Hin. auto.
Qed.

(** ** A bitmap *)
Lemma bitmap_cases E fs old input : fs_data_enc fs <> None ->
  (exists msg data text, bitmap_fault E fs old input msg data text)
  \/ exists data text bm rest, bitmap_wire E fs data text bm /\ input = data ++ rest.
Proof.
  intro Hm. destruct (fs_data_enc fs) as [de|] eqn:Hde; [|congruence].
  assert (exists w, bitmap_width de w) as [w Hw].
  { destruct (binary_cases de) as [[Hb _]|[Hb _]]; [exists 8%nat; left; auto|exists 16%nat; right; auto]. }
  destruct (le_lt_dec w (length input)) as [Hc|Hc].
  2:{ left. eexists _, _, _. eapply BitmapCut; eauto. }
  set (data := firstn w input).
  assert (Hl : length data = w) by (unfold data; rewrite firstn_length; lia).
  assert (Hin : input = data ++ skipn w input) by (symmetry; apply firstn_skipn).
  destruct Hw as [[Hb Hw]|[Hb Hw]].
  - right. exists data, (HEX data), data, (skipn w input). split; [|assumption].
    eapply BitmapBinary; eauto; lia.
  - assert (length data = 16)%nat by lia. destruct (bytes_decode E de data) as [t| |] eqn:Ht.
    + destruct (fromhex t) as [bm|] eqn:Hf; [apply fromhex_spelling in Hf|apply fromhex_none in Hf].
      * right. exists data, t, bm, (skipn w input). split; [|assumption]. eapply BitmapText; eauto.
      * left. eexists _, data, t. eapply BitmapNotHex; eauto.
    + left. eexists _, data, _. eapply BitmapUnreadable; eauto. now constructor.
    + left. eexists _, data, _. eapply BitmapUnreadable; eauto. now apply InvalidData.
Qed.
Lemma bitmap_fault_complete E s k fs off (ext : bool) fields st old_e old_t before input msg data text :
  buf_bytes s = before ++ input -> bitmap_start ext k st old_e old_t ->
  bitmap_fault E fs (if ext then Some (e_data old_e) else None) input msg data text ->
  decode_bitmap E s (zlen before) k fs off ext fields st
  = raised E s msg (zlen before) k (put k (e_len old_e) (e_data old_e ++ data) (old_t ++ text) st).
Proof.
  intros Hs Hst H. unfold decode_bitmap.
  inversion H as [de w Hde Hw Hc|de d rest why Hde Hb Hin Hl Hu|de d rest t Hde Hb Hin Hl Ht Hf]; subst; clear H.
  - rewrite Hde. unfold bind at 1, prop, ret at 1.
    apply bitmap_width_eq in Hw. rewrite <- Hw.
    assert (Hd : py_slice (buf_bytes s) (zlen before) (zlen before + Z.of_nat w) = data).
    { rewrite Hs, slice_rel by lia. apply firstn_all2. lia. }
    rewrite Hd. unfold bind at 1. rewrite (bitmap_record _ _ _ _ _ _ Hst).
    replace (zlen data =? Z.of_nat w)%Z with false by (unfold zlen; lia). cbn [negb].
    unfold bind, get_enc. unfold put at 1. cbn [d_enc]. rewrite sget_sset, app_nil_r. cbn [e_data].
    apply draise_raised; [reflexivity|]. cbn [text_of wording]. unfold num. destruct ext.
    + rewrite zlen_app. do 3 f_equal. f_equal. lia.
    + destruct Hst as [-> _]. reflexivity.
  - rewrite Hde. unfold bind at 1, prop, ret at 1.
    destruct (binary_cases de) as [[Hb' Eb]|[_ Eb]]; [tauto|]. rewrite Eb.
    assert (Hd : py_slice (buf_bytes s) (zlen before) (zlen before + 16) = data).
    { rewrite Hs. replace 16%Z with (zlen data) by (unfold zlen; lia). apply py_slice_app. }
    rewrite Hd. unfold bind at 1. rewrite (bitmap_record _ _ _ _ _ _ Hst).
    replace (zlen data =? 16)%Z with true by (unfold zlen; lia). cbn [negb].
    unfold bind. rewrite (text_fault _ _ _ _ _ _ de) by assumption. rewrite app_nil_r.
    inversion Hu as [Hx|Hx]; rewrite Hx; reflexivity.
  - rewrite Hde. unfold bind at 1, prop, ret at 1.
    destruct (binary_cases de) as [[Hb' Eb]|[_ Eb]]; [tauto|]. rewrite Eb.
    assert (Hd : py_slice (buf_bytes s) (zlen before) (zlen before + 16) = data).
    { rewrite Hs. replace 16%Z with (zlen data) by (unfold zlen; lia). apply py_slice_app. }
    rewrite Hd. unfold bind at 1. rewrite (bitmap_record _ _ _ _ _ _ Hst).
    replace (zlen data =? 16)%Z with true by (unfold zlen; lia). cbn [negb].
    unfold bind at 1 2. rewrite (text_fault _ _ _ _ _ _ de), Ht by assumption.
    apply fromhex_none in Hf. unfold bind at 1. rewrite (bitmap_text _ _ _ _ _ _ _ _ Hst), Hf. reflexivity.
Qed.
Lemma bitmap_fault_sound E s k fs off (ext : bool) fields st old_e old_t before input x st' :
  buf_bytes s = before ++ input -> bitmap_start ext k st old_e old_t ->
  decode_bitmap E s (zlen before) k fs off ext fields st = (Raise x, st') ->
  (exists nm, x = XKeyError nm /\ ~ mandatory fs)
  \/ exists msg data text,
      bitmap_fault E fs (if ext then Some (e_data old_e) else None) input msg data text
      /\ (Raise x, st')
         = raised (A:=Z*zset) E s msg (zlen before) k (put k (e_len old_e) (e_data old_e ++ data) (old_t ++ text) st).
Proof.
  intros Hs Hst H. destruct (fs_data_enc fs) as [de|] eqn:Hde.
  2:{ unfold decode_bitmap in H. rewrite Hde in H. injection H as <- <-. left. eexists. split; [reflexivity|].
      unfold mandatory. tauto. }
  right. destruct (bitmap_cases E fs (if ext then Some (e_data old_e) else None) input)
    as [(msg & data & text & Hf)|(data & text & bm & rest & Hw & Hin)]; [congruence| |].
  - exists msg, data, text. split; [assumption|].
    rewrite <- H. now apply (bitmap_fault_complete E s k fs off ext fields st old_e old_t before input).
  - exfalso. rewrite (decode_bitmap_complete E s (zlen before) k fs off ext fields st (zlen before + zlen data) old_e old_t data text bm) in H; auto.
    + discriminate.
    + exists before, rest. rewrite <- Hin. auto.
Qed.

(** ** The whole message *)
Definition faulty (E : pyenv) (sp : spec) (s : pybuf) (x : exn) : Prop :=
  exists msg pos segs last, decode_fault E sp (buf_bytes s) msg pos segs last
    /\ x = outcome E s msg (dec_of (segs ++ [last])) (enc_of (segs ++ [last])) pos (sg_key last).

Lemma trace_split s st idx segs : trace s st idx segs ->
  exists rest, s = bytes_of segs ++ rest /\ idx = zlen (bytes_of segs).
Proof.
  intro H. pose proof (trace_idx _ _ _ _ H) as Hi. destruct H as (_ & _ & H & _).
  destruct (stands_prefix _ _ _ H) as [rest Hr]. eauto.
Qed.
Lemma raised_inv {A} E s msg pos k st x st' :
  (Raise x, st') = raised (A:=A) E s msg pos k st ->
  x = outcome E s msg (d_dec st) (d_enc st) pos k.
Proof. unfold raised. intro H. now injection H as -> ->. Qed.
Lemma raised_put {A} E s msg pos k lenb data text b st idx segs x st' :
  trace b st idx segs -> ~ In k (map sg_key segs) ->
  (Raise x, st') = raised (A:=A) E s msg pos k (put k lenb data text st) ->
  x = outcome E s msg (dec_of (segs ++ [mkSeg k lenb data text]))
        (enc_of (segs ++ [mkSeg k lenb data text])) pos k.
Proof.
  intros (H1 & H2 & _) Hk H. apply raised_inv in H.
  destruct (put_fresh k lenb data text st segs H1 H2 Hk) as [H3 H4]. now rewrite H3, H4 in H.
Qed.

Lemma header_faulty E sp s x st' :
  decode_header E s 0 sp (mkD [] []) = (Raise x, st') ->
  faulty E sp s x \/ exists nm, x = XKeyError nm /\ ~ entry_complete sp (u "h").
Proof.
  intro H. unfold decode_header, spec_get in H.
  destruct (sget (u "h") sp) as [fs|] eqn:Hsp.
  2:{ injection H as <- <-. right. eexists. split; [reflexivity|]. intros (fs & H & _). congruence. }
  rewrite bind_ret_l in H. unfold prop in H. destruct (fs_max_len fs) as [ml|] eqn:Hml.
  2:{ injection H as <- <-. right. eexists. split; [reflexivity|]. intros (fs' & H & Hm). unfold mandatory in Hm.
      assert (fs' = fs) by congruence. subst. tauto. }
  rewrite bind_ret_l in H. destruct (ml <=? 0)%Z eqn:El; [discriminate|].
  apply (field_fault_sound E s (u "h") fs _ [] (buf_bytes s)) in H as [(nm & -> & Hm)|H]; [| |reflexivity].
  - right. eexists. split; [reflexivity|]. intros (fs' & H & Hm'). congruence.
  - left. destruct H as (msg & off & lenb & data & text & Hf & H).
    exists msg, off, [], (mkSeg (u "h") lenb data text). split.
    + eapply HeaderFault; eauto. lia.
    + apply (raised_put _ _ _ _ _ _ _ _ (buf_bytes s) _ 0 []) in H; [exact H|apply trace_start|intros []].
Qed.

Lemma type_faulty E sp s hs idx st x st' :
  header_part E sp hs -> trace (buf_bytes s) st idx hs -> ~ In (u "t") (map sg_key hs) ->
  decode_type E s idx sp st = (Raise x, st') ->
  faulty E sp s x \/ exists nm, x = XKeyError nm /\ ~ entry_complete sp (u "t").
Proof.
  intros Hh Ht Hk H. destruct (trace_split _ _ _ _ Ht) as (rest & Hin & ->).
  destruct (type_fault_sound E s sp st _ rest _ _ Hin H) as [H'|(fs & msg & data & Hsp & Hf & H')]; [now right|].
  left. eexists msg, _, hs, (mkSeg (u "t") [] data []). split.
  - eapply TypeFault; eauto.
  - eapply raised_put in H'; eauto.
Qed.

Lemma fields_faulty E sp s hs t p xs bm1 bm2 bm3 :
  header_part E sp hs -> type_part E sp t -> primary_part E sp p bm1 ->
  extra_part E sp bm1 xs bm2 bm3 ->
  forall todo done segs idx st field x st',
  filter (announced bm1 bm2 bm3) data_fields = done ++ todo ->
  map sg_key segs = map zstr done -> Forall (field_segment E sp) segs ->
  trace (buf_bytes s) st idx (hs ++ t :: p :: xs ++ segs) ->
  zsorted todo ->
  (forall f, In f todo -> (2 <= f)%Z /\ ~ In (zstr f) (map sg_key (hs ++ t :: p :: xs ++ segs))) ->
  decode_fields E s idx sp todo field st = (Raise x, st') ->
  faulty E sp s x \/ exists nm f, x = XKeyError nm /\ In f todo /\ ~ entry_complete sp (zstr f).
Proof.
  intros Hh Htp Hp Hx todo.
  induction todo as [|f todo IH]; intros done segs idx st field x st' Hd Hk Hf Ht Hs Hfr H; [discriminate|].
  cbn [decode_fields] in H. unfold spec_get in H.
  destruct (sget (zstr f) sp) as [fs|] eqn:Hsp.
  2:{ injection H as <- <-. right. exists (zstr f), f. split; [reflexivity|]. split; [now left|].
      intros (fs & H & _). congruence. }
  rewrite bind_ret_l in H. unfold bind in H.
  destruct (Hfr f (or_introl eq_refl)) as [Hf2 Hnk].
  destruct (trace_split _ _ _ _ Ht) as (rest & Hin & ->).
  destruct (decode_field E s (zlen (bytes_of (hs ++ t :: p :: xs ++ segs))) (zstr f) fs st) as [[idx1|y] st1] eqn:Hdf.
  2:{ injection H as <- <-.
      apply (field_fault_sound E s (zstr f) fs st _ rest _ _ Hin) in Hdf as [(nm & -> & Hm)|Herr].
      - right. exists nm, f. split; [reflexivity|]. split; [now left|]. intros (fs' & H & Hm'). congruence.
      - left. destruct Herr as (msg & off & lenb & data & text & Hff & H).
        eexists msg, _, _, (mkSeg (zstr f) lenb data text). split.
        + eapply FieldFault; eauto.
        + eapply raised_put in H; eauto. }
  apply decode_field_sound in Hdf as (lenb & data & text & Hw & Hst & ->); [|apply trace_bounds in Ht; assumption].
  set (sg := mkSeg (zstr f) lenb data text) in *.
  assert (Hfs : field_segment E sp sg) by (exists fs; auto).
  inversion Hs as [|? ? Hs' Hlt]; subst.
  assert (Happ : hs ++ t :: p :: xs ++ segs ++ [sg] = (hs ++ t :: p :: xs ++ segs) ++ [sg])
    by (rewrite <- !app_assoc; cbn [app]; rewrite <- !app_assoc; reflexivity).
  apply (IH (done ++ [f]) (segs ++ [sg])) in H.
  - destruct H as [H|(nm & g & H1 & H2 & H3)]; [now left|]. right. exists nm, g.
    split; [assumption|]. split; [now right|assumption].
  - rewrite <- app_assoc. assumption.
  - rewrite !map_app, Hk. reflexivity.
  - apply Forall_app. auto.
  - rewrite Happ. eapply trace_put; eauto.
  - assumption.
  - intros g Hg. destruct (Hfr g (or_intror Hg)) as [Hg2 Hgk]. split; [assumption|].
    rewrite Happ. rewrite map_app, in_app_iff. cbn [map In sg_key sg]. intros [?|[E0|[]]]; [tauto|].
    rewrite Forall_forall in Hlt. specialize (Hlt g Hg). apply zstr_inj in E0; lia.
Qed.

Lemma bytes_of_snoc segs sg : bytes_of (segs ++ [sg]) = bytes_of segs ++ sg_bytes sg.
Proof. now rewrite bytes_of_app, bytes_of_one. Qed.

Lemma bitmaps_faulty E sp s hs t idx st x st' :
  bitmaps_fit E sp -> header_part E sp hs -> type_part E sp t ->
  trace (buf_bytes s) st idx (hs ++ [t]) ->
  (forall k, In k (map sg_key (hs ++ [t])) -> k = u "h" \/ k = u "t") ->
  bitmap_stage E s idx sp st = (Raise x, st') ->
  faulty E sp s x
  \/ exists nm, x = XKeyError nm /\ ~ (entry_complete sp (u "p") /\ entry_complete sp (u "1")).
Proof.
  intros Hfit Hh Htp Ht Hkeys H. unfold bitmap_stage in H.
  assert (Hp : ~ In (u "p") (map sg_key (hs ++ [t]))) by (intro Hi; destruct (Hkeys _ Hi); discriminate).
  assert (H1k : ~ In (u "1") (map sg_key (hs ++ [t]))) by (intro Hi; destruct (Hkeys _ Hi); discriminate).
  destruct (trace_split _ _ _ _ Ht) as (rest & Hin & ->).
  unfold bind at 1 in H. destruct (spec_get sp (u "p") st) as [[fsp|y] st1] eqn:Hg; apply spec_get_run in Hg.
  2:{ injection H as <- <-. destruct Hg as [-> Hg]. right. eexists. split; [reflexivity|]. tauto. }
  destruct Hg as [Hsp ->].
  unfold bind at 1 in H.
  assert (Hstart : forall k st0, bitmap_start false k st0 (mkEntry [] []) []) by (split; reflexivity).
  destruct (decode_bitmap E s (zlen (bytes_of (hs ++ [t]))) (u "p") fsp 0 false [] st) as [[[i1 F1]|y] st1] eqn:Hd.
  2:{ injection H as <- <-.
      destruct (bitmap_fault_sound _ _ _ _ _ _ _ _ _ _ _ _ _ _ Hin (Hstart (u "p") st) Hd)
        as [(nm & -> & Hm)|(msg & data & text & Hf & H)].
      - right. eexists. split; [reflexivity|]. intros [(fs' & H & Hm') _]. congruence.
      - left. eexists msg, _, _, (mkSeg (u "p") [] data text). split; [eapply PrimaryFault; eauto|].
        eapply raised_put in H; eauto. }
  apply (decode_bitmap_sound _ _ _ _ _ _ _ _ _ _ _ _ _ ltac:(apply trace_bounds in Ht; exact Ht) (Hstart (u "p") st)) in Hd
    as (data1 & text1 & bm1 & Hw1 & Hst1 & HF1' & ->).
  cbn [fst snd e_len e_data app] in *. subst F1.
  pose proof (trace_put _ _ _ _ (u "p") [] data1 text1 _ Ht Hp Hst1) as Ht1.
  set (p := mkSeg (u "p") [] data1 text1) in *.
  assert (Hprim : primary_part E sp p bm1) by (exists fsp; auto).
  assert (L1 : (length bm1 <= 8)%nat) by (eapply (Hfit (u "p")); eauto).
  set (F1 := zupdate [] (bitmap_fields 0 bm1)) in *.
  assert (HF1 : forall f, In f F1 <-> bit bm1 (f - 0) = true).
  { intro f. unfold F1. rewrite zupdate_in, bitmap_fields_in. simpl. tauto. }
  rewrite <- app_assoc in Ht1. cbn [app] in Ht1.
  destruct (zmem 1 F1) eqn:Hm1.
  2:{ (* no secondary bitmap, hence no tertiary one *)
      exfalso. unfold bind, ret in H. cbn [fst snd] in H.
      destruct (zmem 65 F1) eqn:Hm2; [|discriminate].
      apply zmem_in, HF1, bit_range in Hm2. lia. }
  apply zmem_in, HF1 in Hm1. change (1 - 0)%Z with 1%Z in Hm1.
  assert (H1k' : ~ In (u "1") (map sg_key (hs ++ [t; p]))).
  { change [t; p] with ([t] ++ [p]). rewrite app_assoc, map_app, in_app_iff. cbn [map In sg_key p].
    intros [?|[?|[]]]; [tauto|discriminate]. }
  destruct (trace_split _ _ _ _ Ht1) as (rest1 & Hin1 & ->).
  unfold bind at 1 in H. unfold bind at 1 in H.
  destruct (spec_get sp (u "1") (put (u "p") [] data1 text1 st)) as [[fs1|y] st2] eqn:Hg; apply spec_get_run in Hg.
  2:{ injection H as <- <-. destruct Hg as [-> Hg]. right. eexists. split; [reflexivity|]. tauto. }
  destruct Hg as [Hsp1 ->]. unfold bind at 1 in H.
  set (st1 := put (u "p") [] data1 text1 st) in *.
  destruct (decode_bitmap E s (zlen (bytes_of (hs ++ [t; p]))) (u "1") fs1 64 false F1 st1) as [[[i2 F2']|y] st2] eqn:Hd.
  2:{ injection H as <- <-.
      destruct (bitmap_fault_sound _ _ _ _ _ _ _ _ _ _ _ _ _ _ Hin1 (Hstart (u "1") st1) Hd)
        as [(nm & -> & Hm)|(msg & data & text & Hf & H)].
      - right. eexists. split; [reflexivity|]. intros [_ (fs' & H & Hm')]. congruence.
      - left. eexists msg, _, _, (mkSeg (u "1") [] data text). split; [eapply SecondaryFault; eauto|].
        eapply raised_put in H; eauto. }
  apply (decode_bitmap_sound _ _ _ _ _ _ _ _ _ _ _ _ _ ltac:(apply trace_bounds in Ht1; exact Ht1) (Hstart (u "1") st1)) in Hd
    as (data2 & text2 & bm2 & Hw2 & Hst2 & HF2' & ->).
  cbn [fst snd e_len e_data app] in *. subst F2'. unfold ret at 1 in H. cbn beta iota in H.
  set (F2 := zremove 1 (zupdate F1 (bitmap_fields 64 bm2))) in *.
  assert (HF2 : forall f, In f F2 <-> (bit bm1 (f - 0) = true \/ bit bm2 (f - 64) = true) /\ f <> 1%Z).
  { intro f. unfold F2. rewrite zremove_in, zupdate_in, bitmap_fields_in, HF1. tauto. }
  destruct (zmem 65 F2) eqn:Hm2; [|discriminate].
  apply zmem_in, HF2 in Hm2 as [[Hm2|Hm2] _]; [apply bit_range in Hm2; lia|]. change (65 - 64)%Z with 1%Z in Hm2.
  pose proof (trace_put _ _ _ _ (u "1") [] data2 text2 _ Ht1 H1k' Hst2) as Ht2.
  set (st2 := put (u "1") [] data2 text2 st1) in *.
  destruct (trace_split _ _ _ _ Ht2) as (rest2 & Hin2 & Hi2).
  rewrite bytes_of_snoc in Hin2, Hi2. change (sg_bytes (mkSeg (u "1") [] data2 text2)) with data2 in *.
  assert (Hstart2 : bitmap_start true (u "1") st2 (mkEntry [] data2) text2).
  { unfold st2, put. split; cbn [d_dec d_enc]; apply sget_sset. }
  unfold bind, spec_get in H. rewrite Hsp1 in H. unfold ret at 1 in H. rewrite Hi2 in H.
  destruct (decode_bitmap E s (zlen (bytes_of (hs ++ [t; p]) ++ data2)) (u "1") fs1 128 true F2 st2) as [[[i3 F3]|y] st3] eqn:Hd;
    [discriminate|].
  injection H as <- <-.
  destruct (bitmap_fault_sound _ _ _ _ _ _ _ _ _ _ _ _ _ _ Hin2 Hstart2 Hd)
    as [(nm & -> & Hm)|(msg & data & text & Hf & H)].
  - right. eexists. split; [reflexivity|]. intros [_ (fs' & H & Hm')]. congruence.
  - left. cbn [e_len e_data] in H, Hf. eexists msg, _, _, (mkSeg (u "1") [] (data2 ++ data) (text2 ++ text)). split.
    + eapply TertiaryFault; eauto. rewrite app_assoc. exact Hin2.
    + apply raised_inv in H. unfold st2 in H.
      assert (Hpp : put (u "1") [] (data2 ++ data) (text2 ++ text) (put (u "1") [] data2 text2 st1)
                    = put (u "1") [] (data2 ++ data) (text2 ++ text) st1).
      { unfold put. cbn [d_dec d_enc]. now rewrite !sset_sset. }
      rewrite Hpp in H. destruct Ht1 as (HA & HB & _).
      destruct (put_fresh (u "1") [] (data2 ++ data) (text2 ++ text) st1 _ HA HB H1k') as [H3 H4].
      now rewrite H3, H4 in H.
Qed.

Lemma body_fault_sound E sp s x st' :
  bitmaps_fit E sp -> decode_body E s sp (mkD [] []) = (Raise x, st') ->
  faulty E sp s x \/ exists nm, x = XKeyError nm /\ ~ spec_complete sp.
Proof.
  intros Hfit H. pose proof H as H0. rewrite decode_body_eq in H. unfold bind at 1 in H.
  destruct (decode_header E s 0 sp (mkD [] [])) as [[i0|y] st0] eqn:Hd.
  2:{ injection H as <- <-. apply header_faulty in Hd as [|(nm & -> & Hd)]; [now left|]. right. eexists. split; [reflexivity|].
      intros (Hc & _). tauto. }
  apply decode_header_run in Hd as (hs & Hh & Ht0 & Hok0 & Hk0).
  assert (Hnt : ~ In (u "t") (map sg_key hs)) by (intro Hi; apply Hk0 in Hi; discriminate).
  unfold bind at 1 in H.
  destruct (decode_type E s i0 sp st0) as [[i1|y] st1] eqn:Hd.
  2:{ injection H as <- <-. eapply type_faulty in Hd as [|(nm & -> & Hd)]; eauto.
      right. eexists. split; [reflexivity|]. intros (_ & Hc & _). tauto. }
  apply (decode_type_run _ _ _ _ _ hs) in Hd as (t & Htp & Ht1); auto.
  assert (Hok1 : Forall (segment_ok E sp) (hs ++ [t])).
  { apply Forall_app. split; [assumption|]. constructor; [now apply OkType|constructor]. }
  assert (Hkt : sg_key t = u "t") by (destruct Htp as (? & _ & ? & _); assumption).
  assert (Hk1 : forall k, In k (map sg_key (hs ++ [t])) -> k = u "h" \/ k = u "t").
  { intros k Hk. rewrite map_app, in_app_iff in Hk. simpl in Hk.
    destruct Hk as [Hk|[<-|[]]]; [apply Hk0 in Hk|]; auto. }
  unfold bind at 1 in H.
  destruct (bitmap_stage E s i1 sp st1) as [[[[i2 F] field]|y] st2] eqn:Hd.
  2:{ injection H as <- <-. eapply bitmaps_faulty in Hd as [|(nm & -> & Hd)]; eauto.
      right. eexists. split; [reflexivity|]. intros (_ & _ & Hc & Hc' & _). tauto. }
  apply (bitmap_stage_run _ _ _ _ _ (hs ++ [t])) in Hd; auto.
  destruct Hd as (p & xs & bm1 & bm2 & bm3 & Ht2 & Hok2 & Hlast & Hk2 & HS & HF & Hmsg).
  destruct (Hmsg Hfit) as (Hprim & Hex & HFeq).
  assert (Happ : (hs ++ [t]) ++ p :: xs = hs ++ t :: p :: xs ++ []).
  { rewrite <- app_assoc, app_nil_r. reflexivity. }
  assert (Hfl : forall f, In f F -> (2 <= f)%Z /\ ~ In (zstr f) (map sg_key ((hs ++ [t]) ++ p :: xs))).
  { intros f Hf. split; [auto|]. rewrite map_app, in_app_iff. specialize (HF f Hf). intros [Hi|Hi].
    + apply Hk1 in Hi as [Hi|Hi]; [eapply zstr_neq_h|eapply zstr_neq_t]; try exact Hi; lia.
    + apply Hk2 in Hi as [Hi|Hi]; [eapply zstr_neq_p|eapply zstr_neq_1]; try exact Hi; lia. }
  unfold bind at 1 in H.
  destruct (decode_fields E s i2 sp F field st2) as [[[i3 field']|y] st3] eqn:Hd.
  - apply (decode_fields_run _ _ _ _ _ _ ((hs ++ [t]) ++ p :: xs)) in Hd; auto.
    destruct Hd as (fsegs & Hfk & Hfs & Ht3 & Hok3 & pre & lst & Hlast' & Hlk).
    destruct (Z.eqb_spec i3 (zlen (buf_bytes s))) as [->|Hne]; cbn [negb] in H; [discriminate|].
    injection H as <- <-. left. destruct (trace_split _ _ _ _ Ht3) as (rest & Hin & ->).
    rewrite Hlast' in *. destruct Ht3 as (H1 & H2 & _).
    exists [Txt (u "Extra data after last field")], (zlen (bytes_of (pre ++ [lst]))), pre, lst. split.
    + eapply ExtraData; [|exact Hin|].
      * rewrite <- Hlast'. exists hs, t, p, xs, fsegs, bm1, bm2, bm3.
        split; [rewrite <- !app_assoc; reflexivity|]. repeat (split; [assumption|]). split; [rewrite <- HFeq|]; assumption.
      * intros ->. rewrite app_nil_r in Hin. rewrite Hin in Hne. congruence.
    + now rewrite H1, H2, Hlk.
  - injection H as <- <-. rewrite Happ in Ht2, Hfl.
    destruct (fields_faulty E sp s hs t p xs bm1 bm2 bm3 Hh Htp Hprim Hex F [] [] i2 st2 field y st3) as [H|(nm & f & H1 & H2 & H3)]; auto.
    right. exists nm. split; [assumption|]. intros (_ & _ & _ & _ & Hc). apply H3, Hc.
    rewrite HFeq in H2. now apply filter_In in H2.
Qed.

(** ** Completeness: every fault is reported *)
Definition fails_with {A} E (r : res exn A) (s : pybuf) msg pos segs last : Prop :=
  r = Raise (outcome E s msg (dec_of (segs ++ [last])) (enc_of (segs ++ [last])) pos (sg_key last)).

Lemma raised_fails {A} E s msg pos k lenb data text b st idx segs (m : res exn A * dstate) :
  trace b st idx segs -> ~ In k (map sg_key segs) ->
  m = raised E s msg pos k (put k lenb data text st) ->
  fails_with E (fst m) s msg pos segs (mkSeg k lenb data text).
Proof.
  intros (H1 & H2 & _) Hk ->. unfold fails_with, raised. cbn [fst].
  destruct (put_fresh k lenb data text st segs H1 H2 Hk) as [-> ->]. reflexivity.
Qed.
Lemma fails_bind {A B} E (m : DM A) (k : A -> DM B) st s msg pos segs last :
  fails_with E (fst (m st)) s msg pos segs last -> fails_with E (fst (bind m k st)) s msg pos segs last.
Proof. unfold fails_with, bind. destruct (m st) as [[a|x] st1]; cbn [fst]; congruence. Qed.
Lemma ok_bind {A B} (m : DM A) (k : A -> DM B) st a st1 :
  m st = (Ok a, st1) -> bind m k st = k a st1.
Proof. intro H. unfold bind. now rewrite H. Qed.

Lemma header_ok E sp s hs rest :
  header_part E sp hs -> buf_bytes s = bytes_of hs ++ rest ->
  exists st, decode_header E s 0 sp (mkD [] []) = (Ok (zlen (bytes_of hs)), st)
    /\ trace (buf_bytes s) st (zlen (bytes_of hs)) hs
    /\ (forall k, In k (map sg_key hs) -> k = u "h").
Proof.
  intros Hh Hin.
  assert (Hs1 : stands (buf_bytes s) 0 (bytes_of hs) (zlen (bytes_of hs))) by (exists [], rest; auto).
  unfold decode_header, spec_get. destruct Hh as [fs ml Hsp Hml Hle|fs ml sg Hsp Hml Hle Hk Hseg].
  - rewrite Hsp. rewrite bind_ret_l. unfold prop. rewrite Hml, bind_ret_l.
    replace (ml <=? 0)%Z with true by lia. eexists. split; [reflexivity|]. split; [apply trace_start|]. intros k [].
  - rewrite Hsp. rewrite bind_ret_l. unfold prop. rewrite Hml, bind_ret_l.
    replace (ml <=? 0)%Z with false by lia.
    rewrite bytes_of_one in *. destruct Hseg as (fs' & Hsp' & Hw). rewrite Hk in Hsp'.
    assert (fs' = fs) by congruence. subst fs'.
    pose proof (decode_field_complete E s 0 (u "h") fs (mkD [] []) _ _ _ _ Hw Hs1) as Hd.
    eexists. split; [exact Hd|]. split.
    + pose proof (trace_put (buf_bytes s) (mkD [] []) 0 [] (u "h") (sg_len sg) (sg_data sg) (sg_text sg) _
                    (trace_start _) (fun x => x) Hs1) as Ht.
      rewrite <- Hk in Ht at 2. rewrite seg_eta in Ht. exact Ht.
    + intros k [<-|[]]. assumption.
Qed.
Lemma type_ok E sp s hs t rest st :
  type_part E sp t -> trace (buf_bytes s) st (zlen (bytes_of hs)) hs ->
  (forall k, In k (map sg_key hs) -> k = u "h") ->
  buf_bytes s = bytes_of (hs ++ [t]) ++ rest ->
  exists st', decode_type E s (zlen (bytes_of hs)) sp st = (Ok (zlen (bytes_of (hs ++ [t]))), st')
    /\ trace (buf_bytes s) st' (zlen (bytes_of (hs ++ [t]))) (hs ++ [t])
    /\ (forall k, In k (map sg_key (hs ++ [t])) -> k = u "h" \/ k = u "t").
Proof.
  intros (fs & Hspt & Hkt & Hlt & Hwt) Ht0 Hk0 Hin.
  rewrite bytes_of_snoc in *. unfold sg_bytes in *. rewrite Hlt in *. cbn [app] in *.
  assert (Hs3 : stands (buf_bytes s) (zlen (bytes_of hs)) (sg_data t) (zlen (bytes_of hs ++ sg_data t))).
  { exists (bytes_of hs), rest. rewrite zlen_app, app_assoc. auto. }
  pose proof (decode_type_complete E s _ sp st _ _ _ _ Hspt Hwt Hs3) as Hd1.
  assert (Hnt : ~ In (u "t") (map sg_key hs)) by (intro Hi; apply Hk0 in Hi; discriminate).
  pose proof (trace_put _ _ _ _ (u "t") [] (sg_data t) (sg_text t) _ Ht0 Hnt Hs3) as Ht1.
  rewrite <- Hlt in Ht1 at 2. rewrite <- Hkt in Ht1 at 2. rewrite seg_eta in Ht1.
  eexists. split; [exact Hd1|]. split; [exact Ht1|].
  intros k Hk. rewrite map_app, in_app_iff in Hk. simpl in Hk.
  destruct Hk as [Hk|[<-|[]]]; [apply Hk0 in Hk|]; auto.
Qed.
(** A bitmap read for the first time under its key. *)
Lemma bitmap_ok E s k fs off fields segs sg rest st bm :
  sg_key sg = k -> sg_len sg = [] -> bitmap_wire E fs (sg_data sg) (sg_text sg) bm ->
  trace (buf_bytes s) st (zlen (bytes_of segs)) segs -> ~ In k (map sg_key segs) ->
  buf_bytes s = bytes_of (segs ++ [sg]) ++ rest ->
  exists st', decode_bitmap E s (zlen (bytes_of segs)) k fs off false fields st
              = (Ok (zlen (bytes_of (segs ++ [sg])), zupdate fields (bitmap_fields off bm)), st')
    /\ trace (buf_bytes s) st' (zlen (bytes_of (segs ++ [sg]))) (segs ++ [sg]).
Proof.
  intros <- Hl Hw Ht Hk Hin.
  rewrite bytes_of_snoc in *. unfold sg_bytes in *. rewrite Hl in *. cbn [app] in *.
  assert (Hs3 : stands (buf_bytes s) (zlen (bytes_of segs)) (sg_data sg) (zlen (bytes_of segs ++ sg_data sg))).
  { exists (bytes_of segs), rest. rewrite zlen_app, app_assoc. auto. }
  assert (Hb0 : bitmap_start false (sg_key sg) st (mkEntry [] []) []) by (split; reflexivity).
  pose proof (decode_bitmap_complete E s _ _ fs off false fields st _ _ _ _ _ _ Hb0 Hw Hs3) as Hd.
  cbn [e_len e_data app] in Hd.
  pose proof (trace_put _ _ _ _ (sg_key sg) [] (sg_data sg) (sg_text sg) _ Ht Hk Hs3) as Ht1.
  eexists. split; [exact Hd|]. rewrite <- Hl in Ht1 at 2. rewrite seg_eta in Ht1. exact Ht1.
Qed.

Lemma decode_fields_app E s sp a b : forall idx field st,
  decode_fields E s idx sp (a ++ b) field st
  = (r <- decode_fields E s idx sp a field ;; decode_fields E s (fst r) sp b (snd r)) st.
Proof.
  induction a as [|f a IH]; intros idx field st; [reflexivity|].
  cbn [app decode_fields]. unfold bind in *.
  destruct (spec_get sp (zstr f) st) as [[fs|x] st1]; [|reflexivity].
  destruct (decode_field E s idx (zstr f) fs st1) as [[i|x] st2]; [|reflexivity]. apply IH.
Qed.

Lemma bit1_members bm1 : zmem 1 (zupdate [] (bitmap_fields 0 bm1)) = bit bm1 1.
Proof.
  destruct (bit bm1 1) eqn:Hb.
  - apply zmem_in. rewrite zupdate_in, bitmap_fields_in. now right.
  - apply zmem_not_in. rewrite zupdate_in, bitmap_fields_in. intros [[]|H].
    change (1 - 0)%Z with 1%Z in H. congruence.
Qed.

Lemma body_fault_complete E sp s msg pos segs last :
  bitmaps_fit E sp -> decode_fault E sp (buf_bytes s) msg pos segs last ->
  fails_with E (fst (decode_body E s sp (mkD [] []))) s msg pos segs last.
Proof.
  intros Hfit H.
  inversion H as [fs ml msg' off lenb data text Hsp Hml Hpos Hf
    |hs rest fs msg' data Hh Hin Hsp Hf
    |hs t rest fs msg' data text Hh Htp Hin Hsp Hf
    |hs t p bm1 rest fs msg' data text Hh Htp Hp Hb1 Hin Hsp Hf
    |hs t p bm1 d2 t2 bm2 rest fs msg' data text Hh Htp Hp Hb1 Hsp Hw2 Hb2 Hin Hf
    |hs t p xs bm1 bm2 bm3 done f todo fsegs rest fs msg' off lenb data text Hh Htp Hp Hx Hfl Hfk Hfs Hin Hsp Hf
    |segs' last' rest Hmsg Hin Hne]; subst.
  7:{ destruct Hmsg as (hs & t & p & xs & fields & bm1 & bm2 & bm3 & Heq & Hh & Htp & Hp & Hx & Hfp).
      assert (Hb : (length bm1 <= 8 /\ length bm2 <= 8 /\ length bm3 <= 8)%nat).
      { destruct Hp as (fsp & Hspp & _ & _ & Hwp). split; [eapply (Hfit (u "p")); eauto|].
        destruct Hx; simpl; split; try lia; eapply (Hfit (u "1")); eauto. }
      pose proof (decode_body_complete E s sp hs t p xs fields bm1 bm2 bm3 rest) as Hc. cbv zeta in Hc.
      rewrite Hc; [|repeat split; try tauto; apply Hfp|tauto|tauto|tauto|now rewrite <- Heq].
      destruct rest as [|b rest]; [congruence|]. unfold fails_with. cbn [fst]. rewrite <- Heq.
      rewrite map_app. cbn [map]. rewrite last_last. reflexivity. }
  all: rewrite decode_body_eq.
  - apply fails_bind. unfold decode_header, spec_get. rewrite Hsp, bind_ret_l. unfold prop. rewrite Hml, bind_ret_l.
    replace (ml <=? 0)%Z with false by lia.
    eapply (raised_fails E s msg pos (u "h") lenb data text (buf_bytes s) (mkD [] []) 0 []); [apply trace_start|intros []|].
    exact (field_fault_complete E s (u "h") fs (mkD [] []) [] (buf_bytes s) _ _ _ _ _ eq_refl Hf).
  - destruct (header_ok E sp s _ rest Hh Hin) as (st0 & H0 & Ht0 & Hk0). rewrite (ok_bind _ _ _ _ _ H0).
    apply fails_bind. eapply raised_fails; [exact Ht0| |].
    + intro Hi. apply Hk0 in Hi. discriminate.
    + eapply type_fault_complete; eauto.
  - destruct (header_ok E sp s hs (sg_bytes t ++ rest) Hh) as (st0 & H0 & Ht0 & Hk0).
    { rewrite bytes_of_snoc, <- app_assoc in Hin. exact Hin. }
    rewrite (ok_bind _ _ _ _ _ H0).
    destruct (type_ok E sp s hs t rest st0 Htp Ht0 Hk0 Hin) as (st1 & H1 & Ht1 & Hk1). rewrite (ok_bind _ _ _ _ _ H1).
    apply fails_bind. unfold bitmap_stage, spec_get. rewrite Hsp, bind_ret_l. apply fails_bind.
    eapply raised_fails; [exact Ht1| |].
    + intro Hi. apply Hk1 in Hi as [Hi|Hi]; discriminate.
    + eapply (bitmap_fault_complete E s (u "p") fs 0 false [] st1 (mkEntry [] []) []); eauto. split; reflexivity.
  - assert (Hq : hs ++ [t; p] = (hs ++ [t]) ++ [p]) by (rewrite <- app_assoc; reflexivity). rewrite Hq in *. clear Hq.
    destruct (header_ok E sp s hs (sg_bytes t ++ sg_bytes p ++ rest) Hh) as (st0 & H0 & Ht0 & Hk0).
    { rewrite !bytes_of_snoc, <- !app_assoc in Hin. exact Hin. }
    rewrite (ok_bind _ _ _ _ _ H0).
    destruct (type_ok E sp s hs t (sg_bytes p ++ rest) st0 Htp Ht0 Hk0) as (st1 & H1 & Ht1 & Hk1).
    { rewrite bytes_of_snoc, <- app_assoc in Hin. exact Hin. }
    rewrite (ok_bind _ _ _ _ _ H1).
    apply fails_bind. destruct Hp as (fsp & Hspp & Hpk & Hpl & Hwp).
    unfold bitmap_stage, spec_get at 1. rewrite Hspp, bind_ret_l.
    assert (Hnp : ~ In (u "p") (map sg_key (hs ++ [t]))) by (intro Hi; apply Hk1 in Hi as [Hi|Hi]; discriminate).
    destruct (bitmap_ok E s (u "p") fsp 0 [] (hs ++ [t]) p rest st1 bm1 Hpk Hpl Hwp Ht1 Hnp Hin) as (st2 & H2 & Ht2).
    rewrite (ok_bind _ _ _ _ _ H2). cbn [fst snd]. rewrite bit1_members, Hb1.
    apply fails_bind. unfold spec_get. rewrite Hsp, bind_ret_l. apply fails_bind.
    eapply raised_fails; [exact Ht2| |].
    + rewrite map_app, in_app_iff. cbn [map In]. rewrite Hpk.
      intros [Hi|[Hi|[]]]; [apply Hk1 in Hi as [Hi|Hi]; discriminate|discriminate].
    + eapply (bitmap_fault_complete E s (u "1") fs 64 false _ st2 (mkEntry [] []) []); eauto. split; reflexivity.
  - assert (Hq : hs ++ [t; p] = (hs ++ [t]) ++ [p]) by (rewrite <- app_assoc; reflexivity). rewrite Hq in *. clear Hq.
    destruct (header_ok E sp s hs (sg_bytes t ++ sg_bytes p ++ d2 ++ rest) Hh) as (st0 & H0 & Ht0 & Hk0).
    { rewrite !bytes_of_snoc, <- !app_assoc in Hin. exact Hin. }
    rewrite (ok_bind _ _ _ _ _ H0).
    destruct (type_ok E sp s hs t (sg_bytes p ++ d2 ++ rest) st0 Htp Ht0 Hk0) as (st1 & H1 & Ht1 & Hk1).
    { rewrite bytes_of_snoc, <- app_assoc in Hin. exact Hin. }
    rewrite (ok_bind _ _ _ _ _ H1).
    apply fails_bind. destruct Hp as (fsp & Hspp & Hpk & Hpl & Hwp).
    unfold bitmap_stage, spec_get at 1. rewrite Hspp, bind_ret_l.
    assert (Hnp : ~ In (u "p") (map sg_key (hs ++ [t]))) by (intro Hi; apply Hk1 in Hi as [Hi|Hi]; discriminate).
    destruct (bitmap_ok E s (u "p") fsp 0 [] (hs ++ [t]) p (d2 ++ rest) st1 bm1 Hpk Hpl Hwp Ht1 Hnp Hin) as (st2 & H2 & Ht2).
    rewrite (ok_bind _ _ _ _ _ H2). cbn [fst snd]. rewrite bit1_members, Hb1.
    assert (H1k : ~ In (u "1") (map sg_key ((hs ++ [t]) ++ [p]))).
    { rewrite map_app, in_app_iff. cbn [map In]. rewrite Hpk.
      intros [Hi|[Hi|[]]]; [apply Hk1 in Hi as [Hi|Hi]; discriminate|discriminate]. }
    assert (Hin2 : buf_bytes s = bytes_of (((hs ++ [t]) ++ [p]) ++ [mkSeg (u "1") [] d2 t2]) ++ rest).
    { rewrite (bytes_of_snoc _ (mkSeg _ _ _ _)), <- app_assoc. exact Hin. }
    destruct (bitmap_ok E s (u "1") fs 64 (zupdate [] (bitmap_fields 0 bm1)) ((hs ++ [t]) ++ [p]) (mkSeg (u "1") [] d2 t2) rest st2 bm2
                eq_refl eq_refl Hw2 Ht2 H1k Hin2) as (st3 & H3 & Ht3).
    unfold bind at 1. unfold bind at 1. unfold spec_get at 1. rewrite Hsp. unfold ret at 1. unfold bind at 1. rewrite H3. unfold ret at 1. cbn [fst snd].
    assert (Hm2 : zmem 65 (zremove 1 (zupdate (zupdate [] (bitmap_fields 0 bm1)) (bitmap_fields 64 bm2))) = true).
    { apply zmem_in. rewrite zremove_in, !zupdate_in, !bitmap_fields_in. split; [right; exact Hb2|lia]. }
    rewrite Hm2. apply fails_bind. unfold spec_get. rewrite Hsp, bind_ret_l. apply fails_bind.
    rewrite (bytes_of_snoc _ (mkSeg _ _ _ _)) in Ht3 |- *. change (sg_bytes (mkSeg (u "1") [] d2 t2)) with d2 in *.
    assert (Hb3 : bitmap_start true (u "1") st3 (mkEntry [] d2) t2).
    { pose proof (proj2 (proj2 (proj2 Ht3))) as Hnd.
      destruct Ht3 as (HA & HB & _). split.
      - rewrite HA. apply (dget_in_nodup str_eqb str_eqb_spec); [now rewrite keys_dec|].
        unfold dec_of. apply in_map_iff. exists (mkSeg (u "1") [] d2 t2). split; [reflexivity|]. apply in_app_iff. right. now left.
      - rewrite HB. apply (dget_in_nodup str_eqb str_eqb_spec); [now rewrite keys_enc|].
        unfold enc_of. apply in_map_iff. exists (mkSeg (u "1") [] d2 t2). split; [reflexivity|]. apply in_app_iff. right. now left. }
    assert (Hin3 : buf_bytes s = (bytes_of ((hs ++ [t]) ++ [p]) ++ d2) ++ rest) by (rewrite <- app_assoc; exact Hin).
    rewrite (bitmap_fault_complete E s (u "1") fs 128 true (zremove 1 (zupdate (zupdate [] (bitmap_fields 0 bm1)) (bitmap_fields 64 bm2))) st3 _ _ _ _ _ _ _ Hin3 Hb3 Hf).
    unfold fails_with, raised. cbn [fst e_len e_data].
    destruct Ht3 as (HA & HB & _).
    destruct (put_last (mkSeg (u "1") [] d2 t2) [] (d2 ++ data) (t2 ++ text) st3 _ HA HB H1k) as [HC HD].
    cbn [sg_key] in HC, HD. rewrite HC, HD. reflexivity.
  - assert (Happ : hs ++ t :: p :: xs ++ fsegs = ((hs ++ [t]) ++ p :: xs) ++ fsegs) by (rewrite <- !app_assoc; reflexivity).
    rewrite Happ in *. rewrite bytes_of_app in Hin.
    assert (Hpx : bytes_of ((hs ++ [t]) ++ p :: xs) = bytes_of hs ++ sg_bytes t ++ bytes_of (p :: xs)).
    { rewrite !bytes_of_app, bytes_of_one, <- app_assoc. reflexivity. }
    destruct (header_ok E sp s hs (sg_bytes t ++ bytes_of (p :: xs) ++ bytes_of fsegs ++ rest) Hh) as (st0 & H0 & Ht0 & Hk0).
    { rewrite Hpx, <- !app_assoc in Hin. exact Hin. }
    rewrite (ok_bind _ _ _ _ _ H0).
    destruct (type_ok E sp s hs t (bytes_of (p :: xs) ++ bytes_of fsegs ++ rest) st0 Htp Ht0 Hk0) as (st1 & H1 & Ht1 & Hk1).
    { rewrite bytes_of_snoc. rewrite Hpx, <- !app_assoc in Hin. rewrite <- app_assoc. exact Hin. }
    rewrite (ok_bind _ _ _ _ _ H1).
    assert (Hb : (length bm1 <= 8 /\ length bm2 <= 8 /\ length bm3 <= 8)%nat).
    { destruct Hp as (fsp & Hspp & _ & _ & Hwp). split; [eapply (Hfit (u "p")); eauto|].
      destruct Hx; simpl; split; try lia; eapply (Hfit (u "1")); eauto. }
    assert (Hs5 : stands (buf_bytes s) (zlen (bytes_of (hs ++ [t]))) (bytes_of (p :: xs)) (zlen (bytes_of ((hs ++ [t]) ++ p :: xs)))).
    { exists (bytes_of (hs ++ [t])), (bytes_of fsegs ++ rest). split; [|split; [reflexivity|]].
      - rewrite bytes_of_snoc, <- !app_assoc. rewrite Hpx, <- !app_assoc in Hin. exact Hin.
      - rewrite (bytes_of_app (hs ++ [t])), zlen_app. reflexivity. }
    destruct (bitmap_stage_complete E s sp _ _ (hs ++ [t]) p xs bm1 bm2 bm3 _ Ht1 Hk1 Hp Hx (proj1 Hb) (proj1 (proj2 Hb)) (proj2 (proj2 Hb)) Hs5) as (st2 & Hd2 & Ht2).
    rewrite (ok_bind _ _ _ _ _ Hd2). apply fails_bind.
    assert (Hk2 : forall k, In k (map sg_key (p :: xs)) -> k = u "p" \/ k = u "1").
    { destruct Hp as (_ & _ & Hpk & _). destruct Hx; simpl; intros k Hk; intuition congruence. }
    assert (Hfr : forall g, In g (done ++ f :: todo) -> (2 <= g)%Z /\ ~ In (zstr g) (map sg_key ((hs ++ [t]) ++ p :: xs))).
    { intros g Hg. rewrite <- Hfl in Hg. apply filter_In in Hg as [Hg _]. apply data_fields_in in Hg. split; [lia|].
      rewrite map_app, in_app_iff. intros [Hi|Hi].
      - apply Hk1 in Hi as [Hi|Hi]; [eapply zstr_neq_h|eapply zstr_neq_t]; try exact Hi; lia.
      - apply Hk2 in Hi as [Hi|Hi]; [eapply zstr_neq_p|eapply zstr_neq_1]; try exact Hi; lia. }
    pose proof (filter_sorted (announced bm1 bm2 bm3) _ data_fields_sorted) as HS. rewrite Hfl in HS |- *.
    assert (HSd : zsorted done /\ (forall g, In g done -> (g < f)%Z)).
    { clear -HS. induction done as [|a done IH]; [split; [constructor|intros g []]|].
      inversion HS as [|? ? HS' Hlt]; subst. destruct (IH HS') as [I1 I2]. rewrite Forall_forall in Hlt. split.
      - constructor; [assumption|]. rewrite Forall_forall. intros g Hg. apply Hlt, in_app_iff. now left.
      - intros g [<-|Hg]; [apply Hlt, in_app_iff; right; now left|auto]. }
    destruct HSd as [HSd Hltf].
    assert (Hs6 : stands (buf_bytes s) (zlen (bytes_of ((hs ++ [t]) ++ p :: xs))) (bytes_of fsegs) (zlen (bytes_of (((hs ++ [t]) ++ p :: xs) ++ fsegs)))).
    { exists (bytes_of ((hs ++ [t]) ++ p :: xs)), rest. split; [|split; [reflexivity|]].
      - rewrite <- app_assoc in Hin. exact Hin.
      - rewrite (bytes_of_app _ fsegs), zlen_app. reflexivity. }
    destruct (decode_fields_complete E s sp done fsegs _ st2 _ (List.last (map sg_key (p :: xs)) []) _ Ht2 Hfk Hfs HSd
                (fun g Hg => Hfr g (in_or_app _ _ _ (or_introl Hg))) Hs6) as (st3 & Hd3 & Ht3).
    rewrite decode_fields_app. rewrite (ok_bind _ _ _ _ _ Hd3). cbn [fst snd decode_fields]. unfold spec_get. rewrite Hsp, bind_ret_l.
    apply fails_bind. eapply raised_fails; [exact Ht3| |].
    + rewrite map_app, in_app_iff, Hfk. intros [Hi|Hi].
      * apply (Hfr f); [apply in_or_app; right; now left|assumption].
      * apply in_map_iff in Hi as (g & Hg & Hi). pose proof (Hltf g Hi).
        pose proof (proj1 (Hfr g (in_or_app _ _ _ (or_introl Hi)))).
        pose proof (proj1 (Hfr f (in_or_app done (f :: todo) f (or_intror (in_eq f todo))))).
        apply zstr_inj in Hg; lia.
    + eapply field_fault_complete; eauto. rewrite bytes_of_app. assumption.
Qed.

(** ** decode *)
Lemma decode_fault_sound E sp s input x :
  bitmaps_fit E sp -> holds s input -> decode E s sp = Raise x ->
  faulty E sp s x \/ exists nm, x = XKeyError nm /\ ~ spec_complete sp.
Proof.
  intros Hfit Hs.
  assert (Hd : decode E s sp = match decode_body E s sp (mkD [] []) with
      | (Ok _, st) => Ok (d_dec st, d_enc st) | (Raise x, _) => Raise x end)
    by (destruct Hs as [-> | ->]; reflexivity).
  rewrite Hd. destruct (decode_body E s sp (mkD [] [])) as [[a|y] st] eqn:Hr; [discriminate|]. intros [= ->].
  eapply body_fault_sound; eauto.
Qed.
Lemma decode_fault_complete E sp s input msg pos segs last :
  bitmaps_fit E sp -> holds s input -> decode_fault E sp input msg pos segs last ->
  decode E s sp = Raise (outcome E s msg (dec_of (segs ++ [last])) (enc_of (segs ++ [last])) pos (sg_key last)).
Proof.
  intros Hfit Hs.
  assert (Hb : buf_bytes s = input) by (destruct Hs as [-> | ->]; reflexivity).
  assert (Hd : decode E s sp = match decode_body E s sp (mkD [] []) with
      | (Ok _, st) => Ok (d_dec st, d_enc st) | (Raise x, _) => Raise x end)
    by (destruct Hs as [-> | ->]; reflexivity).
  rewrite Hd. subst input. intro Hf.
  apply body_fault_complete in Hf; [|assumption]. unfold fails_with in Hf.
  destruct (decode_body E s sp (mkD [] [])) as [[a|x] st]; cbn [fst] in Hf; congruence.
Qed.
Theorem decode_fault_iff E sp s input e :
  bitmaps_fit E sp -> holds s input ->
  decode E s sp = Raise (XDecodeError e)
  <-> exists msg pos segs last, decode_fault E sp input msg pos segs last
        /\ presentable E msg /\ reports s msg pos segs last e.
Proof.
  intros Hfit Hs.
  assert (Hb : buf_bytes s = input) by (destruct Hs as [-> | ->]; reflexivity). split.
  - intro H. destruct (decode_fault_sound _ _ _ _ _ Hfit Hs H) as [(msg & pos & segs & last & Hf & He)|(nm & He & _)]; [|discriminate].
    rewrite Hb in Hf. unfold outcome in He. destruct (presents E msg) eqn:Hp; [|discriminate].
    apply presents_iff in Hp. injection He as He. exists msg, pos, segs, last. auto.
  - intros (msg & pos & segs & last & Hf & Hp & ->). apply presents_iff in Hp.
    rewrite (decode_fault_complete _ _ _ _ _ _ _ _ Hfit Hs Hf). unfold outcome. now rewrite Hp.
Qed.
(** A fault whose message cannot be shown. *)
Theorem decode_value_error_iff E sp s input :
  bitmaps_fit E sp -> holds s input ->
  decode E s sp = Raise XValueError
  <-> exists msg pos segs last, decode_fault E sp input msg pos segs last /\ ~ presentable E msg.
Proof.
  intros Hfit Hs.
  assert (Hb : buf_bytes s = input) by (destruct Hs as [-> | ->]; reflexivity). split.
  - intro H. destruct (decode_fault_sound _ _ _ _ _ Hfit Hs H) as [(msg & pos & segs & last & Hf & He)|(nm & He & _)]; [|discriminate].
    rewrite Hb in Hf. unfold outcome in He. destruct (presents E msg) eqn:Hp; [discriminate|].
    apply presents_not in Hp. exists msg, pos, segs, last. auto.
  - intros (msg & pos & segs & last & Hf & Hp). apply presents_not in Hp.
    rewrite (decode_fault_complete _ _ _ _ _ _ _ _ Hfit Hs Hf). unfold outcome. now rewrite Hp.
Qed.

(** Every message can be shown when the numbers of the spec can. *)
Lemma field_fault_presentable E fs before input m off l d t :
  shows_numbers E fs -> field_fault E fs before input m off l d t -> presentable E m.
Proof.
  intros H F n Hn. inversion F; subst; cbn [In] in Hn;
    repeat match goal with
    | H : _ \/ _ |- _ => destruct H as [H|H]
    | H : False |- _ => destruct H
    | H : Txt _ = Num _ |- _ => discriminate H
    | H : Size _ = Num _ |- _ => discriminate H
    | H : Num _ = Num _ |- _ => injection H as <-
    end; try solve [eauto using announced_shown]; try solve [apply H; auto].
  - match goal with P : prefix_fault _ _ _ _ |- _ => inversion P; subst end;
      cbn [In] in Hn; intuition discriminate.
  - eapply prefix_shown; eauto. intros ->. cbn in *. congruence.
Qed.
Lemma decode_fault_presentable E sp input m pos segs last :
  numbers_ok E sp -> decode_fault E sp input m pos segs last -> presentable E m.
Proof.
  intros H F. inversion F; subst; try solve [eapply field_fault_presentable; eauto].
  all: intros n Hn;
    repeat match goal with
    | P : type_fault _ _ _ _ _ |- _ => inversion P; subst; clear P
    | P : bitmap_fault _ _ _ _ _ _ _ |- _ => inversion P; subst; clear P
    end; cbn [In] in Hn; intuition discriminate.
Qed.
