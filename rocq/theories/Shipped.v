(** * Shipped: the shipped specs meet the hypotheses of the round-trip theorems and
    can express every length they allow. *)
From Coq Require Import ZifyBool ZifyNat ZifyN.
From Verif Require Import PyBase BaseFacts Types Decoder Encoder Wire WireEncode Claims CPython311 Specs Samples CodecFacts.
From Verif Require Import DecoderFacts DecodeRun EncoderFacts EncodeRun EncodeWhole EncodeTheorems EncodeTheorems2 EncodeTheorems3 Roundtrip SampleFacts.
Ltac Zify.zify_post_hook ::= Z.div_mod_to_equations.
Local Opaque data_fields.

(** The interpreter has CPython's ASCII codec. *)
Definition has_ascii (E : pyenv) : Prop := codec_of E (u "ascii") = Some ascii_codec.

(** ** "does not fit into configured field size" is never raised *)
Definition quiet {A} (m : EM A) : Prop := forall st e st',
  m st = (Raise (XEncodeError e), st') -> ee_msg e <> msg_does_not_fit.
Lemma quiet_bind {A B} (m : EM A) (f : A -> EM B) : quiet m -> (forall a, quiet (f a)) -> quiet (bind m f).
Proof.
  intros Hm Hf st e st'. unfold bind. destruct (m st) as [[a|x] st1] eqn:H; [apply Hf|].
  intros [= -> ->]. eapply Hm, H.
Qed.
Lemma quiet_ret {A} (a : A) : quiet (ret a). Proof. discriminate. Qed.
Lemma quiet_raise {A} x : (forall e, x <> XEncodeError e) -> quiet (@raise exn estate A x).
Proof. intros Hx st e st' [= H _]. now apply Hx in H. Qed.
Lemma quiet_eraise {A} m k : m <> msg_does_not_fit -> quiet (@eraise A m k).
Proof. intros H st e st' [= <- _]. exact H. Qed.
Lemma quiet_set_enc k e : quiet (eset_enc k e). Proof. discriminate. Qed.
Lemma quiet_get_enc k : quiet (eget_enc k).
Proof. intros st e st'. unfold eget_enc. destruct (sget k (s_enc st)); discriminate. Qed.
Lemma quiet_get_dec k : quiet (eget_dec k).
Proof. intros st e st'. unfold eget_dec. destruct (pget (KStr k) (s_dec st)); discriminate. Qed.
Lemma quiet_set_dec k v : quiet (eset_dec k v). Proof. discriminate. Qed.
Lemma quiet_pop_dec k : quiet (epop_dec k). Proof. discriminate. Qed.
Lemma quiet_read : quiet eread_dec. Proof. discriminate. Qed.
Lemma quiet_prop {A} (o : option A) n : quiet (prop o n).
Proof. destruct o; discriminate. Qed.
Create HintDb quiet.
Local Hint Resolve quiet_ret quiet_set_enc quiet_get_enc quiet_get_dec quiet_set_dec quiet_pop_dec quiet_read quiet_prop : quiet.
Ltac quiet_step :=
  match goal with
  | |- quiet (bind _ _) => apply quiet_bind; [|intro]
  | |- quiet (if ?b then _ else _) => destruct b
  | |- quiet (match ?x with _ => _ end) => destruct x
  | |- quiet (let x := _ in _) => cbv zeta
  | |- quiet (formatted _ _ _) => unfold formatted
  | |- quiet (raise _) => apply quiet_raise; discriminate
  | |- quiet (eraise _ _) => apply quiet_eraise; discriminate
  | |- quiet _ => solve [eauto with quiet]
  end.
Lemma quiet_set_enc_data k b : quiet (eset_enc_data k b).
Proof. unfold eset_enc_data. repeat quiet_step. Qed.
Lemma quiet_set_enc_len k b : quiet (eset_enc_len k b).
Proof. unfold eset_enc_len. repeat quiet_step. Qed.
Local Hint Resolve quiet_set_enc_data quiet_set_enc_len : quiet.
Lemma quiet_hex_failure {A} v k lc : quiet (@hex_failure A v k lc).
Proof. unfold hex_failure. repeat quiet_step. Qed.
Local Hint Resolve quiet_hex_failure : quiet.
Lemma quiet_binary v k fs lc : quiet (encode_binary_field v k fs lc).
Proof. unfold encode_binary_field. repeat quiet_step. Qed.
Lemma quiet_text E v k fs lc : quiet (encode_text_field E v k fs lc).
Proof. unfold encode_text_field. repeat quiet_step. Qed.
Local Hint Resolve quiet_binary quiet_text : quiet.

Lemma quiet_bind_post {A B} (P : A -> Prop) (m : EM A) (f : A -> EM B) : quiet m ->
  (forall st a st', m st = (Ok a, st') -> P a) -> (forall a, P a -> quiet (f a)) -> quiet (bind m f).
Proof.
  intros Hm HP Hf st e st'. unfold bind. destruct (m st) as [[a|x] st1] eqn:H.
  - eapply Hf, HP, H.
  - intros [= -> ->]. eapply Hm, H.
Qed.
Lemma N_of_Z_lt n ml b lt : (0 < b)%N -> (n <= ml -> ml < Z.of_N b ^ Z.of_nat lt)%Z ->
  (n <= ml)%Z -> (Z.to_N n < b ^ N.of_nat lt)%N.
Proof.
  intros Hb H2 H1. specialize (H2 H1). apply N2Z.inj_lt. rewrite N2Z.inj_pow.
  replace (Z.of_N (N.of_nat lt)) with (Z.of_nat lt) by lia. pose proof (Z.pow_pos_nonneg (Z.of_N b) (Z.of_nat lt)). lia.
Qed.
Lemma quiet_bind_some {A B} (a : A) nm (f : A -> EM B) : quiet (f a) -> quiet (bind (prop (Some a) nm) f).
Proof. intros H st e st' He. exact (H st e st' He). Qed.
Lemma quiet_bind_none {A B} nm (f : A -> EM B) : quiet (bind (prop None nm) f).
Proof. intros st e st'. discriminate. Qed.
Lemma quiet_length E k fs lt n ml : lengths_expressible E fs -> fs_len_type fs = Some lt -> lt <> 0%Z ->
  fs_max_len fs = Some ml -> (n <= ml)%Z -> quiet (encode_length E k fs lt n).
Proof.
  intros Hx Hlt Hz Hml Hn. unfold encode_length.
  destruct (fs_len_enc fs) as [le|] eqn:Hle; [|apply quiet_bind_none]. apply quiet_bind_some. cbv zeta.
  specialize (Hx lt le ml Hlt Hz Hle Hml). destruct Hx as [Hpos Hx]. unfold is_binary, is_bcd in Hx.
  replace (lt <? 0)%Z with false by lia. destruct (Z_of_nat_complete lt ltac:(lia)) as [w ->]. rewrite !Nat2Z.id. rename w into lw.
  set (lt := lw) in *.
  destruct (str_eqb_spec le str_b) as [->|Hb].
  - destruct Hx as [[_ Hx]|[[Hx _]|[Hx _]]]; [|discriminate Hx|contradiction].
    unfold to_be. replace (Z.to_N n <? 256 ^ N.of_nat lt)%N with true; [quiet_step|].
    symmetry. apply N.ltb_lt. apply N_of_Z_lt with ml; auto; lia.
  - destruct (str_eqb_spec le str_bcd) as [->|Hc].
    + destruct Hx as [[Hx _]|[[_ Hx]|[_ [Hx _]]]]; [discriminate Hx| |contradiction].
      destruct (Nat.ltb_spec (lt * 2) (length (fmt0d (lt * 2) (Z.to_N n)))) as [Hl|Hl]; [|repeat quiet_step].
      exfalso. rewrite (proj2 (fmt0d_length_iff (lt * 2) (Z.to_N n) ltac:(lia))) in Hl; [lia|].
      replace (N.of_nat (lt * 2)) with (2 * N.of_nat lt)%N by lia. rewrite N.pow_mul_r. change (10 ^ 2)%N with 100%N.
      apply N_of_Z_lt with ml; auto; lia.
    + destruct Hx as [[Hx _]|[[Hx _]|(_ & _ & Hd & Hw & Hx)]]; [contradiction|contradiction|].
      destruct (Hd (fmt0d lt (Z.to_N n))) as [b Hs].
      { eapply Forall_impl; [|apply fmt0d_digits]. intros c Hy. cbv beta in *. unfold is_digit in Hy. lia. }
      rewrite Hs. apply Hw in Hs.
      2:{ eapply Forall_impl; [|apply fmt0d_digits]. intros c Hy. cbv beta in *. unfold is_digit in Hy. lia. }
      rewrite (proj2 (fmt0d_length_iff lt (Z.to_N n) ltac:(lia))) in Hs by (apply N_of_Z_lt with ml; auto; lia).
      rewrite Hs, Nat.ltb_irrefl. repeat quiet_step.
Qed.
Lemma quiet_field E k fs : lengths_expressible E fs -> quiet (encode_field E k fs).
Proof.
  intro Hx. unfold encode_field. apply quiet_bind; [quiet_step|intro]. cbv zeta.
  apply quiet_bind; [quiet_step|intro]. apply quiet_bind; [quiet_step|intro].
  apply quiet_bind; [repeat quiet_step|]. intros [encoded n]. apply quiet_bind; [quiet_step|intro].
  destruct (fs_len_type fs) as [lt|] eqn:Hlt; [|apply quiet_bind_none]. apply quiet_bind_some.
  destruct (fs_max_len fs) as [ml|] eqn:Hml; [|apply quiet_bind_none]. apply quiet_bind_some.
  destruct (Z.eqb_spec lt 0) as [Hz|Hz]; [repeat quiet_step|].
  destruct (Z.ltb_spec ml n) as [Hn|Hn]; [repeat quiet_step|].
  apply quiet_bind; [now apply quiet_length with ml|intro; repeat quiet_step].
Qed.
Section QuietSpec.
  Variables (E : pyenv) (sp : spec).
  Hypothesis Hsp : forall k fs, k <> u "t" -> k <> u "p" -> k <> u "1" -> sget k sp = Some fs -> lengths_expressible E fs.
  Lemma quiet_spec_get {A} k (f : fspec -> EM A) : (forall fs, sget k sp = Some fs -> quiet (f fs)) -> quiet (bind (spec_get sp k) f).
  Proof.
    intros H st e st'. unfold bind, spec_get. destruct (sget k sp) as [fs|] eqn:Hk; [|discriminate]. exact (H fs eq_refl st e st').
  Qed.
  Lemma quiet_header : quiet (encode_header E sp).
  Proof.
    unfold encode_header. apply quiet_spec_get. intros fs Hfs. repeat (quiet_step || (apply quiet_field; now apply Hsp with (u "h"))).
  Qed.
  Lemma quiet_type : quiet (encode_type E sp).
  Proof. unfold encode_type. repeat (quiet_step || (apply quiet_spec_get; intros)). Qed.
  Lemma quiet_bitmap k fs off b fields : quiet (encode_bitmap E k fs off b fields).
  Proof. unfold encode_bitmap. repeat quiet_step. Qed.
  Lemma quiet_fields fl : forall s, (forall f, In f fl -> (2 <= f)%Z) -> quiet (encode_fields E sp fl s).
  Proof.
    induction fl as [|f fl IH]; intros s Hf; cbn [encode_fields]; [quiet_step|]. apply quiet_spec_get. intros fs Hfs.
    apply quiet_bind; [|intro; apply IH; intros; apply Hf; now right]. apply quiet_field.
    assert (H2 : (2 <= f)%Z) by (apply Hf; now left). 
    apply Hsp with (zstr f); auto; intro Hk.
    - pose proof (zstr_digits f ltac:(lia)) as Hd. rewrite Hk in Hd. inversion Hd; discriminate.
    - pose proof (zstr_digits f ltac:(lia)) as Hd. rewrite Hk in Hd. inversion Hd; discriminate.
    - change (u "1") with (zstr 1) in Hk. apply zstr_inj in Hk; lia.
  Qed.
  Lemma quiet_body : quiet (encode_body E sp).
  Proof.
    unfold encode_body. do 2 (apply quiet_bind; [quiet_step|intro]).
    apply quiet_bind; [apply quiet_header|intro]. apply quiet_bind; [apply quiet_type|intro].
    apply quiet_bind; [quiet_step|intro d]. destruct (numeric_keys E (map fst d)) as [[|]|ks]; [quiet_step..|]. cbv zeta.
    destruct (zsubset_range 1 193 (zset_of ks)) eqn:Hr; [|cbn [negb]; quiet_step]. cbn [negb].
    set (F := zset_of ks) in *. 
    change (match zinter_range 129 193 F with [] => F | _ => zadd 65 F end) with (with65 F).
    change (match zinter_range 65 129 (with65 F) with [] => with65 F | _ => zadd 1 (with65 F) end) with (with1 F).
    apply quiet_spec_get. intros pfs Hp. apply quiet_bind; [apply quiet_bitmap|intro].
    assert (Hin : forall x, In x (with1 F) -> (1 <= x)%Z).
    { intros x Hx. unfold zsubset_range in Hr. rewrite forallb_forall in Hr. apply with1_in in Hx as [Hx|[-> _]]; [|lia].
      apply with65_in in Hx as [Hx|[-> _]]; [|lia]. apply Hr, in_range_spec in Hx. lia. }
    set (r1 := if zmem 1 (with1 F) then _ else _).
    apply quiet_bind_post with (P := fun r : bytes * zset => forall x, In x (snd r) -> (2 <= x)%Z).
    { unfold r1. repeat (quiet_step || (apply quiet_spec_get; intros) || apply quiet_bitmap). }
    { intros st0 r st1 H. unfold r1 in H. destruct (zmem 1 (with1 F)) eqn:Hm.
      - unfold bind, spec_get in H. destruct (sget (u "1") sp) as [fs|]; [|discriminate]. unfold ret in H.
        destruct (encode_bitmap E (u "1") fs 64 false _ st0) as [[b|x] st2]; [|discriminate]. injection H as <- <-. cbn [snd].
        intros x Hx. apply zremove_in in Hx as [Hx Hne]. apply Hin in Hx. lia.
      - injection H as <- <-. cbn [snd]. intros x Hx. apply zmem_not_in in Hm. assert (x <> 1)%Z by congruence. apply Hin in Hx. lia. }
    intros [bs fl] Hfl. cbn [snd] in Hfl.
    set (r2 := if zmem 65 fl then _ else _).
    apply quiet_bind_post with (P := fun r : bytes * zset => forall x, In x (snd r) -> (2 <= x)%Z).
    { unfold r2. repeat (quiet_step || (apply quiet_spec_get; intros) || apply quiet_bitmap). }
    { intros st0 r st1 H. unfold r2 in H. destruct (zmem 65 fl) eqn:Hm.
      - unfold bind, spec_get in H. destruct (sget (u "1") sp) as [fs|]; [|discriminate]. unfold ret in H.
        destruct (encode_bitmap E (u "1") fs 128 true _ st0) as [[b|x] st2]; [|discriminate]. injection H as <- <-. cbn [snd].
        intros x Hx. apply zremove_in in Hx as [Hx _]. auto.
      - injection H as <- <-. exact Hfl. }
    intros [bt fl'] Hfl'. apply quiet_fields, Hfl'.
  Qed.
  (** C25 *)
  Lemma lengths_always_fit d e d' : encode E (ADict d) sp = (Raise (XEncodeError e), d') -> ee_msg e <> msg_does_not_fit.
  Proof.
    unfold encode. pose proof (quiet_body (mkE d [])) as Hq. destruct (encode_body E sp (mkE d [])) as [[s|x] st]; [discriminate|].
    intros H; injection H as -> _. eapply Hq. reflexivity.
  Qed.
End QuietSpec.

(** ** The shipped specs *)
(** The "ascii" codec is the ASCII codec. *)
Lemma ascii_facts E : has_ascii E -> reversible E (u "ascii") /\ faithful E (u "ascii")
  /\ str_encode E (u "ascii") [] = COk [] /\ ascii_width E (u "ascii") /\ never_expands E (u "ascii").
Proof.
  intro Ha. destruct ascii_good as (H1 & H2 & H3 & H4). unfold has_ascii in Ha.
  assert (Hn : c_dec ascii_codec [] = Some [] /\ c_enc ascii_codec [] = Some []) by (split; reflexivity). destruct Hn as [N1 N2].
  unfold reversible, roundtrips, faithful, ascii_width, never_expands, str_encode, bytes_decode. rewrite Ha. split; [split|split; [|split; [|split]]]; auto.
  - intros s b. destruct (c_enc ascii_codec s) as [b'|] eqn:He; [|discriminate]. intros [= <-]. apply H1 in He. destruct b'; [rewrite N1 in He; now injection He as <-|now rewrite He].
  - intros s b. destruct b as [|x b]; [intros [= <-]; now rewrite N2|]. destruct (c_dec ascii_codec (x :: b)) as [t|] eqn:Hd; [|discriminate].
    intros [= <-]. apply H2 in Hd. now rewrite Hd.
  - intros s b Hs. destruct (c_enc ascii_codec s) as [b'|] eqn:He; [|discriminate]. intros [= <-]. now apply H4.
  - intros s b. destruct b as [|x b]; [intros [= <-]; simpl; lia|]. destruct (c_dec ascii_codec (x :: b)) as [t|] eqn:Hd; [|discriminate].
    intros [= <-]. now apply H3.
Qed.
Lemma ascii_writes s : Forall (fun c => (c < 128)%N) s -> exists b, c_enc ascii_codec s = Some b.
Proof.
  induction 1 as [|c s Hc Hs [b IH]]; [exists []; reflexivity|]. exists (n2b c :: b). cbn in IH |- *.
  rewrite (proj2 (N.ltb_lt c 128) Hc), IH. reflexivity.
Qed.
Lemma ascii_writes_digits E : has_ascii E -> writes_digits E (u "ascii").
Proof.
  intros Ha s Hs. destruct (ascii_writes s) as [b Hb].
  - eapply Forall_impl; [|exact Hs]. cbv beta. intros c Hc. lia.
  - exists b. unfold str_encode. rewrite Ha, Hb. reflexivity.
Qed.
(** What all entries of both shipped specs have in common. *)
Definition plain_entry (kf : pystr * fspec) : bool :=
  let fs := snd kf in
  match fs_data_enc fs, fs_len_enc fs, fs_len_type fs, fs_max_len fs, fs_len_count fs with
  | Some de, Some le, Some lt, Some ml, None =>
      (str_eqb de (u "ascii") || str_eqb de (u "b"))
      && str_eqb le (u "ascii") && (0 <=? lt)%Z && (lt <=? 3)%Z && (ml <? 10 ^ Z.max 1 lt * (if (lt =? 0)%Z then 1000 else 1))%Z
  | _, _, _, _, _ => false
  end.
Lemma sget_in {V} k (d : list (pystr * V)) v : sget k d = Some v -> In (k, v) d.
Proof.
  unfold sget. induction d as [|[k' v'] d IH]; cbn [dget]; [discriminate|]. destruct (str_eqb_spec k k') as [->|Hn].
  - intros [= ->]. now left.
  - intro H. right. auto.
Qed.
Definition plain (sp : spec) : Prop := forallb plain_entry sp = true.
Lemma default_plain : plain default. Proof. vm_compute. reflexivity. Qed.
Lemma default_ascii_plain : plain default_ascii. Proof. vm_compute. reflexivity. Qed.
Lemma full_default_plain : plain (full []). Proof. vm_compute. reflexivity. Qed.
Lemma plain_inv sp k fs : plain sp -> sget k sp = Some fs -> exists de lt ml,
  fs_data_enc fs = Some de /\ fs_len_enc fs = Some (u "ascii") /\ fs_len_type fs = Some (Z.of_nat lt) /\ fs_max_len fs = Some ml
  /\ fs_len_count fs = None /\ (de = u "ascii" \/ de = u "b") /\ (lt <= 3)%nat
  /\ (lt <> O -> ml < 10 ^ Z.of_nat lt)%Z.
Proof.
  intros Hp H. apply sget_in in H. unfold plain in Hp. rewrite forallb_forall in Hp. apply Hp in H. unfold plain_entry in H. cbn [fst snd] in H.
  destruct (fs_data_enc fs) as [de|], (fs_len_enc fs) as [le|], (fs_len_type fs) as [lt|], (fs_max_len fs) as [ml|], (fs_len_count fs); try discriminate.
  apply andb_true_iff in H as [H H4]. apply andb_true_iff in H as [H H3]. apply andb_true_iff in H as [H H0]. apply andb_true_iff in H as [H1 H2].
  apply Z.leb_le in H0, H3. destruct (Z_of_nat_complete lt H0) as [w ->]. rename w into lw. set (lt := lw) in *.
  apply str_eqb_eq in H2 as ->. exists de, lt, ml. repeat split; auto.
  - apply orb_true_iff in H1 as [H1|H1]; apply str_eqb_eq in H1; auto.
  - lia.
  - intro Hz. apply Z.ltb_lt in H4. destruct (Z.eqb_spec (Z.of_nat lt) 0); [lia|]. replace (Z.max 1 (Z.of_nat lt)) with (Z.of_nat lt) in H4 by lia. lia.
Qed.
Lemma plain_reversible E sp : env_ok E -> has_ascii E -> plain sp -> reversible_spec E sp.
Proof.
  intros HE Ha Hp k fs Hk. destruct (ascii_facts E Ha) as (A1 & A2 & A3 & A4 & A5).
  destruct (plain_inv _ _ _ Hp Hk) as (de & lt & ml & H1 & H2 & H3 & H4 & H5 & H6 & H7 & H8). split.
  - intros de' [=]%(eq_trans (eq_sym H1)); subst de'. destruct H6 as [->| ->]; [right|now left]. auto.
  - intros _ _ _. split.
    + intros c Hn. unfold in_nibbles in Hn. rewrite H5 in Hn. discriminate.
    + intros lt' le' [= El]%(eq_trans (eq_sym H3)) Hz [=]%(eq_trans (eq_sym H2)); apply Nat2Z.inj in El; subst lt' le'. right. right. repeat split; try discriminate; auto.
      { apply A1. }
      intros m Hm. apply (proj2 HE) in Hm. lia.
Qed.
Lemma plain_faithful E sp : has_ascii E -> plain sp -> faithful_spec E sp.
Proof.
  intros Ha Hp k fs Hk. destruct (ascii_facts E Ha) as (A1 & A2 & A3 & A4 & A5).
  destruct (plain_inv _ _ _ Hp Hk) as (de & lt & ml & H1 & H2 & H3 & H4 & H5 & H6 & H7 & H8). split.
  - exists de. split; [assumption|]. destruct H6 as [->| ->]; [right|now left]. auto.
  - intros le [=]%(eq_trans (eq_sym H2)); subst le. auto.
Qed.
Lemma plain_expressible E sp k fs : has_ascii E -> plain sp -> sget k sp = Some fs -> lengths_expressible E fs.
Proof.
  intros Ha Hp Hk lt' le' ml' Hlt Hz Hle Hml. destruct (ascii_facts E Ha) as (A1 & A2 & A3 & A4 & A5).
  destruct (plain_inv _ _ _ Hp Hk) as (de & lt & ml & H1 & H2 & H3 & H4 & H5 & H6 & H7 & H8).
  assert (lt' = Z.of_nat lt /\ le' = u "ascii" /\ ml' = ml) as (-> & -> & ->) by (repeat split; congruence).
  split; [lia|]. right. right. repeat split; try discriminate; auto; [now apply ascii_writes_digits|]. apply H8. lia.
Qed.
Lemma plain_fits E sp d e d' : has_ascii E -> plain sp -> encode E (ADict d) sp = (Raise (XEncodeError e), d') ->
  ee_msg e <> u "Failed to encode field length, field length does not fit into configured field size".
Proof. intros Ha Hp. apply lengths_always_fit. intros k fs _ _ _ Hk. eapply plain_expressible; eauto. Qed.

Lemma default_fits E d e d' : has_ascii E -> encode E (ADict d) default = (Raise (XEncodeError e), d') ->
  ee_msg e <> u "Failed to encode field length, field length does not fit into configured field size".
Proof. intro Ha. apply plain_fits; [assumption|apply default_plain]. Qed.
Lemma default_ascii_fits E d e d' : has_ascii E -> encode E (ADict d) default_ascii = (Raise (XEncodeError e), d') ->
  ee_msg e <> u "Failed to encode field length, field length does not fit into configured field size".
Proof. intro Ha. apply plain_fits; [assumption|apply default_ascii_plain]. Qed.

(** C24 *)
(** Every wire key left in the dict by a successful encode has a spec entry. *)
Lemma wire_specified E sp d s enc d' k v : env_ok E -> str_dict d -> encode E (ADict d) sp = (Ok (s, enc), d') ->
  wire_key sp k -> value d' k = Some (VStr v) -> exists fs, sget k sp = Some fs.
Proof.
  intros HE Hstr He Hw H2. apply encode_ok in He as (bm1 & bm2 & bm3 & Henc & _ & Hd'); [|apply Hstr].
  destruct (with_bitmaps_facts d bm1 bm2 bm3 (proj1 Hstr)) as (_ & Vp & V1 & _ & _). rewrite <- Hd' in Vp, V1.
  assert (Hin : In k (map fst enc)).
  { destruct Henc as (_ & Hbm & -> & _). apply plan_in.
    destruct Hw as [[-> Hw]|[->|[->|[->|(n & Hn & ->)]]]]; auto.
    + left. apply header_key_in. now apply header_on_off.
    + do 3 right. left. split; [reflexivity|]. rewrite V1 in H2. destruct (bit bm1 1); [reflexivity|discriminate].
    + do 4 right. exists n. assert (Hn' : In n data_fields) by now apply data_fields_in. split; [assumption|]. split; [|reflexivity].
      apply (announced_spec _ _ _ _ _ n Hbm); [unfold data_field in Hn; lia|]. left.
      pose proof (zstr_name _ Hn') as (_ & _ & _ & K3 & K4).
      rewrite (value_kept d d' bm1 bm2 bm3 Hstr Hd') in H2 by (try assumption; apply zstr_neq_p; unfold data_field in Hn; lia).
      apply (zstr_has_field E d n HE Hn). unfold has_key. apply (dget_some_in key_eqb key_eqb_spec). exists (VStr v). exact H2. }
  apply (read_keys E sp d d' bm1 bm2 bm3 enc Hstr Henc Hd' k HE) in Hin as (_ & fs & _ & H & _). eauto.
Qed.
Lemma bitmap_upper E sp d s enc d' k v : str_dict d -> encode E (ADict d) sp = (Ok (s, enc), d') ->
  k = u "p" \/ k = u "1" -> value d' k = Some (VStr v) -> py_upper v = v.
Proof.
  intros Hstr He Hk H2. apply encode_ok in He as (bm1 & bm2 & bm3 & Henc & _ & Hd'); [|apply Hstr].
  destruct (with_bitmaps_facts d bm1 bm2 bm3 (proj1 Hstr)) as (_ & Vp & V1 & _ & _). rewrite <- Hd' in Vp, V1.
  destruct Hk as [-> | ->].
  - rewrite Vp in H2. injection H2 as <-. apply upper_HEX.
  - rewrite V1 in H2. destruct (bit bm1 1); [|discriminate]. injection H2 as <-. destruct (bit bm2 1).
    + unfold py_upper. rewrite map_app. f_equal; apply upper_HEX.
    + rewrite app_nil_r. apply upper_HEX.
Qed.
(** The fields of [default] that hold binary data. *)
Definition default_binary : list pystr := [u "52"; u "55"; u "64"; u "96"; u "128"].
Definition text_or_bitmap (bin : list pystr) (kf : pystr * fspec) : bool :=
  match fs_data_enc (snd kf) with
  | Some de => Bool.eqb (str_eqb de (u "b")) (existsb (str_eqb (fst kf)) bin) || existsb (str_eqb (fst kf)) [u "p"; u "1"; u "65"]
  | None => false
  end.
Lemma plain_roundtrip E sp bin d s enc d' buf : env_ok E -> has_ascii E -> plain sp ->
  forallb (text_or_bitmap bin) sp = true -> existsb (str_eqb (u "p")) bin || existsb (str_eqb (u "1")) bin = false ->
  str_dict d -> encode E (ADict d) sp = (Ok (s, enc), d') -> holds buf s ->
  exists dec, decode E buf sp = Ok (dec, enc)
    /\ forall k t, sget k dec = Some t <-> wire_key sp k
         /\ exists v, value d' k = Some (VStr v) /\ t = if existsb (str_eqb k) bin then py_upper v else v.
Proof.
  intros HE Ha Hp Hbin Hbin' Hd He Hb. apply orb_false_iff in Hbin' as [B1 B2].
  destruct (encode_decode E sp d s enc d' buf HE Hd (plain_reversible E sp HE Ha Hp) He Hb) as (dec & Hdec & Hk).
  exists dec. split; [assumption|]. intros k t. rewrite Hk. clear Hk.
  assert (Hnorm : forall fs v, wire_key sp k -> sget k sp = Some fs -> value d' k = Some (VStr v) -> normal fs v = if existsb (str_eqb k) bin then py_upper v else v).
  { intros fs v Hw Hfs Hv. destruct (plain_inv _ _ _ Hp Hfs) as (de & _ & _ & H1 & _). rewrite forallb_forall in Hbin. pose proof (Hbin _ (sget_in _ _ _ Hfs)) as Hc.
    unfold text_or_bitmap in Hc. cbn [fst snd] in Hc. unfold normal. rewrite H1 in Hc |- *. apply orb_true_iff in Hc as [Hc|Hc].
    - apply Bool.eqb_prop in Hc. now rewrite Hc.
    - assert (Hk : k = u "p" \/ k = u "1").
      { cbn [existsb] in Hc. apply orb_true_iff in Hc as [Hc|Hc]; [left; now apply str_eqb_eq|]. apply orb_true_iff in Hc as [Hc|Hc]; [right; now apply str_eqb_eq|].
        rewrite orb_false_r in Hc. apply str_eqb_eq in Hc. exfalso. rewrite Hc in Hw.
        destruct Hw as [[H _]|[H|[H|[H|(n & Hn & H)]]]]; try discriminate H. change (u "65") with (zstr 65) in H. unfold data_field in Hn. apply zstr_inj in H; lia. }
      replace (existsb (str_eqb k) bin) with false by (destruct Hk as [-> | ->]; auto).
      rewrite (bitmap_upper _ _ _ _ _ _ _ _ Hd He Hk Hv). now destruct (str_eqb de (u "b")). }
  split.
  - intros (Hw & fs & v & Hfs & Hv & ->). rewrite (Hnorm fs v Hw Hfs Hv). eauto.
  - intros (Hw & v & Hv & ->). destruct (wire_specified _ _ _ _ _ _ _ _ HE Hd He Hw Hv) as [fs Hfs]. split; [assumption|].
    exists fs, v. rewrite (Hnorm fs v Hw Hfs Hv). auto.
Qed.
Lemma default_roundtrip E d s enc d' buf : env_ok E -> has_ascii E -> str_dict d ->
  encode E (ADict d) default = (Ok (s, enc), d') -> holds buf s ->
  exists dec, decode E buf default = Ok (dec, enc)
    /\ forall k t, sget k dec = Some t <-> wire_key default k
         /\ exists v, value d' k = Some (VStr v) /\ t = if existsb (str_eqb k) default_binary then py_upper v else v.
Proof. intros HE Ha. apply plain_roundtrip; auto; apply default_plain. Qed.
Lemma default_ascii_roundtrip E d s enc d' buf : env_ok E -> has_ascii E -> str_dict d ->
  encode E (ADict d) default_ascii = (Ok (s, enc), d') -> holds buf s ->
  exists dec, decode E buf default_ascii = Ok (dec, enc)
    /\ forall k t, sget k dec = Some t <-> wire_key default_ascii k /\ value d' k = Some (VStr t).
Proof.
  intros HE Ha Hd He Hb.
  destruct (plain_roundtrip E default_ascii [] d s enc d' buf HE Ha default_ascii_plain ltac:(vm_compute; reflexivity) ltac:(vm_compute; reflexivity) Hd He Hb) as (dec & H1 & H2).
  exists dec. split; [assumption|]. intros k t. rewrite H2. cbn [existsb]. split; intros (Hw & H); split; auto.
  - destruct H as (v & Hv & ->). assumption.
  - eauto.
Qed.
Lemma c311_ascii : has_ascii cpython311. Proof. reflexivity. Qed.
