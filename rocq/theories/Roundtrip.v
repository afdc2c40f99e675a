(** * Roundtrip: what encode sends, decode reads back. *)
From Coq Require Import ZifyBool ZifyNat ZifyN Sorted.
From Verif Require Import PyBase BaseFacts Types Numerals NumeralFacts Decoder Encoder Wire WireEncode Claims.
From Verif Require Import DecoderFacts DecodeRun DecodeComplete DecodeTheorems EncoderFacts EncodeRun EncodeWhole.
From Verif Require Import EncodeTheorems EncodeTheorems2 EncodeTheorems3.
Ltac Zify.zify_post_hook ::= Z.div_mod_to_equations.
Local Opaque data_fields.

(** ** Fields *)
Lemma py_int_limit E s : all_digits s -> s <> [] -> within_digit_limit E (length s) ->
  py_int E s = Some (Z.of_N (dec_value s)).
Proof.
  intros H Hne Hl. unfold py_int. rewrite map_int_char_digits by assumption.
  assert (Hu : int_unsigned E s = Some (dec_value s)).
  { unfold int_unsigned. rewrite int_digits_all by auto.
    destruct (int_max_digits E) as [m|] eqn:Em; [|reflexivity].
    apply Hl in Em. replace (m <? 0 + N.of_nat (length s))%N with false by lia. reflexivity. }
  destruct s as [|c s]; [congruence|]. inversion H as [|? ? Hc Hs]; subst. cbn [lstrip_c].
  replace (c_space c) with false by (unfold is_digit in Hc; unfold c_space; lia).
  replace (c =? 43)%N with false by (unfold is_digit in Hc; lia).
  replace (c =? 45)%N with false by (unfold is_digit in Hc; lia). now rewrite Hu.
Qed.
Lemma digits_ascii s : all_digits s -> Forall (fun c => (c < 128)%N) s.
Proof. apply Forall_impl. intros c H. unfold is_digit in H. lia. Qed.

Lemma prefix_read E fs lt le n lenb : lengths_reversible E fs -> fs_len_type fs = Some (Z.of_nat lt) -> lt <> O ->
  fs_len_enc fs = Some le -> (0 <= n)%Z -> encodes_prefix E le lt n lenb ->
  length lenb = lt /\ prefix_denotes E le lenb n.
Proof.
  intros Hr Hlt Hlt0 Hle Hn H. specialize (Hr lt le Hlt Hlt0 Hle). destruct H as [Hb Hl Hv|v Hb Hl Hv Hz|Hb Hb' He Hl].
  - split; [assumption|]. now apply PrefixBinary.
  - split; [assumption|]. destruct Hr as [Hr|[[_ Hr]|(_ & Hr & _)]].
    + exfalso. now apply bcd_not_binary in Hb.
    + apply PrefixBcd with v; auto. now rewrite Hl.
    + contradiction.
  - destruct Hr as [Hr|[[Hr _]|(_ & _ & Hrt & Haw & Hlim)]]; [contradiction..|].
    pose proof (fmt0d_digits lt (Z.to_N n)) as Hd. pose proof (Haw _ _ (digits_ascii _ Hd) He) as Hlen.
    pose proof (fmt0d_length_ge lt (Z.to_N n)). assert (Hlf : length (fmt0d lt (Z.to_N n)) = lt) by lia.
    split; [lia|]. apply PrefixText with (fmt0d lt (Z.to_N n)); auto.
    apply py_int_text. rewrite py_int_limit; auto.
    + rewrite fmt0d_value. f_equal. lia.
    + intro Hc. rewrite Hc in Hlf. cbn in Hlf. lia.
    + now rewrite Hlf.
Qed.
Lemma length_read E fs n lenb : lengths_reversible E fs -> (0 <= n)%Z -> encodes_length E fs n lenb -> announces E fs lenb n.
Proof.
  intros Hr Hn [H1 H2 H3|lt le ml H1 H2 H3 H4 H5 H6]; [now apply AnnouncesFixed|].
  destruct (prefix_read _ _ _ _ _ _ Hr H1 H2 H5 Hn H6). now apply AnnouncesVariable with lt le ml.
Qed.

Lemma normal_binary fs de v : fs_data_enc fs = Some de -> is_binary de -> normal fs v = py_upper v.
Proof. intros H1 H2. unfold normal. rewrite H1, H2. reflexivity. Qed.
Lemma normal_text fs de v : fs_data_enc fs = Some de -> ~ is_binary de -> normal fs v = v.
Proof. intros H1 H2. unfold normal. rewrite H1. destruct (str_eqb_spec de (u "b")); [contradiction|reflexivity]. Qed.
Lemma py_upper_length s : length (py_upper s) = length s.
Proof. apply map_length. Qed.
Lemma zlen_pos_nat {A} (l : list A) : zlen l = Z.of_nat (length l). Proof. reflexivity. Qed.

Lemma value_read E fs v data n : (forall de, fs_data_enc fs = Some de -> is_binary de \/ reversible E de) -> pads_upper fs ->
  encodes_value E fs (VStr v) data n -> occupies fs n (zlen data) /\ carries E fs n data (normal fs v).
Proof.
  intros Hc Hp H. pose proof (encodes_value_units _ _ _ _ _ H) as [_ Hocc]. split; [assumption|].
  remember (VStr v) as x eqn:Hx. destruct H as [de x d data H1 H2 H3 H4 H5|de d w data H1 H2 H3 H4 H5|de t data H1 H2 H3].
  - subst x. injection H3 as <-. rewrite (normal_binary _ _ _ H1 H2). pose proof (spells_length _ _ H5) as Hl. unfold spells in H5.
    set (n := if in_nibbles fs then zlen v else zlen data).
    destruct (Z.eq_dec n 0) as [E0|E0].
    + apply CarriesNothing; [assumption|]. assert (length v = 0)%nat by (unfold n, zlen in E0; destruct (in_nibbles fs); lia).
      destruct v; [reflexivity|discriminate].
    + apply CarriesHex with de; auto. unfold n. destruct (in_nibbles fs); [|reflexivity].
      cbn [andb] in *. rewrite nat_odd_zodd in H4. exact H4.
  - injection Hx as ->. rewrite (normal_binary _ _ _ H1 H2). apply andb_true_iff in H3 as [H3 H3'].
    rewrite nat_odd_zodd in H3'. change (Z.of_nat (length v)) with (zlen v) in H3'.
    apply CarriesPaddedHex with de; auto.
    + intro E0. rewrite E0 in H3'. discriminate.
    + rewrite H3, H3'. reflexivity.
    + unfold spells in H5. rewrite <- H5. destruct H4 as [(c & Hl & ->)|(Hl & c & Hr & ->)].
      * left. exists c. split; [assumption|]. cbn [py_upper map]. f_equal. apply Hp; auto.
      * right. rewrite Hl. split; [discriminate|]. exists c. split; [assumption|]. unfold py_upper. rewrite map_app. cbn [map].
        do 2 f_equal. apply Hp; auto.
  - injection Hx as ->. rewrite (normal_text _ _ _ H1 H2). destruct (Hc de H1) as [Hb|[Hrt He]]; [contradiction|].
    pose proof (Hrt _ _ H3) as Hd.
    set (n := (if in_nibbles fs then 2 * zlen data else zlen data)%Z).
    destruct (Z.eq_dec n 0) as [E0|E0].
    + apply CarriesNothing; [assumption|]. assert (zlen data = 0)%Z as Hz by (unfold n in E0; destruct (in_nibbles fs); lia).
      apply zlen_zero in Hz. subst data. congruence.
    + apply CarriesText with de; auto.
Qed.
Lemma field_read E fs v lenb data : (forall de, fs_data_enc fs = Some de -> is_binary de \/ reversible E de) -> pads_upper fs ->
  lengths_reversible E fs -> field_encodes E fs (VStr v) lenb data -> field_wire E fs lenb data (normal fs v).
Proof.
  intros Hc Hp Hl (n & H1 & H2). exists n. destruct (value_read _ _ _ _ _ Hc Hp H1). split; [|now split].
  apply length_read; auto. eapply encodes_value_nonneg, H1.
Qed.
Lemma type_read E fs v data : (forall de, fs_data_enc fs = Some de -> is_binary de \/ reversible E de) ->
  type_encodes E fs (VStr v) data -> type_wire E fs data (normal fs v).
Proof.
  intros Hc H. remember (VStr v) as x eqn:Hx. destruct H as [de x d data H1 H2 H3 H4 H5|de t data H1 H2 H3 H4].
  - subst x. injection H3 as <-. rewrite (normal_binary _ _ _ H1 H2). apply TypeBinary with de; auto.
  - injection Hx as ->. rewrite (normal_text _ _ _ H1 H2). apply TypeText with de; auto.
    destruct (Hc de H1) as [Hb|[Hrt He]]; [contradiction|]. auto.
Qed.
Lemma HEX_ascii b : Forall (fun c => (c < 128)%N) (HEX b).
Proof.
  rewrite HEX_eq. induction b as [|x b IH]; [constructor|]. rewrite py_HEX_cons. pose proof (b2n_lt x).
  pose proof (hexval_hexdig_upper_range (b2n x / 16)). pose proof (hexval_hexdig_upper_range (b2n x mod 16)).
  repeat constructor; [lia|lia|assumption].
Qed.
Lemma bitmap_read E fs bm data : (forall de, fs_data_enc fs = Some de -> is_binary de \/ reversible E de /\ ascii_width E de) ->
  length bm = 8%nat -> bitmap_encodes E fs bm data -> bitmap_wire E fs data (HEX bm) bm.
Proof.
  intros Hc Hl [de H1 H2 ->|de H1 H2 H3]; [now apply BitmapBinary with de|].
  destruct (Hc de H1) as [Hb|[[Hrt _] Haw]]; [contradiction|]. apply BitmapText with de; auto.
  - rewrite (Haw _ _ (HEX_ascii bm) H3), HEX_length, Hl. reflexivity.
  - apply fromhex_spelling. rewrite HEX_eq. apply fromhex_HEX.
Qed.

(** ** Messages *)
Lemma zstr_field E n : env_ok E -> (0 <= n < 1000)%Z -> isnumeric E (zstr n) = true /\ int_text E (zstr n) n.
Proof.
  intros HE Hn. assert (Hd : all_digits (zstr n)) by (apply zstr_digits; lia).
  assert (Hne : zstr n <> []) by (rewrite zstr_nonneg by lia; apply dec_nonempty).
  split; [now apply isnumeric_digits|]. apply py_int_text. rewrite py_int_digits; auto.
  - rewrite zstr_nonneg by lia. destruct (dec_spec (Z.to_N n)) as (_ & Hv & _). rewrite Hv. f_equal. lia.
  - rewrite zstr_nonneg by lia. pose proof (dec_length_bound (Z.to_N n) 3) as Hb. change (10 ^ N.of_nat 3)%N with 1000%N in Hb. lia.
Qed.
Lemma zstr_has_field E d n : env_ok E -> data_field n -> has_key d (zstr n) -> has_field E d n.
Proof.
  intros HE Hn Hk. exists (zstr n). destruct (zstr_field E n HE) as [H1 H2]; [unfold data_field in Hn; lia|].
  pose proof (zstr_name n (proj2 (data_fields_in n) Hn)) as (_ & _ & _ & K1 & K2). auto.
Qed.
Lemma upper_HEX b : py_upper (HEX b) = HEX b.
Proof.
  rewrite HEX_eq. induction b as [|x b IH]; [reflexivity|]. rewrite py_HEX_cons. unfold py_upper in *. cbn [map]. rewrite IH.
  pose proof (b2n_lt x). f_equal; [|f_equal]; unfold upper_char;
    match goal with |- context [hexdig_upper ?v] => pose proof (hexval_hexdig_upper_range v) end;
    match goal with |- context [if ?c then _ else _] => destruct c eqn:Ec end; lia.
Qed.
Lemma upper_app a b : py_upper (a ++ b) = py_upper a ++ py_upper b.
Proof. apply map_app. Qed.
Lemma normal_HEX fs b : normal fs (HEX b) = HEX b.
Proof. unfold normal. destruct (fs_data_enc fs) as [de|]; [|reflexivity]. destruct (str_eqb de (u "b")); [apply upper_HEX|reflexivity]. Qed.
Lemma normal_HEX2 fs a b : normal fs (HEX a ++ HEX b) = HEX a ++ HEX b.
Proof. unfold normal. destruct (fs_data_enc fs) as [de|]; [|reflexivity]. destruct (str_eqb de (u "b")); [|reflexivity].
  now rewrite upper_app, !upper_HEX. Qed.

(** The text decode returns for key [k] of the dict [d'] left by encode. *)
Definition read_text (sp : spec) (d' : pdoc) (k : pystr) : pystr :=
  match sget k sp, value d' k with Some fs, Some (VStr v) => normal fs v | _, _ => [] end.
Definition read_seg (sp : spec) (d' : pdoc) (ke : pystr * entry) : segment :=
  mkSeg (fst ke) (e_len (snd ke)) (e_data (snd ke)) (read_text sp d' (fst ke)).
Lemma enc_read sp d' enc : enc_of (map (read_seg sp d') enc) = enc.
Proof. unfold enc_of. rewrite map_map. induction enc as [|[k [l b]] enc IH]; [reflexivity|]. cbn [map]. f_equal. exact IH. Qed.
Lemma dec_read sp d' enc : dec_of (map (read_seg sp d') enc) = map (fun ke => (fst ke, read_text sp d' (fst ke))) enc.
Proof. unfold dec_of. rewrite map_map. reflexivity. Qed.

Lemma map_eq_app_inv {A B} (f : A -> B) l a b : map f l = a ++ b -> exists x y, l = x ++ y /\ map f x = a /\ map f y = b.
Proof.
  revert l. induction a as [|c a IH]; intros l H; [exists [], l; auto|]. destruct l as [|z l]; [discriminate|].
  injection H as <- H. apply IH in H as (x & y & -> & <- & <-). exists (z :: x), y. auto.
Qed.

Lemma bits_read E d bm1 bm2 bm3 : bitmaps_for E d bm1 bm2 bm3 ->
  filter (announced bm1 bm2 bm3) data_fields
  = filter (announced bm1 (if bit bm1 1 then bm2 else []) (if bit bm1 1 && bit bm2 1 then bm3 else [])) data_fields.
Proof.
  intros (_ & _ & _ & Hb). apply filter_ext_in. intros f Hf. apply data_fields_in in Hf. unfold announced.
  destruct (f <=? 64)%Z eqn:E1; [reflexivity|]. destruct (f <=? 128)%Z eqn:E2.
  - destruct (bit bm1 1) eqn:B1; [reflexivity|]. rewrite bit_nil. apply not_true_is_false. intro Hc.
    apply (Hb (f - 64)%Z) in Hc; [|lia]. destruct (Hb 1%Z ltac:(lia)) as (H1 & _).
    assert (bit bm1 1 = true); [|congruence]. apply H1. right. right. split; [reflexivity|]. exists f. split; [lia|].
    replace (64 + (f - 64))%Z with f in Hc by lia. destruct Hc as [Hc|[[Hc _]|[Hc _]]]; [assumption|lia..].
  - destruct (bit bm1 1 && bit bm2 1) eqn:B1; [reflexivity|]. rewrite bit_nil. apply not_true_is_false. intro Hc.
    apply (Hb (f - 128)%Z) in Hc; [|lia]. replace (128 + (f - 128))%Z with f in Hc by lia.
    assert (Hh : has_field E d f) by (destruct Hc as [Hc|[[Hc _]|[Hc _]]]; [assumption|lia..]).
    destruct (Hb 1%Z ltac:(lia)) as (H1 & H2 & _).
    assert (bit bm1 1 = true) by (apply H1; right; right; split; [reflexivity|]; exists f; split; [lia|assumption]).
    assert (bit bm2 1 = true) by (apply H2; right; left; split; [lia|]; exists f; split; [lia|assumption]).
    rewrite H, H0 in B1. discriminate.
Qed.

Lemma header_key_nil sp : header_key sp = [] -> header_off sp.
Proof.
  unfold header_key, header_off. destruct (sget (u "h") sp) as [fs|]; [|discriminate]. destruct (fs_max_len fs) as [ml|] eqn:Hm; [|discriminate].
  destruct (ml <=? 0)%Z eqn:Hl; [|discriminate]. intros _. exists fs, ml. repeat split; auto. lia.
Qed.

Section Read.
  Variables (E : pyenv) (sp : spec) (d d' : pdoc) (bm1 bm2 bm3 : bytes) (enc : edoc).
  Hypothesis Hstr : str_dict d.
  Hypothesis Hrev : reversible_spec E sp.
  Hypothesis Henc : encoding E sp d bm1 bm2 bm3 enc.
  Hypothesis Hd' : d' = with_bitmaps d bm1 bm2 bm3.
  Notation seg := (read_seg sp d').

  Lemma value_kept k : k <> u "p" -> k <> u "1" -> k <> u "65" -> value d' k = value d k.
  Proof using Hstr Hd'.
    intros H1 H2 H3. destruct (with_bitmaps_facts d bm1 bm2 bm3 (proj1 Hstr)) as (_ & _ & _ & _ & Hk). rewrite Hd'.
    apply Hk. now apply str_key_not_bitmap.
  Qed.
  Lemma field_seg k e : field_key k -> entry_sent E sp d bm1 bm2 bm3 (k, e) -> field_segment E sp (seg (k, e)).
  Proof using Hstr Hrev Hd'.
    intros Hk Hs. destruct (sent_field_inv _ _ _ _ _ _ _ _ Hk Hs) as (fs & v & H1 & H2 & H3). apply field_key_not in Hk as (K1 & K2 & K3 & K4).
    exists fs. unfold read_seg. cbn [sg_key sg_len sg_data sg_text fst snd]. split; [assumption|].
    unfold read_text. rewrite H1, (value_kept k K2 K3 K4), H2. destruct (str_dict_value _ _ _ Hstr H2) as (t & ->).
    destruct (Hrev k fs H1) as [A B]. destruct (B K1 K2 K3) as [B1 B2]. apply field_read; auto.
    intros de Hde. destruct (A de Hde); tauto.
  Qed.

  Lemma message_read : exists hs t p xs fields, map seg enc = hs ++ t :: p :: xs ++ fields
    /\ message_parts E sp hs t p xs fields bm1 (if bit bm1 1 then bm2 else []) (if bit bm1 1 && bit bm2 1 then bm3 else []).
  Proof using Hstr Hrev Henc Hd'.
    destruct Henc as (_ & Hbm & Hplan & Hall). pose proof (bits_read _ _ _ _ _ Hbm) as Hbits. unfold plan in Hplan.
    destruct Hbm as (L1 & L2 & L3 & _). unfold fields_part.
    assert (Hfl : forall f, In f (filter (announced bm1 bm2 bm3) data_fields) -> In f data_fields)
      by (intros f Hf; apply filter_In in Hf; tauto).
    destruct (with_bitmaps_facts d bm1 bm2 bm3 (proj1 Hstr)) as (_ & Vp & V1 & _ & _). rewrite <- Hd' in Vp, V1.
    unfold message_parts, fields_part. rewrite <- Hbits. clear Hbits.
    revert Hplan Hfl. generalize (filter (announced bm1 bm2 bm3) data_fields) as fl. intros fl Hplan Hfl.
    change (u "t" :: u "p" :: ?x) with ([u "t"] ++ [u "p"] ++ x) in Hplan.
    apply map_eq_app_inv in Hplan as (eh & e1 & E1 & Hh & Hplan).
    apply map_eq_app_inv in Hplan as (et & e2 & E2 & Ht & Hplan).
    apply map_eq_app_inv in Hplan as (ep & e3 & E3 & Hp & Hplan).
    apply map_eq_app_inv in Hplan as (ex & ef & E4 & Hx & Hf).
    destruct et as [|[kt te] [|]]; try discriminate Ht. injection Ht as ->.
    destruct ep as [|[kp pe] [|]]; try discriminate Hp. injection Hp as ->.
    subst e3 e2 e1. rewrite E1 in Hall |- *. clear E1.
    apply Forall_app in Hall as [Ah Hall]. apply Forall_app in Hall as [At Hall]. apply Forall_app in Hall as [Ap Hall].
    apply Forall_app in Hall as [Ax Af]. apply Forall_inv in At, Ap.
    exists (map seg eh), (seg (u "t", te)), (seg (u "p", pe)), (map seg ex), (map seg ef).
    split; [rewrite !map_app; reflexivity|]. split; [|split; [|split; [|split; [|split]]]].
    - destruct (header_key_cases sp) as [Hk|Hk]; rewrite Hk in Hh.
      + destruct eh; [|discriminate Hh]. destruct (header_key_nil _ Hk) as (fs & ml & H1 & H2 & H3). now apply NoHeader with fs ml.
      + destruct eh as [|[kh he] [|]]; try discriminate Hh. injection Hh as ->. apply Forall_inv in Ah. cbn [map].
        assert (Hf1 : field_key (u "h")) by now left. pose proof (field_seg _ _ Hf1 Ah) as Hs.
        destruct (sent_field_inv _ _ _ _ _ _ _ _ Hf1 Ah) as (fs & v & H1 & H2 & n & H3 & H4).
        assert (exists ml, fs_max_len fs = Some ml) as [ml Hml] by (destruct H4 as [? ? ?|? ? ? ? ? ? ?]; eauto).
        apply Header with fs ml; auto. unfold header_key in Hk. rewrite H1, Hml in Hk. destruct (ml <=? 0)%Z eqn:Hl; [discriminate|lia].
    - destruct (sent_type_inv _ _ _ _ _ _ _ At) as (fs & v & H1 & H2 & H3 & H4). exists fs. unfold read_seg.
      cbn [sg_key sg_len sg_data sg_text fst snd]. repeat (split; [assumption || reflexivity|]).
      unfold read_text. rewrite H1, value_kept, H2 by discriminate. destruct (str_dict_value _ _ _ Hstr H2) as (t & ->).
      apply type_read; [|assumption]. intros de Hde. destruct (proj1 (Hrev _ _ H1) de Hde); tauto.
    - destruct (sent_p_inv _ _ _ _ _ _ _ Ap) as (fs & H1 & H2 & H3). exists fs. unfold read_seg.
      cbn [sg_key sg_len sg_data sg_text fst snd]. repeat (split; [assumption || reflexivity|]).
      unfold read_text. rewrite H1, Vp, normal_HEX. apply bitmap_read; auto.
      intros de Hde. destruct (proj1 (Hrev _ _ H1) de Hde); tauto.
    - destruct (bit bm1 1) eqn:B1.
      + destruct ex as [|[kx xe] [|]]; try discriminate Hx. injection Hx as ->. apply Forall_inv in Ax.
        destruct (sent_1_inv _ _ _ _ _ _ _ Ax) as (fs & d2 & d3 & H1 & H2 & H3 & H4 & H5).
        assert (Hc : forall de, fs_data_enc fs = Some de -> is_binary de \/ reversible E de /\ ascii_width E de).
        { intros de Hde. destruct (proj1 (Hrev _ _ H1) de Hde); tauto. }
        cbn [map andb]. destruct (bit bm2 1) eqn:B2.
        * eapply Tertiary with fs d2 (HEX bm2) d3 (HEX bm3); auto using bitmap_read.
          unfold read_seg. cbn [sg_text fst]. unfold read_text. rewrite H1, V1, normal_HEX2. reflexivity.
        * subst d3. rewrite app_nil_r in H3. eapply Secondary with fs; auto. cbn [sg_data sg_text read_seg fst snd]. rewrite H3.
          unfold read_text. rewrite H1, V1, app_nil_r, normal_HEX. now apply bitmap_read.
      + destruct ex; [|discriminate Hx]. now apply NoExtra.
    - rewrite map_map. exact Hf.
    - apply Forall_forall. intros sg Hi. apply in_map_iff in Hi as ((k, e) & <- & Hi). apply field_seg; [|rewrite Forall_forall in Af; auto].
      right. apply (in_map fst) in Hi. rewrite Hf in Hi. apply in_map_iff in Hi as (f & Hk & Hff). exists f. split; [auto|]. symmetry. exact Hk.
  Qed.

  Lemma decode_read buf : holds buf (wire_bytes enc) ->
    decode E buf sp = Ok (map (fun ke => (fst ke, read_text sp d' (fst ke))) enc, enc).
  Proof using Hstr Hrev Henc Hd'.
    intro Hb. destruct message_read as (hs & t & p & xs & fields & Hm & Hparts).
    assert (Hw : wire_bytes enc = bytes_of (map seg enc)) by (rewrite <- wire_bytes_enc, enc_read; reflexivity).
    rewrite (decode_eq _ _ _ _ Hb). destruct Henc as (_ & (L1 & L2 & L3 & _) & _ & _).
    assert (Hbuf : buf_bytes buf = bytes_of (hs ++ t :: p :: xs ++ fields) ++ []).
    { rewrite app_nil_r, <- Hm, <- Hw. now apply holds_buf. }
    rewrite (decode_body_complete E buf sp _ _ _ _ _ _ _ _ [] Hparts); [|lia|destruct (bit bm1 1); cbn; lia|destruct (bit bm1 1 && bit bm2 1); cbn; lia|exact Hbuf].
    cbn [d_dec d_enc]. rewrite <- Hm, enc_read, dec_read. reflexivity.
  Qed.

  Lemma read_keys k : env_ok E -> (In k (map fst enc) <-> wire_key sp k /\ exists fs v, sget k sp = Some fs /\ value d' k = Some (VStr v)).
  Proof using Hstr Henc Hd'.
    intro HE. destruct (with_bitmaps_facts d bm1 bm2 bm3 (proj1 Hstr)) as (_ & Vp & V1 & _ & _). rewrite <- Hd' in Vp, V1.
    split.
    - intro Hk. apply (dget_some_in str_eqb str_eqb_spec) in Hk as [e He]. pose proof (enc_sent _ _ _ _ _ _ _ Henc _ _ He) as Hs.
      assert (Hi : In k (plan sp bm1 bm2 bm3)).
      { destruct Henc as (_ & _ & <- & _). apply (dget_some_in str_eqb str_eqb_spec). eauto. }
      apply plan_in in Hi as [Hi|[->|[->|[[-> Hb]|(f & Hf & Ha & ->)]]]].
      + assert (k = u "h") as -> by (destruct (header_key_cases sp) as [Hh|Hh]; rewrite Hh in Hi; [destruct Hi|destruct Hi as [<-|[]]; reflexivity]).
        destruct (sent_field_inv _ _ _ _ _ _ _ _ (or_introl eq_refl) Hs) as (fs & v & H1 & H2 & n & H3 & H4).
        rewrite value_kept by discriminate. destruct (str_dict_value _ _ _ Hstr H2) as (t & ->). split; [left|eauto].
        split; [reflexivity|]. assert (exists ml, fs_max_len fs = Some ml) as [ml Hml] by (destruct H4 as [? ? ?|? ? ? ? ? ? ?]; eauto).
        exists fs, ml. repeat split; auto. apply header_key_in in Hi. destruct (Z_lt_le_dec 0 ml); [assumption|].
        exfalso. apply Hi. exists fs, ml. auto.
      + split; [unfold wire_key; tauto|]. destruct (sent_type_inv _ _ _ _ _ _ _ Hs) as (fs & v & H1 & H2 & H3 & H4).
        rewrite value_kept by discriminate. destruct (str_dict_value _ _ _ Hstr H2) as (t & ->). eauto.
      + split; [unfold wire_key; tauto|]. destruct (sent_p_inv _ _ _ _ _ _ _ Hs) as (fs & H1 & H2 & H3). eauto.
      + split; [unfold wire_key; tauto|]. destruct (sent_1_inv _ _ _ _ _ _ _ Hs) as (fs & d2 & d3 & H1 & _). rewrite V1, Hb. eauto.
      + assert (Hfk : field_key (zstr f)) by (right; eauto). split; [do 4 right; exists f; split; [now apply data_fields_in|reflexivity]|].
        destruct (sent_field_inv _ _ _ _ _ _ _ _ Hfk Hs) as (fs & v & H1 & H2 & H3). apply field_key_not in Hfk as (_ & K2 & K3 & K4).
        rewrite value_kept by assumption. destruct (str_dict_value _ _ _ Hstr H2) as (t & ->). eauto.
    - intros (Hw & fs & v & H1 & H2). destruct Henc as (_ & Hbm & -> & _). apply plan_in.
      destruct Hw as [[-> Hw]|[->|[->|[->|(n & Hn & ->)]]]]; auto.
      + left. apply header_key_in. now apply header_on_off.
      + do 3 right. left. split; [reflexivity|]. rewrite V1 in H2. destruct (bit bm1 1); [reflexivity|discriminate].
      + do 4 right. exists n. assert (Hn' : In n data_fields) by now apply data_fields_in. split; [assumption|]. split; [|reflexivity].
        apply (announced_spec _ _ _ _ _ n Hbm); [unfold data_field in Hn; lia|]. left.
        pose proof (zstr_name _ Hn') as (_ & _ & _ & K3 & K4). rewrite value_kept in H2 by (try assumption; apply zstr_neq_p; unfold data_field in Hn; lia).
        apply (zstr_has_field E d n HE Hn). unfold has_key. apply (dget_some_in key_eqb key_eqb_spec). exists (VStr v). exact H2.
  Qed.
End Read.

(** C01 *)
Lemma encode_decode E sp d s enc d' buf : env_ok E -> str_dict d -> reversible_spec E sp ->
  encode E (ADict d) sp = (Ok (s, enc), d') -> holds buf s ->
  exists dec, decode E buf sp = Ok (dec, enc)
    /\ forall k t, sget k dec = Some t
         <-> wire_key sp k /\ exists fs v, sget k sp = Some fs /\ value d' k = Some (VStr v) /\ t = normal fs v.
Proof.
  intros HE Hstr Hrev He Hb. apply encode_ok in He as (bm1 & bm2 & bm3 & Henc & -> & Hd'); [|apply Hstr].
  rewrite (decode_read E sp d d' bm1 bm2 bm3 enc Hstr Hrev Henc Hd' buf Hb). eexists. split; [reflexivity|].
  intros k t. pose proof (read_keys E sp d d' bm1 bm2 bm3 enc Hstr Henc Hd' k HE) as Hk.
  assert (Hg : forall k, sget k (map (fun ke : pystr * entry => (fst ke, read_text sp d' (fst ke))) enc)
               = if in_dec str_eq_dec k (map fst enc) then Some (read_text sp d' k) else None).
  { clear. intro k. induction enc as [|[k' e] enc IH]; [reflexivity|]. unfold sget in *. cbn [map dget fst].
    destruct (str_eqb_spec k k') as [->|Hn].
    - destruct (in_dec str_eq_dec k' (k' :: map fst enc)) as [|Hc]; [reflexivity|]. exfalso. apply Hc. now left.
    - rewrite IH. destruct (in_dec str_eq_dec k (map fst enc)) as [Hi|Hi], (in_dec str_eq_dec k (k' :: map fst enc)) as [Hj|Hj]; auto.
      + exfalso. apply Hj. now right.
      + destruct Hj as [Hj|Hj]; [congruence|contradiction]. }
  rewrite Hg. destruct (in_dec str_eq_dec k (map fst enc)) as [Hi|Hi].
  - apply Hk in Hi as (Hw & fs & v & H1 & H2). unfold read_text. rewrite H1, H2. split.
    + intros [= <-]. split; [assumption|]. exists fs, v. auto.
    + intros (_ & fs' & v' & H1' & H2' & ->). congruence.
  - split; [discriminate|]. intros (Hw & fs & v & H1 & H2 & _). exfalso. apply Hi, Hk. eauto.
Qed.
