(** * RoundtripSamples: witnesses for the round-trip properties. *)
From Coq Require Import ZifyBool ZifyNat ZifyN.
From Verif Require Import PyBase BaseFacts Types Numerals NumeralFacts Decoder Encoder Wire WireEncode Claims CPython311 Specs Samples CodecFacts EncoderFacts SampleFacts EncodeSamples.
From Verif Require Import EncodeTheorems EncodeTheorems2 EncodeTheorems3 Roundtrip Roundtrip2 Roundtrip3 Shipped.
Local Open Scope string_scope.

(** ** [rich] meets the hypotheses *)
Definition upperb (o : option pystr) : bool :=
  match pad_char o with Some c => N.eqb (upper_char c) c | None => true end.
Definition c311_entry (kf : pystr * fspec) : bool :=
  let fs := snd kf in
  upperb (fs_left_pad fs) && upperb (fs_right_pad fs)
  && match fs_len_type fs with Some lt => (lt <=? 2000)%Z | None => true end.
Lemma upperb_ok o c : upperb o = true -> pad_char o = Some c -> upper_char c = c.
Proof. unfold upperb. intros H Hc. rewrite Hc in H. now apply N.eqb_eq. Qed.
Lemma c311_specs_reversible sp : (forall k fs, sget k sp = Some fs -> k <> u "t" -> k <> u "p" -> k <> u "1" ->
    pads_upper fs /\ forall lt, fs_len_type fs = Some lt -> (lt <= 2150)%Z) -> reversible_spec cpython311 sp.
Proof.
  intros H k fs Hk. split.
  - intros de _. destruct (str_eq_dec de (u "b")) as [->|Hn]; [now left|right]. split; [|intros _; apply c311_ascii_width].
    split; [apply c311_roundtrips|reflexivity].
  - intros N1 N2 N3. destruct (H k fs Hk N1 N2 N3) as [H1 H2]. split; [assumption|].
    intros lt le Hlt Hz Hle. apply H2 in Hlt.
    assert (L : within_digit_limit cpython311 (2 * lt)) by (intros m [= <-]; lia).
    assert (L' : within_digit_limit cpython311 lt) by (intros m [= <-]; lia).
    destruct (str_eq_dec le (u "b")) as [->|Hn]; [now left|]. destruct (str_eq_dec le (u "bcd")) as [->|Hn']; [right; left; split; [reflexivity|assumption]|].
    right. right. repeat split; auto; [apply c311_roundtrips|apply c311_ascii_width].
Qed.
Lemma c311_reversible sp : forallb c311_entry sp = true -> reversible_spec cpython311 sp.
Proof.
  intros H k fs Hk. rewrite forallb_forall in H. apply sget_in, H in Hk. unfold c311_entry in Hk. cbn [snd] in Hk.
  apply andb_true_iff in Hk as [Hk H3]. apply andb_true_iff in Hk as [H1 H2]. split.
  - intros de _. destruct (str_eq_dec de (u "b")) as [->|Hn]; [now left|right]. split; [|intros _; apply c311_ascii_width].
    split; [apply c311_roundtrips|reflexivity].
  - intros _ _ _. split.
    + intros c _ [Hc|Hc]; [exact (upperb_ok _ _ H1 Hc)|exact (upperb_ok _ _ H2 Hc)].
    + intros lt le Hlt Hz Hle. rewrite Hlt in H3. apply Z.leb_le in H3.
      assert (L : within_digit_limit cpython311 (2 * lt)) by (intros m [= <-]; lia).
      assert (L' : within_digit_limit cpython311 lt) by (intros m [= <-]; lia).
      destruct (str_eq_dec le (u "b")) as [->|Hn]; [now left|]. destruct (str_eq_dec le (u "bcd")) as [->|Hn']; [right; left; split; [reflexivity|assumption]|].
      right. right. repeat split; auto; [apply c311_roundtrips|apply c311_ascii_width].
Qed.
Lemma rich_reversible : reversible_spec cpython311 rich.
Proof. apply c311_reversible. vm_compute. reflexivity. Qed.
Lemma c311_specs_faithful sp : (forall k fs, sget k sp = Some fs ->
    (exists de, fs_data_enc fs = Some de /\ (is_binary de \/ codec_of cpython311 de <> None))
    /\ forall le, fs_len_enc fs = Some le -> is_binary le \/ is_bcd le \/ codec_of cpython311 le <> None) ->
  faithful_spec cpython311 sp.
Proof.
  intros H k fs Hk. destruct (H k fs Hk) as [(de & H1 & H2) H3]. split.
  - exists de. split; [assumption|]. destruct H2 as [H2|H2]; [now left|right].
    pose proof (c311_faithful de H2) as Hf. split; [assumption|]. split; [|intros _; apply c311_ascii_width]. apply Hf. reflexivity.
  - intros le Hle. destruct (H3 le Hle) as [A|[A|A]]; auto. right. right. now apply c311_faithful.
Qed.
Definition known (enc : pystr) : bool := str_eqb enc (u "b") || match codecs_311 enc with Some _ => true | None => false end.
Definition c311_faithful_entry (kf : pystr * fspec) : bool :=
  match fs_data_enc (snd kf), fs_len_enc (snd kf) with
  | Some de, Some le => known de && (known le || str_eqb le (u "bcd"))
  | _, _ => false
  end.
Lemma c311_faithful_spec sp : forallb c311_faithful_entry sp = true -> faithful_spec cpython311 sp.
Proof.
  intros H k fs Hk. rewrite forallb_forall in H. apply sget_in, H in Hk. unfold c311_faithful_entry in Hk. cbn [snd] in Hk.
  destruct (fs_data_enc fs) as [de|]; [|discriminate]. destruct (fs_len_enc fs) as [le|]; [|discriminate].
  apply andb_true_iff in Hk as [H1 H2].
  assert (K : forall e, known e = true -> is_binary e \/ faithful cpython311 e /\ codec_of cpython311 e <> None).
  { intros e He. unfold known in He. apply orb_true_iff in He as [He|He]; [left; now apply str_eqb_eq|right].
    assert (codec_of cpython311 e <> None) by (cbn [codec_of cpython311]; destruct (codecs_311 e); [discriminate|discriminate He]).
    split; [now apply c311_faithful|assumption]. }
  split.
  - exists de. split; [reflexivity|]. apply K in H1 as [H1|[H1 H1']]; [now left|right]. split; [assumption|]. split; [|intros _; apply c311_ascii_width].
    apply H1. reflexivity.
  - intros le' [= <-]. apply orb_true_iff in H2 as [H2|H2]; [apply K in H2 as [H2|[H2 _]]; auto|]. right. left. now apply str_eqb_eq.
Qed.
Lemma rich_faithful : faithful_spec cpython311 rich.
Proof. apply c311_faithful_spec. vm_compute. reflexivity. Qed.

(** [msg_rich] is canonical. *)
Lemma msg_rich_canonical : exists dec enc, decode cpython311 (InBytes msg_rich) rich = Ok (dec, enc)
  /\ canonical_message cpython311 rich dec enc.
Proof.
  destruct (decode cpython311 (InBytes msg_rich) rich) as [[dec enc]|x] eqn:H1; [|vm_compute in H1; discriminate].
  exists dec, enc. split; [reflexivity|]. vm_compute in H1. injection H1 as <- <-.
  split; [|split; [|split]].
  - intros k t [-> | ->] H; vm_compute in H; injection H as <-; repeat (constructor; [unfold upper_hex_digit; lia|]); constructor.
  - intros _. exists 66%Z. split; [lia|]. vm_compute. discriminate.
  - intros _ _ _. exists 130%Z. split; [lia|]. vm_compute. discriminate.
  - intros k fs e t K1 K2 K3 Hfs He Ht. apply sget_in in He.
    cbn [In] in He.
    repeat match type of He with _ \/ _ => destruct He as [He|He] end; try contradiction;
      injection He as <- <-; vm_compute in Ht; try (injection Ht as <-); vm_compute in Hfs; injection Hfs as <-;
      try (exfalso; first [apply K1; reflexivity|apply K2; reflexivity|apply K3; reflexivity]); cbn [e_len e_data].
    + split; [intros lt le t _ _ [= <-] Hb; exfalso; apply Hb; reflexivity|discriminate].
    + split; [intros lt le t _ _ [= <-] _ Hb; exfalso; apply Hb; reflexivity|]. intros _ de [= <-]. cbn. intros _. left. eexists. split; reflexivity.
    + split; [intros lt le t [= Hl] Hz; lia|discriminate].
    + split; [intros lt le t [= Hl] Hz; lia|discriminate].
    + split; [|discriminate]. intros lt le t [= Hl] _ [= <-] _ _ H. assert (lt = 3%nat) as -> by lia. vm_compute in H. injection H as <-. exists 3%N. reflexivity.
Qed.

(** ** C01 needs upper-case pads *)
Definition lowpad : spec := full [(u "2", fld_nib "b" "b" 1 20 (Some "f") None)].
Definition doc_lowpad : pdoc := sdict [("t", "0200"); ("2", "123")].
Lemma lowpad_refutes : exists sp d s enc d' e, spec_complete sp /\ str_dict d
  /\ encode cpython311 (ADict d) sp = (Ok (s, enc), d')
  /\ decode cpython311 (InBytes s) sp = Raise (XDecodeError e).
Proof.
  exists lowpad, doc_lowpad. eexists _, _, _, _. split; [apply spec_complete_check; vm_compute; reflexivity|].
  split; [apply str_dict_check; vm_compute; reflexivity|]. split; [vm_compute; reflexivity|vm_compute; reflexivity].
Qed.

(** ** C18 needs canonical messages *)
(** Decoding [b] and encoding the result gives something else. *)
Definition rewritten (sp : spec) (b : bytes) : Prop :=
  exists dec enc s enc' d', decode cpython311 (InBytes b) sp = Ok (dec, enc)
    /\ encode cpython311 (ADict (as_dict dec)) sp = (Ok (s, enc'), d') /\ s <> b.
Lemma rewritten_check sp b s : 
  match decode cpython311 (InBytes b) sp with
  | Ok (dec, enc) => match encode cpython311 (ADict (as_dict dec)) sp with (Ok (s', _), _) => s' = s | _ => False end
  | _ => False end -> s <> b -> rewritten sp b.
Proof.
  intros H Hs. destruct (decode cpython311 (InBytes b) sp) as [[dec enc]|] eqn:H1; [|contradiction].
  destruct (encode cpython311 (ADict (as_dict dec)) sp) as [[[s' enc']|] d'] eqn:H2; [|contradiction]. subst s'.
  exists dec, enc, s, enc', d'. repeat split; assumption.
Qed.
Lemma lower_rewritten : rewritten rich msg_rich_lower.
Proof. apply rewritten_check with msg_rich; [vm_compute; reflexivity|discriminate]. Qed.
(** Bit 1 on, no field above 64. *)
Definition msg_unneeded : bytes := (asc "0200" ++ raw [128; 0; 0; 0; 0; 0; 0; 0; 0; 0; 0; 0; 0; 0; 0; 0]%N)%list.
Lemma unneeded_rewritten : rewritten default msg_unneeded.
Proof. apply rewritten_check with (asc "0200" ++ raw [0; 0; 0; 0; 0; 0; 0; 0]%N)%list; [vm_compute; reflexivity|discriminate]. Qed.
(** Field 2 with length " 4" or "+4". *)
Definition msg_length (l : string) : bytes := (asc "0200" ++ raw [64; 0; 0; 0; 0; 0; 0; 0]%N ++ asc l ++ asc "1234")%list.
Lemma space_rewritten : rewritten default (msg_length " 4").
Proof. apply rewritten_check with (msg_length "04"); [vm_compute; reflexivity|discriminate]. Qed.
Lemma plus_rewritten : rewritten default (msg_length "+4").
Proof. apply rewritten_check with (msg_length "04"); [vm_compute; reflexivity|discriminate]. Qed.
(** Field 35 has both pads; three digits arrive padded on the right. *)
Definition msg_pad (l : list N) : bytes := (raw [2]%N ++ asc "HD" ++ asc "0200" ++ asc "0000000020000000" ++ raw l)%list.
Lemma pad_rewritten : rewritten rich (msg_pad [3; 18; 63]%N).
Proof. apply rewritten_check with (msg_pad [3; 1; 35]%N); [vm_compute; reflexivity|discriminate]. Qed.
(** Text counted in nibbles with an odd count. *)
Definition nib_text : spec := full [(u "2", fld_nib "ascii" "b" 1 20 None None)].
Lemma nibble_rewritten : rewritten nib_text (asc "0200" ++ raw [64; 0; 0; 0; 0; 0; 0; 0; 3; 65; 66]%N)%list.
Proof. apply rewritten_check with (asc "0200" ++ raw [64; 0; 0; 0; 0; 0; 0; 0; 4; 65; 66]%N)%list; [vm_compute; reflexivity|discriminate]. Qed.

(** ** C19 needs keys that do not denote 1 or 65 *)
Lemma doc_01_rewritten : exists d s enc d' dec, str_dict d /\ encode cpython311 (ADict d) (full []) = (Ok (s, enc), d')
  /\ decode cpython311 (InBytes s) (full []) = Ok (dec, enc) /\ ~ encodes_to cpython311 (full []) (as_dict dec) s enc.
Proof.
  destruct doc_01_empty_secondary as (enc & d' & He & Hs & _).
  exists doc_01, (asc "0200" ++ raw [128; 0; 0; 0; 0; 0; 0; 0; 0; 0; 0; 0; 0; 0; 0; 0]%N)%list. eexists _, d', _.
  split; [assumption|]. split; [exact He|]. vm_compute in He. injection He as <- <-. split; [vm_compute; reflexivity|].
  intros (d'' & H). vm_compute in H. discriminate.
Qed.
Lemma canonical_no_1 E d : env_ok E -> canonical_keys E d -> ~ has_field E d 1 /\ ~ has_field E d 65.
Proof.
  intros HE Hc.
  assert (A : forall n, has_field E d n -> zstr n <> u "1" /\ zstr n <> u "65").
  { intros n (k & Hk & H1 & H65 & Hn & Hi). destruct (Hc k Hk Hn) as (Hl & m & Hm & ->).
    apply py_int_text in Hi. rewrite (py_int_digits E (zstr m) HE) in Hi; auto.
    - rewrite zstr_nonneg in Hi by assumption. destruct (dec_spec (Z.to_N m)) as (_ & Hv & _). rewrite Hv in Hi. injection Hi as Hi.
      replace n with m by lia. auto.
    - now apply zstr_digits.
    - destruct (dec_spec (Z.to_N m)) as (_ & _ & Hne & _). now rewrite zstr_nonneg. }
  split; intro H; apply A in H as [H1 H2]; [now apply H1|now apply H2].
Qed.
Lemma encode_decode_encode_canonical E sp d s enc d' buf dec enc' : env_ok E -> str_dict d -> reversible_spec E sp ->
  canonical_keys E d -> encode E (ADict d) sp = (Ok (s, enc), d') -> holds buf s -> decode E buf sp = Ok (dec, enc') ->
  enc' = enc /\ encodes_to E sp (as_dict dec) s enc.
Proof. intros HE Hs Hr Hc. destruct (canonical_no_1 E d HE Hc) as [H1 H65]. now apply encode_decode_encode. Qed.

(** ** C20, C24: examples *)
Definition doc_mixed : pdoc := sdict [("t", "0200"); ("h", "HD"); ("35", "abc")].
Definition doc_MIXED : pdoc := sdict [("35", "ABC"); ("h", "HD"); ("1", "stale"); ("t", "0200")].
Lemma doc_mixed_same : exists s enc1 enc2 d1 d2, str_dict doc_mixed /\ str_dict doc_MIXED
  /\ encode cpython311 (ADict doc_mixed) rich = (Ok (s, enc1), d1)
  /\ encode cpython311 (ADict doc_MIXED) rich = (Ok (s, enc2), d2).
Proof.
  eexists _, _, _, _, _. split; [apply str_dict_check; vm_compute; reflexivity|]. split; [apply str_dict_check; vm_compute; reflexivity|].
  split; [vm_compute; reflexivity|vm_compute; reflexivity].
Qed.
Definition doc_default : pdoc := sdict [("t", "0200"); ("2", "1234"); ("3", "000000"); ("52", "ab00000000000000")].
Lemma doc_default_encodes : exists s enc d', str_dict doc_default
  /\ encode cpython311 (ADict doc_default) default = (Ok (s, enc), d') /\ length s = 32%nat.
Proof. eexists _, _, _. split; [apply str_dict_check; vm_compute; reflexivity|]. split; [vm_compute; reflexivity|vm_compute; reflexivity]. Qed.
Lemma doc_ascii_encodes : exists s enc d', str_dict doc_default
  /\ encode cpython311 (ADict doc_default) default_ascii = (Ok (s, enc), d') /\ length s = 48%nat.
Proof. eexists _, _, _. split; [apply str_dict_check; vm_compute; reflexivity|]. split; [vm_compute; reflexivity|vm_compute; reflexivity]. Qed.
(** The message C25 excludes is raised with other specs. *)
Lemma doc_wide_does_not_fit : exists e d', encode cpython311 (ADict doc_wide) wide = (Raise (XEncodeError e), d')
  /\ ee_msg e = u "Failed to encode field length, field length does not fit into configured field size".
Proof. eexists _, _. split; [vm_compute; reflexivity|vm_compute; reflexivity]. Qed.
(** The shipped specs do raise other errors. *)
Lemma doc_long_default : exists e d', encode cpython311 (ADict (sdict [("t", "0200"); ("2", "12345678901234567890")])) default = (Raise (XEncodeError e), d')
  /\ ee_msg e = u "Field data is 20 bytes, larger than maximum 19".
Proof. eexists _, _. split; [vm_compute; reflexivity|vm_compute; reflexivity]. Qed.
