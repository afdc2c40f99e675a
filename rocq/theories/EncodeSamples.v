(** * EncodeSamples: dicts for the non-vacuity examples and the refutations. *)
From Coq Require Import ZifyBool ZifyNat ZifyN.
From Verif Require Import PyBase BaseFacts Types Numerals NumeralFacts Decoder Encoder Wire WireEncode Claims CPython311 Specs Samples CodecFacts EncoderFacts SampleFacts.
Local Open Scope string_scope.

Definition sdict (l : list (string * string)) : pdoc := map (fun kv => (KStr (u (fst kv)), VStr (u (snd kv)))) l.

(** Encodes to [msg_rich]; stale bitmaps are ignored. *)
Definition doc_rich : pdoc := sdict [
  ("130", "abc"); ("h", "HD"); ("65", "stale"); ("2", "12345"); ("t", "0200"); ("66", "1"); ("1", "stale");
  ("3", "123456")].
Definition doc_rich_after : pdoc := sdict [
  ("130", "abc"); ("h", "HD"); ("2", "12345"); ("t", "0200"); ("66", "1"); ("3", "123456");
  ("p", "E000000000000000"); ("1", "C0000000000000004000000000000000")].

Fixpoint nodup_keys (l : list pykey) : bool :=
  match l with [] => true | k :: l' => negb (existsb (key_eqb k) l') && nodup_keys l' end.
Lemma nodup_keys_ok l : nodup_keys l = true -> NoDup l.
Proof.
  induction l as [|k l IH]; intro H; constructor; cbn in H; apply andb_true_iff in H as [H1 H2]; [|auto].
  intro Hi. apply negb_true_iff in H1. rewrite <- not_true_iff_false in H1. apply H1. apply existsb_exists. exists k.
  split; [assumption|]. now destruct (key_eqb_spec k k).
Qed.
Definition str_dictb (d : pdoc) : bool :=
  nodup_keys (map fst d)
  && forallb (fun kv => match kv with (KStr _, VStr _) => true | _ => false end) d.
Lemma str_dict_check d : str_dictb d = true -> str_dict d.
Proof.
  unfold str_dictb. intro H. apply andb_true_iff in H as [H1 H2]. split; [now apply nodup_keys_ok|].
  intros k v Hi. rewrite forallb_forall in H2. apply H2 in Hi. destruct k, v; try discriminate. split; eexists; reflexivity.
Qed.
Definition canonicalb (E : pyenv) (d : pdoc) : bool :=
  forallb (fun kv => match fst kv with
    | KStr k => negb (isnumeric E k)
                || ((length k <=? 640)%nat && str_eqb k (zstr (Z.of_N (dec_value k))))
    | _ => true end) d.
Lemma canonical_check E d : canonicalb E d = true -> canonical_keys E d.
Proof.
  unfold canonicalb. intros H k Hk Hn. rewrite forallb_forall in H. apply in_map_iff in Hk as ([k' v] & Hk & Hi).
  cbn in Hk. subst k'. apply H in Hi. cbn [fst] in Hi. rewrite Hn in Hi. cbn [negb orb] in Hi.
  apply andb_true_iff in Hi as [H1 H2]. split; [now apply Nat.leb_le|]. apply str_eqb_eq in H2.
  exists (Z.of_N (dec_value k)). split; [lia|assumption].
Qed.

Lemma doc_rich_str : str_dict doc_rich.
Proof. apply str_dict_check. vm_compute. reflexivity. Qed.
Lemma doc_rich_canonical : canonical_keys cpython311 doc_rich.
Proof. apply canonical_check. vm_compute. reflexivity. Qed.
Lemma doc_rich_encodes : exists enc, encode cpython311 (ADict doc_rich) rich = (Ok (msg_rich, enc), doc_rich_after)
  /\ map fst enc = [u "h"; u "t"; u "p"; u "1"; u "2"; u "3"; u "66"; u "130"].
Proof. eexists. split; [|]; vm_compute; reflexivity. Qed.

(** Field 3 is too short: EncodeError after field 2 was encoded. *)
Definition doc_short : pdoc := sdict [("t", "0200"); ("h", "HD"); ("3", "12345"); ("2", "12")].
Lemma doc_short_fails : exists e d', encode cpython311 (ADict doc_short) rich = (Raise (XEncodeError e), d')
  /\ ee_field e = u "3" /\ map fst (ee_doc_enc e) = [u "h"; u "t"; u "p"; u "2"; u "3"]
  /\ ee_msg e = u "Field data is 5 bytes, expecting 6" /\ str_dict doc_short /\ canonical_keys cpython311 doc_short.
Proof.
  eexists _, _. split; [vm_compute; reflexivity|]. repeat (split; [vm_compute; reflexivity|]).
  split; [apply str_dict_check|apply canonical_check]; vm_compute; reflexivity.
Qed.

(** ** Dicts that defeat encode *)
Definition doc_02 : pdoc := sdict [("t", "0200"); ("02", "12")].
Lemma doc_02_keyerror : exists d', encode cpython311 (ADict doc_02) (full []) = (Raise (XKeyError (u "2")), d') /\ str_dict doc_02.
Proof. eexists. split; [vm_compute; reflexivity|]. apply str_dict_check. vm_compute. reflexivity. Qed.
(** The superscript two: isnumeric() but not an int(). *)
Definition doc_sup : pdoc := (sdict [("t", "0200")] ++ [(KStr [178%N], VStr (u "12"))])%list.
Lemma doc_sup_valueerror : exists d', encode cpython311 (ADict doc_sup) (full []) = (Raise XValueError, d') /\ str_dict doc_sup.
Proof. eexists. split; [vm_compute; reflexivity|]. apply str_dict_check. vm_compute. reflexivity. Qed.
(** "01" switches an empty secondary bitmap on. *)
Definition doc_01 : pdoc := sdict [("t", "0200"); ("01", "x")].
Lemma doc_01_empty_secondary : exists enc d', encode cpython311 (ADict doc_01) (full []) =
    (Ok (asc "0200" ++ raw [128; 0; 0; 0; 0; 0; 0; 0; 0; 0; 0; 0; 0; 0; 0; 0]%N, enc), d')%list
  /\ str_dict doc_01 /\ has_key d' (u "1") /\ forall n, (65 <= n <= 192)%Z -> ~ has_key doc_01 (zstr n).
Proof.
  eexists _, _. split; [vm_compute; reflexivity|]. split; [apply str_dict_check; vm_compute; reflexivity|].
  split; [right; right; right; left; reflexivity|]. intros n Hn [H|[H|[]]]; injection H as H.
  - change (u "t") with [116%N] in H. pose proof (zstr_digits n ltac:(lia)) as Hd. rewrite <- H in Hd. inversion Hd; discriminate.
  - apply (f_equal dec_value) in H. rewrite zstr_nonneg in H by lia. destruct (dec_spec (Z.to_N n)) as (_ & Hv & _).
    rewrite Hv in H. change (dec_value (u "01")) with 1%N in H. lia.
Qed.
(** The shipped specs have no field 129. *)
Definition doc_129 : pdoc := sdict [("t", "0200"); ("129", "x")].
Lemma doc_129_keyerror : exists d', encode cpython311 (ADict doc_129) default = (Raise (XKeyError (u "129")), d')
  /\ str_dict doc_129 /\ canonical_keys cpython311 doc_129.
Proof. eexists. split; [vm_compute; reflexivity|]. split; [apply str_dict_check|apply canonical_check]; vm_compute; reflexivity. Qed.

(** Field 2 (binary, nibbles, BCD length in one byte, left pad "0") of [rich]. *)
Definition fs_2 : fspec := fld_nib "b" "bcd" 1 19 (Some "0") None.
Lemma rich_2 : sget (u "2") rich = Some fs_2.
Proof. reflexivity. Qed.
Lemma doc_rich_replace : value doc_rich (zstr 2) = Some (VStr (u "12345")) /\ sget (zstr 2) rich = Some fs_2
  /\ field_encodes cpython311 fs_2 (VStr (u "6789")) (raw [4]%N) (raw [103; 137]%N).
Proof.
  split; [reflexivity|]. split; [reflexivity|]. exists 4%Z. split.
  - apply (EncHex cpython311 fs_2 (u "b") (VStr (u "6789")) (u "6789")); reflexivity.
  - apply EncVariable with 1%nat (u "bcd") 19%Z; try reflexivity; [discriminate|discriminate|].
    apply EncPrefixBcd with 4%N; reflexivity.
Qed.
(** A binary length of one byte cannot hold 300. *)
Definition fs_wide : fspec := fld "ascii" "b" 1 300 "wide".
Definition wide : spec := full [(u "2", fs_wide)].
Definition doc_wide : pdoc := [(KStr (u "t"), VStr (u "0200")); (KStr (u "2"), VStr (repeat 65%N 300))].
Lemma doc_wide_long : spec_complete wide /\ widths_ok wide /\ limits_ok cpython311 wide /\ str_dict doc_wide /\ canonical_keys cpython311 doc_wide
  /\ value doc_wide (zstr 2) = Some (VStr (repeat 65%N 300)) /\ sget (zstr 2) wide = Some fs_wide
  /\ encodes_value cpython311 fs_wide (VStr (repeat 65%N 300)) (repeat (n2b 65) 300) 300
  /\ too_long cpython311 (u "b") 1 300.
Proof.
  split; [apply spec_complete_check; vm_compute; reflexivity|]. split; [apply widths_check; vm_compute; reflexivity|]. split; [apply limits_check; vm_compute; reflexivity|]. split; [apply str_dict_check; vm_compute; reflexivity|].
  split; [apply canonical_check; vm_compute; reflexivity|]. split; [reflexivity|]. split; [reflexivity|]. split.
  - change 300%Z with (if in_nibbles fs_wide then (2 * zlen (repeat (n2b 65) 300))%Z else zlen (repeat (n2b 65) 300)).
    apply EncText with (u "ascii"); [reflexivity|discriminate|vm_compute; reflexivity].
  - left. split; [reflexivity|]. cbn. lia.
Qed.
(** Odd digits with and without a pad; 35 has both pads. *)
Definition doc_pads : pdoc := sdict [("t", "0200"); ("h", "HD"); ("2", "12345"); ("35", "ABC"); ("64", "123456789012345")].
Lemma doc_pads_encodes : exists enc d', encode cpython311 (ADict doc_pads) rich =
    (Ok (raw [2]%N ++ asc "HD" ++ asc "0200" ++ asc "4000000020000001" ++ raw [5; 1; 35; 69]%N ++ raw [3; 10; 188]%N
         ++ raw [18; 52; 86; 120; 144; 18; 52; 95]%N, enc), d')%list
  /\ is_dict doc_pads.
Proof.
  eexists _, _. split; [vm_compute; reflexivity|].
  apply str_dict_check. vm_compute. reflexivity.
Qed.
Definition fs_nopad : fspec := fld_nib "b" "b" 1 20 None None.
Definition nopad : spec := full [(u "2", fs_nopad)].
Definition doc_odd : pdoc := sdict [("t", "0200"); ("2", "123")].
Lemma doc_odd_hyp : spec_complete nopad /\ widths_ok nopad /\ limits_ok cpython311 nopad /\ str_dict doc_odd /\ canonical_keys cpython311 doc_odd
  /\ value doc_odd (zstr 2) = Some (VStr (u "123")) /\ sget (zstr 2) nopad = Some fs_nopad.
Proof.
  split; [apply spec_complete_check; vm_compute; reflexivity|]. split; [apply widths_check; vm_compute; reflexivity|]. split; [apply limits_check; vm_compute; reflexivity|]. split; [apply str_dict_check; vm_compute; reflexivity|].
  split; [apply canonical_check; vm_compute; reflexivity|]. split; reflexivity.
Qed.
Lemma rich_sendable : bitmaps_sendable cpython311 rich.
Proof.
  assert (A : forall bm, exists data, str_encode cpython311 (u "ascii") (HEX bm) = COk data).
  { intro bm. exists (map n2b (HEX bm)). unfold str_encode. change (codec_of cpython311 (u "ascii")) with (Some ascii_codec).
    cbn [c_enc ascii_codec]. unfold ascii_codec. cbn [c_enc].
    assert (Hb : forallb (fun c => (c <? 128)%N) (HEX bm) = true).
    { apply forallb_forall. intros c Hc. apply N.ltb_lt. unfold HEX in Hc. apply in_flat_map in Hc as (x & _ & Hc). pose proof (b2n_lt x).
      assert (D : (b2n x / 16 < 16)%N) by (apply N.div_lt_upper_bound; lia). assert (M : (b2n x mod 16 < 16)%N) by (apply N.mod_lt; lia).
      pose proof (hexval_hexdig_upper_range _ D). pose proof (hexval_hexdig_upper_range _ M).
      destruct Hc as [<-|[<-|[]]]; rewrite HEX_digit_eq by assumption; lia. }
    revert Hb. generalize (HEX bm). clear. induction p as [|c p IH]; intro H; [reflexivity|]. cbn in H. apply andb_true_iff in H as [H1 H2].
    specialize (IH H2). cbn. cbn in IH. rewrite H1. destruct (mapM _ p) as [r|]; [|discriminate]. injection IH as ->. reflexivity. }
  intros k bm Hk _. destruct (A bm) as [data Hd].
  destruct Hk as [->| ->]; [exists (fld "ascii" "ascii" 0 16 "Bitmap, Primary")|exists (fld "ascii" "ascii" 0 16 "Bitmap, Secondary")];
    exists data; (split; [reflexivity|]); (apply EncBitmapText with (u "ascii"); [reflexivity|discriminate|assumption]).
Qed.
Lemma rich_header_on : header_on rich.
Proof. exists (fld "ascii" "b" 1 10 "Message Header"), 10%Z. repeat split. Qed.
Lemma default_header_off : header_off default.
Proof. eexists _, _. split; [reflexivity|]. split; [reflexivity|]. lia. Qed.
Lemma doc_rich_history :
  history cpython311 [Enc rich; Put (KStr (u "1")) (VStr []); Enc rich] doc_rich = doc_rich_after
  /\ same_content doc_rich_after (rev (content doc_rich)).
Proof.
  split; [vm_compute; reflexivity|]. intros k v Hb. rewrite <- in_rev.
  assert (H : content doc_rich = content doc_rich_after) by (vm_compute; reflexivity). rewrite H. unfold content.
  rewrite filter_In. cbn [fst]. rewrite Hb. tauto.
Qed.
Lemma doc_rich_content : length doc_rich = 8%nat /\ length (content doc_rich) = 6%nat
  /\ content doc_rich = content doc_rich_after.
Proof. split; [|split]; vm_compute; reflexivity. Qed.

(** A negative width for a binary length. *)
Definition negative : spec := full [(u "2", fld "ascii" "b" (-1) 19 "negative")].
Lemma doc_negative : exists d', encode cpython311 (ADict (sdict [("t", "0200"); ("2", "1")])) negative = (Raise XValueError, d')
  /\ spec_complete negative /\ str_dict (sdict [("t", "0200"); ("2", "1")]) /\ negative_width negative (u "2").
Proof.
  eexists. split; [vm_compute; reflexivity|]. split; [apply spec_complete_check; vm_compute; reflexivity|].
  split; [apply str_dict_check; vm_compute; reflexivity|]. eexists _, (-1)%Z. split; [reflexivity|]. split; [reflexivity|lia].
Qed.

(** The refutations, as the property files state them. *)
Lemma str_dict_keyerror : exists d k d', str_dict d /\ spec_complete (full []) /\ widths_ok (full [])
  /\ limits_ok cpython311 (full [])
  /\ encode cpython311 (ADict d) (full []) = (Raise (XKeyError k), d').
Proof. destruct doc_02_keyerror as (d' & H & Hs). eexists _, _, _. split; [exact Hs|]. split; [exact full_default_complete|]. split; [exact full_default_widths|]. split; [exact full_default_limits|exact H]. Qed.
Lemma str_dict_valueerror : exists d d', str_dict d /\ spec_complete (full []) /\ widths_ok (full [])
  /\ limits_ok cpython311 (full [])
  /\ encode cpython311 (ADict d) (full []) = (Raise XValueError, d').
Proof. destruct doc_sup_valueerror as (d' & H & Hs). eexists _, _. split; [exact Hs|]. split; [exact full_default_complete|]. split; [exact full_default_widths|]. split; [exact full_default_limits|exact H]. Qed.
Lemma noncanonical_bitmap : exists d s enc d',
  encode cpython311 (ADict d) (full []) = (Ok (s, enc), d')
  /\ str_dict d /\ has_key d' (u "1") /\ forall n, (65 <= n <= 192)%Z -> ~ has_key d (zstr n).
Proof. destruct doc_01_empty_secondary as (enc & d' & H). eexists _, _, _, _. exact H. Qed.
Lemma default_keyerror : exists d k d', encode cpython311 (ADict d) default = (Raise (XKeyError k), d')
  /\ str_dict d /\ canonical_keys cpython311 d.
Proof. destruct doc_129_keyerror as (d' & H). eexists _, _, _. exact H. Qed.
