(** * EscapeSamples: the shipped specs, and concrete cases for C49. *)
From Verif Require Import PyBase BaseFacts Types Numerals NumeralFacts Encoder Wire WireEncode Claims CPython311 Specs Samples SampleFacts
  DecoderFacts DecodeRun EncoderFacts DecodeFault EncodeFault EncodeEscape EncodeRun EncodeWhole EncodeTheorems2 EncodeTheorems3 EncodeSamples EncodeFaultFacts EncodeFaultWhole
  EncodeEscapeFacts EncodeEscapeWhole DecodeGapFacts GapSamples.
Local Open Scope string_scope.
Local Open Scope list_scope.
Local Opaque data_fields.

Lemma value_escape_not_str fs nib v x : value_escape fs nib v x -> ~ is_str v.
Proof. intros [de H1 H2 H3 H4|de n H1 H2 H3 H4 H5 H6 H7|de H1 H2 H3 H4] [s ->]; try discriminate. apply H6. now exists s. Qed.
Lemma field_escape_complete E sp k fs v x : widths_ok sp -> limits_ok E sp -> sget k sp = Some fs -> mandatory fs -> is_str v -> field_escape E fs v x -> False.
Proof.
  intros Hw Hlim Hk (H1 & H2 & H3 & H4) Hv [y H|data n H5 H6|data n lt H5 H6 H7|data n lt ml H5 H6 H7 H8 H9 H10|data n lt ml le H5 H6 H7|data n ml H5 H6 H7 H8 H9|data n lt ml H5 H6 H7 H8 H9 H10]; try congruence.
  - eapply value_escape_not_str; eauto.
  - apply (Hw k). exists fs, lt. auto.
  - apply (Hlim k). exists fs, ml. auto.
  - apply (Hlim k). exists fs, ml. auto.
Qed.

(** Dicts of strings and decimal keys against a spec of h, t, p, 1 and 2..128. *)
Lemma classic_escape E sp d x d' : env_ok E -> classic sp -> widths_ok sp -> limits_ok E sp -> str_dict d -> canonical_keys E d ->
  (encode_escape E sp d x d' <->
   exists bm1 bm2 bm3 done f rest, (129 <= f <= 192)%Z /\ x = XKeyError (zstr f) /\ d' = with_bitmaps d bm1 bm2 bm3
     /\ keys_ok E d /\ bitmaps_for E d bm1 bm2 bm3 /\ plan sp bm1 bm2 bm3 = map fst done ++ zstr f :: rest
     /\ Forall (entry_sent E sp d bm1 bm2 bm3) done).
Proof.
  intros HE (C1 & C2 & C3) Hwd Hlim [Hd Hstr] Hcan.
  assert (Hval : forall k v, value d k = Some v -> is_str v).
  { intros k v H. eapply str_dict_value; [|exact H]. now split. }
  assert (Hm : forall k fs, entry_complete sp k -> sget k sp = Some fs -> mandatory fs).
  { intros k fs (fs' & H1 & H2) H. congruence. }
  assert (Hn : forall k, entry_complete sp k -> sget k sp <> None) by (intros k (fs & ? & _); congruence).
  split.
  - intros (bm1 & bm2 & bm3 & done & k & rest & Hbm & Hp & Hs & He). exists bm1, bm2, bm3, done.
    destruct (esc_key _ _ _ _ _ _ _ _ _ He) as [->|[->|[->|[->|(f & Hf & ->)]]]].
    + exfalso. assert (Hc := C1 (u "h") (or_introl eq_refl)). apply esc_h in He as [_ [[H _]|(fs & H1 & H2)]]; [now apply Hn in H|].
      pose proof (Hm _ _ Hc H1) as M. destruct H2 as [[H2 _]|(ml & v & H2 & H3 & [[H4 _]|H4])].
      * destruct M as (_ & _ & _ & M). congruence. * destruct M as (M & _). congruence.
      * eapply field_escape_complete; eauto.
    + exfalso. assert (Hc := C1 (u "t") ltac:(auto)). apply esc_t in He as (_ & v & Hv & [[H _]|(fs & H1 & H2)]); [now apply Hn in H|].
      pose proof (Hm _ _ Hc H1) as (M1 & _). destruct H2 as [[H2 _]|H2]; [congruence|]. eapply value_escape_not_str; eauto.
    + exfalso. assert (Hc := C1 (u "p") ltac:(auto)). apply esc_p in He as [(H & _)|[_ [(H & _)|(fs & H1 & H2 & _)]]]; [|now apply Hn in H|].
      * apply numeric_unreadable in H as (pre & s & post & H1 & _ & H2 & H3).
        assert (Hi : In (KStr s) (map fst (pops d))) by (change (pops d) with (cleared d); rewrite H1; apply in_or_app; right; now left).
        apply pops_keys in Hi as [Hi _]; [|assumption]. destruct (Hcan s Hi H2) as (Hl & n & Hn0 & ->).
        apply py_int_no_text in H3. rewrite py_int_digits in H3; auto using zstr_digits; [discriminate|]. rewrite zstr_nonneg by assumption. apply dec_nonempty.
      * destruct (Hm _ _ Hc H1). congruence.
    + exfalso. assert (Hc := C1 (u "1") ltac:(auto)). apply esc_1 in He as [_ [(H & _)|(fs & H1 & H2 & _)]]; [now apply Hn in H|].
      destruct (Hm _ _ Hc H1). congruence.
    + pose proof (proj1 (data_fields_in f) Hf) as Hr. apply esc_f in He as (Hk & -> & He); [|assumption].
      destruct (Z_le_gt_dec f 128) as [Hle|Hgt].
      * exfalso. pose proof (C2 f Hf Hle) as Hc. destruct He as [[H _]|(fs & H1 & [[H2 _]|[(H2 & H3 & _)|(v & H2 & H3)]])]; [now apply Hn in H| | |].
        -- destruct (Hm _ _ Hc H1). congruence.
        -- assert (Hin : In (zstr f) (plan sp bm1 bm2 bm3)) by (rewrite Hp; apply in_or_app; right; now left).
           apply plan_in in Hin as [Hi|[Hi|[Hi|[[Hi _]|(g & Hg & Ha & Hi)]]]].
           { destruct (zstr_name f Hf) as (N & _). destruct (header_key_two sp) as [E1|E1]; rewrite E1 in Hi; simpl in Hi; intuition congruence. }
           { destruct (zstr_name f Hf); intuition congruence. }
           { destruct (zstr_name f Hf); intuition congruence. }
           { destruct (zstr_name f Hf); intuition congruence. }
           pose proof (proj1 (data_fields_in g) Hg) as Hrg. apply zstr_inj in Hi; [|lia|lia]. subst g.
           apply (announced_sends E d bm1 bm2 bm3 Hbm f Hf) in Ha. destruct Ha as [Ha|[[Ha _]|[Ha _]]]; [|lia|lia].
           apply canonical_field in Ha as [Ha _]; [|assumption..]. now apply (dget_none key_eqb key_eqb_spec) in H3.
        -- eapply field_escape_complete; eauto.
      * exists f, rest. assert (Hr' : (129 <= f <= 192)%Z) by lia. pose proof (C3 f Hr') as Hno.
        destruct He as [[_ ->]|(fs & H1 & _)]; [auto 10|congruence].
  - intros (bm1 & bm2 & bm3 & done & f & rest & Hr & -> & -> & Hk & Hbm & Hp & Hs).
    exists bm1, bm2, bm3, done, (zstr f), rest. do 3 (split; [assumption|]). apply FieldEntryMissing; [assumption| |now apply C3].
    apply data_fields_in. lia.
Qed.

Theorem shipped_encode_escapes E sp d x : env_ok E -> sp = default \/ sp = default_ascii -> str_dict d -> canonical_keys E d ->
  ((exists d', encode E (ADict d) sp = (Raise x, d')) /\ (forall e, x <> XEncodeError e) <->
   exists bm1 bm2 bm3 done f rest, (129 <= f <= 192)%Z /\ x = XKeyError (zstr f)
     /\ keys_ok E d /\ bitmaps_for E d bm1 bm2 bm3 /\ plan sp bm1 bm2 bm3 = map fst done ++ zstr f :: rest
     /\ Forall (entry_sent E sp d bm1 bm2 bm3) done).
Proof.
  intros HE Hsp Hd Hc. assert (C : classic sp) by (destruct Hsp as [->| ->]; [apply default_classic|apply default_ascii_classic]).
  assert (W : widths_ok sp) by (destruct Hsp as [->| ->]; [exact (proj1 shipped_widths)|exact (proj2 shipped_widths)]).
  assert (Hlim : limits_ok E sp) by (destruct (shipped_numbers E HE); destruct Hsp as [->| ->]; now apply numbers_limits).
  assert (I := fun d' => encode_escape_iff E sp d x d' (proj1 Hd)). assert (J := fun d' => classic_escape E sp d x d' HE C W Hlim Hd Hc). split.
  - intros [[d' H1] H2]. pose proof (proj1 (J d') (proj1 (I d') (conj H1 H2))) as (bm1 & bm2 & bm3 & done & f & rest & H). 
    exists bm1, bm2, bm3, done, f, rest. tauto.
  - intros (bm1 & bm2 & bm3 & done & f & rest & H1 & H2 & H3). 
    destruct (proj2 (I (with_bitmaps d bm1 bm2 bm3))) as [H4 H5]; [|eauto]. apply J. exists bm1, bm2, bm3, done, f, rest. tauto.
Qed.

(** What escapes, and the keys of the caller's dict afterwards. *)
Definition escape_case (d : pdoc) (sp : spec) : option (exn * list pykey) :=
  match encode cpython311 (ADict d) sp with
  | (Raise (XEncodeError _), _) => None
  | (Raise x, d') => Some (x, map fst d')
  | (Ok _, _) => None
  end.
Lemma escape_case_escape d sp x keys : is_dict d -> escape_case d sp = Some (x, keys) ->
  exists d', encode_escape cpython311 sp d x d' /\ map fst d' = keys.
Proof.
  intros Hd. unfold escape_case. destruct (encode _ _ _) as [[r|y] d'] eqn:H; [discriminate|]. intro Hc. exists d'.
  destruct y; try discriminate; injection Hc as <- <-; (split; [|reflexivity]); apply encode_escape_iff; auto; (split; [exact H|discriminate]).
Qed.
Definition nib_fld : fspec := fld_nib "b" "b" 1 19 (Some "0") None.
Lemma escape_cases :
  let ks := map (fun s => KStr (u s)) in
  let with2 fs := sset (u "2") fs default in
  let d2 v := sdict [("t", "0200")] ++ [(KStr (u "2"), v)] in
  escape_case (sdict [("t", "0200"); ("130", "1")]) default = Some (XKeyError (u "130"), ks ["t"; "130"; "p"; "1"])
  /\ escape_case (sdict [("t", "0200"); ("1", "x")]) [] = Some (XKeyError (u "h"), ks ["t"])
  /\ escape_case (sdict [("t", "0200"); ("02", "12")]) default = Some (XKeyError (u "2"), ks ["t"; "02"; "p"])
  /\ escape_case (sdict [("t", "0200")] ++ [(KStr [189%N], VStr [])]) default = Some (XValueError, [KStr (u "t"); KStr [189%N]])
  /\ escape_case (sdict [("t", "020")] ++ [(KStr [189%N], VStr [])]) default = None
  /\ escape_case (d2 (VStr (u "1234"))) (with2 (entry_with (Some "ascii") (Some "ascii") None (Some 19%Z))) = Some (XKeyError (u "len_type"), ks ["t"; "2"; "p"])
  /\ escape_case (d2 (VStr (u "1234"))) (with2 (entry_with (Some "ascii") None (Some 2%Z) (Some 19%Z))) = Some (XKeyError (u "len_enc"), ks ["t"; "2"; "p"])
  /\ escape_case (d2 (VStr (u "1234"))) (with2 (entry_with (Some "ascii") None (Some 2%Z) (Some 3%Z))) = None
  /\ escape_case (d2 (VStr (u "1234"))) (with2 (entry_with (Some "ascii") None (Some 0%Z) (Some 4%Z))) = None
  /\ escape_case (d2 (VOther None)) (with2 nib_fld) = Some (XUnboundLocalError, ks ["t"; "2"; "p"])
  /\ escape_case (d2 (VBytes (asc "123"))) (with2 nib_fld) = Some (XUnboundLocalError, ks ["t"; "2"; "p"])
  /\ escape_case (d2 (VBytes (asc "1234"))) (with2 nib_fld) = None
  /\ escape_case (d2 (VOther None)) (with2 (fld "b" "b" 1 19 "hex")) = Some (XTypeError (u "object has no len()"), ks ["t"; "2"; "p"])
  /\ escape_case (d2 (VStr (u "1"))) (with2 (fld "ascii" "bcd" (-1) 19 "")) = Some (XValueError, ks ["t"; "2"; "p"])
  /\ escape_case (d2 (VOther None)) default = None.
Proof. vm_compute. auto 20. Qed.

Lemma encode_other E cls sp : fst (encode E (AOther cls) sp) =
  Raise (XTypeError (u "Decoded ISO8583 data must be dict, not " ++ cls)).
Proof. reflexivity. Qed.
