(** * SampleFacts: the samples meet the hypotheses of the theorems. *)
From Coq Require Import ZifyBool ZifyNat ZifyN.
From Verif Require Import PyBase BaseFacts Types Decoder Wire CPython311 Specs Samples CodecFacts Shown DecodeRun DecodeTheorems.

Lemma c311_fit sp : bitmaps_fit cpython311 sp.
Proof. apply fit_of_shrink. apply c311_never_expands. Qed.

Definition completeb (sp : spec) (k : pystr) : bool :=
  match sget k sp with
  | Some fs => match fs_data_enc fs, fs_len_enc fs, fs_len_type fs, fs_max_len fs with
               | Some _, Some _, Some _, Some _ => true | _, _, _, _ => false end
  | None => false
  end.
Lemma completeb_ok sp k : completeb sp k = true -> entry_complete sp k.
Proof.
  unfold completeb, entry_complete, mandatory. destruct (sget k sp) as [fs|]; [|discriminate]. intro H. exists fs.
  split; [reflexivity|]. destruct (fs_data_enc fs), (fs_len_enc fs), (fs_len_type fs), (fs_max_len fs); try discriminate.
  repeat split; discriminate.
Qed.
Lemma spec_complete_check sp :
  forallb (completeb sp) ([u "h"; u "t"; u "p"; u "1"] ++ map zstr data_fields) = true -> spec_complete sp.
Proof.
  intro H. rewrite forallb_forall in H.
  assert (Hin : forall k, In k ([u "h"; u "t"; u "p"; u "1"] ++ map zstr data_fields) -> entry_complete sp k).
  { intros k Hk. apply completeb_ok. auto. }
  repeat split; try (apply Hin; apply in_app_iff; left; simpl; tauto).
  intros f Hf. apply Hin. apply in_app_iff. right. apply in_map. assumption.
Qed.
Lemma widths_check sp :
  forallb (fun kf => match fs_len_type (snd kf) with Some lt => (0 <=? lt)%Z | None => true end) sp = true -> widths_ok sp.
Proof.
  intros H k (fs & lt & H1 & H2 & H3). apply (dget_in str_eqb str_eqb_spec) in H1. rewrite forallb_forall in H.
  apply H in H1. cbn [snd] in H1. rewrite H2 in H1. lia.
Qed.
Lemma rich_widths : widths_ok rich. Proof. apply widths_check. vm_compute. reflexivity. Qed.
Lemma full_default_widths : widths_ok (full []). Proof. apply widths_check. vm_compute. reflexivity. Qed.
Lemma shipped_widths : widths_ok default /\ widths_ok default_ascii.
Proof. split; apply widths_check; vm_compute; reflexivity. Qed.
(** The numbers an entry may have to show. *)
Definition shownb (E : pyenv) (fs : fspec) : bool :=
  match fs_len_type fs with
  | Some lt => prints E lt && match fs_len_enc fs with
                              | Some le => if str_eqb le str_b then prints E (256 ^ lt - 1) else true
                              | None => true end
  | None => true
  end && match fs_max_len fs with Some ml => prints E ml | None => true end.
Lemma shownb_ok E fs : shownb E fs = true -> shows_numbers E fs.
Proof.
  unfold shownb, shows_numbers. intro H. apply andb_true_iff in H as [H1 H2]. split.
  - intros n [Hn|Hn]; rewrite Hn in *; [|now apply prints_showable]. apply andb_true_iff in H1 as [H1 _]. now apply prints_showable.
  - intros le lt n Hle Hb Hlt Hn. rewrite Hlt, Hle in H1. rewrite (proj2 (str_eqb_eq le str_b) Hb) in H1.
    apply andb_true_iff in H1 as [_ H1]. apply prints_showable in H1. apply (showable_le _ _ _ H1). lia.
Qed.
Lemma numbers_check E sp : forallb (fun kf => shownb E (snd kf)) sp = true -> numbers_ok E sp.
Proof.
  intros H k fs Hk. apply (dget_in str_eqb str_eqb_spec) in Hk. rewrite forallb_forall in H. apply H in Hk. now apply shownb_ok.
Qed.
Lemma numbers_limits E sp : numbers_ok E sp -> limits_ok E sp.
Proof. intros H k (fs & ml & H1 & H2 & H3). apply H3. destruct (H k fs H1) as [A _]. auto. Qed.
Lemma limits_check E sp : forallb (fun kf => shownb E (snd kf)) sp = true -> limits_ok E sp.
Proof. intro H. now apply numbers_limits, numbers_check. Qed.
Lemma rich_numbers : numbers_ok cpython311 rich. Proof. apply numbers_check. vm_compute. reflexivity. Qed.
Lemma rich_limits : limits_ok cpython311 rich. Proof. apply numbers_limits, rich_numbers. Qed.
Lemma full_default_limits : limits_ok cpython311 (full []). Proof. apply limits_check. vm_compute. reflexivity. Qed.
(** Small numbers need no particular interpreter. *)
Definition smallb (fs : fspec) : bool :=
  let small n := (Z.abs n <? 10 ^ 18)%Z in
  match fs_len_type fs with Some lt => small lt && small (256 ^ lt)%Z | None => true end
  && match fs_max_len fs with Some ml => small ml | None => true end.
Lemma smallb_ok E fs : env_ok E -> smallb fs = true -> shows_numbers E fs.
Proof.
  intros HE H. unfold smallb in H. cbv zeta in H. apply andb_true_iff in H as [H1 H2]. split.
  - intros n [Hn|Hn]; rewrite Hn in *; apply small_showable; auto; [apply andb_true_iff in H1 as [H1 _]|]; now apply Z.ltb_lt.
  - intros le lt n _ _ Hlt Hn. rewrite Hlt in H1. apply andb_true_iff in H1 as [_ H1]. apply Z.ltb_lt in H1.
    apply small_showable; [assumption|]. remember (10 ^ 18)%Z as m. lia.
Qed.
Lemma small_check E sp : env_ok E -> forallb (fun kf => smallb (snd kf)) sp = true -> numbers_ok E sp.
Proof.
  intros HE H k fs Hk. apply (dget_in str_eqb str_eqb_spec) in Hk. rewrite forallb_forall in H. apply H in Hk. now apply smallb_ok.
Qed.
Lemma shipped_numbers E : env_ok E -> numbers_ok E default /\ numbers_ok E default_ascii.
Proof. intro HE. split; apply small_check; auto; vm_compute; reflexivity. Qed.
Lemma rich_complete : spec_complete rich.
Proof. apply spec_complete_check. vm_compute. reflexivity. Qed.
Lemma full_default_complete : spec_complete (full []).
Proof. apply spec_complete_check. vm_compute. reflexivity. Qed.

Lemma holds_bytes b : holds (InBytes b) b.
Proof. now left. Qed.
Lemma holds_bytearray b : holds (InBytearray b) b.
Proof. now right. Qed.

Lemma rich_decodes : exists dec enc, decode cpython311 (InBytes msg_rich) rich = Ok (dec, enc)
  /\ map fst dec = [u "h"; u "t"; u "p"; u "1"; u "2"; u "3"; u "66"; u "130"]
  /\ sget (u "2") dec = Some (u "12345") /\ sget (u "130") dec = Some (u "abc").
Proof. vm_compute. eexists _, _. repeat split. Qed.

(** Bits 1, 65 and 129: the shipped specs have no field 129. *)
Definition hostile : bytes := asc "0200" ++ raw [128; 0; 0; 0; 0; 0; 0; 0; 128; 0; 0; 0; 0; 0; 0; 0; 128; 0; 0; 0; 0; 0; 0; 0]%N.
Lemma default_keyerror : decode cpython311 (InBytes hostile) default = Raise (XKeyError (u "129")).
Proof. vm_compute. reflexivity. Qed.
Definition hostile_ascii : bytes := asc "0200" ++ asc "80000000000000008000000000000000" ++ asc "8000000000000000".
Lemma default_ascii_keyerror : decode cpython311 (InBytes hostile_ascii) default_ascii = Raise (XKeyError (u "129")).
Proof. vm_compute. reflexivity. Qed.
Lemma rich_fails : exists e, decode cpython311 (InBytes (firstn 60 msg_rich)) rich = Raise (XDecodeError e)
  /\ de_field e = u "3" /\ de_pos e = 59%Z.
Proof. vm_compute. eexists. repeat split. Qed.
Lemma rich_lower_decodes : exists dec dec' enc enc',
  decode cpython311 (InBytes msg_rich) rich = Ok (dec, enc) /\ Forall2 (recased_entry cpython311 rich) enc enc'
  /\ wire_bytes enc' = msg_rich_lower /\ enc <> enc'
  /\ decode cpython311 (InBytes msg_rich_lower) rich = Ok (dec', enc') /\ sget (u "2") dec' = Some (u "12345").
Proof.
  destruct (decode cpython311 (InBytes msg_rich) rich) as [[dec enc]|x] eqn:H1; [|vm_compute in H1; discriminate].
  destruct (decode cpython311 (InBytes msg_rich_lower) rich) as [[dec' enc']|x] eqn:H2; [|vm_compute in H2; discriminate].
  exists dec, dec', enc, enc'. vm_compute in H1. vm_compute in H2. injection H1 as <- <-. injection H2 as <- <-.
  split; [reflexivity|].
  assert (Hone : forall d d' t t', length d = 16%nat -> length d' = 16%nat ->
     bytes_decode cpython311 (u "ascii") d = COk t -> bytes_decode cpython311 (u "ascii") d' = COk t' -> py_upper t = py_upper t' ->
     recased cpython311 (fld "ascii" "ascii" 0 16 "Bitmap, Primary") d d'
     /\ recased cpython311 (fld "ascii" "ascii" 0 16 "Bitmap, Secondary") d d').
  { intros. split; exists (u "ascii"), t, t'; repeat split; auto; discriminate. }
  split.
  { repeat (apply Forall2_cons; [split; [reflexivity|]|]); [..|apply Forall2_nil]; try (left; reflexivity).
    - right. split; [left; reflexivity|]. split; [reflexivity|]. eexists. split; [vm_compute; reflexivity|].
      cbn [snd e_data]. apply RecasedOne. eapply Hone; vm_compute; reflexivity.
    - right. split; [right; reflexivity|]. split; [reflexivity|]. eexists. split; [vm_compute; reflexivity|].
      cbn [snd e_data].
      match goal with |- recased_run _ _ ?d ?d' => rewrite <- (firstn_skipn 16 d), <- (firstn_skipn 16 d') end.
      apply RecasedMore; [apply RecasedOne|]; eapply Hone; vm_compute; reflexivity. }
  split; [vm_compute; reflexivity|]. split; [discriminate|]. split; vm_compute; reflexivity.
Qed.
