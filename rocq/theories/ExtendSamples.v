(** * ExtendSamples: concrete cases for C46. *)
From Verif Require Import PyBase BaseFacts Types Decoder Encoder Wire WireEncode Claims Claims4 CPython311 Specs Samples.
From Verif Require Import CodecFacts SampleFacts DecoderFacts EncodeSamples.
Local Open Scope string_scope.
Local Open Scope list_scope.

Lemma wider_refl fs : wider fs fs.
Proof. unfold wider. repeat (split; [reflexivity|]). destruct (fs_max_len fs); [split; [lia|auto]|exact I]. Qed.
(** One entry replaced by a wider one, or added. *)
Lemma extends_one sp k fs' : (exists h, sget (u "h") sp = Some h) -> k <> u "h" ->
  (forall fs, sget k sp = Some fs -> wider fs fs') -> extends sp (sset k fs' sp).
Proof.
  intros Hh Hk W. split; [assumption|]. intros j fs G. destruct (str_eqb k j) eqn:Q.
  - apply str_eqb_eq in Q. subst j. exists fs'. split; [apply sget_sset|]. split; [auto|]. intro. congruence.
  - apply str_eqb_neq in Q. exists fs. split; [|split; [apply wider_refl|]].
    + unfold sget, sset in *. rewrite dget_dset_other; [assumption|apply str_eqb_spec|congruence].
    + intros _ ml ml' H1 H2. rewrite H1 in H2. injection H2 as ->. tauto.
Qed.
(** The default spec with PANs of up to 25 digits, and with a field 129. *)
Definition wide_pan : spec := sset (u "2") (fld "ascii" "ascii" 2 25 "Primary Account Number (PAN)") default.
Definition more_fields : spec := sset (u "129") (fld "ascii" "ascii" 3 999 "Reserved") default.
Lemma wide_pan_extends : extends default wide_pan.
Proof.
  apply extends_one; [eexists; vm_compute; reflexivity|discriminate|]. intros fs H. vm_compute in H. injection H as <-.
  unfold wider. cbn. repeat (split; [reflexivity|]). split; [lia|discriminate].
Qed.
Lemma more_fields_extends : extends default more_fields.
Proof. apply extends_one; [eexists; vm_compute; reflexivity|discriminate|]. intros fs H. vm_compute in H. discriminate. Qed.
Lemma long_pan : exists d, fst (encode cpython311 (ADict d) default) <> fst (encode cpython311 (ADict d) wide_pan)
  /\ exists r, fst (encode cpython311 (ADict d) wide_pan) = Ok r.
Proof.
  exists (sdict [("t", "0200"); ("2", "12345678901234567890")]). assert (H : exists r, fst (encode cpython311 (ADict (sdict [("t", "0200"); ("2", "12345678901234567890")])) wide_pan) = Ok r) by (vm_compute; eexists; reflexivity).
  split; [|exact H]. destruct H as [r ->]. vm_compute. discriminate.
Qed.
(** Raising the length of a fixed field is no extension. *)
Definition long_code : spec := sset (u "3") (fld "ascii" "ascii" 0 7 "Processing Code") default.
Lemma fixed_refuted : exists s r, decode cpython311 s default = Ok r /\ decode cpython311 s long_code <> Ok r.
Proof.
  exists (InBytes (asc "0200" ++ raw [32; 0; 0; 0; 0; 0; 0; 0]%N ++ asc "123456")). eexists. split; [vm_compute; reflexivity|vm_compute; discriminate].
Qed.
