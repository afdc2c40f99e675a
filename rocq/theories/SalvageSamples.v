(** * SalvageSamples: concrete cases for C59. *)
From Verif Require Import PyBase BaseFacts Types Decoder Encoder Wire WireEncode Claims Claims8 Claims10 CPython311 Specs Samples.
From Verif Require Import DecoderFacts DecodeRun DecodeTheorems EncoderFacts EncodeRun CodecFacts SampleFacts EncodeSamples Lookup RoundtripSamples.
Local Open Scope string_scope.
Local Open Scope list_scope.
Local Opaque data_fields.

(** [msg_rich] cut off in its last field. *)
Definition msg_cut : bytes := firstn (length msg_rich - 1) msg_rich.
Definition msg_kept : bytes :=
  raw [2]%N ++ asc "HD" ++ asc "0200" ++ asc "E000000000000000" ++ asc "4000000000000000" ++ raw [5; 1; 35; 69]%N
  ++ raw [241; 242; 243; 244; 245; 246]%N ++ asc "1".
Lemma cut_salvaged : exists e, decode cpython311 (InBytes msg_cut) rich = Raise (XDecodeError e)
  /\ de_field e = u "130" /\ salvaged_canonical cpython311 rich e
  /\ exists enc d, encode cpython311 (ADict (as_dict (salvaged_dec e))) rich = (Ok (msg_kept, enc), d).
Proof.
  destruct (decode cpython311 (InBytes msg_cut) rich) as [x|x] eqn:H; [vm_compute in H; discriminate|].
  vm_compute in H. injection H as <-. eexists. split; [reflexivity|]. split; [reflexivity|]. split; [|do 2 eexists; vm_compute; reflexivity].
  intros k fs en t K1 K2 K3 Hfs He Ht. apply sget_in in He; [|repeat constructor; vm_compute; intuition discriminate].
  match type of He with In _ ?l => let l' := eval vm_compute in l in change (In (k, en) l') in He end. cbn [In] in He.
  repeat match type of He with _ \/ _ => destruct He as [He|He] end; try contradiction;
    injection He as <- <-; vm_compute in Ht; try (injection Ht as <-); vm_compute in Hfs; injection Hfs as <-;
    try (exfalso; first [apply K1; reflexivity|apply K2; reflexivity|apply K3; reflexivity]); cbn [e_len e_data].
  - split; [intros lt le t _ _ [= <-] Hb; exfalso; apply Hb; reflexivity|discriminate].
  - split; [intros lt le t _ _ [= <-] _ Hb; exfalso; apply Hb; reflexivity|]. intros _ de [= <-]. cbn. intros _. left. eexists. split; reflexivity.
  - split; [intros lt le t [= Hl] Hz; lia|discriminate].
  - split; [intros lt le t [= Hl] Hz; lia|discriminate].
Qed.
