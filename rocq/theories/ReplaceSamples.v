(** * ReplaceSamples: concrete cases for C47. *)
From Verif Require Import PyBase BaseFacts Types Decoder Encoder Wire WireEncode Claims CPython311 Specs Samples.
From Verif Require Import CodecFacts SampleFacts EncodeSamples.
Local Open Scope string_scope.
Local Open Scope list_scope.

(** header, 0210, text bitmap for 2 and 3, and their data. *)
Definition msg_other : bytes :=
  raw [2]%N ++ asc "XY" ++ asc "0210" ++ asc "6000000000000000"
  ++ raw [19; 1; 35; 69; 103; 137; 1; 35]%N ++ raw [246; 245; 244; 243; 242; 241]%N.
(** [msg_rich] with the longer field 2 of [msg_other]. *)
Definition msg_pasted : bytes :=
  raw [2]%N ++ asc "HD" ++ asc "0200" ++ asc "E000000000000000" ++ asc "C000000000000000" ++ asc "4000000000000000"
  ++ raw [19; 1; 35; 69; 103; 137; 1; 35]%N ++ raw [241; 242; 243; 244; 245; 246]%N ++ asc "1" ++ asc "003abc".
Lemma paste_rich : exists dec1 enc1 dec2 enc2 e,
  decode cpython311 (InBytes msg_rich) rich = Ok (dec1, enc1) /\ decode cpython311 (InBytes msg_other) rich = Ok (dec2, enc2)
  /\ In (u "2") (map fst enc1) /\ sget (u "2") enc2 = Some e /\ sget (u "2") dec2 = Some (u "1234567890123")
  /\ wire_bytes (sset (u "2") e enc1) = msg_pasted /\ length msg_pasted = 76%nat /\ length msg_rich = 72%nat.
Proof.
  destruct (decode cpython311 (InBytes msg_rich) rich) as [[dec1 enc1]|x] eqn:H1; [|vm_compute in H1; discriminate].
  destruct (decode cpython311 (InBytes msg_other) rich) as [[dec2 enc2]|x] eqn:H2; [|vm_compute in H2; discriminate].
  vm_compute in H1, H2. injection H1 as <- <-. injection H2 as <- <-.
  eexists _, _, _, _, _. split; [reflexivity|]. split; [reflexivity|]. split; [vm_compute; tauto|]. split; [vm_compute; reflexivity|]. repeat split; vm_compute; reflexivity.
Qed.
(** A dict with the header of one dict and fields of another. *)
Definition doc_other : pdoc := sdict [("h", "XY"); ("t", "0210"); ("2", "1234567890123"); ("3", "654321")].
Definition doc_mixed : pdoc := sdict [("h", "XY"); ("3", "123456"); ("130", "abc"); ("t", "0210")].
Lemma mixed_rich : str_dict doc_rich /\ str_dict doc_other /\ str_dict doc_mixed
  /\ canonical_keys cpython311 doc_rich /\ canonical_keys cpython311 doc_other
  /\ (exists r, fst (encode cpython311 (ADict doc_rich) rich) = Ok r) /\ (exists r, fst (encode cpython311 (ADict doc_other) rich) = Ok r)
  /\ (forall k v, k <> u "p" -> k <> u "1" -> k <> u "65" -> value doc_mixed k = Some v -> value doc_rich k = Some v \/ value doc_other k = Some v)
  /\ has_key doc_mixed (u "t") /\ has_key doc_mixed (u "h").
Proof.
  split; [exact doc_rich_str|]. do 2 (split; [apply str_dict_check; vm_compute; reflexivity|]). split; [exact doc_rich_canonical|].
  split; [apply canonical_check; vm_compute; reflexivity|]. do 2 (split; [eexists; vm_compute; reflexivity|]).
  split; [|split; vm_compute; tauto]. intros k v _ _ _ H. unfold value, doc_mixed in H. cbn [sdict map dget] in H. cbv beta iota in H.
  repeat match goal with H : (if key_eqb (KStr k) (KStr ?q) then _ else _) = _ |- _ =>
    let Q := fresh in destruct (key_eqb (KStr k) (KStr q)) eqn:Q; [cbn in Q; apply str_eqb_eq in Q; subst k; injection H as <-; vm_compute; tauto|] end.
  discriminate.
Qed.
