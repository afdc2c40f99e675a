(** * SizeSamples: the sizes of the shipped specs, and messages that reach them. *)
From Verif Require Import PyBase BaseFacts Types Decoder Encoder Wire WireEncode Claims Claims5 CPython311 Specs Samples CodecFacts.
From Verif Require Import DecodeTheorems EncodeSamples SampleFacts Shipped ShippedLang DecodeGapFacts Size.
Local Open Scope string_scope. Local Open Scope list_scope.

(** Every field 2..128 with as many zeros as it takes. *)
Definition full_field (sp : spec) (n : nat) : bytes :=
  match sget (zstr (Z.of_nat n)) sp with
  | Some fs =>
      match fs_len_type fs, fs_max_len fs with
      | Some lt, Some ml => (if (lt =? 0)%Z then [] else map n2b (fmt0d (Z.to_nat lt) (Z.to_N ml))) ++ repeat x30 (Z.to_nat ml)
      | _, _ => []
      end
  | None => []
  end.
Definition full_fields (sp : spec) : bytes := flat_map (full_field sp) (seq 2 63 ++ seq 66 63).
Definition full_default : bytes := asc "0200" ++ repeat xff 16 ++ repeat x00 8 ++ full_fields default.
Definition full_ascii : bytes := asc "0200" ++ repeat x46 32 ++ repeat x30 16 ++ full_fields default_ascii.

Definition accepted_size (b : bytes) (sp : spec) : option Z :=
  match decode cpython311 (InBytes b) sp with Ok (_, enc) => Some (zlen (wire_bytes enc)) | Raise _ => None end.
Lemma full_default_accepted : accepted_size full_default default = Some (capacity default).
Proof. vm_compute. reflexivity. Qed.
Lemma full_ascii_accepted : accepted_size full_ascii default_ascii = Some (capacity default_ascii).
Proof. vm_compute. reflexivity. Qed.

(** ** The shipped specs *)
Lemma default_sizes : (least default (u "t") + least default (u "p") = 12 /\ capacity default = 35806)%Z.
Proof. vm_compute. split; reflexivity. Qed.
Lemma ascii_sizes : (least default_ascii (u "t") + least default_ascii (u "p") = 20 /\ capacity default_ascii = 36117)%Z.
Proof. vm_compute. split; reflexivity. Qed.
Lemma shipped_decode_size E s b dec enc : has_ascii E -> holds s b ->
  (decode E s default = Ok (dec, enc) -> 12 <= zlen b <= 35806)%Z
  /\ (decode E s default_ascii = Ok (dec, enc) -> 20 <= zlen b <= 36117)%Z.
Proof.
  intros Ha Hs. split; intro H.
  - pose proof (decode_floor E default s b dec enc (plain_fit _ _ Ha default_plain) Hs H) as X. destruct default_sizes as [A B]. rewrite A, B in X. exact X.
  - pose proof (decode_floor E default_ascii s b dec enc (plain_fit _ _ Ha default_ascii_plain) Hs H) as X. destruct ascii_sizes as [A B]. rewrite A, B in X. exact X.
Qed.
Lemma shipped_encode_size E d s enc d' : has_ascii E -> is_dict d ->
  (encode E (ADict d) default = (Ok (s, enc), d') -> 12 <= zlen s <= 35806)%Z
  /\ (encode E (ADict d) default_ascii = (Ok (s, enc), d') -> 20 <= zlen s <= 36117)%Z.
Proof.
  intros Ha Hd. split; intro H.
  - pose proof (encode_floor E default d s enc d' (plain_narrow _ _ Ha default_plain) Hd H) as X. destruct default_sizes as [A B]. rewrite A, B in X. exact X.
  - pose proof (encode_floor E default_ascii d s enc d' (plain_narrow _ _ Ha default_ascii_plain) Hd H) as X. destruct ascii_sizes as [A B]. rewrite A, B in X. exact X.
Qed.
Lemma sizes_reached : accepted_size full_default default = Some 35806%Z /\ accepted_size full_ascii default_ascii = Some 36117%Z
  /\ accepted_size (asc "0200" ++ repeat x00 8) default = Some 12%Z
  /\ accepted_size (asc "0200" ++ repeat x30 16) default_ascii = Some 20%Z.
Proof. vm_compute. repeat split; reflexivity. Qed.

(** ** What they can send *)
Lemma ascii_header_off : header_off default_ascii.
Proof. eexists _, _. split; [reflexivity|]. split; [reflexivity|]. lia. Qed.
Lemma shipped_sends E sp d : env_ok E -> has_ascii E -> sp = default \/ sp = default_ascii -> str_dict d -> canonical_keys E d ->
  ((exists s enc d', encode E (ADict d) sp = (Ok (s, enc), d')) <-> proper_message sp d).
Proof.
  intros HE Ha [->| ->] Hd Hk.
  - apply classic_sends; auto; [apply default_plain|apply default_classic|apply default_header_off|]. eexists. split; reflexivity.
  - apply classic_sends; auto; [apply default_ascii_plain|apply default_ascii_classic|apply ascii_header_off|]. eexists. split; reflexivity.
Qed.
Definition sends_it (d : list (string * string)) (sp : spec) : bool :=
  match encode cpython311 (ADict (sdict d)) sp with (Ok _, _) => true | _ => false end.
Lemma sends_cases :
  sends_it [("t", "0200"); ("2", "")] default = true
  /\ sends_it [("t", "0200"); ("2", "1234567890123456789"); ("1", "junk"); ("65", "junk"); ("extra", "x")] default = true
  /\ sends_it [("t", "0200"); ("2", "12345678901234567890")] default = false
  /\ sends_it [("t", "0200"); ("3", "12345")] default = false
  /\ sends_it [("t", "0200"); ("52", "0123456789abCDEF")] default = true
  /\ sends_it [("t", "0200"); ("52", "0123456789abCDE")] default = false
  /\ sends_it [("t", "0200"); ("55", "0x")] default = false
  /\ sends_it [("t", "0200"); ("55", "0x")] default_ascii = true
  /\ sends_it [("t", "020"); ("2", "")] default = false
  /\ sends_it [("2", "")] default = false
  /\ sends_it [("t", "0200"); ("129", "")] default = false
  /\ sends_it [("t", "0200"); ("0", "")] default = false.
Proof. vm_compute. repeat split; reflexivity. Qed.
Lemma fixed_message : exists enc d', encode cpython311 (ADict (sdict [("t", "0200"); ("3", "123456")])) default
    = (Ok (asc "0200" ++ x20 :: repeat x00 7 ++ asc "123456", enc), d')
  /\ Forall (one_size default) (map fst enc) /\ total (most default) (map fst enc) = 18%Z.
Proof.
  eexists _, _. split; [vm_compute; reflexivity|]. split; [|vm_compute; reflexivity].
  constructor; [now left|]. constructor; [now right; left|]. constructor; [|constructor].
  right. right. split; [discriminate|]. eexists. split; reflexivity.
Qed.
