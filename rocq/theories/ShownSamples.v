(** * ShownSamples: numbers too long to be shown. *)
From Verif Require Import PyBase BaseFacts Types Decoder Encoder Wire WireEncode Claims CPython311 Specs Samples.
From Verif Require Import CodecFacts Numerals Shown SampleFacts EncodeSamples.
Local Open Scope string_scope.
Local Open Scope list_scope.
Local Opaque data_fields.

(** CPython after sys.set_int_max_str_digits(640), the least limit it accepts. *)
Definition strict311 : pyenv := {|
  codec_of := codec_of cpython311; encode_why := encode_why cpython311; format_why := format_why cpython311;
  u_numeric := u_numeric cpython311; u_decimal := u_decimal cpython311; u_space := u_space cpython311;
  u_printable := u_printable cpython311; int_max_digits := Some 640%N |}.
(** Field 2 has the fixed length [n]. *)
Definition fixed_2 (n : Z) : spec := full [(u "2", fld "ascii" "ascii" 0 n "")].
Definition msg_2 : bytes := asc "0200" ++ raw [64; 0; 0; 0; 0; 0; 0; 0]%N ++ asc "12".
Definition doc_2 : pdoc := sdict [("t", "0200"); ("2", "12")].

Lemma strict311_ok : env_ok strict311.
Proof.
  destruct c311_env_ok as [H _]. split.
  - intros n Hn. exact (H n Hn).
  - intros m [= <-]. lia.
Qed.
Lemma shipped_limits : limits_ok cpython311 default /\ limits_ok cpython311 default_ascii.
Proof. destruct (shipped_numbers _ c311_env_ok) as [A B]. auto using numbers_limits. Qed.
Lemma sample_numbers : numbers_ok cpython311 rich /\ numbers_ok cpython311 default /\ numbers_ok cpython311 default_ascii.
Proof. exact (conj rich_numbers (shipped_numbers _ c311_env_ok)). Qed.
Lemma decode_unshown : env_ok strict311 /\ spec_complete (fixed_2 (10 ^ 640))
  /\ decode strict311 (InBytes msg_2) (fixed_2 (10 ^ 640)) = Raise XValueError
  /\ exists e, decode strict311 (InBytes msg_2) (fixed_2 (10 ^ 639)) = Raise (XDecodeError e) /\ de_field e = u "2".
Proof.
  split; [exact strict311_ok|]. split; [apply spec_complete_check; vm_compute; reflexivity|].
  split; [vm_compute; reflexivity|]. eexists. split; [vm_compute; reflexivity|reflexivity].
Qed.
Lemma encode_unshown : (exists d', encode strict311 (ADict doc_2) (fixed_2 (10 ^ 640)) = (Raise XValueError, d'))
  /\ str_dict doc_2 /\ canonical_keys strict311 doc_2 /\ long_limit strict311 (fixed_2 (10 ^ 640)) (u "2")
  /\ exists e d', encode strict311 (ADict doc_2) (fixed_2 (10 ^ 639)) = (Raise (XEncodeError e), d') /\ ee_field e = u "2".
Proof.
  split; [eexists; vm_compute; reflexivity|]. split; [apply str_dict_check; vm_compute; reflexivity|].
  split; [apply canonical_check; vm_compute; reflexivity|].
  split; [eexists _, _; split; [reflexivity|split; [reflexivity|]]; apply prints_not; vm_compute; reflexivity|].
  eexists _, _. split; [vm_compute; reflexivity|reflexivity].
Qed.
