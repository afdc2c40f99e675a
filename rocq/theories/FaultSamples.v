(** * FaultSamples: witnesses for the properties of faults and streams. *)
From Verif Require Import PyBase BaseFacts Types Decoder Wire CPython311 Specs Samples SampleFacts DecodeFault Claims3
  DecodeFaultFacts DecodeCut.
Local Open Scope string_scope.
Local Open Scope list_scope.

(** A fault of every kind, each with the message and the position decode reports. *)
Definition fault_case (input : bytes) (sp : spec) : option (pystr * pystr * Z) :=
  match decode cpython311 (InBytes input) sp with
  | Raise (XDecodeError e) => Some (de_msg e, de_field e, de_pos e)
  | _ => None
  end.
Lemma fault_cases :
  fault_case (raw [11]%N) rich = Some (u "Field data is 11 bytes, larger than maximum 10", u "h", 0%Z)
  /\ fault_case (raw [1]%N ++ asc "H02") rich = Some (u "Field data is 2 bytes, expecting 4", u "t", 2%Z)
  /\ fault_case (asc "0200" ++ raw [64]%N) default = Some (u "Field data is 1 bytes, expecting 8", u "p", 4%Z)
  /\ fault_case (raw [0]%N ++ asc "0200G000000000000000") rich = Some (u "Failed to decode field, non-hex data", u "p", 5%Z)
  /\ fault_case (asc "0200" ++ raw [64; 0; 0; 0; 0; 0; 0; 0]%N ++ asc "0x") default
     = Some (u "Failed to decode field length, non-numeric data", u "2", 12%Z)
  /\ fault_case (asc "0200" ++ raw [64; 0; 0; 0; 0; 0; 0; 0]%N ++ asc "041") default
     = Some (u "Field data is 1 bytes, expecting 4", u "2", 14%Z)
  /\ fault_case (asc "0200" ++ raw [64; 0; 0; 0; 0; 0; 0; 0]%N ++ asc "-91") default
     = Some (u "Field data is 0 bytes, expecting -9", u "2", 14%Z)
  /\ fault_case (asc "0200" ++ raw [64; 0; 0; 0; 0; 0; 0; 0]%N ++ asc "041234") (sset (u "2") (fld "ascii" "ascii" (-13) 19 "") default)
     = Some (u "Field length is 5 bytes wide, expecting -13", u "2", 12%Z)
  /\ fault_case (firstn 42 msg_rich) rich = Some (u "Field data is 19 bytes, expecting 32", u "1", 39%Z)
  /\ fault_case (firstn 56 msg_rich ++ raw [17; 35; 69]%N) rich = Some (u "Field data is 6 nibbles, expecting 5", u "2", 56%Z)
  /\ fault_case (msg_rich ++ asc "!") rich = Some (u "Extra data after last field", u "130", 72%Z).
Proof. vm_compute. repeat split. Qed.

(** Each is the declarative fault the message names. *)
Lemma fault_case_fault input sp msg k pos : fault_case input sp = Some (msg, k, pos) ->
  exists m segs last, decode_fault cpython311 sp input m pos segs last /\ text_of m = msg /\ sg_key last = k.
Proof.
  unfold fault_case. destruct (decode cpython311 (InBytes input) sp) as [r|x] eqn:H; [discriminate|].
  destruct x; try discriminate. intros [= <- <- <-].
  apply (decode_fault_iff _ _ _ _ _ (c311_fit sp) (holds_bytes input)) in H as (msg & pos & segs & last & Hf & _ & He).
  rewrite He. exists msg, segs, last. split; [exact Hf|split; reflexivity].
Qed.

(** Two messages sent back to back. *)
Lemma rich_accepted : accepts cpython311 rich msg_rich /\ accepts cpython311 rich msg_rich_lower /\ msg_rich <> msg_rich_lower.
Proof.
  split; [|split].
  - destruct (decode cpython311 (InBytes msg_rich) rich) as [[dec enc]|x] eqn:H; [exists dec, enc; exact H|vm_compute in H; discriminate].
  - destruct (decode cpython311 (InBytes msg_rich_lower) rich) as [[dec enc]|x] eqn:H; [exists dec, enc; exact H|vm_compute in H; discriminate].
  - vm_compute. discriminate.
Qed.
