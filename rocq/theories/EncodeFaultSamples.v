(** * EncodeFaultSamples: encoding or fault, and witnesses for the faults of encode. *)
From Verif Require Import PyBase BaseFacts Types Encoder Wire WireEncode Claims CPython311 Specs Samples SampleFacts
  DecodeFault EncodeFault EncodeWhole EncodeTheorems2 EncodeTheorems3 EncodeSamples EncodeFaultFacts EncodeFaultWhole.
Local Open Scope string_scope.
Local Open Scope list_scope.
Local Opaque data_fields.

Lemma encode_total E sp d : env_ok E -> spec_complete sp -> widths_ok sp -> limits_ok E sp -> str_dict d -> canonical_keys E d ->
  (exists bm1 bm2 bm3 enc, encoding E sp d bm1 bm2 bm3 enc)
  \/ exists msg k d' enc, encode_fault E sp d msg k d' enc.
Proof.
  intros HE Hsp Hw Hl Hd Hk. destruct (encode E (ADict d) sp) as [[[s enc]|x] d'] eqn:H.
  - left. apply (encode_ok E sp d s enc d' (proj1 Hd)) in H as (bm1 & bm2 & bm3 & He & _). eauto.
  - right. destruct (encode_only_encode_error _ _ _ _ _ HE Hsp Hw Hl Hd Hk H) as [e ->].
    apply (encode_fault_iff E sp d e d' (proj1 Hd)) in H as (msg & k & enc & Hf & _). eauto.
Qed.
Lemma encode_not_both E sp d bm1 bm2 bm3 enc msg k d' enc' : is_dict d ->
  encoding E sp d bm1 bm2 bm3 enc -> encode_fault E sp d msg k d' enc' -> False.
Proof.
  intros Hd H1 H2.
  assert (A : encode E (ADict d) sp = (Ok (wire_bytes enc, enc), with_bitmaps d bm1 bm2 bm3)).
  { apply (encode_ok E sp d _ enc _ Hd). eauto 8. }
  assert (B : encode E (ADict d) sp = (Raise (XEncodeError (EncodeError msg d' enc' k)), d')).
  { apply (encode_fault_iff E sp d _ d' Hd). eauto 8. }
  rewrite A in B. discriminate.
Qed.

(** A refusal of every kind: message, field, and the keys encoded so far. *)
Definition refusal (d : pdoc) (sp : spec) : option (pystr * pystr * list pystr) :=
  match encode cpython311 (ADict d) sp with
  | (Raise (XEncodeError e), _) => Some (ee_msg e, ee_field e, map fst (ee_doc_enc e))
  | _ => None
  end.
Definition odd_head : spec := [
  (u "2", fld_nib "b" "b" 1 19 None None);
  (u "3", fld "ebcdic" "ascii" 1 6 "Unknown encoding");
  (u "4", fld "ascii" "utf-16" 2 99 "Unknown length encoding");
  (u "5", fld "ascii" "ascii" 1 99 "One digit");
  (u "6", fld_nib "b" "b" 1 19 (Some "x") None)].
Definition bad_bitmap : spec := full [(u "1", fld "ebcdic" "ascii" 0 16 "Unknown encoding")].
Lemma refusals :
  refusal (sdict [("t", "0200")]) rich
    = Some (u "Field data is required according to specifications", u "h", [])
  /\ refusal (sdict [("h", "12345678901"); ("t", "0200")]) rich
    = Some (u "Field data is 11 bytes, larger than maximum 10", u "h", [u "h"])
  /\ refusal (sdict [("h", "")]) rich = Some (u "Field data is required", u "t", [u "h"])
  /\ refusal (sdict [("t", "200")]) default = Some (u "Field data is 3 bytes, expecting 4", u "t", [u "t"])
  /\ refusal (sdict [("t", "0200"); ("193", ""); ("0", ""); ("200", "")]) default
    = Some (u "Dictionary contains fields outside of 1-192 range [0, 193, 200]", u "p", [u "t"])
  /\ refusal (sdict [("t", "0200")] ++ [(KOther 0 (u "2"), VStr (u "1"))]) default
    = Some (u "Dictionary contains invalid fields [2]", u "p", [u "t"])
  /\ refusal (sdict [("t", "0200"); ("70", "")]) bad_bitmap
    = Some (u "Failed to encode field, unknown encoding specified", u "1", [u "t"; u "p"; u "1"])
  /\ refusal (sdict [("t", "0200"); ("2", "123")]) (full odd_head)
    = Some (u "Failed to encode field, odd-length nibble data, specify pad", u "2", [u "t"; u "p"; u "2"])
  /\ refusal (sdict [("t", "0200"); ("2", "12"); ("3", "1")]) (full odd_head)
    = Some (u "Failed to encode field, unknown encoding specified", u "3", [u "t"; u "p"; u "2"; u "3"])
  /\ refusal (sdict [("t", "0200"); ("5", "1234567890")]) (full odd_head) = Some (too_wide, u "5", [u "t"; u "p"; u "5"])
  /\ refusal (sdict [("t", "0200"); ("4", "1")]) (full odd_head)
    = Some (u "Failed to encode field length, unknown encoding specified", u "4", [u "t"; u "p"; u "4"])
  /\ refusal (sdict [("t", "0200"); ("6", "1")]) (full odd_head)
    = Some (u "Failed to encode field, non-hex data", u "6", [u "t"; u "p"; u "6"])
  /\ refusal (sdict [("t", "0200"); ("2", "1g")]) (full odd_head)
    = Some (u "Failed to encode field, non-hex data", u "2", [u "t"; u "p"; u "2"])
  /\ refusal (sdict [("t", "0200"); ("2", "1")]) (sset (u "2") (fld "ascii" "ascii" (-1) 19 "") default)
    = Some (u "Failed to encode field length, Invalid format specifier '0-1d' for object of type 'int'", u "2", [u "t"; u "p"; u "2"])
  /\ refusal (sdict [("t", "0200"); ("3", "1")]) default
    = Some (u "Field data is 1 bytes, expecting 6", u "3", [u "t"; u "p"; u "3"])
  /\ refusal (sdict [("t", "0200")] ++ [(KStr (u "3"), VOther None)]) default
    = Some (u "Failed to encode field, invalid data", u "3", [u "t"; u "p"; u "3"]).
Proof. vm_compute. repeat split. Qed.

(** Each is the declarative fault the message names. *)
Lemma refusal_fault d sp msg k keys : is_dict d -> refusal d sp = Some (msg, k, keys) ->
  exists d' enc, encode_fault cpython311 sp d msg k d' enc /\ map fst enc = keys.
Proof.
  intro Hd. unfold refusal. destruct (encode cpython311 (ADict d) sp) as [[r|x] d'] eqn:H; [discriminate|].
  destruct x; try discriminate. intros [= <- <- <-].
  apply (encode_fault_iff _ _ _ _ _ Hd) in H as (msg & k & enc & Hf & He).
  rewrite He. exists d', enc. split; [exact Hf|reflexivity].
Qed.
