(** * ForwardSamples: messages passed on between the shipped specs. *)
From Verif Require Import PyBase BaseFacts Types Decoder Encoder Wire WireEncode Claims Claims5 Claims7 CPython311 Specs Samples.
From Verif Require Import EncodeSamples Shipped.
Local Open Scope string_scope. Local Open Scope list_scope.

(** Type 0200, fields 3 and 52. *)
Definition pin_default : bytes := asc "0200" ++ [x20; x00; x00; x00; x00; x00; x10; x00] ++ asc "123456" ++ [x01; x23; x45; x67; x89; xab; xcd; xef].
Definition pin_ascii : bytes := asc "0200" ++ asc "2000000000001000" ++ asc "123456" ++ asc "0123456789ABCDEF".
(** The same with small letters in the PIN block, and with a letter that is no digit. *)
Definition pin_small : bytes := asc "0200" ++ asc "2000000000001000" ++ asc "123456" ++ asc "0123456789abCDef".
Definition pin_bad : bytes := asc "0200" ++ asc "2000000000001000" ++ asc "123456" ++ asc "0123456789ABCDEG".

Definition sent_on (s : bytes) (sp sp' : spec) : option bytes :=
  match decode cpython311 (InBytes s) sp with
  | Ok (dec, _) => match encode cpython311 (ADict (as_dict dec)) sp' with (Ok (s', _), _) => Some s' | _ => None end
  | _ => None
  end.
Lemma sent_on_cases :
  sent_on pin_default default default_ascii = Some pin_ascii
  /\ sent_on pin_ascii default_ascii default = Some pin_default
  /\ sent_on pin_small default_ascii default_ascii = Some pin_small
  /\ sent_on pin_small default_ascii default = Some pin_default
  /\ sent_on pin_bad default_ascii default_ascii = Some pin_bad
  /\ sent_on pin_bad default_ascii default = None.
Proof. vm_compute. repeat split; reflexivity. Qed.
