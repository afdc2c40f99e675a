(** * GapSamples: concrete cases for C48. *)
From Verif Require Import PyBase BaseFacts Types Decoder Wire CPython311 Specs Samples SampleFacts DecodeGap DecodeGapFacts.
Local Open Scope string_scope.
Local Open Scope list_scope.

(** An entry with some properties left out. *)
Definition entry_with (de le : option string) (lt : option Z) (ml : option Z) : fspec :=
  {| fs_data_enc := option_map u de; fs_len_enc := option_map u le; fs_len_type := lt; fs_max_len := ml;
     fs_len_count := None; fs_left_pad := None; fs_right_pad := None; fs_desc := None |}.
Definition gap_case (fs : fspec) (data : string) : option pystr :=
  match decode cpython311 (InBytes (asc "0200" ++ raw [64; 0; 0; 0; 0; 0; 0; 0]%N ++ asc data)) (sset (u "2") fs default) with
  | Raise (XKeyError nm) => Some nm
  | _ => None
  end.
Lemma gap_cases :
  gap_case (entry_with (Some "ascii") (Some "ascii") None (Some 19%Z)) "041234" = Some (u "len_type")
  /\ gap_case (entry_with (Some "ascii") None (Some 2%Z) (Some 19%Z)) "041234" = Some (u "len_enc")
  /\ gap_case (entry_with (Some "ascii") None (Some 2%Z) (Some 19%Z)) "0" = None
  /\ gap_case (entry_with (Some "ascii") None (Some 0%Z) (Some 4%Z)) "1234" = None
  /\ gap_case (entry_with (Some "ascii") (Some "ascii") (Some 2%Z) None) "041234" = Some (u "max_len")
  /\ gap_case (entry_with (Some "ascii") (Some "ascii") (Some 2%Z) None) "0x1234" = None
  /\ gap_case (entry_with None (Some "ascii") (Some 2%Z) (Some 19%Z)) "041234" = Some (u "data_enc")
  /\ gap_case (entry_with None (Some "ascii") (Some 2%Z) (Some 19%Z)) "00" = None.
Proof. vm_compute. auto 10. Qed.
Lemma gap_case_gap fs data nm : gap_case fs data = Some nm ->
  spec_gap cpython311 (sset (u "2") fs default) (asc "0200" ++ raw [64; 0; 0; 0; 0; 0; 0; 0]%N ++ asc data) nm.
Proof.
  unfold gap_case. set (b := asc "0200" ++ _). intro H. apply (decode_gap_iff cpython311 _ (InBytes b) b); [apply c311_fit|now left|].
  destruct (decode _ _ _) as [|[]]; try discriminate. congruence.
Qed.
(** A shipped spec and a message that announces fields 2, 130 and 131. *)
Definition msg_130 : bytes := asc "0200" ++ raw [192; 0; 0; 0; 0; 0; 0; 0; 128; 0; 0; 0; 0; 0; 0; 0; 96; 0; 0; 0; 0; 0; 0; 0]%N ++ asc "041234".
Lemma default_130 : decode cpython311 (InBytes msg_130) default = Raise (XKeyError (u "130")).
Proof. vm_compute. reflexivity. Qed.
