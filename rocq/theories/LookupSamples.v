(** * LookupSamples: concrete cases for C45. *)
From Coq Require Import Permutation.
From Verif Require Import PyBase BaseFacts Types Numerals NumeralFacts Decoder Encoder Tools Wire WireEncode Claims Claims2 Pretty CPython311 Specs Samples.
From Verif Require Import CodecFacts SampleFacts EncodeSamples PrettySamples EncoderFacts.
Local Open Scope string_scope.
Local Open Scope list_scope.

Fixpoint nodupb (l : list pystr) : bool :=
  match l with [] => true | a :: l' => negb (existsb (str_eqb a) l') && nodupb l' end.
Lemma nodupb_ok l : nodupb l = true -> NoDup l.
Proof.
  induction l as [|a l IH]; cbn; intro H; constructor; apply andb_prop in H as [H1 H2]; [|auto]. intro Hi.
  apply negb_true_iff in H1. assert (existsb (str_eqb a) l = true); [|congruence]. apply existsb_exists. exists a. split; [assumption|apply str_eqb_refl].
Qed.
Lemma specs_nodup : NoDup (map fst (full [])) /\ NoDup (map fst default) /\ NoDup (map fst default_ascii).
Proof. repeat split; apply nodupb_ok; vm_compute; reflexivity. Qed.
Lemma rev_default : Permutation default (rev default) /\ rev default <> default.
Proof. split; [apply Permutation_rev|]. intro H. apply (f_equal (fun l => map fst l)) in H. vm_compute in H. discriminate H. Qed.
(** The same keys in another order. *)
Definition shuffled : list (pykey * ppval) := [(KStr (u "35"), PStr (u "Y")); (KStr (u "t"), PStr (u "0200")); (KStr (u "2"), PStr (u "X"))].
Lemma shuffled_distinct : distinct_numbers cpython311 shuffled /\ NoDup (map fst shuffled).
Proof.
  split.
  - intros j k n Hj Hk. unfold shows in Hj, Hk. cbn in Hj, Hk. destruct Hj as [[= <-]|[[= <-]|[[= <-]|[]]]], Hk as [[= <-]|[[= <-]|[[= <-]|[]]]]; try reflexivity; rewrite <- !py_int_text; vm_compute; congruence.
  - cbn. repeat constructor; cbn; intuition discriminate.
Qed.
Lemma shuffled_printed : pp cpython311 shuffled default 0 80 = (Ok tt, u ("t  : '0200'" ++ lf ++ "2  : 'X'" ++ lf ++ "35 : 'Y'" ++ lf))%string
  /\ pp cpython311 (rev shuffled) default 0 80 = (Ok tt, u ("t  : '0200'" ++ lf ++ "2  : 'X'" ++ lf ++ "35 : 'Y'" ++ lf))%string.
Proof. split; vm_compute; reflexivity. Qed.
(** Two spellings of one number are printed in the order of the dict. *)
Definition twice : list (pykey * ppval) := [(KStr (u "2"), PStr (u "X")); (KStr (u "02"), PStr (u "Y"))].
Lemma twice_printed : NoDup (map fst twice) /\ Permutation twice (rev twice) /\ pp cpython311 twice default 0 80 <> pp cpython311 (rev twice) default 0 80.
Proof. split; [|split; [apply Permutation_rev|vm_compute; discriminate]]. cbn. repeat constructor; cbn; intuition discriminate. Qed.
(** An error message that lists keys in the order of the dict. *)
Definition odd_keys : pdoc := sdict [("t", "0200")] ++ [(KOther 0 (u "2"), VStr (u "1")); (KOther 1 (u "3"), VStr (u "1"))].
Definition msg_of (r : res exn (bytes * edoc) * pdoc) : option pystr := match r with (Raise (XEncodeError e), _) => Some (ee_msg e) | _ => None end.
Lemma odd_keys_order : is_dict odd_keys /\ is_dict (rev odd_keys) /\ same_content odd_keys (rev odd_keys)
  /\ msg_of (encode cpython311 (ADict odd_keys) default) = Some (u "Dictionary contains invalid fields [2, 3]")
  /\ msg_of (encode cpython311 (ADict (rev odd_keys)) default) = Some (u "Dictionary contains invalid fields [3, 2]").
Proof.
  split; [|split; [|split; [|split; vm_compute; reflexivity]]].
  - unfold is_dict. cbn. repeat constructor; cbn; intuition discriminate.
  - unfold is_dict. cbn. repeat constructor; cbn; intuition discriminate.
  - intros k v _. apply in_rev.
Qed.
(** A str dict refused for its field 3, in both orders. *)
Definition bad3 : pdoc := sdict [("t", "0200"); ("3", "12"); ("2", "1")].
Lemma bad3_refused : is_dict bad3 /\ is_dict (rev bad3) /\ same_content bad3 (rev bad3)
  /\ (forall j, In j (map fst bad3) -> exists s, j = KStr s)
  /\ msg_of (encode cpython311 (ADict bad3) default) = Some (u "Field data is 2 bytes, expecting 6").
Proof.
  split; [|split; [|split; [|split; [|vm_compute; reflexivity]]]].
  - unfold is_dict. cbn. repeat constructor; cbn; intuition discriminate.
  - unfold is_dict. cbn. repeat constructor; cbn; intuition discriminate.
  - intros k v _. apply in_rev.
  - intros j Hj. cbn in Hj. destruct Hj as [<-|[<-|[<-|[]]]]; eauto.
Qed.
(** A field under another spelling of its number. *)
Definition spelt3 : pdoc := sdict [("t", "0200"); ("3", "123456"); ("02", "1")].
Lemma spelt3_raises : is_dict spelt3 /\ is_dict (rev spelt3) /\ same_content spelt3 (rev spelt3)
  /\ (forall j, In j (map fst spelt3) -> exists s, j = KStr s)
  /\ fst (encode cpython311 (ADict spelt3) default) = Raise (XKeyError (u "2")).
Proof.
  split; [|split; [|split; [|split; [|vm_compute; reflexivity]]]].
  - unfold is_dict. cbn. repeat constructor; cbn; intuition discriminate.
  - unfold is_dict. cbn. repeat constructor; cbn; intuition discriminate.
  - intros k v _. apply in_rev.
  - intros j Hj. cbn in Hj. destruct Hj as [<-|[<-|[<-|[]]]]; eauto.
Qed.
