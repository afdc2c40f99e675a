(** * PrettyUniqueSamples: concrete output for the examples of C44. *)
From Verif Require Import PyBase Types Decoder Encoder Tools Wire WireEncode Claims Claims2 Pretty CPython311 Specs Samples.
From Verif Require Import CodecFacts SampleFacts PrettyFacts PrettySamples.
Local Open Scope string_scope.
Local Open Scope list_scope.

Lemma rich_printed : exists dec enc out, decode cpython311 (InBytes msg_rich) rich = Ok (dec, enc)
  /\ pp cpython311 (show_enc enc) rich 10 40 = (Ok tt, out) /\ (100 < zlen out)%Z.
Proof.
  assert (C : match decode cpython311 (InBytes msg_rich) rich with
              | Ok (_, enc) => match pp cpython311 (show_enc enc) rich 10 40 with (Ok _, out) => (100 <? zlen out)%Z | _ => false end
              | Raise _ => false end = true) by (vm_compute; reflexivity).
  destruct (decode cpython311 (InBytes msg_rich) rich) as [[dec enc]|]; [|discriminate]. exists dec, enc.
  destruct (pp cpython311 (show_enc enc) rich 10 40) as [[[]|] out]; [|discriminate]. exists out. apply Z.ltb_lt in C. auto.
Qed.
Definition tricky1 : list (pykey * ppval) := [(KStr (u "t"), PStr (u "0200")); (KStr (u "2"), PStr (u "AB' 'CD"))].
Definition tricky2 : list (pykey * ppval) := [(KStr (u "t"), PStr (u "0200")); (KStr (u "2"), PBytes (asc "AB' 'CD"))].
Lemma tricky_printed : pp cpython311 tricky1 default 0 13 = (Ok tt, u ("t  : '0200'" ++ lf ++ "2  : ""AB' 'C""" ++ lf ++ "     'D'" ++ lf))%string
  /\ pp cpython311 tricky2 default 0 13 = (Ok tt, u ("t  : '0200'" ++ lf ++ "2  : b""AB' '""" ++ lf ++ "     b'CD'" ++ lf))%string.
Proof. split; vm_compute; reflexivity. Qed.
Lemma valid_check s : forallb (fun c => (c <? 1114112)%N) s = true -> valid_text s.
Proof. intro H. apply Forall_forall. intros c Hc. rewrite forallb_forall in H. apply N.ltb_lt, H, Hc. Qed.
Lemma tricky_valid k v : In (k, v) tricky1 \/ In (k, v) tricky2 -> ordinary v.
Proof.
  intros [[H|[H|[]]]|[H|[H|[]]]]; injection H as _ <-; intros l o Ho; apply parts_shown in Ho as [-> ->]; (split; [exact I|]);
    try exact I; now apply valid_check.
Qed.
