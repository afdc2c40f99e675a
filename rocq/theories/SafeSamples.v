(** * SafeSamples: the calls of ThreadSamples, halfway. *)
From Verif Require Import PyBase BaseFacts Types CPython311 Specs PyAst Source PySem SemClaims SessionClaims SourceSamples ThreadSamples Threads SafeClaims.
Local Open Scope string_scope.
Local Open Scope list_scope.

Definition rest5 (out : PySem.value) : rest := {| r_stdout := out; r_table := []; r_depth := 5; r_deep := le_n 5 |}.
Definition calls1 : list (rest * call) :=
  [(rest5 NoneV, CallDecode (BytesV wire) (RefV top)); (rest5 NoneV, CallEncode (RefV 1) (RefV top));
   (rest5 NoneV, CallPp (RefV 3) (RefV top) (IntV 0) (RefV 0) (IntV 80)); (rest5 (RefV 2), CallPp (RefV 4) (RefV top) (IntV 0) NoneV (IntV 80))].
Lemma calls1_threads : threads_of cpython311 (@rev Z) calls1 = [decodes; encodes; prints_to; prints_out].
Proof. reflexivity. Qed.
Definition plain (v : PySem.value) : bool := match v with RefV _ => true | v => immutable v end.
Definition plain_object (o : object) : bool :=
  match o with DictO items => forallb (fun kv => plain (snd kv)) items | BytearrayO _ | StreamO _ => true | _ => false end.
Lemma plain_heap h : forallb plain_object h = true -> tame_heap h.
Proof.
  intros P l o G. rewrite forallb_forall in P. specialize (P o (nth_error_In _ _ G)). destruct o; try exact I; try discriminate.
  apply Forall_forall. intros kv K. cbn in P. rewrite forallb_forall in P. specialize (P kv K). destruct (snd kv); try exact I; discriminate.
Qed.
Lemma calls1_ready : tame_heap h_shared /\ Forall no_functions calls1.
Proof.
  split; [apply plain_heap; vm_compute; reflexivity|]. unfold calls1, no_functions, rest5. cbn [fst snd r_stdout given]. repeat (constructor; cbn [inert fst snd]).
Qed.
(** The threads are in the middle of their calls. *)
Definition going (m : act PySem.value) : bool := match m with End _ => false | _ => true end.
Lemma all_going ms : forallb going ms = true -> Forall (fun m => forall o, m <> End o) ms.
Proof. intro X. rewrite forallb_forall in X. apply Forall_forall. intros m M o ->. specialize (X _ M). discriminate. Qed.
Lemma one_going ms i : match nth_error ms i with Some m => going m | None => false end = true -> forall o, nth_error ms i <> Some (End o).
Proof. intros X o Q. rewrite Q in X. discriminate. Qed.
Lemma moment_text : forallb going (fst (robin 10)) = true /\
  hget (snd (robin 10)) 0 = Some (StreamO (u "t  : ")) /\ hget (snd (robin 10)) 2 = Some (StreamO (u "xt  : ")).
Proof. vm_compute. repeat split. Qed.
Lemma robin_moment : schedule (threads_of cpython311 (@rev Z) calls1, h_shared) (robin 10) /\
  Forall (fun m => forall o, m <> End o) (fst (robin 10)) /\
  hget (snd (robin 10)) 0 = Some (StreamO (u "t  : ")) /\ hget (snd (robin 10)) 2 = Some (StreamO (u "xt  : ")).
Proof.
  split; [rewrite calls1_threads; exact (robin_schedule 10)|]. destruct moment_text as [X Y]. split; [exact (all_going _ X)|exact Y].
Qed.
Lemma later_text : match nth_error (fst (robin 100)) 1 with Some m => going m | None => false end = true /\
  hget h_shared 1 = Some (text_items [("t", "0200"); ("52", "abcdef0123456789"); ("2", "1234"); ("p", "?")]) /\
  hget (snd (robin 100)) 1 = Some (text_items [("t", "0200"); ("52", "abcdef0123456789"); ("2", "1234"); ("p", "4000000000001000")]).
Proof. vm_compute. repeat split. Qed.
Lemma robin_later : (forall o, nth_error (fst (robin 100)) 1 <> Some (End o)) /\
  hget h_shared 1 = Some (text_items [("t", "0200"); ("52", "abcdef0123456789"); ("2", "1234"); ("p", "?")]) /\
  hget (snd (robin 100)) 1 = Some (text_items [("t", "0200"); ("52", "abcdef0123456789"); ("2", "1234"); ("p", "4000000000001000")]).
Proof. destruct later_text as [X Y]. split; [exact (one_going (fst (robin 100)) 1 X)|exact Y]. Qed.
