(** * ThreadSamples: threads that call the library on CPython 3.11. *)
From Verif Require Import PyBase BaseFacts Types Decoder Encoder Tools CPython311 Specs Samples Wire WireEncode Claims Claims2 PyAst Source PySem SemClaims SessionClaims HistoryClaims SemFacts SemHeap SourceSessions SourceHistory SourceSamples SessionSamples SourceShipped HistorySamples.
From Verif Require Import SourceDecode SourceEncode Threads ThreadClaims ThreadFacts ThreadTasks ThreadLib.
Local Open Scope string_scope.
Local Open Scope list_scope.

(** The threads take turns as [turns] says. *)
Definition turn (i : nat) (s : machine_state) : machine_state :=
  let (ms, h) := s in
  match nth_error ms i with
  | Some m => let (m', h') := access m h in (firstn i ms ++ m' :: skipn (S i) ms, h')
  | None => s
  end.
Fixpoint take_turns (turns : list nat) (s : machine_state) : machine_state :=
  match turns with [] => s | i :: turns' => take_turns turns' (turn i s) end.
Lemma ended_or (m : act PySem.value) : (exists o, m = End o) \/ forall o, m <> End o.
Proof. destruct m; eauto; right; discriminate. Qed.
Lemma turn_schedule i s s' : schedule (turn i s) s' -> schedule s s'.
Proof.
  destruct s as [ms h]. unfold turn. destruct (nth_error ms i) as [m|] eqn:N; [|auto]. destruct (access m h) as [m' h'] eqn:A.
  assert (S1 : ms = firstn i ms ++ m :: skipn (S i) ms).
  { clear - N. revert i N. induction ms as [|x ms IH]; intros [|i] N; try discriminate; cbn in *; [congruence|]. f_equal. now apply IH. }
  destruct (ended_or m) as [(o & ->)|NE]; [cbn in A; injection A as <- <-; now rewrite <- S1|].
  intro S. eapply Slice_of; [|exact S]. rewrite S1 at 1. now constructor.
Qed.
Lemma turns_schedule turns : forall s, schedule s (take_turns turns s).
Proof. induction turns as [|i turns IH]; intro s; [constructor|]. cbn. apply turn_schedule with (i := i), IH. Qed.

(** Two dicts, two streams, then the specification: a thread decodes, one encodes, one prints to its stream, one to its
    sys.stdout. *)
Definition heap1 : heap :=
  [StreamO []; text_items [("t", "0200"); ("52", "abcdef0123456789"); ("2", "1234"); ("p", "?")];
   StreamO (u "x"); text_items [("t", "0210"); ("2", "77")]; text_items [("t", "0100"); ("h", "z")]].
Definition h_shared : heap := spec_dicts heap1 default.
Definition top : loc := 5 + length default.
Definition shared1 : list loc := seq 5 (S (length default)).
Definition rest_out (l : loc) : rest := {| r_stdout := RefV l; r_table := []; r_depth := 5; r_deep := le_n 5 |}.
Definition wire : bytes := asc "0200" ++ [x40; x00; x00; x00; x00; x00; x00; x00] ++ asc "0299".
Definition decodes : act PySem.value := call_fun_t cpython311 (@rev Z) NoneV [] decoder_py 5 "decode" [BytesV wire; RefV top].
Definition encodes : act PySem.value := call_fun_t cpython311 (@rev Z) NoneV [] encoder_py 5 "encode" [RefV 1; RefV top].
Definition prints_to : act PySem.value := call_fun_t cpython311 (@rev Z) NoneV tools_table tools_py 5 "pp" [RefV 3; RefV top; IntV 0; RefV 0; IntV 80].
Definition prints_out : act PySem.value := call_fun_t cpython311 (@rev Z) (RefV 2) tools_table tools_py 5 "pp" [RefV 4; RefV top; IntV 0; NoneV; IntV 80].
Definition robin (n : nat) : machine_state := take_turns (concat (repeat [0; 1; 2; 3] n)) ([decodes; encodes; prints_to; prints_out], h_shared).
Lemma robin_schedule n : schedule ([decodes; encodes; prints_to; prints_out], h_shared) (robin n).
Proof. apply turns_schedule. Qed.
Lemma robin_runs : let (ms, h) := robin 3000 in
  (exists d e, nth_error ms 0 = Some (End (Done (TupleV [RefV d; RefV e]))) /\
    hget h d = Some (text_items [("t", "0200"); ("p", "4000000000000000"); ("2", "99")])) /\
  (exists s e, nth_error ms 1 = Some (End (Done (TupleV [RefV s; RefV e]))) /\
    hget h s = Some (BytearrayO (asc "0200" ++ [x40; x00; x00; x00; x00; x00; x10; x00] ++ asc "041234" ++ [xab; xcd; xef; x01; x23; x45; x67; x89]))) /\
  nth_error ms 2 = Some (End (Done NoneV)) /\ hget h 0 = Some (StreamO (u ("t  : '0210'" ++ lf ++ "2  : '77'" ++ lf))) /\
  nth_error ms 3 = Some (End (Done NoneV)) /\ hget h 2 = Some (StreamO (u ("xt  : '0100'" ++ lf))).
Proof.
  vm_compute. split; [do 2 eexists; split; reflexivity|]. split; [do 2 eexists; split; reflexivity|]. repeat split.
Qed.

(** The hypotheses hold. *)
Definition refs_dict (h : heap) (shared : list loc) (v : PySem.value) : bool :=
  match v with
  | RefV l => existsb (Nat.eqb l) shared && match hget h l with Some (DictO items) => forallb (fun kv => immutable (snd kv)) items | _ => false end
  | _ => false
  end.
Lemma refs_dict_sound h shared x : refs_dict h shared x = true ->
  exists l' items', x = RefV l' /\ In l' shared /\ hget h l' = Some (DictO items') /\ forall k' y, In (k', y) items' -> immutable y = true.
Proof.
  destruct x as [| | | | | |l| | | | | | | | | |]; cbn; try discriminate. intro H. apply andb_prop in H as [A B]. apply existsb_exists in A as (l' & I & Q).
  apply Nat.eqb_eq in Q. subst l'. destruct (hget h l) as [[items| | | | | | ]|] eqn:G; try discriminate.
  exists l, items. repeat split; auto. intros k y J. rewrite forallb_forall in B. exact (B _ J).
Qed.
Lemma default_shared : shared_spec h_shared shared1 (RefV top) default.
Proof.
  split; [exact (proj2 (spec_dicts_rep heap1 default))|].
  exists top, (str_items (spec_refs 5 default)). split; [reflexivity|]. split; [vm_compute; tauto|]. split; [vm_compute; reflexivity|].
  intros k x I. apply refs_dict_sound.
  assert (B : forallb (fun kv => refs_dict h_shared shared1 (snd kv)) (str_items (spec_refs 5 default)) = true) by (vm_compute; reflexivity).
  rewrite forallb_forall in B. exact (B _ I).
Qed.

Lemma shared_get l : l < 5 -> hget h_shared l = hget heap1 l.
Proof. intro L. exact (proj1 (spec_dicts_rep heap1 default) l L). Qed.
Definition doc3 : list (pykey * ppval) := [(KStr (u "t"), PStr (u "0210")); (KStr (u "2"), PStr (u "77"))].
Definition doc4 : list (pykey * ppval) := [(KStr (u "t"), PStr (u "0100")); (KStr (u "h"), PStr (u "z"))].
Fixpoint different (l : list nat) : bool := match l with [] => true | x :: l' => negb (existsb (Nat.eqb x) l') && different l' end.
Lemma different_nodup l : different l = true -> NoDup l.
Proof.
  induction l as [|x l IH]; cbn; intro H; constructor; apply andb_prop in H as [A B]; [|auto]. intro X. apply negb_true_iff in A.
  rewrite <- not_true_iff_false in A. apply A, existsb_exists. exists x. split; [exact X|apply Nat.eqb_refl].
Qed.
Lemma threads1_ready : exists ts, map t_run ts = [decodes; encodes; prints_to; prints_out] /\ map t_own ts = [[]; [1]; [0; 3]; [2; 4]] /\
  threads_ready cpython311 (@rev Z) h_shared shared1 ts.
Proof.
  assert (SS := default_shared).
  assert (D0 : text_dict h_shared 1 doc0).
  { destruct heap0_dict as (D & R). split; [|exact R]. unfold dec_dict in *. rewrite shared_get by lia. exact D. }
  destruct (text_dict_rep _ _ _ D0) as [Rd Im].
  assert (T0 := Decodes cpython311 (@rev Z) h_shared shared1 [] rest0 (BytesV wire) (InBytes wire) (RefV top) default eq_refl ltac:(vm_compute; reflexivity) I SS I).
  assert (T1 := Encodes cpython311 (@rev Z) h_shared shared1 [1] rest0 (RefV 1) (ADict (as_dict doc0)) (RefV top) default Rd Im ltac:(left; reflexivity) SS I).
  assert (T2 := Prints cpython311 (@rev Z) h_shared shared1 [0; 3] rest0 (RefV 3) doc3 (RefV top) default (IntV 0) 0 (RefV 0) 0 [] (IntV 80) 80).
  assert (T3 := Prints cpython311 (@rev Z) h_shared shared1 [2; 4] (rest_out 2) (RefV 4) doc4 (RefV top) default (IntV 0) 0 NoneV 2 (u "x") (IntV 80) 80).
  eexists [{| t_own := []; t_run := decodes |}; {| t_own := [1]; t_run := encodes |};
           {| t_own := [0; 3]; t_run := prints_to |}; {| t_own := [2; 4]; t_run := prints_out |}].
  split; [reflexivity|]. split; [reflexivity|]. split; [|split].
  - cbn [map t_own]. apply different_nodup. vm_compute. reflexivity.
  - repeat constructor; cbn [t_own]; intros l L; cbn in L; repeat (destruct L as [<-|L]; [rewrite shared_get by lia; eexists; split; [reflexivity|repeat constructor]|]); destruct L.
  - repeat (apply Forall_cons); [exact T0|exact T1|eapply T2|eapply T3|apply Forall_nil].
    all: try exact SS; try (left; reflexivity); try (right; split; reflexivity); try (rewrite shared_get by lia; reflexivity); try exact I; cbn; try tauto.
    + exists 3, [(KStr (u "t"), StrV (u "0210")); (KStr (u "2"), StrV (u "77"))]. split; [reflexivity|]. split; [rewrite shared_get by lia; reflexivity|]. repeat constructor.
    + exists 4, [(KStr (u "t"), StrV (u "0100")); (KStr (u "h"), StrV (u "z"))]. split; [reflexivity|]. split; [rewrite shared_get by lia; reflexivity|]. repeat constructor.
Qed.

(** Two threads, each with a specification of its own. *)
Definition h_apart : heap := spec_dicts h_shared default_ascii.
Definition job_decode : job := {| j_own := shared1; j_stdout := NoneV; j_table := []; j_prog := decoder_py; j_depth := 5;
  j_fun := "decode"; j_args := [BytesV wire; RefV top] |}.
Definition top2 : loc := length h_shared + length default_ascii.
Definition job_encode : job := {| j_own := 1 :: seq (length h_shared) (S (length default_ascii)); j_stdout := NoneV; j_table := []; j_prog := encoder_py;
  j_depth := 5; j_fun := "encode"; j_args := [RefV 1; RefV top2] |}.
Definition dict_within (h : heap) (own : list loc) (l : loc) : bool :=
  match hget h l with
  | Some (DictO items) => forallb (fun kv => match snd kv with RefV l' => existsb (Nat.eqb l') own | v => immutable v end) items
  | _ => false
  end.
Lemma immutable_inside own v : immutable v = true -> inside own v.
Proof. destruct v; cbn; try discriminate; auto. Qed.
Lemma dict_within_sound h own : forallb (dict_within h own) own = true -> owns h own.
Proof.
  intros H l I. rewrite forallb_forall in H. specialize (H l I). unfold dict_within in H. destruct (hget h l) as [o|]; [|discriminate].
  exists o. split; [reflexivity|]. destruct o as [items| | | | | | ]; try discriminate. apply Forall_forall. intros kv J. rewrite forallb_forall in H. specialize (H _ J).
  destruct (snd kv); try (apply immutable_inside; exact H). apply existsb_exists in H as (l' & K & Q). apply Nat.eqb_eq in Q. subst l'. exact K.
Qed.
Lemma jobs1_apart : jobs_apart h_apart [] [job_decode; job_encode] (map j_args [job_decode; job_encode]) /\
  Forall2 (fun j a => forall w, fst (job_alone cpython311 (@rev Z) j a h_apart) <> Stuck w) [job_decode; job_encode] (map j_args [job_decode; job_encode]).
Proof.
  split; [split|].
  - apply different_nodup. vm_compute. reflexivity.
  - cbn [map]. repeat apply Forall2_cons; try apply Forall2_nil.
    + split; [apply dict_within_sound; vm_compute; reflexivity|]. split; [exact I|]. apply insides_alike. apply Forall_cons; [exact I|]. apply Forall_cons; [vm_compute; tauto|apply Forall_nil].
    + split; [apply dict_within_sound; vm_compute; reflexivity|]. split; [exact I|]. apply insides_alike. apply Forall_cons; [vm_compute; tauto|]. apply Forall_cons; [vm_compute; tauto|apply Forall_nil].
  - cbn [map]. repeat apply Forall2_cons; try apply Forall2_nil; intros w; vm_compute; discriminate.
Qed.
Lemma jobs1_run : let (ms, h) := take_turns (concat (repeat [1; 0; 0] 2000)) (map (job_thread cpython311 (@rev Z)) [job_decode; job_encode], h_apart) in
  (exists d e, nth_error ms 0 = Some (End (Done (TupleV [RefV d; RefV e]))) /\
    hget h d = Some (text_items [("t", "0200"); ("p", "4000000000000000"); ("2", "99")])) /\
  exists s e, nth_error ms 1 = Some (End (Done (TupleV [RefV s; RefV e]))) /\ hget h s = Some (BytearrayO (asc "02004000000000001000041234abcdef0123456789")).
Proof. vm_compute. split; do 2 eexists; split; reflexivity. Qed.
(** Both with the same specification. *)
Definition job_decode2 : job := {| j_own := []; j_stdout := NoneV; j_table := []; j_prog := decoder_py; j_depth := 5;
  j_fun := "decode"; j_args := [BytesV wire; RefV top] |}.
Definition job_encode2 : job := {| j_own := [1]; j_stdout := NoneV; j_table := []; j_prog := encoder_py; j_depth := 5;
  j_fun := "encode"; j_args := [RefV 1; RefV top] |}.
Lemma jobs2_apart : exists alone, jobs_apart h_shared shared1 [job_decode2; job_encode2] alone /\
  Forall2 (fun j a => forall w, fst (job_alone cpython311 (@rev Z) j a h_shared) <> Stuck w) [job_decode2; job_encode2] alone.
Proof.
  destruct (shared_reads _ _ _ _ default_shared) as (m & SR & AL & SUB). destruct rev_machine as (M1 & M2 & M3 & M4).
  assert (D0 : text_dict h_shared 1 doc0).
  { destruct heap0_dict as (D & R). split; [|exact R]. unfold dec_dict in *. rewrite shared_get by lia. exact D. }
  destruct (text_dict_rep _ _ _ D0) as [Rd Im].
  exists [[BytesV wire; MapV m]; [RefV 1; MapV m]]. split; [split|].
  - apply different_nodup. vm_compute. reflexivity.
  - repeat apply Forall2_cons; try apply Forall2_nil; cbn [j_own j_stdout j_args job_decode2 job_encode2].
    + split; [intros l []|]. split; [exact I|]. repeat constructor. apply AL.
    + split; [intros l [<-|[]]; rewrite shared_get by lia; eexists; split; [reflexivity|repeat constructor]|]. split; [exact I|].
      constructor; [constructor; left; reflexivity|]. repeat constructor. apply AL.
  - repeat apply Forall2_cons; try apply Forall2_nil; intro w; unfold job_alone; cbn [j_stdout j_table j_prog j_depth j_fun job_decode2 job_encode2].
    + pose proof (decode_as_written cpython311 (@rev Z) NoneV [] M1 M2 M4 h_shared (BytesV wire) (InBytes wire) (MapV m) default 5 eq_refl SR ltac:(vm_compute; reflexivity) (le_n 5)) as C.
      destruct (call_fun _ _ _ _ _ _ _ _ _) as [o h1]. destruct C as [_ C]. eapply decode_not_stuck, C.
    + pose proof (encode_as_written cpython311 (@rev Z) NoneV [] M1 M3 M4 h_shared (RefV 1) (ADict (as_dict doc0)) (MapV m) default 5 Rd Im SR (map_apart h_shared m (RefV 1) [1] SUB (or_introl eq_refl)) (le_n 5)) as C.
      destruct (call_fun _ _ _ _ _ _ _ _ _) as [o h1]. destruct C as [_ C]. eapply encode_not_stuck, C.
Qed.
