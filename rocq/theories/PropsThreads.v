(** * PropsThreads: properties of threads that call the library at the same time, run from its text.
    Statements only; proofs are elsewhere. *)
From Verif Require Import PyBase BaseFacts Types Decoder Encoder Tools CPython311 Specs Samples PyAst Source PySem SemClaims SessionClaims Threads ThreadClaims ThreadTasks.
From Verif Require Import ThreadMachine ThreadLib SourceSamples SessionSamples HistorySamples ThreadSamples.
Local Open Scope string_scope.
Local Open Scope list_scope.

(** C68 *)
Theorem C68_threads_sharing_a_spec : forall E order, machine E order -> forall h shared ts, threads_ready E order h shared ts ->
  forall ms h', schedule (map t_run ts, h) (ms, h') ->
  length ms = length ts /\ (forall l, In l shared -> l < length h -> hget h' l = hget h l)
  /\ forall i t o, nth_error ts i = Some t -> nth_error ms i = Some (End o) -> t_claim t o h'.
Proof. exact threads_end. Qed.
Print Assumptions C68_threads_sharing_a_spec.
Theorem C68_threads_of_any_programs : forall E order h shared js alone, jobs_apart h shared js alone ->
  Forall2 (fun j a => forall w, fst (job_alone E order j a h) <> Stuck w) js alone ->
  forall ms h', schedule (map (job_thread E order) js, h) (ms, h') ->
  (forall l, In l shared -> l < length h -> hget h' l = hget h l) /\
  forall i j a o, nth_error js i = Some j -> nth_error alone i = Some a -> nth_error ms i = Some (End o) ->
  exists b, (forall l, In l (j_own j) -> In (l, l) b) /\ proper_view (frozen_in h shared) b
    /\ shows_heap (frozen_in h shared) b h' (snd (job_alone E order j a h)) /\ alike_outcome (frozen_in h shared) b o (fst (job_alone E order j a h)).
Proof. exact jobs_end. Qed.
Print Assumptions C68_threads_of_any_programs.
Theorem C68_no_schedule_goes_on_forever : well_founded (fun s' s => switch s s').
Proof. exact switch_wf. Qed.
Print Assumptions C68_no_schedule_goes_on_forever.
Theorem C68_no_thread_waits : forall ms h, (forall s, ~ switch (ms, h) s) -> Forall (fun m => exists o, m = End o) ms.
Proof. exact no_switch_ended. Qed.
Print Assumptions C68_no_thread_waits.
Example C68_hypotheses : machine cpython311 (@rev Z) /\
  exists ts, map t_run ts = [decodes; encodes; prints_to; prints_out] /\ map t_own ts = [[]; [1]; [0; 3]; [2; 4]] /\
    threads_ready cpython311 (@rev Z) h_shared shared1 ts.
Proof. exact (conj rev_machine threads1_ready). Qed.
Example C68_sample_schedule : schedule ([decodes; encodes; prints_to; prints_out], h_shared) (robin 3000).
Proof. exact (robin_schedule 3000). Qed.
Example C68_sample : let (ms, h) := robin 3000 in
  (exists d e, nth_error ms 0 = Some (End (Done (TupleV [RefV d; RefV e]))) /\
    hget h d = Some (text_items [("t", "0200"); ("p", "4000000000000000"); ("2", "99")])) /\
  (exists s e, nth_error ms 1 = Some (End (Done (TupleV [RefV s; RefV e]))) /\
    hget h s = Some (BytearrayO (asc "0200" ++ [x40; x00; x00; x00; x00; x00; x10; x00] ++ asc "041234" ++ [xab; xcd; xef; x01; x23; x45; x67; x89]))) /\
  nth_error ms 2 = Some (End (Done NoneV)) /\ hget h 0 = Some (StreamO (u ("t  : '0210'" ++ lf ++ "2  : '77'" ++ lf))) /\
  nth_error ms 3 = Some (End (Done NoneV)) /\ hget h 2 = Some (StreamO (u ("xt  : '0100'" ++ lf))).
Proof. exact robin_runs. Qed.
Example C68_hypotheses_any_programs : exists alone, jobs_apart h_shared shared1 [job_decode2; job_encode2] alone /\
  Forall2 (fun j a => forall w, fst (job_alone cpython311 (@rev Z) j a h_shared) <> Stuck w) [job_decode2; job_encode2] alone.
Proof. exact jobs2_apart. Qed.
Example C68_hypotheses_nothing_shared : jobs_apart h_apart [] [job_decode; job_encode] (map j_args [job_decode; job_encode]) /\
  Forall2 (fun j a => forall w, fst (job_alone cpython311 (@rev Z) j a h_apart) <> Stuck w) [job_decode; job_encode] (map j_args [job_decode; job_encode]).
Proof. exact jobs1_apart. Qed.
Example C68_sample_nothing_shared :
  let (ms, h) := take_turns (concat (repeat [1; 0; 0] 2000)) (map (job_thread cpython311 (@rev Z)) [job_decode; job_encode], h_apart) in
  (exists d e, nth_error ms 0 = Some (End (Done (TupleV [RefV d; RefV e]))) /\
    hget h d = Some (text_items [("t", "0200"); ("p", "4000000000000000"); ("2", "99")])) /\
  exists s e, nth_error ms 1 = Some (End (Done (TupleV [RefV s; RefV e]))) /\ hget h s = Some (BytearrayO (asc "02004000000000001000041234abcdef0123456789")).
Proof. exact jobs1_run. Qed.
