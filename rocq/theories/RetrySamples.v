(** * RetrySamples: the encode() of ThreadSamples is interrupted and called again. *)
From Coq Require Import Lia.
From Verif Require Import PyBase BaseFacts Types Decoder Encoder EncoderFacts Tools WireEncode Claims CPython311 Specs Samples PyAst Source PySem SemClaims SessionClaims SourceSamples SessionSamples HistorySamples SourceHistory SourceSessions Threads ThreadClaims ThreadTasks ThreadSamples SafeClaims SafeSamples.
Local Open Scope string_scope.
Local Open Scope list_scope.

Lemma only_one x : to_encode calls1 x -> x = 1.
Proof. intros (r & sp & I). cbn in I. repeat (destruct I as [I|I]; [try discriminate; now injection I|]). destruct I. Qed.
Lemma spec_apart1 : spec_apart h_shared (RefV top) (RefV 1).
Proof.
  destruct default_shared as [_ (l & items & [= <-] & _ & G & F)].
  assert (N : ~ In 1 shared1). { intro I. apply in_seq in I. lia. }
  split; [vm_compute; discriminate|]. intros m k fv (items' & G' & R) K Q. rewrite G in G'. injection G' as <-. rewrite <- R in K. subst fv.
  apply N. pose proof (dget_in key_eqb key_eqb_spec _ _ _ K) as I. destruct (F _ _ I) as (l' & it & [= <-] & J & _). exact J.
Qed.
Lemma retry1 : tame_heap h_shared /\ Forall no_functions calls1 /\ dict_rep h_shared (RefV 1) (ADict (as_dict doc0)) /\ is_dict (as_dict doc0) /\
  spec_rep h_shared (RefV top) default /\ spec_apart h_shared (RefV top) (RefV 1) /\ (forall x, to_encode calls1 x -> spec_apart h_shared (RefV top) (RefV x)).
Proof.
  split; [exact (proj1 calls1_ready)|]. split; [exact (proj2 calls1_ready)|].
  assert (D0 : text_dict h_shared 1 doc0).
  { destruct heap0_dict as (D & R). split; [|exact R]. unfold dec_dict in *. rewrite shared_get by lia. exact D. }
  split; [exact (proj1 (text_dict_rep _ _ _ D0))|]. split; [repeat constructor; cbn; intuition discriminate|].
  split; [exact (proj1 default_shared)|]. split; [exact spec_apart1|]. intros x X. rewrite (only_one x X). exact spec_apart1.
Qed.
Lemma retry1_run : let (o, h) := call_fun cpython311 (@rev Z) NoneV [] encoder_py 5 "encode" [RefV 1; RefV top] (snd (robin 100)) in
  exists s e, o = Done (TupleV [RefV s; RefV e]) /\
    hget h s = Some (BytearrayO (asc "0200" ++ [x40; x00; x00; x00; x00; x00; x10; x00] ++ asc "041234" ++ [xab; xcd; xef; x01; x23; x45; x67; x89])).
Proof. vm_compute. do 2 eexists. split; reflexivity. Qed.
Lemma reprint1 : doc_rep cpython311 h_shared (RefV 3) doc3 /\
  (forall x, to_encode calls1 x -> RefV 3 <> RefV x /\ forall l items k y, RefV 3 = RefV l -> hget h_shared l = Some (DictO items) -> In (k, y) items -> y <> RefV x) /\
  stream_rep NoneV (RefV 0) 0 /\ hget h_shared 0 = Some (StreamO []).
Proof.
  assert (G : hget h_shared 3 = Some (DictO [(KStr (u "t"), StrV (u "0210")); (KStr (u "2"), StrV (u "77"))])) by (rewrite shared_get by lia; reflexivity).
  split; [|split; [|split; [left; reflexivity|rewrite shared_get by lia; reflexivity]]].
  - exists 3, [(KStr (u "t"), StrV (u "0210")); (KStr (u "2"), StrV (u "77"))]. split; [reflexivity|]. split; [exact G|]. repeat constructor.
  - intros x X. rewrite (only_one x X). split; [discriminate|]. intros l items k y [= <-] G' I. rewrite G in G'. injection G' as <-. destruct I as [[= _ <-]|[[= _ <-]|[]]]; discriminate.
Qed.
Lemma reprint1_run : let (o, h) := call_fun cpython311 (@rev Z) NoneV tools_table tools_py 5 "pp" [RefV 3; RefV top; IntV 0; RefV 0; IntV 80] (snd (robin 10)) in
  o = Done NoneV /\ hget h 0 = Some (StreamO (u ("t  : t  : '0210'" ++ lf ++ "2  : '77'" ++ lf))).
Proof. vm_compute. split; reflexivity. Qed.
