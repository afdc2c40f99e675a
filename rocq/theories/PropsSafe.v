(** * PropsSafe: the caller's objects at every moment of calls of the library, run from its text.
    Statements only; proofs are elsewhere. *)
From Verif Require Import PyBase BaseFacts Types Decoder Encoder Tools WireEncode Claims CPython311 Specs Samples PyAst Source PySem SemClaims SessionClaims SourceSamples Threads ThreadClaims ThreadTasks ThreadSamples SafeClaims.
From Verif Require Import SessionSamples HistorySamples SourceHistory SafeLib SafeSamples SafeStreams StreamOrder StreamSamples Retry RetrySamples.
Local Open Scope string_scope.
Local Open Scope list_scope.

(** C69 *)
Theorem C69_callers_objects_at_every_moment : forall h E order cs, tame_heap h -> Forall no_functions cs ->
  forall ms h', schedule (threads_of E order cs, h) (ms, h') ->
  forall l o, hget h l = Some o -> exists o', hget h' l = Some o' /\
    (o' = o \/ to_encode cs l /\ (exists d d', o = DictO d /\ o' = DictO d' /\ data_items d' = data_items d /\
         (forall k v, In (k, v) d' -> In (k, v) d \/ exists t, v = StrV t) /\ (NoDup (map fst d) -> NoDup (map fst d')))
     \/ to_print cs l /\ exists t s, o = StreamO t /\ o' = StreamO (t ++ s)).
Proof. exact objects_safe. Qed.
Print Assumptions C69_callers_objects_at_every_moment.
Theorem C69_results_share_nothing_with_the_caller : forall h E order cs, tame_heap h -> Forall no_functions cs ->
  forall ms h', schedule (threads_of E order cs, h) (ms, h') ->
  (forall v, In (End (Done v)) ms \/ In (End (Thrown v)) ms -> new_value h v) /\
  forall l d, hget h l = None -> hget h' l = Some (DictO d) -> Forall (fun kv => new_value h (snd kv)) d.
Proof. exact results_new. Qed.
Print Assumptions C69_results_share_nothing_with_the_caller.
Example C69_hypotheses : tame_heap h_shared /\ Forall no_functions calls1.
Proof. exact calls1_ready. Qed.
Example C69_sample_moment : schedule (threads_of cpython311 (@rev Z) calls1, h_shared) (robin 10) /\
  Forall (fun m => forall o, m <> End o) (fst (robin 10)) /\
  hget (snd (robin 10)) 0 = Some (StreamO (u "t  : ")) /\ hget (snd (robin 10)) 2 = Some (StreamO (u "xt  : ")).
Proof. exact robin_moment. Qed.
Example C69_sample_later : (forall o, nth_error (fst (robin 100)) 1 <> Some (End o)) /\ hget h_shared 1 = Some (text_items [("t", "0200"); ("52", "abcdef0123456789"); ("2", "1234"); ("p", "?")]) /\
  hget (snd (robin 100)) 1 = Some (text_items [("t", "0200"); ("52", "abcdef0123456789"); ("2", "1234"); ("p", "4000000000001000")]).
Proof. exact robin_later. Qed.

(** C70 *)
Theorem C70_streams_only_grow : forall h E order cs, tame_heap h -> Forall no_functions cs ->
  forall w t i, hget h w = Some (StreamO t) -> (forall j rc, nth_error cs j = Some rc -> to_print [rc] w -> j = i) ->
  forall s1 s2, schedule (threads_of E order cs, h) s1 -> schedule s1 s2 ->
  exists a b, hget (snd s1) w = Some (StreamO (t ++ a)) /\ hget (snd s2) w = Some (StreamO (t ++ a ++ b)).
Proof. exact streams_grow. Qed.
Print Assumptions C70_streams_only_grow.
Theorem C70_interrupted_pp_wrote_an_initial_part : forall E order, machine E order -> forall h shared ts cs,
  threads_ready E order h shared ts -> tame_heap h -> Forall no_functions cs -> map t_run ts = threads_of E order cs ->
  forall i th r docv doc sv sp dv dw stv w t lv lw, nth_error ts i = Some th -> nth_error cs i = Some (r, CallPp docv sv dv stv lv) ->
  doc_rep E h docv doc -> inside (t_own th) docv -> shared_spec h shared sv sp -> width_rep E dv dw -> width_rep E lv lw ->
  stream_rep (r_stdout r) stv w -> hget h w = Some (StreamO t) -> inside (t_own th) stv -> inside (t_own th) (r_stdout r) ->
  (forall j rc, nth_error cs j = Some rc -> to_print [rc] w -> j = i) ->
  forall ms h', schedule (map t_run ts, h) (ms, h') ->
  exists p q, hget h' w = Some (StreamO (t ++ p)) /\ snd (pp E doc sp dw lw) = p ++ q /\ (forall o, nth_error ms i = Some (End o) -> q = []).
Proof. exact pp_in_order. Qed.
Print Assumptions C70_interrupted_pp_wrote_an_initial_part.
Example C70_hypotheses : exists ts, threads_ready cpython311 (@rev Z) h_shared shared1 ts /\ map t_run ts = threads_of cpython311 (@rev Z) calls1 /\
  exists th, nth_error ts 2 = Some th /\ nth_error calls1 2 = Some (rest5 NoneV, CallPp (RefV 3) (RefV top) (IntV 0) (RefV 0) (IntV 80)) /\
  doc_rep cpython311 h_shared (RefV 3) doc3 /\ inside (t_own th) (RefV 3) /\ shared_spec h_shared shared1 (RefV top) default /\ width_rep cpython311 (IntV 0) 0 /\
  width_rep cpython311 (IntV 80) 80 /\ stream_rep NoneV (RefV 0) 0 /\ hget h_shared 0 = Some (StreamO []) /\ inside (t_own th) (RefV 0) /\ inside (t_own th) NoneV.
Proof. exact printing1. Qed.
Example C70_hypotheses_alone : (forall j rc, nth_error calls1 j = Some rc -> to_print [rc] 0 -> j = 2) /\ (forall j rc, nth_error calls1 j = Some rc -> to_print [rc] 2 -> j = 3) /\
  hget h_shared 0 = Some (StreamO []) /\ hget h_shared 2 = Some (StreamO (u "x")).
Proof. exact (conj prints_to_alone (conj prints_out_alone streams1)). Qed.
Example C70_sample : hget (snd (robin 10)) 0 = Some (StreamO (u "t  : ")) /\ snd (pp cpython311 doc3 default 0 80) = u "t  : " ++ u ("'0210'" ++ lf ++ "2  : '77'" ++ lf).
Proof. exact robin_part. Qed.

(** C71 *)
Theorem C71_encode_again_after_interrupted_calls : forall h E0 order0 cs, tame_heap h -> Forall no_functions cs ->
  forall ms h', schedule (threads_of E0 order0 cs, h) (ms, h') ->
  forall E order stdout tbl, env_ok E -> short_bytes E -> any_order order ->
  forall l d spv sp, dict_rep h (RefV l) (ADict d) -> is_dict d -> spec_rep h spv sp -> spec_apart h spv (RefV l) -> (forall x, to_encode cs x -> spec_apart h spv (RefV x)) ->
  exists d', dict_rep h' (RefV l) (ADict d') /\ content d' = content d /\
  (in_memory (ADict d') -> forall depth, 5 <= depth ->
   let (o, h'') := call_fun E order stdout tbl encoder_py depth "encode" [RefV l; spv] h' in
   (forall s enc, encodes_to E sp d s enc -> encode_outcome h' (RefV l) (Ok (s, enc)) o h'')
   /\ ((forall s enc, ~ encodes_to E sp d s enc) -> forall v, o <> Done v)).
Proof. exact encode_again. Qed.
Print Assumptions C71_encode_again_after_interrupted_calls.
Theorem C71_decode_again_after_interrupted_calls : forall h E0 order0 cs, tame_heap h -> Forall no_functions cs ->
  forall ms h', schedule (threads_of E0 order0 cs, h) (ms, h') ->
  forall E order stdout tbl, env_ok E -> short_text E -> any_order order ->
  forall sv s spv sp depth, input_rep h sv s -> (forall l, sv = RefV l -> hget h l <> None) -> spec_rep h spv sp -> (forall x, to_encode cs x -> spec_apart h spv (RefV x)) ->
  (zlen (buf_bytes s) < 2 ^ 63)%Z -> 5 <= depth ->
  let (o, h'') := call_fun E order stdout tbl decoder_py depth "decode" [sv; spv] h' in decode_outcome h' sv (decode E s sp) o h''.
Proof. exact decode_again. Qed.
Print Assumptions C71_decode_again_after_interrupted_calls.
Theorem C71_pp_again_after_interrupted_calls : forall h E0 order0 cs, tame_heap h -> Forall no_functions cs ->
  forall ms h', schedule (threads_of E0 order0 cs, h) (ms, h') ->
  forall E order stdout docv doc spv sp dv dw sv w t lv lw depth, doc_rep E h docv doc ->
  (forall x, to_encode cs x -> docv <> RefV x /\ forall l items k y, docv = RefV l -> hget h l = Some (DictO items) -> In (k, y) items -> y <> RefV x) ->
  spec_rep h spv sp -> (forall x, to_encode cs x -> spec_apart h spv (RefV x)) -> width_rep E dv dw -> width_rep E lv lw ->
  stream_rep stdout sv w -> hget h w = Some (StreamO t) -> 4 <= depth ->
  exists p, hget h' w = Some (StreamO (t ++ p)) /\ (to_print cs w \/ p = []) /\
  let (o, h'') := call_fun E order stdout tools_table tools_py depth "pp" [docv; spv; dv; sv; lv] h' in pp_outcome h' w (t ++ p) (pp E doc sp dw lw) o h''.
Proof. exact pp_again. Qed.
Print Assumptions C71_pp_again_after_interrupted_calls.
Example C71_hypotheses : tame_heap h_shared /\ Forall no_functions calls1 /\ dict_rep h_shared (RefV 1) (ADict (as_dict doc0)) /\ is_dict (as_dict doc0) /\
  spec_rep h_shared (RefV top) default /\ spec_apart h_shared (RefV top) (RefV 1) /\ (forall x, to_encode calls1 x -> spec_apart h_shared (RefV top) (RefV x)).
Proof. exact retry1. Qed.
Example C71_sample : let (o, h) := call_fun cpython311 (@rev Z) NoneV [] encoder_py 5 "encode" [RefV 1; RefV top] (snd (robin 100)) in
  exists s e, o = Done (TupleV [RefV s; RefV e]) /\
    hget h s = Some (BytearrayO (asc "0200" ++ [x40; x00; x00; x00; x00; x00; x10; x00] ++ asc "041234" ++ [xab; xcd; xef; x01; x23; x45; x67; x89])).
Proof. exact retry1_run. Qed.
Example C71_hypotheses_pp : doc_rep cpython311 h_shared (RefV 3) doc3 /\
  (forall x, to_encode calls1 x -> RefV 3 <> RefV x /\ forall l items k y, RefV 3 = RefV l -> hget h_shared l = Some (DictO items) -> In (k, y) items -> y <> RefV x) /\
  stream_rep NoneV (RefV 0) 0 /\ hget h_shared 0 = Some (StreamO []).
Proof. exact reprint1. Qed.
Example C71_sample_pp : let (o, h) := call_fun cpython311 (@rev Z) NoneV tools_table tools_py 5 "pp" [RefV 3; RefV top; IntV 0; RefV 0; IntV 80] (snd (robin 10)) in
  o = Done NoneV /\ hget h 0 = Some (StreamO (u ("t  : t  : '0210'" ++ lf ++ "2  : '77'" ++ lf))).
Proof. exact reprint1_run. Qed.
