(** * PropsHistory: properties of whole executions in which the library is called, run from its text.
    What pp reads of the specification. Statements only; proofs are elsewhere. *)
From Verif Require Import PyBase BaseFacts Types Decoder Encoder Tools CPython311 Specs Samples Wire WireEncode Claims Claims2 Pretty PyAst Source PySem SemClaims SessionClaims HistoryClaims.
From Verif Require Import SourceHistory PrettySpec SourceSamples SessionSamples HistorySamples.
Local Open Scope string_scope.
Local Open Scope list_scope.

(** C66 *)
Theorem C66_items_after_an_execution : forall E order, machine E order -> forall a spv sp h es h',
  execution E order a spv h es h' ->
  (exists d, text_dict h a d) /\ spec_rep h spv sp /\ spec_apart h spv (RefV a) ->
  ((exists d, text_dict h' a d) /\ spec_rep h' spv sp /\ spec_apart h' spv (RefV a)) /\
  forall k, ~ bitmap_item k -> item h' a k = after_edits es k (item h a k).
Proof. exact execution_kept. Qed.
Print Assumptions C66_items_after_an_execution.
Theorem C66_encode_after_an_execution : forall E order order', machine E order -> machine E order' ->
  forall sp r r' h a spv es h1 d o h2 g b d' spv' o' g1,
  text_dict h a d -> spec_rep h spv sp -> spec_apart h spv (RefV a) -> execution E order a spv h es h1 ->
  call_encode E order r [RefV a; spv] h1 = (o, h2) ->
  text_dict g b d' -> spec_rep g spv' sp -> spec_apart g spv' (RefV b) ->
  (forall k, ~ bitmap_item k -> item g b k = after_edits es k (item h a k)) ->
  call_encode E order' r' [RefV b; spv'] g = (o', g1) ->
  same_returned h2 g1 o o' \/ same_refused h2 g1 (RefV a) (RefV b) o o' \/ raised_alike o o'.
Proof. exact encode_after_execution. Qed.
Print Assumptions C66_encode_after_an_execution.
Theorem C66_encode_sees_items_and_spec_only : forall E order1 order2, machine E order1 -> machine E order2 ->
  forall sp r1 r2 h a d spv o h1 g b d' spv' o' g1,
  text_dict h a d -> spec_rep h spv sp -> spec_apart h spv (RefV a) ->
  text_dict g b d' -> spec_rep g spv' sp -> spec_apart g spv' (RefV b) ->
  (forall k, ~ bitmap_item k -> item h a k = item g b k) ->
  call_encode E order1 r1 [RefV a; spv] h = (o, h1) -> call_encode E order2 r2 [RefV b; spv'] g = (o', g1) ->
  same_returned h1 g1 o o' \/ same_refused h1 g1 (RefV a) (RefV b) o o' \/ raised_alike o o'.
Proof. exact encode_by_items. Qed.
Print Assumptions C66_encode_sees_items_and_spec_only.
Theorem C66_decode_sees_bytes_and_spec_only : forall E order1 order2, machine E order1 -> machine E order2 ->
  forall sp r1 r2 h v s spv o h1 g v' s' b spv' o' g1,
  input_rep h v s -> holds s b -> spec_rep h spv sp -> input_rep g v' s' -> holds s' b -> spec_rep g spv' sp -> (zlen b < 2 ^ 63)%Z ->
  call_decode E order1 r1 [v; spv] h = (o, h1) -> call_decode E order2 r2 [v'; spv'] g = (o', g1) ->
  same_decoded h1 g1 v v' o o' \/ raised_alike o o'.
Proof. exact decode_by_bytes. Qed.
Print Assumptions C66_decode_sees_bytes_and_spec_only.
Example C66_hypotheses : machine cpython311 (@rev Z) /\
  (exists d, text_dict h_start 1 d) /\ spec_rep h_start spv0 default /\ spec_apart h_start spv0 (RefV 1).
Proof. exact (conj rev_machine start_holds). Qed.
Example C66_sample_execution : execution cpython311 (@rev Z) 1 spv0 h_start [SetItem (u "2") (u "99"); DelItem (u "52")] h_decoded.
Proof. exact sample_execution. Qed.
Example C66_sample_encode : let (o, h) := call_encode cpython311 (@rev Z) rest0 [RefV 1; spv0] h_decoded in
  exists s e, o = Done (TupleV [RefV s; RefV e]) /\
    hget h s = Some (BytearrayO (asc "0200" ++ [x40; x00; x00; x00; x00; x00; x00; x00] ++ asc "0299")) /\
    hget h 1 = Some (text_items [("t", "0200"); ("2", "99"); ("p", "4000000000000000")]).
Proof. exact sample_final. Qed.
Example C66_sample_refused :
  let (o, h) := call_encode cpython311 (@rev Z) rest0 [RefV 1; spv0] (set_in h_decoded (u "3") (u "12")) in
  exists l e, o = Thrown (RefV l) /\ hget h l = Some (encode_error_at (u "Field data is 2 bytes, expecting 6") (RefV 1) (RefV e) (u "3")).
Proof. exact sample_refused. Qed.

(** C67 *)
Theorem C67_pp_reads_descriptions_and_header_only : forall E doc dw lw sp sp', prints_alike E doc dw sp sp' ->
  pp E doc sp' dw lw = pp E doc sp dw lw.
Proof. exact pp_alike. Qed.
Print Assumptions C67_pp_reads_descriptions_and_header_only.
Theorem C67_rewritten_spec_prints_alike : forall E doc sp f dw lw,
  (forall k fs, fs_desc (f k fs) = fs_desc fs /\ fs_max_len (f k fs) = fs_max_len fs) ->
  pp E doc (respec f sp) dw lw = pp E doc sp dw lw.
Proof. exact pp_respec. Qed.
Print Assumptions C67_rewritten_spec_prints_alike.
Theorem C67_the_text_of_pp_prints_alike : forall E order1 order2 r1 r2
  h docv doc spv sp dv dw stv w t lv lw o h1 g docv' spv' sp' dv' stv' w' t' lv' o' g1,
  doc_rep E h docv doc -> spec_rep h spv sp -> width_rep E dv dw -> width_rep E lv lw ->
  stream_rep (r_stdout r1) stv w -> hget h w = Some (StreamO t) ->
  doc_rep E g docv' doc -> spec_rep g spv' sp' -> width_rep E dv' dw -> width_rep E lv' lw ->
  stream_rep (r_stdout r2) stv' w' -> hget g w' = Some (StreamO t') ->
  prints_alike E doc dw sp sp' ->
  call_pp E order1 r1 [docv; spv; dv; stv; lv] h = (o, h1) -> call_pp E order2 r2 [docv'; spv'; dv'; stv'; lv'] g = (o', g1) ->
  (exists out, hget h1 w = Some (StreamO (t ++ out)) /\ hget g1 w' = Some (StreamO (t' ++ out))) /\
  (o = Done NoneV /\ o' = Done NoneV \/ raised_alike o o').
Proof. exact text_pp_alike. Qed.
Print Assumptions C67_the_text_of_pp_prints_alike.
Example C67_example : (forall k fs, fs_desc (captions k fs) = fs_desc fs /\ fs_max_len (captions k fs) = fs_max_len fs)
  /\ respec captions default <> default.
Proof. exact captions_differ. Qed.
Example C67_example_without_descriptions :
  prints_alike cpython311 [(KStr (u "t"), PStr (u "0200")); (KStr (u "2"), PStr (u "12"))] 0 default [].
Proof. exact bare_alike. Qed.
