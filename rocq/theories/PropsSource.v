(** * PropsSource: properties of the text of the library itself, run by the semantics of PySem.
    Statements only; proofs are elsewhere. *)
From Verif Require Import PyBase BaseFacts Types Decoder Encoder Tools CPython311 Specs Samples PyAst Source PySem SemClaims SourceDecode SourceEncode SourceTools SourceSamples.
Local Open Scope string_scope.
Local Open Scope list_scope.

(** C60 *)
Theorem C60_decoder_as_written : forall E order stdout tbl, env_ok E -> short_text E -> any_order order ->
  forall h sv s spv sp depth, input_rep h sv s -> spec_rep h spv sp -> (zlen (buf_bytes s) < 2 ^ 63)%Z -> 5 <= depth ->
  let (o, h') := call_fun E order stdout tbl decoder_py depth "decode" [sv; spv] h in
  untouched h h' /\ decode_outcome h sv (decode E s sp) o h'.
Proof. exact decode_as_written. Qed.
Print Assumptions C60_decoder_as_written.
Theorem C60_machine_exists : env_ok cpython311 /\ short_text cpython311.
Proof. exact c311_machine. Qed.
Print Assumptions C60_machine_exists.
Theorem C60_specs_exist : forall h sp, exists h' l, untouched h h' /\ spec_rep h' (RefV l) sp /\
  forall a, a < length h -> spec_apart h' (RefV l) (RefV a).
Proof. exact spec_rep_exists. Qed.
Print Assumptions C60_specs_exist.
Example C60_sample :
  let (o, h) := run_decode (@rev Z) msg_default default in
  exists a e, o = Done (TupleV [RefV a; RefV e]) /\
  hget h 0 = Some (BytearrayO msg_default) /\
  hget h a = Some (text_items [("t", "0200"); ("p", "6000000000000000"); ("2", "1234"); ("3", "000000")]).
Proof. exact run_decode_ok. Qed.
Example C60_sample_error :
  let (o, h) := run_decode (fun l => l) (asc "0200" ++ raw [96; 0; 0; 0; 0; 0; 0; 0]%N ++ asc "0412") default in
  exists l a b, o = Thrown (RefV l) /\
    hget h l = Some (InstO "DecodeError"
      [("msg", StrV (u "Field data is 2 bytes, expecting 4")); ("s", RefV 0); ("doc_dec", RefV a); ("doc_enc", RefV b);
       ("field", StrV (u "2")); ("pos", IntV 14)] [StrV (u "Field data is 2 bytes, expecting 4: field 2 pos 14")]) /\
    hget h a = Some (text_items [("t", "0200"); ("p", "6000000000000000"); ("2", "")]).
Proof. exact run_decode_error. Qed.
Example C60_sample_type : forall h,
  fst (call_fun cpython311 (fun l => l) NoneV [] decoder_py 5 "decode" [StrV (u "0200"); MapV (spec_map default)] h)
  = Thrown (ExcV "TypeError" (u "Encoded ISO8583 data must be bytes or bytearray, not str")).
Proof. exact run_decode_type. Qed.

(** C61 *)
Theorem C61_encoder_as_written : forall E order stdout tbl, env_ok E -> short_bytes E -> any_order order ->
  forall h dv d spv sp depth, dict_rep h dv d -> in_memory d -> spec_rep h spv sp -> spec_apart h spv dv -> 5 <= depth ->
  let (o, h') := call_fun E order stdout tbl encoder_py depth "encode" [dv; spv] h in
  dict_left h dv (snd (encode E d sp)) h' /\ encode_outcome h dv (fst (encode E d sp)) o h'.
Proof. exact encode_as_written. Qed.
Print Assumptions C61_encoder_as_written.
Theorem C61_machine_exists : env_ok cpython311 /\ short_bytes cpython311.
Proof. exact c311_encoder_machine. Qed.
Print Assumptions C61_machine_exists.
Theorem C61_dicts_exist : forall d, exists h dv, dict_rep h dv d.
Proof. exact dict_rep_exists. Qed.
Print Assumptions C61_dicts_exist.
Example C61_sample :
  let (o, h) := run_encode (@rev Z) [(key "t", txt "0200"); (key "1", NoneV); (key "3", txt "000000"); (key "2", txt "1234")] [] default in
  exists s e, o = Done (TupleV [RefV s; RefV e]) /\
  hget h 0 = Some (text_items [("t", "0200"); ("3", "000000"); ("2", "1234"); ("p", "6000000000000000")]) /\
  hget h s = Some (BytearrayO msg_default).
Proof. exact run_encode_ok. Qed.
Example C61_sample_error :
  let (o, h) := run_encode (fun l => l) [(key "t", txt "0200"); (key "52", RefV 1); (key "3", txt "123")]
                  [BytearrayO (raw [1; 2]%N)] default in
  exists l b, o = Thrown (RefV l) /\
    hget h l = Some (InstO "EncodeError"
      [("msg", txt "Field data is 3 bytes, expecting 6"); ("doc_dec", RefV 0); ("doc_enc", RefV b); ("field", txt "3")]
      [txt "Field data is 3 bytes, expecting 6: field 3"]) /\
    hget h 0 = Some (DictO [(key "t", txt "0200"); (key "52", RefV 1); (key "3", txt "123"); (key "p", txt "2000000000001000")]) /\
    hget h 1 = Some (BytearrayO (raw [1; 2]%N)).
Proof. exact run_encode_error. Qed.
Example C61_sample_keys :
  let (o, h) := run_encode (fun l => l) [(key "t", txt "0200"); (KOther 5 (u "5"), NoneV)] [] default in
  exists l b, o = Thrown (RefV l) /\
    hget h l = Some (InstO "EncodeError"
      [("msg", txt "Dictionary contains invalid fields [5]"); ("doc_dec", RefV 0); ("doc_enc", RefV b); ("field", txt "p")]
      [txt "Dictionary contains invalid fields [5]: field p"]).
Proof. exact run_encode_keys. Qed.
Example C61_sample_type : forall h,
  fst (call_fun cpython311 (fun l => l) NoneV [] encoder_py 5 "encode" [BytesV (asc "0200"); MapV (spec_map default)] h)
  = Thrown (ExcV "TypeError" (u "Decoded ISO8583 data must be dict, not bytes")).
Proof. exact run_encode_type. Qed.

(** C62 *)
Theorem C62_tools_as_written : forall E order stdout h docv doc spv sp dv dw sv w t lv lw depth,
  doc_rep E h docv doc -> spec_rep h spv sp -> width_rep E dv dw -> width_rep E lv lw ->
  stream_rep stdout sv w -> hget h w = Some (StreamO t) -> 4 <= depth ->
  let (o, h') := call_fun E order stdout tools_table tools_py depth "pp" [docv; spv; dv; sv; lv] h in
  pp_outcome h w t (pp E doc sp dw lw) o h'.
Proof. exact pp_as_written. Qed.
Print Assumptions C62_tools_as_written.
Theorem C62_defaults_as_written : forall E order h docv doc spv sp w t depth,
  doc_rep E h docv doc -> spec_rep h spv sp -> hget h w = Some (StreamO t) -> 4 <= depth ->
  exists dv sv lv, map default_value defaults_pp = [Some dv; Some sv; Some lv] /\
  let (o, h') := call_fun E order (RefV w) tools_table tools_py depth "pp" [docv; spv; dv; sv; lv] h in
  pp_outcome h w t (pp E doc sp 30 80) o h'.
Proof. exact pp_defaults_as_written. Qed.
Print Assumptions C62_defaults_as_written.
Theorem C62_docs_exist : forall E doc, exists h v w, doc_rep E h v doc /\ hget h w = Some (StreamO []).
Proof. exact doc_rep_exists. Qed.
Print Assumptions C62_docs_exist.
Example C62_sample :
  let (o, h) := run_pp [(key "35", RefV 3); (key "2", RefV 2); (key "bm", NoneV); (key "t", txt "0200")]
      [DictO [(key "data", BytesV (asc "AB'CDEFGHI")); (key "len", BytesV (asc "10"))]; BytearrayO (asc "Y")] default (txt "6") (IntV 30) in
  o = Done NoneV /\
  hget h 1 = Some (StreamO (u (
    "> t   Messag: '0200'" ++ lf ++
    "2   Primar: b'10' b""AB'CDEFGH""" ++ lf ++
    "                  b'I'" ++ lf ++
    "35  Track : bytearray(b'Y')" ++ lf))) /\
  hget h 3 = Some (BytearrayO (asc "Y")).
Proof. exact run_pp_ok. Qed.
Example C62_sample_error :
  let (o, h) := run_pp [(key "129", txt "x"); (key "t", txt "0200")] [] default (IntV 6) (IntV 30) in
  o = Thrown (ExcV "KeyError" (u "129")) /\ hget h 1 = Some (StreamO (u ("> t   Messag: '0200'" ++ lf ++ "129"))).
Proof. exact run_pp_error. Qed.
Example C62_sample_number :
  let (o, h) := run_pp [(KStr [189%N], txt "x"); (key "t", txt "0200")] [] default (IntV 6) (IntV 30) in
  (exists t, o = Thrown (ExcV "ValueError" t)) /\ hget h 1 = Some (StreamO (u ("> t   Messag: '0200'" ++ lf))).
Proof. exact run_pp_number. Qed.
