(** * SessionClaims: vocabulary for sequences of calls of the library, run from its text. *)
From Verif Require Import PyBase BaseFacts Types Encoder Specs WireEncode PyAst Source PySem SemClaims.
Local Open Scope string_scope.
Local Open Scope list_scope.

(** Interpreters with codecs that keep sizes reasonable, sets in any order. *)
Definition machine (E : pyenv) (order : list Z -> list Z) : Prop :=
  env_ok E /\ short_text E /\ short_bytes E /\ any_order order.
(** The call of a function, [rest] being what does not matter: sys.stdout, a table, the depth of the stack left. *)
Record rest := { r_stdout : PySem.value; r_table : list (string * string); r_depth : nat; r_deep : 5 <= r_depth }.
Definition call_encode (E : pyenv) (order : list Z -> list Z) (r : rest) (args : list PySem.value) (h : heap) : outcome PySem.value * heap :=
  call_fun E order (r_stdout r) (r_table r) encoder_py (r_depth r) "encode" args h.
Definition call_decode (E : pyenv) (order : list Z -> list Z) (r : rest) (args : list PySem.value) (h : heap) : outcome PySem.value * heap :=
  call_fun E order (r_stdout r) (r_table r) decoder_py (r_depth r) "decode" args h.
Definition call_pp (E : pyenv) (order : list Z -> list Z) (r : rest) (args : list PySem.value) (h : heap) : outcome PySem.value * heap :=
  call_fun E order (r_stdout r) tools_table tools_py (r_depth r) "pp" args h.
(** The dict at [a] holds texts under different texts, each short enough for the memory. *)
Definition text_dict (h : heap) (a : loc) (d : ddoc) : Prop :=
  dec_dict h a d /\ NoDup (map fst d) /\ forall k t, In (k, t) d -> (zlen t < 2 ^ 62)%Z.
(** The item [k] of the dict at [l]. *)
Definition item (h : heap) (l : loc) (k : pystr) : option PySem.value :=
  match hget h l with Some (DictO items) => dget key_eqb (KStr k) items | _ => None end.
(** Two dicts of dicts with the same content, nothing shared. *)
Definition same_entries (h : heap) (b c : loc) : Prop :=
  exists enc i j, enc_dict h b i enc /\ enc_dict h c j enc /\ NoDup (b :: i ++ c :: j).
(** Both hold the same bytes. *)
Definition same_bytes (h : heap) (s s' : loc) : Prop :=
  exists bs, hget h s = Some (BytearrayO bs) /\ hget h s' = Some (BytearrayO bs).
(** Sizes that fit into an address space: bytearrays below 2^63, texts in a dict below 2^62. *)
Definition possible (h : heap) (v : PySem.value) : Prop :=
  forall l, v = RefV l ->
  match hget h l with
  | Some (BytearrayO bs) => (zlen bs < 2 ^ 63)%Z
  | Some (DictO items) => forall k t, In (k, StrV t) items -> (zlen t < 2 ^ 62)%Z
  | _ => True
  end.
(** An exception of the library's own class. *)
Definition raises (cls : string) (o : outcome PySem.value) (h : heap) : Prop :=
  exists l attrs args, o = Thrown (RefV l) /\ hget h l = Some (InstO cls attrs args).
(** [x] is the spec [v] or the entry of a field in it. *)
Definition part_of (h : heap) (v x : PySem.value) : Prop := x = v \/ exists m k, reads h v m /\ sget k m = Some x.
(** The entries of different fields are different objects. *)
Definition own_entries (h : heap) (v : PySem.value) : Prop :=
  forall m k k' x, reads h v m -> sget k m = Some x -> sget k' m = Some x -> k = k'.
(** Running the statements of a module. *)
Definition run_module (E : pyenv) (order : list Z -> list Z) (r : rest) (body : list stmt) (h : heap) : ctl * env * heap :=
  exec_block E order (r_stdout r) (r_table r) (fun _ _ => stuck "call") [] body [] h.
(** The names of the two specifications of specs.py. *)
Definition shipped (name : string) (sp : spec) : Prop := name = "default" /\ sp = default \/ name = "default_ascii" /\ sp = default_ascii.
(** The exceptions of the library as objects: their attributes and the text they show. *)
Definition decode_error_at (msg : pystr) (sv dv ev : PySem.value) (pos : Z) (field : pystr) : object :=
  InstO "DecodeError" [("msg", StrV msg); ("s", sv); ("doc_dec", dv); ("doc_enc", ev); ("field", StrV field); ("pos", IntV pos)]
    [StrV (msg ++ u ": field " ++ field ++ u " pos " ++ zstr pos)].
Definition encode_error_at (msg : pystr) (dv ev : PySem.value) (field : pystr) : object :=
  InstO "EncodeError" [("msg", StrV msg); ("doc_dec", dv); ("doc_enc", ev); ("field", StrV field)]
    [StrV (msg ++ u ": field " ++ field)].
(** e.__reduce__(), and DecodeError( *args ), EncodeError( *args ): what pickle and copy do with an exception. *)
Definition reduce_decode_error (E : pyenv) (order : list Z -> list Z) (r : rest) (e : PySem.value) (h : heap) : outcome PySem.value * heap :=
  call_fun E order (r_stdout r) (r_table r) decoder_py (r_depth r) "DecodeError.__reduce__" [e] h.
Definition reduce_encode_error (E : pyenv) (order : list Z -> list Z) (r : rest) (e : PySem.value) (h : heap) : outcome PySem.value * heap :=
  call_fun E order (r_stdout r) (r_table r) encoder_py (r_depth r) "EncodeError.__reduce__" [e] h.
Definition new_decode_error (E : pyenv) (order : list Z -> list Z) (r : rest) (args : list PySem.value) (h : heap) : outcome PySem.value * heap :=
  instantiate (call_fun E order (r_stdout r) (r_table r) decoder_py (r_depth r)) "DecodeError" args h.
Definition new_encode_error (E : pyenv) (order : list Z -> list Z) (r : rest) (args : list PySem.value) (h : heap) : outcome PySem.value * heap :=
  instantiate (call_fun E order (r_stdout r) (r_table r) encoder_py (r_depth r)) "EncodeError" args h.
(** An EncodeError that tells the truth: the caller's dict as it is left, the text made of message and field, the fields
    already encoded followed by at most one for the field that failed. *)
Definition truthful_encode_error (E : pyenv) (sp : spec) (d : pdoc) (e : encode_error) (d' : pdoc) : Prop :=
  ee_doc_dec e = d' /\ ee_args0 e = ee_msg e ++ u ": field " ++ ee_field e
  /\ exists bm1 bm2 bm3 done tail rest, bitmaps_for E d bm1 bm2 bm3
       /\ ee_doc_enc e = done ++ tail /\ Forall (entry_sent E sp d bm1 bm2 bm3) done
       /\ (tail = [] \/ exists x, tail = [(ee_field e, x)])
       /\ plan sp bm1 bm2 bm3 = map fst done ++ ee_field e :: rest.
