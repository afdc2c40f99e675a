(** * ThreadTasks: vocabulary for threads that call the library at the same time. *)
From Verif Require Import PyBase Types Decoder Encoder Tools PyAst Source PySem SemClaims SessionClaims Threads ThreadClaims.
Local Open Scope string_scope.
Local Open Scope list_scope.

(** Every object that [v] refers to is one of [own]. *)
Fixpoint inside (own : list loc) (v : PySem.value) : Prop :=
  match v with
  | RefV l | KeysV l => In l own
  | TupleV vs => (fix all (vs : list PySem.value) : Prop := match vs with [] => True | x :: vs' => inside own x /\ all vs' end) vs
  | MethodV x _ => inside own x
  | MapV _ => False
  | _ => True
  end.
Definition inside_obj (own : list loc) (o : object) : Prop :=
  match o with
  | DictO items => Forall (fun kv => inside own (snd kv)) items
  | ListO vs => Forall (inside own) vs
  | IterO _ vs source =>
      match vs with Some vs => Forall (inside own) vs | None => True end
      /\ match source with Some (l, _) => In l own | None => True end
  | InstO _ attrs args => Forall (fun kv => inside own (snd kv)) attrs /\ Forall (inside own) args
  | _ => True
  end.
(** The objects of a thread refer to each other only. *)
Definition owns (h : heap) (own : list loc) : Prop :=
  forall l, In l own -> exists o, hget h l = Some o /\ inside_obj own o.
(** The object [v] and its entries are among the shared objects: a dict of dicts of values that never change. *)
Definition shared_spec (h : heap) (shared : list loc) (v : PySem.value) (sp : spec) : Prop :=
  spec_rep h v sp /\
  exists l items, v = RefV l /\ In l shared /\ hget h l = Some (DictO items) /\
    forall k x, In (k, x) items -> exists l' items', x = RefV l' /\ In l' shared /\ hget h l' = Some (DictO items') /\
      forall k' y, In (k', y) items' -> immutable y = true.
(** The caller's object [v], if a dict in [h], holds [d] in [h']. *)
Definition dict_holds (h : heap) (v : PySem.value) (d : pdoc) (h' : heap) : Prop :=
  forall l items, v = RefV l -> hget h l = Some (DictO items) -> exists items', hget h' l = Some (DictO items') /\ items_rep h' l items' d.
(** A thread that owns the objects [own] of the heap [h] and makes a call of the library in it; what is claimed about the
    outcome and the heap when it has ended. *)
Inductive task (E : pyenv) (order : list Z -> list Z) (h : heap) (shared own : list loc) :
    act PySem.value -> (outcome PySem.value -> heap -> Prop) -> Prop :=
| Decodes r iv s sv sp :
    input_rep h iv s -> (zlen (buf_bytes s) < 2 ^ 63)%Z -> inside own iv -> shared_spec h shared sv sp -> inside own (r_stdout r) ->
    task E order h shared own (call_fun_t E order (r_stdout r) (r_table r) decoder_py (r_depth r) "decode" [iv; sv])
      (fun o h' => decode_outcome h iv (decode E s sp) o h')
| Encodes r dv d sv sp :
    dict_rep h dv d -> in_memory d -> inside own dv -> shared_spec h shared sv sp -> inside own (r_stdout r) ->
    task E order h shared own (call_fun_t E order (r_stdout r) (r_table r) encoder_py (r_depth r) "encode" [dv; sv])
      (fun o h' => encode_outcome h dv (fst (encode E d sp)) o h' /\ dict_holds h dv (snd (encode E d sp)) h')
| Prints r docv doc sv sp dv dw stv w t lv lw :
    doc_rep E h docv doc -> inside own docv -> shared_spec h shared sv sp -> width_rep E dv dw -> width_rep E lv lw ->
    stream_rep (r_stdout r) stv w -> hget h w = Some (StreamO t) -> inside own stv -> inside own (r_stdout r) ->
    task E order h shared own (call_fun_t E order (r_stdout r) tools_table tools_py (r_depth r) "pp" [docv; sv; dv; stv; lv])
      (fun o h' => hget h' w = Some (StreamO (t ++ snd (pp E doc sp dw lw))) /\ pp_ended (fst (pp E doc sp dw lw)) o).
(** Threads: what they own, what they run, what is claimed. *)
Record thread := { t_own : list loc; t_run : act PySem.value; t_claim : outcome PySem.value -> heap -> Prop }.
Definition threads_ready (E : pyenv) (order : list Z -> list Z) (h : heap) (shared : list loc) (ts : list thread) : Prop :=
  NoDup (shared ++ concat (map t_own ts)) /\ Forall (fun t => owns h (t_own t)) ts
  /\ Forall (fun t => task E order h shared (t_own t) (t_run t) (t_claim t)) ts.
(** Calls of functions of any programs, each with objects of its own. *)
Record job := { j_own : list loc; j_stdout : PySem.value; j_table : list (string * string); j_prog : list (string * fundef); j_depth : nat;
                j_fun : string; j_args : list PySem.value }.
(** The call alone, its arguments being [args]. *)
Definition job_alone (E : pyenv) (order : list Z -> list Z) (j : job) (args : list PySem.value) (h : heap) : outcome PySem.value * heap :=
  call_fun E order (j_stdout j) (j_table j) (j_prog j) (j_depth j) (j_fun j) args h.
Definition job_thread (E : pyenv) (order : list Z -> list Z) (j : job) : act PySem.value :=
  call_fun_t E order (j_stdout j) (j_table j) (j_prog j) (j_depth j) (j_fun j) (j_args j).
(** The shared objects of [h]; the objects a thread owns, each its own counterpart. *)
Definition frozen_in (h : heap) (shared : list loc) (l : loc) : option object := if in_dec PeanoNat.Nat.eq_dec l shared then hget h l else None.
Definition diag (own : list loc) : view := map (fun l => (l, l)) own.
(** Each job owns what it is given, or it is a shared dict; [alone] are its arguments when it runs alone: instead of each
    shared dict a mapping nobody can change, with the same items. *)
Definition jobs_apart (h : heap) (shared : list loc) (js : list job) (alone : list (list PySem.value)) : Prop :=
  NoDup (shared ++ concat (map j_own js)) /\
  Forall2 (fun j a => owns h (j_own j) /\ inside (j_own j) (j_stdout j) /\ Forall2 (alike (frozen_in h shared) (diag (j_own j))) (j_args j) a) js alone.
