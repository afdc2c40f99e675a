(** * SafeClaims: vocabulary for what happens to the caller's objects at every moment of a call. *)
From Verif Require Import PyBase Types PyAst Source PySem SemClaims SessionClaims Threads.
Local Open Scope string_scope.
Local Open Scope list_scope.

(** Values that are not functions, methods, classes or modules and hold none. *)
Fixpoint inert (v : value) : Prop :=
  match v with
  | TupleV vs => (fix all (vs : list value) : Prop := match vs with [] => True | x :: vs' => inert x /\ all vs' end) vs
  | MapV m => (fix all (m : list (pystr * value)) : Prop := match m with [] => True | (_, x) :: m' => inert x /\ all m' end) m
  | TypeV _ | FunV _ | ModuleV _ | MethodV _ _ => False
  | _ => True
  end.
Definition tame (o : object) : Prop :=
  match o with
  | DictO items => Forall (fun kv => inert (snd kv)) items
  | ListO vs => Forall inert vs
  | IterO _ (Some vs) _ => Forall inert vs
  | InstO _ attrs args => Forall (fun kv => inert (snd kv)) attrs /\ Forall inert args
  | _ => True
  end.
(** No object of the heap holds a function. *)
Definition tame_heap (h : heap) : Prop := forall l o, hget h l = Some o -> tame o.

(** The items of a dict other than the bitmaps, in their order. *)
Definition bitmap_key (k : pykey) : bool := match k with KStr s => existsb (str_eqb s) [u "p"; u "1"; u "65"] | _ => false end.
Definition data_items (d : list (pykey * value)) : list (pykey * value) := filter (fun kv => negb (bitmap_key (fst kv))) d.

(** Everything [v] refers to was made since the heap was [h]. *)
Fixpoint new_value (h : heap) (v : value) : Prop :=
  match v with
  | TupleV vs => (fix all (vs : list value) : Prop := match vs with [] => True | x :: vs' => new_value h x /\ all vs' end) vs
  | RefV l | KeysV l => hget h l = None
  | MapV _ | TypeV _ | FunV _ | ModuleV _ | MethodV _ _ => False
  | _ => True
  end.

(** Calls of the library: any values may be given. *)
Inductive call := CallDecode (s spec : value) | CallEncode (doc_dec spec : value) | CallPp (doc spec desc_width stream line_width : value).
Definition runs_call (E : pyenv) (order : list Z -> list Z) (r : rest) (c : call) : act value :=
  match c with
  | CallDecode s sp => call_fun_t E order (r_stdout r) (r_table r) decoder_py (r_depth r) "decode" [s; sp]
  | CallEncode d sp => call_fun_t E order (r_stdout r) (r_table r) encoder_py (r_depth r) "encode" [d; sp]
  | CallPp doc sp dw st lw => call_fun_t E order (r_stdout r) tools_table tools_py (r_depth r) "pp" [doc; sp; dw; st; lw]
  end.
Definition threads_of (E : pyenv) (order : list Z -> list Z) (cs : list (rest * call)) : list (act value) :=
  map (fun rc => runs_call E order (fst rc) (snd rc)) cs.
Definition given (c : call) : list value :=
  match c with
  | CallDecode s sp => [s; sp]
  | CallEncode d sp => [d; sp]
  | CallPp doc sp dw st lw => [doc; sp; dw; st; lw]
  end.
Definition no_functions (rc : rest * call) : Prop := inert (r_stdout (fst rc)) /\ Forall inert (given (snd rc)).
(** The dict at [l] is given to encode(); the stream at [l] is given to pp(), or pp() is given None and it is sys.stdout. *)
Definition to_encode (cs : list (rest * call)) (l : loc) : Prop := exists r sp, In (r, CallEncode (RefV l) sp) cs.
Definition to_print (cs : list (rest * call)) (l : loc) : Prop :=
  exists r doc sp dw st lw, In (r, CallPp doc sp dw st lw) cs /\ (st = RefV l \/ st = NoneV /\ r_stdout r = RefV l).
