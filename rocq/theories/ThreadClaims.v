(** * ThreadClaims: vocabulary for threads: what a thread sees of the heap, compared with running alone. *)
From Verif Require Import PyBase Types PyAst PySem Threads.
Local Open Scope list_scope.

(** A thread's objects in the heap of all threads, each with its counterpart in the heap it would have if alone. *)
Definition view := list (loc * loc).
(** [frozen l = Some o]: the object [o] at [l] is shared and nobody changes it. *)
Section View.
  Variable frozen : loc -> option object.
  (** A value among threads and its counterpart. A shared dict is to be a mapping nobody can change. *)
  Inductive alike (b : view) : value -> value -> Prop :=
  | AlikeNone : alike b NoneV NoneV
  | AlikeBool x : alike b (BoolV x) (BoolV x)
  | AlikeInt n : alike b (IntV n) (IntV n)
  | AlikeStr s : alike b (StrV s) (StrV s)
  | AlikeBytes x : alike b (BytesV x) (BytesV x)
  | AlikeTuple l l' : Forall2 (alike b) l l' -> alike b (TupleV l) (TupleV l')
  | AlikeRef l l' : In (l, l') b -> alike b (RefV l) (RefV l')
  | AlikeMap l items m : frozen l = Some (DictO items) ->
      (forall k, sget k m = None -> dget key_eqb (KStr k) items = None) ->
      (forall k v', sget k m = Some v' -> exists v, dget key_eqb (KStr k) items = Some v /\ alike b v v') ->
      alike b (RefV l) (MapV m)
  | AlikeRange x y z : alike b (RangeV x y z) (RangeV x y z)
  | AlikeKeys l l' : In (l, l') b -> alike b (KeysV l) (KeysV l')
  | AlikeOther o : alike b (OtherV o) (OtherV o)
  | AlikeType c : alike b (TypeV c) (TypeV c)
  | AlikeOtherType c : alike b (OtherTypeV c) (OtherTypeV c)
  | AlikeFun f : alike b (FunV f) (FunV f)
  | AlikeModule m : alike b (ModuleV m) (ModuleV m)
  | AlikeMethod v v' m : alike b v v' -> alike b (MethodV v m) (MethodV v' m)
  | AlikeExc c t : alike b (ExcV c t) (ExcV c t).
  Definition alike_items {K} (b : view) : list (K * value) -> list (K * value) -> Prop :=
    Forall2 (fun x y => fst x = fst y /\ alike b (snd x) (snd y)).
  Inductive alike_obj (b : view) : object -> object -> Prop :=
  | AlikeDict i i' : alike_items b i i' -> alike_obj b (DictO i) (DictO i')
  | AlikeSet s : alike_obj b (SetO s) (SetO s)
  | AlikeList l l' : Forall2 (alike b) l l' -> alike_obj b (ListO l) (ListO l')
  | AlikeBytearray x : alike_obj b (BytearrayO x) (BytearrayO x)
  | AlikeUsed c : alike_obj b (IterO c None None) (IterO c None None)
  | AlikeUsedOf c l l' x : In (l, l') b -> alike_obj b (IterO c None (Some (l, x))) (IterO c None (Some (l', x)))
  | AlikeIter c v v' : Forall2 (alike b) v v' -> alike_obj b (IterO c (Some v) None) (IterO c (Some v') None)
  | AlikeIterOf c v v' l l' x : Forall2 (alike b) v v' -> In (l, l') b ->
      alike_obj b (IterO c (Some v) (Some (l, x))) (IterO c (Some v') (Some (l', x)))
  | AlikeStream t : alike_obj b (StreamO t) (StreamO t)
  | AlikeInst c i i' a a' : alike_items b i i' -> Forall2 (alike b) a a' -> alike_obj b (InstO c i a) (InstO c i' a').
  (** The heap [h] of all threads shows the objects of the heap [h']. *)
  Definition shows_heap (b : view) (h h' : heap) : Prop :=
    forall l l', In (l, l') b -> exists o o', hget h l = Some o /\ hget h' l' = Some o' /\ alike_obj b o o'.
  (** Different objects have different counterparts, none is shared. *)
  Definition proper_view (b : view) : Prop :=
    NoDup (map fst b) /\ NoDup (map snd b) /\ forall l, In l (map fst b) -> frozen l = None.
  Definition alike_outcome (b : view) (o o' : outcome value) : Prop :=
    match o, o' with
    | Done v, Done v' => alike b v v'
    | Thrown x, Thrown x' => alike b x x'
    | _, _ => False
    end.
End View.
