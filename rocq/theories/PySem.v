(** * PySem: what the syntax trees of PyAst mean.
    A definitional interpreter over a heap of mutable objects. Built-in functions
    on immutable values are those of PyBase; everything else (evaluation order,
    scopes, exceptions, aliasing, attribute and item access) is here.
    Whatever lies outside the subset used by /repo/iso8583 is [Stuck], which no
    except clause catches. *)
From Verif Require Import PyBase Types PyAst PyFormat.
Local Open Scope string_scope.
Local Open Scope list_scope.

(** ** Values and objects *)
Definition loc := nat.
(** An object of another class: identity, class, len() if any, repr(). *)
Record other := mkOther { o_id : N; o_class : pystr; o_len : option nat; o_repr : pystr }.
Inductive value :=
| NoneV | BoolV (b : bool) | IntV (n : Z) | StrV (s : pystr) | BytesV (b : bytes)
| TupleV (l : list value)
| RefV (l : loc)                            (* a mutable object *)
| MapV (m : list (pystr * value))           (* a mapping nobody changes: a spec *)
| RangeV (start stop step : Z)
| KeysV (l : loc)                           (* dict.keys() *)
| OtherV (o : other)
| TypeV (name : string)                     (* a class *)
| OtherTypeV (name : pystr)                 (* the class of an [other] *)
| FunV (name : string)                      (* a function, built-in or of the module *)
| ModuleV (name : string)
| MethodV (self : value) (name : string)
| ExcV (cls : string) (text : pystr).       (* an instance of a built-in exception *)
Inductive object :=
| DictO (items : list (pykey * value))
| SetO (elems : zset)
| ListO (elems : list value)
| BytearrayO (b : bytes)
| IterO (cls : string) (left : option (list value)) (source : option (nat * bytes))
                                            (* an iterator, what is left of it until it is used; the bytearray it reads *)
| StreamO (written : pystr)
| InstO (cls : string) (attrs : list (string * value)) (args : list value).
Definition heap := list object.
Definition hget (h : heap) (l : loc) : option object := nth_error h l.
Fixpoint hset (h : heap) (l : loc) (o : object) : heap :=
  match h, l with
  | [], _ => []
  | _ :: h', O => o :: h'
  | x :: h', S l' => x :: hset h' l' o
  end.

(** ** Computations: a result and the heap, or an exception and the heap *)
Inductive outcome (A : Type) := Done (a : A) | Thrown (x : value) | Stuck (why : string).
Arguments Done {A} a. Arguments Thrown {A} x. Arguments Stuck {A} why.
Definition comp (A : Type) := heap -> outcome A * heap.
Definition done {A} (a : A) : comp A := fun h => (Done a, h).
Definition throw {A} (cls : string) (text : pystr) : comp A := fun h => (Thrown (ExcV cls text), h).
Definition stuck {A} (why : string) : comp A := fun h => (Stuck why, h).
Definition seqc {A B} (m : comp A) (k : A -> comp B) : comp B :=
  fun h => match m h with
           | (Done a, h') => k a h'
           | (Thrown x, h') => (Thrown x, h')
           | (Stuck w, h') => (Stuck w, h')
           end.
Notation "'let*' x := m 'in' k" := (seqc m (fun x => k))
  (at level 200, x name, m at level 100, k at level 200, right associativity).
Definition new (o : object) : comp value := fun h => (Done (RefV (length h)), h ++ [o]).
Definition get (l : loc) : comp object :=
  fun h => match hget h l with Some o => (Done o, h) | None => (Stuck "dangling reference", h) end.
Definition put (l : loc) (o : object) : comp unit := fun h => (Done tt, hset h l o).
(** [f] for every element, collecting the results. *)
Fixpoint each {A B} (f : A -> comp B) (l : list A) : comp (list B) :=
  match l with
  | [] => done []
  | a :: l' => let* b := f a in let* bs := each f l' in done (b :: bs)
  end.

(** ** Classes and their bases: built-in ones and those of the library *)
Definition bases : list (string * string) :=
  [("KeyError", "LookupError"); ("LookupError", "Exception"); ("TypeError", "Exception");
   ("ValueError", "Exception"); ("UnicodeError", "ValueError"); ("Error", "ValueError");
   ("OverflowError", "ArithmeticError"); ("ArithmeticError", "Exception");
   ("AttributeError", "Exception"); ("NameError", "Exception"); ("UnboundLocalError", "NameError");
   ("IndexError", "LookupError"); ("DecodeError", "ValueError"); ("EncodeError", "ValueError"); ("bool", "int")].
Fixpoint superclasses (n : nat) (c : string) : list string :=
  match n with
  | O => []
  | S n' => c :: match dget String.eqb c bases with Some b => superclasses n' b | None => [] end
  end.
Definition subclass (c d : string) : bool := existsb (String.eqb d) (superclasses 5 c).
Definition exc_class (h : heap) (x : value) : string :=
  match x with
  | ExcV c _ => c
  | RefV l => match hget h l with Some (InstO c _ _) => c | _ => "" end
  | _ => ""
  end.

(** ** Environments: the local variables of a call *)
Definition env := list (string * value).
Definition lookup (x : string) (r : env) : option value := dget String.eqb x r.
Definition bindv (x : string) (v : value) (r : env) : env := dset String.eqb x v r.
Definition unbindv (x : option string) (r : env) : env := match x with Some x => dpop String.eqb x r | None => r end.

Definition const (c : constant) : value :=
  match c with
  | CNone => NoneV | CTrue => BoolV true | CFalse => BoolV false | CInt n => IntV n
  | CStr s => StrV (u s) | CBytes l => BytesV (map n2b l)
  end.

(** Keys of dicts. *)
Definition key_of (v : value) : option pykey :=
  match v with
  | StrV s => Some (KStr s)
  | OtherV o => Some (KOther (o_id o) (o_repr o))
  | _ => None
  end.
(** A dict display: of the items under one key the last counts, at the place of the first. *)
Definition from_items (l : list (pykey * value)) : list (pykey * value) :=
  fold_left (fun d kv => dset key_eqb (fst kv) (snd kv) d) l [].
Definition of_key (k : pykey) : value :=
  match k with KStr s => StrV s | KOther i r => OtherV (mkOther i [] None r) end.
Definition key_text (k : pykey) : pystr := match k with KStr s => s | KOther _ r => r end.

Section Run.
  Variable E : pyenv.
  (** The order in which a set is iterated over. *)
  Variable order : list Z -> list Z.
  (** sys.stdout, and the module-level dict of tools.py. *)
  Variable stdout : value.
  Variable dispatch_table : list (string * string).

  (** *** Built-in operations *)
  Definition type_of (h : heap) (v : value) : value :=
    match v with
    | NoneV => TypeV "NoneType" | BoolV _ => TypeV "bool" | IntV _ => TypeV "int"
    | StrV _ => TypeV "str" | BytesV _ => TypeV "bytes" | TupleV _ => TypeV "tuple"
    | MapV _ => TypeV "dict" | OtherV o => OtherTypeV (o_class o)
    | ExcV c _ => TypeV c
    | RefV l => match hget h l with
                | Some (DictO _) => TypeV "dict" | Some (SetO _) => TypeV "set"
                | Some (ListO _) => TypeV "list" | Some (BytearrayO _) => TypeV "bytearray"
                | Some (InstO c _ _) => TypeV c | Some (IterO c _ _) => TypeV c
                | _ => TypeV "object" end
    | RangeV _ _ _ => TypeV "range" | KeysV _ => TypeV "dict_keys" | TypeV _ => TypeV "type"
    | _ => TypeV "object"
    end.
  Definition is_type (t c : value) : bool :=
    match t, c with TypeV a, TypeV b => subclass a b | _, _ => false end.

  Definition truth (v : value) : comp bool :=
    match v with
    | NoneV => done false
    | BoolV b => done b
    | IntV n => done (negb (n =? 0)%Z)
    | StrV s => done (match s with [] => false | _ => true end)
    | BytesV b => done (match b with [] => false | _ => true end)
    | RefV l => let* o := get l in
                match o with
                | SetO s => done (match s with [] => false | _ => true end)
                | _ => stuck "truth of an object"
                end
    | _ => stuck "truth"
    end.

  (** repr() of what can stand in a list, str(). *)
  Definition int_text (n : Z) : comp pystr :=
    if prints E n then done (zstr n) else throw "ValueError" (u "Exceeds the limit for integer string conversion").
  (** repr(bytearray): unlike in a bytes object a single quote is always escaped. *)
  Definition repr_bytearray (b : bytes) : pystr :=
    let s := map b2n b in
    u "bytearray(b" ++ [pick_quote s] ++ flat_map (repr_byte 39) s ++ [pick_quote s] ++ u ")".
  Definition repr_of (v : value) : comp pystr :=
    match v with
    | NoneV => done (u "None")
    | BoolV b => done (u (if b then "True" else "False"))
    | StrV s => done (repr_str E s)
    | BytesV b => done (repr_bytes b)
    | IntV n => int_text n
    | OtherV o => done (o_repr o)
    | RefV l => let* o := get l in
                match o with BytearrayO b => done (repr_bytearray b) | _ => stuck "repr" end
    | _ => stuck "repr"
    end.
  Definition str_of (v : value) : comp pystr :=
    match v with
    | StrV s => done s
    | IntV n => int_text n
    | ExcV c t => if c =? "KeyError" then stuck "str of a KeyError" else done t
    | RefV l => let* o := get l in
                match o with
                | ListO vs => let* rs := each repr_of vs in done (list_repr rs)
                | _ => stuck "str of an object"
                end
    | _ => stuck "str"
    end.

  Definition binop (op : operator) (a b : value) : comp value :=
    match op, a, b with
    | Add, IntV x, IntV y => done (IntV (x + y))
    | Add, StrV x, StrV y => done (StrV (x ++ y))
    | Add, BytesV x, BytesV y => done (BytesV (x ++ y))
    | Add, StrV _, _ => throw "TypeError" (u "can only concatenate str")
    | Add, _, StrV _ => throw "TypeError" (u "can only concatenate str")
    | Sub, IntV x, IntV y => done (IntV (x - y))
    | Mult, IntV x, IntV y => done (IntV (x * y))
    | Mult, StrV s, IntV n => done (StrV (concat (repeat s (Z.to_nat n))))
    | FloorDiv, IntV x, IntV y => if (y =? 0)%Z then stuck "division by zero" else done (IntV (x / y))
    | Mod, IntV x, IntV y => if (y =? 0)%Z then stuck "division by zero" else done (IntV (x mod y))
    | BitAnd, IntV x, IntV y => done (IntV (Z.land x y))
    | BitOr, IntV x, IntV y => done (IntV (Z.lor x y))
    | LShift, IntV x, IntV y => if (y <? 0)%Z then stuck "negative shift" else done (IntV (Z.shiftl x y))
    | RShift, IntV x, IntV y => if (y <? 0)%Z then stuck "negative shift" else done (IntV (Z.shiftr x y))
    | _, _, _ => stuck "operator"
    end.
  (** a += b: a bytearray is extended in place. *)
  Definition inplace (op : operator) (a b : value) : comp value :=
    match op, a, b with
    | Add, RefV l, BytesV y =>
        let* o := get l in
        match o with
        | BytearrayO x => let* _ := put l (BytearrayO (x ++ y)) in done a
        | _ => stuck "+="
        end
    | _, _, _ => binop op a b
    end.

  Definition equal (a b : value) : comp bool :=
    match a, b with
    | StrV x, StrV y => done (str_eqb x y)
    | IntV x, IntV y => done (x =? y)%Z
    | _, _ => stuck "=="
    end.
  Definition is_none (a b : value) : comp bool :=
    match b with
    | NoneV => done (match a with NoneV => true | _ => false end)
    | _ => stuck "is"
    end.
  Definition contains (a b : value) : comp bool :=
    match b with
    | RefV l => let* o := get l in
                match o, a with
                | SetO s, IntV n => done (zmem n s)
                | DictO d, _ => match key_of a with
                                | Some k => done (dmem key_eqb k d)
                                | None => stuck "in"
                                end
                | _, _ => stuck "in"
                end
    | _ => stuck "in"
    end.
  Definition compare (op : cmpop) (a b : value) : comp bool :=
    match op with
    | CmpEq => equal a b
    | CmpNotEq => let* r := equal a b in done (negb r)
    | CmpLtE => match a, b with IntV x, IntV y => done (x <=? y)%Z | _, _ => stuck "<=" end
    | CmpGt => match a, b with IntV x, IntV y => done (y <? x)%Z | _, _ => stuck ">" end
    | CmpIn => contains a b
    | CmpNotIn => let* r := contains a b in done (negb r)
    | CmpIs => is_none a b
    | CmpIsNot => let* r := is_none a b in done (negb r)
    end.

  (** *** Items and slices *)
  Definition getitem (v i : value) : comp value :=
    match v with
    | MapV m => match i with
                | StrV k => match sget k m with Some x => done x | None => throw "KeyError" k end
                | _ => stuck "key of a spec"
                end
    | RefV l =>
        let* o := get l in
        match o with
        | DictO d => match key_of i with
                     | Some k => match dget key_eqb k d with
                                 | Some x => done x
                                 | None => throw "KeyError" (key_text k)
                                 end
                     | None => stuck "key"
                     end
        | BytearrayO b => match i with
                          | IntV n => if (n <? 0)%Z then stuck "negative index" else
                              match nth_error b (Z.to_nat n) with
                              | Some x => done (IntV (Z.of_N (b2n x)))
                              | None => throw "IndexError" (u "bytearray index out of range")
                              end
                          | _ => stuck "index"
                          end
        | _ => stuck "item"
        end
    | _ => stuck "item"
    end.
  Definition setitem (v i x : value) : comp unit :=
    match v with
    | RefV l =>
        let* o := get l in
        match o with
        | DictO d => match key_of i with
                     | Some k => put l (DictO (dset key_eqb k x d))
                     | None => stuck "key"
                     end
        | BytearrayO b =>
            match i, x with
            | IntV n, IntV y =>
                if (n <? 0)%Z || (y <? 0)%Z || (255 <? y)%Z then stuck "byte" else
                if (zlen b <=? n)%Z then throw "IndexError" (u "bytearray index out of range") else
                put l (BytearrayO (firstn (Z.to_nat n) b ++ n2b (Z.to_N y) :: skipn (S (Z.to_nat n)) b))
            | _, _ => stuck "index"
            end
        | _ => stuck "item assignment"
        end
    | _ => stuck "item assignment"
    end.
  (** s[i:j]; a missing bound is 0 or the length. *)
  Definition bound (d : Z) (v : value) : option Z :=
    match v with NoneV => Some d | IntV n => Some n | _ => None end.
  Definition cut {A} (s : list A) (i j : value) : option (list A) :=
    match bound 0 i, bound (zlen s) j with
    | Some a, Some b => Some (py_slice s a b)
    | _, _ => None
    end.
  Definition getslice (v i j : value) : comp value :=
    match v with
    | StrV s => match cut s i j with Some t => done (StrV t) | None => stuck "slice" end
    | BytesV s => match cut s i j with Some t => done (BytesV t) | None => stuck "slice" end
    | RefV l =>
        let* o := get l in
        match o with
        | BytearrayO s => match cut s i j with Some t => new (BytearrayO t) | None => stuck "slice" end
        | _ => stuck "slice"
        end
    | _ => stuck "slice"
    end.

  (** *** Iteration *)
  Fixpoint count_from (n : nat) (start step : Z) : list value :=
    match n with O => [] | S n' => IntV start :: count_from n' (start + step) step end.
  Definition range_list (a b step : Z) : list value :=
    count_from (Z.to_nat ((b - a + step - 1) / step)) a step.
  Definition bytes_of (v : value) : comp bytes :=
    match v with
    | BytesV b => done b
    | RefV l => let* o := get l in
                match o with BytearrayO b => done b | _ => stuck "bytes-like object" end
    | _ => stuck "bytes-like object"
    end.
  (** Python looks at what it iterates over at every step. A dict, a set or a bytearray
      that has changed in the meantime is outside the subset. *)
  Inductive watch := Keys (l : list pykey) | Elems (s : zset) | Octets (b : bytes).
  Definition same_keys (a b : list pykey) : bool :=
    Nat.eqb (length a) (length b) && forallb (fun p => key_eqb (fst p) (snd p)) (combine a b).
  Definition same_elems (a b : zset) : bool :=
    Nat.eqb (length a) (length b) && forallb (fun p => Z.eqb (fst p) (snd p)) (combine a b).
  Definition same_octets (a b : bytes) : bool := str_eqb (map b2n a) (map b2n b).
  Definition unchanged (w : option (loc * watch)) : comp unit :=
    match w with
    | None => done tt
    | Some (l, x) =>
        let* o := get l in
        if match x, o with
           | Keys ks, DictO d => same_keys ks (map fst d)
           | Elems s, SetO s' => same_elems s s'
           | Octets b, BytearrayO b' => same_octets b b'
           | _, _ => false
           end
        then done tt else stuck "changed during iteration"
    end.
  Definition watched (v : value) : comp (option (loc * watch)) :=
    match v with
    | KeysV l => let* o := get l in
                 match o with DictO d => done (Some (l, Keys (map fst d))) | _ => stuck "iteration" end
    | RefV l => let* o := get l in
                match o with
                | SetO s => done (Some (l, Elems s))
                | IterO _ _ (Some (b, x)) => done (Some (b, Octets x))
                | _ => done None
                end
    | _ => done None
    end.
  (** One step of an iteration. *)
  Definition stepping {B} (w : option (loc * watch)) (m : comp B) : comp B :=
    match w with
    | None => m
    | Some _ => let* b := m in let* _ := unchanged w in done b
    end.
  Definition iterate (v : value) : comp (list value) :=
    match v with
    | RangeV a b step => done (range_list a b step)
    | KeysV l => let* o := get l in
                 match o with
                 | DictO d => done (map (fun kv => of_key (fst kv)) d)
                 | _ => stuck "iteration"
                 end
    | RefV l => let* o := get l in
                match o with
                | ListO vs => done vs
                | SetO s => done (map IntV (order s))
                | IterO c (Some vs) None => let* _ := put l (IterO c None None) in done vs
                | IterO c (Some vs) (Some (b, x)) =>
                    let* _ := unchanged (Some (b, Octets x)) in
                    let* _ := put l (IterO c None (Some (b, x))) in done vs
                | _ => stuck "iteration"
                end
    | _ => stuck "iteration"
    end.
  Definition int_of (v : value) : comp Z :=
    match v with IntV n => done n | _ => stuck "int expected" end.
  Definition range_of (v : value) : comp (Z * Z) :=
    match v with RangeV a b 1 => done (a, b) | _ => stuck "range expected" end.

  (** *** str.format *)
  Definition format_arg (v : value) : option farg :=
    match v with StrV s => Some (FStr s) | IntV n => Some (FInt n) | _ => None end.
  Definition format (t : pystr) (args : list value) (kws : env) : comp value :=
    match str_format E t (map format_arg args) (map (fun kv => (fst kv, format_arg (snd kv))) kws) with
    | FText s => done (StrV s)
    | FError why => throw "ValueError" why
    | FUnknown => stuck "format"
    end.

  (** *** Calls of built-in classes, functions and methods *)
  Definition py_len (v : value) : comp value :=
    match v with
    | StrV s => done (IntV (zlen s))
    | BytesV b => done (IntV (zlen b))
    | OtherV o => match o_len o with
                  | Some n => done (IntV (Z.of_nat n))
                  | None => throw "TypeError" (u "object has no len()")
                  end
    | RefV l => let* o := get l in
                match o with BytearrayO b => done (IntV (zlen b)) | _ => stuck "len" end
    | TupleV l => done (IntV (Z.of_nat (length l)))
    | NoneV | BoolV _ | IntV _ => throw "TypeError" (u "object has no len()")
    | _ => stuck "len"
    end.
  Definition to_int (v : value) : comp value :=
    match v with
    | IntV n => done (IntV n)
    | StrV s => match py_int E s with
                | Some n => done (IntV n)
                | None => throw "ValueError" (u "invalid literal for int()")
                end
    | _ => stuck "int()"
    end.
  Definition cres_str (r : cres pystr) : comp value :=
    match r with
    | COk t => done (StrV t)
    | CLookup => throw "LookupError" (u "unknown encoding")
    | CFail => throw "UnicodeError" (u "codec error")
    end.
  Definition cres_bytes (why : pystr) (r : cres bytes) : comp value :=
    match r with
    | COk b => done (BytesV b)
    | CLookup => throw "LookupError" (u "unknown encoding")
    | CFail => throw "UnicodeError" why
    end.
  Definition call_type (c : string) (args : list value) : comp value :=
    match args with
    | [] =>
        if c =? "set" then new (SetO [])
        else if c =? "bytearray" then new (BytearrayO [])
        else stuck c
    | [v] =>
        if c =? "bytes" then let* b := bytes_of v in done (BytesV b)
        else if c =? "bytearray" then let* b := bytes_of v in new (BytearrayO b)
        else if c =? "str" then let* s := str_of v in done (StrV s)
        else if c =? "int" then to_int v
        else if c =? "set" then
          let* vs := iterate v in let* ns := each int_of vs in new (SetO (zset_of ns))
        else if c =? "type" then fun h => (Done (type_of h v), h)
        else if c =? "TypeError" then match v with StrV s => done (ExcV "TypeError" s) | _ => stuck c end
        else stuck c
    | [v; w] =>
        if c =? "int" then match v, w with StrV _, IntV 10 => to_int v | _, _ => stuck c end
        else if c =? "bytes" then
          match v, w with
          | StrV s, StrV enc => cres_bytes (encode_why E enc s) (str_encode E enc s)
          | _, _ => stuck c
          end
        else stuck c
    | _ => stuck c
    end.

  (** Stable insertion of a value with its sort key. *)
  Fixpoint insert_key (x : Z * value) (l : list (Z * value)) : list (Z * value) :=
    match l with
    | [] => [x]
    | y :: l' => if (fst x <=? fst y)%Z then x :: l else y :: insert_key x l'
    end.
  Definition sort_by (l : list (Z * value)) : list value := map snd (fold_right insert_key [] l).
  Definition keyed (f : value -> comp value) (v : value) : comp (Z * value) :=
    let* k := f v in let* n := int_of k in done (n, v).
  Definition enumerated (b : bytes) : list value :=
    map (fun ib => TupleV [IntV (Z.of_nat (fst ib)); IntV (Z.of_N (b2n (snd ib)))])
        (combine (seq 0 (length b)) b).
  Definition call_builtin (f : string) (args : list value) (kws : env) : comp value :=
    if match kws with [] => false | _ => negb (f =? "sorted") end then stuck "keywords"
    else if f =? "len" then match args with [v] => py_len v | _ => stuck f end
    else if f =? "repr" then
      match args with [v] => let* s := repr_of v in done (StrV s) | _ => stuck f end
    else if f =? "isinstance" then
      match args with
      | [v; TupleV cs] =>
          if forallb (fun c => match c with TypeV _ => true | _ => false end) cs
          then fun h => (Done (BoolV (existsb (is_type (type_of h v)) cs)), h)
          else stuck f
      | [v; TypeV c] => fun h => (Done (BoolV (is_type (type_of h v) (TypeV c))), h)
      | _ => stuck f
      end
    else if f =? "range" then
      match args with
      | [IntV a; IntV b] => done (RangeV a b 1)
      | [IntV a; IntV b; IntV s] => if (s <=? 0)%Z then stuck f else done (RangeV a b s)
      | _ => stuck f
      end
    else if f =? "enumerate" then
      match args with
      | [BytesV b] => new (IterO "enumerate" (Some (enumerated b)) None)
      | [RefV l] => let* b := bytes_of (RefV l) in new (IterO "enumerate" (Some (enumerated b)) (Some (l, b)))
      | _ => stuck f
      end
    else if f =? "sorted" then
      match args, kws with
      | [v], [] => let* vs := iterate v in let* ks := each (keyed done) vs in new (ListO (sort_by ks))
      | [v], [("key", TypeV "int")] =>
          let* vs := iterate v in let* ks := each (keyed to_int) vs in new (ListO (sort_by ks))
      | _, _ => stuck f
      end
    else if f =? "a2b_hex" then
      match args with
      | [StrV s] => match a2b_hex s with
                    | Some b => done (BytesV b)
                    | None => throw (if forallb (fun c => (c <? 128)%N) s then "Error" else "ValueError") []
                    end
      | [BytesV b] => match a2b_hex (map b2n b) with Some b => done (BytesV b) | None => throw "Error" [] end
      | [RefV l] => let* b := bytes_of (RefV l) in
                    match a2b_hex (map b2n b) with Some b => done (BytesV b) | None => throw "Error" [] end
      | [OtherV _] | [NoneV] | [BoolV _] | [IntV _] | [TupleV _] => throw "TypeError" (u "a2b_hex")
      | _ => stuck f
      end
    else stuck f.

  (** Which attributes the values have; for others AttributeError. *)
  Definition str_methods := ["upper"; "isnumeric"; "encode"; "format"].
  Definition dict_methods := ["keys"; "get"; "pop"].
  Definition set_methods := ["update"; "add"; "remove"; "issubset"; "difference"; "intersection"].
  Definition mem (x : string) (l : list string) : bool := existsb (String.eqb x) l.
  Definition getattr (v : value) (a : string) : comp value :=
    if a =? "__class__" then fun h => (Done (type_of h v), h) else
    match v with
    | RefV l =>
        let* o := get l in
        match o with
        | InstO c attrs _ =>
            match lookup a attrs with Some x => done x | None => stuck "attribute" end
        | BytearrayO _ => if mem a ["hex"; "decode"] then done (MethodV v a)
                          else if mem a ["encode"; "isnumeric"] then throw "AttributeError" (u a) else stuck "attribute"
        | DictO _ => if mem a dict_methods then done (MethodV v a) else stuck "attribute"
        | SetO _ => if mem a set_methods then done (MethodV v a) else stuck "attribute"
        | StreamO _ => if a =? "write" then done (MethodV v a) else stuck "attribute"
        | _ => stuck "attribute"
        end
    | StrV _ => if mem a str_methods then done (MethodV v a) else stuck "attribute"
    | BytesV _ => if mem a ["hex"; "decode"] then done (MethodV v a)
                  else if mem a ["encode"; "isnumeric"] then throw "AttributeError" (u a) else stuck "attribute"
    | IntV _ => if a =? "to_bytes" then done (MethodV v a)
                else if mem a ["encode"; "isnumeric"] then throw "AttributeError" (u a) else stuck "attribute"
    | MapV _ => if a =? "get" then done (MethodV v a) else stuck "attribute"
    | OtherV _ | NoneV | BoolV _ | TupleV _ =>
        if mem a ["encode"; "isnumeric"] then throw "AttributeError" (u a) else stuck "attribute"
    | OtherTypeV n => if a =? "__name__" then done (StrV n)
                      else if a =? "__repr__" then done (MethodV v a) else stuck "attribute"
    | TypeV n => if a =? "__name__" then done (StrV (u n))
                 else if mem a ["from_bytes"; "fromhex"; "__init__"; "__repr__"] then done (MethodV v a)
                 else stuck "attribute"
    | ModuleV m => if (m =? "binascii") && (a =? "a2b_hex") then done (FunV "a2b_hex")
                   else if (m =? "_sys") && (a =? "stdout") then done stdout
                   else if m =? "_dispatch" then done (MethodV v a) else stuck "attribute"
    | _ => stuck "attribute"
    end.
  Definition setattr (v : value) (a : string) (x : value) : comp unit :=
    match v with
    | RefV l => let* o := get l in
                match o with
                | InstO c attrs args => put l (InstO c (bindv a x attrs) args)
                | _ => stuck "attribute assignment"
                end
    | _ => stuck "attribute assignment"
    end.
  (** signed=False *)
  Definition unsigned (kws : env) : bool :=
    match kws with [(k, BoolV false)] => k =? "signed" | _ => false end.
  Definition no_args (args : list value) (v : comp value) : comp value :=
    match args with [] => v | _ => stuck "arguments" end.
  Definition call_method (self : value) (m : string) (args : list value) (kws : env) : comp value :=
    if match kws with [] => false | _ => negb (mem m ["format"; "to_bytes"; "from_bytes"]) end then stuck "keywords" else
    match self with
    | StrV s =>
        if m =? "upper" then no_args args (done (StrV (py_upper s)))
        else if m =? "isnumeric" then no_args args (done (BoolV (isnumeric E s)))
        else if m =? "format" then format s args kws
        else if m =? "encode" then
          match args with [StrV enc] => cres_bytes (encode_why E enc s) (str_encode E enc s) | _ => stuck m end
        else stuck m
    | BytesV b =>
        if m =? "hex" then no_args args (done (StrV (py_hex b)))
        else if m =? "decode" then
          match args with [StrV enc] => cres_str (bytes_decode E enc b) | _ => stuck m end
        else stuck m
    | IntV n =>
        if m =? "to_bytes" then
          match args with
          | [IntV w; StrV o] =>
              if negb (str_eqb o (u "big") && unsigned kws) then stuck m
              else if (w <? 0)%Z then throw "ValueError" (u "length argument must be non-negative")
              else if (n <? 0)%Z then throw "OverflowError" []
              else match to_be (Z.to_nat w) (Z.to_N n) with
                   | Some b => done (BytesV b)
                   | None => throw "OverflowError" []
                   end
          | _ => stuck m
          end
        else stuck m
    | MapV d =>
        if m =? "get" then
          match args with
          | [StrV k; dflt] => done (match sget k d with Some v => v | None => dflt end)
          | _ => stuck m
          end
        else stuck m
    | TypeV c =>
        if (c =? "bytes") && (m =? "fromhex") then
          match args with
          | [StrV s] => match fromhex s with Some b => done (BytesV b) | None => throw "ValueError" [] end
          | _ => stuck m
          end
        else if (c =? "int") && (m =? "from_bytes") then
          match args with
          | [v; StrV o] => if str_eqb o (u "big") && unsigned kws then
                             let* b := bytes_of v in done (IntV (Z.of_N (from_be b)))
                           else stuck m
          | _ => stuck m
          end
        else if (c =? "ValueError") && (m =? "__init__") then
          match args with
          | RefV l :: rest => let* o := get l in
                              match o with
                              | InstO c' attrs _ => let* _ := put l (InstO c' attrs rest) in done NoneV
                              | _ => stuck m
                              end
          | _ => stuck m
          end
        else stuck m
    | ModuleV n =>
        if (n =? "_dispatch") && (m =? "get") then
          match args with
          | [MethodV (TypeV c) r; dflt] =>
              if r =? "__repr__"
              then done (match lookup c (map (fun p => (fst p, FunV (snd p))) dispatch_table) with
                         | Some f => f | None => dflt end)
              else stuck m
          | [MethodV (OtherTypeV c) _; dflt] => done dflt
          | _ => stuck m
          end
        else stuck m
    | RefV l =>
        let* o := get l in
        match o with
        | BytearrayO b =>
            if m =? "hex" then no_args args (done (StrV (py_hex b)))
            else if m =? "decode" then
              match args with [StrV enc] => cres_str (bytes_decode E enc b) | _ => stuck m end
            else stuck m
        | SetO s =>
            if m =? "update" then
              match args with
              | [v] => let* vs := iterate v in let* ns := each int_of vs in
                       let* _ := put l (SetO (zupdate s ns)) in done NoneV
              | _ => stuck m
              end
            else if m =? "add" then
              match args with [IntV n] => let* _ := put l (SetO (zadd n s)) in done NoneV | _ => stuck m end
            else if m =? "remove" then
              match args with
              | [IntV n] => if zmem n s then let* _ := put l (SetO (zremove n s)) in done NoneV
                            else throw "KeyError" (zstr n)
              | _ => stuck m
              end
            else if m =? "issubset" then
              match args with
              | [v] => let* r := range_of v in done (BoolV (zsubset_range (fst r) (snd r) s))
              | _ => stuck m
              end
            else if m =? "difference" then
              match args with
              | [v] => let* r := range_of v in new (SetO (zdiff_range (fst r) (snd r) s))
              | _ => stuck m
              end
            else if m =? "intersection" then
              match args with
              | [v] => let* r := range_of v in new (SetO (zinter_range (fst r) (snd r) s))
              | _ => stuck m
              end
            else stuck m
        | DictO d =>
            if m =? "keys" then no_args args (done (KeysV l))
            else if m =? "get" then
              match args with
              | [k; dflt] => match key_of k with
                             | Some k => done (match dget key_eqb k d with Some v => v | None => dflt end)
                             | None => stuck m
                             end
              | _ => stuck m
              end
            else if m =? "pop" then
              match args with
              | [k; dflt] => match key_of k with
                             | Some k => let* _ := put l (DictO (dpop key_eqb k d)) in
                                         done (match dget key_eqb k d with Some v => v | None => dflt end)
                             | None => stuck m
                             end
              | _ => stuck m
              end
            else stuck m
        | StreamO t =>
            if m =? "write" then
              match args with [StrV s] => let* _ := put l (StreamO (t ++ s)) in done NoneV | _ => stuck m end
            else stuck m
        | _ => stuck m
        end
    | _ => stuck m
    end.

  (** Names that are not local variables. *)
  Definition type_names :=
    ["str"; "bytes"; "bytearray"; "int"; "dict"; "set"; "type"; "TypeError"; "ValueError"; "DecodeError"; "EncodeError"].
  Definition builtin_names := ["len"; "repr"; "isinstance"; "range"; "enumerate"; "sorted"].
  Definition module_names := ["binascii"; "_sys"; "_dispatch"].
  Definition global (x : string) : comp value :=
    if mem x type_names then done (TypeV x)
    else if mem x module_names then done (ModuleV x)
    else done (FunV x).

  (** *** Expressions and statements
      [call f args]: calls a function of the module; [locals]: the local variables
      of the function running. *)
  Variable call : string -> list value -> comp value.
  Variable locals : list string.

  Definition name (r : env) (x : string) : comp value :=
    match lookup x r with
    | Some v => done v
    | None => if mem x locals then throw "UnboundLocalError" (u x) else global x
    end.
  (** Instances of the classes of the library. *)
  Definition instantiate (c : string) (args : list value) : comp value :=
    let* self := new (InstO c [] []) in
    let* _ := call (c ++ ".__init__")%string (self :: args) in
    done self.
  Definition apply (f : value) (args : list value) (kws : env) : comp value :=
    match f with
    | FunV x => if mem x ("a2b_hex" :: builtin_names) then call_builtin x args kws
                else match kws with [] => call x args | _ => stuck "keywords" end
    | TypeV c => match kws with
                 | [] => if mem c ["DecodeError"; "EncodeError"] then instantiate c args else call_type c args
                 | _ => stuck "keywords"
                 end
    | MethodV self m => call_method self m args kws
    | _ => stuck "call"
    end.
  (** Unpacking in for and in comprehensions. *)
  Fixpoint unpack_names (ts : list expr) (vs : list value) (r : env) : option env :=
    match ts, vs with
    | [], [] => Some r
    | Name x :: ts', v :: vs' => unpack_names ts' vs' (bindv x v r)
    | _, _ => None
    end.
  Definition bind_target (t : expr) (v : value) (r : env) : comp env :=
    match t, v with
    | Name x, _ => done (bindv x v r)
    | Tuple ts, TupleV vs => match unpack_names ts vs r with Some r' => done r' | None => stuck "unpacking" end
    | _, _ => stuck "target"
    end.

  (** A comprehension is a scope of its own: a local variable of the function without a
      value is a NameError there, outside the subset. *)
  Definition nested {B} (m : comp B) : comp B :=
    fun h => match m h with
             | (Thrown (ExcV c t), h') => (if c =? "UnboundLocalError" then Stuck "free variable" else Thrown (ExcV c t), h')
             | o => o
             end.

  Fixpoint eval (r : env) (e : expr) {struct e} : comp value :=
    let evals := (fix evals (l : list expr) : comp (list value) :=
      match l with
      | [] => done []
      | e :: l' => let* v := eval r e in let* vs := evals l' in done (v :: vs)
      end) in
    match e with
    | Constant c => done (const c)
    | Name x => name r x
    | Attribute e a => let* v := eval r e in getattr v a
    | Subscript e i =>
        let* v := eval r e in
        match i with
        | Slice lo hi =>
            let* a := match lo with Some x => eval r x | None => done NoneV end in
            let* b := match hi with Some x => eval r x | None => done NoneV end in
            getslice v a b
        | _ => let* k := eval r i in getitem v k
        end
    | Slice _ _ => stuck "slice"
    | Call f args kws =>
        let* g := eval r f in
        let* vs := evals args in
        let* ks := (fix evalk (l : list (string * expr)) : comp env :=
          match l with
          | [] => done []
          | (k, e) :: l' => let* v := eval r e in let* ks := evalk l' in done ((k, v) :: ks)
          end) kws in
        apply g vs ks
    | BinOp a op b => let* x := eval r a in let* y := eval r b in binop op x y
    | BoolAnd a b => let* x := eval r a in let* t := truth x in if t then eval r b else done x
    | Not a => let* x := eval r a in let* t := truth x in done (BoolV (negb t))
    | USub a => let* x := eval r a in match x with IntV n => done (IntV (- n)) | _ => stuck "-" end
    | Compare a op b =>
        let* x := eval r a in let* y := eval r b in let* t := compare op x y in done (BoolV t)
    | IfExp c a b => let* x := eval r c in let* t := truth x in if t then eval r a else eval r b
    | Tuple l => let* vs := evals l in done (TupleV vs)
    | EList l => let* vs := evals l in new (ListO vs)
    | Dict l =>
        let* d := (fix items (l : list (expr * expr)) : comp (list (pykey * value)) :=
          match l with
          | [] => done []
          | (k, e) :: l' =>
              let* kv := eval r k in
              let* v := eval r e in
              let* d := items l' in
              match key_of kv with Some k' => done ((k', v) :: d) | None => stuck "key" end
          end) l in
        new (DictO (from_items d))
    | ListComp elt gens =>
        let* vs := (fix gen (gens : list (expr * expr * list expr)) (r : env) : comp (list value) :=
          match gens with
          | [] => let* v := eval r elt in done [v]
          | (t, it, ifs) :: gens' =>
              let* i := eval r it in
              let* w := watched i in
              let* vs := iterate i in
              let* parts := each (fun v => stepping w (nested (
                let* r' := bind_target t v r in
                let* ok := (fix tests (l : list expr) : comp bool :=
                  match l with
                  | [] => done true
                  | e :: l' => let* x := eval r' e in let* b := truth x in if b then tests l' else done false
                  end) ifs in
                if ok then gen gens' r' else done []))) vs in
              done (concat parts)
          end) gens r in
        new (ListO vs)
    | JoinedStr l =>
        let* t := (fix shows (l : list expr) : comp pystr :=
          match l with
          | [] => done []
          | e :: l' => let* v := eval r e in let* s := str_of v in
                       match l' with [] => done s | _ => let* t := shows l' in done (s ++ t) end
          end) l in
        done (StrV t)
    end.

  (** What a statement ends with. The local variables are kept when an exception
      leaves it. *)
  Inductive ctl := Next | Returned (v : value) | Threw (x : value) | StuckS (why : string).
  Definition sem := env -> heap -> ctl * env * heap.
  Definition expr_then {A} (m : comp A) (k : A -> sem) : sem :=
    fun r h => match m h with
               | (Done a, h') => k a r h'
               | (Thrown x, h') => (Threw x, r, h')
               | (Stuck w, h') => (StuckS w, r, h')
               end.
  Definition finish (c : ctl) : sem := fun r h => (c, r, h).
  Definition andthen (a b : sem) : sem :=
    fun r h => match a r h with (Next, r', h') => b r' h' | o => o end.
  Definition with_env (f : env -> sem) : sem := fun r h => f r r h.
  Definition set_env (r' : env) : sem := fun _ h => (Next, r', h).

  Definition assign_to (t : expr) (v : value) : sem :=
    with_env (fun r =>
      match t with
      | Name x => set_env (bindv x v r)
      | Subscript e i => expr_then (eval r e) (fun d => expr_then (eval r i) (fun k =>
                           expr_then (setitem d k v) (fun _ => finish Next)))
      | Attribute e a => expr_then (eval r e) (fun o => expr_then (setattr o a v) (fun _ => finish Next))
      | _ => finish (StuckS "target")
      end).
  Fixpoint assign_all (ts : list expr) (vs : list value) : sem :=
    match ts, vs with
    | [], [] => finish Next
    | t :: ts', v :: vs' => andthen (assign_to t v) (assign_all ts' vs')
    | _, _ => finish (StuckS "unpacking")
    end.
  Definition assign (t : expr) (v : value) : sem :=
    match t with
    | Tuple ts => match v with TupleV vs => assign_all ts vs | _ => finish (StuckS "unpacking") end
    | _ => assign_to t v
    end.
  Definition augassign (t : expr) (op : operator) (e : expr) : sem :=
    with_env (fun r =>
      match t with
      | Name x => expr_then (name r x) (fun a => expr_then (eval r e) (fun b =>
                    expr_then (inplace op a b) (fun v => set_env (bindv x v r))))
      | Subscript d i => expr_then (eval r d) (fun dv => expr_then (eval r i) (fun iv =>
                    expr_then (getitem dv iv) (fun a => expr_then (eval r e) (fun b =>
                    expr_then (inplace op a b) (fun v => expr_then (setitem dv iv v) (fun _ => finish Next))))))
      | _ => finish (StuckS "target")
      end).
  Fixpoint loop (f : value -> sem) (l : list value) : sem :=
    match l with
    | [] => finish Next
    | v :: l' => andthen (f v) (loop f l')
    end.
  Definition step_of (w : option (loc * watch)) (s : sem) : sem :=
    match w with
    | None => s
    | Some _ => andthen s (expr_then (unchanged w) (fun _ => finish Next))
    end.
  Definition yielding := "<yielded>".

  Fixpoint exec (s : stmt) {struct s} : sem :=
    let block := (fix block (l : list stmt) : sem :=
      match l with
      | [] => finish Next
      | s :: l' => andthen (exec s) (block l')
      end) in
    match s with
    | Expr e => with_env (fun r => expr_then (eval r e) (fun _ => finish Next))
    | Assign t e => with_env (fun r => expr_then (eval r e) (assign t))
    | AugAssign t op e => augassign t op e
    | If c a b => with_env (fun r => expr_then (let* x := eval r c in truth x) (fun t =>
                    if t then block a else block b))
    | For t it body => with_env (fun r => expr_then (eval r it) (fun x =>
                         expr_then (watched x) (fun w => expr_then (iterate x)
                         (loop (fun v => step_of w (andthen (assign t v) (block body)))))))
    | Return None => finish (Returned NoneV)
    | Return (Some e) => with_env (fun r => expr_then (eval r e) (fun v => finish (Returned v)))
    | RaiseS e => with_env (fun r => expr_then (eval r e) (fun x => finish (Threw x)))
    | Try body handlers => fun r h =>
        match block body r h with
        | (Threw x, r', h') =>
            (fix handle (l : list (string * option string * list stmt)) : ctl * env * heap :=
              match l with
              | [] => (Threw x, r', h')
              | (c, nm, b) :: l' =>
                  if subclass (exc_class h' x) c
                  then let '(c', r2, h2) := block b (match nm with Some e => bindv e x r' | None => r' end) h' in
                       (c', unbindv nm r2, h2)
                  else handle l'
              end) handlers
        | o => o
        end
    | YieldS e => with_env (fun r => expr_then (eval r e) (fun v =>
                    expr_then (match lookup yielding r with
                               | Some (RefV l) => let* o := get l in
                                                  match o with
                                                  | ListO vs => put l (ListO (vs ++ [v]))
                                                  | _ => stuck "yield"
                                                  end
                               | _ => stuck "yield"
                               end) (fun _ => finish Next)))
    end.
  Fixpoint exec_block (l : list stmt) : sem :=
    match l with
    | [] => finish Next
    | s :: l' => andthen (exec s) (exec_block l')
    end.
End Run.

(** Names assigned to anywhere in a function are its local variables. *)
Definition target_names (t : expr) : list string :=
  match t with
  | Name x => [x]
  | Tuple ts => flat_map (fun t => match t with Name x => [x] | _ => [] end) ts
  | _ => []
  end.
Fixpoint assigned (s : stmt) : list string :=
  let block := (fix block (l : list stmt) : list string :=
    match l with [] => [] | s :: l' => assigned s ++ block l' end) in
  match s with
  | Assign t _ => target_names t
  | AugAssign t _ _ => target_names t
  | If _ a b => block a ++ block b
  | For t _ b => target_names t ++ block b
  | Try b hs => block b ++ (fix handlers (l : list (string * option string * list stmt)) : list string :=
                  match l with
                  | [] => []
                  | (_, nm, b) :: l' => match nm with Some e => [e] | None => [] end ++ block b ++ handlers l'
                  end) hs
  | _ => []
  end.
Fixpoint yields (s : stmt) : bool :=
  let block := (fix block (l : list stmt) : bool :=
    match l with [] => false | s :: l' => yields s || block l' end) in
  match s with
  | YieldS _ => true
  | If _ a b => block a || block b
  | For _ _ b => block b
  | _ => false
  end.

(** A function is run only if every name it reads is one of its variables or
    defined by the module or Python, if it catches classes of exceptions only, and
    raises only new exceptions: raise C(...). *)
Section Known.
  Variable known exceptions : list string.
  Fixpoint knows (scope : list string) (e : expr) {struct e} : bool :=
    let all := (fix all (l : list expr) : bool := match l with [] => true | e :: l' => knows scope e && all l' end) in
    match e with
    | Constant _ => true
    | Name x => mem x scope || mem x known
    | Attribute e _ | Not e | USub e => knows scope e
    | Subscript a b | BinOp a _ b | BoolAnd a b | Compare a _ b => knows scope a && knows scope b
    | IfExp a b c => knows scope a && knows scope b && knows scope c
    | Slice a b => match a with Some a => knows scope a | None => true end && match b with Some b => knows scope b | None => true end
    | Call f args kws => knows scope f && all args &&
        (fix all (l : list (string * expr)) : bool := match l with [] => true | (_, e) :: l' => knows scope e && all l' end) kws
    | Tuple l | EList l | JoinedStr l => all l
    | Dict l => (fix all (l : list (expr * expr)) : bool :=
                   match l with [] => true | (a, b) :: l' => knows scope a && knows scope b && all l' end) l
    | ListComp elt gens =>
        (fix gen (gens : list (expr * expr * list expr)) (scope : list string) : bool :=
           match gens with
           | [] => knows scope elt
           | (t, it, ifs) :: gens' =>
               let scope' := target_names t ++ scope in
               knows scope it && (fix all (l : list expr) : bool := match l with [] => true | e :: l' => knows scope' e && all l' end) ifs &&
               gen gens' scope'
           end) gens scope
    end.
  Variable locals : list string.
  Definition an_exception (c : string) : bool := mem c exceptions && negb (mem c locals).
  Fixpoint runs (s : stmt) : bool :=
    let block := (fix block (l : list stmt) : bool :=
      match l with [] => true | s :: l' => runs s && block l' end) in
    match s with
    | Expr e | Return (Some e) | YieldS e => knows locals e
    | Return None => true
    | Assign t e | AugAssign t _ e => knows locals t && knows locals e
    | If c a b => knows locals c && block a && block b
    | For t it b => knows locals t && knows locals it && block b
    | RaiseS e => knows locals e && match e with Call (Name c) _ _ => an_exception c | _ => false end
    | Try b hs => block b && (fix handlers (l : list (string * option string * list stmt)) : bool :=
                    match l with
                    | [] => true
                    | (c, _, b) :: l' => an_exception c && block b && handlers l'
                    end) hs
    end.
End Known.
Definition known_names (prog : list (string * fundef)) : list string :=
  filter (fun x => negb (mem x ["DecodeError"; "EncodeError"]) || mem (x ++ ".__init__")%string (map fst prog)) type_names
    ++ builtin_names ++ module_names ++ map fst prog.
Definition exception_names (prog : list (string * fundef)) : list string :=
  filter (fun x => negb (mem x ["DecodeError"; "EncodeError"]) || mem (x ++ ".__init__")%string (map fst prog))
    (filter (fun x => negb (mem x ["Error"; "bool"])) (map fst bases) ++ ["Exception"]).
Definition runnable (prog : list (string * fundef)) (f : fundef) : bool :=
  forallb (runs (known_names prog) (exception_names prog) (f_params f ++ flat_map assigned (f_body f))) (f_body f).

(** ** Calls
    [depth] bounds the nesting of calls; Python's own bound is about 1000. A
    generator is run to its end when it is called, with a heap of its own: that is
    as good as running it later if its arguments and what it yields are immutable, it
    raises nothing and calls no function of the module, which is all of the subset. *)
Definition immutable (v : value) : bool :=
  match v with NoneV | BoolV _ | IntV _ | StrV _ | BytesV _ => true | _ => false end.
Section Calls.
  Variable E : pyenv.
  Variable order : list Z -> list Z.
  Variable stdout : value.
  Variable dispatch_table : list (string * string).
  Variable prog : list (string * fundef).
  Definition run_body (call : string -> list value -> comp value) (f : fundef) (args : list value) : comp value :=
    fun h =>
      let locals := f_params f ++ flat_map assigned (f_body f) in
      let r := combine (f_params f) args in
      if negb (Nat.eqb (length (f_params f)) (length args)) then (Stuck "arguments", h)
      else if negb (runnable prog f) then (Stuck "names", h)
      else if existsb yields (f_body f) then
        if negb (forallb immutable args) then (Stuck "generator", h) else
        match exec_block E order (ModuleV "stdout") dispatch_table (fun f _ => stuck f) locals (f_body f)
                ((yielding, RefV 0) :: r) [ListO []] with
        | (Next, _, ListO vs :: _) | (Returned _, _, ListO vs :: _) =>
            if forallb immutable vs then new (IterO "generator" (Some vs) None) h else (Stuck "generator", h)
        | (StuckS w, _, _) => (Stuck w, h)
        | _ => (Stuck "generator", h)
        end
      else
        match exec_block E order stdout dispatch_table call locals (f_body f) r h with
        | (Next, _, h') => (Done NoneV, h')
        | (Returned v, _, h') => (Done v, h')
        | (Threw x, _, h') => (Thrown x, h')
        | (StuckS w, _, h') => (Stuck w, h')
        end.
  Fixpoint call_fun (depth : nat) (f : string) (args : list value) {struct depth} : comp value :=
    match depth with
    | O => stuck "recursion"
    | S n => match dget String.eqb f prog with
             | Some fd => run_body (call_fun n) fd args
             | None => stuck f
             end
    end.
End Calls.
