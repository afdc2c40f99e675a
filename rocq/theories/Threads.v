(** * Threads: calls that run at the same time.
    The interpreter of PySem once more, statement by statement, but as a tree of single accesses to the
    heap: whoever runs it may do something else between any two of them. Python switches threads between
    the instructions of its own machine only; each of these does one or more accesses. *)
From Verif Require Import PyBase Types PyAst PyFormat PySem.
Local Open Scope string_scope.
Local Open Scope list_scope.

(** ** Activities: what a thread still has to do *)
Inductive act (A : Type) : Type :=
| End (o : outcome A)
| Read (l : loc) (k : object -> act A)
| Write (l : loc) (o : object) (k : act A)
| Alloc (o : object) (k : loc -> act A).
Arguments End {A} o. Arguments Read {A} l k. Arguments Write {A} l o k. Arguments Alloc {A} o k.
Definition done_t {A} (a : A) : act A := End (Done a).
Definition throw_t {A} (cls : string) (text : pystr) : act A := End (Thrown (ExcV cls text)).
Definition stuck_t {A} (why : string) : act A := End (Stuck why).
Fixpoint then_t {A B} (m : act A) (k : outcome A -> act B) : act B :=
  match m with
  | End o => k o
  | Read l f => Read l (fun o => then_t (f o) k)
  | Write l o m' => Write l o (then_t m' k)
  | Alloc o f => Alloc o (fun l => then_t (f l) k)
  end.
Definition seq_t {A B} (m : act A) (k : A -> act B) : act B :=
  then_t m (fun o => match o with Done a => k a | Thrown x => End (Thrown x) | Stuck w => End (Stuck w) end).
Notation "'let>' x := m 'in' k" := (seq_t m (fun x => k))
  (at level 200, x name, m at level 100, k at level 200, right associativity).
Definition map_end {A} (f : outcome A -> outcome A) (m : act A) : act A := then_t m (fun o => End (f o)).
Definition new_t (o : object) : act value := Alloc o (fun l => done_t (RefV l)).
Definition get_t (l : loc) : act object := Read l done_t.
Definition put_t (l : loc) (o : object) : act unit := Write l o (done_t tt).
Fixpoint each_t {A B} (f : A -> act B) (l : list A) : act (list B) :=
  match l with
  | [] => done_t []
  | a :: l' => let> b := f a in let> bs := each_t f l' in done_t (b :: bs)
  end.

(** ** The interpreter, see PySem *)
Section Run.
  Variable E : pyenv.
  Variable order : list Z -> list Z.
  Variable stdout : value.
  Variable dispatch_table : list (string * string).

  Definition type_of_t (v : value) : act value :=
    match v with
    | RefV l => let> o := get_t l in done_t (type_of [o] (RefV 0))
    | _ => done_t (type_of [] v)
    end.
  Definition exc_class_t (v : value) : act string :=
    match v with
    | RefV l => let> o := get_t l in done_t (exc_class [o] (RefV 0))
    | _ => done_t (exc_class [] v)
    end.
  Definition truth_t (v : value) : act bool :=
    match v with
    | NoneV => done_t false
    | BoolV b => done_t b
    | IntV n => done_t (negb (n =? 0)%Z)
    | StrV s => done_t (match s with [] => false | _ => true end)
    | BytesV b => done_t (match b with [] => false | _ => true end)
    | RefV l => let> o := get_t l in
                match o with
                | SetO s => done_t (match s with [] => false | _ => true end)
                | _ => stuck_t "truth of an object"
                end
    | _ => stuck_t "truth"
    end.

  (** repr() of what can stand in a list, str(). *)
  Definition int_text_t (n : Z) : act pystr :=
    if prints E n then done_t (zstr n) else throw_t "ValueError" (u "Exceeds the limit for integer string conversion").
  Definition repr_of_t (v : value) : act pystr :=
    match v with
    | NoneV => done_t (u "None")
    | BoolV b => done_t (u (if b then "True" else "False"))
    | StrV s => done_t (repr_str E s)
    | BytesV b => done_t (repr_bytes b)
    | IntV n => int_text_t n
    | OtherV o => done_t (o_repr o)
    | RefV l => let> o := get_t l in
                match o with BytearrayO b => done_t (repr_bytearray b) | _ => stuck_t "repr" end
    | _ => stuck_t "repr"
    end.
  Definition str_of_t (v : value) : act pystr :=
    match v with
    | StrV s => done_t s
    | IntV n => int_text_t n
    | ExcV c t => if c =? "KeyError" then stuck_t "str of a KeyError" else done_t t
    | RefV l => let> o := get_t l in
                match o with
                | ListO vs => let> rs := each_t repr_of_t vs in done_t (list_repr rs)
                | _ => stuck_t "str of an object"
                end
    | _ => stuck_t "str"
    end.

  Definition binop_t (op : operator) (a b : value) : act value :=
    match op, a, b with
    | Add, IntV x, IntV y => done_t (IntV (x + y))
    | Add, StrV x, StrV y => done_t (StrV (x ++ y))
    | Add, BytesV x, BytesV y => done_t (BytesV (x ++ y))
    | Add, StrV _, _ => throw_t "TypeError" (u "can only concatenate str")
    | Add, _, StrV _ => throw_t "TypeError" (u "can only concatenate str")
    | Sub, IntV x, IntV y => done_t (IntV (x - y))
    | Mult, IntV x, IntV y => done_t (IntV (x * y))
    | Mult, StrV s, IntV n => done_t (StrV (concat (repeat s (Z.to_nat n))))
    | FloorDiv, IntV x, IntV y => if (y =? 0)%Z then stuck_t "division by zero" else done_t (IntV (x / y))
    | Mod, IntV x, IntV y => if (y =? 0)%Z then stuck_t "division by zero" else done_t (IntV (x mod y))
    | BitAnd, IntV x, IntV y => done_t (IntV (Z.land x y))
    | BitOr, IntV x, IntV y => done_t (IntV (Z.lor x y))
    | LShift, IntV x, IntV y => if (y <? 0)%Z then stuck_t "negative shift" else done_t (IntV (Z.shiftl x y))
    | RShift, IntV x, IntV y => if (y <? 0)%Z then stuck_t "negative shift" else done_t (IntV (Z.shiftr x y))
    | _, _, _ => stuck_t "operator"
    end.
  (** a += b: a bytearray is extended in place. *)
  Definition inplace_t (op : operator) (a b : value) : act value :=
    match op, a, b with
    | Add, RefV l, BytesV y =>
        let> o := get_t l in
        match o with
        | BytearrayO x => let> _ := put_t l (BytearrayO (x ++ y)) in done_t a
        | _ => stuck_t "+="
        end
    | _, _, _ => binop_t op a b
    end.

  Definition equal_t (a b : value) : act bool :=
    match a, b with
    | StrV x, StrV y => done_t (str_eqb x y)
    | IntV x, IntV y => done_t (x =? y)%Z
    | _, _ => stuck_t "=="
    end.
  Definition is_none_t (a b : value) : act bool :=
    match b with
    | NoneV => done_t (match a with NoneV => true | _ => false end)
    | _ => stuck_t "is"
    end.
  Definition contains_t (a b : value) : act bool :=
    match b with
    | RefV l => let> o := get_t l in
                match o, a with
                | SetO s, IntV n => done_t (zmem n s)
                | DictO d, _ => match key_of a with
                                | Some k => done_t (dmem key_eqb k d)
                                | None => stuck_t "in"
                                end
                | _, _ => stuck_t "in"
                end
    | _ => stuck_t "in"
    end.
  Definition compare_t (op : cmpop) (a b : value) : act bool :=
    match op with
    | CmpEq => equal_t a b
    | CmpNotEq => let> r := equal_t a b in done_t (negb r)
    | CmpLtE => match a, b with IntV x, IntV y => done_t (x <=? y)%Z | _, _ => stuck_t "<=" end
    | CmpGt => match a, b with IntV x, IntV y => done_t (y <? x)%Z | _, _ => stuck_t ">" end
    | CmpIn => contains_t a b
    | CmpNotIn => let> r := contains_t a b in done_t (negb r)
    | CmpIs => is_none_t a b
    | CmpIsNot => let> r := is_none_t a b in done_t (negb r)
    end.

  (** *** Items and slices *)
  Definition getitem_t (v i : value) : act value :=
    match v with
    | MapV m => match i with
                | StrV k => match sget k m with Some x => done_t x | None => throw_t "KeyError" k end
                | _ => stuck_t "key of a spec"
                end
    | RefV l =>
        let> o := get_t l in
        match o with
        | DictO d => match key_of i with
                     | Some k => match dget key_eqb k d with
                                 | Some x => done_t x
                                 | None => throw_t "KeyError" (key_text k)
                                 end
                     | None => stuck_t "key"
                     end
        | BytearrayO b => match i with
                          | IntV n => if (n <? 0)%Z then stuck_t "negative index" else
                              match nth_error b (Z.to_nat n) with
                              | Some x => done_t (IntV (Z.of_N (b2n x)))
                              | None => throw_t "IndexError" (u "bytearray index out of range")
                              end
                          | _ => stuck_t "index"
                          end
        | _ => stuck_t "item"
        end
    | _ => stuck_t "item"
    end.
  Definition setitem_t (v i x : value) : act unit :=
    match v with
    | RefV l =>
        let> o := get_t l in
        match o with
        | DictO d => match key_of i with
                     | Some k => put_t l (DictO (dset key_eqb k x d))
                     | None => stuck_t "key"
                     end
        | BytearrayO b =>
            match i, x with
            | IntV n, IntV y =>
                if (n <? 0)%Z || (y <? 0)%Z || (255 <? y)%Z then stuck_t "byte" else
                if (zlen b <=? n)%Z then throw_t "IndexError" (u "bytearray index out of range") else
                put_t l (BytearrayO (firstn (Z.to_nat n) b ++ n2b (Z.to_N y) :: skipn (S (Z.to_nat n)) b))
            | _, _ => stuck_t "index"
            end
        | _ => stuck_t "item assignment"
        end
    | _ => stuck_t "item assignment"
    end.
  Definition getslice_t (v i j : value) : act value :=
    match v with
    | StrV s => match cut s i j with Some t => done_t (StrV t) | None => stuck_t "slice" end
    | BytesV s => match cut s i j with Some t => done_t (BytesV t) | None => stuck_t "slice" end
    | RefV l =>
        let> o := get_t l in
        match o with
        | BytearrayO s => match cut s i j with Some t => new_t (BytearrayO t) | None => stuck_t "slice" end
        | _ => stuck_t "slice"
        end
    | _ => stuck_t "slice"
    end.

  (** *** Iteration *)
  Definition bytes_of_t (v : value) : act bytes :=
    match v with
    | BytesV b => done_t b
    | RefV l => let> o := get_t l in
                match o with BytearrayO b => done_t b | _ => stuck_t "bytes-like object" end
    | _ => stuck_t "bytes-like object"
    end.
  Definition unchanged_t (w : option (loc * watch)) : act unit :=
    match w with
    | None => done_t tt
    | Some (l, x) =>
        let> o := get_t l in
        if match x, o with
           | Keys ks, DictO d => same_keys ks (map fst d)
           | Elems s, SetO s' => same_elems s s'
           | Octets b, BytearrayO b' => same_octets b b'
           | _, _ => false
           end
        then done_t tt else stuck_t "changed during iteration"
    end.
  Definition watched_t (v : value) : act (option (loc * watch)) :=
    match v with
    | KeysV l => let> o := get_t l in
                 match o with DictO d => done_t (Some (l, Keys (map fst d))) | _ => stuck_t "iteration" end
    | RefV l => let> o := get_t l in
                match o with
                | SetO s => done_t (Some (l, Elems s))
                | IterO _ _ (Some (b, x)) => done_t (Some (b, Octets x))
                | _ => done_t None
                end
    | _ => done_t None
    end.
  (** One step of an iteration. *)
  Definition stepping_t {B} (w : option (loc * watch)) (m : act B) : act B :=
    match w with
    | None => m
    | Some _ => let> b := m in let> _ := unchanged_t w in done_t b
    end.
  Definition iterate_t (v : value) : act (list value) :=
    match v with
    | RangeV a b step => done_t (range_list a b step)
    | KeysV l => let> o := get_t l in
                 match o with
                 | DictO d => done_t (map (fun kv => of_key (fst kv)) d)
                 | _ => stuck_t "iteration"
                 end
    | RefV l => let> o := get_t l in
                match o with
                | ListO vs => done_t vs
                | SetO s => done_t (map IntV (order s))
                | IterO c (Some vs) None => let> _ := put_t l (IterO c None None) in done_t vs
                | IterO c (Some vs) (Some (b, x)) =>
                    let> _ := unchanged_t (Some (b, Octets x)) in
                    let> _ := put_t l (IterO c None (Some (b, x))) in done_t vs
                | _ => stuck_t "iteration"
                end
    | _ => stuck_t "iteration"
    end.
  Definition int_of_t (v : value) : act Z :=
    match v with IntV n => done_t n | _ => stuck_t "int expected" end.
  Definition range_of_t (v : value) : act (Z * Z) :=
    match v with RangeV a b 1 => done_t (a, b) | _ => stuck_t "range expected" end.

  (** *** str.format *)
  Definition format_t (t : pystr) (args : list value) (kws : env) : act value :=
    match str_format E t (map format_arg args) (map (fun kv => (fst kv, format_arg (snd kv))) kws) with
    | FText s => done_t (StrV s)
    | FError why => throw_t "ValueError" why
    | FUnknown => stuck_t "format"
    end.

  (** *** Calls of built-in classes, functions and methods *)
  Definition py_len_t (v : value) : act value :=
    match v with
    | StrV s => done_t (IntV (zlen s))
    | BytesV b => done_t (IntV (zlen b))
    | OtherV o => match o_len o with
                  | Some n => done_t (IntV (Z.of_nat n))
                  | None => throw_t "TypeError" (u "object has no len()")
                  end
    | RefV l => let> o := get_t l in
                match o with BytearrayO b => done_t (IntV (zlen b)) | _ => stuck_t "len" end
    | TupleV l => done_t (IntV (Z.of_nat (length l)))
    | NoneV | BoolV _ | IntV _ => throw_t "TypeError" (u "object has no len()")
    | _ => stuck_t "len"
    end.
  Definition to_int_t (v : value) : act value :=
    match v with
    | IntV n => done_t (IntV n)
    | StrV s => match py_int E s with
                | Some n => done_t (IntV n)
                | None => throw_t "ValueError" (u "invalid literal for int()")
                end
    | _ => stuck_t "int()"
    end.
  Definition cres_str_t (r : cres pystr) : act value :=
    match r with
    | COk t => done_t (StrV t)
    | CLookup => throw_t "LookupError" (u "unknown encoding")
    | CFail => throw_t "UnicodeError" (u "codec error")
    end.
  Definition cres_bytes_t (why : pystr) (r : cres bytes) : act value :=
    match r with
    | COk b => done_t (BytesV b)
    | CLookup => throw_t "LookupError" (u "unknown encoding")
    | CFail => throw_t "UnicodeError" why
    end.
  Definition call_type_t (c : string) (args : list value) : act value :=
    match args with
    | [] =>
        if c =? "set" then new_t (SetO [])
        else if c =? "bytearray" then new_t (BytearrayO [])
        else stuck_t c
    | [v] =>
        if c =? "bytes" then let> b := bytes_of_t v in done_t (BytesV b)
        else if c =? "bytearray" then let> b := bytes_of_t v in new_t (BytearrayO b)
        else if c =? "str" then let> s := str_of_t v in done_t (StrV s)
        else if c =? "int" then to_int_t v
        else if c =? "set" then
          let> vs := iterate_t v in let> ns := each_t int_of_t vs in new_t (SetO (zset_of ns))
        else if c =? "type" then type_of_t v
        else if c =? "TypeError" then match v with StrV s => done_t (ExcV "TypeError" s) | _ => stuck_t c end
        else stuck_t c
    | [v; w] =>
        if c =? "int" then match v, w with StrV _, IntV 10 => to_int_t v | _, _ => stuck_t c end
        else if c =? "bytes" then
          match v, w with
          | StrV s, StrV enc => cres_bytes_t (encode_why E enc s) (str_encode E enc s)
          | _, _ => stuck_t c
          end
        else stuck_t c
    | _ => stuck_t c
    end.

  Definition keyed_t (f : value -> act value) (v : value) : act (Z * value) :=
    let> k := f v in let> n := int_of_t k in done_t (n, v).
  Definition call_builtin_t (f : string) (args : list value) (kws : env) : act value :=
    if match kws with [] => false | _ => negb (f =? "sorted") end then stuck_t "keywords"
    else if f =? "len" then match args with [v] => py_len_t v | _ => stuck_t f end
    else if f =? "repr" then
      match args with [v] => let> s := repr_of_t v in done_t (StrV s) | _ => stuck_t f end
    else if f =? "isinstance" then
      match args with
      | [v; TupleV cs] =>
          if forallb (fun c => match c with TypeV _ => true | _ => false end) cs
          then let> t := type_of_t v in done_t (BoolV (existsb (is_type t) cs))
          else stuck_t f
      | [v; TypeV c] => let> t := type_of_t v in done_t (BoolV (is_type t (TypeV c)))
      | _ => stuck_t f
      end
    else if f =? "range" then
      match args with
      | [IntV a; IntV b] => done_t (RangeV a b 1)
      | [IntV a; IntV b; IntV s] => if (s <=? 0)%Z then stuck_t f else done_t (RangeV a b s)
      | _ => stuck_t f
      end
    else if f =? "enumerate" then
      match args with
      | [BytesV b] => new_t (IterO "enumerate" (Some (enumerated b)) None)
      | [RefV l] => let> b := bytes_of_t (RefV l) in new_t (IterO "enumerate" (Some (enumerated b)) (Some (l, b)))
      | _ => stuck_t f
      end
    else if f =? "sorted" then
      match args, kws with
      | [v], [] => let> vs := iterate_t v in let> ks := each_t (keyed_t done_t) vs in new_t (ListO (sort_by ks))
      | [v], [("key", TypeV "int")] =>
          let> vs := iterate_t v in let> ks := each_t (keyed_t to_int_t) vs in new_t (ListO (sort_by ks))
      | _, _ => stuck_t f
      end
    else if f =? "a2b_hex" then
      match args with
      | [StrV s] => match a2b_hex s with
                    | Some b => done_t (BytesV b)
                    | None => throw_t (if forallb (fun c => (c <? 128)%N) s then "Error" else "ValueError") []
                    end
      | [BytesV b] => match a2b_hex (map b2n b) with Some b => done_t (BytesV b) | None => throw_t "Error" [] end
      | [RefV l] => let> b := bytes_of_t (RefV l) in
                    match a2b_hex (map b2n b) with Some b => done_t (BytesV b) | None => throw_t "Error" [] end
      | [OtherV _] | [NoneV] | [BoolV _] | [IntV _] | [TupleV _] => throw_t "TypeError" (u "a2b_hex")
      | _ => stuck_t f
      end
    else stuck_t f.

  (** Which attributes the values have; for others AttributeError. *)
  Definition getattr_t (v : value) (a : string) : act value :=
    if a =? "__class__" then type_of_t v else
    match v with
    | RefV l =>
        let> o := get_t l in
        match o with
        | InstO c attrs _ =>
            match lookup a attrs with Some x => done_t x | None => stuck_t "attribute" end
        | BytearrayO _ => if mem a ["hex"; "decode"] then done_t (MethodV v a)
                          else if mem a ["encode"; "isnumeric"] then throw_t "AttributeError" (u a) else stuck_t "attribute"
        | DictO _ => if mem a dict_methods then done_t (MethodV v a) else stuck_t "attribute"
        | SetO _ => if mem a set_methods then done_t (MethodV v a) else stuck_t "attribute"
        | StreamO _ => if a =? "write" then done_t (MethodV v a) else stuck_t "attribute"
        | _ => stuck_t "attribute"
        end
    | StrV _ => if mem a str_methods then done_t (MethodV v a) else stuck_t "attribute"
    | BytesV _ => if mem a ["hex"; "decode"] then done_t (MethodV v a)
                  else if mem a ["encode"; "isnumeric"] then throw_t "AttributeError" (u a) else stuck_t "attribute"
    | IntV _ => if a =? "to_bytes" then done_t (MethodV v a)
                else if mem a ["encode"; "isnumeric"] then throw_t "AttributeError" (u a) else stuck_t "attribute"
    | MapV _ => if a =? "get" then done_t (MethodV v a) else stuck_t "attribute"
    | OtherV _ | NoneV | BoolV _ | TupleV _ =>
        if mem a ["encode"; "isnumeric"] then throw_t "AttributeError" (u a) else stuck_t "attribute"
    | OtherTypeV n => if a =? "__name__" then done_t (StrV n)
                      else if a =? "__repr__" then done_t (MethodV v a) else stuck_t "attribute"
    | TypeV n => if a =? "__name__" then done_t (StrV (u n))
                 else if mem a ["from_bytes"; "fromhex"; "__init__"; "__repr__"] then done_t (MethodV v a)
                 else stuck_t "attribute"
    | ModuleV m => if (m =? "binascii") && (a =? "a2b_hex") then done_t (FunV "a2b_hex")
                   else if (m =? "_sys") && (a =? "stdout") then done_t stdout
                   else if m =? "_dispatch" then done_t (MethodV v a) else stuck_t "attribute"
    | _ => stuck_t "attribute"
    end.
  Definition setattr_t (v : value) (a : string) (x : value) : act unit :=
    match v with
    | RefV l => let> o := get_t l in
                match o with
                | InstO c attrs args => put_t l (InstO c (bindv a x attrs) args)
                | _ => stuck_t "attribute assignment"
                end
    | _ => stuck_t "attribute assignment"
    end.
  Definition no_args_t (args : list value) (v : act value) : act value :=
    match args with [] => v | _ => stuck_t "arguments" end.
  Definition call_method_t (self : value) (m : string) (args : list value) (kws : env) : act value :=
    if match kws with [] => false | _ => negb (mem m ["format"; "to_bytes"; "from_bytes"]) end then stuck_t "keywords" else
    match self with
    | StrV s =>
        if m =? "upper" then no_args_t args (done_t (StrV (py_upper s)))
        else if m =? "isnumeric" then no_args_t args (done_t (BoolV (isnumeric E s)))
        else if m =? "format" then format_t s args kws
        else if m =? "encode" then
          match args with [StrV enc] => cres_bytes_t (encode_why E enc s) (str_encode E enc s) | _ => stuck_t m end
        else stuck_t m
    | BytesV b =>
        if m =? "hex" then no_args_t args (done_t (StrV (py_hex b)))
        else if m =? "decode" then
          match args with [StrV enc] => cres_str_t (bytes_decode E enc b) | _ => stuck_t m end
        else stuck_t m
    | IntV n =>
        if m =? "to_bytes" then
          match args with
          | [IntV w; StrV o] =>
              if negb (str_eqb o (u "big") && unsigned kws) then stuck_t m
              else if (w <? 0)%Z then throw_t "ValueError" (u "length argument must be non-negative")
              else if (n <? 0)%Z then throw_t "OverflowError" []
              else match to_be (Z.to_nat w) (Z.to_N n) with
                   | Some b => done_t (BytesV b)
                   | None => throw_t "OverflowError" []
                   end
          | _ => stuck_t m
          end
        else stuck_t m
    | MapV d =>
        if m =? "get" then
          match args with
          | [StrV k; dflt] => done_t (match sget k d with Some v => v | None => dflt end)
          | _ => stuck_t m
          end
        else stuck_t m
    | TypeV c =>
        if (c =? "bytes") && (m =? "fromhex") then
          match args with
          | [StrV s] => match fromhex s with Some b => done_t (BytesV b) | None => throw_t "ValueError" [] end
          | _ => stuck_t m
          end
        else if (c =? "int") && (m =? "from_bytes") then
          match args with
          | [v; StrV o] => if str_eqb o (u "big") && unsigned kws then
                             let> b := bytes_of_t v in done_t (IntV (Z.of_N (from_be b)))
                           else stuck_t m
          | _ => stuck_t m
          end
        else if (c =? "ValueError") && (m =? "__init__") then
          match args with
          | RefV l :: rest => let> o := get_t l in
                              match o with
                              | InstO c' attrs _ => let> _ := put_t l (InstO c' attrs rest) in done_t NoneV
                              | _ => stuck_t m
                              end
          | _ => stuck_t m
          end
        else stuck_t m
    | ModuleV n =>
        if (n =? "_dispatch") && (m =? "get") then
          match args with
          | [MethodV (TypeV c) r; dflt] =>
              if r =? "__repr__"
              then done_t (match lookup c (map (fun p => (fst p, FunV (snd p))) dispatch_table) with
                         | Some f => f | None => dflt end)
              else stuck_t m
          | [MethodV (OtherTypeV c) _; dflt] => done_t dflt
          | _ => stuck_t m
          end
        else stuck_t m
    | RefV l =>
        let> o := get_t l in
        match o with
        | BytearrayO b =>
            if m =? "hex" then no_args_t args (done_t (StrV (py_hex b)))
            else if m =? "decode" then
              match args with [StrV enc] => cres_str_t (bytes_decode E enc b) | _ => stuck_t m end
            else stuck_t m
        | SetO s =>
            if m =? "update" then
              match args with
              | [v] => let> vs := iterate_t v in let> ns := each_t int_of_t vs in
                       let> _ := put_t l (SetO (zupdate s ns)) in done_t NoneV
              | _ => stuck_t m
              end
            else if m =? "add" then
              match args with [IntV n] => let> _ := put_t l (SetO (zadd n s)) in done_t NoneV | _ => stuck_t m end
            else if m =? "remove" then
              match args with
              | [IntV n] => if zmem n s then let> _ := put_t l (SetO (zremove n s)) in done_t NoneV
                            else throw_t "KeyError" (zstr n)
              | _ => stuck_t m
              end
            else if m =? "issubset" then
              match args with
              | [v] => let> r := range_of_t v in done_t (BoolV (zsubset_range (fst r) (snd r) s))
              | _ => stuck_t m
              end
            else if m =? "difference" then
              match args with
              | [v] => let> r := range_of_t v in new_t (SetO (zdiff_range (fst r) (snd r) s))
              | _ => stuck_t m
              end
            else if m =? "intersection" then
              match args with
              | [v] => let> r := range_of_t v in new_t (SetO (zinter_range (fst r) (snd r) s))
              | _ => stuck_t m
              end
            else stuck_t m
        | DictO d =>
            if m =? "keys" then no_args_t args (done_t (KeysV l))
            else if m =? "get" then
              match args with
              | [k; dflt] => match key_of k with
                             | Some k => done_t (match dget key_eqb k d with Some v => v | None => dflt end)
                             | None => stuck_t m
                             end
              | _ => stuck_t m
              end
            else if m =? "pop" then
              match args with
              | [k; dflt] => match key_of k with
                             | Some k => let> _ := put_t l (DictO (dpop key_eqb k d)) in
                                         done_t (match dget key_eqb k d with Some v => v | None => dflt end)
                             | None => stuck_t m
                             end
              | _ => stuck_t m
              end
            else stuck_t m
        | StreamO t =>
            if m =? "write" then
              match args with [StrV s] => let> _ := put_t l (StreamO (t ++ s)) in done_t NoneV | _ => stuck_t m end
            else stuck_t m
        | _ => stuck_t m
        end
    | _ => stuck_t m
    end.

    Definition global_t (x : string) : act value :=
    if mem x type_names then done_t (TypeV x)
    else if mem x module_names then done_t (ModuleV x)
    else done_t (FunV x).

  (** *** Expressions and statements
      [call_t f args]: calls a function of the module; [locals]: the local variables
      of the function running. *)
  Variable call_t : string -> list value -> act value.
  Variable locals : list string.

  Definition name_t (r : env) (x : string) : act value :=
    match lookup x r with
    | Some v => done_t v
    | None => if mem x locals then throw_t "UnboundLocalError" (u x) else global_t x
    end.
  (** Instances of the classes of the library. *)
  Definition instantiate_t (c : string) (args : list value) : act value :=
    let> self := new_t (InstO c [] []) in
    let> _ := call_t (c ++ ".__init__")%string (self :: args) in
    done_t self.
  Definition apply_t (f : value) (args : list value) (kws : env) : act value :=
    match f with
    | FunV x => if mem x ("a2b_hex" :: builtin_names) then call_builtin_t x args kws
                else match kws with [] => call_t x args | _ => stuck_t "keywords" end
    | TypeV c => match kws with
                 | [] => if mem c ["DecodeError"; "EncodeError"] then instantiate_t c args else call_type_t c args
                 | _ => stuck_t "keywords"
                 end
    | MethodV self m => call_method_t self m args kws
    | _ => stuck_t "call"
    end.
  Definition bind_target_t (t : expr) (v : value) (r : env) : act env :=
    match t, v with
    | Name x, _ => done_t (bindv x v r)
    | Tuple ts, TupleV vs => match unpack_names ts vs r with Some r' => done_t r' | None => stuck_t "unpacking" end
    | _, _ => stuck_t "target"
    end.

  (** A comprehension is a scope of its own: a local variable of the function without a
      value is a NameError there, outside the subset. *)
  Definition nested_t {B} (m : act B) : act B :=
    map_end (fun o => match o with
                      | Thrown (ExcV c t) => if c =? "UnboundLocalError" then Stuck "free variable" else Thrown (ExcV c t)
                      | o => o
                      end) m.

  Fixpoint eval_t (r : env) (e : expr) {struct e} : act value :=
    let evals := (fix evals (l : list expr) : act (list value) :=
      match l with
      | [] => done_t []
      | e :: l' => let> v := eval_t r e in let> vs := evals l' in done_t (v :: vs)
      end) in
    match e with
    | Constant c => done_t (const c)
    | Name x => name_t r x
    | Attribute e a => let> v := eval_t r e in getattr_t v a
    | Subscript e i =>
        let> v := eval_t r e in
        match i with
        | Slice lo hi =>
            let> a := match lo with Some x => eval_t r x | None => done_t NoneV end in
            let> b := match hi with Some x => eval_t r x | None => done_t NoneV end in
            getslice_t v a b
        | _ => let> k := eval_t r i in getitem_t v k
        end
    | Slice _ _ => stuck_t "slice"
    | Call f args kws =>
        let> g := eval_t r f in
        let> vs := evals args in
        let> ks := (fix evalk (l : list (string * expr)) : act env :=
          match l with
          | [] => done_t []
          | (k, e) :: l' => let> v := eval_t r e in let> ks := evalk l' in done_t ((k, v) :: ks)
          end) kws in
        apply_t g vs ks
    | BinOp a op b => let> x := eval_t r a in let> y := eval_t r b in binop_t op x y
    | BoolAnd a b => let> x := eval_t r a in let> t := truth_t x in if t then eval_t r b else done_t x
    | Not a => let> x := eval_t r a in let> t := truth_t x in done_t (BoolV (negb t))
    | USub a => let> x := eval_t r a in match x with IntV n => done_t (IntV (- n)) | _ => stuck_t "-" end
    | Compare a op b =>
        let> x := eval_t r a in let> y := eval_t r b in let> t := compare_t op x y in done_t (BoolV t)
    | IfExp c a b => let> x := eval_t r c in let> t := truth_t x in if t then eval_t r a else eval_t r b
    | Tuple l => let> vs := evals l in done_t (TupleV vs)
    | EList l => let> vs := evals l in new_t (ListO vs)
    | Dict l =>
        let> d := (fix items (l : list (expr * expr)) : act (list (pykey * value)) :=
          match l with
          | [] => done_t []
          | (k, e) :: l' =>
              let> kv := eval_t r k in
              let> v := eval_t r e in
              let> d := items l' in
              match key_of kv with Some k' => done_t ((k', v) :: d) | None => stuck_t "key" end
          end) l in
        new_t (DictO (from_items d))
    | ListComp elt gens =>
        let> vs := (fix gen (gens : list (expr * expr * list expr)) (r : env) : act (list value) :=
          match gens with
          | [] => let> v := eval_t r elt in done_t [v]
          | (t, it, ifs) :: gens' =>
              let> i := eval_t r it in
              let> w := watched_t i in
              let> vs := iterate_t i in
              let> parts := each_t (fun v => stepping_t w (nested_t (
                let> r' := bind_target_t t v r in
                let> ok := (fix tests (l : list expr) : act bool :=
                  match l with
                  | [] => done_t true
                  | e :: l' => let> x := eval_t r' e in let> b := truth_t x in if b then tests l' else done_t false
                  end) ifs in
                if ok then gen gens' r' else done_t []))) vs in
              done_t (concat parts)
          end) gens r in
        new_t (ListO vs)
    | JoinedStr l =>
        let> t := (fix shows (l : list expr) : act pystr :=
          match l with
          | [] => done_t []
          | e :: l' => let> v := eval_t r e in let> s := str_of_t v in
                       match l' with [] => done_t s | _ => let> t := shows l' in done_t (s ++ t) end
          end) l in
        done_t (StrV t)
    end.

  (** Statements. *)
  Definition sem_t := env -> act (ctl * env).
  Definition expr_then_t {A} (m : act A) (k : A -> sem_t) : sem_t :=
    fun r => then_t m (fun o => match o with
                                | Done a => k a r
                                | Thrown x => done_t (Threw x, r)
                                | Stuck w => stuck_t w
                                end).
  Definition finish_t (c : ctl) : sem_t := fun r => match c with StuckS w => stuck_t w | _ => done_t (c, r) end.
  Definition andthen_t (a b : sem_t) : sem_t :=
    fun r => let> cr := a r in match cr with (Next, r') => b r' | _ => done_t cr end.
  Definition with_env_t (f : env -> sem_t) : sem_t := fun r => f r r.
  Definition set_env_t (r' : env) : sem_t := fun _ => done_t (Next, r').

  Definition assign_to_t (t : expr) (v : value) : sem_t :=
    with_env_t (fun r =>
      match t with
      | Name x => set_env_t (bindv x v r)
      | Subscript e i => expr_then_t (eval_t r e) (fun d => expr_then_t (eval_t r i) (fun k =>
                           expr_then_t (setitem_t d k v) (fun _ => finish_t Next)))
      | Attribute e a => expr_then_t (eval_t r e) (fun o => expr_then_t (setattr_t o a v) (fun _ => finish_t Next))
      | _ => finish_t (StuckS "target")
      end).
  Fixpoint assign_all_t (ts : list expr) (vs : list value) : sem_t :=
    match ts, vs with
    | [], [] => finish_t Next
    | t :: ts', v :: vs' => andthen_t (assign_to_t t v) (assign_all_t ts' vs')
    | _, _ => finish_t (StuckS "unpacking")
    end.
  Definition assign_t (t : expr) (v : value) : sem_t :=
    match t with
    | Tuple ts => match v with TupleV vs => assign_all_t ts vs | _ => finish_t (StuckS "unpacking") end
    | _ => assign_to_t t v
    end.
  Definition augassign_t (t : expr) (op : operator) (e : expr) : sem_t :=
    with_env_t (fun r =>
      match t with
      | Name x => expr_then_t (name_t r x) (fun a => expr_then_t (eval_t r e) (fun b =>
                    expr_then_t (inplace_t op a b) (fun v => set_env_t (bindv x v r))))
      | Subscript d i => expr_then_t (eval_t r d) (fun dv => expr_then_t (eval_t r i) (fun iv =>
                    expr_then_t (getitem_t dv iv) (fun a => expr_then_t (eval_t r e) (fun b =>
                    expr_then_t (inplace_t op a b) (fun v => expr_then_t (setitem_t dv iv v) (fun _ => finish_t Next))))))
      | _ => finish_t (StuckS "target")
      end).
  Fixpoint loop_t (f : value -> sem_t) (l : list value) : sem_t :=
    match l with
    | [] => finish_t Next
    | v :: l' => andthen_t (f v) (loop_t f l')
    end.
  Definition step_of_t (w : option (loc * watch)) (s : sem_t) : sem_t :=
    match w with
    | None => s
    | Some _ => andthen_t s (expr_then_t (unchanged_t w) (fun _ => finish_t Next))
    end.
  Fixpoint exec_t (s : stmt) {struct s} : sem_t :=
    let block := (fix block (l : list stmt) : sem_t :=
      match l with
      | [] => finish_t Next
      | s :: l' => andthen_t (exec_t s) (block l')
      end) in
    match s with
    | Expr e => with_env_t (fun r => expr_then_t (eval_t r e) (fun _ => finish_t Next))
    | Assign t e => with_env_t (fun r => expr_then_t (eval_t r e) (assign_t t))
    | AugAssign t op e => augassign_t t op e
    | If c a b => with_env_t (fun r => expr_then_t (let> x := eval_t r c in truth_t x) (fun t =>
                    if t then block a else block b))
    | For t it body => with_env_t (fun r => expr_then_t (eval_t r it) (fun x =>
                         expr_then_t (watched_t x) (fun w => expr_then_t (iterate_t x)
                         (loop_t (fun v => step_of_t w (andthen_t (assign_t t v) (block body)))))))
    | Return None => finish_t (Returned NoneV)
    | Return (Some e) => with_env_t (fun r => expr_then_t (eval_t r e) (fun v => finish_t (Returned v)))
    | RaiseS e => with_env_t (fun r => expr_then_t (eval_t r e) (fun x => finish_t (Threw x)))
    | Try body handlers => fun r =>
        let> cr := block body r in
        match cr with
        | (Threw x, r') =>
            let> cx := exc_class_t x in
            (fix handle (l : list (string * option string * list stmt)) : act (ctl * env) :=
              match l with
              | [] => done_t (Threw x, r')
              | (c, nm, b) :: l' =>
                  if subclass cx c
                  then let> cr2 := block b (match nm with Some e => bindv e x r' | None => r' end) in
                       done_t (fst cr2, unbindv nm (snd cr2))
                  else handle l'
              end) handlers
        | _ => done_t cr
        end
    | YieldS e => with_env_t (fun r => expr_then_t (eval_t r e) (fun v =>
                    expr_then_t (match lookup yielding r with
                               | Some (RefV l) => let> o := get_t l in
                                                  match o with
                                                  | ListO vs => put_t l (ListO (vs ++ [v]))
                                                  | _ => stuck_t "yield"
                                                  end
                               | _ => stuck_t "yield"
                               end) (fun _ => finish_t Next)))
    end.
  Fixpoint exec_block_t (l : list stmt) : sem_t :=
    match l with
    | [] => finish_t Next
    | s :: l' => andthen_t (exec_t s) (exec_block_t l')
    end.
End Run.

Section Calls.
  Variable E : pyenv.
  Variable order : list Z -> list Z.
  Variable stdout : value.
  Variable dispatch_table : list (string * string).
  Variable prog : list (string * fundef).
  (** A generator has a heap of its own, so that it makes no difference when it runs. *)
  Definition run_body_t (call : string -> list value -> act value) (f : fundef) (args : list value) : act value :=
    let locals := f_params f ++ flat_map assigned (f_body f) in
    let r := combine (f_params f) args in
    if negb (Nat.eqb (length (f_params f)) (length args)) then stuck_t "arguments"
    else if negb (runnable prog f) then stuck_t "names"
    else if existsb yields (f_body f) then
      if negb (forallb immutable args) then stuck_t "generator" else
      match exec_block E order (ModuleV "stdout") dispatch_table (fun f _ => stuck f) locals (f_body f)
              ((yielding, RefV 0) :: r) [ListO []] with
      | (Next, _, ListO vs :: _) | (Returned _, _, ListO vs :: _) =>
          if forallb immutable vs then new_t (IterO "generator" (Some vs) None) else stuck_t "generator"
      | (StuckS w, _, _) => stuck_t w
      | _ => stuck_t "generator"
      end
    else
      let> cr := exec_block_t E order stdout dispatch_table call locals (f_body f) r in
      match fst cr with
      | Next => done_t NoneV
      | Returned v => done_t v
      | Threw x => End (Thrown x)
      | StuckS w => stuck_t w
      end.
  Fixpoint call_fun_t (depth : nat) (f : string) (args : list value) {struct depth} : act value :=
    match depth with
    | O => stuck_t "recursion"
    | S n => match dget String.eqb f prog with
             | Some fd => run_body_t (call_fun_t n) fd args
             | None => stuck_t f
             end
    end.
End Calls.

(** ** The machine: a heap, and any number of threads, one of which makes a step *)
Definition access {A} (m : act A) (h : heap) : act A * heap :=
  match m with
  | End o => (End o, h)
  | Read l k => match hget h l with Some o => (k o, h) | None => (End (Stuck "dangling reference"), h) end
  | Write l o k => (k, hset h l o)
  | Alloc o k => (k (length h), h ++ [o])
  end.
Definition machine_state := (list (act value) * heap)%type.
Inductive switch : machine_state -> machine_state -> Prop :=
| Switch before m m' after h h' : (forall o, m <> End o) -> access m h = (m', h') ->
    switch (before ++ m :: after, h) (before ++ m' :: after, h').
Inductive schedule : machine_state -> machine_state -> Prop :=
| Idle s : schedule s s
| Slice_of s s1 s' : switch s s1 -> schedule s1 s' -> schedule s s'.
