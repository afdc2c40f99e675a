(** * SafeCheck: a checker of the writes in a Python program.
    It gives every variable of every function a type that says which objects the variable may refer to, and accepts
    a program if each write goes to an object the types allow. That the checker is right is proved in SafeFacts. *)
From Verif Require Import PyBase Types PyAst PySem.
Local Open Scope string_scope.
Local Open Scope list_scope.

(** Nothing but None; a key that may be set; a text; a new object or no object; these or the keys of a dict; an object that may be touched; the same but not None; anything but a
    function; a function of the dispatch table; anything. *)
Inductive ty := TNone | TKey | TText | TFresh | TView | TTouch | TThere | TAny | TFuns | TCode.
Definition le (a b : ty) : bool :=
  match a, b with
  | _, TCode => true
  | TNone, (TNone | TFresh | TView | TTouch | TAny | TFuns) => true
  | TKey, (TKey | TText | TFresh | TView | TTouch | TAny) => true
  | TText, (TText | TFresh | TView | TTouch | TAny) => true
  | TFresh, (TFresh | TView | TTouch | TAny) => true
  | TView, (TView | TAny) => true
  | TTouch, (TTouch | TAny) => true
  | TThere, (TThere | TTouch | TAny) => true
  | TAny, TAny => true
  | TFuns, TFuns => true
  | _, _ => false
  end.
Definition join (a b : ty) : ty := if le a b then b else if le b a then a else TCode.
Fixpoint les (a b : list ty) : bool :=
  match a, b with
  | [], [] => true
  | x :: a', y :: b' => le x y && les a' b'
  | _, _ => false
  end.
Definition vars := list (string * ty).
Definition var (g : vars) (x : string) : option ty := dget String.eqb x g.
(** Methods that change nothing and return a new object or none. *)
Definition readers := ["hex"; "decode"; "upper"; "isnumeric"; "format"; "encode"; "to_bytes"; "fromhex"; "from_bytes";
                       "issubset"; "difference"; "intersection"; "a2b_hex"].

Section Check.
  Variable keys : list pystr.                          (* keys that may be set in a dict that may be touched *)
  Variable writes : bool.                              (* may write() be called on what may be touched? *)
  Variable sysout : bool.                              (* may sys.stdout be touched? *)
  Variable targets : option (list string).             (* the functions of the dispatch table, if there is one *)
  Variable prog : list (string * fundef).
  Variable sigs : list (string * (vars * ty)).         (* the variables of the functions, what they return *)

  Definition params (f : string) : option (list ty * ty) :=
    match dget String.eqb f sigs, dget String.eqb f prog with
    | Some (g, ret), Some fd => Some (map (fun x => match var g x with Some t => t | None => TCode end) (f_params fd), ret)
    | _, _ => None
    end.
  Definition accepts (ts : list ty) (f : string) : bool := match params f with Some (ps, _) => les ts ps | None => false end.
  Definition unbound (g : vars) (e : expr) (x : string) : bool :=
    match e with Name y => (y =? x) && match var g y with None => true | _ => false end | _ => false end.

  (** A call of the function named [x]. *)
  Definition call_name (g : vars) (x : string) (ts : list ty) : option ty :=
    match var g x with
    | Some TFuns => match targets with Some fs => if forallb (fun f => accepts ts f && negb (mem f ("a2b_hex" :: builtin_names))) fs then Some TCode else None | None => None end
    | Some _ => None
    | None =>
        if mem x type_names then
          if mem x ["DecodeError"; "EncodeError"] then
            match params (x ++ ".__init__")%string with
            | Some (p :: ps, _) => if le TFresh p && les ts ps then Some TFresh else None
            | _ => None
            end
          else if (x =? "set") && negb (forallb (fun t => le t TFresh) ts) then None
          else Some (if x =? "type" then TCode else TFresh)
        else if mem x module_names then None
        else if mem x ("a2b_hex" :: builtin_names) then
          if (x =? "sorted") && negb (forallb (fun t => le t TFresh) ts) then None else Some TFresh
        else match params x with Some (ps, ret) => if les ts ps then Some ret else None | None => None end
    end.
  (** A call of the method [m] of [e]. *)
  Definition call_attr (g : vars) (e : expr) (t : ty) (m : string) (ts : list ty) : option ty :=
    if m =? "upper" then Some TText
    else if mem m readers then Some TFresh
    else if m =? "keys" then Some TView
    else if m =? "get" then
      if unbound g e "_dispatch" then
        match targets, ts with Some _, [_; d] => if le d TNone then Some TFuns else None | _, _ => None end
      else match ts with [_; d] => if le t TAny && le d TAny then Some TAny else None | _ => None end
    else if mem m ["update"; "add"; "remove"] then if le t TFresh && forallb (fun t => le t TFresh) ts then Some TFresh else None
    else if m =? "pop" then
      match ts with
      | [k; d] => if le d TAny && (le t TFresh || le t TTouch && le k TKey) then Some TAny else None
      | _ => None
      end
    else if m =? "write" then if writes && le t TTouch then Some TFresh else None
    else if m =? "__init__" then
      if unbound g e "ValueError" then
        match ts with self :: rest => if le self TFresh && forallb (fun x => le x TAny) rest then Some TFresh else None | [] => None end
      else None
    else None.

  (** The variables of a comprehension. *)
  Fixpoint named (ts : list expr) (g : vars) : option vars :=
    match ts with
    | [] => Some g
    | Name x :: ts' => named ts' ((x, TAny) :: g)
    | _ => None
    end.
  Definition with_target (t : expr) (g : vars) : option vars := match t with Tuple ts => named ts g | _ => named [t] g end.

  Fixpoint infer (g : vars) (e : expr) {struct e} : option ty :=
    let infers := (fix infers (l : list expr) : option (list ty) :=
      match l with
      | [] => Some []
      | e :: l' => match infer g e, infers l' with Some t, Some ts => Some (t :: ts) | _, _ => None end
      end) in
    let given (o : option expr) : bool := match o with Some e => match infer g e with Some _ => true | None => false end | None => true end in
    match e with
    | Constant CNone => Some TNone
    | Constant (CStr s) => Some (if existsb (str_eqb (u s)) keys then TKey else TFresh)
    | Constant _ => Some TFresh
    | Name x => Some (match var g x with Some t => t | None => TCode end)
    | Attribute e a => match infer g e with
                       | Some _ => Some (if unbound g e "_sys" && (a =? "stdout") && sysout then TTouch else TCode)
                       | None => None
                       end
    | Subscript e i =>
        match infer g e with
        | Some t => match i with
                    | Slice lo hi => if given lo && given hi then Some TFresh else None
                    | _ => match infer g i with
                           | Some _ => Some (if le t TFresh then TFresh else if le t TAny then TAny else TCode)
                           | None => None
                           end
                    end
        | None => None
        end
    | Slice _ _ => Some TFresh
    | Call f args kws =>
        match infers args, forallb (fun kv => match infer g (snd kv) with Some _ => true | None => false end) kws with
        | Some ts, true => match f with
                           | Name x => call_name g x ts
                           | Attribute e m => match infer g e with Some t => call_attr g e t m ts | None => None end
                           | _ => None
                           end
        | _, _ => None
        end
    | BinOp a op b => match infer g a, infer g b with
                      | Some _, Some t => Some (match op with Add => if le t TText then TText else TFresh | _ => TFresh end)
                      | _, _ => None
                      end
    | Compare a _ b => match infer g a, infer g b with Some _, Some _ => Some TFresh | _, _ => None end
    | Not a | USub a => match infer g a with Some _ => Some TFresh | None => None end
    | BoolAnd a b => match infer g a, infer g b with Some t, Some t' => Some (join t t') | _, _ => None end
    | IfExp c a b => match infer g c, infer g a, infer g b with Some _, Some t, Some t' => Some (join t t') | _, _, _ => None end
    | Tuple l => match infers l with
                 | Some ts => Some (if forallb (fun t => le t TFresh) ts then TFresh else if forallb (fun t => le t TAny) ts then TAny else TCode)
                 | None => None
                 end
    | EList l => match infers l with Some ts => if forallb (fun t => le t TAny) ts then Some TFresh else None | None => None end
    | Dict l =>
        if forallb (fun kv => match infer g (fst kv), infer g (snd kv) with Some _, Some t => le t TFresh | _, _ => false end) l
        then Some TFresh else None
    | ListComp elt gens =>
        (fix gen (gens : list (expr * expr * list expr)) (g : vars) : option ty :=
          match gens with
          | [] => match infer g elt with Some t => if le t TAny then Some TFresh else None | None => None end
          | (t, it, ifs) :: gens' =>
              match infer g it, with_target t g with
              | Some ti, Some g' =>
                  if le ti TView && forallb (fun c => match infer g' c with Some _ => true | None => false end) ifs then gen gens' g' else None
              | _, _ => None
              end
          end) gens g
    | JoinedStr l => match infers l with Some _ => Some TFresh | None => None end
    end.

  Definition infer_le (g : vars) (e : expr) (t : ty) : bool := match infer g e with Some t' => le t' t | None => false end.
  Definition fits (g : vars) (t : ty) (target : expr) : bool :=
    match target with
    | Name x => match var g x with Some t' => le t t' | None => false end
    | Subscript d i => le t TFresh && infer_le g d TFresh && infer_le g i TCode || le t TText && infer_le g d TTouch && infer_le g i TKey
    | Attribute e _ => infer_le g e TFresh && le t TAny
    | _ => false
    end.
  Definition fits_all (g : vars) (t : ty) (target : expr) : bool :=
    match target with
    | Tuple ts => if le t TFresh then forallb (fits g TFresh) ts else le t TAny && forallb (fits g TAny) ts
    | _ => fits g t target
    end.
  (** A condition that is false since a variable is not None. *)
  Definition refuted (g : vars) (c : expr) : bool :=
    match c with
    | Compare (Name x) CmpIs (Constant CNone) => match var g x with Some TThere => true | _ => false end
    | _ => false
    end.
  Fixpoint check (g : vars) (ret : ty) (s : stmt) : bool :=
    match s with
    | Expr e => infer_le g e TCode
    | Assign t e => match infer g e with Some ty => fits_all g ty t | None => false end
    | AugAssign t op e =>
        infer_le g e TCode &&
        match t with
        | Name x => match var g x with
                    | Some TFresh => true
                    | Some TAny => match op with Add => false | _ => true end
                    | _ => false
                    end
        | Subscript d i => infer_le g d TFresh && infer_le g i TCode
        | _ => false
        end
    | If c a b => infer_le g c TCode && (refuted g c || forallb (check g ret) a) && forallb (check g ret) b
    | For t it body => infer_le g it TView && fits_all g TAny t && forallb (check g ret) body
    | Return None => true
    | Return (Some e) => infer_le g e ret
    | RaiseS e => infer_le g e TFresh
    | Try body handlers =>
        forallb (check g ret) body &&
        forallb (fun h => match snd (fst h) with
                          | Some x => match var g x with Some t => le TAny t | None => false end
                          | None => true
                          end && forallb (check g ret) (snd h)) handlers
    | YieldS _ => false
    end.
  Definition check_fun (f : string) (sig : vars * ty) : bool :=
    match dget String.eqb f prog with
    | Some fd => forallb (fun x => match var (fst sig) x with Some _ => true | None => false end) (f_params fd)
                 && forallb (fun x => mem (fst x) (f_params fd ++ flat_map assigned (f_body fd))) (fst sig)
                 && le TFresh (snd sig) && (existsb yields (f_body fd) || forallb (check (fst sig) (snd sig)) (f_body fd))
    | None => false
    end.
  Definition check_prog : bool := forallb (fun fs => check_fun (fst fs) (snd fs)) sigs.
End Check.
