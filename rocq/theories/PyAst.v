(** * PyAst: the syntax trees of the Python subset /repo/iso8583 is written in.
    Constructors are named after the classes of Python's own module ast. *)
From Coq Require Export String ZArith NArith List.
Export ListNotations.

Inductive operator := Add | Sub | Mult | FloorDiv | Mod | BitAnd | BitOr | LShift | RShift.
Inductive cmpop := CmpEq | CmpNotEq | CmpLtE | CmpGt | CmpIn | CmpNotIn | CmpIs | CmpIsNot.
Inductive constant :=
| CNone | CTrue | CFalse | CInt (n : Z) | CStr (s : string) | CBytes (octets : list N).

(** A comprehension is [ListComp elt generators], a generator being
    [for target in iter if ifs]. *)
Inductive expr :=
| Constant (c : constant)
| Name (id : string)
| Attribute (value : expr) (attr : string)
| Subscript (value slice : expr)
| Slice (lower upper : option expr)
| Call (func : expr) (args : list expr) (keywords : list (string * expr))
| BinOp (left : expr) (op : operator) (right : expr)
| BoolAnd (left right : expr)
| Not (operand : expr)
| USub (operand : expr)
| Compare (left : expr) (op : cmpop) (right : expr)
| IfExp (test body orelse : expr)
| Tuple (elts : list expr)
| EList (elts : list expr)
| Dict (items : list (expr * expr))
| ListComp (elt : expr) (generators : list (expr * expr * list expr))
| JoinedStr (values : list expr).      (* strings and the values shown between them *)

Inductive stmt :=
| Expr (value : expr)
| Assign (target : expr) (value : expr)
| AugAssign (target : expr) (op : operator) (value : expr)
| If (test : expr) (body orelse : list stmt)
| For (target iter : expr) (body : list stmt)
| Return (value : option expr)
| RaiseS (exc : expr)
| Try (body : list stmt) (handlers : list (string * option string * list stmt))
| YieldS (value : expr).

(** def f(params): body. A function with a yield is a generator. *)
Record fundef := { f_params : list string; f_body : list stmt }.
