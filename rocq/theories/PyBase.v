(** * PyBase: the Python built-ins the library calls, as total Gallina functions.

    Nothing here comes from /repo; each definition models the CPython built-in
    named in its comment, as used at the cited lines of /repo/iso8583.
    Strings are lists of Unicode code points, bytes are lists of [byte]. *)
From Coq Require Export Strings.Ascii Strings.String Strings.Byte.
From Coq Require Export List Bool NArith ZArith Lia.
Export ListNotations.

(** str: a sequence of code points. bytes: a sequence of octets. *)
Definition pystr := list N.
Definition bytes := list byte.

(** String literal: an ASCII Coq string as a [pystr]. *)
Definition u (s : string) : pystr := map N_of_ascii (list_ascii_of_string s).
Arguments u s%string_scope.

(** Equality test on str (==). *)
Fixpoint str_eqb (a b : pystr) : bool :=
  match a, b with
  | [], [] => true
  | x :: a', y :: b' => N.eqb x y && str_eqb a' b'
  | _, _ => false
  end.

(** ** dict
    Insertion-ordered association lists: [dget] is d[k] / d.get, [dset] is
    d[k] = v (in place when the key exists, appended otherwise), [dpop] is
    d.pop(k, None), [dmem] is [k in d]. *)
Section Dict.
  Context {K V : Type} (eqb : K -> K -> bool).
  Fixpoint dget (k : K) (d : list (K * V)) : option V :=
    match d with
    | [] => None
    | (k', v) :: d' => if eqb k k' then Some v else dget k d'
    end.
  Fixpoint dset (k : K) (v : V) (d : list (K * V)) : list (K * V) :=
    match d with
    | [] => [(k, v)]
    | (k', v') :: d' => if eqb k k' then (k', v) :: d' else (k', v') :: dset k v d'
    end.
  Fixpoint dpop (k : K) (d : list (K * V)) : list (K * V) :=
    match d with
    | [] => []
    | (k', v') :: d' => if eqb k k' then d' else (k', v') :: dpop k d'
    end.
  Definition dmem (k : K) (d : list (K * V)) : bool :=
    match dget k d with Some _ => true | None => false end.
End Dict.

Definition sget {V} := @dget pystr V str_eqb.
Definition sset {V} := @dset pystr V str_eqb.

(** ** Slicing: s[i:j] with Python's treatment of negative indices. *)
Definition slice_index (len i : Z) : Z :=
  if (i <? 0)%Z then Z.max 0 (i + len) else Z.min i len.
Definition py_slice {A} (s : list A) (i j : Z) : list A :=
  let len := Z.of_nat (length s) in
  let i' := slice_index len i in
  let j' := slice_index len j in
  firstn (Z.to_nat (j' - i')) (skipn (Z.to_nat i') s).

Definition zlen {A} (s : list A) : Z := Z.of_nat (length s).

(** ** Bytes and integers *)
Definition b2n (b : byte) : N := Byte.to_N b.
(** Only ever applied to n < 256. *)
Definition n2b (n : N) : byte :=
  match Byte.of_N n with Some b => b | None => x00 end.

(** int.from_bytes(s, "big", signed=False) *)
Definition from_be (s : bytes) : N :=
  fold_left (fun acc b => (acc * 256 + b2n b)%N) s 0%N.

(** n.to_bytes(w, "big", signed=False); None is OverflowError. *)
Fixpoint be_digits (w : nat) (n : N) : bytes :=
  match w with
  | O => []
  | S w' => be_digits w' (n / 256)%N ++ [n2b (n mod 256)%N]
  end.
Definition to_be (w : nat) (n : N) : option bytes :=
  if (n <? 256 ^ N.of_nat w)%N then Some (be_digits w n) else None.

(** ** Hexadecimal *)
(** Lower-case digit, as bytes.hex() produces; upper-case, as .hex().upper(). *)
Definition hexdig_lower (v : N) : N := if (v <? 10)%N then (48 + v)%N else (87 + v)%N.
Definition hexdig_upper (v : N) : N := if (v <? 10)%N then (48 + v)%N else (55 + v)%N.

(** bytes.hex() *)
Definition py_hex (b : bytes) : pystr :=
  flat_map (fun x => [hexdig_lower (b2n x / 16); hexdig_lower (b2n x mod 16)]) b.

(** str.upper() restricted to ASCII (its only arguments here are the output of
    bytes.hex(), which is ASCII). *)
Definition upper_char (c : N) : N :=
  if ((97 <=? c) && (c <=? 122))%N then (c - 32)%N else c.
Definition py_upper (s : pystr) : pystr := map upper_char s.

(** Value of one hexadecimal digit, either case. *)
Definition hexval (c : N) : option N :=
  (if (48 <=? c) && (c <=? 57) then Some (c - 48)
   else if (97 <=? c) && (c <=? 102) then Some (c - 87)
   else if (65 <=? c) && (c <=? 70) then Some (c - 55)
   else None)%N.

(** binascii.a2b_hex(str); None is any of its exceptions (odd length,
    non-hexadecimal digit, non-ASCII string). No whitespace is skipped. *)
Fixpoint a2b_hex (s : pystr) : option bytes :=
  match s with
  | [] => Some []
  | c :: r =>
      match r with
      | [] => None
      | d :: r' =>
          match hexval c, hexval d, a2b_hex r' with
          | Some h, Some l, Some t => Some (n2b (16 * h + l)%N :: t)
          | _, _, _ => None
          end
      end
  end.

(** ASCII whitespace as C isspace(): \t \n \v \f \r and space. *)
Definition c_space (c : N) : bool := (((9 <=? c) && (c <=? 13)) || (c =? 32))%N.

(** bytes.fromhex(str), Python >= 3.7: skips ASCII whitespace between bytes;
    None is ValueError. *)
Fixpoint fromhex (s : pystr) : option bytes :=
  match s with
  | [] => Some []
  | c :: r =>
      if c_space c then fromhex r
      else
        match r with
        | [] => None
        | d :: r' =>
            match hexval c, hexval d, fromhex r' with
            | Some h, Some l, Some t => Some (n2b (16 * h + l)%N :: t)
            | _, _, _ => None
            end
        end
  end.

(** ** Decimal formatting: str(n) and "{:0{w}d}".format(n) *)
Fixpoint dec_fuel (f : nat) (n : N) (acc : pystr) : pystr :=
  match f with
  | O => acc
  | S f' =>
      let acc' := (48 + n mod 10)%N :: acc in
      if (n / 10 =? 0)%N then acc' else dec_fuel f' (n / 10)%N acc'
  end.
(** str(n), n >= 0. The fuel (bit size + 1) is never exhausted: [dec_value] in
    BaseFacts.v. *)
Definition dec (n : N) : pystr := dec_fuel (S (N.size_nat n)) n [].
(** str(z), without the limit on its size: see [prints]. *)
Definition zstr (z : Z) : pystr :=
  match z with
  | Z0 => dec 0
  | Zpos p => dec (Npos p)
  | Zneg p => u "-" ++ dec (Npos p)
  end.
(** "{:0{w}d}".format(n, w=w), n >= 0. *)
Definition zfill (w : nat) (s : pystr) : pystr := repeat 48%N (w - length s) ++ s.
Definition fmt0d (w : nat) (n : N) : pystr := zfill w (dec n).

(** Left-justify: "{:ws}" on str. *)
Definition ljust (w : nat) (s : pystr) : pystr := s ++ repeat 32%N (w - length s).

(** ** The interpreter as an explicit parameter.
    Everything the library takes from the Python runtime beyond the definitions
    above: the codec registry (str.encode / bytes.decode by name) and the
    Unicode database. [codec_of E name = None] is LookupError; [None] from a
    codec is any other exception (UnicodeError, ...). *)
Record codec := { c_enc : pystr -> option bytes; c_dec : bytes -> option pystr }.
Record pyenv := {
  codec_of : pystr -> option codec;
  encode_why : pystr -> pystr -> pystr;  (* str() of the exception by which codec, text fail *)
  format_why : Z -> pystr;         (* str() of the ValueError of "{:0{w}d}".format, w < 0 *)
  u_numeric : N -> bool;           (* str.isnumeric() per character *)
  u_decimal : N -> option N;       (* value of a Unicode decimal digit *)
  u_space : N -> bool;             (* Unicode whitespace *)
  u_printable : N -> bool;         (* str.isprintable() per character *)
  int_max_digits : option N        (* sys.get_int_max_str_digits(), None = off *)
}.

Inductive cres (A : Type) := COk (a : A) | CLookup | CFail.
Arguments COk {A} a. Arguments CLookup {A}. Arguments CFail {A}.

(** str.encode(enc) / bytes(str, enc) *)
Definition str_encode (E : pyenv) (enc : pystr) (s : pystr) : cres bytes :=
  match codec_of E enc with
  | None => CLookup
  | Some c => match c_enc c s with Some b => COk b | None => CFail end
  end.

(** bytes.decode(enc). CPython returns '' for empty bytes without looking the
    codec up (PyUnicode_FromEncodedObject). *)
Definition bytes_decode (E : pyenv) (enc : pystr) (b : bytes) : cres pystr :=
  match b with
  | [] => COk []
  | _ =>
      match codec_of E enc with
      | None => CLookup
      | Some c => match c_dec c b with Some s => COk s | None => CFail end
      end
  end.

(** str.isnumeric() *)
Definition isnumeric (E : pyenv) (s : pystr) : bool :=
  match s with [] => false | _ => forallb (u_numeric E) s end.

(** int(str) / int(str, 10): None is ValueError.
    CPython first maps Unicode decimals and spaces to ASCII
    (_PyUnicode_TransformDecimalAndSpaceToASCII), then PyLong_FromString skips
    C whitespace, takes an optional sign, digits with single underscores between
    them, and trailing whitespace; more digits than the interpreter limit is a
    ValueError. *)
Definition int_char (E : pyenv) (c : N) : N :=
  if (c <? 127)%N then c
  else if u_space E c then 32%N
  else match u_decimal E c with
       | Some d => if (d <? 10)%N then (48 + d)%N else 63%N
       | None => 63%N
       end.
Definition is_digit (c : N) : bool := ((48 <=? c) && (c <=? 57))%N.
Fixpoint int_digits (s : pystr) (prev : bool) (acc : N) (cnt : N) : option (N * N) :=
  match s with
  | [] => if prev then Some (acc, cnt) else None
  | c :: r =>
      if is_digit c then int_digits r true (acc * 10 + (c - 48))%N (cnt + 1)%N
      else if (c =? 95)%N then (if prev then int_digits r false acc cnt else None)
      else if prev && forallb c_space (c :: r) then Some (acc, cnt) else None
  end.
Fixpoint lstrip_c (s : pystr) : pystr :=
  match s with
  | c :: r => if c_space c then lstrip_c r else s
  | [] => []
  end.
Definition int_unsigned (E : pyenv) (s : pystr) : option N :=
  match int_digits s false 0%N 0%N with
  | Some (v, cnt) =>
      match int_max_digits E with
      | Some m => if (m <? cnt)%N then None else Some v
      | None => Some v
      end
  | None => None
  end.
Definition py_int (E : pyenv) (s : pystr) : option Z :=
  match lstrip_c (map (int_char E) s) with
  | [] => None
  | c :: r =>
      if (c =? 43)%N then option_map Z.of_N (int_unsigned E r)
      else if (c =? 45)%N then option_map (fun n => (- Z.of_N n)%Z) (int_unsigned E r)
      else option_map Z.of_N (int_unsigned E (c :: r))
  end.

(** f"{n}" is refused when n has more digits than the same limit. *)
Definition prints (E : pyenv) (n : Z) : bool :=
  match int_max_digits E with
  | Some m => (N.of_nat (length (zstr (Z.abs n))) <=? m)%N
  | None => true
  end.

(** ** set of int
    A set is kept as the strictly increasing list of its elements, so [sorted]
    is the identity. *)
Definition zset := list Z.
Fixpoint zadd (x : Z) (l : zset) : zset :=
  match l with
  | [] => [x]
  | y :: l' => if (x <? y)%Z then x :: l
               else if (x =? y)%Z then l else y :: zadd x l'
  end.
Definition zupdate (l : zset) (xs : list Z) : zset := fold_left (fun s x => zadd x s) xs l.
Definition zset_of (xs : list Z) : zset := zupdate [] xs.
Definition zmem (x : Z) (l : zset) : bool := existsb (Z.eqb x) l.
Definition zremove (x : Z) (l : zset) : zset := filter (fun y => negb (Z.eqb x y)) l.
(** fields.intersection(range(a, b)) / difference(range(a, b)) / issubset *)
Definition in_range (a b : Z) (x : Z) : bool := ((a <=? x) && (x <? b))%Z.
Definition zinter_range (a b : Z) (l : zset) : zset := filter (in_range a b) l.
Definition zdiff_range (a b : Z) (l : zset) : zset := filter (fun x => negb (in_range a b x)) l.
Definition zsubset_range (a b : Z) (l : zset) : bool := forallb (in_range a b) l.

(** repr of a list of ints / list of objects given their reprs: "[a, b]". *)
Fixpoint join (sep : pystr) (l : list pystr) : pystr :=
  match l with
  | [] => []
  | [x] => x
  | x :: l' => x ++ sep ++ join sep l'
  end.
Definition list_repr (l : list pystr) : pystr := u "[" ++ join (u ", ") l ++ u "]".

(** ** Exceptions and mutable state
    [M S A]: a Python call over mutable state [S]; on an exception the state
    reached so far is kept, as with in-place mutation. *)
Inductive res (X A : Type) := Ok (a : A) | Raise (x : X).
Arguments Ok {X A} a. Arguments Raise {X A} x.
Definition M (X S A : Type) := S -> res X A * S.
Definition ret {X S A} (a : A) : M X S A := fun st => (Ok a, st).
Definition raise {X S A} (x : X) : M X S A := fun st => (Raise x, st).
Definition bind {X S A B} (m : M X S A) (k : A -> M X S B) : M X S B :=
  fun st => match m st with
            | (Ok a, st') => k a st'
            | (Raise x, st') => (Raise x, st')
            end.
Notation "x <- m ;; k" := (bind m (fun x => k))
  (at level 61, m at next level, right associativity).
Notation "m ;;; k" := (bind m (fun _ => k)) (at level 61, right associativity).

(** ** repr of str and bytes *)
Definition hex2 (n : N) : pystr := [hexdig_lower (n / 16 mod 16); hexdig_lower (n mod 16)].
Definition hex4 (n : N) : pystr := hex2 (n / 256) ++ hex2 (n mod 256).
Definition hex8 (n : N) : pystr := hex4 (n / 65536) ++ hex4 (n mod 65536).
(** Quote chosen by CPython: a single quote (39) unless the text has a single
    and no double quote (34). *)
Definition pick_quote (s : pystr) : N :=
  if existsb (N.eqb 39) s && negb (existsb (N.eqb 34) s) then 34%N else 39%N.
Definition esc (c : N) : pystr := [92%N; c].
Definition repr_byte (q : N) (c : N) : pystr :=
  if ((c =? q) || (c =? 92))%N then esc c
  else if (c =? 9)%N then esc 116
  else if (c =? 10)%N then esc 110
  else if (c =? 13)%N then esc 114
  else if ((c <? 32) || (127 <=? c))%N then esc 120 ++ hex2 c
  else [c].
(** repr(bytes) *)
Definition repr_bytes (b : bytes) : pystr :=
  let s := map b2n b in
  let q := pick_quote s in
  [98%N; q] ++ flat_map (repr_byte q) s ++ [q].
Definition repr_char (E : pyenv) (q : N) (c : N) : pystr :=
  if ((c =? q) || (c =? 92))%N then esc c
  else if (c =? 9)%N then esc 116
  else if (c =? 10)%N then esc 110
  else if (c =? 13)%N then esc 114
  else if ((c <? 32) || (c =? 127))%N then esc 120 ++ hex2 c
  else if (c <? 127)%N then [c]
  else if u_printable E c then [c]
  else if (c <? 256)%N then esc 120 ++ hex2 c
  else if (c <? 65536)%N then esc 117 ++ hex4 c
  else esc 85 ++ hex8 c.
(** repr(str) *)
Definition repr_str (E : pyenv) (s : pystr) : pystr :=
  let q := pick_quote s in
  [q] ++ flat_map (repr_char E q) s ++ [q].
