(** * Texts: what the text built-ins of Python produce, stated without the
    definitions of PyBase.v.

    PyBase.v computes; here the results are described by what they are: a numeral,
    a stretch of a sequence, a literal that evaluates to a value. *)
From Verif Require Import PyBase Numerals.

(** ** Numbers as text *)
(** str(z). *)
Definition int_numeral (z : Z) (t : pystr) : Prop :=
  ((0 <= z)%Z /\ numeral (Z.to_N z) t)
  \/ ((z < 0)%Z /\ exists t', t = 45%N :: t' /\ numeral (Z.to_N (- z)) t').
(** "{:0{w}d}".format(n): decimal digits, at least [w], leading zeros only to reach [w]. *)
Definition zero_padded (w : nat) (n : N) (t : pystr) : Prop :=
  exists ds, t = map (fun d => (48 + d)%N) ds /\ Forall (fun d => d < 10)%N ds /\ decimal ds = n
    /\ (Nat.max 1 w <= length ds)%nat
    /\ ((Nat.max 1 w < length ds)%nat -> hd_error ds <> Some 0%N).
(** bytes.hex(): two lower-case digits per byte. *)
Inductive lower_hex : bytes -> pystr -> Prop :=
| LowerNone : lower_hex [] []
| LowerByte x h l c d b t : b2n x = (16 * h + l)%N ->
    nth_error hex_digits (N.to_nat h) = Some c -> nth_error hex_digits (N.to_nat l) = Some d ->
    lower_hex b t -> lower_hex (x :: b) (c :: d :: t).
(** binascii.a2b_hex(): two digits per byte in either case, nothing between them. *)
Inductive packed_hex : pystr -> bytes -> Prop :=
| PackedNone : packed_hex [] []
| PackedByte c d h l x t b : hex_digit c h -> hex_digit d l -> b2n x = (16 * h + l)%N ->
    packed_hex t b -> packed_hex (c :: d :: t) (x :: b).
(** str.upper() on ASCII: each small letter becomes the capital at its place in the alphabet. *)
Definition small_letters : pystr := u "abcdefghijklmnopqrstuvwxyz".
Definition capital_letters : pystr := u "ABCDEFGHIJKLMNOPQRSTUVWXYZ".
Definition capital (c c' : N) : Prop :=
  (exists i, nth_error small_letters i = Some c /\ nth_error capital_letters i = Some c')
  \/ (~ In c small_letters /\ c' = c).

(** ** Sequences *)
(** The place in a sequence of [len] elements an index of a slice stands for. *)
Definition place (len : nat) (i : Z) : nat :=
  if (i <? 0)%Z then (len - Z.to_nat (- i))%nat else Nat.min (Z.to_nat i) len.
(** s[i:j]: the elements from one place up to the other. *)
Definition stretch {A} (s : list A) (i j : Z) (t : list A) : Prop :=
  forall k, nth_error t k =
    if (place (length s) i + k <? place (length s) j)%nat
    then nth_error s (place (length s) i + k) else None.
(** sep.join(l). *)
Inductive joined (sep : pystr) : list pystr -> pystr -> Prop :=
| JoinNone : joined sep [] []
| JoinOne x : joined sep [x] x
| JoinMore x y l t : joined sep (y :: l) t -> joined sep (x :: y :: l) (x ++ sep ++ t).
(** The same as functions, for use in statements. *)
Fixpoint between (sep : pystr) (l : list pystr) : pystr :=
  match l with
  | [] => []
  | x :: l' => match l' with [] => x | _ :: _ => x ++ sep ++ between sep l' end
  end.
Definition listed (l : list pystr) : pystr := u "[" ++ between (u ", ") l ++ u "]".
Definition column (w : nat) (s : pystr) : pystr := s ++ repeat 32%N (w - length s).
(** "{:<w}".format(s). *)
Definition left_justified (w : nat) (s t : pystr) : Prop :=
  exists pad, t = s ++ pad /\ Forall (eq 32%N) pad /\ length t = Nat.max w (length s).

(** ** Literals (Python language reference, 2.4.1) *)
Definition hex_value (ds : list N) : N := fold_left (fun acc d => 16 * acc + d)%N ds 0%N.
(** [t] has the [n] hexadecimal digits of the number [c]. *)
Definition hex_number (n : nat) (t : pystr) (c : N) : Prop :=
  exists ds, Forall2 hex_digit t ds /\ length t = n /\ c = hex_value ds.
(** What follows a backslash, and the character meant. *)
Inductive escape : pystr -> N -> Prop :=
| EscBackslash : escape (u "\") 92
| EscSingle : escape (u "'") 39
| EscDouble : escape (u """") 34
| EscNewline : escape (u "n") 10
| EscReturn : escape (u "r") 13
| EscTab : escape (u "t") 9
| EscByte t c : hex_number 2 t c -> escape (u "x" ++ t) c.
Inductive long_escape : pystr -> N -> Prop :=
| Esc16 t c : hex_number 4 t c -> long_escape (u "u" ++ t) c
| Esc32 t c : hex_number 8 t c -> (c < 1114112)%N -> long_escape (u "U" ++ t) c.
(** The text between the quotes [q] and the characters it means. *)
Inductive str_content (q : N) : pystr -> pystr -> Prop :=
| StrEnd : str_content q [] []
| StrPlain c t v : c <> q -> ~ In c [92; 10; 13]%N -> str_content q t v ->
    str_content q (c :: t) (c :: v)
| StrEscape e c t v : escape e c \/ long_escape e c -> str_content q t v ->
    str_content q (92%N :: e ++ t) (c :: v).
Inductive bytes_content (q : N) : pystr -> bytes -> Prop :=
| BytesEnd : bytes_content q [] []
| BytesPlain b t v : b2n b <> q -> ~ In (b2n b) [92; 10; 13]%N -> (b2n b < 128)%N ->
    bytes_content q t v -> bytes_content q (b2n b :: t) (b :: v)
| BytesEscape e b t v : escape e (b2n b) -> bytes_content q t v ->
    bytes_content q (92%N :: e ++ t) (b :: v).
Definition quote (q : N) : Prop := In q (u "'""").
Definition str_literal (t v : pystr) : Prop :=
  exists q body, quote q /\ t = q :: body ++ [q] /\ str_content q body v.
Definition bytes_literal (t : pystr) (v : bytes) : Prop :=
  exists q body, quote q /\ t = u "b" ++ q :: body ++ [q] /\ bytes_content q body v.
(** Adjacent literals, with blanks between them, mean one value. *)
Inductive str_expression : pystr -> pystr -> Prop :=
| OneStr t v : str_literal t v -> str_expression t v
| MoreStr t v ws t' v' : str_literal t v -> ws <> [] -> Forall blank ws ->
    str_expression t' v' -> str_expression (t ++ ws ++ t') (v ++ v').
Inductive bytes_expression : pystr -> bytes -> Prop :=
| OneBytes t v : bytes_literal t v -> bytes_expression t v
| MoreBytes t v ws t' v' : bytes_literal t v -> ws <> [] -> Forall blank ws ->
    bytes_expression t' v' -> bytes_expression (t ++ ws ++ t') (v ++ v').
(** The characters of a text are printable, so none is a line break or control character. *)
Definition all_printable (E : pyenv) (t : pystr) : Prop :=
  Forall (fun c => (32 <= c < 127)%N \/ (127 < c)%N /\ u_printable E c = true) t.

(** ** Codecs *)
(** One byte per character, the byte being the code point, below [limit]. *)
Definition code_points (limit : N) (s : pystr) (b : bytes) : Prop :=
  s = map b2n b /\ Forall (fun c => (c < limit)%N) s.
(** One character in UTF-8 (RFC 3629, section 3). *)
Inductive utf8_form (c : N) : bytes -> Prop :=
| Utf1 a : (c < 128)%N -> b2n a = c -> utf8_form c [a]
| Utf2 a b x y : (x < 32)%N -> (y < 64)%N -> c = (64 * x + y)%N -> (128 <= c)%N ->
    b2n a = (192 + x)%N -> b2n b = (128 + y)%N -> utf8_form c [a; b]
| Utf3 a b d x y z : (x < 16)%N -> (y < 64)%N -> (z < 64)%N -> c = (64 * (64 * x + y) + z)%N ->
    (2048 <= c)%N -> ~ (55296 <= c < 57344)%N ->
    b2n a = (224 + x)%N -> b2n b = (128 + y)%N -> b2n d = (128 + z)%N -> utf8_form c [a; b; d]
| Utf4 a b d e w x y z : (w < 8)%N -> (x < 64)%N -> (y < 64)%N -> (z < 64)%N ->
    c = (64 * (64 * (64 * w + x) + y) + z)%N -> (65536 <= c < 1114112)%N ->
    b2n a = (240 + w)%N -> b2n b = (128 + x)%N -> b2n d = (128 + y)%N -> b2n e = (128 + z)%N ->
    utf8_form c [a; b; d; e].
Definition utf8_text (s : pystr) (b : bytes) : Prop :=
  exists parts, Forall2 utf8_form s parts /\ b = concat parts.
(** Runs of the EBCDIC code pages that all of them share: first character, first
    code, how many (space, letters, digits). *)
Definition ebcdic_runs : list (N * N * N) :=
  [(32, 64, 1); (97, 129, 9); (106, 145, 9); (115, 162, 8);
   (65, 193, 9); (74, 209, 9); (83, 226, 8); (48, 240, 10)]%N.
Definition ebcdic_form (c : N) (b : byte) : Prop :=
  exists first code n i, In (first, code, n) ebcdic_runs /\ (i < n)%N
    /\ c = (first + i)%N /\ b2n b = (code + i)%N.
