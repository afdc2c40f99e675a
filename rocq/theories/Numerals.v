(** * Numerals: what digits mean, stated without the built-ins of PyBase.v.

    The statements of the properties (Wire.v, WireEncode.v, DecodeFault.v, ...) use
    these definitions; [py_int], [from_be], [fromhex] and the hexadecimal
    formatting of PyBase.v are used by the model of the code only. NumeralFacts.v
    proves that they agree. *)
From Verif Require Import PyBase.

(** ** Binary numbers *)
(** The number a byte string spells in base 256, most significant byte first. *)
Fixpoint big_endian (raw : bytes) : N :=
  match raw with
  | [] => 0
  | b :: raw' => b2n b * 256 ^ N.of_nat (length raw') + big_endian raw'
  end%N.

(** ** Hexadecimal *)
Definition HEX_digits : pystr := u "0123456789ABCDEF".
Definition hex_digits : pystr := u "0123456789abcdef".
(** The upper-case digit of a nibble. *)
Definition HEX_digit (v : N) : N := nth (N.to_nat v) HEX_digits 48%N.
(** [c] is the digit of nibble [v], in either case. *)
Definition hex_digit (c v : N) : Prop :=
  nth_error HEX_digits (N.to_nat v) = Some c \/ nth_error hex_digits (N.to_nat v) = Some c.
(** Tab, line feed, vertical tab, form feed, carriage return, space. *)
Definition blank (c : N) : Prop := In c [9; 10; 11; 12; 13; 32]%N.
(** [t] spells the bytes [b], two digits each, with blanks around them. *)
Inductive hex_spelling : pystr -> bytes -> Prop :=
| HexEnd ws : Forall blank ws -> hex_spelling ws []
| HexByte ws c d h l x t b : Forall blank ws -> hex_digit c h -> hex_digit d l ->
    b2n x = (16 * h + l)%N -> hex_spelling t b -> hex_spelling (ws ++ c :: d :: t) (x :: b).

(** [t] spells no bytes. *)
Definition not_hex (t : pystr) : Prop := forall b, ~ hex_spelling t b.

(** ** int(str) *)
(** A decimal digit: ASCII, or one of the Unicode database. *)
Definition digit (E : pyenv) (c d : N) : Prop :=
  (d < 10)%N /\
  (c = (48 + d)%N \/ (127 <= c)%N /\ u_space E c = false /\ u_decimal E c = Some d).
Definition int_blank (E : pyenv) (c : N) : Prop :=
  blank c \/ (127 <= c)%N /\ u_space E c = true.
(** Digits, at least one, with single underscores allowed between them. *)
Inductive digits (E : pyenv) : pystr -> list N -> Prop :=
| LastDigit c d : digit E c d -> digits E [c] [d]
| NextDigit c d t ds : digit E c d -> digits E t ds -> digits E (c :: t) (d :: ds)
| NextGroup c d t ds : digit E c d -> digits E t ds -> digits E (c :: 95%N :: t) (d :: ds).
Fixpoint decimal (ds : list N) : N :=
  match ds with
  | [] => 0
  | d :: ds' => d * 10 ^ N.of_nat (length ds') + decimal ds'
  end%N.
(** int() refuses more decimal digits than the interpreter's limit. *)
Definition within_digit_limit (E : pyenv) (digits : nat) : Prop :=
  forall m, int_max_digits E = Some m -> (N.of_nat digits <= m)%N.
Inductive signed : pystr -> N -> Z -> Prop :=
| NoSign v : signed [] v (Z.of_N v)
| Plus v : signed [43%N] v (Z.of_N v)
| Minus v : signed [45%N] v (- Z.of_N v)%Z.
(** [t] is a text int() reads as [n]. *)
Definition int_text (E : pyenv) (t : pystr) (n : Z) : Prop :=
  exists ws sg body ws' ds,
    t = ws ++ sg ++ body ++ ws' /\ Forall (int_blank E) ws /\ Forall (int_blank E) ws'
    /\ digits E body ds /\ within_digit_limit E (length ds) /\ signed sg (decimal ds) n.

(** [t] is no such text. *)
Definition not_int (E : pyenv) (t : pystr) : Prop := forall n, ~ int_text E t n.

(** ** str(int) *)
(** The numeral of [n] without leading zeros. *)
Definition numeral (n : N) (t : pystr) : Prop :=
  exists ds, t = map (fun d => (48 + d)%N) ds /\ Forall (fun d => d < 10)%N ds
             /\ decimal ds = n /\ ds <> [] /\ (hd_error ds = Some 0%N -> ds = [0%N]).
(** str() refuses more digits than the limit of int(). *)
Definition showable (E : pyenv) (n : Z) : Prop :=
  forall t, numeral (Z.abs_N n) t -> within_digit_limit E (length t).
