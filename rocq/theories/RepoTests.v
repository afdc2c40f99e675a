(** * RepoTests: the assertions of /repo/tests, evaluated in the model.
    Generated from the text of the test files: every statement is kept, each
    parametrised case is one element of a list, and each check evaluates to [true].
    These are tests of the model, not properties. *)
From Verif Require Import PyBase Types Decoder Encoder Tools Specs CPython311 Claims2 Samples.
Local Open Scope string_scope.
Local Open Scope list_scope.
Local Open Scope bool_scope.

(** An entry of a spec, property by property, and a spec with entries replaced. *)
Definition props (data_enc len_enc : option pystr) (len_type : option Z) (max_len : option Z)
    (len_count left_pad right_pad desc : option pystr) : fspec :=
  {| fs_data_enc := data_enc; fs_len_enc := len_enc; fs_len_type := len_type; fs_max_len := max_len;
     fs_len_count := len_count; fs_left_pad := left_pad; fs_right_pad := right_pad; fs_desc := desc |}.
Definition changed (sp : spec) (l : list (pystr * fspec)) : spec :=
  fold_left (fun sp kf => sset (fst kf) (snd kf) sp) l sp.

(** The equalities asserted. Dicts and key sets are compared regardless of order. *)
Definition eq_str := str_eqb.
Definition eq_bytes (a b : bytes) : bool := str_eqb (map b2n a) (map b2n b).
Definition eq_Z := Z.eqb.
Definition eq_nat := Nat.eqb.
Definition eq_ostr (a : option pystr) (b : pystr) : bool := match a with Some a => eq_str a b | None => false end.
Definition eq_obytes (a : option bytes) (b : bytes) : bool := match a with Some a => eq_bytes a b | None => false end.
Definition eq_val (a b : pyval) : bool :=
  match a, b with
  | VStr a, VStr b => eq_str a b
  | VBytes a, VBytes b => eq_bytes a b
  | _, _ => false
  end.
Definition eq_oval (a : option pyval) (b : pystr) : bool := match a with Some a => eq_val a (VStr b) | None => false end.
Definition key_in (k : pykey) (l : list pykey) : bool := existsb (key_eqb k) l.
Definition eq_keys (a b : list pykey) : bool :=
  forallb (fun k => key_in k b) a && forallb (fun k => key_in k a) b.
Definition xor (a b : list pykey) : list pykey :=
  filter (fun k => negb (key_in k b)) a ++ filter (fun k => negb (key_in k a)) b.
Definition eq_ddoc (a b : ddoc) : bool :=
  Nat.eqb (length a) (length b) && forallb (fun kv => eq_ostr (sget (fst kv) a) (snd kv)) b.
Definition eq_edoc (a b : edoc) : bool :=
  Nat.eqb (length a) (length b)
  && forallb (fun kv => eq_obytes (option_map e_len (sget (fst kv) a)) (e_len (snd kv))
                        && eq_obytes (option_map e_data (sget (fst kv) a)) (e_data (snd kv))) b.
Definition eq_pdoc (a b : pdoc) : bool :=
  Nat.eqb (length a) (length b)
  && forallb (fun kv => match pget (fst kv) a with Some v => eq_val v (snd kv) | None => false end) b.

(** pickle.loads (pickle.dumps e): the class applied to the arguments of __reduce__. *)
Definition unpickle_e (e : encode_error) : encode_error :=
  let '(msg, dec, enc, field) := EncodeError_reduce e in EncodeError msg dec enc field.
Definition unpickle_d (e : decode_error) : decode_error :=
  let '(msg, s, dec, enc, pos, field) := DecodeError_reduce e in DecodeError msg s dec enc pos field.

(** out.split on newlines. *)
Fixpoint split_lines (s : pystr) : list pystr :=
  match s with
  | [] => [[]]
  | c :: s' =>
      if N.eqb c 10 then [] :: split_lines s'
      else match split_lines s' with l :: ls => (c :: l) :: ls | [] => [[c]] end
  end.
(** pytest.raises(match=...): re.search of a pattern in which only the dot is special. *)
Fixpoint match_here (p s : pystr) : bool :=
  match p, s with
  | [], _ => true
  | c :: p', x :: s' => ((N.eqb c 46 && negb (N.eqb x 10)) || N.eqb c x) && match_here p' s'
  | _, [] => false
  end.
Fixpoint matches (p s : pystr) : bool :=
  match_here p s || match s with [] => false | _ :: s' => matches p s' end.

(** tests/test_decode.py:10. *)
Example test_DecodeError_exception : forallb (fun b => b) [
match decode cpython311 (InBytes (asc "")) default with
 Raise (XDecodeError e1) =>
(eq_ddoc (de_doc_dec e1) [((u "t"), (u ""))]) && (
(eq_edoc (de_doc_enc e1) [((u "t"), mkEntry (asc "") (asc ""))]) && (
(eq_str (de_msg e1) (u "Field data is 0 bytes, expecting 4")) && (
(eq_str (de_field e1) (u "t")) && (
(eq_Z (de_pos e1) (0)%Z) && (
(eq_str (de_args0 e1) (u "Field data is 0 bytes, expecting 4: field t pos 0")) && (
 true ) ) ) ) ) ) | _ => false end] = true.
Proof. vm_compute. reflexivity. Qed.

(** tests/test_decode.py:28. *)
Example test_DecodeError_exception_pickle : forallb (fun b => b) [
match decode cpython311 (InBytes (asc "")) default with
 Raise (XDecodeError e1) =>
(eq_ddoc (de_doc_dec e1) (de_doc_dec (unpickle_d e1))) && (
(eq_edoc (de_doc_enc e1) (de_doc_enc (unpickle_d e1))) && (
(eq_str (de_msg e1) (de_msg (unpickle_d e1))) && (
(eq_str (de_field e1) (de_field (unpickle_d e1))) && (
(eq_Z (de_pos e1) (de_pos (unpickle_d e1))) && (
(eq_str (de_args0 e1) (de_args0 (unpickle_d e1))) && (
 true ) ) ) ) ) ) | _ => false end] = true.
Proof. vm_compute. reflexivity. Qed.

(** tests/test_decode.py:49. *)
Example test_input_type : forallb (fun b => b) [
match decode cpython311 (InOther (u "dict")) default with
 Raise (XTypeError e1) =>
(matches (u "Encoded ISO8583 data must be bytes or bytearray, not dict") e1) && (
match decode cpython311 (InOther (u "list")) default with
 Raise (XTypeError e2) =>
(matches (u "Encoded ISO8583 data must be bytes or bytearray, not list") e2) && (
match decode cpython311 (InOther (u "tuple")) default with
 Raise (XTypeError e3) =>
(matches (u "Encoded ISO8583 data must be bytes or bytearray, not tuple") e3) && (
match decode cpython311 (InOther (u "str")) default with
 Raise (XTypeError e4) =>
(matches (u "Encoded ISO8583 data must be bytes or bytearray, not str") e4) && (
 true ) | _ => false end ) | _ => false end ) | _ => false end ) | _ => false end] = true.
Proof. vm_compute. reflexivity. Qed.

(** tests/test_decode.py:75. *)
Example test_header_ascii_absent : forallb (fun b => b) [
let sp1 := (changed default [((u "p"), (props (Some (u "ascii")) (Some (u "ascii")) (Some (0)%Z) (Some (8)%Z) None None None (Some (u "Bitmap, Primary"))))]) in
match decode cpython311 (InBytes (asc "02100000000000000000")) sp1 with
 Ok (dec2, enc3) =>
(eq_obytes (option_map e_len (sget (u "t") enc3)) (asc "")) && (
(eq_obytes (option_map e_data (sget (u "t") enc3)) (asc "0210")) && (
(eq_ostr (sget (u "t") dec2) (u "0210")) && (
(eq_obytes (option_map e_len (sget (u "p") enc3)) (asc "")) && (
(eq_obytes (option_map e_data (sget (u "p") enc3)) (asc "0000000000000000")) && (
(eq_ostr (sget (u "p") dec2) (u "0000000000000000")) && (
(eq_keys (map (fun kv => KStr (fst kv)) enc3) [(KStr (u "p")); (KStr (u "t"))]) && (
(eq_keys (map (fun kv => KStr (fst kv)) dec2) [(KStr (u "p")); (KStr (u "t"))]) && (
 true ) ) ) ) ) ) ) ) | _ => false end ] = true.
Proof. vm_compute. reflexivity. Qed.

(** tests/test_decode.py:100. *)
Example test_header_ascii_present : forallb (fun b => b) [
let sp1 := (changed default [((u "h"), (props (Some (u "ascii")) (Some (u "ascii")) (Some (0)%Z) (Some (6)%Z) None None None (Some (u "Message Header")))); ((u "p"), (props (Some (u "ascii")) (Some (u "ascii")) (Some (0)%Z) (Some (8)%Z) None None None (Some (u "Bitmap, Primary"))))]) in
match decode cpython311 (InBytes (asc "header02100000000000000000")) sp1 with
 Ok (dec2, enc3) =>
(eq_obytes (option_map e_len (sget (u "h") enc3)) (asc "")) && (
(eq_obytes (option_map e_data (sget (u "h") enc3)) (asc "header")) && (
(eq_ostr (sget (u "h") dec2) (u "header")) && (
(eq_obytes (option_map e_len (sget (u "t") enc3)) (asc "")) && (
(eq_obytes (option_map e_data (sget (u "t") enc3)) (asc "0210")) && (
(eq_ostr (sget (u "t") dec2) (u "0210")) && (
(eq_obytes (option_map e_len (sget (u "p") enc3)) (asc "")) && (
(eq_obytes (option_map e_data (sget (u "p") enc3)) (asc "0000000000000000")) && (
(eq_ostr (sget (u "p") dec2) (u "0000000000000000")) && (
(eq_keys (map (fun kv => KStr (fst kv)) enc3) [(KStr (u "h")); (KStr (u "p")); (KStr (u "t"))]) && (
(eq_keys (map (fun kv => KStr (fst kv)) dec2) [(KStr (u "h")); (KStr (u "p")); (KStr (u "t"))]) && (
 true ) ) ) ) ) ) ) ) ) ) ) | _ => false end ] = true.
Proof. vm_compute. reflexivity. Qed.

(** tests/test_decode.py:142. *)
Example test_type_decoding : forallb (fun b => b) [
match decode cpython311 (InBytes (asc "02100000000000000000")) default_ascii with
 Ok (dec1, enc2) =>
(eq_obytes (option_map e_len (sget (u "t") enc2)) (asc "")) && (
(eq_obytes (option_map e_data (sget (u "t") enc2)) (asc "0210")) && (
(eq_ostr (sget (u "t") dec1) (u "0210")) && (
(eq_obytes (option_map e_len (sget (u "p") enc2)) (asc "")) && (
(eq_obytes (option_map e_data (sget (u "p") enc2)) (asc "0000000000000000")) && (
(eq_ostr (sget (u "p") dec1) (u "0000000000000000")) && (
(eq_keys (map (fun kv => KStr (fst kv)) enc2) [(KStr (u "p")); (KStr (u "t"))]) && (
(eq_keys (map (fun kv => KStr (fst kv)) dec1) [(KStr (u "p")); (KStr (u "t"))]) && (
 true ) ) ) ) ) ) ) ) | _ => false end;
match decode cpython311 (InBytes (asc "ABCD0000000000000000")) default_ascii with
 Ok (dec1, enc2) =>
(eq_obytes (option_map e_len (sget (u "t") enc2)) (asc "")) && (
(eq_obytes (option_map e_data (sget (u "t") enc2)) (asc "ABCD")) && (
(eq_ostr (sget (u "t") dec1) (u "ABCD")) && (
(eq_obytes (option_map e_len (sget (u "p") enc2)) (asc "")) && (
(eq_obytes (option_map e_data (sget (u "p") enc2)) (asc "0000000000000000")) && (
(eq_ostr (sget (u "p") dec1) (u "0000000000000000")) && (
(eq_keys (map (fun kv => KStr (fst kv)) enc2) [(KStr (u "p")); (KStr (u "t"))]) && (
(eq_keys (map (fun kv => KStr (fst kv)) dec1) [(KStr (u "p")); (KStr (u "t"))]) && (
 true ) ) ) ) ) ) ) ) | _ => false end;
let sp1 := (changed default_ascii [((u "t"), (props (Some (u "cp500")) (Some (u "ascii")) (Some (0)%Z) (Some (4)%Z) None None None (Some (u "Message Type"))))]) in
match decode cpython311 (InBytes (raw [240; 242; 241; 240; 48; 48; 48; 48; 48; 48; 48; 48; 48; 48; 48; 48; 48; 48; 48; 48]%N)) sp1 with
 Ok (dec2, enc3) =>
(eq_obytes (option_map e_len (sget (u "t") enc3)) (asc "")) && (
(eq_obytes (option_map e_data (sget (u "t") enc3)) (raw [240; 242; 241; 240]%N)) && (
(eq_ostr (sget (u "t") dec2) (u "0210")) && (
(eq_obytes (option_map e_len (sget (u "p") enc3)) (asc "")) && (
(eq_obytes (option_map e_data (sget (u "p") enc3)) (asc "0000000000000000")) && (
(eq_ostr (sget (u "p") dec2) (u "0000000000000000")) && (
(eq_keys (map (fun kv => KStr (fst kv)) enc3) [(KStr (u "p")); (KStr (u "t"))]) && (
(eq_keys (map (fun kv => KStr (fst kv)) dec2) [(KStr (u "p")); (KStr (u "t"))]) && (
 true ) ) ) ) ) ) ) ) | _ => false end ;
let sp1 := (changed default_ascii [((u "t"), (props (Some (u "b")) (Some (u "ascii")) (Some (0)%Z) (Some (4)%Z) None None None (Some (u "Message Type"))))]) in
match decode cpython311 (InBytes (raw [2; 16; 48; 48; 48; 48; 48; 48; 48; 48; 48; 48; 48; 48; 48; 48; 48; 48]%N)) sp1 with
 Ok (dec2, enc3) =>
(eq_obytes (option_map e_len (sget (u "t") enc3)) (asc "")) && (
(eq_obytes (option_map e_data (sget (u "t") enc3)) (raw [2; 16]%N)) && (
(eq_ostr (sget (u "t") dec2) (u "0210")) && (
(eq_obytes (option_map e_len (sget (u "p") enc3)) (asc "")) && (
(eq_obytes (option_map e_data (sget (u "p") enc3)) (asc "0000000000000000")) && (
(eq_ostr (sget (u "p") dec2) (u "0000000000000000")) && (
(eq_keys (map (fun kv => KStr (fst kv)) enc3) [(KStr (u "p")); (KStr (u "t"))]) && (
(eq_keys (map (fun kv => KStr (fst kv)) dec2) [(KStr (u "p")); (KStr (u "t"))]) && (
 true ) ) ) ) ) ) ) ) | _ => false end ;
let sp1 := (changed default_ascii [((u "t"), (props (Some (u "b")) (Some (u "ascii")) (Some (0)%Z) (Some (4)%Z) None None None (Some (u "Message Type"))))]) in
match decode cpython311 (InBytes (raw [171; 205; 48; 48; 48; 48; 48; 48; 48; 48; 48; 48; 48; 48; 48; 48; 48; 48]%N)) sp1 with
 Ok (dec2, enc3) =>
(eq_obytes (option_map e_len (sget (u "t") enc3)) (asc "")) && (
(eq_obytes (option_map e_data (sget (u "t") enc3)) (raw [171; 205]%N)) && (
(eq_ostr (sget (u "t") dec2) (u "ABCD")) && (
(eq_obytes (option_map e_len (sget (u "p") enc3)) (asc "")) && (
(eq_obytes (option_map e_data (sget (u "p") enc3)) (asc "0000000000000000")) && (
(eq_ostr (sget (u "p") dec2) (u "0000000000000000")) && (
(eq_keys (map (fun kv => KStr (fst kv)) enc3) [(KStr (u "p")); (KStr (u "t"))]) && (
(eq_keys (map (fun kv => KStr (fst kv)) dec2) [(KStr (u "p")); (KStr (u "t"))]) && (
 true ) ) ) ) ) ) ) ) | _ => false end ] = true.
Proof. vm_compute. reflexivity. Qed.

(** tests/test_decode.py:177. *)
Example test_type_decoding_negative : forallb (fun b => b) [
match decode cpython311 (InBytes (raw [255; 255; 255; 255; 48; 48; 48; 48; 48; 48; 48; 48; 48; 48; 48; 48; 48; 48; 48; 48]%N)) default_ascii with
 Raise (XDecodeError e1) =>
(eq_str (de_args0 e1) (u "Failed to decode field, invalid data: field t pos 0")) && (
 true ) | _ => false end;
let sp1 := (changed default_ascii [((u "t"), (props (Some (u "invalid_encoding")) (Some (u "ascii")) (Some (0)%Z) (Some (4)%Z) None None None (Some (u "Message Type"))))]) in
match decode cpython311 (InBytes (asc "02100000000000000000")) sp1 with
 Raise (XDecodeError e2) =>
(eq_str (de_args0 e2) (u "Failed to decode field, unknown encoding specified: field t pos 0")) && (
 true ) | _ => false end ;
match decode cpython311 (InBytes (asc "02")) default_ascii with
 Raise (XDecodeError e1) =>
(eq_str (de_args0 e1) (u "Field data is 2 bytes, expecting 4: field t pos 0")) && (
 true ) | _ => false end;
match decode cpython311 (InBytes (asc "")) default_ascii with
 Raise (XDecodeError e1) =>
(eq_str (de_args0 e1) (u "Field data is 0 bytes, expecting 4: field t pos 0")) && (
 true ) | _ => false end] = true.
Proof. vm_compute. reflexivity. Qed.

(** tests/test_decode.py:229. *)
Example test_primary_bitmap_ascii_mixed_case : forallb (fun b => b) [
let sp1 := (changed default_ascii [((u "5"), (props (Some (u "ascii")) (Some (u "ascii")) (Some (0)%Z) (Some (1)%Z) None None None (Some (u "Amount, Settlement")))); ((u "7"), (props (Some (u "ascii")) (Some (u "ascii")) (Some (0)%Z) (Some (1)%Z) None None None (Some (u "Transmission Date and Time")))); ((u "9"), (props (Some (u "ascii")) (Some (u "ascii")) (Some (0)%Z) (Some (1)%Z) None None None (Some (u "Conversion Rate, Settlement")))); ((u "11"), (props (Some (u "ascii")) (Some (u "ascii")) (Some (0)%Z) (Some (1)%Z) None None None (Some (u "System Trace Audit Number"))))]) in
match decode cpython311 (InBytes (asc "02000AA0000000000000ABCD")) sp1 with
 Ok (dec2, enc3) =>
(eq_ostr (sget (u "t") dec2) (u "0200")) && (
(eq_ostr (sget (u "p") dec2) (u "0AA0000000000000")) && (
(eq_ostr (sget (u "5") dec2) (u "A")) && (
(eq_ostr (sget (u "7") dec2) (u "B")) && (
(eq_ostr (sget (u "9") dec2) (u "C")) && (
(eq_ostr (sget (u "11") dec2) (u "D")) && (
(eq_obytes (option_map e_data (sget (u "t") enc3)) (asc "0200")) && (
(eq_obytes (option_map e_data (sget (u "p") enc3)) (asc "0AA0000000000000")) && (
(eq_obytes (option_map e_data (sget (u "5") enc3)) (asc "A")) && (
(eq_obytes (option_map e_data (sget (u "7") enc3)) (asc "B")) && (
(eq_obytes (option_map e_data (sget (u "9") enc3)) (asc "C")) && (
(eq_obytes (option_map e_data (sget (u "11") enc3)) (asc "D")) && (
 true ) ) ) ) ) ) ) ) ) ) ) ) | _ => false end ;
let sp1 := (changed default_ascii [((u "5"), (props (Some (u "ascii")) (Some (u "ascii")) (Some (0)%Z) (Some (1)%Z) None None None (Some (u "Amount, Settlement")))); ((u "7"), (props (Some (u "ascii")) (Some (u "ascii")) (Some (0)%Z) (Some (1)%Z) None None None (Some (u "Transmission Date and Time")))); ((u "9"), (props (Some (u "ascii")) (Some (u "ascii")) (Some (0)%Z) (Some (1)%Z) None None None (Some (u "Conversion Rate, Settlement")))); ((u "11"), (props (Some (u "ascii")) (Some (u "ascii")) (Some (0)%Z) (Some (1)%Z) None None None (Some (u "System Trace Audit Number"))))]) in
match decode cpython311 (InBytes (asc "02000Aa0000000000000ABCD")) sp1 with
 Ok (dec2, enc3) =>
(eq_ostr (sget (u "t") dec2) (u "0200")) && (
(eq_ostr (sget (u "p") dec2) (u "0Aa0000000000000")) && (
(eq_ostr (sget (u "5") dec2) (u "A")) && (
(eq_ostr (sget (u "7") dec2) (u "B")) && (
(eq_ostr (sget (u "9") dec2) (u "C")) && (
(eq_ostr (sget (u "11") dec2) (u "D")) && (
(eq_obytes (option_map e_data (sget (u "t") enc3)) (asc "0200")) && (
(eq_obytes (option_map e_data (sget (u "p") enc3)) (asc "0Aa0000000000000")) && (
(eq_obytes (option_map e_data (sget (u "5") enc3)) (asc "A")) && (
(eq_obytes (option_map e_data (sget (u "7") enc3)) (asc "B")) && (
(eq_obytes (option_map e_data (sget (u "9") enc3)) (asc "C")) && (
(eq_obytes (option_map e_data (sget (u "11") enc3)) (asc "D")) && (
 true ) ) ) ) ) ) ) ) ) ) ) ) | _ => false end ;
let sp1 := (changed default_ascii [((u "5"), (props (Some (u "ascii")) (Some (u "ascii")) (Some (0)%Z) (Some (1)%Z) None None None (Some (u "Amount, Settlement")))); ((u "7"), (props (Some (u "ascii")) (Some (u "ascii")) (Some (0)%Z) (Some (1)%Z) None None None (Some (u "Transmission Date and Time")))); ((u "9"), (props (Some (u "ascii")) (Some (u "ascii")) (Some (0)%Z) (Some (1)%Z) None None None (Some (u "Conversion Rate, Settlement")))); ((u "11"), (props (Some (u "ascii")) (Some (u "ascii")) (Some (0)%Z) (Some (1)%Z) None None None (Some (u "System Trace Audit Number"))))]) in
match decode cpython311 (InBytes (asc "02000aa0000000000000ABCD")) sp1 with
 Ok (dec2, enc3) =>
(eq_ostr (sget (u "t") dec2) (u "0200")) && (
(eq_ostr (sget (u "p") dec2) (u "0aa0000000000000")) && (
(eq_ostr (sget (u "5") dec2) (u "A")) && (
(eq_ostr (sget (u "7") dec2) (u "B")) && (
(eq_ostr (sget (u "9") dec2) (u "C")) && (
(eq_ostr (sget (u "11") dec2) (u "D")) && (
(eq_obytes (option_map e_data (sget (u "t") enc3)) (asc "0200")) && (
(eq_obytes (option_map e_data (sget (u "p") enc3)) (asc "0aa0000000000000")) && (
(eq_obytes (option_map e_data (sget (u "5") enc3)) (asc "A")) && (
(eq_obytes (option_map e_data (sget (u "7") enc3)) (asc "B")) && (
(eq_obytes (option_map e_data (sget (u "9") enc3)) (asc "C")) && (
(eq_obytes (option_map e_data (sget (u "11") enc3)) (asc "D")) && (
 true ) ) ) ) ) ) ) ) ) ) ) ) | _ => false end ] = true.
Proof. vm_compute. reflexivity. Qed.

(** tests/test_decode.py:280. *)
Example test_primary_bitmap_decoding : forallb (fun b => b) [
let sp1 := (changed default_ascii [((u "h"), (props (Some (u "ascii")) (Some (u "ascii")) (Some (0)%Z) (Some (6)%Z) None None None (Some (u "Message Header")))); ((u "2"), (props (Some (u "ascii")) (Some (u "ascii")) (Some (0)%Z) (Some (4)%Z) None None None None)); ((u "3"), (props (Some (u "ascii")) (Some (u "ascii")) (Some (0)%Z) (Some (4)%Z) None None None None)); ((u "4"), (props (Some (u "ascii")) (Some (u "ascii")) (Some (0)%Z) (Some (4)%Z) None None None None)); ((u "12"), (props (Some (u "ascii")) (Some (u "ascii")) (Some (0)%Z) (Some (4)%Z) None None None None)); ((u "28"), (props (Some (u "ascii")) (Some (u "ascii")) (Some (0)%Z) (Some (4)%Z) None None None None)); ((u "32"), (props (Some (u "ascii")) (Some (u "ascii")) (Some (0)%Z) (Some (4)%Z) None None None None)); ((u "39"), (props (Some (u "ascii")) (Some (u "ascii")) (Some (0)%Z) (Some (4)%Z) None None None None)); ((u "41"), (props (Some (u "ascii")) (Some (u "ascii")) (Some (0)%Z) (Some (4)%Z) None None None None)); ((u "42"), (props (Some (u "ascii")) (Some (u "ascii")) (Some (0)%Z) (Some (4)%Z) None None None None)); ((u "50"), (props (Some (u "ascii")) (Some (u "ascii")) (Some (0)%Z) (Some (4)%Z) None None None None)); ((u "53"), (props (Some (u "ascii")) (Some (u "ascii")) (Some (0)%Z) (Some (4)%Z) None None None None)); ((u "62"), (props (Some (u "ascii")) (Some (u "ascii")) (Some (0)%Z) (Some (4)%Z) None None None None))]) in
match decode cpython311 (InBytearray (asc "header02107010001102C04804000200030004001200280032003900410042005000530062")) sp1 with
 Ok (dec2, enc3) =>
(eq_keys (xor (map (fun kv => KStr (fst kv)) enc3) [(KStr (u "12")); (KStr (u "2")); (KStr (u "28")); (KStr (u "3")); (KStr (u "32")); (KStr (u "39")); (KStr (u "4")); (KStr (u "41")); (KStr (u "42")); (KStr (u "50")); (KStr (u "53")); (KStr (u "62"))]) [(KStr (u "h")); (KStr (u "p")); (KStr (u "t"))]) && (
(eq_keys (xor (map (fun kv => KStr (fst kv)) dec2) [(KStr (u "12")); (KStr (u "2")); (KStr (u "28")); (KStr (u "3")); (KStr (u "32")); (KStr (u "39")); (KStr (u "4")); (KStr (u "41")); (KStr (u "42")); (KStr (u "50")); (KStr (u "53")); (KStr (u "62"))]) [(KStr (u "h")); (KStr (u "p")); (KStr (u "t"))]) && (
 true ) ) | _ => false end ;
let sp1 := (changed default_ascii [((u "h"), (props (Some (u "ascii")) (Some (u "ascii")) (Some (0)%Z) (Some (6)%Z) None None None (Some (u "Message Header")))); ((u "p"), (props (Some (u "cp500")) (Some (u "ascii")) (Some (0)%Z) (Some (16)%Z) None None None (Some (u "Bitmap, Primary")))); ((u "2"), (props (Some (u "ascii")) (Some (u "ascii")) (Some (0)%Z) (Some (4)%Z) None None None None)); ((u "3"), (props (Some (u "ascii")) (Some (u "ascii")) (Some (0)%Z) (Some (4)%Z) None None None None)); ((u "4"), (props (Some (u "ascii")) (Some (u "ascii")) (Some (0)%Z) (Some (4)%Z) None None None None)); ((u "12"), (props (Some (u "ascii")) (Some (u "ascii")) (Some (0)%Z) (Some (4)%Z) None None None None)); ((u "28"), (props (Some (u "ascii")) (Some (u "ascii")) (Some (0)%Z) (Some (4)%Z) None None None None)); ((u "32"), (props (Some (u "ascii")) (Some (u "ascii")) (Some (0)%Z) (Some (4)%Z) None None None None)); ((u "39"), (props (Some (u "ascii")) (Some (u "ascii")) (Some (0)%Z) (Some (4)%Z) None None None None)); ((u "41"), (props (Some (u "ascii")) (Some (u "ascii")) (Some (0)%Z) (Some (4)%Z) None None None None)); ((u "42"), (props (Some (u "ascii")) (Some (u "ascii")) (Some (0)%Z) (Some (4)%Z) None None None None)); ((u "50"), (props (Some (u "ascii")) (Some (u "ascii")) (Some (0)%Z) (Some (4)%Z) None None None None)); ((u "53"), (props (Some (u "ascii")) (Some (u "ascii")) (Some (0)%Z) (Some (4)%Z) None None None None)); ((u "62"), (props (Some (u "ascii")) (Some (u "ascii")) (Some (0)%Z) (Some (4)%Z) None None None None))]) in
match decode cpython311 (InBytearray (raw [104; 101; 97; 100; 101; 114; 48; 50; 49; 48; 247; 240; 241; 240; 240; 240; 241; 241; 240; 242; 195; 240; 244; 248; 240; 244; 48; 48; 48; 50; 48; 48; 48; 51; 48; 48; 48; 52; 48; 48; 49; 50; 48; 48; 50; 56; 48; 48; 51; 50; 48; 48; 51; 57; 48; 48; 52; 49; 48; 48; 52; 50; 48; 48; 53; 48; 48; 48; 53; 51; 48; 48; 54; 50]%N)) sp1 with
 Ok (dec2, enc3) =>
(eq_keys (xor (map (fun kv => KStr (fst kv)) enc3) [(KStr (u "12")); (KStr (u "2")); (KStr (u "28")); (KStr (u "3")); (KStr (u "32")); (KStr (u "39")); (KStr (u "4")); (KStr (u "41")); (KStr (u "42")); (KStr (u "50")); (KStr (u "53")); (KStr (u "62"))]) [(KStr (u "h")); (KStr (u "p")); (KStr (u "t"))]) && (
(eq_keys (xor (map (fun kv => KStr (fst kv)) dec2) [(KStr (u "12")); (KStr (u "2")); (KStr (u "28")); (KStr (u "3")); (KStr (u "32")); (KStr (u "39")); (KStr (u "4")); (KStr (u "41")); (KStr (u "42")); (KStr (u "50")); (KStr (u "53")); (KStr (u "62"))]) [(KStr (u "h")); (KStr (u "p")); (KStr (u "t"))]) && (
 true ) ) | _ => false end ;
let sp1 := (changed default_ascii [((u "h"), (props (Some (u "ascii")) (Some (u "ascii")) (Some (0)%Z) (Some (6)%Z) None None None (Some (u "Message Header")))); ((u "p"), (props (Some (u "b")) (Some (u "ascii")) (Some (0)%Z) (Some (16)%Z) None None None (Some (u "Bitmap, Primary")))); ((u "2"), (props (Some (u "ascii")) (Some (u "ascii")) (Some (0)%Z) (Some (4)%Z) None None None None)); ((u "3"), (props (Some (u "ascii")) (Some (u "ascii")) (Some (0)%Z) (Some (4)%Z) None None None None)); ((u "4"), (props (Some (u "ascii")) (Some (u "ascii")) (Some (0)%Z) (Some (4)%Z) None None None None)); ((u "12"), (props (Some (u "ascii")) (Some (u "ascii")) (Some (0)%Z) (Some (4)%Z) None None None None)); ((u "28"), (props (Some (u "ascii")) (Some (u "ascii")) (Some (0)%Z) (Some (4)%Z) None None None None)); ((u "32"), (props (Some (u "ascii")) (Some (u "ascii")) (Some (0)%Z) (Some (4)%Z) None None None None)); ((u "39"), (props (Some (u "ascii")) (Some (u "ascii")) (Some (0)%Z) (Some (4)%Z) None None None None)); ((u "41"), (props (Some (u "ascii")) (Some (u "ascii")) (Some (0)%Z) (Some (4)%Z) None None None None)); ((u "42"), (props (Some (u "ascii")) (Some (u "ascii")) (Some (0)%Z) (Some (4)%Z) None None None None)); ((u "50"), (props (Some (u "ascii")) (Some (u "ascii")) (Some (0)%Z) (Some (4)%Z) None None None None)); ((u "53"), (props (Some (u "ascii")) (Some (u "ascii")) (Some (0)%Z) (Some (4)%Z) None None None None)); ((u "62"), (props (Some (u "ascii")) (Some (u "ascii")) (Some (0)%Z) (Some (4)%Z) None None None None))]) in
match decode cpython311 (InBytearray (raw [104; 101; 97; 100; 101; 114; 48; 50; 49; 48; 112; 16; 0; 17; 2; 192; 72; 4; 48; 48; 48; 50; 48; 48; 48; 51; 48; 48; 48; 52; 48; 48; 49; 50; 48; 48; 50; 56; 48; 48; 51; 50; 48; 48; 51; 57; 48; 48; 52; 49; 48; 48; 52; 50; 48; 48; 53; 48; 48; 48; 53; 51; 48; 48; 54; 50]%N)) sp1 with
 Ok (dec2, enc3) =>
(eq_keys (xor (map (fun kv => KStr (fst kv)) enc3) [(KStr (u "12")); (KStr (u "2")); (KStr (u "28")); (KStr (u "3")); (KStr (u "32")); (KStr (u "39")); (KStr (u "4")); (KStr (u "41")); (KStr (u "42")); (KStr (u "50")); (KStr (u "53")); (KStr (u "62"))]) [(KStr (u "h")); (KStr (u "p")); (KStr (u "t"))]) && (
(eq_keys (xor (map (fun kv => KStr (fst kv)) dec2) [(KStr (u "12")); (KStr (u "2")); (KStr (u "28")); (KStr (u "3")); (KStr (u "32")); (KStr (u "39")); (KStr (u "4")); (KStr (u "41")); (KStr (u "42")); (KStr (u "50")); (KStr (u "53")); (KStr (u "62"))]) [(KStr (u "h")); (KStr (u "p")); (KStr (u "t"))]) && (
 true ) ) | _ => false end ] = true.
Proof. vm_compute. reflexivity. Qed.

(** tests/test_decode.py:318. *)
Example test_primary_bitmap_decoding_negative : forallb (fun b => b) [
match decode cpython311 (InBytes (asc "02100000000000000000extra")) default_ascii with
 Raise (XDecodeError e1) =>
(eq_str (de_args0 e1) (u "Extra data after last field: field p pos 20")) && (
 true ) | _ => false end;
match decode cpython311 (InBytes (asc "0210incorrecthexdata")) default_ascii with
 Raise (XDecodeError e1) =>
(eq_str (de_args0 e1) (u "Failed to decode field, non-hex data: field p pos 4")) && (
 true ) | _ => false end;
match decode cpython311 (InBytes (raw [48; 50; 49; 48; 255; 48; 48; 48; 48; 48; 48; 48; 48; 48; 48; 48; 48; 48; 48; 48]%N)) default_ascii with
 Raise (XDecodeError e1) =>
(eq_str (de_args0 e1) (u "Failed to decode field, invalid data: field p pos 4")) && (
 true ) | _ => false end;
let sp1 := (changed default_ascii [((u "p"), (props (Some (u "invalid_encoding")) (Some (u "ascii")) (Some (0)%Z) (Some (16)%Z) None None None (Some (u "Bitmap, Primary"))))]) in
match decode cpython311 (InBytes (asc "02100000000000000000")) sp1 with
 Raise (XDecodeError e2) =>
(eq_str (de_args0 e2) (u "Failed to decode field, unknown encoding specified: field p pos 4")) && (
 true ) | _ => false end ;
match decode cpython311 (InBytes (asc "02100000")) default_ascii with
 Raise (XDecodeError e1) =>
(eq_str (de_args0 e1) (u "Field data is 4 bytes, expecting 16: field p pos 4")) && (
 true ) | _ => false end;
match decode cpython311 (InBytes (asc "0210")) default_ascii with
 Raise (XDecodeError e1) =>
(eq_str (de_args0 e1) (u "Field data is 0 bytes, expecting 16: field p pos 4")) && (
 true ) | _ => false end] = true.
Proof. vm_compute. reflexivity. Qed.

(** tests/test_decode.py:343. *)
Example test_secondary_bitmap_ascii_mixed_case : forallb (fun b => b) [
let sp1 := (changed default_ascii [((u "69"), (props (Some (u "ascii")) (Some (u "ascii")) (Some (0)%Z) (Some (1)%Z) None None None (Some (u "Settlement Institution Country Code")))); ((u "71"), (props (Some (u "ascii")) (Some (u "ascii")) (Some (0)%Z) (Some (1)%Z) None None None (Some (u "Message Number")))); ((u "73"), (props (Some (u "ascii")) (Some (u "ascii")) (Some (0)%Z) (Some (1)%Z) None None None (Some (u "Date, Action")))); ((u "75"), (props (Some (u "ascii")) (Some (u "ascii")) (Some (0)%Z) (Some (1)%Z) None None None (Some (u "Credits, Reversal Number"))))]) in
match decode cpython311 (InBytes (asc "020080000000000000000AA0000000000000ABCD")) sp1 with
 Ok (dec2, enc3) =>
(eq_ostr (sget (u "t") dec2) (u "0200")) && (
(eq_ostr (sget (u "p") dec2) (u "8000000000000000")) && (
(eq_ostr (sget (u "1") dec2) (u "0AA0000000000000")) && (
(eq_ostr (sget (u "69") dec2) (u "A")) && (
(eq_ostr (sget (u "71") dec2) (u "B")) && (
(eq_ostr (sget (u "73") dec2) (u "C")) && (
(eq_ostr (sget (u "75") dec2) (u "D")) && (
(eq_obytes (option_map e_data (sget (u "t") enc3)) (asc "0200")) && (
(eq_obytes (option_map e_data (sget (u "p") enc3)) (asc "8000000000000000")) && (
(eq_obytes (option_map e_data (sget (u "1") enc3)) (asc "0AA0000000000000")) && (
(eq_obytes (option_map e_data (sget (u "69") enc3)) (asc "A")) && (
(eq_obytes (option_map e_data (sget (u "71") enc3)) (asc "B")) && (
(eq_obytes (option_map e_data (sget (u "73") enc3)) (asc "C")) && (
(eq_obytes (option_map e_data (sget (u "75") enc3)) (asc "D")) && (
 true ) ) ) ) ) ) ) ) ) ) ) ) ) ) | _ => false end ;
let sp1 := (changed default_ascii [((u "69"), (props (Some (u "ascii")) (Some (u "ascii")) (Some (0)%Z) (Some (1)%Z) None None None (Some (u "Settlement Institution Country Code")))); ((u "71"), (props (Some (u "ascii")) (Some (u "ascii")) (Some (0)%Z) (Some (1)%Z) None None None (Some (u "Message Number")))); ((u "73"), (props (Some (u "ascii")) (Some (u "ascii")) (Some (0)%Z) (Some (1)%Z) None None None (Some (u "Date, Action")))); ((u "75"), (props (Some (u "ascii")) (Some (u "ascii")) (Some (0)%Z) (Some (1)%Z) None None None (Some (u "Credits, Reversal Number"))))]) in
match decode cpython311 (InBytes (asc "020080000000000000000Aa0000000000000ABCD")) sp1 with
 Ok (dec2, enc3) =>
(eq_ostr (sget (u "t") dec2) (u "0200")) && (
(eq_ostr (sget (u "p") dec2) (u "8000000000000000")) && (
(eq_ostr (sget (u "1") dec2) (u "0Aa0000000000000")) && (
(eq_ostr (sget (u "69") dec2) (u "A")) && (
(eq_ostr (sget (u "71") dec2) (u "B")) && (
(eq_ostr (sget (u "73") dec2) (u "C")) && (
(eq_ostr (sget (u "75") dec2) (u "D")) && (
(eq_obytes (option_map e_data (sget (u "t") enc3)) (asc "0200")) && (
(eq_obytes (option_map e_data (sget (u "p") enc3)) (asc "8000000000000000")) && (
(eq_obytes (option_map e_data (sget (u "1") enc3)) (asc "0Aa0000000000000")) && (
(eq_obytes (option_map e_data (sget (u "69") enc3)) (asc "A")) && (
(eq_obytes (option_map e_data (sget (u "71") enc3)) (asc "B")) && (
(eq_obytes (option_map e_data (sget (u "73") enc3)) (asc "C")) && (
(eq_obytes (option_map e_data (sget (u "75") enc3)) (asc "D")) && (
 true ) ) ) ) ) ) ) ) ) ) ) ) ) ) | _ => false end ;
let sp1 := (changed default_ascii [((u "69"), (props (Some (u "ascii")) (Some (u "ascii")) (Some (0)%Z) (Some (1)%Z) None None None (Some (u "Settlement Institution Country Code")))); ((u "71"), (props (Some (u "ascii")) (Some (u "ascii")) (Some (0)%Z) (Some (1)%Z) None None None (Some (u "Message Number")))); ((u "73"), (props (Some (u "ascii")) (Some (u "ascii")) (Some (0)%Z) (Some (1)%Z) None None None (Some (u "Date, Action")))); ((u "75"), (props (Some (u "ascii")) (Some (u "ascii")) (Some (0)%Z) (Some (1)%Z) None None None (Some (u "Credits, Reversal Number"))))]) in
match decode cpython311 (InBytes (asc "020080000000000000000aa0000000000000ABCD")) sp1 with
 Ok (dec2, enc3) =>
(eq_ostr (sget (u "t") dec2) (u "0200")) && (
(eq_ostr (sget (u "p") dec2) (u "8000000000000000")) && (
(eq_ostr (sget (u "1") dec2) (u "0aa0000000000000")) && (
(eq_ostr (sget (u "69") dec2) (u "A")) && (
(eq_ostr (sget (u "71") dec2) (u "B")) && (
(eq_ostr (sget (u "73") dec2) (u "C")) && (
(eq_ostr (sget (u "75") dec2) (u "D")) && (
(eq_obytes (option_map e_data (sget (u "t") enc3)) (asc "0200")) && (
(eq_obytes (option_map e_data (sget (u "p") enc3)) (asc "8000000000000000")) && (
(eq_obytes (option_map e_data (sget (u "1") enc3)) (asc "0aa0000000000000")) && (
(eq_obytes (option_map e_data (sget (u "69") enc3)) (asc "A")) && (
(eq_obytes (option_map e_data (sget (u "71") enc3)) (asc "B")) && (
(eq_obytes (option_map e_data (sget (u "73") enc3)) (asc "C")) && (
(eq_obytes (option_map e_data (sget (u "75") enc3)) (asc "D")) && (
 true ) ) ) ) ) ) ) ) ) ) ) ) ) ) | _ => false end ] = true.
Proof. vm_compute. reflexivity. Qed.

(** tests/test_decode.py:397. *)
Example test_secondary_bitmap_decoding : forallb (fun b => b) [
let sp1 := (changed default_ascii [((u "2"), (props (Some (u "ascii")) (Some (u "ascii")) (Some (0)%Z) (Some (4)%Z) None None None None)); ((u "3"), (props (Some (u "ascii")) (Some (u "ascii")) (Some (0)%Z) (Some (4)%Z) None None None None)); ((u "4"), (props (Some (u "ascii")) (Some (u "ascii")) (Some (0)%Z) (Some (4)%Z) None None None None)); ((u "12"), (props (Some (u "ascii")) (Some (u "ascii")) (Some (0)%Z) (Some (4)%Z) None None None None)); ((u "28"), (props (Some (u "ascii")) (Some (u "ascii")) (Some (0)%Z) (Some (4)%Z) None None None None)); ((u "32"), (props (Some (u "ascii")) (Some (u "ascii")) (Some (0)%Z) (Some (4)%Z) None None None None)); ((u "39"), (props (Some (u "ascii")) (Some (u "ascii")) (Some (0)%Z) (Some (4)%Z) None None None None)); ((u "41"), (props (Some (u "ascii")) (Some (u "ascii")) (Some (0)%Z) (Some (4)%Z) None None None None)); ((u "42"), (props (Some (u "ascii")) (Some (u "ascii")) (Some (0)%Z) (Some (4)%Z) None None None None)); ((u "50"), (props (Some (u "ascii")) (Some (u "ascii")) (Some (0)%Z) (Some (4)%Z) None None None None)); ((u "53"), (props (Some (u "ascii")) (Some (u "ascii")) (Some (0)%Z) (Some (4)%Z) None None None None)); ((u "62"), (props (Some (u "ascii")) (Some (u "ascii")) (Some (0)%Z) (Some (4)%Z) None None None None)); ((u "66"), (props (Some (u "ascii")) (Some (u "ascii")) (Some (0)%Z) (Some (4)%Z) None None None None)); ((u "67"), (props (Some (u "ascii")) (Some (u "ascii")) (Some (0)%Z) (Some (4)%Z) None None None None)); ((u "68"), (props (Some (u "ascii")) (Some (u "ascii")) (Some (0)%Z) (Some (4)%Z) None None None None)); ((u "76"), (props (Some (u "ascii")) (Some (u "ascii")) (Some (0)%Z) (Some (4)%Z) None None None None)); ((u "92"), (props (Some (u "ascii")) (Some (u "ascii")) (Some (0)%Z) (Some (4)%Z) None None None None)); ((u "96"), (props (Some (u "ascii")) (Some (u "ascii")) (Some (0)%Z) (Some (4)%Z) None None None None)); ((u "103"), (props (Some (u "ascii")) (Some (u "ascii")) (Some (0)%Z) (Some (4)%Z) None None None None)); ((u "105"), (props (Some (u "ascii")) (Some (u "ascii")) (Some (0)%Z) (Some (4)%Z) None None None None)); ((u "106"), (props (Some (u "ascii")) (Some (u "ascii")) (Some (0)%Z) (Some (4)%Z) None None None None)); ((u "114"), (props (Some (u "ascii")) (Some (u "ascii")) (Some (0)%Z) (Some (4)%Z) None None None None)); ((u "117"), (props (Some (u "ascii")) (Some (u "ascii")) (Some (0)%Z) (Some (4)%Z) None None None None)); ((u "126"), (props (Some (u "ascii")) (Some (u "ascii")) (Some (0)%Z) (Some (4)%Z) None None None None))]) in
match decode cpython311 (InBytearray (asc "0210F010001102C048047010001102C04804000200030004001200280032003900410042005000530062006600670068007600920096010301050106011401170126")) sp1 with
 Ok (dec2, enc3) =>
(eq_keys (xor (map (fun kv => KStr (fst kv)) enc3) [(KStr (u "103")); (KStr (u "105")); (KStr (u "106")); (KStr (u "114")); (KStr (u "117")); (KStr (u "12")); (KStr (u "126")); (KStr (u "2")); (KStr (u "28")); (KStr (u "3")); (KStr (u "32")); (KStr (u "39")); (KStr (u "4")); (KStr (u "41")); (KStr (u "42")); (KStr (u "50")); (KStr (u "53")); (KStr (u "62")); (KStr (u "66")); (KStr (u "67")); (KStr (u "68")); (KStr (u "76")); (KStr (u "92")); (KStr (u "96"))]) [(KStr (u "1")); (KStr (u "p")); (KStr (u "t"))]) && (
(eq_keys (xor (map (fun kv => KStr (fst kv)) dec2) [(KStr (u "103")); (KStr (u "105")); (KStr (u "106")); (KStr (u "114")); (KStr (u "117")); (KStr (u "12")); (KStr (u "126")); (KStr (u "2")); (KStr (u "28")); (KStr (u "3")); (KStr (u "32")); (KStr (u "39")); (KStr (u "4")); (KStr (u "41")); (KStr (u "42")); (KStr (u "50")); (KStr (u "53")); (KStr (u "62")); (KStr (u "66")); (KStr (u "67")); (KStr (u "68")); (KStr (u "76")); (KStr (u "92")); (KStr (u "96"))]) [(KStr (u "1")); (KStr (u "p")); (KStr (u "t"))]) && (
 true ) ) | _ => false end ;
let sp1 := (changed default_ascii [((u "1"), (props (Some (u "cp500")) (Some (u "ascii")) (Some (0)%Z) (Some (16)%Z) None None None (Some (u "Bitmap, Secondary")))); ((u "2"), (props (Some (u "ascii")) (Some (u "ascii")) (Some (0)%Z) (Some (4)%Z) None None None None)); ((u "3"), (props (Some (u "ascii")) (Some (u "ascii")) (Some (0)%Z) (Some (4)%Z) None None None None)); ((u "4"), (props (Some (u "ascii")) (Some (u "ascii")) (Some (0)%Z) (Some (4)%Z) None None None None)); ((u "12"), (props (Some (u "ascii")) (Some (u "ascii")) (Some (0)%Z) (Some (4)%Z) None None None None)); ((u "28"), (props (Some (u "ascii")) (Some (u "ascii")) (Some (0)%Z) (Some (4)%Z) None None None None)); ((u "32"), (props (Some (u "ascii")) (Some (u "ascii")) (Some (0)%Z) (Some (4)%Z) None None None None)); ((u "39"), (props (Some (u "ascii")) (Some (u "ascii")) (Some (0)%Z) (Some (4)%Z) None None None None)); ((u "41"), (props (Some (u "ascii")) (Some (u "ascii")) (Some (0)%Z) (Some (4)%Z) None None None None)); ((u "42"), (props (Some (u "ascii")) (Some (u "ascii")) (Some (0)%Z) (Some (4)%Z) None None None None)); ((u "50"), (props (Some (u "ascii")) (Some (u "ascii")) (Some (0)%Z) (Some (4)%Z) None None None None)); ((u "53"), (props (Some (u "ascii")) (Some (u "ascii")) (Some (0)%Z) (Some (4)%Z) None None None None)); ((u "62"), (props (Some (u "ascii")) (Some (u "ascii")) (Some (0)%Z) (Some (4)%Z) None None None None)); ((u "66"), (props (Some (u "ascii")) (Some (u "ascii")) (Some (0)%Z) (Some (4)%Z) None None None None)); ((u "67"), (props (Some (u "ascii")) (Some (u "ascii")) (Some (0)%Z) (Some (4)%Z) None None None None)); ((u "68"), (props (Some (u "ascii")) (Some (u "ascii")) (Some (0)%Z) (Some (4)%Z) None None None None)); ((u "76"), (props (Some (u "ascii")) (Some (u "ascii")) (Some (0)%Z) (Some (4)%Z) None None None None)); ((u "92"), (props (Some (u "ascii")) (Some (u "ascii")) (Some (0)%Z) (Some (4)%Z) None None None None)); ((u "96"), (props (Some (u "ascii")) (Some (u "ascii")) (Some (0)%Z) (Some (4)%Z) None None None None)); ((u "103"), (props (Some (u "ascii")) (Some (u "ascii")) (Some (0)%Z) (Some (4)%Z) None None None None)); ((u "105"), (props (Some (u "ascii")) (Some (u "ascii")) (Some (0)%Z) (Some (4)%Z) None None None None)); ((u "106"), (props (Some (u "ascii")) (Some (u "ascii")) (Some (0)%Z) (Some (4)%Z) None None None None)); ((u "114"), (props (Some (u "ascii")) (Some (u "ascii")) (Some (0)%Z) (Some (4)%Z) None None None None)); ((u "117"), (props (Some (u "ascii")) (Some (u "ascii")) (Some (0)%Z) (Some (4)%Z) None None None None)); ((u "126"), (props (Some (u "ascii")) (Some (u "ascii")) (Some (0)%Z) (Some (4)%Z) None None None None))]) in
match decode cpython311 (InBytearray (raw [48; 50; 49; 48; 70; 48; 49; 48; 48; 48; 49; 49; 48; 50; 67; 48; 52; 56; 48; 52; 247; 240; 241; 240; 240; 240; 241; 241; 240; 242; 195; 240; 244; 248; 240; 244; 48; 48; 48; 50; 48; 48; 48; 51; 48; 48; 48; 52; 48; 48; 49; 50; 48; 48; 50; 56; 48; 48; 51; 50; 48; 48; 51; 57; 48; 48; 52; 49; 48; 48; 52; 50; 48; 48; 53; 48; 48; 48; 53; 51; 48; 48; 54; 50; 48; 48; 54; 54; 48; 48; 54; 55; 48; 48; 54; 56; 48; 48; 55; 54; 48; 48; 57; 50; 48; 48; 57; 54; 48; 49; 48; 51; 48; 49; 48; 53; 48; 49; 48; 54; 48; 49; 49; 52; 48; 49; 49; 55; 48; 49; 50; 54]%N)) sp1 with
 Ok (dec2, enc3) =>
(eq_keys (xor (map (fun kv => KStr (fst kv)) enc3) [(KStr (u "103")); (KStr (u "105")); (KStr (u "106")); (KStr (u "114")); (KStr (u "117")); (KStr (u "12")); (KStr (u "126")); (KStr (u "2")); (KStr (u "28")); (KStr (u "3")); (KStr (u "32")); (KStr (u "39")); (KStr (u "4")); (KStr (u "41")); (KStr (u "42")); (KStr (u "50")); (KStr (u "53")); (KStr (u "62")); (KStr (u "66")); (KStr (u "67")); (KStr (u "68")); (KStr (u "76")); (KStr (u "92")); (KStr (u "96"))]) [(KStr (u "1")); (KStr (u "p")); (KStr (u "t"))]) && (
(eq_keys (xor (map (fun kv => KStr (fst kv)) dec2) [(KStr (u "103")); (KStr (u "105")); (KStr (u "106")); (KStr (u "114")); (KStr (u "117")); (KStr (u "12")); (KStr (u "126")); (KStr (u "2")); (KStr (u "28")); (KStr (u "3")); (KStr (u "32")); (KStr (u "39")); (KStr (u "4")); (KStr (u "41")); (KStr (u "42")); (KStr (u "50")); (KStr (u "53")); (KStr (u "62")); (KStr (u "66")); (KStr (u "67")); (KStr (u "68")); (KStr (u "76")); (KStr (u "92")); (KStr (u "96"))]) [(KStr (u "1")); (KStr (u "p")); (KStr (u "t"))]) && (
 true ) ) | _ => false end ;
let sp1 := (changed default_ascii [((u "1"), (props (Some (u "b")) (Some (u "ascii")) (Some (0)%Z) (Some (16)%Z) None None None (Some (u "Bitmap, Secondary")))); ((u "2"), (props (Some (u "ascii")) (Some (u "ascii")) (Some (0)%Z) (Some (4)%Z) None None None None)); ((u "3"), (props (Some (u "ascii")) (Some (u "ascii")) (Some (0)%Z) (Some (4)%Z) None None None None)); ((u "4"), (props (Some (u "ascii")) (Some (u "ascii")) (Some (0)%Z) (Some (4)%Z) None None None None)); ((u "12"), (props (Some (u "ascii")) (Some (u "ascii")) (Some (0)%Z) (Some (4)%Z) None None None None)); ((u "28"), (props (Some (u "ascii")) (Some (u "ascii")) (Some (0)%Z) (Some (4)%Z) None None None None)); ((u "32"), (props (Some (u "ascii")) (Some (u "ascii")) (Some (0)%Z) (Some (4)%Z) None None None None)); ((u "39"), (props (Some (u "ascii")) (Some (u "ascii")) (Some (0)%Z) (Some (4)%Z) None None None None)); ((u "41"), (props (Some (u "ascii")) (Some (u "ascii")) (Some (0)%Z) (Some (4)%Z) None None None None)); ((u "42"), (props (Some (u "ascii")) (Some (u "ascii")) (Some (0)%Z) (Some (4)%Z) None None None None)); ((u "50"), (props (Some (u "ascii")) (Some (u "ascii")) (Some (0)%Z) (Some (4)%Z) None None None None)); ((u "53"), (props (Some (u "ascii")) (Some (u "ascii")) (Some (0)%Z) (Some (4)%Z) None None None None)); ((u "62"), (props (Some (u "ascii")) (Some (u "ascii")) (Some (0)%Z) (Some (4)%Z) None None None None)); ((u "66"), (props (Some (u "ascii")) (Some (u "ascii")) (Some (0)%Z) (Some (4)%Z) None None None None)); ((u "67"), (props (Some (u "ascii")) (Some (u "ascii")) (Some (0)%Z) (Some (4)%Z) None None None None)); ((u "68"), (props (Some (u "ascii")) (Some (u "ascii")) (Some (0)%Z) (Some (4)%Z) None None None None)); ((u "76"), (props (Some (u "ascii")) (Some (u "ascii")) (Some (0)%Z) (Some (4)%Z) None None None None)); ((u "92"), (props (Some (u "ascii")) (Some (u "ascii")) (Some (0)%Z) (Some (4)%Z) None None None None)); ((u "96"), (props (Some (u "ascii")) (Some (u "ascii")) (Some (0)%Z) (Some (4)%Z) None None None None)); ((u "103"), (props (Some (u "ascii")) (Some (u "ascii")) (Some (0)%Z) (Some (4)%Z) None None None None)); ((u "105"), (props (Some (u "ascii")) (Some (u "ascii")) (Some (0)%Z) (Some (4)%Z) None None None None)); ((u "106"), (props (Some (u "ascii")) (Some (u "ascii")) (Some (0)%Z) (Some (4)%Z) None None None None)); ((u "114"), (props (Some (u "ascii")) (Some (u "ascii")) (Some (0)%Z) (Some (4)%Z) None None None None)); ((u "117"), (props (Some (u "ascii")) (Some (u "ascii")) (Some (0)%Z) (Some (4)%Z) None None None None)); ((u "126"), (props (Some (u "ascii")) (Some (u "ascii")) (Some (0)%Z) (Some (4)%Z) None None None None))]) in
match decode cpython311 (InBytearray (raw [48; 50; 49; 48; 70; 48; 49; 48; 48; 48; 49; 49; 48; 50; 67; 48; 52; 56; 48; 52; 112; 16; 0; 17; 2; 192; 72; 4; 48; 48; 48; 50; 48; 48; 48; 51; 48; 48; 48; 52; 48; 48; 49; 50; 48; 48; 50; 56; 48; 48; 51; 50; 48; 48; 51; 57; 48; 48; 52; 49; 48; 48; 52; 50; 48; 48; 53; 48; 48; 48; 53; 51; 48; 48; 54; 50; 48; 48; 54; 54; 48; 48; 54; 55; 48; 48; 54; 56; 48; 48; 55; 54; 48; 48; 57; 50; 48; 48; 57; 54; 48; 49; 48; 51; 48; 49; 48; 53; 48; 49; 48; 54; 48; 49; 49; 52; 48; 49; 49; 55; 48; 49; 50; 54]%N)) sp1 with
 Ok (dec2, enc3) =>
(eq_keys (xor (map (fun kv => KStr (fst kv)) enc3) [(KStr (u "103")); (KStr (u "105")); (KStr (u "106")); (KStr (u "114")); (KStr (u "117")); (KStr (u "12")); (KStr (u "126")); (KStr (u "2")); (KStr (u "28")); (KStr (u "3")); (KStr (u "32")); (KStr (u "39")); (KStr (u "4")); (KStr (u "41")); (KStr (u "42")); (KStr (u "50")); (KStr (u "53")); (KStr (u "62")); (KStr (u "66")); (KStr (u "67")); (KStr (u "68")); (KStr (u "76")); (KStr (u "92")); (KStr (u "96"))]) [(KStr (u "1")); (KStr (u "p")); (KStr (u "t"))]) && (
(eq_keys (xor (map (fun kv => KStr (fst kv)) dec2) [(KStr (u "103")); (KStr (u "105")); (KStr (u "106")); (KStr (u "114")); (KStr (u "117")); (KStr (u "12")); (KStr (u "126")); (KStr (u "2")); (KStr (u "28")); (KStr (u "3")); (KStr (u "32")); (KStr (u "39")); (KStr (u "4")); (KStr (u "41")); (KStr (u "42")); (KStr (u "50")); (KStr (u "53")); (KStr (u "62")); (KStr (u "66")); (KStr (u "67")); (KStr (u "68")); (KStr (u "76")); (KStr (u "92")); (KStr (u "96"))]) [(KStr (u "1")); (KStr (u "p")); (KStr (u "t"))]) && (
 true ) ) | _ => false end ] = true.
Proof. vm_compute. reflexivity. Qed.

(** tests/test_decode.py:438. *)
Example test_secondary_bitmap_decoding_negative : forallb (fun b => b) [
match decode cpython311 (InBytes (asc "021080000000000000000000000000000000extra")) default_ascii with
 Raise (XDecodeError e1) =>
(eq_str (de_args0 e1) (u "Extra data after last field: field 1 pos 36")) && (
 true ) | _ => false end;
match decode cpython311 (InBytes (asc "02108000000000000000incorrecthexdata")) default_ascii with
 Raise (XDecodeError e1) =>
(eq_str (de_args0 e1) (u "Failed to decode field, non-hex data: field 1 pos 20")) && (
 true ) | _ => false end;
match decode cpython311 (InBytes (raw [48; 50; 49; 48; 56; 48; 48; 48; 48; 48; 48; 48; 48; 48; 48; 48; 48; 48; 48; 48; 255; 48; 48; 48; 48; 48; 48; 48; 48; 48; 48; 48; 48; 48; 48; 48]%N)) default_ascii with
 Raise (XDecodeError e1) =>
(eq_str (de_args0 e1) (u "Failed to decode field, invalid data: field 1 pos 20")) && (
 true ) | _ => false end;
let sp1 := (changed default_ascii [((u "1"), (props (Some (u "invalid_encoding")) (Some (u "ascii")) (Some (0)%Z) (Some (16)%Z) None None None (Some (u "Bitmap, Secondary"))))]) in
match decode cpython311 (InBytes (asc "021080000000000000000000000000000000")) sp1 with
 Raise (XDecodeError e2) =>
(eq_str (de_args0 e2) (u "Failed to decode field, unknown encoding specified: field 1 pos 20")) && (
 true ) | _ => false end ;
match decode cpython311 (InBytes (asc "021080000000000000000000")) default_ascii with
 Raise (XDecodeError e1) =>
(eq_str (de_args0 e1) (u "Field data is 4 bytes, expecting 16: field 1 pos 20")) && (
 true ) | _ => false end;
match decode cpython311 (InBytes (asc "02108000000000000000")) default_ascii with
 Raise (XDecodeError e1) =>
(eq_str (de_args0 e1) (u "Field data is 0 bytes, expecting 16: field 1 pos 20")) && (
 true ) | _ => false end] = true.
Proof. vm_compute. reflexivity. Qed.

(** tests/test_decode.py:476. *)
Example test_tertiary_bitmap_decoding : forallb (fun b => b) [
let sp1 := (changed default_ascii [((u "130"), (props (Some (u "ascii")) (Some (u "ascii")) (Some (0)%Z) (Some (4)%Z) None None None None)); ((u "131"), (props (Some (u "ascii")) (Some (u "ascii")) (Some (0)%Z) (Some (4)%Z) None None None None)); ((u "132"), (props (Some (u "ascii")) (Some (u "ascii")) (Some (0)%Z) (Some (4)%Z) None None None None)); ((u "140"), (props (Some (u "ascii")) (Some (u "ascii")) (Some (0)%Z) (Some (4)%Z) None None None None)); ((u "156"), (props (Some (u "ascii")) (Some (u "ascii")) (Some (0)%Z) (Some (4)%Z) None None None None)); ((u "160"), (props (Some (u "ascii")) (Some (u "ascii")) (Some (0)%Z) (Some (4)%Z) None None None None)); ((u "167"), (props (Some (u "ascii")) (Some (u "ascii")) (Some (0)%Z) (Some (4)%Z) None None None None)); ((u "169"), (props (Some (u "ascii")) (Some (u "ascii")) (Some (0)%Z) (Some (4)%Z) None None None None)); ((u "170"), (props (Some (u "ascii")) (Some (u "ascii")) (Some (0)%Z) (Some (4)%Z) None None None None)); ((u "178"), (props (Some (u "ascii")) (Some (u "ascii")) (Some (0)%Z) (Some (4)%Z) None None None None)); ((u "181"), (props (Some (u "ascii")) (Some (u "ascii")) (Some (0)%Z) (Some (4)%Z) None None None None)); ((u "190"), (props (Some (u "ascii")) (Some (u "ascii")) (Some (0)%Z) (Some (4)%Z) None None None None))]) in
match decode cpython311 (InBytearray (asc "0210800000000000000080000000000000007010001102C04804013001310132014001560160016701690170017801810190")) sp1 with
 Ok (dec2, enc3) =>
(eq_keys (xor (map (fun kv => KStr (fst kv)) enc3) [(KStr (u "1")); (KStr (u "130")); (KStr (u "131")); (KStr (u "132")); (KStr (u "140")); (KStr (u "156")); (KStr (u "160")); (KStr (u "167")); (KStr (u "169")); (KStr (u "170")); (KStr (u "178")); (KStr (u "181")); (KStr (u "190"))]) [(KStr (u "p")); (KStr (u "t"))]) && (
(eq_keys (xor (map (fun kv => KStr (fst kv)) dec2) [(KStr (u "1")); (KStr (u "130")); (KStr (u "131")); (KStr (u "132")); (KStr (u "140")); (KStr (u "156")); (KStr (u "160")); (KStr (u "167")); (KStr (u "169")); (KStr (u "170")); (KStr (u "178")); (KStr (u "181")); (KStr (u "190"))]) [(KStr (u "p")); (KStr (u "t"))]) && (
 true ) ) | _ => false end ;
let sp1 := (changed default_ascii [((u "1"), (props (Some (u "cp500")) (Some (u "ascii")) (Some (0)%Z) (Some (16)%Z) None None None (Some (u "Bitmap, Secondary")))); ((u "130"), (props (Some (u "ascii")) (Some (u "ascii")) (Some (0)%Z) (Some (4)%Z) None None None None)); ((u "131"), (props (Some (u "ascii")) (Some (u "ascii")) (Some (0)%Z) (Some (4)%Z) None None None None)); ((u "132"), (props (Some (u "ascii")) (Some (u "ascii")) (Some (0)%Z) (Some (4)%Z) None None None None)); ((u "140"), (props (Some (u "ascii")) (Some (u "ascii")) (Some (0)%Z) (Some (4)%Z) None None None None)); ((u "156"), (props (Some (u "ascii")) (Some (u "ascii")) (Some (0)%Z) (Some (4)%Z) None None None None)); ((u "160"), (props (Some (u "ascii")) (Some (u "ascii")) (Some (0)%Z) (Some (4)%Z) None None None None)); ((u "167"), (props (Some (u "ascii")) (Some (u "ascii")) (Some (0)%Z) (Some (4)%Z) None None None None)); ((u "169"), (props (Some (u "ascii")) (Some (u "ascii")) (Some (0)%Z) (Some (4)%Z) None None None None)); ((u "170"), (props (Some (u "ascii")) (Some (u "ascii")) (Some (0)%Z) (Some (4)%Z) None None None None)); ((u "178"), (props (Some (u "ascii")) (Some (u "ascii")) (Some (0)%Z) (Some (4)%Z) None None None None)); ((u "181"), (props (Some (u "ascii")) (Some (u "ascii")) (Some (0)%Z) (Some (4)%Z) None None None None)); ((u "190"), (props (Some (u "ascii")) (Some (u "ascii")) (Some (0)%Z) (Some (4)%Z) None None None None))]) in
match decode cpython311 (InBytearray (raw [48; 50; 49; 48; 56; 48; 48; 48; 48; 48; 48; 48; 48; 48; 48; 48; 48; 48; 48; 48; 248; 240; 240; 240; 240; 240; 240; 240; 240; 240; 240; 240; 240; 240; 240; 240; 247; 240; 241; 240; 240; 240; 241; 241; 240; 242; 195; 240; 244; 248; 240; 244; 48; 49; 51; 48; 48; 49; 51; 49; 48; 49; 51; 50; 48; 49; 52; 48; 48; 49; 53; 54; 48; 49; 54; 48; 48; 49; 54; 55; 48; 49; 54; 57; 48; 49; 55; 48; 48; 49; 55; 56; 48; 49; 56; 49; 48; 49; 57; 48]%N)) sp1 with
 Ok (dec2, enc3) =>
(eq_keys (xor (map (fun kv => KStr (fst kv)) enc3) [(KStr (u "1")); (KStr (u "130")); (KStr (u "131")); (KStr (u "132")); (KStr (u "140")); (KStr (u "156")); (KStr (u "160")); (KStr (u "167")); (KStr (u "169")); (KStr (u "170")); (KStr (u "178")); (KStr (u "181")); (KStr (u "190"))]) [(KStr (u "p")); (KStr (u "t"))]) && (
(eq_keys (xor (map (fun kv => KStr (fst kv)) dec2) [(KStr (u "1")); (KStr (u "130")); (KStr (u "131")); (KStr (u "132")); (KStr (u "140")); (KStr (u "156")); (KStr (u "160")); (KStr (u "167")); (KStr (u "169")); (KStr (u "170")); (KStr (u "178")); (KStr (u "181")); (KStr (u "190"))]) [(KStr (u "p")); (KStr (u "t"))]) && (
 true ) ) | _ => false end ;
let sp1 := (changed default_ascii [((u "1"), (props (Some (u "b")) (Some (u "ascii")) (Some (0)%Z) (Some (16)%Z) None None None (Some (u "Bitmap, Secondary")))); ((u "130"), (props (Some (u "ascii")) (Some (u "ascii")) (Some (0)%Z) (Some (4)%Z) None None None None)); ((u "131"), (props (Some (u "ascii")) (Some (u "ascii")) (Some (0)%Z) (Some (4)%Z) None None None None)); ((u "132"), (props (Some (u "ascii")) (Some (u "ascii")) (Some (0)%Z) (Some (4)%Z) None None None None)); ((u "140"), (props (Some (u "ascii")) (Some (u "ascii")) (Some (0)%Z) (Some (4)%Z) None None None None)); ((u "156"), (props (Some (u "ascii")) (Some (u "ascii")) (Some (0)%Z) (Some (4)%Z) None None None None)); ((u "160"), (props (Some (u "ascii")) (Some (u "ascii")) (Some (0)%Z) (Some (4)%Z) None None None None)); ((u "167"), (props (Some (u "ascii")) (Some (u "ascii")) (Some (0)%Z) (Some (4)%Z) None None None None)); ((u "169"), (props (Some (u "ascii")) (Some (u "ascii")) (Some (0)%Z) (Some (4)%Z) None None None None)); ((u "170"), (props (Some (u "ascii")) (Some (u "ascii")) (Some (0)%Z) (Some (4)%Z) None None None None)); ((u "178"), (props (Some (u "ascii")) (Some (u "ascii")) (Some (0)%Z) (Some (4)%Z) None None None None)); ((u "181"), (props (Some (u "ascii")) (Some (u "ascii")) (Some (0)%Z) (Some (4)%Z) None None None None)); ((u "190"), (props (Some (u "ascii")) (Some (u "ascii")) (Some (0)%Z) (Some (4)%Z) None None None None))]) in
match decode cpython311 (InBytearray (raw [48; 50; 49; 48; 56; 48; 48; 48; 48; 48; 48; 48; 48; 48; 48; 48; 48; 48; 48; 48; 128; 0; 0; 0; 0; 0; 0; 0; 112; 16; 0; 17; 2; 192; 72; 4; 48; 49; 51; 48; 48; 49; 51; 49; 48; 49; 51; 50; 48; 49; 52; 48; 48; 49; 53; 54; 48; 49; 54; 48; 48; 49; 54; 55; 48; 49; 54; 57; 48; 49; 55; 48; 48; 49; 55; 56; 48; 49; 56; 49; 48; 49; 57; 48]%N)) sp1 with
 Ok (dec2, enc3) =>
(eq_keys (xor (map (fun kv => KStr (fst kv)) enc3) [(KStr (u "1")); (KStr (u "130")); (KStr (u "131")); (KStr (u "132")); (KStr (u "140")); (KStr (u "156")); (KStr (u "160")); (KStr (u "167")); (KStr (u "169")); (KStr (u "170")); (KStr (u "178")); (KStr (u "181")); (KStr (u "190"))]) [(KStr (u "p")); (KStr (u "t"))]) && (
(eq_keys (xor (map (fun kv => KStr (fst kv)) dec2) [(KStr (u "1")); (KStr (u "130")); (KStr (u "131")); (KStr (u "132")); (KStr (u "140")); (KStr (u "156")); (KStr (u "160")); (KStr (u "167")); (KStr (u "169")); (KStr (u "170")); (KStr (u "178")); (KStr (u "181")); (KStr (u "190"))]) [(KStr (u "p")); (KStr (u "t"))]) && (
 true ) ) | _ => false end ] = true.
Proof. vm_compute. reflexivity. Qed.

(** tests/test_decode.py:512. *)
Example test_tertiary_bitmap_decoding_negative : forallb (fun b => b) [
match decode cpython311 (InBytearray (asc "0210800000000000000080000000000000000000000000000000extra")) default_ascii with
 Raise (XDecodeError e1) =>
(eq_str (de_args0 e1) (u "Extra data after last field: field 1 pos 52")) && (
 true ) | _ => false end;
match decode cpython311 (InBytearray (asc "021080000000000000008000000000000000incorrecthexdata")) default_ascii with
 Raise (XDecodeError e1) =>
(eq_str (de_args0 e1) (u "Failed to decode field, non-hex data: field 1 pos 36")) && (
 true ) | _ => false end;
match decode cpython311 (InBytearray (raw [48; 50; 49; 48; 56; 48; 48; 48; 48; 48; 48; 48; 48; 48; 48; 48; 48; 48; 48; 48; 56; 48; 48; 48; 48; 48; 48; 48; 48; 48; 48; 48; 48; 48; 48; 48; 255; 48; 48; 48; 48; 48; 48; 48; 48; 48; 48; 48; 48; 48; 48; 48]%N)) default_ascii with
 Raise (XDecodeError e1) =>
(eq_str (de_args0 e1) (u "Failed to decode field, invalid data: field 1 pos 36")) && (
 true ) | _ => false end;
match decode cpython311 (InBytearray (asc "0210800000000000000080000000000000000000")) default_ascii with
 Raise (XDecodeError e1) =>
(eq_str (de_args0 e1) (u "Field data is 20 bytes, expecting 32: field 1 pos 36")) && (
 true ) | _ => false end;
match decode cpython311 (InBytearray (asc "021080000000000000008000000000000000")) default_ascii with
 Raise (XDecodeError e1) =>
(eq_str (de_args0 e1) (u "Field data is 16 bytes, expecting 32: field 1 pos 36")) && (
 true ) | _ => false end] = true.
Proof. vm_compute. reflexivity. Qed.

(** tests/test_decode.py:541. *)
Example test_field_decoding : forallb (fun b => b) [
let sp1 := (changed default_ascii [((u "2"), (props (Some (u "ascii")) (Some (u "ascii")) (Some (0)%Z) (Some (0)%Z) None None None (Some (u "Primary Account Number (PAN)"))))]) in
match decode cpython311 (InBytes (asc "02004000000000000000")) sp1 with
 Ok (dec2, enc3) =>
(eq_obytes (option_map e_len (sget (u "t") enc3)) (asc "")) && (
(eq_obytes (option_map e_data (sget (u "t") enc3)) (asc "0200")) && (
(eq_ostr (sget (u "t") dec2) (u "0200")) && (
(eq_obytes (option_map e_len (sget (u "p") enc3)) (asc "")) && (
(eq_obytes (option_map e_data (sget (u "p") enc3)) (asc "4000000000000000")) && (
(eq_ostr (sget (u "p") dec2) (u "4000000000000000")) && (
(eq_keys (map (fun kv => KStr (fst kv)) enc3) [(KStr (u "2")); (KStr (u "p")); (KStr (u "t"))]) && (
(eq_keys (map (fun kv => KStr (fst kv)) dec2) [(KStr (u "2")); (KStr (u "p")); (KStr (u "t"))]) && (
(eq_obytes (option_map e_len (sget (u "2") enc3)) (asc "")) && (
(eq_obytes (option_map e_data (sget (u "2") enc3)) (asc "")) && (
(eq_ostr (sget (u "2") dec2) (u "")) && (
 true ) ) ) ) ) ) ) ) ) ) ) | _ => false end ;
let sp1 := (changed default_ascii [((u "2"), (props (Some (u "ascii")) (Some (u "ascii")) (Some (0)%Z) (Some (2)%Z) None None None (Some (u "Primary Account Number (PAN)"))))]) in
match decode cpython311 (InBytes (asc "0200400000000000000012")) sp1 with
 Ok (dec2, enc3) =>
(eq_obytes (option_map e_len (sget (u "t") enc3)) (asc "")) && (
(eq_obytes (option_map e_data (sget (u "t") enc3)) (asc "0200")) && (
(eq_ostr (sget (u "t") dec2) (u "0200")) && (
(eq_obytes (option_map e_len (sget (u "p") enc3)) (asc "")) && (
(eq_obytes (option_map e_data (sget (u "p") enc3)) (asc "4000000000000000")) && (
(eq_ostr (sget (u "p") dec2) (u "4000000000000000")) && (
(eq_keys (map (fun kv => KStr (fst kv)) enc3) [(KStr (u "2")); (KStr (u "p")); (KStr (u "t"))]) && (
(eq_keys (map (fun kv => KStr (fst kv)) dec2) [(KStr (u "2")); (KStr (u "p")); (KStr (u "t"))]) && (
(eq_obytes (option_map e_len (sget (u "2") enc3)) (asc "")) && (
(eq_obytes (option_map e_data (sget (u "2") enc3)) (asc "12")) && (
(eq_ostr (sget (u "2") dec2) (u "12")) && (
 true ) ) ) ) ) ) ) ) ) ) ) | _ => false end ;
let sp1 := (changed default_ascii [((u "2"), (props (Some (u "ascii")) (Some (u "ascii")) (Some (1)%Z) (Some (2)%Z) None None None (Some (u "Primary Account Number (PAN)"))))]) in
match decode cpython311 (InBytes (asc "020040000000000000000")) sp1 with
 Ok (dec2, enc3) =>
(eq_obytes (option_map e_len (sget (u "t") enc3)) (asc "")) && (
(eq_obytes (option_map e_data (sget (u "t") enc3)) (asc "0200")) && (
(eq_ostr (sget (u "t") dec2) (u "0200")) && (
(eq_obytes (option_map e_len (sget (u "p") enc3)) (asc "")) && (
(eq_obytes (option_map e_data (sget (u "p") enc3)) (asc "4000000000000000")) && (
(eq_ostr (sget (u "p") dec2) (u "4000000000000000")) && (
(eq_keys (map (fun kv => KStr (fst kv)) enc3) [(KStr (u "2")); (KStr (u "p")); (KStr (u "t"))]) && (
(eq_keys (map (fun kv => KStr (fst kv)) dec2) [(KStr (u "2")); (KStr (u "p")); (KStr (u "t"))]) && (
(eq_obytes (option_map e_len (sget (u "2") enc3)) (asc "0")) && (
(eq_obytes (option_map e_data (sget (u "2") enc3)) (asc "")) && (
(eq_ostr (sget (u "2") dec2) (u "")) && (
 true ) ) ) ) ) ) ) ) ) ) ) | _ => false end ;
let sp1 := (changed default_ascii [((u "2"), (props (Some (u "ascii")) (Some (u "ascii")) (Some (1)%Z) (Some (2)%Z) None None None (Some (u "Primary Account Number (PAN)"))))]) in
match decode cpython311 (InBytes (asc "02004000000000000000212")) sp1 with
 Ok (dec2, enc3) =>
(eq_obytes (option_map e_len (sget (u "t") enc3)) (asc "")) && (
(eq_obytes (option_map e_data (sget (u "t") enc3)) (asc "0200")) && (
(eq_ostr (sget (u "t") dec2) (u "0200")) && (
(eq_obytes (option_map e_len (sget (u "p") enc3)) (asc "")) && (
(eq_obytes (option_map e_data (sget (u "p") enc3)) (asc "4000000000000000")) && (
(eq_ostr (sget (u "p") dec2) (u "4000000000000000")) && (
(eq_keys (map (fun kv => KStr (fst kv)) enc3) [(KStr (u "2")); (KStr (u "p")); (KStr (u "t"))]) && (
(eq_keys (map (fun kv => KStr (fst kv)) dec2) [(KStr (u "2")); (KStr (u "p")); (KStr (u "t"))]) && (
(eq_obytes (option_map e_len (sget (u "2") enc3)) (asc "2")) && (
(eq_obytes (option_map e_data (sget (u "2") enc3)) (asc "12")) && (
(eq_ostr (sget (u "2") dec2) (u "12")) && (
 true ) ) ) ) ) ) ) ) ) ) ) | _ => false end ] = true.
Proof. vm_compute. reflexivity. Qed.

(** tests/test_decode.py:616. *)
Example test_field_decoding_negative : forallb (fun b => b) [
let sp1 := (changed default_ascii [((u "2"), (props (Some (u "ascii")) (Some (u "ascii")) (Some (0)%Z) (Some (4)%Z) None None None (Some (u "Primary Account Number (PAN)"))))]) in
match decode cpython311 (InBytes (asc "02004000000000000000123456")) sp1 with
 Raise (XDecodeError e2) =>
(eq_str (de_args0 e2) (u "Extra data after last field: field 2 pos 24")) && (
 true ) | _ => false end ;
let sp1 := (changed default_ascii [((u "2"), (props (Some (u "ascii")) (Some (u "ascii")) (Some (1)%Z) (Some (17)%Z) None None None (Some (u "Primary Account Number (PAN)"))))]) in
match decode cpython311 (InBytes (asc "02004000000000000000412345")) sp1 with
 Raise (XDecodeError e2) =>
(eq_str (de_args0 e2) (u "Extra data after last field: field 2 pos 25")) && (
 true ) | _ => false end ;
let sp1 := (changed default_ascii [((u "2"), (props (Some (u "ascii")) (Some (u "ascii")) (Some (1)%Z) (Some (17)%Z) None None None (Some (u "Primary Account Number (PAN)"))))]) in
match decode cpython311 (InBytes (asc "02004000000000000000012345")) sp1 with
 Raise (XDecodeError e2) =>
(eq_str (de_args0 e2) (u "Extra data after last field: field 2 pos 21")) && (
 true ) | _ => false end ;
let sp1 := (changed default_ascii [((u "2"), (props (Some (u "ascii")) (Some (u "bcd")) (Some (1)%Z) (Some (17)%Z) None None None (Some (u "Primary Account Number (PAN)"))))]) in
match decode cpython311 (InBytes (raw [48; 50; 48; 48; 52; 48; 48; 48; 48; 48; 48; 48; 48; 48; 48; 48; 48; 48; 48; 48; 22; 49; 50; 51; 52; 53; 54; 55; 56; 57; 48; 49; 50; 51; 52; 53; 54; 55]%N)) sp1 with
 Raise (XDecodeError e2) =>
(eq_str (de_args0 e2) (u "Extra data after last field: field 2 pos 37")) && (
 true ) | _ => false end ;
let sp1 := (changed default_ascii [((u "2"), (props (Some (u "ascii")) (Some (u "bcd")) (Some (1)%Z) (Some (17)%Z) None None None (Some (u "Primary Account Number (PAN)"))))]) in
match decode cpython311 (InBytes (raw [48; 50; 48; 48; 52; 48; 48; 48; 48; 48; 48; 48; 48; 48; 48; 48; 48; 48; 48; 48; 0; 49; 50; 51; 52; 53; 54; 55; 56; 57; 48; 49; 50; 51; 52; 53; 54; 55]%N)) sp1 with
 Raise (XDecodeError e2) =>
(eq_str (de_args0 e2) (u "Extra data after last field: field 2 pos 21")) && (
 true ) | _ => false end ;
let sp1 := (changed default_ascii [((u "2"), (props (Some (u "ascii")) (Some (u "b")) (Some (1)%Z) (Some (17)%Z) None None None (Some (u "Primary Account Number (PAN)"))))]) in
match decode cpython311 (InBytes (raw [48; 50; 48; 48; 52; 48; 48; 48; 48; 48; 48; 48; 48; 48; 48; 48; 48; 48; 48; 48; 16; 49; 50; 51; 52; 53; 54; 55; 56; 57; 48; 49; 50; 51; 52; 53; 54; 55]%N)) sp1 with
 Raise (XDecodeError e2) =>
(eq_str (de_args0 e2) (u "Extra data after last field: field 2 pos 37")) && (
 true ) | _ => false end ;
let sp1 := (changed default_ascii [((u "2"), (props (Some (u "ascii")) (Some (u "b")) (Some (1)%Z) (Some (17)%Z) None None None (Some (u "Primary Account Number (PAN)"))))]) in
match decode cpython311 (InBytes (raw [48; 50; 48; 48; 52; 48; 48; 48; 48; 48; 48; 48; 48; 48; 48; 48; 48; 48; 48; 48; 0; 49; 50; 51; 52; 53; 54; 55; 56; 57; 48; 49; 50; 51; 52; 53; 54; 55]%N)) sp1 with
 Raise (XDecodeError e2) =>
(eq_str (de_args0 e2) (u "Extra data after last field: field 2 pos 21")) && (
 true ) | _ => false end ;
let sp1 := (changed default_ascii [((u "2"), (props (Some (u "ascii")) (Some (u "ascii")) (Some (0)%Z) (Some (6)%Z) None None None (Some (u "Primary Account Number (PAN)"))))]) in
match decode cpython311 (InBytes (asc "0200400000000000000012345")) sp1 with
 Raise (XDecodeError e2) =>
(eq_str (de_args0 e2) (u "Field data is 5 bytes, expecting 6: field 2 pos 20")) && (
 true ) | _ => false end ;
let sp1 := (changed default_ascii [((u "2"), (props (Some (u "ascii")) (Some (u "ascii")) (Some (1)%Z) (Some (6)%Z) None None None (Some (u "Primary Account Number (PAN)"))))]) in
match decode cpython311 (InBytes (asc "02004000000000000000612345")) sp1 with
 Raise (XDecodeError e2) =>
(eq_str (de_args0 e2) (u "Field data is 5 bytes, expecting 6: field 2 pos 21")) && (
 true ) | _ => false end ;
let sp1 := (changed default_ascii [((u "2"), (props (Some (u "ascii")) (Some (u "bcd")) (Some (1)%Z) (Some (17)%Z) None None None (Some (u "Primary Account Number (PAN)"))))]) in
match decode cpython311 (InBytes (raw [48; 50; 48; 48; 52; 48; 48; 48; 48; 48; 48; 48; 48; 48; 48; 48; 48; 48; 48; 48; 22; 49; 50; 51; 52; 53]%N)) sp1 with
 Raise (XDecodeError e2) =>
(eq_str (de_args0 e2) (u "Field data is 5 bytes, expecting 16: field 2 pos 21")) && (
 true ) | _ => false end ;
let sp1 := (changed default_ascii [((u "2"), (props (Some (u "ascii")) (Some (u "b")) (Some (1)%Z) (Some (17)%Z) None None None (Some (u "Primary Account Number (PAN)"))))]) in
match decode cpython311 (InBytes (raw [48; 50; 48; 48; 52; 48; 48; 48; 48; 48; 48; 48; 48; 48; 48; 48; 48; 48; 48; 48; 16; 49; 50; 51; 52; 53]%N)) sp1 with
 Raise (XDecodeError e2) =>
(eq_str (de_args0 e2) (u "Field data is 5 bytes, expecting 16: field 2 pos 21")) && (
 true ) | _ => false end ;
let sp1 := (changed default_ascii [((u "2"), (props (Some (u "ascii")) (Some (u "ascii")) (Some (0)%Z) (Some (6)%Z) None None None (Some (u "Primary Account Number (PAN)"))))]) in
match decode cpython311 (InBytes (asc "02004000000000000000")) sp1 with
 Raise (XDecodeError e2) =>
(eq_str (de_args0 e2) (u "Field data is 0 bytes, expecting 6: field 2 pos 20")) && (
 true ) | _ => false end ;
let sp1 := (changed default_ascii [((u "2"), (props (Some (u "ascii")) (Some (u "ascii")) (Some (1)%Z) (Some (6)%Z) None None None (Some (u "Primary Account Number (PAN)"))))]) in
match decode cpython311 (InBytes (asc "020040000000000000006")) sp1 with
 Raise (XDecodeError e2) =>
(eq_str (de_args0 e2) (u "Field data is 0 bytes, expecting 6: field 2 pos 21")) && (
 true ) | _ => false end ;
let sp1 := (changed default_ascii [((u "2"), (props (Some (u "ascii")) (Some (u "bcd")) (Some (1)%Z) (Some (16)%Z) None None None (Some (u "Primary Account Number (PAN)"))))]) in
match decode cpython311 (InBytes (raw [48; 50; 48; 48; 52; 48; 48; 48; 48; 48; 48; 48; 48; 48; 48; 48; 48; 48; 48; 48; 22]%N)) sp1 with
 Raise (XDecodeError e2) =>
(eq_str (de_args0 e2) (u "Field data is 0 bytes, expecting 16: field 2 pos 21")) && (
 true ) | _ => false end ;
let sp1 := (changed default_ascii [((u "2"), (props (Some (u "ascii")) (Some (u "b")) (Some (1)%Z) (Some (16)%Z) None None None (Some (u "Primary Account Number (PAN)"))))]) in
match decode cpython311 (InBytes (raw [48; 50; 48; 48; 52; 48; 48; 48; 48; 48; 48; 48; 48; 48; 48; 48; 48; 48; 48; 48; 16]%N)) sp1 with
 Raise (XDecodeError e2) =>
(eq_str (de_args0 e2) (u "Field data is 0 bytes, expecting 16: field 2 pos 21")) && (
 true ) | _ => false end ;
let sp1 := (changed default_ascii [((u "2"), (props (Some (u "ascii")) (Some (u "ascii")) (Some (1)%Z) (Some (6)%Z) None None None (Some (u "Primary Account Number (PAN)"))))]) in
match decode cpython311 (InBytes (asc "020040000000000000007")) sp1 with
 Raise (XDecodeError e2) =>
(eq_str (de_args0 e2) (u "Field data is 7 bytes, larger than maximum 6: field 2 pos 20")) && (
 true ) | _ => false end ;
let sp1 := (changed default_ascii [((u "2"), (props (Some (u "ascii")) (Some (u "ascii")) (Some (1)%Z) (Some (6)%Z) None None None (Some (u "Primary Account Number (PAN)"))))]) in
match decode cpython311 (InBytes (asc "020040000000000000007123456")) sp1 with
 Raise (XDecodeError e2) =>
(eq_str (de_args0 e2) (u "Field data is 7 bytes, larger than maximum 6: field 2 pos 20")) && (
 true ) | _ => false end ;
let sp1 := (changed default_ascii [((u "2"), (props (Some (u "ascii")) (Some (u "bcd")) (Some (1)%Z) (Some (15)%Z) None None None (Some (u "Primary Account Number (PAN)"))))]) in
match decode cpython311 (InBytes (raw [48; 50; 48; 48; 52; 48; 48; 48; 48; 48; 48; 48; 48; 48; 48; 48; 48; 48; 48; 48; 22; 49; 50; 51; 52; 53; 54]%N)) sp1 with
 Raise (XDecodeError e2) =>
(eq_str (de_args0 e2) (u "Field data is 16 bytes, larger than maximum 15: field 2 pos 20")) && (
 true ) | _ => false end ;
let sp1 := (changed default_ascii [((u "2"), (props (Some (u "ascii")) (Some (u "b")) (Some (1)%Z) (Some (15)%Z) None None None (Some (u "Primary Account Number (PAN)"))))]) in
match decode cpython311 (InBytes (raw [48; 50; 48; 48; 52; 48; 48; 48; 48; 48; 48; 48; 48; 48; 48; 48; 48; 48; 48; 48; 16; 49; 50; 51; 52; 53; 54]%N)) sp1 with
 Raise (XDecodeError e2) =>
(eq_str (de_args0 e2) (u "Field data is 16 bytes, larger than maximum 15: field 2 pos 20")) && (
 true ) | _ => false end ;
let sp1 := (changed default_ascii [((u "2"), (props (Some (u "invalid")) (Some (u "ascii")) (Some (0)%Z) (Some (6)%Z) None None None (Some (u "Primary Account Number (PAN)"))))]) in
match decode cpython311 (InBytes (asc "02004000000000000000123456")) sp1 with
 Raise (XDecodeError e2) =>
(eq_str (de_args0 e2) (u "Failed to decode field, unknown encoding specified: field 2 pos 20")) && (
 true ) | _ => false end ;
let sp1 := (changed default_ascii [((u "2"), (props (Some (u "ascii")) (Some (u "invalid")) (Some (1)%Z) (Some (15)%Z) None None None (Some (u "Primary Account Number (PAN)"))))]) in
match decode cpython311 (InBytes (asc "020040000000000000005123456")) sp1 with
 Raise (XDecodeError e2) =>
(eq_str (de_args0 e2) (u "Failed to decode field length, unknown encoding specified: field 2 pos 20")) && (
 true ) | _ => false end ;
let sp1 := (changed default_ascii [((u "2"), (props (Some (u "ascii")) (Some (u "ascii")) (Some (1)%Z) (Some (17)%Z) None None None (Some (u "Primary Account Number (PAN)"))))]) in
match decode cpython311 (InBytes (asc "02004000000000000000")) sp1 with
 Raise (XDecodeError e2) =>
(eq_str (de_args0 e2) (u "Field length is 0 bytes wide, expecting 1: field 2 pos 20")) && (
 true ) | _ => false end ;
let sp1 := (changed default_ascii [((u "2"), (props (Some (u "ascii")) (Some (u "ascii")) (Some (2)%Z) (Some (17)%Z) None None None (Some (u "Primary Account Number (PAN)"))))]) in
match decode cpython311 (InBytes (asc "020040000000000000001")) sp1 with
 Raise (XDecodeError e2) =>
(eq_str (de_args0 e2) (u "Field length is 1 bytes wide, expecting 2: field 2 pos 20")) && (
 true ) | _ => false end ;
let sp1 := (changed default_ascii [((u "2"), (props (Some (u "ascii")) (Some (u "ascii")) (Some (2)%Z) (Some (4)%Z) None None None (Some (u "Primary Account Number (PAN)"))))]) in
match decode cpython311 (InBytes (raw [48; 50; 48; 48; 52; 48; 48; 48; 48; 48; 48; 48; 48; 48; 48; 48; 48; 48; 48; 48; 48; 50; 255; 255]%N)) sp1 with
 Raise (XDecodeError e2) =>
(eq_str (de_args0 e2) (u "Failed to decode field, invalid data: field 2 pos 22")) && (
 true ) | _ => false end ;
let sp1 := (changed default_ascii [((u "2"), (props (Some (u "ascii")) (Some (u "ascii")) (Some (1)%Z) (Some (15)%Z) None None None (Some (u "Primary Account Number (PAN)"))))]) in
match decode cpython311 (InBytes (asc "02004000000000000000g123456")) sp1 with
 Raise (XDecodeError e2) =>
(eq_str (de_args0 e2) (u "Failed to decode field length, non-numeric data: field 2 pos 20")) && (
 true ) | _ => false end ;
let sp1 := (changed default_ascii [((u "2"), (props (Some (u "ascii")) (Some (u "ascii")) (Some (1)%Z) (Some (15)%Z) None None None (Some (u "Primary Account Number (PAN)"))))]) in
match decode cpython311 (InBytes (raw [48; 50; 48; 48; 52; 48; 48; 48; 48; 48; 48; 48; 48; 48; 48; 48; 48; 48; 48; 48; 255; 49; 50; 51; 52; 53; 54]%N)) sp1 with
 Raise (XDecodeError e2) =>
(eq_str (de_args0 e2) (u "Failed to decode field length, invalid data: field 2 pos 20")) && (
 true ) | _ => false end ;
let sp1 := (changed default_ascii [((u "2"), (props (Some (u "ascii")) (Some (u "bcd")) (Some (1)%Z) (Some (15)%Z) None None None (Some (u "Primary Account Number (PAN)"))))]) in
match decode cpython311 (InBytes (raw [48; 50; 48; 48; 52; 48; 48; 48; 48; 48; 48; 48; 48; 48; 48; 48; 48; 48; 48; 48; 10; 49; 50; 51; 52; 53; 54]%N)) sp1 with
 Raise (XDecodeError e2) =>
(eq_str (de_args0 e2) (u "Failed to decode field length, invalid BCD data: field 2 pos 20")) && (
 true ) | _ => false end ] = true.
Proof. vm_compute. reflexivity. Qed.

(** tests/test_encode.py:10. *)
Example test_EncodeError_exception : forallb (fun b => b) [
let sp1 := (changed default [((u "h"), (props (Some (u "ascii")) (Some (u "ascii")) (Some (0)%Z) (Some (6)%Z) None None None (Some (u "Message Header")))); ((u "p"), (props (Some (u "ascii")) (Some (u "ascii")) (Some (0)%Z) (Some (8)%Z) None None None (Some (u "Bitmap, Primary")))); ((u "1"), (props (Some (u "b")) (Some (u "ascii")) (Some (0)%Z) (Some (0)%Z) None None None (Some (u "Bitmap, Secondary"))))]) in
match encode cpython311 (ADict [((KStr (u "t")), (VStr (u "")))]) sp1 with
 (Raise (XEncodeError e2), d3) =>
(eq_pdoc (ee_doc_dec e2) d3) && (
(eq_edoc (ee_doc_enc e2) []) && (
(eq_str (ee_msg e2) (u "Field data is required according to specifications")) && (
(eq_str (ee_field e2) (u "h")) && (
(eq_str (ee_args0 e2) (u "Field data is required according to specifications: field h")) && (
 true ) ) ) ) ) | _ => false end ] = true.
Proof. vm_compute. reflexivity. Qed.

(** tests/test_encode.py:37. *)
Example test_EncodeError_exception_pickle : forallb (fun b => b) [
let sp1 := (changed default [((u "h"), (props (Some (u "ascii")) (Some (u "ascii")) (Some (0)%Z) (Some (6)%Z) None None None (Some (u "Message Header")))); ((u "p"), (props (Some (u "ascii")) (Some (u "ascii")) (Some (0)%Z) (Some (8)%Z) None None None (Some (u "Bitmap, Primary")))); ((u "1"), (props (Some (u "b")) (Some (u "ascii")) (Some (0)%Z) (Some (0)%Z) None None None (Some (u "Bitmap, Secondary"))))]) in
match encode cpython311 (ADict [((KStr (u "t")), (VStr (u "")))]) sp1 with
 (Raise (XEncodeError e2), d3) =>
(eq_pdoc (ee_doc_dec e2) (ee_doc_dec (unpickle_e e2))) && (
(eq_edoc (ee_doc_enc e2) (ee_doc_enc (unpickle_e e2))) && (
(eq_str (ee_msg e2) (ee_msg (unpickle_e e2))) && (
(eq_str (ee_field e2) (ee_field (unpickle_e e2))) && (
(eq_str (ee_args0 e2) (ee_args0 (unpickle_e e2))) && (
 true ) ) ) ) ) | _ => false end ] = true.
Proof. vm_compute. reflexivity. Qed.

(** tests/test_encode.py:65. *)
Example test_non_string_field_keys : forallb (fun b => b) [
let sp1 := (changed default [((u "2"), (props (Some (u "ascii")) (Some (u "ascii")) (Some (2)%Z) (Some (10)%Z) None None None (Some (u "Primary Account Number (PAN)")))); ((u "3"), (props (Some (u "ascii")) (Some (u "ascii")) (Some (2)%Z) (Some (10)%Z) None None None (Some (u "Processing Code"))))]) in
match encode cpython311 (ADict [((KStr (u "t")), (VStr (u "0210"))); ((KOther 2%N (u "2")), (VStr (u "1122")))]) sp1 with
 (Raise (XEncodeError e2), d3) =>
(matches (u "Dictionary contains invalid fields .2.: field p") (ee_args0 e2)) && (
match encode cpython311 (ADict [((KStr (u "t")), (VStr (u "0210"))); ((KOther 2%N (u "2")), (VStr (u "1122"))); ((KOther 3%N (u "3")), (VStr (u "3344")))]) sp1 with
 (Raise (XEncodeError e4), d5) =>
(matches (u "Dictionary contains invalid fields .2, 3.: field p") (ee_args0 e4)) && (
match encode cpython311 (ADict [((KStr (u "t")), (VStr (u "0210"))); ((KOther 2%N (u "2.5")), (VStr (u "1122"))); ((KOther 3%N (u "3.5")), (VStr (u "3344")))]) sp1 with
 (Raise (XEncodeError e6), d7) =>
(matches (u "Dictionary contains invalid fields .2.5, 3.5.: field p") (ee_args0 e6)) && (
match encode cpython311 (ADict [((KStr (u "t")), (VStr (u "0210"))); ((KOther 2%N (u "(1, 2)")), (VStr (u "1122"))); ((KOther 3%N (u "(3, 4)")), (VStr (u "3344")))]) sp1 with
 (Raise (XEncodeError e8), d9) =>
(matches (u "Dictionary contains invalid fields ..1, 2., .3, 4..: field p") (ee_args0 e8)) && (
 true ) | _ => false end ) | _ => false end ) | _ => false end ) | _ => false end ] = true.
Proof. vm_compute. reflexivity. Qed.

(** tests/test_encode.py:106. *)
Example test_input_type_encode : forallb (fun b => b) [
match encode cpython311 (AOther (u "bytes")) default with
 (Raise (XTypeError e1), d2) =>
(matches (u "Decoded ISO8583 data must be dict, not bytes") e1) && (
 true ) | _ => false end] = true.
Proof. vm_compute. reflexivity. Qed.

(** tests/test_encode.py:115. *)
Example test_header_no_key : forallb (fun b => b) [
let sp1 := (changed default [((u "h"), (props (Some (u "ascii")) (Some (u "ascii")) (Some (0)%Z) (Some (6)%Z) None None None (Some (u "Message Header")))); ((u "p"), (props (Some (u "ascii")) (Some (u "ascii")) (Some (0)%Z) (Some (8)%Z) None None None (Some (u "Bitmap, Primary")))); ((u "1"), (props (Some (u "b")) (Some (u "ascii")) (Some (0)%Z) (Some (0)%Z) None None None (Some (u "Bitmap, Secondary"))))]) in
match encode cpython311 (ADict [((KStr (u "t")), (VStr (u "")))]) sp1 with
 (Raise (XEncodeError e2), d3) =>
(matches (u "Field data is required according to specifications: field h") (ee_args0 e2)) && (
 true ) | _ => false end ] = true.
Proof. vm_compute. reflexivity. Qed.

(** tests/test_encode.py:137. *)
Example test_header_absent : forallb (fun b => b) [
match encode cpython311 (ADict [((KStr (u "h")), (VStr (u ""))); ((KStr (u "t")), (VStr (u "0200")))]) default with
 (Ok (s1, enc2), d3) =>
(eq_bytes s1 (raw [48; 50; 48; 48; 0; 0; 0; 0; 0; 0; 0; 0]%N)) && (
(eq_obytes (option_map e_len (sget (u "t") enc2)) (asc "")) && (
(eq_obytes (option_map e_data (sget (u "t") enc2)) (asc "0200")) && (
(eq_oval (pget (KStr (u "t")) d3) (u "0200")) && (
(eq_obytes (option_map e_data (sget (u "p") enc2)) (raw [0; 0; 0; 0; 0; 0; 0; 0]%N)) && (
(eq_oval (pget (KStr (u "p")) d3) (u "0000000000000000")) && (
(eq_keys (map (fun kv => KStr (fst kv)) enc2) [(KStr (u "p")); (KStr (u "t"))]) && (
(eq_keys (map fst d3) [(KStr (u "h")); (KStr (u "p")); (KStr (u "t"))]) && (
 true ) ) ) ) ) ) ) ) | _ => false end] = true.
Proof. vm_compute. reflexivity. Qed.

(** tests/test_encode.py:164. *)
Example test_header_present : forallb (fun b => b) [
let sp1 := (changed default [((u "h"), (props (Some (u "ascii")) (Some (u "ascii")) (Some (0)%Z) (Some (6)%Z) None None None (Some (u "Message Header"))))]) in
match encode cpython311 (ADict [((KStr (u "h")), (VStr (u "header"))); ((KStr (u "t")), (VStr (u "0200")))]) sp1 with
 (Ok (s2, enc3), d4) =>
(eq_bytes s2 (raw [104; 101; 97; 100; 101; 114; 48; 50; 48; 48; 0; 0; 0; 0; 0; 0; 0; 0]%N)) && (
(eq_obytes (option_map e_len (sget (u "h") enc3)) (asc "")) && (
(eq_obytes (option_map e_data (sget (u "h") enc3)) (asc "header")) && (
(eq_oval (pget (KStr (u "h")) d4) (u "header")) && (
(eq_obytes (option_map e_len (sget (u "t") enc3)) (asc "")) && (
(eq_obytes (option_map e_data (sget (u "t") enc3)) (asc "0200")) && (
(eq_oval (pget (KStr (u "t")) d4) (u "0200")) && (
(eq_obytes (option_map e_len (sget (u "p") enc3)) (asc "")) && (
(eq_obytes (option_map e_data (sget (u "p") enc3)) (raw [0; 0; 0; 0; 0; 0; 0; 0]%N)) && (
(eq_oval (pget (KStr (u "p")) d4) (u "0000000000000000")) && (
(eq_keys (map (fun kv => KStr (fst kv)) enc3) [(KStr (u "h")); (KStr (u "p")); (KStr (u "t"))]) && (
(eq_keys (map fst d4) [(KStr (u "h")); (KStr (u "p")); (KStr (u "t"))]) && (
 true ) ) ) ) ) ) ) ) ) ) ) ) | _ => false end ] = true.
Proof. vm_compute. reflexivity. Qed.

(** tests/test_encode.py:197. *)
Example test_header_not_required_provided : forallb (fun b => b) [
match encode cpython311 (ADict [((KStr (u "h")), (VStr (u "header"))); ((KStr (u "t")), (VStr (u "0200")))]) default with
 (Ok (s1, enc2), d3) =>
(eq_bytes s1 (raw [48; 50; 48; 48; 0; 0; 0; 0; 0; 0; 0; 0]%N)) && (
(eq_obytes (option_map e_len (sget (u "t") enc2)) (asc "")) && (
(eq_obytes (option_map e_data (sget (u "t") enc2)) (asc "0200")) && (
(eq_oval (pget (KStr (u "t")) d3) (u "0200")) && (
(eq_obytes (option_map e_len (sget (u "p") enc2)) (asc "")) && (
(eq_obytes (option_map e_data (sget (u "p") enc2)) (raw [0; 0; 0; 0; 0; 0; 0; 0]%N)) && (
(eq_oval (pget (KStr (u "p")) d3) (u "0000000000000000")) && (
(eq_keys (map (fun kv => KStr (fst kv)) enc2) [(KStr (u "p")); (KStr (u "t"))]) && (
(eq_keys (map fst d3) [(KStr (u "h")); (KStr (u "p")); (KStr (u "t"))]) && (
 true ) ) ) ) ) ) ) ) ) | _ => false end] = true.
Proof. vm_compute. reflexivity. Qed.

(** tests/test_encode.py:226. *)
Example test_type_no_key : forallb (fun b => b) [
let sp1 := (changed default [((u "h"), (props (Some (u "ascii")) (Some (u "ascii")) (Some (0)%Z) (Some (6)%Z) None None None (Some (u "Message Header")))); ((u "p"), (props (Some (u "ascii")) (Some (u "ascii")) (Some (0)%Z) (Some (8)%Z) None None None (Some (u "Bitmap, Primary")))); ((u "1"), (props (Some (u "b")) (Some (u "ascii")) (Some (0)%Z) (Some (0)%Z) None None None (Some (u "Bitmap, Secondary"))))]) in
match encode cpython311 (ADict [((KStr (u "h")), (VStr (u "header"))); ((KStr (u "2")), (VStr (u "")))]) sp1 with
 (Raise (XEncodeError e2), d3) =>
(matches (u "Field data is required: field t") (ee_args0 e2)) && (
 true ) | _ => false end ] = true.
Proof. vm_compute. reflexivity. Qed.

(** tests/test_encode.py:268. *)
Example test_type_encoding_negative : forallb (fun b => b) [
let sp1 := (changed default_ascii [((u "t"), (props (Some (u "unknown_encoding")) (Some (u "ascii")) (Some (0)%Z) (Some (4)%Z) None None None (Some (u "Message Type"))))]) in
match encode cpython311 (ADict [((KStr (u "t")), (VStr (u "0")))]) sp1 with
 (Raise (XEncodeError e2), d3) =>
(eq_str (ee_args0 e2) (u "Failed to encode field, unknown encoding specified: field t")) && (
 true ) | _ => false end ;
let sp1 := (changed default_ascii [((u "t"), (props (Some (u "b")) (Some (u "ascii")) (Some (0)%Z) (Some (4)%Z) None None None (Some (u "Message Type"))))]) in
match encode cpython311 (ADict [((KStr (u "t")), (VStr (u "xx")))]) sp1 with
 (Raise (XEncodeError e2), d3) =>
(eq_str (ee_args0 e2) (u "Failed to encode field, non-hex data: field t")) && (
 true ) | _ => false end ;
match encode cpython311 (ADict [((KStr (u "t")), (VStr [255]%N))]) default_ascii with
 (Raise (XEncodeError e1), d2) =>
(eq_str (ee_args0 e1) (u "Failed to encode field, invalid data: field t")) && (
 true ) | _ => false end;
let sp1 := (changed default_ascii [((u "t"), (props (Some (u "b")) (Some (u "ascii")) (Some (0)%Z) (Some (4)%Z) None None None (Some (u "Message Type"))))]) in
match encode cpython311 (ADict [((KStr (u "t")), (VStr (u "2")))]) sp1 with
 (Raise (XEncodeError e2), d3) =>
(eq_str (ee_args0 e2) (u "Failed to encode field, odd-length hex data: field t")) && (
 true ) | _ => false end ;
let sp1 := (changed default_ascii [((u "t"), (props (Some (u "b")) (Some (u "ascii")) (Some (0)%Z) (Some (4)%Z) None None None (Some (u "Message Type"))))]) in
match encode cpython311 (ADict [((KStr (u "t")), (VStr (u "")))]) sp1 with
 (Raise (XEncodeError e2), d3) =>
(eq_str (ee_args0 e2) (u "Field data is 0 bytes, expecting 2: field t")) && (
 true ) | _ => false end ;
match encode cpython311 (ADict [((KStr (u "t")), (VStr (u "")))]) default_ascii with
 (Raise (XEncodeError e1), d2) =>
(eq_str (ee_args0 e1) (u "Field data is 0 bytes, expecting 4: field t")) && (
 true ) | _ => false end;
let sp1 := (changed default_ascii [((u "t"), (props (Some (u "cp500")) (Some (u "ascii")) (Some (0)%Z) (Some (4)%Z) None None None (Some (u "Message Type"))))]) in
match encode cpython311 (ADict [((KStr (u "t")), (VStr (u "")))]) sp1 with
 (Raise (XEncodeError e2), d3) =>
(eq_str (ee_args0 e2) (u "Field data is 0 bytes, expecting 4: field t")) && (
 true ) | _ => false end ;
let sp1 := (changed default_ascii [((u "t"), (props (Some (u "b")) (Some (u "ascii")) (Some (0)%Z) (Some (4)%Z) None None None (Some (u "Message Type"))))]) in
match encode cpython311 (ADict [((KStr (u "t")), (VStr (u "00")))]) sp1 with
 (Raise (XEncodeError e2), d3) =>
(eq_str (ee_args0 e2) (u "Field data is 1 bytes, expecting 2: field t")) && (
 true ) | _ => false end ;
match encode cpython311 (ADict [((KStr (u "t")), (VStr (u "000")))]) default_ascii with
 (Raise (XEncodeError e1), d2) =>
(eq_str (ee_args0 e1) (u "Field data is 3 bytes, expecting 4: field t")) && (
 true ) | _ => false end;
let sp1 := (changed default_ascii [((u "t"), (props (Some (u "cp500")) (Some (u "ascii")) (Some (0)%Z) (Some (4)%Z) None None None (Some (u "Message Type"))))]) in
match encode cpython311 (ADict [((KStr (u "t")), (VStr (u "000")))]) sp1 with
 (Raise (XEncodeError e2), d3) =>
(eq_str (ee_args0 e2) (u "Field data is 3 bytes, expecting 4: field t")) && (
 true ) | _ => false end ;
let sp1 := (changed default_ascii [((u "t"), (props (Some (u "b")) (Some (u "ascii")) (Some (0)%Z) (Some (4)%Z) None None None (Some (u "Message Type"))))]) in
match encode cpython311 (ADict [((KStr (u "t")), (VStr (u "000000")))]) sp1 with
 (Raise (XEncodeError e2), d3) =>
(eq_str (ee_args0 e2) (u "Field data is 3 bytes, expecting 2: field t")) && (
 true ) | _ => false end ;
match encode cpython311 (ADict [((KStr (u "t")), (VStr (u "00000")))]) default_ascii with
 (Raise (XEncodeError e1), d2) =>
(eq_str (ee_args0 e1) (u "Field data is 5 bytes, expecting 4: field t")) && (
 true ) | _ => false end;
let sp1 := (changed default_ascii [((u "t"), (props (Some (u "cp500")) (Some (u "ascii")) (Some (0)%Z) (Some (4)%Z) None None None (Some (u "Message Type"))))]) in
match encode cpython311 (ADict [((KStr (u "t")), (VStr (u "00000")))]) sp1 with
 (Raise (XEncodeError e2), d3) =>
(eq_str (ee_args0 e2) (u "Field data is 5 bytes, expecting 4: field t")) && (
 true ) | _ => false end ] = true.
Proof. vm_compute. reflexivity. Qed.

(** tests/test_encode.py:409. *)
Example test_bitmap_encoding : forallb (fun b => b) [
let sp1 := (changed default_ascii [((u "5"), (props (Some (u "ascii")) (Some (u "ascii")) (Some (3)%Z) (Some (999)%Z) None None None None)); ((u "7"), (props (Some (u "ascii")) (Some (u "ascii")) (Some (3)%Z) (Some (999)%Z) None None None None))]) in
match encode cpython311 (ADict [((KStr (u "t")), (VStr (u "0200"))); ((KStr (u "5")), (VStr (u "005"))); ((KStr (u "7")), (VStr (u "007")))]) sp1 with
 (Ok (s2, enc3), d4) =>
(eq_bytes s2 (asc "02000A00000000000000003005003007")) && (
(eq_oval (pget (KStr (u "t")) d4) (u "0200")) && (
(eq_obytes (option_map e_data (sget (u "t") enc3)) (asc "0200")) && (
(eq_oval (pget (KStr (u "p")) d4) (u "0A00000000000000")) && (
(eq_obytes (option_map e_data (sget (u "p") enc3)) (asc "0A00000000000000")) && (
(eq_oval (pget (KStr (u "5")) d4) (u "005")) && (
(eq_obytes (option_map e_data (sget (u "5") enc3)) (asc "005")) && (
(eq_obytes (option_map e_len (sget (u "5") enc3)) (asc "003")) && (
(eq_oval (pget (KStr (u "7")) d4) (u "007")) && (
(eq_obytes (option_map e_data (sget (u "7") enc3)) (asc "007")) && (
(eq_obytes (option_map e_len (sget (u "7") enc3)) (asc "003")) && (
 true ) ) ) ) ) ) ) ) ) ) ) | _ => false end ;
let sp1 := (changed default_ascii [((u "p"), (props (Some (u "cp500")) (Some (u "ascii")) (Some (0)%Z) (Some (16)%Z) None None None (Some (u "Bitmap, Primary")))); ((u "1"), (props (Some (u "cp500")) (Some (u "ascii")) (Some (0)%Z) (Some (16)%Z) None None None (Some (u "Bitmap, Secondary")))); ((u "5"), (props (Some (u "ascii")) (Some (u "ascii")) (Some (3)%Z) (Some (999)%Z) None None None None)); ((u "7"), (props (Some (u "ascii")) (Some (u "ascii")) (Some (3)%Z) (Some (999)%Z) None None None None))]) in
match encode cpython311 (ADict [((KStr (u "t")), (VStr (u "0200"))); ((KStr (u "5")), (VStr (u "005"))); ((KStr (u "7")), (VStr (u "007")))]) sp1 with
 (Ok (s2, enc3), d4) =>
(eq_bytes s2 (raw [48; 50; 48; 48; 240; 193; 240; 240; 240; 240; 240; 240; 240; 240; 240; 240; 240; 240; 240; 240; 48; 48; 51; 48; 48; 53; 48; 48; 51; 48; 48; 55]%N)) && (
(eq_oval (pget (KStr (u "t")) d4) (u "0200")) && (
(eq_obytes (option_map e_data (sget (u "t") enc3)) (asc "0200")) && (
(eq_oval (pget (KStr (u "p")) d4) (u "0A00000000000000")) && (
(eq_obytes (option_map e_data (sget (u "p") enc3)) (raw [240; 193; 240; 240; 240; 240; 240; 240; 240; 240; 240; 240; 240; 240; 240; 240]%N)) && (
(eq_oval (pget (KStr (u "5")) d4) (u "005")) && (
(eq_obytes (option_map e_data (sget (u "5") enc3)) (asc "005")) && (
(eq_obytes (option_map e_len (sget (u "5") enc3)) (asc "003")) && (
(eq_oval (pget (KStr (u "7")) d4) (u "007")) && (
(eq_obytes (option_map e_data (sget (u "7") enc3)) (asc "007")) && (
(eq_obytes (option_map e_len (sget (u "7") enc3)) (asc "003")) && (
 true ) ) ) ) ) ) ) ) ) ) ) | _ => false end ;
let sp1 := (changed default_ascii [((u "p"), (props (Some (u "b")) (Some (u "ascii")) (Some (0)%Z) (Some (16)%Z) None None None (Some (u "Bitmap, Primary")))); ((u "1"), (props (Some (u "b")) (Some (u "ascii")) (Some (0)%Z) (Some (16)%Z) None None None (Some (u "Bitmap, Secondary")))); ((u "5"), (props (Some (u "ascii")) (Some (u "ascii")) (Some (3)%Z) (Some (999)%Z) None None None None)); ((u "7"), (props (Some (u "ascii")) (Some (u "ascii")) (Some (3)%Z) (Some (999)%Z) None None None None))]) in
match encode cpython311 (ADict [((KStr (u "t")), (VStr (u "0200"))); ((KStr (u "5")), (VStr (u "005"))); ((KStr (u "7")), (VStr (u "007")))]) sp1 with
 (Ok (s2, enc3), d4) =>
(eq_bytes s2 (raw [48; 50; 48; 48; 10; 0; 0; 0; 0; 0; 0; 0; 48; 48; 51; 48; 48; 53; 48; 48; 51; 48; 48; 55]%N)) && (
(eq_oval (pget (KStr (u "t")) d4) (u "0200")) && (
(eq_obytes (option_map e_data (sget (u "t") enc3)) (asc "0200")) && (
(eq_oval (pget (KStr (u "p")) d4) (u "0A00000000000000")) && (
(eq_obytes (option_map e_data (sget (u "p") enc3)) (raw [10; 0; 0; 0; 0; 0; 0; 0]%N)) && (
(eq_oval (pget (KStr (u "5")) d4) (u "005")) && (
(eq_obytes (option_map e_data (sget (u "5") enc3)) (asc "005")) && (
(eq_obytes (option_map e_len (sget (u "5") enc3)) (asc "003")) && (
(eq_oval (pget (KStr (u "7")) d4) (u "007")) && (
(eq_obytes (option_map e_data (sget (u "7") enc3)) (asc "007")) && (
(eq_obytes (option_map e_len (sget (u "7") enc3)) (asc "003")) && (
 true ) ) ) ) ) ) ) ) ) ) ) | _ => false end ;
let sp1 := (changed default_ascii [((u "5"), (props (Some (u "ascii")) (Some (u "ascii")) (Some (3)%Z) (Some (999)%Z) None None None None)); ((u "7"), (props (Some (u "ascii")) (Some (u "ascii")) (Some (3)%Z) (Some (999)%Z) None None None None)); ((u "69"), (props (Some (u "ascii")) (Some (u "ascii")) (Some (3)%Z) (Some (999)%Z) None None None None)); ((u "71"), (props (Some (u "ascii")) (Some (u "ascii")) (Some (3)%Z) (Some (999)%Z) None None None None))]) in
match encode cpython311 (ADict [((KStr (u "t")), (VStr (u "0200"))); ((KStr (u "5")), (VStr (u "005"))); ((KStr (u "7")), (VStr (u "007"))); ((KStr (u "69")), (VStr (u "069"))); ((KStr (u "71")), (VStr (u "071")))]) sp1 with
 (Ok (s2, enc3), d4) =>
(eq_bytes s2 (asc "02008A000000000000000A00000000000000003005003007003069003071")) && (
(eq_oval (pget (KStr (u "t")) d4) (u "0200")) && (
(eq_obytes (option_map e_data (sget (u "t") enc3)) (asc "0200")) && (
(eq_oval (pget (KStr (u "p")) d4) (u "8A00000000000000")) && (
(eq_obytes (option_map e_data (sget (u "p") enc3)) (asc "8A00000000000000")) && (
(eq_oval (pget (KStr (u "1")) d4) (u "0A00000000000000")) && (
(eq_obytes (option_map e_data (sget (u "1") enc3)) (asc "0A00000000000000")) && (
(eq_oval (pget (KStr (u "5")) d4) (u "005")) && (
(eq_obytes (option_map e_data (sget (u "5") enc3)) (asc "005")) && (
(eq_obytes (option_map e_len (sget (u "5") enc3)) (asc "003")) && (
(eq_oval (pget (KStr (u "7")) d4) (u "007")) && (
(eq_obytes (option_map e_data (sget (u "7") enc3)) (asc "007")) && (
(eq_obytes (option_map e_len (sget (u "7") enc3)) (asc "003")) && (
(eq_oval (pget (KStr (u "69")) d4) (u "069")) && (
(eq_obytes (option_map e_data (sget (u "69") enc3)) (asc "069")) && (
(eq_obytes (option_map e_len (sget (u "69") enc3)) (asc "003")) && (
(eq_oval (pget (KStr (u "71")) d4) (u "071")) && (
(eq_obytes (option_map e_data (sget (u "71") enc3)) (asc "071")) && (
(eq_obytes (option_map e_len (sget (u "71") enc3)) (asc "003")) && (
 true ) ) ) ) ) ) ) ) ) ) ) ) ) ) ) ) ) ) ) | _ => false end ;
let sp1 := (changed default_ascii [((u "p"), (props (Some (u "cp500")) (Some (u "ascii")) (Some (0)%Z) (Some (16)%Z) None None None (Some (u "Bitmap, Primary")))); ((u "1"), (props (Some (u "cp500")) (Some (u "ascii")) (Some (0)%Z) (Some (16)%Z) None None None (Some (u "Bitmap, Secondary")))); ((u "5"), (props (Some (u "ascii")) (Some (u "ascii")) (Some (3)%Z) (Some (999)%Z) None None None None)); ((u "7"), (props (Some (u "ascii")) (Some (u "ascii")) (Some (3)%Z) (Some (999)%Z) None None None None)); ((u "69"), (props (Some (u "ascii")) (Some (u "ascii")) (Some (3)%Z) (Some (999)%Z) None None None None)); ((u "71"), (props (Some (u "ascii")) (Some (u "ascii")) (Some (3)%Z) (Some (999)%Z) None None None None))]) in
match encode cpython311 (ADict [((KStr (u "t")), (VStr (u "0200"))); ((KStr (u "5")), (VStr (u "005"))); ((KStr (u "7")), (VStr (u "007"))); ((KStr (u "69")), (VStr (u "069"))); ((KStr (u "71")), (VStr (u "071")))]) sp1 with
 (Ok (s2, enc3), d4) =>
(eq_bytes s2 (raw [48; 50; 48; 48; 248; 193; 240; 240; 240; 240; 240; 240; 240; 240; 240; 240; 240; 240; 240; 240; 240; 193; 240; 240; 240; 240; 240; 240; 240; 240; 240; 240; 240; 240; 240; 240; 48; 48; 51; 48; 48; 53; 48; 48; 51; 48; 48; 55; 48; 48; 51; 48; 54; 57; 48; 48; 51; 48; 55; 49]%N)) && (
(eq_oval (pget (KStr (u "t")) d4) (u "0200")) && (
(eq_obytes (option_map e_data (sget (u "t") enc3)) (asc "0200")) && (
(eq_oval (pget (KStr (u "p")) d4) (u "8A00000000000000")) && (
(eq_obytes (option_map e_data (sget (u "p") enc3)) (raw [248; 193; 240; 240; 240; 240; 240; 240; 240; 240; 240; 240; 240; 240; 240; 240]%N)) && (
(eq_oval (pget (KStr (u "1")) d4) (u "0A00000000000000")) && (
(eq_obytes (option_map e_data (sget (u "1") enc3)) (raw [240; 193; 240; 240; 240; 240; 240; 240; 240; 240; 240; 240; 240; 240; 240; 240]%N)) && (
(eq_oval (pget (KStr (u "5")) d4) (u "005")) && (
(eq_obytes (option_map e_data (sget (u "5") enc3)) (asc "005")) && (
(eq_obytes (option_map e_len (sget (u "5") enc3)) (asc "003")) && (
(eq_oval (pget (KStr (u "7")) d4) (u "007")) && (
(eq_obytes (option_map e_data (sget (u "7") enc3)) (asc "007")) && (
(eq_obytes (option_map e_len (sget (u "7") enc3)) (asc "003")) && (
(eq_oval (pget (KStr (u "69")) d4) (u "069")) && (
(eq_obytes (option_map e_data (sget (u "69") enc3)) (asc "069")) && (
(eq_obytes (option_map e_len (sget (u "69") enc3)) (asc "003")) && (
(eq_oval (pget (KStr (u "71")) d4) (u "071")) && (
(eq_obytes (option_map e_data (sget (u "71") enc3)) (asc "071")) && (
(eq_obytes (option_map e_len (sget (u "71") enc3)) (asc "003")) && (
 true ) ) ) ) ) ) ) ) ) ) ) ) ) ) ) ) ) ) ) | _ => false end ;
let sp1 := (changed default_ascii [((u "p"), (props (Some (u "b")) (Some (u "ascii")) (Some (0)%Z) (Some (16)%Z) None None None (Some (u "Bitmap, Primary")))); ((u "1"), (props (Some (u "b")) (Some (u "ascii")) (Some (0)%Z) (Some (16)%Z) None None None (Some (u "Bitmap, Secondary")))); ((u "5"), (props (Some (u "ascii")) (Some (u "ascii")) (Some (3)%Z) (Some (999)%Z) None None None None)); ((u "7"), (props (Some (u "ascii")) (Some (u "ascii")) (Some (3)%Z) (Some (999)%Z) None None None None)); ((u "69"), (props (Some (u "ascii")) (Some (u "ascii")) (Some (3)%Z) (Some (999)%Z) None None None None)); ((u "71"), (props (Some (u "ascii")) (Some (u "ascii")) (Some (3)%Z) (Some (999)%Z) None None None None))]) in
match encode cpython311 (ADict [((KStr (u "t")), (VStr (u "0200"))); ((KStr (u "5")), (VStr (u "005"))); ((KStr (u "7")), (VStr (u "007"))); ((KStr (u "69")), (VStr (u "069"))); ((KStr (u "71")), (VStr (u "071")))]) sp1 with
 (Ok (s2, enc3), d4) =>
(eq_bytes s2 (raw [48; 50; 48; 48; 138; 0; 0; 0; 0; 0; 0; 0; 10; 0; 0; 0; 0; 0; 0; 0; 48; 48; 51; 48; 48; 53; 48; 48; 51; 48; 48; 55; 48; 48; 51; 48; 54; 57; 48; 48; 51; 48; 55; 49]%N)) && (
(eq_oval (pget (KStr (u "t")) d4) (u "0200")) && (
(eq_obytes (option_map e_data (sget (u "t") enc3)) (asc "0200")) && (
(eq_oval (pget (KStr (u "p")) d4) (u "8A00000000000000")) && (
(eq_obytes (option_map e_data (sget (u "p") enc3)) (raw [138; 0; 0; 0; 0; 0; 0; 0]%N)) && (
(eq_oval (pget (KStr (u "1")) d4) (u "0A00000000000000")) && (
(eq_obytes (option_map e_data (sget (u "1") enc3)) (raw [10; 0; 0; 0; 0; 0; 0; 0]%N)) && (
(eq_oval (pget (KStr (u "5")) d4) (u "005")) && (
(eq_obytes (option_map e_data (sget (u "5") enc3)) (asc "005")) && (
(eq_obytes (option_map e_len (sget (u "5") enc3)) (asc "003")) && (
(eq_oval (pget (KStr (u "7")) d4) (u "007")) && (
(eq_obytes (option_map e_data (sget (u "7") enc3)) (asc "007")) && (
(eq_obytes (option_map e_len (sget (u "7") enc3)) (asc "003")) && (
(eq_oval (pget (KStr (u "69")) d4) (u "069")) && (
(eq_obytes (option_map e_data (sget (u "69") enc3)) (asc "069")) && (
(eq_obytes (option_map e_len (sget (u "69") enc3)) (asc "003")) && (
(eq_oval (pget (KStr (u "71")) d4) (u "071")) && (
(eq_obytes (option_map e_data (sget (u "71") enc3)) (asc "071")) && (
(eq_obytes (option_map e_len (sget (u "71") enc3)) (asc "003")) && (
 true ) ) ) ) ) ) ) ) ) ) ) ) ) ) ) ) ) ) ) | _ => false end ;
let sp1 := (changed default_ascii [((u "69"), (props (Some (u "ascii")) (Some (u "ascii")) (Some (3)%Z) (Some (999)%Z) None None None None)); ((u "71"), (props (Some (u "ascii")) (Some (u "ascii")) (Some (3)%Z) (Some (999)%Z) None None None None))]) in
match encode cpython311 (ADict [((KStr (u "t")), (VStr (u "0200"))); ((KStr (u "69")), (VStr (u "069"))); ((KStr (u "71")), (VStr (u "071")))]) sp1 with
 (Ok (s2, enc3), d4) =>
(eq_bytes s2 (asc "020080000000000000000A00000000000000003069003071")) && (
(eq_oval (pget (KStr (u "t")) d4) (u "0200")) && (
(eq_obytes (option_map e_data (sget (u "t") enc3)) (asc "0200")) && (
(eq_oval (pget (KStr (u "p")) d4) (u "8000000000000000")) && (
(eq_obytes (option_map e_data (sget (u "p") enc3)) (asc "8000000000000000")) && (
(eq_oval (pget (KStr (u "1")) d4) (u "0A00000000000000")) && (
(eq_obytes (option_map e_data (sget (u "1") enc3)) (asc "0A00000000000000")) && (
(eq_oval (pget (KStr (u "69")) d4) (u "069")) && (
(eq_obytes (option_map e_data (sget (u "69") enc3)) (asc "069")) && (
(eq_obytes (option_map e_len (sget (u "69") enc3)) (asc "003")) && (
(eq_oval (pget (KStr (u "71")) d4) (u "071")) && (
(eq_obytes (option_map e_data (sget (u "71") enc3)) (asc "071")) && (
(eq_obytes (option_map e_len (sget (u "71") enc3)) (asc "003")) && (
 true ) ) ) ) ) ) ) ) ) ) ) ) ) | _ => false end ;
let sp1 := (changed default_ascii [((u "p"), (props (Some (u "cp500")) (Some (u "ascii")) (Some (0)%Z) (Some (16)%Z) None None None (Some (u "Bitmap, Primary")))); ((u "1"), (props (Some (u "cp500")) (Some (u "ascii")) (Some (0)%Z) (Some (16)%Z) None None None (Some (u "Bitmap, Secondary")))); ((u "69"), (props (Some (u "ascii")) (Some (u "ascii")) (Some (3)%Z) (Some (999)%Z) None None None None)); ((u "71"), (props (Some (u "ascii")) (Some (u "ascii")) (Some (3)%Z) (Some (999)%Z) None None None None))]) in
match encode cpython311 (ADict [((KStr (u "t")), (VStr (u "0200"))); ((KStr (u "69")), (VStr (u "069"))); ((KStr (u "71")), (VStr (u "071")))]) sp1 with
 (Ok (s2, enc3), d4) =>
(eq_bytes s2 (raw [48; 50; 48; 48; 248; 240; 240; 240; 240; 240; 240; 240; 240; 240; 240; 240; 240; 240; 240; 240; 240; 193; 240; 240; 240; 240; 240; 240; 240; 240; 240; 240; 240; 240; 240; 240; 48; 48; 51; 48; 54; 57; 48; 48; 51; 48; 55; 49]%N)) && (
(eq_oval (pget (KStr (u "t")) d4) (u "0200")) && (
(eq_obytes (option_map e_data (sget (u "t") enc3)) (asc "0200")) && (
(eq_oval (pget (KStr (u "p")) d4) (u "8000000000000000")) && (
(eq_obytes (option_map e_data (sget (u "p") enc3)) (raw [248; 240; 240; 240; 240; 240; 240; 240; 240; 240; 240; 240; 240; 240; 240; 240]%N)) && (
(eq_oval (pget (KStr (u "1")) d4) (u "0A00000000000000")) && (
(eq_obytes (option_map e_data (sget (u "1") enc3)) (raw [240; 193; 240; 240; 240; 240; 240; 240; 240; 240; 240; 240; 240; 240; 240; 240]%N)) && (
(eq_oval (pget (KStr (u "69")) d4) (u "069")) && (
(eq_obytes (option_map e_data (sget (u "69") enc3)) (asc "069")) && (
(eq_obytes (option_map e_len (sget (u "69") enc3)) (asc "003")) && (
(eq_oval (pget (KStr (u "71")) d4) (u "071")) && (
(eq_obytes (option_map e_data (sget (u "71") enc3)) (asc "071")) && (
(eq_obytes (option_map e_len (sget (u "71") enc3)) (asc "003")) && (
 true ) ) ) ) ) ) ) ) ) ) ) ) ) | _ => false end ;
let sp1 := (changed default_ascii [((u "p"), (props (Some (u "b")) (Some (u "ascii")) (Some (0)%Z) (Some (16)%Z) None None None (Some (u "Bitmap, Primary")))); ((u "1"), (props (Some (u "b")) (Some (u "ascii")) (Some (0)%Z) (Some (16)%Z) None None None (Some (u "Bitmap, Secondary")))); ((u "69"), (props (Some (u "ascii")) (Some (u "ascii")) (Some (3)%Z) (Some (999)%Z) None None None None)); ((u "71"), (props (Some (u "ascii")) (Some (u "ascii")) (Some (3)%Z) (Some (999)%Z) None None None None))]) in
match encode cpython311 (ADict [((KStr (u "t")), (VStr (u "0200"))); ((KStr (u "69")), (VStr (u "069"))); ((KStr (u "71")), (VStr (u "071")))]) sp1 with
 (Ok (s2, enc3), d4) =>
(eq_bytes s2 (raw [48; 50; 48; 48; 128; 0; 0; 0; 0; 0; 0; 0; 10; 0; 0; 0; 0; 0; 0; 0; 48; 48; 51; 48; 54; 57; 48; 48; 51; 48; 55; 49]%N)) && (
(eq_oval (pget (KStr (u "t")) d4) (u "0200")) && (
(eq_obytes (option_map e_data (sget (u "t") enc3)) (asc "0200")) && (
(eq_oval (pget (KStr (u "p")) d4) (u "8000000000000000")) && (
(eq_obytes (option_map e_data (sget (u "p") enc3)) (raw [128; 0; 0; 0; 0; 0; 0; 0]%N)) && (
(eq_oval (pget (KStr (u "1")) d4) (u "0A00000000000000")) && (
(eq_obytes (option_map e_data (sget (u "1") enc3)) (raw [10; 0; 0; 0; 0; 0; 0; 0]%N)) && (
(eq_oval (pget (KStr (u "69")) d4) (u "069")) && (
(eq_obytes (option_map e_data (sget (u "69") enc3)) (asc "069")) && (
(eq_obytes (option_map e_len (sget (u "69") enc3)) (asc "003")) && (
(eq_oval (pget (KStr (u "71")) d4) (u "071")) && (
(eq_obytes (option_map e_data (sget (u "71") enc3)) (asc "071")) && (
(eq_obytes (option_map e_len (sget (u "71") enc3)) (asc "003")) && (
 true ) ) ) ) ) ) ) ) ) ) ) ) ) | _ => false end ;
let sp1 := (changed default_ascii [((u "5"), (props (Some (u "ascii")) (Some (u "ascii")) (Some (3)%Z) (Some (999)%Z) None None None None)); ((u "7"), (props (Some (u "ascii")) (Some (u "ascii")) (Some (3)%Z) (Some (999)%Z) None None None None)); ((u "69"), (props (Some (u "ascii")) (Some (u "ascii")) (Some (3)%Z) (Some (999)%Z) None None None None)); ((u "71"), (props (Some (u "ascii")) (Some (u "ascii")) (Some (3)%Z) (Some (999)%Z) None None None None)); ((u "133"), (props (Some (u "ascii")) (Some (u "ascii")) (Some (3)%Z) (Some (999)%Z) None None None None)); ((u "135"), (props (Some (u "ascii")) (Some (u "ascii")) (Some (3)%Z) (Some (999)%Z) None None None None))]) in
match encode cpython311 (ADict [((KStr (u "t")), (VStr (u "0200"))); ((KStr (u "5")), (VStr (u "005"))); ((KStr (u "7")), (VStr (u "007"))); ((KStr (u "69")), (VStr (u "069"))); ((KStr (u "71")), (VStr (u "071"))); ((KStr (u "133")), (VStr (u "133"))); ((KStr (u "135")), (VStr (u "135")))]) sp1 with
 (Ok (s2, enc3), d4) =>
(eq_bytes s2 (asc "02008A000000000000008A000000000000000A00000000000000003005003007003069003071003133003135")) && (
(eq_oval (pget (KStr (u "t")) d4) (u "0200")) && (
(eq_obytes (option_map e_data (sget (u "t") enc3)) (asc "0200")) && (
(eq_oval (pget (KStr (u "p")) d4) (u "8A00000000000000")) && (
(eq_obytes (option_map e_data (sget (u "p") enc3)) (asc "8A00000000000000")) && (
(eq_oval (pget (KStr (u "1")) d4) (u "8A000000000000000A00000000000000")) && (
(eq_obytes (option_map e_data (sget (u "1") enc3)) (asc "8A000000000000000A00000000000000")) && (
(eq_oval (pget (KStr (u "5")) d4) (u "005")) && (
(eq_obytes (option_map e_data (sget (u "5") enc3)) (asc "005")) && (
(eq_obytes (option_map e_len (sget (u "5") enc3)) (asc "003")) && (
(eq_oval (pget (KStr (u "7")) d4) (u "007")) && (
(eq_obytes (option_map e_data (sget (u "7") enc3)) (asc "007")) && (
(eq_obytes (option_map e_len (sget (u "7") enc3)) (asc "003")) && (
(eq_oval (pget (KStr (u "69")) d4) (u "069")) && (
(eq_obytes (option_map e_data (sget (u "69") enc3)) (asc "069")) && (
(eq_obytes (option_map e_len (sget (u "69") enc3)) (asc "003")) && (
(eq_oval (pget (KStr (u "71")) d4) (u "071")) && (
(eq_obytes (option_map e_data (sget (u "71") enc3)) (asc "071")) && (
(eq_obytes (option_map e_len (sget (u "71") enc3)) (asc "003")) && (
(eq_oval (pget (KStr (u "133")) d4) (u "133")) && (
(eq_obytes (option_map e_data (sget (u "133") enc3)) (asc "133")) && (
(eq_obytes (option_map e_len (sget (u "133") enc3)) (asc "003")) && (
(eq_oval (pget (KStr (u "135")) d4) (u "135")) && (
(eq_obytes (option_map e_data (sget (u "135") enc3)) (asc "135")) && (
(eq_obytes (option_map e_len (sget (u "135") enc3)) (asc "003")) && (
 true ) ) ) ) ) ) ) ) ) ) ) ) ) ) ) ) ) ) ) ) ) ) ) ) ) | _ => false end ;
let sp1 := (changed default_ascii [((u "p"), (props (Some (u "cp500")) (Some (u "ascii")) (Some (0)%Z) (Some (16)%Z) None None None (Some (u "Bitmap, Primary")))); ((u "1"), (props (Some (u "cp500")) (Some (u "ascii")) (Some (0)%Z) (Some (16)%Z) None None None (Some (u "Bitmap, Secondary")))); ((u "5"), (props (Some (u "ascii")) (Some (u "ascii")) (Some (3)%Z) (Some (999)%Z) None None None None)); ((u "7"), (props (Some (u "ascii")) (Some (u "ascii")) (Some (3)%Z) (Some (999)%Z) None None None None)); ((u "69"), (props (Some (u "ascii")) (Some (u "ascii")) (Some (3)%Z) (Some (999)%Z) None None None None)); ((u "71"), (props (Some (u "ascii")) (Some (u "ascii")) (Some (3)%Z) (Some (999)%Z) None None None None)); ((u "133"), (props (Some (u "ascii")) (Some (u "ascii")) (Some (3)%Z) (Some (999)%Z) None None None None)); ((u "135"), (props (Some (u "ascii")) (Some (u "ascii")) (Some (3)%Z) (Some (999)%Z) None None None None))]) in
match encode cpython311 (ADict [((KStr (u "t")), (VStr (u "0200"))); ((KStr (u "5")), (VStr (u "005"))); ((KStr (u "7")), (VStr (u "007"))); ((KStr (u "69")), (VStr (u "069"))); ((KStr (u "71")), (VStr (u "071"))); ((KStr (u "133")), (VStr (u "133"))); ((KStr (u "135")), (VStr (u "135")))]) sp1 with
 (Ok (s2, enc3), d4) =>
(eq_bytes s2 (raw [48; 50; 48; 48; 248; 193; 240; 240; 240; 240; 240; 240; 240; 240; 240; 240; 240; 240; 240; 240; 248; 193; 240; 240; 240; 240; 240; 240; 240; 240; 240; 240; 240; 240; 240; 240; 240; 193; 240; 240; 240; 240; 240; 240; 240; 240; 240; 240; 240; 240; 240; 240; 48; 48; 51; 48; 48; 53; 48; 48; 51; 48; 48; 55; 48; 48; 51; 48; 54; 57; 48; 48; 51; 48; 55; 49; 48; 48; 51; 49; 51; 51; 48; 48; 51; 49; 51; 53]%N)) && (
(eq_oval (pget (KStr (u "t")) d4) (u "0200")) && (
(eq_obytes (option_map e_data (sget (u "t") enc3)) (asc "0200")) && (
(eq_oval (pget (KStr (u "p")) d4) (u "8A00000000000000")) && (
(eq_obytes (option_map e_data (sget (u "p") enc3)) (raw [248; 193; 240; 240; 240; 240; 240; 240; 240; 240; 240; 240; 240; 240; 240; 240]%N)) && (
(eq_oval (pget (KStr (u "1")) d4) (u "8A000000000000000A00000000000000")) && (
(eq_obytes (option_map e_data (sget (u "1") enc3)) (raw [248; 193; 240; 240; 240; 240; 240; 240; 240; 240; 240; 240; 240; 240; 240; 240; 240; 193; 240; 240; 240; 240; 240; 240; 240; 240; 240; 240; 240; 240; 240; 240]%N)) && (
(eq_oval (pget (KStr (u "5")) d4) (u "005")) && (
(eq_obytes (option_map e_data (sget (u "5") enc3)) (asc "005")) && (
(eq_obytes (option_map e_len (sget (u "5") enc3)) (asc "003")) && (
(eq_oval (pget (KStr (u "7")) d4) (u "007")) && (
(eq_obytes (option_map e_data (sget (u "7") enc3)) (asc "007")) && (
(eq_obytes (option_map e_len (sget (u "7") enc3)) (asc "003")) && (
(eq_oval (pget (KStr (u "69")) d4) (u "069")) && (
(eq_obytes (option_map e_data (sget (u "69") enc3)) (asc "069")) && (
(eq_obytes (option_map e_len (sget (u "69") enc3)) (asc "003")) && (
(eq_oval (pget (KStr (u "71")) d4) (u "071")) && (
(eq_obytes (option_map e_data (sget (u "71") enc3)) (asc "071")) && (
(eq_obytes (option_map e_len (sget (u "71") enc3)) (asc "003")) && (
(eq_oval (pget (KStr (u "133")) d4) (u "133")) && (
(eq_obytes (option_map e_data (sget (u "133") enc3)) (asc "133")) && (
(eq_obytes (option_map e_len (sget (u "133") enc3)) (asc "003")) && (
(eq_oval (pget (KStr (u "135")) d4) (u "135")) && (
(eq_obytes (option_map e_data (sget (u "135") enc3)) (asc "135")) && (
(eq_obytes (option_map e_len (sget (u "135") enc3)) (asc "003")) && (
 true ) ) ) ) ) ) ) ) ) ) ) ) ) ) ) ) ) ) ) ) ) ) ) ) ) | _ => false end ;
let sp1 := (changed default_ascii [((u "p"), (props (Some (u "b")) (Some (u "ascii")) (Some (0)%Z) (Some (16)%Z) None None None (Some (u "Bitmap, Primary")))); ((u "1"), (props (Some (u "b")) (Some (u "ascii")) (Some (0)%Z) (Some (16)%Z) None None None (Some (u "Bitmap, Secondary")))); ((u "5"), (props (Some (u "ascii")) (Some (u "ascii")) (Some (3)%Z) (Some (999)%Z) None None None None)); ((u "7"), (props (Some (u "ascii")) (Some (u "ascii")) (Some (3)%Z) (Some (999)%Z) None None None None)); ((u "69"), (props (Some (u "ascii")) (Some (u "ascii")) (Some (3)%Z) (Some (999)%Z) None None None None)); ((u "71"), (props (Some (u "ascii")) (Some (u "ascii")) (Some (3)%Z) (Some (999)%Z) None None None None)); ((u "133"), (props (Some (u "ascii")) (Some (u "ascii")) (Some (3)%Z) (Some (999)%Z) None None None None)); ((u "135"), (props (Some (u "ascii")) (Some (u "ascii")) (Some (3)%Z) (Some (999)%Z) None None None None))]) in
match encode cpython311 (ADict [((KStr (u "t")), (VStr (u "0200"))); ((KStr (u "5")), (VStr (u "005"))); ((KStr (u "7")), (VStr (u "007"))); ((KStr (u "69")), (VStr (u "069"))); ((KStr (u "71")), (VStr (u "071"))); ((KStr (u "133")), (VStr (u "133"))); ((KStr (u "135")), (VStr (u "135")))]) sp1 with
 (Ok (s2, enc3), d4) =>
(eq_bytes s2 (raw [48; 50; 48; 48; 138; 0; 0; 0; 0; 0; 0; 0; 138; 0; 0; 0; 0; 0; 0; 0; 10; 0; 0; 0; 0; 0; 0; 0; 48; 48; 51; 48; 48; 53; 48; 48; 51; 48; 48; 55; 48; 48; 51; 48; 54; 57; 48; 48; 51; 48; 55; 49; 48; 48; 51; 49; 51; 51; 48; 48; 51; 49; 51; 53]%N)) && (
(eq_oval (pget (KStr (u "t")) d4) (u "0200")) && (
(eq_obytes (option_map e_data (sget (u "t") enc3)) (asc "0200")) && (
(eq_oval (pget (KStr (u "p")) d4) (u "8A00000000000000")) && (
(eq_obytes (option_map e_data (sget (u "p") enc3)) (raw [138; 0; 0; 0; 0; 0; 0; 0]%N)) && (
(eq_oval (pget (KStr (u "1")) d4) (u "8A000000000000000A00000000000000")) && (
(eq_obytes (option_map e_data (sget (u "1") enc3)) (raw [138; 0; 0; 0; 0; 0; 0; 0; 10; 0; 0; 0; 0; 0; 0; 0]%N)) && (
(eq_oval (pget (KStr (u "5")) d4) (u "005")) && (
(eq_obytes (option_map e_data (sget (u "5") enc3)) (asc "005")) && (
(eq_obytes (option_map e_len (sget (u "5") enc3)) (asc "003")) && (
(eq_oval (pget (KStr (u "7")) d4) (u "007")) && (
(eq_obytes (option_map e_data (sget (u "7") enc3)) (asc "007")) && (
(eq_obytes (option_map e_len (sget (u "7") enc3)) (asc "003")) && (
(eq_oval (pget (KStr (u "69")) d4) (u "069")) && (
(eq_obytes (option_map e_data (sget (u "69") enc3)) (asc "069")) && (
(eq_obytes (option_map e_len (sget (u "69") enc3)) (asc "003")) && (
(eq_oval (pget (KStr (u "71")) d4) (u "071")) && (
(eq_obytes (option_map e_data (sget (u "71") enc3)) (asc "071")) && (
(eq_obytes (option_map e_len (sget (u "71") enc3)) (asc "003")) && (
(eq_oval (pget (KStr (u "133")) d4) (u "133")) && (
(eq_obytes (option_map e_data (sget (u "133") enc3)) (asc "133")) && (
(eq_obytes (option_map e_len (sget (u "133") enc3)) (asc "003")) && (
(eq_oval (pget (KStr (u "135")) d4) (u "135")) && (
(eq_obytes (option_map e_data (sget (u "135") enc3)) (asc "135")) && (
(eq_obytes (option_map e_len (sget (u "135") enc3)) (asc "003")) && (
 true ) ) ) ) ) ) ) ) ) ) ) ) ) ) ) ) ) ) ) ) ) ) ) ) ) | _ => false end ;
let sp1 := (changed default_ascii [((u "133"), (props (Some (u "ascii")) (Some (u "ascii")) (Some (3)%Z) (Some (999)%Z) None None None None)); ((u "135"), (props (Some (u "ascii")) (Some (u "ascii")) (Some (3)%Z) (Some (999)%Z) None None None None))]) in
match encode cpython311 (ADict [((KStr (u "t")), (VStr (u "0200"))); ((KStr (u "133")), (VStr (u "133"))); ((KStr (u "135")), (VStr (u "135")))]) sp1 with
 (Ok (s2, enc3), d4) =>
(eq_bytes s2 (asc "0200800000000000000080000000000000000A00000000000000003133003135")) && (
(eq_oval (pget (KStr (u "t")) d4) (u "0200")) && (
(eq_obytes (option_map e_data (sget (u "t") enc3)) (asc "0200")) && (
(eq_oval (pget (KStr (u "p")) d4) (u "8000000000000000")) && (
(eq_obytes (option_map e_data (sget (u "p") enc3)) (asc "8000000000000000")) && (
(eq_oval (pget (KStr (u "1")) d4) (u "80000000000000000A00000000000000")) && (
(eq_obytes (option_map e_data (sget (u "1") enc3)) (asc "80000000000000000A00000000000000")) && (
(eq_oval (pget (KStr (u "133")) d4) (u "133")) && (
(eq_obytes (option_map e_data (sget (u "133") enc3)) (asc "133")) && (
(eq_obytes (option_map e_len (sget (u "133") enc3)) (asc "003")) && (
(eq_oval (pget (KStr (u "135")) d4) (u "135")) && (
(eq_obytes (option_map e_data (sget (u "135") enc3)) (asc "135")) && (
(eq_obytes (option_map e_len (sget (u "135") enc3)) (asc "003")) && (
 true ) ) ) ) ) ) ) ) ) ) ) ) ) | _ => false end ;
let sp1 := (changed default_ascii [((u "p"), (props (Some (u "cp500")) (Some (u "ascii")) (Some (0)%Z) (Some (16)%Z) None None None (Some (u "Bitmap, Primary")))); ((u "1"), (props (Some (u "cp500")) (Some (u "ascii")) (Some (0)%Z) (Some (16)%Z) None None None (Some (u "Bitmap, Secondary")))); ((u "133"), (props (Some (u "ascii")) (Some (u "ascii")) (Some (3)%Z) (Some (999)%Z) None None None None)); ((u "135"), (props (Some (u "ascii")) (Some (u "ascii")) (Some (3)%Z) (Some (999)%Z) None None None None))]) in
match encode cpython311 (ADict [((KStr (u "t")), (VStr (u "0200"))); ((KStr (u "133")), (VStr (u "133"))); ((KStr (u "135")), (VStr (u "135")))]) sp1 with
 (Ok (s2, enc3), d4) =>
(eq_bytes s2 (raw [48; 50; 48; 48; 248; 240; 240; 240; 240; 240; 240; 240; 240; 240; 240; 240; 240; 240; 240; 240; 248; 240; 240; 240; 240; 240; 240; 240; 240; 240; 240; 240; 240; 240; 240; 240; 240; 193; 240; 240; 240; 240; 240; 240; 240; 240; 240; 240; 240; 240; 240; 240; 48; 48; 51; 49; 51; 51; 48; 48; 51; 49; 51; 53]%N)) && (
(eq_oval (pget (KStr (u "t")) d4) (u "0200")) && (
(eq_obytes (option_map e_data (sget (u "t") enc3)) (asc "0200")) && (
(eq_oval (pget (KStr (u "p")) d4) (u "8000000000000000")) && (
(eq_obytes (option_map e_data (sget (u "p") enc3)) (raw [248; 240; 240; 240; 240; 240; 240; 240; 240; 240; 240; 240; 240; 240; 240; 240]%N)) && (
(eq_oval (pget (KStr (u "1")) d4) (u "80000000000000000A00000000000000")) && (
(eq_obytes (option_map e_data (sget (u "1") enc3)) (raw [248; 240; 240; 240; 240; 240; 240; 240; 240; 240; 240; 240; 240; 240; 240; 240; 240; 193; 240; 240; 240; 240; 240; 240; 240; 240; 240; 240; 240; 240; 240; 240]%N)) && (
(eq_oval (pget (KStr (u "133")) d4) (u "133")) && (
(eq_obytes (option_map e_data (sget (u "133") enc3)) (asc "133")) && (
(eq_obytes (option_map e_len (sget (u "133") enc3)) (asc "003")) && (
(eq_oval (pget (KStr (u "135")) d4) (u "135")) && (
(eq_obytes (option_map e_data (sget (u "135") enc3)) (asc "135")) && (
(eq_obytes (option_map e_len (sget (u "135") enc3)) (asc "003")) && (
 true ) ) ) ) ) ) ) ) ) ) ) ) ) | _ => false end ;
let sp1 := (changed default_ascii [((u "p"), (props (Some (u "b")) (Some (u "ascii")) (Some (0)%Z) (Some (16)%Z) None None None (Some (u "Bitmap, Primary")))); ((u "1"), (props (Some (u "b")) (Some (u "ascii")) (Some (0)%Z) (Some (16)%Z) None None None (Some (u "Bitmap, Secondary")))); ((u "133"), (props (Some (u "ascii")) (Some (u "ascii")) (Some (3)%Z) (Some (999)%Z) None None None None)); ((u "135"), (props (Some (u "ascii")) (Some (u "ascii")) (Some (3)%Z) (Some (999)%Z) None None None None))]) in
match encode cpython311 (ADict [((KStr (u "t")), (VStr (u "0200"))); ((KStr (u "133")), (VStr (u "133"))); ((KStr (u "135")), (VStr (u "135")))]) sp1 with
 (Ok (s2, enc3), d4) =>
(eq_bytes s2 (raw [48; 50; 48; 48; 128; 0; 0; 0; 0; 0; 0; 0; 128; 0; 0; 0; 0; 0; 0; 0; 10; 0; 0; 0; 0; 0; 0; 0; 48; 48; 51; 49; 51; 51; 48; 48; 51; 49; 51; 53]%N)) && (
(eq_oval (pget (KStr (u "t")) d4) (u "0200")) && (
(eq_obytes (option_map e_data (sget (u "t") enc3)) (asc "0200")) && (
(eq_oval (pget (KStr (u "p")) d4) (u "8000000000000000")) && (
(eq_obytes (option_map e_data (sget (u "p") enc3)) (raw [128; 0; 0; 0; 0; 0; 0; 0]%N)) && (
(eq_oval (pget (KStr (u "1")) d4) (u "80000000000000000A00000000000000")) && (
(eq_obytes (option_map e_data (sget (u "1") enc3)) (raw [128; 0; 0; 0; 0; 0; 0; 0; 10; 0; 0; 0; 0; 0; 0; 0]%N)) && (
(eq_oval (pget (KStr (u "133")) d4) (u "133")) && (
(eq_obytes (option_map e_data (sget (u "133") enc3)) (asc "133")) && (
(eq_obytes (option_map e_len (sget (u "133") enc3)) (asc "003")) && (
(eq_oval (pget (KStr (u "135")) d4) (u "135")) && (
(eq_obytes (option_map e_data (sget (u "135") enc3)) (asc "135")) && (
(eq_obytes (option_map e_len (sget (u "135") enc3)) (asc "003")) && (
 true ) ) ) ) ) ) ) ) ) ) ) ) ) | _ => false end ] = true.
Proof. vm_compute. reflexivity. Qed.

(** tests/test_encode.py:479. *)
Example test_bitmap_encoding_negative : forallb (fun b => b) [
let sp1 := (changed default_ascii [((u "p"), (props (Some (u "unknown_encoding")) (Some (u "ascii")) (Some (0)%Z) (Some (16)%Z) None None None (Some (u "Bitmap, Primary")))); ((u "5"), (props (Some (u "ascii")) (Some (u "ascii")) (Some (3)%Z) (Some (999)%Z) None None None (Some (u "Amount, Settlement"))))]) in
match encode cpython311 (ADict [((KStr (u "t")), (VStr (u "0210"))); ((KStr (u "5")), (VStr (u "005")))]) sp1 with
 (Raise (XEncodeError e2), d3) =>
(eq_str (ee_args0 e2) (u "Failed to encode field, unknown encoding specified: field p")) && (
 true ) | _ => false end ;
let sp1 := (changed default_ascii [((u "1"), (props (Some (u "unknown_encoding")) (Some (u "ascii")) (Some (0)%Z) (Some (16)%Z) None None None (Some (u "Bitmap, Secondary")))); ((u "66"), (props (Some (u "ascii")) (Some (u "ascii")) (Some (3)%Z) (Some (999)%Z) None None None (Some (u "Settlement Code"))))]) in
match encode cpython311 (ADict [((KStr (u "t")), (VStr (u "0210"))); ((KStr (u "66")), (VStr (u "066")))]) sp1 with
 (Raise (XEncodeError e2), d3) =>
(eq_str (ee_args0 e2) (u "Failed to encode field, unknown encoding specified: field 1")) && (
 true ) | _ => false end ;
let sp1 := (changed default_ascii [((u "1"), (props (Some (u "unknown_encoding")) (Some (u "ascii")) (Some (0)%Z) (Some (16)%Z) None None None (Some (u "Bitmap, Secondary"))))]) in
match encode cpython311 (ADict [((KStr (u "t")), (VStr (u "0210"))); ((KStr (u "130")), (VStr (u "130")))]) sp1 with
 (Raise (XEncodeError e2), d3) =>
(eq_str (ee_args0 e2) (u "Failed to encode field, unknown encoding specified: field 1")) && (
 true ) | _ => false end ;
match encode cpython311 (ADict [((KStr (u "t")), (VStr (u "0210"))); ((KStr (u "0")), (VStr (u "000")))]) default_ascii with
 (Raise (XEncodeError e1), d2) =>
(eq_str (ee_args0 e1) (u "Dictionary contains fields outside of 1-192 range [0]: field p")) && (
 true ) | _ => false end;
match encode cpython311 (ADict [((KStr (u "t")), (VStr (u "0210"))); ((KStr (u "193")), (VStr (u "193")))]) default_ascii with
 (Raise (XEncodeError e1), d2) =>
(eq_str (ee_args0 e1) (u "Dictionary contains fields outside of 1-192 range [193]: field p")) && (
 true ) | _ => false end;
let sp1 := (changed default_ascii [((u "1"), (props (Some (u "ascii")) (Some (u "ascii")) (Some (3)%Z) (Some (999)%Z) None None None (Some (u "Bitmap, Secondary")))); ((u "2"), (props (Some (u "ascii")) (Some (u "ascii")) (Some (3)%Z) (Some (999)%Z) None None None (Some (u "Primary Account Number (PAN)")))); ((u "3"), (props (Some (u "ascii")) (Some (u "ascii")) (Some (3)%Z) (Some (999)%Z) None None None (Some (u "Processing Code")))); ((u "4"), (props (Some (u "ascii")) (Some (u "ascii")) (Some (3)%Z) (Some (999)%Z) None None None (Some (u "Amount, Transaction")))); ((u "5"), (props (Some (u "ascii")) (Some (u "ascii")) (Some (3)%Z) (Some (999)%Z) None None None (Some (u "Amount, Settlement")))); ((u "6"), (props (Some (u "ascii")) (Some (u "ascii")) (Some (3)%Z) (Some (999)%Z) None None None (Some (u "Amount, Cardholder Billing")))); ((u "7"), (props (Some (u "ascii")) (Some (u "ascii")) (Some (3)%Z) (Some (999)%Z) None None None (Some (u "Transmission Date and Time")))); ((u "8"), (props (Some (u "ascii")) (Some (u "ascii")) (Some (3)%Z) (Some (999)%Z) None None None (Some (u "Amount, Cardholder Billing Fee")))); ((u "9"), (props (Some (u "ascii")) (Some (u "ascii")) (Some (3)%Z) (Some (999)%Z) None None None (Some (u "Conversion Rate, Settlement")))); ((u "10"), (props (Some (u "ascii")) (Some (u "ascii")) (Some (3)%Z) (Some (999)%Z) None None None (Some (u "Conversion Rate, Cardholder Billing")))); ((u "11"), (props (Some (u "ascii")) (Some (u "ascii")) (Some (3)%Z) (Some (999)%Z) None None None (Some (u "System Trace Audit Number")))); ((u "12"), (props (Some (u "ascii")) (Some (u "ascii")) (Some (3)%Z) (Some (999)%Z) None None None (Some (u "Time, Local Transaction")))); ((u "13"), (props (Some (u "ascii")) (Some (u "ascii")) (Some (3)%Z) (Some (999)%Z) None None None (Some (u "Date, Local Transaction")))); ((u "14"), (props (Some (u "ascii")) (Some (u "ascii")) (Some (3)%Z) (Some (999)%Z) None None None (Some (u "Date, Expiration")))); ((u "15"), (props (Some (u "ascii")) (Some (u "ascii")) (Some (3)%Z) (Some (999)%Z) None None None (Some (u "Date, Settlement")))); ((u "16"), (props (Some (u "ascii")) (Some (u "ascii")) (Some (3)%Z) (Some (999)%Z) None None None (Some (u "Date, Conversion")))); ((u "17"), (props (Some (u "ascii")) (Some (u "ascii")) (Some (3)%Z) (Some (999)%Z) None None None (Some (u "Date, Capture")))); ((u "18"), (props (Some (u "ascii")) (Some (u "ascii")) (Some (3)%Z) (Some (999)%Z) None None None (Some (u "Merchant Type")))); ((u "19"), (props (Some (u "ascii")) (Some (u "ascii")) (Some (3)%Z) (Some (999)%Z) None None None (Some (u "Acquiring Institution Country Code")))); ((u "20"), (props (Some (u "ascii")) (Some (u "ascii")) (Some (3)%Z) (Some (999)%Z) None None None (Some (u "PAN Country Code")))); ((u "21"), (props (Some (u "ascii")) (Some (u "ascii")) (Some (3)%Z) (Some (999)%Z) None None None (Some (u "Forwarding Institution Country Code")))); ((u "22"), (props (Some (u "ascii")) (Some (u "ascii")) (Some (3)%Z) (Some (999)%Z) None None None (Some (u "Point-of-Service Entry Mode")))); ((u "23"), (props (Some (u "ascii")) (Some (u "ascii")) (Some (3)%Z) (Some (999)%Z) None None None (Some (u "PAN Sequence Number")))); ((u "24"), (props (Some (u "ascii")) (Some (u "ascii")) (Some (3)%Z) (Some (999)%Z) None None None (Some (u "Network International ID (NII)")))); ((u "25"), (props (Some (u "ascii")) (Some (u "ascii")) (Some (3)%Z) (Some (999)%Z) None None None (Some (u "Point-of-Service Condition Code")))); ((u "26"), (props (Some (u "ascii")) (Some (u "ascii")) (Some (3)%Z) (Some (999)%Z) None None None (Some (u "Point-of-Service Capture Code")))); ((u "27"), (props (Some (u "ascii")) (Some (u "ascii")) (Some (3)%Z) (Some (999)%Z) None None None (Some (u "Authorizing ID Response Length")))); ((u "28"), (props (Some (u "ascii")) (Some (u "ascii")) (Some (3)%Z) (Some (999)%Z) None None None (Some (u "Amount, Transaction Fee")))); ((u "29"), (props (Some (u "ascii")) (Some (u "ascii")) (Some (3)%Z) (Some (999)%Z) None None None (Some (u "Amount, Settlement Fee")))); ((u "30"), (props (Some (u "ascii")) (Some (u "ascii")) (Some (3)%Z) (Some (999)%Z) None None None (Some (u "Amount, Transaction Processing Fee")))); ((u "31"), (props (Some (u "ascii")) (Some (u "ascii")) (Some (3)%Z) (Some (999)%Z) None None None (Some (u "Amount, Settlement Processing Fee")))); ((u "32"), (props (Some (u "ascii")) (Some (u "ascii")) (Some (3)%Z) (Some (999)%Z) None None None (Some (u "Acquiring Institution ID Code")))); ((u "33"), (props (Some (u "ascii")) (Some (u "ascii")) (Some (3)%Z) (Some (999)%Z) None None None (Some (u "Forwarding Institution ID Code")))); ((u "34"), (props (Some (u "ascii")) (Some (u "ascii")) (Some (3)%Z) (Some (999)%Z) None None None (Some (u "Primary Account Number, Extended")))); ((u "35"), (props (Some (u "ascii")) (Some (u "ascii")) (Some (3)%Z) (Some (999)%Z) None None None (Some (u "Track 2 Data")))); ((u "36"), (props (Some (u "ascii")) (Some (u "ascii")) (Some (3)%Z) (Some (999)%Z) None None None (Some (u "Track 3 Data")))); ((u "37"), (props (Some (u "ascii")) (Some (u "ascii")) (Some (3)%Z) (Some (999)%Z) None None None (Some (u "Retrieval Reference Number")))); ((u "38"), (props (Some (u "ascii")) (Some (u "ascii")) (Some (3)%Z) (Some (999)%Z) None None None (Some (u "Authorization ID Response")))); ((u "39"), (props (Some (u "ascii")) (Some (u "ascii")) (Some (3)%Z) (Some (999)%Z) None None None (Some (u "Response Code")))); ((u "40"), (props (Some (u "ascii")) (Some (u "ascii")) (Some (3)%Z) (Some (999)%Z) None None None (Some (u "Service Restriction Code")))); ((u "41"), (props (Some (u "ascii")) (Some (u "ascii")) (Some (3)%Z) (Some (999)%Z) None None None (Some (u "Card Acceptor Terminal ID")))); ((u "42"), (props (Some (u "ascii")) (Some (u "ascii")) (Some (3)%Z) (Some (999)%Z) None None None (Some (u "Card Acceptor ID Code")))); ((u "43"), (props (Some (u "ascii")) (Some (u "ascii")) (Some (3)%Z) (Some (999)%Z) None None None (Some (u "Card Acceptor Name/Location")))); ((u "44"), (props (Some (u "ascii")) (Some (u "ascii")) (Some (3)%Z) (Some (999)%Z) None None None (Some (u "Additional Response Data")))); ((u "45"), (props (Some (u "ascii")) (Some (u "ascii")) (Some (3)%Z) (Some (999)%Z) None None None (Some (u "Track 1 Data")))); ((u "49"), (props (Some (u "ascii")) (Some (u "ascii")) (Some (3)%Z) (Some (999)%Z) None None None (Some (u "Currency Code, Transaction")))); ((u "50"), (props (Some (u "ascii")) (Some (u "ascii")) (Some (3)%Z) (Some (999)%Z) None None None (Some (u "Currency Code, Settlement")))); ((u "51"), (props (Some (u "ascii")) (Some (u "ascii")) (Some (3)%Z) (Some (999)%Z) None None None (Some (u "Currency Code, Cardholder Billing")))); ((u "52"), (props (Some (u "ascii")) (Some (u "ascii")) (Some (3)%Z) (Some (999)%Z) None None None (Some (u "PIN")))); ((u "53"), (props (Some (u "ascii")) (Some (u "ascii")) (Some (3)%Z) (Some (999)%Z) None None None (Some (u "Security-Related Control Information")))); ((u "54"), (props (Some (u "ascii")) (Some (u "ascii")) (Some (3)%Z) (Some (999)%Z) None None None (Some (u "Additional Amounts")))); ((u "55"), (props (Some (u "ascii")) (Some (u "ascii")) (Some (3)%Z) (Some (999)%Z) None None None (Some (u "ICC data")))); ((u "64"), (props (Some (u "ascii")) (Some (u "ascii")) (Some (3)%Z) (Some (999)%Z) None None None (Some (u "MAC")))); ((u "65"), (props (Some (u "ascii")) (Some (u "ascii")) (Some (3)%Z) (Some (999)%Z) None None None (Some (u "Bitmap, Extended")))); ((u "66"), (props (Some (u "ascii")) (Some (u "ascii")) (Some (3)%Z) (Some (999)%Z) None None None (Some (u "Settlement Code")))); ((u "67"), (props (Some (u "ascii")) (Some (u "ascii")) (Some (3)%Z) (Some (999)%Z) None None None (Some (u "Extended Payment Code")))); ((u "68"), (props (Some (u "ascii")) (Some (u "ascii")) (Some (3)%Z) (Some (999)%Z) None None None (Some (u "Receiving Institution Country Code")))); ((u "69"), (props (Some (u "ascii")) (Some (u "ascii")) (Some (3)%Z) (Some (999)%Z) None None None (Some (u "Settlement Institution Country Code")))); ((u "70"), (props (Some (u "ascii")) (Some (u "ascii")) (Some (3)%Z) (Some (999)%Z) None None None (Some (u "Network Management Information Code")))); ((u "71"), (props (Some (u "ascii")) (Some (u "ascii")) (Some (3)%Z) (Some (999)%Z) None None None (Some (u "Message Number")))); ((u "72"), (props (Some (u "ascii")) (Some (u "ascii")) (Some (3)%Z) (Some (999)%Z) None None None (Some (u "Message Number, Last")))); ((u "73"), (props (Some (u "ascii")) (Some (u "ascii")) (Some (3)%Z) (Some (999)%Z) None None None (Some (u "Date, Action")))); ((u "74"), (props (Some (u "ascii")) (Some (u "ascii")) (Some (3)%Z) (Some (999)%Z) None None None (Some (u "Credits, Number")))); ((u "75"), (props (Some (u "ascii")) (Some (u "ascii")) (Some (3)%Z) (Some (999)%Z) None None None (Some (u "Credits, Reversal Number")))); ((u "76"), (props (Some (u "ascii")) (Some (u "ascii")) (Some (3)%Z) (Some (999)%Z) None None None (Some (u "Debits, Number")))); ((u "77"), (props (Some (u "ascii")) (Some (u "ascii")) (Some (3)%Z) (Some (999)%Z) None None None (Some (u "Debits, Reversal Number")))); ((u "78"), (props (Some (u "ascii")) (Some (u "ascii")) (Some (3)%Z) (Some (999)%Z) None None None (Some (u "Transfer, Number")))); ((u "79"), (props (Some (u "ascii")) (Some (u "ascii")) (Some (3)%Z) (Some (999)%Z) None None None (Some (u "Transfer, Reversal Number")))); ((u "80"), (props (Some (u "ascii")) (Some (u "ascii")) (Some (3)%Z) (Some (999)%Z) None None None (Some (u "Inquiries, Number")))); ((u "81"), (props (Some (u "ascii")) (Some (u "ascii")) (Some (3)%Z) (Some (999)%Z) None None None (Some (u "Authorizations, Number")))); ((u "82"), (props (Some (u "ascii")) (Some (u "ascii")) (Some (3)%Z) (Some (999)%Z) None None None (Some (u "Credits, Processing Fee Amount")))); ((u "83"), (props (Some (u "ascii")) (Some (u "ascii")) (Some (3)%Z) (Some (999)%Z) None None None (Some (u "Credits, Transaction Fee Amount")))); ((u "84"), (props (Some (u "ascii")) (Some (u "ascii")) (Some (3)%Z) (Some (999)%Z) None None None (Some (u "Debits, Processing Fee Amount")))); ((u "85"), (props (Some (u "ascii")) (Some (u "ascii")) (Some (3)%Z) (Some (999)%Z) None None None (Some (u "Debits, Transaction Fee Amount")))); ((u "86"), (props (Some (u "ascii")) (Some (u "ascii")) (Some (3)%Z) (Some (999)%Z) None None None (Some (u "Credits, Amount")))); ((u "87"), (props (Some (u "ascii")) (Some (u "ascii")) (Some (3)%Z) (Some (999)%Z) None None None (Some (u "Credits, Reversal Amount")))); ((u "88"), (props (Some (u "ascii")) (Some (u "ascii")) (Some (3)%Z) (Some (999)%Z) None None None (Some (u "Debits, Amount")))); ((u "89"), (props (Some (u "ascii")) (Some (u "ascii")) (Some (3)%Z) (Some (999)%Z) None None None (Some (u "Debits, Reversal Amount")))); ((u "90"), (props (Some (u "ascii")) (Some (u "ascii")) (Some (3)%Z) (Some (999)%Z) None None None (Some (u "Original Data Elements")))); ((u "91"), (props (Some (u "ascii")) (Some (u "ascii")) (Some (3)%Z) (Some (999)%Z) None None None (Some (u "File Update Code")))); ((u "92"), (props (Some (u "ascii")) (Some (u "ascii")) (Some (3)%Z) (Some (999)%Z) None None None (Some (u "File Security Code")))); ((u "93"), (props (Some (u "ascii")) (Some (u "ascii")) (Some (3)%Z) (Some (999)%Z) None None None (Some (u "Response Indicator")))); ((u "94"), (props (Some (u "ascii")) (Some (u "ascii")) (Some (3)%Z) (Some (999)%Z) None None None (Some (u "Service Indicator")))); ((u "95"), (props (Some (u "ascii")) (Some (u "ascii")) (Some (3)%Z) (Some (999)%Z) None None None (Some (u "Replacement Amounts")))); ((u "96"), (props (Some (u "ascii")) (Some (u "ascii")) (Some (3)%Z) (Some (999)%Z) None None None (Some (u "Message Security Code")))); ((u "97"), (props (Some (u "ascii")) (Some (u "ascii")) (Some (3)%Z) (Some (999)%Z) None None None (Some (u "Amount, Net Settlement")))); ((u "98"), (props (Some (u "ascii")) (Some (u "ascii")) (Some (3)%Z) (Some (999)%Z) None None None (Some (u "Payee")))); ((u "99"), (props (Some (u "ascii")) (Some (u "ascii")) (Some (3)%Z) (Some (999)%Z) None None None (Some (u "Settlement Institution ID Code")))); ((u "100"), (props (Some (u "ascii")) (Some (u "ascii")) (Some (3)%Z) (Some (999)%Z) None None None (Some (u "Receiving Institution ID Code")))); ((u "101"), (props (Some (u "ascii")) (Some (u "ascii")) (Some (3)%Z) (Some (999)%Z) None None None (Some (u "File Name")))); ((u "102"), (props (Some (u "ascii")) (Some (u "ascii")) (Some (3)%Z) (Some (999)%Z) None None None (Some (u "Account ID 1")))); ((u "103"), (props (Some (u "ascii")) (Some (u "ascii")) (Some (3)%Z) (Some (999)%Z) None None None (Some (u "Account ID 2")))); ((u "104"), (props (Some (u "ascii")) (Some (u "ascii")) (Some (3)%Z) (Some (999)%Z) None None None (Some (u "Transaction Description")))); ((u "128"), (props (Some (u "ascii")) (Some (u "ascii")) (Some (3)%Z) (Some (999)%Z) None None None (Some (u "MAC"))))]) in
match encode cpython311 (ADict [((KStr (u "t")), (VStr (u "0210"))); ((KStr (u "0")), (VStr (u "000"))); ((KStr (u "1")), (VStr (u "001"))); ((KStr (u "2")), (VStr (u "002"))); ((KStr (u "3")), (VStr (u "003"))); ((KStr (u "4")), (VStr (u "004"))); ((KStr (u "5")), (VStr (u "005"))); ((KStr (u "6")), (VStr (u "006"))); ((KStr (u "7")), (VStr (u "007"))); ((KStr (u "8")), (VStr (u "008"))); ((KStr (u "9")), (VStr (u "009"))); ((KStr (u "10")), (VStr (u "010"))); ((KStr (u "11")), (VStr (u "011"))); ((KStr (u "12")), (VStr (u "012"))); ((KStr (u "13")), (VStr (u "013"))); ((KStr (u "14")), (VStr (u "014"))); ((KStr (u "15")), (VStr (u "015"))); ((KStr (u "16")), (VStr (u "016"))); ((KStr (u "17")), (VStr (u "017"))); ((KStr (u "18")), (VStr (u "018"))); ((KStr (u "19")), (VStr (u "019"))); ((KStr (u "20")), (VStr (u "020"))); ((KStr (u "21")), (VStr (u "021"))); ((KStr (u "22")), (VStr (u "022"))); ((KStr (u "23")), (VStr (u "023"))); ((KStr (u "24")), (VStr (u "024"))); ((KStr (u "25")), (VStr (u "025"))); ((KStr (u "26")), (VStr (u "026"))); ((KStr (u "27")), (VStr (u "027"))); ((KStr (u "28")), (VStr (u "028"))); ((KStr (u "29")), (VStr (u "029"))); ((KStr (u "30")), (VStr (u "030"))); ((KStr (u "31")), (VStr (u "031"))); ((KStr (u "32")), (VStr (u "032"))); ((KStr (u "33")), (VStr (u "033"))); ((KStr (u "34")), (VStr (u "034"))); ((KStr (u "35")), (VStr (u "035"))); ((KStr (u "36")), (VStr (u "036"))); ((KStr (u "37")), (VStr (u "037"))); ((KStr (u "38")), (VStr (u "038"))); ((KStr (u "39")), (VStr (u "039"))); ((KStr (u "40")), (VStr (u "040"))); ((KStr (u "41")), (VStr (u "041"))); ((KStr (u "42")), (VStr (u "042"))); ((KStr (u "43")), (VStr (u "043"))); ((KStr (u "44")), (VStr (u "044"))); ((KStr (u "45")), (VStr (u "045"))); ((KStr (u "46")), (VStr (u "046"))); ((KStr (u "47")), (VStr (u "047"))); ((KStr (u "48")), (VStr (u "048"))); ((KStr (u "49")), (VStr (u "049"))); ((KStr (u "50")), (VStr (u "050"))); ((KStr (u "51")), (VStr (u "051"))); ((KStr (u "52")), (VStr (u "052"))); ((KStr (u "53")), (VStr (u "053"))); ((KStr (u "54")), (VStr (u "054"))); ((KStr (u "55")), (VStr (u "055"))); ((KStr (u "56")), (VStr (u "056"))); ((KStr (u "57")), (VStr (u "057"))); ((KStr (u "58")), (VStr (u "058"))); ((KStr (u "59")), (VStr (u "059"))); ((KStr (u "60")), (VStr (u "060"))); ((KStr (u "61")), (VStr (u "061"))); ((KStr (u "62")), (VStr (u "062"))); ((KStr (u "63")), (VStr (u "063"))); ((KStr (u "64")), (VStr (u "064"))); ((KStr (u "65")), (VStr (u "065"))); ((KStr (u "66")), (VStr (u "066"))); ((KStr (u "67")), (VStr (u "067"))); ((KStr (u "68")), (VStr (u "068"))); ((KStr (u "69")), (VStr (u "069"))); ((KStr (u "70")), (VStr (u "070"))); ((KStr (u "71")), (VStr (u "071"))); ((KStr (u "72")), (VStr (u "072"))); ((KStr (u "73")), (VStr (u "073"))); ((KStr (u "74")), (VStr (u "074"))); ((KStr (u "75")), (VStr (u "075"))); ((KStr (u "76")), (VStr (u "076"))); ((KStr (u "77")), (VStr (u "077"))); ((KStr (u "78")), (VStr (u "078"))); ((KStr (u "79")), (VStr (u "079"))); ((KStr (u "80")), (VStr (u "080"))); ((KStr (u "81")), (VStr (u "081"))); ((KStr (u "82")), (VStr (u "082"))); ((KStr (u "83")), (VStr (u "083"))); ((KStr (u "84")), (VStr (u "084"))); ((KStr (u "85")), (VStr (u "085"))); ((KStr (u "86")), (VStr (u "086"))); ((KStr (u "87")), (VStr (u "087"))); ((KStr (u "88")), (VStr (u "088"))); ((KStr (u "89")), (VStr (u "089"))); ((KStr (u "90")), (VStr (u "090"))); ((KStr (u "91")), (VStr (u "091"))); ((KStr (u "92")), (VStr (u "092"))); ((KStr (u "93")), (VStr (u "093"))); ((KStr (u "94")), (VStr (u "094"))); ((KStr (u "95")), (VStr (u "095"))); ((KStr (u "96")), (VStr (u "096"))); ((KStr (u "97")), (VStr (u "097"))); ((KStr (u "98")), (VStr (u "098"))); ((KStr (u "99")), (VStr (u "099"))); ((KStr (u "100")), (VStr (u "100"))); ((KStr (u "101")), (VStr (u "101"))); ((KStr (u "102")), (VStr (u "102"))); ((KStr (u "103")), (VStr (u "103"))); ((KStr (u "104")), (VStr (u "104"))); ((KStr (u "105")), (VStr (u "105"))); ((KStr (u "106")), (VStr (u "106"))); ((KStr (u "107")), (VStr (u "107"))); ((KStr (u "108")), (VStr (u "108"))); ((KStr (u "109")), (VStr (u "109"))); ((KStr (u "110")), (VStr (u "110"))); ((KStr (u "111")), (VStr (u "111"))); ((KStr (u "112")), (VStr (u "112"))); ((KStr (u "113")), (VStr (u "113"))); ((KStr (u "114")), (VStr (u "114"))); ((KStr (u "115")), (VStr (u "115"))); ((KStr (u "116")), (VStr (u "116"))); ((KStr (u "117")), (VStr (u "117"))); ((KStr (u "118")), (VStr (u "118"))); ((KStr (u "119")), (VStr (u "119"))); ((KStr (u "120")), (VStr (u "120"))); ((KStr (u "121")), (VStr (u "121"))); ((KStr (u "122")), (VStr (u "122"))); ((KStr (u "123")), (VStr (u "123"))); ((KStr (u "124")), (VStr (u "124"))); ((KStr (u "125")), (VStr (u "125"))); ((KStr (u "126")), (VStr (u "126"))); ((KStr (u "127")), (VStr (u "127"))); ((KStr (u "128")), (VStr (u "128"))); ((KStr (u "129")), (VStr (u "129"))); ((KStr (u "130")), (VStr (u "130"))); ((KStr (u "131")), (VStr (u "131"))); ((KStr (u "132")), (VStr (u "132"))); ((KStr (u "133")), (VStr (u "133"))); ((KStr (u "134")), (VStr (u "134"))); ((KStr (u "135")), (VStr (u "135"))); ((KStr (u "136")), (VStr (u "136"))); ((KStr (u "137")), (VStr (u "137"))); ((KStr (u "138")), (VStr (u "138"))); ((KStr (u "139")), (VStr (u "139"))); ((KStr (u "140")), (VStr (u "140"))); ((KStr (u "141")), (VStr (u "141"))); ((KStr (u "142")), (VStr (u "142"))); ((KStr (u "143")), (VStr (u "143"))); ((KStr (u "144")), (VStr (u "144"))); ((KStr (u "145")), (VStr (u "145"))); ((KStr (u "146")), (VStr (u "146"))); ((KStr (u "147")), (VStr (u "147"))); ((KStr (u "148")), (VStr (u "148"))); ((KStr (u "149")), (VStr (u "149"))); ((KStr (u "150")), (VStr (u "150"))); ((KStr (u "151")), (VStr (u "151"))); ((KStr (u "152")), (VStr (u "152"))); ((KStr (u "153")), (VStr (u "153"))); ((KStr (u "154")), (VStr (u "154"))); ((KStr (u "155")), (VStr (u "155"))); ((KStr (u "156")), (VStr (u "156"))); ((KStr (u "157")), (VStr (u "157"))); ((KStr (u "158")), (VStr (u "158"))); ((KStr (u "159")), (VStr (u "159"))); ((KStr (u "160")), (VStr (u "160"))); ((KStr (u "161")), (VStr (u "161"))); ((KStr (u "162")), (VStr (u "162"))); ((KStr (u "163")), (VStr (u "163"))); ((KStr (u "164")), (VStr (u "164"))); ((KStr (u "165")), (VStr (u "165"))); ((KStr (u "166")), (VStr (u "166"))); ((KStr (u "167")), (VStr (u "167"))); ((KStr (u "168")), (VStr (u "168"))); ((KStr (u "169")), (VStr (u "169"))); ((KStr (u "170")), (VStr (u "170"))); ((KStr (u "171")), (VStr (u "171"))); ((KStr (u "172")), (VStr (u "172"))); ((KStr (u "173")), (VStr (u "173"))); ((KStr (u "174")), (VStr (u "174"))); ((KStr (u "175")), (VStr (u "175"))); ((KStr (u "176")), (VStr (u "176"))); ((KStr (u "177")), (VStr (u "177"))); ((KStr (u "178")), (VStr (u "178"))); ((KStr (u "179")), (VStr (u "179"))); ((KStr (u "180")), (VStr (u "180"))); ((KStr (u "181")), (VStr (u "181"))); ((KStr (u "182")), (VStr (u "182"))); ((KStr (u "183")), (VStr (u "183"))); ((KStr (u "184")), (VStr (u "184"))); ((KStr (u "185")), (VStr (u "185"))); ((KStr (u "186")), (VStr (u "186"))); ((KStr (u "187")), (VStr (u "187"))); ((KStr (u "188")), (VStr (u "188"))); ((KStr (u "189")), (VStr (u "189"))); ((KStr (u "190")), (VStr (u "190"))); ((KStr (u "191")), (VStr (u "191"))); ((KStr (u "192")), (VStr (u "192"))); ((KStr (u "193")), (VStr (u "193")))]) sp1 with
 (Raise (XEncodeError e2), d3) =>
(eq_str (ee_args0 e2) (u "Dictionary contains fields outside of 1-192 range [0, 193]: field p")) && (
 true ) | _ => false end ;
let sp1 := (changed default_ascii [((u "1"), (props (Some (u "ascii")) (Some (u "ascii")) (Some (3)%Z) (Some (999)%Z) None None None (Some (u "Bitmap, Secondary")))); ((u "2"), (props (Some (u "ascii")) (Some (u "ascii")) (Some (3)%Z) (Some (999)%Z) None None None (Some (u "Primary Account Number (PAN)")))); ((u "3"), (props (Some (u "ascii")) (Some (u "ascii")) (Some (3)%Z) (Some (999)%Z) None None None (Some (u "Processing Code")))); ((u "4"), (props (Some (u "ascii")) (Some (u "ascii")) (Some (3)%Z) (Some (999)%Z) None None None (Some (u "Amount, Transaction")))); ((u "5"), (props (Some (u "ascii")) (Some (u "ascii")) (Some (3)%Z) (Some (999)%Z) None None None (Some (u "Amount, Settlement")))); ((u "6"), (props (Some (u "ascii")) (Some (u "ascii")) (Some (3)%Z) (Some (999)%Z) None None None (Some (u "Amount, Cardholder Billing")))); ((u "7"), (props (Some (u "ascii")) (Some (u "ascii")) (Some (3)%Z) (Some (999)%Z) None None None (Some (u "Transmission Date and Time")))); ((u "8"), (props (Some (u "ascii")) (Some (u "ascii")) (Some (3)%Z) (Some (999)%Z) None None None (Some (u "Amount, Cardholder Billing Fee")))); ((u "9"), (props (Some (u "ascii")) (Some (u "ascii")) (Some (3)%Z) (Some (999)%Z) None None None (Some (u "Conversion Rate, Settlement")))); ((u "10"), (props (Some (u "ascii")) (Some (u "ascii")) (Some (3)%Z) (Some (999)%Z) None None None (Some (u "Conversion Rate, Cardholder Billing")))); ((u "11"), (props (Some (u "ascii")) (Some (u "ascii")) (Some (3)%Z) (Some (999)%Z) None None None (Some (u "System Trace Audit Number")))); ((u "12"), (props (Some (u "ascii")) (Some (u "ascii")) (Some (3)%Z) (Some (999)%Z) None None None (Some (u "Time, Local Transaction")))); ((u "13"), (props (Some (u "ascii")) (Some (u "ascii")) (Some (3)%Z) (Some (999)%Z) None None None (Some (u "Date, Local Transaction")))); ((u "14"), (props (Some (u "ascii")) (Some (u "ascii")) (Some (3)%Z) (Some (999)%Z) None None None (Some (u "Date, Expiration")))); ((u "15"), (props (Some (u "ascii")) (Some (u "ascii")) (Some (3)%Z) (Some (999)%Z) None None None (Some (u "Date, Settlement")))); ((u "16"), (props (Some (u "ascii")) (Some (u "ascii")) (Some (3)%Z) (Some (999)%Z) None None None (Some (u "Date, Conversion")))); ((u "17"), (props (Some (u "ascii")) (Some (u "ascii")) (Some (3)%Z) (Some (999)%Z) None None None (Some (u "Date, Capture")))); ((u "18"), (props (Some (u "ascii")) (Some (u "ascii")) (Some (3)%Z) (Some (999)%Z) None None None (Some (u "Merchant Type")))); ((u "19"), (props (Some (u "ascii")) (Some (u "ascii")) (Some (3)%Z) (Some (999)%Z) None None None (Some (u "Acquiring Institution Country Code")))); ((u "20"), (props (Some (u "ascii")) (Some (u "ascii")) (Some (3)%Z) (Some (999)%Z) None None None (Some (u "PAN Country Code")))); ((u "21"), (props (Some (u "ascii")) (Some (u "ascii")) (Some (3)%Z) (Some (999)%Z) None None None (Some (u "Forwarding Institution Country Code")))); ((u "22"), (props (Some (u "ascii")) (Some (u "ascii")) (Some (3)%Z) (Some (999)%Z) None None None (Some (u "Point-of-Service Entry Mode")))); ((u "23"), (props (Some (u "ascii")) (Some (u "ascii")) (Some (3)%Z) (Some (999)%Z) None None None (Some (u "PAN Sequence Number")))); ((u "24"), (props (Some (u "ascii")) (Some (u "ascii")) (Some (3)%Z) (Some (999)%Z) None None None (Some (u "Network International ID (NII)")))); ((u "25"), (props (Some (u "ascii")) (Some (u "ascii")) (Some (3)%Z) (Some (999)%Z) None None None (Some (u "Point-of-Service Condition Code")))); ((u "26"), (props (Some (u "ascii")) (Some (u "ascii")) (Some (3)%Z) (Some (999)%Z) None None None (Some (u "Point-of-Service Capture Code")))); ((u "27"), (props (Some (u "ascii")) (Some (u "ascii")) (Some (3)%Z) (Some (999)%Z) None None None (Some (u "Authorizing ID Response Length")))); ((u "28"), (props (Some (u "ascii")) (Some (u "ascii")) (Some (3)%Z) (Some (999)%Z) None None None (Some (u "Amount, Transaction Fee")))); ((u "29"), (props (Some (u "ascii")) (Some (u "ascii")) (Some (3)%Z) (Some (999)%Z) None None None (Some (u "Amount, Settlement Fee")))); ((u "30"), (props (Some (u "ascii")) (Some (u "ascii")) (Some (3)%Z) (Some (999)%Z) None None None (Some (u "Amount, Transaction Processing Fee")))); ((u "31"), (props (Some (u "ascii")) (Some (u "ascii")) (Some (3)%Z) (Some (999)%Z) None None None (Some (u "Amount, Settlement Processing Fee")))); ((u "32"), (props (Some (u "ascii")) (Some (u "ascii")) (Some (3)%Z) (Some (999)%Z) None None None (Some (u "Acquiring Institution ID Code")))); ((u "33"), (props (Some (u "ascii")) (Some (u "ascii")) (Some (3)%Z) (Some (999)%Z) None None None (Some (u "Forwarding Institution ID Code")))); ((u "34"), (props (Some (u "ascii")) (Some (u "ascii")) (Some (3)%Z) (Some (999)%Z) None None None (Some (u "Primary Account Number, Extended")))); ((u "35"), (props (Some (u "ascii")) (Some (u "ascii")) (Some (3)%Z) (Some (999)%Z) None None None (Some (u "Track 2 Data")))); ((u "36"), (props (Some (u "ascii")) (Some (u "ascii")) (Some (3)%Z) (Some (999)%Z) None None None (Some (u "Track 3 Data")))); ((u "37"), (props (Some (u "ascii")) (Some (u "ascii")) (Some (3)%Z) (Some (999)%Z) None None None (Some (u "Retrieval Reference Number")))); ((u "38"), (props (Some (u "ascii")) (Some (u "ascii")) (Some (3)%Z) (Some (999)%Z) None None None (Some (u "Authorization ID Response")))); ((u "39"), (props (Some (u "ascii")) (Some (u "ascii")) (Some (3)%Z) (Some (999)%Z) None None None (Some (u "Response Code")))); ((u "40"), (props (Some (u "ascii")) (Some (u "ascii")) (Some (3)%Z) (Some (999)%Z) None None None (Some (u "Service Restriction Code")))); ((u "41"), (props (Some (u "ascii")) (Some (u "ascii")) (Some (3)%Z) (Some (999)%Z) None None None (Some (u "Card Acceptor Terminal ID")))); ((u "42"), (props (Some (u "ascii")) (Some (u "ascii")) (Some (3)%Z) (Some (999)%Z) None None None (Some (u "Card Acceptor ID Code")))); ((u "43"), (props (Some (u "ascii")) (Some (u "ascii")) (Some (3)%Z) (Some (999)%Z) None None None (Some (u "Card Acceptor Name/Location")))); ((u "44"), (props (Some (u "ascii")) (Some (u "ascii")) (Some (3)%Z) (Some (999)%Z) None None None (Some (u "Additional Response Data")))); ((u "45"), (props (Some (u "ascii")) (Some (u "ascii")) (Some (3)%Z) (Some (999)%Z) None None None (Some (u "Track 1 Data")))); ((u "49"), (props (Some (u "ascii")) (Some (u "ascii")) (Some (3)%Z) (Some (999)%Z) None None None (Some (u "Currency Code, Transaction")))); ((u "50"), (props (Some (u "ascii")) (Some (u "ascii")) (Some (3)%Z) (Some (999)%Z) None None None (Some (u "Currency Code, Settlement")))); ((u "51"), (props (Some (u "ascii")) (Some (u "ascii")) (Some (3)%Z) (Some (999)%Z) None None None (Some (u "Currency Code, Cardholder Billing")))); ((u "52"), (props (Some (u "ascii")) (Some (u "ascii")) (Some (3)%Z) (Some (999)%Z) None None None (Some (u "PIN")))); ((u "53"), (props (Some (u "ascii")) (Some (u "ascii")) (Some (3)%Z) (Some (999)%Z) None None None (Some (u "Security-Related Control Information")))); ((u "54"), (props (Some (u "ascii")) (Some (u "ascii")) (Some (3)%Z) (Some (999)%Z) None None None (Some (u "Additional Amounts")))); ((u "55"), (props (Some (u "ascii")) (Some (u "ascii")) (Some (3)%Z) (Some (999)%Z) None None None (Some (u "ICC data")))); ((u "64"), (props (Some (u "ascii")) (Some (u "ascii")) (Some (3)%Z) (Some (999)%Z) None None None (Some (u "MAC")))); ((u "65"), (props (Some (u "ascii")) (Some (u "ascii")) (Some (3)%Z) (Some (999)%Z) None None None (Some (u "Bitmap, Extended")))); ((u "66"), (props (Some (u "ascii")) (Some (u "ascii")) (Some (3)%Z) (Some (999)%Z) None None None (Some (u "Settlement Code")))); ((u "67"), (props (Some (u "ascii")) (Some (u "ascii")) (Some (3)%Z) (Some (999)%Z) None None None (Some (u "Extended Payment Code")))); ((u "68"), (props (Some (u "ascii")) (Some (u "ascii")) (Some (3)%Z) (Some (999)%Z) None None None (Some (u "Receiving Institution Country Code")))); ((u "69"), (props (Some (u "ascii")) (Some (u "ascii")) (Some (3)%Z) (Some (999)%Z) None None None (Some (u "Settlement Institution Country Code")))); ((u "70"), (props (Some (u "ascii")) (Some (u "ascii")) (Some (3)%Z) (Some (999)%Z) None None None (Some (u "Network Management Information Code")))); ((u "71"), (props (Some (u "ascii")) (Some (u "ascii")) (Some (3)%Z) (Some (999)%Z) None None None (Some (u "Message Number")))); ((u "72"), (props (Some (u "ascii")) (Some (u "ascii")) (Some (3)%Z) (Some (999)%Z) None None None (Some (u "Message Number, Last")))); ((u "73"), (props (Some (u "ascii")) (Some (u "ascii")) (Some (3)%Z) (Some (999)%Z) None None None (Some (u "Date, Action")))); ((u "74"), (props (Some (u "ascii")) (Some (u "ascii")) (Some (3)%Z) (Some (999)%Z) None None None (Some (u "Credits, Number")))); ((u "75"), (props (Some (u "ascii")) (Some (u "ascii")) (Some (3)%Z) (Some (999)%Z) None None None (Some (u "Credits, Reversal Number")))); ((u "76"), (props (Some (u "ascii")) (Some (u "ascii")) (Some (3)%Z) (Some (999)%Z) None None None (Some (u "Debits, Number")))); ((u "77"), (props (Some (u "ascii")) (Some (u "ascii")) (Some (3)%Z) (Some (999)%Z) None None None (Some (u "Debits, Reversal Number")))); ((u "78"), (props (Some (u "ascii")) (Some (u "ascii")) (Some (3)%Z) (Some (999)%Z) None None None (Some (u "Transfer, Number")))); ((u "79"), (props (Some (u "ascii")) (Some (u "ascii")) (Some (3)%Z) (Some (999)%Z) None None None (Some (u "Transfer, Reversal Number")))); ((u "80"), (props (Some (u "ascii")) (Some (u "ascii")) (Some (3)%Z) (Some (999)%Z) None None None (Some (u "Inquiries, Number")))); ((u "81"), (props (Some (u "ascii")) (Some (u "ascii")) (Some (3)%Z) (Some (999)%Z) None None None (Some (u "Authorizations, Number")))); ((u "82"), (props (Some (u "ascii")) (Some (u "ascii")) (Some (3)%Z) (Some (999)%Z) None None None (Some (u "Credits, Processing Fee Amount")))); ((u "83"), (props (Some (u "ascii")) (Some (u "ascii")) (Some (3)%Z) (Some (999)%Z) None None None (Some (u "Credits, Transaction Fee Amount")))); ((u "84"), (props (Some (u "ascii")) (Some (u "ascii")) (Some (3)%Z) (Some (999)%Z) None None None (Some (u "Debits, Processing Fee Amount")))); ((u "85"), (props (Some (u "ascii")) (Some (u "ascii")) (Some (3)%Z) (Some (999)%Z) None None None (Some (u "Debits, Transaction Fee Amount")))); ((u "86"), (props (Some (u "ascii")) (Some (u "ascii")) (Some (3)%Z) (Some (999)%Z) None None None (Some (u "Credits, Amount")))); ((u "87"), (props (Some (u "ascii")) (Some (u "ascii")) (Some (3)%Z) (Some (999)%Z) None None None (Some (u "Credits, Reversal Amount")))); ((u "88"), (props (Some (u "ascii")) (Some (u "ascii")) (Some (3)%Z) (Some (999)%Z) None None None (Some (u "Debits, Amount")))); ((u "89"), (props (Some (u "ascii")) (Some (u "ascii")) (Some (3)%Z) (Some (999)%Z) None None None (Some (u "Debits, Reversal Amount")))); ((u "90"), (props (Some (u "ascii")) (Some (u "ascii")) (Some (3)%Z) (Some (999)%Z) None None None (Some (u "Original Data Elements")))); ((u "91"), (props (Some (u "ascii")) (Some (u "ascii")) (Some (3)%Z) (Some (999)%Z) None None None (Some (u "File Update Code")))); ((u "92"), (props (Some (u "ascii")) (Some (u "ascii")) (Some (3)%Z) (Some (999)%Z) None None None (Some (u "File Security Code")))); ((u "93"), (props (Some (u "ascii")) (Some (u "ascii")) (Some (3)%Z) (Some (999)%Z) None None None (Some (u "Response Indicator")))); ((u "94"), (props (Some (u "ascii")) (Some (u "ascii")) (Some (3)%Z) (Some (999)%Z) None None None (Some (u "Service Indicator")))); ((u "95"), (props (Some (u "ascii")) (Some (u "ascii")) (Some (3)%Z) (Some (999)%Z) None None None (Some (u "Replacement Amounts")))); ((u "96"), (props (Some (u "ascii")) (Some (u "ascii")) (Some (3)%Z) (Some (999)%Z) None None None (Some (u "Message Security Code")))); ((u "97"), (props (Some (u "ascii")) (Some (u "ascii")) (Some (3)%Z) (Some (999)%Z) None None None (Some (u "Amount, Net Settlement")))); ((u "98"), (props (Some (u "ascii")) (Some (u "ascii")) (Some (3)%Z) (Some (999)%Z) None None None (Some (u "Payee")))); ((u "99"), (props (Some (u "ascii")) (Some (u "ascii")) (Some (3)%Z) (Some (999)%Z) None None None (Some (u "Settlement Institution ID Code")))); ((u "100"), (props (Some (u "ascii")) (Some (u "ascii")) (Some (3)%Z) (Some (999)%Z) None None None (Some (u "Receiving Institution ID Code")))); ((u "101"), (props (Some (u "ascii")) (Some (u "ascii")) (Some (3)%Z) (Some (999)%Z) None None None (Some (u "File Name")))); ((u "102"), (props (Some (u "ascii")) (Some (u "ascii")) (Some (3)%Z) (Some (999)%Z) None None None (Some (u "Account ID 1")))); ((u "103"), (props (Some (u "ascii")) (Some (u "ascii")) (Some (3)%Z) (Some (999)%Z) None None None (Some (u "Account ID 2")))); ((u "104"), (props (Some (u "ascii")) (Some (u "ascii")) (Some (3)%Z) (Some (999)%Z) None None None (Some (u "Transaction Description")))); ((u "128"), (props (Some (u "ascii")) (Some (u "ascii")) (Some (3)%Z) (Some (999)%Z) None None None (Some (u "MAC"))))]) in
match encode cpython311 (ADict [((KStr (u "t")), (VStr (u "0210"))); ((KStr (u "0")), (VStr (u "000"))); ((KStr (u "1")), (VStr (u "001"))); ((KStr (u "2")), (VStr (u "002"))); ((KStr (u "3")), (VStr (u "003"))); ((KStr (u "4")), (VStr (u "004"))); ((KStr (u "5")), (VStr (u "005"))); ((KStr (u "6")), (VStr (u "006"))); ((KStr (u "7")), (VStr (u "007"))); ((KStr (u "8")), (VStr (u "008"))); ((KStr (u "9")), (VStr (u "009"))); ((KStr (u "10")), (VStr (u "010"))); ((KStr (u "11")), (VStr (u "011"))); ((KStr (u "12")), (VStr (u "012"))); ((KStr (u "13")), (VStr (u "013"))); ((KStr (u "14")), (VStr (u "014"))); ((KStr (u "15")), (VStr (u "015"))); ((KStr (u "16")), (VStr (u "016"))); ((KStr (u "17")), (VStr (u "017"))); ((KStr (u "18")), (VStr (u "018"))); ((KStr (u "19")), (VStr (u "019"))); ((KStr (u "20")), (VStr (u "020"))); ((KStr (u "21")), (VStr (u "021"))); ((KStr (u "22")), (VStr (u "022"))); ((KStr (u "23")), (VStr (u "023"))); ((KStr (u "24")), (VStr (u "024"))); ((KStr (u "25")), (VStr (u "025"))); ((KStr (u "26")), (VStr (u "026"))); ((KStr (u "27")), (VStr (u "027"))); ((KStr (u "28")), (VStr (u "028"))); ((KStr (u "29")), (VStr (u "029"))); ((KStr (u "30")), (VStr (u "030"))); ((KStr (u "31")), (VStr (u "031"))); ((KStr (u "32")), (VStr (u "032"))); ((KStr (u "33")), (VStr (u "033"))); ((KStr (u "34")), (VStr (u "034"))); ((KStr (u "35")), (VStr (u "035"))); ((KStr (u "36")), (VStr (u "036"))); ((KStr (u "37")), (VStr (u "037"))); ((KStr (u "38")), (VStr (u "038"))); ((KStr (u "39")), (VStr (u "039"))); ((KStr (u "40")), (VStr (u "040"))); ((KStr (u "41")), (VStr (u "041"))); ((KStr (u "42")), (VStr (u "042"))); ((KStr (u "43")), (VStr (u "043"))); ((KStr (u "44")), (VStr (u "044"))); ((KStr (u "45")), (VStr (u "045"))); ((KStr (u "46")), (VStr (u "046"))); ((KStr (u "47")), (VStr (u "047"))); ((KStr (u "48")), (VStr (u "048"))); ((KStr (u "49")), (VStr (u "049"))); ((KStr (u "50")), (VStr (u "050"))); ((KStr (u "51")), (VStr (u "051"))); ((KStr (u "52")), (VStr (u "052"))); ((KStr (u "53")), (VStr (u "053"))); ((KStr (u "54")), (VStr (u "054"))); ((KStr (u "55")), (VStr (u "055"))); ((KStr (u "56")), (VStr (u "056"))); ((KStr (u "57")), (VStr (u "057"))); ((KStr (u "58")), (VStr (u "058"))); ((KStr (u "59")), (VStr (u "059"))); ((KStr (u "60")), (VStr (u "060"))); ((KStr (u "61")), (VStr (u "061"))); ((KStr (u "62")), (VStr (u "062"))); ((KStr (u "63")), (VStr (u "063"))); ((KStr (u "64")), (VStr (u "064"))); ((KStr (u "65")), (VStr (u "065"))); ((KStr (u "66")), (VStr (u "066"))); ((KStr (u "67")), (VStr (u "067"))); ((KStr (u "68")), (VStr (u "068"))); ((KStr (u "69")), (VStr (u "069"))); ((KStr (u "70")), (VStr (u "070"))); ((KStr (u "71")), (VStr (u "071"))); ((KStr (u "72")), (VStr (u "072"))); ((KStr (u "73")), (VStr (u "073"))); ((KStr (u "74")), (VStr (u "074"))); ((KStr (u "75")), (VStr (u "075"))); ((KStr (u "76")), (VStr (u "076"))); ((KStr (u "77")), (VStr (u "077"))); ((KStr (u "78")), (VStr (u "078"))); ((KStr (u "79")), (VStr (u "079"))); ((KStr (u "80")), (VStr (u "080"))); ((KStr (u "81")), (VStr (u "081"))); ((KStr (u "82")), (VStr (u "082"))); ((KStr (u "83")), (VStr (u "083"))); ((KStr (u "84")), (VStr (u "084"))); ((KStr (u "85")), (VStr (u "085"))); ((KStr (u "86")), (VStr (u "086"))); ((KStr (u "87")), (VStr (u "087"))); ((KStr (u "88")), (VStr (u "088"))); ((KStr (u "89")), (VStr (u "089"))); ((KStr (u "90")), (VStr (u "090"))); ((KStr (u "91")), (VStr (u "091"))); ((KStr (u "92")), (VStr (u "092"))); ((KStr (u "93")), (VStr (u "093"))); ((KStr (u "94")), (VStr (u "094"))); ((KStr (u "95")), (VStr (u "095"))); ((KStr (u "96")), (VStr (u "096"))); ((KStr (u "97")), (VStr (u "097"))); ((KStr (u "98")), (VStr (u "098"))); ((KStr (u "99")), (VStr (u "099"))); ((KStr (u "100")), (VStr (u "100"))); ((KStr (u "101")), (VStr (u "101"))); ((KStr (u "102")), (VStr (u "102"))); ((KStr (u "103")), (VStr (u "103"))); ((KStr (u "104")), (VStr (u "104"))); ((KStr (u "105")), (VStr (u "105"))); ((KStr (u "106")), (VStr (u "106"))); ((KStr (u "107")), (VStr (u "107"))); ((KStr (u "108")), (VStr (u "108"))); ((KStr (u "109")), (VStr (u "109"))); ((KStr (u "110")), (VStr (u "110"))); ((KStr (u "111")), (VStr (u "111"))); ((KStr (u "112")), (VStr (u "112"))); ((KStr (u "113")), (VStr (u "113"))); ((KStr (u "114")), (VStr (u "114"))); ((KStr (u "115")), (VStr (u "115"))); ((KStr (u "116")), (VStr (u "116"))); ((KStr (u "117")), (VStr (u "117"))); ((KStr (u "118")), (VStr (u "118"))); ((KStr (u "119")), (VStr (u "119"))); ((KStr (u "120")), (VStr (u "120"))); ((KStr (u "121")), (VStr (u "121"))); ((KStr (u "122")), (VStr (u "122"))); ((KStr (u "123")), (VStr (u "123"))); ((KStr (u "124")), (VStr (u "124"))); ((KStr (u "125")), (VStr (u "125"))); ((KStr (u "126")), (VStr (u "126"))); ((KStr (u "127")), (VStr (u "127"))); ((KStr (u "128")), (VStr (u "128"))); ((KStr (u "129")), (VStr (u "129"))); ((KStr (u "130")), (VStr (u "130"))); ((KStr (u "131")), (VStr (u "131"))); ((KStr (u "132")), (VStr (u "132"))); ((KStr (u "133")), (VStr (u "133"))); ((KStr (u "134")), (VStr (u "134"))); ((KStr (u "135")), (VStr (u "135"))); ((KStr (u "136")), (VStr (u "136"))); ((KStr (u "137")), (VStr (u "137"))); ((KStr (u "138")), (VStr (u "138"))); ((KStr (u "139")), (VStr (u "139"))); ((KStr (u "140")), (VStr (u "140"))); ((KStr (u "141")), (VStr (u "141"))); ((KStr (u "142")), (VStr (u "142"))); ((KStr (u "143")), (VStr (u "143"))); ((KStr (u "144")), (VStr (u "144"))); ((KStr (u "145")), (VStr (u "145"))); ((KStr (u "146")), (VStr (u "146"))); ((KStr (u "147")), (VStr (u "147"))); ((KStr (u "148")), (VStr (u "148"))); ((KStr (u "149")), (VStr (u "149"))); ((KStr (u "150")), (VStr (u "150"))); ((KStr (u "151")), (VStr (u "151"))); ((KStr (u "152")), (VStr (u "152"))); ((KStr (u "153")), (VStr (u "153"))); ((KStr (u "154")), (VStr (u "154"))); ((KStr (u "155")), (VStr (u "155"))); ((KStr (u "156")), (VStr (u "156"))); ((KStr (u "157")), (VStr (u "157"))); ((KStr (u "158")), (VStr (u "158"))); ((KStr (u "159")), (VStr (u "159"))); ((KStr (u "160")), (VStr (u "160"))); ((KStr (u "161")), (VStr (u "161"))); ((KStr (u "162")), (VStr (u "162"))); ((KStr (u "163")), (VStr (u "163"))); ((KStr (u "164")), (VStr (u "164"))); ((KStr (u "165")), (VStr (u "165"))); ((KStr (u "166")), (VStr (u "166"))); ((KStr (u "167")), (VStr (u "167"))); ((KStr (u "168")), (VStr (u "168"))); ((KStr (u "169")), (VStr (u "169"))); ((KStr (u "170")), (VStr (u "170"))); ((KStr (u "171")), (VStr (u "171"))); ((KStr (u "172")), (VStr (u "172"))); ((KStr (u "173")), (VStr (u "173"))); ((KStr (u "174")), (VStr (u "174"))); ((KStr (u "175")), (VStr (u "175"))); ((KStr (u "176")), (VStr (u "176"))); ((KStr (u "177")), (VStr (u "177"))); ((KStr (u "178")), (VStr (u "178"))); ((KStr (u "179")), (VStr (u "179"))); ((KStr (u "180")), (VStr (u "180"))); ((KStr (u "181")), (VStr (u "181"))); ((KStr (u "182")), (VStr (u "182"))); ((KStr (u "183")), (VStr (u "183"))); ((KStr (u "184")), (VStr (u "184"))); ((KStr (u "185")), (VStr (u "185"))); ((KStr (u "186")), (VStr (u "186"))); ((KStr (u "187")), (VStr (u "187"))); ((KStr (u "188")), (VStr (u "188"))); ((KStr (u "189")), (VStr (u "189"))); ((KStr (u "190")), (VStr (u "190"))); ((KStr (u "191")), (VStr (u "191"))); ((KStr (u "192")), (VStr (u "192"))); ((KStr (u "193")), (VStr (u "193"))); ((KStr (u "194")), (VStr (u "194")))]) sp1 with
 (Raise (XEncodeError e2), d3) =>
(eq_str (ee_args0 e2) (u "Dictionary contains fields outside of 1-192 range [0, 193, 194]: field p")) && (
 true ) | _ => false end ] = true.
Proof. vm_compute. reflexivity. Qed.

(** tests/test_encode.py:503. *)
Example test_bitmap_remove_unused_bitmaps : forallb (fun b => b) [
let sp1 := (changed default_ascii [((u "p"), (props (Some (u "b")) (Some (u "ascii")) (Some (0)%Z) (Some (16)%Z) None None None (Some (u "Bitmap, Primary"))))]) in
match encode cpython311 (ADict [((KStr (u "t")), (VStr (u "0200"))); ((KStr (u "1")), (VStr (u "not needed"))); ((KStr (u "2")), (VStr (u "1234567890"))); ((KStr (u "65")), (VStr (u "do not pack bitmap presence indicator")))]) sp1 with
 (Ok (s2, enc3), d4) =>
(eq_bytes s2 (raw [48; 50; 48; 48; 64; 0; 0; 0; 0; 0; 0; 0; 49; 48; 49; 50; 51; 52; 53; 54; 55; 56; 57; 48]%N)) && (
(eq_obytes (option_map e_len (sget (u "t") enc3)) (asc "")) && (
(eq_obytes (option_map e_data (sget (u "t") enc3)) (asc "0200")) && (
(eq_oval (pget (KStr (u "t")) d4) (u "0200")) && (
(eq_obytes (option_map e_len (sget (u "p") enc3)) (asc "")) && (
(eq_obytes (option_map e_data (sget (u "p") enc3)) (raw [64; 0; 0; 0; 0; 0; 0; 0]%N)) && (
(eq_oval (pget (KStr (u "p")) d4) (u "4000000000000000")) && (
(eq_obytes (option_map e_len (sget (u "2") enc3)) (asc "10")) && (
(eq_obytes (option_map e_data (sget (u "2") enc3)) (asc "1234567890")) && (
(eq_oval (pget (KStr (u "2")) d4) (u "1234567890")) && (
(eq_keys (map (fun kv => KStr (fst kv)) enc3) [(KStr (u "2")); (KStr (u "p")); (KStr (u "t"))]) && (
(eq_keys (map fst d4) [(KStr (u "2")); (KStr (u "p")); (KStr (u "t"))]) && (
 true ) ) ) ) ) ) ) ) ) ) ) ) | _ => false end ] = true.
Proof. vm_compute. reflexivity. Qed.

(** tests/test_encode.py:572. *)
Example test_field_encoding : forallb (fun b => b) [
let sp1 := (changed default_ascii [((u "2"), (props (Some (u "b")) (Some (u "ascii")) (Some (0)%Z) (Some (0)%Z) None None None (Some (u "Primary Account Number (PAN)"))))]) in
match encode cpython311 (ADict [((KStr (u "t")), (VStr (u "0210"))); ((KStr (u "2")), (VStr (u "")))]) sp1 with
 (Ok (s2, enc3), d4) =>
(eq_bytes s2 (asc "02104000000000000000")) && (
(eq_obytes (option_map e_len (sget (u "t") enc3)) (asc "")) && (
(eq_obytes (option_map e_data (sget (u "t") enc3)) (asc "0210")) && (
(eq_oval (pget (KStr (u "t")) d4) (u "0210")) && (
(eq_obytes (option_map e_len (sget (u "p") enc3)) (asc "")) && (
(eq_obytes (option_map e_data (sget (u "p") enc3)) (asc "4000000000000000")) && (
(eq_oval (pget (KStr (u "p")) d4) (u "4000000000000000")) && (
(eq_obytes (option_map e_len (sget (u "2") enc3)) (asc "")) && (
(eq_obytes (option_map e_data (sget (u "2") enc3)) (asc "")) && (
(eq_oval (pget (KStr (u "2")) d4) (u "")) && (
(eq_keys (map (fun kv => KStr (fst kv)) enc3) [(KStr (u "2")); (KStr (u "p")); (KStr (u "t"))]) && (
(eq_keys (map fst d4) [(KStr (u "2")); (KStr (u "p")); (KStr (u "t"))]) && (
 true ) ) ) ) ) ) ) ) ) ) ) ) | _ => false end ;
let sp1 := (changed default_ascii [((u "2"), (props (Some (u "ascii")) (Some (u "ascii")) (Some (0)%Z) (Some (0)%Z) None None None (Some (u "Primary Account Number (PAN)"))))]) in
match encode cpython311 (ADict [((KStr (u "t")), (VStr (u "0210"))); ((KStr (u "2")), (VStr (u "")))]) sp1 with
 (Ok (s2, enc3), d4) =>
(eq_bytes s2 (asc "02104000000000000000")) && (
(eq_obytes (option_map e_len (sget (u "t") enc3)) (asc "")) && (
(eq_obytes (option_map e_data (sget (u "t") enc3)) (asc "0210")) && (
(eq_oval (pget (KStr (u "t")) d4) (u "0210")) && (
(eq_obytes (option_map e_len (sget (u "p") enc3)) (asc "")) && (
(eq_obytes (option_map e_data (sget (u "p") enc3)) (asc "4000000000000000")) && (
(eq_oval (pget (KStr (u "p")) d4) (u "4000000000000000")) && (
(eq_obytes (option_map e_len (sget (u "2") enc3)) (asc "")) && (
(eq_obytes (option_map e_data (sget (u "2") enc3)) (asc "")) && (
(eq_oval (pget (KStr (u "2")) d4) (u "")) && (
(eq_keys (map (fun kv => KStr (fst kv)) enc3) [(KStr (u "2")); (KStr (u "p")); (KStr (u "t"))]) && (
(eq_keys (map fst d4) [(KStr (u "2")); (KStr (u "p")); (KStr (u "t"))]) && (
 true ) ) ) ) ) ) ) ) ) ) ) ) | _ => false end ;
let sp1 := (changed default_ascii [((u "2"), (props (Some (u "cp500")) (Some (u "ascii")) (Some (0)%Z) (Some (0)%Z) None None None (Some (u "Primary Account Number (PAN)"))))]) in
match encode cpython311 (ADict [((KStr (u "t")), (VStr (u "0210"))); ((KStr (u "2")), (VStr (u "")))]) sp1 with
 (Ok (s2, enc3), d4) =>
(eq_bytes s2 (asc "02104000000000000000")) && (
(eq_obytes (option_map e_len (sget (u "t") enc3)) (asc "")) && (
(eq_obytes (option_map e_data (sget (u "t") enc3)) (asc "0210")) && (
(eq_oval (pget (KStr (u "t")) d4) (u "0210")) && (
(eq_obytes (option_map e_len (sget (u "p") enc3)) (asc "")) && (
(eq_obytes (option_map e_data (sget (u "p") enc3)) (asc "4000000000000000")) && (
(eq_oval (pget (KStr (u "p")) d4) (u "4000000000000000")) && (
(eq_obytes (option_map e_len (sget (u "2") enc3)) (asc "")) && (
(eq_obytes (option_map e_data (sget (u "2") enc3)) (asc "")) && (
(eq_oval (pget (KStr (u "2")) d4) (u "")) && (
(eq_keys (map (fun kv => KStr (fst kv)) enc3) [(KStr (u "2")); (KStr (u "p")); (KStr (u "t"))]) && (
(eq_keys (map fst d4) [(KStr (u "2")); (KStr (u "p")); (KStr (u "t"))]) && (
 true ) ) ) ) ) ) ) ) ) ) ) ) | _ => false end ;
let sp1 := (changed default_ascii [((u "2"), (props (Some (u "ascii")) (Some (u "ascii")) (Some (0)%Z) (Some (1)%Z) None None None (Some (u "Primary Account Number (PAN)"))))]) in
match encode cpython311 (ADict [((KStr (u "t")), (VStr (u "0210"))); ((KStr (u "2")), (VStr (u "0")))]) sp1 with
 (Ok (s2, enc3), d4) =>
(eq_bytes s2 (asc "021040000000000000000")) && (
(eq_obytes (option_map e_len (sget (u "t") enc3)) (asc "")) && (
(eq_obytes (option_map e_data (sget (u "t") enc3)) (asc "0210")) && (
(eq_oval (pget (KStr (u "t")) d4) (u "0210")) && (
(eq_obytes (option_map e_len (sget (u "p") enc3)) (asc "")) && (
(eq_obytes (option_map e_data (sget (u "p") enc3)) (asc "4000000000000000")) && (
(eq_oval (pget (KStr (u "p")) d4) (u "4000000000000000")) && (
(eq_obytes (option_map e_len (sget (u "2") enc3)) (asc "")) && (
(eq_obytes (option_map e_data (sget (u "2") enc3)) (asc "0")) && (
(eq_oval (pget (KStr (u "2")) d4) (u "0")) && (
(eq_keys (map (fun kv => KStr (fst kv)) enc3) [(KStr (u "2")); (KStr (u "p")); (KStr (u "t"))]) && (
(eq_keys (map fst d4) [(KStr (u "2")); (KStr (u "p")); (KStr (u "t"))]) && (
 true ) ) ) ) ) ) ) ) ) ) ) ) | _ => false end ;
let sp1 := (changed default_ascii [((u "2"), (props (Some (u "cp500")) (Some (u "ascii")) (Some (0)%Z) (Some (1)%Z) None None None (Some (u "Primary Account Number (PAN)"))))]) in
match encode cpython311 (ADict [((KStr (u "t")), (VStr (u "0210"))); ((KStr (u "2")), (VStr (u "0")))]) sp1 with
 (Ok (s2, enc3), d4) =>
(eq_bytes s2 (raw [48; 50; 49; 48; 52; 48; 48; 48; 48; 48; 48; 48; 48; 48; 48; 48; 48; 48; 48; 48; 240]%N)) && (
(eq_obytes (option_map e_len (sget (u "t") enc3)) (asc "")) && (
(eq_obytes (option_map e_data (sget (u "t") enc3)) (asc "0210")) && (
(eq_oval (pget (KStr (u "t")) d4) (u "0210")) && (
(eq_obytes (option_map e_len (sget (u "p") enc3)) (asc "")) && (
(eq_obytes (option_map e_data (sget (u "p") enc3)) (asc "4000000000000000")) && (
(eq_oval (pget (KStr (u "p")) d4) (u "4000000000000000")) && (
(eq_obytes (option_map e_len (sget (u "2") enc3)) (asc "")) && (
(eq_obytes (option_map e_data (sget (u "2") enc3)) (raw [240]%N)) && (
(eq_oval (pget (KStr (u "2")) d4) (u "0")) && (
(eq_keys (map (fun kv => KStr (fst kv)) enc3) [(KStr (u "2")); (KStr (u "p")); (KStr (u "t"))]) && (
(eq_keys (map fst d4) [(KStr (u "2")); (KStr (u "p")); (KStr (u "t"))]) && (
 true ) ) ) ) ) ) ) ) ) ) ) ) | _ => false end ;
let sp1 := (changed default_ascii [((u "2"), (props (Some (u "b")) (Some (u "ascii")) (Some (0)%Z) (Some (1)%Z) None None None (Some (u "Primary Account Number (PAN)"))))]) in
match encode cpython311 (ADict [((KStr (u "t")), (VStr (u "0210"))); ((KStr (u "2")), (VStr (u "01")))]) sp1 with
 (Ok (s2, enc3), d4) =>
(eq_bytes s2 (raw [48; 50; 49; 48; 52; 48; 48; 48; 48; 48; 48; 48; 48; 48; 48; 48; 48; 48; 48; 48; 1]%N)) && (
(eq_obytes (option_map e_len (sget (u "t") enc3)) (asc "")) && (
(eq_obytes (option_map e_data (sget (u "t") enc3)) (asc "0210")) && (
(eq_oval (pget (KStr (u "t")) d4) (u "0210")) && (
(eq_obytes (option_map e_len (sget (u "p") enc3)) (asc "")) && (
(eq_obytes (option_map e_data (sget (u "p") enc3)) (asc "4000000000000000")) && (
(eq_oval (pget (KStr (u "p")) d4) (u "4000000000000000")) && (
(eq_obytes (option_map e_len (sget (u "2") enc3)) (asc "")) && (
(eq_obytes (option_map e_data (sget (u "2") enc3)) (raw [1]%N)) && (
(eq_oval (pget (KStr (u "2")) d4) (u "01")) && (
(eq_keys (map (fun kv => KStr (fst kv)) enc3) [(KStr (u "2")); (KStr (u "p")); (KStr (u "t"))]) && (
(eq_keys (map fst d4) [(KStr (u "2")); (KStr (u "p")); (KStr (u "t"))]) && (
 true ) ) ) ) ) ) ) ) ) ) ) ) | _ => false end ;
let sp1 := (changed default_ascii [((u "2"), (props (Some (u "ascii")) (Some (u "ascii")) (Some (0)%Z) (Some (2)%Z) None None None (Some (u "Primary Account Number (PAN)"))))]) in
match encode cpython311 (ADict [((KStr (u "t")), (VStr (u "0210"))); ((KStr (u "2")), (VStr (u "01")))]) sp1 with
 (Ok (s2, enc3), d4) =>
(eq_bytes s2 (asc "0210400000000000000001")) && (
(eq_obytes (option_map e_len (sget (u "t") enc3)) (asc "")) && (
(eq_obytes (option_map e_data (sget (u "t") enc3)) (asc "0210")) && (
(eq_oval (pget (KStr (u "t")) d4) (u "0210")) && (
(eq_obytes (option_map e_len (sget (u "p") enc3)) (asc "")) && (
(eq_obytes (option_map e_data (sget (u "p") enc3)) (asc "4000000000000000")) && (
(eq_oval (pget (KStr (u "p")) d4) (u "4000000000000000")) && (
(eq_obytes (option_map e_len (sget (u "2") enc3)) (asc "")) && (
(eq_obytes (option_map e_data (sget (u "2") enc3)) (asc "01")) && (
(eq_oval (pget (KStr (u "2")) d4) (u "01")) && (
(eq_keys (map (fun kv => KStr (fst kv)) enc3) [(KStr (u "2")); (KStr (u "p")); (KStr (u "t"))]) && (
(eq_keys (map fst d4) [(KStr (u "2")); (KStr (u "p")); (KStr (u "t"))]) && (
 true ) ) ) ) ) ) ) ) ) ) ) ) | _ => false end ;
let sp1 := (changed default_ascii [((u "2"), (props (Some (u "cp500")) (Some (u "ascii")) (Some (0)%Z) (Some (2)%Z) None None None (Some (u "Primary Account Number (PAN)"))))]) in
match encode cpython311 (ADict [((KStr (u "t")), (VStr (u "0210"))); ((KStr (u "2")), (VStr (u "01")))]) sp1 with
 (Ok (s2, enc3), d4) =>
(eq_bytes s2 (raw [48; 50; 49; 48; 52; 48; 48; 48; 48; 48; 48; 48; 48; 48; 48; 48; 48; 48; 48; 48; 240; 241]%N)) && (
(eq_obytes (option_map e_len (sget (u "t") enc3)) (asc "")) && (
(eq_obytes (option_map e_data (sget (u "t") enc3)) (asc "0210")) && (
(eq_oval (pget (KStr (u "t")) d4) (u "0210")) && (
(eq_obytes (option_map e_len (sget (u "p") enc3)) (asc "")) && (
(eq_obytes (option_map e_data (sget (u "p") enc3)) (asc "4000000000000000")) && (
(eq_oval (pget (KStr (u "p")) d4) (u "4000000000000000")) && (
(eq_obytes (option_map e_len (sget (u "2") enc3)) (asc "")) && (
(eq_obytes (option_map e_data (sget (u "2") enc3)) (raw [240; 241]%N)) && (
(eq_oval (pget (KStr (u "2")) d4) (u "01")) && (
(eq_keys (map (fun kv => KStr (fst kv)) enc3) [(KStr (u "2")); (KStr (u "p")); (KStr (u "t"))]) && (
(eq_keys (map fst d4) [(KStr (u "2")); (KStr (u "p")); (KStr (u "t"))]) && (
 true ) ) ) ) ) ) ) ) ) ) ) ) | _ => false end ;
let sp1 := (changed default_ascii [((u "2"), (props (Some (u "b")) (Some (u "ascii")) (Some (3)%Z) (Some (999)%Z) None None None (Some (u "Primary Account Number (PAN)"))))]) in
match encode cpython311 (ADict [((KStr (u "t")), (VStr (u "0210"))); ((KStr (u "2")), (VStr (u "")))]) sp1 with
 (Ok (s2, enc3), d4) =>
(eq_bytes s2 (asc "02104000000000000000000")) && (
(eq_obytes (option_map e_len (sget (u "t") enc3)) (asc "")) && (
(eq_obytes (option_map e_data (sget (u "t") enc3)) (asc "0210")) && (
(eq_oval (pget (KStr (u "t")) d4) (u "0210")) && (
(eq_obytes (option_map e_len (sget (u "p") enc3)) (asc "")) && (
(eq_obytes (option_map e_data (sget (u "p") enc3)) (asc "4000000000000000")) && (
(eq_oval (pget (KStr (u "p")) d4) (u "4000000000000000")) && (
(eq_obytes (option_map e_len (sget (u "2") enc3)) (asc "000")) && (
(eq_obytes (option_map e_data (sget (u "2") enc3)) (asc "")) && (
(eq_oval (pget (KStr (u "2")) d4) (u "")) && (
(eq_keys (map (fun kv => KStr (fst kv)) enc3) [(KStr (u "2")); (KStr (u "p")); (KStr (u "t"))]) && (
(eq_keys (map fst d4) [(KStr (u "2")); (KStr (u "p")); (KStr (u "t"))]) && (
 true ) ) ) ) ) ) ) ) ) ) ) ) | _ => false end ;
let sp1 := (changed default_ascii [((u "2"), (props (Some (u "ascii")) (Some (u "ascii")) (Some (3)%Z) (Some (999)%Z) None None None (Some (u "Primary Account Number (PAN)"))))]) in
match encode cpython311 (ADict [((KStr (u "t")), (VStr (u "0210"))); ((KStr (u "2")), (VStr (u "")))]) sp1 with
 (Ok (s2, enc3), d4) =>
(eq_bytes s2 (asc "02104000000000000000000")) && (
(eq_obytes (option_map e_len (sget (u "t") enc3)) (asc "")) && (
(eq_obytes (option_map e_data (sget (u "t") enc3)) (asc "0210")) && (
(eq_oval (pget (KStr (u "t")) d4) (u "0210")) && (
(eq_obytes (option_map e_len (sget (u "p") enc3)) (asc "")) && (
(eq_obytes (option_map e_data (sget (u "p") enc3)) (asc "4000000000000000")) && (
(eq_oval (pget (KStr (u "p")) d4) (u "4000000000000000")) && (
(eq_obytes (option_map e_len (sget (u "2") enc3)) (asc "000")) && (
(eq_obytes (option_map e_data (sget (u "2") enc3)) (asc "")) && (
(eq_oval (pget (KStr (u "2")) d4) (u "")) && (
(eq_keys (map (fun kv => KStr (fst kv)) enc3) [(KStr (u "2")); (KStr (u "p")); (KStr (u "t"))]) && (
(eq_keys (map fst d4) [(KStr (u "2")); (KStr (u "p")); (KStr (u "t"))]) && (
 true ) ) ) ) ) ) ) ) ) ) ) ) | _ => false end ;
let sp1 := (changed default_ascii [((u "2"), (props (Some (u "cp500")) (Some (u "ascii")) (Some (3)%Z) (Some (999)%Z) None None None (Some (u "Primary Account Number (PAN)"))))]) in
match encode cpython311 (ADict [((KStr (u "t")), (VStr (u "0210"))); ((KStr (u "2")), (VStr (u "")))]) sp1 with
 (Ok (s2, enc3), d4) =>
(eq_bytes s2 (asc "02104000000000000000000")) && (
(eq_obytes (option_map e_len (sget (u "t") enc3)) (asc "")) && (
(eq_obytes (option_map e_data (sget (u "t") enc3)) (asc "0210")) && (
(eq_oval (pget (KStr (u "t")) d4) (u "0210")) && (
(eq_obytes (option_map e_len (sget (u "p") enc3)) (asc "")) && (
(eq_obytes (option_map e_data (sget (u "p") enc3)) (asc "4000000000000000")) && (
(eq_oval (pget (KStr (u "p")) d4) (u "4000000000000000")) && (
(eq_obytes (option_map e_len (sget (u "2") enc3)) (asc "000")) && (
(eq_obytes (option_map e_data (sget (u "2") enc3)) (asc "")) && (
(eq_oval (pget (KStr (u "2")) d4) (u "")) && (
(eq_keys (map (fun kv => KStr (fst kv)) enc3) [(KStr (u "2")); (KStr (u "p")); (KStr (u "t"))]) && (
(eq_keys (map fst d4) [(KStr (u "2")); (KStr (u "p")); (KStr (u "t"))]) && (
 true ) ) ) ) ) ) ) ) ) ) ) ) | _ => false end ;
let sp1 := (changed default_ascii [((u "2"), (props (Some (u "ascii")) (Some (u "ascii")) (Some (3)%Z) (Some (999)%Z) None None None (Some (u "Primary Account Number (PAN)"))))]) in
match encode cpython311 (ADict [((KStr (u "t")), (VStr (u "0210"))); ((KStr (u "2")), (VStr (u "0")))]) sp1 with
 (Ok (s2, enc3), d4) =>
(eq_bytes s2 (asc "021040000000000000000010")) && (
(eq_obytes (option_map e_len (sget (u "t") enc3)) (asc "")) && (
(eq_obytes (option_map e_data (sget (u "t") enc3)) (asc "0210")) && (
(eq_oval (pget (KStr (u "t")) d4) (u "0210")) && (
(eq_obytes (option_map e_len (sget (u "p") enc3)) (asc "")) && (
(eq_obytes (option_map e_data (sget (u "p") enc3)) (asc "4000000000000000")) && (
(eq_oval (pget (KStr (u "p")) d4) (u "4000000000000000")) && (
(eq_obytes (option_map e_len (sget (u "2") enc3)) (asc "001")) && (
(eq_obytes (option_map e_data (sget (u "2") enc3)) (asc "0")) && (
(eq_oval (pget (KStr (u "2")) d4) (u "0")) && (
(eq_keys (map (fun kv => KStr (fst kv)) enc3) [(KStr (u "2")); (KStr (u "p")); (KStr (u "t"))]) && (
(eq_keys (map fst d4) [(KStr (u "2")); (KStr (u "p")); (KStr (u "t"))]) && (
 true ) ) ) ) ) ) ) ) ) ) ) ) | _ => false end ;
let sp1 := (changed default_ascii [((u "2"), (props (Some (u "cp500")) (Some (u "ascii")) (Some (3)%Z) (Some (999)%Z) None None None (Some (u "Primary Account Number (PAN)"))))]) in
match encode cpython311 (ADict [((KStr (u "t")), (VStr (u "0210"))); ((KStr (u "2")), (VStr (u "0")))]) sp1 with
 (Ok (s2, enc3), d4) =>
(eq_bytes s2 (raw [48; 50; 49; 48; 52; 48; 48; 48; 48; 48; 48; 48; 48; 48; 48; 48; 48; 48; 48; 48; 48; 48; 49; 240]%N)) && (
(eq_obytes (option_map e_len (sget (u "t") enc3)) (asc "")) && (
(eq_obytes (option_map e_data (sget (u "t") enc3)) (asc "0210")) && (
(eq_oval (pget (KStr (u "t")) d4) (u "0210")) && (
(eq_obytes (option_map e_len (sget (u "p") enc3)) (asc "")) && (
(eq_obytes (option_map e_data (sget (u "p") enc3)) (asc "4000000000000000")) && (
(eq_oval (pget (KStr (u "p")) d4) (u "4000000000000000")) && (
(eq_obytes (option_map e_len (sget (u "2") enc3)) (asc "001")) && (
(eq_obytes (option_map e_data (sget (u "2") enc3)) (raw [240]%N)) && (
(eq_oval (pget (KStr (u "2")) d4) (u "0")) && (
(eq_keys (map (fun kv => KStr (fst kv)) enc3) [(KStr (u "2")); (KStr (u "p")); (KStr (u "t"))]) && (
(eq_keys (map fst d4) [(KStr (u "2")); (KStr (u "p")); (KStr (u "t"))]) && (
 true ) ) ) ) ) ) ) ) ) ) ) ) | _ => false end ;
let sp1 := (changed default_ascii [((u "2"), (props (Some (u "b")) (Some (u "ascii")) (Some (3)%Z) (Some (999)%Z) None None None (Some (u "Primary Account Number (PAN)"))))]) in
match encode cpython311 (ADict [((KStr (u "t")), (VStr (u "0210"))); ((KStr (u "2")), (VStr (u "01")))]) sp1 with
 (Ok (s2, enc3), d4) =>
(eq_bytes s2 (raw [48; 50; 49; 48; 52; 48; 48; 48; 48; 48; 48; 48; 48; 48; 48; 48; 48; 48; 48; 48; 48; 48; 49; 1]%N)) && (
(eq_obytes (option_map e_len (sget (u "t") enc3)) (asc "")) && (
(eq_obytes (option_map e_data (sget (u "t") enc3)) (asc "0210")) && (
(eq_oval (pget (KStr (u "t")) d4) (u "0210")) && (
(eq_obytes (option_map e_len (sget (u "p") enc3)) (asc "")) && (
(eq_obytes (option_map e_data (sget (u "p") enc3)) (asc "4000000000000000")) && (
(eq_oval (pget (KStr (u "p")) d4) (u "4000000000000000")) && (
(eq_obytes (option_map e_len (sget (u "2") enc3)) (asc "001")) && (
(eq_obytes (option_map e_data (sget (u "2") enc3)) (raw [1]%N)) && (
(eq_oval (pget (KStr (u "2")) d4) (u "01")) && (
(eq_keys (map (fun kv => KStr (fst kv)) enc3) [(KStr (u "2")); (KStr (u "p")); (KStr (u "t"))]) && (
(eq_keys (map fst d4) [(KStr (u "2")); (KStr (u "p")); (KStr (u "t"))]) && (
 true ) ) ) ) ) ) ) ) ) ) ) ) | _ => false end ;
let sp1 := (changed default_ascii [((u "2"), (props (Some (u "ascii")) (Some (u "ascii")) (Some (3)%Z) (Some (999)%Z) None None None (Some (u "Primary Account Number (PAN)"))))]) in
match encode cpython311 (ADict [((KStr (u "t")), (VStr (u "0210"))); ((KStr (u "2")), (VStr (u "01")))]) sp1 with
 (Ok (s2, enc3), d4) =>
(eq_bytes s2 (asc "0210400000000000000000201")) && (
(eq_obytes (option_map e_len (sget (u "t") enc3)) (asc "")) && (
(eq_obytes (option_map e_data (sget (u "t") enc3)) (asc "0210")) && (
(eq_oval (pget (KStr (u "t")) d4) (u "0210")) && (
(eq_obytes (option_map e_len (sget (u "p") enc3)) (asc "")) && (
(eq_obytes (option_map e_data (sget (u "p") enc3)) (asc "4000000000000000")) && (
(eq_oval (pget (KStr (u "p")) d4) (u "4000000000000000")) && (
(eq_obytes (option_map e_len (sget (u "2") enc3)) (asc "002")) && (
(eq_obytes (option_map e_data (sget (u "2") enc3)) (asc "01")) && (
(eq_oval (pget (KStr (u "2")) d4) (u "01")) && (
(eq_keys (map (fun kv => KStr (fst kv)) enc3) [(KStr (u "2")); (KStr (u "p")); (KStr (u "t"))]) && (
(eq_keys (map fst d4) [(KStr (u "2")); (KStr (u "p")); (KStr (u "t"))]) && (
 true ) ) ) ) ) ) ) ) ) ) ) ) | _ => false end ;
let sp1 := (changed default_ascii [((u "2"), (props (Some (u "cp500")) (Some (u "ascii")) (Some (3)%Z) (Some (999)%Z) None None None (Some (u "Primary Account Number (PAN)"))))]) in
match encode cpython311 (ADict [((KStr (u "t")), (VStr (u "0210"))); ((KStr (u "2")), (VStr (u "01")))]) sp1 with
 (Ok (s2, enc3), d4) =>
(eq_bytes s2 (raw [48; 50; 49; 48; 52; 48; 48; 48; 48; 48; 48; 48; 48; 48; 48; 48; 48; 48; 48; 48; 48; 48; 50; 240; 241]%N)) && (
(eq_obytes (option_map e_len (sget (u "t") enc3)) (asc "")) && (
(eq_obytes (option_map e_data (sget (u "t") enc3)) (asc "0210")) && (
(eq_oval (pget (KStr (u "t")) d4) (u "0210")) && (
(eq_obytes (option_map e_len (sget (u "p") enc3)) (asc "")) && (
(eq_obytes (option_map e_data (sget (u "p") enc3)) (asc "4000000000000000")) && (
(eq_oval (pget (KStr (u "p")) d4) (u "4000000000000000")) && (
(eq_obytes (option_map e_len (sget (u "2") enc3)) (asc "002")) && (
(eq_obytes (option_map e_data (sget (u "2") enc3)) (raw [240; 241]%N)) && (
(eq_oval (pget (KStr (u "2")) d4) (u "01")) && (
(eq_keys (map (fun kv => KStr (fst kv)) enc3) [(KStr (u "2")); (KStr (u "p")); (KStr (u "t"))]) && (
(eq_keys (map fst d4) [(KStr (u "2")); (KStr (u "p")); (KStr (u "t"))]) && (
 true ) ) ) ) ) ) ) ) ) ) ) ) | _ => false end ] = true.
Proof. vm_compute. reflexivity. Qed.

(** tests/test_encode.py:649. *)
Example test_field_encoding_negative : forallb (fun b => b) [
let sp1 := (changed default_ascii [((u "2"), (props (Some (u "unknown_encoding")) (Some (u "ascii")) (Some (0)%Z) (Some (1)%Z) None None None (Some (u "Primary Account Number (PAN)"))))]) in
match encode cpython311 (ADict [((KStr (u "t")), (VStr (u "0210"))); ((KStr (u "2")), (VStr (u "a")))]) sp1 with
 (Raise (XEncodeError e2), d3) =>
(eq_str (ee_args0 e2) (u "Failed to encode field, unknown encoding specified: field 2")) && (
 true ) | _ => false end ;
let sp1 := (changed default_ascii [((u "2"), (props (Some (u "b")) (Some (u "ascii")) (Some (0)%Z) (Some (1)%Z) None None None (Some (u "Primary Account Number (PAN)"))))]) in
match encode cpython311 (ADict [((KStr (u "t")), (VStr (u "0210"))); ((KStr (u "2")), (VStr (u "xx")))]) sp1 with
 (Raise (XEncodeError e2), d3) =>
(eq_str (ee_args0 e2) (u "Failed to encode field, non-hex data: field 2")) && (
 true ) | _ => false end ;
let sp1 := (changed default_ascii [((u "2"), (props (Some (u "ascii")) (Some (u "ascii")) (Some (0)%Z) (Some (1)%Z) None None None (Some (u "Primary Account Number (PAN)"))))]) in
match encode cpython311 (ADict [((KStr (u "t")), (VStr (u "0210"))); ((KStr (u "2")), (VStr [255]%N))]) sp1 with
 (Raise (XEncodeError e2), d3) =>
(eq_str (ee_args0 e2) (u "Failed to encode field, invalid data: field 2")) && (
 true ) | _ => false end ;
let sp1 := (changed default_ascii [((u "2"), (props (Some (u "b")) (Some (u "ascii")) (Some (0)%Z) (Some (1)%Z) None None None (Some (u "Primary Account Number (PAN)"))))]) in
match encode cpython311 (ADict [((KStr (u "t")), (VStr (u "0210"))); ((KStr (u "2")), (VStr (u "a")))]) sp1 with
 (Raise (XEncodeError e2), d3) =>
(eq_str (ee_args0 e2) (u "Failed to encode field, odd-length hex data: field 2")) && (
 true ) | _ => false end ;
let sp1 := (changed default_ascii [((u "2"), (props (Some (u "b")) (Some (u "ascii")) (Some (0)%Z) (Some (1)%Z) None None None (Some (u "Primary Account Number (PAN)"))))]) in
match encode cpython311 (ADict [((KStr (u "t")), (VStr (u "0210"))); ((KStr (u "2")), (VStr (u "0")))]) sp1 with
 (Raise (XEncodeError e2), d3) =>
(eq_str (ee_args0 e2) (u "Failed to encode field, odd-length hex data: field 2")) && (
 true ) | _ => false end ;
let sp1 := (changed default_ascii [((u "2"), (props (Some (u "b")) (Some (u "ascii")) (Some (0)%Z) (Some (1)%Z) None None None (Some (u "Primary Account Number (PAN)"))))]) in
match encode cpython311 (ADict [((KStr (u "t")), (VStr (u "0210"))); ((KStr (u "2")), (VStr (u "")))]) sp1 with
 (Raise (XEncodeError e2), d3) =>
(eq_str (ee_args0 e2) (u "Field data is 0 bytes, expecting 1: field 2")) && (
 true ) | _ => false end ;
let sp1 := (changed default_ascii [((u "2"), (props (Some (u "b")) (Some (u "ascii")) (Some (0)%Z) (Some (1)%Z) None None None (Some (u "Primary Account Number (PAN)"))))]) in
match encode cpython311 (ADict [((KStr (u "t")), (VStr (u "0210"))); ((KStr (u "2")), (VStr (u "")))]) sp1 with
 (Raise (XEncodeError e2), d3) =>
(eq_str (ee_args0 e2) (u "Field data is 0 bytes, expecting 1: field 2")) && (
 true ) | _ => false end ;
let sp1 := (changed default_ascii [((u "2"), (props (Some (u "ascii")) (Some (u "ascii")) (Some (0)%Z) (Some (1)%Z) None None None (Some (u "Primary Account Number (PAN)"))))]) in
match encode cpython311 (ADict [((KStr (u "t")), (VStr (u "0210"))); ((KStr (u "2")), (VStr (u "")))]) sp1 with
 (Raise (XEncodeError e2), d3) =>
(eq_str (ee_args0 e2) (u "Field data is 0 bytes, expecting 1: field 2")) && (
 true ) | _ => false end ;
let sp1 := (changed default_ascii [((u "2"), (props (Some (u "cp500")) (Some (u "ascii")) (Some (0)%Z) (Some (1)%Z) None None None (Some (u "Primary Account Number (PAN)"))))]) in
match encode cpython311 (ADict [((KStr (u "t")), (VStr (u "0210"))); ((KStr (u "2")), (VStr (u "")))]) sp1 with
 (Raise (XEncodeError e2), d3) =>
(eq_str (ee_args0 e2) (u "Field data is 0 bytes, expecting 1: field 2")) && (
 true ) | _ => false end ;
let sp1 := (changed default_ascii [((u "2"), (props (Some (u "b")) (Some (u "ascii")) (Some (0)%Z) (Some (3)%Z) None None None (Some (u "Primary Account Number (PAN)"))))]) in
match encode cpython311 (ADict [((KStr (u "t")), (VStr (u "0210"))); ((KStr (u "2")), (VStr (u "aaaa")))]) sp1 with
 (Raise (XEncodeError e2), d3) =>
(eq_str (ee_args0 e2) (u "Field data is 2 bytes, expecting 3: field 2")) && (
 true ) | _ => false end ;
let sp1 := (changed default_ascii [((u "2"), (props (Some (u "b")) (Some (u "ascii")) (Some (0)%Z) (Some (3)%Z) None None None (Some (u "Primary Account Number (PAN)"))))]) in
match encode cpython311 (ADict [((KStr (u "t")), (VStr (u "0210"))); ((KStr (u "2")), (VStr (u "0000")))]) sp1 with
 (Raise (XEncodeError e2), d3) =>
(eq_str (ee_args0 e2) (u "Field data is 2 bytes, expecting 3: field 2")) && (
 true ) | _ => false end ;
let sp1 := (changed default_ascii [((u "2"), (props (Some (u "ascii")) (Some (u "ascii")) (Some (0)%Z) (Some (3)%Z) None None None (Some (u "Primary Account Number (PAN)"))))]) in
match encode cpython311 (ADict [((KStr (u "t")), (VStr (u "0210"))); ((KStr (u "2")), (VStr (u "aa")))]) sp1 with
 (Raise (XEncodeError e2), d3) =>
(eq_str (ee_args0 e2) (u "Field data is 2 bytes, expecting 3: field 2")) && (
 true ) | _ => false end ;
let sp1 := (changed default_ascii [((u "2"), (props (Some (u "cp500")) (Some (u "ascii")) (Some (0)%Z) (Some (3)%Z) None None None (Some (u "Primary Account Number (PAN)"))))]) in
match encode cpython311 (ADict [((KStr (u "t")), (VStr (u "0210"))); ((KStr (u "2")), (VStr (u "aa")))]) sp1 with
 (Raise (XEncodeError e2), d3) =>
(eq_str (ee_args0 e2) (u "Field data is 2 bytes, expecting 3: field 2")) && (
 true ) | _ => false end ;
let sp1 := (changed default_ascii [((u "2"), (props (Some (u "b")) (Some (u "ascii")) (Some (0)%Z) (Some (1)%Z) None None None (Some (u "Primary Account Number (PAN)"))))]) in
match encode cpython311 (ADict [((KStr (u "t")), (VStr (u "0210"))); ((KStr (u "2")), (VStr (u "aaaa")))]) sp1 with
 (Raise (XEncodeError e2), d3) =>
(eq_str (ee_args0 e2) (u "Field data is 2 bytes, expecting 1: field 2")) && (
 true ) | _ => false end ;
let sp1 := (changed default_ascii [((u "2"), (props (Some (u "b")) (Some (u "ascii")) (Some (0)%Z) (Some (1)%Z) None None None (Some (u "Primary Account Number (PAN)"))))]) in
match encode cpython311 (ADict [((KStr (u "t")), (VStr (u "0210"))); ((KStr (u "2")), (VStr (u "0000")))]) sp1 with
 (Raise (XEncodeError e2), d3) =>
(eq_str (ee_args0 e2) (u "Field data is 2 bytes, expecting 1: field 2")) && (
 true ) | _ => false end ;
let sp1 := (changed default_ascii [((u "2"), (props (Some (u "ascii")) (Some (u "ascii")) (Some (0)%Z) (Some (1)%Z) None None None (Some (u "Primary Account Number (PAN)"))))]) in
match encode cpython311 (ADict [((KStr (u "t")), (VStr (u "0210"))); ((KStr (u "2")), (VStr (u "aa")))]) sp1 with
 (Raise (XEncodeError e2), d3) =>
(eq_str (ee_args0 e2) (u "Field data is 2 bytes, expecting 1: field 2")) && (
 true ) | _ => false end ;
let sp1 := (changed default_ascii [((u "2"), (props (Some (u "cp500")) (Some (u "ascii")) (Some (0)%Z) (Some (1)%Z) None None None (Some (u "Primary Account Number (PAN)"))))]) in
match encode cpython311 (ADict [((KStr (u "t")), (VStr (u "0210"))); ((KStr (u "2")), (VStr (u "aa")))]) sp1 with
 (Raise (XEncodeError e2), d3) =>
(eq_str (ee_args0 e2) (u "Field data is 2 bytes, expecting 1: field 2")) && (
 true ) | _ => false end ;
let sp1 := (changed default_ascii [((u "2"), (props (Some (u "b")) (Some (u "ascii")) (Some (1)%Z) (Some (10)%Z) None None None (Some (u "Primary Account Number (PAN)"))))]) in
match encode cpython311 (ADict [((KStr (u "t")), (VStr (u "0210"))); ((KStr (u "2")), (VStr (u "a")))]) sp1 with
 (Raise (XEncodeError e2), d3) =>
(eq_str (ee_args0 e2) (u "Failed to encode field, odd-length hex data: field 2")) && (
 true ) | _ => false end ;
let sp1 := (changed default_ascii [((u "2"), (props (Some (u "b")) (Some (u "ascii")) (Some (1)%Z) (Some (10)%Z) None None None (Some (u "Primary Account Number (PAN)"))))]) in
match encode cpython311 (ADict [((KStr (u "t")), (VStr (u "0210"))); ((KStr (u "2")), (VStr (u "0")))]) sp1 with
 (Raise (XEncodeError e2), d3) =>
(eq_str (ee_args0 e2) (u "Failed to encode field, odd-length hex data: field 2")) && (
 true ) | _ => false end ;
let sp1 := (changed default_ascii [((u "2"), (props (Some (u "b")) (Some (u "ascii")) (Some (1)%Z) (Some (1)%Z) None None None (Some (u "Primary Account Number (PAN)"))))]) in
match encode cpython311 (ADict [((KStr (u "t")), (VStr (u "0210"))); ((KStr (u "2")), (VStr (u "aaaa")))]) sp1 with
 (Raise (XEncodeError e2), d3) =>
(eq_str (ee_args0 e2) (u "Field data is 2 bytes, larger than maximum 1: field 2")) && (
 true ) | _ => false end ;
let sp1 := (changed default_ascii [((u "2"), (props (Some (u "b")) (Some (u "ascii")) (Some (1)%Z) (Some (1)%Z) None None None (Some (u "Primary Account Number (PAN)"))))]) in
match encode cpython311 (ADict [((KStr (u "t")), (VStr (u "0210"))); ((KStr (u "2")), (VStr (u "0000")))]) sp1 with
 (Raise (XEncodeError e2), d3) =>
(eq_str (ee_args0 e2) (u "Field data is 2 bytes, larger than maximum 1: field 2")) && (
 true ) | _ => false end ;
let sp1 := (changed default_ascii [((u "2"), (props (Some (u "ascii")) (Some (u "ascii")) (Some (1)%Z) (Some (1)%Z) None None None (Some (u "Primary Account Number (PAN)"))))]) in
match encode cpython311 (ADict [((KStr (u "t")), (VStr (u "0210"))); ((KStr (u "2")), (VStr (u "aa")))]) sp1 with
 (Raise (XEncodeError e2), d3) =>
(eq_str (ee_args0 e2) (u "Field data is 2 bytes, larger than maximum 1: field 2")) && (
 true ) | _ => false end ;
let sp1 := (changed default_ascii [((u "2"), (props (Some (u "cp500")) (Some (u "ascii")) (Some (1)%Z) (Some (1)%Z) None None None (Some (u "Primary Account Number (PAN)"))))]) in
match encode cpython311 (ADict [((KStr (u "t")), (VStr (u "0210"))); ((KStr (u "2")), (VStr (u "aa")))]) sp1 with
 (Raise (XEncodeError e2), d3) =>
(eq_str (ee_args0 e2) (u "Field data is 2 bytes, larger than maximum 1: field 2")) && (
 true ) | _ => false end ] = true.
Proof. vm_compute. reflexivity. Qed.

(** tests/test_encode.py:719. *)
Example test_field_length_encoding : forallb (fun b => b) [
let sp1 := (changed default_ascii [((u "2"), (props (Some (u "ascii")) (Some (u "b")) (Some (0)%Z) (Some (0)%Z) None None None (Some (u "Primary Account Number (PAN)"))))]) in
match encode cpython311 (ADict [((KStr (u "t")), (VStr (u "0210"))); ((KStr (u "2")), (VStr (u "")))]) sp1 with
 (Ok (s2, enc3), d4) =>
(eq_bytes s2 (asc "02104000000000000000")) && (
(eq_obytes (option_map e_len (sget (u "t") enc3)) (asc "")) && (
(eq_obytes (option_map e_data (sget (u "t") enc3)) (asc "0210")) && (
(eq_oval (pget (KStr (u "t")) d4) (u "0210")) && (
(eq_obytes (option_map e_len (sget (u "p") enc3)) (asc "")) && (
(eq_obytes (option_map e_data (sget (u "p") enc3)) (asc "4000000000000000")) && (
(eq_oval (pget (KStr (u "p")) d4) (u "4000000000000000")) && (
(eq_obytes (option_map e_len (sget (u "2") enc3)) (asc "")) && (
(eq_obytes (option_map e_data (sget (u "2") enc3)) (asc "")) && (
(eq_oval (pget (KStr (u "2")) d4) (u "")) && (
(eq_keys (map (fun kv => KStr (fst kv)) enc3) [(KStr (u "2")); (KStr (u "p")); (KStr (u "t"))]) && (
(eq_keys (map fst d4) [(KStr (u "2")); (KStr (u "p")); (KStr (u "t"))]) && (
 true ) ) ) ) ) ) ) ) ) ) ) ) | _ => false end ;
let sp1 := (changed default_ascii [((u "2"), (props (Some (u "ascii")) (Some (u "bcd")) (Some (0)%Z) (Some (0)%Z) None None None (Some (u "Primary Account Number (PAN)"))))]) in
match encode cpython311 (ADict [((KStr (u "t")), (VStr (u "0210"))); ((KStr (u "2")), (VStr (u "")))]) sp1 with
 (Ok (s2, enc3), d4) =>
(eq_bytes s2 (asc "02104000000000000000")) && (
(eq_obytes (option_map e_len (sget (u "t") enc3)) (asc "")) && (
(eq_obytes (option_map e_data (sget (u "t") enc3)) (asc "0210")) && (
(eq_oval (pget (KStr (u "t")) d4) (u "0210")) && (
(eq_obytes (option_map e_len (sget (u "p") enc3)) (asc "")) && (
(eq_obytes (option_map e_data (sget (u "p") enc3)) (asc "4000000000000000")) && (
(eq_oval (pget (KStr (u "p")) d4) (u "4000000000000000")) && (
(eq_obytes (option_map e_len (sget (u "2") enc3)) (asc "")) && (
(eq_obytes (option_map e_data (sget (u "2") enc3)) (asc "")) && (
(eq_oval (pget (KStr (u "2")) d4) (u "")) && (
(eq_keys (map (fun kv => KStr (fst kv)) enc3) [(KStr (u "2")); (KStr (u "p")); (KStr (u "t"))]) && (
(eq_keys (map fst d4) [(KStr (u "2")); (KStr (u "p")); (KStr (u "t"))]) && (
 true ) ) ) ) ) ) ) ) ) ) ) ) | _ => false end ;
let sp1 := (changed default_ascii [((u "2"), (props (Some (u "ascii")) (Some (u "ascii")) (Some (0)%Z) (Some (0)%Z) None None None (Some (u "Primary Account Number (PAN)"))))]) in
match encode cpython311 (ADict [((KStr (u "t")), (VStr (u "0210"))); ((KStr (u "2")), (VStr (u "")))]) sp1 with
 (Ok (s2, enc3), d4) =>
(eq_bytes s2 (asc "02104000000000000000")) && (
(eq_obytes (option_map e_len (sget (u "t") enc3)) (asc "")) && (
(eq_obytes (option_map e_data (sget (u "t") enc3)) (asc "0210")) && (
(eq_oval (pget (KStr (u "t")) d4) (u "0210")) && (
(eq_obytes (option_map e_len (sget (u "p") enc3)) (asc "")) && (
(eq_obytes (option_map e_data (sget (u "p") enc3)) (asc "4000000000000000")) && (
(eq_oval (pget (KStr (u "p")) d4) (u "4000000000000000")) && (
(eq_obytes (option_map e_len (sget (u "2") enc3)) (asc "")) && (
(eq_obytes (option_map e_data (sget (u "2") enc3)) (asc "")) && (
(eq_oval (pget (KStr (u "2")) d4) (u "")) && (
(eq_keys (map (fun kv => KStr (fst kv)) enc3) [(KStr (u "2")); (KStr (u "p")); (KStr (u "t"))]) && (
(eq_keys (map fst d4) [(KStr (u "2")); (KStr (u "p")); (KStr (u "t"))]) && (
 true ) ) ) ) ) ) ) ) ) ) ) ) | _ => false end ;
let sp1 := (changed default_ascii [((u "2"), (props (Some (u "ascii")) (Some (u "cp500")) (Some (0)%Z) (Some (0)%Z) None None None (Some (u "Primary Account Number (PAN)"))))]) in
match encode cpython311 (ADict [((KStr (u "t")), (VStr (u "0210"))); ((KStr (u "2")), (VStr (u "")))]) sp1 with
 (Ok (s2, enc3), d4) =>
(eq_bytes s2 (asc "02104000000000000000")) && (
(eq_obytes (option_map e_len (sget (u "t") enc3)) (asc "")) && (
(eq_obytes (option_map e_data (sget (u "t") enc3)) (asc "0210")) && (
(eq_oval (pget (KStr (u "t")) d4) (u "0210")) && (
(eq_obytes (option_map e_len (sget (u "p") enc3)) (asc "")) && (
(eq_obytes (option_map e_data (sget (u "p") enc3)) (asc "4000000000000000")) && (
(eq_oval (pget (KStr (u "p")) d4) (u "4000000000000000")) && (
(eq_obytes (option_map e_len (sget (u "2") enc3)) (asc "")) && (
(eq_obytes (option_map e_data (sget (u "2") enc3)) (asc "")) && (
(eq_oval (pget (KStr (u "2")) d4) (u "")) && (
(eq_keys (map (fun kv => KStr (fst kv)) enc3) [(KStr (u "2")); (KStr (u "p")); (KStr (u "t"))]) && (
(eq_keys (map fst d4) [(KStr (u "2")); (KStr (u "p")); (KStr (u "t"))]) && (
 true ) ) ) ) ) ) ) ) ) ) ) ) | _ => false end ;
let sp1 := (changed default_ascii [((u "2"), (props (Some (u "ascii")) (Some (u "b")) (Some (0)%Z) (Some (1)%Z) None None None (Some (u "Primary Account Number (PAN)"))))]) in
match encode cpython311 (ADict [((KStr (u "t")), (VStr (u "0210"))); ((KStr (u "2")), (VStr (u "a")))]) sp1 with
 (Ok (s2, enc3), d4) =>
(eq_bytes s2 (asc "02104000000000000000a")) && (
(eq_obytes (option_map e_len (sget (u "t") enc3)) (asc "")) && (
(eq_obytes (option_map e_data (sget (u "t") enc3)) (asc "0210")) && (
(eq_oval (pget (KStr (u "t")) d4) (u "0210")) && (
(eq_obytes (option_map e_len (sget (u "p") enc3)) (asc "")) && (
(eq_obytes (option_map e_data (sget (u "p") enc3)) (asc "4000000000000000")) && (
(eq_oval (pget (KStr (u "p")) d4) (u "4000000000000000")) && (
(eq_obytes (option_map e_len (sget (u "2") enc3)) (asc "")) && (
(eq_obytes (option_map e_data (sget (u "2") enc3)) (asc "a")) && (
(eq_oval (pget (KStr (u "2")) d4) (u "a")) && (
(eq_keys (map (fun kv => KStr (fst kv)) enc3) [(KStr (u "2")); (KStr (u "p")); (KStr (u "t"))]) && (
(eq_keys (map fst d4) [(KStr (u "2")); (KStr (u "p")); (KStr (u "t"))]) && (
 true ) ) ) ) ) ) ) ) ) ) ) ) | _ => false end ;
let sp1 := (changed default_ascii [((u "2"), (props (Some (u "ascii")) (Some (u "bcd")) (Some (0)%Z) (Some (1)%Z) None None None (Some (u "Primary Account Number (PAN)"))))]) in
match encode cpython311 (ADict [((KStr (u "t")), (VStr (u "0210"))); ((KStr (u "2")), (VStr (u "a")))]) sp1 with
 (Ok (s2, enc3), d4) =>
(eq_bytes s2 (asc "02104000000000000000a")) && (
(eq_obytes (option_map e_len (sget (u "t") enc3)) (asc "")) && (
(eq_obytes (option_map e_data (sget (u "t") enc3)) (asc "0210")) && (
(eq_oval (pget (KStr (u "t")) d4) (u "0210")) && (
(eq_obytes (option_map e_len (sget (u "p") enc3)) (asc "")) && (
(eq_obytes (option_map e_data (sget (u "p") enc3)) (asc "4000000000000000")) && (
(eq_oval (pget (KStr (u "p")) d4) (u "4000000000000000")) && (
(eq_obytes (option_map e_len (sget (u "2") enc3)) (asc "")) && (
(eq_obytes (option_map e_data (sget (u "2") enc3)) (asc "a")) && (
(eq_oval (pget (KStr (u "2")) d4) (u "a")) && (
(eq_keys (map (fun kv => KStr (fst kv)) enc3) [(KStr (u "2")); (KStr (u "p")); (KStr (u "t"))]) && (
(eq_keys (map fst d4) [(KStr (u "2")); (KStr (u "p")); (KStr (u "t"))]) && (
 true ) ) ) ) ) ) ) ) ) ) ) ) | _ => false end ;
let sp1 := (changed default_ascii [((u "2"), (props (Some (u "ascii")) (Some (u "ascii")) (Some (0)%Z) (Some (1)%Z) None None None (Some (u "Primary Account Number (PAN)"))))]) in
match encode cpython311 (ADict [((KStr (u "t")), (VStr (u "0210"))); ((KStr (u "2")), (VStr (u "a")))]) sp1 with
 (Ok (s2, enc3), d4) =>
(eq_bytes s2 (asc "02104000000000000000a")) && (
(eq_obytes (option_map e_len (sget (u "t") enc3)) (asc "")) && (
(eq_obytes (option_map e_data (sget (u "t") enc3)) (asc "0210")) && (
(eq_oval (pget (KStr (u "t")) d4) (u "0210")) && (
(eq_obytes (option_map e_len (sget (u "p") enc3)) (asc "")) && (
(eq_obytes (option_map e_data (sget (u "p") enc3)) (asc "4000000000000000")) && (
(eq_oval (pget (KStr (u "p")) d4) (u "4000000000000000")) && (
(eq_obytes (option_map e_len (sget (u "2") enc3)) (asc "")) && (
(eq_obytes (option_map e_data (sget (u "2") enc3)) (asc "a")) && (
(eq_oval (pget (KStr (u "2")) d4) (u "a")) && (
(eq_keys (map (fun kv => KStr (fst kv)) enc3) [(KStr (u "2")); (KStr (u "p")); (KStr (u "t"))]) && (
(eq_keys (map fst d4) [(KStr (u "2")); (KStr (u "p")); (KStr (u "t"))]) && (
 true ) ) ) ) ) ) ) ) ) ) ) ) | _ => false end ;
let sp1 := (changed default_ascii [((u "2"), (props (Some (u "ascii")) (Some (u "cp500")) (Some (0)%Z) (Some (1)%Z) None None None (Some (u "Primary Account Number (PAN)"))))]) in
match encode cpython311 (ADict [((KStr (u "t")), (VStr (u "0210"))); ((KStr (u "2")), (VStr (u "a")))]) sp1 with
 (Ok (s2, enc3), d4) =>
(eq_bytes s2 (asc "02104000000000000000a")) && (
(eq_obytes (option_map e_len (sget (u "t") enc3)) (asc "")) && (
(eq_obytes (option_map e_data (sget (u "t") enc3)) (asc "0210")) && (
(eq_oval (pget (KStr (u "t")) d4) (u "0210")) && (
(eq_obytes (option_map e_len (sget (u "p") enc3)) (asc "")) && (
(eq_obytes (option_map e_data (sget (u "p") enc3)) (asc "4000000000000000")) && (
(eq_oval (pget (KStr (u "p")) d4) (u "4000000000000000")) && (
(eq_obytes (option_map e_len (sget (u "2") enc3)) (asc "")) && (
(eq_obytes (option_map e_data (sget (u "2") enc3)) (asc "a")) && (
(eq_oval (pget (KStr (u "2")) d4) (u "a")) && (
(eq_keys (map (fun kv => KStr (fst kv)) enc3) [(KStr (u "2")); (KStr (u "p")); (KStr (u "t"))]) && (
(eq_keys (map fst d4) [(KStr (u "2")); (KStr (u "p")); (KStr (u "t"))]) && (
 true ) ) ) ) ) ) ) ) ) ) ) ) | _ => false end ;
let sp1 := (changed default_ascii [((u "2"), (props (Some (u "ascii")) (Some (u "b")) (Some (1)%Z) (Some (0)%Z) None None None (Some (u "Primary Account Number (PAN)"))))]) in
match encode cpython311 (ADict [((KStr (u "t")), (VStr (u "0210"))); ((KStr (u "2")), (VStr (u "")))]) sp1 with
 (Ok (s2, enc3), d4) =>
(eq_bytes s2 (raw [48; 50; 49; 48; 52; 48; 48; 48; 48; 48; 48; 48; 48; 48; 48; 48; 48; 48; 48; 48; 0]%N)) && (
(eq_obytes (option_map e_len (sget (u "t") enc3)) (asc "")) && (
(eq_obytes (option_map e_data (sget (u "t") enc3)) (asc "0210")) && (
(eq_oval (pget (KStr (u "t")) d4) (u "0210")) && (
(eq_obytes (option_map e_len (sget (u "p") enc3)) (asc "")) && (
(eq_obytes (option_map e_data (sget (u "p") enc3)) (asc "4000000000000000")) && (
(eq_oval (pget (KStr (u "p")) d4) (u "4000000000000000")) && (
(eq_obytes (option_map e_len (sget (u "2") enc3)) (raw [0]%N)) && (
(eq_obytes (option_map e_data (sget (u "2") enc3)) (asc "")) && (
(eq_oval (pget (KStr (u "2")) d4) (u "")) && (
(eq_keys (map (fun kv => KStr (fst kv)) enc3) [(KStr (u "2")); (KStr (u "p")); (KStr (u "t"))]) && (
(eq_keys (map fst d4) [(KStr (u "2")); (KStr (u "p")); (KStr (u "t"))]) && (
 true ) ) ) ) ) ) ) ) ) ) ) ) | _ => false end ;
let sp1 := (changed default_ascii [((u "2"), (props (Some (u "ascii")) (Some (u "bcd")) (Some (1)%Z) (Some (0)%Z) None None None (Some (u "Primary Account Number (PAN)"))))]) in
match encode cpython311 (ADict [((KStr (u "t")), (VStr (u "0210"))); ((KStr (u "2")), (VStr (u "")))]) sp1 with
 (Ok (s2, enc3), d4) =>
(eq_bytes s2 (raw [48; 50; 49; 48; 52; 48; 48; 48; 48; 48; 48; 48; 48; 48; 48; 48; 48; 48; 48; 48; 0]%N)) && (
(eq_obytes (option_map e_len (sget (u "t") enc3)) (asc "")) && (
(eq_obytes (option_map e_data (sget (u "t") enc3)) (asc "0210")) && (
(eq_oval (pget (KStr (u "t")) d4) (u "0210")) && (
(eq_obytes (option_map e_len (sget (u "p") enc3)) (asc "")) && (
(eq_obytes (option_map e_data (sget (u "p") enc3)) (asc "4000000000000000")) && (
(eq_oval (pget (KStr (u "p")) d4) (u "4000000000000000")) && (
(eq_obytes (option_map e_len (sget (u "2") enc3)) (raw [0]%N)) && (
(eq_obytes (option_map e_data (sget (u "2") enc3)) (asc "")) && (
(eq_oval (pget (KStr (u "2")) d4) (u "")) && (
(eq_keys (map (fun kv => KStr (fst kv)) enc3) [(KStr (u "2")); (KStr (u "p")); (KStr (u "t"))]) && (
(eq_keys (map fst d4) [(KStr (u "2")); (KStr (u "p")); (KStr (u "t"))]) && (
 true ) ) ) ) ) ) ) ) ) ) ) ) | _ => false end ;
let sp1 := (changed default_ascii [((u "2"), (props (Some (u "ascii")) (Some (u "ascii")) (Some (1)%Z) (Some (0)%Z) None None None (Some (u "Primary Account Number (PAN)"))))]) in
match encode cpython311 (ADict [((KStr (u "t")), (VStr (u "0210"))); ((KStr (u "2")), (VStr (u "")))]) sp1 with
 (Ok (s2, enc3), d4) =>
(eq_bytes s2 (asc "021040000000000000000")) && (
(eq_obytes (option_map e_len (sget (u "t") enc3)) (asc "")) && (
(eq_obytes (option_map e_data (sget (u "t") enc3)) (asc "0210")) && (
(eq_oval (pget (KStr (u "t")) d4) (u "0210")) && (
(eq_obytes (option_map e_len (sget (u "p") enc3)) (asc "")) && (
(eq_obytes (option_map e_data (sget (u "p") enc3)) (asc "4000000000000000")) && (
(eq_oval (pget (KStr (u "p")) d4) (u "4000000000000000")) && (
(eq_obytes (option_map e_len (sget (u "2") enc3)) (asc "0")) && (
(eq_obytes (option_map e_data (sget (u "2") enc3)) (asc "")) && (
(eq_oval (pget (KStr (u "2")) d4) (u "")) && (
(eq_keys (map (fun kv => KStr (fst kv)) enc3) [(KStr (u "2")); (KStr (u "p")); (KStr (u "t"))]) && (
(eq_keys (map fst d4) [(KStr (u "2")); (KStr (u "p")); (KStr (u "t"))]) && (
 true ) ) ) ) ) ) ) ) ) ) ) ) | _ => false end ;
let sp1 := (changed default_ascii [((u "2"), (props (Some (u "ascii")) (Some (u "cp500")) (Some (1)%Z) (Some (0)%Z) None None None (Some (u "Primary Account Number (PAN)"))))]) in
match encode cpython311 (ADict [((KStr (u "t")), (VStr (u "0210"))); ((KStr (u "2")), (VStr (u "")))]) sp1 with
 (Ok (s2, enc3), d4) =>
(eq_bytes s2 (raw [48; 50; 49; 48; 52; 48; 48; 48; 48; 48; 48; 48; 48; 48; 48; 48; 48; 48; 48; 48; 240]%N)) && (
(eq_obytes (option_map e_len (sget (u "t") enc3)) (asc "")) && (
(eq_obytes (option_map e_data (sget (u "t") enc3)) (asc "0210")) && (
(eq_oval (pget (KStr (u "t")) d4) (u "0210")) && (
(eq_obytes (option_map e_len (sget (u "p") enc3)) (asc "")) && (
(eq_obytes (option_map e_data (sget (u "p") enc3)) (asc "4000000000000000")) && (
(eq_oval (pget (KStr (u "p")) d4) (u "4000000000000000")) && (
(eq_obytes (option_map e_len (sget (u "2") enc3)) (raw [240]%N)) && (
(eq_obytes (option_map e_data (sget (u "2") enc3)) (asc "")) && (
(eq_oval (pget (KStr (u "2")) d4) (u "")) && (
(eq_keys (map (fun kv => KStr (fst kv)) enc3) [(KStr (u "2")); (KStr (u "p")); (KStr (u "t"))]) && (
(eq_keys (map fst d4) [(KStr (u "2")); (KStr (u "p")); (KStr (u "t"))]) && (
 true ) ) ) ) ) ) ) ) ) ) ) ) | _ => false end ;
let sp1 := (changed default_ascii [((u "2"), (props (Some (u "ascii")) (Some (u "b")) (Some (2)%Z) (Some (0)%Z) None None None (Some (u "Primary Account Number (PAN)"))))]) in
match encode cpython311 (ADict [((KStr (u "t")), (VStr (u "0210"))); ((KStr (u "2")), (VStr (u "")))]) sp1 with
 (Ok (s2, enc3), d4) =>
(eq_bytes s2 (raw [48; 50; 49; 48; 52; 48; 48; 48; 48; 48; 48; 48; 48; 48; 48; 48; 48; 48; 48; 48; 0; 0]%N)) && (
(eq_obytes (option_map e_len (sget (u "t") enc3)) (asc "")) && (
(eq_obytes (option_map e_data (sget (u "t") enc3)) (asc "0210")) && (
(eq_oval (pget (KStr (u "t")) d4) (u "0210")) && (
(eq_obytes (option_map e_len (sget (u "p") enc3)) (asc "")) && (
(eq_obytes (option_map e_data (sget (u "p") enc3)) (asc "4000000000000000")) && (
(eq_oval (pget (KStr (u "p")) d4) (u "4000000000000000")) && (
(eq_obytes (option_map e_len (sget (u "2") enc3)) (raw [0; 0]%N)) && (
(eq_obytes (option_map e_data (sget (u "2") enc3)) (asc "")) && (
(eq_oval (pget (KStr (u "2")) d4) (u "")) && (
(eq_keys (map (fun kv => KStr (fst kv)) enc3) [(KStr (u "2")); (KStr (u "p")); (KStr (u "t"))]) && (
(eq_keys (map fst d4) [(KStr (u "2")); (KStr (u "p")); (KStr (u "t"))]) && (
 true ) ) ) ) ) ) ) ) ) ) ) ) | _ => false end ;
let sp1 := (changed default_ascii [((u "2"), (props (Some (u "ascii")) (Some (u "bcd")) (Some (2)%Z) (Some (0)%Z) None None None (Some (u "Primary Account Number (PAN)"))))]) in
match encode cpython311 (ADict [((KStr (u "t")), (VStr (u "0210"))); ((KStr (u "2")), (VStr (u "")))]) sp1 with
 (Ok (s2, enc3), d4) =>
(eq_bytes s2 (raw [48; 50; 49; 48; 52; 48; 48; 48; 48; 48; 48; 48; 48; 48; 48; 48; 48; 48; 48; 48; 0; 0]%N)) && (
(eq_obytes (option_map e_len (sget (u "t") enc3)) (asc "")) && (
(eq_obytes (option_map e_data (sget (u "t") enc3)) (asc "0210")) && (
(eq_oval (pget (KStr (u "t")) d4) (u "0210")) && (
(eq_obytes (option_map e_len (sget (u "p") enc3)) (asc "")) && (
(eq_obytes (option_map e_data (sget (u "p") enc3)) (asc "4000000000000000")) && (
(eq_oval (pget (KStr (u "p")) d4) (u "4000000000000000")) && (
(eq_obytes (option_map e_len (sget (u "2") enc3)) (raw [0; 0]%N)) && (
(eq_obytes (option_map e_data (sget (u "2") enc3)) (asc "")) && (
(eq_oval (pget (KStr (u "2")) d4) (u "")) && (
(eq_keys (map (fun kv => KStr (fst kv)) enc3) [(KStr (u "2")); (KStr (u "p")); (KStr (u "t"))]) && (
(eq_keys (map fst d4) [(KStr (u "2")); (KStr (u "p")); (KStr (u "t"))]) && (
 true ) ) ) ) ) ) ) ) ) ) ) ) | _ => false end ;
let sp1 := (changed default_ascii [((u "2"), (props (Some (u "ascii")) (Some (u "ascii")) (Some (2)%Z) (Some (0)%Z) None None None (Some (u "Primary Account Number (PAN)"))))]) in
match encode cpython311 (ADict [((KStr (u "t")), (VStr (u "0210"))); ((KStr (u "2")), (VStr (u "")))]) sp1 with
 (Ok (s2, enc3), d4) =>
(eq_bytes s2 (asc "0210400000000000000000")) && (
(eq_obytes (option_map e_len (sget (u "t") enc3)) (asc "")) && (
(eq_obytes (option_map e_data (sget (u "t") enc3)) (asc "0210")) && (
(eq_oval (pget (KStr (u "t")) d4) (u "0210")) && (
(eq_obytes (option_map e_len (sget (u "p") enc3)) (asc "")) && (
(eq_obytes (option_map e_data (sget (u "p") enc3)) (asc "4000000000000000")) && (
(eq_oval (pget (KStr (u "p")) d4) (u "4000000000000000")) && (
(eq_obytes (option_map e_len (sget (u "2") enc3)) (asc "00")) && (
(eq_obytes (option_map e_data (sget (u "2") enc3)) (asc "")) && (
(eq_oval (pget (KStr (u "2")) d4) (u "")) && (
(eq_keys (map (fun kv => KStr (fst kv)) enc3) [(KStr (u "2")); (KStr (u "p")); (KStr (u "t"))]) && (
(eq_keys (map fst d4) [(KStr (u "2")); (KStr (u "p")); (KStr (u "t"))]) && (
 true ) ) ) ) ) ) ) ) ) ) ) ) | _ => false end ;
let sp1 := (changed default_ascii [((u "2"), (props (Some (u "ascii")) (Some (u "cp500")) (Some (2)%Z) (Some (0)%Z) None None None (Some (u "Primary Account Number (PAN)"))))]) in
match encode cpython311 (ADict [((KStr (u "t")), (VStr (u "0210"))); ((KStr (u "2")), (VStr (u "")))]) sp1 with
 (Ok (s2, enc3), d4) =>
(eq_bytes s2 (raw [48; 50; 49; 48; 52; 48; 48; 48; 48; 48; 48; 48; 48; 48; 48; 48; 48; 48; 48; 48; 240; 240]%N)) && (
(eq_obytes (option_map e_len (sget (u "t") enc3)) (asc "")) && (
(eq_obytes (option_map e_data (sget (u "t") enc3)) (asc "0210")) && (
(eq_oval (pget (KStr (u "t")) d4) (u "0210")) && (
(eq_obytes (option_map e_len (sget (u "p") enc3)) (asc "")) && (
(eq_obytes (option_map e_data (sget (u "p") enc3)) (asc "4000000000000000")) && (
(eq_oval (pget (KStr (u "p")) d4) (u "4000000000000000")) && (
(eq_obytes (option_map e_len (sget (u "2") enc3)) (raw [240; 240]%N)) && (
(eq_obytes (option_map e_data (sget (u "2") enc3)) (asc "")) && (
(eq_oval (pget (KStr (u "2")) d4) (u "")) && (
(eq_keys (map (fun kv => KStr (fst kv)) enc3) [(KStr (u "2")); (KStr (u "p")); (KStr (u "t"))]) && (
(eq_keys (map fst d4) [(KStr (u "2")); (KStr (u "p")); (KStr (u "t"))]) && (
 true ) ) ) ) ) ) ) ) ) ) ) ) | _ => false end ;
let sp1 := (changed default_ascii [((u "2"), (props (Some (u "ascii")) (Some (u "b")) (Some (1)%Z) (Some (1)%Z) None None None (Some (u "Primary Account Number (PAN)"))))]) in
match encode cpython311 (ADict [((KStr (u "t")), (VStr (u "0210"))); ((KStr (u "2")), (VStr (u "a")))]) sp1 with
 (Ok (s2, enc3), d4) =>
(eq_bytes s2 (raw [48; 50; 49; 48; 52; 48; 48; 48; 48; 48; 48; 48; 48; 48; 48; 48; 48; 48; 48; 48; 1; 97]%N)) && (
(eq_obytes (option_map e_len (sget (u "t") enc3)) (asc "")) && (
(eq_obytes (option_map e_data (sget (u "t") enc3)) (asc "0210")) && (
(eq_oval (pget (KStr (u "t")) d4) (u "0210")) && (
(eq_obytes (option_map e_len (sget (u "p") enc3)) (asc "")) && (
(eq_obytes (option_map e_data (sget (u "p") enc3)) (asc "4000000000000000")) && (
(eq_oval (pget (KStr (u "p")) d4) (u "4000000000000000")) && (
(eq_obytes (option_map e_len (sget (u "2") enc3)) (raw [1]%N)) && (
(eq_obytes (option_map e_data (sget (u "2") enc3)) (asc "a")) && (
(eq_oval (pget (KStr (u "2")) d4) (u "a")) && (
(eq_keys (map (fun kv => KStr (fst kv)) enc3) [(KStr (u "2")); (KStr (u "p")); (KStr (u "t"))]) && (
(eq_keys (map fst d4) [(KStr (u "2")); (KStr (u "p")); (KStr (u "t"))]) && (
 true ) ) ) ) ) ) ) ) ) ) ) ) | _ => false end ;
let sp1 := (changed default_ascii [((u "2"), (props (Some (u "ascii")) (Some (u "bcd")) (Some (1)%Z) (Some (1)%Z) None None None (Some (u "Primary Account Number (PAN)"))))]) in
match encode cpython311 (ADict [((KStr (u "t")), (VStr (u "0210"))); ((KStr (u "2")), (VStr (u "a")))]) sp1 with
 (Ok (s2, enc3), d4) =>
(eq_bytes s2 (raw [48; 50; 49; 48; 52; 48; 48; 48; 48; 48; 48; 48; 48; 48; 48; 48; 48; 48; 48; 48; 1; 97]%N)) && (
(eq_obytes (option_map e_len (sget (u "t") enc3)) (asc "")) && (
(eq_obytes (option_map e_data (sget (u "t") enc3)) (asc "0210")) && (
(eq_oval (pget (KStr (u "t")) d4) (u "0210")) && (
(eq_obytes (option_map e_len (sget (u "p") enc3)) (asc "")) && (
(eq_obytes (option_map e_data (sget (u "p") enc3)) (asc "4000000000000000")) && (
(eq_oval (pget (KStr (u "p")) d4) (u "4000000000000000")) && (
(eq_obytes (option_map e_len (sget (u "2") enc3)) (raw [1]%N)) && (
(eq_obytes (option_map e_data (sget (u "2") enc3)) (asc "a")) && (
(eq_oval (pget (KStr (u "2")) d4) (u "a")) && (
(eq_keys (map (fun kv => KStr (fst kv)) enc3) [(KStr (u "2")); (KStr (u "p")); (KStr (u "t"))]) && (
(eq_keys (map fst d4) [(KStr (u "2")); (KStr (u "p")); (KStr (u "t"))]) && (
 true ) ) ) ) ) ) ) ) ) ) ) ) | _ => false end ;
let sp1 := (changed default_ascii [((u "2"), (props (Some (u "ascii")) (Some (u "ascii")) (Some (1)%Z) (Some (1)%Z) None None None (Some (u "Primary Account Number (PAN)"))))]) in
match encode cpython311 (ADict [((KStr (u "t")), (VStr (u "0210"))); ((KStr (u "2")), (VStr (u "a")))]) sp1 with
 (Ok (s2, enc3), d4) =>
(eq_bytes s2 (asc "021040000000000000001a")) && (
(eq_obytes (option_map e_len (sget (u "t") enc3)) (asc "")) && (
(eq_obytes (option_map e_data (sget (u "t") enc3)) (asc "0210")) && (
(eq_oval (pget (KStr (u "t")) d4) (u "0210")) && (
(eq_obytes (option_map e_len (sget (u "p") enc3)) (asc "")) && (
(eq_obytes (option_map e_data (sget (u "p") enc3)) (asc "4000000000000000")) && (
(eq_oval (pget (KStr (u "p")) d4) (u "4000000000000000")) && (
(eq_obytes (option_map e_len (sget (u "2") enc3)) (asc "1")) && (
(eq_obytes (option_map e_data (sget (u "2") enc3)) (asc "a")) && (
(eq_oval (pget (KStr (u "2")) d4) (u "a")) && (
(eq_keys (map (fun kv => KStr (fst kv)) enc3) [(KStr (u "2")); (KStr (u "p")); (KStr (u "t"))]) && (
(eq_keys (map fst d4) [(KStr (u "2")); (KStr (u "p")); (KStr (u "t"))]) && (
 true ) ) ) ) ) ) ) ) ) ) ) ) | _ => false end ;
let sp1 := (changed default_ascii [((u "2"), (props (Some (u "ascii")) (Some (u "cp500")) (Some (1)%Z) (Some (1)%Z) None None None (Some (u "Primary Account Number (PAN)"))))]) in
match encode cpython311 (ADict [((KStr (u "t")), (VStr (u "0210"))); ((KStr (u "2")), (VStr (u "a")))]) sp1 with
 (Ok (s2, enc3), d4) =>
(eq_bytes s2 (raw [48; 50; 49; 48; 52; 48; 48; 48; 48; 48; 48; 48; 48; 48; 48; 48; 48; 48; 48; 48; 241; 97]%N)) && (
(eq_obytes (option_map e_len (sget (u "t") enc3)) (asc "")) && (
(eq_obytes (option_map e_data (sget (u "t") enc3)) (asc "0210")) && (
(eq_oval (pget (KStr (u "t")) d4) (u "0210")) && (
(eq_obytes (option_map e_len (sget (u "p") enc3)) (asc "")) && (
(eq_obytes (option_map e_data (sget (u "p") enc3)) (asc "4000000000000000")) && (
(eq_oval (pget (KStr (u "p")) d4) (u "4000000000000000")) && (
(eq_obytes (option_map e_len (sget (u "2") enc3)) (raw [241]%N)) && (
(eq_obytes (option_map e_data (sget (u "2") enc3)) (asc "a")) && (
(eq_oval (pget (KStr (u "2")) d4) (u "a")) && (
(eq_keys (map (fun kv => KStr (fst kv)) enc3) [(KStr (u "2")); (KStr (u "p")); (KStr (u "t"))]) && (
(eq_keys (map fst d4) [(KStr (u "2")); (KStr (u "p")); (KStr (u "t"))]) && (
 true ) ) ) ) ) ) ) ) ) ) ) ) | _ => false end ;
let sp1 := (changed default_ascii [((u "2"), (props (Some (u "ascii")) (Some (u "b")) (Some (2)%Z) (Some (1)%Z) None None None (Some (u "Primary Account Number (PAN)"))))]) in
match encode cpython311 (ADict [((KStr (u "t")), (VStr (u "0210"))); ((KStr (u "2")), (VStr (u "a")))]) sp1 with
 (Ok (s2, enc3), d4) =>
(eq_bytes s2 (raw [48; 50; 49; 48; 52; 48; 48; 48; 48; 48; 48; 48; 48; 48; 48; 48; 48; 48; 48; 48; 0; 1; 97]%N)) && (
(eq_obytes (option_map e_len (sget (u "t") enc3)) (asc "")) && (
(eq_obytes (option_map e_data (sget (u "t") enc3)) (asc "0210")) && (
(eq_oval (pget (KStr (u "t")) d4) (u "0210")) && (
(eq_obytes (option_map e_len (sget (u "p") enc3)) (asc "")) && (
(eq_obytes (option_map e_data (sget (u "p") enc3)) (asc "4000000000000000")) && (
(eq_oval (pget (KStr (u "p")) d4) (u "4000000000000000")) && (
(eq_obytes (option_map e_len (sget (u "2") enc3)) (raw [0; 1]%N)) && (
(eq_obytes (option_map e_data (sget (u "2") enc3)) (asc "a")) && (
(eq_oval (pget (KStr (u "2")) d4) (u "a")) && (
(eq_keys (map (fun kv => KStr (fst kv)) enc3) [(KStr (u "2")); (KStr (u "p")); (KStr (u "t"))]) && (
(eq_keys (map fst d4) [(KStr (u "2")); (KStr (u "p")); (KStr (u "t"))]) && (
 true ) ) ) ) ) ) ) ) ) ) ) ) | _ => false end ;
let sp1 := (changed default_ascii [((u "2"), (props (Some (u "ascii")) (Some (u "bcd")) (Some (2)%Z) (Some (1)%Z) None None None (Some (u "Primary Account Number (PAN)"))))]) in
match encode cpython311 (ADict [((KStr (u "t")), (VStr (u "0210"))); ((KStr (u "2")), (VStr (u "a")))]) sp1 with
 (Ok (s2, enc3), d4) =>
(eq_bytes s2 (raw [48; 50; 49; 48; 52; 48; 48; 48; 48; 48; 48; 48; 48; 48; 48; 48; 48; 48; 48; 48; 0; 1; 97]%N)) && (
(eq_obytes (option_map e_len (sget (u "t") enc3)) (asc "")) && (
(eq_obytes (option_map e_data (sget (u "t") enc3)) (asc "0210")) && (
(eq_oval (pget (KStr (u "t")) d4) (u "0210")) && (
(eq_obytes (option_map e_len (sget (u "p") enc3)) (asc "")) && (
(eq_obytes (option_map e_data (sget (u "p") enc3)) (asc "4000000000000000")) && (
(eq_oval (pget (KStr (u "p")) d4) (u "4000000000000000")) && (
(eq_obytes (option_map e_len (sget (u "2") enc3)) (raw [0; 1]%N)) && (
(eq_obytes (option_map e_data (sget (u "2") enc3)) (asc "a")) && (
(eq_oval (pget (KStr (u "2")) d4) (u "a")) && (
(eq_keys (map (fun kv => KStr (fst kv)) enc3) [(KStr (u "2")); (KStr (u "p")); (KStr (u "t"))]) && (
(eq_keys (map fst d4) [(KStr (u "2")); (KStr (u "p")); (KStr (u "t"))]) && (
 true ) ) ) ) ) ) ) ) ) ) ) ) | _ => false end ;
let sp1 := (changed default_ascii [((u "2"), (props (Some (u "ascii")) (Some (u "ascii")) (Some (2)%Z) (Some (1)%Z) None None None (Some (u "Primary Account Number (PAN)"))))]) in
match encode cpython311 (ADict [((KStr (u "t")), (VStr (u "0210"))); ((KStr (u "2")), (VStr (u "a")))]) sp1 with
 (Ok (s2, enc3), d4) =>
(eq_bytes s2 (asc "0210400000000000000001a")) && (
(eq_obytes (option_map e_len (sget (u "t") enc3)) (asc "")) && (
(eq_obytes (option_map e_data (sget (u "t") enc3)) (asc "0210")) && (
(eq_oval (pget (KStr (u "t")) d4) (u "0210")) && (
(eq_obytes (option_map e_len (sget (u "p") enc3)) (asc "")) && (
(eq_obytes (option_map e_data (sget (u "p") enc3)) (asc "4000000000000000")) && (
(eq_oval (pget (KStr (u "p")) d4) (u "4000000000000000")) && (
(eq_obytes (option_map e_len (sget (u "2") enc3)) (asc "01")) && (
(eq_obytes (option_map e_data (sget (u "2") enc3)) (asc "a")) && (
(eq_oval (pget (KStr (u "2")) d4) (u "a")) && (
(eq_keys (map (fun kv => KStr (fst kv)) enc3) [(KStr (u "2")); (KStr (u "p")); (KStr (u "t"))]) && (
(eq_keys (map fst d4) [(KStr (u "2")); (KStr (u "p")); (KStr (u "t"))]) && (
 true ) ) ) ) ) ) ) ) ) ) ) ) | _ => false end ;
let sp1 := (changed default_ascii [((u "2"), (props (Some (u "ascii")) (Some (u "cp500")) (Some (2)%Z) (Some (1)%Z) None None None (Some (u "Primary Account Number (PAN)"))))]) in
match encode cpython311 (ADict [((KStr (u "t")), (VStr (u "0210"))); ((KStr (u "2")), (VStr (u "a")))]) sp1 with
 (Ok (s2, enc3), d4) =>
(eq_bytes s2 (raw [48; 50; 49; 48; 52; 48; 48; 48; 48; 48; 48; 48; 48; 48; 48; 48; 48; 48; 48; 48; 240; 241; 97]%N)) && (
(eq_obytes (option_map e_len (sget (u "t") enc3)) (asc "")) && (
(eq_obytes (option_map e_data (sget (u "t") enc3)) (asc "0210")) && (
(eq_oval (pget (KStr (u "t")) d4) (u "0210")) && (
(eq_obytes (option_map e_len (sget (u "p") enc3)) (asc "")) && (
(eq_obytes (option_map e_data (sget (u "p") enc3)) (asc "4000000000000000")) && (
(eq_oval (pget (KStr (u "p")) d4) (u "4000000000000000")) && (
(eq_obytes (option_map e_len (sget (u "2") enc3)) (raw [240; 241]%N)) && (
(eq_obytes (option_map e_data (sget (u "2") enc3)) (asc "a")) && (
(eq_oval (pget (KStr (u "2")) d4) (u "a")) && (
(eq_keys (map (fun kv => KStr (fst kv)) enc3) [(KStr (u "2")); (KStr (u "p")); (KStr (u "t"))]) && (
(eq_keys (map fst d4) [(KStr (u "2")); (KStr (u "p")); (KStr (u "t"))]) && (
 true ) ) ) ) ) ) ) ) ) ) ) ) | _ => false end ;
let sp1 := (changed default_ascii [((u "2"), (props (Some (u "ascii")) (Some (u "b")) (Some (2)%Z) (Some (99)%Z) None None None (Some (u "Primary Account Number (PAN)"))))]) in
match encode cpython311 (ADict [((KStr (u "t")), (VStr (u "0210"))); ((KStr (u "2")), (VStr (u "aaaaaaaaaaaaaaaaaaaaaaaaaaaaaaaaaaaaaaaaaaaaaaaaaaaaaaaaaaaaaaaaaaaaaaaaaaaaaaaaaaaaaaaaaaaaaaaaaaa")))]) sp1 with
 (Ok (s2, enc3), d4) =>
(eq_bytes s2 (raw [48; 50; 49; 48; 52; 48; 48; 48; 48; 48; 48; 48; 48; 48; 48; 48; 48; 48; 48; 48; 0; 99; 97; 97; 97; 97; 97; 97; 97; 97; 97; 97; 97; 97; 97; 97; 97; 97; 97; 97; 97; 97; 97; 97; 97; 97; 97; 97; 97; 97; 97; 97; 97; 97; 97; 97; 97; 97; 97; 97; 97; 97; 97; 97; 97; 97; 97; 97; 97; 97; 97; 97; 97; 97; 97; 97; 97; 97; 97; 97; 97; 97; 97; 97; 97; 97; 97; 97; 97; 97; 97; 97; 97; 97; 97; 97; 97; 97; 97; 97; 97; 97; 97; 97; 97; 97; 97; 97; 97; 97; 97; 97; 97; 97; 97; 97; 97; 97; 97; 97; 97]%N)) && (
(eq_obytes (option_map e_len (sget (u "t") enc3)) (asc "")) && (
(eq_obytes (option_map e_data (sget (u "t") enc3)) (asc "0210")) && (
(eq_oval (pget (KStr (u "t")) d4) (u "0210")) && (
(eq_obytes (option_map e_len (sget (u "p") enc3)) (asc "")) && (
(eq_obytes (option_map e_data (sget (u "p") enc3)) (asc "4000000000000000")) && (
(eq_oval (pget (KStr (u "p")) d4) (u "4000000000000000")) && (
(eq_obytes (option_map e_len (sget (u "2") enc3)) (raw [0; 99]%N)) && (
(eq_obytes (option_map e_data (sget (u "2") enc3)) (asc "aaaaaaaaaaaaaaaaaaaaaaaaaaaaaaaaaaaaaaaaaaaaaaaaaaaaaaaaaaaaaaaaaaaaaaaaaaaaaaaaaaaaaaaaaaaaaaaaaaa")) && (
(eq_oval (pget (KStr (u "2")) d4) (u "aaaaaaaaaaaaaaaaaaaaaaaaaaaaaaaaaaaaaaaaaaaaaaaaaaaaaaaaaaaaaaaaaaaaaaaaaaaaaaaaaaaaaaaaaaaaaaaaaaa")) && (
(eq_keys (map (fun kv => KStr (fst kv)) enc3) [(KStr (u "2")); (KStr (u "p")); (KStr (u "t"))]) && (
(eq_keys (map fst d4) [(KStr (u "2")); (KStr (u "p")); (KStr (u "t"))]) && (
 true ) ) ) ) ) ) ) ) ) ) ) ) | _ => false end ;
let sp1 := (changed default_ascii [((u "2"), (props (Some (u "ascii")) (Some (u "bcd")) (Some (2)%Z) (Some (99)%Z) None None None (Some (u "Primary Account Number (PAN)"))))]) in
match encode cpython311 (ADict [((KStr (u "t")), (VStr (u "0210"))); ((KStr (u "2")), (VStr (u "aaaaaaaaaaaaaaaaaaaaaaaaaaaaaaaaaaaaaaaaaaaaaaaaaaaaaaaaaaaaaaaaaaaaaaaaaaaaaaaaaaaaaaaaaaaaaaaaaaa")))]) sp1 with
 (Ok (s2, enc3), d4) =>
(eq_bytes s2 (raw [48; 50; 49; 48; 52; 48; 48; 48; 48; 48; 48; 48; 48; 48; 48; 48; 48; 48; 48; 48; 0; 153; 97; 97; 97; 97; 97; 97; 97; 97; 97; 97; 97; 97; 97; 97; 97; 97; 97; 97; 97; 97; 97; 97; 97; 97; 97; 97; 97; 97; 97; 97; 97; 97; 97; 97; 97; 97; 97; 97; 97; 97; 97; 97; 97; 97; 97; 97; 97; 97; 97; 97; 97; 97; 97; 97; 97; 97; 97; 97; 97; 97; 97; 97; 97; 97; 97; 97; 97; 97; 97; 97; 97; 97; 97; 97; 97; 97; 97; 97; 97; 97; 97; 97; 97; 97; 97; 97; 97; 97; 97; 97; 97; 97; 97; 97; 97; 97; 97; 97; 97]%N)) && (
(eq_obytes (option_map e_len (sget (u "t") enc3)) (asc "")) && (
(eq_obytes (option_map e_data (sget (u "t") enc3)) (asc "0210")) && (
(eq_oval (pget (KStr (u "t")) d4) (u "0210")) && (
(eq_obytes (option_map e_len (sget (u "p") enc3)) (asc "")) && (
(eq_obytes (option_map e_data (sget (u "p") enc3)) (asc "4000000000000000")) && (
(eq_oval (pget (KStr (u "p")) d4) (u "4000000000000000")) && (
(eq_obytes (option_map e_len (sget (u "2") enc3)) (raw [0; 153]%N)) && (
(eq_obytes (option_map e_data (sget (u "2") enc3)) (asc "aaaaaaaaaaaaaaaaaaaaaaaaaaaaaaaaaaaaaaaaaaaaaaaaaaaaaaaaaaaaaaaaaaaaaaaaaaaaaaaaaaaaaaaaaaaaaaaaaaa")) && (
(eq_oval (pget (KStr (u "2")) d4) (u "aaaaaaaaaaaaaaaaaaaaaaaaaaaaaaaaaaaaaaaaaaaaaaaaaaaaaaaaaaaaaaaaaaaaaaaaaaaaaaaaaaaaaaaaaaaaaaaaaaa")) && (
(eq_keys (map (fun kv => KStr (fst kv)) enc3) [(KStr (u "2")); (KStr (u "p")); (KStr (u "t"))]) && (
(eq_keys (map fst d4) [(KStr (u "2")); (KStr (u "p")); (KStr (u "t"))]) && (
 true ) ) ) ) ) ) ) ) ) ) ) ) | _ => false end ;
let sp1 := (changed default_ascii [((u "2"), (props (Some (u "ascii")) (Some (u "ascii")) (Some (2)%Z) (Some (99)%Z) None None None (Some (u "Primary Account Number (PAN)"))))]) in
match encode cpython311 (ADict [((KStr (u "t")), (VStr (u "0210"))); ((KStr (u "2")), (VStr (u "aaaaaaaaaaaaaaaaaaaaaaaaaaaaaaaaaaaaaaaaaaaaaaaaaaaaaaaaaaaaaaaaaaaaaaaaaaaaaaaaaaaaaaaaaaaaaaaaaaa")))]) sp1 with
 (Ok (s2, enc3), d4) =>
(eq_bytes s2 (asc "0210400000000000000099aaaaaaaaaaaaaaaaaaaaaaaaaaaaaaaaaaaaaaaaaaaaaaaaaaaaaaaaaaaaaaaaaaaaaaaaaaaaaaaaaaaaaaaaaaaaaaaaaaa")) && (
(eq_obytes (option_map e_len (sget (u "t") enc3)) (asc "")) && (
(eq_obytes (option_map e_data (sget (u "t") enc3)) (asc "0210")) && (
(eq_oval (pget (KStr (u "t")) d4) (u "0210")) && (
(eq_obytes (option_map e_len (sget (u "p") enc3)) (asc "")) && (
(eq_obytes (option_map e_data (sget (u "p") enc3)) (asc "4000000000000000")) && (
(eq_oval (pget (KStr (u "p")) d4) (u "4000000000000000")) && (
(eq_obytes (option_map e_len (sget (u "2") enc3)) (asc "99")) && (
(eq_obytes (option_map e_data (sget (u "2") enc3)) (asc "aaaaaaaaaaaaaaaaaaaaaaaaaaaaaaaaaaaaaaaaaaaaaaaaaaaaaaaaaaaaaaaaaaaaaaaaaaaaaaaaaaaaaaaaaaaaaaaaaaa")) && (
(eq_oval (pget (KStr (u "2")) d4) (u "aaaaaaaaaaaaaaaaaaaaaaaaaaaaaaaaaaaaaaaaaaaaaaaaaaaaaaaaaaaaaaaaaaaaaaaaaaaaaaaaaaaaaaaaaaaaaaaaaaa")) && (
(eq_keys (map (fun kv => KStr (fst kv)) enc3) [(KStr (u "2")); (KStr (u "p")); (KStr (u "t"))]) && (
(eq_keys (map fst d4) [(KStr (u "2")); (KStr (u "p")); (KStr (u "t"))]) && (
 true ) ) ) ) ) ) ) ) ) ) ) ) | _ => false end ;
let sp1 := (changed default_ascii [((u "2"), (props (Some (u "ascii")) (Some (u "cp500")) (Some (2)%Z) (Some (99)%Z) None None None (Some (u "Primary Account Number (PAN)"))))]) in
match encode cpython311 (ADict [((KStr (u "t")), (VStr (u "0210"))); ((KStr (u "2")), (VStr (u "aaaaaaaaaaaaaaaaaaaaaaaaaaaaaaaaaaaaaaaaaaaaaaaaaaaaaaaaaaaaaaaaaaaaaaaaaaaaaaaaaaaaaaaaaaaaaaaaaaa")))]) sp1 with
 (Ok (s2, enc3), d4) =>
(eq_bytes s2 (raw [48; 50; 49; 48; 52; 48; 48; 48; 48; 48; 48; 48; 48; 48; 48; 48; 48; 48; 48; 48; 249; 249; 97; 97; 97; 97; 97; 97; 97; 97; 97; 97; 97; 97; 97; 97; 97; 97; 97; 97; 97; 97; 97; 97; 97; 97; 97; 97; 97; 97; 97; 97; 97; 97; 97; 97; 97; 97; 97; 97; 97; 97; 97; 97; 97; 97; 97; 97; 97; 97; 97; 97; 97; 97; 97; 97; 97; 97; 97; 97; 97; 97; 97; 97; 97; 97; 97; 97; 97; 97; 97; 97; 97; 97; 97; 97; 97; 97; 97; 97; 97; 97; 97; 97; 97; 97; 97; 97; 97; 97; 97; 97; 97; 97; 97; 97; 97; 97; 97; 97; 97]%N)) && (
(eq_obytes (option_map e_len (sget (u "t") enc3)) (asc "")) && (
(eq_obytes (option_map e_data (sget (u "t") enc3)) (asc "0210")) && (
(eq_oval (pget (KStr (u "t")) d4) (u "0210")) && (
(eq_obytes (option_map e_len (sget (u "p") enc3)) (asc "")) && (
(eq_obytes (option_map e_data (sget (u "p") enc3)) (asc "4000000000000000")) && (
(eq_oval (pget (KStr (u "p")) d4) (u "4000000000000000")) && (
(eq_obytes (option_map e_len (sget (u "2") enc3)) (raw [249; 249]%N)) && (
(eq_obytes (option_map e_data (sget (u "2") enc3)) (asc "aaaaaaaaaaaaaaaaaaaaaaaaaaaaaaaaaaaaaaaaaaaaaaaaaaaaaaaaaaaaaaaaaaaaaaaaaaaaaaaaaaaaaaaaaaaaaaaaaaa")) && (
(eq_oval (pget (KStr (u "2")) d4) (u "aaaaaaaaaaaaaaaaaaaaaaaaaaaaaaaaaaaaaaaaaaaaaaaaaaaaaaaaaaaaaaaaaaaaaaaaaaaaaaaaaaaaaaaaaaaaaaaaaaa")) && (
(eq_keys (map (fun kv => KStr (fst kv)) enc3) [(KStr (u "2")); (KStr (u "p")); (KStr (u "t"))]) && (
(eq_keys (map fst d4) [(KStr (u "2")); (KStr (u "p")); (KStr (u "t"))]) && (
 true ) ) ) ) ) ) ) ) ) ) ) ) | _ => false end ;
let sp1 := (changed default_ascii [((u "2"), (props (Some (u "ascii")) (Some (u "b")) (Some (1)%Z) (Some (16)%Z) None None None (Some (u "Primary Account Number (PAN)"))))]) in
match encode cpython311 (ADict [((KStr (u "t")), (VStr (u "0210"))); ((KStr (u "2")), (VStr (u "aaaaaaaaaaaaaaaa")))]) sp1 with
 (Ok (s2, enc3), d4) =>
(eq_bytes s2 (raw [48; 50; 49; 48; 52; 48; 48; 48; 48; 48; 48; 48; 48; 48; 48; 48; 48; 48; 48; 48; 16; 97; 97; 97; 97; 97; 97; 97; 97; 97; 97; 97; 97; 97; 97; 97; 97]%N)) && (
(eq_obytes (option_map e_len (sget (u "t") enc3)) (asc "")) && (
(eq_obytes (option_map e_data (sget (u "t") enc3)) (asc "0210")) && (
(eq_oval (pget (KStr (u "t")) d4) (u "0210")) && (
(eq_obytes (option_map e_len (sget (u "p") enc3)) (asc "")) && (
(eq_obytes (option_map e_data (sget (u "p") enc3)) (asc "4000000000000000")) && (
(eq_oval (pget (KStr (u "p")) d4) (u "4000000000000000")) && (
(eq_obytes (option_map e_len (sget (u "2") enc3)) (raw [16]%N)) && (
(eq_obytes (option_map e_data (sget (u "2") enc3)) (asc "aaaaaaaaaaaaaaaa")) && (
(eq_oval (pget (KStr (u "2")) d4) (u "aaaaaaaaaaaaaaaa")) && (
(eq_keys (map (fun kv => KStr (fst kv)) enc3) [(KStr (u "2")); (KStr (u "p")); (KStr (u "t"))]) && (
(eq_keys (map fst d4) [(KStr (u "2")); (KStr (u "p")); (KStr (u "t"))]) && (
 true ) ) ) ) ) ) ) ) ) ) ) ) | _ => false end ;
let sp1 := (changed default_ascii [((u "2"), (props (Some (u "ascii")) (Some (u "bcd")) (Some (1)%Z) (Some (16)%Z) None None None (Some (u "Primary Account Number (PAN)"))))]) in
match encode cpython311 (ADict [((KStr (u "t")), (VStr (u "0210"))); ((KStr (u "2")), (VStr (u "aaaaaaaaaaaaaaaa")))]) sp1 with
 (Ok (s2, enc3), d4) =>
(eq_bytes s2 (raw [48; 50; 49; 48; 52; 48; 48; 48; 48; 48; 48; 48; 48; 48; 48; 48; 48; 48; 48; 48; 22; 97; 97; 97; 97; 97; 97; 97; 97; 97; 97; 97; 97; 97; 97; 97; 97]%N)) && (
(eq_obytes (option_map e_len (sget (u "t") enc3)) (asc "")) && (
(eq_obytes (option_map e_data (sget (u "t") enc3)) (asc "0210")) && (
(eq_oval (pget (KStr (u "t")) d4) (u "0210")) && (
(eq_obytes (option_map e_len (sget (u "p") enc3)) (asc "")) && (
(eq_obytes (option_map e_data (sget (u "p") enc3)) (asc "4000000000000000")) && (
(eq_oval (pget (KStr (u "p")) d4) (u "4000000000000000")) && (
(eq_obytes (option_map e_len (sget (u "2") enc3)) (raw [22]%N)) && (
(eq_obytes (option_map e_data (sget (u "2") enc3)) (asc "aaaaaaaaaaaaaaaa")) && (
(eq_oval (pget (KStr (u "2")) d4) (u "aaaaaaaaaaaaaaaa")) && (
(eq_keys (map (fun kv => KStr (fst kv)) enc3) [(KStr (u "2")); (KStr (u "p")); (KStr (u "t"))]) && (
(eq_keys (map fst d4) [(KStr (u "2")); (KStr (u "p")); (KStr (u "t"))]) && (
 true ) ) ) ) ) ) ) ) ) ) ) ) | _ => false end ;
let sp1 := (changed default_ascii [((u "2"), (props (Some (u "ascii")) (Some (u "b")) (Some (2)%Z) (Some (256)%Z) None None None (Some (u "Primary Account Number (PAN)"))))]) in
match encode cpython311 (ADict [((KStr (u "t")), (VStr (u "0210"))); ((KStr (u "2")), (VStr (repeat 97%N (N.to_nat 256))))]) sp1 with
 (Ok (s2, enc3), d4) =>
(eq_bytes s2 (raw [48; 50; 49; 48; 52; 48; 48; 48; 48; 48; 48; 48; 48; 48; 48; 48; 48; 48; 48; 48; 1; 0; 97; 97; 97; 97; 97; 97; 97; 97; 97; 97; 97; 97; 97; 97; 97; 97; 97; 97; 97; 97; 97; 97; 97; 97; 97; 97; 97; 97; 97; 97; 97; 97; 97; 97; 97; 97; 97; 97; 97; 97; 97; 97; 97; 97; 97; 97; 97; 97; 97; 97; 97; 97; 97; 97; 97; 97; 97; 97; 97; 97; 97; 97; 97; 97; 97; 97; 97; 97; 97; 97; 97; 97; 97; 97; 97; 97; 97; 97; 97; 97; 97; 97; 97; 97; 97; 97; 97; 97; 97; 97; 97; 97; 97; 97; 97; 97; 97; 97; 97; 97; 97; 97; 97; 97; 97; 97; 97; 97; 97; 97; 97; 97; 97; 97; 97; 97; 97; 97; 97; 97; 97; 97; 97; 97; 97; 97; 97; 97; 97; 97; 97; 97; 97; 97; 97; 97; 97; 97; 97; 97; 97; 97; 97; 97; 97; 97; 97; 97; 97; 97; 97; 97; 97; 97; 97; 97; 97; 97; 97; 97; 97; 97; 97; 97; 97; 97; 97; 97; 97; 97; 97; 97; 97; 97; 97; 97; 97; 97; 97; 97; 97; 97; 97; 97; 97; 97; 97; 97; 97; 97; 97; 97; 97; 97; 97; 97; 97; 97; 97; 97; 97; 97; 97; 97; 97; 97; 97; 97; 97; 97; 97; 97; 97; 97; 97; 97; 97; 97; 97; 97; 97; 97; 97; 97; 97; 97; 97; 97; 97; 97; 97; 97; 97; 97; 97; 97; 97; 97; 97; 97; 97; 97; 97; 97; 97; 97; 97; 97; 97; 97; 97; 97; 97; 97; 97; 97]%N)) && (
(eq_obytes (option_map e_len (sget (u "t") enc3)) (asc "")) && (
(eq_obytes (option_map e_data (sget (u "t") enc3)) (asc "0210")) && (
(eq_oval (pget (KStr (u "t")) d4) (u "0210")) && (
(eq_obytes (option_map e_len (sget (u "p") enc3)) (asc "")) && (
(eq_obytes (option_map e_data (sget (u "p") enc3)) (asc "4000000000000000")) && (
(eq_oval (pget (KStr (u "p")) d4) (u "4000000000000000")) && (
(eq_obytes (option_map e_len (sget (u "2") enc3)) (raw [1; 0]%N)) && (
(eq_obytes (option_map e_data (sget (u "2") enc3)) (asc "aaaaaaaaaaaaaaaaaaaaaaaaaaaaaaaaaaaaaaaaaaaaaaaaaaaaaaaaaaaaaaaaaaaaaaaaaaaaaaaaaaaaaaaaaaaaaaaaaaaaaaaaaaaaaaaaaaaaaaaaaaaaaaaaaaaaaaaaaaaaaaaaaaaaaaaaaaaaaaaaaaaaaaaaaaaaaaaaaaaaaaaaaaaaaaaaaaaaaaaaaaaaaaaaaaaaaaaaaaaaaaaaaaaaaaaaaaaaaaaaaaaaaaaaaaaaaaaa")) && (
(eq_oval (pget (KStr (u "2")) d4) (repeat 97%N (N.to_nat 256))) && (
(eq_keys (map (fun kv => KStr (fst kv)) enc3) [(KStr (u "2")); (KStr (u "p")); (KStr (u "t"))]) && (
(eq_keys (map fst d4) [(KStr (u "2")); (KStr (u "p")); (KStr (u "t"))]) && (
 true ) ) ) ) ) ) ) ) ) ) ) ) | _ => false end ;
let sp1 := (changed default_ascii [((u "2"), (props (Some (u "ascii")) (Some (u "bcd")) (Some (2)%Z) (Some (256)%Z) None None None (Some (u "Primary Account Number (PAN)"))))]) in
match encode cpython311 (ADict [((KStr (u "t")), (VStr (u "0210"))); ((KStr (u "2")), (VStr (repeat 97%N (N.to_nat 256))))]) sp1 with
 (Ok (s2, enc3), d4) =>
(eq_bytes s2 (raw [48; 50; 49; 48; 52; 48; 48; 48; 48; 48; 48; 48; 48; 48; 48; 48; 48; 48; 48; 48; 2; 86; 97; 97; 97; 97; 97; 97; 97; 97; 97; 97; 97; 97; 97; 97; 97; 97; 97; 97; 97; 97; 97; 97; 97; 97; 97; 97; 97; 97; 97; 97; 97; 97; 97; 97; 97; 97; 97; 97; 97; 97; 97; 97; 97; 97; 97; 97; 97; 97; 97; 97; 97; 97; 97; 97; 97; 97; 97; 97; 97; 97; 97; 97; 97; 97; 97; 97; 97; 97; 97; 97; 97; 97; 97; 97; 97; 97; 97; 97; 97; 97; 97; 97; 97; 97; 97; 97; 97; 97; 97; 97; 97; 97; 97; 97; 97; 97; 97; 97; 97; 97; 97; 97; 97; 97; 97; 97; 97; 97; 97; 97; 97; 97; 97; 97; 97; 97; 97; 97; 97; 97; 97; 97; 97; 97; 97; 97; 97; 97; 97; 97; 97; 97; 97; 97; 97; 97; 97; 97; 97; 97; 97; 97; 97; 97; 97; 97; 97; 97; 97; 97; 97; 97; 97; 97; 97; 97; 97; 97; 97; 97; 97; 97; 97; 97; 97; 97; 97; 97; 97; 97; 97; 97; 97; 97; 97; 97; 97; 97; 97; 97; 97; 97; 97; 97; 97; 97; 97; 97; 97; 97; 97; 97; 97; 97; 97; 97; 97; 97; 97; 97; 97; 97; 97; 97; 97; 97; 97; 97; 97; 97; 97; 97; 97; 97; 97; 97; 97; 97; 97; 97; 97; 97; 97; 97; 97; 97; 97; 97; 97; 97; 97; 97; 97; 97; 97; 97; 97; 97; 97; 97; 97; 97; 97; 97; 97; 97; 97; 97; 97; 97; 97; 97; 97; 97; 97; 97]%N)) && (
(eq_obytes (option_map e_len (sget (u "t") enc3)) (asc "")) && (
(eq_obytes (option_map e_data (sget (u "t") enc3)) (asc "0210")) && (
(eq_oval (pget (KStr (u "t")) d4) (u "0210")) && (
(eq_obytes (option_map e_len (sget (u "p") enc3)) (asc "")) && (
(eq_obytes (option_map e_data (sget (u "p") enc3)) (asc "4000000000000000")) && (
(eq_oval (pget (KStr (u "p")) d4) (u "4000000000000000")) && (
(eq_obytes (option_map e_len (sget (u "2") enc3)) (raw [2; 86]%N)) && (
(eq_obytes (option_map e_data (sget (u "2") enc3)) (asc "aaaaaaaaaaaaaaaaaaaaaaaaaaaaaaaaaaaaaaaaaaaaaaaaaaaaaaaaaaaaaaaaaaaaaaaaaaaaaaaaaaaaaaaaaaaaaaaaaaaaaaaaaaaaaaaaaaaaaaaaaaaaaaaaaaaaaaaaaaaaaaaaaaaaaaaaaaaaaaaaaaaaaaaaaaaaaaaaaaaaaaaaaaaaaaaaaaaaaaaaaaaaaaaaaaaaaaaaaaaaaaaaaaaaaaaaaaaaaaaaaaaaaaaaaaaaaaaa")) && (
(eq_oval (pget (KStr (u "2")) d4) (repeat 97%N (N.to_nat 256))) && (
(eq_keys (map (fun kv => KStr (fst kv)) enc3) [(KStr (u "2")); (KStr (u "p")); (KStr (u "t"))]) && (
(eq_keys (map fst d4) [(KStr (u "2")); (KStr (u "p")); (KStr (u "t"))]) && (
 true ) ) ) ) ) ) ) ) ) ) ) ) | _ => false end ] = true.
Proof. vm_compute. reflexivity. Qed.

(** tests/test_encode.py:769. *)
Example test_field_length_encoding_negative : forallb (fun b => b) [
let sp1 := (changed default_ascii [((u "2"), (props (Some (u "ascii")) (Some (u "unknown_encoding")) (Some (1)%Z) (Some (1)%Z) None None None (Some (u "Primary Account Number (PAN)"))))]) in
match encode cpython311 (ADict [((KStr (u "t")), (VStr (u "0210"))); ((KStr (u "2")), (VStr (u "a")))]) sp1 with
 (Raise (XEncodeError e2), d3) =>
(eq_str (ee_args0 e2) (u "Failed to encode field length, unknown encoding specified: field 2")) && (
 true ) | _ => false end ;
let sp1 := (changed default_ascii [((u "2"), (props (Some (u "ascii")) (Some (u "b")) (Some (1)%Z) (Some (256)%Z) None None None (Some (u "Primary Account Number (PAN)"))))]) in
match encode cpython311 (ADict [((KStr (u "t")), (VStr (u "0210"))); ((KStr (u "2")), (VStr (repeat 97%N (N.to_nat 256))))]) sp1 with
 (Raise (XEncodeError e2), d3) =>
(eq_str (ee_args0 e2) (u "Failed to encode field length, field length does not fit into configured field size: field 2")) && (
 true ) | _ => false end ;
let sp1 := (changed default_ascii [((u "2"), (props (Some (u "ascii")) (Some (u "ascii")) (Some (1)%Z) (Some (10)%Z) None None None (Some (u "Primary Account Number (PAN)"))))]) in
match encode cpython311 (ADict [((KStr (u "t")), (VStr (u "0210"))); ((KStr (u "2")), (VStr (u "aaaaaaaaaa")))]) sp1 with
 (Raise (XEncodeError e2), d3) =>
(eq_str (ee_args0 e2) (u "Failed to encode field length, field length does not fit into configured field size: field 2")) && (
 true ) | _ => false end ;
let sp1 := (changed default_ascii [((u "2"), (props (Some (u "ascii")) (Some (u "bcd")) (Some (1)%Z) (Some (100)%Z) None None None (Some (u "Primary Account Number (PAN)"))))]) in
match encode cpython311 (ADict [((KStr (u "t")), (VStr (u "0210"))); ((KStr (u "2")), (VStr (u "aaaaaaaaaaaaaaaaaaaaaaaaaaaaaaaaaaaaaaaaaaaaaaaaaaaaaaaaaaaaaaaaaaaaaaaaaaaaaaaaaaaaaaaaaaaaaaaaaaaa")))]) sp1 with
 (Raise (XEncodeError e2), d3) =>
(eq_str (ee_args0 e2) (u "Failed to encode field length, field length does not fit into configured field size: field 2")) && (
 true ) | _ => false end ;
let sp1 := (changed default_ascii [((u "2"), (props (Some (u "ascii")) (Some (u "b")) (Some (2)%Z) (Some (65536)%Z) None None None (Some (u "Primary Account Number (PAN)"))))]) in
match encode cpython311 (ADict [((KStr (u "t")), (VStr (u "0210"))); ((KStr (u "2")), (VStr (repeat 97%N (N.to_nat 65536))))]) sp1 with
 (Raise (XEncodeError e2), d3) =>
(eq_str (ee_args0 e2) (u "Failed to encode field length, field length does not fit into configured field size: field 2")) && (
 true ) | _ => false end ;
let sp1 := (changed default_ascii [((u "2"), (props (Some (u "ascii")) (Some (u "ascii")) (Some (2)%Z) (Some (100)%Z) None None None (Some (u "Primary Account Number (PAN)"))))]) in
match encode cpython311 (ADict [((KStr (u "t")), (VStr (u "0210"))); ((KStr (u "2")), (VStr (u "aaaaaaaaaaaaaaaaaaaaaaaaaaaaaaaaaaaaaaaaaaaaaaaaaaaaaaaaaaaaaaaaaaaaaaaaaaaaaaaaaaaaaaaaaaaaaaaaaaaa")))]) sp1 with
 (Raise (XEncodeError e2), d3) =>
(eq_str (ee_args0 e2) (u "Failed to encode field length, field length does not fit into configured field size: field 2")) && (
 true ) | _ => false end ;
let sp1 := (changed default_ascii [((u "2"), (props (Some (u "ascii")) (Some (u "bcd")) (Some (2)%Z) (Some (10000)%Z) None None None (Some (u "Primary Account Number (PAN)"))))]) in
match encode cpython311 (ADict [((KStr (u "t")), (VStr (u "0210"))); ((KStr (u "2")), (VStr (repeat 97%N (N.to_nat 10000))))]) sp1 with
 (Raise (XEncodeError e2), d3) =>
(eq_str (ee_args0 e2) (u "Failed to encode field length, field length does not fit into configured field size: field 2")) && (
 true ) | _ => false end ] = true.
Proof. vm_compute. reflexivity. Qed.

(** tests/test_nibbles.py:29. *)
Example test_encode_nibbles : forallb (fun b => b) [
let sp1 := (changed default [((u "p"), (props (Some (u "ascii")) (Some (u "ascii")) (Some (0)%Z) (Some (8)%Z) None None None (Some (u "Bitmap, Primary")))); ((u "2"), (props (Some (u "ascii")) (Some (u "ascii")) (Some (2)%Z) (Some (8)%Z) (Some (u "bytes")) None None (Some (u "Primary Account Number (PAN)"))))]) in
match encode cpython311 (ADict [((KStr (u "t")), (VStr (u "0200"))); ((KStr (u "2")), (VStr (u "1234")))]) sp1 with
 (Ok (s2, enc3), d4) =>
(eq_bytes s2 (asc "02004000000000000000041234")) && (
(eq_obytes (option_map e_len (sget (u "2") enc3)) (asc "04")) && (
 true ) ) | _ => false end ;
let sp1 := (changed default [((u "p"), (props (Some (u "ascii")) (Some (u "ascii")) (Some (0)%Z) (Some (8)%Z) None None None (Some (u "Bitmap, Primary")))); ((u "2"), (props (Some (u "ascii")) (Some (u "ascii")) (Some (2)%Z) (Some (8)%Z) (Some (u "nibbles")) None None (Some (u "Primary Account Number (PAN)"))))]) in
match encode cpython311 (ADict [((KStr (u "t")), (VStr (u "0200"))); ((KStr (u "2")), (VStr (u "1234")))]) sp1 with
 (Ok (s2, enc3), d4) =>
(eq_bytes s2 (asc "02004000000000000000081234")) && (
(eq_obytes (option_map e_len (sget (u "2") enc3)) (asc "08")) && (
 true ) ) | _ => false end ;
let sp1 := (changed default [((u "p"), (props (Some (u "ascii")) (Some (u "ascii")) (Some (0)%Z) (Some (8)%Z) None None None (Some (u "Bitmap, Primary")))); ((u "2"), (props (Some (u "ascii")) (Some (u "bcd")) (Some (2)%Z) (Some (8)%Z) (Some (u "bytes")) None None (Some (u "Primary Account Number (PAN)"))))]) in
match encode cpython311 (ADict [((KStr (u "t")), (VStr (u "0200"))); ((KStr (u "2")), (VStr (u "1234")))]) sp1 with
 (Ok (s2, enc3), d4) =>
(eq_bytes s2 (raw [48; 50; 48; 48; 52; 48; 48; 48; 48; 48; 48; 48; 48; 48; 48; 48; 48; 48; 48; 48; 0; 4; 49; 50; 51; 52]%N)) && (
(eq_obytes (option_map e_len (sget (u "2") enc3)) (raw [0; 4]%N)) && (
 true ) ) | _ => false end ;
let sp1 := (changed default [((u "p"), (props (Some (u "ascii")) (Some (u "ascii")) (Some (0)%Z) (Some (8)%Z) None None None (Some (u "Bitmap, Primary")))); ((u "2"), (props (Some (u "ascii")) (Some (u "bcd")) (Some (2)%Z) (Some (8)%Z) (Some (u "nibbles")) None None (Some (u "Primary Account Number (PAN)"))))]) in
match encode cpython311 (ADict [((KStr (u "t")), (VStr (u "0200"))); ((KStr (u "2")), (VStr (u "1234")))]) sp1 with
 (Ok (s2, enc3), d4) =>
(eq_bytes s2 (raw [48; 50; 48; 48; 52; 48; 48; 48; 48; 48; 48; 48; 48; 48; 48; 48; 48; 48; 48; 48; 0; 8; 49; 50; 51; 52]%N)) && (
(eq_obytes (option_map e_len (sget (u "2") enc3)) (raw [0; 8]%N)) && (
 true ) ) | _ => false end ;
let sp1 := (changed default [((u "p"), (props (Some (u "ascii")) (Some (u "ascii")) (Some (0)%Z) (Some (8)%Z) None None None (Some (u "Bitmap, Primary")))); ((u "2"), (props (Some (u "b")) (Some (u "ascii")) (Some (2)%Z) (Some (8)%Z) (Some (u "bytes")) None None (Some (u "Primary Account Number (PAN)"))))]) in
match encode cpython311 (ADict [((KStr (u "t")), (VStr (u "0200"))); ((KStr (u "2")), (VStr (u "1234")))]) sp1 with
 (Ok (s2, enc3), d4) =>
(eq_bytes s2 (raw [48; 50; 48; 48; 52; 48; 48; 48; 48; 48; 48; 48; 48; 48; 48; 48; 48; 48; 48; 48; 48; 50; 18; 52]%N)) && (
(eq_obytes (option_map e_len (sget (u "2") enc3)) (asc "02")) && (
 true ) ) | _ => false end ;
let sp1 := (changed default [((u "p"), (props (Some (u "ascii")) (Some (u "ascii")) (Some (0)%Z) (Some (8)%Z) None None None (Some (u "Bitmap, Primary")))); ((u "2"), (props (Some (u "b")) (Some (u "ascii")) (Some (2)%Z) (Some (8)%Z) (Some (u "nibbles")) None None (Some (u "Primary Account Number (PAN)"))))]) in
match encode cpython311 (ADict [((KStr (u "t")), (VStr (u "0200"))); ((KStr (u "2")), (VStr (u "1234")))]) sp1 with
 (Ok (s2, enc3), d4) =>
(eq_bytes s2 (raw [48; 50; 48; 48; 52; 48; 48; 48; 48; 48; 48; 48; 48; 48; 48; 48; 48; 48; 48; 48; 48; 52; 18; 52]%N)) && (
(eq_obytes (option_map e_len (sget (u "2") enc3)) (asc "04")) && (
 true ) ) | _ => false end ;
let sp1 := (changed default [((u "p"), (props (Some (u "ascii")) (Some (u "ascii")) (Some (0)%Z) (Some (8)%Z) None None None (Some (u "Bitmap, Primary")))); ((u "2"), (props (Some (u "b")) (Some (u "bcd")) (Some (2)%Z) (Some (8)%Z) (Some (u "bytes")) None None (Some (u "Primary Account Number (PAN)"))))]) in
match encode cpython311 (ADict [((KStr (u "t")), (VStr (u "0200"))); ((KStr (u "2")), (VStr (u "1234")))]) sp1 with
 (Ok (s2, enc3), d4) =>
(eq_bytes s2 (raw [48; 50; 48; 48; 52; 48; 48; 48; 48; 48; 48; 48; 48; 48; 48; 48; 48; 48; 48; 48; 0; 2; 18; 52]%N)) && (
(eq_obytes (option_map e_len (sget (u "2") enc3)) (raw [0; 2]%N)) && (
 true ) ) | _ => false end ;
let sp1 := (changed default [((u "p"), (props (Some (u "ascii")) (Some (u "ascii")) (Some (0)%Z) (Some (8)%Z) None None None (Some (u "Bitmap, Primary")))); ((u "2"), (props (Some (u "b")) (Some (u "bcd")) (Some (2)%Z) (Some (8)%Z) (Some (u "nibbles")) None None (Some (u "Primary Account Number (PAN)"))))]) in
match encode cpython311 (ADict [((KStr (u "t")), (VStr (u "0200"))); ((KStr (u "2")), (VStr (u "1234")))]) sp1 with
 (Ok (s2, enc3), d4) =>
(eq_bytes s2 (raw [48; 50; 48; 48; 52; 48; 48; 48; 48; 48; 48; 48; 48; 48; 48; 48; 48; 48; 48; 48; 0; 4; 18; 52]%N)) && (
(eq_obytes (option_map e_len (sget (u "2") enc3)) (raw [0; 4]%N)) && (
 true ) ) | _ => false end ;
let sp1 := (changed default [((u "p"), (props (Some (u "ascii")) (Some (u "ascii")) (Some (0)%Z) (Some (8)%Z) None None None (Some (u "Bitmap, Primary")))); ((u "2"), (props (Some (u "ascii")) (Some (u "ascii")) (Some (0)%Z) (Some (4)%Z) (Some (u "bytes")) None None (Some (u "Primary Account Number (PAN)"))))]) in
match encode cpython311 (ADict [((KStr (u "t")), (VStr (u "0200"))); ((KStr (u "2")), (VStr (u "1234")))]) sp1 with
 (Ok (s2, enc3), d4) =>
(eq_bytes s2 (asc "020040000000000000001234")) && (
(eq_obytes (option_map e_len (sget (u "2") enc3)) (asc "")) && (
 true ) ) | _ => false end ;
let sp1 := (changed default [((u "p"), (props (Some (u "ascii")) (Some (u "ascii")) (Some (0)%Z) (Some (8)%Z) None None None (Some (u "Bitmap, Primary")))); ((u "2"), (props (Some (u "ascii")) (Some (u "ascii")) (Some (0)%Z) (Some (8)%Z) (Some (u "nibbles")) None None (Some (u "Primary Account Number (PAN)"))))]) in
match encode cpython311 (ADict [((KStr (u "t")), (VStr (u "0200"))); ((KStr (u "2")), (VStr (u "1234")))]) sp1 with
 (Ok (s2, enc3), d4) =>
(eq_bytes s2 (asc "020040000000000000001234")) && (
(eq_obytes (option_map e_len (sget (u "2") enc3)) (asc "")) && (
 true ) ) | _ => false end ;
let sp1 := (changed default [((u "p"), (props (Some (u "ascii")) (Some (u "ascii")) (Some (0)%Z) (Some (8)%Z) None None None (Some (u "Bitmap, Primary")))); ((u "2"), (props (Some (u "b")) (Some (u "ascii")) (Some (0)%Z) (Some (2)%Z) (Some (u "bytes")) None None (Some (u "Primary Account Number (PAN)"))))]) in
match encode cpython311 (ADict [((KStr (u "t")), (VStr (u "0200"))); ((KStr (u "2")), (VStr (u "1234")))]) sp1 with
 (Ok (s2, enc3), d4) =>
(eq_bytes s2 (raw [48; 50; 48; 48; 52; 48; 48; 48; 48; 48; 48; 48; 48; 48; 48; 48; 48; 48; 48; 48; 18; 52]%N)) && (
(eq_obytes (option_map e_len (sget (u "2") enc3)) (asc "")) && (
 true ) ) | _ => false end ;
let sp1 := (changed default [((u "p"), (props (Some (u "ascii")) (Some (u "ascii")) (Some (0)%Z) (Some (8)%Z) None None None (Some (u "Bitmap, Primary")))); ((u "2"), (props (Some (u "b")) (Some (u "ascii")) (Some (0)%Z) (Some (4)%Z) (Some (u "nibbles")) None None (Some (u "Primary Account Number (PAN)"))))]) in
match encode cpython311 (ADict [((KStr (u "t")), (VStr (u "0200"))); ((KStr (u "2")), (VStr (u "1234")))]) sp1 with
 (Ok (s2, enc3), d4) =>
(eq_bytes s2 (raw [48; 50; 48; 48; 52; 48; 48; 48; 48; 48; 48; 48; 48; 48; 48; 48; 48; 48; 48; 48; 18; 52]%N)) && (
(eq_obytes (option_map e_len (sget (u "2") enc3)) (asc "")) && (
 true ) ) | _ => false end ] = true.
Proof. vm_compute. reflexivity. Qed.

(** tests/test_nibbles.py:75. *)
Example test_encode_nibbles_odd_left_pad : forallb (fun b => b) [
let sp1 := (changed default [((u "p"), (props (Some (u "ascii")) (Some (u "ascii")) (Some (0)%Z) (Some (8)%Z) None None None (Some (u "Bitmap, Primary")))); ((u "2"), (props (Some (u "b")) (Some (u "ascii")) (Some (2)%Z) (Some (8)%Z) (Some (u "nibbles")) (Some (u "0")) None (Some (u "Primary Account Number (PAN)"))))]) in
match encode cpython311 (ADict [((KStr (u "t")), (VStr (u "0200"))); ((KStr (u "2")), (VStr (u "123")))]) sp1 with
 (Ok (s2, enc3), d4) =>
(eq_bytes s2 (raw [48; 50; 48; 48; 52; 48; 48; 48; 48; 48; 48; 48; 48; 48; 48; 48; 48; 48; 48; 48; 48; 51; 1; 35]%N)) && (
(eq_obytes (option_map e_len (sget (u "2") enc3)) (asc "03")) && (
 true ) ) | _ => false end ;
let sp1 := (changed default [((u "p"), (props (Some (u "ascii")) (Some (u "ascii")) (Some (0)%Z) (Some (8)%Z) None None None (Some (u "Bitmap, Primary")))); ((u "2"), (props (Some (u "b")) (Some (u "bcd")) (Some (2)%Z) (Some (8)%Z) (Some (u "nibbles")) (Some (u "0")) None (Some (u "Primary Account Number (PAN)"))))]) in
match encode cpython311 (ADict [((KStr (u "t")), (VStr (u "0200"))); ((KStr (u "2")), (VStr (u "123")))]) sp1 with
 (Ok (s2, enc3), d4) =>
(eq_bytes s2 (raw [48; 50; 48; 48; 52; 48; 48; 48; 48; 48; 48; 48; 48; 48; 48; 48; 48; 48; 48; 48; 0; 3; 1; 35]%N)) && (
(eq_obytes (option_map e_len (sget (u "2") enc3)) (raw [0; 3]%N)) && (
 true ) ) | _ => false end ;
let sp1 := (changed default [((u "p"), (props (Some (u "ascii")) (Some (u "ascii")) (Some (0)%Z) (Some (8)%Z) None None None (Some (u "Bitmap, Primary")))); ((u "2"), (props (Some (u "b")) (Some (u "ascii")) (Some (0)%Z) (Some (3)%Z) (Some (u "nibbles")) (Some (u "0")) None (Some (u "Primary Account Number (PAN)"))))]) in
match encode cpython311 (ADict [((KStr (u "t")), (VStr (u "0200"))); ((KStr (u "2")), (VStr (u "123")))]) sp1 with
 (Ok (s2, enc3), d4) =>
(eq_bytes s2 (raw [48; 50; 48; 48; 52; 48; 48; 48; 48; 48; 48; 48; 48; 48; 48; 48; 48; 48; 48; 48; 1; 35]%N)) && (
(eq_obytes (option_map e_len (sget (u "2") enc3)) (asc "")) && (
 true ) ) | _ => false end ;
let sp1 := (changed default [((u "p"), (props (Some (u "ascii")) (Some (u "ascii")) (Some (0)%Z) (Some (8)%Z) None None None (Some (u "Bitmap, Primary")))); ((u "2"), (props (Some (u "b")) (Some (u "ascii")) (Some (2)%Z) (Some (8)%Z) (Some (u "nibbles")) (Some (u "F")) None (Some (u "Primary Account Number (PAN)"))))]) in
match encode cpython311 (ADict [((KStr (u "t")), (VStr (u "0200"))); ((KStr (u "2")), (VStr (u "123")))]) sp1 with
 (Ok (s2, enc3), d4) =>
(eq_bytes s2 (raw [48; 50; 48; 48; 52; 48; 48; 48; 48; 48; 48; 48; 48; 48; 48; 48; 48; 48; 48; 48; 48; 51; 241; 35]%N)) && (
(eq_obytes (option_map e_len (sget (u "2") enc3)) (asc "03")) && (
 true ) ) | _ => false end ;
let sp1 := (changed default [((u "p"), (props (Some (u "ascii")) (Some (u "ascii")) (Some (0)%Z) (Some (8)%Z) None None None (Some (u "Bitmap, Primary")))); ((u "2"), (props (Some (u "b")) (Some (u "bcd")) (Some (2)%Z) (Some (8)%Z) (Some (u "nibbles")) (Some (u "F")) None (Some (u "Primary Account Number (PAN)"))))]) in
match encode cpython311 (ADict [((KStr (u "t")), (VStr (u "0200"))); ((KStr (u "2")), (VStr (u "123")))]) sp1 with
 (Ok (s2, enc3), d4) =>
(eq_bytes s2 (raw [48; 50; 48; 48; 52; 48; 48; 48; 48; 48; 48; 48; 48; 48; 48; 48; 48; 48; 48; 48; 0; 3; 241; 35]%N)) && (
(eq_obytes (option_map e_len (sget (u "2") enc3)) (raw [0; 3]%N)) && (
 true ) ) | _ => false end ;
let sp1 := (changed default [((u "p"), (props (Some (u "ascii")) (Some (u "ascii")) (Some (0)%Z) (Some (8)%Z) None None None (Some (u "Bitmap, Primary")))); ((u "2"), (props (Some (u "b")) (Some (u "ascii")) (Some (0)%Z) (Some (3)%Z) (Some (u "nibbles")) (Some (u "F")) None (Some (u "Primary Account Number (PAN)"))))]) in
match encode cpython311 (ADict [((KStr (u "t")), (VStr (u "0200"))); ((KStr (u "2")), (VStr (u "123")))]) sp1 with
 (Ok (s2, enc3), d4) =>
(eq_bytes s2 (raw [48; 50; 48; 48; 52; 48; 48; 48; 48; 48; 48; 48; 48; 48; 48; 48; 48; 48; 48; 48; 241; 35]%N)) && (
(eq_obytes (option_map e_len (sget (u "2") enc3)) (asc "")) && (
 true ) ) | _ => false end ;
let sp1 := (changed default [((u "p"), (props (Some (u "ascii")) (Some (u "ascii")) (Some (0)%Z) (Some (8)%Z) None None None (Some (u "Bitmap, Primary")))); ((u "2"), (props (Some (u "b")) (Some (u "ascii")) (Some (2)%Z) (Some (8)%Z) (Some (u "nibbles")) (Some (u "01")) None (Some (u "Primary Account Number (PAN)"))))]) in
match encode cpython311 (ADict [((KStr (u "t")), (VStr (u "0200"))); ((KStr (u "2")), (VStr (u "123")))]) sp1 with
 (Ok (s2, enc3), d4) =>
(eq_bytes s2 (raw [48; 50; 48; 48; 52; 48; 48; 48; 48; 48; 48; 48; 48; 48; 48; 48; 48; 48; 48; 48; 48; 51; 1; 35]%N)) && (
(eq_obytes (option_map e_len (sget (u "2") enc3)) (asc "03")) && (
 true ) ) | _ => false end ;
let sp1 := (changed default [((u "p"), (props (Some (u "ascii")) (Some (u "ascii")) (Some (0)%Z) (Some (8)%Z) None None None (Some (u "Bitmap, Primary")))); ((u "2"), (props (Some (u "b")) (Some (u "bcd")) (Some (2)%Z) (Some (8)%Z) (Some (u "nibbles")) (Some (u "01")) None (Some (u "Primary Account Number (PAN)"))))]) in
match encode cpython311 (ADict [((KStr (u "t")), (VStr (u "0200"))); ((KStr (u "2")), (VStr (u "123")))]) sp1 with
 (Ok (s2, enc3), d4) =>
(eq_bytes s2 (raw [48; 50; 48; 48; 52; 48; 48; 48; 48; 48; 48; 48; 48; 48; 48; 48; 48; 48; 48; 48; 0; 3; 1; 35]%N)) && (
(eq_obytes (option_map e_len (sget (u "2") enc3)) (raw [0; 3]%N)) && (
 true ) ) | _ => false end ;
let sp1 := (changed default [((u "p"), (props (Some (u "ascii")) (Some (u "ascii")) (Some (0)%Z) (Some (8)%Z) None None None (Some (u "Bitmap, Primary")))); ((u "2"), (props (Some (u "b")) (Some (u "ascii")) (Some (0)%Z) (Some (3)%Z) (Some (u "nibbles")) (Some (u "01")) None (Some (u "Primary Account Number (PAN)"))))]) in
match encode cpython311 (ADict [((KStr (u "t")), (VStr (u "0200"))); ((KStr (u "2")), (VStr (u "123")))]) sp1 with
 (Ok (s2, enc3), d4) =>
(eq_bytes s2 (raw [48; 50; 48; 48; 52; 48; 48; 48; 48; 48; 48; 48; 48; 48; 48; 48; 48; 48; 48; 48; 1; 35]%N)) && (
(eq_obytes (option_map e_len (sget (u "2") enc3)) (asc "")) && (
 true ) ) | _ => false end ;
let sp1 := (changed default [((u "p"), (props (Some (u "ascii")) (Some (u "ascii")) (Some (0)%Z) (Some (8)%Z) None None None (Some (u "Bitmap, Primary")))); ((u "2"), (props (Some (u "b")) (Some (u "ascii")) (Some (2)%Z) (Some (8)%Z) (Some (u "nibbles")) (Some (u "F1")) None (Some (u "Primary Account Number (PAN)"))))]) in
match encode cpython311 (ADict [((KStr (u "t")), (VStr (u "0200"))); ((KStr (u "2")), (VStr (u "123")))]) sp1 with
 (Ok (s2, enc3), d4) =>
(eq_bytes s2 (raw [48; 50; 48; 48; 52; 48; 48; 48; 48; 48; 48; 48; 48; 48; 48; 48; 48; 48; 48; 48; 48; 51; 241; 35]%N)) && (
(eq_obytes (option_map e_len (sget (u "2") enc3)) (asc "03")) && (
 true ) ) | _ => false end ;
let sp1 := (changed default [((u "p"), (props (Some (u "ascii")) (Some (u "ascii")) (Some (0)%Z) (Some (8)%Z) None None None (Some (u "Bitmap, Primary")))); ((u "2"), (props (Some (u "b")) (Some (u "bcd")) (Some (2)%Z) (Some (8)%Z) (Some (u "nibbles")) (Some (u "F1")) None (Some (u "Primary Account Number (PAN)"))))]) in
match encode cpython311 (ADict [((KStr (u "t")), (VStr (u "0200"))); ((KStr (u "2")), (VStr (u "123")))]) sp1 with
 (Ok (s2, enc3), d4) =>
(eq_bytes s2 (raw [48; 50; 48; 48; 52; 48; 48; 48; 48; 48; 48; 48; 48; 48; 48; 48; 48; 48; 48; 48; 0; 3; 241; 35]%N)) && (
(eq_obytes (option_map e_len (sget (u "2") enc3)) (raw [0; 3]%N)) && (
 true ) ) | _ => false end ;
let sp1 := (changed default [((u "p"), (props (Some (u "ascii")) (Some (u "ascii")) (Some (0)%Z) (Some (8)%Z) None None None (Some (u "Bitmap, Primary")))); ((u "2"), (props (Some (u "b")) (Some (u "ascii")) (Some (0)%Z) (Some (3)%Z) (Some (u "nibbles")) (Some (u "F1")) None (Some (u "Primary Account Number (PAN)"))))]) in
match encode cpython311 (ADict [((KStr (u "t")), (VStr (u "0200"))); ((KStr (u "2")), (VStr (u "123")))]) sp1 with
 (Ok (s2, enc3), d4) =>
(eq_bytes s2 (raw [48; 50; 48; 48; 52; 48; 48; 48; 48; 48; 48; 48; 48; 48; 48; 48; 48; 48; 48; 48; 241; 35]%N)) && (
(eq_obytes (option_map e_len (sget (u "2") enc3)) (asc "")) && (
 true ) ) | _ => false end ] = true.
Proof. vm_compute. reflexivity. Qed.

(** tests/test_nibbles.py:122. *)
Example test_encode_nibbles_odd_right_pad : forallb (fun b => b) [
let sp1 := (changed default [((u "p"), (props (Some (u "ascii")) (Some (u "ascii")) (Some (0)%Z) (Some (8)%Z) None None None (Some (u "Bitmap, Primary")))); ((u "2"), (props (Some (u "b")) (Some (u "ascii")) (Some (2)%Z) (Some (8)%Z) (Some (u "nibbles")) None (Some (u "0")) (Some (u "Primary Account Number (PAN)"))))]) in
match encode cpython311 (ADict [((KStr (u "t")), (VStr (u "0200"))); ((KStr (u "2")), (VStr (u "123")))]) sp1 with
 (Ok (s2, enc3), d4) =>
(eq_bytes s2 (raw [48; 50; 48; 48; 52; 48; 48; 48; 48; 48; 48; 48; 48; 48; 48; 48; 48; 48; 48; 48; 48; 51; 18; 48]%N)) && (
(eq_obytes (option_map e_len (sget (u "2") enc3)) (asc "03")) && (
 true ) ) | _ => false end ;
let sp1 := (changed default [((u "p"), (props (Some (u "ascii")) (Some (u "ascii")) (Some (0)%Z) (Some (8)%Z) None None None (Some (u "Bitmap, Primary")))); ((u "2"), (props (Some (u "b")) (Some (u "bcd")) (Some (2)%Z) (Some (8)%Z) (Some (u "nibbles")) None (Some (u "0")) (Some (u "Primary Account Number (PAN)"))))]) in
match encode cpython311 (ADict [((KStr (u "t")), (VStr (u "0200"))); ((KStr (u "2")), (VStr (u "123")))]) sp1 with
 (Ok (s2, enc3), d4) =>
(eq_bytes s2 (raw [48; 50; 48; 48; 52; 48; 48; 48; 48; 48; 48; 48; 48; 48; 48; 48; 48; 48; 48; 48; 0; 3; 18; 48]%N)) && (
(eq_obytes (option_map e_len (sget (u "2") enc3)) (raw [0; 3]%N)) && (
 true ) ) | _ => false end ;
let sp1 := (changed default [((u "p"), (props (Some (u "ascii")) (Some (u "ascii")) (Some (0)%Z) (Some (8)%Z) None None None (Some (u "Bitmap, Primary")))); ((u "2"), (props (Some (u "b")) (Some (u "ascii")) (Some (0)%Z) (Some (3)%Z) (Some (u "nibbles")) None (Some (u "0")) (Some (u "Primary Account Number (PAN)"))))]) in
match encode cpython311 (ADict [((KStr (u "t")), (VStr (u "0200"))); ((KStr (u "2")), (VStr (u "123")))]) sp1 with
 (Ok (s2, enc3), d4) =>
(eq_bytes s2 (raw [48; 50; 48; 48; 52; 48; 48; 48; 48; 48; 48; 48; 48; 48; 48; 48; 48; 48; 48; 48; 18; 48]%N)) && (
(eq_obytes (option_map e_len (sget (u "2") enc3)) (asc "")) && (
 true ) ) | _ => false end ;
let sp1 := (changed default [((u "p"), (props (Some (u "ascii")) (Some (u "ascii")) (Some (0)%Z) (Some (8)%Z) None None None (Some (u "Bitmap, Primary")))); ((u "2"), (props (Some (u "b")) (Some (u "ascii")) (Some (2)%Z) (Some (8)%Z) (Some (u "nibbles")) None (Some (u "F")) (Some (u "Primary Account Number (PAN)"))))]) in
match encode cpython311 (ADict [((KStr (u "t")), (VStr (u "0200"))); ((KStr (u "2")), (VStr (u "123")))]) sp1 with
 (Ok (s2, enc3), d4) =>
(eq_bytes s2 (raw [48; 50; 48; 48; 52; 48; 48; 48; 48; 48; 48; 48; 48; 48; 48; 48; 48; 48; 48; 48; 48; 51; 18; 63]%N)) && (
(eq_obytes (option_map e_len (sget (u "2") enc3)) (asc "03")) && (
 true ) ) | _ => false end ;
let sp1 := (changed default [((u "p"), (props (Some (u "ascii")) (Some (u "ascii")) (Some (0)%Z) (Some (8)%Z) None None None (Some (u "Bitmap, Primary")))); ((u "2"), (props (Some (u "b")) (Some (u "bcd")) (Some (2)%Z) (Some (8)%Z) (Some (u "nibbles")) None (Some (u "F")) (Some (u "Primary Account Number (PAN)"))))]) in
match encode cpython311 (ADict [((KStr (u "t")), (VStr (u "0200"))); ((KStr (u "2")), (VStr (u "123")))]) sp1 with
 (Ok (s2, enc3), d4) =>
(eq_bytes s2 (raw [48; 50; 48; 48; 52; 48; 48; 48; 48; 48; 48; 48; 48; 48; 48; 48; 48; 48; 48; 48; 0; 3; 18; 63]%N)) && (
(eq_obytes (option_map e_len (sget (u "2") enc3)) (raw [0; 3]%N)) && (
 true ) ) | _ => false end ;
let sp1 := (changed default [((u "p"), (props (Some (u "ascii")) (Some (u "ascii")) (Some (0)%Z) (Some (8)%Z) None None None (Some (u "Bitmap, Primary")))); ((u "2"), (props (Some (u "b")) (Some (u "ascii")) (Some (0)%Z) (Some (3)%Z) (Some (u "nibbles")) None (Some (u "F")) (Some (u "Primary Account Number (PAN)"))))]) in
match encode cpython311 (ADict [((KStr (u "t")), (VStr (u "0200"))); ((KStr (u "2")), (VStr (u "123")))]) sp1 with
 (Ok (s2, enc3), d4) =>
(eq_bytes s2 (raw [48; 50; 48; 48; 52; 48; 48; 48; 48; 48; 48; 48; 48; 48; 48; 48; 48; 48; 48; 48; 18; 63]%N)) && (
(eq_obytes (option_map e_len (sget (u "2") enc3)) (asc "")) && (
 true ) ) | _ => false end ;
let sp1 := (changed default [((u "p"), (props (Some (u "ascii")) (Some (u "ascii")) (Some (0)%Z) (Some (8)%Z) None None None (Some (u "Bitmap, Primary")))); ((u "2"), (props (Some (u "b")) (Some (u "ascii")) (Some (2)%Z) (Some (8)%Z) (Some (u "nibbles")) None (Some (u "01")) (Some (u "Primary Account Number (PAN)"))))]) in
match encode cpython311 (ADict [((KStr (u "t")), (VStr (u "0200"))); ((KStr (u "2")), (VStr (u "123")))]) sp1 with
 (Ok (s2, enc3), d4) =>
(eq_bytes s2 (raw [48; 50; 48; 48; 52; 48; 48; 48; 48; 48; 48; 48; 48; 48; 48; 48; 48; 48; 48; 48; 48; 51; 18; 48]%N)) && (
(eq_obytes (option_map e_len (sget (u "2") enc3)) (asc "03")) && (
 true ) ) | _ => false end ;
let sp1 := (changed default [((u "p"), (props (Some (u "ascii")) (Some (u "ascii")) (Some (0)%Z) (Some (8)%Z) None None None (Some (u "Bitmap, Primary")))); ((u "2"), (props (Some (u "b")) (Some (u "bcd")) (Some (2)%Z) (Some (8)%Z) (Some (u "nibbles")) None (Some (u "01")) (Some (u "Primary Account Number (PAN)"))))]) in
match encode cpython311 (ADict [((KStr (u "t")), (VStr (u "0200"))); ((KStr (u "2")), (VStr (u "123")))]) sp1 with
 (Ok (s2, enc3), d4) =>
(eq_bytes s2 (raw [48; 50; 48; 48; 52; 48; 48; 48; 48; 48; 48; 48; 48; 48; 48; 48; 48; 48; 48; 48; 0; 3; 18; 48]%N)) && (
(eq_obytes (option_map e_len (sget (u "2") enc3)) (raw [0; 3]%N)) && (
 true ) ) | _ => false end ;
let sp1 := (changed default [((u "p"), (props (Some (u "ascii")) (Some (u "ascii")) (Some (0)%Z) (Some (8)%Z) None None None (Some (u "Bitmap, Primary")))); ((u "2"), (props (Some (u "b")) (Some (u "ascii")) (Some (0)%Z) (Some (3)%Z) (Some (u "nibbles")) None (Some (u "01")) (Some (u "Primary Account Number (PAN)"))))]) in
match encode cpython311 (ADict [((KStr (u "t")), (VStr (u "0200"))); ((KStr (u "2")), (VStr (u "123")))]) sp1 with
 (Ok (s2, enc3), d4) =>
(eq_bytes s2 (raw [48; 50; 48; 48; 52; 48; 48; 48; 48; 48; 48; 48; 48; 48; 48; 48; 48; 48; 48; 48; 18; 48]%N)) && (
(eq_obytes (option_map e_len (sget (u "2") enc3)) (asc "")) && (
 true ) ) | _ => false end ;
let sp1 := (changed default [((u "p"), (props (Some (u "ascii")) (Some (u "ascii")) (Some (0)%Z) (Some (8)%Z) None None None (Some (u "Bitmap, Primary")))); ((u "2"), (props (Some (u "b")) (Some (u "ascii")) (Some (2)%Z) (Some (8)%Z) (Some (u "nibbles")) None (Some (u "F1")) (Some (u "Primary Account Number (PAN)"))))]) in
match encode cpython311 (ADict [((KStr (u "t")), (VStr (u "0200"))); ((KStr (u "2")), (VStr (u "123")))]) sp1 with
 (Ok (s2, enc3), d4) =>
(eq_bytes s2 (raw [48; 50; 48; 48; 52; 48; 48; 48; 48; 48; 48; 48; 48; 48; 48; 48; 48; 48; 48; 48; 48; 51; 18; 63]%N)) && (
(eq_obytes (option_map e_len (sget (u "2") enc3)) (asc "03")) && (
 true ) ) | _ => false end ;
let sp1 := (changed default [((u "p"), (props (Some (u "ascii")) (Some (u "ascii")) (Some (0)%Z) (Some (8)%Z) None None None (Some (u "Bitmap, Primary")))); ((u "2"), (props (Some (u "b")) (Some (u "bcd")) (Some (2)%Z) (Some (8)%Z) (Some (u "nibbles")) None (Some (u "F1")) (Some (u "Primary Account Number (PAN)"))))]) in
match encode cpython311 (ADict [((KStr (u "t")), (VStr (u "0200"))); ((KStr (u "2")), (VStr (u "123")))]) sp1 with
 (Ok (s2, enc3), d4) =>
(eq_bytes s2 (raw [48; 50; 48; 48; 52; 48; 48; 48; 48; 48; 48; 48; 48; 48; 48; 48; 48; 48; 48; 48; 0; 3; 18; 63]%N)) && (
(eq_obytes (option_map e_len (sget (u "2") enc3)) (raw [0; 3]%N)) && (
 true ) ) | _ => false end ;
let sp1 := (changed default [((u "p"), (props (Some (u "ascii")) (Some (u "ascii")) (Some (0)%Z) (Some (8)%Z) None None None (Some (u "Bitmap, Primary")))); ((u "2"), (props (Some (u "b")) (Some (u "ascii")) (Some (0)%Z) (Some (3)%Z) (Some (u "nibbles")) None (Some (u "F1")) (Some (u "Primary Account Number (PAN)"))))]) in
match encode cpython311 (ADict [((KStr (u "t")), (VStr (u "0200"))); ((KStr (u "2")), (VStr (u "123")))]) sp1 with
 (Ok (s2, enc3), d4) =>
(eq_bytes s2 (raw [48; 50; 48; 48; 52; 48; 48; 48; 48; 48; 48; 48; 48; 48; 48; 48; 48; 48; 48; 48; 18; 63]%N)) && (
(eq_obytes (option_map e_len (sget (u "2") enc3)) (asc "")) && (
 true ) ) | _ => false end ] = true.
Proof. vm_compute. reflexivity. Qed.

(** tests/test_nibbles.py:150. *)
Example test_encode_nibbles_odd_no_pad : forallb (fun b => b) [
let sp1 := (changed default [((u "p"), (props (Some (u "ascii")) (Some (u "ascii")) (Some (0)%Z) (Some (8)%Z) None None None (Some (u "Bitmap, Primary")))); ((u "2"), (props (Some (u "b")) (Some (u "bcd")) (Some (2)%Z) (Some (8)%Z) (Some (u "nibbles")) None None (Some (u "Primary Account Number (PAN)"))))]) in
match encode cpython311 (ADict [((KStr (u "t")), (VStr (u "0200"))); ((KStr (u "2")), (VStr (u "1")))]) sp1 with
 (Raise (XEncodeError e2), d3) =>
(matches (u "Failed to encode field, odd-length nibble data, specify pad: field 2") (ee_args0 e2)) && (
 true ) | _ => false end ] = true.
Proof. vm_compute. reflexivity. Qed.

(** tests/test_nibbles.py:169. *)
Example test_encode_nibbles_non_hex : forallb (fun b => b) [
let sp1 := (changed default [((u "p"), (props (Some (u "ascii")) (Some (u "ascii")) (Some (0)%Z) (Some (8)%Z) None None None (Some (u "Bitmap, Primary")))); ((u "2"), (props (Some (u "b")) (Some (u "bcd")) (Some (2)%Z) (Some (8)%Z) (Some (u "nibbles")) None (Some (u "f")) (Some (u "Primary Account Number (PAN)"))))]) in
match encode cpython311 (ADict [((KStr (u "t")), (VStr (u "0200"))); ((KStr (u "2")), (VStr (u "x")))]) sp1 with
 (Raise (XEncodeError e2), d3) =>
(matches (u "Failed to encode field, non-hex data: field 2") (ee_args0 e2)) && (
 true ) | _ => false end ] = true.
Proof. vm_compute. reflexivity. Qed.

(** tests/test_nibbles.py:208. *)
Example test_decode_nibbles : forallb (fun b => b) [
let sp1 := (changed default [((u "p"), (props (Some (u "ascii")) (Some (u "ascii")) (Some (0)%Z) (Some (8)%Z) None None None (Some (u "Bitmap, Primary")))); ((u "2"), (props (Some (u "ascii")) (Some (u "ascii")) (Some (2)%Z) (Some (8)%Z) (Some (u "bytes")) None None (Some (u "Primary Account Number (PAN)"))))]) in
match decode cpython311 (InBytes (asc "02004000000000000000041234")) sp1 with
 Ok (dec2, enc3) =>
(eq_ostr (sget (u "2") dec2) (u "1234")) && (
(eq_obytes (option_map e_len (sget (u "2") enc3)) (asc "04")) && (
 true ) ) | _ => false end ;
let sp1 := (changed default [((u "p"), (props (Some (u "ascii")) (Some (u "ascii")) (Some (0)%Z) (Some (8)%Z) None None None (Some (u "Bitmap, Primary")))); ((u "2"), (props (Some (u "ascii")) (Some (u "ascii")) (Some (2)%Z) (Some (8)%Z) (Some (u "nibbles")) None None (Some (u "Primary Account Number (PAN)"))))]) in
match decode cpython311 (InBytes (asc "02004000000000000000081234")) sp1 with
 Ok (dec2, enc3) =>
(eq_ostr (sget (u "2") dec2) (u "1234")) && (
(eq_obytes (option_map e_len (sget (u "2") enc3)) (asc "08")) && (
 true ) ) | _ => false end ;
let sp1 := (changed default [((u "p"), (props (Some (u "ascii")) (Some (u "ascii")) (Some (0)%Z) (Some (8)%Z) None None None (Some (u "Bitmap, Primary")))); ((u "2"), (props (Some (u "ascii")) (Some (u "bcd")) (Some (2)%Z) (Some (8)%Z) (Some (u "bytes")) None None (Some (u "Primary Account Number (PAN)"))))]) in
match decode cpython311 (InBytes (raw [48; 50; 48; 48; 52; 48; 48; 48; 48; 48; 48; 48; 48; 48; 48; 48; 48; 48; 48; 48; 0; 4; 49; 50; 51; 52]%N)) sp1 with
 Ok (dec2, enc3) =>
(eq_ostr (sget (u "2") dec2) (u "1234")) && (
(eq_obytes (option_map e_len (sget (u "2") enc3)) (raw [0; 4]%N)) && (
 true ) ) | _ => false end ;
let sp1 := (changed default [((u "p"), (props (Some (u "ascii")) (Some (u "ascii")) (Some (0)%Z) (Some (8)%Z) None None None (Some (u "Bitmap, Primary")))); ((u "2"), (props (Some (u "ascii")) (Some (u "bcd")) (Some (2)%Z) (Some (8)%Z) (Some (u "nibbles")) None None (Some (u "Primary Account Number (PAN)"))))]) in
match decode cpython311 (InBytes (raw [48; 50; 48; 48; 52; 48; 48; 48; 48; 48; 48; 48; 48; 48; 48; 48; 48; 48; 48; 48; 0; 8; 49; 50; 51; 52]%N)) sp1 with
 Ok (dec2, enc3) =>
(eq_ostr (sget (u "2") dec2) (u "1234")) && (
(eq_obytes (option_map e_len (sget (u "2") enc3)) (raw [0; 8]%N)) && (
 true ) ) | _ => false end ;
let sp1 := (changed default [((u "p"), (props (Some (u "ascii")) (Some (u "ascii")) (Some (0)%Z) (Some (8)%Z) None None None (Some (u "Bitmap, Primary")))); ((u "2"), (props (Some (u "b")) (Some (u "ascii")) (Some (2)%Z) (Some (8)%Z) (Some (u "bytes")) None None (Some (u "Primary Account Number (PAN)"))))]) in
match decode cpython311 (InBytes (raw [48; 50; 48; 48; 52; 48; 48; 48; 48; 48; 48; 48; 48; 48; 48; 48; 48; 48; 48; 48; 48; 50; 18; 52]%N)) sp1 with
 Ok (dec2, enc3) =>
(eq_ostr (sget (u "2") dec2) (u "1234")) && (
(eq_obytes (option_map e_len (sget (u "2") enc3)) (asc "02")) && (
 true ) ) | _ => false end ;
let sp1 := (changed default [((u "p"), (props (Some (u "ascii")) (Some (u "ascii")) (Some (0)%Z) (Some (8)%Z) None None None (Some (u "Bitmap, Primary")))); ((u "2"), (props (Some (u "b")) (Some (u "ascii")) (Some (2)%Z) (Some (8)%Z) (Some (u "nibbles")) None None (Some (u "Primary Account Number (PAN)"))))]) in
match decode cpython311 (InBytes (raw [48; 50; 48; 48; 52; 48; 48; 48; 48; 48; 48; 48; 48; 48; 48; 48; 48; 48; 48; 48; 48; 52; 18; 52]%N)) sp1 with
 Ok (dec2, enc3) =>
(eq_ostr (sget (u "2") dec2) (u "1234")) && (
(eq_obytes (option_map e_len (sget (u "2") enc3)) (asc "04")) && (
 true ) ) | _ => false end ;
let sp1 := (changed default [((u "p"), (props (Some (u "ascii")) (Some (u "ascii")) (Some (0)%Z) (Some (8)%Z) None None None (Some (u "Bitmap, Primary")))); ((u "2"), (props (Some (u "b")) (Some (u "bcd")) (Some (2)%Z) (Some (8)%Z) (Some (u "bytes")) None None (Some (u "Primary Account Number (PAN)"))))]) in
match decode cpython311 (InBytes (raw [48; 50; 48; 48; 52; 48; 48; 48; 48; 48; 48; 48; 48; 48; 48; 48; 48; 48; 48; 48; 0; 2; 18; 52]%N)) sp1 with
 Ok (dec2, enc3) =>
(eq_ostr (sget (u "2") dec2) (u "1234")) && (
(eq_obytes (option_map e_len (sget (u "2") enc3)) (raw [0; 2]%N)) && (
 true ) ) | _ => false end ;
let sp1 := (changed default [((u "p"), (props (Some (u "ascii")) (Some (u "ascii")) (Some (0)%Z) (Some (8)%Z) None None None (Some (u "Bitmap, Primary")))); ((u "2"), (props (Some (u "b")) (Some (u "bcd")) (Some (2)%Z) (Some (8)%Z) (Some (u "nibbles")) None None (Some (u "Primary Account Number (PAN)"))))]) in
match decode cpython311 (InBytes (raw [48; 50; 48; 48; 52; 48; 48; 48; 48; 48; 48; 48; 48; 48; 48; 48; 48; 48; 48; 48; 0; 4; 18; 52]%N)) sp1 with
 Ok (dec2, enc3) =>
(eq_ostr (sget (u "2") dec2) (u "1234")) && (
(eq_obytes (option_map e_len (sget (u "2") enc3)) (raw [0; 4]%N)) && (
 true ) ) | _ => false end ;
let sp1 := (changed default [((u "p"), (props (Some (u "ascii")) (Some (u "ascii")) (Some (0)%Z) (Some (8)%Z) None None None (Some (u "Bitmap, Primary")))); ((u "2"), (props (Some (u "ascii")) (Some (u "ascii")) (Some (0)%Z) (Some (4)%Z) (Some (u "bytes")) None None (Some (u "Primary Account Number (PAN)"))))]) in
match decode cpython311 (InBytes (asc "020040000000000000001234")) sp1 with
 Ok (dec2, enc3) =>
(eq_ostr (sget (u "2") dec2) (u "1234")) && (
(eq_obytes (option_map e_len (sget (u "2") enc3)) (asc "")) && (
 true ) ) | _ => false end ;
let sp1 := (changed default [((u "p"), (props (Some (u "ascii")) (Some (u "ascii")) (Some (0)%Z) (Some (8)%Z) None None None (Some (u "Bitmap, Primary")))); ((u "2"), (props (Some (u "ascii")) (Some (u "ascii")) (Some (0)%Z) (Some (8)%Z) (Some (u "nibbles")) None None (Some (u "Primary Account Number (PAN)"))))]) in
match decode cpython311 (InBytes (asc "020040000000000000001234")) sp1 with
 Ok (dec2, enc3) =>
(eq_ostr (sget (u "2") dec2) (u "1234")) && (
(eq_obytes (option_map e_len (sget (u "2") enc3)) (asc "")) && (
 true ) ) | _ => false end ;
let sp1 := (changed default [((u "p"), (props (Some (u "ascii")) (Some (u "ascii")) (Some (0)%Z) (Some (8)%Z) None None None (Some (u "Bitmap, Primary")))); ((u "2"), (props (Some (u "b")) (Some (u "ascii")) (Some (0)%Z) (Some (2)%Z) (Some (u "bytes")) None None (Some (u "Primary Account Number (PAN)"))))]) in
match decode cpython311 (InBytes (raw [48; 50; 48; 48; 52; 48; 48; 48; 48; 48; 48; 48; 48; 48; 48; 48; 48; 48; 48; 48; 18; 52]%N)) sp1 with
 Ok (dec2, enc3) =>
(eq_ostr (sget (u "2") dec2) (u "1234")) && (
(eq_obytes (option_map e_len (sget (u "2") enc3)) (asc "")) && (
 true ) ) | _ => false end ;
let sp1 := (changed default [((u "p"), (props (Some (u "ascii")) (Some (u "ascii")) (Some (0)%Z) (Some (8)%Z) None None None (Some (u "Bitmap, Primary")))); ((u "2"), (props (Some (u "b")) (Some (u "ascii")) (Some (0)%Z) (Some (4)%Z) (Some (u "nibbles")) None None (Some (u "Primary Account Number (PAN)"))))]) in
match decode cpython311 (InBytes (raw [48; 50; 48; 48; 52; 48; 48; 48; 48; 48; 48; 48; 48; 48; 48; 48; 48; 48; 48; 48; 18; 52]%N)) sp1 with
 Ok (dec2, enc3) =>
(eq_ostr (sget (u "2") dec2) (u "1234")) && (
(eq_obytes (option_map e_len (sget (u "2") enc3)) (asc "")) && (
 true ) ) | _ => false end ] = true.
Proof. vm_compute. reflexivity. Qed.

(** tests/test_nibbles.py:252. *)
Example test_decode_nibbles_left_pad : forallb (fun b => b) [
let sp1 := (changed default [((u "p"), (props (Some (u "ascii")) (Some (u "ascii")) (Some (0)%Z) (Some (8)%Z) None None None (Some (u "Bitmap, Primary")))); ((u "2"), (props (Some (u "b")) (Some (u "ascii")) (Some (2)%Z) (Some (8)%Z) (Some (u "nibbles")) (Some (u "0")) None (Some (u "Primary Account Number (PAN)"))))]) in
match decode cpython311 (InBytes (raw [48; 50; 48; 48; 52; 48; 48; 48; 48; 48; 48; 48; 48; 48; 48; 48; 48; 48; 48; 48; 48; 51; 1; 35]%N)) sp1 with
 Ok (dec2, enc3) =>
(eq_ostr (sget (u "2") dec2) (u "123")) && (
(eq_obytes (option_map e_len (sget (u "2") enc3)) (asc "03")) && (
 true ) ) | _ => false end ;
let sp1 := (changed default [((u "p"), (props (Some (u "ascii")) (Some (u "ascii")) (Some (0)%Z) (Some (8)%Z) None None None (Some (u "Bitmap, Primary")))); ((u "2"), (props (Some (u "b")) (Some (u "bcd")) (Some (2)%Z) (Some (8)%Z) (Some (u "nibbles")) (Some (u "0")) None (Some (u "Primary Account Number (PAN)"))))]) in
match decode cpython311 (InBytes (raw [48; 50; 48; 48; 52; 48; 48; 48; 48; 48; 48; 48; 48; 48; 48; 48; 48; 48; 48; 48; 0; 3; 1; 35]%N)) sp1 with
 Ok (dec2, enc3) =>
(eq_ostr (sget (u "2") dec2) (u "123")) && (
(eq_obytes (option_map e_len (sget (u "2") enc3)) (raw [0; 3]%N)) && (
 true ) ) | _ => false end ;
let sp1 := (changed default [((u "p"), (props (Some (u "ascii")) (Some (u "ascii")) (Some (0)%Z) (Some (8)%Z) None None None (Some (u "Bitmap, Primary")))); ((u "2"), (props (Some (u "b")) (Some (u "ascii")) (Some (0)%Z) (Some (3)%Z) (Some (u "nibbles")) (Some (u "0")) None (Some (u "Primary Account Number (PAN)"))))]) in
match decode cpython311 (InBytes (raw [48; 50; 48; 48; 52; 48; 48; 48; 48; 48; 48; 48; 48; 48; 48; 48; 48; 48; 48; 48; 1; 35]%N)) sp1 with
 Ok (dec2, enc3) =>
(eq_ostr (sget (u "2") dec2) (u "123")) && (
(eq_obytes (option_map e_len (sget (u "2") enc3)) (asc "")) && (
 true ) ) | _ => false end ;
let sp1 := (changed default [((u "p"), (props (Some (u "ascii")) (Some (u "ascii")) (Some (0)%Z) (Some (8)%Z) None None None (Some (u "Bitmap, Primary")))); ((u "2"), (props (Some (u "b")) (Some (u "ascii")) (Some (2)%Z) (Some (8)%Z) (Some (u "nibbles")) (Some (u "F")) None (Some (u "Primary Account Number (PAN)"))))]) in
match decode cpython311 (InBytes (raw [48; 50; 48; 48; 52; 48; 48; 48; 48; 48; 48; 48; 48; 48; 48; 48; 48; 48; 48; 48; 48; 51; 241; 35]%N)) sp1 with
 Ok (dec2, enc3) =>
(eq_ostr (sget (u "2") dec2) (u "123")) && (
(eq_obytes (option_map e_len (sget (u "2") enc3)) (asc "03")) && (
 true ) ) | _ => false end ;
let sp1 := (changed default [((u "p"), (props (Some (u "ascii")) (Some (u "ascii")) (Some (0)%Z) (Some (8)%Z) None None None (Some (u "Bitmap, Primary")))); ((u "2"), (props (Some (u "b")) (Some (u "bcd")) (Some (2)%Z) (Some (8)%Z) (Some (u "nibbles")) (Some (u "F")) None (Some (u "Primary Account Number (PAN)"))))]) in
match decode cpython311 (InBytes (raw [48; 50; 48; 48; 52; 48; 48; 48; 48; 48; 48; 48; 48; 48; 48; 48; 48; 48; 48; 48; 0; 3; 241; 35]%N)) sp1 with
 Ok (dec2, enc3) =>
(eq_ostr (sget (u "2") dec2) (u "123")) && (
(eq_obytes (option_map e_len (sget (u "2") enc3)) (raw [0; 3]%N)) && (
 true ) ) | _ => false end ;
let sp1 := (changed default [((u "p"), (props (Some (u "ascii")) (Some (u "ascii")) (Some (0)%Z) (Some (8)%Z) None None None (Some (u "Bitmap, Primary")))); ((u "2"), (props (Some (u "b")) (Some (u "ascii")) (Some (0)%Z) (Some (3)%Z) (Some (u "nibbles")) (Some (u "F")) None (Some (u "Primary Account Number (PAN)"))))]) in
match decode cpython311 (InBytes (raw [48; 50; 48; 48; 52; 48; 48; 48; 48; 48; 48; 48; 48; 48; 48; 48; 48; 48; 48; 48; 241; 35]%N)) sp1 with
 Ok (dec2, enc3) =>
(eq_ostr (sget (u "2") dec2) (u "123")) && (
(eq_obytes (option_map e_len (sget (u "2") enc3)) (asc "")) && (
 true ) ) | _ => false end ;
let sp1 := (changed default [((u "p"), (props (Some (u "ascii")) (Some (u "ascii")) (Some (0)%Z) (Some (8)%Z) None None None (Some (u "Bitmap, Primary")))); ((u "2"), (props (Some (u "b")) (Some (u "ascii")) (Some (2)%Z) (Some (8)%Z) (Some (u "nibbles")) (Some (u "01")) None (Some (u "Primary Account Number (PAN)"))))]) in
match decode cpython311 (InBytes (raw [48; 50; 48; 48; 52; 48; 48; 48; 48; 48; 48; 48; 48; 48; 48; 48; 48; 48; 48; 48; 48; 51; 1; 35]%N)) sp1 with
 Ok (dec2, enc3) =>
(eq_ostr (sget (u "2") dec2) (u "123")) && (
(eq_obytes (option_map e_len (sget (u "2") enc3)) (asc "03")) && (
 true ) ) | _ => false end ;
let sp1 := (changed default [((u "p"), (props (Some (u "ascii")) (Some (u "ascii")) (Some (0)%Z) (Some (8)%Z) None None None (Some (u "Bitmap, Primary")))); ((u "2"), (props (Some (u "b")) (Some (u "bcd")) (Some (2)%Z) (Some (8)%Z) (Some (u "nibbles")) (Some (u "01")) None (Some (u "Primary Account Number (PAN)"))))]) in
match decode cpython311 (InBytes (raw [48; 50; 48; 48; 52; 48; 48; 48; 48; 48; 48; 48; 48; 48; 48; 48; 48; 48; 48; 48; 0; 3; 1; 35]%N)) sp1 with
 Ok (dec2, enc3) =>
(eq_ostr (sget (u "2") dec2) (u "123")) && (
(eq_obytes (option_map e_len (sget (u "2") enc3)) (raw [0; 3]%N)) && (
 true ) ) | _ => false end ;
let sp1 := (changed default [((u "p"), (props (Some (u "ascii")) (Some (u "ascii")) (Some (0)%Z) (Some (8)%Z) None None None (Some (u "Bitmap, Primary")))); ((u "2"), (props (Some (u "b")) (Some (u "ascii")) (Some (0)%Z) (Some (3)%Z) (Some (u "nibbles")) (Some (u "01")) None (Some (u "Primary Account Number (PAN)"))))]) in
match decode cpython311 (InBytes (raw [48; 50; 48; 48; 52; 48; 48; 48; 48; 48; 48; 48; 48; 48; 48; 48; 48; 48; 48; 48; 1; 35]%N)) sp1 with
 Ok (dec2, enc3) =>
(eq_ostr (sget (u "2") dec2) (u "123")) && (
(eq_obytes (option_map e_len (sget (u "2") enc3)) (asc "")) && (
 true ) ) | _ => false end ;
let sp1 := (changed default [((u "p"), (props (Some (u "ascii")) (Some (u "ascii")) (Some (0)%Z) (Some (8)%Z) None None None (Some (u "Bitmap, Primary")))); ((u "2"), (props (Some (u "b")) (Some (u "ascii")) (Some (2)%Z) (Some (8)%Z) (Some (u "nibbles")) (Some (u "F1")) None (Some (u "Primary Account Number (PAN)"))))]) in
match decode cpython311 (InBytes (raw [48; 50; 48; 48; 52; 48; 48; 48; 48; 48; 48; 48; 48; 48; 48; 48; 48; 48; 48; 48; 48; 51; 241; 35]%N)) sp1 with
 Ok (dec2, enc3) =>
(eq_ostr (sget (u "2") dec2) (u "123")) && (
(eq_obytes (option_map e_len (sget (u "2") enc3)) (asc "03")) && (
 true ) ) | _ => false end ;
let sp1 := (changed default [((u "p"), (props (Some (u "ascii")) (Some (u "ascii")) (Some (0)%Z) (Some (8)%Z) None None None (Some (u "Bitmap, Primary")))); ((u "2"), (props (Some (u "b")) (Some (u "bcd")) (Some (2)%Z) (Some (8)%Z) (Some (u "nibbles")) (Some (u "F1")) None (Some (u "Primary Account Number (PAN)"))))]) in
match decode cpython311 (InBytes (raw [48; 50; 48; 48; 52; 48; 48; 48; 48; 48; 48; 48; 48; 48; 48; 48; 48; 48; 48; 48; 0; 3; 241; 35]%N)) sp1 with
 Ok (dec2, enc3) =>
(eq_ostr (sget (u "2") dec2) (u "123")) && (
(eq_obytes (option_map e_len (sget (u "2") enc3)) (raw [0; 3]%N)) && (
 true ) ) | _ => false end ;
let sp1 := (changed default [((u "p"), (props (Some (u "ascii")) (Some (u "ascii")) (Some (0)%Z) (Some (8)%Z) None None None (Some (u "Bitmap, Primary")))); ((u "2"), (props (Some (u "b")) (Some (u "ascii")) (Some (0)%Z) (Some (3)%Z) (Some (u "nibbles")) (Some (u "F1")) None (Some (u "Primary Account Number (PAN)"))))]) in
match decode cpython311 (InBytes (raw [48; 50; 48; 48; 52; 48; 48; 48; 48; 48; 48; 48; 48; 48; 48; 48; 48; 48; 48; 48; 241; 35]%N)) sp1 with
 Ok (dec2, enc3) =>
(eq_ostr (sget (u "2") dec2) (u "123")) && (
(eq_obytes (option_map e_len (sget (u "2") enc3)) (asc "")) && (
 true ) ) | _ => false end ] = true.
Proof. vm_compute. reflexivity. Qed.

(** tests/test_nibbles.py:297. *)
Example test_decode_nibbles_right_pad : forallb (fun b => b) [
let sp1 := (changed default [((u "p"), (props (Some (u "ascii")) (Some (u "ascii")) (Some (0)%Z) (Some (8)%Z) None None None (Some (u "Bitmap, Primary")))); ((u "2"), (props (Some (u "b")) (Some (u "ascii")) (Some (2)%Z) (Some (8)%Z) (Some (u "nibbles")) None (Some (u "0")) (Some (u "Primary Account Number (PAN)"))))]) in
match decode cpython311 (InBytes (raw [48; 50; 48; 48; 52; 48; 48; 48; 48; 48; 48; 48; 48; 48; 48; 48; 48; 48; 48; 48; 48; 51; 18; 48]%N)) sp1 with
 Ok (dec2, enc3) =>
(eq_ostr (sget (u "2") dec2) (u "123")) && (
(eq_obytes (option_map e_len (sget (u "2") enc3)) (asc "03")) && (
 true ) ) | _ => false end ;
let sp1 := (changed default [((u "p"), (props (Some (u "ascii")) (Some (u "ascii")) (Some (0)%Z) (Some (8)%Z) None None None (Some (u "Bitmap, Primary")))); ((u "2"), (props (Some (u "b")) (Some (u "bcd")) (Some (2)%Z) (Some (8)%Z) (Some (u "nibbles")) None (Some (u "0")) (Some (u "Primary Account Number (PAN)"))))]) in
match decode cpython311 (InBytes (raw [48; 50; 48; 48; 52; 48; 48; 48; 48; 48; 48; 48; 48; 48; 48; 48; 48; 48; 48; 48; 0; 3; 18; 48]%N)) sp1 with
 Ok (dec2, enc3) =>
(eq_ostr (sget (u "2") dec2) (u "123")) && (
(eq_obytes (option_map e_len (sget (u "2") enc3)) (raw [0; 3]%N)) && (
 true ) ) | _ => false end ;
let sp1 := (changed default [((u "p"), (props (Some (u "ascii")) (Some (u "ascii")) (Some (0)%Z) (Some (8)%Z) None None None (Some (u "Bitmap, Primary")))); ((u "2"), (props (Some (u "b")) (Some (u "ascii")) (Some (0)%Z) (Some (3)%Z) (Some (u "nibbles")) None (Some (u "0")) (Some (u "Primary Account Number (PAN)"))))]) in
match decode cpython311 (InBytes (raw [48; 50; 48; 48; 52; 48; 48; 48; 48; 48; 48; 48; 48; 48; 48; 48; 48; 48; 48; 48; 18; 48]%N)) sp1 with
 Ok (dec2, enc3) =>
(eq_ostr (sget (u "2") dec2) (u "123")) && (
(eq_obytes (option_map e_len (sget (u "2") enc3)) (asc "")) && (
 true ) ) | _ => false end ;
let sp1 := (changed default [((u "p"), (props (Some (u "ascii")) (Some (u "ascii")) (Some (0)%Z) (Some (8)%Z) None None None (Some (u "Bitmap, Primary")))); ((u "2"), (props (Some (u "b")) (Some (u "ascii")) (Some (2)%Z) (Some (8)%Z) (Some (u "nibbles")) None (Some (u "F")) (Some (u "Primary Account Number (PAN)"))))]) in
match decode cpython311 (InBytes (raw [48; 50; 48; 48; 52; 48; 48; 48; 48; 48; 48; 48; 48; 48; 48; 48; 48; 48; 48; 48; 48; 51; 18; 63]%N)) sp1 with
 Ok (dec2, enc3) =>
(eq_ostr (sget (u "2") dec2) (u "123")) && (
(eq_obytes (option_map e_len (sget (u "2") enc3)) (asc "03")) && (
 true ) ) | _ => false end ;
let sp1 := (changed default [((u "p"), (props (Some (u "ascii")) (Some (u "ascii")) (Some (0)%Z) (Some (8)%Z) None None None (Some (u "Bitmap, Primary")))); ((u "2"), (props (Some (u "b")) (Some (u "bcd")) (Some (2)%Z) (Some (8)%Z) (Some (u "nibbles")) None (Some (u "F")) (Some (u "Primary Account Number (PAN)"))))]) in
match decode cpython311 (InBytes (raw [48; 50; 48; 48; 52; 48; 48; 48; 48; 48; 48; 48; 48; 48; 48; 48; 48; 48; 48; 48; 0; 3; 18; 63]%N)) sp1 with
 Ok (dec2, enc3) =>
(eq_ostr (sget (u "2") dec2) (u "123")) && (
(eq_obytes (option_map e_len (sget (u "2") enc3)) (raw [0; 3]%N)) && (
 true ) ) | _ => false end ;
let sp1 := (changed default [((u "p"), (props (Some (u "ascii")) (Some (u "ascii")) (Some (0)%Z) (Some (8)%Z) None None None (Some (u "Bitmap, Primary")))); ((u "2"), (props (Some (u "b")) (Some (u "ascii")) (Some (0)%Z) (Some (3)%Z) (Some (u "nibbles")) None (Some (u "F")) (Some (u "Primary Account Number (PAN)"))))]) in
match decode cpython311 (InBytes (raw [48; 50; 48; 48; 52; 48; 48; 48; 48; 48; 48; 48; 48; 48; 48; 48; 48; 48; 48; 48; 18; 63]%N)) sp1 with
 Ok (dec2, enc3) =>
(eq_ostr (sget (u "2") dec2) (u "123")) && (
(eq_obytes (option_map e_len (sget (u "2") enc3)) (asc "")) && (
 true ) ) | _ => false end ;
let sp1 := (changed default [((u "p"), (props (Some (u "ascii")) (Some (u "ascii")) (Some (0)%Z) (Some (8)%Z) None None None (Some (u "Bitmap, Primary")))); ((u "2"), (props (Some (u "b")) (Some (u "ascii")) (Some (2)%Z) (Some (8)%Z) (Some (u "nibbles")) None (Some (u "01")) (Some (u "Primary Account Number (PAN)"))))]) in
match decode cpython311 (InBytes (raw [48; 50; 48; 48; 52; 48; 48; 48; 48; 48; 48; 48; 48; 48; 48; 48; 48; 48; 48; 48; 48; 51; 18; 48]%N)) sp1 with
 Ok (dec2, enc3) =>
(eq_ostr (sget (u "2") dec2) (u "123")) && (
(eq_obytes (option_map e_len (sget (u "2") enc3)) (asc "03")) && (
 true ) ) | _ => false end ;
let sp1 := (changed default [((u "p"), (props (Some (u "ascii")) (Some (u "ascii")) (Some (0)%Z) (Some (8)%Z) None None None (Some (u "Bitmap, Primary")))); ((u "2"), (props (Some (u "b")) (Some (u "bcd")) (Some (2)%Z) (Some (8)%Z) (Some (u "nibbles")) None (Some (u "01")) (Some (u "Primary Account Number (PAN)"))))]) in
match decode cpython311 (InBytes (raw [48; 50; 48; 48; 52; 48; 48; 48; 48; 48; 48; 48; 48; 48; 48; 48; 48; 48; 48; 48; 0; 3; 18; 48]%N)) sp1 with
 Ok (dec2, enc3) =>
(eq_ostr (sget (u "2") dec2) (u "123")) && (
(eq_obytes (option_map e_len (sget (u "2") enc3)) (raw [0; 3]%N)) && (
 true ) ) | _ => false end ;
let sp1 := (changed default [((u "p"), (props (Some (u "ascii")) (Some (u "ascii")) (Some (0)%Z) (Some (8)%Z) None None None (Some (u "Bitmap, Primary")))); ((u "2"), (props (Some (u "b")) (Some (u "ascii")) (Some (0)%Z) (Some (3)%Z) (Some (u "nibbles")) None (Some (u "01")) (Some (u "Primary Account Number (PAN)"))))]) in
match decode cpython311 (InBytes (raw [48; 50; 48; 48; 52; 48; 48; 48; 48; 48; 48; 48; 48; 48; 48; 48; 48; 48; 48; 48; 18; 48]%N)) sp1 with
 Ok (dec2, enc3) =>
(eq_ostr (sget (u "2") dec2) (u "123")) && (
(eq_obytes (option_map e_len (sget (u "2") enc3)) (asc "")) && (
 true ) ) | _ => false end ;
let sp1 := (changed default [((u "p"), (props (Some (u "ascii")) (Some (u "ascii")) (Some (0)%Z) (Some (8)%Z) None None None (Some (u "Bitmap, Primary")))); ((u "2"), (props (Some (u "b")) (Some (u "ascii")) (Some (2)%Z) (Some (8)%Z) (Some (u "nibbles")) None (Some (u "F1")) (Some (u "Primary Account Number (PAN)"))))]) in
match decode cpython311 (InBytes (raw [48; 50; 48; 48; 52; 48; 48; 48; 48; 48; 48; 48; 48; 48; 48; 48; 48; 48; 48; 48; 48; 51; 18; 63]%N)) sp1 with
 Ok (dec2, enc3) =>
(eq_ostr (sget (u "2") dec2) (u "123")) && (
(eq_obytes (option_map e_len (sget (u "2") enc3)) (asc "03")) && (
 true ) ) | _ => false end ;
let sp1 := (changed default [((u "p"), (props (Some (u "ascii")) (Some (u "ascii")) (Some (0)%Z) (Some (8)%Z) None None None (Some (u "Bitmap, Primary")))); ((u "2"), (props (Some (u "b")) (Some (u "bcd")) (Some (2)%Z) (Some (8)%Z) (Some (u "nibbles")) None (Some (u "F1")) (Some (u "Primary Account Number (PAN)"))))]) in
match decode cpython311 (InBytes (raw [48; 50; 48; 48; 52; 48; 48; 48; 48; 48; 48; 48; 48; 48; 48; 48; 48; 48; 48; 48; 0; 3; 18; 63]%N)) sp1 with
 Ok (dec2, enc3) =>
(eq_ostr (sget (u "2") dec2) (u "123")) && (
(eq_obytes (option_map e_len (sget (u "2") enc3)) (raw [0; 3]%N)) && (
 true ) ) | _ => false end ;
let sp1 := (changed default [((u "p"), (props (Some (u "ascii")) (Some (u "ascii")) (Some (0)%Z) (Some (8)%Z) None None None (Some (u "Bitmap, Primary")))); ((u "2"), (props (Some (u "b")) (Some (u "ascii")) (Some (0)%Z) (Some (3)%Z) (Some (u "nibbles")) None (Some (u "F1")) (Some (u "Primary Account Number (PAN)"))))]) in
match decode cpython311 (InBytes (raw [48; 50; 48; 48; 52; 48; 48; 48; 48; 48; 48; 48; 48; 48; 48; 48; 48; 48; 48; 48; 18; 63]%N)) sp1 with
 Ok (dec2, enc3) =>
(eq_ostr (sget (u "2") dec2) (u "123")) && (
(eq_obytes (option_map e_len (sget (u "2") enc3)) (asc "")) && (
 true ) ) | _ => false end ] = true.
Proof. vm_compute. reflexivity. Qed.

(** tests/test_nibbles.py:323. *)
Example test_decode_nibbles_odd_no_pad : forallb (fun b => b) [
let sp1 := (changed default [((u "p"), (props (Some (u "ascii")) (Some (u "ascii")) (Some (0)%Z) (Some (8)%Z) None None None (Some (u "Bitmap, Primary")))); ((u "2"), (props (Some (u "b")) (Some (u "bcd")) (Some (2)%Z) (Some (8)%Z) (Some (u "nibbles")) None None (Some (u "Primary Account Number (PAN)"))))]) in
match decode cpython311 (InBytes (raw [48; 50; 48; 48; 52; 48; 48; 48; 48; 48; 48; 48; 48; 48; 48; 48; 48; 48; 48; 48; 0; 3; 18; 48]%N)) sp1 with
 Raise (XDecodeError e2) =>
(matches (u "Field data is 4 nibbles, expecting 3: field 2 pos 22") (de_args0 e2)) && (
 true ) | _ => false end ] = true.
Proof. vm_compute. reflexivity. Qed.

(** tests/test_nibbles.py:342. *)
Example test_encode_nibbles_variable_over_max : forallb (fun b => b) [
let sp1 := (changed default [((u "p"), (props (Some (u "ascii")) (Some (u "ascii")) (Some (0)%Z) (Some (8)%Z) None None None (Some (u "Bitmap, Primary")))); ((u "2"), (props (Some (u "ascii")) (Some (u "ascii")) (Some (2)%Z) (Some (4)%Z) (Some (u "nibbles")) None None (Some (u "Primary Account Number (PAN)"))))]) in
match encode cpython311 (ADict [((KStr (u "t")), (VStr (u "0200"))); ((KStr (u "2")), (VStr (u "1234")))]) sp1 with
 (Raise (XEncodeError e2), d3) =>
(matches (u "Field data is 8 nibbles, larger than maximum 4: field 2") (ee_args0 e2)) && (
 true ) | _ => false end ] = true.
Proof. vm_compute. reflexivity. Qed.

(** tests/test_nibbles.py:362. *)
Example test_encode_nibbles_fixed_partial : forallb (fun b => b) [
let sp1 := (changed default [((u "p"), (props (Some (u "ascii")) (Some (u "ascii")) (Some (0)%Z) (Some (8)%Z) None None None (Some (u "Bitmap, Primary")))); ((u "2"), (props (Some (u "ascii")) (Some (u "ascii")) (Some (0)%Z) (Some (4)%Z) (Some (u "nibbles")) None None (Some (u "Primary Account Number (PAN)"))))]) in
match encode cpython311 (ADict [((KStr (u "t")), (VStr (u "0200"))); ((KStr (u "2")), (VStr (u "1")))]) sp1 with
 (Raise (XEncodeError e2), d3) =>
(matches (u "Field data is 2 nibbles, expecting 4: field 2") (ee_args0 e2)) && (
 true ) | _ => false end ] = true.
Proof. vm_compute. reflexivity. Qed.

(** tests/test_nibbles.py:382. *)
Example test_encode_nibbles_fixed_missing : forallb (fun b => b) [
let sp1 := (changed default [((u "p"), (props (Some (u "ascii")) (Some (u "ascii")) (Some (0)%Z) (Some (8)%Z) None None None (Some (u "Bitmap, Primary")))); ((u "2"), (props (Some (u "ascii")) (Some (u "ascii")) (Some (0)%Z) (Some (4)%Z) (Some (u "nibbles")) None None (Some (u "Primary Account Number (PAN)"))))]) in
match encode cpython311 (ADict [((KStr (u "t")), (VStr (u "0200"))); ((KStr (u "2")), (VStr (u "")))]) sp1 with
 (Raise (XEncodeError e2), d3) =>
(matches (u "Field data is 0 nibbles, expecting 4: field 2") (ee_args0 e2)) && (
 true ) | _ => false end ] = true.
Proof. vm_compute. reflexivity. Qed.

(** tests/test_nibbles.py:402. *)
Example test_decode_nibbles_variable_over_max : forallb (fun b => b) [
let sp1 := (changed default [((u "p"), (props (Some (u "ascii")) (Some (u "ascii")) (Some (0)%Z) (Some (8)%Z) None None None (Some (u "Bitmap, Primary")))); ((u "2"), (props (Some (u "ascii")) (Some (u "ascii")) (Some (2)%Z) (Some (4)%Z) (Some (u "nibbles")) None None (Some (u "Primary Account Number (PAN)"))))]) in
match decode cpython311 (InBytes (asc "02004000000000000000081234")) sp1 with
 Raise (XDecodeError e2) =>
(matches (u "Field data is 8 nibbles, larger than maximum 4: field 2 pos 20") (de_args0 e2)) && (
 true ) | _ => false end ] = true.
Proof. vm_compute. reflexivity. Qed.

(** tests/test_nibbles.py:422. *)
Example test_decode_nibbles_variable_partial : forallb (fun b => b) [
let sp1 := (changed default [((u "p"), (props (Some (u "ascii")) (Some (u "ascii")) (Some (0)%Z) (Some (8)%Z) None None None (Some (u "Bitmap, Primary")))); ((u "2"), (props (Some (u "ascii")) (Some (u "ascii")) (Some (2)%Z) (Some (4)%Z) (Some (u "nibbles")) None None (Some (u "Primary Account Number (PAN)"))))]) in
match decode cpython311 (InBytes (asc "02004000000000000000041")) sp1 with
 Raise (XDecodeError e2) =>
(matches (u "Field data is 2 nibbles, expecting 4: field 2 pos 22") (de_args0 e2)) && (
 true ) | _ => false end ] = true.
Proof. vm_compute. reflexivity. Qed.

(** tests/test_nibbles.py:442. *)
Example test_decode_nibbles_variable_missing : forallb (fun b => b) [
let sp1 := (changed default [((u "p"), (props (Some (u "ascii")) (Some (u "ascii")) (Some (0)%Z) (Some (8)%Z) None None None (Some (u "Bitmap, Primary")))); ((u "2"), (props (Some (u "ascii")) (Some (u "ascii")) (Some (2)%Z) (Some (4)%Z) (Some (u "nibbles")) None None (Some (u "Primary Account Number (PAN)"))))]) in
match decode cpython311 (InBytes (asc "0200400000000000000004")) sp1 with
 Raise (XDecodeError e2) =>
(matches (u "Field data is 0 nibbles, expecting 4: field 2 pos 22") (de_args0 e2)) && (
 true ) | _ => false end ] = true.
Proof. vm_compute. reflexivity. Qed.

(** tests/test_nibbles.py:462. *)
Example test_decode_nibbles_fixed_partial : forallb (fun b => b) [
let sp1 := (changed default [((u "p"), (props (Some (u "ascii")) (Some (u "ascii")) (Some (0)%Z) (Some (8)%Z) None None None (Some (u "Bitmap, Primary")))); ((u "2"), (props (Some (u "ascii")) (Some (u "ascii")) (Some (0)%Z) (Some (4)%Z) (Some (u "nibbles")) None None (Some (u "Primary Account Number (PAN)"))))]) in
match decode cpython311 (InBytes (asc "020040000000000000001")) sp1 with
 Raise (XDecodeError e2) =>
(matches (u "Field data is 2 nibbles, expecting 4: field 2 pos 20") (de_args0 e2)) && (
 true ) | _ => false end ] = true.
Proof. vm_compute. reflexivity. Qed.

(** tests/test_nibbles.py:482. *)
Example test_decode_nibbles_fixed_missing : forallb (fun b => b) [
let sp1 := (changed default [((u "p"), (props (Some (u "ascii")) (Some (u "ascii")) (Some (0)%Z) (Some (8)%Z) None None None (Some (u "Bitmap, Primary")))); ((u "2"), (props (Some (u "ascii")) (Some (u "ascii")) (Some (0)%Z) (Some (4)%Z) (Some (u "nibbles")) None None (Some (u "Primary Account Number (PAN)"))))]) in
match decode cpython311 (InBytes (asc "02004000000000000000")) sp1 with
 Raise (XDecodeError e2) =>
(matches (u "Field data is 0 nibbles, expecting 4: field 2 pos 20") (de_args0 e2)) && (
 true ) | _ => false end ] = true.
Proof. vm_compute. reflexivity. Qed.

(** tests/test_tools.py:10. *)
Example test_pp : forallb (fun b => b) [
let sp2 := (changed default [((u "h"), (props (Some (u "ascii")) (Some (u "ascii")) (Some (0)%Z) (Some (6)%Z) None None None (Some (u "Message Header"))))]) in
match pp cpython311 [] sp2 (30)%Z (80)%Z with
 (Ok tt, out1) =>
(eq_ostr (nth_error (split_lines out1) 0) (u "")) && (
(eq_nat (length (split_lines out1)) 1) && (
match encode cpython311 (ADict [((KStr (u "h")), (VStr (u "header"))); ((KStr (u "t")), (VStr (u "0200"))); ((KStr (u "2")), (VStr (u "12345678"))); ((KStr (u "44")), (VStr (u "123"))); ((KStr (u "123")), (VStr (u "123")))]) sp2 with
 (Ok (s3, enc4), d5) =>
match pp cpython311 (show_dict (fun _ => []) d5) sp2 (30)%Z (80)%Z with
 (Ok tt, out6) =>
(eq_ostr (nth_error (split_lines out6) 0) (u "h   Message Header                : 'header'")) && (
(eq_ostr (nth_error (split_lines out6) 1) (u "t   Message Type                  : '0200'")) && (
(eq_ostr (nth_error (split_lines out6) 2) (u "p   Bitmap, Primary               : 'C000000000100000'")) && (
(eq_ostr (nth_error (split_lines out6) 3) (u "1   Bitmap, Secondary             : '0000000000000020'")) && (
(eq_ostr (nth_error (split_lines out6) 4) (u "2   Primary Account Number (PAN)  : '12345678'")) && (
(eq_ostr (nth_error (split_lines out6) 5) (u "44  Additional Response Data      : '123'")) && (
(eq_ostr (nth_error (split_lines out6) 6) (u "123 Reserved for Private Use      : '123'")) && (
(eq_ostr (nth_error (split_lines out6) 7) (u "")) && (
(eq_nat (length (split_lines out6)) 8) && (
match pp cpython311 (show_enc enc4) sp2 (30)%Z (80)%Z with
 (Ok tt, out7) =>
(eq_ostr (nth_error (split_lines out7) 0) (u "h   Message Header                : b'header'")) && (
(eq_ostr (nth_error (split_lines out7) 1) (u "t   Message Type                  : b'0200'")) && (
(eq_ostr (nth_error (split_lines out7) 2) (u "p   Bitmap, Primary               : b'\xc0\x00\x00\x00\x00\x10\x00\x00'")) && (
(eq_ostr (nth_error (split_lines out7) 3) (u "1   Bitmap, Secondary             : b'\x00\x00\x00\x00\x00\x00\x00 '")) && (
(eq_ostr (nth_error (split_lines out7) 4) (u "2   Primary Account Number (PAN)  : b'08' b'12345678'")) && (
(eq_ostr (nth_error (split_lines out7) 5) (u "44  Additional Response Data      : b'03' b'123'")) && (
(eq_ostr (nth_error (split_lines out7) 6) (u "123 Reserved for Private Use      : b'003' b'123'")) && (
(eq_ostr (nth_error (split_lines out7) 7) (u "")) && (
(eq_nat (length (split_lines out7)) 8) && (
 true ) ) ) ) ) ) ) ) ) | _ => false end ) ) ) ) ) ) ) ) ) | _ => false end | _ => false end ) ) | _ => false end ] = true.
Proof. vm_compute. reflexivity. Qed.

(** tests/test_tools.py:60. *)
Example test_pp_variable_header : forallb (fun b => b) [
let sp1 := (changed default [((u "h"), (props (Some (u "ascii")) (Some (u "ascii")) (Some (2)%Z) (Some (6)%Z) None None None (Some (u "Message Header"))))]) in
match encode cpython311 (ADict [((KStr (u "h")), (VStr (u "header"))); ((KStr (u "t")), (VStr (u "0200"))); ((KStr (u "2")), (VStr (u "12345678"))); ((KStr (u "44")), (VStr (u "123"))); ((KStr (u "123")), (VStr (u "123")))]) sp1 with
 (Ok (s2, enc3), d4) =>
match pp cpython311 (show_dict (fun _ => []) d4) sp1 (30)%Z (80)%Z with
 (Ok tt, out5) =>
(eq_ostr (nth_error (split_lines out5) 0) (u "h   Message Header                : 'header'")) && (
(eq_ostr (nth_error (split_lines out5) 1) (u "t   Message Type                  : '0200'")) && (
(eq_ostr (nth_error (split_lines out5) 2) (u "p   Bitmap, Primary               : 'C000000000100000'")) && (
(eq_ostr (nth_error (split_lines out5) 3) (u "1   Bitmap, Secondary             : '0000000000000020'")) && (
(eq_ostr (nth_error (split_lines out5) 4) (u "2   Primary Account Number (PAN)  : '12345678'")) && (
(eq_ostr (nth_error (split_lines out5) 5) (u "44  Additional Response Data      : '123'")) && (
(eq_ostr (nth_error (split_lines out5) 6) (u "123 Reserved for Private Use      : '123'")) && (
(eq_ostr (nth_error (split_lines out5) 7) (u "")) && (
(eq_nat (length (split_lines out5)) 8) && (
match pp cpython311 (show_enc enc3) sp1 (30)%Z (80)%Z with
 (Ok tt, out6) =>
(eq_ostr (nth_error (split_lines out6) 0) (u "h   Message Header                : b'06' b'header'")) && (
(eq_ostr (nth_error (split_lines out6) 1) (u "t   Message Type                  : b'0200'")) && (
(eq_ostr (nth_error (split_lines out6) 2) (u "p   Bitmap, Primary               : b'\xc0\x00\x00\x00\x00\x10\x00\x00'")) && (
(eq_ostr (nth_error (split_lines out6) 3) (u "1   Bitmap, Secondary             : b'\x00\x00\x00\x00\x00\x00\x00 '")) && (
(eq_ostr (nth_error (split_lines out6) 4) (u "2   Primary Account Number (PAN)  : b'08' b'12345678'")) && (
(eq_ostr (nth_error (split_lines out6) 5) (u "44  Additional Response Data      : b'03' b'123'")) && (
(eq_ostr (nth_error (split_lines out6) 6) (u "123 Reserved for Private Use      : b'003' b'123'")) && (
(eq_ostr (nth_error (split_lines out6) 7) (u "")) && (
(eq_nat (length (split_lines out6)) 8) && (
match encode cpython311 (ADict (pset (KStr (u "h")) (VStr (u "")) d4)) sp1 with
 (Ok (s7, enc8), d9) =>
match pp cpython311 (show_dict (fun _ => []) d9) sp1 (30)%Z (80)%Z with
 (Ok tt, out10) =>
(eq_ostr (nth_error (split_lines out10) 0) (u "h   Message Header                : ''")) && (
(eq_ostr (nth_error (split_lines out10) 1) (u "t   Message Type                  : '0200'")) && (
(eq_ostr (nth_error (split_lines out10) 2) (u "p   Bitmap, Primary               : 'C000000000100000'")) && (
(eq_ostr (nth_error (split_lines out10) 3) (u "1   Bitmap, Secondary             : '0000000000000020'")) && (
(eq_ostr (nth_error (split_lines out10) 4) (u "2   Primary Account Number (PAN)  : '12345678'")) && (
(eq_ostr (nth_error (split_lines out10) 5) (u "44  Additional Response Data      : '123'")) && (
(eq_ostr (nth_error (split_lines out10) 6) (u "123 Reserved for Private Use      : '123'")) && (
(eq_ostr (nth_error (split_lines out10) 7) (u "")) && (
(eq_nat (length (split_lines out10)) 8) && (
match pp cpython311 (show_enc enc8) sp1 (30)%Z (80)%Z with
 (Ok tt, out11) =>
(eq_ostr (nth_error (split_lines out11) 0) (u "h   Message Header                : b'00' b''")) && (
(eq_ostr (nth_error (split_lines out11) 1) (u "t   Message Type                  : b'0200'")) && (
(eq_ostr (nth_error (split_lines out11) 2) (u "p   Bitmap, Primary               : b'\xc0\x00\x00\x00\x00\x10\x00\x00'")) && (
(eq_ostr (nth_error (split_lines out11) 3) (u "1   Bitmap, Secondary             : b'\x00\x00\x00\x00\x00\x00\x00 '")) && (
(eq_ostr (nth_error (split_lines out11) 4) (u "2   Primary Account Number (PAN)  : b'08' b'12345678'")) && (
(eq_ostr (nth_error (split_lines out11) 5) (u "44  Additional Response Data      : b'03' b'123'")) && (
(eq_ostr (nth_error (split_lines out11) 6) (u "123 Reserved for Private Use      : b'003' b'123'")) && (
(eq_ostr (nth_error (split_lines out11) 7) (u "")) && (
(eq_nat (length (split_lines out11)) 8) && (
 true ) ) ) ) ) ) ) ) ) | _ => false end ) ) ) ) ) ) ) ) ) | _ => false end | _ => false end ) ) ) ) ) ) ) ) ) | _ => false end ) ) ) ) ) ) ) ) ) | _ => false end | _ => false end ] = true.
Proof. vm_compute. reflexivity. Qed.

(** tests/test_tools.py:130. *)
Example test_pp_stream : forallb (fun b => b) [
let sp1 := (changed default [((u "h"), (props (Some (u "ascii")) (Some (u "ascii")) (Some (0)%Z) (Some (6)%Z) None None None (Some (u "Message Header"))))]) in
match encode cpython311 (ADict [((KStr (u "h")), (VStr (u "header"))); ((KStr (u "t")), (VStr (u "0200"))); ((KStr (u "2")), (VStr (u "12345678"))); ((KStr (u "44")), (VStr (u "123"))); ((KStr (u "123")), (VStr (u "123")))]) sp1 with
 (Ok (s2, enc3), d4) =>
match pp cpython311 (show_dict (fun _ => []) d4) sp1 (30)%Z (80)%Z with
 (Ok tt, out5) =>
(eq_ostr (nth_error (split_lines out5) 0) (u "h   Message Header                : 'header'")) && (
(eq_ostr (nth_error (split_lines out5) 1) (u "t   Message Type                  : '0200'")) && (
(eq_ostr (nth_error (split_lines out5) 2) (u "p   Bitmap, Primary               : 'C000000000100000'")) && (
(eq_ostr (nth_error (split_lines out5) 3) (u "1   Bitmap, Secondary             : '0000000000000020'")) && (
(eq_ostr (nth_error (split_lines out5) 4) (u "2   Primary Account Number (PAN)  : '12345678'")) && (
(eq_ostr (nth_error (split_lines out5) 5) (u "44  Additional Response Data      : '123'")) && (
(eq_ostr (nth_error (split_lines out5) 6) (u "123 Reserved for Private Use      : '123'")) && (
(eq_ostr (nth_error (split_lines out5) 7) (u "")) && (
(eq_nat (length (split_lines out5)) 8) && (
match pp cpython311 (show_enc enc3) sp1 (30)%Z (80)%Z with
 (Ok tt, out6) =>
(eq_ostr (nth_error (split_lines out6) 0) (u "h   Message Header                : b'header'")) && (
(eq_ostr (nth_error (split_lines out6) 1) (u "t   Message Type                  : b'0200'")) && (
(eq_ostr (nth_error (split_lines out6) 2) (u "p   Bitmap, Primary               : b'\xc0\x00\x00\x00\x00\x10\x00\x00'")) && (
(eq_ostr (nth_error (split_lines out6) 3) (u "1   Bitmap, Secondary             : b'\x00\x00\x00\x00\x00\x00\x00 '")) && (
(eq_ostr (nth_error (split_lines out6) 4) (u "2   Primary Account Number (PAN)  : b'08' b'12345678'")) && (
(eq_ostr (nth_error (split_lines out6) 5) (u "44  Additional Response Data      : b'03' b'123'")) && (
(eq_ostr (nth_error (split_lines out6) 6) (u "123 Reserved for Private Use      : b'003' b'123'")) && (
(eq_ostr (nth_error (split_lines out6) 7) (u "")) && (
(eq_nat (length (split_lines out6)) 8) && (
 true ) ) ) ) ) ) ) ) ) | _ => false end ) ) ) ) ) ) ) ) ) | _ => false end | _ => false end ] = true.
Proof. vm_compute. reflexivity. Qed.

(** tests/test_tools.py:171. *)
Example test_pp_optional_fields : forallb (fun b => b) [
let sp2 := (changed default [((u "h"), (props (Some (u "ascii")) (Some (u "ascii")) (Some (0)%Z) (Some (6)%Z) None None None (Some (u "Message Header"))))]) in
match pp cpython311 [] sp2 (30)%Z (80)%Z with
 (Ok tt, out1) =>
(eq_ostr (nth_error (split_lines out1) 0) (u "")) && (
(eq_nat (length (split_lines out1)) 1) && (
match pp cpython311 [((KStr (u "h")), (PObj (OStr (u "header"))))] sp2 (30)%Z (80)%Z with
 (Ok tt, out3) =>
(eq_ostr (nth_error (split_lines out3) 0) (u "h   Message Header                : 'header'")) && (
(eq_ostr (nth_error (split_lines out3) 1) (u "")) && (
(eq_nat (length (split_lines out3)) 2) && (
match pp cpython311 [((KStr (u "h")), (PObj (OStr (u "header")))); ((KStr (u "t")), (PObj (OStr (u "0200"))))] sp2 (30)%Z (80)%Z with
 (Ok tt, out4) =>
(eq_ostr (nth_error (split_lines out4) 0) (u "h   Message Header                : 'header'")) && (
(eq_ostr (nth_error (split_lines out4) 1) (u "t   Message Type                  : '0200'")) && (
(eq_ostr (nth_error (split_lines out4) 2) (u "")) && (
(eq_nat (length (split_lines out4)) 3) && (
match pp cpython311 [((KStr (u "h")), (PObj (OStr (u "header")))); ((KStr (u "t")), (PObj (OStr (u "0200")))); ((KStr (u "2")), (PObj (OStr (u "12345678"))))] sp2 (30)%Z (80)%Z with
 (Ok tt, out5) =>
(eq_ostr (nth_error (split_lines out5) 0) (u "h   Message Header                : 'header'")) && (
(eq_ostr (nth_error (split_lines out5) 1) (u "t   Message Type                  : '0200'")) && (
(eq_ostr (nth_error (split_lines out5) 2) (u "2   Primary Account Number (PAN)  : '12345678'")) && (
(eq_ostr (nth_error (split_lines out5) 3) (u "")) && (
(eq_nat (length (split_lines out5)) 4) && (
match encode cpython311 (ADict [((KStr (u "h")), (VStr (u "header"))); ((KStr (u "t")), (VStr (u "0200"))); ((KStr (u "123")), (VStr (u "123")))]) sp2 with
 (Ok (s6, enc7), d8) =>
match pp cpython311 (show_dict (fun _ => []) d8) sp2 (30)%Z (80)%Z with
 (Ok tt, out9) =>
(eq_ostr (nth_error (split_lines out9) 0) (u "h   Message Header                : 'header'")) && (
(eq_ostr (nth_error (split_lines out9) 1) (u "t   Message Type                  : '0200'")) && (
(eq_ostr (nth_error (split_lines out9) 2) (u "p   Bitmap, Primary               : '8000000000000000'")) && (
(eq_ostr (nth_error (split_lines out9) 3) (u "1   Bitmap, Secondary             : '0000000000000020'")) && (
(eq_ostr (nth_error (split_lines out9) 4) (u "123 Reserved for Private Use      : '123'")) && (
(eq_ostr (nth_error (split_lines out9) 5) (u "")) && (
(eq_nat (length (split_lines out9)) 6) && (
match pp cpython311 (show_enc enc7) sp2 (30)%Z (80)%Z with
 (Ok tt, out10) =>
(eq_ostr (nth_error (split_lines out10) 0) (u "h   Message Header                : b'header'")) && (
(eq_ostr (nth_error (split_lines out10) 1) (u "t   Message Type                  : b'0200'")) && (
(eq_ostr (nth_error (split_lines out10) 2) (u "p   Bitmap, Primary               : b'\x80\x00\x00\x00\x00\x00\x00\x00'")) && (
(eq_ostr (nth_error (split_lines out10) 3) (u "1   Bitmap, Secondary             : b'\x00\x00\x00\x00\x00\x00\x00 '")) && (
(eq_ostr (nth_error (split_lines out10) 4) (u "123 Reserved for Private Use      : b'003' b'123'")) && (
(eq_ostr (nth_error (split_lines out10) 5) (u "")) && (
(eq_nat (length (split_lines out10)) 6) && (
 true ) ) ) ) ) ) ) | _ => false end ) ) ) ) ) ) ) | _ => false end | _ => false end ) ) ) ) ) | _ => false end ) ) ) ) | _ => false end ) ) ) | _ => false end ) ) | _ => false end ] = true.
Proof. vm_compute. reflexivity. Qed.

(** tests/test_tools.py:256. *)
Example test_pp_header_present_but_not_in_spec : forallb (fun b => b) [
match pp cpython311 [] default (30)%Z (80)%Z with
 (Ok tt, out1) =>
(eq_ostr (nth_error (split_lines out1) 0) (u "")) && (
(eq_nat (length (split_lines out1)) 1) && (
match pp cpython311 [((KStr (u "h")), (PObj (OStr (u "header"))))] default (30)%Z (80)%Z with
 (Ok tt, out2) =>
(eq_ostr (nth_error (split_lines out2) 0) (u "")) && (
(eq_nat (length (split_lines out2)) 1) && (
match pp cpython311 [((KStr (u "h")), (PObj (OStr (u "header")))); ((KStr (u "t")), (PObj (OStr (u "0200"))))] default (30)%Z (80)%Z with
 (Ok tt, out3) =>
(eq_ostr (nth_error (split_lines out3) 0) (u "t   Message Type                  : '0200'")) && (
(eq_ostr (nth_error (split_lines out3) 1) (u "")) && (
(eq_nat (length (split_lines out3)) 2) && (
 true ) ) ) | _ => false end ) ) | _ => false end ) ) | _ => false end] = true.
Proof. vm_compute. reflexivity. Qed.

(** tests/test_tools.py:295. *)
Example test_pp_no_desc : forallb (fun b => b) [
match encode cpython311 (ADict [((KStr (u "t")), (VStr (u "0200"))); ((KStr (u "2")), (VStr (u "12345678"))); ((KStr (u "44")), (VStr (u "123"))); ((KStr (u "123")), (VStr (u "123")))]) default with
 (Ok (s1, enc2), d3) =>
match pp cpython311 (show_dict (fun _ => []) d3) default (0)%Z (80)%Z with
 (Ok tt, out4) =>
(eq_ostr (nth_error (split_lines out4) 0) (u "t  : '0200'")) && (
(eq_ostr (nth_error (split_lines out4) 1) (u "p  : 'C000000000100000'")) && (
(eq_ostr (nth_error (split_lines out4) 2) (u "1  : '0000000000000020'")) && (
(eq_ostr (nth_error (split_lines out4) 3) (u "2  : '12345678'")) && (
(eq_ostr (nth_error (split_lines out4) 4) (u "44 : '123'")) && (
(eq_ostr (nth_error (split_lines out4) 5) (u "123: '123'")) && (
(eq_ostr (nth_error (split_lines out4) 6) (u "")) && (
(eq_nat (length (split_lines out4)) 7) && (
match pp cpython311 (show_enc enc2) default (0)%Z (80)%Z with
 (Ok tt, out5) =>
(eq_ostr (nth_error (split_lines out5) 0) (u "t  : b'0200'")) && (
(eq_ostr (nth_error (split_lines out5) 1) (u "p  : b'\xc0\x00\x00\x00\x00\x10\x00\x00'")) && (
(eq_ostr (nth_error (split_lines out5) 2) (u "1  : b'\x00\x00\x00\x00\x00\x00\x00 '")) && (
(eq_ostr (nth_error (split_lines out5) 3) (u "2  : b'08' b'12345678'")) && (
(eq_ostr (nth_error (split_lines out5) 4) (u "44 : b'03' b'123'")) && (
(eq_ostr (nth_error (split_lines out5) 5) (u "123: b'003' b'123'")) && (
(eq_ostr (nth_error (split_lines out5) 6) (u "")) && (
(eq_nat (length (split_lines out5)) 7) && (
 true ) ) ) ) ) ) ) ) | _ => false end ) ) ) ) ) ) ) ) | _ => false end | _ => false end] = true.
Proof. vm_compute. reflexivity. Qed.

(** tests/test_tools.py:334. *)
Example test_pp_folding : forallb (fun b => b) [
match encode cpython311 (ADict [((KStr (u "t")), (VStr (u "0200"))); ((KStr (u "123")), (VStr (u "123456789012345678901234567890123456789012345678901234567890")))]) default with
 (Ok (s1, enc2), d3) =>
match pp cpython311 (show_dict (fun _ => []) d3) default (30)%Z (80)%Z with
 (Ok tt, out4) =>
(eq_ostr (nth_error (split_lines out4) 0) (u "t   Message Type                  : '0200'")) && (
(eq_ostr (nth_error (split_lines out4) 1) (u "p   Bitmap, Primary               : '8000000000000000'")) && (
(eq_ostr (nth_error (split_lines out4) 2) (u "1   Bitmap, Secondary             : '0000000000000020'")) && (
(eq_ostr (nth_error (split_lines out4) 3) (u "123 Reserved for Private Use      : '123456789012345678901234567890123456789012'")) && (
(eq_ostr (nth_error (split_lines out4) 4) (u "                                    '345678901234567890'")) && (
(eq_ostr (nth_error (split_lines out4) 5) (u "")) && (
(eq_nat (length (split_lines out4)) 6) && (
match pp cpython311 (show_enc enc2) default (30)%Z (80)%Z with
 (Ok tt, out5) =>
(eq_ostr (nth_error (split_lines out5) 0) (u "t   Message Type                  : b'0200'")) && (
(eq_ostr (nth_error (split_lines out5) 1) (u "p   Bitmap, Primary               : b'\x80\x00\x00\x00\x00\x00\x00\x00'")) && (
(eq_ostr (nth_error (split_lines out5) 2) (u "1   Bitmap, Secondary             : b'\x00\x00\x00\x00\x00\x00\x00 '")) && (
(eq_ostr (nth_error (split_lines out5) 3) (u "123 Reserved for Private Use      : b'060' b'1234567890123456789012345678901234'")) && (
(eq_ostr (nth_error (split_lines out5) 4) (u "                                           b'56789012345678901234567890'")) && (
(eq_ostr (nth_error (split_lines out5) 5) (u "")) && (
(eq_nat (length (split_lines out5)) 6) && (
match pp cpython311 (show_dict (fun _ => []) d3) default (30)%Z (60)%Z with
 (Ok tt, out6) =>
(eq_ostr (nth_error (split_lines out6) 0) (u "t   Message Type                  : '0200'")) && (
(eq_ostr (nth_error (split_lines out6) 1) (u "p   Bitmap, Primary               : '8000000000000000'")) && (
(eq_ostr (nth_error (split_lines out6) 2) (u "1   Bitmap, Secondary             : '0000000000000020'")) && (
(eq_ostr (nth_error (split_lines out6) 3) (u "123 Reserved for Private Use      : '1234567890123456789012'")) && (
(eq_ostr (nth_error (split_lines out6) 4) (u "                                    '3456789012345678901234'")) && (
(eq_ostr (nth_error (split_lines out6) 5) (u "                                    '5678901234567890'")) && (
(eq_ostr (nth_error (split_lines out6) 6) (u "")) && (
(eq_nat (length (split_lines out6)) 7) && (
match pp cpython311 (show_enc enc2) default (30)%Z (60)%Z with
 (Ok tt, out7) =>
(eq_ostr (nth_error (split_lines out7) 0) (u "t   Message Type                  : b'0200'")) && (
(eq_ostr (nth_error (split_lines out7) 1) (u "p   Bitmap, Primary               : b'\x80\x00\x00\x00\x00'")) && (
(eq_ostr (nth_error (split_lines out7) 2) (u "                                    b'\x00\x00\x00'")) && (
(eq_ostr (nth_error (split_lines out7) 3) (u "1   Bitmap, Secondary             : b'\x00\x00\x00\x00\x00'")) && (
(eq_ostr (nth_error (split_lines out7) 4) (u "                                    b'\x00\x00 '")) && (
(eq_ostr (nth_error (split_lines out7) 5) (u "123 Reserved for Private Use      : b'060' b'12345678901234'")) && (
(eq_ostr (nth_error (split_lines out7) 6) (u "                                           b'56789012345678'")) && (
(eq_ostr (nth_error (split_lines out7) 7) (u "                                           b'90123456789012'")) && (
(eq_ostr (nth_error (split_lines out7) 8) (u "                                           b'34567890123456'")) && (
(eq_ostr (nth_error (split_lines out7) 9) (u "                                           b'7890'")) && (
(eq_ostr (nth_error (split_lines out7) 10) (u "")) && (
(eq_nat (length (split_lines out7)) 11) && (
match pp cpython311 (show_dict (fun _ => []) d3) default (30)%Z (68)%Z with
 (Ok tt, out8) =>
(eq_ostr (nth_error (split_lines out8) 0) (u "t   Message Type                  : '0200'")) && (
(eq_ostr (nth_error (split_lines out8) 1) (u "p   Bitmap, Primary               : '8000000000000000'")) && (
(eq_ostr (nth_error (split_lines out8) 2) (u "1   Bitmap, Secondary             : '0000000000000020'")) && (
(eq_ostr (nth_error (split_lines out8) 3) (u "123 Reserved for Private Use      : '123456789012345678901234567890'")) && (
(eq_ostr (nth_error (split_lines out8) 4) (u "                                    '123456789012345678901234567890'")) && (
(eq_ostr (nth_error (split_lines out8) 5) (u "")) && (
(eq_nat (length (split_lines out8)) 6) && (
match pp cpython311 (show_enc enc2) default (30)%Z (61)%Z with
 (Ok tt, out9) =>
(eq_ostr (nth_error (split_lines out9) 0) (u "t   Message Type                  : b'0200'")) && (
(eq_ostr (nth_error (split_lines out9) 1) (u "p   Bitmap, Primary               : b'\x80\x00\x00\x00\x00'")) && (
(eq_ostr (nth_error (split_lines out9) 2) (u "                                    b'\x00\x00\x00'")) && (
(eq_ostr (nth_error (split_lines out9) 3) (u "1   Bitmap, Secondary             : b'\x00\x00\x00\x00\x00'")) && (
(eq_ostr (nth_error (split_lines out9) 4) (u "                                    b'\x00\x00 '")) && (
(eq_ostr (nth_error (split_lines out9) 5) (u "123 Reserved for Private Use      : b'060' b'123456789012345'")) && (
(eq_ostr (nth_error (split_lines out9) 6) (u "                                           b'678901234567890'")) && (
(eq_ostr (nth_error (split_lines out9) 7) (u "                                           b'123456789012345'")) && (
(eq_ostr (nth_error (split_lines out9) 8) (u "                                           b'678901234567890'")) && (
(eq_ostr (nth_error (split_lines out9) 9) (u "")) && (
(eq_nat (length (split_lines out9)) 10) && (
match encode cpython311 (ADict [((KStr (u "t")), (VStr (u "0200"))); ((KStr (u "123")), (VStr (u "12")))]) default with
 (Ok (s10, enc11), d12) =>
match pp cpython311 (show_enc enc11) default (30)%Z (44)%Z with
 (Ok tt, out13) =>
(eq_ostr (nth_error (split_lines out13) 0) (u "t   Message Type                  : b'0200'")) && (
(eq_ostr (nth_error (split_lines out13) 1) (u "p   Bitmap, Primary               : b'\x80'")) && (
(eq_ostr (nth_error (split_lines out13) 2) (u "                                    b'\x00'")) && (
(eq_ostr (nth_error (split_lines out13) 3) (u "                                    b'\x00'")) && (
(eq_ostr (nth_error (split_lines out13) 4) (u "                                    b'\x00'")) && (
(eq_ostr (nth_error (split_lines out13) 5) (u "                                    b'\x00'")) && (
(eq_ostr (nth_error (split_lines out13) 6) (u "                                    b'\x00'")) && (
(eq_ostr (nth_error (split_lines out13) 7) (u "                                    b'\x00'")) && (
(eq_ostr (nth_error (split_lines out13) 8) (u "                                    b'\x00'")) && (
(eq_ostr (nth_error (split_lines out13) 9) (u "1   Bitmap, Secondary             : b'\x00'")) && (
(eq_ostr (nth_error (split_lines out13) 10) (u "                                    b'\x00'")) && (
(eq_ostr (nth_error (split_lines out13) 11) (u "                                    b'\x00'")) && (
(eq_ostr (nth_error (split_lines out13) 12) (u "                                    b'\x00'")) && (
(eq_ostr (nth_error (split_lines out13) 13) (u "                                    b'\x00'")) && (
(eq_ostr (nth_error (split_lines out13) 14) (u "                                    b'\x00'")) && (
(eq_ostr (nth_error (split_lines out13) 15) (u "                                    b'\x00 '")) && (
(eq_ostr (nth_error (split_lines out13) 16) (u "123 Reserved for Private Use      : b'002' b'1'")) && (
(eq_ostr (nth_error (split_lines out13) 17) (u "                                           b'2'")) && (
(eq_ostr (nth_error (split_lines out13) 18) (u "")) && (
(eq_nat (length (split_lines out13)) 19) && (
match pp cpython311 (show_dict (fun _ => []) d12) default (30)%Z (37)%Z with
 (Ok tt, out14) =>
(eq_ostr (nth_error (split_lines out14) 0) (u "t   Message Type                  : '0'")) && (
(eq_ostr (nth_error (split_lines out14) 1) (u "                                    '2'")) && (
(eq_ostr (nth_error (split_lines out14) 2) (u "                                    '0'")) && (
(eq_ostr (nth_error (split_lines out14) 3) (u "                                    '0'")) && (
(eq_ostr (nth_error (split_lines out14) 4) (u "p   Bitmap, Primary               : '8'")) && (
(eq_ostr (nth_error (split_lines out14) 5) (u "                                    '0'")) && (
(eq_ostr (nth_error (split_lines out14) 6) (u "                                    '0'")) && (
(eq_ostr (nth_error (split_lines out14) 7) (u "                                    '0'")) && (
(eq_ostr (nth_error (split_lines out14) 8) (u "                                    '0'")) && (
(eq_ostr (nth_error (split_lines out14) 9) (u "                                    '0'")) && (
(eq_ostr (nth_error (split_lines out14) 10) (u "                                    '0'")) && (
(eq_ostr (nth_error (split_lines out14) 11) (u "                                    '0'")) && (
(eq_ostr (nth_error (split_lines out14) 12) (u "                                    '0'")) && (
(eq_ostr (nth_error (split_lines out14) 13) (u "                                    '0'")) && (
(eq_ostr (nth_error (split_lines out14) 14) (u "                                    '0'")) && (
(eq_ostr (nth_error (split_lines out14) 15) (u "                                    '0'")) && (
(eq_ostr (nth_error (split_lines out14) 16) (u "                                    '0'")) && (
(eq_ostr (nth_error (split_lines out14) 17) (u "                                    '0'")) && (
(eq_ostr (nth_error (split_lines out14) 18) (u "                                    '0'")) && (
(eq_ostr (nth_error (split_lines out14) 19) (u "                                    '0'")) && (
(eq_ostr (nth_error (split_lines out14) 20) (u "1   Bitmap, Secondary             : '0'")) && (
(eq_ostr (nth_error (split_lines out14) 21) (u "                                    '0'")) && (
(eq_ostr (nth_error (split_lines out14) 22) (u "                                    '0'")) && (
(eq_ostr (nth_error (split_lines out14) 23) (u "                                    '0'")) && (
(eq_ostr (nth_error (split_lines out14) 24) (u "                                    '0'")) && (
(eq_ostr (nth_error (split_lines out14) 25) (u "                                    '0'")) && (
(eq_ostr (nth_error (split_lines out14) 26) (u "                                    '0'")) && (
(eq_ostr (nth_error (split_lines out14) 27) (u "                                    '0'")) && (
(eq_ostr (nth_error (split_lines out14) 28) (u "                                    '0'")) && (
(eq_ostr (nth_error (split_lines out14) 29) (u "                                    '0'")) && (
(eq_ostr (nth_error (split_lines out14) 30) (u "                                    '0'")) && (
(eq_ostr (nth_error (split_lines out14) 31) (u "                                    '0'")) && (
(eq_ostr (nth_error (split_lines out14) 32) (u "                                    '0'")) && (
(eq_ostr (nth_error (split_lines out14) 33) (u "                                    '0'")) && (
(eq_ostr (nth_error (split_lines out14) 34) (u "                                    '2'")) && (
(eq_ostr (nth_error (split_lines out14) 35) (u "                                    '0'")) && (
(eq_ostr (nth_error (split_lines out14) 36) (u "123 Reserved for Private Use      : '1'")) && (
(eq_ostr (nth_error (split_lines out14) 37) (u "                                    '2'")) && (
(eq_ostr (nth_error (split_lines out14) 38) (u "")) && (
(eq_nat (length (split_lines out14)) 39) && (
match encode cpython311 (ADict [((KStr (u "t")), (VStr (u "0200"))); ((KStr (u "123")), (VStr (u "")))]) default with
 (Ok (s15, enc16), d17) =>
match pp cpython311 (show_enc enc16) default (30)%Z (44)%Z with
 (Ok tt, out18) =>
(eq_ostr (nth_error (split_lines out18) 0) (u "t   Message Type                  : b'0200'")) && (
(eq_ostr (nth_error (split_lines out18) 1) (u "p   Bitmap, Primary               : b'\x80'")) && (
(eq_ostr (nth_error (split_lines out18) 2) (u "                                    b'\x00'")) && (
(eq_ostr (nth_error (split_lines out18) 3) (u "                                    b'\x00'")) && (
(eq_ostr (nth_error (split_lines out18) 4) (u "                                    b'\x00'")) && (
(eq_ostr (nth_error (split_lines out18) 5) (u "                                    b'\x00'")) && (
(eq_ostr (nth_error (split_lines out18) 6) (u "                                    b'\x00'")) && (
(eq_ostr (nth_error (split_lines out18) 7) (u "                                    b'\x00'")) && (
(eq_ostr (nth_error (split_lines out18) 8) (u "                                    b'\x00'")) && (
(eq_ostr (nth_error (split_lines out18) 9) (u "1   Bitmap, Secondary             : b'\x00'")) && (
(eq_ostr (nth_error (split_lines out18) 10) (u "                                    b'\x00'")) && (
(eq_ostr (nth_error (split_lines out18) 11) (u "                                    b'\x00'")) && (
(eq_ostr (nth_error (split_lines out18) 12) (u "                                    b'\x00'")) && (
(eq_ostr (nth_error (split_lines out18) 13) (u "                                    b'\x00'")) && (
(eq_ostr (nth_error (split_lines out18) 14) (u "                                    b'\x00'")) && (
(eq_ostr (nth_error (split_lines out18) 15) (u "                                    b'\x00 '")) && (
(eq_ostr (nth_error (split_lines out18) 16) (u "123 Reserved for Private Use      : b'000' b''")) && (
(eq_ostr (nth_error (split_lines out18) 17) (u "")) && (
(eq_nat (length (split_lines out18)) 18) && (
match pp cpython311 (show_dict (fun _ => []) d17) default (30)%Z (37)%Z with
 (Ok tt, out19) =>
(eq_ostr (nth_error (split_lines out19) 0) (u "t   Message Type                  : '0'")) && (
(eq_ostr (nth_error (split_lines out19) 1) (u "                                    '2'")) && (
(eq_ostr (nth_error (split_lines out19) 2) (u "                                    '0'")) && (
(eq_ostr (nth_error (split_lines out19) 3) (u "                                    '0'")) && (
(eq_ostr (nth_error (split_lines out19) 4) (u "p   Bitmap, Primary               : '8'")) && (
(eq_ostr (nth_error (split_lines out19) 5) (u "                                    '0'")) && (
(eq_ostr (nth_error (split_lines out19) 6) (u "                                    '0'")) && (
(eq_ostr (nth_error (split_lines out19) 7) (u "                                    '0'")) && (
(eq_ostr (nth_error (split_lines out19) 8) (u "                                    '0'")) && (
(eq_ostr (nth_error (split_lines out19) 9) (u "                                    '0'")) && (
(eq_ostr (nth_error (split_lines out19) 10) (u "                                    '0'")) && (
(eq_ostr (nth_error (split_lines out19) 11) (u "                                    '0'")) && (
(eq_ostr (nth_error (split_lines out19) 12) (u "                                    '0'")) && (
(eq_ostr (nth_error (split_lines out19) 13) (u "                                    '0'")) && (
(eq_ostr (nth_error (split_lines out19) 14) (u "                                    '0'")) && (
(eq_ostr (nth_error (split_lines out19) 15) (u "                                    '0'")) && (
(eq_ostr (nth_error (split_lines out19) 16) (u "                                    '0'")) && (
(eq_ostr (nth_error (split_lines out19) 17) (u "                                    '0'")) && (
(eq_ostr (nth_error (split_lines out19) 18) (u "                                    '0'")) && (
(eq_ostr (nth_error (split_lines out19) 19) (u "                                    '0'")) && (
(eq_ostr (nth_error (split_lines out19) 20) (u "1   Bitmap, Secondary             : '0'")) && (
(eq_ostr (nth_error (split_lines out19) 21) (u "                                    '0'")) && (
(eq_ostr (nth_error (split_lines out19) 22) (u "                                    '0'")) && (
(eq_ostr (nth_error (split_lines out19) 23) (u "                                    '0'")) && (
(eq_ostr (nth_error (split_lines out19) 24) (u "                                    '0'")) && (
(eq_ostr (nth_error (split_lines out19) 25) (u "                                    '0'")) && (
(eq_ostr (nth_error (split_lines out19) 26) (u "                                    '0'")) && (
(eq_ostr (nth_error (split_lines out19) 27) (u "                                    '0'")) && (
(eq_ostr (nth_error (split_lines out19) 28) (u "                                    '0'")) && (
(eq_ostr (nth_error (split_lines out19) 29) (u "                                    '0'")) && (
(eq_ostr (nth_error (split_lines out19) 30) (u "                                    '0'")) && (
(eq_ostr (nth_error (split_lines out19) 31) (u "                                    '0'")) && (
(eq_ostr (nth_error (split_lines out19) 32) (u "                                    '0'")) && (
(eq_ostr (nth_error (split_lines out19) 33) (u "                                    '0'")) && (
(eq_ostr (nth_error (split_lines out19) 34) (u "                                    '2'")) && (
(eq_ostr (nth_error (split_lines out19) 35) (u "                                    '0'")) && (
(eq_ostr (nth_error (split_lines out19) 36) (u "123 Reserved for Private Use      : ''")) && (
(eq_ostr (nth_error (split_lines out19) 37) (u "")) && (
(eq_nat (length (split_lines out19)) 38) && (
match encode cpython311 (ADict [((KStr (u "t")), (VStr (u "0200"))); ((KStr (u "123")), (VStr (u "1")))]) default with
 (Ok (s20, enc21), d22) =>
match pp cpython311 (show_enc enc21) default (30)%Z (44)%Z with
 (Ok tt, out23) =>
(eq_ostr (nth_error (split_lines out23) 0) (u "t   Message Type                  : b'0200'")) && (
(eq_ostr (nth_error (split_lines out23) 1) (u "p   Bitmap, Primary               : b'\x80'")) && (
(eq_ostr (nth_error (split_lines out23) 2) (u "                                    b'\x00'")) && (
(eq_ostr (nth_error (split_lines out23) 3) (u "                                    b'\x00'")) && (
(eq_ostr (nth_error (split_lines out23) 4) (u "                                    b'\x00'")) && (
(eq_ostr (nth_error (split_lines out23) 5) (u "                                    b'\x00'")) && (
(eq_ostr (nth_error (split_lines out23) 6) (u "                                    b'\x00'")) && (
(eq_ostr (nth_error (split_lines out23) 7) (u "                                    b'\x00'")) && (
(eq_ostr (nth_error (split_lines out23) 8) (u "                                    b'\x00'")) && (
(eq_ostr (nth_error (split_lines out23) 9) (u "1   Bitmap, Secondary             : b'\x00'")) && (
(eq_ostr (nth_error (split_lines out23) 10) (u "                                    b'\x00'")) && (
(eq_ostr (nth_error (split_lines out23) 11) (u "                                    b'\x00'")) && (
(eq_ostr (nth_error (split_lines out23) 12) (u "                                    b'\x00'")) && (
(eq_ostr (nth_error (split_lines out23) 13) (u "                                    b'\x00'")) && (
(eq_ostr (nth_error (split_lines out23) 14) (u "                                    b'\x00'")) && (
(eq_ostr (nth_error (split_lines out23) 15) (u "                                    b'\x00 '")) && (
(eq_ostr (nth_error (split_lines out23) 16) (u "123 Reserved for Private Use      : b'001' b'1'")) && (
(eq_ostr (nth_error (split_lines out23) 17) (u "")) && (
(eq_nat (length (split_lines out23)) 18) && (
match pp cpython311 (show_dict (fun _ => []) d22) default (30)%Z (37)%Z with
 (Ok tt, out24) =>
(eq_ostr (nth_error (split_lines out24) 0) (u "t   Message Type                  : '0'")) && (
(eq_ostr (nth_error (split_lines out24) 1) (u "                                    '2'")) && (
(eq_ostr (nth_error (split_lines out24) 2) (u "                                    '0'")) && (
(eq_ostr (nth_error (split_lines out24) 3) (u "                                    '0'")) && (
(eq_ostr (nth_error (split_lines out24) 4) (u "p   Bitmap, Primary               : '8'")) && (
(eq_ostr (nth_error (split_lines out24) 5) (u "                                    '0'")) && (
(eq_ostr (nth_error (split_lines out24) 6) (u "                                    '0'")) && (
(eq_ostr (nth_error (split_lines out24) 7) (u "                                    '0'")) && (
(eq_ostr (nth_error (split_lines out24) 8) (u "                                    '0'")) && (
(eq_ostr (nth_error (split_lines out24) 9) (u "                                    '0'")) && (
(eq_ostr (nth_error (split_lines out24) 10) (u "                                    '0'")) && (
(eq_ostr (nth_error (split_lines out24) 11) (u "                                    '0'")) && (
(eq_ostr (nth_error (split_lines out24) 12) (u "                                    '0'")) && (
(eq_ostr (nth_error (split_lines out24) 13) (u "                                    '0'")) && (
(eq_ostr (nth_error (split_lines out24) 14) (u "                                    '0'")) && (
(eq_ostr (nth_error (split_lines out24) 15) (u "                                    '0'")) && (
(eq_ostr (nth_error (split_lines out24) 16) (u "                                    '0'")) && (
(eq_ostr (nth_error (split_lines out24) 17) (u "                                    '0'")) && (
(eq_ostr (nth_error (split_lines out24) 18) (u "                                    '0'")) && (
(eq_ostr (nth_error (split_lines out24) 19) (u "                                    '0'")) && (
(eq_ostr (nth_error (split_lines out24) 20) (u "1   Bitmap, Secondary             : '0'")) && (
(eq_ostr (nth_error (split_lines out24) 21) (u "                                    '0'")) && (
(eq_ostr (nth_error (split_lines out24) 22) (u "                                    '0'")) && (
(eq_ostr (nth_error (split_lines out24) 23) (u "                                    '0'")) && (
(eq_ostr (nth_error (split_lines out24) 24) (u "                                    '0'")) && (
(eq_ostr (nth_error (split_lines out24) 25) (u "                                    '0'")) && (
(eq_ostr (nth_error (split_lines out24) 26) (u "                                    '0'")) && (
(eq_ostr (nth_error (split_lines out24) 27) (u "                                    '0'")) && (
(eq_ostr (nth_error (split_lines out24) 28) (u "                                    '0'")) && (
(eq_ostr (nth_error (split_lines out24) 29) (u "                                    '0'")) && (
(eq_ostr (nth_error (split_lines out24) 30) (u "                                    '0'")) && (
(eq_ostr (nth_error (split_lines out24) 31) (u "                                    '0'")) && (
(eq_ostr (nth_error (split_lines out24) 32) (u "                                    '0'")) && (
(eq_ostr (nth_error (split_lines out24) 33) (u "                                    '0'")) && (
(eq_ostr (nth_error (split_lines out24) 34) (u "                                    '2'")) && (
(eq_ostr (nth_error (split_lines out24) 35) (u "                                    '0'")) && (
(eq_ostr (nth_error (split_lines out24) 36) (u "123 Reserved for Private Use      : '1'")) && (
(eq_ostr (nth_error (split_lines out24) 37) (u "")) && (
(eq_nat (length (split_lines out24)) 38) && (
match encode cpython311 (ADict [((KStr (u "t")), (VStr (u "0200"))); ((KStr (u "123")), (VStr (u "1")))]) default with
 (Ok (s25, enc26), d27) =>
match pp cpython311 (show_enc enc26) default (-99)%Z (-99)%Z with
 (Ok tt, out28) =>
(eq_ostr (nth_error (split_lines out28) 0) (u "t  : b'0'")) && (
(eq_ostr (nth_error (split_lines out28) 1) (u "     b'2'")) && (
(eq_ostr (nth_error (split_lines out28) 2) (u "     b'0'")) && (
(eq_ostr (nth_error (split_lines out28) 3) (u "     b'0'")) && (
(eq_ostr (nth_error (split_lines out28) 4) (u "p  : b'\x80'")) && (
(eq_ostr (nth_error (split_lines out28) 5) (u "     b'\x00'")) && (
(eq_ostr (nth_error (split_lines out28) 6) (u "     b'\x00'")) && (
(eq_ostr (nth_error (split_lines out28) 7) (u "     b'\x00'")) && (
(eq_ostr (nth_error (split_lines out28) 8) (u "     b'\x00'")) && (
(eq_ostr (nth_error (split_lines out28) 9) (u "     b'\x00'")) && (
(eq_ostr (nth_error (split_lines out28) 10) (u "     b'\x00'")) && (
(eq_ostr (nth_error (split_lines out28) 11) (u "     b'\x00'")) && (
(eq_ostr (nth_error (split_lines out28) 12) (u "1  : b'\x00'")) && (
(eq_ostr (nth_error (split_lines out28) 13) (u "     b'\x00'")) && (
(eq_ostr (nth_error (split_lines out28) 14) (u "     b'\x00'")) && (
(eq_ostr (nth_error (split_lines out28) 15) (u "     b'\x00'")) && (
(eq_ostr (nth_error (split_lines out28) 16) (u "     b'\x00'")) && (
(eq_ostr (nth_error (split_lines out28) 17) (u "     b'\x00'")) && (
(eq_ostr (nth_error (split_lines out28) 18) (u "     b'\x00'")) && (
(eq_ostr (nth_error (split_lines out28) 19) (u "     b' '")) && (
(eq_ostr (nth_error (split_lines out28) 20) (u "123: b'001' b'1'")) && (
(eq_ostr (nth_error (split_lines out28) 21) (u "")) && (
(eq_nat (length (split_lines out28)) 22) && (
match pp cpython311 (show_dict (fun _ => []) d27) default (-99)%Z (-99)%Z with
 (Ok tt, out29) =>
(eq_ostr (nth_error (split_lines out29) 0) (u "t  : '0'")) && (
(eq_ostr (nth_error (split_lines out29) 1) (u "     '2'")) && (
(eq_ostr (nth_error (split_lines out29) 2) (u "     '0'")) && (
(eq_ostr (nth_error (split_lines out29) 3) (u "     '0'")) && (
(eq_ostr (nth_error (split_lines out29) 4) (u "p  : '8'")) && (
(eq_ostr (nth_error (split_lines out29) 5) (u "     '0'")) && (
(eq_ostr (nth_error (split_lines out29) 6) (u "     '0'")) && (
(eq_ostr (nth_error (split_lines out29) 7) (u "     '0'")) && (
(eq_ostr (nth_error (split_lines out29) 8) (u "     '0'")) && (
(eq_ostr (nth_error (split_lines out29) 9) (u "     '0'")) && (
(eq_ostr (nth_error (split_lines out29) 10) (u "     '0'")) && (
(eq_ostr (nth_error (split_lines out29) 11) (u "     '0'")) && (
(eq_ostr (nth_error (split_lines out29) 12) (u "     '0'")) && (
(eq_ostr (nth_error (split_lines out29) 13) (u "     '0'")) && (
(eq_ostr (nth_error (split_lines out29) 14) (u "     '0'")) && (
(eq_ostr (nth_error (split_lines out29) 15) (u "     '0'")) && (
(eq_ostr (nth_error (split_lines out29) 16) (u "     '0'")) && (
(eq_ostr (nth_error (split_lines out29) 17) (u "     '0'")) && (
(eq_ostr (nth_error (split_lines out29) 18) (u "     '0'")) && (
(eq_ostr (nth_error (split_lines out29) 19) (u "     '0'")) && (
(eq_ostr (nth_error (split_lines out29) 20) (u "1  : '0'")) && (
(eq_ostr (nth_error (split_lines out29) 21) (u "     '0'")) && (
(eq_ostr (nth_error (split_lines out29) 22) (u "     '0'")) && (
(eq_ostr (nth_error (split_lines out29) 23) (u "     '0'")) && (
(eq_ostr (nth_error (split_lines out29) 24) (u "     '0'")) && (
(eq_ostr (nth_error (split_lines out29) 25) (u "     '0'")) && (
(eq_ostr (nth_error (split_lines out29) 26) (u "     '0'")) && (
(eq_ostr (nth_error (split_lines out29) 27) (u "     '0'")) && (
(eq_ostr (nth_error (split_lines out29) 28) (u "     '0'")) && (
(eq_ostr (nth_error (split_lines out29) 29) (u "     '0'")) && (
(eq_ostr (nth_error (split_lines out29) 30) (u "     '0'")) && (
(eq_ostr (nth_error (split_lines out29) 31) (u "     '0'")) && (
(eq_ostr (nth_error (split_lines out29) 32) (u "     '0'")) && (
(eq_ostr (nth_error (split_lines out29) 33) (u "     '0'")) && (
(eq_ostr (nth_error (split_lines out29) 34) (u "     '2'")) && (
(eq_ostr (nth_error (split_lines out29) 35) (u "     '0'")) && (
(eq_ostr (nth_error (split_lines out29) 36) (u "123: '1'")) && (
(eq_ostr (nth_error (split_lines out29) 37) (u "")) && (
(eq_nat (length (split_lines out29)) 38) && (
 true ) ) ) ) ) ) ) ) ) ) ) ) ) ) ) ) ) ) ) ) ) ) ) ) ) ) ) ) ) ) ) ) ) ) ) ) ) ) ) | _ => false end ) ) ) ) ) ) ) ) ) ) ) ) ) ) ) ) ) ) ) ) ) ) ) | _ => false end | _ => false end ) ) ) ) ) ) ) ) ) ) ) ) ) ) ) ) ) ) ) ) ) ) ) ) ) ) ) ) ) ) ) ) ) ) ) ) ) ) ) | _ => false end ) ) ) ) ) ) ) ) ) ) ) ) ) ) ) ) ) ) ) | _ => false end | _ => false end ) ) ) ) ) ) ) ) ) ) ) ) ) ) ) ) ) ) ) ) ) ) ) ) ) ) ) ) ) ) ) ) ) ) ) ) ) ) ) | _ => false end ) ) ) ) ) ) ) ) ) ) ) ) ) ) ) ) ) ) ) | _ => false end | _ => false end ) ) ) ) ) ) ) ) ) ) ) ) ) ) ) ) ) ) ) ) ) ) ) ) ) ) ) ) ) ) ) ) ) ) ) ) ) ) ) ) | _ => false end ) ) ) ) ) ) ) ) ) ) ) ) ) ) ) ) ) ) ) ) | _ => false end | _ => false end ) ) ) ) ) ) ) ) ) ) ) | _ => false end ) ) ) ) ) ) ) | _ => false end ) ) ) ) ) ) ) ) ) ) ) ) | _ => false end ) ) ) ) ) ) ) ) | _ => false end ) ) ) ) ) ) ) | _ => false end ) ) ) ) ) ) ) | _ => false end | _ => false end] = true.
Proof. vm_compute. reflexivity. Qed.

(** tests/test_tools.py:724. *)
Example test_pp_invalid_types : forallb (fun b => b) [
match pp cpython311 [((KStr (u "t")), (PObj (OOther (Some 4) (u "[1, 2, 3, 4]")))); ((KStr (u "123")), (PObj (OOther (Some 3) (u "{1, 2, 3}"))))] default (30)%Z (80)%Z with
 (Ok tt, out1) =>
(eq_ostr (nth_error (split_lines out1) 0) (u "t   Message Type                  : [1, 2, 3, 4]")) && (
(eq_ostr (nth_error (split_lines out1) 1) (u "123 Reserved for Private Use      : {1, 2, 3}")) && (
(eq_ostr (nth_error (split_lines out1) 2) (u "")) && (
(eq_nat (length (split_lines out1)) 3) && (
match pp cpython311 [((KStr (u "t")), (PObj (OOther (Some 4) (u "[1, 2, 3, 4]")))); ((KStr (u "123")), (PObj (OOther (Some 3) (u "{1, 2, 3}"))))] default (30)%Z (1)%Z with
 (Ok tt, out2) =>
(eq_ostr (nth_error (split_lines out2) 0) (u "t   Message Type                  : [1, 2, 3, 4]")) && (
(eq_ostr (nth_error (split_lines out2) 1) (u "123 Reserved for Private Use      : {1, 2, 3}")) && (
(eq_ostr (nth_error (split_lines out2) 2) (u "")) && (
(eq_nat (length (split_lines out2)) 3) && (
match pp cpython311 [((KStr (u "t")), (PDict None None)); ((KStr (u "1")), (PDict (Some (OBytes (asc "len"))) None)); ((KStr (u "2")), (PDict None (Some (OBytes (asc "data"))))); ((KStr (u "3")), (PDict None None))] default (30)%Z (80)%Z with
 (Ok tt, out3) =>
(eq_ostr (nth_error (split_lines out3) 0) (u "t   Message Type                  : b''")) && (
(eq_ostr (nth_error (split_lines out3) 1) (u "1   Bitmap, Secondary             : b'len' b''")) && (
(eq_ostr (nth_error (split_lines out3) 2) (u "2   Primary Account Number (PAN)  : b'data'")) && (
(eq_ostr (nth_error (split_lines out3) 3) (u "3   Processing Code               : b''")) && (
(eq_ostr (nth_error (split_lines out3) 4) (u "")) && (
(eq_nat (length (split_lines out3)) 5) && (
 true ) ) ) ) ) ) | _ => false end ) ) ) ) | _ => false end ) ) ) ) | _ => false end] = true.
Proof. vm_compute. reflexivity. Qed.

(** tests/test_tools.py:775. *)
Example test_pp_no_yield_on_empty_string : forallb (fun b => b) [
let out1 := [] ++ concat (map (fun _ => [115; 112; 97; 109; 10]%N) (wrap_bytes (asc "") (10)%Z)) in
let out2 := out1 ++ concat (map (fun _ => [101; 103; 103; 115; 10]%N) (wrap_str (u "") (10)%Z)) in
(eq_str out2 (u "")) && (
 true )  ] = true.
Proof. vm_compute. reflexivity. Qed.

(** ** The examples in the documentation. pprint.pp shows a dict in its own order,
    pprint.pprint sorts it. *)
Definition given (d : ddoc) : pdoc := map (fun kv => (KStr (fst kv), VStr (snd kv))) d.
Definition removed (k : pykey) (d : pdoc) : pdoc := filter (fun kv => negb (key_eqb k (fst kv))) d.
Definition same_edoc (a b : edoc) : bool :=
  eq_edoc a b && forallb (fun kk => eq_str (fst (fst kk)) (fst (snd kk))) (combine a b).
Definition same_pdoc (a b : pdoc) : bool :=
  eq_pdoc a b && forallb (fun kk => key_eqb (fst (fst kk)) (fst (snd kk))) (combine a b).

(** README.rst. *)
Example doc_README_rst : (
match decode cpython311 (InBytes (asc "02004000000000000000101234567890")) default_ascii with
 Ok (dec1, enc2) =>
(same_pdoc (given dec1) [((KStr (u "t")), (VStr (u "0200"))); ((KStr (u "p")), (VStr (u "4000000000000000"))); ((KStr (u "2")), (VStr (u "1234567890")))]) && (
(same_edoc enc2 [((u "t"), mkEntry (asc "") (asc "0200")); ((u "p"), mkEntry (asc "") (asc "4000000000000000")); ((u "2"), mkEntry (asc "10") (asc "1234567890"))]) && (
(eq_oval (pget (KStr (u "2")) (pset (KStr (u "t")) (VStr (u "0210")) (given dec1))) (u "1234567890")) && (
match encode cpython311 (ADict (pset (KStr (u "39")) (VStr (u "05")) (removed (KStr (u "2")) (pset (KStr (u "t")) (VStr (u "0210")) (given dec1))))) default_ascii with
 (Ok (s3, enc4), d5) =>
(eq_bytes s3 (asc "0210000000000200000005")) && (
(same_pdoc d5 [((KStr (u "t")), (VStr (u "0210"))); ((KStr (u "p")), (VStr (u "0000000002000000"))); ((KStr (u "39")), (VStr (u "05")))]) && (
(same_edoc enc4 [((u "t"), mkEntry (asc "") (asc "0210")); ((u "p"), mkEntry (asc "") (asc "0000000002000000")); ((u "39"), mkEntry (asc "") (asc "05"))]) && (
match decode cpython311 (InBytes (asc "02004000000000000000101234567890")) default_ascii with
 Ok (dec6, enc7) =>
match pp cpython311 (show_dict (fun _ => []) (given dec6)) default_ascii (30)%Z (80)%Z with
 (Ok tt, out8) =>
(eq_str out8 ((u "t   Message Type                  : '0200'") ++ [10]%N ++ (u "p   Bitmap, Primary               : '4000000000000000'") ++ [10]%N ++ (u "2   Primary Account Number (PAN)  : '1234567890'") ++ [10]%N)) && (
match pp cpython311 (show_enc enc7) default_ascii (30)%Z (80)%Z with
 (Ok tt, out9) =>
(eq_str out9 ((u "t   Message Type                  : b'0200'") ++ [10]%N ++ (u "p   Bitmap, Primary               : b'4000000000000000'") ++ [10]%N ++ (u "2   Primary Account Number (PAN)  : b'10' b'1234567890'") ++ [10]%N)) && (
 true ) | _ => false end ) | _ => false end | _ => false end ) ) ) | _ => false end ) ) ) | _ => false end) = true.
Proof. vm_compute. reflexivity. Qed.

(** docs/index.rst. *)
Example doc_docs_index_rst : (
match decode cpython311 (InBytes (asc "02004000000000000000101234567890")) default_ascii with
 Ok (dec1, enc2) =>
match encode cpython311 (ADict [((KStr (u "t")), (VStr (u "0200"))); ((KStr (u "2")), (VStr (u "1234567890"))); ((KStr (u "39")), (VStr (u "00")))]) default_ascii with
 (Ok (s3, enc4), d5) =>
 true | _ => false end | _ => false end) = true.
Proof. vm_compute. reflexivity. Qed.

(** docs/howto.rst. *)
Example doc_docs_howto_rst : (
match encode cpython311 (ADict [((KStr (u "t")), (VStr (u "0200")))]) default_ascii with
 (Ok (s1, enc2), d3) =>
(eq_bytes s1 (asc "02000000000000000000")) && (
(same_edoc enc2 [((u "t"), mkEntry (asc "") (asc "0200")); ((u "p"), mkEntry (asc "") (asc "0000000000000000"))]) && (
(same_pdoc d3 [((KStr (u "t")), (VStr (u "0200"))); ((KStr (u "p")), (VStr (u "0000000000000000")))]) && (
match encode cpython311 (ADict (pset (KStr (u "21")) (VStr (u "021")) (pset (KStr (u "3")) (VStr (u "111111")) (pset (KStr (u "2")) (VStr (u "cardholder PAN")) d3)))) default_ascii with
 (Ok (s4, enc5), d6) =>
(eq_bytes s4 (asc "0200600008000000000014cardholder PAN111111021")) && (
(same_edoc enc5 [((u "t"), mkEntry (asc "") (asc "0200")); ((u "p"), mkEntry (asc "") (asc "6000080000000000")); ((u "2"), mkEntry (asc "14") (asc "cardholder PAN")); ((u "3"), mkEntry (asc "") (asc "111111")); ((u "21"), mkEntry (asc "") (asc "021"))]) && (
(same_pdoc d6 [((KStr (u "t")), (VStr (u "0200"))); ((KStr (u "p")), (VStr (u "6000080000000000"))); ((KStr (u "2")), (VStr (u "cardholder PAN"))); ((KStr (u "3")), (VStr (u "111111"))); ((KStr (u "21")), (VStr (u "021")))]) && (
(eq_oval (pget (KStr (u "2")) d6) (u "cardholder PAN")) && (
(eq_oval (pget (KStr (u "3")) (removed (KStr (u "2")) d6)) (u "111111")) && (
match encode cpython311 (ADict (removed (KStr (u "3")) (removed (KStr (u "2")) d6))) default_ascii with
 (Ok (s7, enc8), d9) =>
(eq_bytes s7 (asc "02000000080000000000021")) && (
(same_edoc enc8 [((u "t"), mkEntry (asc "") (asc "0200")); ((u "p"), mkEntry (asc "") (asc "0000080000000000")); ((u "21"), mkEntry (asc "") (asc "021"))]) && (
(same_pdoc d9 [((KStr (u "t")), (VStr (u "0200"))); ((KStr (u "p")), (VStr (u "0000080000000000"))); ((KStr (u "21")), (VStr (u "021")))]) && (
match encode cpython311 (ADict [((KStr (u "t")), (VStr (u "0200"))); ((KStr (u "102")), (VStr (u "111111")))]) default_ascii with
 (Ok (s10, enc11), d12) =>
(eq_bytes s10 (asc "02008000000000000000000000000400000006111111")) && (
(same_edoc enc11 [((u "t"), mkEntry (asc "") (asc "0200")); ((u "p"), mkEntry (asc "") (asc "8000000000000000")); ((u "1"), mkEntry (asc "") (asc "0000000004000000")); ((u "102"), mkEntry (asc "06") (asc "111111"))]) && (
(same_pdoc d12 [((KStr (u "t")), (VStr (u "0200"))); ((KStr (u "102")), (VStr (u "111111"))); ((KStr (u "p")), (VStr (u "8000000000000000"))); ((KStr (u "1")), (VStr (u "0000000004000000")))]) && (
match encode cpython311 (ADict [((KStr (u "t")), (VStr (u "0200"))); ((KStr (u "p")), (VStr (u "spam"))); ((KStr (u "1")), (VStr (u "eggs"))); ((KStr (u "102")), (VStr (u "111111")))]) default_ascii with
 (Ok (s13, enc14), d15) =>
(eq_bytes s13 (asc "02008000000000000000000000000400000006111111")) && (
(same_edoc enc14 [((u "t"), mkEntry (asc "") (asc "0200")); ((u "p"), mkEntry (asc "") (asc "8000000000000000")); ((u "1"), mkEntry (asc "") (asc "0000000004000000")); ((u "102"), mkEntry (asc "06") (asc "111111"))]) && (
(same_pdoc d15 [((KStr (u "t")), (VStr (u "0200"))); ((KStr (u "p")), (VStr (u "8000000000000000"))); ((KStr (u "102")), (VStr (u "111111"))); ((KStr (u "1")), (VStr (u "0000000004000000")))]) && (
match encode cpython311 (ADict [((KStr (u "t")), (VStr (u "0200"))); ((KStr (u "p")), (VStr (u "spam"))); ((KStr (u "1")), (VStr (u "eggs"))); ((KStr (u "21")), (VStr (u "051")))]) default_ascii with
 (Ok (s16, enc17), d18) =>
(eq_bytes s16 (asc "02000000080000000000051")) && (
(same_edoc enc17 [((u "t"), mkEntry (asc "") (asc "0200")); ((u "p"), mkEntry (asc "") (asc "0000080000000000")); ((u "21"), mkEntry (asc "") (asc "051"))]) && (
(same_pdoc d18 [((KStr (u "t")), (VStr (u "0200"))); ((KStr (u "p")), (VStr (u "0000080000000000"))); ((KStr (u "21")), (VStr (u "051")))]) && (
match decode cpython311 (InBytes (asc "02008000080000000000000000000400000005106111111")) default_ascii with
 Ok (dec19, enc20) =>
(same_pdoc (given dec19) [((KStr (u "t")), (VStr (u "0200"))); ((KStr (u "p")), (VStr (u "8000080000000000"))); ((KStr (u "1")), (VStr (u "0000000004000000"))); ((KStr (u "21")), (VStr (u "051"))); ((KStr (u "102")), (VStr (u "111111")))]) && (
(Bool.eqb (forallb (fun k => key_in k (map fst (given dec19))) [(KStr (u "2")); (KStr (u "21")); (KStr (u "102"))]) false) && (
(Bool.eqb (forallb (fun k => key_in k (map fst (given dec19))) [(KStr (u "21")); (KStr (u "102"))]) true) && (
match decode cpython311 (InBytes (asc "0200600008000000000014cardholder PAN111111021")) default_ascii with
 Ok (dec21, enc22) =>
(same_pdoc (given dec21) [((KStr (u "t")), (VStr (u "0200"))); ((KStr (u "p")), (VStr (u "6000080000000000"))); ((KStr (u "2")), (VStr (u "cardholder PAN"))); ((KStr (u "3")), (VStr (u "111111"))); ((KStr (u "21")), (VStr (u "021")))]) && (
match encode cpython311 (ADict (given dec21)) default_ascii with
 (Ok (s23, enc24), d25) =>
(eq_bytes s23 (asc "0200600008000000000014cardholder PAN111111021")) && (
match encode cpython311 (ADict [((KStr (u "t")), (VStr (u "0200"))); ((KStr (u "2")), (VStr (u "PAN")))]) default_ascii with
 (Ok (s26, enc27), d28) =>
(eq_bytes s26 (asc "0200400000000000000003PAN")) && (
(same_edoc enc27 [((u "t"), mkEntry (asc "") (asc "0200")); ((u "p"), mkEntry (asc "") (asc "4000000000000000")); ((u "2"), mkEntry (asc "03") (asc "PAN"))]) && (
(same_pdoc d28 [((KStr (u "t")), (VStr (u "0200"))); ((KStr (u "2")), (VStr (u "PAN"))); ((KStr (u "p")), (VStr (u "4000000000000000")))]) && (
let sp29 := (changed default_ascii [((u "55"), (props (Some (u "b")) (Some (u "ascii")) (Some (3)%Z) (Some (999)%Z) None None None (Some (u "ICC data"))))]) in
match encode cpython311 (ADict [((KStr (u "t")), (VStr (u "0200"))); ((KStr (u "55")), (VStr (u "9F02060000000123455F340102")))]) sp29 with
 (Ok (s30, enc31), d32) =>
(eq_bytes s30 (raw [48; 50; 48; 48; 48; 48; 48; 48; 48; 48; 48; 48; 48; 48; 48; 48; 48; 50; 48; 48; 48; 49; 51; 159; 2; 6; 0; 0; 0; 1; 35; 69; 95; 52; 1; 2]%N)) && (
let sp33 := (changed default_ascii [((u "2"), (props (Some (u "b")) (Some (u "b")) (Some (1)%Z) (Some (19)%Z) (Some (u "nibbles")) None (Some (u "0")) (Some (u "Primary Account Number (PAN)")))); ((u "55"), (props (Some (u "b")) (Some (u "ascii")) (Some (3)%Z) (Some (999)%Z) None None None (Some (u "ICC data"))))]) in
match encode cpython311 (ADict [((KStr (u "t")), (VStr (u "0200"))); ((KStr (u "2")), (VStr (u "121200000002121")))]) sp33 with
 (Ok (s34, enc35), d36) =>
 true | _ => false end  ) | _ => false end  ) ) ) | _ => false end ) | _ => false end ) | _ => false end ) ) ) | _ => false end ) ) ) | _ => false end ) ) ) | _ => false end ) ) ) | _ => false end ) ) ) | _ => false end ) ) ) ) ) | _ => false end ) ) ) | _ => false end) = true.
Proof. vm_compute. reflexivity. Qed.

(** iso8583/__init__.py. *)
Example doc_iso8583_init_py : (
match decode cpython311 (InBytes (asc "02004000000000000000101234567890")) default_ascii with
 Ok (dec1, enc2) =>
(eq_pdoc (given dec1) [((KStr (u "2")), (VStr (u "1234567890"))); ((KStr (u "p")), (VStr (u "4000000000000000"))); ((KStr (u "t")), (VStr (u "0200")))]) && (
(eq_edoc enc2 [((u "2"), mkEntry (asc "10") (asc "1234567890")); ((u "p"), mkEntry (asc "") (asc "4000000000000000")); ((u "t"), mkEntry (asc "") (asc "0200"))]) && (
match encode cpython311 (ADict [((KStr (u "t")), (VStr (u "0200"))); ((KStr (u "2")), (VStr (u "1234567890"))); ((KStr (u "39")), (VStr (u "00")))]) default_ascii with
 (Ok (s3, enc4), d5) =>
(eq_bytes s3 (asc "0200400000000200000010123456789000")) && (
(eq_pdoc d5 [((KStr (u "2")), (VStr (u "1234567890"))); ((KStr (u "39")), (VStr (u "00"))); ((KStr (u "p")), (VStr (u "4000000002000000"))); ((KStr (u "t")), (VStr (u "0200")))]) && (
(eq_edoc enc4 [((u "2"), mkEntry (asc "10") (asc "1234567890")); ((u "39"), mkEntry (asc "") (asc "00")); ((u "p"), mkEntry (asc "") (asc "4000000002000000")); ((u "t"), mkEntry (asc "") (asc "0200"))]) && (
match decode cpython311 (InBytes (asc "02004000000000000000101234567890")) default_ascii with
 Ok (dec6, enc7) =>
match pp cpython311 (show_dict (fun _ => []) (given dec6)) default_ascii (30)%Z (80)%Z with
 (Ok tt, out8) =>
(eq_str out8 ((u "t   Message Type                  : '0200'") ++ [10]%N ++ (u "p   Bitmap, Primary               : '4000000000000000'") ++ [10]%N ++ (u "2   Primary Account Number (PAN)  : '1234567890'") ++ [10]%N)) && (
match pp cpython311 (show_enc enc7) default_ascii (30)%Z (80)%Z with
 (Ok tt, out9) =>
(eq_str out9 ((u "t   Message Type                  : b'0200'") ++ [10]%N ++ (u "p   Bitmap, Primary               : b'4000000000000000'") ++ [10]%N ++ (u "2   Primary Account Number (PAN)  : b'10' b'1234567890'") ++ [10]%N)) && (
 true ) | _ => false end ) | _ => false end | _ => false end ) ) ) | _ => false end ) ) | _ => false end) = true.
Proof. vm_compute. reflexivity. Qed.

(** iso8583/decoder.py. *)
Example doc_iso8583_decoder_py : (
match decode cpython311 (InBytes (asc "02004010100000000000161234567890123456123456111")) default_ascii with
 Ok (dec1, enc2) =>
(eq_pdoc (given dec1) [((KStr (u "12")), (VStr (u "123456"))); ((KStr (u "2")), (VStr (u "1234567890123456"))); ((KStr (u "20")), (VStr (u "111"))); ((KStr (u "p")), (VStr (u "4010100000000000"))); ((KStr (u "t")), (VStr (u "0200")))]) && (
 true ) | _ => false end) = true.
Proof. vm_compute. reflexivity. Qed.

(** iso8583/encoder.py. *)
Example doc_iso8583_encoder_py : (
match encode cpython311 (ADict [((KStr (u "t")), (VStr (u "0210"))); ((KStr (u "3")), (VStr (u "111111"))); ((KStr (u "39")), (VStr (u "05")))]) default_ascii with
 (Ok (s1, enc2), d3) =>
(eq_bytes s1 (asc "0210200000000200000011111105")) && (
 true ) | _ => false end) = true.
Proof. vm_compute. reflexivity. Qed.

(** iso8583/tools.py. *)
Example doc_iso8583_tools_py : (
match decode cpython311 (InBytes (asc "02004010100000000000161234567890123456123456840")) default_ascii with
 Ok (dec1, enc2) =>
match pp cpython311 (show_dict (fun _ => []) (given dec1)) default_ascii (30)%Z (80)%Z with
 (Ok tt, out3) =>
(eq_str out3 ((u "t   Message Type                  : '0200'") ++ [10]%N ++ (u "p   Bitmap, Primary               : '4010100000000000'") ++ [10]%N ++ (u "2   Primary Account Number (PAN)  : '1234567890123456'") ++ [10]%N ++ (u "12  Time, Local Transaction       : '123456'") ++ [10]%N ++ (u "20  PAN Country Code              : '840'") ++ [10]%N)) && (
 true ) | _ => false end | _ => false end) = true.
Proof. vm_compute. reflexivity. Qed.

(** The last example of docs/howto.rst is stale: it shows the length of field 2, 15
    nibbles under len_enc "b", as the byte 21, which is what len_enc "bcd" gives.
    Since 3.0.0 (CHANGELOG.rst) "b" is a binary length, here the byte 15. *)
Definition howto_last (len_enc : pystr) : res exn (bytes * edoc) :=
  fst (encode cpython311 (ADict [(KStr (u "t"), VStr (u "0200")); (KStr (u "2"), VStr (u "121200000002121"))])
    (changed default_ascii [(u "2", props (Some (u "b")) (Some len_enc) (Some 1%Z) (Some 19%Z) (Some (u "nibbles"))
       None (Some (u "0")) (Some (u "Primary Account Number (PAN)")))])).
Definition howto_bytes (len : N) : bytes :=
  asc "02004000000000000000" ++ raw [len; 18; 18; 0; 0; 0; 2; 18; 16]%N.
Example doc_howto_last :
  match howto_last (u "b"), howto_last (u "bcd") with
  | Ok (s1, _), Ok (s2, _) => eq_bytes s1 (howto_bytes 15) && eq_bytes s2 (howto_bytes 21)
  | _, _ => false
  end = true.
Proof. vm_compute. reflexivity. Qed.
