(** * Types: specifications, dicts, exceptions shared by the decoder and encoder models. *)
From Verif Require Import PyBase.

(** One field of a specification: /repo/iso8583/specs.py:18-91 ("Mandatory" and
    "Optional Field Properties"). [None] = the property is absent from the dict,
    so that reading it raises KeyError. Simplifications: property values have
    their documented types (an int may be negative). *)
Record fspec := {
  fs_data_enc : option pystr;
  fs_len_enc : option pystr;
  fs_len_type : option Z;
  fs_max_len : option Z;
  fs_len_count : option pystr;
  fs_left_pad : option pystr;
  fs_right_pad : option pystr;
  fs_desc : option pystr
}.

(** SpecDict, decoder.py:7 / encoder.py:8 / tools.py:8. *)
Definition spec := list (pystr * fspec).

(** {"len": ..., "data": ...}: one value of an EncodedDict (decoder.py:6, encoder.py:7). *)
Record entry := mkEntry { e_len : bytes; e_data : bytes }.
Definition edoc := list (pystr * entry).
(** DecodedDict as decode builds it (decoder.py:5): str to str. *)
Definition ddoc := list (pystr * pystr).

(** Keys and values of the dict the caller gives to encode. Python does not
    enforce the DecodedDict annotation (encoder.py:6), so both may be anything:
    a key is a str or some other hashable object (told apart by an identity,
    printed by its repr); a value is a str, a bytes-like object, or another
    object of which only len() matters ([None]: it has no len()). *)
Inductive pykey := KStr (s : pystr) | KOther (ident : N) (repr : pystr).
Inductive pyval := VStr (s : pystr) | VBytes (b : bytes) | VOther (len : option nat).
Definition pdoc := list (pykey * pyval).
Definition key_eqb (a b : pykey) : bool :=
  match a, b with
  | KStr x, KStr y => str_eqb x y
  | KOther i x, KOther j y => N.eqb i j && str_eqb x y
  | _, _ => false
  end.

(** What decode accepts: decoder.py:102. [InOther c]: an instance of class c. *)
Inductive pybuf := InBytes (b : bytes) | InBytearray (b : bytes) | InOther (cls : pystr).

(** DecodeError instances with all attributes, args[0] included: decoder.py:10-45. *)
Record decode_error := {
  de_args0 : pystr; de_msg : pystr; de_s : pybuf; de_doc_dec : ddoc; de_doc_enc : edoc;
  de_field : pystr; de_pos : Z
}.
(** DecodeError.__init__, decoder.py:29-45. *)
Definition DecodeError (msg : pystr) (s : pybuf) (doc_dec : ddoc) (doc_enc : edoc)
    (pos : Z) (field : pystr) : decode_error :=
  {| de_args0 := msg ++ u ": field " ++ field ++ u " pos " ++ zstr pos;
     de_msg := msg; de_s := s; de_doc_dec := doc_dec; de_doc_enc := doc_enc;
     de_field := field; de_pos := pos |}.
(** DecodeError.__reduce__, decoder.py:47-56: the argument tuple. *)
Definition DecodeError_reduce (e : decode_error) :
    pystr * pybuf * ddoc * edoc * Z * pystr :=
  (de_msg e, de_s e, de_doc_dec e, de_doc_enc e, de_pos e, de_field e).

(** EncodeError instances: encoder.py:11-34. *)
Record encode_error := {
  ee_args0 : pystr; ee_msg : pystr; ee_doc_dec : pdoc; ee_doc_enc : edoc; ee_field : pystr
}.
(** EncodeError.__init__, encoder.py:26-34. *)
Definition EncodeError (msg : pystr) (doc_dec : pdoc) (doc_enc : edoc) (field : pystr)
    : encode_error :=
  {| ee_args0 := msg ++ u ": field " ++ field;
     ee_msg := msg; ee_doc_dec := doc_dec; ee_doc_enc := doc_enc; ee_field := field |}.
(** EncodeError.__reduce__, encoder.py:36-39. *)
Definition EncodeError_reduce (e : encode_error) : pystr * pdoc * edoc * pystr :=
  (ee_msg e, ee_doc_dec e, ee_doc_enc e, ee_field e).

(** Exceptions that can leave the library. The last four are Python built-in
    exceptions (for KeyError, the missing key). *)
Inductive exn :=
| XDecodeError (e : decode_error)
| XEncodeError (e : encode_error)
| XKeyError (k : pystr)
| XTypeError (msg : pystr)
| XValueError
| XUnboundLocalError.

(** An f-string that shows the numbers [ns], then [m]: ValueError if one of them
    is too long to be shown. Sizes of Python objects are short enough and not
    listed. *)
Definition formatted {S A} (E : pyenv) (ns : list Z) (m : M exn S A) : M exn S A :=
  if forallb (prints E) ns then m else raise XValueError.

(** spec[key] *)
Definition spec_get {S} (sp : spec) (key : pystr) : M exn S fspec :=
  match sget key sp with Some fs => ret fs | None => raise (XKeyError key) end.
(** field_spec["name"] *)
Definition prop {S A} (o : option A) (name : pystr) : M exn S A :=
  match o with Some a => ret a | None => raise (XKeyError name) end.
(** field_spec.get("name", default) *)
Definition prop_default {A} (o : option A) (d : A) : A :=
  match o with Some a => a | None => d end.
