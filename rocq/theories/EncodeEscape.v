(** * EncodeEscape: when encode fails with something else than EncodeError.

    Complements EncodeFault.v for incomplete specs and arbitrary Python values,
    declaratively and independently of Encoder.v. [XKeyError nm]: the spec or the
    dict does not have [nm]; the other exceptions are about a key or a value. *)
From Verif Require Import PyBase Types Numerals Wire WireEncode DecodeFault EncodeFault.

(** Values that cannot even be refused; [nib]: the length counts nibbles. Only
    hexadecimal data is concerned, text data must be a str. *)
Inductive value_escape (fs : fspec) (nib : bool) (v : pyval) : exn -> Prop :=
| NoNibbleCount de : fs_data_enc fs = Some de -> is_binary de -> nib = true ->
    size_of v = None -> value_escape fs nib v XUnboundLocalError
| PadNotText de n : fs_data_enc fs = Some de -> is_binary de -> nib = true ->
    size_of v = Some n -> Nat.odd n = true -> ~ is_str v -> ~ unpadded fs ->
    value_escape fs nib v XUnboundLocalError
| NoSize de : fs_data_enc fs = Some de -> is_binary de -> nib = false ->
    size_of v = None -> value_escape fs nib v (XTypeError (u "object has no len()")).

(** Properties are missed in this order; len_enc only if there is a length to write. *)
Inductive field_escape (E : pyenv) (fs : fspec) (v : pyval) : exn -> Prop :=
| ValueEscapes x : value_escape fs (in_nibbles fs) v x -> field_escape E fs v x
| LenTypeMissing data n : encodes_value E fs v data n -> fs_len_type fs = None ->
    field_escape E fs v (XKeyError (u "len_type"))
| MaxLenMissing data n lt : encodes_value E fs v data n -> fs_len_type fs = Some lt ->
    fs_max_len fs = None -> field_escape E fs v (XKeyError (u "max_len"))
| LenEncMissing data n lt ml : encodes_value E fs v data n -> fs_len_type fs = Some lt ->
    lt <> 0%Z -> fs_max_len fs = Some ml -> (n <= ml)%Z -> fs_len_enc fs = None ->
    field_escape E fs v (XKeyError (u "len_enc"))
| NegativeNumberWidth data n lt ml le : encodes_value E fs v data n -> fs_len_type fs = Some lt ->
    (lt < 0)%Z -> fs_max_len fs = Some ml -> (n <= ml)%Z -> fs_len_enc fs = Some le ->
    is_binary le \/ is_bcd le -> field_escape E fs v XValueError
| FixedLengthUnshown data n ml : encodes_value E fs v data n -> fs_len_type fs = Some 0%Z ->
    fs_max_len fs = Some ml -> n <> ml -> ~ showable E ml -> field_escape E fs v XValueError
| MaximumUnshown data n lt ml : encodes_value E fs v data n -> fs_len_type fs = Some lt ->
    lt <> 0%Z -> fs_max_len fs = Some ml -> (ml < n)%Z -> ~ showable E ml ->
    field_escape E fs v XValueError.

(** Encoding stops at [k] with exception [x], the caller's dict being [d']. *)
Inductive key_escape (E : pyenv) (sp : spec) (d : pdoc) (bm1 bm2 bm3 : bytes)
  : pystr -> exn -> pdoc -> Prop :=
| HeaderEntryMissing : sget (u "h") sp = None ->
    key_escape E sp d bm1 bm2 bm3 (u "h") (XKeyError (u "h")) (cleared d)
| HeaderMaxLenMissing fs : sget (u "h") sp = Some fs -> fs_max_len fs = None ->
    key_escape E sp d bm1 bm2 bm3 (u "h") (XKeyError (u "max_len")) (cleared d)
| HeaderEncMissing fs ml v : sget (u "h") sp = Some fs -> fs_max_len fs = Some ml ->
    value d (u "h") = Some v -> fs_data_enc fs = None ->
    key_escape E sp d bm1 bm2 bm3 (u "h") (XKeyError (u "data_enc")) (cleared d)
| HeaderEscapes fs ml v x : sget (u "h") sp = Some fs -> fs_max_len fs = Some ml ->
    value d (u "h") = Some v -> field_escape E fs v x ->
    key_escape E sp d bm1 bm2 bm3 (u "h") x (cleared d)
| TypeEntryMissing v : value d (u "t") = Some v -> sget (u "t") sp = None ->
    key_escape E sp d bm1 bm2 bm3 (u "t") (XKeyError (u "t")) (cleared d)
| TypeEncMissing fs v : value d (u "t") = Some v -> sget (u "t") sp = Some fs ->
    fs_data_enc fs = None ->
    key_escape E sp d bm1 bm2 bm3 (u "t") (XKeyError (u "data_enc")) (cleared d)
| TypeEscapes fs v x : value d (u "t") = Some v -> sget (u "t") sp = Some fs ->
    value_escape fs false v x -> key_escape E sp d bm1 bm2 bm3 (u "t") x (cleared d)
| UnreadableKey pre s post : map fst (cleared d) = pre ++ KStr s :: post ->
    Forall (readable_key E) pre -> isnumeric E s = true -> not_int E s ->
    key_escape E sp d bm1 bm2 bm3 (u "p") XValueError (cleared d)
| PrimaryEntryMissing : keys_ok E d -> sget (u "p") sp = None ->
    key_escape E sp d bm1 bm2 bm3 (u "p") (XKeyError (u "p")) (cleared d)
| PrimaryEncMissing fs : keys_ok E d -> sget (u "p") sp = Some fs -> fs_data_enc fs = None ->
    key_escape E sp d bm1 bm2 bm3 (u "p") (XKeyError (u "data_enc")) (with_primary d bm1)
| ExtraEntryMissing : keys_ok E d -> sget (u "1") sp = None ->
    key_escape E sp d bm1 bm2 bm3 (u "1") (XKeyError (u "1")) (with_primary d bm1)
| ExtraEncMissing fs : keys_ok E d -> sget (u "1") sp = Some fs -> fs_data_enc fs = None ->
    key_escape E sp d bm1 bm2 bm3 (u "1") (XKeyError (u "data_enc"))
      (with_extra d bm1 (HEX bm2))
| FieldEntryMissing f : keys_ok E d -> In f data_fields -> sget (zstr f) sp = None ->
    key_escape E sp d bm1 bm2 bm3 (zstr f) (XKeyError (zstr f)) (with_bitmaps d bm1 bm2 bm3)
| FieldEncMissing f fs : keys_ok E d -> In f data_fields -> sget (zstr f) sp = Some fs ->
    fs_data_enc fs = None ->
    key_escape E sp d bm1 bm2 bm3 (zstr f) (XKeyError (u "data_enc"))
      (with_bitmaps d bm1 bm2 bm3)
| OtherSpelling f fs de : keys_ok E d -> In f data_fields -> sget (zstr f) sp = Some fs ->
    fs_data_enc fs = Some de -> value d (zstr f) = None ->
    key_escape E sp d bm1 bm2 bm3 (zstr f) (XKeyError (zstr f)) (with_bitmaps d bm1 bm2 bm3)
| FieldEscapes f fs v x : keys_ok E d -> In f data_fields -> sget (zstr f) sp = Some fs ->
    value d (zstr f) = Some v -> field_escape E fs v x ->
    key_escape E sp d bm1 bm2 bm3 (zstr f) x (with_bitmaps d bm1 bm2 bm3).

(** [done] is completely encoded, in wire order, and encoding stops at the next key. *)
Definition encode_escape (E : pyenv) (sp : spec) (d : pdoc) (x : exn) (d' : pdoc) : Prop :=
  exists bm1 bm2 bm3 done k rest,
    bitmaps_for E d bm1 bm2 bm3
    /\ plan sp bm1 bm2 bm3 = map fst done ++ k :: rest
    /\ Forall (entry_sent E sp d bm1 bm2 bm3) done
    /\ key_escape E sp d bm1 bm2 bm3 k x d'.
