(** * EncodeFault: what makes a dict impossible to send, stated declaratively.

    The failure half of WireEncode.v, written from the documentation: cause, field,
    and what had been encoded. Shares only Wire.v, WireEncode.v, DecodeFault.v
    (wording), Types.v and Python built-ins; nothing of Encoder.v. *)
From Coq Require Import Sorted.
From Verif Require Import PyBase Types Numerals Texts Wire WireEncode DecodeFault.

(** len(v), for objects that have one. *)
Definition size_of (v : pyval) : option nat :=
  match v with VStr s => Some (length s) | VBytes b => Some (length b) | VOther n => n end.
(** The value holds hexadecimal digits, two per byte. *)
Definition is_hex (v : pyval) : Prop := exists d data, digits_of v = Some d /\ spells d data.
(** No pad is configured. *)
Definition unpadded (fs : fspec) : Prop :=
  pad_char (fs_left_pad fs) = None /\ pad_char (fs_right_pad fs) = None.

(** The text codec [enc] cannot write [s]. *)
Inductive unencodable (E : pyenv) (enc : pystr) (s : pystr) : pystr -> Prop :=
| UnknownEncoding : str_encode E enc s = CLookup ->
    unencodable E enc s (u "unknown encoding specified")
| InvalidText : str_encode E enc s = CFail -> unencodable E enc s (u "invalid data").

(** The value cannot be sent; [nib]: its length counts nibbles. *)
Inductive value_refused (E : pyenv) (fs : fspec) (nib : bool) : pyval -> pystr -> Prop :=
| NoPad de v n : fs_data_enc fs = Some de -> is_binary de -> nib = true ->
    size_of v = Some n -> Nat.odd n = true -> unpadded fs ->
    value_refused E fs nib v (u "Failed to encode field, odd-length nibble data, specify pad")
| OddHex de v n : fs_data_enc fs = Some de -> is_binary de -> nib = false ->
    size_of v = Some n -> Nat.odd n = true ->
    value_refused E fs nib v (u "Failed to encode field, odd-length hex data")
| NotHex de v n : fs_data_enc fs = Some de -> is_binary de ->
    size_of v = Some n -> Nat.odd n = false -> ~ is_hex v ->
    value_refused E fs nib v (u "Failed to encode field, non-hex data")
| PaddedNotHex de d w : fs_data_enc fs = Some de -> is_binary de -> nib = true ->
    Nat.odd (length d) = true -> pad_digits fs d w -> (forall data, ~ spells w data) ->
    value_refused E fs nib (VStr d) (u "Failed to encode field, non-hex data")
| BadText de s why : fs_data_enc fs = Some de -> ~ is_binary de -> unencodable E de s why ->
    value_refused E fs nib (VStr s) (u "Failed to encode field, " ++ why)
| NotText de v : fs_data_enc fs = Some de -> ~ is_binary de -> ~ is_str v ->
    value_refused E fs nib v (u "Failed to encode field, invalid data").

Definition too_wide : pystr :=
  u "Failed to encode field length, field length does not fit into configured field size".

(** Length [n] cannot be written in [lt] bytes: what is recorded, and the message. *)
Inductive prefix_refused (E : pyenv) (le : pystr) (lt : nat) (n : Z) : bytes -> pystr -> Prop :=
| NumberTooWide : is_binary le \/ is_bcd le -> (forall lenb, ~ encodes_prefix E le lt n lenb) ->
    prefix_refused E le lt n [] too_wide
| TextTooWide lenb : ~ is_binary le -> ~ is_bcd le ->
    str_encode E le (fmt0d lt (Z.to_N n)) = COk lenb -> (lt < length lenb)%nat ->
    prefix_refused E le lt n lenb too_wide
| PrefixUnknownEncoding : ~ is_binary le -> ~ is_bcd le ->
    str_encode E le (fmt0d lt (Z.to_N n)) = CLookup ->
    prefix_refused E le lt n [] (u "Failed to encode field length, unknown encoding specified")
| PrefixInvalidText : ~ is_binary le -> ~ is_bcd le ->
    str_encode E le (fmt0d lt (Z.to_N n)) = CFail ->
    prefix_refused E le lt n []
      (u "Failed to encode field length, " ++ encode_why E le (fmt0d lt (Z.to_N n))).

(** A header or data field cannot be sent: message and what is recorded of it. *)
Inductive field_refused (E : pyenv) (fs : fspec) (v : pyval) : pystr -> bytes -> bytes -> Prop :=
| ValueRefused msg : value_refused E fs (in_nibbles fs) v msg -> field_refused E fs v msg [] []
| WrongFixedLength data n ml : encodes_value E fs v data n -> fs_len_type fs = Some 0%Z ->
    fs_max_len fs = Some ml -> n <> ml -> showable E ml ->
    field_refused E fs v
      (u "Field data is " ++ num n ++ u " " ++ unit_name fs ++ u ", expecting " ++ num ml) [] data
| OverMaximum data n lt ml : encodes_value E fs v data n -> fs_len_type fs = Some lt ->
    lt <> 0%Z -> fs_max_len fs = Some ml -> (ml < n)%Z -> showable E ml ->
    field_refused E fs v
      (u "Field data is " ++ num n ++ u " " ++ unit_name fs ++ u ", larger than maximum "
       ++ num ml) [] data
| PrefixRefused data n lt ml le lenb msg : encodes_value E fs v data n ->
    fs_len_type fs = Some (Z.of_nat lt) -> lt <> O -> fs_max_len fs = Some ml -> (n <= ml)%Z ->
    fs_len_enc fs = Some le -> prefix_refused E le lt n lenb msg ->
    field_refused E fs v msg lenb data
| NegativeWidth data n lt ml le : encodes_value E fs v data n ->
    fs_len_type fs = Some lt -> (lt < 0)%Z -> fs_max_len fs = Some ml -> (n <= ml)%Z ->
    fs_len_enc fs = Some le -> ~ is_binary le -> ~ is_bcd le ->
    field_refused E fs v (u "Failed to encode field length, " ++ format_why E lt) [] data.

(** The message type: whatever its value is sent as must be 2 or 4 bytes. *)
Inductive type_sent_as (E : pyenv) (fs : fspec) : pyval -> bytes -> Prop :=
| TypeHex de v d data : fs_data_enc fs = Some de -> is_binary de -> digits_of v = Some d ->
    spells d data -> type_sent_as E fs v data
| TypeChars de s data : fs_data_enc fs = Some de -> ~ is_binary de ->
    str_encode E de s = COk data -> type_sent_as E fs (VStr s) data.
Inductive type_refused (E : pyenv) (fs : fspec) (v : pyval) : pystr -> bytes -> Prop :=
| TypeValueRefused msg : value_refused E fs false v msg -> type_refused E fs v msg []
| TypeWrongLength de data w : fs_data_enc fs = Some de -> type_sent_as E fs v data ->
    type_width de w -> length data <> w ->
    type_refused E fs v
      (u "Field data is " ++ num (zlen data) ++ u " bytes, expecting " ++ num (Z.of_nat w)) data.

(** A bitmap whose text encoding cannot write it. *)
Inductive bitmap_refused (E : pyenv) (fs : fspec) (bm : bytes) : pystr -> Prop :=
| BitmapBadText de why : fs_data_enc fs = Some de -> ~ is_binary de ->
    unencodable E de (HEX bm) why ->
    bitmap_refused E fs bm (u "Failed to encode field, " ++ why).

(** The caller's dict without the bitmap keys, and with the primary bitmap. *)
Definition cleared (d : pdoc) : pdoc :=
  dpop key_eqb (KStr (u "65")) (dpop key_eqb (KStr (u "1")) d).
Definition with_primary (d : pdoc) (bm1 : bytes) : pdoc :=
  dset key_eqb (KStr (u "p")) (VStr (HEX bm1)) (cleared d).
Definition with_extra (d : pdoc) (bm1 : bytes) (text : pystr) : pdoc :=
  dset key_eqb (KStr (u "1")) (VStr text) (with_primary d bm1).

(** A str key that is no number, or one int() reads. *)
Definition readable_key (E : pyenv) (k : pykey) : Prop :=
  exists s, k = KStr s /\ (isnumeric E s = true -> exists n, int_text E s n).
(** The keys that are no str, as shown. *)
Definition foreign (keys : list pykey) : list pystr :=
  flat_map (fun k => match k with KOther _ r => [r] | KStr _ => [] end) keys.

(** The message cannot be built because of [k]: message, the caller's dict, and
    what is recorded of [k]. *)
Inductive key_refused (E : pyenv) (sp : spec) (d : pdoc) (bm1 bm2 bm3 : bytes)
  : pystr -> pystr -> pdoc -> edoc -> Prop :=
| HeaderMissing fs ml : sget (u "h") sp = Some fs -> fs_max_len fs = Some ml ->
    value d (u "h") = None ->
    key_refused E sp d bm1 bm2 bm3 (u "h")
      (u "Field data is required according to specifications") (cleared d) []
| HeaderRefused fs ml v msg lenb data : sget (u "h") sp = Some fs -> fs_max_len fs = Some ml ->
    value d (u "h") = Some v -> field_refused E fs v msg lenb data ->
    key_refused E sp d bm1 bm2 bm3 (u "h") msg (cleared d) [(u "h", mkEntry lenb data)]
| TypeMissing : value d (u "t") = None ->
    key_refused E sp d bm1 bm2 bm3 (u "t") (u "Field data is required") (cleared d) []
| TypeRefused fs v msg data : sget (u "t") sp = Some fs -> value d (u "t") = Some v ->
    type_refused E fs v msg data ->
    key_refused E sp d bm1 bm2 bm3 (u "t") msg (cleared d) [(u "t", mkEntry [] data)]
| ForeignKeys pre ident r post : map fst (cleared d) = pre ++ KOther ident r :: post ->
    Forall (readable_key E) pre ->
    key_refused E sp d bm1 bm2 bm3 (u "p")
      (u "Dictionary contains invalid fields " ++ listed (foreign (map fst (cleared d))))
      (cleared d) []
| OutOfRange l : Forall (readable_key E) (map fst (cleared d)) -> StronglySorted Z.lt l ->
    (forall f, In f l <-> has_field E d f /\ ~ (1 <= f <= 192)%Z) -> l <> [] ->
    key_refused E sp d bm1 bm2 bm3 (u "p")
      (u "Dictionary contains fields outside of 1-192 range " ++ listed (map num l))
      (cleared d) []
| PrimaryRefused fs msg : keys_ok E d -> sget (u "p") sp = Some fs ->
    bitmap_refused E fs bm1 msg ->
    key_refused E sp d bm1 bm2 bm3 (u "p") msg (with_primary d bm1)
      [(u "p", mkEntry [] [])]
| SecondaryRefused fs msg : keys_ok E d -> sget (u "1") sp = Some fs ->
    bitmap_refused E fs bm2 msg ->
    key_refused E sp d bm1 bm2 bm3 (u "1") msg (with_extra d bm1 (HEX bm2))
      [(u "1", mkEntry [] [])]
| TertiaryRefused fs d2 msg : keys_ok E d -> sget (u "1") sp = Some fs -> bit bm2 1 = true ->
    bitmap_encodes E fs bm2 d2 -> bitmap_refused E fs bm3 msg ->
    key_refused E sp d bm1 bm2 bm3 (u "1") msg (with_extra d bm1 (HEX bm2 ++ HEX bm3))
      [(u "1", mkEntry [] d2)]
| FieldRefused f fs v msg lenb data : keys_ok E d -> In f data_fields ->
    sget (zstr f) sp = Some fs -> value d (zstr f) = Some v ->
    field_refused E fs v msg lenb data ->
    key_refused E sp d bm1 bm2 bm3 (zstr f) msg (with_bitmaps d bm1 bm2 bm3)
      [(zstr f, mkEntry lenb data)].

(** The message for [d] cannot be built: [done] is completely encoded, in wire
    order, and the next key [k] is refused. *)
Definition encode_fault (E : pyenv) (sp : spec) (d : pdoc)
    (msg k : pystr) (d' : pdoc) (enc : edoc) : Prop :=
  exists bm1 bm2 bm3 done rest tail,
    bitmaps_for E d bm1 bm2 bm3
    /\ plan sp bm1 bm2 bm3 = map fst done ++ k :: rest
    /\ Forall (entry_sent E sp d bm1 bm2 bm3) done
    /\ key_refused E sp d bm1 bm2 bm3 k msg d' tail
    /\ enc = done ++ tail.
