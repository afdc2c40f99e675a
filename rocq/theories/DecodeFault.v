(** * DecodeFault: what makes a message unreadable, stated declaratively.

    The failure half of Wire.v, written from the documentation: for every input
    that is not a message, the cause, the field concerned, the position and what
    had been read. Shares only Wire.v, Types.v and Python built-ins. *)
From Verif Require Import PyBase Types Numerals Texts Wire.

(** ** Messages
    A message is made of texts, sizes of what was read, and numbers taken from the
    spec or from the input. The latter can be too long to be shown. *)
Inductive part := Txt (t : pystr) | Size (n : Z) | Num (n : Z).
(** A number as the messages show it. *)
Definition num (n : Z) : pystr := zstr n.
Definition wording (p : part) : pystr :=
  match p with Txt t => t | Size n => num n | Num n => num n end.
Fixpoint text_of (m : list part) : pystr :=
  match m with
  | [] => []
  | [p] => wording p
  | p :: m' => wording p ++ text_of m'
  end.
Definition presentable (E : pyenv) (m : list part) : Prop :=
  forall n, In (Num n) m -> showable E n.

(** The unit the messages name. *)
Definition unit_name (fs : fspec) : pystr :=
  match fs_len_count fs with Some c => c | None => u "bytes" end.
(** The text codec [enc] cannot read [data]. *)
Inductive undecodable (E : pyenv) (enc : pystr) (data : bytes) : pystr -> Prop :=
| UnknownCodec : bytes_decode E enc data = CLookup ->
    undecodable E enc data (u "unknown encoding specified")
| InvalidData : bytes_decode E enc data = CFail ->
    undecodable E enc data (u "invalid data").

(** The length prefix [raw] denotes no number. *)
Inductive prefix_fault (E : pyenv) (le : pystr) (raw : bytes) : list part -> Prop :=
| BadBcd : is_bcd le -> bcd_value raw = None \/ ~ within_digit_limit E (2 * length raw) ->
    prefix_fault E le raw [Txt (u "Failed to decode field length, invalid BCD data")]
| BadPrefixText why : ~ is_binary le -> ~ is_bcd le -> undecodable E le raw why ->
    prefix_fault E le raw [Txt (u "Failed to decode field length, "); Txt why]
| NotANumber t : ~ is_binary le -> ~ is_bcd le -> bytes_decode E le raw = COk t ->
    not_int E t ->
    prefix_fault E le raw [Txt (u "Failed to decode field length, non-numeric data")].

(** A field cannot be read at the head of [input], [before] being already read:
    message, offset of the reported position in the field, and what is recorded
    of the field (prefix, data, value). *)
Inductive field_fault (E : pyenv) (fs : fspec) (before input : bytes)
  : list part -> Z -> bytes -> bytes -> pystr -> Prop :=
| PrefixCut lt : fs_len_type fs = Some (Z.of_nat lt) -> (length input < lt)%nat ->
    field_fault E fs before input
      [Txt (u "Field length is "); Size (zlen input); Txt (u " bytes wide, expecting ");
       Num (Z.of_nat lt)] 0 input [] []
| NegativePrefix lt raw : fs_len_type fs = Some lt -> (lt < 0)%Z ->
    stretch (before ++ input) (zlen before) (zlen before + lt) raw ->
    field_fault E fs before input
      [Txt (u "Field length is "); Size (zlen raw); Txt (u " bytes wide, expecting "); Num lt] 0 raw [] []
| PrefixUnreadable lt le raw rest msg : fs_len_type fs = Some (Z.of_nat lt) -> lt <> O ->
    input = raw ++ rest -> length raw = lt -> fs_len_enc fs = Some le ->
    prefix_fault E le raw msg ->
    field_fault E fs before input msg 0 raw [] []
| LengthTooLarge lt le raw rest n ml : fs_len_type fs = Some (Z.of_nat lt) -> lt <> O ->
    input = raw ++ rest -> length raw = lt -> fs_len_enc fs = Some le ->
    prefix_denotes E le raw n -> fs_max_len fs = Some ml -> (ml < n)%Z ->
    field_fault E fs before input
      [Txt (u "Field data is "); Num n; Txt (u " "); Txt (unit_name fs);
       Txt (u ", larger than maximum "); Num ml] 0 raw [] []
| DataCut raw rest n k : input = raw ++ rest -> announces E fs raw n -> n <> 0%Z ->
    occupies fs n k -> (zlen rest < k)%Z ->
    field_fault E fs before input
      [Txt (u "Field data is "); Size (if in_nibbles fs then 2 * zlen rest else zlen rest)%Z;
       Txt (u " "); Txt (unit_name fs); Txt (u ", expecting "); Num n] (zlen raw) raw rest []
| NegativeLength raw rest n k data : input = raw ++ rest -> announces E fs raw n ->
    occupies fs n k -> (k < 0)%Z ->
    stretch (before ++ input) (zlen (before ++ raw)) (zlen (before ++ raw) + k) data ->
    field_fault E fs before input
      [Txt (u "Field data is "); Size (if in_nibbles fs then 2 * zlen data else zlen data)%Z;
       Txt (u " "); Txt (unit_name fs); Txt (u ", expecting "); Num n] (zlen raw) raw data []
| DataUnreadable raw data rest n de why : input = raw ++ data ++ rest ->
    announces E fs raw n -> n <> 0%Z -> occupies fs n (zlen data) ->
    fs_data_enc fs = Some de -> ~ is_binary de -> undecodable E de data why ->
    field_fault E fs before input [Txt (u "Failed to decode field, "); Txt why] (zlen raw) raw data []
| PadMissing raw data rest n de : input = raw ++ data ++ rest ->
    announces E fs raw n -> n <> 0%Z -> occupies fs n (zlen data) ->
    fs_data_enc fs = Some de -> is_binary de -> in_nibbles fs && Z.odd n = true ->
    (forall t, ~ padded fs (HEX data) t) ->
    field_fault E fs before input
      [Txt (u "Field data is "); Size (2 * zlen data); Txt (u " nibbles, expecting "); Num n]
      (zlen raw) raw data (HEX data).

(** The width of the message type and of a bitmap. *)
Definition type_width (de : pystr) (w : nat) : Prop :=
  (is_binary de /\ w = 2%nat) \/ (~ is_binary de /\ w = 4%nat).
Definition bitmap_width (de : pystr) (w : nat) : Prop :=
  (is_binary de /\ w = 8%nat) \/ (~ is_binary de /\ w = 16%nat).

Inductive type_fault (E : pyenv) (fs : fspec) (input : bytes) : list part -> bytes -> Prop :=
| TypeCut de w : fs_data_enc fs = Some de -> type_width de w -> (length input < w)%nat ->
    type_fault E fs input
      [Txt (u "Field data is "); Size (zlen input); Txt (u " bytes, expecting ");
       Size (Z.of_nat w)] input
| TypeUnreadable de data rest why : fs_data_enc fs = Some de -> ~ is_binary de ->
    input = data ++ rest -> length data = 4%nat -> undecodable E de data why ->
    type_fault E fs input [Txt (u "Failed to decode field, "); Txt why] data.

(** A bitmap cannot be read; [old] is the bitmap already recorded under the same
    key, if any: message, data and value recorded of this bitmap. *)
Inductive bitmap_fault (E : pyenv) (fs : fspec) (old : option bytes) (input : bytes)
  : list part -> bytes -> pystr -> Prop :=
| BitmapCut de w : fs_data_enc fs = Some de -> bitmap_width de w -> (length input < w)%nat ->
    bitmap_fault E fs old input
      [Txt (u "Field data is ");
       Size (match old with Some o => zlen o + zlen input | None => zlen input end)%Z;
       Txt (u " bytes, expecting ");
       Size (match old with Some _ => 2 * Z.of_nat w | None => Z.of_nat w end)%Z] input []
| BitmapUnreadable de data rest why : fs_data_enc fs = Some de -> ~ is_binary de ->
    input = data ++ rest -> length data = 16%nat -> undecodable E de data why ->
    bitmap_fault E fs old input [Txt (u "Failed to decode field, "); Txt why] data []
| BitmapNotHex de data rest t : fs_data_enc fs = Some de -> ~ is_binary de ->
    input = data ++ rest -> length data = 16%nat -> bytes_decode E de data = COk t ->
    not_hex t ->
    bitmap_fault E fs old input [Txt (u "Failed to decode field, non-hex data")] data t.

(** The message cannot be read: [segs] are read completely, [last] is what is
    recorded of the field concerned. *)
Inductive decode_fault (E : pyenv) (sp : spec) (input : bytes)
  : list part -> Z -> list segment -> segment -> Prop :=
| HeaderFault fs ml msg off lenb data text :
    sget (u "h") sp = Some fs -> fs_max_len fs = Some ml -> (0 < ml)%Z ->
    field_fault E fs [] input msg off lenb data text ->
    decode_fault E sp input msg off [] (mkSeg (u "h") lenb data text)
| TypeFault hs rest fs msg data : header_part E sp hs -> input = bytes_of hs ++ rest ->
    sget (u "t") sp = Some fs -> type_fault E fs rest msg data ->
    decode_fault E sp input msg (zlen (bytes_of hs)) hs (mkSeg (u "t") [] data [])
| PrimaryFault hs t rest fs msg data text : header_part E sp hs -> type_part E sp t ->
    input = bytes_of (hs ++ [t]) ++ rest -> sget (u "p") sp = Some fs ->
    bitmap_fault E fs None rest msg data text ->
    decode_fault E sp input msg (zlen (bytes_of (hs ++ [t]))) (hs ++ [t])
      (mkSeg (u "p") [] data text)
| SecondaryFault hs t p bm1 rest fs msg data text : header_part E sp hs -> type_part E sp t ->
    primary_part E sp p bm1 -> bit bm1 1 = true ->
    input = bytes_of (hs ++ [t; p]) ++ rest -> sget (u "1") sp = Some fs ->
    bitmap_fault E fs None rest msg data text ->
    decode_fault E sp input msg (zlen (bytes_of (hs ++ [t; p]))) (hs ++ [t; p])
      (mkSeg (u "1") [] data text)
| TertiaryFault hs t p bm1 d2 t2 bm2 rest fs msg data text :
    header_part E sp hs -> type_part E sp t -> primary_part E sp p bm1 -> bit bm1 1 = true ->
    sget (u "1") sp = Some fs -> bitmap_wire E fs d2 t2 bm2 -> bit bm2 1 = true ->
    input = bytes_of (hs ++ [t; p]) ++ d2 ++ rest ->
    bitmap_fault E fs (Some d2) rest msg data text ->
    decode_fault E sp input msg (zlen (bytes_of (hs ++ [t; p]) ++ d2)) (hs ++ [t; p])
      (mkSeg (u "1") [] (d2 ++ data) (t2 ++ text))
| FieldFault hs t p xs bm1 bm2 bm3 done f todo segs rest fs msg off lenb data text :
    header_part E sp hs -> type_part E sp t -> primary_part E sp p bm1 ->
    extra_part E sp bm1 xs bm2 bm3 ->
    filter (announced bm1 bm2 bm3) data_fields = done ++ f :: todo ->
    map sg_key segs = map zstr done -> Forall (field_segment E sp) segs ->
    input = bytes_of (hs ++ t :: p :: xs ++ segs) ++ rest -> sget (zstr f) sp = Some fs ->
    field_fault E fs (bytes_of (hs ++ t :: p :: xs ++ segs)) rest msg off lenb data text ->
    decode_fault E sp input msg (zlen (bytes_of (hs ++ t :: p :: xs ++ segs)) + off)
      (hs ++ t :: p :: xs ++ segs) (mkSeg (zstr f) lenb data text)
| ExtraData segs last rest : message E sp (segs ++ [last]) ->
    input = bytes_of (segs ++ [last]) ++ rest -> rest <> [] ->
    decode_fault E sp input [Txt (u "Extra data after last field")] (zlen (bytes_of (segs ++ [last])))
      segs last.

(** The exception for such a fault: message, input, what was read, position, field. *)
Definition reports (s : pybuf) (m : list part) (pos : Z) (segs : list segment) (last : segment)
    (e : decode_error) : Prop :=
  e = DecodeError (text_of m) s (dec_of (segs ++ [last])) (enc_of (segs ++ [last])) pos (sg_key last).
