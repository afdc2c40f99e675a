(** * Wire: the ISO8583 wire format of a specification, stated declaratively.

    Written from the documentation (/repo/iso8583/specs.py:1-119 and the function
    docstrings), not from the code: it uses none of the definitions of Decoder.v
    and Encoder.v. Types (Types.v) and a few Python built-ins (PyBase.v) are shared;
    what digits mean is stated in Numerals.v. *)
From Verif Require Import PyBase Types Numerals.

(** The input is a bytes or bytearray object with this content. *)
Definition holds (s : pybuf) (b : bytes) : Prop := s = InBytes b \/ s = InBytearray b.

(** A binary property is spelled "b"; a BCD length "bcd". *)
Definition is_binary (enc : pystr) : Prop := enc = u "b".
Definition is_bcd (enc : pystr) : Prop := enc = u "bcd".

(** Lengths count bytes unless len_count says nibbles. *)
Definition in_nibbles (fs : fspec) : bool :=
  match fs_len_count fs with Some c => str_eqb c (u "nibbles") | None => false end.

(** [k] bytes hold [n] units: nibbles are rounded up to whole bytes. *)
Definition occupies (fs : fspec) (n k : Z) : Prop :=
  if in_nibbles fs then (2 * k = n \/ 2 * k = n + 1)%Z else k = n.

(** Canonical hexadecimal: two upper-case digits per byte. *)
Definition HEX (b : bytes) : pystr :=
  flat_map (fun x => [HEX_digit (b2n x / 16); HEX_digit (b2n x mod 16)]) b.

(** The decimal number spelled by the nibbles of a byte string, if all are digits. *)
Fixpoint bcd_from (acc : N) (raw : bytes) : option N :=
  match raw with
  | [] => Some acc
  | b :: raw' =>
      if ((b2n b / 16 <? 10) && (b2n b mod 16 <? 10))%N
      then bcd_from (acc * 100 + b2n b / 16 * 10 + b2n b mod 16)%N raw' else None
  end.
Definition bcd_value (raw : bytes) : option N := bcd_from 0 raw.

(** A length prefix [raw] in encoding [len_enc] denotes the number [n]. *)
Inductive prefix_denotes (E : pyenv) (len_enc : pystr) (raw : bytes) (n : Z) : Prop :=
| PrefixBinary : is_binary len_enc -> n = Z.of_N (big_endian raw) ->
    prefix_denotes E len_enc raw n
| PrefixBcd v : is_bcd len_enc -> bcd_value raw = Some v -> n = Z.of_N v ->
    within_digit_limit E (2 * length raw) -> prefix_denotes E len_enc raw n
| PrefixText t : ~ is_binary len_enc -> ~ is_bcd len_enc ->
    bytes_decode E len_enc raw = COk t -> int_text E t n ->
    prefix_denotes E len_enc raw n.

(** The number of units a field with prefix [lenb] has. *)
Inductive announces (E : pyenv) (fs : fspec) (lenb : bytes) (n : Z) : Prop :=
| AnnouncesFixed : fs_len_type fs = Some 0%Z -> lenb = [] -> fs_max_len fs = Some n ->
    announces E fs lenb n
| AnnouncesVariable lt le ml : fs_len_type fs = Some (Z.of_nat lt) -> lt <> O -> length lenb = lt ->
    fs_len_enc fs = Some le -> prefix_denotes E le lenb n ->
    fs_max_len fs = Some ml -> (n <= ml)%Z -> announces E fs lenb n.

(** The pad character of a pad property: its first character. *)
Definition pad_char (pad : option pystr) : option N :=
  match pad with Some (c :: _) => Some c | _ => None end.

(** [digits] is [text] with one pad nibble: the left pad when the digits start
    with it, otherwise the right pad. *)
Definition padded (fs : fspec) (digits text : pystr) : Prop :=
  (exists c, pad_char (fs_left_pad fs) = Some c /\ digits = c :: text)
  \/ ((forall c, pad_char (fs_left_pad fs) = Some c -> hd_error digits <> Some c)
      /\ exists c, pad_char (fs_right_pad fs) = Some c /\ digits = text ++ [c]).

(** [data], holding [n] units, carries the value [text]. *)
Inductive carries (E : pyenv) (fs : fspec) (n : Z) (data : bytes) (text : pystr) : Prop :=
| CarriesNothing : n = 0%Z -> text = [] -> carries E fs n data text
| CarriesHex de : n <> 0%Z -> fs_data_enc fs = Some de -> is_binary de ->
    in_nibbles fs && Z.odd n = false -> text = HEX data -> carries E fs n data text
| CarriesPaddedHex de : n <> 0%Z -> fs_data_enc fs = Some de -> is_binary de ->
    in_nibbles fs && Z.odd n = true -> padded fs (HEX data) text ->
    carries E fs n data text
| CarriesText de : n <> 0%Z -> fs_data_enc fs = Some de -> ~ is_binary de ->
    bytes_decode E de data = COk text -> carries E fs n data text.

(** One length-prefixed field (header or data field). *)
Definition field_wire (E : pyenv) (fs : fspec) (lenb data : bytes) (text : pystr) : Prop :=
  exists n, announces E fs lenb n /\ occupies fs n (zlen data) /\ carries E fs n data text.

(** The message type: four digits, 2 bytes when binary, 4 when text. *)
Inductive type_wire (E : pyenv) (fs : fspec) (data : bytes) (text : pystr) : Prop :=
| TypeBinary de : fs_data_enc fs = Some de -> is_binary de -> length data = 2%nat ->
    text = HEX data -> type_wire E fs data text
| TypeText de : fs_data_enc fs = Some de -> ~ is_binary de -> length data = 4%nat ->
    bytes_decode E de data = COk text -> type_wire E fs data text.

(** One bitmap [bm]: 8 bytes when binary, 16 characters of hexadecimal when text. *)
Inductive bitmap_wire (E : pyenv) (fs : fspec) (data : bytes) (text : pystr) (bm : bytes)
  : Prop :=
| BitmapBinary de : fs_data_enc fs = Some de -> is_binary de -> length data = 8%nat ->
    text = HEX data -> bm = data -> bitmap_wire E fs data text bm
| BitmapText de : fs_data_enc fs = Some de -> ~ is_binary de -> length data = 16%nat ->
    bytes_decode E de data = COk text -> hex_spelling text bm ->
    bitmap_wire E fs data text bm.

(** Bit [i] (from 1, most significant first) of a bitmap. *)
Definition bit (bm : bytes) (i : Z) : bool :=
  if (1 <=? i)%Z then
    match nth_error bm (Z.to_nat ((i - 1) / 8)) with
    | Some b => N.testbit (b2n b) (Z.to_N (7 - (i - 1) mod 8))
    | None => false
    end
  else false.

(** A piece of a message: a key of the two dicts, its bytes and its value. *)
Record segment := mkSeg { sg_key : pystr; sg_len : bytes; sg_data : bytes; sg_text : pystr }.
Definition sg_bytes (sg : segment) : bytes := sg_len sg ++ sg_data sg.
Definition dec_of (segs : list segment) : ddoc := map (fun sg => (sg_key sg, sg_text sg)) segs.
Definition enc_of (segs : list segment) : edoc :=
  map (fun sg => (sg_key sg, mkEntry (sg_len sg) (sg_data sg))) segs.
Definition bytes_of (segs : list segment) : bytes := flat_map sg_bytes segs.

(** A header or data field segment of the message. *)
Definition field_segment (E : pyenv) (sp : spec) (sg : segment) : Prop :=
  exists fs, sget (sg_key sg) sp = Some fs
             /\ field_wire E fs (sg_len sg) (sg_data sg) (sg_text sg).

(** The header: absent unless the spec gives it a positive maximum length. *)
Inductive header_part (E : pyenv) (sp : spec) : list segment -> Prop :=
| NoHeader fs ml : sget (u "h") sp = Some fs -> fs_max_len fs = Some ml -> (ml <= 0)%Z ->
    header_part E sp []
| Header fs ml sg : sget (u "h") sp = Some fs -> fs_max_len fs = Some ml -> (0 < ml)%Z ->
    sg_key sg = u "h" -> field_segment E sp sg -> header_part E sp [sg].

Definition type_part (E : pyenv) (sp : spec) (sg : segment) : Prop :=
  exists fs, sget (u "t") sp = Some fs /\ sg_key sg = u "t" /\ sg_len sg = []
             /\ type_wire E fs (sg_data sg) (sg_text sg).

Definition primary_part (E : pyenv) (sp : spec) (sg : segment) (bm1 : bytes) : Prop :=
  exists fs, sget (u "p") sp = Some fs /\ sg_key sg = u "p" /\ sg_len sg = []
             /\ bitmap_wire E fs (sg_data sg) (sg_text sg) bm1.

(** Key "1": the secondary bitmap, present iff bit 1 is on, followed by the
    tertiary one iff its first bit (field 65) is on. *)
Inductive extra_part (E : pyenv) (sp : spec) (bm1 : bytes)
  : list segment -> bytes -> bytes -> Prop :=
| NoExtra : bit bm1 1 = false -> extra_part E sp bm1 [] [] []
| Secondary fs sg bm2 : bit bm1 1 = true -> sget (u "1") sp = Some fs ->
    sg_key sg = u "1" -> sg_len sg = [] -> bitmap_wire E fs (sg_data sg) (sg_text sg) bm2 ->
    bit bm2 1 = false -> extra_part E sp bm1 [sg] bm2 []
| Tertiary fs sg d2 t2 bm2 d3 t3 bm3 : bit bm1 1 = true -> sget (u "1") sp = Some fs ->
    sg_key sg = u "1" -> sg_len sg = [] ->
    sg_data sg = d2 ++ d3 -> sg_text sg = t2 ++ t3 ->
    bitmap_wire E fs d2 t2 bm2 -> bitmap_wire E fs d3 t3 bm3 ->
    bit bm2 1 = true -> extra_part E sp bm1 [sg] bm2 bm3.

(** The data fields: 2..64 and 66..192, i.e. all but the bitmap indicators. *)
Definition data_fields : list Z := map Z.of_nat (seq 2 63 ++ seq 66 127).
(** Field [f] is announced by the three bitmaps. *)
Definition announced (bm1 bm2 bm3 : bytes) (f : Z) : bool :=
  if (f <=? 64)%Z then bit bm1 f
  else if (f <=? 128)%Z then bit bm2 (f - 64) else bit bm3 (f - 128).

Definition fields_part (E : pyenv) (sp : spec) (bm1 bm2 bm3 : bytes) (segs : list segment)
  : Prop :=
  map sg_key segs = map zstr (filter (announced bm1 bm2 bm3) data_fields)
  /\ Forall (field_segment E sp) segs.

(** A message: header?, type, primary bitmap, more bitmaps?, data fields. *)
Definition message (E : pyenv) (sp : spec) (segs : list segment) : Prop :=
  exists hs t p xs fields bm1 bm2 bm3,
    segs = hs ++ t :: p :: xs ++ fields
    /\ header_part E sp hs /\ type_part E sp t /\ primary_part E sp p bm1
    /\ extra_part E sp bm1 xs bm2 bm3 /\ fields_part E sp bm1 bm2 bm3 fields.

(** ** Complete specifications *)
(** A field entry with its mandatory properties (specs.py:21-61); desc matters
    only to the pretty printer. *)
Definition mandatory (fs : fspec) : Prop :=
  fs_data_enc fs <> None /\ fs_len_enc fs <> None /\ fs_len_type fs <> None
  /\ fs_max_len fs <> None.
Definition entry_complete (sp : spec) (k : pystr) : Prop :=
  exists fs, sget k sp = Some fs /\ mandatory fs.
(** All fields a message can have are specified. *)
Definition spec_complete (sp : spec) : Prop :=
  entry_complete sp (u "h") /\ entry_complete sp (u "t") /\ entry_complete sp (u "p")
  /\ entry_complete sp (u "1")
  /\ forall f, In f data_fields -> entry_complete sp (zstr f).

(** The entry of [k] asks for a length prefix of less than no bytes. *)
Definition negative_width (sp : spec) (k : pystr) : Prop :=
  exists fs lt, sget k sp = Some fs /\ fs_len_type fs = Some lt /\ (lt < 0)%Z.
Definition widths_ok (sp : spec) : Prop := forall k, ~ negative_width sp k.

(** The maximum length of [k] is too long to be shown. *)
Definition long_limit (E : pyenv) (sp : spec) (k : pystr) : Prop :=
  exists fs ml, sget k sp = Some fs /\ fs_max_len fs = Some ml /\ ~ showable E ml.
Definition limits_ok (E : pyenv) (sp : spec) : Prop := forall k, ~ long_limit E sp k.

(** The numbers a message about the entry may have to show are not too long: those
    of the entry itself and those a binary length prefix can hold. *)
Definition shows_numbers (E : pyenv) (fs : fspec) : Prop :=
  (forall n, fs_len_type fs = Some n \/ fs_max_len fs = Some n -> showable E n)
  /\ forall le lt n, fs_len_enc fs = Some le -> is_binary le -> fs_len_type fs = Some lt ->
       (0 <= n < 256 ^ lt)%Z -> showable E n.
Definition numbers_ok (E : pyenv) (sp : spec) : Prop :=
  forall k fs, sget k sp = Some fs -> shows_numbers E fs.

(** Text bitmaps are 16 bytes on the wire; this says that such a text never
    spells more than 64 bits, as with every codec that does not decode 16 bytes
    to more than 16 characters. *)
Definition bitmaps_fit (E : pyenv) (sp : spec) : Prop :=
  forall k fs data text bm, k = u "p" \/ k = u "1" -> sget k sp = Some fs ->
    bitmap_wire E fs data text bm -> (length bm <= 8)%nat.

(** The keys of a message with these bitmaps: h when the spec enables a header,
    t, p, 1 when the secondary bitmap is there, and the announced data fields. *)
Definition named (sp : spec) (bm1 bm2 bm3 : bytes) (k : pystr) : Prop :=
  (k = u "h" /\ exists fs ml, sget (u "h") sp = Some fs /\ fs_max_len fs = Some ml /\ (0 < ml)%Z)
  \/ k = u "t" \/ k = u "p" \/ (k = u "1" /\ bit bm1 1 = true)
  \/ exists f, k = zstr f /\ (2 <= f <= 64 \/ 66 <= f <= 192)%Z
               /\ announced bm1 bm2 bm3 f = true.

(** One or several consecutive bitmaps under one key. *)
Inductive bitmap_run (E : pyenv) (fs : fspec) : bytes -> pystr -> Prop :=
| OneBitmap data text bm : bitmap_wire E fs data text bm -> bitmap_run E fs data text
| MoreBitmaps d1 t1 d2 t2 bm : bitmap_run E fs d1 t1 -> bitmap_wire E fs d2 t2 bm ->
    bitmap_run E fs (d1 ++ d2) (t1 ++ t2).

(** A completely decoded segment, whatever its key. *)
Inductive segment_ok (E : pyenv) (sp : spec) (sg : segment) : Prop :=
| OkType : type_part E sp sg -> segment_ok E sp sg
| OkBitmaps fs : sg_key sg = u "p" \/ sg_key sg = u "1" -> sg_len sg = [] ->
    sget (sg_key sg) sp = Some fs -> bitmap_run E fs (sg_data sg) (sg_text sg) ->
    segment_ok E sp sg
| OkField : sg_key sg <> u "t" -> sg_key sg <> u "p" -> sg_key sg <> u "1" ->
    field_segment E sp sg -> segment_ok E sp sg.

(** A DecodeError that tells the truth: it carries the input and the text made
    of its message, field and position, the completely
    decoded segments followed by one for the field that failed, recorded bytes
    being a prefix of the input, and a position within the failing field. *)
Definition truthful_decode_error (E : pyenv) (sp : spec) (s : pybuf) (input : bytes)
    (e : decode_error) : Prop :=
  de_s e = s /\
  de_args0 e = de_msg e ++ u ": field " ++ de_field e ++ u " pos " ++ zstr (de_pos e) /\
  exists segs last rest,
    de_doc_dec e = dec_of (segs ++ [last]) /\ de_doc_enc e = enc_of (segs ++ [last])
    /\ de_field e = sg_key last
    /\ NoDup (map sg_key (segs ++ [last])) /\ Forall (segment_ok E sp) segs
    /\ input = bytes_of (segs ++ [last]) ++ rest
    /\ (zlen (bytes_of segs) <= de_pos e <= zlen (bytes_of (segs ++ [last])))%Z.

(** Two 16-byte texts of one bitmap that differ in letter case only. *)
Definition recased (E : pyenv) (fs : fspec) (d d' : bytes) : Prop :=
  exists de t t', fs_data_enc fs = Some de /\ ~ is_binary de
    /\ length d = 16%nat /\ length d' = 16%nat
    /\ bytes_decode E de d = COk t /\ bytes_decode E de d' = COk t'
    /\ py_upper t = py_upper t'.
(** The same for one or several bitmaps in a row. *)
Inductive recased_run (E : pyenv) (fs : fspec) : bytes -> bytes -> Prop :=
| RecasedOne d d' : recased E fs d d' -> recased_run E fs d d'
| RecasedMore a a' d d' : recased_run E fs a a' -> recased E fs d d' ->
    recased_run E fs (a ++ d) (a' ++ d').
(** Two encoded dicts that differ only in the letter case of text bitmaps. *)
Definition recased_entry (E : pyenv) (sp : spec) (x y : pystr * entry) : Prop :=
  fst x = fst y /\
  (snd x = snd y
   \/ (fst x = u "p" \/ fst x = u "1") /\ e_len (snd x) = e_len (snd y)
      /\ exists fs, sget (fst x) sp = Some fs
                     /\ recased_run E fs (e_data (snd x)) (e_data (snd y))).
(** All the bytes an encoded dict lists, in its order. *)
Definition wire_bytes (enc : edoc) : bytes :=
  flat_map (fun ke => e_len (snd ke) ++ e_data (snd ke)) enc.

(** ** Codecs *)
(** Decoding undoes encoding. *)
Definition roundtrips (E : pyenv) (enc : pystr) : Prop :=
  forall s b, str_encode E enc s = COk b -> bytes_decode E enc b = COk s.
(** Encoding undoes decoding. *)
Definition faithful (E : pyenv) (enc : pystr) : Prop :=
  forall s b, bytes_decode E enc b = COk s -> str_encode E enc s = COk b.
(** No more characters than bytes. *)
Definition never_expands (E : pyenv) (enc : pystr) : Prop :=
  forall s b, bytes_decode E enc b = COk s -> (length s <= length b)%nat.
(** One byte per ASCII character. *)
Definition ascii_width (E : pyenv) (enc : pystr) : Prop :=
  forall s b, Forall (fun c => (c < 128)%N) s -> str_encode E enc s = COk b ->
    length b = length s.

(** ** Encoding of values *)
(** [w] spells the bytes [data] in hexadecimal, in either case. *)
Definition spells (w : pystr) (data : bytes) : Prop := py_upper w = HEX data.

(** The hexadecimal digits a binary value holds: a str or a bytes-like object. *)
Definition digits_of (v : pyval) : option pystr :=
  match v with VStr s => Some s | VBytes b => Some (map b2n b) | VOther _ => None end.

(** The sender's pad: left when configured, otherwise right (specs.py:62-91). *)
Definition pad_digits (fs : fspec) (d w : pystr) : Prop :=
  (exists c, pad_char (fs_left_pad fs) = Some c /\ w = c :: d)
  \/ (pad_char (fs_left_pad fs) = None
      /\ exists c, pad_char (fs_right_pad fs) = Some c /\ w = d ++ [c]).

(** Value [v] is sent as [data], counting [n] units. *)
Inductive encodes_value (E : pyenv) (fs : fspec) : pyval -> bytes -> Z -> Prop :=
| EncHex de v d data : fs_data_enc fs = Some de -> is_binary de -> digits_of v = Some d ->
    in_nibbles fs && Nat.odd (length d) = false -> spells d data ->
    encodes_value E fs v data (if in_nibbles fs then zlen d else zlen data)
| EncPaddedHex de d w data : fs_data_enc fs = Some de -> is_binary de ->
    in_nibbles fs && Nat.odd (length d) = true -> pad_digits fs d w -> spells w data ->
    encodes_value E fs (VStr d) data (zlen d)
| EncText de s data : fs_data_enc fs = Some de -> ~ is_binary de ->
    str_encode E de s = COk data ->
    encodes_value E fs (VStr s) data (if in_nibbles fs then 2 * zlen data else zlen data)%Z.

(** [lenb] is the prefix sent for length [n] in [lt] bytes. *)
Inductive encodes_prefix (E : pyenv) (le : pystr) (lt : nat) (n : Z) (lenb : bytes) : Prop :=
| EncPrefixBinary : is_binary le -> length lenb = lt -> Z.of_N (big_endian lenb) = n ->
    encodes_prefix E le lt n lenb
| EncPrefixBcd v : is_bcd le -> length lenb = lt -> bcd_value lenb = Some v -> Z.of_N v = n ->
    encodes_prefix E le lt n lenb
| EncPrefixText : ~ is_binary le -> ~ is_bcd le ->
    str_encode E le (fmt0d lt (Z.to_N n)) = COk lenb -> (length lenb <= lt)%nat ->
    encodes_prefix E le lt n lenb.

Inductive encodes_length (E : pyenv) (fs : fspec) (n : Z) (lenb : bytes) : Prop :=
| EncFixed : fs_len_type fs = Some 0%Z -> fs_max_len fs = Some n -> lenb = [] ->
    encodes_length E fs n lenb
| EncVariable lt le ml : fs_len_type fs = Some (Z.of_nat lt) -> lt <> O -> fs_max_len fs = Some ml ->
    (n <= ml)%Z -> fs_len_enc fs = Some le -> encodes_prefix E le lt n lenb ->
    encodes_length E fs n lenb.

(** A header or data field with value [v] is sent as [lenb] followed by [data]. *)
Definition field_encodes (E : pyenv) (fs : fspec) (v : pyval) (lenb data : bytes) : Prop :=
  exists n, encodes_value E fs v data n /\ encodes_length E fs n lenb.

(** The message type. It is never padded. *)
Inductive type_encodes (E : pyenv) (fs : fspec) : pyval -> bytes -> Prop :=
| EncTypeBinary de v d data : fs_data_enc fs = Some de -> is_binary de -> digits_of v = Some d ->
    spells d data -> length data = 2%nat -> type_encodes E fs v data
| EncTypeText de s data : fs_data_enc fs = Some de -> ~ is_binary de ->
    str_encode E de s = COk data -> length data = 4%nat -> type_encodes E fs (VStr s) data.

(** A bitmap [bm]: as is, or its upper-case hexadecimal text. *)
Inductive bitmap_encodes (E : pyenv) (fs : fspec) (bm data : bytes) : Prop :=
| EncBitmapBinary de : fs_data_enc fs = Some de -> is_binary de -> data = bm ->
    bitmap_encodes E fs bm data
| EncBitmapText de : fs_data_enc fs = Some de -> ~ is_binary de ->
    str_encode E de (HEX bm) = COk data -> bitmap_encodes E fs bm data.
