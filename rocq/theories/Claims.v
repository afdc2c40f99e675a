(** * Claims: vocabulary of the property statements about encode. *)
From Verif Require Import PyBase Types Numerals Encoder Wire WireEncode.

(** The dict maps str to str. *)
Definition str_dict (d : pdoc) : Prop :=
  is_dict d /\ forall k v, In (k, v) d -> (exists s, k = KStr s) /\ is_str v.
(** Key [k] is in the dict. *)
Definition has_key (d : pdoc) (k : pystr) : Prop := In (KStr k) (map fst d).
(** Numeric keys are plain decimal numbers such as "2", not "02" or "½"; 640
    digits are accepted under every limit CPython can be given. *)
Definition canonical_keys (E : pyenv) (d : pdoc) : Prop :=
  forall k, has_key d k -> isnumeric E k = true ->
    (length k <= 640)%nat /\ exists n, (0 <= n)%Z /\ k = zstr n.

(** Apart from the bitmaps the dicts hold the same (key, value) pairs. *)
Definition same_content (d1 d2 : pdoc) : Prop :=
  forall k v, is_bitmap_key k = false -> (In (k, v) d1 <-> In (k, v) d2).

(** What a caller may do to a dict over time. *)
Inductive op := Put (k : pykey) (v : pyval) | Del (k : pykey) | Enc (sp : spec).
Definition step (E : pyenv) (d : pdoc) (o : op) : pdoc :=
  match o with
  | Put k v => dset key_eqb k v d
  | Del k => dpop key_eqb k d
  | Enc sp => snd (encode E (ADict d) sp)
  end.
Definition history (E : pyenv) (ops : list op) (d : pdoc) : pdoc := fold_left (step E) ops d.
Definition is_edit (o : op) : bool := match o with Enc _ => false | _ => true end.
Definition edits (ops : list op) : list op := filter is_edit ops.

(** encode returns these bytes and this encoded dict. *)
Definition encodes_to (E : pyenv) (sp : spec) (d : pdoc) (s : bytes) (enc : edoc) : Prop :=
  exists d', encode E (ADict d) sp = (Ok (s, enc), d').

(** Both bitmap entries of the spec can send any bitmap. *)
Definition bitmaps_sendable (E : pyenv) (sp : spec) : Prop :=
  forall k bm, k = u "p" \/ k = u "1" -> length bm = 8%nat ->
    exists fs data, sget k sp = Some fs /\ bitmap_encodes E fs bm data.
(** Field [k] of the dict can be sent. *)
Definition encodable (E : pyenv) (sp : spec) (d : pdoc) (k : pystr) : Prop :=
  exists fs v lenb data, sget k sp = Some fs /\ value d k = Some v
    /\ field_encodes E fs v lenb data.
Definition type_encodable (E : pyenv) (sp : spec) (d : pdoc) : Prop :=
  exists fs v data, sget (u "t") sp = Some fs /\ value d (u "t") = Some v
    /\ type_encodes E fs v data.
(** The spec switches the header on / off. *)
Definition header_on (sp : spec) : Prop :=
  exists fs ml, sget (u "h") sp = Some fs /\ fs_max_len fs = Some ml /\ (0 < ml)%Z.
Definition header_off (sp : spec) : Prop :=
  exists fs ml, sget (u "h") sp = Some fs /\ fs_max_len fs = Some ml /\ (ml <= 0)%Z.
(** A data field number: 1 and 65 are bitmap indicators. *)
Definition data_field (n : Z) : Prop := (2 <= n <= 64 \/ 66 <= n <= 192)%Z.

(** The bitmaps the encoded dict holds: the primary one under "p", the other one
    or two under "1" when bit 1 is on. *)
Definition sent_bitmaps (E : pyenv) (sp : spec) (enc : edoc) (bm1 bm2 bm3 : bytes) : Prop :=
  length bm1 = 8%nat /\ length bm2 = 8%nat /\ length bm3 = 8%nat
  /\ (exists fs data, sget (u "p") sp = Some fs /\ sget (u "p") enc = Some (mkEntry [] data)
        /\ bitmap_encodes E fs bm1 data)
  /\ (bit bm1 1 = false -> sget (u "1") enc = None)
  /\ (bit bm1 1 = true -> exists fs d2 d3, sget (u "1") sp = Some fs
        /\ sget (u "1") enc = Some (mkEntry [] (d2 ++ d3)) /\ bitmap_encodes E fs bm2 d2
        /\ if bit bm2 1 then bitmap_encodes E fs bm3 d3 else d3 = []).

(** The number of units of a value sent as [data]: bytes; in nibbles, the hex
    digits of a binary value and two per byte of text. *)
Definition units (fs : fspec) (v : pyval) (data : bytes) (n : Z) : Prop :=
  if in_nibbles fs then
    (exists de d, fs_data_enc fs = Some de /\ is_binary de /\ digits_of v = Some d /\ n = zlen d)
    \/ (exists de, fs_data_enc fs = Some de /\ ~ is_binary de /\ n = 2 * zlen data)%Z
  else n = zlen data.
(** [lenb] is [n] in exactly [lt] bytes. *)
Definition prefix_exact (E : pyenv) (le : pystr) (lt : nat) (n : Z) (lenb : bytes) : Prop :=
  (is_binary le -> length lenb = lt /\ Z.of_N (big_endian lenb) = n)
  /\ (is_bcd le -> length lenb = lt /\ exists v, bcd_value lenb = Some v /\ Z.of_N v = n)
  /\ (~ is_binary le -> ~ is_bcd le -> ascii_width E le ->
      length lenb = lt /\ length (fmt0d lt (Z.to_N n)) = lt
      /\ str_encode E le (fmt0d lt (Z.to_N n)) = COk lenb).
(** [n] cannot be written in [lt] bytes. *)
Definition too_long (E : pyenv) (le : pystr) (lt : nat) (n : Z) : Prop :=
  (is_binary le /\ 256 ^ Z.of_nat lt <= n \/ is_bcd le /\ 100 ^ Z.of_nat lt <= n
   \/ ~ is_binary le /\ ~ is_bcd le /\ ascii_width E le /\ 10 ^ Z.of_nat lt <= n)%Z.

(** ** Round trips *)
(** The value as decode returns it: binary entries in upper-case hexadecimal. *)
Definition normal (fs : fspec) (v : pystr) : pystr :=
  match fs_data_enc fs with
  | Some de => if str_eqb de (u "b") then py_upper v else v
  | None => v
  end.
(** Decoding undoes encoding, and no bytes are no text. *)
Definition reversible (E : pyenv) (enc : pystr) : Prop :=
  roundtrips E enc /\ bytes_decode E enc [] = COk [].
(** Pads of binary fields counted in nibbles are upper-case hex digits. *)
Definition pads_upper (fs : fspec) : Prop :=
  forall c, in_nibbles fs = true ->
    pad_char (fs_left_pad fs) = Some c \/ pad_char (fs_right_pad fs) = Some c -> upper_char c = c.
(** Any length prefix that can be sent can be read. *)
Definition lengths_reversible (E : pyenv) (fs : fspec) : Prop :=
  forall lt le, fs_len_type fs = Some (Z.of_nat lt) -> lt <> O -> fs_len_enc fs = Some le ->
    is_binary le \/ is_bcd le /\ within_digit_limit E (2 * lt)
    \/ ~ is_binary le /\ ~ is_bcd le /\ roundtrips E le /\ ascii_width E le /\ within_digit_limit E lt.
(** A spec whose text encodings round-trip and whose pads are upper-case. *)
Definition reversible_spec (E : pyenv) (sp : spec) : Prop :=
  forall k fs, sget k sp = Some fs ->
    (forall de, fs_data_enc fs = Some de -> is_binary de
       \/ reversible E de /\ (k = u "p" \/ k = u "1" -> ascii_width E de))
    /\ (k <> u "t" -> k <> u "p" -> k <> u "1" -> pads_upper fs /\ lengths_reversible E fs).
(** The keys that go on the wire. *)
Definition wire_key (sp : spec) (k : pystr) : Prop :=
  k = u "h" /\ header_on sp \/ k = u "t" \/ k = u "p" \/ k = u "1"
  \/ exists n, data_field n /\ k = zstr n.
(** The decoded dict as an argument of encode. *)
Definition as_dict (dec : ddoc) : pdoc := map (fun kt => (KStr (fst kt), VStr (snd kt))) dec.
(** The keys of a message apart from its bitmaps. *)
Definition message_key (sp : spec) (k : pystr) : Prop :=
  k = u "h" /\ header_on sp \/ k = u "t" \/ exists n, data_field n /\ k = zstr n.
(** Both absent, or the same text; in hexadecimal, up to letter case. *)
Definition same_up_to_case (sp : spec) (k : pystr) (o1 o2 : option pyval) : Prop :=
  match o1, o2 with
  | None, None => True
  | Some (VStr a), Some (VStr b) => exists fs, sget k sp = Some fs /\ normal fs a = normal fs b
  | _, _ => False
  end.

(** ** Canonical messages *)
Definition upper_hex_digit (c : N) : Prop := (48 <= c <= 57 \/ 65 <= c <= 70)%N.
(** A field in the form a sender produces: a text length is plain zero-padded
    decimal, the pad is on the side the sender uses, and text counted in nibbles
    has two per byte. *)
Definition canonical_entry (E : pyenv) (fs : fspec) (lenb data : bytes) (text : pystr) : Prop :=
  (forall lt le t, fs_len_type fs = Some (Z.of_nat lt) -> lt <> O -> fs_len_enc fs = Some le ->
     ~ is_binary le -> ~ is_bcd le -> bytes_decode E le lenb = COk t -> exists n, t = fmt0d lt n)
  /\ (in_nibbles fs = true -> forall de, fs_data_enc fs = Some de ->
      if str_eqb de (u "b") then Nat.odd (length text) = true -> pad_digits fs text (HEX data)
      else forall n, announces E fs lenb n -> Z.even n = true).
(** Bitmaps are upper-case hexadecimal without white space, the secondary and
    tertiary ones are there only when needed, and every field is canonical. *)
Definition canonical_message (E : pyenv) (sp : spec) (dec : ddoc) (enc : edoc) : Prop :=
  (forall k t, k = u "p" \/ k = u "1" -> sget k dec = Some t -> Forall upper_hex_digit t)
  /\ (sget (u "1") dec <> None -> exists g, (66 <= g <= 192)%Z /\ sget (zstr g) dec <> None)
  /\ (forall t, sget (u "1") dec = Some t -> (16 < length t)%nat ->
      exists g, (129 <= g <= 192)%Z /\ sget (zstr g) dec <> None)
  /\ forall k fs e t, k <> u "t" -> k <> u "p" -> k <> u "1" -> sget k sp = Some fs ->
       sget k enc = Some e -> sget k dec = Some t -> canonical_entry E fs (e_len e) (e_data e) t.
(** Encoding undoes decoding, also of no bytes; entries have a data encoding;
    text bitmaps take one byte per ASCII character. *)
Definition faithful_spec (E : pyenv) (sp : spec) : Prop :=
  forall k fs, sget k sp = Some fs ->
    (exists de, fs_data_enc fs = Some de /\ (is_binary de
       \/ faithful E de /\ str_encode E de [] = COk [] /\ (k = u "p" \/ k = u "1" -> ascii_width E de)))
    /\ (forall le, fs_len_enc fs = Some le -> is_binary le \/ is_bcd le \/ faithful E le).

(** ** Shipped specifications *)
(** The codec exists and writes every string of digits. *)
Definition writes_digits (E : pyenv) (enc : pystr) : Prop :=
  forall s, Forall (fun c => 48 <= c <= 57)%N s -> exists b, str_encode E enc s = COk b.
(** Every length up to the maximum can be written in the prefix. *)
Definition lengths_expressible (E : pyenv) (fs : fspec) : Prop :=
  forall lt le ml, fs_len_type fs = Some lt -> lt <> 0%Z -> fs_len_enc fs = Some le ->
    fs_max_len fs = Some ml ->
    (0 < lt /\ (is_binary le /\ ml < 256 ^ lt \/ is_bcd le /\ ml < 100 ^ lt
     \/ ~ is_binary le /\ ~ is_bcd le /\ writes_digits E le /\ ascii_width E le /\ ml < 10 ^ lt))%Z.
