(** * WireEncode: what encode has to send for a dict, stated declaratively.

    Written from the documentation (the docstring of encode, encoder.py:42-78,
    and specs.py:1-119); uses none of the definitions of Decoder.v and Encoder.v. *)
From Verif Require Import PyBase Types Numerals Wire.

(** A dict has every key once. *)
Definition is_dict (d : pdoc) : Prop := NoDup (map fst d).
(** d[k] *)
Definition value (d : pdoc) (k : pystr) : option pyval := dget key_eqb (KStr k) d.

(** The dict has data field [f]: one of its numeric keys denotes [f]. The bitmap
    keys "1" and "65" are not looked at, whatever they hold. *)
Definition has_field (E : pyenv) (d : pdoc) (f : Z) : Prop :=
  exists k, In (KStr k) (map fst d) /\ k <> u "1" /\ k <> u "65"
            /\ isnumeric E k = true /\ int_text E k f.

(** All keys are str, and the numeric ones are field numbers. *)
Definition keys_ok (E : pyenv) (d : pdoc) : Prop :=
  forall k, In k (map fst d) -> exists s, k = KStr s /\
    (s <> u "1" -> s <> u "65" -> isnumeric E s = true ->
     exists f, int_text E s f /\ (1 <= f <= 192)%Z).

(** The bits that must be on: the fields present, 65 when a field 129..192 is,
    and 1 when a field 65..192 is. *)
Definition sends (E : pyenv) (d : pdoc) (f : Z) : Prop :=
  has_field E d f
  \/ (f = 65 /\ exists g, 129 <= g <= 192 /\ has_field E d g)%Z
  \/ (f = 1 /\ exists g, 65 <= g <= 192 /\ has_field E d g)%Z.

(** The three bitmaps of the message. *)
Definition bitmaps_for (E : pyenv) (d : pdoc) (bm1 bm2 bm3 : bytes) : Prop :=
  length bm1 = 8%nat /\ length bm2 = 8%nat /\ length bm3 = 8%nat
  /\ forall i, (1 <= i <= 64)%Z ->
       (bit bm1 i = true <-> sends E d i)
       /\ (bit bm2 i = true <-> sends E d (64 + i))
       /\ (bit bm3 i = true <-> sends E d (128 + i)).

(** "h" unless the spec switches the header off. *)
Definition header_key (sp : spec) : list pystr :=
  match sget (u "h") sp with
  | Some fs => match fs_max_len fs with
               | Some ml => if (ml <=? 0)%Z then [] else [u "h"]
               | None => [u "h"]
               end
  | None => [u "h"]
  end.

(** The keys of the message in wire order. *)
Definition plan (sp : spec) (bm1 bm2 bm3 : bytes) : list pystr :=
  header_key sp ++ u "t" :: u "p" :: (if bit bm1 1 then [u "1"] else [])
  ++ map zstr (filter (announced bm1 bm2 bm3) data_fields).

(** One piece of the message: a key of the encoded dict with its bytes. *)
Inductive entry_sent (E : pyenv) (sp : spec) (d : pdoc) (bm1 bm2 bm3 : bytes)
  : pystr * entry -> Prop :=
| SentField k fs v lenb data : k = u "h" \/ (exists f, In f data_fields /\ k = zstr f) ->
    sget k sp = Some fs -> value d k = Some v -> field_encodes E fs v lenb data ->
    entry_sent E sp d bm1 bm2 bm3 (k, mkEntry lenb data)
| SentType fs v data : sget (u "t") sp = Some fs -> value d (u "t") = Some v ->
    type_encodes E fs v data -> entry_sent E sp d bm1 bm2 bm3 (u "t", mkEntry [] data)
| SentPrimary fs data : sget (u "p") sp = Some fs -> bitmap_encodes E fs bm1 data ->
    entry_sent E sp d bm1 bm2 bm3 (u "p", mkEntry [] data)
| SentSecondary fs data : bit bm2 1 = false -> sget (u "1") sp = Some fs ->
    bitmap_encodes E fs bm2 data -> entry_sent E sp d bm1 bm2 bm3 (u "1", mkEntry [] data)
| SentTertiary fs d2 d3 : bit bm2 1 = true -> sget (u "1") sp = Some fs ->
    bitmap_encodes E fs bm2 d2 -> bitmap_encodes E fs bm3 d3 ->
    entry_sent E sp d bm1 bm2 bm3 (u "1", mkEntry [] (d2 ++ d3)).

(** [enc] is the message for [d]. *)
Definition encoding (E : pyenv) (sp : spec) (d : pdoc) (bm1 bm2 bm3 : bytes) (enc : edoc)
  : Prop :=
  keys_ok E d /\ bitmaps_for E d bm1 bm2 bm3
  /\ map fst enc = plan sp bm1 bm2 bm3 /\ Forall (entry_sent E sp d bm1 bm2 bm3) enc.

(** The caller's dict afterwards: old bitmaps out, new bitmaps in. *)
Definition with_bitmaps (d : pdoc) (bm1 bm2 bm3 : bytes) : pdoc :=
  let d0 := dpop key_eqb (KStr (u "65")) (dpop key_eqb (KStr (u "1")) d) in
  let d1 := dset key_eqb (KStr (u "p")) (VStr (HEX bm1)) d0 in
  if bit bm1 1
  then dset key_eqb (KStr (u "1"))
         (VStr (HEX bm2 ++ if bit bm2 1 then HEX bm3 else [])) d1
  else d1.

(** Everything of the dict but the bitmaps, in order. *)
Definition is_bitmap_key (k : pykey) : bool :=
  key_eqb (KStr (u "p")) k || key_eqb (KStr (u "1")) k || key_eqb (KStr (u "65")) k.
Definition content (d : pdoc) : pdoc := filter (fun kv => negb (is_bitmap_key (fst kv))) d.

(** The value is a str. *)
Definition is_str (v : pyval) : Prop := exists s, v = VStr s.
(** An exception only a value that is not a str can cause. *)
Definition bad_value (v : pyval) (x : exn) : Prop :=
  ~ is_str v /\ (x = XUnboundLocalError \/ x = XTypeError (u "object has no len()")).

(** Why encode may fail, [k] being the field it has reached: EncodeError for [k];
    KeyError because the spec entry of [k] is missing or incomplete, or because
    the field was announced by another spelling of its number; ValueError for a
    numeric key that int() does not take, or for an entry of negative len_type or
    whose max_len is too long to be shown; another error for a non-str value. *)
Inductive failure_cause (E : pyenv) (sp : spec) (d d' : pdoc) (enc : edoc) (k : pystr)
  : exn -> Prop :=
| CauseEncodeError msg :
    failure_cause E sp d d' enc k (XEncodeError (EncodeError msg d' enc k))
| CauseSpec nm : ~ entry_complete sp k -> failure_cause E sp d d' enc k (XKeyError nm)
| CauseKey f : In f data_fields -> k = zstr f -> value d k = None -> has_field E d f ->
    failure_cause E sp d d' enc k (XKeyError k)
| CauseNumeric s : k = u "p" -> In (KStr s) (map fst d) -> isnumeric E s = true ->
    not_int E s -> failure_cause E sp d d' enc k XValueError
| CauseWidth : negative_width sp k -> failure_cause E sp d d' enc k XValueError
| CauseLimit : long_limit E sp k -> failure_cause E sp d d' enc k XValueError
| CauseValue v x : value d k = Some v -> bad_value v x -> failure_cause E sp d d' enc k x.

(** The state encode is in when it fails at field [k] of the plan: the fields
    before [k] completely encoded, and possibly an entry for [k]. *)
Definition fails_at (E : pyenv) (sp : spec) (d d' : pdoc) (x : exn) (k : pystr) : Prop :=
  exists bm1 bm2 bm3 done tail rest,
    bitmaps_for E d bm1 bm2 bm3
    /\ plan sp bm1 bm2 bm3 = map fst done ++ k :: rest
    /\ Forall (entry_sent E sp d bm1 bm2 bm3) done
    /\ (tail = [] \/ exists e, tail = [(k, e)])
    /\ failure_cause E sp d d' (done ++ tail) k x.
