(** * HistoryClaims: vocabulary for whole executions in which the library is called. *)
From Verif Require Import PyBase BaseFacts Types Decoder Encoder Tools Wire WireEncode Claims Pretty PyAst Source PySem SemClaims SessionClaims.
Local Open Scope string_scope.
Local Open Scope list_scope.

(** What the caller does to their dict: d[k] = t, d.pop(k, None). *)
Inductive edit := SetItem (k t : pystr) | DelItem (k : pystr).
Definition edited (k : pystr) (v : option PySem.value) (e : edit) : option PySem.value :=
  match e with
  | SetItem k' t => if str_eqb k k' then Some (StrV t) else v
  | DelItem k' => if str_eqb k k' then None else v
  end.
(** The item [k] after some edits, in order. *)
Definition after_edits (es : list edit) (k : pystr) (v : option PySem.value) : option PySem.value := fold_left (edited k) es v.
(** The keys encode() writes to. *)
Definition bitmap_item (k : pystr) : Prop := k = u "p" \/ k = u "1" \/ k = u "65".

(** What may happen in a program in which somebody has a dict at [a] and a specification [spv]: anybody calls a function of
    the library on any objects, the dict at [a] among them, with any specification, and the call ends in any way; the
    dict is edited; anything else happens that touches neither the dict nor the specification. *)
Inductive event (E : pyenv) (order : list Z -> list Z) (a : loc) (spv : PySem.value) : heap -> list edit -> heap -> Prop :=
| Encoding r dv d sv sp o h h' :
    dict_rep h dv d -> in_memory d -> spec_rep h sv sp -> spec_apart h sv dv -> spec_apart h spv dv ->
    call_encode E order r [dv; sv] h = (o, h') -> event E order a spv h [] h'
| Decoding r iv s sv sp o h h' :
    input_rep h iv s -> spec_rep h sv sp -> (zlen (buf_bytes s) < 2 ^ 63)%Z ->
    call_decode E order r [iv; sv] h = (o, h') -> event E order a spv h [] h'
| Printing r docv doc sv sp dv dw lv lw stv w t o h h' :
    doc_rep E h docv doc -> spec_rep h sv sp -> width_rep E dv dw -> width_rep E lv lw ->
    stream_rep (r_stdout r) stv w -> hget h w = Some (StreamO t) ->
    call_pp E order r [docv; sv; dv; stv; lv] h = (o, h') -> event E order a spv h [] h'
| Setting k t items h h' :
    hget h a = Some (DictO items) -> (zlen t < 2 ^ 62)%Z ->
    hget h' a = Some (DictO (dset key_eqb (KStr k) (StrV t) items)) -> (forall l, l <> a -> hget h' l = hget h l) ->
    event E order a spv h [SetItem k t] h'
| Deleting k items h h' :
    hget h a = Some (DictO items) ->
    hget h' a = Some (DictO (dpop key_eqb (KStr k) items)) -> (forall l, l <> a -> hget h' l = hget h l) ->
    event E order a spv h [DelItem k] h'
| Elsewhere h h' :
    hget h' a = hget h a -> (forall l, part_of h spv (RefV l) -> hget h' l = hget h l) -> event E order a spv h [] h'.
(** Any number of events, the edits in order. *)
Inductive execution (E : pyenv) (order : list Z -> list Z) (a : loc) (spv : PySem.value) : heap -> list edit -> heap -> Prop :=
| Starts h : execution E order a spv h [] h
| Continues h es h1 es' h' : execution E order a spv h es h1 -> event E order a spv h1 es' h' -> execution E order a spv h (es ++ es') h'.
(** Returned by encode() in two heaps: the same bytes, the same entries. *)
Definition same_returned (h h' : heap) (o o' : outcome PySem.value) : Prop :=
  exists s e s' e' bs enc i i', o = Done (TupleV [RefV s; RefV e]) /\ o' = Done (TupleV [RefV s'; RefV e'])
    /\ hget h s = Some (BytearrayO bs) /\ hget h' s' = Some (BytearrayO bs) /\ enc_dict h e i enc /\ enc_dict h' e' i' enc.
(** Returned, or raised as DecodeError, by decode() of [v] and of [v'] in two heaps. *)
Definition same_decoded (h h' : heap) (v v' : PySem.value) (o o' : outcome PySem.value) : Prop :=
  exists a e a' e' dec enc i i', dec_dict h a dec /\ dec_dict h' a' dec /\ enc_dict h e i enc /\ enc_dict h' e' i' enc /\
    ( o = Done (TupleV [RefV a; RefV e]) /\ o' = Done (TupleV [RefV a'; RefV e'])
    \/ exists l l' msg pos field, o = Thrown (RefV l) /\ o' = Thrown (RefV l')
       /\ hget h l = Some (decode_error_at msg v (RefV a) (RefV e) pos field)
       /\ hget h' l' = Some (decode_error_at msg v' (RefV a') (RefV e') pos field)).
(** Raised as EncodeError by encode() of [v] and of [v'] in two heaps: the same message, field and entries. *)
Definition same_refused (h h' : heap) (v v' : PySem.value) (o o' : outcome PySem.value) : Prop :=
  exists l l' e e' msg field enc i i', o = Thrown (RefV l) /\ o' = Thrown (RefV l')
    /\ hget h l = Some (encode_error_at msg v (RefV e) field) /\ hget h' l' = Some (encode_error_at msg v' (RefV e') field)
    /\ enc_dict h e i enc /\ enc_dict h' e' i' enc.
(** Two calls raised an exception of the same built-in class; nothing is said of the text of a ValueError. *)
Definition raised_alike (o o' : outcome PySem.value) : Prop :=
  exists c t t', o = Thrown (ExcV c t) /\ o' = Thrown (ExcV c t') /\ (c <> "ValueError" -> t = t').

(** Two specifications describe field [k] alike: both have it or neither does; the first [dw] characters of the descriptions agree. *)
Definition described_alike (dw : Z) (sp sp' : spec) (k : pystr) : Prop :=
  match sget k sp, sget k sp' with
  | Some fs, Some fs' =>
      match fs_desc fs, fs_desc fs' with
      | Some x, Some y => firstn (Z.to_nat dw) x = firstn (Z.to_nat dw) y
      | None, None => True
      | _, _ => False
      end
  | None, None => True
  | _, _ => False
  end.
(** Both have a header, or neither. *)
Definition header_alike (sp sp' : spec) : Prop :=
  match sget (u "h") sp, sget (u "h") sp' with
  | Some fs, Some fs' =>
      match fs_max_len fs, fs_max_len fs' with
      | Some m, Some m' => (0 < m <-> 0 < m')%Z
      | None, None => True
      | _, _ => False
      end
  | None, None => True
  | _, _ => False
  end.
(** pp() shows such keys: the header if the specification has one, the type, the primary bitmap, numbered fields. *)
Definition shown_key (E : pyenv) (sp : spec) (k : pystr) : Prop :=
  k = u "h" /\ header_on sp \/ k = u "t" \/ k = u "p" \/ isnumeric E k = true.
(** They print the dict alike. *)
Definition prints_alike (E : pyenv) (doc : ppdoc) (dw : Z) (sp sp' : spec) : Prop :=
  (Pretty.shows doc (u "h") -> header_alike sp sp') /\
  forall k, Pretty.shows doc k -> shown_key E sp k -> (0 < dw)%Z -> described_alike dw sp sp' k.
