(** * SemClaims: vocabulary for running the text of the library. *)
From Coq Require Import Permutation.
From Verif Require Import PyBase Types Encoder Tools PyAst PySem.
Local Open Scope string_scope.
Local Open Scope list_scope.

(** ** Arguments *)
(** The properties of a field. *)
Record fs_rep (m : list (pystr * value)) (fs : fspec) : Prop := {
  rep_data_enc : sget (u "data_enc") m = option_map StrV (fs_data_enc fs);
  rep_len_enc : sget (u "len_enc") m = option_map StrV (fs_len_enc fs);
  rep_len_type : sget (u "len_type") m = option_map IntV (fs_len_type fs);
  rep_max_len : sget (u "max_len") m = option_map IntV (fs_max_len fs);
  rep_len_count : sget (u "len_count") m = option_map StrV (fs_len_count fs);
  rep_left_pad : sget (u "left_pad") m = option_map StrV (fs_left_pad fs);
  rep_right_pad : sget (u "right_pad") m = option_map StrV (fs_right_pad fs);
  rep_desc : sget (u "desc") m = option_map StrV (fs_desc fs)
}.
(** The mapping [v]: a dict in the heap, or a mapping that cannot be changed. *)
Definition reads (h : heap) (v : value) (m : list (pystr * value)) : Prop :=
  match v with
  | MapV m' => m' = m
  | RefV l => exists items, hget h l = Some (DictO items) /\ forall k, dget key_eqb (KStr k) items = sget k m
  | _ => False
  end.
Definition spec_rep (h : heap) (v : value) (sp : spec) : Prop :=
  exists m, reads h v m /\
  forall k, match sget k sp with
            | Some fs => exists fv fm, sget k m = Some fv /\ reads h fv fm /\ fs_rep fm fs
            | None => sget k m = None
            end.
(** The spec is not the object [v], nor is one of its entries. *)
Definition spec_apart (h : heap) (sv v : value) : Prop :=
  sv <> v /\ forall m k fv, reads h sv m -> sget k m = Some fv -> fv <> v.
(** The name of the class of a value. *)
Definition class_name (h : heap) (v : value) : option pystr :=
  match type_of h v with TypeV c => Some (u c) | OtherTypeV c => Some c | _ => None end.
(** The first argument of decode: a bytes object, a bytearray, anything else. *)
Definition input_rep (h : heap) (v : value) (s : pybuf) : Prop :=
  match s with
  | InBytes b => v = BytesV b
  | InBytearray b => exists l, v = RefV l /\ hget h l = Some (BytearrayO b)
  | InOther cls => class_name h v = Some cls /\ type_of h v <> TypeV "bytes" /\ type_of h v <> TypeV "bytearray"
  end.

(** ** Results: objects *)
(** A dict of texts. *)
Definition dec_dict (h : heap) (l : loc) (d : ddoc) : Prop :=
  hget h l = Some (DictO (map (fun kv => (KStr (fst kv), StrV (snd kv))) d)).
(** A dict of dicts {"len": .., "data": ..}, at [l]; those are at [inner], in order. *)
Definition entry_dict (e : entry) : object :=
  DictO [(KStr (u "len"), BytesV (e_len e)); (KStr (u "data"), BytesV (e_data e))].
Definition enc_dict (h : heap) (l : loc) (inner : list loc) (d : edoc) : Prop :=
  length inner = length d /\
  hget h l = Some (DictO (combine (map (fun ke => KStr (fst ke)) d) (map RefV inner))) /\
  forall i ke m, nth_error d i = Some ke -> nth_error inner i = Some m -> hget h m = Some (entry_dict (snd ke)).
(** All objects of [h] are still there, as they were. *)
Definition untouched (h h' : heap) : Prop := forall l, l < length h -> hget h' l = hget h l.

(** New objects, all different. *)
Definition fresh (h : heap) (ls : list loc) : Prop := NoDup ls /\ Forall (fun l => length h <= l) ls.
(** decode() was called in the heap [h] with the object [sv] as its first argument and ended with
    [o], the heap then being [h']: that is what [m] says. *)
Definition decode_outcome (h : heap) (sv : value) (m : res exn (ddoc * edoc)) (o : outcome value) (h' : heap) : Prop :=
  match m with
  | Ok (dec, enc) => exists a b inner,
      o = Done (TupleV [RefV a; RefV b]) /\ dec_dict h' a dec /\ enc_dict h' b inner enc /\ fresh h (a :: b :: inner)
  | Raise (XDecodeError e) => exists l a b inner,
      o = Thrown (RefV l) /\
      hget h' l = Some (InstO "DecodeError"
        [("msg", StrV (de_msg e)); ("s", sv); ("doc_dec", RefV a); ("doc_enc", RefV b);
         ("field", StrV (de_field e)); ("pos", IntV (de_pos e))] [StrV (de_args0 e)]) /\
      dec_dict h' a (de_doc_dec e) /\ enc_dict h' b inner (de_doc_enc e) /\ fresh h (l :: a :: b :: inner)
  | Raise (XKeyError k) => o = Thrown (ExcV "KeyError" k)
  | Raise (XTypeError t) => o = Thrown (ExcV "TypeError" t)
  | Raise XValueError => exists t, o = Thrown (ExcV "ValueError" t)
  | Raise _ => False
  end.

(** ** The machine
    decode prints field numbers, positions and sizes: the interpreter must be able to show
    them, and sixteen bytes must not decode to 2^60 characters. Sets are iterated over in any order. *)
Definition short_text (E : pyenv) : Prop :=
  forall enc b t, (zlen b <= 16)%Z -> bytes_decode E enc b = COk t -> (zlen t < 2 ^ 60)%Z.
Definition any_order (order : list Z -> list Z) : Prop := forall l, Permutation (order l) l.

(** ** The caller's dict *)
(** A value of the dict: a str; a bytes object or a bytearray, but then not the dict itself; anything
    else has no encode(), is not accepted by a2b_hex(), and may have a len(). *)
Definition val_rep (h : heap) (a : loc) (v : value) (p : pyval) : Prop :=
  match p with
  | VStr s => v = StrV s
  | VBytes bs => v = BytesV bs \/ exists l, v = RefV l /\ l <> a /\ hget h l = Some (BytearrayO bs)
  | VOther n => match v with
                | NoneV | BoolV _ | IntV _ => n = None
                | TupleV l => n = Some (length l)
                | OtherV o => n = o_len o
                | _ => False
                end
  end.
(** The items of the dict, one by one. *)
Definition items_rep (h : heap) (a : loc) (items : list (pykey * value)) (d : pdoc) : Prop :=
  Forall2 (fun kv kp => fst kv = fst kp /\ val_rep h a (snd kv) (snd kp)) items d.
(** The first argument of encode: a dict, anything else. *)
Definition dict_rep (h : heap) (v : value) (d : pyarg) : Prop :=
  match d with
  | ADict d => exists a items, v = RefV a /\ hget h a = Some (DictO items) /\ items_rep h a items d
  | AOther cls => class_name h v = Some cls /\ type_of h v <> TypeV "dict"
  end.
(** Texts and bytes as long as a computer can hold. *)
Definition in_memory (d : pyarg) : Prop :=
  match d with
  | ADict d => forall k p, In (k, p) d ->
      match p with VStr t => (zlen t < 2 ^ 62)%Z | VBytes b => (zlen b < 2 ^ 62)%Z | VOther _ => True end
  | AOther _ => True
  end.
(** No codec makes more than 64 bytes of a character, after at most 64 bytes of its own. *)
Definition short_bytes (E : pyenv) : Prop :=
  forall enc t b, str_encode E enc t = COk b -> (zlen b <= 64 * (zlen t + 1))%Z.
(** The caller's object [v] afterwards: if a dict then it holds [d], its items are those it had
    or texts; every other object there was is as it was. *)
Definition dict_left (h : heap) (v : value) (d : pdoc) (h' : heap) : Prop :=
  forall l o, hget h l = Some o ->
  match o with
  | DictO items =>
      v = RefV l -> exists items', hget h' l = Some (DictO items') /\ items_rep h' l items' d /\
        forall k x, In (k, x) items' -> In (k, x) items \/ exists t, x = StrV t
  | _ => True
  end /\ (v <> RefV l -> hget h' l = Some o).
(** encode() was called in the heap [h] with the object [dv] as its first argument and ended with
    [o], the heap then being [h']: that is what [m] says. *)
Definition encode_outcome (h : heap) (dv : value) (m : res exn (bytes * edoc)) (o : outcome value) (h' : heap) : Prop :=
  match m with
  | Ok (bs, enc) => exists s b inner,
      o = Done (TupleV [RefV s; RefV b]) /\ hget h' s = Some (BytearrayO bs) /\ enc_dict h' b inner enc /\
      fresh h (s :: b :: inner)
  | Raise (XEncodeError e) => exists l b inner,
      o = Thrown (RefV l) /\
      hget h' l = Some (InstO "EncodeError"
        [("msg", StrV (ee_msg e)); ("doc_dec", dv); ("doc_enc", RefV b); ("field", StrV (ee_field e))]
        [StrV (ee_args0 e)]) /\
      enc_dict h' b inner (ee_doc_enc e) /\ fresh h (l :: b :: inner)
  | Raise (XKeyError k) => o = Thrown (ExcV "KeyError" k)
  | Raise (XTypeError t) => o = Thrown (ExcV "TypeError" t)
  | Raise XValueError => exists t, o = Thrown (ExcV "ValueError" t)
  | Raise XUnboundLocalError => o = Thrown (ExcV "UnboundLocalError" (u "data_to_encode"))
  | Raise _ => False
  end.

(** ** What pp prints *)
(** An object, its len() if it has one and its repr(). *)
Definition obj_rep (E : pyenv) (h : heap) (v : value) (o : ppobj) : Prop :=
  match o with
  | OStr s => v = StrV s
  | OBytes b => v = BytesV b
  | OOther n r =>
      match v with
      | NoneV => n = None /\ r = u "None"
      | BoolV b => n = None /\ r = u (if b then "True" else "False")
      | IntV i => n = None /\ r = zstr i /\ prints E i = true
      | OtherV x => n = o_len x /\ r = o_repr x
      | RefV l => exists b, hget h l = Some (BytearrayO b) /\ n = Some (length b) /\ r = repr_bytearray b
      | _ => False
      end
  end.
(** An item of a dict, if it is there. *)
Definition item_rep (E : pyenv) (h : heap) (v : option value) (o : option ppobj) : Prop :=
  match v, o with
  | None, None => True
  | Some v, Some o => obj_rep E h v o
  | _, _ => False
  end.
Definition shown_rep (E : pyenv) (h : heap) (v : value) (p : ppval) : Prop :=
  match p with
  | PObj o => obj_rep E h v o
  | PDict len data => exists l items, v = RefV l /\ hget h l = Some (DictO items) /\
      item_rep E h (dget key_eqb (KStr (u "len")) items) len /\ item_rep E h (dget key_eqb (KStr (u "data")) items) data
  end.
Definition doc_rep (E : pyenv) (h : heap) (v : value) (doc : list (pykey * ppval)) : Prop :=
  exists l items, v = RefV l /\ hget h l = Some (DictO items) /\
    Forall2 (fun kv kp => fst kv = fst kp /\ shown_rep E h (snd kv) (snd kp)) items doc.
(** A width: an int or the digits of one. *)
Definition width_rep (E : pyenv) (v : value) (n : Z) : Prop := v = IntV n \/ exists s, v = StrV s /\ py_int E s = Some n.
(** The stream at [w]: given, or sys.stdout. *)
Definition stream_rep (stdout v : value) (w : loc) : Prop := v = RefV w \/ v = NoneV /\ stdout = RefV w.
(** How a call ended. *)
Definition pp_ended (m : res exn unit) (o : outcome value) : Prop :=
  match m with
  | Ok _ => o = Done NoneV
  | Raise (XKeyError k) => o = Thrown (ExcV "KeyError" k)
  | Raise (XTypeError t) => o = Thrown (ExcV "TypeError" t)
  | Raise XValueError => exists t, o = Thrown (ExcV "ValueError" t)
  | Raise _ => False
  end.
(** pp() was called in the heap [h] and ended with [o], the heap then being [h']: the text of [m] was added to the
    stream at [w], on which [t] was written before, every other object there was is as it was, and the call ended as [m] says. *)
Definition pp_outcome (h : heap) (w : loc) (t : pystr) (m : res exn unit * pystr) (o : outcome value) (h' : heap) : Prop :=
  hget h' w = Some (StreamO (t ++ snd m)) /\ (forall l, l < length h -> l <> w -> hget h' l = hget h l) /\ pp_ended (fst m) o.
(** The value of a parameter that is not given. *)
Definition default_value (e : expr) : option value := match e with Constant c => Some (const c) | _ => None end.
