(** * Claims2: vocabulary of further property statements. *)
From Verif Require Import PyBase Types Numerals Decoder Encoder Tools Wire WireEncode Claims.

(** ** Spec properties that do not matter *)
(** The unit of the field length, "bytes" when the property is omitted. *)
Definition unit_name (fs : fspec) : pystr :=
  match fs_len_count fs with Some c => c | None => u "bytes" end.
(** Two entries of a length-prefixed field that differ at most in: desc; len_enc
    of a fixed field; pads of a field that is not binary and counted in nibbles;
    pad characters after the first; len_count "bytes" or omitted. *)
Definition same_field (fs fs' : fspec) : Prop :=
  fs_data_enc fs = fs_data_enc fs' /\ fs_len_type fs = fs_len_type fs'
  /\ fs_max_len fs = fs_max_len fs' /\ unit_name fs = unit_name fs'
  /\ (forall lt, fs_len_type fs = Some lt -> lt <> 0%Z -> fs_len_enc fs = fs_len_enc fs')
  /\ (fs_data_enc fs = Some (u "b") -> in_nibbles fs = true ->
      pad_char (fs_left_pad fs) = pad_char (fs_left_pad fs')
      /\ pad_char (fs_right_pad fs) = pad_char (fs_right_pad fs')).
(** Of the message type and the bitmaps only data_enc matters; of a header that is
    switched off, only that it is. *)
Definition same_entry (k : pystr) (fs fs' : fspec) : Prop :=
  if str_eqb k (u "t") || str_eqb k (u "p") || str_eqb k (u "1")
  then fs_data_enc fs = fs_data_enc fs'
  else same_field fs fs'
       \/ k = u "h" /\ exists ml ml', fs_max_len fs = Some ml /\ fs_max_len fs' = Some ml'
                                   /\ (ml <= 0)%Z /\ (ml' <= 0)%Z.
Definition same_for (sp sp' : spec) (k : pystr) : Prop :=
  match sget k sp, sget k sp' with
  | Some fs, Some fs' => same_entry k fs fs'
  | None, None => True
  | _, _ => False
  end.
(** The fields a result mentions: those of the encoded dict. *)
Definition decode_mentions (r : res exn (ddoc * edoc)) (k : pystr) : Prop :=
  match r with
  | Ok (_, enc) => In k (map fst enc)
  | Raise (XDecodeError e) => In k (map fst (de_doc_enc e))
  | Raise _ => True
  end.
Definition encode_mentions (r : res exn (bytes * edoc)) (k : pystr) : Prop :=
  match r with
  | Ok (_, enc) => In k (map fst enc)
  | Raise (XEncodeError e) => In k (map fst (ee_doc_enc e))
  | Raise _ => True
  end.

(** ** Dicts for the pretty printer *)
(** A decoded dict, an encoded dict and any dict of values as arguments of pp; [reps]
    gives the repr() of the values that are neither str nor bytes. *)
Definition show_dec (dec : ddoc) : list (pykey * ppval) := map (fun kt => (KStr (fst kt), PStr (snd kt))) dec.
Definition show_enc (enc : edoc) : list (pykey * ppval) :=
  map (fun ke => (KStr (fst ke), PDict (Some (OBytes (e_len (snd ke)))) (Some (OBytes (e_data (snd ke)))))) enc.
Definition show_dict (reps : pykey -> pystr) (d : pdoc) : list (pykey * ppval) :=
  map (fun kv => (fst kv, match snd kv with VStr s => PStr s | VBytes b => PBytes b | VOther n => PObj (OOther n (reps (fst kv))) end)) d.
(** Every entry of the spec has a description, and its numeric keys are numbers. *)
Definition spec_described (E : pyenv) (sp : spec) : Prop :=
  forall k fs, sget k sp = Some fs ->
    (exists desc, fs_desc fs = Some desc)
    /\ (isnumeric E k = true -> exists n, int_text E k n).
(** A spec with each entry rewritten by [f]. *)
Definition respec (f : pystr -> fspec -> fspec) (sp : spec) : spec :=
  map (fun kf => (fst kf, f (fst kf) (snd kf))) sp.
(** The spec has an entry for the field. *)
Definition specified (sp : spec) (k : pystr) : Prop := exists fs, sget k sp = Some fs.
