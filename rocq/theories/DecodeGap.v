(** * DecodeGap: what a spec has to say for decode to go on, stated declaratively.

    Complements Wire.v and DecodeFault.v: a spec need not be complete, and what it
    leaves out matters only once it is needed. *)
From Verif Require Import PyBase Types Wire.

(** [segs] are read completely and field [k] is next, [rest] being unread. *)
Inductive reaches (E : pyenv) (sp : spec) (input : bytes)
  : list segment -> pystr -> bytes -> Prop :=
| AtHeader : reaches E sp input [] (u "h") input
| AtType hs rest : header_part E sp hs -> input = bytes_of hs ++ rest ->
    reaches E sp input hs (u "t") rest
| AtPrimary hs t rest : header_part E sp hs -> type_part E sp t ->
    input = bytes_of (hs ++ [t]) ++ rest -> reaches E sp input (hs ++ [t]) (u "p") rest
| AtSecondary hs t p bm1 rest : header_part E sp hs -> type_part E sp t ->
    primary_part E sp p bm1 -> bit bm1 1 = true ->
    input = bytes_of (hs ++ [t; p]) ++ rest -> reaches E sp input (hs ++ [t; p]) (u "1") rest
| AtField hs t p xs bm1 bm2 bm3 done f todo segs rest :
    header_part E sp hs -> type_part E sp t -> primary_part E sp p bm1 ->
    extra_part E sp bm1 xs bm2 bm3 ->
    filter (announced bm1 bm2 bm3) data_fields = done ++ f :: todo ->
    map sg_key segs = map zstr done -> Forall (field_segment E sp) segs ->
    input = bytes_of (hs ++ t :: p :: xs ++ segs) ++ rest ->
    reaches E sp input (hs ++ t :: p :: xs ++ segs) (zstr f) rest.

(** A property needed to read the field at the head of [rest] is not there. *)
Inductive field_gap (E : pyenv) (fs : fspec) (rest : bytes) : pystr -> Prop :=
| NoLenType : fs_len_type fs = None -> field_gap E fs rest (u "len_type")
| NoFixedLength : fs_len_type fs = Some 0%Z -> fs_max_len fs = None ->
    field_gap E fs rest (u "max_len")
| NoLenEnc lt : fs_len_type fs = Some (Z.of_nat lt) -> lt <> O -> (lt <= length rest)%nat ->
    fs_len_enc fs = None -> field_gap E fs rest (u "len_enc")
| NoMaxLen lt le raw rest' n : fs_len_type fs = Some (Z.of_nat lt) -> lt <> O ->
    rest = raw ++ rest' -> length raw = lt -> fs_len_enc fs = Some le ->
    prefix_denotes E le raw n -> fs_max_len fs = None -> field_gap E fs rest (u "max_len")
| NoDataEnc raw data rest' n : rest = raw ++ data ++ rest' -> announces E fs raw n ->
    n <> 0%Z -> occupies fs n (zlen data) -> fs_data_enc fs = None ->
    field_gap E fs rest (u "data_enc").

(** The same for any key of the message: the header is not read when it is
    switched off; of the type and the bitmaps only the encoding is needed. *)
Definition entry_gap (E : pyenv) (k : pystr) (fs : fspec) (rest : bytes) (nm : pystr) : Prop :=
  if str_eqb k (u "h") then
    (fs_max_len fs = None /\ nm = u "max_len")
    \/ exists ml, fs_max_len fs = Some ml /\ (0 < ml)%Z /\ field_gap E fs rest nm
  else if str_eqb k (u "t") || str_eqb k (u "p") || str_eqb k (u "1") then
    fs_data_enc fs = None /\ nm = u "data_enc"
  else field_gap E fs rest nm.

(** decode gets to something the spec does not have: an entry or a property. *)
Definition spec_gap (E : pyenv) (sp : spec) (input : bytes) (nm : pystr) : Prop :=
  exists segs k rest, reaches E sp input segs k rest
    /\ ((sget k sp = None /\ nm = k)
        \/ exists fs, sget k sp = Some fs /\ entry_gap E k fs rest nm).
