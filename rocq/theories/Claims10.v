(** * Claims10: vocabulary for recovering from errors. *)
From Verif Require Import PyBase Types Encoder Wire WireEncode Claims Claims8.

(** The dict can be sent apart from its data fields: header and type are fine, the
    numeric keys are field numbers and the bitmaps can be written; entries of the
    spec are complete as far as the dict needs them, none with a negative len_type or a
    max_len too long to print. *)
Record sendable_frame (E : pyenv) (sp : spec) (d : pdoc) : Prop := {
  sf_dict : str_dict d;
  sf_keys : canonical_keys E d;
  sf_bitmaps : bitmaps_sendable E sp;
  sf_header : header_on sp \/ header_off sp;
  sf_type_value : type_encodable E sp d;
  sf_header_value : header_on sp -> encodable E sp d (u "h");
  sf_range : forall n, (0 <= n)%Z -> has_key d (zstr n) -> (1 <= n <= 192)%Z;
  sf_entries : forall k, k = u "h" \/ k = u "t" \/ k = u "p" \/ k = u "1"
                 \/ (exists n, data_field n /\ k = zstr n /\ has_key d k) -> entry_complete sp k;
  sf_widths : widths_ok sp;
  sf_limits : limits_ok E sp
}.
(** Data field [n] is in the dict but cannot be sent. *)
Definition unsendable (E : pyenv) (sp : spec) (d : pdoc) (n : Z) : Prop :=
  data_field n /\ has_key d (zstr n) /\ ~ encodable E sp d (zstr n).
(** What a caller may do: encode, drop the field an EncodeError names, try again,
    [tries] times at most. *)
Fixpoint repair (E : pyenv) (sp : spec) (tries : nat) (d : pdoc) : pdoc :=
  match tries with
  | O => d
  | S tries' =>
      match encode E (ADict d) sp with
      | (Raise (XEncodeError e), d') => repair E sp tries' (dpop key_eqb (KStr (ee_field e)) d')
      | (_, d') => d'
      end
  end.

(** What was read completely before a DecodeError: all but the field it names. *)
Definition salvaged_dec (e : decode_error) : ddoc :=
  filter (fun kt => negb (str_eqb (de_field e) (fst kt))) (de_doc_dec e).
Definition salvaged_enc (e : decode_error) : edoc := without (str_eqb (de_field e)) (de_doc_enc e).
(** The fields read completely are in the form a sender produces. *)
Definition salvaged_canonical (E : pyenv) (sp : spec) (e : decode_error) : Prop :=
  forall k fs en t, k <> u "t" -> k <> u "p" -> k <> u "1" -> sget k sp = Some fs ->
    sget k (salvaged_enc e) = Some en -> sget k (salvaged_dec e) = Some t ->
    canonical_entry E fs (e_len en) (e_data en) t.
