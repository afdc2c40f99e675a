(** * Claims6: vocabulary for altered messages. *)
From Verif Require Import PyBase Types Decoder Wire.

(** What a run of decode leaves to be seen: its result, or the dicts its
    DecodeError carries. *)
Definition recorded (r : res exn (ddoc * edoc)) (d : ddoc) (e : edoc) : Prop :=
  r = Ok (d, e)
  \/ exists er, r = Raise (XDecodeError er) /\ d = de_doc_dec er /\ e = de_doc_enc er.
(** The same without the field at which the error is reported. *)
Definition completed (r : res exn (ddoc * edoc)) (d : ddoc) (e : edoc) : Prop :=
  r = Ok (d, e)
  \/ exists er t x, r = Raise (XDecodeError er)
       /\ de_doc_dec er = d ++ [(de_field er, t)] /\ de_doc_enc er = e ++ [(de_field er, x)].
(** The value the bytes [data] have in a field whose length is counted in bytes. *)
Definition reads_as (E : pyenv) (fs : fspec) (data : bytes) (t : pystr) : Prop :=
  exists de, fs_data_enc fs = Some de
    /\ (is_binary de /\ t = HEX data \/ ~ is_binary de /\ bytes_decode E de data = COk t).
