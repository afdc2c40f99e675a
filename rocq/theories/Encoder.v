(** * Encoder: model of /repo/iso8583/encoder.py, function by function. *)
From Verif Require Import PyBase Types Decoder.

(** The caller's dict, mutated in place, and the fresh encoded dict (encoder.py:86). *)
Record estate := mkE { s_dec : pdoc; s_enc : edoc }.
Definition EM := M exn estate.

Definition pget := @dget pykey pyval key_eqb.
Definition pset := @dset pykey pyval key_eqb.
Definition ppop := @dpop pykey pyval key_eqb.
Definition pmem (k : pystr) (d : pdoc) : bool := dmem key_eqb (KStr k) d.

(** raise EncodeError(msg, doc_dec, doc_enc, field): dicts by reference. *)
Definition eraise {A} (msg : pystr) (field : pystr) : EM A :=
  fun st => (Raise (XEncodeError (EncodeError msg (s_dec st) (s_enc st) field)), st).
(** doc_dec[k] = v; doc_dec.pop(k, None); doc_dec[k] *)
Definition eset_dec (k : pystr) (v : pyval) : EM unit :=
  fun st => (Ok tt, mkE (pset (KStr k) v (s_dec st)) (s_enc st)).
Definition epop_dec (k : pystr) : EM unit :=
  fun st => (Ok tt, mkE (ppop (KStr k) (s_dec st)) (s_enc st)).
Definition eget_dec (k : pystr) : EM pyval :=
  fun st => match pget (KStr k) (s_dec st) with
            | Some v => (Ok v, st) | None => (Raise (XKeyError k), st) end.
(** the caller's dict as a value *)
Definition eread_dec : EM pdoc := fun st => (Ok (s_dec st), st).
(** doc_enc[k] = e; doc_enc[k]["data"] = b; doc_enc[k]["len"] = b; doc_enc[k] *)
Definition eset_enc (k : pystr) (e : entry) : EM unit :=
  fun st => (Ok tt, mkE (s_dec st) (sset k e (s_enc st))).
Definition eget_enc (k : pystr) : EM entry :=
  fun st => match sget k (s_enc st) with
            | Some v => (Ok v, st) | None => (Raise (XKeyError k), st) end.
Definition eset_enc_data (k : pystr) (b : bytes) : EM unit :=
  e <- eget_enc k ;; eset_enc k (mkEntry (e_len e) b).
Definition eset_enc_len (k : pystr) (b : bytes) : EM unit :=
  e <- eget_enc k ;; eset_enc k (mkEntry b (e_data e)).

(** _add_pad_field, encoder.py:587-618, on a str. *)
Definition add_pad_field (field_data : pystr) (fs : fspec) : pystr :=
  let lpad := firstn 1 (prop_default (fs_left_pad fs) []) in
  if (0 <? zlen lpad)%Z then lpad ++ field_data
  else
    let rpad := firstn 1 (prop_default (fs_right_pad fs) []) in
    if (0 <? zlen rpad)%Z then field_data ++ rpad else field_data.
(** Whether _add_pad_field would concatenate anything: on a non-str value the
    concatenation with the str pad raises TypeError (encoder.py:612, 616). *)
Definition has_pad (fs : fspec) : bool :=
  ((0 <? zlen (firstn 1 (prop_default (fs_left_pad fs) [])))
   || (0 <? zlen (firstn 1 (prop_default (fs_right_pad fs) []))))%Z.

(** len(value); None: TypeError. *)
Definition val_len (v : pyval) : option nat :=
  match v with VStr s => Some (length s) | VBytes b => Some (length b) | VOther l => l end.
(** binascii.a2b_hex(value): a str, or the ASCII digits held by a bytes-like
    object; anything else is a TypeError. None is any exception. *)
Definition val_a2b (v : pyval) : option bytes :=
  match v with
  | VStr s => a2b_hex s
  | VBytes b => a2b_hex (map b2n b)
  | VOther _ => None
  end.

(** The except handler of _encode_bindary_field, encoder.py:557-577, once
    data_to_encode is bound; len() of an object without length raises TypeError. *)
Definition hex_failure {A} (data_to_encode : pyval) (field_key len_count : pystr) : EM A :=
  match val_len data_to_encode with
  | None => raise (XTypeError (u "object has no len()"))
  | Some n =>
      if Nat.odd n then
        if str_eqb len_count str_nibbles
        then eraise (u "Failed to encode field, odd-length nibble data, specify pad") field_key
        else eraise (u "Failed to encode field, odd-length hex data") field_key
      else eraise (u "Failed to encode field, non-hex data") field_key
  end.

(** _encode_bindary_field, encoder.py:516-584. The data_to_encode variable is
    unbound when len() or the padding itself fails, so the handler then dies
    with UnboundLocalError (encoder.py:558). *)
Definition encode_binary_field (field_data : pyval) (field_key : pystr) (fs : fspec)
    (len_count : pystr) : EM (bytes * Z) :=
  let finish (data_to_encode : pyval) (n : nat) : EM (bytes * Z) :=
    match val_a2b data_to_encode with
    | Some encoded =>                                                (* 556, 581-584 *)
        ret (encoded, if str_eqb len_count str_nibbles then Z.of_nat n else zlen encoded)
    | None => hex_failure data_to_encode field_key len_count         (* 557-577 *)
    end in
  if str_eqb len_count str_nibbles then
    match val_len field_data with
    | None => raise XUnboundLocalError
    | Some n =>
        if Nat.odd n then                                            (* 552-553 *)
          match field_data with
          | VStr s => finish (VStr (add_pad_field s fs)) n
          | _ => if has_pad fs then raise XUnboundLocalError else finish field_data n
          end
        else finish field_data n
    end
  else finish field_data 0%nat.

(** _encode_text_field, encoder.py:621-677. Values other than str have no
    encode(): AttributeError, caught at 664. A missing "data_enc" would be a
    KeyError, hence a LookupError, caught at 657. *)
Definition encode_text_field (E : pyenv) (field_data : pyval) (field_key : pystr)
    (fs : fspec) (len_count : pystr) : EM (bytes * Z) :=
  match (match field_data with
         | VStr s => match fs_data_enc fs with
                     | Some data_enc => str_encode E data_enc s
                     | None => CLookup
                     end
         | _ => CFail
         end) with
  | COk encoded =>
      ret (encoded, if str_eqb len_count str_nibbles then (zlen encoded * 2)%Z else zlen encoded)
  | CLookup => eraise (u "Failed to encode field, unknown encoding specified") field_key
  | CFail => eraise (u "Failed to encode field, invalid data") field_key
  end.

Definition msg_does_not_fit :=
  u "Failed to encode field length, field length does not fit into configured field size".

(** The length part of _encode_field for a variable-length field,
    encoder.py:450-511. Simplification: the length is a byte or nibble count, so
    it is never negative. *)
Definition encode_length (E : pyenv) (field_key : pystr) (fs : fspec) (len_type : Z)
    (enc_field_len : Z) : EM unit :=
  len_enc <- prop (fs_len_enc fs) (u "len_enc") ;;
  let n := Z.to_N enc_field_len in
  if str_eqb len_enc str_b then                                      (* 451-462 *)
    if (len_type <? 0)%Z then raise XValueError                      (* to_bytes *)
    else
    match to_be (Z.to_nat len_type) n with
    | Some b => eset_enc_len field_key b
    | None => eraise msg_does_not_fit field_key
    end
  else if str_eqb len_enc str_bcd then                               (* 464-480 *)
    if (len_type <? 0)%Z then raise XValueError                      (* format *)
    else
    let bcd := fmt0d (Z.to_nat len_type * 2) n in
    if (Z.to_nat len_type * 2 <? length bcd)%nat then eraise msg_does_not_fit field_key
    else
      match a2b_hex bcd with
      | Some b => eset_enc_len field_key b
      | None => raise XValueError
      end
  else                                                               (* 481-511 *)
    if (len_type <? 0)%Z                                             (* format *)
    then eraise (u "Failed to encode field length, " ++ format_why E len_type) field_key
    else
    match str_encode E len_enc (fmt0d (Z.to_nat len_type) n) with
    | CLookup => eraise (u "Failed to encode field length, unknown encoding specified") field_key
    | CFail => eraise (u "Failed to encode field length, "
                       ++ encode_why E len_enc (fmt0d (Z.to_nat len_type) n)) field_key
    | COk b =>
        eset_enc_len field_key b ;;;
        if (Z.to_nat len_type <? length b)%nat then eraise msg_does_not_fit field_key else ret tt
    end.

(** _encode_field, encoder.py:367-513. *)
Definition encode_field (E : pyenv) (field_key : pystr) (fs : fspec) : EM bytes :=
  eset_enc field_key (mkEntry [] []) ;;;                             (* 399 *)
  let len_count := prop_default (fs_len_count fs) str_bytes in       (* 402 *)
  data_enc <- prop (fs_data_enc fs) (u "data_enc") ;;
  field_data <- eget_dec field_key ;;
  r <- (if str_eqb data_enc str_b                                    (* 405-423 *)
        then encode_binary_field field_data field_key fs len_count
        else encode_text_field E field_data field_key fs len_count) ;;
  let '(encoded, enc_field_len) := r in
  eset_enc_data field_key encoded ;;;
  len_type <- prop (fs_len_type fs) (u "len_type") ;;                (* 425 *)
  max_len <- prop (fs_max_len fs) (u "max_len") ;;
  if (len_type =? 0)%Z then                                          (* 428-438 *)
    if negb (enc_field_len =? max_len)%Z then
      formatted E [max_len]
        (eraise (u "Field data is " ++ zstr enc_field_len ++ u " " ++ len_count
                 ++ u ", expecting " ++ zstr max_len) field_key)
    else
      eset_enc_len field_key [] ;;;
      e <- eget_enc field_key ;; ret (e_data e)
  else if (max_len <? enc_field_len)%Z then                          (* 442-448 *)
    formatted E [max_len]
      (eraise (u "Field data is " ++ zstr enc_field_len ++ u " " ++ len_count
               ++ u ", larger than maximum " ++ zstr max_len) field_key)
  else
    encode_length E field_key fs len_type enc_field_len ;;;
    e <- eget_enc field_key ;; ret (e_len e ++ e_data e).            (* 513 *)

(** _encode_header, encoder.py:172-210. *)
Definition encode_header (E : pyenv) (sp : spec) : EM bytes :=
  h <- spec_get sp (u "h") ;;
  max_len <- prop (fs_max_len h) (u "max_len") ;;
  if (max_len <=? 0)%Z then ret []
  else
    d <- eread_dec ;;
    if negb (pmem (u "h") d)
    then eraise (u "Field data is required according to specifications") (u "h")
    else encode_field E (u "h") h.

(** _encode_type, encoder.py:213-280. *)
Definition encode_type (E : pyenv) (sp : spec) : EM bytes :=
  d <- eread_dec ;;
  if negb (pmem (u "t") d) then eraise (u "Field data is required") (u "t")
  else
    t <- spec_get sp (u "t") ;;
    data_enc <- prop (fs_data_enc t) (u "data_enc") ;;
    let expected := if str_eqb data_enc str_b then 2%Z else 4%Z in
    eset_enc (u "t") (mkEntry [] []) ;;;
    field_data <- eget_dec (u "t") ;;
    r <- (if str_eqb data_enc str_b
          then encode_binary_field field_data (u "t") t str_bytes
          else encode_text_field E field_data (u "t") t str_bytes) ;;
    let '(encoded, enc_field_len) := r in
    eset_enc_data (u "t") encoded ;;;
    if negb (enc_field_len =? expected)%Z then
      eraise (u "Field data is " ++ zstr enc_field_len ++ u " bytes, expecting "
              ++ zstr expected) (u "t")
    else e <- eget_enc (u "t") ;; ret (e_data e).

(** bitmap[byte] |= 1 << bit on one byte of the bytearray. *)
Fixpoint or_byte (i : nat) (v : N) (bm : bytes) : bytes :=
  match bm, i with
  | [], _ => []
  | b :: bm', O => n2b (N.lor (b2n b) v) :: bm'
  | b :: bm', S i' => b :: or_byte i' v bm'
  end.
(** The body of the loop at encoder.py:325-337. The fields passed are always in
    range, so byte is 0..7 (no IndexError, no negative index). *)
Definition set_bit (offset : Z) (bm : bytes) (field : Z) : bytes :=
  let field := (field - (1 + offset))%Z in                           (* 328 *)
  let byte := (field / 8)%Z in                                       (* 332 *)
  let bit := (7 - (field - byte * 8))%Z in                           (* 336 *)
  or_byte (Z.to_nat byte) (N.shiftl 1 (Z.to_N bit)) bm.              (* 337 *)
Definition make_bitmap (offset : Z) (fields : list Z) : bytes :=
  fold_left (set_bit offset) fields (repeat x00 8).

(** _encode_bitmap, encoder.py:283-364. The set is iterated in increasing order;
    property C36 proves that the order is irrelevant. *)
Definition encode_bitmap (E : pyenv) (field_key : pystr) (fs : fspec) (offset : Z)
    (is_extended : bool) (fields : zset) : EM bytes :=
  let bitmap := make_bitmap offset fields in                         (* 323-337 *)
  let hex_bitmap := py_upper (py_hex bitmap) in                      (* 339 *)
  (if is_extended then                                               (* 341-342 *)
     old <- eget_dec field_key ;;
     match old with
     | VStr o => eset_dec field_key (VStr (o ++ hex_bitmap))
     | _ => raise (XTypeError (u "can only concatenate str"))
     end
   else                                                              (* 343-345 *)
     eset_dec field_key (VStr hex_bitmap) ;;;
     eset_enc field_key (mkEntry [] [])) ;;;
  data_enc <- prop (fs_data_enc fs) (u "data_enc") ;;
  encoded <-
    (if str_eqb data_enc str_b then ret bitmap                       (* 347-348 *)
     else r <- encode_text_field E (VStr hex_bitmap) field_key fs str_bytes ;;
          ret (fst r)) ;;                                            (* 349-357 *)
  (if is_extended then                                               (* 359-360 *)
     e <- eget_enc field_key ;;
     eset_enc field_key (mkEntry (e_len e) (e_data e ++ encoded))
   else eset_enc_data field_key encoded) ;;;                         (* 361-362 *)
  ret encoded.

(** [int(k) for k in doc_dec.keys() if k.isnumeric()], encoder.py:97.
    A non-str key has no isnumeric(): AttributeError, [inl false]; int() may
    fail with ValueError on a numeric non-decimal str: [inl true]. *)
Fixpoint numeric_keys (E : pyenv) (keys : list pykey) : sum bool (list Z) :=
  match keys with
  | [] => inr []
  | KOther _ _ :: _ => inl false
  | KStr k :: keys' =>
      if isnumeric E k then
        match py_int E k with
        | None => inl true
        | Some n =>
            match numeric_keys E keys' with
            | inr l => inr (n :: l)
            | inl x => inl x
            end
        end
      else numeric_keys E keys'
  end.
Definition other_keys (keys : list pykey) : list pystr :=
  flat_map (fun k => match k with KOther _ r => [r] | KStr _ => [] end) keys.

(** The field loop, encoder.py:159-160. *)
Fixpoint encode_fields (E : pyenv) (sp : spec) (fields : list Z) (s : bytes) : EM bytes :=
  match fields with
  | [] => ret s
  | f :: fields' =>
      fs <- spec_get sp (zstr f) ;;
      b <- encode_field E (zstr f) fs ;;
      encode_fields E sp fields' (s ++ b)
  end.

(** encode, encoder.py:80-162, after the type check. *)
Definition encode_body (E : pyenv) (sp : spec) : EM bytes :=
  epop_dec (u "1") ;;;                                               (* 89 *)
  epop_dec (u "65") ;;;                                              (* 91 *)
  h <- encode_header E sp ;;                                         (* 93 *)
  t <- encode_type E sp ;;                                           (* 94 *)
  d <- eread_dec ;;
  match numeric_keys E (map fst d) with                              (* 96-104 *)
  | inl false =>
      eraise (u "Dictionary contains invalid fields " ++ list_repr (other_keys (map fst d))) (u "p")
  | inl true => raise XValueError
  | inr ks =>
      let fields := zset_of ks in
      if negb (zsubset_range 1 193 fields) then                      (* 107-113 *)
        eraise (u "Dictionary contains fields outside of 1-192 range "
                ++ list_repr (map zstr (zdiff_range 1 193 fields))) (u "p")
      else
        let tertiary := zinter_range 129 193 fields in               (* 116-118 *)
        let fields := match tertiary with [] => fields | _ => zadd 65 fields end in
        let secondary := zinter_range 65 129 fields in               (* 121-123 *)
        let fields := match secondary with [] => fields | _ => zadd 1 fields end in
        p <- spec_get sp (u "p") ;;
        bp <- encode_bitmap E (u "p") p 0 false (zinter_range 1 65 fields) ;;  (* 125-133 *)
        r <- (if zmem 1 fields then                                  (* 135-145 *)
                fs <- spec_get sp (u "1") ;;
                b <- encode_bitmap E (u "1") fs 64 false secondary ;;
                ret (b, zremove 1 fields)
              else ret ([], fields)) ;;
        let '(bs, fields) := r in
        r <- (if zmem 65 fields then                                 (* 147-157 *)
                fs <- spec_get sp (u "1") ;;
                b <- encode_bitmap E (u "1") fs 128 true tertiary ;;
                ret (b, zremove 65 fields)
              else ret ([], fields)) ;;
        let '(bt, fields) := r in
        encode_fields E sp fields (h ++ t ++ bp ++ bs ++ bt)         (* 159-162 *)
  end.

(** What encode may be given: a dict or an instance of another class. *)
Inductive pyarg := ADict (d : pdoc) | AOther (cls : pystr).

(** encode(doc_dec, spec), encoder.py:42-162. Besides the outcome, returns the
    state in which the caller's dict is left. *)
Definition encode (E : pyenv) (doc : pyarg) (sp : spec) : res exn (bytes * edoc) * pdoc :=
  match doc with
  | AOther cls =>                                                    (* 80-83 *)
      (Raise (XTypeError (u "Decoded ISO8583 data must be dict, not " ++ cls)), [])
  | ADict d =>
      match encode_body E sp (mkE d []) with
      | (Ok s, st) => (Ok (s, s_enc st), s_dec st)
      | (Raise x, st) => (Raise x, s_dec st)
      end
  end.
