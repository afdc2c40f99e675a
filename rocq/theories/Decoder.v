(** * Decoder: model of /repo/iso8583/decoder.py, function by function. *)
From Verif Require Import PyBase Types.

(** The two dicts decode builds in place (decoder.py:107-108). The set [fields]
    is threaded explicitly instead of being mutated. *)
Record dstate := mkD { d_dec : ddoc; d_enc : edoc }.
Definition DM := M exn dstate.

(** raise DecodeError(msg, s, doc_dec, doc_enc, idx, field): the dicts are passed
    by reference, so the error shows their state at the raise. *)
Definition draise {A} (s : pybuf) (msg : pystr) (idx : Z) (field : pystr) : DM A :=
  fun st => (Raise (XDecodeError (DecodeError msg s (d_dec st) (d_enc st) idx field)), st).
(** doc_dec[k] = v *)
Definition set_dec (k v : pystr) : DM unit :=
  fun st => (Ok tt, mkD (sset k v (d_dec st)) (d_enc st)).
(** doc_enc[k] = {"len": l, "data": b} *)
Definition set_enc (k : pystr) (e : entry) : DM unit :=
  fun st => (Ok tt, mkD (d_dec st) (sset k e (d_enc st))).
(** doc_dec[k] / doc_enc[k] *)
Definition get_dec (k : pystr) : DM pystr :=
  fun st => match sget k (d_dec st) with
            | Some v => (Ok v, st) | None => (Raise (XKeyError k), st) end.
Definition get_enc (k : pystr) : DM entry :=
  fun st => match sget k (d_enc st) with
            | Some v => (Ok v, st) | None => (Raise (XKeyError k), st) end.
(** doc_enc[k]["data"] = b *)
Definition set_enc_data (k : pystr) (b : bytes) : DM unit :=
  e <- get_enc k ;; set_enc k (mkEntry (e_len e) b).

(** The bytes of a bytes / bytearray. *)
Definition buf_bytes (s : pybuf) : bytes :=
  match s with InBytes b => b | InBytearray b => b | InOther _ => [] end.

Definition str_b := u "b".
Definition str_bcd := u "bcd".
Definition str_bytes := u "bytes".
Definition str_nibbles := u "nibbles".

(** _decode_text_data, decoder.py:658-718 (the try/except at 699-718). A missing
    "data_enc" would be a KeyError, hence a LookupError, caught at 701. *)
Definition decode_text_data (E : pyenv) (s : pybuf) (data : bytes) (idx : Z)
    (field_key : pystr) (fs : fspec) : DM pystr :=
  match (match fs_data_enc fs with
         | Some data_enc => bytes_decode E data_enc data
         | None => CLookup
         end) with
  | COk t => ret t
  | CLookup => draise s (u "Failed to decode field, unknown encoding specified") idx field_key
  | CFail => draise s (u "Failed to decode field, invalid data") idx field_key
  end.

(** _remove_pad_field, decoder.py:601-655. *)
Definition remove_pad_field (E : pyenv) (s : pybuf) (idx : Z) (field_key : pystr) (fs : fspec)
    (enc_field_len : Z) : DM pystr :=
  let lpad := firstn 1 (prop_default (fs_left_pad fs) []) in         (* 640 *)
  d <- get_dec field_key ;;
  if (0 <? zlen lpad)%Z && str_eqb (firstn 1 d) lpad                 (* 641 *)
  then ret (skipn 1 d)
  else
    let rpad := firstn 1 (prop_default (fs_right_pad fs) []) in      (* 644 *)
    if (0 <? zlen rpad)%Z && str_eqb (skipn (length d - 1) d) rpad   (* 645 *)
    then ret (removelast d)
    else formatted E [enc_field_len]                                 (* 648-655 *)
           (draise s (u "Field data is " ++ zstr (zlen d) ++ u " nibbles, expecting "
                      ++ zstr enc_field_len) idx field_key).

(** The length part of _decode_field: decoder.py:460-540. Returns enc_field_len. *)
Definition decode_length (E : pyenv) (s : pybuf) (idx : Z) (field_key : pystr)
    (fs : fspec) (len_type : Z) (len_count : pystr) : DM Z :=
  let raw := py_slice (buf_bytes s) idx (idx + len_type) in
  if (len_type =? 0)%Z then prop (fs_max_len fs) (u "max_len")       (* 462-463 *)
  else
    len_enc <- prop (fs_len_enc fs) (u "len_enc") ;;
    enc_field_len <-
      (if str_eqb len_enc str_b then ret (Z.of_N (from_be raw))      (* 467-483 *)
       else if str_eqb len_enc str_bcd then                          (* 485-496 *)
         match py_int E (py_hex raw) with
         | Some n => ret n
         | None => draise s (u "Failed to decode field length, invalid BCD data") idx field_key
         end
       else                                                          (* 498-530 *)
         match bytes_decode E len_enc raw with
         | CLookup => draise s (u "Failed to decode field length, unknown encoding specified")
                             idx field_key
         | CFail => draise s (u "Failed to decode field length, invalid data") idx field_key
         | COk t =>
             match py_int E t with
             | Some n => ret n
             | None => draise s (u "Failed to decode field length, non-numeric data") idx field_key
             end
         end) ;;
    max_len <- prop (fs_max_len fs) (u "max_len") ;;
    if (max_len <? enc_field_len)%Z                                  (* 532-540 *)
    then formatted E [enc_field_len; max_len]
           (draise s (u "Field data is " ++ zstr enc_field_len ++ u " " ++ len_count
                      ++ u ", larger than maximum " ++ zstr max_len) idx field_key)
    else ret enc_field_len.

(** The nibble to byte conversion, decoder.py:550-556: (n + 1) // 2 or n // 2;
    Z division is Python's floor division. *)
Definition byte_len (len_count : pystr) (n : Z) : Z :=
  if str_eqb len_count str_nibbles then (if Z.odd n then (n + 1) / 2 else n / 2)%Z else n.

(** _decode_field, decoder.py:406-598. *)
Definition decode_field (E : pyenv) (s : pybuf) (idx : Z) (field_key : pystr)
    (fs : fspec) : DM Z :=
  len_type <- prop (fs_len_type fs) (u "len_type") ;;                (* 442 *)
  let len_count := prop_default (fs_len_count fs) str_bytes in       (* 445 *)
  let raw := py_slice (buf_bytes s) idx (idx + len_type) in
  set_dec field_key [] ;;;                                           (* 447 *)
  set_enc field_key (mkEntry raw []) ;;;                             (* 448 *)
  if negb (zlen raw =? len_type)%Z                                   (* 450-458 *)
  then formatted E [len_type]
         (draise s (u "Field length is " ++ zstr (zlen raw) ++ u " bytes wide, expecting "
                    ++ zstr len_type) idx field_key)
  else
    enc_field_len <- decode_length E s idx field_key fs len_type len_count ;;
    let idx := (idx + len_type)%Z in                                 (* 542 *)
    if (enc_field_len =? 0)%Z then ret idx                           (* 545-546 *)
    else
      let bl := byte_len len_count enc_field_len in
      let data := py_slice (buf_bytes s) idx (idx + bl) in
      set_enc_data field_key data ;;;                                (* 559 *)
      if negb (zlen data =? bl)%Z then                               (* 560-573 *)
        let actual := if str_eqb len_count str_nibbles then (zlen data * 2)%Z else zlen data in
        formatted E [enc_field_len]
          (draise s (u "Field data is " ++ zstr actual ++ u " " ++ len_count
                     ++ u ", expecting " ++ zstr enc_field_len) idx field_key)
      else
        data_enc <- prop (fs_data_enc fs) (u "data_enc") ;;
        (if str_eqb data_enc str_b then                              (* 575-586 *)
           set_dec field_key (py_upper (py_hex data)) ;;;
           if str_eqb len_count str_nibbles && Z.odd enc_field_len then
             t <- remove_pad_field E s idx field_key fs enc_field_len ;;
             set_dec field_key t
           else ret tt
         else                                                        (* 587-596 *)
           t <- decode_text_data E s data idx field_key fs ;;
           set_dec field_key t) ;;;
        ret (idx + bl)%Z.                                            (* 598 *)

(** _decode_header, decoder.py:175-213. *)
Definition decode_header (E : pyenv) (s : pybuf) (idx : Z) (sp : spec) : DM Z :=
  h <- spec_get sp (u "h") ;;
  max_len <- prop (fs_max_len h) (u "max_len") ;;
  if (max_len <=? 0)%Z then ret idx else decode_field E s idx (u "h") h.

(** _decode_type, decoder.py:216-283. *)
Definition decode_type (E : pyenv) (s : pybuf) (idx : Z) (sp : spec) : DM Z :=
  t <- spec_get sp (u "t") ;;
  data_enc <- prop (fs_data_enc t) (u "data_enc") ;;
  let expected := if str_eqb data_enc str_b then 2%Z else 4%Z in
  let data := py_slice (buf_bytes s) idx (idx + expected) in
  set_dec (u "t") [] ;;;
  set_enc (u "t") (mkEntry [] data) ;;;
  if negb (zlen data =? expected)%Z then
    draise s (u "Field data is " ++ zstr (zlen data) ++ u " bytes, expecting "
              ++ zstr expected) idx (u "t")
  else
    (if str_eqb data_enc str_b then set_dec (u "t") (py_upper (py_hex data))
     else x <- decode_text_data E s data idx (u "t") t ;; set_dec (u "t") x) ;;;
    ret (idx + expected)%Z.

(** The list comprehension of decoder.py:394-401:
    field_offset + byte_idx * 8 + bit for bit in range(1, 9)
    for byte_idx, byte in enumerate(bitmap) if byte >> (8 - bit) & 1. *)
Definition bitmap_fields (offset : Z) (bitmap : bytes) : list Z :=
  flat_map (fun bit =>
    flat_map (fun ib =>
      if N.testbit (b2n (snd ib)) (8 - bit)
      then [(offset + Z.of_nat (fst ib) * 8 + Z.of_N bit)%Z] else [])
      (combine (seq 0 (length bitmap)) bitmap))
    [1; 2; 3; 4; 5; 6; 7; 8]%N.

(** _decode_bitmap, decoder.py:286-403. The updated set is returned with the index. *)
Definition decode_bitmap (E : pyenv) (s : pybuf) (idx : Z) (field_key : pystr)
    (fs : fspec) (offset : Z) (is_extended : bool) (fields : zset) : DM (Z * zset) :=
  data_enc <- prop (fs_data_enc fs) (u "data_enc") ;;
  let expected := if str_eqb data_enc str_b then 8%Z else 16%Z in    (* 333-336 *)
  let data := py_slice (buf_bytes s) idx (idx + expected) in         (* 338 *)
  (if is_extended then                                               (* 340-343 *)
     e <- get_enc field_key ;; set_enc field_key (mkEntry (e_len e) (e_data e ++ data))
   else                                                              (* 344-346 *)
     set_dec field_key [] ;;; set_enc field_key (mkEntry [] data)) ;;;
  if negb (zlen data =? expected)%Z then                             (* 348-356 *)
    e <- get_enc field_key ;;
    draise s (u "Field data is " ++ zstr (zlen (e_data e)) ++ u " bytes, expecting "
              ++ zstr (if is_extended then expected * 2 else expected)%Z) idx field_key
  else
    bitmap <-
      (if str_eqb data_enc str_b then                                (* 358-365 *)
         let t := py_upper (py_hex data) in
         (if is_extended then old <- get_dec field_key ;; set_dec field_key (old ++ t)
          else set_dec field_key t) ;;;
         ret data
       else                                                          (* 366-392 *)
         t <- decode_text_data E s data idx field_key fs ;;
         (if is_extended then old <- get_dec field_key ;; set_dec field_key (old ++ t)
          else set_dec field_key t) ;;;
         match fromhex t with
         | Some b => ret b
         | None => draise s (u "Failed to decode field, non-hex data") idx field_key
         end) ;;
    ret ((idx + expected)%Z, zupdate fields (bitmap_fields offset bitmap)).

(** for field in [str(i) for i in sorted(fields)]: decoder.py:157-158; returns the
    index and the last value of the loop variable [field]. *)
Fixpoint decode_fields (E : pyenv) (s : pybuf) (idx : Z) (sp : spec) (fields : list Z)
    (field : pystr) : DM (Z * pystr) :=
  match fields with
  | [] => ret (idx, field)
  | f :: fields' =>
      fs <- spec_get sp (zstr f) ;;
      idx' <- decode_field E s idx (zstr f) fs ;;
      decode_fields E s idx' sp fields' (zstr f)
  end.

(** decode, decoder.py:59-165: the body after the type check, over the fresh dicts. *)
Definition decode_body (E : pyenv) (s : pybuf) (sp : spec) : DM unit :=
  idx <- decode_header E s 0 sp ;;                                   (* 112 *)
  idx <- decode_type E s idx sp ;;                                   (* 113 *)
  let field := u "p" in
  p <- spec_get sp field ;;
  r <- decode_bitmap E s idx field p 0 false [] ;;                   (* 114-125 *)
  let '(idx, fields) := r in
  r <- (if zmem 1 fields then                                        (* 127-140 *)
          let field := u "1" in
          fs <- spec_get sp field ;;
          r <- decode_bitmap E s idx field fs 64 false fields ;;
          ret (fst r, zremove 1 (snd r), field)
        else ret (idx, fields, field)) ;;
  let '(idx, fields, field) := r in
  r <- (if zmem 65 fields then                                       (* 142-155 *)
          fs <- spec_get sp field ;;
          r <- decode_bitmap E s idx field fs 128 true fields ;;
          ret (fst r, zremove 65 (snd r))
        else ret (idx, fields)) ;;
  let '(idx, fields) := r in
  r <- decode_fields E s idx sp fields field ;;                      (* 157-158 *)
  let '(idx, field) := r in
  if negb (idx =? zlen (buf_bytes s))%Z then                         (* 160-163 *)
    draise s (u "Extra data after last field") idx field
  else ret tt.

(** decode(s, spec), decoder.py:59-165. *)
Definition decode (E : pyenv) (s : pybuf) (sp : spec) : res exn (ddoc * edoc) :=
  match s with
  | InOther cls =>                                                   (* 102-105 *)
      Raise (XTypeError (u "Encoded ISO8583 data must be bytes or bytearray, not " ++ cls))
  | _ =>
      match decode_body E s sp (mkD [] []) with
      | (Ok _, st) => Ok (d_dec st, d_enc st)                        (* 165 *)
      | (Raise x, _) => Raise x
      end
  end.
