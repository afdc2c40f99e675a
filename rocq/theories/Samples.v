(** * Samples: a specification and messages used by the non-vacuity examples.
    The spec is [default] with a header, text bitmaps, fields 129..192 and the
    less common field kinds. *)
From Verif Require Import PyBase Types CPython311 Specs Wire.
Local Open Scope string_scope.

Definition fld_nib (data_enc len_enc : string) (len_type : Z) (max_len : Z)
    (left right : option string) : fspec :=
  {| fs_data_enc := Some (u data_enc); fs_len_enc := Some (u len_enc);
     fs_len_type := Some len_type; fs_max_len := Some max_len;
     fs_len_count := Some (u "nibbles"); fs_left_pad := option_map u left;
     fs_right_pad := option_map u right; fs_desc := Some (u "sample") |}.

Definition rich_head : spec := [
  (u "h", fld "ascii" "b" 1 10 "Message Header");
  (u "p", fld "ascii" "ascii" 0 16 "Bitmap, Primary");
  (u "1", fld "ascii" "ascii" 0 16 "Bitmap, Secondary");
  (u "2", fld_nib "b" "bcd" 1 19 (Some "0") None);
  (u "3", fld "cp500" "ascii" 0 6 "Processing Code");
  (u "35", fld_nib "b" "b" 1 37 (Some "0") (Some "F"));
  (u "64", fld_nib "b" "ascii" 0 15 None (Some "F"))].
(** A spec that covers every field, from an arbitrary head that takes precedence. *)
Definition full (head : spec) : spec :=
  (head ++ default
  ++ map (fun i => (zstr (Z.of_nat i), fld "ascii" "ascii" 3 999 "Reserved")) (seq 129 64))%list.
Definition rich : spec := full rich_head.

(** Bytes from code points below 256. *)
Definition raw (l : list N) : bytes := map n2b l.
Definition asc (s : string) : bytes := raw (u s).

(** header, 0200, text bitmaps for 2, 3, 66 and 130, and their data. *)
Definition msg_rich : bytes :=
  (raw [2]%N ++ asc "HD" ++ asc "0200" ++ asc "E000000000000000" ++ asc "C000000000000000"
  ++ asc "4000000000000000"
  ++ raw [5; 1; 35; 69]%N ++ raw [241; 242; 243; 244; 245; 246]%N ++ asc "1"
  ++ asc "003abc")%list.
Definition msg_rich_lower : bytes :=
  (raw [2]%N ++ asc "HD" ++ asc "0200" ++ asc "e000000000000000" ++ asc "c000000000000000"
  ++ asc "4000000000000000"
  ++ raw [5; 1; 35; 69]%N ++ raw [241; 242; 243; 244; 245; 246]%N ++ asc "1"
  ++ asc "003abc")%list.
(** default spec: 0200, field 2 "1234", field 3 "000000". *)
Definition msg_default : bytes :=
  (asc "0200" ++ raw [96; 0; 0; 0; 0; 0; 0; 0]%N ++ asc "041234" ++ asc "000000")%list.
