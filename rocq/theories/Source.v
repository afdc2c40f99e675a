(** * Source: decoder.py, encoder.py and tools.py as syntax trees.
    Written by source/gen.py from the text of /repo/iso8583; not edited by hand. *)
From Verif Require Import PyAst.
Local Open Scope string_scope.
Local Open Scope Z_scope.
Local Open Scope list_scope.

(** decoder.py:29-45 *)
Definition src_DecodeError___init__ : fundef := {| f_params := ["self"; "msg"; "s"; "doc_dec"; "doc_enc"; "pos"; "field"]; f_body := [
  Assign (Name "errmsg") (JoinedStr [(Name "msg"); (Constant (CStr ": field ")); (Name "field"); (Constant (CStr " pos ")); (Name "pos")]);
  Expr (Call (Attribute (Name "ValueError") "__init__") [(Name "self"); (Name "errmsg")] []);
  Assign (Attribute (Name "self") "msg") (Name "msg");
  Assign (Attribute (Name "self") "s") (Name "s");
  Assign (Attribute (Name "self") "doc_dec") (Name "doc_dec");
  Assign (Attribute (Name "self") "doc_enc") (Name "doc_enc");
  Assign (Attribute (Name "self") "field") (Name "field");
  Assign (Attribute (Name "self") "pos") (Name "pos")] |}.

(** decoder.py:47-56 *)
Definition src_DecodeError___reduce__ : fundef := {| f_params := ["self"]; f_body := [
  Return (Some (Tuple [(Attribute (Name "self") "__class__"); (Tuple [(Attribute (Name "self") "msg"); (Attribute (Name "self") "s"); (Attribute (Name "self") "doc_dec"); (Attribute (Name "self") "doc_enc"); (Attribute (Name "self") "pos"); (Attribute (Name "self") "field")])]))] |}.

(** decoder.py:59-165 *)
Definition src_decode : fundef := {| f_params := ["s"; "spec"]; f_body := [
  If (Not (Call (Name "isinstance") [(Name "s"); (Tuple [(Name "bytes"); (Name "bytearray")])] [])) [
    RaiseS (Call (Name "TypeError") [(JoinedStr [(Constant (CStr "Encoded ISO8583 data must be bytes or bytearray, not ")); (Attribute (Attribute (Name "s") "__class__") "__name__")])] [])] [];
  Assign (Name "doc_dec") (Dict []);
  Assign (Name "doc_enc") (Dict []);
  Assign (Name "fields") (Call (Name "set") [] []);
  Assign (Name "idx") (Constant (CInt 0));
  Assign (Name "idx") (Call (Name "_decode_header") [(Name "s"); (Name "doc_dec"); (Name "doc_enc"); (Name "idx"); (Name "spec")] []);
  Assign (Name "idx") (Call (Name "_decode_type") [(Name "s"); (Name "doc_dec"); (Name "doc_enc"); (Name "idx"); (Name "spec")] []);
  Assign (Name "field") (Constant (CStr "p"));
  Assign (Name "idx") (Call (Name "_decode_bitmap") [(Name "s"); (Name "doc_dec"); (Name "doc_enc"); (Name "idx"); (Name "field"); (Subscript (Name "spec") (Name "field")); (Constant (CInt 0)); (Constant CFalse); (Name "fields")] []);
  If (Compare (Constant (CInt 1)) CmpIn (Name "fields")) [
    Assign (Name "field") (Constant (CStr "1"));
    Assign (Name "idx") (Call (Name "_decode_bitmap") [(Name "s"); (Name "doc_dec"); (Name "doc_enc"); (Name "idx"); (Name "field"); (Subscript (Name "spec") (Name "field")); (Constant (CInt 64)); (Constant CFalse); (Name "fields")] []);
    Expr (Call (Attribute (Name "fields") "remove") [(Constant (CInt 1))] [])] [];
  If (Compare (Constant (CInt 65)) CmpIn (Name "fields")) [
    Assign (Name "idx") (Call (Name "_decode_bitmap") [(Name "s"); (Name "doc_dec"); (Name "doc_enc"); (Name "idx"); (Name "field"); (Subscript (Name "spec") (Name "field")); (Constant (CInt 128)); (Constant CTrue); (Name "fields")] []);
    Expr (Call (Attribute (Name "fields") "remove") [(Constant (CInt 65))] [])] [];
  For (Name "field") (ListComp (Call (Name "str") [(Name "i")] []) [((Name "i"), (Call (Name "sorted") [(Name "fields")] []), [])]) [
    Assign (Name "idx") (Call (Name "_decode_field") [(Name "s"); (Name "doc_dec"); (Name "doc_enc"); (Name "idx"); (Name "field"); (Subscript (Name "spec") (Name "field"))] [])];
  If (Compare (Name "idx") CmpNotEq (Call (Name "len") [(Name "s")] [])) [
    RaiseS (Call (Name "DecodeError") [(Constant (CStr "Extra data after last field")); (Name "s"); (Name "doc_dec"); (Name "doc_enc"); (Name "idx"); (Name "field")] [])] [];
  Return (Some (Tuple [(Name "doc_dec"); (Name "doc_enc")]))] |}.

(** decoder.py:175-213 *)
Definition src__decode_header : fundef := {| f_params := ["s"; "doc_dec"; "doc_enc"; "idx"; "spec"]; f_body := [
  If (Compare (Subscript (Subscript (Name "spec") (Constant (CStr "h"))) (Constant (CStr "max_len"))) CmpLtE (Constant (CInt 0))) [
    Return (Some (Name "idx"))] [];
  Return (Some (Call (Name "_decode_field") [(Name "s"); (Name "doc_dec"); (Name "doc_enc"); (Name "idx"); (Constant (CStr "h")); (Subscript (Name "spec") (Constant (CStr "h")))] []))] |}.

(** decoder.py:216-283 *)
Definition src__decode_type : fundef := {| f_params := ["s"; "doc_dec"; "doc_enc"; "idx"; "spec"]; f_body := [
  If (Compare (Subscript (Subscript (Name "spec") (Constant (CStr "t"))) (Constant (CStr "data_enc"))) CmpEq (Constant (CStr "b"))) [
    Assign (Name "expected_field_len") (Constant (CInt 2))] [
    Assign (Name "expected_field_len") (Constant (CInt 4))];
  Assign (Name "encoded_field_data") (Subscript (Name "s") (Slice (Some (Name "idx")) (Some (BinOp (Name "idx") Add (Name "expected_field_len")))));
  Assign (Subscript (Name "doc_dec") (Constant (CStr "t"))) (Constant (CStr ""));
  Assign (Subscript (Name "doc_enc") (Constant (CStr "t"))) (Dict [((Constant (CStr "len")), (Constant (CBytes []))); ((Constant (CStr "data")), (Call (Name "bytes") [(Name "encoded_field_data")] []))]);
  If (Compare (Call (Name "len") [(Name "encoded_field_data")] []) CmpNotEq (Name "expected_field_len")) [
    RaiseS (Call (Name "DecodeError") [(JoinedStr [(Constant (CStr "Field data is ")); (Call (Name "len") [(Name "encoded_field_data")] []); (Constant (CStr " bytes, expecting ")); (Name "expected_field_len")]); (Name "s"); (Name "doc_dec"); (Name "doc_enc"); (Name "idx"); (Constant (CStr "t"))] [])] [];
  If (Compare (Subscript (Subscript (Name "spec") (Constant (CStr "t"))) (Constant (CStr "data_enc"))) CmpEq (Constant (CStr "b"))) [
    Assign (Subscript (Name "doc_dec") (Constant (CStr "t"))) (Call (Attribute (Call (Attribute (Name "encoded_field_data") "hex") [] []) "upper") [] [])] [
    Assign (Subscript (Name "doc_dec") (Constant (CStr "t"))) (Call (Name "_decode_text_data") [(Name "s"); (Name "encoded_field_data"); (Name "idx"); (Name "doc_dec"); (Name "doc_enc"); (Constant (CStr "t")); (Subscript (Name "spec") (Constant (CStr "t")))] [])];
  Return (Some (BinOp (Name "idx") Add (Name "expected_field_len")))] |}.

(** decoder.py:286-403 *)
Definition src__decode_bitmap : fundef := {| f_params := ["s"; "doc_dec"; "doc_enc"; "idx"; "field_key"; "field_spec"; "field_offset"; "is_extended"; "fields"]; f_body := [
  If (Compare (Subscript (Name "field_spec") (Constant (CStr "data_enc"))) CmpEq (Constant (CStr "b"))) [
    Assign (Name "expected_field_len") (Constant (CInt 8))] [
    Assign (Name "expected_field_len") (Constant (CInt 16))];
  Assign (Name "encoded_field_data") (Subscript (Name "s") (Slice (Some (Name "idx")) (Some (BinOp (Name "idx") Add (Name "expected_field_len")))));
  If (Name "is_extended") [
    Assign (Subscript (Subscript (Name "doc_enc") (Name "field_key")) (Constant (CStr "data"))) (BinOp (Subscript (Subscript (Name "doc_enc") (Name "field_key")) (Constant (CStr "data"))) Add (Call (Name "bytes") [(Name "encoded_field_data")] []))] [
    Assign (Subscript (Name "doc_dec") (Name "field_key")) (Constant (CStr ""));
    Assign (Subscript (Name "doc_enc") (Name "field_key")) (Dict [((Constant (CStr "len")), (Constant (CBytes []))); ((Constant (CStr "data")), (Call (Name "bytes") [(Name "encoded_field_data")] []))])];
  If (Compare (Call (Name "len") [(Name "encoded_field_data")] []) CmpNotEq (Name "expected_field_len")) [
    RaiseS (Call (Name "DecodeError") [(JoinedStr [(Constant (CStr "Field data is ")); (Call (Name "len") [(Subscript (Subscript (Name "doc_enc") (Name "field_key")) (Constant (CStr "data")))] []); (Constant (CStr " bytes, expecting ")); (IfExp (Name "is_extended") (BinOp (Name "expected_field_len") Mult (Constant (CInt 2))) (Name "expected_field_len"))]); (Name "s"); (Name "doc_dec"); (Name "doc_enc"); (Name "idx"); (Name "field_key")] [])] [];
  If (Compare (Subscript (Name "field_spec") (Constant (CStr "data_enc"))) CmpEq (Constant (CStr "b"))) [
    Assign (Name "decoded_field_data") (Call (Attribute (Call (Attribute (Name "encoded_field_data") "hex") [] []) "upper") [] []);
    Assign (Subscript (Name "doc_dec") (Name "field_key")) (IfExp (Name "is_extended") (BinOp (Subscript (Name "doc_dec") (Name "field_key")) Add (Name "decoded_field_data")) (Name "decoded_field_data"));
    Assign (Name "bitmap") (Name "encoded_field_data")] [
    Assign (Name "decoded_field_data") (Call (Name "_decode_text_data") [(Name "s"); (Name "encoded_field_data"); (Name "idx"); (Name "doc_dec"); (Name "doc_enc"); (Name "field_key"); (Name "field_spec")] []);
    Assign (Subscript (Name "doc_dec") (Name "field_key")) (IfExp (Name "is_extended") (BinOp (Subscript (Name "doc_dec") (Name "field_key")) Add (Name "decoded_field_data")) (Name "decoded_field_data"));
    Try [
      Assign (Name "bitmap") (Call (Attribute (Name "bytes") "fromhex") [(Name "decoded_field_data")] [])] [("Exception", None, [
      RaiseS (Call (Name "DecodeError") [(Constant (CStr "Failed to decode field, non-hex data")); (Name "s"); (Name "doc_dec"); (Name "doc_enc"); (Name "idx"); (Name "field_key")] [])])]];
  Expr (Call (Attribute (Name "fields") "update") [(ListComp (BinOp (BinOp (Name "field_offset") Add (BinOp (Name "byte_idx") Mult (Constant (CInt 8)))) Add (Name "bit")) [((Name "bit"), (Call (Name "range") [(Constant (CInt 1)); (Constant (CInt 9))] []), []); ((Tuple [(Name "byte_idx"); (Name "byte")]), (Call (Name "enumerate") [(Name "bitmap")] []), [(BinOp (BinOp (Name "byte") RShift (BinOp (Constant (CInt 8)) Sub (Name "bit"))) BitAnd (Constant (CInt 1)))])])] []);
  Return (Some (BinOp (Name "idx") Add (Name "expected_field_len")))] |}.

(** decoder.py:406-598 *)
Definition src__decode_field : fundef := {| f_params := ["s"; "doc_dec"; "doc_enc"; "idx"; "field_key"; "field_spec"]; f_body := [
  Assign (Name "len_type") (Subscript (Name "field_spec") (Constant (CStr "len_type")));
  Assign (Name "len_count") (Call (Attribute (Name "field_spec") "get") [(Constant (CStr "len_count")); (Constant (CStr "bytes"))] []);
  Assign (Subscript (Name "doc_dec") (Name "field_key")) (Constant (CStr ""));
  Assign (Subscript (Name "doc_enc") (Name "field_key")) (Dict [((Constant (CStr "len")), (Call (Name "bytes") [(Subscript (Name "s") (Slice (Some (Name "idx")) (Some (BinOp (Name "idx") Add (Name "len_type")))))] [])); ((Constant (CStr "data")), (Constant (CBytes [])))]);
  If (Compare (Call (Name "len") [(Subscript (Name "s") (Slice (Some (Name "idx")) (Some (BinOp (Name "idx") Add (Name "len_type")))))] []) CmpNotEq (Name "len_type")) [
    RaiseS (Call (Name "DecodeError") [(JoinedStr [(Constant (CStr "Field length is ")); (Call (Name "len") [(Subscript (Name "s") (Slice (Some (Name "idx")) (Some (BinOp (Name "idx") Add (Name "len_type")))))] []); (Constant (CStr " bytes wide, expecting ")); (Name "len_type")]); (Name "s"); (Name "doc_dec"); (Name "doc_enc"); (Name "idx"); (Name "field_key")] [])] [];
  If (Compare (Name "len_type") CmpEq (Constant (CInt 0))) [
    Assign (Name "enc_field_len") (Subscript (Name "field_spec") (Constant (CStr "max_len")))] [
    If (Compare (Subscript (Name "field_spec") (Constant (CStr "len_enc"))) CmpEq (Constant (CStr "b"))) [
      Try [
        Assign (Name "enc_field_len") (Call (Attribute (Name "int") "from_bytes") [(Subscript (Name "s") (Slice (Some (Name "idx")) (Some (BinOp (Name "idx") Add (Name "len_type"))))); (Constant (CStr "big"))] [("signed", (Constant CFalse))])] [("Exception", (Some "e"), [
        RaiseS (Call (Name "DecodeError") [(JoinedStr [(Constant (CStr "Failed to decode field length, ")); (Name "e")]); (Name "s"); (Name "doc_dec"); (Name "doc_enc"); (Name "idx"); (Name "field_key")] [])])]] [
      If (Compare (Subscript (Name "field_spec") (Constant (CStr "len_enc"))) CmpEq (Constant (CStr "bcd"))) [
        Try [
          Assign (Name "enc_field_len") (Call (Name "int") [(Call (Attribute (Subscript (Name "s") (Slice (Some (Name "idx")) (Some (BinOp (Name "idx") Add (Name "len_type"))))) "hex") [] []); (Constant (CInt 10))] [])] [("Exception", None, [
          RaiseS (Call (Name "DecodeError") [(Constant (CStr "Failed to decode field length, invalid BCD data")); (Name "s"); (Name "doc_dec"); (Name "doc_enc"); (Name "idx"); (Name "field_key")] [])])]] [
        Try [
          Assign (Name "decoded_length") (Call (Attribute (Subscript (Name "s") (Slice (Some (Name "idx")) (Some (BinOp (Name "idx") Add (Name "len_type"))))) "decode") [(Subscript (Name "field_spec") (Constant (CStr "len_enc")))] [])] [("LookupError", None, [
          RaiseS (Call (Name "DecodeError") [(Constant (CStr "Failed to decode field length, unknown encoding specified")); (Name "s"); (Name "doc_dec"); (Name "doc_enc"); (Name "idx"); (Name "field_key")] [])]); ("Exception", None, [
          RaiseS (Call (Name "DecodeError") [(Constant (CStr "Failed to decode field length, invalid data")); (Name "s"); (Name "doc_dec"); (Name "doc_enc"); (Name "idx"); (Name "field_key")] [])])];
        Try [
          Assign (Name "enc_field_len") (Call (Name "int") [(Name "decoded_length")] [])] [("Exception", None, [
          RaiseS (Call (Name "DecodeError") [(Constant (CStr "Failed to decode field length, non-numeric data")); (Name "s"); (Name "doc_dec"); (Name "doc_enc"); (Name "idx"); (Name "field_key")] [])])]]];
    If (Compare (Name "enc_field_len") CmpGt (Subscript (Name "field_spec") (Constant (CStr "max_len")))) [
      RaiseS (Call (Name "DecodeError") [(JoinedStr [(Constant (CStr "Field data is ")); (Name "enc_field_len"); (Constant (CStr " ")); (Name "len_count"); (Constant (CStr ", larger than maximum ")); (Subscript (Name "field_spec") (Constant (CStr "max_len")))]); (Name "s"); (Name "doc_dec"); (Name "doc_enc"); (Name "idx"); (Name "field_key")] [])] []];
  AugAssign (Name "idx") Add (Name "len_type");
  If (Compare (Name "enc_field_len") CmpEq (Constant (CInt 0))) [
    Return (Some (Name "idx"))] [];
  If (Compare (Name "len_count") CmpEq (Constant (CStr "nibbles"))) [
    If (BinOp (Name "enc_field_len") BitAnd (Constant (CInt 1))) [
      Assign (Name "byte_field_len") (BinOp (BinOp (Name "enc_field_len") Add (Constant (CInt 1))) FloorDiv (Constant (CInt 2)))] [
      Assign (Name "byte_field_len") (BinOp (Name "enc_field_len") FloorDiv (Constant (CInt 2)))]] [
    Assign (Name "byte_field_len") (Name "enc_field_len")];
  Assign (Subscript (Subscript (Name "doc_enc") (Name "field_key")) (Constant (CStr "data"))) (Call (Name "bytes") [(Subscript (Name "s") (Slice (Some (Name "idx")) (Some (BinOp (Name "idx") Add (Name "byte_field_len")))))] []);
  If (Compare (Call (Name "len") [(Subscript (Subscript (Name "doc_enc") (Name "field_key")) (Constant (CStr "data")))] []) CmpNotEq (Name "byte_field_len")) [
    If (Compare (Name "len_count") CmpEq (Constant (CStr "nibbles"))) [
      Assign (Name "actual_field_len") (BinOp (Call (Name "len") [(Subscript (Subscript (Name "doc_enc") (Name "field_key")) (Constant (CStr "data")))] []) Mult (Constant (CInt 2)))] [
      Assign (Name "actual_field_len") (Call (Name "len") [(Subscript (Subscript (Name "doc_enc") (Name "field_key")) (Constant (CStr "data")))] [])];
    RaiseS (Call (Name "DecodeError") [(JoinedStr [(Constant (CStr "Field data is ")); (Name "actual_field_len"); (Constant (CStr " ")); (Name "len_count"); (Constant (CStr ", expecting ")); (Name "enc_field_len")]); (Name "s"); (Name "doc_dec"); (Name "doc_enc"); (Name "idx"); (Name "field_key")] [])] [];
  If (Compare (Subscript (Name "field_spec") (Constant (CStr "data_enc"))) CmpEq (Constant (CStr "b"))) [
    Assign (Subscript (Name "doc_dec") (Name "field_key")) (Call (Attribute (Call (Attribute (Subscript (Subscript (Name "doc_enc") (Name "field_key")) (Constant (CStr "data"))) "hex") [] []) "upper") [] []);
    If (BoolAnd (Compare (Name "len_count") CmpEq (Constant (CStr "nibbles"))) (BinOp (Name "enc_field_len") BitAnd (Constant (CInt 1)))) [
      Assign (Subscript (Name "doc_dec") (Name "field_key")) (Call (Name "_remove_pad_field") [(Name "s"); (Name "idx"); (Name "doc_dec"); (Name "doc_enc"); (Name "field_key"); (Name "field_spec"); (Name "enc_field_len")] [])] []] [
    Assign (Subscript (Name "doc_dec") (Name "field_key")) (Call (Name "_decode_text_data") [(Name "s"); (Subscript (Subscript (Name "doc_enc") (Name "field_key")) (Constant (CStr "data"))); (Name "idx"); (Name "doc_dec"); (Name "doc_enc"); (Name "field_key"); (Name "field_spec")] [])];
  Return (Some (BinOp (Name "idx") Add (Name "byte_field_len")))] |}.

(** decoder.py:601-655 *)
Definition src__remove_pad_field : fundef := {| f_params := ["s"; "idx"; "doc_dec"; "doc_enc"; "field_key"; "field_spec"; "enc_field_len"]; f_body := [
  Assign (Name "pad") (Subscript (Call (Attribute (Name "field_spec") "get") [(Constant (CStr "left_pad")); (Constant (CStr ""))] []) (Slice None (Some (Constant (CInt 1)))));
  If (BoolAnd (Compare (Call (Name "len") [(Name "pad")] []) CmpGt (Constant (CInt 0))) (Compare (Subscript (Subscript (Name "doc_dec") (Name "field_key")) (Slice None (Some (Constant (CInt 1))))) CmpEq (Name "pad"))) [
    Return (Some (Subscript (Subscript (Name "doc_dec") (Name "field_key")) (Slice (Some (Constant (CInt 1))) None)))] [];
  Assign (Name "pad") (Subscript (Call (Attribute (Name "field_spec") "get") [(Constant (CStr "right_pad")); (Constant (CStr ""))] []) (Slice None (Some (Constant (CInt 1)))));
  If (BoolAnd (Compare (Call (Name "len") [(Name "pad")] []) CmpGt (Constant (CInt 0))) (Compare (Subscript (Subscript (Name "doc_dec") (Name "field_key")) (Slice (Some (USub (Constant (CInt 1)))) None)) CmpEq (Name "pad"))) [
    Return (Some (Subscript (Subscript (Name "doc_dec") (Name "field_key")) (Slice None (Some (USub (Constant (CInt 1)))))))] [];
  RaiseS (Call (Name "DecodeError") [(JoinedStr [(Constant (CStr "Field data is ")); (Call (Name "len") [(Subscript (Name "doc_dec") (Name "field_key"))] []); (Constant (CStr " nibbles, expecting ")); (Name "enc_field_len")]); (Name "s"); (Name "doc_dec"); (Name "doc_enc"); (Name "idx"); (Name "field_key")] [])] |}.

(** decoder.py:658-718 *)
Definition src__decode_text_data : fundef := {| f_params := ["s"; "data"; "idx"; "doc_dec"; "doc_enc"; "field_key"; "field_spec"]; f_body := [
  Try [
    Return (Some (Call (Attribute (Name "data") "decode") [(Subscript (Name "field_spec") (Constant (CStr "data_enc")))] []))] [("LookupError", None, [
    RaiseS (Call (Name "DecodeError") [(Constant (CStr "Failed to decode field, unknown encoding specified")); (Name "s"); (Name "doc_dec"); (Name "doc_enc"); (Name "idx"); (Name "field_key")] [])]); ("Exception", None, [
    RaiseS (Call (Name "DecodeError") [(Constant (CStr "Failed to decode field, invalid data")); (Name "s"); (Name "doc_dec"); (Name "doc_enc"); (Name "idx"); (Name "field_key")] [])])]] |}.

Definition decoder_py : list (string * fundef) := [
  ("DecodeError.__init__", src_DecodeError___init__);
  ("DecodeError.__reduce__", src_DecodeError___reduce__);
  ("decode", src_decode);
  ("_decode_header", src__decode_header);
  ("_decode_type", src__decode_type);
  ("_decode_bitmap", src__decode_bitmap);
  ("_decode_field", src__decode_field);
  ("_remove_pad_field", src__remove_pad_field);
  ("_decode_text_data", src__decode_text_data)].

(** encoder.py:26-34 *)
Definition src_EncodeError___init__ : fundef := {| f_params := ["self"; "msg"; "doc_dec"; "doc_enc"; "field"]; f_body := [
  Assign (Name "errmsg") (JoinedStr [(Name "msg"); (Constant (CStr ": field ")); (Name "field")]);
  Expr (Call (Attribute (Name "ValueError") "__init__") [(Name "self"); (Name "errmsg")] []);
  Assign (Attribute (Name "self") "msg") (Name "msg");
  Assign (Attribute (Name "self") "doc_dec") (Name "doc_dec");
  Assign (Attribute (Name "self") "doc_enc") (Name "doc_enc");
  Assign (Attribute (Name "self") "field") (Name "field")] |}.

(** encoder.py:36-39 *)
Definition src_EncodeError___reduce__ : fundef := {| f_params := ["self"]; f_body := [
  Return (Some (Tuple [(Attribute (Name "self") "__class__"); (Tuple [(Attribute (Name "self") "msg"); (Attribute (Name "self") "doc_dec"); (Attribute (Name "self") "doc_enc"); (Attribute (Name "self") "field")])]))] |}.

(** encoder.py:42-162 *)
Definition src_encode : fundef := {| f_params := ["doc_dec"; "spec"]; f_body := [
  If (Not (Call (Name "isinstance") [(Name "doc_dec"); (Name "dict")] [])) [
    RaiseS (Call (Name "TypeError") [(JoinedStr [(Constant (CStr "Decoded ISO8583 data must be dict, not ")); (Attribute (Attribute (Name "doc_dec") "__class__") "__name__")])] [])] [];
  Assign (Name "s") (Call (Name "bytearray") [] []);
  Assign (Name "doc_enc") (Dict []);
  Expr (Call (Attribute (Name "doc_dec") "pop") [(Constant (CStr "1")); (Constant CNone)] []);
  Expr (Call (Attribute (Name "doc_dec") "pop") [(Constant (CStr "65")); (Constant CNone)] []);
  AugAssign (Name "s") Add (Call (Name "_encode_header") [(Name "doc_dec"); (Name "doc_enc"); (Name "spec")] []);
  AugAssign (Name "s") Add (Call (Name "_encode_type") [(Name "doc_dec"); (Name "doc_enc"); (Name "spec")] []);
  Try [
    Assign (Name "fields") (Call (Name "set") [(ListComp (Call (Name "int") [(Name "k")] []) [((Name "k"), (Call (Attribute (Name "doc_dec") "keys") [] []), [(Call (Attribute (Name "k") "isnumeric") [] [])])])] [])] [("AttributeError", None, [
    RaiseS (Call (Name "EncodeError") [(JoinedStr [(Constant (CStr "Dictionary contains invalid fields ")); (ListComp (Name "k") [((Name "k"), (Call (Attribute (Name "doc_dec") "keys") [] []), [(Not (Call (Name "isinstance") [(Name "k"); (Name "str")] []))])])]); (Name "doc_dec"); (Name "doc_enc"); (Constant (CStr "p"))] [])])];
  If (Not (Call (Attribute (Name "fields") "issubset") [(Call (Name "range") [(Constant (CInt 1)); (Constant (CInt 193))] [])] [])) [
    RaiseS (Call (Name "EncodeError") [(JoinedStr [(Constant (CStr "Dictionary contains fields outside of 1-192 range ")); (Call (Name "sorted") [(Call (Attribute (Name "fields") "difference") [(Call (Name "range") [(Constant (CInt 1)); (Constant (CInt 193))] [])] [])] [])]); (Name "doc_dec"); (Name "doc_enc"); (Constant (CStr "p"))] [])] [];
  Assign (Name "tertiary_fields") (Call (Attribute (Name "fields") "intersection") [(Call (Name "range") [(Constant (CInt 129)); (Constant (CInt 193))] [])] []);
  If (Name "tertiary_fields") [
    Expr (Call (Attribute (Name "fields") "add") [(Constant (CInt 65))] [])] [];
  Assign (Name "secondary_fields") (Call (Attribute (Name "fields") "intersection") [(Call (Name "range") [(Constant (CInt 65)); (Constant (CInt 129))] [])] []);
  If (Name "secondary_fields") [
    Expr (Call (Attribute (Name "fields") "add") [(Constant (CInt 1))] [])] [];
  AugAssign (Name "s") Add (Call (Name "_encode_bitmap") [(Name "doc_dec"); (Name "doc_enc"); (Constant (CStr "p")); (Subscript (Name "spec") (Constant (CStr "p"))); (Constant (CInt 0)); (Constant CFalse); (Call (Attribute (Name "fields") "intersection") [(Call (Name "range") [(Constant (CInt 1)); (Constant (CInt 65))] [])] [])] []);
  If (Compare (Constant (CInt 1)) CmpIn (Name "fields")) [
    AugAssign (Name "s") Add (Call (Name "_encode_bitmap") [(Name "doc_dec"); (Name "doc_enc"); (Constant (CStr "1")); (Subscript (Name "spec") (Constant (CStr "1"))); (Constant (CInt 64)); (Constant CFalse); (Name "secondary_fields")] []);
    Expr (Call (Attribute (Name "fields") "remove") [(Constant (CInt 1))] [])] [];
  If (Compare (Constant (CInt 65)) CmpIn (Name "fields")) [
    AugAssign (Name "s") Add (Call (Name "_encode_bitmap") [(Name "doc_dec"); (Name "doc_enc"); (Constant (CStr "1")); (Subscript (Name "spec") (Constant (CStr "1"))); (Constant (CInt 128)); (Constant CTrue); (Name "tertiary_fields")] []);
    Expr (Call (Attribute (Name "fields") "remove") [(Constant (CInt 65))] [])] [];
  For (Name "field_key") (ListComp (Call (Name "str") [(Name "i")] []) [((Name "i"), (Call (Name "sorted") [(Name "fields")] []), [])]) [
    AugAssign (Name "s") Add (Call (Name "_encode_field") [(Name "doc_dec"); (Name "doc_enc"); (Name "field_key"); (Subscript (Name "spec") (Name "field_key"))] [])];
  Return (Some (Tuple [(Name "s"); (Name "doc_enc")]))] |}.

(** encoder.py:172-210 *)
Definition src__encode_header : fundef := {| f_params := ["doc_dec"; "doc_enc"; "spec"]; f_body := [
  If (Compare (Subscript (Subscript (Name "spec") (Constant (CStr "h"))) (Constant (CStr "max_len"))) CmpLtE (Constant (CInt 0))) [
    Return (Some (Constant (CBytes [])))] [];
  If (Compare (Constant (CStr "h")) CmpNotIn (Name "doc_dec")) [
    RaiseS (Call (Name "EncodeError") [(Constant (CStr "Field data is required according to specifications")); (Name "doc_dec"); (Name "doc_enc"); (Constant (CStr "h"))] [])] [];
  Return (Some (Call (Name "_encode_field") [(Name "doc_dec"); (Name "doc_enc"); (Constant (CStr "h")); (Subscript (Name "spec") (Constant (CStr "h")))] []))] |}.

(** encoder.py:213-280 *)
Definition src__encode_type : fundef := {| f_params := ["doc_dec"; "doc_enc"; "spec"]; f_body := [
  If (Compare (Constant (CStr "t")) CmpNotIn (Name "doc_dec")) [
    RaiseS (Call (Name "EncodeError") [(Constant (CStr "Field data is required")); (Name "doc_dec"); (Name "doc_enc"); (Constant (CStr "t"))] [])] [];
  If (Compare (Subscript (Subscript (Name "spec") (Constant (CStr "t"))) (Constant (CStr "data_enc"))) CmpEq (Constant (CStr "b"))) [
    Assign (Name "expected_field_len") (Constant (CInt 2))] [
    Assign (Name "expected_field_len") (Constant (CInt 4))];
  Assign (Subscript (Name "doc_enc") (Constant (CStr "t"))) (Dict [((Constant (CStr "len")), (Constant (CBytes []))); ((Constant (CStr "data")), (Constant (CBytes [])))]);
  If (Compare (Subscript (Subscript (Name "spec") (Constant (CStr "t"))) (Constant (CStr "data_enc"))) CmpEq (Constant (CStr "b"))) [
    Assign (Tuple [(Subscript (Subscript (Name "doc_enc") (Constant (CStr "t"))) (Constant (CStr "data"))); (Name "enc_field_len")]) (Call (Name "_encode_bindary_field") [(Name "doc_dec"); (Name "doc_enc"); (Subscript (Name "doc_dec") (Constant (CStr "t"))); (Constant (CStr "t")); (Subscript (Name "spec") (Constant (CStr "t"))); (Constant (CStr "bytes"))] [])] [
    Assign (Tuple [(Subscript (Subscript (Name "doc_enc") (Constant (CStr "t"))) (Constant (CStr "data"))); (Name "enc_field_len")]) (Call (Name "_encode_text_field") [(Name "doc_dec"); (Name "doc_enc"); (Subscript (Name "doc_dec") (Constant (CStr "t"))); (Constant (CStr "t")); (Subscript (Name "spec") (Constant (CStr "t"))); (Constant (CStr "bytes"))] [])];
  If (Compare (Name "enc_field_len") CmpNotEq (Name "expected_field_len")) [
    RaiseS (Call (Name "EncodeError") [(JoinedStr [(Constant (CStr "Field data is ")); (Name "enc_field_len"); (Constant (CStr " bytes, expecting ")); (Name "expected_field_len")]); (Name "doc_dec"); (Name "doc_enc"); (Constant (CStr "t"))] [])] [];
  Return (Some (Subscript (Subscript (Name "doc_enc") (Constant (CStr "t"))) (Constant (CStr "data"))))] |}.

(** encoder.py:283-364 *)
Definition src__encode_bitmap : fundef := {| f_params := ["doc_dec"; "doc_enc"; "field_key"; "field_spec"; "field_offset"; "is_extended"; "fields"]; f_body := [
  Assign (Name "bitmap") (Call (Name "bytearray") [(Constant (CBytes [0%N; 0%N; 0%N; 0%N; 0%N; 0%N; 0%N; 0%N]))] []);
  For (Name "field") (Name "fields") [
    AugAssign (Name "field") Sub (BinOp (Constant (CInt 1)) Add (Name "field_offset"));
    Assign (Name "byte") (BinOp (Name "field") FloorDiv (Constant (CInt 8)));
    Assign (Name "bit") (BinOp (Constant (CInt 7)) Sub (BinOp (Name "field") Sub (BinOp (Name "byte") Mult (Constant (CInt 8)))));
    AugAssign (Subscript (Name "bitmap") (Name "byte")) BitOr (BinOp (Constant (CInt 1)) LShift (Name "bit"))];
  Assign (Name "hex_bitmap") (Call (Attribute (Call (Attribute (Name "bitmap") "hex") [] []) "upper") [] []);
  If (Name "is_extended") [
    Assign (Subscript (Name "doc_dec") (Name "field_key")) (BinOp (Subscript (Name "doc_dec") (Name "field_key")) Add (Name "hex_bitmap"))] [
    Assign (Subscript (Name "doc_dec") (Name "field_key")) (Name "hex_bitmap");
    Assign (Subscript (Name "doc_enc") (Name "field_key")) (Dict [((Constant (CStr "len")), (Constant (CBytes []))); ((Constant (CStr "data")), (Constant (CBytes [])))])];
  If (Compare (Subscript (Name "field_spec") (Constant (CStr "data_enc"))) CmpEq (Constant (CStr "b"))) [
    Assign (Name "encoded_data") (Call (Name "bytes") [(Name "bitmap")] [])] [
    Assign (Tuple [(Name "encoded_data"); (Name "_")]) (Call (Name "_encode_text_field") [(Name "doc_dec"); (Name "doc_enc"); (Name "hex_bitmap"); (Name "field_key"); (Name "field_spec"); (Constant (CStr "bytes"))] [])];
  If (Name "is_extended") [
    Assign (Subscript (Subscript (Name "doc_enc") (Name "field_key")) (Constant (CStr "data"))) (BinOp (Subscript (Subscript (Name "doc_enc") (Name "field_key")) (Constant (CStr "data"))) Add (Name "encoded_data"))] [
    Assign (Subscript (Subscript (Name "doc_enc") (Name "field_key")) (Constant (CStr "data"))) (Name "encoded_data")];
  Return (Some (Name "encoded_data"))] |}.

(** encoder.py:367-513 *)
Definition src__encode_field : fundef := {| f_params := ["doc_dec"; "doc_enc"; "field_key"; "field_spec"]; f_body := [
  Assign (Subscript (Name "doc_enc") (Name "field_key")) (Dict [((Constant (CStr "len")), (Constant (CBytes []))); ((Constant (CStr "data")), (Constant (CBytes [])))]);
  Assign (Name "len_count") (Call (Attribute (Name "field_spec") "get") [(Constant (CStr "len_count")); (Constant (CStr "bytes"))] []);
  If (Compare (Subscript (Name "field_spec") (Constant (CStr "data_enc"))) CmpEq (Constant (CStr "b"))) [
    Assign (Tuple [(Subscript (Subscript (Name "doc_enc") (Name "field_key")) (Constant (CStr "data"))); (Name "enc_field_len")]) (Call (Name "_encode_bindary_field") [(Name "doc_dec"); (Name "doc_enc"); (Subscript (Name "doc_dec") (Name "field_key")); (Name "field_key"); (Name "field_spec"); (Name "len_count")] [])] [
    Assign (Tuple [(Subscript (Subscript (Name "doc_enc") (Name "field_key")) (Constant (CStr "data"))); (Name "enc_field_len")]) (Call (Name "_encode_text_field") [(Name "doc_dec"); (Name "doc_enc"); (Subscript (Name "doc_dec") (Name "field_key")); (Name "field_key"); (Name "field_spec"); (Name "len_count")] [])];
  Assign (Name "len_type") (Subscript (Name "field_spec") (Constant (CStr "len_type")));
  If (Compare (Name "len_type") CmpEq (Constant (CInt 0))) [
    If (Compare (Name "enc_field_len") CmpNotEq (Subscript (Name "field_spec") (Constant (CStr "max_len")))) [
      RaiseS (Call (Name "EncodeError") [(JoinedStr [(Constant (CStr "Field data is ")); (Name "enc_field_len"); (Constant (CStr " ")); (Name "len_count"); (Constant (CStr ", expecting ")); (Subscript (Name "field_spec") (Constant (CStr "max_len")))]); (Name "doc_dec"); (Name "doc_enc"); (Name "field_key")] [])] [];
    Assign (Subscript (Subscript (Name "doc_enc") (Name "field_key")) (Constant (CStr "len"))) (Constant (CBytes []));
    Return (Some (Subscript (Subscript (Name "doc_enc") (Name "field_key")) (Constant (CStr "data"))))] [];
  If (Compare (Name "enc_field_len") CmpGt (Subscript (Name "field_spec") (Constant (CStr "max_len")))) [
    RaiseS (Call (Name "EncodeError") [(JoinedStr [(Constant (CStr "Field data is ")); (Name "enc_field_len"); (Constant (CStr " ")); (Name "len_count"); (Constant (CStr ", larger than maximum ")); (Subscript (Name "field_spec") (Constant (CStr "max_len")))]); (Name "doc_dec"); (Name "doc_enc"); (Name "field_key")] [])] [];
  If (Compare (Subscript (Name "field_spec") (Constant (CStr "len_enc"))) CmpEq (Constant (CStr "b"))) [
    Try [
      Assign (Subscript (Subscript (Name "doc_enc") (Name "field_key")) (Constant (CStr "len"))) (Call (Attribute (Name "enc_field_len") "to_bytes") [(Name "len_type"); (Constant (CStr "big"))] [("signed", (Constant CFalse))])] [("OverflowError", None, [
      RaiseS (Call (Name "EncodeError") [(Constant (CStr "Failed to encode field length, field length does not fit into configured field size")); (Name "doc_dec"); (Name "doc_enc"); (Name "field_key")] [])])]] [
    If (Compare (Subscript (Name "field_spec") (Constant (CStr "len_enc"))) CmpEq (Constant (CStr "bcd"))) [
      Assign (Name "bcd_field_len") (Call (Attribute (Constant (CStr "{:0{len_type}d}")) "format") [(Name "enc_field_len")] [("len_type", (BinOp (Name "len_type") Mult (Constant (CInt 2))))]);
      If (Compare (Call (Name "len") [(Name "bcd_field_len")] []) CmpGt (BinOp (Name "len_type") Mult (Constant (CInt 2)))) [
        RaiseS (Call (Name "EncodeError") [(Constant (CStr "Failed to encode field length, field length does not fit into configured field size")); (Name "doc_dec"); (Name "doc_enc"); (Name "field_key")] [])] [];
      Assign (Subscript (Subscript (Name "doc_enc") (Name "field_key")) (Constant (CStr "len"))) (Call (Attribute (Name "binascii") "a2b_hex") [(Name "bcd_field_len")] [])] [
      Try [
        Assign (Subscript (Subscript (Name "doc_enc") (Name "field_key")) (Constant (CStr "len"))) (Call (Name "bytes") [(Call (Attribute (Constant (CStr "{:0{len_type}d}")) "format") [(Name "enc_field_len")] [("len_type", (Name "len_type"))]); (Subscript (Name "field_spec") (Constant (CStr "len_enc")))] [])] [("LookupError", None, [
        RaiseS (Call (Name "EncodeError") [(Constant (CStr "Failed to encode field length, unknown encoding specified")); (Name "doc_dec"); (Name "doc_enc"); (Name "field_key")] [])]); ("Exception", (Some "e"), [
        RaiseS (Call (Name "EncodeError") [(JoinedStr [(Constant (CStr "Failed to encode field length, ")); (Name "e")]); (Name "doc_dec"); (Name "doc_enc"); (Name "field_key")] [])])];
      If (Compare (Call (Name "len") [(Subscript (Subscript (Name "doc_enc") (Name "field_key")) (Constant (CStr "len")))] []) CmpGt (Name "len_type")) [
        RaiseS (Call (Name "EncodeError") [(Constant (CStr "Failed to encode field length, field length does not fit into configured field size")); (Name "doc_dec"); (Name "doc_enc"); (Name "field_key")] [])] []]];
  Return (Some (BinOp (Subscript (Subscript (Name "doc_enc") (Name "field_key")) (Constant (CStr "len"))) Add (Subscript (Subscript (Name "doc_enc") (Name "field_key")) (Constant (CStr "data")))))] |}.

(** encoder.py:516-584 *)
Definition src__encode_bindary_field : fundef := {| f_params := ["doc_dec"; "doc_enc"; "field_data"; "field_key"; "field_spec"; "len_count"]; f_body := [
  Try [
    If (BoolAnd (Compare (Name "len_count") CmpEq (Constant (CStr "nibbles"))) (BinOp (Call (Name "len") [(Name "field_data")] []) BitAnd (Constant (CInt 1)))) [
      Assign (Name "data_to_encode") (Call (Name "_add_pad_field") [(Name "field_data"); (Name "field_spec")] [])] [
      Assign (Name "data_to_encode") (Name "field_data")];
    Assign (Name "encoded_data") (Call (Attribute (Name "binascii") "a2b_hex") [(Name "data_to_encode")] [])] [("Exception", None, [
    If (BoolAnd (Compare (Name "len_count") CmpEq (Constant (CStr "nibbles"))) (Compare (BinOp (Call (Name "len") [(Name "data_to_encode")] []) Mod (Constant (CInt 2))) CmpEq (Constant (CInt 1)))) [
      RaiseS (Call (Name "EncodeError") [(Constant (CStr "Failed to encode field, odd-length nibble data, specify pad")); (Name "doc_dec"); (Name "doc_enc"); (Name "field_key")] [])] [];
    If (Compare (BinOp (Call (Name "len") [(Name "data_to_encode")] []) Mod (Constant (CInt 2))) CmpEq (Constant (CInt 1))) [
      RaiseS (Call (Name "EncodeError") [(Constant (CStr "Failed to encode field, odd-length hex data")); (Name "doc_dec"); (Name "doc_enc"); (Name "field_key")] [])] [];
    RaiseS (Call (Name "EncodeError") [(Constant (CStr "Failed to encode field, non-hex data")); (Name "doc_dec"); (Name "doc_enc"); (Name "field_key")] [])])];
  If (Compare (Name "len_count") CmpEq (Constant (CStr "nibbles"))) [
    Return (Some (Tuple [(Name "encoded_data"); (Call (Name "len") [(Name "field_data")] [])]))] [
    Return (Some (Tuple [(Name "encoded_data"); (Call (Name "len") [(Name "encoded_data")] [])]))]] |}.

(** encoder.py:587-618 *)
Definition src__add_pad_field : fundef := {| f_params := ["field_data"; "field_spec"]; f_body := [
  Assign (Name "pad") (Subscript (Call (Attribute (Name "field_spec") "get") [(Constant (CStr "left_pad")); (Constant (CStr ""))] []) (Slice None (Some (Constant (CInt 1)))));
  If (Compare (Call (Name "len") [(Name "pad")] []) CmpGt (Constant (CInt 0))) [
    Return (Some (BinOp (Name "pad") Add (Name "field_data")))] [];
  Assign (Name "pad") (Subscript (Call (Attribute (Name "field_spec") "get") [(Constant (CStr "right_pad")); (Constant (CStr ""))] []) (Slice None (Some (Constant (CInt 1)))));
  If (Compare (Call (Name "len") [(Name "pad")] []) CmpGt (Constant (CInt 0))) [
    Return (Some (BinOp (Name "field_data") Add (Name "pad")))] [];
  Return (Some (Name "field_data"))] |}.

(** encoder.py:621-677 *)
Definition src__encode_text_field : fundef := {| f_params := ["doc_dec"; "doc_enc"; "field_data"; "field_key"; "field_spec"; "len_count"]; f_body := [
  Try [
    Assign (Name "encoded_data") (Call (Attribute (Name "field_data") "encode") [(Subscript (Name "field_spec") (Constant (CStr "data_enc")))] [])] [("LookupError", None, [
    RaiseS (Call (Name "EncodeError") [(Constant (CStr "Failed to encode field, unknown encoding specified")); (Name "doc_dec"); (Name "doc_enc"); (Name "field_key")] [])]); ("Exception", None, [
    RaiseS (Call (Name "EncodeError") [(Constant (CStr "Failed to encode field, invalid data")); (Name "doc_dec"); (Name "doc_enc"); (Name "field_key")] [])])];
  If (Compare (Name "len_count") CmpEq (Constant (CStr "nibbles"))) [
    Return (Some (Tuple [(Name "encoded_data"); (BinOp (Call (Name "len") [(Name "encoded_data")] []) Mult (Constant (CInt 2)))]))] [
    Return (Some (Tuple [(Name "encoded_data"); (Call (Name "len") [(Name "encoded_data")] [])]))]] |}.

Definition encoder_py : list (string * fundef) := [
  ("EncodeError.__init__", src_EncodeError___init__);
  ("EncodeError.__reduce__", src_EncodeError___reduce__);
  ("encode", src_encode);
  ("_encode_header", src__encode_header);
  ("_encode_type", src__encode_type);
  ("_encode_bitmap", src__encode_bitmap);
  ("_encode_field", src__encode_field);
  ("_encode_bindary_field", src__encode_bindary_field);
  ("_add_pad_field", src__add_pad_field);
  ("_encode_text_field", src__encode_text_field)].

(** tools.py:11-76 *)
Definition src_pp : fundef := {| f_params := ["doc"; "spec"; "desc_width"; "stream"; "line_width"]; f_body := [
  Assign (Name "desc_width") (Call (Name "int") [(Name "desc_width")] []);
  Assign (Name "line_width") (Call (Name "int") [(Name "line_width")] []);
  If (Compare (Name "stream") CmpIs (Constant CNone)) [
    Assign (Name "stream") (Attribute (Name "_sys") "stdout")] [];
  If (BoolAnd (Compare (Constant (CStr "h")) CmpIn (Name "doc")) (Compare (Subscript (Subscript (Name "spec") (Constant (CStr "h"))) (Constant (CStr "max_len"))) CmpGt (Constant (CInt 0)))) [
    Expr (Call (Name "_pp_field") [(Name "doc"); (Name "spec"); (Name "desc_width"); (Name "stream"); (Name "line_width"); (Constant (CStr "h"))] [])] [];
  If (Compare (Constant (CStr "t")) CmpIn (Name "doc")) [
    Expr (Call (Name "_pp_field") [(Name "doc"); (Name "spec"); (Name "desc_width"); (Name "stream"); (Name "line_width"); (Constant (CStr "t"))] [])] [];
  If (Compare (Constant (CStr "p")) CmpIn (Name "doc")) [
    Expr (Call (Name "_pp_field") [(Name "doc"); (Name "spec"); (Name "desc_width"); (Name "stream"); (Name "line_width"); (Constant (CStr "p"))] [])] [];
  For (Name "field_key") (Call (Name "sorted") [(ListComp (Name "k") [((Name "k"), (Call (Attribute (Name "doc") "keys") [] []), [(BoolAnd (Call (Name "isinstance") [(Name "k"); (Name "str")] []) (Call (Attribute (Name "k") "isnumeric") [] []))])])] [("key", (Name "int"))]) [
    Expr (Call (Name "_pp_field") [(Name "doc"); (Name "spec"); (Name "desc_width"); (Name "stream"); (Name "line_width"); (Name "field_key")] [])]] |}.

(** The default values of the last parameters of pp. *)
Definition defaults_pp : list expr := [(Constant (CInt 30)); (Constant CNone); (Constant (CInt 80))].

(** tools.py:79-121 *)
Definition src__pp_field : fundef := {| f_params := ["doc"; "spec"; "desc_width"; "stream"; "line_width"; "field_key"]; f_body := [
  Assign (Name "indent") (Constant (CInt 5));
  Expr (Call (Attribute (Name "stream") "write") [(Call (Attribute (Constant (CStr "{index:3s}")) "format") [] [("index", (Call (Name "str") [(Name "field_key")] []))])] []);
  If (Compare (Name "desc_width") CmpGt (Constant (CInt 0))) [
    Expr (Call (Attribute (Name "stream") "write") [(Call (Attribute (Constant (CStr " {desc: <{desc_width}}")) "format") [] [("desc", (Subscript (Subscript (Subscript (Name "spec") (Name "field_key")) (Constant (CStr "desc"))) (Slice None (Some (Name "desc_width"))))); ("desc_width", (Name "desc_width"))])] []);
    AugAssign (Name "indent") Add (BinOp (Name "desc_width") Add (Constant (CInt 1)))] [];
  Expr (Call (Attribute (Name "stream") "write") [(Constant (CStr ": "))] []);
  Assign (Name "doc_field") (Subscript (Name "doc") (Name "field_key"));
  If (Call (Name "isinstance") [(Name "doc_field"); (Name "dict")] []) [
    Assign (Name "field_length") (Call (Attribute (Name "doc_field") "get") [(Constant (CStr "len")); (Constant (CBytes []))] []);
    If (Compare (Call (Name "len") [(Name "field_length")] []) CmpGt (Constant (CInt 0))) [
      Expr (Call (Attribute (Name "stream") "write") [(Call (Attribute (Constant (CStr "{} ")) "format") [(Call (Name "repr") [(Name "field_length")] [])] [])] []);
      AugAssign (Name "indent") Add (BinOp (Call (Name "len") [(Call (Name "repr") [(Name "field_length")] [])] []) Add (Constant (CInt 1)))] [];
    Assign (Name "obj") (Call (Attribute (Name "doc_field") "get") [(Constant (CStr "data")); (Constant (CBytes []))] [])] [
    Assign (Name "obj") (Name "doc_field")];
  Assign (Name "rep") (Call (Name "repr") [(Name "obj")] []);
  If (Compare (BinOp (Call (Name "len") [(Name "rep")] []) Add (Name "indent")) CmpGt (Name "line_width")) [
    Assign (Name "p") (Call (Attribute (Name "_dispatch") "get") [(Attribute (Call (Name "type") [(Name "obj")] []) "__repr__"); (Constant CNone)] []);
    If (Compare (Name "p") CmpIsNot (Constant CNone)) [
      Expr (Call (Name "p") [(Name "obj"); (Name "stream"); (Name "indent"); (Name "line_width")] []);
      Expr (Call (Attribute (Name "stream") "write") [(Constant (CStr "
"))] []);
      Return None] []] [];
  Expr (Call (Attribute (Name "stream") "write") [(Call (Attribute (Constant (CStr "{}
")) "format") [(Call (Name "repr") [(Name "obj")] [])] [])] [])] |}.

(** tools.py:127-137 *)
Definition src__pprint_str : fundef := {| f_params := ["obj"; "stream"; "indent"; "width"]; f_body := [
  If (Compare (Call (Name "len") [(Name "obj")] []) CmpLtE (Constant (CInt 1))) [
    Expr (Call (Attribute (Name "stream") "write") [(Call (Name "repr") [(Name "obj")] [])] []);
    Return None] [];
  Assign (Name "delim") (Constant (CStr ""));
  For (Name "rep") (Call (Name "_wrap_str_repr") [(Name "obj"); (BinOp (Name "width") Sub (Name "indent"))] []) [
    Expr (Call (Attribute (Name "stream") "write") [(Name "delim")] []);
    Expr (Call (Attribute (Name "stream") "write") [(Name "rep")] []);
    If (Not (Name "delim")) [
      Assign (Name "delim") (BinOp (Constant (CStr "
")) Add (BinOp (Constant (CStr " ")) Mult (Name "indent")))] []]] |}.

(** tools.py:143-153 *)
Definition src__pprint_bytes : fundef := {| f_params := ["obj"; "stream"; "indent"; "width"]; f_body := [
  If (Compare (Call (Name "len") [(Name "obj")] []) CmpLtE (Constant (CInt 1))) [
    Expr (Call (Attribute (Name "stream") "write") [(Call (Name "repr") [(Name "obj")] [])] []);
    Return None] [];
  Assign (Name "delim") (Constant (CStr ""));
  For (Name "rep") (Call (Name "_wrap_bytes_repr") [(Name "obj"); (BinOp (Name "width") Sub (Name "indent"))] []) [
    Expr (Call (Attribute (Name "stream") "write") [(Name "delim")] []);
    Expr (Call (Attribute (Name "stream") "write") [(Name "rep")] []);
    If (Not (Name "delim")) [
      Assign (Name "delim") (BinOp (Constant (CStr "
")) Add (BinOp (Constant (CStr " ")) Mult (Name "indent")))] []]] |}.

(** tools.py:159-168 *)
Definition src__wrap_str_repr : fundef := {| f_params := ["obj"; "width"]; f_body := [
  If (Compare (Name "width") CmpGt (Constant (CInt 3))) [
    AugAssign (Name "width") Sub (Constant (CInt 2))] [
    Assign (Name "width") (Constant (CInt 1))];
  For (Name "i") (Call (Name "range") [(Constant (CInt 0)); (Call (Name "len") [(Name "obj")] []); (Name "width")] []) [
    YieldS (Call (Name "repr") [(Subscript (Name "obj") (Slice (Some (Name "i")) (Some (BinOp (Name "i") Add (Name "width")))))] [])]] |}.

(** tools.py:171-186 *)
Definition src__wrap_bytes_repr : fundef := {| f_params := ["obj"; "width"]; f_body := [
  Assign (Name "current") (Constant (CBytes []));
  For (Name "i") (Call (Name "range") [(Constant (CInt 0)); (Call (Name "len") [(Name "obj")] [])] []) [
    Assign (Name "part") (Subscript (Name "obj") (Slice (Some (Name "i")) (Some (BinOp (Name "i") Add (Constant (CInt 1))))));
    Assign (Name "candidate") (BinOp (Name "current") Add (Name "part"));
    If (Compare (Call (Name "len") [(Call (Name "repr") [(Name "candidate")] [])] []) CmpGt (Name "width")) [
      If (Name "current") [
        YieldS (Call (Name "repr") [(Name "current")] [])] [];
      Assign (Name "current") (Name "part")] [
      Assign (Name "current") (Name "candidate")]];
  If (Name "current") [
    YieldS (Call (Name "repr") [(Name "current")] [])] []] |}.

Definition tools_py : list (string * fundef) := [
  ("pp", src_pp);
  ("_pp_field", src__pp_field);
  ("_pprint_str", src__pprint_str);
  ("_pprint_bytes", src__pprint_bytes);
  ("_wrap_str_repr", src__wrap_str_repr);
  ("_wrap_bytes_repr", src__wrap_bytes_repr)].

(** _dispatch, tools.py:140, 156 *)
Definition tools_table : list (string * string) := [("str", "_pprint_str"); ("bytes", "_pprint_bytes")].
