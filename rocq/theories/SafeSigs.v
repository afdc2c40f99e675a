(** * SafeSigs: the types of the variables of the library, see SafeCheck. *)
From Verif Require Import PyBase Types PyAst Source PySem SemClaims SafeCheck.
Local Open Scope string_scope.
Local Open Scope list_scope.

(** Every variable may hold anything but a function, except those in [l]. *)
Definition sig_of (prog : list (string * fundef)) (l : vars) (ret : ty) (f : string) : string * (vars * ty) :=
  (f, (match dget String.eqb f prog with
       | Some fd => let locals := f_params fd ++ flat_map assigned (f_body fd) in
                    filter (fun x => mem (fst x) locals) l ++ map (fun x => (x, TAny)) locals
       | None => []
       end, ret)).
Definition decoder_sigs : list (string * (vars * ty)) :=
  map (sig_of decoder_py [("self", TFresh); ("doc_dec", TFresh); ("doc_enc", TFresh); ("fields", TFresh); ("idx", TFresh); ("decoded_field_data", TFresh)]
         TFresh)
    ["DecodeError.__init__"; "decode"; "_decode_header"; "_decode_type"; "_decode_bitmap"; "_decode_field"; "_remove_pad_field"; "_decode_text_data"].
Definition encoder_vars : vars :=
  [("self", TFresh); ("doc_dec", TTouch); ("doc_enc", TFresh); ("bitmap", TFresh); ("encoded_data", TFresh); ("hex_bitmap", TText)].
Definition encoder_sigs : list (string * (vars * ty)) :=
  map (sig_of encoder_py encoder_vars TFresh)
    ["EncodeError.__init__"; "_encode_header"; "_encode_type"; "_encode_field"; "_encode_bindary_field"; "_encode_text_field"]
  ++ [sig_of encoder_py (("s", TFresh) :: ("fields", TFresh) :: ("secondary_fields", TFresh) :: ("tertiary_fields", TFresh) :: encoder_vars) TFresh "encode";
      sig_of encoder_py (("field_key", TKey) :: ("fields", TFresh) :: encoder_vars) TFresh "_encode_bitmap";
      sig_of encoder_py [] TAny "_add_pad_field"].
(** pp() is given a stream or prints to sys.stdout. *)
Definition tools_sigs (stream : ty) : list (string * (vars * ty)) :=
  map (sig_of tools_py [("stream", stream); ("indent", TFresh); ("p", TFuns)] TFresh)
    ["pp"; "_pp_field"; "_pprint_str"; "_pprint_bytes"; "_wrap_str_repr"; "_wrap_bytes_repr"].
Definition bitmap_names : list pystr := [u "p"; u "1"; u "65"].
Lemma decoder_checked : check_prog [] false false None decoder_py decoder_sigs = true.
Proof. vm_compute. reflexivity. Qed.
Lemma encoder_checked : check_prog bitmap_names false false None encoder_py encoder_sigs = true.
Proof. vm_compute. reflexivity. Qed.
Lemma tools_checked : check_prog [] true true (Some (map snd tools_table)) tools_py (tools_sigs TTouch) = true.
Proof. vm_compute. reflexivity. Qed.
Lemma tools_checked_given : check_prog [] true false (Some (map snd tools_table)) tools_py (tools_sigs TThere) = true.
Proof. vm_compute. reflexivity. Qed.
