(** * SessionSamples: the hypotheses of the session theorems are satisfiable; sequences of calls on CPython 3.11. *)
From Coq Require Import Permutation.
From Verif Require Import PyBase BaseFacts Types Decoder Encoder CPython311 Specs Samples Wire WireEncode Claims Claims2 PyAst Source SourceSpecs PySem SemClaims SessionClaims SourceDecode SourceEncode SourceSamples.
Local Open Scope string_scope.
Local Open Scope list_scope.

Lemma c311_session order : any_order order -> machine cpython311 order.
Proof. intro O. split; [apply c311_machine|]. split; [apply c311_machine|]. split; [apply c311_encoder_machine|exact O]. Qed.
Definition rest0 : rest := {| r_stdout := NoneV; r_table := []; r_depth := 5; r_deep := le_n 5 |}.
Definition doc0 : ddoc := [(u "t", u "0200"); (u "52", u "abcdef0123456789"); (u "2", u "1234"); (u "p", u "?")].
Definition heap0 : heap := [StreamO []; text_items [("t", "0200"); ("52", "abcdef0123456789"); ("2", "1234"); ("p", "?")]].
Lemma heap0_dict : text_dict heap0 1 doc0.
Proof.
  split; [vm_compute; reflexivity|]. split.
  - assert (H : forall (l : list pystr), (fix nd l := match l with [] => true | x :: l' => negb (existsb (str_eqb x) l') && nd l' end) l = true -> NoDup l).
    { induction l as [|x l IH]; intro H; constructor; apply andb_prop in H as [A B]; [|auto]. intro X. apply negb_true_iff in A.
      rewrite <- not_true_iff_false in A. apply A, existsb_exists. exists x. split; [exact X|]. destruct (str_eqb_spec x x); congruence. }
    apply H. vm_compute. reflexivity.
  - intros k t H. cbn in H. repeat (destruct H as [[= <- <-]|H]; [vm_compute; reflexivity|]). destruct H.
Qed.
Lemma heap0_spec sp : let h := spec_dicts heap0 sp in
  text_dict h 1 doc0 /\ spec_rep h (RefV (2 + length sp)) sp /\ spec_apart h (RefV (2 + length sp)) (RefV 1).
Proof.
  split; [exact heap0_dict|]. split; [exact (proj2 (spec_dicts_rep heap0 sp))|]. exact (spec_dicts_apart heap0 sp 1 ltac:(cbn; lia)).
Qed.
(** Encode, decode the bytearray, encode the caller's dict again, print what was decoded. *)
Definition session (order : list Z -> list Z) (sp : spec) : outcome PySem.value * heap :=
  let (o1, h1) := call_encode cpython311 order rest0 [RefV 1; RefV (2 + length sp)] (spec_dicts heap0 sp) in
  match o1 with
  | Done (TupleV [sv; ev]) =>
      let (o2, h2) := call_decode cpython311 order rest0 [sv; RefV (2 + length sp)] h1 in
      match o2 with
      | Done (TupleV [dv; _]) =>
          let (o3, h3) := call_encode cpython311 order rest0 [RefV 1; RefV (2 + length sp)] h2 in
          let (o4, h4) := call_pp cpython311 order rest0 [dv; RefV (2 + length sp); IntV 0; RefV 0; IntV 80] h3 in
          match o3, o4 with
          | Done (TupleV [sv2; _]), Done NoneV => (Done (TupleV [sv; dv; sv2]), h4)
          | _, _ => (Stuck "", h4)
          end
      | _ => (Stuck "", h2)
      end
  | _ => (Stuck "", h1)
  end.
Lemma session_runs :
  let (o, h) := session (@rev Z) default in
  exists s d s2, o = Done (TupleV [RefV s; RefV d; RefV s2]) /\
    hget h s = hget h s2 /\ s <> s2 /\
    hget h 1 = Some (text_items [("t", "0200"); ("52", "abcdef0123456789"); ("2", "1234"); ("p", "4000000000001000")]) /\
    hget h d = Some (text_items [("t", "0200"); ("p", "4000000000001000"); ("2", "1234"); ("52", "ABCDEF0123456789")]) /\
    hget h 0 = Some (StreamO (u ("t  : '0200'" ++ lf ++ "p  : '4000000000001000'" ++ lf ++ "2  : '1234'" ++ lf ++ "52 : 'ABCDEF0123456789'" ++ lf))).
Proof. vm_compute. do 3 eexists. repeat split. discriminate. Qed.
(** The statements of specs.py, then encode and decode with one of the two specifications. *)
Definition shipped_session (order : list Z -> list Z) (name : string) : outcome PySem.value * heap :=
  match run_module cpython311 order rest0 specs_py heap0 with
  | (Next, rm, h0) =>
      match lookup name rm with
      | Some spv =>
          let (o1, h1) := call_encode cpython311 order rest0 [RefV 1; spv] h0 in
          match o1 with
          | Done (TupleV [sv; ev]) =>
              let (o2, h2) := call_decode cpython311 order rest0 [sv; spv] h1 in
              match o2 with
              | Done (TupleV [dv; _]) => (Done (TupleV [sv; dv]), h2)
              | _ => (Stuck "", h2)
              end
          | _ => (Stuck "", h1)
          end
      | None => (Stuck "", h0)
      end
  | (_, _, h0) => (Stuck "", h0)
  end.
Lemma shipped_session_runs :
  let (o, h) := shipped_session (@rev Z) "default_ascii" in
  exists s d, o = Done (TupleV [RefV s; RefV d]) /\
    hget h s = Some (BytearrayO (asc "02004000000000001000041234abcdef0123456789")) /\
    hget h d = Some (text_items [("t", "0200"); ("p", "4000000000001000"); ("2", "1234"); ("52", "abcdef0123456789")]).
Proof. vm_compute. do 2 eexists. repeat split. Qed.

(** A message that is too short: the exception, taken apart and made again. *)
Definition error_session (order : list Z -> list Z) : outcome PySem.value * heap :=
  let (o1, h1) := call_decode cpython311 order rest0 [BytesV (asc "020040"); RefV (2 + length default)] (spec_dicts heap0 default) in
  match o1 with
  | Thrown x =>
      let (o2, h2) := reduce_decode_error cpython311 order rest0 x h1 in
      match o2 with
      | Done (TupleV [TypeV "DecodeError"; TupleV args]) =>
          let (o3, h3) := new_decode_error cpython311 order rest0 args h2 in
          match o3 with Done y => (Done (TupleV [x; y]), h3) | _ => (Stuck "", h3) end
      | _ => (Stuck "", h2)
      end
  | _ => (Stuck "", h1)
  end.
Lemma error_session_runs :
  let (o, h) := error_session (@rev Z) in
  exists l l' d e, o = Done (TupleV [RefV l; RefV l']) /\ l <> l' /\ hget h l' = hget h l /\
    hget h l = Some (decode_error_at (u "Field data is 2 bytes, expecting 8") (BytesV (asc "020040")) (RefV d) (RefV e) 4 (u "p")).
Proof. vm_compute. do 4 eexists. repeat split. discriminate. Qed.
