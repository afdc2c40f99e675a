(** * SemStep: tactics that run the interpreter, and the effect of the operations on the
    objects of SemHeap. *)
From Coq Require Import ZifyBool ZifyNat ZifyN Permutation Sorted.
From Verif Require Import PyBase BaseFacts Types Decoder PyAst PySem SemClaims SemFacts SemHeap.
Local Open Scope string_scope.
Local Open Scope list_scope.

(** ** Values standing for the arguments of the models *)
(** A bytes or bytearray object with the given octets. *)
Definition buf (h : heap) (v : value) (bs : bytes) : Prop :=
  v = BytesV bs \/ exists l, v = RefV l /\ hget h l = Some (BytearrayO bs).
Lemma buf_keeps h h' v bs : keeps [] h h' -> buf h v bs -> buf h' v bs.
Proof.
  intros K [->|(l & -> & H)]; [left; reflexivity|]. right. exists l. split; [reflexivity|].
  apply K; auto.
Qed.
Lemma buf_keeps_set h h' v bs f F : keeps [f] h h' -> hget h f = Some (SetO F) -> buf h v bs -> buf h' v bs.
Proof.
  intros K G [->|(l & -> & H)]; [left; reflexivity|]. right. exists l. split; [reflexivity|].
  apply K; auto. intros [<-|[]]. congruence.
Qed.

Lemma set_keeps h h' f F : keeps [] h h' -> hget h f = Some (SetO F) -> hget h' f = Some (SetO F).
Proof. intros K G. apply K; auto. Qed.

Definition outcome_of (c : ctl) : outcome value :=
  match c with
  | Next => Done NoneV
  | Returned v => Done v
  | Threw x => Thrown x
  | StuckS w => Stuck w
  end.

(** ** Tactics *)
Ltac norm_str t := eval cbv [lookup bindv dget dset String.eqb Ascii.eqb Bool.eqb] in t.
(** Environments, the list of locals and the rest of a block are kept as local
    definitions, so that goals stay small. *)
Ltac body_of r := match goal with
                  | _ => let b := eval unfold r in r in b
                  | _ => r
                  end.
Ltac name_env r' := let r := fresh "r" in pose (r := r').
Ltac open_env x v r :=
  lazymatch goal with
  | B : binds ?l r, D : dom ?vars r |- _ =>
      let l' := norm_str (bindv x v l) in
      let B1 := fresh "B" in let D1 := fresh "D" in
      assert (B1 : binds l' (bindv x v r)) by exact (binds_set x v l r B eq_refl);
      assert (D1 : dom vars (bindv x v r)) by exact (dom_bindv vars x v r D eq_refl);
      revert B1 D1; generalize (bindv x v r); clear B D; try clear r; intros r B1 D1
  end.
(** The variable of a comprehension. *)
Ltac bind_var :=
  match goal with
  | B : binds ?l ?r, D : dom ?vars ?r |- context [bindv ?x ?v ?r] =>
      let l' := norm_str (bindv x v l) in
      let B1 := fresh "B" in let D1 := fresh "D" in let r1 := fresh "r" in
      assert (B1 : binds l' (bindv x v r)) by exact (binds_set x v l r B eq_refl);
      assert (D1 : dom (x :: vars) (bindv x v r)) by exact (dom_more vars x v r D);
      revert B1 D1; generalize (bindv x v r); clear B D; intros r1 B1 D1
  end.
Ltac forget_env := match goal with B : binds _ ?r, D : dom _ ?r |- _ => clear B D; try clear r end.
Ltac norm_env :=
  match goal with
  | B : binds _ ?r |- ?Q Next (bindv ?x ?v ?r) ?h => open_env x v r
  | B : binds _ ?r |- wps ?s ?Q (bindv ?x ?v ?r) ?h => open_env x v r
  | |- ?Q Next (bindv ?x ?v ?r) ?h =>
      let rb := body_of r in let r' := norm_str (bindv x v rb) in
      let r1 := fresh "r" in pose (r1 := r'); change (Q Next r1 h); try clear r
  | |- wps ?s ?Q (bindv ?x ?v ?r) ?h =>
      let rb := body_of r in let r' := norm_str (bindv x v rb) in
      let r1 := fresh "r" in pose (r1 := r'); change (wps s Q r1 h); try clear r
  end.
Ltac do_name :=
  match goal with
  | B : binds ?l ?r, D : dom _ ?r |- wp (name ?loc ?r ?x) ?Q ?h =>
      let v := norm_str (lookup x l) in
      match v with
      | Some ?w => refine (wp_name loc r x w Q h (binds_lookup l r x w B eq_refl) _)
      | None => eapply (wp_global loc r x _ Q h (D x eq_refl) eq_refl); [cbv -[u]; reflexivity|]
      end
  | |- wp (name ?loc ?r ?x) ?Q ?h =>
      let rb := body_of r in
      let v := norm_str (lookup x rb) in
      match v with
      | Some ?w => refine (wp_name loc r x w Q h eq_refl _)
      | None =>
          let lb := body_of loc in
          let m := eval cbv in (mem x lb) in
          match m with
          | true => refine (wp_unbound loc r x Q h eq_refl eq_refl _)
          | false => eapply (wp_global loc r x _ Q h eq_refl eq_refl); [cbv -[u]; reflexivity|]
          end
      end
  end.
Ltac do_eval :=
  match goal with
  | |- wp (eval _ _ _ _ _ _ _ ?e) _ _ =>
      lazymatch e with
      | Constant _ => apply ev_Constant; cbn [const]
      | Name _ => apply ev_Name
      | Attribute _ _ => apply ev_Attribute
      | Subscript _ (Slice _ _) => apply ev_Slice
      | Subscript _ _ => apply ev_Item; [reflexivity|]
      | Call _ _ _ => apply ev_Call
      | BinOp _ _ _ => apply ev_BinOp
      | BoolAnd _ _ => apply ev_BoolAnd
      | Not _ => apply ev_Not
      | USub _ => apply ev_USub
      | Compare _ _ _ => apply ev_Compare
      | IfExp _ _ _ => apply ev_IfExp
      | Tuple _ => apply ev_Tuple
      | EList _ => apply ev_EList
      | Dict _ => apply ev_Dict
      | JoinedStr _ => apply ev_JoinedStr
      end
  | |- wp (evals _ _ _ _ _ _ _ []) _ _ => apply evals_nil
  | |- wp (evals _ _ _ _ _ _ _ (_ :: _)) _ _ => apply evals_cons
  | |- wp (evalk _ _ _ _ _ _ _ []) _ _ => apply evalk_nil
  | |- wp (evalk _ _ _ _ _ _ _ ((_, _) :: _)) _ _ => apply evalk_cons
  | |- wp (evald _ _ _ _ _ _ _ []) _ _ => apply evald_nil
  | |- wp (evald _ _ _ _ _ _ _ ((_, _) :: _)) _ _ => apply evald_cons
  | |- wp (new (DictO (from_items ?d))) _ _ => change (from_items d) with d
  | |- wp (shows _ _ _ _ _ _ _ []) _ _ => apply shows_nil
  | |- wp (shows _ _ _ _ _ _ _ [_]) _ _ => apply shows_one
  | |- wp (shows _ _ _ _ _ _ _ (_ :: _ :: _)) _ _ => apply shows_cons
  | |- wp (gens _ _ _ _ _ _ _ [] _) _ _ => apply gens_nil
  | |- wp (gens _ _ _ _ _ _ _ (_ :: _) _) _ _ => apply gens_cons
  | |- wp (tests _ _ _ _ _ _ _ []) _ _ => apply tests_nil
  | |- wp (tests _ _ _ _ _ _ _ (_ :: _)) _ _ => apply tests_cons
  | |- wp (bind_target (Name ?x) ?v ?r) ?Q ?h => refine (wp_done (bindv x v r) Q h _)
  | |- wp (bind_target (Tuple [Name ?x; Name ?y]) (TupleV [?v; ?w]) ?r) ?Q ?h =>
      refine (wp_done (bindv y w (bindv x v r)) Q h _)
  | |- wp (opt_eval ?E ?o ?s ?t ?c ?l ?r (Some ?e)) ?Q ?h => change (wp (eval E o s t c l r e) Q h)
  | |- wp (opt_eval _ _ _ _ _ _ _ None) ?Q ?h => refine (wp_done NoneV Q h _)
  end.
Ltac do_block :=
  match goal with
  | |- wps (exec_block ?E ?o ?s ?t ?c ?l ?b) ?Q ?r ?h =>
      let bb := body_of b in
      match bb with
      | [] => refine (blk_nil E o s t c l Q r h _); try clear b
      | [?x] => refine (blk_cons E o s t c l x [] Q r h _); try clear b
      | ?x :: ?rest0 =>
          let rest := fresh "rest" in pose (rest := rest0);
          refine (blk_cons E o s t c l x rest Q r h _); try clear b
      end
  end.
Ltac step1 :=
  match goal with
  | |- (fun _ _ _ => _) ?c ?r ?h => cbv beta
  | |- context [outcome_of ?c] => progress cbv beta iota delta [outcome_of]
  | |- kont ?k ?Q (Done ?v) ?h => change (wp (k v) Q h); cbv beta iota
  | |- kont ?k ?Q (Thrown ?v) ?h => change (Q (Thrown v) h)
  | |- kexp ?k ?Q ?r (Done ?v) ?h => change (wps (k v) Q r h); cbv beta iota
  | |- kexp ?k ?Q ?r (Thrown ?x) ?h => change (Q (Threw x) r h)
  | |- kseq ?b ?Q Next ?r ?h => change (wps b Q r h)
  | |- kseq ?b ?Q (Returned ?v) ?r ?h => change (Q (Returned v) r h)
  | |- kseq ?b ?Q (Threw ?v) ?r ?h => change (Q (Threw v) r h)
  | |- ktry ?E ?o ?s ?t ?c ?l ?hs ?Q (Threw ?x) ?r ?h =>
      change (wps (handle E o s t c l x hs) Q r h)
  | |- ktry ?E ?o ?s ?t ?c ?l ?hs ?Q ?x ?r ?h => change (Q x r h)
  | |- wp (done ?v) ?Q ?h => refine (wp_done v Q h _)
  | |- wp (throw ?c ?t) ?Q ?h => refine (wp_throw c t Q h _)
  | |- wp (seqc ?m ?k) ?Q ?h => refine (wp_seq m k Q h _)
  | |- wp (name _ _ _) _ _ => do_name
  | |- wp _ _ _ => do_eval
  | |- wps (exec_block _ _ _ _ _ _ _) _ _ _ => do_block
  | |- wps (exec _ _ _ _ _ _ ?s) _ _ _ =>
      lazymatch s with
      | Expr _ => apply ex_Expr
      | Assign _ _ => apply ex_Assign
      | AugAssign _ _ _ => apply ex_AugAssign; unfold augassign
      | If _ _ _ => apply ex_If
      | For _ _ _ => apply ex_For
      | Return None => apply ex_ReturnNone
      | Return (Some _) => apply ex_Return
      | RaiseS _ => apply ex_Raise
      | Try _ _ => apply ex_Try
      end
  | |- wps (assign _ _ _ _ _ _ (Name ?x) ?v) ?Q ?r ?h => change (wps (set_env (bindv x v r)) Q r h)
  | |- wps (assign ?E ?o ?s ?t ?c ?l (Tuple ?ts) (TupleV ?vs)) ?Q ?r ?h =>
      change (wps (assign_all E o s t c l ts vs) Q r h); cbn [assign_all]
  | |- wps (assign _ _ _ _ _ _ _ _) _ _ _ => unfold assign
  | |- wps (assign_to _ _ _ _ _ _ _ _) _ _ _ => unfold assign_to
  | |- wps (set_env ?r') ?Q ?r ?h => refine (wps_set_env r' Q r h _); try norm_env
  | |- wps (with_env ?f) ?Q ?r ?h => refine (wps_with_env f Q r h _); cbv beta iota
  | |- wps (expr_then ?m ?k) ?Q ?r ?h => refine (wps_expr_then m k Q r h _)
  | |- wps (andthen ?m ?k) ?Q ?r ?h => refine (wps_andthen m k Q r h _)
  | |- wps (finish ?c) ?Q ?r ?h => refine (wps_finish c Q r h _)
  | |- wps (handle _ _ _ _ _ _ (ExcV _ _) ((?c, ?nm, ?b) :: ?hs)) _ _ _ =>
      first [ apply handle_take; [reflexivity|cbv beta iota; try norm_env]
            | apply handle_skip; [reflexivity|] ]
  end.
(** Operations without effect on constructors. *)
Ltac pure1 :=
  match goal with
  | |- wps (if negb (1 =? 0)%Z then ?x else ?y) ?Q ?r ?h => change (wps x Q r h)
  | |- wps (if negb (0 =? 0)%Z then ?x else ?y) ?Q ?r ?h => change (wps y Q r h)
  | |- wps (if true then ?x else ?y) ?Q ?r ?h => change (wps x Q r h)
  | |- wps (if false then ?x else ?y) ?Q ?r ?h => change (wps y Q r h)
  | |- wp (if true then ?x else ?y) ?Q ?h => change (wp x Q h)
  | |- wp (if false then ?x else ?y) ?Q ?h => change (wp y Q h)
  | |- wp (truth (BoolV ?b)) ?Q ?h => refine (wp_done b Q h _)
  | |- wp (truth (IntV ?b)) ?Q ?h => refine (wp_done _ Q h _)
  | |- wp (binop _ _ _) ?Q ?h => first [refine (wp_done _ Q h _) | refine (wp_throw _ _ Q h _)]
  | |- wp (inplace _ (IntV _) (IntV _)) ?Q ?h => refine (wp_done (IntV _) Q h _)
  | |- wp (compare _ _ _) ?Q ?h => refine (wp_done (_ : bool) Q h _)
  | |- wp (getattr _ (StrV _) _) ?Q ?h => refine (wp_done (_ : value) Q h _)
  | |- wp (getattr _ (BytesV _) _) ?Q ?h => refine (wp_done (_ : value) Q h _)
  | |- wp (getattr _ (TypeV _) _) ?Q ?h => refine (wp_done (_ : value) Q h _)
  | |- wp (getattr _ (ModuleV _) _) ?Q ?h => refine (wp_done (_ : value) Q h _)
  | |- wp (str_of _ (StrV ?s)) ?Q ?h => refine (wp_done s Q h _)
  | |- wp (str_of ?E (IntV ?n)) ?Q ?h => change (wp (int_text E n) Q h)
  | |- wp (str_of _ (ExcV _ ?s)) ?Q ?h => refine (wp_done s Q h _)
  | |- wp (py_len (StrV ?s)) ?Q ?h => refine (wp_done (IntV (zlen s)) Q h _)
  | |- wp (py_len (BytesV ?s)) ?Q ?h => refine (wp_done (IntV (zlen s)) Q h _)
  | |- wp (apply ?E ?o ?t ?c (MethodV ?s ?m) ?args ?kws) ?Q ?h => change (wp (call_method E o t s m args kws) Q h)
  | |- wp (apply ?E ?o ?t ?c (FunV ?f) ?args ?kws) ?Q ?h =>
      let b := eval cbv in (mem f ("a2b_hex" :: builtin_names)) in
      match b with
      | true => change (wp (call_builtin E o f args kws) Q h)
      | false => change (wp (c f args) Q h)
      end
  | |- wp (apply ?E ?o ?t ?c (TypeV ?f) ?args ?kws) ?Q ?h =>
      let b := eval cbv in (mem f ["DecodeError"; "EncodeError"]) in
      match b with
      | true => change (wp (instantiate c f args) Q h)
      | false => change (wp (call_type E o f args) Q h)
      end
  | |- wp (call_builtin _ _ "range" [IntV ?a; IntV ?b] []) ?Q ?h => refine (wp_done (RangeV a b 1) Q h _)
  | |- wp (call_builtin _ _ "len" [?v] []) ?Q ?h => change (wp (py_len v) Q h)
  | |- wp (watched (RangeV _ _ _)) ?Q ?h => refine (wp_done None Q h _)
  | |- wp (stepping None ?m) ?Q ?h => change (wp m Q h)
  | |- wps (step_of None ?m) ?Q ?r ?h => change (wps m Q r h)
  | |- wp (call_method _ _ _ (StrV ?s) "upper" [] []) ?Q ?h => refine (wp_done (StrV (py_upper s)) Q h _)
  | |- wp (call_method _ _ _ (BytesV ?s) "hex" [] []) ?Q ?h => refine (wp_done (StrV (py_hex s)) Q h _)
  end.
Ltac run := repeat first [step1 | pure1].
(** The same up to the next if. *)
Ltac walk := repeat (lazymatch goal with
                     | |- wps (exec _ _ _ _ _ _ (If _ _ _)) _ _ _ => fail
                     | |- _ => first [step1 | pure1]
                     end).

(** s[:1], s[1:], s[-1:], s[:-1] *)
Lemma slice_first {A} (l : list A) : py_slice l 0 1 = firstn 1 l.
Proof.
  unfold py_slice, slice_index. destruct l as [|x l]; [reflexivity|]. cbn [length].
  rewrite (proj2 (Z.ltb_ge 1 0)), (proj2 (Z.ltb_ge 0 0)) by lia.
  rewrite (Z.min_l 1), (Z.min_l 0) by lia. reflexivity.
Qed.
Lemma slice_rest {A} (l : list A) : py_slice l 1 (zlen l) = skipn 1 l.
Proof.
  unfold py_slice, slice_index, zlen. destruct l as [|x l]; [reflexivity|]. cbn [length].
  rewrite (proj2 (Z.ltb_ge 1 0)), (proj2 (Z.ltb_ge (Z.of_nat (S (length l))) 0)) by lia.
  rewrite Z.min_id, Z.min_l by lia. change (Z.to_nat 1) with 1%nat. apply firstn_all_ge. cbn [skipn]. lia.
Qed.
Lemma slice_last {A} (l : list A) : py_slice l (-1) (zlen l) = skipn (length l - 1) l.
Proof.
  unfold py_slice, slice_index, zlen. destruct l as [|x l]; [reflexivity|].
  set (m := length (x :: l)). assert (1 <= m)%nat by (unfold m; cbn; lia).
  rewrite (proj2 (Z.ltb_lt (-1) 0)), (proj2 (Z.ltb_ge (Z.of_nat m) 0)) by lia.
  rewrite Z.min_id, Z.max_r by lia. replace (Z.to_nat (-1 + Z.of_nat m)) with (m - 1)%nat by lia.
  apply firstn_all_ge. rewrite skipn_length. fold m. lia.
Qed.
Lemma slice_butlast {A} (l : list A) : py_slice l 0 (-1) = removelast l.
Proof.
  unfold py_slice, slice_index, zlen. destruct l as [|x l]; [reflexivity|]. cbn [length].
  rewrite (proj2 (Z.ltb_lt (-1) 0)), (proj2 (Z.ltb_ge 0 0)) by lia.
  rewrite Z.min_l, Z.max_r by lia. change (Z.to_nat 0) with 0%nat. cbn [skipn].
  replace (Z.to_nat (-1 + Z.of_nat (S (length l)) - 0)) with (length l) by lia. clear. revert x.
  induction l as [|y l IH]; intro x; [reflexivity|]. cbn [length firstn]. rewrite IH. reflexivity.
Qed.

(** sorted() of a set *)
Lemma insert_zadd x l : ~ In x l ->
  insert_key (x, IntV x) (map (fun n => (n, IntV n)) l) = map (fun n => (n, IntV n)) (zadd x l).
Proof.
  induction l as [|y l IH]; intro N; [reflexivity|]. cbn in N. cbn [map insert_key zadd fst].
  destruct (x <=? y)%Z eqn:L.
  - replace (x <? y)%Z with true by (symmetry; apply Z.ltb_lt; lia). reflexivity.
  - replace (x <? y)%Z with false by (symmetry; apply Z.ltb_ge; lia).
    replace (x =? y)%Z with false by (symmetry; apply Z.eqb_neq; lia). cbn [map]. f_equal. apply IH. tauto.
Qed.
Lemma sort_ints l F : Permutation l F -> zsorted F -> sort_by (map (fun n => (n, IntV n)) l) = map IntV F.
Proof.
  intros P S. assert (N : NoDup l) by (eapply Permutation_NoDup; [apply Permutation_sym, P|apply zsorted_nodup, S]).
  assert (H : fold_right insert_key [] (map (fun n => (n, IntV n)) l) = map (fun n => (n, IntV n)) (fold_right zadd [] l)
    /\ zsorted (fold_right zadd [] l) /\ forall x, In x (fold_right zadd [] l) <-> In x l).
  { clear P. induction N as [|x l N1 N IH]; cbn [map fold_right].
    - split; [reflexivity|]. split; [constructor|reflexivity].
    - destruct IH as (IH1 & IH2 & IH3). rewrite IH1. split; [apply insert_zadd; rewrite IH3; exact N1|].
      split; [apply zadd_sorted, IH2|]. intro y. rewrite zadd_in, IH3. cbn. intuition. }
  destruct H as (H1 & H2 & H3). unfold sort_by. rewrite H1, map_map. f_equal. apply zsorted_ext; [exact H2|exact S|].
  intro x. rewrite H3. split; apply Permutation_in; [exact P|apply Permutation_sym, P].
Qed.

Section Ops.
  Context (E : pyenv) (order : list Z -> list Z) (stdout : value) (tbl : list (string * string)).
  Implicit Types (Q : outcome value -> heap -> Prop).

  Lemma wp_bytes h v bs Q : buf h v bs -> Q (Done (BytesV bs)) h -> wp (call_type E order "bytes" [v]) Q h.
  Proof.
    intros [->|(l & -> & G)] H; [exact H|]. change (wp (let* b := bytes_of (RefV l) in done (BytesV b)) Q h).
    run. cbn [bytes_of]. run. eapply wp_get; [exact G|]. run. exact H.
  Qed.
  Lemma wp_len h v bs Q : buf h v bs -> Q (Done (IntV (zlen bs))) h -> wp (py_len v) Q h.
  Proof. intros [->|(l & -> & G)] H; [exact H|]. cbn [py_len]. run. eapply wp_get; [exact G|]. run. exact H. Qed.
  Lemma wp_buf_attr h v bs x Q : buf h v bs -> mem x ["hex"; "decode"] = true ->
    Q (Done (MethodV v x)) h -> wp (getattr stdout v x) Q h.
  Proof.
    intros [->|(l & -> & G)] M H; unfold getattr; (destruct (String.eqb_spec x "__class__") as [->|_]; [discriminate M|]);
      [rewrite M; exact H|]. run. eapply wp_get; [exact G|]. cbv beta iota. rewrite M. run. exact H.
  Qed.
  Lemma wp_buf_hex h v bs Q : buf h v bs -> Q (Done (StrV (py_hex bs))) h ->
    wp (call_method E order tbl v "hex" [] []) Q h.
  Proof.
    intros [->|(l & -> & G)] H; [exact H|]. cbn [call_method]. run. eapply wp_get; [exact G|]. run. exact H.
  Qed.
  Lemma wp_buf_decode h v bs enc Q : buf h v bs ->
    match bytes_decode E enc bs with
    | COk t => Q (Done (StrV t)) h
    | CLookup => Q (Thrown (ExcV "LookupError" (u "unknown encoding"))) h
    | CFail => Q (Thrown (ExcV "UnicodeError" (u "codec error"))) h
    end -> wp (call_method E order tbl v "decode" [StrV enc] []) Q h.
  Proof.
    intros [->|(l & -> & G)] H.
    - change (wp (cres_str (bytes_decode E enc bs)) Q h). destruct (bytes_decode E enc bs); exact H.
    - cbn [call_method]. run. eapply wp_get; [exact G|]. run. change (wp (cres_str (bytes_decode E enc bs)) Q h).
      destruct (bytes_decode E enc bs); exact H.
  Qed.
  Lemma wp_from_bytes h v bs Q : buf h v bs -> Q (Done (IntV (Z.of_N (from_be bs)))) h ->
    wp (call_method E order tbl (TypeV "int") "from_bytes" [v; StrV (u "big")] [("signed", BoolV false)]) Q h.
  Proof.
    intros B H. change (wp (let* b := bytes_of v in done (IntV (Z.of_N (from_be b)))) Q h). run.
    destruct B as [->|(l & -> & G)]; cbn [bytes_of]; run; [exact H|]. eapply wp_get; [exact G|]. run. exact H.
  Qed.
  Lemma wp_int_text h n (Q : outcome pystr -> heap -> Prop) : prints E n = true -> Q (Done (zstr n)) h -> wp (int_text E n) Q h.
  Proof. unfold int_text. intros -> H. exact H. Qed.
  Lemma wp_int_untext h n (Q : outcome pystr -> heap -> Prop) : prints E n = false ->
    (forall t, Q (Thrown (ExcV "ValueError" t)) h) -> wp (int_text E n) Q h.
  Proof. unfold int_text. intros -> H. apply H. Qed.
  Lemma wp_to_int h s Q : match py_int E s with
                          | Some n => Q (Done (IntV n)) h
                          | None => Q (Thrown (ExcV "ValueError" (u "invalid literal for int()"))) h
                          end -> wp (to_int E (StrV s)) Q h.
  Proof. cbn [to_int]. destruct (py_int E s); exact (fun H => H). Qed.

  Lemma wp_int h s rest Q : rest = [] \/ rest = [IntV 10] ->
    match py_int E s with
    | Some n => Q (Done (IntV n)) h
    | None => Q (Thrown (ExcV "ValueError" (u "invalid literal for int()"))) h
    end -> wp (call_type E order "int" (StrV s :: rest)) Q h.
  Proof. intros [->| ->] H; apply (wp_to_int h s Q H). Qed.

  (** field_spec["..."], field_spec.get("...", ...), spec[...] *)
  Lemma held_now h1 a h v m : framed h1 a h -> held h1 a v m -> reads h v m.
  Proof.
    intros F (N & R). destruct v; cbn [reads] in *; auto. destruct R as (items & G & K). exists items. split; [|exact K].
    rewrite (F _ (hget_lt _ _ _ G)); [exact G|congruence].
  Qed.
  Lemma wp_held {A} (inj : A -> value) h1 a v m p (o : option A) h Q : framed h1 a h -> held h1 a v m -> sget p m = option_map inj o ->
    match o with Some x => Q (Done (inj x)) h | None => Q (Thrown (ExcV "KeyError" p)) h end ->
    wp (getitem v (StrV p)) Q h.
  Proof.
    intros F R G H. assert (X := held_now _ _ _ _ _ F R). destruct v; cbn [reads] in X; try contradiction.
    - destruct X as (items & Gl & K). unfold wp, getitem, seqc, get. rewrite Gl. cbn [key_of]. rewrite K, G. destruct o; exact H.
    - subst. unfold wp. cbn [getitem]. rewrite G. destruct o; exact H.
  Qed.
  Lemma wp_prop {A} (inj : A -> value) h1 a v fs p (o : option A) h Q : framed h1 a h -> fs_held h1 a v fs ->
    (forall m, fs_rep m fs -> sget p m = option_map inj o) ->
    match o with Some x => Q (Done (inj x)) h | None => Q (Thrown (ExcV "KeyError" p)) h end ->
    wp (getitem v (StrV p)) Q h.
  Proof. intros F (m & R & K) G H. eapply wp_held; eauto. Qed.
  Lemma wp_map_attr h1 a v fs h Q : framed h1 a h -> fs_held h1 a v fs -> Q (Done (MethodV v "get")) h -> wp (getattr stdout v "get") Q h.
  Proof.
    intros F (m & R & _) H. assert (X := held_now _ _ _ _ _ F R). destruct v; cbn [reads] in X; try contradiction.
    - destruct X as (items & Gl & K). unfold wp, getattr. cbn. unfold seqc, get. rewrite Gl. exact H.
    - exact H.
  Qed.
  Lemma wp_prop_get h1 a v fs p o d h Q : framed h1 a h -> fs_held h1 a v fs ->
    (forall m, fs_rep m fs -> sget p m = option_map StrV o) ->
    Q (Done (StrV (prop_default o d))) h ->
    wp (call_method E order tbl v "get" [StrV p; StrV d] []) Q h.
  Proof.
    intros F (m & R & K') G H. specialize (G m K'). assert (X := held_now _ _ _ _ _ F R). destruct v; cbn [reads] in X; try contradiction.
    - destruct X as (items & Gl & K). unfold wp. cbn. unfold seqc, get. rewrite Gl. cbn. rewrite K, G. destruct o; exact H.
    - subst. change (Q (Done (match sget p m with Some v => v | None => StrV d end)) h). rewrite G. destruct o; exact H.
  Qed.
  Lemma wp_spec h1 a v sp k h Q : framed h1 a h -> spec_held h1 a v sp ->
    match sget k sp with
    | Some fs => forall fv, fs_held h1 a fv fs -> Q (Done fv) h
    | None => Q (Thrown (ExcV "KeyError" k)) h
    end -> wp (getitem v (StrV k)) Q h.
  Proof.
    intros F (sm & V & R) H. specialize (R k).
    assert (X : forall o, sget k sm = o -> match o with Some x => Q (Done x) h | None => Q (Thrown (ExcV "KeyError" k)) h end ->
      wp (getitem v (StrV k)) Q h).
    { intros o Go Ho. apply (wp_held (fun x : value => x) h1 a v sm k o h Q F V); [|exact Ho]. rewrite Go. destruct o; reflexivity. }
    destruct (sget k sp).
    - destruct R as (fv & G & R). apply (X _ G). apply (H fv). assumption.
    - apply (X _ R). exact H.
  Qed.

  (** An iterator over a bytes object or a bytearray, and the first step of going through it *)
  Definition source_of h (v : value) : option (loc * bytes) :=
    match v with RefV l => match hget h l with Some (BytearrayO b) => Some (l, b) | _ => None end | _ => None end.
  Lemma wp_enumerate h v bs Q : buf h v bs ->
    Q (Done (RefV (length h))) (h ++ [IterO "enumerate" (Some (enumerated bs)) (source_of h v)]) ->
    wp (call_builtin E order "enumerate" [v] []) Q h.
  Proof.
    intros [->|(l & -> & G)] H; [exact H|]. cbn [source_of] in H. rewrite G in H.
    change (wp (let* b := bytes_of (RefV l) in new (IterO "enumerate" (Some (enumerated b)) (Some (l, b)))) Q h).
    unfold wp, bytes_of, seqc, get. rewrite G. exact H.
  Qed.
  Lemma wp_fromhex h s Q :
    match fromhex s with
    | Some b => Q (Done (BytesV b)) h
    | None => Q (Thrown (ExcV "ValueError" [])) h
    end -> wp (call_method E order tbl (TypeV "bytes") "fromhex" [StrV s] []) Q h.
  Proof.
    intro H. change (wp (match fromhex s with Some b => done (BytesV b) | None => throw "ValueError" [] end) Q h).
    destruct (fromhex s); exact H.
  Qed.
  (** Methods of a set *)
  Lemma wp_set_attr h f F x (Q : outcome value -> heap -> Prop) : hget h f = Some (SetO F) -> mem x set_methods = true ->
    Q (Done (MethodV (RefV f) x)) h -> wp (getattr stdout (RefV f) x) Q h.
  Proof.
    intros G N H. unfold wp, getattr, seqc, get. destruct (String.eqb_spec x "__class__") as [->|_]; [discriminate N|].
    rewrite G, N. exact H.
  Qed.
  Lemma each_ints (l : list Z) : each int_of (map IntV l) = done l.
  Proof. induction l as [|x l IH]; cbn; [reflexivity|]. rewrite IH. reflexivity. Qed.
  Lemma wp_set_update h f F l ns Q : hget h f = Some (SetO F) -> hget h l = Some (ListO (map IntV ns)) ->
    Q (Done NoneV) (hset h f (SetO (zupdate F ns))) ->
    wp (call_method E order tbl (RefV f) "update" [RefV l] []) Q h.
  Proof.
    intros G L H. cbn [call_method]. apply wp_seq. eapply wp_get; [exact G|].
    change (wp (let* vs := iterate order (RefV l) in let* ns := each int_of vs in
                       let* _ := put f (SetO (zupdate F ns)) in done NoneV) Q h).
    apply wp_seq. apply wp_seq. eapply wp_get; [exact L|]. unfold kont, wp, done. cbn [fst snd]. unfold seqc at 1. rewrite each_ints.
    exact H.
  Qed.
  Lemma wp_set_remove h f F n Q : hget h f = Some (SetO F) -> zmem n F = true ->
    Q (Done NoneV) (hset h f (SetO (zremove n F))) ->
    wp (call_method E order tbl (RefV f) "remove" [IntV n] []) Q h.
  Proof.
    intros G L H. cbn [call_method]. apply wp_seq. eapply wp_get; [exact G|].
    change (wp (if zmem n F then let* _ := put f (SetO (zremove n F)) in done NoneV else throw "KeyError" (zstr n)) Q h).
    rewrite L. exact H.
  Qed.
  Lemma wp_set_in h f F n (Q : outcome bool -> heap -> Prop) : hget h f = Some (SetO F) ->
    Q (Done (zmem n F)) h -> wp (compare CmpIn (IntV n) (RefV f)) Q h.
  Proof. intros G H. unfold wp, compare, contains, seqc, get. rewrite G. exact H. Qed.
  Lemma wp_sorted h f F Q : hget h f = Some (SetO F) -> zsorted F -> Permutation (order F) F ->
    Q (Done (RefV (length h))) (h ++ [ListO (map IntV F)]) ->
    wp (call_builtin E order "sorted" [RefV f] []) Q h.
  Proof.
    intros G S P H. change (wp (let* vs := iterate order (RefV f) in let* ks := each (keyed done) vs in new (ListO (sort_by ks))) Q h).
    apply wp_seq. apply wp_seq. eapply wp_get; [exact G|]. unfold kont, wp, done. cbn [fst snd].
    assert (X : forall l, each (keyed done) (map IntV l) = done (map (fun n => (n, IntV n)) l)).
    { induction l as [|x l IH]; cbn; [reflexivity|]. rewrite IH. reflexivity. }
    change (wp (let* ks := each (keyed done) (map IntV (order F)) in new (ListO (sort_by ks))) Q h). rewrite X. 
    unfold wp, seqc, done, new. cbn [fst snd]. rewrite (sort_ints _ F P S). exact H.
  Qed.
  Lemma wp_isinstance_buf h v bs Q : buf h v bs -> Q (Done (BoolV true)) h ->
    wp (call_builtin E order "isinstance" [v; TupleV [TypeV "bytes"; TypeV "bytearray"]] []) Q h.
  Proof. intros [->|(l & -> & G)] H; [exact H|]. unfold wp, call_builtin. cbn [String.eqb Ascii.eqb Bool.eqb andb type_of forallb fst snd]. rewrite G. exact H. Qed.
  Lemma wp_rshift h x y (Q : outcome value -> heap -> Prop) : (0 <= y)%Z -> Q (Done (IntV (Z.shiftr x y))) h ->
    wp (binop RShift (IntV x) (IntV y)) Q h.
  Proof. intros L H. unfold wp, binop. rewrite (proj2 (Z.ltb_ge y 0)) by lia. exact H. Qed.
  Lemma same_octets_refl b : same_octets b b = true.
  Proof. unfold same_octets. destruct (str_eqb_spec (map b2n b) (map b2n b)); congruence. Qed.
  Lemma same_elems_refl s : same_elems s s = true.
  Proof.
    unfold same_elems. rewrite Nat.eqb_refl. cbn [andb]. induction s as [|x s IH]; [reflexivity|].
    cbn [combine forallb fst snd]. rewrite Z.eqb_refl. exact IH.
  Qed.
  Lemma same_keys_refl l : same_keys l l = true.
  Proof.
    unfold same_keys. rewrite Nat.eqb_refl. cbn [andb]. induction l as [|x l IH]; [reflexivity|].
    cbn [combine forallb fst snd]. replace (key_eqb x x) with true; [exact IH|]. destruct x as [t|i t]; cbn [key_eqb].
    - destruct (str_eqb_spec t t); congruence.
    - rewrite N.eqb_refl. destruct (str_eqb_spec t t); [reflexivity|congruence].
  Qed.
  (** What is iterated over has not changed. *)
  Definition still (w : option (loc * watch)) (h : heap) : Prop := unchanged w h = (Done tt, h).
  Lemma still_none h : still None h. Proof. reflexivity. Qed.
  Lemma still_same w h h' : still w h -> (forall l x, w = Some (l, x) -> hget h' l = hget h l) -> still w h'.
  Proof.
    unfold still. destruct w as [[l x]|]; [|reflexivity]. unfold unchanged, seqc, get. intros H G.
    rewrite (G l x eq_refl). destruct (hget h l); [|discriminate]. destruct (match x with Keys _ => _ | _ => _ end); [reflexivity|discriminate].
  Qed.
  Lemma wp_stepping {B} w (m : comp B) (Q : outcome B -> heap -> Prop) h :
    wp m (fun o h' => Q o h' /\ still w h') h -> wp (stepping w m) Q h.
  Proof.
    destruct w as [w|]; [|intros [H _]; exact H]. unfold stepping, wp, seqc. destruct (m h) as [[a|x|y] h']; cbn [fst snd]; intros [H S];
      [rewrite S|..]; exact H.
  Qed.
  Lemma wps_step w (m : sem) (Q : ctl -> env -> heap -> Prop) r h :
    wps m (fun c r' h' => Q c r' h' /\ still w h') r h -> wps (step_of w m) Q r h.
  Proof.
    destruct w as [w|]; [|unfold wps, step_of; destruct (m r h) as [[c r'] h']; tauto]. unfold step_of, wps, andthen, expr_then. destruct (m r h) as [[[|v|x|y] r'] h'];
      intros [H S]; try exact H. rewrite S. exact H.
  Qed.
  (** A step without effect. *)
  Lemma wp_step_pure {B} w (m : comp B) o h : still w h -> (forall t, o <> Thrown (ExcV "UnboundLocalError" t)) ->
    wp m (fun o' h' => o' = o /\ h' = h) h -> wp (stepping w (nested m)) (fun o' h' => o' = o /\ h' = h) h.
  Proof.
    intros S N H. apply wp_stepping. apply wp_nested; [|intros t h' [[X _] _]; exact (N t (eq_sym X))].
    eapply wp_mono; [exact H|]. intros o' h' [-> ->]. auto.
  Qed.
  Lemma wp_walk_enum {B} h v bs (k : option (loc * watch) -> list value -> comp B) (Q : outcome B -> heap -> Prop) : buf h v bs ->
    (forall w, let h2 := h ++ [IterO "enumerate" None (source_of h v)] in still w h2 -> wp (k w (enumerated bs)) Q h2) ->
    wp (watched (RefV (length h))) (kont (fun w => let* vs := iterate order (RefV (length h)) in k w vs) Q)
       (h ++ [IterO "enumerate" (Some (enumerated bs)) (source_of h v)]).
  Proof.
    intros Bv H. unfold wp, watched, seqc, get. rewrite hget_new.
    assert (X : forall x y, hset (h ++ [x]) (length h) y = h ++ [y]).
    { clear. intros x y. induction h as [|z h IH]; [reflexivity|]. cbn. rewrite IH. reflexivity. }
    destruct Bv as [->|(l & -> & G)]; cbn [source_of] in *.
    - specialize (H None (still_none _)). unfold done. cbn [fst snd]. unfold kont, wp, iterate, seqc, get. rewrite hget_new. unfold put, done. cbn [fst snd].
      rewrite X. exact H.
    - rewrite G in *. assert (G' : forall o, hget (h ++ [o]) l = Some (BytearrayO bs)) by (intro; rewrite hget_app; eauto using hget_lt).
      assert (S : forall o, still (Some (l, Octets bs)) (h ++ [o])).
      { intro o. unfold still, unchanged, seqc, get. rewrite G', same_octets_refl. reflexivity. }
      specialize (H _ (S _)). unfold done. cbn [fst snd]. unfold kont, wp, iterate, seqc, get. rewrite hget_new, S. unfold put, done. cbn [fst snd].
      rewrite X. exact H.
  Qed.
  Lemma wp_watched_list h l vs (Q : outcome (option (loc * watch)) -> heap -> Prop) : hget h l = Some (ListO vs) ->
    Q (Done None) h -> wp (watched (RefV l)) Q h.
  Proof. intros G H. unfold wp, watched, seqc, get. rewrite G. exact H. Qed.
  Lemma wp_iterate_list h l vs (Q : outcome (list value) -> heap -> Prop) : hget h l = Some (ListO vs) -> Q (Done vs) h ->
    wp (iterate order (RefV l)) Q h.
  Proof. intros G H. unfold wp, iterate, seqc, get. rewrite G. exact H. Qed.
  Lemma wp_first s h Q : Q (Done (StrV (firstn 1 s))) h -> wp (getslice (StrV s) NoneV (IntV 1)) Q h.
  Proof. rewrite <- slice_first. exact (fun H => H). Qed.
  Lemma wp_rest s h Q : Q (Done (StrV (skipn 1 s))) h -> wp (getslice (StrV s) (IntV 1) NoneV) Q h.
  Proof. rewrite <- slice_rest. exact (fun H => H). Qed.
  Lemma wp_last s h Q : Q (Done (StrV (skipn (length s - 1) s))) h -> wp (getslice (StrV s) (IntV (- 1)) NoneV) Q h.
  Proof. rewrite <- slice_last. exact (fun H => H). Qed.
  Lemma wp_butlast s h Q : Q (Done (StrV (removelast s))) h -> wp (getslice (StrV s) NoneV (IntV (- 1))) Q h.
  Proof. rewrite <- slice_butlast. exact (fun H => H). Qed.

  (** *** doc_dec and doc_enc *)
  Context (h0 : heap) (a b : loc).
  Notation inv := (Inv h0 a b).
  Lemma wp_slice h items ed v bs i j Q : inv h items ed -> buf h v bs ->
    (forall v' h', inv h' items ed -> keeps [] h h' -> buf h' v' (py_slice bs i j) -> Q (Done v') h') ->
    wp (getslice v (IntV i) (IntV j)) Q h.
  Proof.
    intros I [->|(l & -> & G)] H.
    - apply H; [exact I|apply keeps_refl|left; reflexivity].
    - cbn [getslice]. run. eapply wp_get; [exact G|]. run. cbn [cut bound]. apply wp_new. apply H.
      + apply inv_new. exact I.
      + apply keeps_new.
      + right. exists (length h). split; [reflexivity|]. apply hget_new.
  Qed.
  Lemma wp_get_dec h items ed kv k Q : inv h items ed -> key_of kv = Some k ->
    match dget key_eqb k items with
    | Some v => Q (Done v) h
    | None => Q (Thrown (ExcV "KeyError" (key_text k))) h
    end -> wp (getitem (RefV a) kv) Q h.
  Proof.
    intros I K H. cbn [getitem]. run. eapply wp_get; [eapply inv_dec, I|]. run. rewrite K.
    destruct (dget key_eqb k items); exact H.
  Qed.
  Lemma wp_set_dec h items ed kv k v (Q : outcome unit -> heap -> Prop) : inv h items ed -> key_of kv = Some k ->
    (forall h', inv h' (dset key_eqb k v items) ed -> keeps [] h h' -> Q (Done tt) h') ->
    wp (setitem (RefV a) kv v) Q h.
  Proof.
    intros I K H. cbn [setitem]. run. eapply wp_get; [eapply inv_dec, I|]. run. rewrite K.
    apply wp_put. apply H; [eapply inv_set_dec, I|eapply keeps_hset_dict, inv_dec, I].
  Qed.
  (** doc_enc[k] = {"len": e.len, "data": e.data} *)
  Lemma wp_set_enc h items ed k e (Q : outcome unit -> heap -> Prop) : inv h items ed ->
    (forall h', inv h' items (sset k e ed) -> keeps [] h h' -> Q (Done tt) h') ->
    wp (setitem (RefV b) (StrV k) (RefV (length h))) Q (h ++ [entry_obj e]).
  Proof.
    intros I H. destruct (inv_set_enc h0 a b h items ed k e I) as (d & G & I').
    cbn [setitem]. run. eapply wp_get; [exact G|]. run. cbn [key_of]. apply wp_put. apply H; [exact I'|].
    eapply keeps_trans; [apply keeps_new|eapply keeps_hset_dict, G].
  Qed.
  Lemma wp_get_enc h items ed k Q : inv h items ed ->
    match sget k ed with
    | Some e => forall l, hget h l = Some (entry_obj e) ->
        (forall e', inv (hset h l (entry_obj e')) items (sset k e' ed)) -> Q (Done (RefV l)) h
    | None => Q (Thrown (ExcV "KeyError" k)) h
    end -> wp (getitem (RefV b) (StrV k)) Q h.
  Proof.
    intros I H. destruct (inv_get_enc h0 a b h items ed k I) as (d & G & X). cbn [getitem]. run.
    eapply wp_get; [exact G|]. run. cbn [key_of]. destruct (sget k ed) as [e|].
    - destruct X as (l & X1 & X2 & X3). rewrite X1. apply H; assumption.
    - rewrite X. exact H.
  Qed.
  Lemma wp_entry_data h l e Q : hget h l = Some (entry_obj e) -> Q (Done (BytesV (e_data e))) h ->
    wp (getitem (RefV l) (StrV (u "data"))) Q h.
  Proof. intros G H. cbn [getitem]. run. eapply wp_get; [exact G|]. run. exact H. Qed.
  Lemma wp_entry_len h l e Q : hget h l = Some (entry_obj e) -> Q (Done (BytesV (e_len e))) h ->
    wp (getitem (RefV l) (StrV (u "len"))) Q h.
  Proof. intros G H. cbn [getitem]. run. eapply wp_get; [exact G|]. run. exact H. Qed.
  Lemma wp_entry_set_data h items ed k l e d (Q : outcome unit -> heap -> Prop) : hget h l = Some (entry_obj e) ->
    (forall e', inv (hset h l (entry_obj e')) items (sset k e' ed)) ->
    (forall h', inv h' items (sset k (mkEntry (e_len e) d) ed) -> keeps [] h h' -> Q (Done tt) h') ->
    wp (setitem (RefV l) (StrV (u "data")) (BytesV d)) Q h.
  Proof.
    intros G X H. cbn [setitem]. run. eapply wp_get; [exact G|]. run. cbn [key_of]. apply wp_put.
    apply H; [exact (X (mkEntry (e_len e) d))|eapply keeps_hset_dict, G].
  Qed.
  Lemma wp_entry_set_len h items ed k l e d (Q : outcome unit -> heap -> Prop) : hget h l = Some (entry_obj e) ->
    (forall e', inv (hset h l (entry_obj e')) items (sset k e' ed)) ->
    (forall h', inv h' items (sset k (mkEntry d (e_data e)) ed) -> keeps [] h h' -> Q (Done tt) h') ->
    wp (setitem (RefV l) (StrV (u "len")) (BytesV d)) Q h.
  Proof.
    intros G X H. cbn [setitem]. run. eapply wp_get; [exact G|]. run. cbn [key_of]. apply wp_put.
    apply H; [exact (X (mkEntry d (e_data e)))|eapply keeps_hset_dict, G].
  Qed.
  (** self.x = v while an exception is being made. *)
  Lemma wp_setattr h1 h items ed l c attrs args x v (Q : outcome unit -> heap -> Prop) :
    inv h items ed -> length h0 <= l -> keeps [l] h1 h -> hget h l = Some (InstO c attrs args) ->
    (forall h', inv h' items ed -> keeps [l] h1 h' -> hget h' l = Some (InstO c (bindv x v attrs) args) -> Q (Done tt) h') ->
    wp (setattr (RefV l) x v) Q h.
  Proof.
    intros I L K G H. cbn [setattr]. run. eapply wp_get; [exact G|]. run. apply wp_put. apply H.
    - eapply inv_put; eauto.
    - eapply keeps_trans; [exact K|]. apply keeps_hset_ex. left. reflexivity.
    - apply hget_hset. eauto using hget_lt.
  Qed.
  Lemma wp_dec_has h items ed kv k (Q : outcome bool -> heap -> Prop) : inv h items ed -> key_of kv = Some k ->
    Q (Done (dmem key_eqb k items)) h -> wp (contains kv (RefV a)) Q h.
  Proof.
    intros I K H. cbn [contains]. run. eapply wp_get; [eapply inv_dec, I|]. run.
    destruct kv; try discriminate; cbv beta iota; rewrite K; exact H.
  Qed.
End Ops.

(** ** Calls *)
Definition locals_of (f : fundef) : list string := f_params f ++ flat_map assigned (f_body f).
Lemma wp_call E order stdout tbl prog n f fd args Q h :
  dget String.eqb f prog = Some fd -> length (f_params fd) = length args ->
  runnable prog fd = true -> existsb yields (f_body fd) = false ->
  wps (exec_block E order stdout tbl (call_fun E order stdout tbl prog n) (locals_of fd) (f_body fd))
      (fun c _ h' => Q (outcome_of c) h') (combine (f_params fd) args) h ->
  wp (call_fun E order stdout tbl prog (S n) f args) Q h.
Proof.
  intros G L R Y H. unfold wp. cbn [call_fun]. rewrite G. unfold run_body. rewrite L, Nat.eqb_refl, R, Y. cbn [negb].
  unfold wps in H. fold (locals_of fd).
  destruct (exec_block E order stdout tbl (call_fun E order stdout tbl prog n) (locals_of fd) (f_body fd) (combine (f_params fd) args) h)
    as [[[|v|x|w] r'] h']; exact H.
Qed.
(** Enter the body of a function of the program. *)
Ltac enter :=
  eapply wp_call; [reflexivity|reflexivity|reflexivity|reflexivity|];
  match goal with
  | |- wps (exec_block ?E ?o ?s ?t ?c ?l ?body) ?Q (combine (f_params ?fd) ?args) ?h =>
      let l' := eval cbv in l in
      let b' := eval hnf in body in
      let p := eval cbv in (f_params fd) in
      let r' := eval cbn [combine] in (combine p args) in
      let vars := fresh "vars" in pose (vars := l');
      let r := fresh "r" in pose (r := r');
      change (wps (exec_block E o s t c vars b') Q r h)
  end.
