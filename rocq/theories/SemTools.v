(** * SemTools: running the text of tools.py gives what the model says. *)
From Coq Require Import ZifyBool ZifyNat ZifyN Permutation.
From Verif Require Import PyBase BaseFacts PyFormat FormatFacts Types Decoder EncoderFacts Tools PyAst Source PySem SemClaims SemFacts SemHeap SemStep.
Local Open Scope string_scope.
Local Open Scope list_scope.

(** ** The chunks *)
Fixpoint counts (n : nat) (start step : Z) : list Z :=
  match n with O => [] | S n' => start :: counts n' (start + step)%Z step end.
Lemma count_from_map n a step : count_from n a step = map IntV (counts n a step).
Proof. revert a. induction n as [|n IH]; intro a; cbn; [reflexivity|]. rewrite IH. reflexivity. Qed.
Lemma slice_mid {A} (pre l : list A) n : (0 <= n)%Z ->
  py_slice (pre ++ l) (zlen pre) (zlen pre + n) = firstn (Z.to_nat n) l.
Proof.
  intro H. unfold py_slice, slice_index, zlen. rewrite app_length.
  rewrite (proj2 (Z.ltb_ge (Z.of_nat (length pre)) 0)), (proj2 (Z.ltb_ge (Z.of_nat (length pre) + n) 0)) by lia.
  rewrite (Z.min_l (Z.of_nat (length pre))) by lia. rewrite Nat2Z.id, skipn_app, skipn_all, Nat.sub_diag. cbn [skipn app].
  destruct (Z.le_gt_cases n (Z.of_nat (length l))) as [L|L].
  - rewrite Z.min_l by lia. f_equal. lia.
  - rewrite Z.min_r by lia. rewrite !firstn_all2 by lia. reflexivity.
Qed.
Lemma chunks_slices {A} (w : nat) : (0 < w)%nat -> forall fuel (l pre : list A), (length l <= fuel)%nat ->
  map (fun i => py_slice (pre ++ l) i (i + Z.of_nat w)) (counts (Z.to_nat ((zlen l + Z.of_nat w - 1) / Z.of_nat w)) (zlen pre) (Z.of_nat w))
  = chunks_of fuel w l.
Proof.
  intro W. induction fuel as [|fuel IH]; intros l pre L; cbn [chunks_of].
  - destruct l; [|cbn in L; lia]. rewrite (Z.div_small (_ - 1)) by (unfold zlen; cbn; lia). reflexivity.
  - destruct l as [|x l]; [rewrite (Z.div_small (_ - 1)) by (unfold zlen; cbn; lia); reflexivity|].
    set (l1 := x :: l) in *. assert (1 <= length l1) by (unfold l1; cbn; lia).
    assert (X : Z.to_nat ((zlen l1 + Z.of_nat w - 1) / Z.of_nat w)
      = S (Z.to_nat ((zlen (skipn w l1) + Z.of_nat w - 1) / Z.of_nat w))).
    { replace (zlen l1 + Z.of_nat w - 1)%Z with (zlen l1 - 1 + 1 * Z.of_nat w)%Z by lia. rewrite Z.div_add by lia.
      unfold zlen. rewrite skipn_length. destruct (Nat.le_gt_cases (length l1) w) as [B|B].
      - rewrite (Z.div_small (Z.of_nat (length l1) - 1)) by lia. rewrite (Z.div_small (Z.of_nat (length l1 - w) + _ - 1)) by lia. reflexivity.
      - replace (Z.of_nat (length l1 - w) + Z.of_nat w - 1)%Z with (Z.of_nat (length l1) - 1)%Z by lia.
        assert (0 <= (Z.of_nat (length l1) - 1) / Z.of_nat w)%Z by (apply Z.div_pos; lia). lia. }
    rewrite X. cbn [counts map]. rewrite slice_mid by lia. rewrite Nat2Z.id. f_equal.
    destruct (Nat.le_gt_cases (length l1) w) as [B|B].
    + rewrite (skipn_all2 l1) by lia. rewrite (Z.div_small (_ - 1)) by (unfold zlen; cbn; lia). destruct fuel; reflexivity.
    + assert (Y : pre ++ l1 = (pre ++ firstn w l1) ++ skipn w l1) by (rewrite <- app_assoc, firstn_skipn; reflexivity).
      rewrite Y. replace (zlen pre + Z.of_nat w)%Z with (zlen (pre ++ firstn w l1)) by (unfold zlen; rewrite app_length, firstn_length; lia).
      apply IH. rewrite skipn_length. lia.
Qed.
Fixpoint wrap_loop (current obj : bytes) (width : Z) : list bytes * bytes :=
  match obj with
  | [] => ([], current)
  | b :: obj' =>
      if (width <? zlen (repr_bytes (current ++ [b])))%Z then
        let (l, c) := wrap_loop [b] obj' width in (match current with [] => l | _ => current :: l end, c)
      else wrap_loop (current ++ [b]) obj' width
  end.
Lemma wrap_loop_bytes obj : forall current width,
  wrap_bytes_from current obj width =
  fst (wrap_loop current obj width) ++ match snd (wrap_loop current obj width) with [] => [] | c => [c] end.
Proof.
  induction obj as [|x obj IH]; intros current width; cbn [wrap_bytes_from wrap_loop]; [destruct current; reflexivity|].
  destruct (width <? _)%Z; rewrite IH; [|reflexivity]. destruct (wrap_loop [x] obj width). destruct current; reflexivity.
Qed.

(** ** Generators *)
Definition yield_to (o : option value) (v : value) : comp unit :=
  match o with
  | Some (RefV l) => let* o := get l in
                     match o with
                     | ListO vs => put l (ListO (vs ++ [v]))
                     | _ => stuck "yield"
                     end
  | _ => stuck "yield"
  end.
Lemma ex_Yield E order stdout tbl call locals r e g (Q : ctl -> env -> heap -> Prop) h : lookup yielding r = Some (RefV g) ->
  wp (eval E order stdout tbl call locals r e) (kexp (fun v => expr_then (yield_to (Some (RefV g)) v) (fun _ => finish Next)) Q r) h ->
  wps (exec E order stdout tbl call locals (YieldS e)) Q r h.
Proof.
  intros L H.
  change (wps (with_env (fun r => expr_then (eval E order stdout tbl call locals r e) (fun v =>
                    expr_then (yield_to (lookup yielding r) v) (fun _ => finish Next)))) Q r h).
  apply wps_with_env, wps_expr_then. rewrite L. exact H.
Qed.
Lemma wp_yield h g vs v (Q : outcome unit -> heap -> Prop) : hget h g = Some (ListO vs) ->
  Q (Done tt) (hset h g (ListO (vs ++ [v]))) -> wp (yield_to (Some (RefV g)) v) Q h.
Proof. intros G H. unfold wp, yield_to, seqc, get. rewrite G. exact H. Qed.
Lemma wp_call_gen E order stdout tbl prog n f fd args (Q : outcome value -> heap -> Prop) h :
  dget String.eqb f prog = Some fd -> length (f_params fd) = length args ->
  runnable prog fd = true -> existsb yields (f_body fd) = true -> forallb immutable args = true ->
  wps (exec_block E order (ModuleV "stdout") tbl (fun f _ => stuck f) (locals_of fd) (f_body fd))
      (fun c _ h' => c = Next /\ exists vs, h' = [ListO vs] /\ forallb immutable vs = true /\
         Q (Done (RefV (length h))) (h ++ [IterO "generator" (Some vs) None]))
      ((yielding, RefV 0) :: combine (f_params fd) args) [ListO []] ->
  wp (call_fun E order stdout tbl prog (S n) f args) Q h.
Proof.
  intros G L R Y I H. unfold wp. cbn [call_fun]. rewrite G. unfold run_body. rewrite L, Nat.eqb_refl, R, Y, I. cbn [negb].
  unfold wps in H. fold (locals_of fd).
  destruct (exec_block E order (ModuleV "stdout") tbl (fun f _ => stuck f) (locals_of fd) (f_body fd) _ [ListO []])
    as [[[|v|x|w] r'] h']; destruct H as (Hc & vs & -> & V & H); try discriminate. rewrite V. exact H.
Qed.
Lemma wp_repr_str E order s (Q : outcome value -> heap -> Prop) h : Q (Done (StrV (repr_str E s))) h ->
  wp (call_builtin E order "repr" [StrV s] []) Q h.
Proof. exact (fun H => H). Qed.
Lemma wp_repr_bytes E order s (Q : outcome value -> heap -> Prop) h : Q (Done (StrV (repr_bytes s))) h ->
  wp (call_builtin E order "repr" [BytesV s] []) Q h.
Proof. exact (fun H => H). Qed.

Lemma wp_range3 E order a b s (Q : outcome value -> heap -> Prop) h : (1 <= s)%Z -> Q (Done (RangeV a b s)) h ->
  wp (call_builtin E order "range" [IntV a; IntV b; IntV s] []) Q h.
Proof.
  intros L H. change (wp (if (s <=? 0)%Z then stuck "range" else done (RangeV a b s)) Q h).
  rewrite (proj2 (Z.leb_gt s 0)) by lia. exact H.
Qed.

Section Tools.
  Context (E : pyenv) (order : list Z -> list Z) (stdout : value).
  Context (h0 : heap) (w : loc) (t0 : pystr) (Gw : hget h0 w = Some (StreamO t0)).
  Notation call := (call_fun E order stdout tools_table tools_py).
  Implicit Types (Q : outcome value -> heap -> Prop).

  Lemma Lw : w < length h0. Proof. exact (hget_lt _ _ _ Gw). Qed.
  (** What was written so far; nothing else that was there has changed. *)
  Definition pinv (h : heap) (out : pystr) : Prop :=
    hget h w = Some (StreamO out) /\ length h0 <= length h /\ forall l, l < length h0 -> l <> w -> hget h l = hget h0 l.
  Lemma pinv_new h out o : pinv h out -> pinv (h ++ [o]) out.
  Proof.
    intros (G & L & F). split; [rewrite hget_app; [exact G|eauto using hget_lt]|]. split; [rewrite app_length; lia|].
    intros l Hl N. rewrite hget_app by lia. auto.
  Qed.
  Lemma pinv_put h out l o : pinv h out -> length h0 <= l -> pinv (hset h l o) out.
  Proof.
    intros (G & L & F) Hl. assert (Lw' := Lw). split; [rewrite hget_hset_other; [exact G|lia]|]. split; [rewrite hset_length; lia|].
    intros l' H' N. rewrite hget_hset_other by lia. auto.
  Qed.
  Lemma pinv_write h out t : pinv h out -> pinv (hset h w (StreamO t)) t.
  Proof.
    intros (G & L & F). split; [apply hget_hset; eauto using hget_lt|]. split; [rewrite hset_length; lia|].
    intros l' H' N. rewrite hget_hset_other by assumption. auto.
  Qed.
  Lemma wp_stream_attr h out Q : pinv h out -> Q (Done (MethodV (RefV w) "write")) h -> wp (getattr stdout (RefV w) "write") Q h.
  Proof. intros (G & _) H. unfold wp, getattr, seqc, get. cbn [String.eqb Ascii.eqb Bool.eqb]. rewrite G. exact H. Qed.
  Lemma wp_write h out t Q : pinv h out -> (forall h', pinv h' (out ++ t) -> Q (Done NoneV) h') ->
    wp (call_method E order tools_table (RefV w) "write" [StrV t] []) Q h.
  Proof.
    intros I H. assert (G := proj1 I). unfold wp, call_method, seqc, get. rewrite G. cbn. apply H. eapply pinv_write, I.
  Qed.
  (** stream.write(...): up to its argument, and past it *)
  Ltac writes := run; eapply wp_stream_attr; [eassumption|]; run.
  Ltac wrote := eapply wp_write; [eassumption|];
    let h1 := fresh "h" in let I1 := fresh "I" in intros h1 I1;
    match goal with I : pinv ?h _ |- _ => lazymatch h with h1 => fail | _ => clear I; try clear h; rename I1 into I end end; run.

  (** *** _wrap_str_repr, _wrap_bytes_repr *)
  Ltac enter_gen :=
    eapply wp_call_gen; [reflexivity|reflexivity|reflexivity|reflexivity|reflexivity|];
    match goal with
    | |- wps (exec_block ?E ?o ?s ?t ?c ?l ?body) ?Q ((yielding, ?v) :: combine (f_params ?fd) ?args) ?h =>
        let l' := eval cbv in l in
        let b' := eval hnf in body in
        let p := eval cbv in (f_params fd) in
        let r' := eval cbn [combine] in (combine p args) in
        let vars := fresh "vars" in pose (vars := l');
        let r := fresh "r" in pose (r := ("<yielded>", v) :: r');
        change (wps (exec_block E o s t c vars b') Q r h)
    end.
  Ltac yields_with g := eapply (ex_Yield _ _ _ _ _ _ _ _ g); [eapply binds_lookup; [eassumption|reflexivity]|]; run.
  Definition wrap_str_vars : list string := ["obj"; "width"; "width"; "width"; "i"].
  Lemma sem_wrap_str_loop s w0 l : forall done r,
    binds [("<yielded>", RefV 0); ("obj", StrV s); ("width", IntV w0)] r -> dom ("<yielded>" :: wrap_str_vars) r ->
    wps (loop (fun v => andthen (assign E order (ModuleV "stdout") tools_table (fun f _ => stuck f) wrap_str_vars (Name "i") v)
                          (exec_block E order (ModuleV "stdout") tools_table (fun f _ => stuck f) wrap_str_vars
                            [YieldS (Call (Name "repr") [Subscript (Name "obj") (Slice (Some (Name "i")) (Some (BinOp (Name "i") Add (Name "width"))))] [])]))
           (map IntV l))
        (fun c _ h' => c = Next /\ h' = [ListO (done ++ map (fun i => StrV (repr_str E (py_slice s i (i + w0)))) l)]) r [ListO done].
  Proof.
    induction l as [|i l IH]; intros done r B D; cbn [map loop].
    - run. rewrite app_nil_r. auto.
    - run. yields_with 0. refine (wp_done (StrV (py_slice s i (i + w0))) _ _ _). run.
      apply wp_repr_str. run. eapply wp_yield; [reflexivity|]. cbn [hset]. run.
      eapply wps_mono; [eapply IH|].
      + eapply binds_less; [eassumption|repeat constructor].
      + eassumption.
      + cbv beta. intros c r' h' (-> & ->). rewrite <- app_assoc. auto.
  Qed.
  Lemma sem_wrap_str n h s width Q :
    Q (Done (RefV (length h))) (h ++ [IterO "generator" (Some (map (fun x => StrV (repr_str E x)) (wrap_str s width))) None]) ->
    wp (call (S n) "_wrap_str_repr" [StrV s; IntV width]) Q h.
  Proof.
    intro H. enter_gen. change vars with wrap_str_vars in *. clear vars.
    set (w0 := if (3 <? width)%Z then (width - 2)%Z else 1%Z).
    do_block.
    eapply (wps_mono _ (fun c r' h' => c = Next /\
      r' = [("<yielded>", RefV 0); ("obj", StrV s); ("width", IntV w0)] /\ h' = [ListO []])).
    { unfold w0. run. destruct (3 <? width)%Z; run; split; auto. }
    clear r. intros c r h' (-> & -> & ->). 
    set (r := [(_, _); _; _]). run.
    assert (P : (1 <= w0)%Z) by (unfold w0; destruct (3 <? width)%Z eqn:?; lia).
    apply wp_range3; [exact P|]. run. refine (wp_done _ _ _ _). run. unfold range_list. rewrite count_from_map.
    eapply wps_mono; [eapply sem_wrap_str_loop; [repeat constructor|apply dom_list; reflexivity]|].
    intros c r' h' (-> & ->). run. split; [reflexivity|]. eexists. split; [reflexivity|].
    split; [cbn [app]; generalize (Z.to_nat ((zlen s - 0 + w0 - 1) / w0)); intro m; rewrite forallb_forall; intros x Hx;
            apply in_map_iff in Hx as (y & <- & _); reflexivity|].
    match goal with |- Q _ (_ ++ [IterO _ (Some ?lst) _]) => enough (X : lst = map (fun x => StrV (repr_str E x)) (wrap_str s width)) by (rewrite X; exact H) end.
    cbn [app]. unfold wrap_str. fold w0. rewrite <- (chunks_slices (Z.to_nat w0) ltac:(lia) (length s) s []) by lia.
    rewrite Z2Nat.id, map_map, Z.sub_0_r by lia. reflexivity.
  Qed.

  Definition wrap_bytes_vars : list string := ["obj"; "width"; "current"; "i"; "part"; "candidate"; "current"; "current"].
  Definition wrap_bytes_env obj width current : env :=
    [("<yielded>", RefV 0); ("obj", BytesV obj); ("width", IntV width); ("current", BytesV current)].
  Lemma wrap_bytes_vars_ok : locals_of src__wrap_bytes_repr = wrap_bytes_vars. Proof. reflexivity. Qed.
  Definition wrap_bytes_body : list stmt :=
    match f_body src__wrap_bytes_repr with [_; For _ _ b; _] => b | _ => [] end.
  Lemma sem_wrap_bytes_loop width l : forall pre current done r,
    binds (wrap_bytes_env (pre ++ l) width current) r -> dom ("<yielded>" :: wrap_bytes_vars) r ->
    wps (loop (fun v => andthen (assign E order (ModuleV "stdout") tools_table (fun f _ => stuck f) wrap_bytes_vars (Name "i") v)
                          (exec_block E order (ModuleV "stdout") tools_table (fun f _ => stuck f) wrap_bytes_vars wrap_bytes_body))
           (count_from (length l) (zlen pre) 1))
        (fun c r' h' => c = Next /\ dom ("<yielded>" :: wrap_bytes_vars) r' /\
           binds (wrap_bytes_env (pre ++ l) width (snd (wrap_loop current l width))) r' /\
           h' = [ListO (done ++ map (fun x => StrV (repr_bytes x)) (fst (wrap_loop current l width)))]) r [ListO done].
  Proof.
    induction l as [|x l IH]; intros pre current done r B D; cbn [length count_from loop wrap_loop].
    - run. cbn [fst snd map]. rewrite !app_nil_r in *. auto 6.
    - unfold wrap_bytes_env in B.
      assert (IH1 : forall current done r,
        binds (wrap_bytes_env (pre ++ x :: l) width current) r -> dom ("<yielded>" :: wrap_bytes_vars) r ->
        wps (loop (fun v => andthen (assign E order (ModuleV "stdout") tools_table (fun f _ => stuck f) wrap_bytes_vars (Name "i") v)
                          (exec_block E order (ModuleV "stdout") tools_table (fun f _ => stuck f) wrap_bytes_vars wrap_bytes_body))
           (count_from (length l) (zlen pre + 1) 1))
        (fun c r' h' => c = Next /\ dom ("<yielded>" :: wrap_bytes_vars) r' /\
           binds (wrap_bytes_env (pre ++ x :: l) width (snd (wrap_loop current l width))) r' /\
           h' = [ListO (done ++ map (fun x => StrV (repr_bytes x)) (fst (wrap_loop current l width)))]) r [ListO done]).
      { intros c1 d1 r1 B1 D1. specialize (IH (pre ++ [x]) c1 d1 r1).
        rewrite <- app_assoc in IH. replace (zlen (pre ++ [x])) with (zlen pre + 1)%Z in IH by (unfold zlen; rewrite app_length; cbn; lia).
        apply IH; assumption. }
      clear IH. match goal with |- wps (andthen ?a ?b) _ _ _ => set (k := b) in * end.
      unfold wrap_bytes_body. cbn [f_body src__wrap_bytes_repr]. run.
      refine (wp_done (BytesV (py_slice (pre ++ x :: l) (zlen pre) (zlen pre + 1))) _ _ _).
      rewrite slice_mid by lia. change (firstn (Z.to_nat 1) (x :: l)) with [x]. run.
      apply wp_repr_bytes. run.
      destruct (width <? zlen (repr_bytes (current ++ [x])))%Z; run.
      + refine (wp_done _ _ _ _).
        destruct current as [|c0 current]; run.
        * eapply wps_mono; [eapply (IH1 [x]); [eapply binds_less; [eassumption|repeat constructor]|eassumption]|].
          cbv beta. intros c1 r1 h1. destruct (wrap_loop [x] l width). cbn [fst snd]. auto.
        * yields_with 0. apply wp_repr_bytes. run. eapply wp_yield; [reflexivity|]. cbn [hset]. run.
          eapply wps_mono; [eapply (IH1 [x]); [eapply binds_less; [eassumption|repeat constructor]|eassumption]|].
          cbv beta. intros c1 r1 h1. destruct (wrap_loop [x] l width). cbn [fst snd map]. rewrite <- app_assoc. auto.
      + eapply IH1; [eapply binds_less; [eassumption|repeat constructor]|eassumption].
  Qed.
  Lemma reprs_immutable (l : list bytes) : forallb immutable (map (fun x => StrV (repr_bytes x)) l) = true.
  Proof. rewrite forallb_forall. intros x Hx. apply in_map_iff in Hx as (y & <- & _). reflexivity. Qed.
  Lemma sem_wrap_bytes n h s width Q :
    Q (Done (RefV (length h))) (h ++ [IterO "generator" (Some (map (fun x => StrV (repr_bytes x)) (wrap_bytes s width))) None]) ->
    wp (call (S n) "_wrap_bytes_repr" [BytesV s; IntV width]) Q h.
  Proof.
    intro H. enter_gen. change vars with wrap_bytes_vars in *. clear vars.
    run. refine (wp_done _ _ _ _). run. unfold range_list.
    replace (Z.to_nat ((zlen s - 0 + 1 - 1) / 1)) with (length s) by (rewrite Z.div_1_r; unfold zlen; lia).
    change 0%Z with (zlen (@nil byte)).
    eapply wps_mono; [eapply (sem_wrap_bytes_loop width s [] []); [repeat constructor|apply dom_list; reflexivity]|].
    intros c r1 h' (-> & D & B & ->). unfold wrap_bytes_env in B. cbn [app] in B. cbn [app].
    unfold wrap_bytes in H. rewrite wrap_loop_bytes in H. destruct (wrap_loop [] s width) as [l c]. cbn [fst snd] in *. run.
    refine (wp_done _ _ _ _). destruct c as [|c0 c]; run.
    - rewrite app_nil_r in H. split; [reflexivity|]. eexists. split; [reflexivity|]. split; [apply reprs_immutable|exact H].
    - yields_with 0. apply wp_repr_bytes. run. eapply wp_yield; [reflexivity|]. cbn [hset]. run. rewrite map_app in H.
      split; [reflexivity|]. eexists. split; [reflexivity|]. split; [|exact H].
      rewrite forallb_app, reprs_immutable. reflexivity.
  Qed.

  (** *** _pprint_str, _pprint_bytes *)
  Lemma wp_walk_gen h vs (k : option (loc * watch) -> list value -> sem) (Q : ctl -> env -> heap -> Prop) r :
    wps (k None vs) Q r (h ++ [IterO "generator" None None]) ->
    wp (watched (RefV (length h))) (kexp (fun w => expr_then (iterate order (RefV (length h))) (k w)) Q r)
       (h ++ [IterO "generator" (Some vs) None]).
  Proof.
    intro H. unfold wp, watched, seqc, get. rewrite hget_new. unfold done. cbn [fst snd kexp].
    unfold wps, expr_then, iterate, seqc, get. rewrite hget_new. unfold put, done. cbn [fst snd].
    assert (X : forall x y, hset (h ++ [x]) (length h) y = h ++ [y]).
    { clear. intros x y. induction h as [|z h IH]; [reflexivity|]. cbn. rewrite IH. reflexivity. }
    rewrite X. exact H.
  Qed.
  Definition pprint_vars : list string := ["obj"; "stream"; "indent"; "width"; "delim"; "rep"; "delim"].
  Definition pprint_body : list stmt :=
    match f_body src__pprint_str with [_; _; For _ _ b] => b | _ => [] end.
  Definition separator (indent : Z) : pystr := [10%N] ++ repeat 32%N (Z.to_nat indent).
  Lemma join_flat sep x l : join sep (x :: l) = x ++ flat_map (fun y => sep ++ y) l.
  Proof.
    revert x. induction l as [|y l IH]; intro x; [symmetry; apply app_nil_r|].
    change (join sep (x :: y :: l)) with (x ++ sep ++ join sep (y :: l)). rewrite IH. cbn [flat_map]. rewrite <- app_assoc. reflexivity.
  Qed.
  Lemma concat_spaces n : concat (repeat (u " ") n) = repeat 32%N n.
  Proof. induction n as [|n IH]; cbn [concat repeat]; [reflexivity|]. rewrite IH. reflexivity. Qed.
  Lemma sem_pprint_loop n indent (reps : list pystr) : forall d h out r, pinv h out -> dom pprint_vars r ->
    binds [("stream", RefV w); ("indent", IntV indent); ("delim", StrV d)] r -> d = [] \/ d = separator indent ->
    wps (loop (fun v => andthen (assign E order stdout tools_table (call n) pprint_vars (Name "rep") v)
                          (exec_block E order stdout tools_table (call n) pprint_vars pprint_body))
           (map StrV reps))
        (fun c r' h' => c = Next /\ pinv h' (out ++ match d with [] => fold_chunks indent reps | _ => flat_map (fun x => d ++ x) reps end)) r h.
  Proof.
    induction reps as [|x reps IH]; intros d h out r I D B Sd; cbn [map loop].
    - run. split; [reflexivity|]. destruct d; cbn; rewrite app_nil_r; exact I.
    - match goal with |- wps (andthen ?a ?b) _ _ _ => set (k := b) in * end.
      unfold pprint_body. cbn [f_body src__pprint_str]. writes. wrote. writes. wrote. refine (wp_done _ _ _ _). run.
      destruct d as [|d0 d]; cbn [negb]; run.
      + rewrite concat_spaces in B.
        eapply wps_mono; [eapply (IH (separator indent)); [exact I|eassumption|eapply binds_less; [eassumption|repeat constructor]|auto]|].
        cbv beta. intros c1 r1 h1 (-> & I1). split; [reflexivity|]. unfold fold_chunks. rewrite join_flat.
        rewrite app_nil_r, <- app_assoc in I1. exact I1.
      + eapply wps_mono; [eapply (IH (d0 :: d)); [exact I|eassumption|eapply binds_less; [eassumption|repeat constructor]|auto]|].
        cbv beta. intros c1 r1 h1 (-> & I1). split; [reflexivity|]. cbn [flat_map]. rewrite <- !app_assoc in *. exact I1.
  Qed.
  Lemma len_1 {A} (l : list A) : (zlen l <=? 1)%Z = (length l <=? 1)%nat.
  Proof. unfold zlen. destruct (Nat.leb_spec (length l) 1); [apply Z.leb_le|apply Z.leb_gt]; lia. Qed.
  Lemma sem_pprint_str n h out s indent width Q : pinv h out ->
    (forall h', pinv h' (snd (pprint_str E s indent width out)) -> Q (Done NoneV) h') ->
    wp (call (S (S n)) "_pprint_str" [StrV s; RefV w; IntV indent; IntV width]) Q h.
  Proof.
    intros I H. enter. run. unfold pprint_str in H. rewrite len_1. change vars with pprint_vars in *. clear vars. destruct (length s <=? 1)%nat; run.
    - writes. apply wp_repr_str. run. wrote. apply H. exact I.
    - apply (sem_wrap_str n). run. eapply wp_walk_gen. run. assert (I1 := pinv_new _ _ (IterO "generator" None None) I).
      cbv delta [step_of] beta iota. rewrite <- (map_map (repr_str E) StrV).
      eapply wps_mono; [eapply (sem_pprint_loop _ indent); [exact I1|apply dom_list; reflexivity|repeat constructor|left; reflexivity]|].
      intros c r1 h2 (-> & I2). run. apply H. exact I2.
  Qed.
  Lemma sem_pprint_bytes n h out s indent width Q : pinv h out ->
    (forall h', pinv h' (snd (pprint_bytes s indent width out)) -> Q (Done NoneV) h') ->
    wp (call (S (S n)) "_pprint_bytes" [BytesV s; RefV w; IntV indent; IntV width]) Q h.
  Proof.
    intros I H. enter. run. unfold pprint_bytes in H. rewrite len_1. change vars with pprint_vars in *. clear vars. destruct (length s <=? 1)%nat; run.
    - writes. apply wp_repr_bytes. run. wrote. apply H. exact I.
    - apply (sem_wrap_bytes n). run. eapply wp_walk_gen. run. assert (I1 := pinv_new _ _ (IterO "generator" None None) I).
      cbv delta [step_of] beta iota. rewrite <- (map_map repr_bytes StrV).
      eapply wps_mono; [eapply (sem_pprint_loop _ indent); [exact I1|apply dom_list; reflexivity|repeat constructor|left; reflexivity]|].
      intros c r1 h2 (-> & I2). run. apply H. exact I2.
  Qed.

  (** *** _pp_field *)
  Lemma steady h out l o : pinv h out -> hget h0 l = Some o -> (forall t, o <> StreamO t) -> hget h l = Some o.
  Proof.
    intros (G & L & F) H N. rewrite F; [exact H|eauto using hget_lt|]. intros ->. rewrite Gw in H. injection H as <-. eapply N. reflexivity.
  Qed.
  Lemma wp_obj_repr h out v o Q : pinv h out -> obj_rep E h0 v o -> Q (Done (StrV (repr E o))) h ->
    wp (call_builtin E order "repr" [v] []) Q h.
  Proof.
    intros I R H. change (wp (let* s := repr_of E v in done (StrV s)) Q h). apply wp_seq.
    destruct o as [s|b|n r]; cbn [obj_rep repr] in *; [subst v; exact H|subst v; exact H|].
    destruct v; try contradiction; cbn [repr_of].
    - destruct R as [_ ->]. exact H.
    - destruct R as [_ ->]. exact H.
    - destruct R as (_ & -> & P). apply wp_int_text; [exact P|]. exact H.
    - destruct R as (b & G & _ & ->). apply wp_seq. eapply wp_get; [eapply steady; [exact I|exact G|discriminate]|]. exact H.
    - destruct R as [_ ->]. exact H.
  Qed.
  Lemma wp_obj_len h out v o Q : pinv h out -> obj_rep E h0 v o ->
    match obj_len o with
    | Some n => Q (Done (IntV (Z.of_nat n))) h
    | None => Q (Thrown (ExcV "TypeError" (u "object has no len()"))) h
    end -> wp (py_len v) Q h.
  Proof.
    intros I R H. destruct o as [s|b|n r]; cbn [obj_rep obj_len] in *; [subst v; exact H|subst v; exact H|].
    destruct v; try contradiction; cbn [py_len].
    - destruct R as [-> _]. exact H.
    - destruct R as [-> _]. exact H.
    - destruct R as [-> _]. exact H.
    - destruct R as (b & G & -> & _). apply wp_seq. eapply wp_get; [eapply steady; [exact I|exact G|discriminate]|]. exact H.
    - destruct R as [-> _]. destruct (o_len o); exact H.
  Qed.
  Lemma wp_dict_method h out l items x Q : pinv h out -> hget h0 l = Some (DictO items) -> mem x dict_methods = true ->
    Q (Done (MethodV (RefV l) x)) h -> wp (getattr stdout (RefV l) x) Q h.
  Proof.
    intros I G N H. unfold wp, getattr, seqc, get. destruct (String.eqb_spec x "__class__") as [->|_]; [discriminate N|].
    erewrite steady; [|exact I|exact G|discriminate]. rewrite N. exact H.
  Qed.
  Lemma wp_item_get h out l items k o Q : pinv h out -> hget h0 l = Some (DictO items) ->
    item_rep E h0 (dget key_eqb (KStr k) items) o ->
    (forall v, obj_rep E h0 v (prop_default o (OBytes [])) -> Q (Done v) h) ->
    wp (call_method E order tools_table (RefV l) "get" [StrV k; BytesV []] []) Q h.
  Proof.
    intros I G R H. unfold wp, call_method, seqc, get. erewrite steady; [|exact I|exact G|discriminate].
    cbn [String.eqb Ascii.eqb Bool.eqb key_of]. unfold item_rep in R.
    destruct (dget key_eqb (KStr k) items) as [v|], o as [o|]; try contradiction; apply H; [exact R|reflexivity].
  Qed.
  Lemma wp_desc_slice t n h Q : (0 < n)%Z -> Q (Done (StrV (firstn (Z.to_nat n) t))) h -> wp (getslice (StrV t) NoneV (IntV n)) Q h.
  Proof.
    intros L H. refine (wp_done (StrV (py_slice t 0 n)) Q h _).
    assert (X := slice_mid [] t n ltac:(lia)). cbn [app] in X. change (zlen (@nil N)) with 0%Z in X. rewrite Z.add_0_l in X. rewrite X. exact H.
  Qed.
  Lemma wp_format_desc t n h Q : (0 < n)%Z -> Q (Done (StrV (u " " ++ ljust (Z.to_nat n) t))) h ->
    wp (call_method E order tools_table (StrV (u " {desc: <{desc_width}}")) "format" [] [("desc", StrV t); ("desc_width", IntV n)]) Q h.
  Proof.
    intros L H. change (wp (format E (u " {desc: <{desc_width}}") [] [("desc", StrV t); ("desc_width", IntV n)]) Q h).
    unfold format. cbn [map format_arg fst snd]. rewrite format_desc by lia. exact H.
  Qed.

  Lemma wp_format_index t h Q : Q (Done (StrV (ljust 3 t))) h ->
    wp (call_method E order tools_table (StrV (u "{index:3s}")) "format" [] [("index", StrV t)]) Q h.
  Proof.
    intro H. change (wp (format E (u "{index:3s}") [] [("index", StrV t)]) Q h). unfold format. cbn [map format_arg fst snd]. rewrite format_index. exact H.
  Qed.
  Lemma wp_format_field t h Q : Q (Done (StrV (t ++ u " "))) h -> wp (call_method E order tools_table (StrV (u "{} ")) "format" [StrV t] []) Q h.
  Proof. intro H. change (wp (format E (u "{} ") [StrV t] []) Q h). unfold format. cbn [map format_arg]. rewrite format_field. exact H. Qed.
  Lemma wp_format_line t h Q : Q (Done (StrV (t ++ [10%N]))) h -> wp (call_method E order tools_table (StrV (u "{}" ++ [10%N])) "format" [StrV t] []) Q h.
  Proof. intro H. change (wp (format E (u "{}" ++ [10%N]) [StrV t] []) Q h). unfold format. cbn [map format_arg]. rewrite format_line. exact H. Qed.

  Lemma wp_doc_get h out a items k v Q : pinv h out -> hget h0 a = Some (DictO items) -> dget key_eqb (KStr k) items = Some v ->
    Q (Done v) h -> wp (getitem (RefV a) (StrV k)) Q h.
  Proof.
    intros I G Gv H. unfold wp, getitem, seqc, get. erewrite steady; [|exact I|exact G|discriminate]. cbn [key_of]. rewrite Gv. exact H.
  Qed.
  Lemma wp_isdict h out v p Q : pinv h out -> shown_rep E h0 v p ->
    Q (Done (BoolV (match p with PDict _ _ => true | PObj _ => false end))) h ->
    wp (call_builtin E order "isinstance" [v; TypeV "dict"] []) Q h.
  Proof.
    intros I R H. change (Q (Done (BoolV (is_type (type_of h v) (TypeV "dict")))) h).
    destruct p as [[s|b|n r]|l d]; cbn [shown_rep obj_rep] in R; [subst v; exact H|subst v; exact H| |].
    - destruct v; try contradiction; try exact H. destruct R as (b & G & _). cbn [type_of].
      erewrite steady; [|exact I|exact G|discriminate]. exact H.
    - destruct R as (m & items & -> & G & _). cbn [type_of]. erewrite steady; [|exact I|exact G|discriminate]. exact H.
  Qed.
  Lemma wp_type h v Q : Q (Done (type_of h v)) h -> wp (call_type E order "type" [v]) Q h.
  Proof. exact (fun H => H). Qed.
  Lemma wp_type_repr h out v n r Q : pinv h out -> obj_rep E h0 v (OOther n r) -> Q (Done (MethodV (type_of h v) "__repr__")) h ->
    wp (getattr stdout (type_of h v) "__repr__") Q h.
  Proof.
    intros I R H. cbn [obj_rep] in R. destruct v; try contradiction; try exact H. destruct R as (b & G & _). cbn [type_of] in *.
    rewrite (steady _ _ _ _ I G ltac:(discriminate)) in *. exact H.
  Qed.
  Lemma wp_no_dispatch h out v n r Q : pinv h out -> obj_rep E h0 v (OOther n r) -> Q (Done NoneV) h ->
    wp (call_method E order tools_table (ModuleV "_dispatch") "get" [MethodV (type_of h v) "__repr__"; NoneV] []) Q h.
  Proof.
    intros I R H. cbn [obj_rep] in R. destruct v; try contradiction; try exact H. destruct R as (b & G & _). cbn [type_of] in *.
    rewrite (steady _ _ _ _ I G ltac:(discriminate)) in *. exact H.
  Qed.

  (** A part of a function: the model continues or raises. *)
  Definition threw (x : exn) (xv : value) : Prop := pp_ended (Raise x) (Thrown xv).
  Definition part {A} (N : A -> env -> Prop) (m : res exn A * pystr) (c : ctl) (r : env) (h : heap) : Prop :=
    pinv h (snd m) /\
    match fst m with
    | Ok v => c = Next /\ N v r
    | Raise x => exists xv, c = Threw xv /\ threw x xv
    end.
  Definition ppost (m : res exn unit * pystr) (o : outcome value) (h : heap) : Prop := pinv h (snd m) /\ pp_ended (fst m) o.
  Lemma part_threw {A} (N : A -> env -> Prop) x out xv r h : pinv h out -> threw x xv -> part N (Raise x, out) (Threw xv) r h.
  Proof. intros I T. split; [exact I|]. exists xv. auto. Qed.
  Lemma pinv_framed h out : pinv h out -> framed h0 w h.
  Proof. intros (_ & _ & F). exact F. Qed.
  Ltac here := eapply pinv_framed; eassumption.
  Definition pf_vars : list string :=
    ["doc"; "spec"; "desc_width"; "stream"; "line_width"; "field_key"; "indent"; "indent"; "doc_field"; "field_length"; "indent"; "obj"; "obj"; "rep"; "p"].
  Definition pf_env a spv dw lw k (indent : Z) : env :=
    [("doc", RefV a); ("spec", spv); ("desc_width", IntV dw); ("stream", RefV w); ("line_width", IntV lw); ("field_key", StrV k); ("indent", IntV indent)].
  Lemma sem_pp_field n h out a items spv sp dw lw k v p : pinv h out -> hget h0 a = Some (DictO items) ->
    dget key_eqb (KStr k) items = Some v -> shown_rep E h0 v p -> spec_held h0 w spv sp ->
    wp (call (S (S (S n))) "_pp_field" [RefV a; spv; IntV dw; RefV w; IntV lw; StrV k]) (ppost (pp_field E p sp dw lw k out)) h.
  Proof.
    intros I Ga Gv Rv Rs. remember (pp_field E p sp dw lw k out) as res eqn:Hm. unfold pp_field, bind in Hm. cbn [write] in Hm.
    enter. change vars with pf_vars in *. clear vars. writes.
    refine (wp_done (StrV k) _ _ _). run. apply wp_format_index. run. wrote.
    set (out1 := out ++ ljust 3 k) in *.
    match type of Hm with _ = match ?m with _ => _ end => set (M1 := m) in Hm end.
    eapply (wps_mono _ (part (fun ind r' => binds (pf_env a spv dw lw k ind) r' /\ dom pf_vars r') M1)).
    { clear Hm. unfold M1. clear M1. destruct (0 <? dw)%Z eqn:Zd; [|run; split; [exact I|split; [reflexivity|split; [repeat constructor|apply dom_list; reflexivity]]]].
      assert (Pd : (0 < dw)%Z) by lia. unfold spec_get, prop, ret, raise. writes. run. eapply wp_spec; [here|exact Rs|].
      destruct (sget k sp) as [fs|]; [|run; apply part_threw; [exact I|reflexivity]].
      intros fv Rf. run. eapply wp_prop; [here|exact Rf|intro; apply rep_desc|].
      cbv beta iota. destruct (fs_desc fs) as [d|]; [|run; apply part_threw; [exact I|reflexivity]]. run.
      apply wp_desc_slice; [exact Pd|]. run. apply wp_format_desc; [exact Pd|]. run. wrote.
      split; [exact I|]. split; [reflexivity|]. split; [|apply dom_list; reflexivity].
      unfold pf_env. rewrite <- Z.add_assoc. repeat constructor. }
    clear r0. clearbody M1. intros c r h' P. destruct M1 as [[ind|x] out2]; destruct P as (I1 & P); cbn [fst snd] in *.
    2: { destruct P as (xv & -> & T). run. rewrite Hm. split; [exact I1|exact T]. }
    destruct P as (-> & B & D). clear I. try clear h1. rename I1 into I. unfold pf_env in B.
    writes. wrote. set (out3 := out2 ++ u ": ") in *. eapply wp_doc_get; [exact I|exact Ga|exact Gv|]. run.
    eapply wp_isdict; [exact I|exact Rv|]. run.
    match type of Hm with _ = (let (_, _) := ?m in _) => set (M2 := m) in Hm end.
    match goal with |- wps ?s _ ?r ?h => eapply (wps_mono _ (part (fun ind r' => exists ov, obj_rep E h0 ov (shown_obj p) /\
        binds (pf_env a spv dw lw k ind ++ [("obj", ov)]) r' /\ dom pf_vars r') M2)) end.
    { unfold M2. clear Hm M2. destruct p as [o|ol od]; cbn [shown_rep] in Rv.
      - cbn [shown_len obj_len length Nat.ltb Nat.leb]. run. split; [exact I|]. split; [reflexivity|]. exists v. split; [exact Rv|].
        split; [|eassumption]. eapply binds_less; [eassumption|repeat constructor].
      - destruct Rv as (m & its & -> & Gm & Rl & Rd). cbn [shown_len shown_obj]. run.
        eapply wp_dict_method; [exact I|exact Gm|reflexivity|]. run.
        eapply wp_item_get; [exact I|exact Gm|exact Rl|]. intros fl Rfl. run.
        set (l := prop_default ol (OBytes [])) in *. eapply wp_obj_len; [exact I|exact Rfl|].
        destruct (obj_len l) as [nl|]; [|run; apply part_threw; [exact I|reflexivity]]. run.
        replace (0 <? Z.of_nat nl)%Z with (0 <? nl)%nat by (destruct (Nat.ltb_spec 0 nl); symmetry; [apply Z.ltb_lt|apply Z.ltb_ge]; lia).
        destruct (0 <? nl)%nat; run.
        + writes. eapply wp_obj_repr; [exact I|exact Rfl|]. run. apply wp_format_field. run. wrote.
          eapply wp_obj_repr; [exact I|exact Rfl|]. run.
          eapply wp_dict_method; [exact I|exact Gm|reflexivity|]. run.
          eapply wp_item_get; [exact I|exact Gm|exact Rd|]. intros ov Rov. run.
          split; [exact I|]. split; [reflexivity|]. exists ov. split; [exact Rov|]. split; [|eassumption].
          unfold pf_env. rewrite <- Z.add_assoc. eapply binds_less; [eassumption|repeat constructor].
        + eapply wp_dict_method; [exact I|exact Gm|reflexivity|]. run.
          eapply wp_item_get; [exact I|exact Gm|exact Rd|]. intros ov Rov. run.
          split; [exact I|]. split; [reflexivity|]. exists ov. split; [exact Rov|]. split; [|eassumption].
          eapply binds_less; [eassumption|repeat constructor]. }
    clearbody M2. forget_env. intros c r h' P. destruct M2 as [[ind2|x] out4]; destruct P as (I1 & P); cbn [fst snd] in *.
    2: { destruct P as (xv & -> & T). run. rewrite Hm. split; [exact I1|exact T]. }
    destruct P as (-> & ov & Rov & B & D). clear I. try clear h. rename I1 into I. cbn [pf_env app] in B.
    set (o := shown_obj p) in *. clearbody o. run. eapply wp_obj_repr; [exact I|exact Rov|]. run.
    destruct (lw <? zlen (repr E o) + ind2)%Z; run.
    - destruct o as [s|s|no ro]; cbn [dispatch] in Hm.
      + cbn [obj_rep] in Rov. subst ov. apply wp_type. run. cbn [type_of]. run. refine (wp_done (FunV "_pprint_str") _ _ _). run. cbn [negb]. run.
        assert (X : fst (pprint_str E s ind2 lw out4) = Ok tt) by (unfold pprint_str; destruct (length s <=? 1)%nat; reflexivity).
        eapply (sem_pprint_str n); [exact I|]. clear I. try clear h'. intros h' I.
        destruct (pprint_str E s ind2 lw out4) as [rs out5]. cbn [fst snd] in *. subst rs. writes. wrote.
        rewrite Hm. split; [exact I|reflexivity].
      + cbn [obj_rep] in Rov. subst ov. apply wp_type. run. cbn [type_of]. run. refine (wp_done (FunV "_pprint_bytes") _ _ _). run. cbn [negb]. run.
        assert (X : fst (pprint_bytes s ind2 lw out4) = Ok tt) by (unfold pprint_bytes; destruct (length s <=? 1)%nat; reflexivity).
        eapply (sem_pprint_bytes n); [exact I|]. clear I. try clear h'. intros h' I.
        destruct (pprint_bytes s ind2 lw out4) as [rs out5]. cbn [fst snd] in *. subst rs. writes. wrote.
        rewrite Hm. split; [exact I|reflexivity].
      + apply wp_type. run. eapply wp_type_repr; [exact I|exact Rov|]. run. eapply wp_no_dispatch; [exact I|exact Rov|]. run. cbn [negb]. run.
        writes. eapply wp_obj_repr; [exact I|exact Rov|]. run. apply (wp_format_line ro). run. wrote.
        rewrite Hm. split; [exact I|reflexivity].
    - writes. eapply wp_obj_repr; [exact I|exact Rov|]. run. apply (wp_format_line (repr E o)). run. wrote.
      rewrite Hm. split; [exact I|reflexivity].
  Qed.

  (** *** pp *)
  Context (a : loc) (items : list (pykey * value)) (doc : list (pykey * ppval)).
  Context (Ga : hget h0 a = Some (DictO items)).
  Context (Rd : Forall2 (fun kv kp => fst kv = fst kp /\ shown_rep E h0 (snd kv) (snd kp)) items doc).
  Context (spv : value) (sp : spec) (Rs : spec_held h0 w spv sp) (dw lw : Z).
  Lemma doc_get k : match vget k doc with
                    | Some p => exists v, dget key_eqb k items = Some v /\ shown_rep E h0 v p
                    | None => dget key_eqb k items = None
                    end.
  Proof.
    unfold vget. revert Rd. generalize items doc. clear. intros items doc Rd.
    induction Rd as [|[k1 v] [k2 p] items' doc' [H1 H2] R IH]; [reflexivity|]. cbn [fst snd] in *. subst k2. cbn [dget].
    destruct (key_eqb k k1); [eauto|exact (IH R)].
  Qed.
  Lemma wp_doc_has h out k (R : outcome bool -> heap -> Prop) : pinv h out ->
    R (Done (match vget (KStr k) doc with Some _ => true | None => false end)) h -> wp (compare CmpIn (StrV k) (RefV a)) R h.
  Proof.
    intros I H. unfold wp, compare, contains, seqc, get. rewrite (steady _ _ _ _ I Ga ltac:(discriminate)). cbn [key_of].
    unfold dmem. assert (X := doc_get (KStr k)). destruct (vget (KStr k) doc); [destruct X as (v & -> & _)|rewrite X]; exact H.
  Qed.
  Lemma sem_pp_key n h out k p : pinv h out -> vget (KStr k) doc = Some p ->
    wp (call (S (S (S n))) "_pp_field" [RefV a; spv; IntV dw; RefV w; IntV lw; StrV k]) (ppost (pp_key E doc sp dw lw k out)) h.
  Proof.
    intros I G. unfold pp_key. assert (X := doc_get (KStr k)). rewrite G in *. destruct X as (v & Gv & Rv).
    eapply sem_pp_field; eassumption.
  Qed.

  Lemma key_ints_sorted l : sort_by (map (fun nk => (fst nk, StrV (snd nk))) l) = map StrV (map snd (fold_right insert_by [] l)).
  Proof.
    unfold sort_by. assert (X : fold_right insert_key [] (map (fun nk => (fst nk, StrV (snd nk))) l)
      = map (fun nk => (fst nk, StrV (snd nk))) (fold_right insert_by [] l)).
    { induction l as [|x l IH]; [reflexivity|]. cbn [map fold_right]. rewrite IH. clear IH. generalize (fold_right insert_by [] l). clear l.
      intro l. induction l as [|y l IH]; [reflexivity|]. cbn [map insert_key insert_by fst snd]. destruct (fst x <=? fst y)%Z; [reflexivity|].
      cbn [map]. rewrite IH. reflexivity. }
    rewrite X, !map_map. reflexivity.
  Qed.
  Lemma each_key_ints ks h : each (keyed (to_int E)) (map StrV ks) h =
    match key_ints E ks with
    | Some l => (Done (map (fun nk => (fst nk, StrV (snd nk))) l), h)
    | None => (Thrown (ExcV "ValueError" (u "invalid literal for int()")), h)
    end.
  Proof.
    induction ks as [|k ks IH]; [reflexivity|]. cbn [map each key_ints]. unfold seqc at 1. unfold keyed at 1. cbn [to_int].
    unfold seqc at 1 2. destruct (py_int E k) as [n|]; cbn [done throw int_of]; [|reflexivity].
    cbv beta iota zeta delta [done]. unfold seqc. rewrite IH. destruct (key_ints E ks); reflexivity.
  Qed.
  Lemma wp_sorted_int h l ks Q : hget h l = Some (ListO (map StrV ks)) ->
    match sorted_by_int E ks with
    | Some ks' => Q (Done (RefV (length h))) (h ++ [ListO (map StrV ks')])
    | None => Q (Thrown (ExcV "ValueError" (u "invalid literal for int()"))) h
    end -> wp (call_builtin E order "sorted" [RefV l] [("key", TypeV "int")]) Q h.
  Proof.
    intros G H. change (wp (let* vs := iterate order (RefV l) in let* ks := each (keyed (to_int E)) vs in new (ListO (sort_by ks))) Q h).
    apply wp_seq. eapply wp_iterate_list; [exact G|]. cbn [kont]. unfold wp, seqc. rewrite each_key_ints.
    unfold sorted_by_int in H. destruct (key_ints E ks) as [ps|]; cbn [option_map] in H; [|exact H]. rewrite key_ints_sorted. exact H.
  Qed.
  Definition pp_vars : list string := ["doc"; "spec"; "desc_width"; "stream"; "line_width"; "desc_width"; "line_width"; "stream"; "field_key"].
  Definition pp_env : env := [("doc", RefV a); ("spec", spv); ("desc_width", IntV dw); ("stream", RefV w); ("line_width", IntV lw)].
  Definition pp_call (k : expr) : stmt :=
    Expr (Call (Name "_pp_field") [Name "doc"; Name "spec"; Name "desc_width"; Name "stream"; Name "line_width"; k] []).
  Lemma sem_pp_loop n ks : Forall (fun k => exists p, vget (KStr k) doc = Some p) ks -> forall h out r, pinv h out ->
    binds pp_env r -> dom pp_vars r ->
    wps (loop (fun v => andthen (assign E order stdout tools_table (call (S (S (S n)))) pp_vars (Name "field_key") v)
                          (exec_block E order stdout tools_table (call (S (S (S n)))) pp_vars [pp_call (Name "field_key")]))
           (map StrV ks))
        (part (fun _ _ => True) (pp_keys E doc sp dw lw ks out)) r h.
  Proof.
    induction 1 as [|k ks (p & Gp) _ IH]; intros h out r I B D; cbn [map loop pp_keys].
    - run. split; [exact I|]. split; [reflexivity|exact Logic.I].
    - match goal with |- wps (andthen ?a ?b) _ _ _ => set (kk := b) in * end. unfold pp_call, pp_env in *. run.
      eapply wp_mono; [eapply (sem_pp_key n); [exact I|exact Gp]|]. unfold bind.
      destruct (pp_key E doc sp dw lw k out) as [[[]|x] out1]; intros o h1 [I1 Ho]; cbn [fst snd pp_ended] in *.
      + subst o. run. apply IH; [exact I1|eapply binds_less; [eassumption|repeat constructor]|eassumption].
      + assert (T : exists xv, o = Thrown xv /\ threw x xv).
        { destruct x; try contradiction; [..|destruct Ho as (t & ->)]; try (subst o); eexists; (split; [reflexivity|]); try reflexivity; eexists; reflexivity. }
        destruct T as (xv & -> & T). run. apply part_threw; [exact I1|exact T].
  Qed.
  Lemma numeric_keys_in k : In k (numeric_str_keys E doc) -> exists p, vget (KStr k) doc = Some p.
  Proof.
    unfold numeric_str_keys, vget. generalize doc. clear. intro doc. induction doc as [|[k1 p] doc' IH]; [contradiction|].
    cbn [flat_map fst]. rewrite in_app_iff. intros [H|H].
    - destruct k1 as [s|]; [|contradiction]. destruct (isnumeric E s); [|contradiction]. destruct H as [<-|[]]. exists p.
      cbn [dget]. destruct (key_eqb_spec (KStr s) (KStr s)); congruence.
    - destruct (IH H) as (q & G). cbn [dget]. destruct (key_eqb (KStr k) k1); eauto.
  Qed.
  Lemma insert_by_in x y l : In y (insert_by x l) -> y = x \/ In y l.
  Proof.
    induction l as [|z l IH]; cbn [insert_by]; [intros [H|[]]; auto|]. destruct (fst x <=? fst z)%Z; intros [H|H]; auto; [now right; left|].
    destruct (IH H); [auto|right; right; assumption].
  Qed.
  Lemma sorted_in ks ks' k : sorted_by_int E ks = Some ks' -> In k ks' -> In k ks.
  Proof.
    unfold sorted_by_int. destruct (key_ints E ks) as [l|] eqn:K; [|discriminate]. cbn [option_map]. intros [= <-] H.
    assert (X : forall y, In y (fold_right insert_by [] l) -> In y l).
    { clear. induction l as [|x l IH]; [contradiction|]. cbn [fold_right]. intros y H. destruct (insert_by_in _ _ _ H) as [->|H1]; [now left|right; auto]. }
    apply in_map_iff in H. destruct H as ([n k1] & <- & H). apply X in H. clear X. cbn [snd]. revert l K H.
    induction ks as [|k2 ks IH]; intros l K H; cbn [key_ints] in K; [injection K as <-; contradiction|].
    destruct (py_int E k2); [|discriminate]. destruct (key_ints E ks) as [l1|]; [|discriminate]. injection K as <-.
    destruct H as [[= _ ->]|H]; [now left|right; eapply IH; eauto].
  Qed.
  Lemma wp_width h v n (Q : outcome value -> heap -> Prop) : width_rep E v n -> Q (Done (IntV n)) h -> wp (call_type E order "int" [v]) Q h.
  Proof.
    intros [->|(s & -> & P)] H; [exact H|]. change (wp (to_int E (StrV s)) Q h). apply wp_to_int. rewrite P. exact H.
  Qed.
  Lemma ended_threw x o : pp_ended (Raise x) o -> exists xv, o = Thrown xv /\ threw x xv.
  Proof.
    intro H. destruct x; cbn in H; try contradiction; [..|destruct H as (t & ->)]; try (subst o); eexists;
      (split; [reflexivity|]); try reflexivity; eexists; reflexivity.
  Qed.
  Lemma sem_pp_call n k p h out : pinv h out -> vget (KStr (u k)) doc = Some p ->
    wps (exec_block E order stdout tools_table (call (S (S (S n)))) pp_vars [pp_call (Constant (CStr k))])
        (part (fun _ r' => r' = pp_env) (pp_key E doc sp dw lw (u k) out)) pp_env h.
  Proof.
    intros I G. unfold pp_call. pose (r := pp_env). change pp_env with r at 2. unfold pp_env in r. run.
    eapply wp_mono; [eapply (sem_pp_key n); [exact I|exact G]|].
    destruct (pp_key E doc sp dw lw (u k) out) as [[[]|x] out1]; intros o h1 [I1 Ho]; cbn [fst snd] in *.
    - cbn [pp_ended] in Ho. subst o. run. split; [exact I1|]. split; reflexivity.
    - destruct (ended_threw _ _ Ho) as (xv & -> & T). run. apply part_threw; [exact I1|exact T].
  Qed.
  Ltac to_block := repeat (lazymatch goal with
                           | |- wps (exec_block _ _ _ _ _ _ _) _ _ _ => fail
                           | |- _ => first [step1 | pure1]
                           end).
  (** if key in doc: _pp_field(...) *)
  Lemma sem_pp_if n k h out : pinv h out ->
    wps (exec E order stdout tools_table (call (S (S (S n)))) pp_vars
           (If (Compare (Constant (CStr k)) CmpIn (Name "doc")) [pp_call (Constant (CStr k))] []))
        (part (fun _ r' => r' = pp_env)
           (match vget (KStr (u k)) doc with Some _ => pp_key E doc sp dw lw (u k) | None => ret tt end out)) pp_env h.
  Proof.
    intro I. pose (r := pp_env). change pp_env with r at 2. unfold pp_env in r. run.
    eapply wp_doc_has; [exact I|]. destruct (vget (KStr (u k)) doc) as [p|] eqn:G.
    - to_block. eapply sem_pp_call; eassumption.
    - run. split; [exact I|]. split; reflexivity.
  Qed.
  Lemma wp_doc_keys h out Q : pinv h out -> Q (Done (KeysV a)) h ->
    wp (call_method E order tools_table (RefV a) "keys" [] []) Q h.
  Proof. intros I H. unfold wp, call_method, seqc, get. rewrite (steady _ _ _ _ I Ga ltac:(discriminate)). exact H. Qed.
  Lemma wp_iterate_doc h out (Q : outcome (list value) -> heap -> Prop) : pinv h out ->
    Q (Done (map (fun kv => of_key (fst kv)) items)) h -> wp (iterate order (KeysV a)) Q h.
  Proof. intros I H. unfold wp, iterate, seqc, get. rewrite (steady _ _ _ _ I Ga ltac:(discriminate)). exact H. Qed.
  Lemma wp_watched_doc h out (Q : outcome (option (loc * watch)) -> heap -> Prop) : pinv h out ->
    (forall wa, still wa h -> Q (Done wa) h) -> wp (watched (KeysV a)) Q h.
  Proof.
    intros I H. unfold wp, watched, seqc, get. rewrite (steady _ _ _ _ I Ga ltac:(discriminate)). apply H.
    unfold still, unchanged, seqc, get. rewrite (steady _ _ _ _ I Ga ltac:(discriminate)), same_keys_refl. reflexivity.
  Qed.
  Definition numeric_key (k : pykey) : list pystr := match k with KStr k => if isnumeric E k then [k] else [] | KOther _ _ => [] end.
  Lemma numeric_keys : concat (map (fun kv => map StrV (numeric_key (fst kv))) items) = map StrV (numeric_str_keys E doc).
  Proof.
    rewrite concat_map_flat. f_equal. unfold numeric_str_keys. revert Rd. generalize items doc. clear. intros items doc Rd.
    induction Rd as [|[k1 v] [k2 p] items' doc' [H1 H2] R IH]; [reflexivity|]. cbn [fst snd] in *. subst k2. cbn [flat_map fst].
    rewrite (IH R). reflexivity.
  Qed.
  Lemma sem_pp n dv lv sv : width_rep E dv dw -> width_rep E lv lw -> stream_rep stdout sv w ->
    wp (call (S (S (S (S n)))) "pp" [RefV a; spv; dv; sv; lv]) (ppost (pp_body E doc sp dw lw t0)) h0.
  Proof.
    intros Wd Wl Ws. assert (I : pinv h0 t0) by (split; [exact Gw|split; [lia|auto]]).
    remember (pp_body E doc sp dw lw t0) as res eqn:Hm. enter. change vars with pp_vars in *. clear vars. run.
    apply wp_width with (1 := Wd). run. apply wp_width with (1 := Wl). run. 
    eapply (wps_mono _ (fun c r' h' => c = Next /\ r' = pp_env /\ h' = h0)).
    { destruct Ws as [->|[-> ->]]; run; split; auto. }
    intros c r0 h' (-> & -> & ->). unfold pp_body, bind in Hm.
    match type of Hm with _ = (let (_, _) := ?m in _) => set (M1 := m) in Hm end.
    do 2 step1. eapply (wps_mono _ (part (fun _ r' => r' = pp_env) M1)).
    { unfold M1. clear Hm M1.
      pose (r1 := pp_env). change pp_env with r1 at 2. unfold pp_env in r1. run. eapply wp_doc_has; [exact I|].
      destruct (vget (KStr (u "h")) doc) as [p|] eqn:G; [|run; split; [exact I|split; reflexivity]].
      run. unfold spec_get, prop, ret, raise. eapply wp_spec; [here|exact Rs|].
      destruct (sget (u "h") sp) as [fs|]; [|run; apply part_threw; [exact I|reflexivity]].
      intros fv Rf. run. eapply wp_prop; [here|exact Rf|intro; apply rep_max_len|]. cbv beta iota.
      destruct (fs_max_len fs) as [ml|]; [|run; apply part_threw; [exact I|reflexivity]]. cbv beta iota. to_block.
      destruct (0 <? ml)%Z; [to_block; eapply sem_pp_call; eassumption|run; split; [exact I|split; reflexivity]]. }
    clearbody M1. clear I. intros c r1 h1 P. destruct M1 as [[[]|x] out1]; destruct P as (I & P); cbn [fst snd] in *.
    2: { destruct P as (xv & -> & T). run. rewrite Hm. split; [exact I|exact T]. }
    destruct P as (-> & ->).
    match type of Hm with _ = (let (_, _) := ?m in _) => set (M1 := m) in Hm end.
    step1. do_block. eapply (wps_mono _ (part (fun _ r' => r' = pp_env) M1)); [apply sem_pp_if; exact I|].
    clearbody M1. clear I. intros c r2 h2 P. destruct M1 as [[[]|x] out2]; destruct P as (I & P); cbn [fst snd] in *.
    2: { destruct P as (xv & -> & T). run. rewrite Hm. split; [exact I|exact T]. }
    destruct P as (-> & ->).
    match type of Hm with _ = (let (_, _) := ?m in _) => set (M1 := m) in Hm end.
    step1. do_block. eapply (wps_mono _ (part (fun _ r' => r' = pp_env) M1)); [apply sem_pp_if; exact I|].
    clearbody M1. clear I. intros c r3 h3 P. destruct M1 as [[[]|x] out3]; destruct P as (I & P); cbn [fst snd] in *.
    2: { destruct P as (xv & -> & T). run. rewrite Hm. split; [exact I|exact T]. }
    destruct P as (-> & ->).
    assert (B : binds pp_env pp_env) by (repeat constructor). assert (D : dom pp_vars pp_env) by (apply dom_list; reflexivity).
    revert B D. generalize pp_env at 2 3 4. intros r4 B D. unfold pp_env in B. run.
    apply ev_ListComp. run. eapply wp_dict_method; [exact I|exact Ga|reflexivity|]. run.
    eapply wp_doc_keys; [exact I|]. run. eapply wp_watched_doc; [exact I|]. intros wa Sw. run. eapply wp_iterate_doc; [exact I|]. run.
    eapply (wp_each_map (fun kv => of_key (fst kv)) _ (fun kv => map StrV (numeric_key (fst kv))) (fun h => h = h3)); [|reflexivity|].
    { intros kv h _ ->. apply wp_step_pure; [exact Sw|discriminate|].
      destruct kv as [[k|i t] v]; cbn [of_key fst numeric_key]; run; bind_var; run.
      - match goal with |- wp _ ?Q ?h9 => refine (wp_done (BoolV true) Q h9 _) end. run.
        match goal with |- wp (call_method _ _ _ _ _ _ _) ?Q ?h9 => refine (wp_done (BoolV (isnumeric E k)) Q h9 _) end. run.
        destruct (isnumeric E k); run; split; reflexivity.
      - match goal with |- wp _ ?Q ?h9 => refine (wp_done (BoolV false) Q h9 _) end. run. split; reflexivity. }
    intros h' ->. run. rewrite numeric_keys. apply wp_new. run.
    apply (pinv_new _ _ (ListO (map StrV (numeric_str_keys E doc)))) in I.
    eapply wp_sorted_int; [apply hget_new|]. destruct (sorted_by_int E (numeric_str_keys E doc)) as [ks|] eqn:Sk; run.
    2: { rewrite Hm. split; [exact I|]. eexists. reflexivity. }
    apply (pinv_new _ _ (ListO (map StrV ks))) in I. eapply wp_watched_list; [apply hget_new|]. run.
    eapply wp_iterate_list; [apply hget_new|]. run. cbv delta [step_of] beta iota.
    eapply wps_mono; [eapply (sem_pp_loop n ks); [|exact I|exact B|exact D]|].
    { apply Forall_forall. intros k Hk. apply numeric_keys_in. eapply sorted_in; eassumption. }
    rewrite <- Hm. intros c r5 h5 [I5 P]. destruct res as [[[]|x] out5]; cbn [fst snd] in *.
    - destruct P as [-> _]. run. split; [exact I5|reflexivity].
    - destruct P as (xv & -> & T). run. split; [exact I5|exact T].
  Qed.
End Tools.
