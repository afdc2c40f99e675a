(** * SemFacts: reasoning about runs of the interpreter of PySem.
    [wp m Q h]: running m on the heap h ends in an outcome and a heap related by Q;
    [wps] the same for statements. *)
From Coq Require Import ZifyBool ZifyNat ZifyN.
From Verif Require Import PyBase BaseFacts Types PyAst PySem.
Local Open Scope string_scope.
Local Open Scope list_scope.

Definition wp {A} (m : comp A) (Q : outcome A -> heap -> Prop) (h : heap) : Prop :=
  Q (fst (m h)) (snd (m h)).
Definition wps (s : sem) (Q : ctl -> env -> heap -> Prop) (r : env) (h : heap) : Prop :=
  let '(c, r', h') := s r h in Q c r' h'.

(** What is left to do after an expression, after a statement. *)
Definition kont {A B} (k : A -> comp B) (Q : outcome B -> heap -> Prop) : outcome A -> heap -> Prop :=
  fun o h => match o with
             | Done a => wp (k a) Q h
             | Thrown x => Q (Thrown x) h
             | Stuck w => Q (Stuck w) h
             end.
Definition kexp {A} (k : A -> sem) (Q : ctl -> env -> heap -> Prop) (r : env) : outcome A -> heap -> Prop :=
  fun o h => match o with
             | Done a => wps (k a) Q r h
             | Thrown x => Q (Threw x) r h
             | Stuck w => Q (StuckS w) r h
             end.
Definition kseq (b : sem) (Q : ctl -> env -> heap -> Prop) : ctl -> env -> heap -> Prop :=
  fun c r h => match c with Next => wps b Q r h | _ => Q c r h end.

Lemma wp_done {A} (a : A) (Q : outcome A -> heap -> Prop) h : Q (Done a) h -> wp (done a) Q h.
Proof. exact (fun H => H). Qed.
Lemma wp_throw {A} c t (Q : outcome A -> heap -> Prop) h : Q (Thrown (ExcV c t)) h -> wp (throw c t) Q h.
Proof. exact (fun H => H). Qed.
Lemma wp_seq {A B} (m : comp A) (k : A -> comp B) Q h : wp m (kont k Q) h -> wp (seqc m k) Q h.
Proof.
  unfold wp, seqc, kont. destruct (m h) as [[a|x|w] h']; cbn; auto.
Qed.
Lemma wp_eq {A} (m m' : comp A) Q h : m = m' -> wp m' Q h -> wp m Q h.
Proof. intros ->. auto. Qed.
Lemma wp_new o (Q : outcome value -> heap -> Prop) h :
  Q (Done (RefV (length h))) (h ++ [o]) -> wp (new o) Q h.
Proof. exact (fun H => H). Qed.
Lemma wp_get l o (Q : outcome object -> heap -> Prop) h : hget h l = Some o -> Q (Done o) h -> wp (get l) Q h.
Proof. unfold wp, get. intros ->. auto. Qed.
Lemma wp_put l o (Q : outcome unit -> heap -> Prop) h : Q (Done tt) (hset h l o) -> wp (put l o) Q h.
Proof. exact (fun H => H). Qed.
Lemma wp_mono {A} (m : comp A) (P Q : outcome A -> heap -> Prop) h :
  wp m P h -> (forall o h', P o h' -> Q o h') -> wp m Q h.
Proof. unfold wp. auto. Qed.

Lemma wps_finish c (Q : ctl -> env -> heap -> Prop) r h : Q c r h -> wps (finish c) Q r h.
Proof. exact (fun H => H). Qed.
Lemma wps_set_env r' (Q : ctl -> env -> heap -> Prop) r h : Q Next r' h -> wps (set_env r') Q r h.
Proof. exact (fun H => H). Qed.
Lemma wps_with_env f Q r h : wps (f r) Q r h -> wps (with_env f) Q r h.
Proof. exact (fun H => H). Qed.
Lemma wps_expr_then {A} (m : comp A) k Q r h : wp m (kexp k Q r) h -> wps (expr_then m k) Q r h.
Proof. unfold wp, wps, expr_then, kexp. destruct (m h) as [[a|x|w] h']; cbn; auto. Qed.
Lemma wps_andthen a b Q r h : wps a (kseq b Q) r h -> wps (andthen a b) Q r h.
Proof. unfold wps, andthen, kseq. destruct (a r h) as [[[|v|x|w] r'] h']; auto. Qed.
Lemma wps_eq s s' Q r h : s = s' -> wps s' Q r h -> wps s Q r h.
Proof. intros ->. auto. Qed.
Lemma wps_mono s (P Q : ctl -> env -> heap -> Prop) r h :
  wps s P r h -> (forall c r' h', P c r' h' -> Q c r' h') -> wps s Q r h.
Proof. unfold wps. destruct (s r h) as [[c r'] h']. auto. Qed.

(** ** Heaps *)
Lemma hget_lt h l o : hget h l = Some o -> l < length h.
Proof. intro H. apply nth_error_Some. unfold hget in H. congruence. Qed.
Lemma hget_app h o l : l < length h -> hget (h ++ [o]) l = hget h l.
Proof. intro H. apply nth_error_app1. exact H. Qed.
Lemma hget_new h o : hget (h ++ [o]) (length h) = Some o.
Proof. unfold hget. rewrite nth_error_app2 by lia. rewrite Nat.sub_diag. reflexivity. Qed.
Lemma hset_length h l o : length (hset h l o) = length h.
Proof. revert l. induction h; intros [|l]; cbn; auto. Qed.
Lemma hget_hset h l o : l < length h -> hget (hset h l o) l = Some o.
Proof. revert l. induction h; intros [|l] H; cbn in *; try lia; auto. apply IHh. lia. Qed.
Lemma hget_hset_other h l l' o : l' <> l -> hget (hset h l o) l' = hget h l'.
Proof. revert l l'. induction h; intros [|l] [|l'] H; cbn; auto; congruence. Qed.

(** ** Environments known by some of their variables *)
Definition binds (l r : env) : Prop := Forall (fun xv => lookup (fst xv) r = Some (snd xv)) l.
Definition dom (vars : list string) (r : env) : Prop := forall x, mem x vars = false -> lookup x r = None.
Lemma binds_lookup l r x v : binds l r -> lookup x l = Some v -> lookup x r = Some v.
Proof.
  intro B. induction B as [|[y w] l H B IH]; cbn in *; [discriminate|].
  destruct (String.eqb x y) eqn:Z; [|exact IH]. apply String.eqb_eq in Z. subst y. congruence.
Qed.
Lemma lookup_bindv x y v r : lookup x (bindv y v r) = if String.eqb x y then Some v else lookup x r.
Proof.
  unfold lookup, bindv. induction r as [|[z w] r IH]; cbn; [reflexivity|].
  destruct (String.eqb y z) eqn:Z; cbn.
  - apply String.eqb_eq in Z. subst z. destruct (String.eqb x y); reflexivity.
  - rewrite IH. destruct (String.eqb x z) eqn:W; [|reflexivity].
    apply String.eqb_eq in W. subst z. rewrite (String.eqb_sym x y), Z. reflexivity.
Qed.
Lemma binds_bindv x v l r : binds l r -> NoDup (map fst l) -> binds (bindv x v l) (bindv x v r).
Proof.
  intros B N. induction B as [|[y w] l H B IH]; cbn.
  - constructor; [|constructor]. cbn. rewrite lookup_bindv, String.eqb_refl. reflexivity.
  - inversion N as [|? ? N1 N2]; subst. destruct (String.eqb x y) eqn:Z.
    + apply String.eqb_eq in Z. subst y. constructor; [cbn; rewrite lookup_bindv, String.eqb_refl; reflexivity|].
      clear -B N1. induction B as [|[z w'] l H B IH]; constructor.
      * cbn in *. rewrite lookup_bindv. destruct (String.eqb z x) eqn:W; [|exact H].
        apply String.eqb_eq in W. subst z. destruct N1. left. reflexivity.
      * apply IH. intro H1. apply N1. right. exact H1.
    + constructor; [cbn in *; rewrite lookup_bindv, (String.eqb_sym y x), Z; exact H|]. apply IH. exact N2.
Qed.
Fixpoint distinct (l : list string) : bool :=
  match l with [] => true | x :: l' => negb (mem x l') && distinct l' end.
Lemma distinct_nodup l : distinct l = true -> NoDup l.
Proof.
  induction l as [|x l IH]; cbn; intro H; constructor; apply andb_true_iff in H as [H1 H2]; auto.
  intro I. unfold mem in H1. rewrite (proj2 (existsb_exists _ l)) in H1; [discriminate|].
  exists x. split; [exact I|apply String.eqb_refl].
Qed.
Lemma binds_set x v l r : binds l r -> distinct (map fst l) = true -> binds (bindv x v l) (bindv x v r).
Proof. intros B D. apply binds_bindv; [exact B|apply distinct_nodup; exact D]. Qed.
Lemma dom_bindv vars x v r : dom vars r -> mem x vars = true -> dom vars (bindv x v r).
Proof.
  intros D M y N. rewrite lookup_bindv. destruct (String.eqb y x) eqn:Z; [|apply D; exact N].
  apply String.eqb_eq in Z. congruence.
Qed.
Lemma dom_list vars r : forallb (fun xv => mem (fst xv) vars) r = true -> dom vars r.
Proof.
  intros H x N. unfold lookup. induction r as [|[y w] r IH]; cbn in *; [reflexivity|].
  apply andb_true_iff in H as [H1 H2]. destruct (String.eqb x y) eqn:Z; [|exact (IH H2)].
  apply String.eqb_eq in Z. congruence.
Qed.

Lemma dom_more vars x v r : dom vars r -> dom (x :: vars) (bindv x v r).
Proof.
  intros D y N. cbn in N. rewrite lookup_bindv. destruct (String.eqb y x); [discriminate|]. apply D. exact N.
Qed.
Lemma binds_less l' l r : binds l r ->
  Forall (fun xv => lookup (fst xv) l = Some (snd xv)) l' -> binds l' r.
Proof. intros B F. eapply Forall_impl; [|exact F]. intros [x v] H. exact (binds_lookup _ _ _ _ B H). Qed.

(** Evaluating a list of things, one after another. *)
Lemma wp_each {A B} (f : A -> comp B) (g : A -> B) (J : heap -> Prop) l (Q : outcome (list B) -> heap -> Prop) h :
  (forall x h, In x l -> J h -> wp (f x) (fun o h' => o = Done (g x) /\ J h') h) -> J h ->
  (forall h', J h' -> Q (Done (map g l)) h') -> wp (each f l) Q h.
Proof.
  revert h Q. induction l as [|x l IH]; intros h Q F I H; cbn [each].
  - apply H. exact I.
  - apply wp_seq. eapply wp_mono; [apply F; [left; reflexivity|exact I]|]. intros o h1 [-> I1].
    change (wp (let* bs := each f l in done (g x :: bs)) Q h1). apply wp_seq. apply IH; [intros; apply F; [right|]; auto|exact I1|].
    intros h2 I2. apply H. exact I2.
Qed.
Lemma wp_each_map {A B C} (k : A -> C) (f : C -> comp B) (g : A -> B) (J : heap -> Prop) l
    (Q : outcome (list B) -> heap -> Prop) h :
  (forall x h, In x l -> J h -> wp (f (k x)) (fun o h' => o = Done (g x) /\ J h') h) -> J h ->
  (forall h', J h' -> Q (Done (map g l)) h') -> wp (each f (map k l)) Q h.
Proof.
  intros F I H. replace (each f (map k l)) with (each (fun x => f (k x)) l).
  - eapply wp_each; eauto.
  - clear. induction l as [|x l IH]; cbn [each map]; [reflexivity|]. rewrite IH. reflexivity.
Qed.
Lemma concat_map_flat {A B C} (f : B -> C) (g : A -> list B) l :
  concat (map (fun x => map f (g x)) l) = map f (flat_map g l).
Proof. induction l as [|x l IH]; cbn; [reflexivity|]. rewrite map_app, IH. reflexivity. Qed.

(** An element of a comprehension raises no UnboundLocalError. *)
Lemma wp_nested {B} (m : comp B) (Q : outcome B -> heap -> Prop) h : wp m Q h ->
  (forall t h', ~ Q (Thrown (ExcV "UnboundLocalError" t)) h') -> wp (nested m) Q h.
Proof.
  unfold wp, nested. intros H N. destruct (m h) as [[a|[]|w] h']; cbn [fst snd] in *; try exact H.
  destruct (String.eqb_spec cls "UnboundLocalError") as [->|Hc]; [destruct (N _ _ H)|exact H].
Qed.
(** ** One step per construct *)
Section Rules.
  Context (E : pyenv) (order : list Z -> list Z) (stdout : value) (tbl : list (string * string)).
  Context (call : string -> list value -> comp value) (locals : list string).
  Notation ev := (eval E order stdout tbl call locals).
  Notation ex := (exec E order stdout tbl call locals).
  Notation blk := (exec_block E order stdout tbl call locals).

  Lemma wp_name r x v (Q : outcome value -> heap -> Prop) h : lookup x r = Some v -> Q (Done v) h -> wp (name locals r x) Q h.
  Proof. unfold name. intros ->. auto. Qed.
  Lemma wp_unbound r x (Q : outcome value -> heap -> Prop) h : lookup x r = None -> mem x locals = true ->
    Q (Thrown (ExcV "UnboundLocalError" (u x))) h -> wp (name locals r x) Q h.
  Proof. unfold name. intros -> ->. auto. Qed.
  Lemma wp_global r x v (Q : outcome value -> heap -> Prop) h : lookup x r = None -> mem x locals = false -> global x = done v ->
    Q (Done v) h -> wp (name locals r x) Q h.
  Proof. unfold name. intros -> -> ->. auto. Qed.

  Lemma blk_nil (Q : ctl -> env -> heap -> Prop) r h : Q Next r h -> wps (blk []) Q r h.
  Proof. exact (fun H => H). Qed.
  Lemma blk_cons s l Q r h : wps (ex s) (kseq (blk l) Q) r h -> wps (blk (s :: l)) Q r h.
  Proof. apply wps_andthen. Qed.
  Lemma ex_Expr e Q r h : wp (ev r e) (kexp (fun _ => finish Next) Q r) h -> wps (ex (Expr e)) Q r h.
  Proof. exact (wps_expr_then _ _ Q r h). Qed.
  Lemma ex_Assign t e Q r h :
    wp (ev r e) (kexp (assign E order stdout tbl call locals t) Q r) h -> wps (ex (Assign t e)) Q r h.
  Proof. exact (wps_expr_then _ _ Q r h). Qed.
  Lemma ex_AugAssign t op e Q r h :
    wps (augassign E order stdout tbl call locals t op e) Q r h -> wps (ex (AugAssign t op e)) Q r h.
  Proof. exact (fun H => H). Qed.
  Lemma ex_If c a b Q r h :
    wp (ev r c) (kont truth (kexp (fun t : bool => if t then blk a else blk b) Q r)) h ->
    wps (ex (If c a b)) Q r h.
  Proof. intro H. apply wps_with_env. apply wps_expr_then. apply wp_seq. exact H. Qed.
  Lemma ex_For t it body Q r h :
    wp (ev r it) (kexp (fun x => expr_then (watched x) (fun w => expr_then (iterate order x)
      (loop (fun v => step_of w (andthen (assign E order stdout tbl call locals t v) (blk body)))))) Q r) h ->
    wps (ex (For t it body)) Q r h.
  Proof. intro H. apply wps_with_env. apply wps_expr_then. exact H. Qed.
  Lemma ex_ReturnNone (Q : ctl -> env -> heap -> Prop) r h : Q (Returned NoneV) r h -> wps (ex (Return None)) Q r h.
  Proof. exact (fun H => H). Qed.
  Lemma ex_Return e Q r h : wp (ev r e) (kexp (fun v => finish (Returned v)) Q r) h -> wps (ex (Return (Some e))) Q r h.
  Proof. exact (wps_expr_then _ _ Q r h). Qed.
  Lemma ex_Raise e Q r h : wp (ev r e) (kexp (fun v => finish (Threw v)) Q r) h -> wps (ex (RaiseS e)) Q r h.
  Proof. exact (wps_expr_then _ _ Q r h). Qed.

  (** Expressions *)
  Definition evals (r : env) := fix evals (l : list expr) : comp (list value) :=
    match l with
    | [] => done []
    | e :: l' => let* v := ev r e in let* vs := evals l' in done (v :: vs)
    end.
  Definition evalk (r : env) := fix evalk (l : list (string * expr)) : comp env :=
    match l with
    | [] => done []
    | (k, e) :: l' => let* v := ev r e in let* ks := evalk l' in done ((k, v) :: ks)
    end.
  Definition evald (r : env) := fix evald (l : list (expr * expr)) : comp (list (pykey * value)) :=
    match l with
    | [] => done []
    | (k, e) :: l' =>
        let* kv := ev r k in
        let* v := ev r e in
        let* d := evald l' in
        match key_of kv with Some k' => done ((k', v) :: d) | None => stuck "key" end
    end.
  Definition shows (r : env) := fix shows (l : list expr) : comp pystr :=
    match l with
    | [] => done []
    | e :: l' => let* v := ev r e in let* s := str_of E v in
                 match l' with [] => done s | _ => let* t := shows l' in done (s ++ t) end
    end.
  Definition opt_eval (r : env) (o : option expr) : comp value :=
    match o with Some x => ev r x | None => done NoneV end.
  Definition is_slice (e : expr) : bool := match e with Slice _ _ => true | _ => false end.
  Lemma ev_Constant r c (Q : outcome value -> heap -> Prop) h : Q (Done (const c)) h -> wp (ev r (Constant c)) Q h.
  Proof. exact (fun H => H). Qed.
  Lemma ev_Name r x Q h : wp (name locals r x) Q h -> wp (ev r (Name x)) Q h.
  Proof. exact (fun H => H). Qed.
  Lemma ev_Attribute r e a Q h : wp (ev r e) (kont (fun v => getattr stdout v a) Q) h -> wp (ev r (Attribute e a)) Q h.
  Proof. apply wp_seq. Qed.
  Lemma ev_Item r e i Q h : is_slice i = false ->
    wp (ev r e) (kont (fun v => let* k := ev r i in getitem v k) Q) h -> wp (ev r (Subscript e i)) Q h.
  Proof. intros N H. destruct i; try discriminate; exact (wp_seq _ _ _ _ H). Qed.
  Lemma ev_Slice r e lo hi Q h :
    wp (ev r e) (kont (fun v => let* a := opt_eval r lo in let* b := opt_eval r hi in getslice v a b) Q) h ->
    wp (ev r (Subscript e (Slice lo hi))) Q h.
  Proof. apply wp_seq. Qed.
  Lemma ev_Call r f args kws Q h :
    wp (ev r f) (kont (fun g => let* vs := evals r args in let* ks := evalk r kws in apply E order tbl call g vs ks) Q) h ->
    wp (ev r (Call f args kws)) Q h.
  Proof. apply wp_seq. Qed.
  Lemma ev_BinOp r a op b Q h :
    wp (ev r a) (kont (fun x => let* y := ev r b in binop op x y) Q) h -> wp (ev r (BinOp a op b)) Q h.
  Proof. apply wp_seq. Qed.
  Lemma ev_BoolAnd r a b Q h :
    wp (ev r a) (kont (fun x => let* t := truth x in if t then ev r b else done x) Q) h -> wp (ev r (BoolAnd a b)) Q h.
  Proof. apply wp_seq. Qed.
  Lemma ev_Not r a Q h :
    wp (ev r a) (kont (fun x => let* t := truth x in done (BoolV (negb t))) Q) h -> wp (ev r (Not a)) Q h.
  Proof. apply wp_seq. Qed.
  Lemma ev_USub r a Q h :
    wp (ev r a) (kont (fun x => match x with IntV n => done (IntV (- n)) | _ => stuck "-" end) Q) h ->
    wp (ev r (USub a)) Q h.
  Proof. apply wp_seq. Qed.
  Lemma ev_Compare r a op b Q h :
    wp (ev r a) (kont (fun x => let* y := ev r b in let* t := compare op x y in done (BoolV t)) Q) h ->
    wp (ev r (Compare a op b)) Q h.
  Proof. apply wp_seq. Qed.
  Lemma ev_IfExp r c a b Q h :
    wp (ev r c) (kont (fun x => let* t := truth x in if t then ev r a else ev r b) Q) h ->
    wp (ev r (IfExp c a b)) Q h.
  Proof. apply wp_seq. Qed.
  Lemma ev_Tuple r l Q h : wp (evals r l) (kont (fun vs => done (TupleV vs)) Q) h -> wp (ev r (Tuple l)) Q h.
  Proof. apply wp_seq. Qed.
  Lemma ev_EList r l Q h : wp (evals r l) (kont (fun vs => new (ListO vs)) Q) h -> wp (ev r (EList l)) Q h.
  Proof. apply wp_seq. Qed.
  Lemma ev_Dict r l Q h : wp (evald r l) (kont (fun d => new (DictO (from_items d))) Q) h -> wp (ev r (Dict l)) Q h.
  Proof. apply wp_seq. Qed.
  Lemma ev_JoinedStr r l Q h : wp (shows r l) (kont (fun t => done (StrV t)) Q) h -> wp (ev r (JoinedStr l)) Q h.
  Proof. apply wp_seq. Qed.
  Definition tests (r : env) := fix tests (l : list expr) : comp bool :=
    match l with
    | [] => done true
    | e :: l' => let* x := ev r e in let* b := truth x in if b then tests l' else done false
    end.
  Definition gens (elt : expr) := fix gen (gs : list (expr * expr * list expr)) (r : env) : comp (list value) :=
    match gs with
    | [] => let* v := ev r elt in done [v]
    | (t, it, ifs) :: gs' =>
        let* i := ev r it in
        let* w := watched i in
        let* vs := iterate order i in
        let* parts := each (fun v => stepping w (nested (
          let* r' := bind_target t v r in
          let* ok := tests r' ifs in
          if ok then gen gs' r' else done []))) vs in
        done (concat parts)
    end.
  Lemma ev_ListComp r elt gs Q h :
    wp (gens elt gs r) (kont (fun vs => new (ListO vs)) Q) h -> wp (ev r (ListComp elt gs)) Q h.
  Proof. apply wp_seq. Qed.
  Lemma gens_nil elt r Q h : wp (ev r elt) (kont (fun v => done [v]) Q) h -> wp (gens elt [] r) Q h.
  Proof. apply wp_seq. Qed.
  Lemma gens_cons elt t it ifs gs r Q h :
    wp (ev r it) (kont (fun i => let* w := watched i in let* vs := iterate order i in
      let* parts := each (fun v => stepping w (nested (let* r' := bind_target t v r in let* ok := tests r' ifs in
        if ok then gens elt gs r' else done []))) vs in
      done (concat parts)) Q) h -> wp (gens elt ((t, it, ifs) :: gs) r) Q h.
  Proof. apply wp_seq. Qed.
  Lemma tests_nil r (Q : outcome bool -> heap -> Prop) h : Q (Done true) h -> wp (tests r []) Q h.
  Proof. exact (fun H => H). Qed.
  Lemma tests_cons r e l Q h :
    wp (ev r e) (kont (fun x => let* b := truth x in if b then tests r l else done false) Q) h -> wp (tests r (e :: l)) Q h.
  Proof. apply wp_seq. Qed.
  Lemma evals_nil r (Q : outcome (list value) -> heap -> Prop) h : Q (Done []) h -> wp (evals r []) Q h.
  Proof. exact (fun H => H). Qed.
  Lemma evals_cons r e l Q h : wp (ev r e) (kont (fun v => let* vs := evals r l in done (v :: vs)) Q) h ->
    wp (evals r (e :: l)) Q h.
  Proof. apply wp_seq. Qed.
  Lemma evalk_nil r (Q : outcome env -> heap -> Prop) h : Q (Done []) h -> wp (evalk r []) Q h.
  Proof. exact (fun H => H). Qed.
  Lemma evalk_cons r k e l Q h : wp (ev r e) (kont (fun v => let* ks := evalk r l in done ((k, v) :: ks)) Q) h ->
    wp (evalk r ((k, e) :: l)) Q h.
  Proof. apply wp_seq. Qed.
  Lemma evald_nil r (Q : outcome (list (pykey * value)) -> heap -> Prop) h : Q (Done []) h -> wp (evald r []) Q h.
  Proof. exact (fun H => H). Qed.
  Lemma evald_cons r k e l Q h :
    wp (ev r k) (kont (fun kv => let* v := ev r e in let* d := evald r l in
      match key_of kv with Some k' => done ((k', v) :: d) | None => stuck "key" end) Q) h ->
    wp (evald r ((k, e) :: l)) Q h.
  Proof. apply wp_seq. Qed.
  Lemma shows_nil r (Q : outcome pystr -> heap -> Prop) h : Q (Done []) h -> wp (shows r []) Q h.
  Proof. exact (fun H => H). Qed.
  Lemma shows_one r e Q h : wp (ev r e) (kont (fun v => let* s := str_of E v in done s) Q) h -> wp (shows r [e]) Q h.
  Proof. apply wp_seq. Qed.
  Lemma shows_cons r e e' l Q h :
    wp (ev r e) (kont (fun v => let* s := str_of E v in let* t := shows r (e' :: l) in done (s ++ t)) Q) h ->
    wp (shows r (e :: e' :: l)) Q h.
  Proof. apply wp_seq. Qed.

  (** try: the handler whose class fits. *)
  Fixpoint handle (x : value) (hs : list (string * option string * list stmt)) : sem :=
    fun r h =>
      match hs with
      | [] => (Threw x, r, h)
      | (c, nm, b) :: hs' =>
          if subclass (exc_class h x) c
          then let '(c', r2, h2) := blk b (match nm with Some e => bindv e x r | None => r end) h in (c', unbindv nm r2, h2)
          else handle x hs' r h
      end.
  Definition ktry hs (Q : ctl -> env -> heap -> Prop) : ctl -> env -> heap -> Prop :=
    fun c r h => match c with Threw x => wps (handle x hs) Q r h | _ => Q c r h end.
  Lemma ex_Try body hs Q r h : wps (blk body) (ktry hs Q) r h -> wps (ex (Try body hs)) Q r h.
  Proof.
    intro H. unfold wps in *.
    change (ex (Try body hs) r h) with
      (match blk body r h with
       | (Threw x, r', h') =>
           (fix handle (l : list (string * option string * list stmt)) : ctl * env * heap :=
              match l with
              | [] => (Threw x, r', h')
              | (c, nm, b) :: l' =>
                  if subclass (exc_class h' x) c
                  then let '(c', r2, h2) := blk b (match nm with Some e => bindv e x r' | None => r' end) h' in (c', unbindv nm r2, h2)
                  else handle l'
              end) hs
       | o => o
       end).
    destruct (blk body r h) as [[[|v|x|w] r'] h']; auto. cbn -[subclass exec_block] in H. clear -H. unfold wps in H.
    induction hs as [|[[c nm] b] hs IH]; cbn -[subclass exec_block] in H |- *; [exact H|].
    destruct (subclass (exc_class h' x) c); [exact H|]. apply IH. exact H.
  Qed.
  Lemma handle_skip x c nm b hs Q r h : subclass (exc_class h x) c = false ->
    wps (handle x hs) Q r h -> wps (handle x ((c, nm, b) :: hs)) Q r h.
  Proof. unfold wps. cbn [handle]. intros -> H. exact H. Qed.
  Lemma handle_take x c nm b hs Q r h : subclass (exc_class h x) c = true ->
    wps (blk b) (fun c r2 h2 => Q c (unbindv nm r2) h2) (match nm with Some e => bindv e x r | None => r end) h ->
    wps (handle x ((c, nm, b) :: hs)) Q r h.
  Proof.
    unfold wps. cbn [handle]. intros -> H. destruct (blk b _ h) as [[c' r2] h2]. exact H.
  Qed.
End Rules.
