(** * ThreadRun: expressions, statements and calls in a thread do what they do alone. *)
From Verif Require Import PyBase BaseFacts Types PyAst PySem Threads ThreadClaims ThreadFacts ThreadSim.
Local Open Scope string_scope.
Local Open Scope list_scope.

(** ** Induction on syntax trees *)
Section Expr_ind.
  Variable P : expr -> Prop.
  Let PO (o : option expr) : Prop := match o with Some e => P e | None => True end.
  Let parts (e : expr) : Prop := match e with Slice lo hi => PO lo /\ PO hi | _ => True end.
  Context (HConstant : forall c, P (Constant c)).
  Context (HName : forall x, P (Name x)).
  Context (HAttribute : forall e a, P e -> P (Attribute e a)).
  Context (HSubscript : forall e i, P e -> P i -> parts i -> P (Subscript e i)).
  Context (HSlice : forall lo hi, P (Slice lo hi)).
  Context (HCall : forall f a k, P f -> Forall P a -> Forall (fun x => P (snd x)) k -> P (Call f a k)).
  Context (HBinOp : forall a o b, P a -> P b -> P (BinOp a o b)).
  Context (HBoolAnd : forall a b, P a -> P b -> P (BoolAnd a b)).
  Context (HNot : forall a, P a -> P (Not a)).
  Context (HUSub : forall a, P a -> P (USub a)).
  Context (HCompare : forall a o b, P a -> P b -> P (Compare a o b)).
  Context (HIfExp : forall a b c, P a -> P b -> P c -> P (IfExp a b c)).
  Context (HTuple : forall l, Forall P l -> P (Tuple l)).
  Context (HEList : forall l, Forall P l -> P (EList l)).
  Context (HDict : forall l, Forall (fun x => P (fst x) /\ P (snd x)) l -> P (Dict l)).
  Context (HListComp : forall e l, P e -> Forall (fun x => P (snd (fst x)) /\ Forall P (snd x)) l -> P (ListComp e l)).
  Context (HJoinedStr : forall l, Forall P l -> P (JoinedStr l)).
  Fixpoint expr_induction (e : expr) : P e :=
    let all := (fix all (l : list expr) : Forall P l :=
      match l with [] => Forall_nil P | x :: l' => Forall_cons x (expr_induction x) (all l') end) in
    match e with
    | Constant c => HConstant c
    | Name x => HName x
    | Attribute e a => HAttribute e a (expr_induction e)
    | Subscript e i => HSubscript e i (expr_induction e) (expr_induction i)
        (match i as i0 return parts i0 with
         | Slice lo hi => conj (match lo as o return PO o with Some x => expr_induction x | None => I end)
                               (match hi as o return PO o with Some x => expr_induction x | None => I end)
         | _ => I
         end)
    | Slice lo hi => HSlice lo hi
    | Call f a k => HCall f a k (expr_induction f) (all a)
        ((fix go (l : list (string * expr)) : Forall (fun x => P (snd x)) l :=
            match l with [] => Forall_nil _ | x :: l' => Forall_cons x (expr_induction (snd x)) (go l') end) k)
    | BinOp a o b => HBinOp a o b (expr_induction a) (expr_induction b)
    | BoolAnd a b => HBoolAnd a b (expr_induction a) (expr_induction b)
    | Not a => HNot a (expr_induction a)
    | USub a => HUSub a (expr_induction a)
    | Compare a o b => HCompare a o b (expr_induction a) (expr_induction b)
    | IfExp a b c => HIfExp a b c (expr_induction a) (expr_induction b) (expr_induction c)
    | Tuple l => HTuple l (all l)
    | EList l => HEList l (all l)
    | Dict l => HDict l
        ((fix go (l : list (expr * expr)) : Forall (fun x => P (fst x) /\ P (snd x)) l :=
            match l with [] => Forall_nil _ | x :: l' => Forall_cons x (conj (expr_induction (fst x)) (expr_induction (snd x))) (go l') end) l)
    | ListComp e l => HListComp e l (expr_induction e)
        ((fix go (l : list (expr * expr * list expr)) : Forall (fun x => P (snd (fst x)) /\ Forall P (snd x)) l :=
            match l with [] => Forall_nil _ | x :: l' => Forall_cons x (conj (expr_induction (snd (fst x))) (all (snd x))) (go l') end) l)
    | JoinedStr l => HJoinedStr l (all l)
    end.
End Expr_ind.
Section Stmt_ind.
  Variable P : stmt -> Prop.
  Context (HExpr : forall e, P (Expr e)).
  Context (HAssign : forall t e, P (Assign t e)).
  Context (HAugAssign : forall t o e, P (AugAssign t o e)).
  Context (HIf : forall c a b, Forall P a -> Forall P b -> P (If c a b)).
  Context (HFor : forall t i b, Forall P b -> P (For t i b)).
  Context (HReturn : forall e, P (Return e)).
  Context (HRaiseS : forall e, P (RaiseS e)).
  Context (HTry : forall b h, Forall P b -> Forall (fun x => Forall P (snd x)) h -> P (Try b h)).
  Context (HYieldS : forall e, P (YieldS e)).
  Fixpoint stmt_induction (s : stmt) : P s :=
    let all := (fix all (l : list stmt) : Forall P l :=
      match l with [] => Forall_nil P | x :: l' => Forall_cons x (stmt_induction x) (all l') end) in
    match s with
    | Expr e => HExpr e
    | Assign t e => HAssign t e
    | AugAssign t o e => HAugAssign t o e
    | If c a b => HIf c a b (all a) (all b)
    | For t i b => HFor t i b (all b)
    | Return e => HReturn e
    | RaiseS e => HRaiseS e
    | Try b h => HTry b h (all b)
        ((fix go (l : list (string * option string * list stmt)) : Forall (fun x => Forall P (snd x)) l :=
            match l with [] => Forall_nil _ | x :: l' => Forall_cons x (all (snd x)) (go l') end) h)
    | YieldS e => HYieldS e
    end.
End Stmt_ind.

Section Run.
  Context (frozen : loc -> option object) (E : pyenv) (order : list Z -> list Z) (stdout stdout' : value) (table : list (string * string)).
  Local Notation alike := (alike frozen).
  Local Notation alikes b := (Forall2 (alike b)).
  Local Notation alike_obj := (alike_obj frozen).
  Local Notation alike_items := (alike_items frozen).
  Local Notation sim := (sim frozen).
  Context (call_t : string -> list value -> act value) (call : string -> list value -> comp value) (locals : list string).
  Context (CALL : forall b f a a', alike b stdout stdout' -> alikes b a a' -> sim b alike (call_t f a) (call f a')).
  Local Notation eval_t := (eval_t E order stdout table call_t locals).
  Local Notation eval := (eval E order stdout' table call locals).

  Lemma sim_global b x : sim b alike (global_t x) (global x).
  Proof. unfold global_t, global. destruct (mem x type_names); [apply sim_done; constructor|]. destruct (mem x module_names); apply sim_done; constructor. Qed.
  Lemma sim_name b r r' x : alike_items b r r' -> sim b alike (name_t locals r x) (name locals r' x).
  Proof.
    intro R. unfold name_t, name. apply (lookup_alike frozen b x) in R. unfold alike_opt in R. destruct (lookup x r), (lookup x r'); try contradiction.
    - now apply sim_done.
    - destruct (mem x locals); [apply sim_throw|apply sim_global].
  Qed.
  Lemma sim_instantiate b c a a' : alike b stdout stdout' -> alikes b a a' -> sim b alike (instantiate_t call_t c a) (instantiate call c a').
  Proof.
    intros S A. unfold instantiate_t, instantiate. eapply sim_seq; [apply sim_new; repeat constructor|]. intros b2 x y I X. up I.
    eapply sim_seq; [apply CALL; [exact S|constructor; eassumption]|]. intros b3 v w I2 _. up I2. now apply sim_done.
  Qed.
  Lemma sim_apply b f f' a a' k k' : alike b stdout stdout' -> alike b f f' -> alikes b a a' -> alike_items b k k' ->
    sim b alike (apply_t E order table call_t f a k) (apply E order table call f' a' k').
  Proof.
    intros S F A K. unfold apply_t, apply. destruct F; try apply sim_stuck.
    - destruct K; [|apply sim_stuck]. destruct (mem c _); [now apply sim_instantiate|now apply sim_call_type].
    - destruct (mem f _); [now apply sim_call_builtin|]. destruct K; [|apply sim_stuck]. now apply CALL.
    - now apply sim_method.
  Qed.
  Lemma unpack_alike b ts : forall v v' r r' q', alikes b v v' -> alike_items b r r' -> unpack_names ts v' r' = Some q' ->
    exists q, unpack_names ts v r = Some q /\ alike_items b q q'.
  Proof.
    induction ts as [|t ts IH]; intros v v' r r' q' V R; cbn.
    - destruct V; [|discriminate]. intros [= <-]. eauto.
    - destruct t; try discriminate. destruct V as [|x x' v v' X V]; [discriminate|]. intro Q. eapply IH; [exact V| |exact Q]. now apply bindv_alike.
  Qed.
  Lemma sim_bind_target b t v v' r r' : alike b v v' -> alike_items b r r' -> sim b (fun b => alike_items b) (bind_target_t t v r) (bind_target t v' r').
  Proof.
    intros V R. unfold bind_target_t, bind_target. destruct t; try apply sim_stuck.
    - apply sim_done. now apply bindv_alike.
    - destruct V; try apply sim_stuck. destruct (unpack_names elts l' r') as [q'|] eqn:Q; [|apply sim_stuck].
      destruct (unpack_alike _ _ _ _ _ _ _ H R Q) as (q & -> & X). now apply sim_done.
  Qed.
  Lemma sim_nested {B B'} b (P : view -> B -> B' -> Prop) m m' : sim b P m m' -> sim b P (nested_t m) (nested m').
  Proof.
    intro S. unfold nested_t, map_end. eapply sim_same.
    - apply (sim_then frozen b P P m m' _ (fun o h => (match o with
                      | Thrown (ExcV c t) => if (c =? "UnboundLocalError")%string then Stuck "free variable" else Thrown (ExcV c t)
                      | o => o end, h)) S).
      + intro w. exists w. reflexivity.
      + intros b2 a a' I A. now apply sim_done.
      + intros b2 x x' I X. destruct X; try (apply sim_thrown; now constructor).
        * eapply sim_thrown, AlikeMap; eassumption.
        * destruct (c =? _)%string; [apply sim_stuck|apply sim_thrown; constructor].
    - intro h. unfold nested. destruct (m' h) as [[a|x|w] h']; cbn; try reflexivity. destruct x; reflexivity.
  Qed.
  Lemma sim_stepping {B B'} b (P : view -> B -> B' -> Prop) w w' m m' : (forall b b2 x y, incl b b2 -> P b x y -> P b2 x y) ->
    alike_watch b w w' -> sim b P m m' -> sim b P (stepping_t w m) (stepping w' m').
  Proof.
    intros M W S. unfold stepping_t, stepping. destruct W as [|l l' x L]; [exact S|]. eapply sim_seq; [exact S|]. intros b2 u v I U. up I.
    eapply sim_seq; [apply sim_unchanged; constructor; exact L|]. intros b3 p q I2 _. apply sim_done. eapply M; eassumption.
  Qed.
  Lemma alike_watch_mono b b2 w w' : incl b b2 -> alike_watch b w w' -> alike_watch b2 w w'.
  Proof. intros I W. destruct W; constructor. now apply I. Qed.

  Definition evals_alike (e : expr) : Prop := forall b r r', alike b stdout stdout' -> alike_items b r r' -> sim b alike (eval_t r e) (eval r' e).
  Lemma evals_list l : Forall evals_alike l -> forall b r r', alike b stdout stdout' -> alike_items b r r' ->
    sim b (fun b => alikes b)
      ((fix evals (l : list expr) : act (list value) :=
        match l with
        | [] => done_t []
        | e :: l' => let> v := eval_t r e in let> vs := evals l' in done_t (v :: vs)
        end) l)
      ((fix evals (l : list expr) : comp (list value) :=
        match l with
        | [] => done []
        | e :: l' => let* v := eval r' e in let* vs := evals l' in done (v :: vs)
        end) l).
  Proof.
    intro H. induction H as [|e l He H IH]; intros b r r' S R; [apply sim_done; constructor|].
    eapply sim_seq; [now apply He|]. intros b2 x y I X. up I. eapply sim_seq; [now apply IH|]. intros b3 xs ys I2 XS. up I2. apply sim_done. now constructor.
  Qed.
  Ltac ev H := eapply sim_seq; [apply H; assumption|let I := fresh "I" in let Y := fresh "Y" in intros ? ? ? I Y; cbv beta in Y; up I].
  Lemma eval_alike : forall e, evals_alike e.
  Proof.
    apply expr_induction; unfold evals_alike.
    - intros c b r r' S R. cbn. apply sim_done. destruct c; constructor.
    - intros x b r r' S R. now apply sim_name.
    - intros e a He b r r' S R. cbn. ev He. now apply sim_getattr.
    - intros e i He Hi Hs b r r' S R. cbn. ev He.
      destruct i; try (eapply sim_seq; [now apply Hi|intros b3 k k' I2 K; up I2; now apply sim_getitem]).
      destruct Hs as [HL HH].
      eapply sim_seq with (P := alike); [destruct lower; [now apply HL|apply sim_done; constructor]|]. intros b3 k k' I2 K. up I2.
      eapply sim_seq with (P := alike); [destruct upper; [now apply HH|apply sim_done; constructor]|]. intros b4 k2 k2' I3 K2. up I3.
      now apply sim_getslice.
    - intros lo hi b r r' S R. apply sim_stuck.
    - intros f a k Hf Ha Hk b r r' S R. cbn. ev Hf. ev (evals_list a Ha).
      assert (X : forall b2 r r', alike b2 stdout stdout' -> alike_items b2 r r' -> sim b2 (fun b => alike_items b)
        ((fix evalk (l : list (string * expr)) : act env :=
          match l with [] => done_t [] | (k, e) :: l' => let> v := eval_t r e in let> ks := evalk l' in done_t ((k, v) :: ks) end) k)
        ((fix evalk (l : list (string * expr)) : comp env :=
          match l with [] => done [] | (k, e) :: l' => let* v := eval r' e in let* ks := evalk l' in done ((k, v) :: ks) end) k)).
      { clear - Hk. induction Hk as [|[x e] k He Hk IH]; intros b r r' S R; [apply sim_done; constructor|]. ev He.
        eapply sim_seq; [now apply IH|]. intros b3 ks ks' I2 K. up I2. apply sim_done. constructor; [split; [reflexivity|assumption]|exact K]. }
      ev X. now apply sim_apply.
    - intros x o y Hx Hy b r r' S R. cbn. ev Hx. ev Hy. now apply sim_binop.
    - intros x y Hx Hy b r r' S R. cbn. ev Hx. ev sim_truth. unfold same in *. subst. destruct a'0; [now apply Hy|now apply sim_done].
    - intros x Hx b r r' S R. cbn. ev Hx. ev sim_truth. unfold same in *. subst. apply sim_done. constructor.
    - intros x Hx b r r' S R. cbn. ev Hx. destruct Y; try apply sim_stuck. apply sim_done. constructor.
    - intros x o y Hx Hy b r r' S R. cbn. ev Hx. ev Hy. ev sim_compare. unfold same in *. subst. apply sim_done. constructor.
    - intros x y z Hx Hy Hz b r r' S R. cbn. ev Hx. ev sim_truth. unfold same in *. subst. destruct a'0; [now apply Hy|now apply Hz].
    - intros l Hl b r r' S R. cbn. ev (evals_list l Hl). apply sim_done. now constructor.
    - intros l Hl b r r' S R. cbn. ev (evals_list l Hl). apply sim_new. now constructor.
    - intros l Hl b r r' S R. cbn. eapply sim_seq with (P := fun b => alike_items b).
      + revert b r r' S R. induction Hl as [|[k e] l [Hk He] Hl IH]; intros b r r' S R; [apply sim_done; constructor|]. ev Hk. ev He. ev IH.
        match goal with H : alike _ a a' |- _ => rewrite (key_of_alike _ _ _ _ H) end. destruct (key_of a'); [|apply sim_stuck]. apply sim_done. constructor; [split; [reflexivity|assumption]|assumption].
      + intros b2 i i' I Hi. apply sim_new. constructor. now apply from_items_alike.
    - intros e l He Hl b r r' S R. cbn. eapply sim_seq with (P := fun b => alikes b); [|intros b2 i i' I Hi; apply sim_new; now constructor].
      revert b r r' S R. induction Hl as [|[[t it] ifs] l [Hit Hifs] Hl IH]; intros b r r' S R.
      + ev He. apply sim_done. repeat constructor. assumption.
      + cbn in Hit, Hifs. ev Hit. ev sim_watched. ev sim_iterate. eapply sim_seq.
        * eapply (sim_each frozen alike (fun b => alikes b)); [intros; eapply alike_mono; eauto|intros; eapply alikes_mono; eauto|eassumption|].
          intros b5 v v' I5 V. apply sim_stepping; [intros; eapply alikes_mono; eauto|eapply alike_watch_mono; [|eassumption]|].
          { eapply incl_tran; eassumption. }
          up I5. apply sim_nested. ev sim_bind_target. eapply sim_seq with (P := same).
          -- match goal with H : alike_items _ ?p ?q |- _ => revert H; generalize p q end.
             match goal with S : alike ?b stdout stdout' |- _ => revert S; generalize b end. clear - Hifs.
             induction Hifs as [|e l He H IH]; intros b S r r' R; [now apply sim_done|]. ev He. ev sim_truth. unfold same in *. subst.
             destruct a'0; [now apply IH|now apply sim_done].
          -- intros b7 k k' I7 ->. up I7. destruct k'; [now apply IH|apply sim_done; constructor].
        * intros b6 p p' I6 Pp. apply sim_done. now apply alikes_concat.
    - intros l Hl b r r' S R. cbn. eapply sim_seq with (P := same); [|intros b2 x y I ->; apply sim_done; constructor].
      revert b r r' S R. induction Hl as [|e l He Hl IH]; intros b r r' S R; [now apply sim_done|]. ev He. ev sim_str_of. unfold same in *. subst.
      destruct l; [now apply sim_done|]. ev IH. subst. now apply sim_done.
  Qed.

  (** ** Statements *)
  Local Notation exec_t := (exec_t E order stdout table call_t locals).
  Local Notation exec := (exec E order stdout' table call locals).
  Local Notation assign_to_t := (assign_to_t E order stdout table call_t locals).
  Local Notation assign_to := (assign_to E order stdout' table call locals).
  Local Notation assign_t := (assign_t E order stdout table call_t locals).
  Local Notation assign := (assign E order stdout' table call locals).
  Inductive alike_ctl (b : view) : ctl -> ctl -> Prop :=
  | AlikeNext : alike_ctl b Next Next
  | AlikeReturned v v' : alike b v v' -> alike_ctl b (Returned v) (Returned v')
  | AlikeThrew v v' : alike b v v' -> alike_ctl b (Threw v) (Threw v').
  Definition alike_end (b : view) (x y : ctl * env) : Prop := alike_ctl b (fst x) (fst y) /\ alike_items b (snd x) (snd y).
  Definition as_comp (s : sem) (r : env) : comp (ctl * env) :=
    fun h => match s r h with (StuckS w, _, h') => (Stuck w, h') | (c, r', h') => (Done (c, r'), h') end.
  Definition sims (b : view) (r r' : env) (s : sem_t) (s' : sem) : Prop := sim b alike_end (s r) (as_comp s' r').
  Lemma sims_finish b r r' c c' : alike_ctl b c c' -> alike_items b r r' -> sims b r r' (finish_t c) (finish c').
  Proof. intros C R. unfold sims, as_comp, finish_t, finish. destruct C; (eapply sim_same; [eapply sim_done|reflexivity]); split; try exact R; now constructor. Qed.
  Lemma sims_stuck b r r' s w : sims b r r' s (finish (StuckS w)).
  Proof. intros h G. exact I. Qed.
  Lemma sims_set_env b r r' q q' : alike_items b q q' -> sims b r r' (set_env_t q) (set_env q').
  Proof. intros Q. unfold sims, as_comp, set_env_t, set_env. eapply sim_same; [eapply sim_done|reflexivity]. split; [constructor|exact Q]. Qed.
  Lemma sims_with_env b r r' f f' : sims b r r' (f r) (f' r') -> sims b r r' (with_env_t f) (with_env f').
  Proof. exact (fun H => H). Qed.
  Lemma sims_expr_then {A A'} b (P : view -> A -> A' -> Prop) r r' m m' k k' : alike_items b r r' -> sim b P m m' ->
    (forall b2 a a', incl b b2 -> P b2 a a' -> alike_items b2 r r' -> sims b2 r r' (k a) (k' a')) -> sims b r r' (expr_then_t m k) (expr_then m' k').
  Proof.
    intros R S K. unfold sims, expr_then_t. eapply sim_same.
    - apply (sim_then frozen b P alike_end m m' _ (fun o => match o with
          | Done a => as_comp (k' a) r' | Thrown x => done (Threw x, r') | Stuck w => stuck w end) S).
      + intro w. exists w. reflexivity.
      + intros b2 a a' I X. up I. now apply K.
      + intros b2 x x' I X. up I. apply sim_done. split; [now constructor|exact R].
    - intro h. unfold as_comp at 2. unfold expr_then. destruct (m' h) as [[a|x|w] h']; reflexivity.
  Qed.
  Lemma sims_andthen b r r' s t s' t' : sims b r r' s s' ->
    (forall b2 q q', incl b b2 -> alike_items b2 q q' -> sims b2 q q' t t') -> sims b r r' (andthen_t s t) (andthen s' t').
  Proof.
    intros S K. unfold sims, andthen_t. eapply sim_same; [apply (sim_seq frozen b alike_end alike_end (s r) (as_comp s' r') _
      (fun cr => match cr with (Next, q) => as_comp t' q | _ => done cr end) S)|].
    - intros b2 [c q] [c' q'] I [C Q]. cbn in C, Q. destruct C; [now apply K| |]; apply sim_done; (split; [now constructor|exact Q]).
    - intro h. unfold seqc, andthen, as_comp. destruct (s' r' h) as [[[|v|x|w] q] h']; reflexivity.
  Qed.
  Ltac ex L := eapply sims_expr_then; [assumption|apply L; assumption|let I := fresh "I" in let Y := fresh "Y" in intros ? ? ? I Y ?; cbv beta in Y; up I].
  Lemma sims_assign_to b r r' t v v' : alike b stdout stdout' -> alike b v v' -> alike_items b r r' -> sims b r r' (assign_to_t t v) (assign_to t v').
  Proof.
    intros S V R. unfold Threads.assign_to_t, PySem.assign_to. apply sims_with_env. destruct t; try apply sims_stuck.
    - apply sims_set_env. now apply bindv_alike.
    - ex (eval_alike t). eapply sims_expr_then; [assumption|now apply sim_setattr|]. intros. apply sims_finish; [constructor|assumption].
    - ex (eval_alike t1). ex (eval_alike t2). eapply sims_expr_then; [assumption|now apply sim_setitem|]. intros. apply sims_finish; [constructor|assumption].
  Qed.
  Lemma sims_assign_all ts : forall b r r' v v', alike b stdout stdout' -> alikes b v v' -> alike_items b r r' ->
    sims b r r' (assign_all_t E order stdout table call_t locals ts v) (assign_all E order stdout' table call locals ts v').
  Proof.
    induction ts as [|t ts IH]; intros b r r' v v' S V R; cbn.
    - destruct V; [|apply sims_stuck]. apply sims_finish; [constructor|exact R].
    - destruct V as [|x x' v v' X V]; [apply sims_stuck|]. apply sims_andthen; [now apply sims_assign_to|]. intros b2 q q' I Q. up I. now apply IH.
  Qed.
  Lemma sims_assign b r r' t v v' : alike b stdout stdout' -> alike b v v' -> alike_items b r r' -> sims b r r' (assign_t t v) (assign t v').
  Proof.
    intros S V R. unfold Threads.assign_t, PySem.assign. destruct t; try now apply sims_assign_to.
    destruct V; try apply sims_stuck. now apply sims_assign_all.
  Qed.
  Lemma sims_augassign b r r' t o e : alike b stdout stdout' -> alike_items b r r' ->
    sims b r r' (augassign_t E order stdout table call_t locals t o e) (augassign E order stdout' table call locals t o e).
  Proof.
    intros S R. unfold augassign_t, augassign. apply sims_with_env. destruct t; try apply sims_stuck.
    - ex sim_name. ex (eval_alike e). ex sim_inplace. apply sims_set_env. now apply bindv_alike.
    - ex (eval_alike t1). ex (eval_alike t2). ex sim_getitem. ex (eval_alike e). ex sim_inplace. ex sim_setitem. apply sims_finish; [constructor|assumption].
  Qed.
  Lemma sims_loop f f' b l l' : alikes b l l' ->
    (forall b2 r r' v v', incl b b2 -> alike b2 v v' -> alike_items b2 r r' -> sims b2 r r' (f v) (f' v')) ->
    forall b2 r r', incl b b2 -> alike_items b2 r r' -> sims b2 r r' (loop_t f l) (loop f' l').
  Proof.
    intros L F. induction L as [|v v' l l' V L IH]; intros b2 r r' I R; cbn; [apply sims_finish; [constructor|exact R]|].
    apply sims_andthen; [apply F; [exact I|eapply alike_mono; eassumption|exact R]|]. intros b3 q q' I2 Q. apply IH; [eapply incl_tran; eassumption|exact Q].
  Qed.
  Lemma sims_step_of b r r' w w' s s' : alike_watch b w w' -> sims b r r' s s' -> sims b r r' (step_of_t w s) (step_of w' s').
  Proof.
    intros W S. unfold step_of_t, step_of. destruct W as [|l l' x L]; [exact S|]. apply sims_andthen; [exact S|]. intros b2 q q' I Q.
    eapply sims_expr_then; [exact Q|apply sim_unchanged; constructor; apply I, L|]. intros. apply sims_finish; [constructor|assumption].
  Qed.
  Definition execs_alike (s : stmt) : Prop := forall b r r', alike b stdout stdout' -> alike_items b r r' -> sims b r r' (exec_t s) (exec s).
  Lemma execs_block l : Forall execs_alike l -> forall b r r', alike b stdout stdout' -> alike_items b r r' ->
    sims b r r'
      ((fix block (l : list stmt) : sem_t := match l with [] => finish_t Next | s :: l' => andthen_t (exec_t s) (block l') end) l)
      ((fix block (l : list stmt) : sem := match l with [] => finish Next | s :: l' => andthen (exec s) (block l') end) l).
  Proof.
    intro H. induction H as [|s l Hs H IH]; intros b r r' S R; [apply sims_finish; [constructor|exact R]|].
    apply sims_andthen; [now apply Hs|]. intros b2 q q' I Q. up I. now apply IH.
  Qed.
  Lemma exec_alike : forall s, execs_alike s.
  Proof.
    apply stmt_induction; unfold execs_alike.
    - intros e b r r' S R. cbn. apply sims_with_env. ex (eval_alike e). apply sims_finish; [constructor|assumption].
    - intros t e b r r' S R. cbn. apply sims_with_env. ex (eval_alike e). now apply sims_assign.
    - intros t o e b r r' S R. now apply sims_augassign.
    - intros c x y Hx Hy b r r' S R. cbn. apply sims_with_env. eapply sims_expr_then with (P := same); [assumption| |].
      + eapply sim_seq; [now apply (eval_alike c)|]. intros. now apply sim_truth.
      + intros b2 t t' I -> R2. up I. destruct t'; [now apply execs_block|now apply execs_block].
    - intros t i l Hl b r r' S R. cbn. apply sims_with_env. ex (eval_alike i). ex sim_watched. ex sim_iterate.
      eapply sims_loop; [eassumption| |apply incl_refl|assumption].
      intros b5 q q' v v' I5 V Q. apply sims_step_of; [eapply alike_watch_mono; [|eassumption]; eapply incl_tran; eassumption|]. up I5.
      apply sims_andthen; [now apply sims_assign|]. intros b6 p p' I6 Pp. up I6. now apply execs_block.
    - intros [e|] b r r' S R; cbn; [|apply sims_finish; [repeat constructor|assumption]]. apply sims_with_env. ex (eval_alike e).
      apply sims_finish; [now constructor|assumption].
    - intros e b r r' S R. cbn. apply sims_with_env. ex (eval_alike e). apply sims_finish; [now constructor|assumption].
    - intros l hs Hl Hh b r r' S R. unfold sims. cbn [Threads.exec_t PySem.exec].
      set (blk_t := fix block (l : list stmt) : sem_t := match l with [] => finish_t Next | s :: l' => andthen_t (exec_t s) (block l') end).
      set (blk := fix block (l : list stmt) : sem := match l with [] => finish Next | s :: l' => andthen (exec s) (block l') end).
      assert (B := execs_block l Hl b r r' S R). fold blk_t in B. fold blk in B.
      set (hc := fix handle (x : value) (r' : env) (cx : string) (l : list (string * option string * list stmt)) : comp (ctl * env) :=
              match l with
              | [] => done (Threw x, r')
              | (c, nm, b) :: l' =>
                  if subclass cx c
                  then let* cr2 := as_comp (blk b) (match nm with Some e => bindv e x r' | None => r' end) in
                       done (fst cr2, unbindv nm (snd cr2))
                  else handle x r' cx l'
              end).
      eapply sim_same; [apply (sim_seq frozen b alike_end alike_end (blk_t l r) (as_comp (blk l) r') _
        (fun cr => match cr with
                   | (Threw x, q) => let* cx := (fun h => (Done (exc_class h x), h)) in hc x q cx hs
                   | _ => done cr end) B)|].
      + intros b2 [c q] [c' q'] I [C Q]. cbn in C, Q. destruct C as [|v v' V|v v' V]; [| |].
        * apply sim_done. split; [constructor|exact Q].
        * apply sim_done. split; [now constructor|exact Q].
        * eapply sim_seq; [apply sim_exc_class, V|]. intros b3 cx cx' I2 ->. up I. up I2. clear B R.
          revert b3 v v' V q q' Q S I2. clear I. induction Hh as [|[[c nm] body] hs Hb Hh IH]; intros b3 v v' V q q' Q S I2; cbn -[subclass].
          { apply sim_done. split; [now constructor|exact Q]. }
          destruct (subclass cx' c).
          { cbn in Hb. eapply sim_seq; [apply (execs_block body Hb); [exact S|destruct nm; [now apply bindv_alike|exact Q]]|].
            intros b4 [c1 q1] [c2 q2] I4 [C4 Q4]. apply sim_done. split; [exact C4|]. cbn in Q4 |- *. destruct nm; [now apply dpop_alike|exact Q4]. }
          { apply IH; try assumption. }
      + intro h. unfold seqc. unfold as_comp at 1. match goal with |- _ = as_comp ?s ?r ?h => change (as_comp s r h) with (match s r h with (StuckS w, _, h2) => (Stuck w, h2) | (c, q, h2) => (Done (c, q), h2) end) end. cbv beta. destruct (blk l r' h) as [[[|v|x|w] q] h']; try reflexivity.
        cbn -[subclass]. induction hs as [|[[c nm] body] hs IH]; [reflexivity|]. cbn -[subclass]. inversion Hh; subst. destruct (subclass (exc_class h' x) c); [|apply IH; assumption].
        unfold seqc, as_comp. destruct (blk body _ h') as [[[|v1|x1|w1] q1] h1]; reflexivity.
    - intros e b r r' S R. cbn [Threads.exec_t PySem.exec]. apply sims_with_env. ex (eval_alike e). eapply sims_expr_then with (P := same); [assumption| |intros; apply sims_finish; [constructor|assumption]].
      pose proof (lookup_alike frozen b2 yielding r r' H) as L. unfold alike_opt in L. destruct (lookup yielding r), (lookup yielding r'); try contradiction; [|apply sim_stuck].
      destruct L; try apply sim_stuck. eapply sim_seq; [apply sim_get; eassumption|]. intros b3 o o' I3 O. up I3. destruct O; try apply sim_stuck.
      apply sim_put; [assumption|]. constructor. apply alikes_app; [assumption|]. now constructor.
  Qed.
  Lemma exec_block_alike l : forall b r r', alike b stdout stdout' -> alike_items b r r' ->
    sims b r r' (exec_block_t E order stdout table call_t locals l) (exec_block E order stdout' table call locals l).
  Proof.
    induction l as [|s l IH]; intros b r r' S R; cbn; [apply sims_finish; [constructor|exact R]|].
    apply sims_andthen; [now apply exec_alike|]. intros b2 q q' I Q. up I. now apply IH.
  Qed.
End Run.

Section Calls.
  Context (frozen : loc -> option object) (E : pyenv) (order : list Z -> list Z) (stdout stdout' : value) (table : list (string * string)) (prog : list (string * fundef)).
  Local Notation alike := (alike frozen).
  Local Notation alikes b := (Forall2 (alike b)).
  Local Notation sim := (sim frozen).
  Lemma run_body_alike call_t call f : (forall b f a a', alike b stdout stdout' -> alikes b a a' -> sim b alike (call_t f a) (call f a')) ->
    forall b a a', alike b stdout stdout' -> alikes b a a' ->
    sim b alike (run_body_t E order stdout table prog call_t f a) (run_body E order stdout' table prog call f a').
  Proof.
    intros C b a a' S A. unfold run_body_t, run_body. rewrite (forall2_length _ _ _ A).
    destruct (negb (Nat.eqb _ _)); [apply sim_stuck|]. destruct (negb (runnable prog f)); [apply sim_stuck|].
    destruct (existsb yields (f_body f)).
    - destruct (forallb immutable a') eqn:IM; [|apply sim_stuck]. rewrite (immutable_alike _ _ _ _ A IM), IM. cbn [negb].
      destruct (exec_block _ _ _ _ _ _ _ _ _) as [[[|v|x|w] q] h]; try apply sim_stuck.
      + destruct h as [|[| |l| | | |]]; try apply sim_stuck. destruct (forallb immutable l) eqn:L; [|apply sim_stuck].
        eapply sim_same; [apply sim_new; constructor; apply alikes_immutable, L|reflexivity].
      + destruct h as [|[| |l| | | |]]; try apply sim_stuck. destruct (forallb immutable l) eqn:L; [|apply sim_stuck].
        eapply sim_same; [apply sim_new; constructor; apply alikes_immutable, L|reflexivity].
    - eapply sim_same; [eapply (sim_seq frozen b (alike_end frozen) alike _ (as_comp (exec_block E order stdout' table call (f_params f ++ flat_map assigned (f_body f)) (f_body f)) (combine (f_params f) a')) _
        (fun cr => match fst cr with Next => done NoneV | Returned v => done v | Threw x => fun h => (Thrown x, h) | StuckS w => stuck w end))|].
      + apply exec_block_alike; [exact C|exact S|now apply combine_alike].
      + intros b2 [c q] [c' q'] I [X Q]. cbn in X |- *. destruct X; [apply sim_done; constructor|now apply sim_done|now apply sim_thrown].
      + intro h. unfold seqc, as_comp. destruct (exec_block _ _ _ _ _ _ _ _ h) as [[[|v|x|w] q] h']; reflexivity.
  Qed.
  Lemma call_fun_alike n : forall b f a a', alike b stdout stdout' -> alikes b a a' ->
    sim b alike (call_fun_t E order stdout table prog n f a) (call_fun E order stdout' table prog n f a').
  Proof.
    induction n as [|n IH]; intros b f a a' S A; cbn; [apply sim_stuck|]. destruct (dget String.eqb f prog); [|apply sim_stuck].
    now apply run_body_alike.
  Qed.
End Calls.
