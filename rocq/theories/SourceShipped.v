(** * SourceShipped: specs.py as written, and the model. *)
From Verif Require Import PyBase BaseFacts Types Encoder Wire WireEncode Claims Claims2 Specs Shipped PyAst Source SourceSpecs PySem SemClaims SemFacts SemHeap.
From Verif Require Import EncoderFacts SessionClaims SourceSamples SourceSessions.
Local Open Scope string_scope.
Local Open Scope list_scope.

(** ** Dict displays of dict displays of constants *)
Definition row : Type := string * string * Z * Z * string.
Definition row_lit (x : row) : list (string * constant) :=
  let '(a, b, c, d, e) := x in [("data_enc", CStr a); ("len_enc", CStr b); ("len_type", CInt c); ("max_len", CInt d); ("desc", CStr e)].
Definition row_spec (x : row) : fspec := let '(a, b, c, d, e) := x in fld a b c d e.
Definition lit_expr (l : list (string * constant)) : expr := Dict (map (fun kc => (Constant (CStr (fst kc)), Constant (snd kc))) l).
Definition rows_expr (l : list (string * row)) : expr := Dict (map (fun kr => (Constant (CStr (fst kr)), lit_expr (row_lit (snd kr)))) l).
Definition rows_spec (l : list (string * row)) : spec := map (fun kr => (u (fst kr), row_spec (snd kr))) l.
Definition row_of (e : expr) : row :=
  match e with
  | Dict [(_, Constant (CStr a)); (_, Constant (CStr b)); (_, Constant (CInt c)); (_, Constant (CInt d)); (_, Constant (CStr e))] => (a, b, c, d, e)
  | _ => ("", "", 0%Z, 0%Z, "")
  end.
Definition rows_of (e : expr) : list (string * row) :=
  match e with
  | Dict l => map (fun ke => (match fst ke with Constant (CStr k) => k | _ => "" end, row_of (snd ke))) l
  | _ => []
  end.
Lemma default_text : src_default = rows_expr (rows_of src_default). Proof. vm_compute. reflexivity. Qed.
Lemma default_rows : rows_spec (rows_of src_default) = default. Proof. vm_compute. reflexivity. Qed.
Lemma default_ascii_text : src_default_ascii = rows_expr (rows_of src_default_ascii). Proof. vm_compute. reflexivity. Qed.
Lemma default_ascii_rows : rows_spec (rows_of src_default_ascii) = default_ascii. Proof. vm_compute. reflexivity. Qed.

Lemma dset_new {V} k (v : V) d : (forall kv, In kv d -> fst kv <> k) -> dset key_eqb k v d = d ++ [(k, v)].
Proof.
  induction d as [|[k' v'] d IH]; intro N; [reflexivity|]. cbn. destruct (key_eqb_spec k k') as [->|].
  - exfalso. apply (N _ (or_introl eq_refl)). reflexivity.
  - rewrite IH; [reflexivity|]. intros kv H. apply N. right. exact H.
Qed.
Lemma from_items_nodup l : NoDup (map fst l) -> from_items l = l.
Proof.
  unfold from_items. enough (H : forall l d, NoDup (map fst (d ++ l)) -> fold_left (fun d kv => dset key_eqb (fst kv) (snd kv) d) l d = d ++ l)
    by (intro; rewrite H; auto).
  clear. induction l as [|[k v] l IH]; intros d N; cbn [fold_left]; [now rewrite app_nil_r|].
  rewrite dset_new, IH; rewrite <- ?app_assoc; auto. cbn [fst snd]. intros kv Hk E. rewrite map_app in N. cbn in N.
  apply NoDup_remove_2 in N. apply N, in_or_app. left. rewrite <- E. now apply in_map.
Qed.

Section Eval.
  Context (E : pyenv) (order : list Z -> list Z) (stdout : val) (tbl : list (string * string)) (call : string -> list val -> comp val) (locals : list string).
  Notation ev := (eval E order stdout tbl call locals).
  Notation evald := (evald E order stdout tbl call locals).
  Lemma eval_lit r l h : ev r (lit_expr l) h = (Done (RefV (length h)), h ++ [DictO (from_items (map (fun kc => (KStr (u (fst kc)), const (snd kc))) l))]).
  Proof.
    change (ev r (lit_expr l)) with (let* d := evald r (map (fun kc => (Constant (CStr (fst kc)), Constant (snd kc))) l) in new (DictO (from_items d))).
    enough (H : evald r (map (fun kc => (Constant (CStr (fst kc)), Constant (snd kc))) l) h = (Done (map (fun kc => (KStr (u (fst kc)), const (snd kc))) l), h))
      by (unfold seqc; rewrite H; reflexivity).
    induction l as [|[k c] l IH]; [reflexivity|]. cbn [map fst snd SemFacts.evald]. fold (evald r). unfold seqc at 1. cbn [eval]. unfold done at 1. unfold seqc at 1.
    unfold done at 1. unfold seqc. rewrite IH. reflexivity.
  Qed.
  Lemma row_items x : from_items (map (fun kc => (KStr (u (fst kc)), const (snd kc))) (row_lit x)) = str_items (entry_map (row_spec x)).
  Proof. destruct x as [[[[a b] c] d] e]. vm_compute. reflexivity. Qed.
  Fixpoint row_refs (n : nat) (l : list (string * row)) : list (pykey * val) :=
    match l with [] => [] | (k, _) :: l' => (KStr (u k), RefV n) :: row_refs (S n) l' end.
  Lemma row_refs_spec n l : row_refs n l = str_items (spec_refs n (rows_spec l)).
  Proof. revert n. induction l as [|[k x] l IH]; intro n; cbn; [reflexivity|]. f_equal. apply IH. Qed.
  Lemma evald_rows r l : forall h, evald r (map (fun kr => (Constant (CStr (fst kr)), lit_expr (row_lit (snd kr)))) l) h
    = (Done (row_refs (length h) l), h ++ map (fun kf => DictO (str_items (entry_map (snd kf)))) (rows_spec l)).
  Proof.
    induction l as [|[k x] l IH]; intro h; cbn [map rows_spec row_refs fst snd]; [cbn; unfold done; now rewrite app_nil_r|].
    cbn [SemFacts.evald]. unfold seqc at 1. cbn [eval]. unfold done at 1. unfold seqc at 1. rewrite eval_lit, row_items.
    unfold seqc at 1. fold (evald r). rewrite IH, app_length. cbn [length]. rewrite Nat.add_1_r, <- app_assoc. reflexivity.
  Qed.
  Lemma eval_rows r l h : NoDup (map fst (rows_spec l)) ->
    ev r (rows_expr l) h = (Done (RefV (length h + length (rows_spec l))), spec_dicts h (rows_spec l)).
  Proof.
    intro N. change (ev r (rows_expr l)) with (let* d := evald r (map (fun kr => (Constant (CStr (fst kr)), lit_expr (row_lit (snd kr)))) l) in new (DictO (from_items d))).
    unfold seqc. rewrite evald_rows, from_items_nodup, row_refs_spec.
    - unfold new, spec_dicts. rewrite app_length, map_length, <- app_assoc. reflexivity.
    - replace (map fst (row_refs (length h) l)) with (map KStr (map fst (rows_spec l))).
      + apply FinFun.Injective_map_NoDup; [intros ? ?; congruence|exact N].
      + generalize (length h). clear. induction l as [|[k x] l IH]; intro n; cbn; [reflexivity|]. f_equal. apply IH.
  Qed.
End Eval.
Definition distinct (l : list pystr) : bool := (fix nd l := match l with [] => true | x :: l' => negb (existsb (str_eqb x) l') && nd l' end) l.
Lemma distinct_nodup l : distinct l = true -> NoDup l.
Proof.
  induction l as [|x l IH]; intro H; constructor; apply andb_prop in H as [A B]; [|auto]. intro X. apply negb_true_iff in A.
  rewrite <- not_true_iff_false in A. apply A, existsb_exists. exists x. split; [exact X|]. destruct (str_eqb_spec x x); congruence.
Qed.
Lemma default_distinct : NoDup (map fst default). Proof. apply distinct_nodup. vm_compute. reflexivity. Qed.
Lemma default_ascii_distinct : NoDup (map fst default_ascii). Proof. apply distinct_nodup. vm_compute. reflexivity. Qed.
Lemma eval_default E order stdout tbl call locals r h :
  eval E order stdout tbl call locals r src_default h = (Done (RefV (length h + length default)), spec_dicts h default).
Proof. rewrite default_text, eval_rows; rewrite default_rows; [reflexivity|exact default_distinct]. Qed.
Lemma eval_default_ascii E order stdout tbl call locals r h :
  eval E order stdout tbl call locals r src_default_ascii h = (Done (RefV (length h + length default_ascii)), spec_dicts h default_ascii).
Proof. rewrite default_ascii_text, eval_rows; rewrite default_ascii_rows; [reflexivity|exact default_ascii_distinct]. Qed.

(** ** The objects *)
Lemma spec_dicts_length h sp : length (spec_dicts h sp) = S (length h + length sp).
Proof. unfold spec_dicts. rewrite !app_length, map_length. cbn. lia. Qed.
Lemma spec_refs_range n sp k x : sget k (spec_refs n sp) = Some x -> exists l, x = RefV l /\ n <= l < n + length sp.
Proof.
  revert n. induction sp as [|[k' fs] sp IH]; intro n; cbn; [discriminate|]. destruct (str_eqb k k').
  - intros [= <-]. exists n. split; [reflexivity|lia].
  - intro H. destruct (IH _ H) as (l & -> & L). exists l. split; [reflexivity|lia].
Qed.
Lemma spec_refs_own sp k k' x : forall n, sget k (spec_refs n sp) = Some x -> sget k' (spec_refs n sp) = Some x -> k = k'.
Proof.
  induction sp as [|[k1 fs] sp IH]; intro n; cbn; [discriminate|].
  destruct (str_eqb_spec k k1) as [->|], (str_eqb_spec k' k1) as [->|]; intros A B; auto.
  - injection A as <-. destruct (spec_refs_range _ _ _ _ B) as (l & [= <-] & L). lia.
  - injection B as <-. destruct (spec_refs_range _ _ _ _ A) as (l & [= <-] & L). lia.
  - exact (IH _ A B).
Qed.
Lemma spec_dicts_reads h sp h' m k : untouched (spec_dicts h sp) h' -> reads h' (RefV (length h + length sp)) m -> sget k m = sget k (spec_refs (length h) sp).
Proof.
  intros U (items & G & K). rewrite <- K. rewrite U in G by (rewrite spec_dicts_length; lia).
  unfold hget, spec_dicts in G. rewrite app_assoc, nth_error_app2 in G by (rewrite app_length, map_length; lia).
  rewrite app_length, map_length, Nat.sub_diag in G. injection G as <-. apply str_items_get.
Qed.
Lemma spec_dicts_parts h sp h' x : untouched (spec_dicts h sp) h' -> part_of h' (RefV (length h + length sp)) x ->
  exists l, x = RefV l /\ length h <= l < length (spec_dicts h sp).
Proof.
  intros U [->|(m & k & R & G)].
  - eexists. split; [reflexivity|]. rewrite spec_dicts_length. lia.
  - rewrite (spec_dicts_reads _ _ _ _ k U R) in G. destruct (spec_refs_range _ _ _ _ G) as (l & -> & L). exists l. split; [reflexivity|].
    rewrite spec_dicts_length. lia.
Qed.
Lemma spec_dicts_own h sp h' : untouched (spec_dicts h sp) h' -> own_entries h' (RefV (length h + length sp)).
Proof.
  intros U m k k' x R A B. rewrite (spec_dicts_reads _ _ _ _ k U R) in A. rewrite (spec_dicts_reads _ _ _ _ k' U R) in B. exact (spec_refs_own _ _ _ _ _ A B).
Qed.
Lemma untouched_refl h : untouched h h. Proof. intros l _. reflexivity. Qed.

Lemma exec_assign E order stdout tbl call locals x e l r h v h1 : eval E order stdout tbl call locals r e h = (Done v, h1) ->
  exec_block E order stdout tbl call locals (Assign (Name x) e :: l) r h = exec_block E order stdout tbl call locals l (bindv x v r) h1.
Proof. intro H. cbn [exec_block exec]. unfold andthen at 1, with_env at 1, expr_then at 1. rewrite H. reflexivity. Qed.
Local Opaque default default_ascii src_default src_default_ascii.
Theorem specs_as_written E order r h : exists l m h',
  run_module E order r specs_py h = (Next, [("default", RefV l); ("default_ascii", RefV m)], h') /\ untouched h h' /\
  spec_rep h' (RefV l) default /\ spec_rep h' (RefV m) default_ascii /\
  own_entries h' (RefV l) /\ own_entries h' (RefV m) /\
  (forall x, part_of h' (RefV l) x -> part_of h' (RefV m) x -> False) /\
  forall x, part_of h' (RefV l) x \/ part_of h' (RefV m) x -> exists a, x = RefV a /\ length h <= a.
Proof.
  set (h1 := spec_dicts h default). set (h2 := spec_dicts h1 default_ascii).
  exists (length h + length default), (length h1 + length default_ascii), h2.
  assert (U1 : untouched h h1) by apply spec_dicts_rep. assert (U2 : untouched h1 h2) by apply spec_dicts_rep.
  assert (L1 : length h <= length h1) by (unfold h1; rewrite spec_dicts_length; lia).
  split; [|split; [|split; [|split; [|split; [|split; [|split]]]]]].
  - unfold run_module, specs_py. rewrite (exec_assign _ _ _ _ _ _ _ _ _ _ _ _ _ (eval_default _ _ _ _ _ _ _ _)).
    rewrite (exec_assign _ _ _ _ _ _ _ _ _ _ _ _ _ (eval_default_ascii _ _ _ _ _ _ _ _)). reflexivity.
  - intros l L. rewrite U2 by lia. apply U1, L.
  - apply (spec_untouched h1); [apply spec_dicts_rep|]. intros l o G. rewrite U2; [exact G|exact (hget_lt _ _ _ G)].
  - apply spec_dicts_rep.
  - apply (spec_dicts_own h default). exact U2.
  - apply (spec_dicts_own h1 default_ascii). apply untouched_refl.
  - intros x A B. destruct (spec_dicts_parts h default h2 x U2 A) as (l & -> & L).
    destruct (spec_dicts_parts h1 default_ascii h2 _ (untouched_refl _) B) as (m & [= <-] & M). fold h1 in L. lia.
  - intros x [A|B].
    + destruct (spec_dicts_parts h default h2 x U2 A) as (l & -> & L). exists l. split; [reflexivity|lia].
    + destruct (spec_dicts_parts h1 default_ascii h2 x (untouched_refl _) B) as (m & -> & M). exists m. split; [reflexivity|lia].
Qed.

(** ** The round trip, every byte of the library run from its text *)
Theorem shipped_session_round_trip E order : machine E order -> has_ascii E ->
  forall r h rm h0, run_module E order r specs_py h = (Next, rm, h0) ->
  forall name sp spv, shipped name sp -> lookup name rm = Some spv ->
  forall r1 r2 a d sv ev h1 o h2, text_dict h a d ->
  call_encode E order r1 [RefV a; spv] h0 = (Done (TupleV [sv; ev]), h1) -> possible h1 sv ->
  call_decode E order r2 [sv; spv] h1 = (o, h2) ->
  exists e b c, ev = RefV e /\ o = Done (TupleV [RefV b; RefV c]) /\ same_entries h2 e c /\ ~ In a [e; b; c] /\
    (forall k v, item h2 b k = Some v <->
       wire_key sp k /\ exists fs t, sget k sp = Some fs /\ item h2 a k = Some (StrV t) /\ v = StrV (normal fs t)) /\
    (forall k, k <> u "p" -> k <> u "1" -> k <> u "65" -> item h2 a k = item h a k).
Proof.
  intros M Ha r h rm h0 Run name sp spv Sh Lk r1 r2 a d sv ev h1 o h2 D C1 P C2.
  destruct (specs_as_written E order r h) as (l & m & h' & Run' & U & Rd & Ra & _ & _ & _ & New). rewrite Run in Run'. injection Run' as -> ->.
  assert (La := hget_lt _ _ _ (proj1 D)).
  assert (X : spec_rep h' spv sp /\ spec_apart h' spv (RefV a) /\ reversible_spec E sp).
  { assert (Y : forall v, (forall x, part_of h' v x -> exists b, x = RefV b /\ length h <= b) -> spec_apart h' v (RefV a)).
    { intros v Hv. split.
      - destruct (Hv v (or_introl eq_refl)) as (b & -> & L). intros [= ->]. lia.
      - intros i k x R G. destruct (Hv x (or_intror (ex_intro _ i (ex_intro _ k (conj R G))))) as (b & -> & L). intros [= ->]. lia. }
    destruct Sh as [[-> ->]|[-> ->]]; injection Lk as <-.
    - split; [exact Rd|]. split; [apply Y; intros x Hx; apply New; left; exact Hx|]. exact (plain_reversible E _ (proj1 M) Ha default_plain).
    - split; [exact Ra|]. split; [apply Y; intros x Hx; apply New; right; exact Hx|]. exact (plain_reversible E _ (proj1 M) Ha default_ascii_plain). }
  destruct X as (Rs & Ap & Rv).
  assert (D' : text_dict h' a d) by (destruct D as (G & N & S); split; [unfold dec_dict in *; rewrite U by exact La; exact G|split; assumption]).
  destruct (session_round_trip E order M spv sp r1 r2 h' a d sv ev h1 o h2 Rs Ap Rv D' C1 P C2) as (e & b & c & A1 & A2 & A3 & A4 & A5 & A6).
  exists e, b, c. do 5 (split; [assumption|]). intros k N1 N2 N3. rewrite A6 by assumption. unfold item. rewrite U by exact La. reflexivity.
Qed.
