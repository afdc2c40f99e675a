(** * SemEncodeBody: the text of encode() does what the model says. *)
From Coq Require Import ZifyBool ZifyNat ZifyN Permutation.
From Verif Require Import PyBase BaseFacts Types Decoder DecoderFacts Encoder EncoderFacts EncodeRun Shown.
From Verif Require Import PyAst Source PySem SemClaims SemFacts SemHeap SemStep SemDecode SemEncode SemEncodeTop.
Local Open Scope string_scope.
Local Open Scope list_scope.

(** ** The model: sizes of the values of the dict *)
Definition sizes (M : Z) (d : pdoc) : Prop := Forall (fun kp => val_size M (snd kp)) d.
Lemma sizes_sized M d : sizes M d -> sized M d.
Proof.
  intros F k p G. unfold pget in G. induction F as [|[k' v] d V F IH]; cbn in G; [discriminate|].
  destruct (key_eqb k k'); [injection G as <-; exact V|auto].
Qed.
Lemma sizes_more M M' d : (M <= M')%Z -> sizes M d -> sizes M' d.
Proof. intros L F. eapply Forall_impl; [|exact F]. intros [k []] H; cbn in *; lia. Qed.
Lemma sizes_pop M k d : sizes M d -> sizes M (ppop k d).
Proof.
  intro F. induction F as [|[k' v] d V F IH]; cbn; [constructor|]. destruct (key_eqb k k'); [exact F|]. constructor; assumption.
Qed.
Lemma sizes_set M k v d : val_size M v -> sizes M d -> sizes M (pset k v d).
Proof.
  intros S F. induction F as [|[k' v'] d V F IH]; cbn; [repeat constructor; exact S|].
  destruct (key_eqb k k'); constructor; assumption.
Qed.

Definition same {A} (m : EM A) : Prop := forall st, s_dec (snd (m st)) = s_dec st.
Lemma same_bind {A B} (m : EM A) (f : A -> EM B) : same m -> (forall x, same (f x)) -> same (bind m f).
Proof. intros H1 H2 st. unfold bind. specialize (H1 st). destruct (m st) as [[x|x] st1]; cbn in *; [rewrite H2|]; exact H1. Qed.
Lemma same_ret {A} (x : A) : same (ret x). Proof. intro; reflexivity. Qed.
Lemma same_raise {A} x : same (@raise exn estate A x). Proof. intro; reflexivity. Qed.
Lemma same_eraise {A} m k : same (@eraise A m k). Proof. intro; reflexivity. Qed.
Lemma same_prop {A} (o : option A) k : same (prop o k). Proof. intro; destruct o; reflexivity. Qed.
Lemma same_spec sp k : same (spec_get sp k). Proof. intro st. unfold spec_get. destruct (sget k sp); reflexivity. Qed.
Lemma same_set k e : same (eset_enc k e). Proof. intro; reflexivity. Qed.
Lemma same_get k : same (eget_enc k). Proof. intro st. unfold eget_enc. destruct (sget k (s_enc st)); reflexivity. Qed.
Lemma same_getd k : same (eget_dec k). Proof. intro st. unfold eget_dec. destruct (pget (KStr k) (s_dec st)); reflexivity. Qed.
Lemma same_read : same eread_dec. Proof. intro; reflexivity. Qed.
Ltac same1 := match goal with
  | |- forall _, same _ => intro
  | |- same (bind _ _) => apply same_bind
  | |- same (ret _) => apply same_ret
  | |- same (raise _) => apply same_raise
  | |- same (eraise _ _) => apply same_eraise
  | |- same (prop _ _) => apply same_prop
  | |- same (spec_get _ _) => apply same_spec
  | |- same (eset_enc _ _) => apply same_set
  | |- same (eget_enc _) => apply same_get
  | |- same (eget_dec _) => apply same_getd
  | |- same eread_dec => apply same_read
  | |- same (formatted _ _ _) => unfold formatted
  | |- same (let '(_, _) := ?x in _) => destruct x
  | |- same (if ?x then _ else _) => destruct x
  | |- same (match ?x with _ => _ end) => destruct x
  | |- same (let _ := _ in _) => cbv zeta
  | |- same _ => progress unfold eset_enc_data, eset_enc_len, hex_failure, encode_length
  end.
Lemma same_binary p k fs lc : same (encode_binary_field p k fs lc).
Proof. unfold encode_binary_field. cbv zeta. repeat same1. Qed.
Lemma same_text E p k fs lc : same (encode_text_field E p k fs lc).
Proof. unfold encode_text_field. repeat same1. Qed.
Lemma same_field E k fs : same (encode_field E k fs).
Proof. unfold encode_field. repeat first [apply same_binary|apply same_text|same1]. Qed.

Lemma same_header E sp : same (encode_header E sp).
Proof. unfold encode_header. repeat first [apply same_field|same1]. Qed.
Lemma same_type E sp : same (encode_type E sp).
Proof. unfold encode_type. repeat first [apply same_binary|apply same_text|same1]. Qed.
Lemma same_run {A} (m : EM A) st r st' : same m -> m st = (r, st') -> s_dec st' = s_dec st.
Proof. intros S H. specialize (S st). rewrite H in S. exact S. Qed.
Lemma sizes_bitmap E k fs off ext F st r st' M : encode_bitmap E k fs off ext F st = (r, st') -> (17 <= M)%Z ->
  Forall (fun x => (off < x <= off + 64)%Z) F -> sizes M (s_dec st) -> sizes (M + 16) (s_dec st').
Proof.
  intros H L FF S. unfold encode_bitmap in H. cbv zeta in H. set (hx := py_upper (py_hex (make_bitmap off F))) in *.
  assert (Lx : zlen hx = 16%Z).
  { destruct (make_bitmap_spec off F FF) as [L8 _]. unfold hx, zlen, py_upper. rewrite map_length, py_hex_length, L8. reflexivity. }
  unfold bind at 1 in H.
  match type of H with (let (_, _) := ?x st in _) = _ => destruct (x st) as [[[]|x1] st1] eqn:H1 end.
  - assert (S1 : sizes (M + 16) (s_dec st1)).
    { destruct ext; unfold bind, eget_dec, eset_dec, eset_enc, ret, raise in H1.
      - destruct (pget (KStr k) (s_dec st)) as [[o|o|o]|] eqn:G; try discriminate. injection H1 as <-. cbn [s_dec].
        apply sizes_set; [|eapply sizes_more; [|exact S]; lia]. apply (sizes_sized _ _ S) in G. cbn in *.
        unfold zlen in *. rewrite app_length. lia.
      - injection H1 as <-. cbn [s_dec]. apply sizes_set; [|eapply sizes_more; [|exact S]; lia]. cbn. lia. }
    match type of H with ?m st1 = _ => assert (X : same m) by (repeat first [apply same_text|same1]) end.
    rewrite (same_run _ _ _ _ X H). exact S1.
  - injection H as _ <-. destruct ext; unfold bind, eget_dec, eset_dec, eset_enc, ret, raise in H1.
    + destruct (pget (KStr k) (s_dec st)) as [[o|o|o]|] eqn:G; try discriminate; injection H1 as _ <-; (eapply sizes_more; [|exact S]; lia).
    + discriminate.
Qed.

(** ** [f] for every element, until one fails *)
Fixpoint until_fail {A B} (step : A -> B + value) (l : list A) : outcome (list B) :=
  match l with
  | [] => Done []
  | x :: l' => match step x with
               | inr e => Thrown e
               | inl y => match until_fail step l' with Done ys => Done (y :: ys) | o => o end
               end
  end.
Lemma wp_until {A B C} (k : A -> C) (f : C -> comp B) (step : A -> B + value) l (Q : outcome (list B) -> heap -> Prop) h :
  (forall x, wp (f (k x)) (fun o h' => o = match step x with inl y => Done y | inr e => Thrown e end /\ h' = h) h) ->
  Q (until_fail step l) h -> wp (each f (map k l)) Q h.
Proof.
  intros F. revert Q. induction l as [|x l IH]; intros Q H; cbn [each map until_fail] in *; [exact H|].
  apply wp_seq. eapply wp_mono; [apply F|]. intros o h1 [-> ->]. destruct (step x) as [y|e]; [|exact H].
  change (wp (let* bs := each f (map k l) in done (y :: bs)) Q h). apply wp_seq. apply IH.
  destruct (until_fail step l); exact H.
Qed.
Definition int_key (E : pyenv) (k : pykey) : list value + value :=
  match k with
  | KStr s => if isnumeric E s then
                match py_int E s with
                | Some n => inl [IntV n]
                | None => inr (ExcV "ValueError" (u "invalid literal for int()"))
                end
              else inl []
  | KOther _ _ => inr (ExcV "AttributeError" (u "isnumeric"))
  end.
Lemma int_keys E keys : match until_fail (int_key E) keys with
  | Done parts => exists ns, numeric_keys E keys = inr ns /\ concat parts = map IntV ns
  | Thrown x => (numeric_keys E keys = inl false /\ x = ExcV "AttributeError" (u "isnumeric")) \/
                (numeric_keys E keys = inl true /\ x = ExcV "ValueError" (u "invalid literal for int()"))
  | Stuck _ => False
  end.
Proof.
  induction keys as [|[k|i r] keys IH]; cbn [until_fail int_key numeric_keys].
  - exists []. split; reflexivity.
  - destruct (isnumeric E k); [destruct (py_int E k) as [n|]|].
    + destruct (until_fail (int_key E) keys) as [parts|x|w]; [| |exact IH].
      * destruct IH as (ns & -> & Hc). exists (n :: ns). split; [reflexivity|]. cbn. f_equal. exact Hc.
      * destruct IH as [[-> ->]|[-> ->]]; auto.
    + right. auto.
    + destruct (until_fail (int_key E) keys) as [parts|x|w]; exact IH.
  - left. auto.
Qed.
(** [k for k in doc_dec.keys() if not isinstance(k, str)] *)
Definition foreign (k : pykey) : list value := match k with KStr _ => [] | KOther _ _ => [of_key k] end.

Lemma until_never {A B} (g : A -> B) l : until_fail (fun x => inl (g x)) l = Done (map g l).
Proof. induction l as [|x l IH]; cbn; [reflexivity|]. rewrite IH. reflexivity. Qed.
Lemma foreign_repr E keys : Forall2 (fun v t => repr_of E v = done t) (concat (map foreign keys)) (other_keys keys).
Proof. induction keys as [|[k|i r] keys IH]; cbn; [constructor|exact IH|]. constructor; [reflexivity|exact IH]. Qed.
Lemma handle_none E order stdout tbl c vars x (Q : ctl -> env -> heap -> Prop) r h :
  Q (Threw x) r h -> wps (handle E order stdout tbl c vars x []) Q r h.
Proof. exact (fun H => H). Qed.
Lemma ints_repr E l : Forall (fun n => prints E n = true) l ->
  Forall2 (fun v t => repr_of E v = done t) (map IntV l) (map zstr l).
Proof.
  intro F. induction F as [|n l P F IH]; cbn [map]; constructor; [|exact IH]. cbn [repr_of]. unfold int_text. rewrite P. reflexivity.
Qed.
Lemma numeric_prints E keys ns : numeric_keys E keys = inr ns -> Forall (fun n => prints E n = true) ns.
Proof.
  revert ns. induction keys as [|[k|i r] keys IH]; cbn [numeric_keys]; intros ns H; [injection H as <-; constructor| |discriminate].
  destruct (isnumeric E k); [|auto]. destruct (py_int E k) as [n|] eqn:P; [|discriminate].
  destruct (numeric_keys E keys) as [x|l]; [discriminate|]. injection H as <-. constructor; [eauto using int_prints|auto].
Qed.

Definition encode_vars : list string := Eval cbv in locals_of src_encode.

Section Body.
  Context (E : pyenv) (order : list Z -> list Z) (stdout : value) (tbl : list (string * string)).
  Context (h0 : heap) (a b : loc) (La : a < length h0).
  Context (small : forall n, (0 <= n < 2 ^ 70)%Z -> prints E n = true).
  Context (compact : forall enc t bs, str_encode E enc t = COk bs -> (zlen bs <= 64 * (zlen t + 1))%Z).
  Context (orders : forall l, Permutation (order l) l).
  Notation call := (call_fun E order stdout tbl encoder_py).
  Notation einv := (einv h0 a b).
  Notation epost := (epost h0 a b).
  Notation eraised := (eraised h0 a b).
  Implicit Types (Q : outcome value -> heap -> Prop).

  (** encode() has ended. *)
  Definition etop (s : loc) (r : res exn bytes * estate) (o : outcome value) (h' : heap) : Prop :=
    einv h' (snd r) /\
    match fst r with
    | Ok v => o = Done (TupleV [RefV s; RefV b]) /\ hget h' s = Some (BytearrayO v)
    | Raise x => exists xv, o = Thrown xv /\ eraised (snd r) h' xv x
    end.
  Lemma etop_exn s st x xv h : einv h st -> eraised st h xv x -> etop s (Raise x, st) (Thrown xv) h.
  Proof. intros I R. split; [exact I|]. exists xv. auto. Qed.

  Lemma wp_extend h s bs y Q : hget h s = Some (BytearrayO bs) ->
    Q (Done (RefV s)) (hset h s (BytearrayO (bs ++ y))) -> wp (inplace Add (RefV s) (BytesV y)) Q h.
  Proof. intros G H. unfold wp, inplace, seqc, get, put. rewrite G. exact H. Qed.
  Lemma wp_isdict h items Q : hget h a = Some (DictO items) -> Q (Done (BoolV true)) h ->
    wp (call_builtin E order "isinstance" [RefV a; TypeV "dict"] []) Q h.
  Proof. intros G H. unfold wp, call_builtin. cbn [String.eqb Ascii.eqb Bool.eqb andb type_of fst snd]. rewrite G. exact H. Qed.
  Lemma wp_dict_attr h st x Q : einv h st -> mem x dict_methods = true ->
    Q (Done (MethodV (RefV a) x)) h -> wp (getattr stdout (RefV a) x) Q h.
  Proof.
    intros (items & I & _) N H. unfold wp, getattr, seqc, get. destruct (String.eqb_spec x "__class__") as [->|_]; [discriminate N|].
    rewrite (inv_dec _ _ _ _ _ _ I), N. exact H.
  Qed.
  Lemma wp_pop h st k Q : einv h st ->
    (forall v h', einv h' (mkE (ppop (KStr k) (s_dec st)) (s_enc st)) -> keeps [] h h' -> Q (Done v) h') ->
    wp (call_method E order tbl (RefV a) "pop" [StrV k; NoneV] []) Q h.
  Proof.
    intros (items & I & F) H. cbn [call_method]. apply wp_seq. eapply wp_get; [eapply inv_dec, I|].
    change (wp (let* _ := put a (DictO (dpop key_eqb (KStr k) items)) in
                done (match dget key_eqb (KStr k) items with Some v => v | None => NoneV end)) Q h).
    apply wp_seq, wp_put. apply H; [|eapply keeps_hset_dict, inv_dec, I].
    eexists. split; [eapply inv_set_dec, I|]. apply items_pop, F.
  Qed.
  Lemma wp_keys h st Q : einv h st -> Q (Done (KeysV a)) h -> wp (call_method E order tbl (RefV a) "keys" [] []) Q h.
  Proof. intros (items & I & F) H. unfold wp, call_method, seqc, get. rewrite (inv_dec _ _ _ _ _ _ I). exact H. Qed.
  Lemma wp_watched_keys h st (Q : outcome (option (loc * watch)) -> heap -> Prop) : einv h st ->
    (forall wa, still wa h -> Q (Done wa) h) -> wp (watched (KeysV a)) Q h.
  Proof.
    intros (items & I & F) H. unfold wp, watched, seqc, get. rewrite (inv_dec _ _ _ _ _ _ I). apply H.
    unfold still, unchanged, seqc, get. rewrite (inv_dec _ _ _ _ _ _ I), same_keys_refl. reflexivity.
  Qed.
  Lemma wp_iterate_keys h st (Q : outcome (list value) -> heap -> Prop) : einv h st ->
    Q (Done (map of_key (map fst (s_dec st)))) h -> wp (iterate order (KeysV a)) Q h.
  Proof.
    intros (items & I & F) H. unfold wp, iterate, seqc, get. rewrite (inv_dec _ _ _ _ _ _ I).
    rewrite <- (items_keys _ _ _ _ F), map_map in H. exact H.
  Qed.
  Lemma wp_set h l ns Q : hget h l = Some (ListO (map IntV ns)) ->
    Q (Done (RefV (length h))) (h ++ [SetO (zset_of ns)]) -> wp (call_type E order "set" [RefV l]) Q h.
  Proof.
    intros G H. change (wp (let* vs := iterate order (RefV l) in let* ns := each int_of vs in new (SetO (zset_of ns))) Q h).
    apply wp_seq. eapply wp_iterate_list; [exact G|]. unfold kont, wp, done, seqc. rewrite each_ints. exact H.
  Qed.
  Lemma wp_issubset h f F x y Q : hget h f = Some (SetO F) -> Q (Done (BoolV (zsubset_range x y F))) h ->
    wp (call_method E order tbl (RefV f) "issubset" [RangeV x y 1] []) Q h.
  Proof. intros G H. unfold wp, call_method, seqc, get. rewrite G. exact H. Qed.
  Lemma wp_difference h f F x y Q : hget h f = Some (SetO F) ->
    Q (Done (RefV (length h))) (h ++ [SetO (zdiff_range x y F)]) ->
    wp (call_method E order tbl (RefV f) "difference" [RangeV x y 1] []) Q h.
  Proof. intros G H. unfold wp, call_method, seqc, get. rewrite G. exact H. Qed.
  Lemma wp_intersection h f F x y Q : hget h f = Some (SetO F) ->
    Q (Done (RefV (length h))) (h ++ [SetO (zinter_range x y F)]) ->
    wp (call_method E order tbl (RefV f) "intersection" [RangeV x y 1] []) Q h.
  Proof. intros G H. unfold wp, call_method, seqc, get. rewrite G. exact H. Qed.
  Lemma wp_set_add h f F n Q : hget h f = Some (SetO F) ->
    Q (Done NoneV) (hset h f (SetO (zadd n F))) -> wp (call_method E order tbl (RefV f) "add" [IntV n] []) Q h.
  Proof. intros G H. unfold wp, call_method, seqc, get. rewrite G. exact H. Qed.
  Lemma wp_set_truth h f F (Q : outcome bool -> heap -> Prop) : hget h f = Some (SetO F) ->
    Q (Done (match F with [] => false | _ => true end)) h -> wp (truth (RefV f)) Q h.
  Proof. intros G H. unfold wp, truth, seqc, get. rewrite G. exact H. Qed.
  Lemma wp_list_text h l vs ts (Q : outcome pystr -> heap -> Prop) : hget h l = Some (ListO vs) ->
    Forall2 (fun v t => repr_of E v = done t) vs ts -> Q (Done (list_repr ts)) h -> wp (str_of E (RefV l)) Q h.
  Proof.
    intros G F H. cbn [str_of]. apply wp_seq. eapply wp_get; [exact G|]. unfold kont. apply wp_seq.
    assert (X : each (repr_of E) vs = done ts).
    { clear -F. induction F as [|v t vs ts X F IH]; cbn; [reflexivity|]. rewrite X, IH. reflexivity. }
    rewrite X. exact H.
  Qed.

  Lemma keep1 h h' l o : keeps [] h h' -> hget h l = Some o -> is_dict_obj o = false -> hget h' l = Some o.
  Proof. intros K G D. apply K; auto. Qed.
  Ltac adv :=
    let h1 := fresh "h" in let I1 := fresh "I" in let K1 := fresh "K" in intros h1 I1 K1;
    match goal with
    | I : einv ?h _ |- _ =>
        repeat match goal with G : hget h _ = Some _ |- _ => apply (keep1 _ _ _ _ K1) in G; [|reflexivity] end;
        clear K1 I; try clear h; rename I1 into I
    end.
  (** A new object at the end of the heap. *)
  Ltac alloc l G :=
    match goal with
    | I : einv ?h ?st |- context [?h ++ [?o]] =>
        let h1 := fresh "h" in let I1 := fresh "I" in
        assert (I1 : einv (h ++ [o]) st) by exact (einv_new h0 a b h st o I);
        assert (G : hget (h ++ [o]) (length h) = Some o) by apply hget_new;
        assert (length h0 <= length h) by (destruct I as (? & I & _); exact (inv_length _ _ _ _ _ _ I));
        repeat match goal with
               | X : hget h ?x = Some ?p |- _ =>
                   assert (x < length h) by exact (hget_lt _ _ _ X);
                   let X1 := fresh "X" in
                   assert (X1 : hget (h ++ [o]) x = Some p) by (rewrite hget_app; [exact X|exact (hget_lt _ _ _ X)]);
                   clear X; rename X1 into X
               end;
        clear I; rename I1 into I; set (h1 := h ++ [o]) in *; set (l := length h) in *;
        clearbody h1 l; try clear h
    end.
  (** The object at [l], which is not a dict, has changed. *)
  Ltac upd l :=
    match goal with
    | I : einv ?h ?st, G : hget ?h l = Some ?o0 |- context [hset ?h l ?o] =>
        let h1 := fresh "h" in let I1 := fresh "I" in let G1 := fresh "G" in
        assert (I1 : einv (hset h l o) st) by (eapply einv_put; [exact I|exact G|reflexivity|lia]);
        assert (G1 : hget (hset h l o) l = Some o) by (apply hget_hset; exact (hget_lt _ _ _ G));
        clear G; rename G1 into G;
        repeat match goal with
               | X : hget h ?x = Some ?p |- _ =>
                   let X1 := fresh "X" in
                   assert (X1 : hget (hset h l o) x = Some p) by (rewrite hget_hset_other; [exact X|lia]);
                   clear X; rename X1 into X
               end;
        clear I; rename I1 into I; set (h1 := hset h l o) in *; clearbody h1; try clear h
    end.

  Ltac fail_with st := eapply (sem_eraise _ _ _ _ _ _ _ _ _ st); [eassumption|];
    let l := fresh "l" in let h := fresh "h" in let I := fresh "I" in let K := fresh "K" in let R := fresh "R" in
    intros l h I K R; run; apply etop_exn; [exact I|exact R].

  Definition within (x : Z) : Prop := (0 < x < 193)%Z.
  Lemma filter_all {A} (P : A -> Prop) f l : Forall P l -> Forall P (filter f l).
  Proof. intros H. apply Forall_forall. intros x Hx. apply filter_In in Hx as [Hx _]. exact (proj1 (Forall_forall _ _) H x Hx). Qed.
  Lemma zadd_within x l : within x -> Forall within l -> Forall within (zadd x l).
  Proof.
    intros Hx H. apply Forall_forall. intros y Hy. apply zadd_in in Hy as [->|Hy]; [exact Hx|exact (proj1 (Forall_forall _ _) H y Hy)].
  Qed.
  (** After `if 1 in fields` and `if 65 in fields`. *)
  Definition epart2 (s f t : loc) (T : zset) (g : loc) (G : zset) vars l bs M (r : res exn (bytes * zset) * estate)
      (c : ctl) (r' : env) (h' : heap) : Prop :=
    einv h' (snd r) /\
    match fst r with
    | Ok (y, F) => c = Next /\ dom vars r' /\ binds l r' /\ sizes M (s_dec (snd r)) /\
        hget h' s = Some (BytearrayO (bs ++ y)) /\ hget h' f = Some (SetO F) /\
        hget h' t = Some (SetO T) /\ hget h' g = Some (SetO G)
    | Raise x => exists xv, c = Threw xv /\ eraised (snd r) h' xv x
    end.
  Lemma epart2_ok s f t T g G vars l bs M y F st r h : einv h st -> dom vars r -> binds l r -> sizes M (s_dec st) ->
    hget h s = Some (BytearrayO (bs ++ y)) -> hget h f = Some (SetO F) -> hget h t = Some (SetO T) -> hget h g = Some (SetO G) ->
    epart2 s f t T g G vars l bs M (Ok (y, F), st) Next r h.
  Proof. intros. split; [assumption|]. cbn. repeat split; assumption. Qed.
  Lemma epart2_exn s f t T g G vars l bs M x xv st r h : einv h st -> eraised st h xv x ->
    epart2 s f t T g G vars l bs M (Raise x, st) (Threw xv) r h.
  Proof. intros I R. split; [exact I|]. exists xv. auto. Qed.

  Ltac here := eapply einv_frame; eassumption.
  (** The loop over the fields. *)
  Definition efields (s : loc) l (r : res exn bytes * estate) (c : ctl) (r' : env) (h' : heap) : Prop :=
    einv h' (snd r) /\
    match fst r with
    | Ok y => c = Next /\ dom encode_vars r' /\ binds l r' /\ hget h' s = Some (BytearrayO y)
    | Raise x => exists xv, c = Threw xv /\ eraised (snd r) h' xv x
    end.
  Lemma sem_loop n spv sp s fl : spec_held h0 a spv sp -> length h0 <= s ->
    forall h st bs r, let l := [("doc_dec", RefV a); ("spec", spv); ("s", RefV s); ("doc_enc", RefV b)] in
    einv h st -> hget h s = Some (BytearrayO bs) -> sizes (2 ^ 62 + 100) (s_dec st) -> dom encode_vars r -> binds l r ->
    wps (loop (fun v => andthen (assign E order stdout tbl (call (S (S (S (S n))))) encode_vars (Name "field_key") v)
               (exec_block E order stdout tbl (call (S (S (S (S n))))) encode_vars
                 [AugAssign (Name "s") Add (Call (Name "_encode_field")
                   [Name "doc_dec"; Name "doc_enc"; Name "field_key"; Subscript (Name "spec") (Name "field_key")] [])]))
          (map (fun i => StrV (zstr i)) fl))
        (efields s l (encode_fields E sp fl bs st)) r h.
  Proof.
    intros R Ls. induction fl as [|i fl IH]; intros h st bs r l I Gs Sz D B; cbn [map loop encode_fields].
    - run. split; [exact I|]. cbn. auto.
    - remember (fs <- spec_get sp (zstr i);; _) as m eqn:Em. remember (m st) as res eqn:Hm. subst m l. unfold bind, spec_get in Hm.
      run. eapply wp_spec; [here|exact R|]. destruct (sget (zstr i) sp) as [fs|]; [intros fv Rf|]; run.
      2: { rewrite Hm. split; [exact I|]. eexists. split; reflexivity. }
      cbv beta iota zeta delta [ret] in Hm.
      eapply wp_ecall; [eapply (sem_field E order stdout tbl h0 a b La); [exact small|exact compact|exact I|exact Rf|apply sizes_sized; eapply sizes_more; [|exact Sz]; lia]
        |intros y st' Hp; adv; intros _|intros x st' Hp; adv; intros xv Rx]; rewrite Hp in Hm; run.
      + eapply wp_extend; [exact Gs|]. upd s. run.
        apply (same_run _ _ _ _ (same_field E _ fs)) in Hp. rewrite <- Hp in Sz.
        rewrite Hm. eapply IH; [exact I|exact Gs|exact Sz|eassumption|eapply binds_less; [eassumption|repeat constructor]].
      + rewrite Hm. split; [exact I|]. exists xv. auto.
  Qed.

  Lemma sem_encode n spv sp d s h : einv h (mkE d []) -> hget h s = Some (BytearrayO []) -> length h0 <= s ->
    spec_held h0 a spv sp -> sizes (2 ^ 62) d ->
    wps (exec_block E order stdout tbl (call (S (S (S (S n))))) encode_vars (skipn 3 (f_body src_encode)))
      (fun c _ h' => etop s (encode_body E sp (mkE d [])) (outcome_of c) h')
      [("doc_dec", RefV a); ("spec", spv); ("s", RefV s); ("doc_enc", RefV b)] h.
  Proof.
    intros I Gs Ls R Sz. remember (encode_body E sp (mkE d [])) as res eqn:Hm. unfold encode_body in Hm.
    match goal with |- wps (exec_block _ _ _ _ _ ?l ?bd) _ ?r0 _ => let b' := eval hnf in bd in
       change bd with b'; pose (vars := l); change l with vars; pose (r := r0); change r0 with r end.
    cbn [skipn f_body src_encode].
    unfold bind at 1, epop_dec at 1 in Hm. run. eapply wp_dict_attr; [exact I|reflexivity|]. run.
    eapply wp_pop; [exact I|]. intro v1. adv. run. clear v1. cbn [s_dec s_enc] in I, Hm.
    unfold bind at 1, epop_dec at 1 in Hm. run. eapply wp_dict_attr; [exact I|reflexivity|]. run.
    eapply wp_pop; [exact I|]. intro v1. adv. run. clear v1. cbn [s_dec s_enc] in I, Hm. apply (sizes_pop _ (KStr (u "1"))) in Sz.
    apply (sizes_pop _ (KStr (u "65"))) in Sz. set (st := mkE _ _) in *. change (sizes (2 ^ 62) (s_dec st)) in Sz. clearbody st. clear d.
    apply (sizes_more _ (2 ^ 62 + 52)) in Sz; [|lia].
    run. unfold bind at 1 in Hm.
    eapply wp_ecall; [eapply (sem_header E order stdout tbl h0 a b La); [exact small|exact compact|exact I|exact R|apply sizes_sized; eapply sizes_more; [|exact Sz]; lia]
      |intros v1 st1 Hp; adv; intros _|intros x st' Hp; adv; intros xv Rx]; rewrite Hp in Hm.
    2: { run. rewrite Hm. apply etop_exn; assumption. }
    apply (same_run _ _ _ _ (same_header E sp)) in Hp. rewrite <- Hp in Sz. clear Hp st. rename st1 into st.
    run. eapply wp_extend; [exact Gs|]. upd s. run. cbn [app] in Gs.
    unfold bind at 1 in Hm.
    eapply wp_ecall; [eapply (sem_type E order stdout tbl h0 a b La); [exact small|exact compact|exact I|exact R|apply sizes_sized; eapply sizes_more; [|exact Sz]; lia]
      |intros v2 st1 Hp; adv; intros _|intros x st' Hp; adv; intros xv Rx]; rewrite Hp in Hm.
    2: { run. rewrite Hm. apply etop_exn; assumption. }
    apply (same_run _ _ _ _ (same_type E sp)) in Hp. rewrite <- Hp in Sz. clear Hp st. rename st1 into st.
    run. eapply wp_extend; [exact Gs|]. upd s. run.
    unfold bind at 1, eread_dec at 1 in Hm.
    match goal with r := ((?x, ?v) :: ?l0) |- _ => set (l := (x, v) :: l0) in r; assert (D : dom vars r) by (apply dom_list; reflexivity);
      assert (B : binds l r) by repeat constructor; subst l; clearbody r end.
    apply ev_ListComp. run. eapply wp_dict_attr; [exact I|reflexivity|]. run. eapply wp_keys; [exact I|]. run.
    eapply wp_watched_keys; [exact I|]. intros wa Sw. run.
    eapply wp_iterate_keys; [exact I|]. run.
    apply (wp_until of_key _ (int_key E)).
    { intro kk. apply wp_step_pure; [exact Sw|intro; destruct kk as [k|]; cbn [int_key]; [destruct (isnumeric E k); [destruct (py_int E k)|]|]; discriminate|].
      revert kk. intros [k|i t]; cbn [of_key int_key]; run; bind_var; run.
      - match goal with |- wp (call_method _ _ _ _ _ _ _) ?Q ?h9 => refine (wp_done (BoolV (isnumeric E k)) Q h9 _) end. run.
        destruct (isnumeric E k); run; [|split; reflexivity]. apply wp_int; [left; reflexivity|]. destruct (py_int E k); run; split; reflexivity.
      - match goal with |- wp _ ?Q ?h9 => refine (wp_throw "AttributeError" (u "isnumeric") Q h9 _) end. run. split; reflexivity. }
    assert (X := int_keys E (map fst (s_dec st))). destruct (until_fail (int_key E) (map fst (s_dec st))) as [parts|x|w]; [| |destruct X].
    2: { destruct X as [[X ->]|[X ->]]; rewrite X in Hm; run.
      - apply ev_ListComp. run. eapply wp_dict_attr; [exact I|reflexivity|]. run. eapply wp_keys; [exact I|]. run.
        eapply wp_watched_keys; [exact I|]. clear wa Sw. intros wa Sw. run.
        eapply wp_iterate_keys; [exact I|]. run.
        apply (wp_until of_key _ (fun k => inl (foreign k))).
        { intro kk. apply wp_step_pure; [exact Sw|discriminate|]. revert kk. intros [k|i t]; cbn [of_key foreign]; run; bind_var; run; 
          match goal with |- wp _ ?Q ?h9 => first [refine (wp_done (BoolV true) Q h9 _)|refine (wp_done (BoolV false) Q h9 _)] end; 
            run; cbn [negb]; run; split; reflexivity. }
        rewrite until_never. run. apply wp_new. run. alloc l Gl.
        eapply wp_list_text; [exact Gl|apply foreign_repr|]. run. rewrite Hm. fail_with st.
      - apply handle_none. run. rewrite Hm. apply etop_exn; [exact I|]. eexists. reflexivity. }
    destruct X as (ns & X & Hc). rewrite X in Hm. run. rewrite Hc. clear parts Hc.
    apply wp_new. alloc l Gl. run. eapply wp_set; [exact Gl|]. clear Gl. alloc f Gf. run.
    apply numeric_prints in X. assert (SF : zsorted (zset_of ns)) by (apply zupdate_sorted; constructor).
    assert (PF : Forall (fun n => prints E n = true) (zset_of ns)).
    { apply Forall_forall. intros x Hx. apply zupdate_in in Hx as [[]|Hx]. rewrite Forall_forall in X. auto. }
    clear X. cbv zeta in Hm. set (F := zset_of ns) in *. clearbody F. clear ns.
    eapply wp_set_attr; [exact Gf|reflexivity|]. run. eapply wp_issubset; [exact Gf|]. run.
    destruct (zsubset_range 1 193 F) eqn:Sub; cbn [negb] in *; run.
    2: { eapply wp_set_attr; [exact Gf|reflexivity|]. run. eapply wp_difference; [exact Gf|]. alloc g Gg. run.
      eapply wp_sorted; [exact Gg|apply filter_sorted, SF|apply orders|]. alloc m Gm. run.
      eapply wp_list_text; [exact Gm| |].
      { apply ints_repr. unfold zdiff_range. apply Forall_forall. intros x Hx. apply filter_In in Hx as [Hx _].
        rewrite Forall_forall in PF. auto. }
      run. rewrite Hm. fail_with st. }
    clear PF.
    eapply wp_set_attr; [exact Gf|reflexivity|]. run. eapply wp_intersection; [exact Gf|].
    alloc t Gtt. run.
    set (T := zinter_range 129 193 F) in *.
    eapply wp_set_truth; [exact Gtt|]. run.
    set (F1 := match T with [] => F | _ => zadd 65 F end) in *.
    match goal with |- wps _ _ ?r0 _ => eapply (wps_mono _ (fun c r' h' => c = Next /\ r' = r0 /\ einv h' st /\
      hget h' s = Some (BytearrayO (v1 ++ v2)) /\ hget h' f = Some (SetO F1) /\ hget h' t = Some (SetO T))) end.
    { unfold F1. destruct T; run; [repeat split; assumption|]. eapply wp_set_attr; [exact Gf|reflexivity|]. run.
      eapply wp_set_add; [exact Gf|]. upd f. run. repeat split; assumption. }
    intros c r' h' (-> & -> & I' & Gs' & Gf' & Gt'). clear I Gs Gf Gtt. try clear h1. rename I' into I, Gs' into Gs, Gf' into Gf, Gt' into GT.
    assert (SF1 : zsorted F1) by (unfold F1; destruct T; [exact SF|apply zadd_sorted, SF]).
    run. eapply wp_set_attr; [exact Gf|reflexivity|]. run. eapply wp_intersection; [exact Gf|]. alloc g Gg. run.
    set (S2 := zinter_range 65 129 F1) in *.
    eapply wp_set_truth; [exact Gg|]. run.
    set (F2 := match S2 with [] => F1 | _ => zadd 1 F1 end) in *.
    match goal with |- wps _ _ ?r0 _ => eapply (wps_mono _ (fun c r' h' => c = Next /\ r' = r0 /\ einv h' st /\
      hget h' s = Some (BytearrayO (v1 ++ v2)) /\ hget h' f = Some (SetO F2) /\ hget h' t = Some (SetO T) /\
      hget h' g = Some (SetO S2))) end.
    { unfold F2. destruct S2; run; [repeat split; assumption|]. eapply wp_set_attr; [exact Gf|reflexivity|]. run.
      eapply wp_set_add; [exact Gf|]. upd f. run. repeat split; assumption. }
    intros c r' h' (-> & -> & I' & Gs' & Gf' & Gt' & Gg').
clear I Gs Gf GT Gg. try clear h2. try clear h1. rename I' into I, Gs' into Gs, Gf' into Gf, Gt' into GT, Gg' into GS.
    assert (SF2 : zsorted F2) by (unfold F2; destruct S2; [exact SF1|apply zadd_sorted, SF1]).
    assert (W2 : Forall within F2).
    { assert (WF : Forall within F) by (apply Forall_forall; intros x Hx; apply (proj1 (forallb_forall _ _) Sub), in_range_spec in Hx; unfold within; lia).
      assert (W1 : Forall within F1) by (unfold F1; destruct T; [exact WF|apply zadd_within; [unfold within; lia|exact WF]]).
      unfold F2; destruct S2; [exact W1|apply zadd_within; [unfold within; lia|exact W1]]. }
    unfold bind at 1, spec_get at 1 in Hm.
    run. eapply wp_spec; [here|exact R|]. destruct (sget (u "p") sp) as [fs|]; [intros fv Rf|]; run.
    2: { rewrite Hm. apply etop_exn; [exact I|reflexivity]. }
    cbv beta iota zeta delta [ret] in Hm. unfold bind at 1 in Hm.
    eapply wp_set_attr; [exact Gf|reflexivity|]. run. eapply wp_intersection; [exact Gf|]. alloc q Gq. run.
    assert (FP : Forall (fun x => (0 < x <= 0 + 64)%Z) (zinter_range 1 65 F2)).
    { apply Forall_forall. intros x Hx. apply filter_In in Hx as [_ Hx]. apply in_range_spec in Hx. lia. }
    eapply wp_ecall; [eapply (sem_bitmap E order stdout tbl h0 a b La small compact orders);
      [exact I|exact Rf|exact Gq|exact FP]
      |intros v3 st1 Hp; adv; intros _|intros x st' Hp; adv; intros xv Rx]; cbn [const] in Hm; rewrite Hp in Hm.
    2: { run. rewrite Hm. apply etop_exn; assumption. }
    apply (sizes_bitmap _ _ _ _ _ _ _ _ _ (2 ^ 62 + 52)) in Hp; [|lia|exact FP|exact Sz]. clear Sz st Gq FP. rename Hp into Sz, st1 into st.
    run. eapply wp_extend; [exact Gs|]. upd s. run.
    eapply wp_set_in; [exact Gf|]. run. unfold bind at 1 in Hm.
    match type of Hm with _ = (let (_, _) := ?x ?y in _) => remember (x y) as pa eqn:Ha end.
    match goal with |- wps _ _ ?r0 _ => match goal with B0 : binds ?l r0, G : hget _ s = Some (BytearrayO ?bs) |- _ =>
      eapply (wps_mono _ (epart2 s f t T g S2 vars l bs (2 ^ 62 + 52 + 16 + 16) pa)) end end.
    { clear Hm. destruct (zmem 1 F2) eqn:M1; run.
      2: { rewrite Ha. apply epart2_ok; try assumption; [eapply sizes_more; [|exact Sz]; lia|rewrite app_nil_r; exact Gs]. }
      unfold bind at 1, spec_get at 1 in Ha.
      eapply wp_spec; [here|exact R|]. destruct (sget (u "1") sp) as [fs1|]; [intros fv1 Rf1|]; run.
      2: { rewrite Ha. apply epart2_exn; [exact I|reflexivity]. }
      cbv beta iota zeta delta [ret] in Ha. unfold bind at 1 in Ha.
      assert (FP : Forall (fun x => (64 < x <= 64 + 64)%Z) S2).
      { apply Forall_forall. intros x Hx. apply filter_In in Hx as [_ Hx]. apply in_range_spec in Hx. lia. }
      eapply wp_ecall; [eapply (sem_bitmap E order stdout tbl h0 a b La small compact orders);
        [exact I|exact Rf1|exact GS|exact FP]
        |intros v4 st1 Hp; adv; intros _|intros x st' Hp; adv; intros xv Rx]; cbn [const] in Ha; rewrite Hp in Ha.
      2: { run. rewrite Ha. apply epart2_exn; assumption. }
      apply (sizes_bitmap _ _ _ _ _ _ _ _ _ (2 ^ 62 + 52 + 16)) in Hp; [|lia|exact FP|exact Sz].
      run. eapply wp_extend; [exact Gs|]. upd s. run.
      eapply wp_set_attr; [exact Gf|reflexivity|]. run. eapply wp_set_remove; [exact Gf|exact M1|]. upd f. run.
      rewrite Ha. apply epart2_ok; try assumption. }
    intros c rr h' (I' & H'). clear I Gs Gf GT GS. rename I' into I. forget_env. try clear h1. try clear h.
    destruct pa as [[[v4 F3]|x] st1]; cbn [fst snd] in *.
    2: { destruct H' as (xv & -> & Rx). run. rewrite Hm. apply etop_exn; assumption. }
    destruct H' as (-> & D & B & Sz' & Gs & Gf & GT & GS). clear Sz. rename Sz' into Sz.
    assert (SF3 : zsorted F3).
    { destruct (zmem 1 F2); unfold bind, spec_get, ret, raise in Ha;
        [destruct (sget (u "1") sp) as [fs1|]; [|discriminate];
         destruct (encode_bitmap E (u "1") fs1 _ _ _ st) as [[?|?] ?]; [|discriminate]|]; injection Ha; intros; subst; [apply filter_sorted|]; exact SF2. }
    assert (W3 : Forall within F3).
    { destruct (zmem 1 F2); unfold bind, spec_get, ret, raise in Ha;
        [destruct (sget (u "1") sp) as [fs1|]; [|discriminate];
         destruct (encode_bitmap E (u "1") fs1 _ _ _ st) as [[?|?] ?]; [|discriminate]|]; injection Ha; intros; subst; [apply filter_all|]; exact W2. }
    clear Ha st. rename st1 into st. run.
    eapply wp_set_in; [exact Gf|]. run. unfold bind at 1 in Hm.
    match type of Hm with _ = (let (_, _) := ?x ?y in _) => remember (x y) as pa eqn:Ha end.
    match goal with |- wps _ _ ?r0 _ => match goal with B0 : binds ?l r0, G : hget _ s = Some (BytearrayO ?bs) |- _ =>
      eapply (wps_mono _ (epart2 s f t T g S2 vars l bs (2 ^ 62 + 52 + 16 + 16 + 16) pa)) end end.
    { clear Hm. destruct (zmem 65 F3) eqn:M1; run.
      2: { rewrite Ha. apply epart2_ok; try assumption; [eapply sizes_more; [|exact Sz]; lia|rewrite app_nil_r; exact Gs]. }
      unfold bind at 1, spec_get at 1 in Ha.
      eapply wp_spec; [here|exact R|]. destruct (sget (u "1") sp) as [fs1|]; [intros fv1 Rf1|]; run.
      2: { rewrite Ha. apply epart2_exn; [exact I|reflexivity]. }
      cbv beta iota zeta delta [ret] in Ha. unfold bind at 1 in Ha.
      assert (FP : Forall (fun x => (128 < x <= 128 + 64)%Z) T).
      { apply Forall_forall. intros x Hx. apply filter_In in Hx as [_ Hx]. apply in_range_spec in Hx. lia. }
      eapply wp_ecall; [eapply (sem_bitmap E order stdout tbl h0 a b La small compact orders);
        [exact I|exact Rf1|exact GT|exact FP]
        |intros v5 st1 Hp; adv; intros _|intros x st' Hp; adv; intros xv Rx]; cbn [const] in Ha; rewrite Hp in Ha.
      2: { run. rewrite Ha. apply epart2_exn; assumption. }
      apply (sizes_bitmap _ _ _ _ _ _ _ _ _ (2 ^ 62 + 52 + 16 + 16)) in Hp; [|lia|exact FP|exact Sz].
      run. eapply wp_extend; [exact Gs|]. upd s. run.
      eapply wp_set_attr; [exact Gf|reflexivity|]. run. eapply wp_set_remove; [exact Gf|exact M1|]. upd f. run.
      rewrite Ha. apply epart2_ok; try assumption. }
    intros c rs h'' (I' & H'). clear I Gs Gf GT GS. rename I' into I. forget_env. try clear h1. try clear h.
    destruct pa as [[[v5 F4]|x] st1]; cbn [fst snd] in *.
    2: { destruct H' as (xv & -> & Rx). run. rewrite Hm. apply etop_exn; assumption. }
    destruct H' as (-> & D & B & Sz' & Gs & Gf & GT & GS). clear Sz. rename Sz' into Sz.
    assert (SF4 : zsorted F4).
    { destruct (zmem 65 F3); unfold bind, spec_get, ret, raise in Ha;
        [destruct (sget (u "1") sp) as [fs1|]; [|discriminate];
         destruct (encode_bitmap E (u "1") fs1 _ _ _ st) as [[?|?] ?]; [|discriminate]|]; injection Ha; intros; subst; [apply filter_sorted|]; exact SF3. }
    assert (W4 : Forall within F4).
    { destruct (zmem 65 F3); unfold bind, spec_get, ret, raise in Ha;
        [destruct (sget (u "1") sp) as [fs1|]; [|discriminate];
         destruct (encode_bitmap E (u "1") fs1 _ _ _ st) as [[?|?] ?]; [|discriminate]|]; injection Ha; intros; subst; [apply filter_all|]; exact W3. }
    clear Ha st. rename st1 into st. run.
    apply ev_ListComp. run. eapply wp_sorted; [exact Gf|exact SF4|apply orders|]. alloc m Gm. run.
    eapply wp_watched_list; [exact Gm|]. run. eapply wp_iterate_list; [exact Gm|]. run. clear Gm.
    match goal with I : einv ?hh _ |- _ => apply (wp_each_map _ _ (fun i => [StrV (zstr i)]) (eq hh)) end.
    { intros i hx Hi <-. run. apply wp_nested; [|intros ? ? [? _]; discriminate]. run. bind_var. run. apply (proj1 (Forall_forall _ _) W4) in Hi. unfold within in Hi.
      eapply wp_seq. cbn [str_of]. apply wp_int_text; [apply small; lia|]. run. split; reflexivity. }
    { reflexivity. }
    intros hx <-. run. replace (concat (map (fun i => [StrV (zstr i)]) F4)) with (map (fun i => StrV (zstr i)) F4).
    2: { clear. induction F4 as [|x F IH]; cbn; [reflexivity|]. f_equal. exact IH. }
    apply wp_new. alloc m2 Gm. run. eapply wp_watched_list; [exact Gm|]. run. eapply wp_iterate_list; [exact Gm|]. run. cbv delta [step_of] beta iota.
    match type of Hm with _ = ?x => remember x as pa eqn:Ha end.
    eapply wps_mono; [eapply (sem_loop _ spv sp s F4 R Ls); [exact I|exact Gs|eapply sizes_more; [|exact Sz]; lia|eassumption|eapply binds_less; [eassumption|repeat constructor]]|].
    replace (((((v1 ++ v2) ++ v3) ++ v4) ++ v5)) with (v1 ++ v2 ++ v3 ++ v4 ++ v5) by (rewrite !app_assoc; reflexivity).
    rewrite <- Ha. clear Ha. rewrite Hm. clear Hm. intros c rz hz (Iz & Hz).
    destruct pa as [[y|x] st2]; cbn [fst snd] in *.
    - destruct Hz as (-> & Dz & Bz & Gz). run. split; [exact Iz|]. split; [reflexivity|exact Gz].
    - destruct Hz as (xv & -> & Rx). run. apply etop_exn; assumption.
  Qed.
End Body.
