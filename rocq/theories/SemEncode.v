(** * SemEncode: running the text of encoder.py gives what the model says. *)
From Coq Require Import ZifyBool ZifyNat ZifyN Permutation.
From Verif Require Import PyBase BaseFacts PyFormat FormatFacts Types Decoder DecoderFacts Encoder EncoderFacts PyAst Source PySem SemClaims SemFacts SemHeap SemStep SemDecode.
Local Open Scope string_scope.
Local Open Scope list_scope.

Lemma odd_of_nat n : Z.odd (Z.of_nat n) = Nat.odd n.
Proof. induction n as [|n IH]; [reflexivity|]. rewrite Nat2Z.inj_succ, Z.odd_succ, Nat.odd_succ, <- Z.negb_odd, <- Nat.negb_odd. now rewrite IH. Qed.
Lemma mod_two n : (n mod 2 =? 1)%Z = Z.odd n.
Proof. rewrite Zmod_odd. destruct (Z.odd n); reflexivity. Qed.

(** Values of the dict short enough to be in memory. *)
Definition val_size (M : Z) (p : pyval) : Prop :=
  match p with VStr s => (zlen s < M)%Z | VBytes bs => (zlen bs < M)%Z | VOther _ => True end.

Section Encode.
  Context (E : pyenv) (order : list Z -> list Z) (stdout : value) (tbl : list (string * string)).
  Context (h0 : heap) (a b : loc) (La : a < length h0).
  Notation inv := (Inv h0 a b).
  Notation call := (call_fun E order stdout tbl encoder_py).
  Notation val_rep := (val_rep h0 a).

  Implicit Types (Q : outcome value -> heap -> Prop).

  (** Each item was there before or is a str. *)
  Definition kept (kv : pykey * value) : Prop :=
    (exists items, hget h0 a = Some (DictO items) /\ In kv items) \/ exists t, snd kv = StrV t.
  Definition items_rep (items : list (pykey * value)) (d : pdoc) : Prop :=
    Forall2 (fun kv kp => fst kv = fst kp /\ val_rep (snd kv) (snd kp) /\ kept kv) items d.
  Lemma items_rep_start items d : hget h0 a = Some (DictO items) -> SemClaims.items_rep h0 a items d -> items_rep items d.
  Proof.
    intros G F. assert (X : forall kv, In kv items -> kept kv) by (intros kv H; left; exists items; auto). clear G.
    unfold items_rep. induction F as [|kv kp items d [A V] F IH]; constructor.
    - split; [exact A|]. split; [exact V|]. apply X. left. reflexivity.
    - apply IH. intros kv' H. apply X. right. exact H.
  Qed.
  Definition einv (h : heap) (st : estate) : Prop :=
    exists items, inv h items (s_enc st) /\ items_rep items (s_dec st).

  Lemma einv_frame h st : einv h st -> framed h0 a h.
  Proof. intros (items & I & _). exact (inv_frame _ _ _ _ _ _ I). Qed.
  Ltac here := eapply einv_frame; eassumption.
  Lemma items_get items d k : items_rep items d ->
    match dget key_eqb k d with
    | Some p => exists v, dget key_eqb k items = Some v /\ val_rep v p
    | None => dget key_eqb k items = None
    end.
  Proof.
    intro F. induction F as [|[k1 v] [k2 p] items d (X & V & _) F IH]; cbn in *; [reflexivity|]. subst k2.
    destruct (key_eqb k k1); [exists v; auto|exact IH].
  Qed.
  Lemma items_set items d k t : items_rep items d ->
    items_rep (dset key_eqb k (StrV t) items) (dset key_eqb k (VStr t) d).
  Proof.
    intros F. assert (V : forall k', kept (k', StrV t)) by (intro; right; exists t; reflexivity).
    induction F as [|[k1 v1] [k2 p1] items d (X & V1) F IH]; cbn in *.
    - constructor; [split; [reflexivity|split; [reflexivity|apply V]]|constructor].
    - subst k2. destruct (key_eqb k k1); constructor; auto. split; [reflexivity|split; [reflexivity|apply V]].
  Qed.
  Lemma items_pop items d k : items_rep items d -> items_rep (dpop key_eqb k items) (dpop key_eqb k d).
  Proof.
    intros F. induction F as [|[k1 v1] [k2 p1] items d [X V1] F IH]; cbn in *; [constructor|].
    subst k2. destruct (key_eqb k k1); [exact F|]. constructor; auto.
  Qed.
  Lemma items_mem items d k : items_rep items d -> dmem key_eqb k items = dmem key_eqb k d.
  Proof.
    intros F. unfold dmem. assert (X := items_get items d k F). destruct (dget key_eqb k d); [destruct X as (v & -> & _)|rewrite X]; reflexivity.
  Qed.
  Lemma items_keys items d : items_rep items d -> map fst items = map fst d.
  Proof. intro F. induction F as [|x y items d [X _] F IH]; cbn; congruence. Qed.

  (** EncodeError(msg, doc_dec, doc_enc, field) *)
  Definition encode_error_obj (e : encode_error) : object :=
    InstO "EncodeError"
      [("msg", StrV (ee_msg e)); ("doc_dec", RefV a); ("doc_enc", RefV b); ("field", StrV (ee_field e))]
      [StrV (ee_args0 e)].
  Lemma sem_EncodeError n h items ed msg field dd de Q :
    inv h items ed ->
    (forall l h', inv h' items ed -> keeps [] h h' -> length h0 <= l ->
       hget h' l = Some (encode_error_obj (EncodeError msg dd de field)) -> Q (Done (RefV l)) h') ->
    wp (instantiate (call (S n)) "EncodeError" [StrV msg; RefV a; RefV b; StrV field]) Q h.
  Proof.
    intros I H. unfold instantiate. run. apply wp_new. run. enter.
    assert (L := inv_length _ _ _ _ _ _ I).
    assert (I1 := inv_new _ _ _ _ _ _ (InstO "EncodeError" [] []) I).
    assert (G1 := hget_new h (InstO "EncodeError" [] [])).
    assert (K1 : keeps [length h] h (h ++ [InstO "EncodeError" [] []])) by apply keeps_new.
    revert I1 G1 K1. generalize (h ++ [InstO "EncodeError" [] []]). intros h1 I1 G1 K1.
    run.
    cbn [call_method String.eqb Ascii.eqb Bool.eqb andb]. run. eapply wp_get; [exact G1|]. run.
    apply wp_put. run.
    match goal with |- wp _ _ ?h2 =>
      assert (I2 : inv h2 items ed) by (eapply inv_put; eauto);
      assert (K2 : keeps [length h] h h2)
        by (eapply keeps_trans; [exact K1|apply keeps_hset_ex; left; reflexivity]);
      assert (G2 : hget h2 (length h) = Some (InstO "EncodeError" []
        [StrV (msg ++ u ": field " ++ field)]))
        by (apply hget_hset; eauto using hget_lt);
      revert I2 K2 G2; generalize h2
    end.
    intros h2 I2 K2 G2.
    eapply (wp_setattr h0 a b); [exact I2|exact L|exact K2|exact G2|]. intros h3 I3 K3 G3. run.
    eapply (wp_setattr h0 a b); [exact I3|exact L|exact K3|exact G3|]. intros h4 I4 K4 G4. run.
    eapply (wp_setattr h0 a b); [exact I4|exact L|exact K4|exact G4|]. intros h5 I5 K5 G5. run.
    eapply (wp_setattr h0 a b); [exact I5|exact L|exact K5|exact G5|]. intros h6 I6 K6 G6. run.
    apply H; [exact I6|apply keeps_drop; exact K6|exact L|exact G6].
  Qed.

  (** The exception the model names, as an object. *)
  Definition eraised (st : estate) (h : heap) (xv : value) (x : exn) : Prop :=
    match x with
    | XEncodeError e =>
        ee_doc_dec e = s_dec st /\ ee_doc_enc e = s_enc st /\
        exists l, xv = RefV l /\ length h0 <= l /\ hget h l = Some (encode_error_obj e)
    | XKeyError k => xv = ExcV "KeyError" k
    | XTypeError t => xv = ExcV "TypeError" t
    | XValueError => exists t, xv = ExcV "ValueError" t
    | XUnboundLocalError => xv = ExcV "UnboundLocalError" (u "data_to_encode")
    | _ => False
    end.
  Definition epost (h : heap) {A} (inj : A -> value) (P : A -> Prop)
      (r : res exn A * estate) (o : outcome value) (h' : heap) : Prop :=
    keeps [] h h' /\ einv h' (snd r) /\
    match fst r with
    | Ok v => o = Done (inj v) /\ P v
    | Raise x => exists xv, o = Thrown xv /\ eraised (snd r) h' xv x
    end.

  Lemma wp_pget h st k Q : einv h st ->
    match pget (KStr k) (s_dec st) with
    | Some p => forall v, val_rep v p -> Q (Done v) h
    | None => Q (Thrown (ExcV "KeyError" k)) h
    end -> wp (getitem (RefV a) (StrV k)) Q h.
  Proof.
    intros (items & I & F) H. eapply wp_get_dec; [exact I|reflexivity|]. apply (items_get _ _ (KStr k)) in F. unfold pget in H.
    destruct (dget key_eqb (KStr k) (s_dec st)); [destruct F as (v & -> & V); exact (H v V)|rewrite F; exact H].
  Qed.
  Lemma wp_pset h st k t (Q : outcome unit -> heap -> Prop) : einv h st ->
    (forall h', einv h' (mkE (pset (KStr k) (VStr t) (s_dec st)) (s_enc st)) -> keeps [] h h' -> Q (Done tt) h') ->
    wp (setitem (RefV a) (StrV k) (StrV t)) Q h.
  Proof.
    intros (items & I & F) H. eapply wp_set_dec; [exact I|reflexivity|]. intros h' I' K. apply H; [|exact K].
    eexists. split; [exact I'|]. apply items_set; assumption.
  Qed.
  Lemma wp_phas h st k (Q : outcome bool -> heap -> Prop) : einv h st -> Q (Done (pmem k (s_dec st))) h ->
    wp (contains (StrV k) (RefV a)) Q h.
  Proof.
    intros (items & I & F) H. eapply wp_dec_has; [exact I|reflexivity|]. rewrite (items_mem _ _ _ F). exact H.
  Qed.
  Lemma wp_pnot h st k (Q : outcome bool -> heap -> Prop) : einv h st -> Q (Done (negb (pmem k (s_dec st)))) h ->
    wp (compare CmpNotIn (StrV k) (RefV a)) Q h.
  Proof. intros I H. cbn [compare]. apply wp_seq. eapply wp_phas; [exact I|]. exact H. Qed.
  Lemma wp_enew h st k e (Q : outcome unit -> heap -> Prop) : einv h st ->
    (forall h', einv h' (mkE (s_dec st) (sset k e (s_enc st))) -> keeps [] h h' -> Q (Done tt) h') ->
    wp (setitem (RefV b) (StrV k) (RefV (length h))) Q (h ++ [entry_obj e]).
  Proof.
    intros (items & I & F) H. eapply (wp_set_enc h0 a b); [exact I|]. intros h' I' K. apply H; [|exact K]. exists items. auto.
  Qed.
  Lemma wp_eget h st k Q : einv h st ->
    match sget k (s_enc st) with
    | Some e => forall l, hget h l = Some (entry_obj e) ->
        (forall e', einv (hset h l (entry_obj e')) (mkE (s_dec st) (sset k e' (s_enc st)))) -> Q (Done (RefV l)) h
    | None => Q (Thrown (ExcV "KeyError" k)) h
    end -> wp (getitem (RefV b) (StrV k)) Q h.
  Proof.
    intros (items & I & F) H. eapply (wp_get_enc h0 a b); [exact I|]. destruct (sget k (s_enc st)); [|exact H].
    intros l G X. apply H; [exact G|]. intro e'. exists items. split; [exact (X e')|exact F].
  Qed.
  Lemma wp_edata h st k l e d (Q : outcome unit -> heap -> Prop) : hget h l = Some (entry_obj e) ->
    (forall e', einv (hset h l (entry_obj e')) (mkE (s_dec st) (sset k e' (s_enc st)))) ->
    (forall h', einv h' (mkE (s_dec st) (sset k (mkEntry (e_len e) d) (s_enc st))) -> keeps [] h h' -> Q (Done tt) h') ->
    wp (setitem (RefV l) (StrV (u "data")) (BytesV d)) Q h.
  Proof.
    intros G X H. cbn [setitem]. run. eapply wp_get; [exact G|]. run. cbn [key_of]. apply wp_put.
    apply H; [exact (X (mkEntry (e_len e) d))|eapply keeps_hset_dict, G].
  Qed.
  Lemma wp_elen h st k l e d (Q : outcome unit -> heap -> Prop) : hget h l = Some (entry_obj e) ->
    (forall e', einv (hset h l (entry_obj e')) (mkE (s_dec st) (sset k e' (s_enc st)))) ->
    (forall h', einv h' (mkE (s_dec st) (sset k (mkEntry d (e_data e)) (s_enc st))) -> keeps [] h h' -> Q (Done tt) h') ->
    wp (setitem (RefV l) (StrV (u "len")) (BytesV d)) Q h.
  Proof.
    intros G X H. cbn [setitem]. run. eapply wp_get; [exact G|]. run. cbn [key_of]. apply wp_put.
    apply H; [exact (X (mkEntry d (e_data e)))|eapply keeps_hset_dict, G].
  Qed.
  Lemma sem_eraise n h st msg field Q : einv h st ->
    (forall l h', einv h' st -> keeps [] h h' ->
       eraised st h' (RefV l) (XEncodeError (EncodeError msg (s_dec st) (s_enc st) field)) ->
       Q (Done (RefV l)) h') ->
    wp (instantiate (call (S n)) "EncodeError" [StrV msg; RefV a; RefV b; StrV field]) Q h.
  Proof.
    intros (items & I & F) H. eapply (sem_EncodeError n h _ _ msg field (s_dec st) (s_enc st)); [exact I|].
    intros l h' I' K L G. apply H; [exists items; auto|exact K|]. repeat split. exists l. auto.
  Qed.

  Lemma epost_raise {A} h (inj : A -> value) P msg k st l h' :
    keeps [] h h' -> einv h' st ->
    eraised st h' (RefV l) (XEncodeError (EncodeError msg (s_dec st) (s_enc st) k)) ->
    epost h inj P (eraise msg k st) (Thrown (RefV l)) h'.
  Proof. intros K I R. split; [exact K|]. split; [exact I|]. exists (RefV l). split; [reflexivity|exact R]. Qed.
  Lemma epost_ok {A} h (inj : A -> value) (P : A -> Prop) st v h' :
    keeps [] h h' -> einv h' st -> P v -> epost h inj P (Ok v, st) (Done (inj v)) h'.
  Proof. intros K I R. split; [exact K|]. split; [exact I|]. split; [reflexivity|exact R]. Qed.
  Lemma epost_exn {A} h (inj : A -> value) P st x xv h' :
    keeps [] h h' -> einv h' st -> eraised st h' xv x ->
    epost h inj P (Raise x, st) (Thrown xv) h'.
  Proof. intros K I R. split; [exact K|]. split; [exact I|]. exists xv. split; [reflexivity|exact R]. Qed.

  (** A call of a function already dealt with. *)
  Lemma wp_ecall {A} (m : comp value) h (inj : A -> value) (P : A -> Prop) res Q :
    wp m (epost h inj P res) h ->
    (forall v st', res = (Ok v, st') -> forall h', einv h' st' -> keeps [] h h' -> P v -> Q (Done (inj v)) h') ->
    (forall x st', res = (Raise x, st') -> forall h', einv h' st' -> keeps [] h h' -> forall xv, eraised st' h' xv x -> Q (Thrown xv) h') ->
    wp m Q h.
  Proof.
    intros W H1 H2. eapply wp_mono; [exact W|]. intros o h' (K & I & H). destruct res as [[v|x] st']; cbn [fst snd] in *.
    - destruct H as [-> H]. eapply H1; eauto.
    - destruct H as (xv & -> & H). eapply H2; eauto.
  Qed.
  (** After a part of a function: what the model says so far, the local variables. *)
  Definition epart (h : heap) {A} (N : A -> env -> Prop) (r : res exn A * estate) (c : ctl) (r' : env) (h' : heap) : Prop :=
    keeps [] h h' /\ einv h' (snd r) /\
    match fst r with
    | Ok v => c = Next /\ N v r'
    | Raise x => exists xv, c = Threw xv /\ eraised (snd r) h' xv x
    end.
  Lemma epart_raise {A} h (N : A -> env -> Prop) msg k st l r' h' :
    keeps [] h h' -> einv h' st ->
    eraised st h' (RefV l) (XEncodeError (EncodeError msg (s_dec st) (s_enc st) k)) ->
    epart h N (eraise msg k st) (Threw (RefV l)) r' h'.
  Proof. intros K I R. split; [exact K|]. split; [exact I|]. exists (RefV l). split; [reflexivity|exact R]. Qed.
  Lemma epart_ok {A} h (N : A -> env -> Prop) st v r' h' :
    keeps [] h h' -> einv h' st -> N v r' -> epart h N (Ok v, st) Next r' h'.
  Proof. intros K I R. split; [exact K|]. split; [exact I|]. split; [reflexivity|exact R]. Qed.
  Lemma epart_exn {A} h (N : A -> env -> Prop) st x xv r' h' :
    keeps [] h h' -> einv h' st -> eraised st h' xv x ->
    epart h N (Raise x, st) (Threw xv) r' h'.
  Proof. intros K I R. split; [exact K|]. split; [exact I|]. exists xv. split; [reflexivity|exact R]. Qed.
  Lemma wps_epart {A} m r h (N : A -> env -> Prop) res (Q : ctl -> env -> heap -> Prop) :
    wps m (epart h N res) r h ->
    (forall v st', res = (Ok v, st') -> forall h', einv h' st' -> keeps [] h h' -> forall r', N v r' -> Q Next r' h') ->
    (forall x st', res = (Raise x, st') -> forall h', einv h' st' -> keeps [] h h' ->
       forall xv r', eraised st' h' xv x -> Q (Threw xv) r' h') ->
    wps m Q r h.
  Proof.
    intros W H1 H2. eapply wps_mono; [exact W|]. intros c r' h' (K & I & H). destruct res as [[v|x] st']; cbn [fst snd] in *.
    - destruct H as [-> H]. eapply H1; eauto.
    - destruct H as (xv & -> & H). eapply H2; eauto.
  Qed.

  (** len(v), a2b_hex(v), v.encode *)
  Lemma val_heap h st l bs : einv h st -> l <> a -> hget h0 l = Some (BytearrayO bs) -> hget h l = Some (BytearrayO bs).
  Proof.
    intros (items & I & _) N G. rewrite (inv_frame _ _ _ _ _ _ I); [exact G| |exact N]. eauto using hget_lt.
  Qed.
  Lemma wp_val_len h st v p Q : einv h st -> val_rep v p ->
    match val_len p with
    | Some n => Q (Done (IntV (Z.of_nat n))) h
    | None => Q (Thrown (ExcV "TypeError" (u "object has no len()"))) h
    end -> wp (py_len v) Q h.
  Proof.
    intros I V H. destruct p as [s|bs|n]; cbn [SemClaims.val_rep val_len] in *.
    - subst v. exact H.
    - destruct V as [->|(l & -> & N & G)]; [exact H|]. cbn [py_len]. run.
      eapply wp_get; [eapply val_heap; eassumption|]. run. exact H.
    - destruct v; try contradiction; subst n; try exact H.
      cbn [py_len]. destruct (o_len o); exact H.
  Qed.
  Lemma wp_val_a2b h st v p Q : einv h st -> val_rep v p ->
    match val_a2b p with
    | Some bs => Q (Done (BytesV bs)) h
    | None => forall c t, subclass c "Exception" = true -> Q (Thrown (ExcV c t)) h
    end -> wp (call_builtin E order "a2b_hex" [v] []) Q h.
  Proof.
    intros I V H. destruct p as [s|bs|n]; cbn [SemClaims.val_rep val_a2b] in *.
    - subst v. change (wp (match a2b_hex s with Some b => done (BytesV b)
                           | None => throw (if forallb (fun c => (c <? 128)%N) s then "Error" else "ValueError") [] end) Q h).
      destruct (a2b_hex s); [exact H|]. destruct (forallb _ s); [exact (H "Error" [] eq_refl)|exact (H "ValueError" [] eq_refl)].
    - destruct V as [->|(l & -> & N & G)].
      + change (wp (match a2b_hex (map b2n bs) with Some b => done (BytesV b) | None => throw "Error" [] end) Q h).
        destruct (a2b_hex (map b2n bs)); [exact H|exact (H "Error" [] eq_refl)].
      + change (wp (let* bs := bytes_of (RefV l) in match a2b_hex (map b2n bs) with Some b => done (BytesV b) | None => throw "Error" [] end) Q h).
        run. cbn [bytes_of]. run. eapply wp_get; [eapply val_heap; eassumption|]. run.
        destruct (a2b_hex (map b2n bs)); [exact H|exact (H "Error" [] eq_refl)].
    - destruct v; try contradiction; subst; exact (H "TypeError" _ eq_refl).
  Qed.
  Lemma wp_no_encode h st v p Q : einv h st -> val_rep v p ->
    match p with
    | VStr s => Q (Done (MethodV (StrV s) "encode")) h
    | _ => forall t, Q (Thrown (ExcV "AttributeError" t)) h
    end -> wp (getattr stdout v "encode") Q h.
  Proof.
    intros I V H. destruct p as [s|bs|n]; cbn [SemClaims.val_rep] in *.
    - subst v. exact H.
    - destruct V as [->|(l & -> & N & G)]; [apply H|].
      unfold getattr. cbn [String.eqb Ascii.eqb Bool.eqb]. run. eapply wp_get; [eapply val_heap; eassumption|]. cbv beta iota.
      change (mem "encode" ["hex"; "decode"]) with false. cbv beta iota. run. apply H.
    - destruct v; try contradiction; apply H.
  Qed.
  Lemma wp_str_encode h s enc Q :
    match str_encode E enc s with
    | COk bs => Q (Done (BytesV bs)) h
    | CLookup => Q (Thrown (ExcV "LookupError" (u "unknown encoding"))) h
    | CFail => Q (Thrown (ExcV "UnicodeError" (encode_why E enc s))) h
    end -> wp (call_method E order tbl (StrV s) "encode" [StrV enc] []) Q h.
  Proof.
    intro H. change (wp (cres_bytes (encode_why E enc s) (str_encode E enc s)) Q h). destruct (str_encode E enc s); exact H.
  Qed.

  (** A new heap h1: bring what is known about the old one along. *)
  Ltac adv :=
    let h1 := fresh "h" in let I1 := fresh "I" in let K1 := fresh "K" in intros h1 I1 K1;
    match goal with
    | I : einv ?h _, K : keeps ?ex ?h00 ?h |- _ =>
        repeat match goal with B : buf h _ _ |- _ => apply (buf_keeps _ _ _ _ K1) in B end;
        repeat match goal with G : hget h _ = Some (SetO _) |- _ => apply (set_keeps _ _ _ _ K1) in G end;
        let K2 := fresh "K" in
        assert (K2 : keeps ex h00 h1) by (exact (keeps_trans _ _ _ _ K (keeps_weaken _ _ _ K1)));
        clear K K1 I; try clear h; rename K2 into K; rename I1 into I
    end.
  (** raise EncodeError(...) *)
  Ltac fail_with st := eapply (sem_eraise _ _ st); [eassumption|];
    let l := fresh "l" in let h := fresh "h" in let I := fresh "I" in let K := fresh "K" in let R := fresh "R" in
    intros l h I K R; run; first [apply epost_raise|apply epart_raise];
    [first [exact K | eapply keeps_trans; [eassumption|apply keeps_weaken, K]] | exact I | exact R].

  (** _add_pad_field *)
  Lemma sem_add_pad n h st v p fv fs : einv h st -> val_rep v p -> fs_held h0 a fv fs ->
    wp (call (S n) "_add_pad_field" [v; fv])
      (fun o h' => h' = h /\ match p with
        | VStr s => o = Done (StrV (add_pad_field s fs))
        | _ => if has_pad fs then exists t, o = Thrown (ExcV "TypeError" t) else o = Done v
        end) h.
  Proof.
    intros I V R. enter. run. eapply wp_map_attr; [here|exact R|]. run. eapply wp_prop_get; [here|exact R|intro; apply rep_left_pad|]. run. apply wp_first. change (u "") with (@nil N).
    unfold add_pad_field, has_pad.
    set (lp := firstn 1 (prop_default (fs_left_pad fs) [])). run.
    destruct (0 <? zlen lp)%Z; cbn [orb]; run.
    { destruct p as [s|bs|m]; cbn [SemClaims.val_rep] in V.
      - subst v. run. auto.
      - destruct V as [->|(l & -> & _)]; run; eauto.
      - destruct v; try contradiction; run; eauto. }
    eapply wp_map_attr; [here|exact R|]. run. eapply wp_prop_get; [here|exact R|intro; apply rep_right_pad|]. run. apply wp_first. change (u "") with (@nil N).
    set (rp := firstn 1 (prop_default (fs_right_pad fs) [])). run.
    destruct (0 <? zlen rp)%Z; cbn [orb]; run.
    { destruct p as [s|bs|m]; cbn [SemClaims.val_rep] in V.
      - subst v. run. auto.
      - destruct V as [->|(l & -> & _)]; run; eauto.
      - destruct v; try contradiction; run; eauto. }
    split; [reflexivity|]. destruct p; [cbn in V; subst v; reflexivity|reflexivity..].
  Qed.

  Context (small : forall n, (0 <= n < 2 ^ 70)%Z -> prints E n = true).
  (** No codec makes more than 64 bytes of a character. *)
  Context (compact : forall enc t bs, str_encode E enc t = COk bs -> (zlen bs <= 64 * (zlen t + 1))%Z).
  Definition pair_of (r : bytes * Z) : value := TupleV [BytesV (fst r); IntV (snd r)].
  Definition shown_len (r : bytes * Z) : Prop := (0 <= snd r < 2 ^ 70)%Z.

  (** _encode_text_field *)
  Lemma sem_text n h st v p k fv fs lc : einv h st -> val_rep v p -> val_size (2 ^ 62 + 100) p -> fs_held h0 a fv fs ->
    wp (call (S (S n)) "_encode_text_field" [RefV a; RefV b; v; StrV k; fv; StrV lc])
       (epost h pair_of shown_len (encode_text_field E p k fs lc st)) h.
  Proof.
    intros I V Sz R. enter. unfold encode_text_field. run.
    eapply wp_no_encode; [exact I|exact V|]. destruct p as [s|bs|m]; cbv beta iota; [|intro t; run; fail_with st..].
    run. eapply wp_prop; [here|exact R|intro; apply rep_data_enc|]. destruct (fs_data_enc fs) as [enc|]; cbv beta iota; run; [|fail_with st].
    apply wp_str_encode. destruct (str_encode E enc s) as [bs| |] eqn:Es; run; [|fail_with st..].
    apply compact in Es. cbn [val_size] in Sz. assert (Z0 := zlen_nonneg bs).
    change (u "nibbles") with str_nibbles. destruct (str_eqb lc str_nibbles); run.
    - apply (epost_ok h pair_of shown_len st (bs, (zlen bs * 2)%Z)); [apply keeps_refl|exact I|unfold shown_len; cbn [snd]; lia].
    - apply (epost_ok h pair_of shown_len st (bs, zlen bs)); [apply keeps_refl|exact I|unfold shown_len; cbn [snd]; lia].
  Qed.

  (** _encode_bindary_field *)
  Lemma sem_binary n h st v p k fv fs lc : einv h st -> val_rep v p -> val_size (2 ^ 62 + 100) p -> fs_held h0 a fv fs ->
    wp (call (S (S n)) "_encode_bindary_field" [RefV a; RefV b; v; StrV k; fv; StrV lc])
       (epost h pair_of shown_len (encode_binary_field p k fs lc st)) h.
  Proof.
    intros I V Sz R. remember (encode_binary_field p k fs lc st) as res eqn:Hm. unfold encode_binary_field in Hm.
    enter. walk.
    match goal with |- wps _ (kseq _ (ktry _ _ _ _ _ _ ?hs (kseq (exec_block _ _ _ _ _ _ _) ?Q))) _ _ => set (HS := hs) in *; set (QQ := Q) in * end.
    match goal with |- wps _ ?Q _ _ => set (QK := Q) end.
    assert (Fin : forall dv d m r', val_rep dv d -> val_size (2 ^ 62 + 101) d ->
      (str_eqb lc str_nibbles = true -> val_len p = Some m /\ (val_a2b d <> None -> (Z.of_nat m < 2 ^ 62 + 100)%Z)) ->
      res = (match val_a2b d with
             | Some encoded => ret (encoded, if str_eqb lc str_nibbles then Z.of_nat m else zlen encoded)
             | None => hex_failure d k lc
             end) st ->
      dom vars r' -> binds [("doc_dec", RefV a); ("doc_enc", RefV b); ("field_data", v); ("field_key", StrV k); ("field_spec", fv); ("len_count", StrV lc); ("data_to_encode", dv)] r' ->
      QK Next r' h).
    { clear Hm r. intros dv d m r Vd Sd Hn Hm D B. subst QK. run. eapply wp_val_a2b; [exact I|exact Vd|].
      destruct (val_a2b d) as [bs|] eqn:Hd.
      - subst QQ. assert (La2b : (zlen bs < 2 ^ 62 + 101)%Z).
        { destruct d as [t|t|]; cbn [val_a2b val_size] in *; try discriminate; apply a2b_hex_length in Hd;
            rewrite ?map_length in Hd; unfold zlen in *; lia. }
        assert (Z0 := zlen_nonneg bs).
        run. change (u "nibbles") with str_nibbles. destruct (str_eqb lc str_nibbles) eqn:Nb; run.
        + destruct (Hn eq_refl) as [Hl Hs]. eapply wp_val_len; [exact I|exact V|]. rewrite Hl. run. rewrite Hm.
          apply (epost_ok h pair_of shown_len st (bs, Z.of_nat m)); [apply keeps_refl|exact I|].
          unfold shown_len; cbn [snd]. assert (Z.of_nat m < 2 ^ 62 + 100)%Z by (apply Hs; discriminate). lia.
        + rewrite Hm. apply (epost_ok h pair_of shown_len st (bs, zlen bs)); [apply keeps_refl|exact I|].
          unfold shown_len; cbn [snd]. lia.
      - intros c t Hc. run. subst HS. apply handle_take; [exact Hc|]. cbv beta iota.
        subst QQ. unfold hex_failure in Hm. run. change (u "nibbles") with str_nibbles. destruct (str_eqb lc str_nibbles) eqn:Nb; run.
        all: eapply wp_val_len; [exact I|exact Vd|]; destruct (val_len d) as [m'|] eqn:Ld; run;
          [|rewrite Hm; apply epost_exn; [apply keeps_refl|exact I|reflexivity]].
        all: rewrite mod_two, odd_of_nat; destruct (Nat.odd m') eqn:Od; run.
        + rewrite Hm. fail_with st.
        + eapply wp_val_len; [exact I|exact Vd|]. rewrite Ld. run. rewrite mod_two, odd_of_nat, Od. run. rewrite Hm. fail_with st.
        + rewrite Hm. fail_with st.
        + rewrite Hm. fail_with st. }
    assert (Sm : forall d m, val_len d = Some m -> val_size (2 ^ 62 + 100) d -> val_a2b d <> None -> (Z.of_nat m < 2 ^ 62 + 100)%Z).
    { intros [t|t|o] m; cbn [val_len val_size val_a2b]; intros X S0 N0; [injection X as <-; exact S0..|congruence]. }
    assert (S1 : val_size (2 ^ 62 + 101) p) by (destruct p; cbn [val_size] in *; lia).
    run. change (u "nibbles") with str_nibbles. destruct (str_eqb lc str_nibbles) eqn:Nb; run.
    2: { apply (Fin v p 0); [exact V|exact S1|discriminate|exact Hm|apply dom_list; reflexivity|repeat constructor]. }
    eapply wp_val_len; [exact I|exact V|]. destruct (val_len p) as [m|] eqn:Lp; run.
    2: { subst HS QQ QK. run. change (u "nibbles") with str_nibbles. rewrite Nb. run. rewrite Hm. apply epost_exn; [apply keeps_refl|exact I|reflexivity]. }
    rewrite land_one, odd_of_nat. destruct (Nat.odd m) eqn:Od; run.
    2: { apply (Fin v p m); [exact V|exact S1|intros _; split; [reflexivity|apply Sm; assumption]|exact Hm|apply dom_list; reflexivity|repeat constructor]. }
    eapply wp_mono; [eapply sem_add_pad; [exact I|exact V|exact R]|]. intros o h' [-> Ho].
    destruct p as [s|bs|o'].
    - subst o. run. apply (Fin (StrV (add_pad_field s fs)) (VStr (add_pad_field s fs)) m);
        [reflexivity| |intros _; split; [reflexivity|intros _; cbn [val_len val_size] in Lp, Sz; injection Lp as <-; exact Sz]|exact Hm|apply dom_list; reflexivity|repeat constructor].
      cbn [val_size] in *. unfold add_pad_field.
      assert (X : forall t : pystr, (zlen (firstn 1 t) <= 1)%Z) by (intro t; unfold zlen; rewrite firstn_length; lia).
      destruct (0 <? _)%Z; [|destruct (0 <? _)%Z]; rewrite ?zlen_app;
        match goal with |- context [zlen (firstn 1 ?t)] => specialize (X t); lia | _ => lia end.
    - destruct (has_pad fs).
      + destruct Ho as [t ->]. run. subst HS QQ QK. run. change (u "nibbles") with str_nibbles. rewrite Nb. run.
        rewrite Hm. apply epost_exn; [apply keeps_refl|exact I|reflexivity].
      + subst o. run. apply (Fin v (VBytes bs) m); [exact V|exact S1|intros _; split; [reflexivity|apply Sm; assumption]|exact Hm|apply dom_list; reflexivity|repeat constructor].
    - destruct (has_pad fs).
      + destruct Ho as [t ->]. run. subst HS QQ QK. run. change (u "nibbles") with str_nibbles. rewrite Nb. run.
        rewrite Hm. apply epost_exn; [apply keeps_refl|exact I|reflexivity].
      + subst o. run. apply (Fin v (VOther o') m); [exact V|exact S1|intros _; split; [reflexivity|apply Sm; assumption]|exact Hm|apply dom_list; reflexivity|repeat constructor].
  Qed.

  Lemma wp_to_bytes h m lt Q : (0 <= m)%Z ->
    (if (lt <? 0)%Z then Q (Thrown (ExcV "ValueError" (u "length argument must be non-negative"))) h
     else match to_be (Z.to_nat lt) (Z.to_N m) with
          | Some bs => Q (Done (BytesV bs)) h
          | None => Q (Thrown (ExcV "OverflowError" [])) h
          end) ->
    wp (call_method E order tbl (IntV m) "to_bytes" [IntV lt; StrV (u "big")] [("signed", BoolV false)]) Q h.
  Proof.
    intros M H. unfold wp. cbn -[to_be Z.ltb]. rewrite (proj2 (Z.ltb_ge m 0)) by lia.
    destruct (lt <? 0)%Z; [exact H|]. destruct (to_be _ _); exact H.
  Qed.
  Lemma wp_format h m w Q : (0 <= m)%Z -> prints E m = true ->
    (if (w <? 0)%Z then Q (Thrown (ExcV "ValueError" (format_why E w))) h
     else Q (Done (StrV (fmt0d (Z.to_nat w) (Z.to_N m)))) h) ->
    wp (call_method E order tbl (StrV (u "{:0{len_type}d}")) "format" [IntV m] [("len_type", IntV w)]) Q h.
  Proof.
    intros M P H. change (wp (format E (u "{:0{len_type}d}") [IntV m] [("len_type", IntV w)]) Q h).
    unfold format. change (map format_arg [IntV m]) with [Some (FInt m)].
    change (map _ [("len_type", IntV w)]) with [("len_type", Some (FInt w))].
    rewrite (format_length E m w M P). destruct (w <? 0)%Z; exact H.
  Qed.
  Lemma wp_bytes_enc h s enc Q :
    match str_encode E enc s with
    | COk bs => Q (Done (BytesV bs)) h
    | CLookup => Q (Thrown (ExcV "LookupError" (u "unknown encoding"))) h
    | CFail => Q (Thrown (ExcV "UnicodeError" (encode_why E enc s))) h
    end -> wp (call_type E order "bytes" [StrV s; StrV enc]) Q h.
  Proof.
    intro H. change (wp (cres_bytes (encode_why E enc s) (str_encode E enc s)) Q h). destruct (str_encode E enc s); exact H.
  Qed.
  (** doc_enc[field_key]["data"], doc_enc[field_key]["len"], known by Ge *)
  Ltac eread Ge :=
    match goal with I : einv ?h _ |- wp (getitem _ _) _ ?h => eapply wp_eget; [exact I|] end; first [rewrite Ge|cbn [s_enc]; rewrite Ge];
    let l := fresh "l" in let Gl := fresh "Gl" in intros l Gl _; run; 
    first [eapply wp_entry_data; [exact Gl|]|eapply wp_entry_len; [exact Gl|]];
    cbn [e_data e_len]; run; clear Gl l.

  Lemma binary_state p k fs lc st r st' : encode_binary_field p k fs lc st = (Ok r, st') -> st' = st.
  Proof.
    unfold encode_binary_field, hex_failure, eraise, ret, raise.
    repeat match goal with
           | |- context [match ?x with _ => _ end] =>
               lazymatch x with context [match _ with _ => _ end] => fail | _ => destruct x end
           end; congruence.
  Qed.
  Lemma text_state p k fs lc st r st' : encode_text_field E p k fs lc st = (Ok r, st') -> st' = st.
  Proof.
    unfold encode_text_field, eraise, ret.
    match goal with |- match ?x with _ => _ end _ = _ -> _ => destruct x end; congruence.
  Qed.
  (** _encode_field *)
  Lemma sem_field n h st k fv fs : einv h st -> fs_held h0 a fv fs ->
    (forall p, pget (KStr k) (s_dec st) = Some p -> val_size (2 ^ 62 + 100) p) ->
    wp (call (S (S (S n))) "_encode_field" [RefV a; RefV b; StrV k; fv])
       (epost h BytesV (fun _ => True) (encode_field E k fs st)) h.
  Proof.
    intros I R Sz. remember (encode_field E k fs st) as res eqn:Hm.
    unfold encode_field, bind at 1, eset_enc at 1 in Hm.
    enter. assert (K := keeps_refl [] h).
    run. cbn [key_of]. run. apply wp_new. run. eapply (wp_enew _ _ _ (mkEntry [] [])); [exact I|]. adv. run.
    eapply wp_map_attr; [here|exact R|]. run. eapply wp_prop_get; [here|exact R|intro; apply rep_len_count|]. change (u "bytes") with str_bytes.
    set (lc := prop_default (fs_len_count fs) str_bytes) in *. walk.
    set (st1 := mkE (s_dec st) (sset k (mkEntry [] []) (s_enc st))) in *.
    unfold prop at 1, bind at 1 in Hm.
    match goal with |- wps _ ?Q _ _ => set (QK := Q) end.
    assert (After : forall bs m r' h', (0 <= m < 2 ^ 70)%Z -> 
      einv h' (mkE (s_dec st) (sset k (mkEntry [] bs) (s_enc st))) -> keeps [] h h' -> dom vars r' ->
      binds [("doc_dec", RefV a); ("doc_enc", RefV b); ("field_key", StrV k); ("field_spec", fv); ("len_count", StrV lc); ("enc_field_len", IntV m)] r' ->
      res = (len_type <- prop (fs_len_type fs) (u "len_type") ;;
              max_len <- prop (fs_max_len fs) (u "max_len") ;;
              if (len_type =? 0)%Z then
                if negb (m =? max_len)%Z then
                  formatted E [max_len]
                    (eraise (u "Field data is " ++ zstr m ++ u " " ++ lc
                             ++ u ", expecting " ++ zstr max_len) k)
                else
                  eset_enc_len k [] ;;;
                  e <- eget_enc k ;; ret (e_data e)
              else if (max_len <? m)%Z then
                formatted E [max_len]
                  (eraise (u "Field data is " ++ zstr m ++ u " " ++ lc
                           ++ u ", larger than maximum " ++ zstr max_len) k)
              else
                encode_length E k fs len_type m ;;;
                e <- eget_enc k ;; ret (e_len e ++ e_data e)) (mkE (s_dec st) (sset k (mkEntry [] bs) (s_enc st))) ->
      QK Next r' h').
    { clear Hm I K. intros bs m r h' Bm I K D B Hm. subst QK. assert (Pm : prints E m = true) by (apply small; lia).
      set (st2 := mkE (s_dec st) (sset k (mkEntry [] bs) (s_enc st))) in *.
      assert (Ge : sget k (s_enc st2) = Some (mkEntry [] bs)) by apply sget_sset.
      unfold bind at 1, prop at 1 in Hm. run. eapply wp_prop; [here|exact R|intro; apply rep_len_type|].
      destruct (fs_len_type fs) as [lt|]; cbv beta iota zeta delta [ret raise] in Hm; run.
      2: { rewrite Hm. apply epost_exn; [exact K|exact I|reflexivity]. }
      unfold bind at 1, prop at 1 in Hm.
      destruct (lt =? 0)%Z eqn:Z0; run; (eapply wp_prop; [here|exact R|intro; apply rep_max_len|]);
        destruct (fs_max_len fs) as [ml|] eqn:Fm; cbv beta iota zeta delta [ret raise] in Hm; run;
        try (rewrite Hm; apply epost_exn; [exact K|exact I|reflexivity]).
      - destruct (m =? ml)%Z; cbn [negb] in *; run.
        + eapply wp_eget; [exact I|]. rewrite Ge. intros l Gl Sl. run.
          eapply wp_elen; [exact Gl|exact Sl|]. clear Gl Sl l. adv. unfold st2 in I; cbn [e_data s_dec s_enc] in I. rewrite sset_sset in I. change (map n2b []) with (@nil byte) in I. fold st2 in I.
          run. eread Ge. rewrite Hm. unfold eset_enc_len, bind, eget_enc, eset_enc. rewrite Ge. cbn [s_enc]. rewrite sget_sset. cbn [e_data].
          unfold st2; cbn [s_enc s_dec e_data]; rewrite sset_sset. 
          apply epost_ok; [exact K|exact I|exact Logic.I].
        + apply wp_int_text; [exact Pm|]. run. eapply wp_prop; [here|exact R|intro; apply rep_max_len|]. rewrite Fm. run.
          unfold formatted in Hm; cbn [forallb] in Hm. rewrite Hm. destruct (prints E ml) eqn:Pl; cbn [andb];
            [apply wp_int_text; [exact Pl|]; run; fail_with st2
            |apply wp_int_untext; [exact Pl|]; intro t0; run; apply epost_exn; eauto; exists t0; reflexivity].
      - destruct (ml <? m)%Z eqn:Zm; run.
        { apply wp_int_text; [exact Pm|]. run. eapply wp_prop; [here|exact R|intro; apply rep_max_len|]. rewrite Fm. run.
          unfold formatted in Hm; cbn [forallb] in Hm. rewrite Hm. destruct (prints E ml) eqn:Pl; cbn [andb];
            [apply wp_int_text; [exact Pl|]; run; fail_with st2
            |apply wp_int_untext; [exact Pl|]; intro t0; run; apply epost_exn; eauto; exists t0; reflexivity]. }
        unfold bind at 1 in Hm. unfold encode_length in Hm. unfold bind at 1, prop at 1 in Hm.
        eapply wp_prop; [here|exact R|intro; apply rep_len_enc|]. destruct (fs_len_enc fs) as [le|] eqn:Fle; cbv beta iota zeta delta [ret raise] in Hm; run.
        2: { rewrite Hm. apply epost_exn; [exact K|exact I|reflexivity]. }
        match goal with |- wps _ ?Q _ _ => set (QK := Q) end.
        assert (Fin : forall ln r h', einv h' (mkE (s_dec st) (sset k (mkEntry ln bs) (s_enc st))) -> keeps [] h h' ->
          dom vars r -> binds [("doc_enc", RefV b); ("field_key", StrV k)] r ->
          res = (Ok (ln ++ bs), mkE (s_dec st) (sset k (mkEntry ln bs) (s_enc st))) -> QK Next r h').
        { clear Hm I K Ge. intros ln r2 h2 I K D2 B2 Hm. assert (Ge := sget_sset k (mkEntry ln bs) (s_enc st)).
          subst QK. run. eread Ge. eread Ge. rewrite Hm. apply epost_ok; [exact K|exact I|exact Logic.I]. }
        assert (Read : forall ln, (e <- eget_enc k ;; ret (e_len e ++ e_data e)) (mkE (s_dec st) (sset k (mkEntry ln bs) (s_enc st)))
          = (Ok (ln ++ bs), mkE (s_dec st) (sset k (mkEntry ln bs) (s_enc st)))).
        { intro ln. unfold bind, eget_enc. cbn [s_enc]. now rewrite sget_sset. }
        assert (Sto : forall ln, eset_enc_len k ln st2 = (Ok tt, mkE (s_dec st) (sset k (mkEntry ln bs) (s_enc st)))).
        { intro ln. unfold eset_enc_len, bind, eget_enc, eset_enc. rewrite Ge. unfold st2; cbn [s_enc s_dec e_data]. now rewrite sset_sset. }
        assert (Pl2 : Z.to_nat (lt * 2) = (Z.to_nat lt * 2)%nat) by lia. 
        run. change (u "b") with str_b. destruct (str_eqb le str_b) eqn:Lb; run.
        { refine (wp_done _ _ _ _). run. apply wp_to_bytes; [lia|]. destruct (lt <? 0)%Z eqn:Ng.
          { subst QK. run. rewrite Hm. apply epost_exn; [exact K|exact I|eexists; reflexivity]. }
          destruct (to_be _ _) as [ln|] eqn:Tb; run.
          - eapply wp_eget; [exact I|]. rewrite Ge. intros l Gl Sl. run.
            eapply wp_elen; [exact Gl|exact Sl|]. clear Gl Sl l. adv. unfold st2 in I; cbn [e_data s_dec s_enc] in I. rewrite sset_sset in I. run.
            eapply (Fin ln); [exact I|exact K|eassumption|eapply binds_less; [eassumption|repeat constructor]|].
            rewrite Hm, Sto. apply Read.
          - subst QK. run. rewrite Hm. fail_with st2. }
        eapply wp_prop; [here|exact R|intro; apply rep_len_enc|]. rewrite Fle. run. change (u "bcd") with str_bcd. 
        destruct (str_eqb le str_bcd) eqn:Lc; run.
        { apply wp_format; [lia|exact Pm|]. rewrite Pl2. replace (lt * 2 <? 0)%Z with (lt <? 0)%Z by lia. destruct (lt <? 0)%Z eqn:Ng.
          { subst QK. run. rewrite Hm. apply epost_exn; [exact K|exact I|eexists; reflexivity]. }
          set (bcd := fmt0d (Z.to_nat lt * 2) (Z.to_N m)) in *.
          run. replace (lt * 2 <? zlen bcd)%Z with (Z.to_nat lt * 2 <? length bcd)%nat by (unfold zlen; lia).
          destruct (Z.to_nat lt * 2 <? length bcd)%nat eqn:Cb; run.
          { subst QK. run. rewrite Hm. fail_with st2. }
          destruct (bcd_hex_total (Z.to_nat lt) (Z.to_N m)) as [ln Hl]; [fold bcd; lia|]. fold bcd in Hl. rewrite Hl in Hm.
          eapply wp_val_a2b; [exact I|apply (eq_refl : val_rep (StrV bcd) (VStr bcd))|]. cbn [val_a2b]. rewrite Hl. run.
          eapply wp_eget; [exact I|]. rewrite Ge. intros l Gl Sl. run.
          eapply wp_elen; [exact Gl|exact Sl|]. clear Gl Sl l. adv. unfold st2 in I; cbn [e_data s_dec s_enc] in I. rewrite sset_sset in I. run.
          eapply (Fin ln); [exact I|exact K|eassumption|eapply binds_less; [eassumption|repeat constructor]|].
          rewrite Hm, Sto. apply Read. }
        apply wp_format; [lia|exact Pm|]. destruct (lt <? 0)%Z eqn:Ng.
        { subst QK. run. rewrite Hm. fail_with st2. }
        set (txt := fmt0d (Z.to_nat lt) (Z.to_N m)) in *.
        run. eapply wp_prop; [here|exact R|intro; apply rep_len_enc|]. rewrite Fle. run. apply wp_bytes_enc.
        destruct (str_encode E le txt) as [ln| |] eqn:Es; [|subst QK; run; rewrite Hm; fail_with st2..].
        run. eapply wp_eget; [exact I|]. rewrite Ge. intros l Gl Sl. run.
        eapply wp_elen; [exact Gl|exact Sl|]. clear Gl Sl l. adv. unfold st2 in I; cbn [e_data s_dec s_enc] in I. rewrite sset_sset in I.
        unfold bind at 1 in Hm. rewrite Sto in Hm. clear Ge. set (st3 := mkE (s_dec st) (sset k (mkEntry ln bs) (s_enc st))) in *.
        assert (Ge : sget k (s_enc st3) = Some (mkEntry ln bs)) by apply sget_sset.
        run. eread Ge. replace (lt <? zlen ln)%Z with (Z.to_nat lt <? length ln)%nat by (unfold zlen; lia).
        destruct (Z.to_nat lt <? length ln)%nat; run.
        { subst QK. run. rewrite Hm. fail_with st3. }
        eapply (Fin ln); [exact I|exact K|eassumption|eapply binds_less; [eassumption|repeat constructor]|].
        rewrite Hm. apply Read. }
    destruct (fs_data_enc fs) as [de|] eqn:Fd; cbv beta iota zeta delta [ret raise] in Hm.
    2: { run. eapply wp_prop; [here|exact R|intro; apply rep_data_enc|]. rewrite Fd. subst QK. run. rewrite Hm. apply epost_exn; [exact K|exact I|reflexivity]. }
    unfold bind at 1, eget_dec at 1 in Hm. 
    assert (Sd : s_dec st1 = s_dec st) by reflexivity.
    run. eapply wp_prop; [here|exact R|intro; apply rep_data_enc|]. rewrite Fd. run.
    change (u "b") with str_b. destruct (str_eqb de str_b) eqn:Zb; run.
    all: eapply wp_pget; [exact I|]; rewrite Sd in *; destruct (pget (KStr k) (s_dec st)) as [p|] eqn:Gp; [intros v V|];
      [|subst QK; run; rewrite Hm; apply epost_exn; [exact K|exact I|reflexivity]].
    all: run; unfold bind at 1 in Hm.
    - eapply wp_ecall; [eapply (sem_binary n _ st1 v p); [exact I|exact V|apply Sz; reflexivity|exact R]|intros [bs m] st' Hp; adv; intros Sm|intros x st' Hp; adv; intros xv Rx].
      2: { rewrite Hp in Hm. subst QK. run. rewrite Hm. apply epost_exn; [exact K|exact I|exact Rx]. }
      rewrite Hp in Hm. apply binary_state in Hp. subst st'. unfold pair_of; cbn [fst snd]. run.
      eapply wp_eget; [exact I|]. unfold st1 at 1; cbn [s_enc]. rewrite sget_sset. intros l Gl Sl. run.
      eapply wp_edata; [exact Gl|exact Sl|]. clear Gl Sl l. adv. unfold st1 in I. cbn [e_len s_dec s_enc] in I.
      rewrite sset_sset in I. run.
      apply (After bs m); [exact Sm|exact I|exact K|apply dom_list; reflexivity|repeat constructor|].
      rewrite Hm. unfold bind at 1, eset_enc_data, bind at 1, eget_enc at 1, eset_enc at 1. 
      unfold st1; cbn [s_enc s_dec]. rewrite sget_sset. cbn [s_enc s_dec e_len]. rewrite sset_sset. reflexivity.
    - eapply wp_ecall; [eapply (sem_text n _ st1 v p); [exact I|exact V|apply Sz; reflexivity|exact R]|intros [bs m] st' Hp; adv; intros Sm|intros x st' Hp; adv; intros xv Rx].
      2: { rewrite Hp in Hm. subst QK. run. rewrite Hm. apply epost_exn; [exact K|exact I|exact Rx]. }
      rewrite Hp in Hm. apply text_state in Hp. subst st'. unfold pair_of; cbn [fst snd]. run.
      eapply wp_eget; [exact I|]. unfold st1 at 1; cbn [s_enc]. rewrite sget_sset. intros l Gl Sl. run.
      eapply wp_edata; [exact Gl|exact Sl|]. clear Gl Sl l. adv. unfold st1 in I. cbn [e_len s_dec s_enc] in I.
      rewrite sset_sset in I. run.
      apply (After bs m); [exact Sm|exact I|exact K|apply dom_list; reflexivity|repeat constructor|].
      rewrite Hm. unfold bind at 1, eset_enc_data, bind at 1, eget_enc at 1, eset_enc at 1. 
      unfold st1; cbn [s_enc s_dec]. rewrite sget_sset. cbn [s_enc s_dec e_len]. rewrite sset_sset. reflexivity.
  Qed.
  (** The values of the dict, short enough. *)
  Definition sized (M : Z) (d : pdoc) : Prop := forall k p, pget k d = Some p -> val_size M p.

  (** _encode_header *)
  Lemma sem_header n h st spv sp : einv h st -> spec_held h0 a spv sp -> sized (2 ^ 62 + 100) (s_dec st) ->
    wp (call (S (S (S (S n)))) "_encode_header" [RefV a; RefV b; spv])
       (epost h BytesV (fun _ => True) (encode_header E sp st)) h.
  Proof.
    intros I R Sz. remember (encode_header E sp st) as res eqn:Hm. unfold encode_header, bind, spec_get in Hm.
    assert (K := keeps_refl [] h).
    enter. run. eapply wp_spec; [here|exact R|].
    destruct (sget (u "h") sp) as [fs|] eqn:G; [intros fv Rf|]; run.
    2: { rewrite Hm. apply epost_exn; [exact K|exact I|reflexivity]. }
    eapply wp_prop; [here|exact Rf|intro; apply rep_max_len|]. unfold prop in Hm; cbv beta iota zeta delta [ret] in Hm. destruct (fs_max_len fs) as [ml|]; run.
    2: { rewrite Hm. apply epost_exn; [exact K|exact I|reflexivity]. }
    cbv beta iota zeta delta [ret] in Hm. destruct (ml <=? 0)%Z; run.
    { rewrite Hm. apply (epost_ok h BytesV); [exact K|exact I|exact Logic.I]. }
    unfold eread_dec in Hm. eapply wp_pnot; [exact I|]. destruct (pmem (u "h") (s_dec st)); cbn [negb] in *; run.
    2: { rewrite Hm. fail_with st. }
    eapply wp_spec; [here|exact R|]. rewrite G. clear Rf fv. intros fv Rf. run. rewrite Hm.
    eapply wp_mono; [eapply sem_field; [exact I|exact Rf|intro p; apply Sz]|]. intros o h' H.
    destruct o; run; first [exact H|destruct H as (_ & _ & H); destruct (fst _); [destruct H|destruct H as (? & ? & _)]; discriminate].
  Qed.

  (** _encode_type *)
  Lemma sem_type n h st spv sp : einv h st -> spec_held h0 a spv sp -> sized (2 ^ 62 + 100) (s_dec st) ->
    wp (call (S (S (S n))) "_encode_type" [RefV a; RefV b; spv])
       (epost h BytesV (fun _ => True) (encode_type E sp st)) h.
  Proof.
    intros I R Sz. remember (encode_type E sp st) as res eqn:Hm. unfold encode_type in Hm.
    unfold bind at 1, eread_dec at 1 in Hm.
    assert (K := keeps_refl [] h).
    enter. run. eapply wp_pnot; [exact I|]. destruct (pmem (u "t") (s_dec st)); cbn [negb] in *; run.
    2: { rewrite Hm. fail_with st. }
    unfold bind at 1, spec_get at 1 in Hm.
    eapply wp_spec; [here|exact R|].
    destruct (sget (u "t") sp) as [fs|] eqn:G; [intros fv Rf|]; run.
    2: { rewrite Hm. apply epost_exn; [exact K|exact I|reflexivity]. }
    cbv beta iota zeta delta [ret] in Hm. unfold bind at 1, prop at 1 in Hm.
    eapply wp_prop; [here|exact Rf|intro; apply rep_data_enc|]. destruct (fs_data_enc fs) as [de|] eqn:Fd; run.
    2: { rewrite Hm. apply epost_exn; [exact K|exact I|reflexivity]. }
    cbv beta iota zeta delta [ret] in Hm. change (u "b") with str_b.
    set (ex := if str_eqb de str_b then 2%Z else 4%Z) in *.
    eapply (wps_mono _ (fun c r0 h0' => c = Next /\ h0' = h /\ dom vars r0 /\
      binds [("doc_dec", RefV a); ("doc_enc", RefV b); ("spec", spv); ("expected_field_len", IntV ex)] r0)).
    { destruct (str_eqb de str_b); run; (split; [reflexivity|split; [reflexivity|split; [apply dom_list; reflexivity|repeat constructor]]]). }
    clear r. intros c r h3 (-> & -> & Dr & Br). run.
    unfold bind at 1, eset_enc at 1 in Hm.
    cbn [key_of]. run. apply wp_new. run. eapply (wp_enew _ _ _ (mkEntry [] [])); [exact I|]. adv. run.
    set (st1 := mkE (s_dec st) (sset (u "t") (mkEntry [] []) (s_enc st))) in *.
    unfold bind at 1, eget_dec at 1 in Hm. assert (Sd : s_dec st1 = s_dec st) by reflexivity.
    eapply wp_spec; [here|exact R|]. rewrite G. clear Rf fv. intros fv Rf. run.
    eapply wp_prop; [here|exact Rf|intro; apply rep_data_enc|]. rewrite Fd. run. change (u "b") with str_b.
    assert (Lx : (0 <= ex <= 4)%Z) by (unfold ex; destruct (str_eqb de str_b); lia).
    match goal with |- wps _ ?Q _ _ => set (QK := Q) end.
    assert (After : forall bs m r' h', (0 <= m < 2 ^ 70)%Z -> 
      einv h' (mkE (s_dec st) (sset (u "t") (mkEntry [] bs) (s_enc st))) -> keeps [] h h' -> dom vars r' ->
      binds [("doc_dec", RefV a); ("doc_enc", RefV b); ("spec", spv); ("expected_field_len", IntV ex); ("enc_field_len", IntV m)] r' ->
      res = (if negb (m =? ex)%Z then
              eraise (u "Field data is " ++ zstr m ++ u " bytes, expecting " ++ zstr ex) (u "t")
             else e <- eget_enc (u "t") ;; ret (e_data e)) (mkE (s_dec st) (sset (u "t") (mkEntry [] bs) (s_enc st))) ->
      QK Next r' h').
    { clear Hm I K. intros bs m r2 h' Bm I K D B Hm. subst QK. assert (Pm : prints E m = true) by (apply small; lia).
      set (st2 := mkE (s_dec st) (sset (u "t") (mkEntry [] bs) (s_enc st))) in *.
      assert (Ge : sget (u "t") (s_enc st2) = Some (mkEntry [] bs)) by apply sget_sset.
      run. destruct (m =? ex)%Z; cbn [negb] in *; run.
      - eread Ge. rewrite Hm. unfold bind, eget_enc. rewrite Ge. apply (epost_ok h BytesV); [exact K|exact I|exact Logic.I].
      - apply wp_int_text; [exact Pm|]. run. apply wp_int_text; [apply small; lia|]. run. rewrite Hm. fail_with st2. }
    destruct (str_eqb de str_b) eqn:Zb; run.
    all: eapply wp_pget; [exact I|]; rewrite Sd in *; destruct (pget (KStr (u "t")) (s_dec st)) as [p|] eqn:Gp; [intros v V|];
      [|subst QK; run; rewrite Hm; apply epost_exn; [exact K|exact I|reflexivity]].
    all: run; unfold bind at 1 in Hm; (eapply wp_spec; [here|exact R|]); rewrite G; clear Rf fv; intros fv Rf; run; change (u "bytes") with str_bytes in *.
    - eapply wp_ecall; [eapply (sem_binary n _ st1 v p); [exact I|exact V|eapply Sz; exact Gp|exact Rf]|intros [bs m] st' Hp; adv; intros Sm|intros x st' Hp; adv; intros xv Rx].
      2: { rewrite Hp in Hm. subst QK. run. rewrite Hm. apply epost_exn; [exact K|exact I|exact Rx]. }
      rewrite Hp in Hm. apply binary_state in Hp. subst st'. unfold pair_of; cbn [fst snd]. run.
      eapply wp_eget; [exact I|]. unfold st1 at 1; cbn [s_enc]. rewrite sget_sset. intros l Gl Sl. run.
      eapply wp_edata; [exact Gl|exact Sl|]. clear Gl Sl l. adv. unfold st1 in I. cbn [e_len s_dec s_enc] in I.
      rewrite sset_sset in I. run.
      apply (After bs m); [exact Sm|exact I|exact K|eassumption|eapply binds_less; [eassumption|repeat constructor]|].
      rewrite Hm. unfold bind at 1, eset_enc_data, bind at 1, eget_enc at 1, eset_enc at 1. 
      unfold st1; cbn [s_enc s_dec]. rewrite sget_sset. cbn [s_enc s_dec e_len]. rewrite sset_sset. reflexivity.
    - eapply wp_ecall; [eapply (sem_text n _ st1 v p); [exact I|exact V|eapply Sz; exact Gp|exact Rf]|intros [bs m] st' Hp; adv; intros Sm|intros x st' Hp; adv; intros xv Rx].
      2: { rewrite Hp in Hm. subst QK. run. rewrite Hm. apply epost_exn; [exact K|exact I|exact Rx]. }
      rewrite Hp in Hm. apply text_state in Hp. subst st'. unfold pair_of; cbn [fst snd]. run.
      eapply wp_eget; [exact I|]. unfold st1 at 1; cbn [s_enc]. rewrite sget_sset. intros l Gl Sl. run.
      eapply wp_edata; [exact Gl|exact Sl|]. clear Gl Sl l. adv. unfold st1 in I. cbn [e_len s_dec s_enc] in I.
      rewrite sset_sset in I. run.
      apply (After bs m); [exact Sm|exact I|exact K|eassumption|eapply binds_less; [eassumption|repeat constructor]|].
      rewrite Hm. unfold bind at 1, eset_enc_data, bind at 1, eget_enc at 1, eset_enc at 1. 
      unfold st1; cbn [s_enc s_dec]. rewrite sget_sset. cbn [s_enc s_dec e_len]. rewrite sset_sset. reflexivity.
  Qed.
End Encode.
