(** * SemDecode: running the text of decoder.py gives what the model says. *)
From Coq Require Import ZifyBool ZifyNat ZifyN.
From Verif Require Import PyBase BaseFacts Types Decoder DecoderFacts PyAst Source PySem SemClaims SemFacts SemHeap SemStep.
Local Open Scope string_scope.
Local Open Scope list_scope.

(** doc_dec as decode builds it. *)
Definition dvals (d : ddoc) : list (pykey * value) := map (fun kv => (KStr (fst kv), StrV (snd kv))) d.
Lemma dvals_get k d : dget key_eqb (KStr k) (dvals d) = option_map StrV (sget k d).
Proof. induction d as [|[k' v] d IH]; cbn; [reflexivity|]. destruct (str_eqb k k'); [reflexivity|exact IH]. Qed.
Lemma dvals_set k v d : dset key_eqb (KStr k) (StrV v) (dvals d) = dvals (sset k v d).
Proof. induction d as [|[k' v'] d IH]; cbn; [reflexivity|]. destruct (str_eqb k k'); [reflexivity|]. cbn. f_equal. exact IH. Qed.

Lemma slice_full {A} (s : list A) i n : (0 <= i <= zlen s)%Z -> zlen (py_slice s i (i + n)) = n ->
  (0 <= n)%Z /\ (i + n <= zlen s)%Z.
Proof.
  intros B L. assert (N : (0 <= n)%Z) by (rewrite <- L; apply zlen_nonneg). split; [exact N|].
  unfold py_slice, slice_index in L. rewrite (proj2 (Z.ltb_ge (i + n) 0)), (proj2 (Z.ltb_ge i 0)) in L by lia.
  unfold zlen in *. rewrite firstn_length, skipn_length in L. lia.
Qed.
Lemma slice_le {A} (s : list A) i j : (zlen (py_slice s i j) <= zlen s)%Z.
Proof. unfold py_slice, zlen. rewrite firstn_length, skipn_length. lia. Qed.
Lemma land_one n : Z.land n 1 = (if Z.odd n then 1 else 0)%Z.
Proof. rewrite <- Zmod_odd. exact (Z.land_ones n 1 ltac:(lia)). Qed.
Lemma decode_length_state E s idx k fs lt lc st :
  snd (decode_length E s idx k fs lt lc st) = st.
Proof.
  unfold decode_length, prop, bind, ret, raise, formatted, draise.
  repeat match goal with
         | |- context [match ?x with _ => _ end] =>
             lazymatch x with context [match _ with _ => _ end] => fail | _ => destruct x end
         | |- _ => reflexivity
         end.
Qed.

Lemma shift_testbit n k : (k <= 8)%N -> negb (Z.land (Z.shiftr (Z.of_N n) (8 - Z.of_N k)) 1 =? 0)%Z = N.testbit n (8 - k).
Proof.
  intro H. rewrite land_one. replace (Z.odd _) with (N.testbit n (8 - k)); [destruct (N.testbit n (8 - k)); reflexivity|].
  rewrite <- Z.bit0_odd, Z.shiftr_spec by lia. replace (0 + (8 - Z.of_N k))%Z with (Z.of_N (8 - k)) by lia.
  symmetry. apply Z.testbit_of_N.
Qed.

Section Decode.
  Context (E : pyenv) (order : list Z -> list Z) (stdout : value) (tbl : list (string * string)).
  Context (h0 : heap) (a b : loc).
  Notation inv := (Inv h0 a b).
  Notation call := (call_fun E order stdout tbl decoder_py).

  Implicit Types (Q : outcome value -> heap -> Prop).

  (** DecodeError(msg, s, doc_dec, doc_enc, pos, field) *)
  Definition decode_error_obj (sv : value) (e : decode_error) : object :=
    InstO "DecodeError"
      [("msg", StrV (de_msg e)); ("s", sv); ("doc_dec", RefV a); ("doc_enc", RefV b);
       ("field", StrV (de_field e)); ("pos", IntV (de_pos e))] [StrV (de_args0 e)].
  Lemma sem_DecodeError n h items ed msg sv pos field s dd de Q :
    inv h items ed -> prints E pos = true ->
    (forall l h', inv h' items ed -> keeps [] h h' -> length h0 <= l ->
       hget h' l = Some (decode_error_obj sv (DecodeError msg s dd de pos field)) -> Q (Done (RefV l)) h') ->
    wp (instantiate (call (S n)) "DecodeError" [StrV msg; sv; RefV a; RefV b; IntV pos; StrV field]) Q h.
  Proof.
    intros I P H. unfold instantiate. run. apply wp_new. run. enter.
    assert (L := inv_length _ _ _ _ _ _ I).
    assert (I1 := inv_new _ _ _ _ _ _ (InstO "DecodeError" [] []) I).
    assert (G1 := hget_new h (InstO "DecodeError" [] [])).
    assert (K1 : keeps [length h] h (h ++ [InstO "DecodeError" [] []])) by apply keeps_new.
    revert I1 G1 K1. generalize (h ++ [InstO "DecodeError" [] []]). intros h1 I1 G1 K1.
    run. apply wp_int_text; [exact P|]. run.
    cbn [call_method String.eqb Ascii.eqb Bool.eqb andb]. run. eapply wp_get; [exact G1|]. run.
    apply wp_put. run.
    match goal with |- wp _ _ ?h2 =>
      assert (I2 : inv h2 items ed) by (eapply inv_put; eauto);
      assert (K2 : keeps [length h] h h2)
        by (eapply keeps_trans; [exact K1|apply keeps_hset_ex; left; reflexivity]);
      assert (G2 : hget h2 (length h) = Some (InstO "DecodeError" []
        [StrV (msg ++ u ": field " ++ field ++ u " pos " ++ zstr pos)]))
        by (apply hget_hset; eauto using hget_lt);
      revert I2 K2 G2; generalize h2
    end.
    intros h2 I2 K2 G2.
    eapply (wp_setattr h0 a b); [exact I2|exact L|exact K2|exact G2|]. intros h3 I3 K3 G3. run.
    eapply (wp_setattr h0 a b); [exact I3|exact L|exact K3|exact G3|]. intros h4 I4 K4 G4. run.
    eapply (wp_setattr h0 a b); [exact I4|exact L|exact K4|exact G4|]. intros h5 I5 K5 G5. run.
    eapply (wp_setattr h0 a b); [exact I5|exact L|exact K5|exact G5|]. intros h6 I6 K6 G6. run.
    eapply (wp_setattr h0 a b); [exact I6|exact L|exact K6|exact G6|]. intros h7 I7 K7 G7. run.
    eapply (wp_setattr h0 a b); [exact I7|exact L|exact K7|exact G7|]. intros h8 I8 K8 G8. run.
    apply H; [exact I8|apply keeps_drop; exact K8|exact L|exact G8].
  Qed.

  Definition dinv (h : heap) (st : dstate) : Prop := inv h (dvals (d_dec st)) (d_enc st).
  (** The exception the model names, as an object. *)
  Definition raised (sv : value) (s : pybuf) (st : dstate) (h : heap) (xv : value) (x : exn) : Prop :=
    match x with
    | XDecodeError e =>
        de_s e = s /\ de_doc_dec e = d_dec st /\ de_doc_enc e = d_enc st /\
        exists l, xv = RefV l /\ length h0 <= l /\ hget h l = Some (decode_error_obj sv e)
    | XKeyError k => xv = ExcV "KeyError" k
    | XTypeError t => xv = ExcV "TypeError" t
    | XValueError => exists t, xv = ExcV "ValueError" t
    | _ => False
    end.
  Ltac here := eapply inv_framed; eassumption.
  Definition dpost (ex : list loc) (h : heap) (sv : value) (s : pybuf) {A} (inj : A -> value) (P : heap -> A -> Prop)
      (r : res exn A * dstate) (o : outcome value) (h' : heap) : Prop :=
    keeps ex h h' /\ dinv h' (snd r) /\
    match fst r with
    | Ok v => o = Done (inj v) /\ P h' v
    | Raise x => exists xv, o = Thrown xv /\ raised sv s (snd r) h' xv x
    end.

  Lemma wp_dget h st k Q : dinv h st ->
    match sget k (d_dec st) with
    | Some v => Q (Done (StrV v)) h
    | None => Q (Thrown (ExcV "KeyError" k)) h
    end -> wp (getitem (RefV a) (StrV k)) Q h.
  Proof.
    intros I H. eapply wp_get_dec; [exact I|reflexivity|]. rewrite dvals_get. destruct (sget k (d_dec st)); exact H.
  Qed.
  Lemma wp_dset h st k v (Q : outcome unit -> heap -> Prop) : dinv h st ->
    (forall h', dinv h' (mkD (sset k v (d_dec st)) (d_enc st)) -> keeps [] h h' -> Q (Done tt) h') ->
    wp (setitem (RefV a) (StrV k) (StrV v)) Q h.
  Proof.
    intros I H. eapply wp_set_dec; [exact I|reflexivity|]. rewrite dvals_set. exact H.
  Qed.
  Lemma sem_draise n h st msg sv s pos field Q : dinv h st -> prints E pos = true ->
    (forall l h', dinv h' st -> keeps [] h h' ->
       raised sv s st h' (RefV l) (XDecodeError (DecodeError msg s (d_dec st) (d_enc st) pos field)) ->
       Q (Done (RefV l)) h') ->
    wp (instantiate (call (S n)) "DecodeError" [StrV msg; sv; RefV a; RefV b; IntV pos; StrV field]) Q h.
  Proof.
    intros I P H. eapply (sem_DecodeError n h _ _ msg sv pos field s (d_dec st) (d_enc st)); [exact I|exact P|].
    intros l h' I' K L G. apply H; [exact I'|exact K|]. repeat split. exists l. auto.
  Qed.

  Lemma dpost_raise {A} ex h sv s (inj : A -> value) P msg idx k st l h' :
    keeps ex h h' -> dinv h' st ->
    raised sv s st h' (RefV l) (XDecodeError (DecodeError msg s (d_dec st) (d_enc st) idx k)) ->
    dpost ex h sv s inj P (draise s msg idx k st) (Thrown (RefV l)) h'.
  Proof. intros K I R. split; [exact K|]. split; [exact I|]. exists (RefV l). split; [reflexivity|exact R]. Qed.
  Lemma dpost_ok {A} ex h sv s (inj : A -> value) (P : heap -> A -> Prop) st v h' :
    keeps ex h h' -> dinv h' st -> P h' v -> dpost ex h sv s inj P (Ok v, st) (Done (inj v)) h'.
  Proof. intros K I R. split; [exact K|]. split; [exact I|]. split; [reflexivity|exact R]. Qed.
  Lemma dpost_exn {A} ex h sv s (inj : A -> value) P st x xv h' :
    keeps ex h h' -> dinv h' st -> raised sv s st h' xv x ->
    dpost ex h sv s inj P (Raise x, st) (Thrown xv) h'.
  Proof. intros K I R. split; [exact K|]. split; [exact I|]. exists xv. split; [reflexivity|exact R]. Qed.

  Lemma wp_dslice h st v bs i j Q : dinv h st -> buf h v bs ->
    (forall v' h', dinv h' st -> keeps [] h h' -> buf h' v' (py_slice bs i j) -> Q (Done v') h') ->
    wp (getslice v (IntV i) (IntV j)) Q h.
  Proof. intros I. exact (wp_slice h0 a b h _ _ v bs i j Q I). Qed.
  Lemma wp_denc h st k e (Q : outcome unit -> heap -> Prop) : dinv h st ->
    (forall h', dinv h' (mkD (d_dec st) (sset k e (d_enc st))) -> keeps [] h h' -> Q (Done tt) h') ->
    wp (setitem (RefV b) (StrV k) (RefV (length h))) Q (h ++ [entry_obj e]).
  Proof. intro I. exact (wp_set_enc h0 a b h _ _ k e Q I). Qed.
  Lemma wp_eget h st k Q : dinv h st ->
    match sget k (d_enc st) with
    | Some e => forall l, hget h l = Some (entry_obj e) ->
        (forall e', dinv (hset h l (entry_obj e')) (mkD (d_dec st) (sset k e' (d_enc st)))) -> Q (Done (RefV l)) h
    | None => Q (Thrown (ExcV "KeyError" k)) h
    end -> wp (getitem (RefV b) (StrV k)) Q h.
  Proof. intro I. exact (wp_get_enc h0 a b h _ _ k Q I). Qed.
  Lemma wp_edata h st k l e d (Q : outcome unit -> heap -> Prop) : hget h l = Some (entry_obj e) ->
    (forall e', dinv (hset h l (entry_obj e')) (mkD (d_dec st) (sset k e' (d_enc st)))) ->
    (forall h', dinv h' (mkD (d_dec st) (sset k (mkEntry (e_len e) d) (d_enc st))) -> keeps [] h h' -> Q (Done tt) h') ->
    wp (setitem (RefV l) (StrV (u "data")) (BytesV d)) Q h.
  Proof. exact (wp_entry_set_data h0 a b h _ _ k l e d Q). Qed.

  (** A call of a function already dealt with. *)
  Lemma wp_dcall {A} (m : comp value) ex h sv s (inj : A -> value) (P : heap -> A -> Prop) res Q :
    wp m (dpost ex h sv s inj P res) h ->
    (forall v st', res = (Ok v, st') -> forall h', dinv h' st' -> keeps ex h h' -> P h' v -> Q (Done (inj v)) h') ->
    (forall x st', res = (Raise x, st') -> forall h', dinv h' st' -> keeps ex h h' -> forall xv, raised sv s st' h' xv x -> Q (Thrown xv) h') ->
    wp m Q h.
  Proof.
    intros W H1 H2. eapply wp_mono; [exact W|]. intros o h' (K & I & H). destruct res as [[v|x] st']; cbn [fst snd] in *.
    - destruct H as [-> H]. eapply H1; eauto.
    - destruct H as (xv & -> & H). eapply H2; eauto.
  Qed.

  (** After a part of a function: what the model says so far, the local variables. *)
  Definition dpart (ex : list loc) (h : heap) (sv : value) (s : pybuf) {A}
      (N : A -> env -> Prop) (r : res exn A * dstate) (c : ctl) (r' : env) (h' : heap) : Prop :=
    keeps ex h h' /\ dinv h' (snd r) /\
    match fst r with
    | Ok v => c = Next /\ N v r'
    | Raise x => exists xv, c = Threw xv /\ raised sv s (snd r) h' xv x
    end.
  Lemma dpart_raise {A} ex h sv s (N : A -> env -> Prop) msg idx k st l r' h' :
    keeps ex h h' -> dinv h' st ->
    raised sv s st h' (RefV l) (XDecodeError (DecodeError msg s (d_dec st) (d_enc st) idx k)) ->
    dpart ex h sv s N (draise s msg idx k st) (Threw (RefV l)) r' h'.
  Proof. intros K I R. split; [exact K|]. split; [exact I|]. exists (RefV l). split; [reflexivity|exact R]. Qed.
  Lemma dpart_ok {A} ex h sv s (N : A -> env -> Prop) st v r' h' :
    keeps ex h h' -> dinv h' st -> N v r' -> dpart ex h sv s N (Ok v, st) Next r' h'.
  Proof. intros K I R. split; [exact K|]. split; [exact I|]. split; [reflexivity|exact R]. Qed.
  Lemma dpart_exn {A} ex h sv s (N : A -> env -> Prop) st x xv r' h' :
    keeps ex h h' -> dinv h' st -> raised sv s st h' xv x ->
    dpart ex h sv s N (Raise x, st) (Threw xv) r' h'.
  Proof. intros K I R. split; [exact K|]. split; [exact I|]. exists xv. split; [reflexivity|exact R]. Qed.

  Lemma wps_dpart {A} m r ex h sv s (N : A -> env -> Prop) res (Q : ctl -> env -> heap -> Prop) :
    wps m (dpart ex h sv s N res) r h ->
    (forall v st', res = (Ok v, st') -> forall h', dinv h' st' -> keeps ex h h' -> forall r', N v r' -> Q Next r' h') ->
    (forall x st', res = (Raise x, st') -> forall h', dinv h' st' -> keeps ex h h' ->
       forall xv r', raised sv s st' h' xv x -> Q (Threw xv) r' h') ->
    wps m Q r h.
  Proof.
    intros W H1 H2. eapply wps_mono; [exact W|]. intros c r' h' (K & I & H). destruct res as [[v|x] st']; cbn [fst snd] in *.
    - destruct H as [-> H]. eapply H1; eauto.
    - destruct H as (xv & -> & H). eapply H2; eauto.
  Qed.

  (** A new heap h1: bring what is known about the old one along. *)
  Ltac adv :=
    let h1 := fresh "h" in let I1 := fresh "I" in let K1 := fresh "K" in intros h1 I1 K1;
    match goal with
    | I : dinv ?h _, K : keeps ?ex ?h00 ?h |- _ =>
        repeat match goal with B : buf h _ _ |- _ => apply (buf_keeps _ _ _ _ K1) in B end;
        repeat match goal with G : hget h _ = Some (SetO _) |- _ => apply (set_keeps _ _ _ _ K1) in G end;
        let K2 := fresh "K" in
        assert (K2 : keeps ex h00 h1) by (exact (keeps_trans _ _ _ _ K (keeps_weaken _ _ _ K1)));
        clear K K1 I; try clear h; rename K2 into K; rename I1 into I
    end.
  (** doc_enc[field_key]["data"], known by Ge *)
  Ltac eread Ge := 
    match goal with I : dinv ?h _ |- wp (getitem _ _) _ ?h => eapply wp_eget; [exact I|] end; rewrite Ge;
    let l := fresh "l" in let Gl := fresh "Gl" in intros l Gl _; run; eapply wp_entry_data; [exact Gl|];
    cbn [e_data]; run; clear Gl l.
  (** raise DecodeError(...) *)
  Ltac fail_with st s := eapply (sem_draise _ _ st _ _ s); [eassumption|eauto|];
    let l := fresh "l" in let h := fresh "h" in let I := fresh "I" in let K := fresh "K" in let R := fresh "R" in
    intros l h I K R; run; first [apply dpost_raise|apply dpart_raise];
    [first [exact K | eapply keeps_trans; [eassumption|apply keeps_weaken, K]] | exact I | exact R].

  (** _decode_text_data *)
  Lemma sem_text n h st sv s data dv idx k fv fs :
    dinv h st -> buf h dv data -> fs_held h0 a fv fs -> prints E idx = true ->
    wp (call (S (S n)) "_decode_text_data" [sv; dv; IntV idx; RefV a; RefV b; StrV k; fv])
       (dpost [] h sv s StrV (fun _ _ => True) (decode_text_data E s data idx k fs st)) h.
  Proof.
    intros I B R P. enter. unfold decode_text_data. run.
    eapply wp_buf_attr; [exact B|reflexivity|]. run.
    eapply wp_prop; [here|exact R|intro; apply rep_data_enc|]. destruct (fs_data_enc fs) as [enc|]; cbv beta iota.
    - run. eapply wp_buf_decode; [exact B|]. destruct (bytes_decode E enc data); run.
      + apply dpost_ok; auto using keeps_refl.
      + fail_with st s.
      + fail_with st s.
    - run. fail_with st s.
  Qed.

  (** _remove_pad_field *)
  Context (small : forall n, (0 <= n < 2 ^ 70)%Z -> prints E n = true).
  Lemma sem_pad n h st sv s d idx k fv fs m :
    dinv h st -> fs_held h0 a fv fs -> prints E idx = true -> sget k (d_dec st) = Some d -> (zlen d < 2 ^ 70)%Z ->
    wp (call (S (S n)) "_remove_pad_field" [sv; IntV idx; RefV a; RefV b; StrV k; fv; IntV m])
       (dpost [] h sv s StrV (fun _ _ => True) (remove_pad_field E s idx k fs m st)) h.
  Proof.
    intros I R P G L. enter. run. unfold remove_pad_field, bind, get_dec. rewrite G.
    eapply wp_map_attr; [here|exact R|]. run. eapply wp_prop_get; [here|exact R|intro; apply rep_left_pad|]. run. apply wp_first. change (u "") with (@nil N).
    set (lp := firstn 1 (prop_default (fs_left_pad fs) [])). run.
    destruct (0 <? zlen lp)%Z eqn:Z1; cbn [andb]; run.
    1: eapply wp_dget; [exact I|]; rewrite G; run; apply wp_first; run.
    1: destruct (str_eqb (firstn 1 d) lp) eqn:Z2; run.
    1: { eapply wp_dget; [exact I|]. rewrite G. run. apply wp_rest. run. apply dpost_ok; auto using keeps_refl. }
    all: eapply wp_map_attr; [here|exact R|]; run; eapply wp_prop_get; [here|exact R|intro; apply rep_right_pad|]; run; apply wp_first; change (u "") with (@nil N).
    all: set (rp := firstn 1 (prop_default (fs_right_pad fs) [])); run.
    all: destruct (0 <? zlen rp)%Z eqn:Z3; cbn [andb]; run.
    all: eapply wp_dget; [exact I|]; rewrite G; run.
    1,3: apply wp_last; run; destruct (str_eqb (skipn (length d - 1) d) rp) eqn:Z4; run.
    1,3: eapply wp_dget; [exact I|]; rewrite G; run; apply wp_butlast; run; apply dpost_ok; auto using keeps_refl.
    1,2: eapply wp_dget; [exact I|]; rewrite G; run.
    all: apply wp_int_text; [apply small; unfold zlen in *; lia|]; run.
    all: unfold formatted; cbn [forallb]; destruct (prints E m) eqn:Pm; cbn [andb];
      [apply wp_int_text; [exact Pm|]; run; fail_with st s
      |apply wp_int_untext; [exact Pm|]; intro t; run; apply dpost_exn; eauto using keeps_refl].
    all: exists t; reflexivity.
  Qed.

  (** _decode_field *)
  Definition field_env sv idx k fv lt lc : env :=
    [("s", sv); ("doc_dec", RefV a); ("doc_enc", RefV b); ("idx", IntV idx); ("field_key", StrV k);
     ("field_spec", fv); ("len_type", IntV lt); ("len_count", StrV lc)].
  Definition len_env vars sv idx k fv lt lc m (r : env) : Prop :=
    binds (field_env sv idx k fv lt lc ++ [("enc_field_len", IntV m)]) r /\ dom vars r.
  Ltac pose_env := match goal with
    | |- wps ?s ?Q ?r ?h => let r1 := fresh "r" in let r' := eval cbv [field_env app] in r in
        pose (r1 := r'); change (wps s Q r1 h)
    end.
  Lemma sem_field n h st sv s bs idx k fv fs :
    dinv h st -> buf h sv bs -> bs = buf_bytes s -> fs_held h0 a fv fs -> (0 <= idx <= zlen bs)%Z -> (zlen bs < 2 ^ 63)%Z ->
    wp (call (S (S (S n))) "_decode_field" [sv; RefV a; RefV b; IntV idx; StrV k; fv])
       (dpost [] h sv s IntV (fun _ v => (0 <= v <= zlen bs)%Z) (decode_field E s idx k fs st)) h.
  Proof.
    intros I B Es R BI BL. assert (P : prints E idx = true) by (apply small; lia).
    remember (decode_field E s idx k fs st) as res eqn:Hm.
    enter. unfold decode_field, bind, prop, set_dec, set_enc in Hm. rewrite <- Es in Hm. 
    assert (K := keeps_refl [] h). assert (B0 : unit -> buf h sv bs) by (intro; exact B).
    run. eapply wp_prop; [here|exact R|intro; apply rep_len_type|]. destruct (fs_len_type fs) as [lt|]; cbv beta iota in *; run.
    2: { rewrite Hm. apply dpost_exn; [exact K|exact I|reflexivity]. }
    cbv beta iota zeta delta [ret] in Hm.
    eapply wp_map_attr; [here|exact R|]. run. eapply wp_prop_get; [here|exact R|intro; apply rep_len_count|]. change (u "bytes") with str_bytes.
    set (lc := prop_default (fs_len_count fs) str_bytes) in *. run.
    eapply wp_dset; [exact I|]. change (u "") with (@nil N). adv. run.
    eapply wp_dslice; [exact I|exact B|]. set (raw := py_slice bs idx (idx + lt)) in *. intro v1. adv. intro B1. run.
    eapply wp_bytes; [exact B1|]. run. clear B1 v1. cbn [key_of]. run. apply wp_new. run.
    eapply (wp_denc _ _ _ (mkEntry raw [])); [exact I|]. cbn [d_dec d_enc] in *. adv.
    set (st2 := mkD (sset k [] (d_dec st)) (sset k (mkEntry raw []) (d_enc st))) in *. run.
    eapply wp_dslice; [exact I|exact B|]. intro v1. adv. intro B1. run. fold raw in B1.
    eapply wp_len; [exact B1|]. run. clear B1 v1.
    destruct (zlen raw =? lt)%Z eqn:Zl; cbn [negb] in *; run.
    2: { eapply wp_dslice; [exact I|exact B|]. intro v1. adv. intro B1. run. fold raw in B1.
      eapply wp_len; [exact B1|]. run. apply wp_int_text; [apply small; assert (X := slice_le bs idx (idx + lt)); fold raw in X; assert (Y := zlen_nonneg raw); lia|]. run.
      unfold formatted in Hm; cbn [forallb] in Hm. rewrite Hm. 
      destruct (prints E lt) eqn:Pm; cbn [andb].
      - apply wp_int_text; [exact Pm|]. run. fail_with st2 s.
      - apply wp_int_untext; [exact Pm|]; intro t; run; apply dpost_exn; eauto. exists t. reflexivity. }
    cbv beta iota in Hm. match type of Hm with context [decode_length E s idx k fs lt lc ?x] => change x with st2 in Hm end.
    destruct (slice_full bs idx lt BI) as [Lt0 Lt1]; [fold raw; lia|].
    eapply (wps_mono _ (dpart [] h sv s (len_env vars sv idx k fv lt lc)
      (decode_length E s idx k fs lt lc st2))).
    { clear Hm rest0.
      remember (decode_length E s idx k fs lt lc st2) as part eqn:Hm.
      unfold decode_length, bind, prop in Hm. rewrite <- Es in Hm. fold raw in Hm. run.
      destruct (lt =? 0)%Z eqn:Z0; [run|walk].
      - eapply wp_prop; [here|exact R|intro; apply rep_max_len|]. destruct (fs_max_len fs) as [ml|]; rewrite Hm; run;
          [apply dpart_ok; [exact K|exact I|split; [repeat constructor|apply dom_list; reflexivity]]|apply dpart_exn; [exact K|exact I|reflexivity]].
      - assert (Max : forall m r0 h2, dinv h2 st2 -> keeps [] h h2 ->
          match fs_max_len fs with
          | Some ml => if (ml <? m)%Z then
              formatted E [m; ml] (draise s (u "Field data is " ++ zstr m ++ u " " ++ lc
                 ++ u ", larger than maximum " ++ zstr ml) idx k) st2
              else (Ok m, st2)
          | None => (Raise (XKeyError (u "max_len")), st2)
          end = part ->
          len_env vars sv idx k fv lt lc m r0 ->
          wps (exec_block E order stdout tbl (call (S (S n))) vars
            [If (Compare (Name "enc_field_len") CmpGt (Subscript (Name "field_spec") (Constant (CStr "max_len"))))
              [RaiseS
                 (Call (Name "DecodeError")
                    [JoinedStr
                       [Constant (CStr "Field data is "); Name "enc_field_len"; Constant (CStr " ");
                        Name "len_count"; Constant (CStr ", larger than maximum ");
                        Subscript (Name "field_spec") (Constant (CStr "max_len"))]; 
                     Name "s"; Name "doc_dec"; Name "doc_enc"; Name "idx"; Name "field_key"] [])] []])
            (dpart [] h sv s (len_env vars sv idx k fv lt lc) part) r0 h2).
        { clear Hm B I K. intros m r0 h9 I K Hm Hr.
          destruct Hr as [Br Dr]; cbn [field_env app] in Br; run;
            (eapply wp_prop; [here|exact R|intro; apply rep_max_len|]); (destruct (fs_max_len fs) as [ml|] eqn:Fm; run;
            [destruct (ml <? m)%Z; run|rewrite <- Hm; apply dpart_exn; [exact K|exact I|reflexivity]]);
            try (rewrite <- Hm; apply dpart_ok; [exact K|exact I|split; [exact Br|exact Dr]]).
          all: rewrite <- Hm; clear Hm; unfold formatted; cbn [forallb];
            (destruct (prints E m) eqn:Pm; cbn [andb];
             [apply wp_int_text; [exact Pm|]
             |apply wp_int_untext; [exact Pm|]; intro t0; run; apply dpart_exn; eauto; exists t0; reflexivity]);
            run; (eapply wp_prop; [here|exact R|intro; apply rep_max_len|]); rewrite Fm; run;
            (destruct (prints E ml) eqn:Pl; cbn [andb];
             [apply wp_int_text; [exact Pl|]
             |apply wp_int_untext; [exact Pl|]; intro t0; run; apply dpart_exn; eauto; exists t0; reflexivity]);
            run; fail_with st2 s. }
        destruct (fs_len_enc fs) as [le|] eqn:Fe; cbv beta iota zeta delta [ret raise] in Hm.
        2: { run. eapply wp_prop; [here|exact R|intro; apply rep_len_enc|]. rewrite Fe. run. rewrite Hm. apply dpart_exn; [exact K|exact I|reflexivity]. }
        match type of Hm with part = (let (_, _) := ?x in _) => remember x as inner eqn:Hi end.
        assert (Si : snd inner = st2).
        { rewrite Hi. unfold draise, ret. clear.
          destruct (str_eqb le str_b); [reflexivity|]. destruct (str_eqb le str_bcd).
          - destruct (py_int E (py_hex raw)); reflexivity.
          - destruct (bytes_decode E le raw) as [t| |]; [destruct (py_int E t)| |]; reflexivity. }
        eapply (wps_mono _ (dpart [] h sv s (len_env vars sv idx k fv lt lc) inner)).
        2: { clear Hi. intros c r' h' (K' & I' & H'). 
          destruct inner as [[m|x] st']; cbn [fst snd] in *; subst st'.
          - destruct H' as [-> N']. apply (Max m); [exact I'|exact K'| |exact N'].
              rewrite Hm. destruct (fs_max_len fs) as [ml|]; [destruct (ml <? m)%Z|]; reflexivity.
          - destruct H' as (xv & -> & Rx). rewrite Hm. apply dpart_exn; assumption. }
        run. eapply wp_prop; [here|exact R|intro; apply rep_len_enc|]. rewrite Fe. run.
        change (u "b") with str_b. destruct (str_eqb le str_b) eqn:Ze; run.
        + eapply wp_dslice; [exact I|exact B|]. intro v1. adv. intro B1. fold raw in B1. run.
          eapply wp_from_bytes; [exact B1|]. run. rewrite Hi. apply dpart_ok; [exact K|exact I|split; [repeat constructor|apply dom_list; reflexivity]].
        + eapply wp_prop; [here|exact R|intro; apply rep_len_enc|]. rewrite Fe. run.
          change (u "bcd") with str_bcd. destruct (str_eqb le str_bcd) eqn:Zb; run.
          * eapply wp_dslice; [exact I|exact B|]. intro v1. adv. intro B1. fold raw in B1. run.
            eapply wp_buf_attr; [exact B1|reflexivity|]. run. eapply wp_buf_hex; [exact B1|]. run.
            apply wp_int; [right; reflexivity|]. destruct (py_int E (py_hex raw)) as [m|]; run; rewrite Hi.
            -- apply dpart_ok; [exact K|exact I|split; [repeat constructor|apply dom_list; reflexivity]].
            -- fail_with st2 s.
          * eapply wp_dslice; [exact I|exact B|]. intro v1. adv. intro B1. fold raw in B1. run.
            eapply wp_buf_attr; [exact B1|reflexivity|]. run. 
            eapply wp_prop; [here|exact R|intro; apply rep_len_enc|]. rewrite Fe. run. eapply wp_buf_decode; [exact B1|].
            destruct (bytes_decode E le raw) as [t| |]; run; [|rewrite Hi; fail_with st2 s..].
            apply wp_int; [left; reflexivity|]. destruct (py_int E t) as [m|]; run; rewrite Hi.
            -- apply dpart_ok; [exact K|exact I|split; [repeat constructor|apply dom_list; reflexivity]].
            -- fail_with st2 s. }
    clear I K B. intros c r' h' (K & I & H'). 
    assert (X := decode_length_state E s idx k fs lt lc st2). assert (B := buf_keeps _ _ _ _ K (B0 tt)). clear B0.
    remember (decode_length E s idx k fs lt lc st2) as dl eqn:Hd. clear Hd. destruct dl as [[m|x] st']; cbn [fst snd] in *; subst st'.
    2: { destruct H' as (xv & -> & Rx). run. rewrite Hm. apply dpost_exn; assumption. }
    destruct H' as [-> Hr]. assert (P2 : prints E (idx + lt) = true) by (apply small; lia).
    destruct Hr as [Br Dr]; cbn [field_env app] in Br. clear r.
    run. destruct (m =? 0)%Z eqn:Zm; run.
    { rewrite Hm. apply dpost_ok; [exact K|exact I|lia]. }
    walk. set (bl := byte_len lc m) in *.
    eapply (wps_mono _ (fun c r0 h0' => c = Next /\ h0' = h' /\ dom vars r0 /\
      binds [("s", sv); ("doc_dec", RefV a); ("doc_enc", RefV b); ("idx", IntV (idx + lt)); ("field_key", StrV k);
        ("field_spec", fv); ("len_type", IntV lt); ("len_count", StrV lc); ("enc_field_len", IntV m);
        ("byte_field_len", IntV bl)] r0)).
    { clear Hm rest. run. change (u "nibbles") with str_nibbles. unfold bl, byte_len.
      destruct (str_eqb lc str_nibbles); run; [|repeat split; assumption].
      rewrite land_one. destruct (Z.odd m); run; repeat split; assumption. }
    forget_env. intros c r' h3 (-> & -> & Dr & Br). run.
    eapply wp_dslice; [exact I|exact B|]. set (data := py_slice bs (idx + lt) (idx + lt + bl)) in *.
    intro v1. adv. intro B1. run. eapply wp_bytes; [exact B1|]. clear B1 v1. run.
    subst st2. unfold set_enc_data, bind, get_enc, set_enc, ret in Hm. cbn [d_enc d_dec] in Hm. rewrite sget_sset in Hm. cbn [e_len d_enc d_dec] in Hm. rewrite sset_sset in Hm.
    eapply wp_eget; [exact I|]. cbn [d_enc]. rewrite sget_sset. intros l Gl Sl. run.
    eapply wp_edata; [exact Gl|exact Sl|]. cbn [d_enc d_dec e_len]. adv. clear Gl Sl l.
    rewrite sset_sset in I. set (st2 := mkD (sset k [] (d_dec st)) (sset k (mkEntry raw data) (d_enc st))) in *.
    assert (Ge : sget k (d_enc st2) = Some (mkEntry raw data)) by apply sget_sset.
    assert (Dl := slice_le bs (idx + lt) (idx + lt + bl)). fold data in Dl. assert (Dn := zlen_nonneg data).
    run. eread Ge. match type of Hm with context [if negb (zlen ?x =? bl)%Z then _ else _] => change x with data in Hm end.
    destruct (zlen data =? bl)%Z eqn:Zd; cbn [negb] in *; run.
    2: { change (u "nibbles") with str_nibbles.
      destruct (str_eqb lc str_nibbles); run; eread Ge; run; 
        (apply wp_int_text; [apply small; lia|]; run);
        rewrite Hm; unfold formatted; cbn [forallb];
        (destruct (prints E m) eqn:Pm; cbn [andb];
         [apply wp_int_text; [exact Pm|]; run; fail_with st2 s
         |apply wp_int_untext; [exact Pm|]; intro t0; run; apply dpost_exn; eauto; exists t0; reflexivity]). }
    destruct (slice_full bs (idx + lt) bl) as [Bl0 Bl1]; [lia|fold data; lia|].
    eapply wp_prop; [here|exact R|intro; apply rep_data_enc|]. unfold prop in Hm. destruct (fs_data_enc fs) as [de|] eqn:Fd; run;
      [|rewrite Hm; apply dpost_exn; [exact K|exact I|reflexivity]].
    cbv beta iota zeta delta [ret] in Hm.
    change (u "b") with str_b. destruct (str_eqb de str_b) eqn:Zb; cbv beta iota zeta delta [set_dec] in Hm; run.
    + eread Ge. eapply wp_dset; [exact I|]. adv. run.
      change (u "nibbles") with str_nibbles. 
      destruct (str_eqb lc str_nibbles) eqn:Zn; run; cbn [andb] in Hm;
        [rewrite land_one; destruct (Z.odd m) eqn:Om; run|].
      2,3: rewrite Hm; apply dpost_ok; [exact K|exact I|lia].
      eapply wp_dcall; [eapply (sem_pad _ _ _ _ s); [exact I|exact R|exact P2|apply sget_sset|]
        |intros t st' Hp; adv; intros _|intros x st' Hp; adv; intros xv Rx].
      * unfold zlen, py_upper in *. rewrite map_length, py_hex_length. lia.
      * run. match type of Hm with context [remove_pad_field E s ?x k fs m ?y] =>
          change (remove_pad_field E s x k fs m y) with (remove_pad_field E s (idx + lt) k fs m
            (mkD (sset k (py_upper (py_hex data)) (d_dec st2)) (d_enc st2))) in Hm end.
        rewrite Hp in Hm. eapply wp_dset; [exact I|]. adv. run. rewrite Hm. apply dpost_ok; [exact K|exact I|lia].
      * run. match type of Hm with context [remove_pad_field E s ?x k fs m ?y] =>
          change (remove_pad_field E s x k fs m y) with (remove_pad_field E s (idx + lt) k fs m
            (mkD (sset k (py_upper (py_hex data)) (d_dec st2)) (d_enc st2))) in Hm end.
        rewrite Hp in Hm. rewrite Hm. apply dpost_exn; assumption.
    + eread Ge. eapply wp_dcall; [eapply (sem_text _ _ _ _ s data); [exact I|left; reflexivity|exact R|exact P2]
        |intros t st' Hp; adv; intros _|intros x st' Hp; adv; intros xv Rx].
      * run. rewrite Hp in Hm. eapply wp_dset; [exact I|]. adv. run. rewrite Hm. apply dpost_ok; [exact K|exact I|lia].
      * run. rewrite Hp in Hm. rewrite Hm. apply dpost_exn; assumption.
  Qed.

  (** _decode_header *)
  Lemma sem_header n h st sv s bs idx spv sp :
    dinv h st -> buf h sv bs -> bs = buf_bytes s -> spec_held h0 a spv sp -> (0 <= idx <= zlen bs)%Z -> (zlen bs < 2 ^ 63)%Z ->
    wp (call (S (S (S (S n)))) "_decode_header" [sv; RefV a; RefV b; IntV idx; spv])
       (dpost [] h sv s IntV (fun _ v => (0 <= v <= zlen bs)%Z) (decode_header E s idx sp st)) h.
  Proof.
    intros I B Es R BI BL. remember (decode_header E s idx sp st) as res eqn:Hm. unfold decode_header, bind, spec_get in Hm.
    enter. run. eapply wp_spec; [here|exact R|].
    destruct (sget (u "h") sp) as [fs|] eqn:G; [intros fv Rf|]; run.
    2: { rewrite Hm. apply dpost_exn; [apply keeps_refl|exact I|reflexivity]. }
    eapply wp_prop; [here|exact Rf|intro; apply rep_max_len|]. unfold prop in Hm; cbv beta iota zeta delta [ret] in Hm. destruct (fs_max_len fs) as [ml|]; run.
    2: { rewrite Hm. apply dpost_exn; [apply keeps_refl|exact I|reflexivity]. }
    cbv beta iota zeta delta [ret] in Hm. destruct (ml <=? 0)%Z; run.
    { rewrite Hm. apply dpost_ok; [apply keeps_refl|exact I|lia]. }
    eapply wp_spec; [here|exact R|]. rewrite G. clear Rf fv. intros fv Rf. run. rewrite Hm.
    eapply wp_mono; [eapply sem_field; eassumption|]. intros o h' H.
    destruct o; run; first [exact H|destruct H as (_ & _ & H); destruct (fst _); [destruct H|destruct H as (? & ? & _)]; discriminate].
  Qed.

  (** _decode_type *)
  Lemma sem_type n h st sv s bs idx spv sp :
    dinv h st -> buf h sv bs -> bs = buf_bytes s -> spec_held h0 a spv sp -> (0 <= idx <= zlen bs)%Z -> (zlen bs < 2 ^ 63)%Z ->
    wp (call (S (S (S n))) "_decode_type" [sv; RefV a; RefV b; IntV idx; spv])
       (dpost [] h sv s IntV (fun _ v => (0 <= v <= zlen bs)%Z) (decode_type E s idx sp st)) h.
  Proof.
    intros I B Es R BI BL. remember (decode_type E s idx sp st) as res eqn:Hm. unfold decode_type, bind, spec_get in Hm.
    assert (P : prints E idx = true) by (apply small; lia). rewrite <- Es in Hm. 
    assert (K := keeps_refl [] h).
    enter. run. eapply wp_spec; [here|exact R|].
    destruct (sget (u "t") sp) as [fs|] eqn:G; [intros fv Rf|]; run.
    2: { rewrite Hm. apply dpost_exn; [exact K|exact I|reflexivity]. }
    eapply wp_prop; [here|exact Rf|intro; apply rep_data_enc|]. unfold prop in Hm; cbv beta iota zeta delta [ret] in Hm. destruct (fs_data_enc fs) as [de|] eqn:Fd; run.
    2: { rewrite Hm. apply dpost_exn; [exact K|exact I|reflexivity]. }
    cbv beta iota zeta delta [ret] in Hm. change (u "b") with str_b.
    set (ex := if str_eqb de str_b then 2%Z else 4%Z) in *.
    eapply (wps_mono _ (fun c r0 h0' => c = Next /\ h0' = h /\ dom vars r0 /\
      binds [("s", sv); ("doc_dec", RefV a); ("doc_enc", RefV b); ("idx", IntV idx); ("spec", spv);
        ("expected_field_len", IntV ex)] r0)).
    { clear rest. destruct (str_eqb de str_b); run; (split; [reflexivity|split; [reflexivity|split; [apply dom_list; reflexivity|repeat constructor]]]). }
    clear r. intros c r h3 (-> & -> & Dr & Br). run.
    eapply wp_dslice; [exact I|exact B|]. set (data := py_slice bs idx (idx + ex)) in *.
    intro v1. adv. intro B1. run.
    eapply wp_dset; [exact I|]. change (u "") with (@nil N). adv. run.
    eapply wp_bytes; [exact B1|]. run. cbn [key_of]. run. apply wp_new. run.
    eapply (wp_denc _ _ _ (mkEntry [] data)); [exact I|]. cbn [d_dec d_enc] in *. adv.
    unfold set_dec, set_enc in Hm. cbv beta iota zeta in Hm. cbn [d_dec d_enc] in Hm.
    set (st2 := mkD (sset (u "t") [] (d_dec st)) (sset (u "t") (mkEntry [] data) (d_enc st))) in *. run.
    eapply wp_len; [exact B1|]. run. match type of Hm with context [if negb (zlen ?x =? ex)%Z then _ else _] => change x with data in Hm end.
    assert (Dl := slice_le bs idx (idx + ex)). fold data in Dl. assert (Dn := zlen_nonneg data).
    assert (0 <= ex <= 4)%Z by (unfold ex; destruct (str_eqb de str_b); lia).
    destruct (zlen data =? ex)%Z eqn:Zd; cbn [negb] in *; run.
    2: { eapply wp_len; [exact B1|]. run. apply wp_int_text; [apply small; lia|]. run. apply wp_int_text; [apply small; lia|]. run.
      rewrite Hm. fail_with st2 s. }
    destruct (slice_full bs idx ex) as [Bl0 Bl1]; [lia|fold data; lia|].
    eapply wp_spec; [here|exact R|]. rewrite G. clear Rf fv. intros fv Rf. run.
    eapply wp_prop; [here|exact Rf|intro; apply rep_data_enc|]. rewrite Fd. run. change (u "b") with str_b.
    destruct (str_eqb de str_b); run.
    + eapply wp_buf_attr; [exact B1|reflexivity|]. run. eapply wp_buf_hex; [exact B1|]. run.
      eapply wp_dset; [exact I|]. adv. run. rewrite Hm. apply dpost_ok; [exact K|exact I|lia].
    + eapply wp_spec; [here|exact R|]. rewrite G. clear Rf fv. intros fv Rf. run.
      eapply wp_dcall; [eapply (sem_text _ _ _ _ s data); [exact I|exact B1|exact Rf|exact P]
        |intros t st' Hp; adv; intros _|intros x st' Hp; adv; intros xv Rx];
      (match type of Hm with context [decode_text_data E s ?x _ _ _ _] => change x with data in Hm end); rewrite Hp in Hm; run.
      * eapply wp_dset; [exact I|]. adv. run. rewrite Hm. apply dpost_ok; [exact K|exact I|lia].
      * rewrite Hm. apply dpost_exn; assumption.
  Qed.

  (** The list of fields a bitmap sets *)
  Definition bits_expr : expr :=
    ListComp (BinOp (BinOp (Name "field_offset") Add (BinOp (Name "byte_idx") Mult (Constant (CInt 8)))) Add (Name "bit"))
      [((Name "bit"), (Call (Name "range") [(Constant (CInt 1)); (Constant (CInt 9))] []), []);
       ((Tuple [(Name "byte_idx"); (Name "byte")]), (Call (Name "enumerate") [(Name "bitmap")] []),
        [(BinOp (BinOp (Name "byte") RShift (BinOp (Constant (CInt 8)) Sub (Name "bit"))) BitAnd (Constant (CInt 1)))])].
  Definition bitmap_vars : list string := Eval cbv in locals_of src__decode_bitmap.
  Lemma sem_bits c r h st off v bm Q :
    dom bitmap_vars r -> binds [("field_offset", IntV off); ("bitmap", v)] r -> dinv h st -> buf h v bm ->
    (forall l h', dinv h' st -> keeps [] h h' -> length h <= l -> hget h' l = Some (ListO (map IntV (bitmap_fields off bm))) -> Q (Done (RefV l)) h') ->
    wp (eval E order stdout tbl c bitmap_vars r bits_expr) Q h.
  Proof.
    intros D B I Bm H. unfold bits_expr. apply ev_ListComp. run. apply (wp_done (range_list 1 9 1)).
    change (range_list 1 9 1) with (map (fun k => IntV (Z.of_N k)) [1; 2; 3; 4; 5; 6; 7; 8]%N). run.
    apply (wp_each_map _ _ (fun bit => map IntV (flat_map (fun ib =>
      if N.testbit (b2n (snd ib)) (8 - bit)
      then [(off + Z.of_nat (fst ib) * 8 + Z.of_N bit)%Z] else [])
      (combine (seq 0 (length bm)) bm))) (fun h' => dinv h' st /\ keeps [] h h' /\ length h <= length h')).
    - intros k h1 Hk (I1 & K1 & L1). run. apply wp_nested; [|intros ? ? [? _]; discriminate].
      run. bind_var. run. apply (buf_keeps _ _ _ _ K1) in Bm.
      eapply wp_enumerate; [exact Bm|]. run. eapply wp_walk_enum; [exact Bm|]. intros wa h3 Sw. subst h3. run.
      match goal with |- wp _ _ ?h3 => 
        eapply (wp_each_map _ _ (fun ib => map IntV (if N.testbit (b2n (snd ib)) (8 - k)
          then [(off + Z.of_nat (fst ib) * 8 + Z.of_N k)%Z] else [])) (eq h3)); [|reflexivity|] end.
      + intros [i x] h2 Hi E2. cbn [fst snd]. apply wp_stepping. apply wp_nested; [|intros ? ? [[? _] _]; discriminate].
        run. bind_var. bind_var. run.
        assert (k <= 8)%N by (cbn in Hk; lia). apply wp_rshift; [lia|]. run. rewrite shift_testbit by assumption.
        destruct (N.testbit (b2n x) (8 - k)); run; (split; [split; auto|subst h2; exact Sw]).
      + intros h' <-. run. split.
        * rewrite concat_map_flat. reflexivity.
        * split; [apply inv_new, I1|]. split; [apply (keeps_trans _ _ _ _ K1), keeps_new|]. rewrite app_length. lia.
    - split; [exact I|]. split; [apply keeps_refl|lia].
    - intros h1 (I1 & K1 & L1). run. apply wp_new. apply H; [apply inv_new, I1|apply (keeps_trans _ _ _ _ K1), keeps_new|lia|].
      rewrite hget_new, concat_map_flat. reflexivity.
  Qed.

  (** _decode_bitmap *)
  Lemma sem_bitmap n h st sv s bs idx k fv fs off ext f F :
    dinv h st -> buf h sv bs -> bs = buf_bytes s -> fs_held h0 a fv fs -> (0 <= idx <= zlen bs)%Z -> (zlen bs < 2 ^ 63)%Z ->
    hget h f = Some (SetO F) -> length h0 <= f ->
    (ext = true -> forall e, sget k (d_enc st) = Some e -> (zlen (e_data e) < 2 ^ 63)%Z) ->
    wp (call (S (S (S n))) "_decode_bitmap" [sv; RefV a; RefV b; IntV idx; StrV k; fv; IntV off; BoolV ext; RefV f])
       (dpost [f] h sv s (fun r => IntV (fst r)) (fun h' r => (0 <= fst r <= zlen bs)%Z /\ hget h' f = Some (SetO (snd r)))
          (decode_bitmap E s idx k fs off ext F st)) h.
  Proof.
    intros I B Es R BI BL GF LF De. remember (decode_bitmap E s idx k fs off ext F st) as res eqn:Hm. unfold decode_bitmap in Hm.
    unfold bind at 1 in Hm. rewrite <- Es in Hm.
    assert (P : prints E idx = true) by (apply small; lia).
    assert (K := keeps_refl [f] h).
    enter. run. eapply wp_prop; [here|exact R|intro; apply rep_data_enc|]. unfold prop in Hm. destruct (fs_data_enc fs) as [de|] eqn:Fd; run.
    2: { rewrite Hm. apply dpost_exn; [exact K|exact I|reflexivity]. }
    unfold ret at 1 in Hm. cbv beta iota zeta in Hm. change (u "b") with str_b.
    set (ex := if str_eqb de str_b then 8%Z else 16%Z) in *.
    eapply (wps_mono _ (fun c r0 h0' => c = Next /\ h0' = h /\ dom vars r0 /\
      binds [("s", sv); ("doc_dec", RefV a); ("doc_enc", RefV b); ("idx", IntV idx); ("field_key", StrV k); ("field_spec", fv);
        ("field_offset", IntV off); ("is_extended", BoolV ext); ("fields", RefV f);
        ("expected_field_len", IntV ex)] r0)).
    { clear rest. destruct (str_eqb de str_b); run; (split; [reflexivity|split; [reflexivity|split; [apply dom_list; reflexivity|repeat constructor]]]). }
    clear r. intros c r h3 (-> & -> & Dr & Br). run.
    eapply wp_dslice; [exact I|exact B|]. set (data := py_slice bs idx (idx + ex)) in *.
    intro v1. adv. intro B1. walk.
    unfold bind at 1 in Hm.
    match type of Hm with _ = (let (_, _) := ?x st in _) => remember (x st) as pa eqn:Ha end.
    assert (Dl := slice_le bs idx (idx + ex)). fold data in Dl. assert (Dn := zlen_nonneg data).
    assert (0 <= ex <= 16)%Z by (unfold ex; destruct (str_eqb de str_b); lia).
    match goal with Bx : binds ?l _ |- _ =>
      eapply (wps_dpart _ _ [] _ sv s (fun _ r' => dom vars r' /\ binds l r' /\
        forall e, sget k (d_enc (snd pa)) = Some e -> (zlen (e_data e) < 2 ^ 64)%Z) pa) end.
    { clear Hm rest K. match goal with |- wps _ _ _ ?h9 => assert (K := keeps_refl [] h9) end.
      unfold bind, get_enc, set_enc, set_dec, ret in Ha. run. destruct ext; run.
      - eapply wp_eget; [exact I|]. destruct (sget k (d_enc st)) as [e|] eqn:Ge.
        2: { run. rewrite Ha. apply dpart_exn; [exact K|exact I|reflexivity]. }
        intros l Gl _. run. eapply wp_entry_data; [exact Gl|]. run. clear Gl l. eapply wp_bytes; [exact B1|]. run.
        eapply wp_eget; [exact I|]. rewrite Ge. intros l Gl Sl. run. eapply wp_edata; [exact Gl|exact Sl|]. adv. clear Gl Sl l.
        run. rewrite Ha. apply dpart_ok; [exact K|exact I|]. split; [assumption|]. split; [assumption|].
        cbn [snd d_enc]. intros e'. rewrite sget_sset. intro X. injection X as <-. cbn [e_data].
        specialize (De eq_refl e eq_refl). unfold zlen in *. rewrite app_length. lia.
      - eapply wp_dset; [exact I|]. change (u "") with (@nil N). adv. run.
        eapply wp_bytes; [exact B1|]. run. cbn [key_of]. run. apply wp_new. run.
        eapply (wp_denc _ _ _ (mkEntry [] data)); [exact I|]. cbn [d_dec d_enc] in *. adv.
        run. rewrite Ha. apply dpart_ok; [exact K|exact I|]. split; [assumption|]. split; [assumption|].
        cbn [snd d_enc]. intros e'. rewrite sget_sset. intro X. injection X as <-. cbn [e_data]. lia. }
    2: { intros x st' Hp. adv. intros xv r' Rx. run. rewrite Hp in Hm. rewrite Hm. apply dpost_exn; assumption. }
    forget_env. clear Ha. intros v st' Hp. adv. intros r (Dr & Br & De'). rewrite Hp in De', Hm. cbn [snd] in De'. clear Hp De st pa v.
    rename st' into st, De' into De. run.
    eapply wp_len; [exact B1|]. run. 
    destruct (zlen data =? ex)%Z eqn:Zd; cbn [negb] in *; run.
    2: { eapply wp_eget; [exact I|]. unfold bind, get_enc in Hm. destruct (sget k (d_enc st)) as [e|] eqn:Ge.
      2: { run. rewrite Hm. apply dpost_exn; [exact K|exact I|reflexivity]. }
      intros l Gl _. run. eapply wp_entry_data; [exact Gl|]. run.  
      apply wp_int_text; [apply small; specialize (De _ eq_refl); assert (Y := zlen_nonneg (e_data e)); lia|]. run. 
      destruct ext; run; (apply wp_int_text; [apply small; lia|]); run; rewrite Hm; fail_with st s. }
    destruct (slice_full bs idx ex) as [Bl0 Bl1]; [lia|fold data; lia|].
    eapply wp_prop; [here|exact R|intro; apply rep_data_enc|]. rewrite Fd. run. change (u "b") with str_b.
    unfold bind at 1 in Hm.
    match type of Hm with _ = (let (_, _) := ?x st in _) => remember (x st) as pb eqn:Hb end.
    eapply (wps_dpart _ _ [] _ sv s (fun bm r' => dom vars r' /\ exists v',
      binds [("field_offset", IntV off); ("bitmap", v'); ("fields", RefV f); ("idx", IntV idx); ("expected_field_len", IntV ex)] r' /\
      (v' = BytesV bm \/ v' = v1 /\ bm = data)) pb).
    { clear Hm rest K. match goal with |- wps _ _ _ ?h9 => assert (K := keeps_refl [] h9) end. 
      destruct (str_eqb de str_b); unfold bind, get_dec, set_dec, ret in Hb; run.
      - eapply wp_buf_attr; [exact B1|reflexivity|]. run. eapply wp_buf_hex; [exact B1|]. run.
        destruct ext; run; [eapply wp_dget; [exact I|]; destruct (sget k (d_dec st)) as [old|]; run|];
          try (rewrite Hb; apply dpart_exn; [exact K|exact I|reflexivity]);
          (eapply wp_dset; [exact I|]; adv; run; rewrite Hb; apply dpart_ok; [exact K|exact I|]); 
          (split; [assumption|exists v1; split; [eapply binds_less; [eassumption|repeat constructor]|right; auto]]).
      - eapply wp_dcall; [eapply (sem_text _ _ _ _ s data); [exact I|exact B1|exact R|exact P]
          |intros t st' Hp; adv; intros _|intros x st' Hp; adv; intros xv Rx]; rewrite Hp in Hb; run.
        2: { rewrite Hb. apply dpart_exn; assumption. }
        destruct ext; run; [eapply wp_dget; [exact I|]; destruct (sget k (d_dec st')) as [old|]; run|];
          try (rewrite Hb; apply dpart_exn; [exact K|exact I|reflexivity]);
          (eapply wp_dset; [exact I|]; adv; run; apply wp_fromhex; destruct (fromhex t) as [bm|] eqn:Hx; run; rewrite Hb);
          try (match goal with I : dinv _ ?st |- _ => fail_with st s end);
          (apply dpart_ok; [exact K|exact I|]); 
          (split; [assumption|exists (BytesV bm); split; [eapply binds_less; [eassumption|repeat constructor]|left; reflexivity]]). }
    2: { intros x st' Hp. adv. intros xv r' Rx. run. rewrite Hp in Hm. rewrite Hm. apply dpost_exn; assumption. }
    forget_env. clear Hb. intros bm st' Hp. adv. intros r (Dr & v' & Br & Hv). rewrite Hp in Hm.
    match type of B1 with buf ?hx _ _ => assert (Bv : buf hx v' bm) by (destruct Hv as [->|[-> ->]]; [left; reflexivity|exact B1]) end.
    run. eapply wp_set_attr; [exact GF|reflexivity|]. run. eapply (sem_bits _ r _ st' off v' bm);
      [exact Dr|eapply binds_less; [eassumption|repeat constructor]|exact I|exact Bv|]. intro l. adv. intros _ Gl. run.
    eapply wp_set_update; [exact GF|exact Gl|]. run. rewrite Hm.
    apply (dpost_ok [f] _ _ _ (fun r => IntV (fst r)) _ st' ((idx + ex)%Z, zupdate F (bitmap_fields off bm)) _).
    - apply (keeps_trans _ _ _ _ K), keeps_hset_ex. left. reflexivity.
    - eapply inv_put; [exact I|exact GF|reflexivity|exact LF].
    - cbn [fst snd]. split; [lia|]. apply hget_hset. eauto using hget_lt.
  Qed.
End Decode.
