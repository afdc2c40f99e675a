(** * SemDecodeTop: the text of decode() does what the model says. *)
From Coq Require Import ZifyBool ZifyNat ZifyN Permutation.
From Verif Require Import PyBase BaseFacts Types Decoder DecoderFacts PyAst Source PySem SemClaims SemFacts SemHeap SemStep SemDecode.
Local Open Scope string_scope.
Local Open Scope list_scope.

Definition few (x : Z) : Prop := (0 <= x < 2 ^ 65)%Z.
Lemma bitmap_fields_few off bm : (0 <= off <= 128)%Z -> (zlen bm < 2 ^ 60)%Z -> Forall few (bitmap_fields off bm).
Proof.
  intros O L. apply Forall_forall. intros x H. unfold bitmap_fields in H.
  apply in_flat_map in H as (k & Hk & H). apply in_flat_map in H as ([i y] & Hi & H).
  destruct (N.testbit _ _); [|destruct H]. destruct H as [<-|[]]. cbn [fst].
  apply in_combine_l in Hi. apply in_seq in Hi. unfold few, zlen in *.
  assert (1 <= k <= 8)%N by (cbn in Hk; lia). lia.
Qed.
Lemma zupdate_few F l : Forall few F -> Forall few l -> Forall few (zupdate F l).
Proof. rewrite !Forall_forall. intros A B x H. apply zupdate_in in H as [H|H]; auto. Qed.
Lemma zremove_few n F : Forall few F -> Forall few (zremove n F).
Proof. rewrite !Forall_forall. intros A x H. apply zremove_in in H as [H _]. auto. Qed.

Lemma zremove_sorted n F : zsorted F -> zsorted (zremove n F).
Proof. apply filter_sorted. Qed.

Lemma decode_bitmap_bound E s idx k fs off ext F st i F' st' : short_text E ->
  decode_bitmap E s idx k fs off ext F st = (Ok (i, F'), st') -> (0 <= off <= 128)%Z -> zsorted F -> Forall few F ->
  zsorted F' /\ Forall few F' /\ incl F F' /\ (ext = false -> exists e, sget k (d_enc st') = Some e /\ (zlen (e_data e) <= 16)%Z).
Proof.
  intros ST H O S Fw. unfold decode_bitmap, bind, prop in H.
  destruct (fs_data_enc fs) as [de|] eqn:Fd; [|discriminate]. cbv beta iota zeta delta [ret] in H.
  set (ex := if str_eqb de str_b then 8%Z else 16%Z) in *. set (data := py_slice (buf_bytes s) idx (idx + ex)) in *.
  assert (Hex : (ex <= 16)%Z) by (unfold ex; destruct (str_eqb de str_b); lia).
  assert (G : exists bm, F' = zupdate F (bitmap_fields off bm) /\ (zlen bm < 2 ^ 60)%Z /\
    (ext = false -> exists e, sget k (d_enc st') = Some e /\ (zlen (e_data e) <= 16)%Z)).
  { match type of H with (let (_, _) := ?x in _) = _ => destruct x as [[[]|x1] st1] eqn:H1; [|discriminate] end.
    destruct (zlen data =? ex)%Z eqn:Zd; cbn [negb] in H.
    2: { unfold get_enc, draise in H. destruct (sget k (d_enc st1)); discriminate. }
    assert (He : ext = false -> exists e, sget k (d_enc st1) = Some e /\ (zlen (e_data e) <= 16)%Z).
    { intros ->. unfold set_dec, set_enc in H1. injection H1 as <-. cbn [d_enc]. rewrite sget_sset.
      eexists. split; [reflexivity|]. cbn [e_data]. lia. }
    destruct (str_eqb de str_b).
    - exists data. destruct ext; unfold get_dec, set_dec in H.
      + destruct (sget k (d_dec st1)); [|discriminate]. injection H as _ <- <-. split; [reflexivity|]. split; [lia|discriminate].
      + injection H as _ <- <-. split; [reflexivity|]. split; [lia|]. intros _. cbn [d_enc]. auto.
    - unfold decode_text_data, draise in H. rewrite Fd in H. destruct (bytes_decode E de data) as [t| |] eqn:Bd; try discriminate.
      apply ST in Bd; [|lia]. unfold ret in H.
      destruct ext; unfold get_dec, set_dec in H; [destruct (sget k (d_dec st1)); [|discriminate]|];
        (destruct (fromhex t) as [bm|] eqn:Hx; [|discriminate]); injection H as _ <- <-; exists bm;
        (split; [reflexivity|]); apply fromhex_length in Hx; (split; [unfold zlen in *; lia|]); [discriminate|].
      intros _. cbn [d_enc]. auto. }
  destruct G as (bm & -> & L & He). split; [apply zupdate_sorted, S|]. split; [|split; [|exact He]].
  2: { intros x X. apply zupdate_in. left. exact X. }
  apply zupdate_few; [exact Fw|]. apply bitmap_fields_few; assumption.
Qed.

Definition decode_vars : list string := Eval cbv in locals_of src_decode.

(** A new heap: bring what is known about the old one along. *)
Ltac adv :=
  let h1 := fresh "h" in let I1 := fresh "I" in let K1 := fresh "K" in intros h1 I1 K1;
  match goal with
  | I : dinv _ _ _ ?h _, K : keeps ?ex ?h00 ?h |- _ =>
      repeat match goal with B : buf h _ _ |- _ => apply (buf_keeps _ _ _ _ K1) in B end;
      repeat match goal with G : hget h _ = Some (SetO _) |- _ => apply (set_keeps _ _ _ _ K1) in G end;
      let K2 := fresh "K" in
      assert (K2 : keeps ex h00 h1) by (exact (keeps_trans _ _ _ _ K (keeps_weaken _ _ _ K1)));
      clear K K1 I; try clear h; rename K2 into K; rename I1 into I
  end.

Section Top.
  Context (E : pyenv) (order : list Z -> list Z) (stdout : value) (tbl : list (string * string)).
  Context (h0 : heap) (a b : loc).
  Context (small : forall n, (0 <= n < 2 ^ 70)%Z -> prints E n = true).
  Context (orders : forall l, Permutation (order l) l) (ST : short_text E).
  Notation dinv := (dinv h0 a b).
  Notation call := (call_fun E order stdout tbl decoder_py).
  Notation dpart := (dpart h0 a b).
  Notation dpost := (dpost h0 a b).

  Ltac here := eapply inv_framed; eassumption.
  Definition loop_env sv spv idx field : env :=
    [("s", sv); ("spec", spv); ("doc_dec", RefV a); ("doc_enc", RefV b); ("idx", IntV idx); ("field", StrV field)].
  Lemma sem_loop n sv s bs spv sp fl : bs = buf_bytes s -> spec_held h0 a spv sp -> (zlen bs < 2 ^ 63)%Z ->
    forall h st idx field r,
    dinv h st -> buf h sv bs -> (0 <= idx <= zlen bs)%Z -> dom decode_vars r -> binds (loop_env sv spv idx field) r ->
    wps (loop (fun v => andthen (assign E order stdout tbl (call (S (S (S n)))) decode_vars (Name "field") v)
               (exec_block E order stdout tbl (call (S (S (S n)))) decode_vars
                 [Assign (Name "idx") (Call (Name "_decode_field") [(Name "s"); (Name "doc_dec"); (Name "doc_enc"); (Name "idx"); (Name "field"); (Subscript (Name "spec") (Name "field"))] [])]))
          (map (fun i => StrV (zstr i)) fl))
        (dpart [] h sv s (fun v r' => dom decode_vars r' /\ binds (loop_env sv spv (fst v) (snd v)) r' /\ (0 <= fst v <= zlen bs)%Z)
           (decode_fields E s idx sp fl field st)) r h.
  Proof.
    intros Es R BL. induction fl as [|i fl IH]; intros h st idx field r I B BI D Bn; cbn [map loop decode_fields].
    - run. apply (dpart_ok _ _ _ [] h sv s _ st (idx, field)); [apply keeps_refl|exact I|]. auto.
    - remember (fs <- spec_get sp (zstr i);; _) as m eqn:Em. remember (m st) as res eqn:Hm. subst m. unfold bind, spec_get in Hm.
      unfold loop_env in Bn. assert (K := keeps_refl [] h). run. eapply wp_spec; [here|exact R|].
      destruct (sget (zstr i) sp) as [fs|]; [intros fv Rf|]; run.
      2: { rewrite Hm. apply dpart_exn; [exact K|exact I|reflexivity]. }
      eapply wp_dcall; [eapply (sem_field E order stdout tbl h0 a b small _ _ _ _ s); eassumption
        |intros t st' Hp; adv; intros Bt|intros x st' Hp; adv; intros xv Rx]; cbv beta iota zeta delta [ret] in Hm; rewrite Hp in Hm; run.
      + eapply wps_mono; [eapply IH; [exact I|exact B|exact Bt|eassumption|eassumption]|].
        intros c r' h' (K' & I' & H'). split; [exact (keeps_trans _ _ _ _ K K')|].
        rewrite Hm. split; assumption.
      + rewrite Hm. apply dpart_exn; assumption.
  Qed.
End Top.

Ltac adv_set f :=
  let h1 := fresh "h" in let I1 := fresh "I" in let K1 := fresh "K" in intros h1 I1 K1;
  match goal with
  | I : dinv _ _ _ ?h _, K : keeps _ ?h00 ?h, G : hget ?h f = Some (SetO _) |- _ =>
      repeat match goal with B : buf h _ _ |- _ => apply (buf_keeps_set _ _ _ _ _ _ K1 G) in B end;
      clear G;
      let K2 := fresh "K" in
      assert (K2 : keeps [f] h00 h1) by (exact (keeps_trans _ _ _ _ K K1));
      clear K K1 I; try clear h; rename K2 into K; rename I1 into I
  end.
Section Decode.
  Context (E : pyenv) (order : list Z -> list Z) (stdout : value) (tbl : list (string * string)).
  Context (small : forall n, (0 <= n < 2 ^ 70)%Z -> prints E n = true).
  Context (orders : forall l, Permutation (order l) l) (ST : short_text E).
  Notation call := (call_fun E order stdout tbl decoder_py).

  Lemma inv_start (h0 : heap) :
    Inv h0 (length h0) (S (length h0)) ((h0 ++ [DictO []]) ++ [DictO []]) [] [].
  Proof.
    split.
    - rewrite hget_app by (rewrite app_length; cbn; lia). apply hget_new.
    - exists []. split.
      + replace (S (length h0)) with (length (h0 ++ [DictO []])) by (rewrite app_length; cbn; lia). apply hget_new.
      + split; [constructor|]. split; cbn [map]; repeat constructor; cbn; lia.
    - intros l L _. rewrite !hget_app by (rewrite ?app_length; lia). reflexivity.
  Qed.

  Lemma dpost_keeps {A} h0 a b f sv s (inj : A -> value) P res o h : length h0 <= f ->
    dpost h0 a b [f] h0 sv s inj P res o h -> dpost h0 a b [] h0 sv s inj P res o h.
  Proof.
    intros L (K & X). split; [|exact X]. intros l o' G D _. apply K; try assumption. intros [<-|[]].
    apply hget_lt in G. lia.
  Qed.
  (** As dpart, with the heap. *)
  Definition dthen h0 a b f sv s {A} (N : A -> env -> heap -> Prop) (r : res exn A * dstate)
      (c : ctl) (r' : env) (h' : heap) : Prop :=
    keeps [f] h0 h' /\ dinv h0 a b h' (snd r) /\
    match fst r with
    | Ok v => c = Next /\ N v r' h'
    | Raise x => exists xv, c = Threw xv /\ raised h0 a b sv s (snd r) h' xv x
    end.
  Lemma wps_dthen {A} m r h0 a b f h sv s (N : A -> env -> heap -> Prop) res (Q : ctl -> env -> heap -> Prop) :
    wps m (dthen h0 a b f sv s N res) r h ->
    (forall v st', res = (Ok v, st') -> forall h', dinv h0 a b h' st' -> keeps [f] h0 h' -> forall r', N v r' h' -> Q Next r' h') ->
    (forall x st', res = (Raise x, st') -> forall h', dinv h0 a b h' st' -> keeps [f] h0 h' ->
       forall xv r', raised h0 a b sv s st' h' xv x -> Q (Threw xv) r' h') ->
    wps m Q r h.
  Proof.
    intros W H1 H2. eapply wps_mono; [exact W|]. intros c r' h' (K & I & H). destruct res as [[v|x] st']; cbn [fst snd] in *.
    - destruct H as [-> H]. eapply H1; eauto.
    - destruct H as (xv & -> & H). eapply H2; eauto.
  Qed.
  Lemma wps_draised {A} h0 a b f sv s (N : A -> env -> heap -> Prop) x st r h xv :
    keeps [f] h0 h -> dinv h0 a b h st -> raised h0 a b sv s st h xv x -> dthen h0 a b f sv s N (Raise x, st) (Threw xv) r h.
  Proof. intros K I H. split; [exact K|]. split; [exact I|]. exists xv. auto. Qed.

  Ltac here := eapply inv_framed; eassumption.
  Lemma sem_decode n h0 sv s bs spv sp :
    buf h0 sv bs -> bs = buf_bytes s -> spec_rep h0 spv sp -> (zlen bs < 2 ^ 63)%Z ->
    wp (call (S (S (S (S (S n))))) "decode" [sv; spv])
       (dpost h0 (length h0) (S (length h0)) [] h0 sv s
          (fun _ => TupleV [RefV (length h0); RefV (S (length h0))]) (fun _ _ => True)
          (decode_body E s sp (mkD [] []))) h0.
  Proof.
    intros B Es R0 BL. assert (R := spec_rep_held _ _ _ _ R0 (spec_new _ _ _ R0)). clear R0.
    eapply (wp_mono _ (dpost h0 (length h0) (S (length h0)) [S (S (length h0))] h0 sv s _ _ _));
      [|intros o h' D; eapply dpost_keeps; [|exact D]; lia]. set (a := length h0) in *. set (b := S a). set (f := S b).
    remember (decode_body E s sp (mkD [] [])) as res eqn:Hm. unfold decode_body in Hm.
    enter. run. eapply wp_isinstance_buf; [exact B|]. run. cbn [negb]. run. apply wp_new. run. apply wp_new.
    rewrite app_length. change (length [DictO []]) with 1. rewrite Nat.add_1_r. change (RefV (S (length h0))) with (RefV b).
    change (RefV (length h0)) with (RefV a) in *.
    assert (I := inv_start h0). change (length h0) with a in I. change (S a) with b in I.
    set (h1 := (h0 ++ [DictO []]) ++ [DictO []]) in *. assert (K : keeps [] h0 h1).
    { eapply keeps_trans; apply keeps_new. }
    assert (Lf : f = length h1) by (unfold h1; rewrite !app_length; cbn; lia).
    run. apply (wp_new (SetO [])). change (d_dec _) with (@nil (pystr * pystr)).
    assert (K' : keeps [f] h0 (h1 ++ [SetO []])) by (eapply keeps_trans; [apply keeps_weaken, K|apply keeps_new]). clear K. rename K' into K.
    apply (inv_new _ _ _ _ _ _ (SetO [])) in I. rewrite <- Lf.
    assert (GF : hget (h1 ++ [SetO []]) f = Some (SetO [])) by (rewrite Lf; apply hget_new).
    assert (LF : length h0 <= f) by (subst f b a; lia).
    change (dinv h0 a b (h1 ++ [SetO []]) (mkD [] [])) in I.
    assert (B1 : buf (h1 ++ [SetO []]) sv bs) by (unfold h1; repeat (eapply buf_keeps; [apply keeps_new|]); exact B).
    clear B. rename B1 into B. clear Lf. revert I B K GF. generalize (h1 ++ [SetO []]). clear h1. intros h I B K GF.
    run. unfold bind at 1 in Hm.
    eapply wp_dcall; [eapply (sem_header E order stdout tbl h0 a b small _ _ _ _ s); [exact I|exact B|exact Es|exact R|assert (X := zlen_nonneg bs); lia|exact BL]
      |intros i1 st1 Hp; adv; intros Bi1|intros x st' Hp; adv; intros xv Rx]; rewrite Hp in Hm; run.
    2: { rewrite Hm. apply dpost_exn; [exact K|exact I|exact Rx]. }
    unfold bind at 1 in Hm.
    eapply wp_dcall; [eapply (sem_type E order stdout tbl h0 a b small _ _ _ _ s); [exact I|exact B|exact Es|exact R|exact Bi1|exact BL]
      |intros i2 st2 Hq; adv; intros Bi2|intros x st' Hq; adv; intros xv Rx]; rewrite Hq in Hm; run.
    2: { rewrite Hm. apply dpost_exn; [exact K|exact I|exact Rx]. }
    unfold bind, spec_get in Hm.
    eapply wp_spec; [here|exact R|]. destruct (sget (u "p") sp) as [fs|] eqn:Gp; [intros fv Rf|]; run.
    2: { rewrite Hm. apply dpost_exn; [exact K|exact I|reflexivity]. }
    cbv beta iota zeta delta [ret] in Hm.
    eapply wp_dcall; [eapply (sem_bitmap E order stdout tbl h0 a b small _ _ _ _ s); [exact I|exact B|exact Es|exact Rf|exact Bi2|exact BL|exact GF|exact LF|discriminate]
      |intros [i3 F3] st3 Hb; adv_set f; intros [Bi3 GF]|intros x st' Hb; adv_set f; intros xv Rx]; rewrite Hb in Hm; run.
    2: { rewrite Hm. apply dpost_exn; [exact K|exact I|exact Rx]. }
    destruct (decode_bitmap_bound E s _ _ _ _ _ _ _ _ _ _ ST Hb) as (S3 & Fw3 & _ & E3); [lia|constructor|constructor|].
    specialize (E3 eq_refl). cbn [fst snd] in Bi3, GF. clear Hb Hp Hq Bi1 Bi2.
    set (N := fun v r' h' => let '(i, F, k) := v : Z * zset * pystr in dom vars r' /\
      binds [("s", sv); ("spec", spv); ("doc_dec", RefV a); ("doc_enc", RefV b); ("fields", RefV f); ("idx", IntV i);
             ("field", StrV k)] r' /\ buf h' sv bs /\ hget h' f = Some (SetO F) /\ (0 <= i <= zlen bs)%Z /\ zsorted F /\ Forall few F).
    eapply wp_set_in; [exact GF|]. run.
    match type of Hm with _ = (let (_, _) := ?x in _) => remember x as pa eqn:Ha end.
    eapply (wps_dthen _ _ h0 a b f _ sv s (fun v r' h' => N v r' h' /\
      exists e, sget (snd v) (d_enc (snd pa)) = Some e /\ (zlen (e_data e) <= 16)%Z) pa).
    { clear Hm; try clear rest0. destruct (zmem 1 F3) eqn:M1; run.
      2: { rewrite Ha. split; [exact K|]. split; [exact I|]. split; [reflexivity|]. split; [|exact E3].
        repeat split; try assumption; [apply dom_list; reflexivity|repeat constructor|lia|lia]. }
      eapply wp_spec; [here|exact R|]. destruct (sget (u "1") sp) as [fs1|] eqn:G1; [intros fv1 Rf1|]; run.
      2: { rewrite Ha. apply wps_draised; [exact K|exact I|reflexivity]. }
      eapply wp_dcall; [eapply (sem_bitmap E order stdout tbl h0 a b small _ _ _ _ s); [exact I|exact B|exact Es|exact Rf1|exact Bi3|exact BL|exact GF|exact LF|discriminate]
        |intros [i4 F4] st4 Hb; adv_set f; intros [Bi4 GF]|intros x st' Hb; adv_set f; intros xv Rx]; cbv beta iota zeta in Ha; cbn [fst] in Hb; rewrite Hb in Ha; run.
      2: { rewrite Ha. apply wps_draised; [exact K|exact I|exact Rx]. }
      destruct (decode_bitmap_bound E s _ _ _ _ _ _ _ _ _ _ ST Hb) as (S4 & Fw4 & Ic4 & E4); [lia|assumption|assumption|].
      specialize (E4 eq_refl). cbn [fst snd] in *.
      eapply wp_set_attr; [exact GF|reflexivity|]. run.
      eapply wp_set_remove; [exact GF| |]. 
      { apply zmem_in, Ic4, zmem_in, M1. }
      run. rewrite Ha. split; [eapply keeps_trans; [exact K|apply keeps_hset_ex; left; reflexivity]|]. cbn [fst snd].
      split; [eapply inv_put; [exact I|exact GF|reflexivity|exact LF]|]. split; [reflexivity|]. split; [|exact E4].
      repeat split; [apply dom_list; reflexivity|repeat constructor| | |lia|lia| |apply zremove_few, Fw4].
      - eapply buf_keeps_set; [apply keeps_hset_ex; left; reflexivity|exact GF|exact B].
      - apply hget_hset. eauto using hget_lt.
      - apply zremove_sorted, S4. }
    2: { intros x st' Hp h' I' K' xv r' Rx. run. rewrite Hp in Hm. rewrite Hm. apply dpost_exn; [exact K'|exact I'|exact Rx]. }
    clear Ha I K B GF r Bi3 S3 Fw3 E3 Gp Rf fv. try clear h2. intros [[i4 F4] k] st4 Hp h' I K r (NN & E4).
    unfold N in NN. destruct NN as (Dr & Br & B & GF & Bi4 & S4 & Fw4). clear N.
    rewrite Hp in E4, Hm. clear Hp pa. cbn [fst snd] in E4. clear st1 st2 st3 i1 i2 i3 F3 fs. run.
    eapply wp_set_in; [exact GF|]. run.
    set (N := fun v r' h' => let '(i, F) := v : Z * zset in dom vars r' /\
      binds [("s", sv); ("spec", spv); ("doc_dec", RefV a); ("doc_enc", RefV b); ("fields", RefV f); ("idx", IntV i);
             ("field", StrV k)] r' /\ buf h' sv bs /\ hget h' f = Some (SetO F) /\ (0 <= i <= zlen bs)%Z /\ zsorted F /\ Forall few F).
    match type of Hm with _ = (let (_, _) := ?x in _) => remember x as pa eqn:Ha end.
    eapply (wps_dthen _ _ h0 a b f _ sv s N pa).
    { clear Hm. destruct (zmem 65 F4) eqn:M1; run.
      2: { rewrite Ha. split; [exact K|]. split; [exact I|]. split; [reflexivity|]. 
        repeat split; try assumption; lia. }
      eapply wp_spec; [here|exact R|]. destruct (sget k sp) as [fs1|] eqn:G1; [intros fv1 Rf1|]; run.
      2: { rewrite Ha. apply wps_draised; [exact K|exact I|reflexivity]. }
      eapply wp_dcall; [eapply (sem_bitmap E order stdout tbl h0 a b small _ _ _ _ s); [exact I|exact B|exact Es|exact Rf1|exact Bi4|exact BL|exact GF|exact LF|]
        |intros [i5 F5] st5 Hb; adv_set f; intros [Bi5 GF]|intros x st' Hb; adv_set f; intros xv Rx]; cbv beta iota zeta in Ha; try (rewrite Hb in Ha; run).
      { intros _ e Ge. destruct E4 as (e' & Ge' & L). rewrite Ge in Ge'. injection Ge' as <-. lia. }
      2: { rewrite Ha. apply wps_draised; [exact K|exact I|exact Rx]. }
      destruct (decode_bitmap_bound E s _ _ _ _ _ _ _ _ _ _ ST Hb) as (S5 & Fw5 & Ic5 & _); [lia|assumption|assumption|].
      cbn [fst snd] in *.
      eapply wp_set_attr; [exact GF|reflexivity|]. run.
      eapply wp_set_remove; [exact GF| |]. 
      { apply zmem_in, Ic5, zmem_in, M1. }
      run. rewrite Ha. split; [eapply keeps_trans; [exact K|apply keeps_hset_ex; left; reflexivity]|]. cbn [fst snd].
      split; [eapply inv_put; [exact I|exact GF|reflexivity|exact LF]|]. split; [reflexivity|].
      repeat split; [assumption|assumption| | |lia|lia| |apply zremove_few, Fw5].
      - eapply buf_keeps_set; [apply keeps_hset_ex; left; reflexivity|exact GF|exact B].
      - apply hget_hset. eauto using hget_lt.
      - apply zremove_sorted, S5. }
    2: { intros x st' Hp h2 I' K' xv r' Rx. run. rewrite Hp in Hm. rewrite Hm. apply dpost_exn; [exact K'|exact I'|exact Rx]. }
    clear Ha I K B GF Br Dr r Bi4 S4 Fw4 E4. clear h h1. try clear h'. intros [i5 F5] st5 Hp h I K r (Dr & Br & B & GF & Bi5 & S5 & Fw5).
    rewrite Hp in Hm. clear Hp pa N st4 i4 F4. run.
    apply ev_ListComp. run.
    eapply wp_sorted; [exact GF|exact S5|apply orders|]. run.
    apply (inv_new _ _ _ _ _ _ (ListO (map IntV F5))) in I.
    assert (G1 := hget_new h (ListO (map IntV F5))). assert (K1 : keeps [] h (h ++ [ListO (map IntV F5)])) by apply keeps_new.
    apply (buf_keeps _ _ _ _ K1) in B. apply (set_keeps _ _ _ _ K1) in GF. apply (keeps_weaken [f]) in K1. apply (keeps_trans _ _ _ _ K) in K1.
    clear K. rename K1 into K. revert I G1 B GF K. generalize (h ++ [ListO (map IntV F5)]). generalize (length h). clear h.
    intros l h I Gl B GF K.
    eapply wp_watched_list; [exact Gl|]. run. eapply wp_iterate_list; [exact Gl|]. run. clear l Gl.
    apply (wp_each_map _ _ (fun i => [StrV (zstr i)]) (eq h)).
    { intros i h1 Hi <-. run. apply wp_nested; [|intros ? ? [? _]; discriminate]. run. bind_var. run. apply (proj1 (Forall_forall _ _) Fw5) in Hi. unfold few in Hi.
      eapply wp_seq. cbn [str_of]. apply wp_int_text; [apply small; lia|]. run. split; reflexivity. }
    { reflexivity. }
    intros h1 <-. run. replace (concat (map (fun i => [StrV (zstr i)]) F5)) with (map (fun i => StrV (zstr i)) F5).
    2: { clear. induction F5 as [|x F IH]; cbn; [reflexivity|]. f_equal. exact IH. }
    apply wp_new. set (o := ListO (map (fun i => StrV (zstr i)) F5)). run.
    eapply wp_watched_list; [apply hget_new|]. run. eapply wp_iterate_list; [apply hget_new|]. run. cbv delta [step_of] beta iota.
    apply (inv_new _ _ _ _ _ _ o) in I.
    assert (K1 : keeps [] h (h ++ [o])) by apply keeps_new.
    apply (buf_keeps _ _ _ _ K1) in B. apply (keeps_weaken [f]) in K1. apply (keeps_trans _ _ _ _ K) in K1.
    clear K. rename K1 into K. clear GF. revert I B K. generalize (h ++ [o]). clear h o. intros h I B K. change (dinv h0 a b h st5) in I.
    match type of Hm with _ = (let (_, _) := ?x in _) => remember x as pa eqn:Ha end.
    eapply wps_dpart; [eapply (sem_loop E order stdout tbl h0 a b small _ sv s bs spv sp F5 Es R BL);
      [exact I|exact B|exact Bi5|exact Dr|eapply binds_less; [exact Br|repeat constructor]]| |].
    2: { rewrite <- Ha. intros x st' Hp. adv. intros xv r' Rx. run. rewrite Hp in Hm. rewrite Hm. apply dpost_exn; [exact K|exact I|exact Rx]. }
    rewrite <- Ha. clear Ha Br Dr r Bi5. intros [i k'] st Hp. adv. intros r (Dr & Br & Bi). cbn [fst snd] in Br, Bi.
    rewrite Hp in Hm. unfold loop_env in Br. run. eapply wp_len; [exact B|]. run. rewrite <- Es in Hm.
    destruct (i =? zlen bs)%Z; cbn [negb] in *; run.
    2: { rewrite Hm. eapply (sem_draise E order stdout tbl h0 a b _ _ st _ _ s); [exact I|apply small; lia|].
      intros l h' I' K' Rx. run. apply dpost_raise; [|exact I'|exact Rx]. eapply keeps_trans; [exact K|apply keeps_weaken, K']. }
    rewrite Hm. apply (dpost_ok _ _ _ [f] h0 sv s (fun _ => TupleV [RefV a; RefV b]) _ st tt); [exact K|exact I|exact Logic.I].
  Qed.
End Decode.
