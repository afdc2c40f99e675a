(** * SemEncodeTop: the bitmaps and the body of encode, run as written. *)
From Coq Require Import ZifyBool ZifyNat ZifyN Permutation.
From Verif Require Import PyBase BaseFacts Types Decoder DecoderFacts Encoder EncoderFacts EncodeRun EncodeTheorems2.
From Verif Require Import PyAst Source PySem SemClaims SemFacts SemHeap SemStep SemDecode SemEncode.
Local Open Scope string_scope.
Local Open Scope list_scope.

Lemma or_byte_split i v bm x : nth_error bm i = Some x ->
  or_byte i v bm = firstn i bm ++ n2b (N.lor (b2n x) v) :: skipn (S i) bm.
Proof.
  revert i. induction bm as [|y bm IH]; intros [|i]; try discriminate; cbn [nth_error].
  - intro H. injection H as ->. reflexivity.
  - intro H. cbn [or_byte firstn skipn app]. f_equal. apply IH. exact H.
Qed.

Lemma lor_bit x k : (0 <= k < 8)%Z -> Z.lor (Z.of_N x) (Z.shiftl 1 k) = Z.of_N (N.lor x (N.shiftl 1 (Z.to_N k))).
Proof.
  intro H. replace (Z.shiftl 1 k) with (Z.of_N (N.shiftl 1 (Z.to_N k))).
  - symmetry. apply Z.bits_inj'. intros n Hn. rewrite Z.lor_spec, <- (Z2N.id n) by exact Hn. now rewrite !Z.testbit_of_N, N.lor_spec.
  - rewrite N.shiftl_1_l, Z.shiftl_1_l, N2Z.inj_pow, Z2N.id by lia. reflexivity.
Qed.

Section Top.
  Context (E : pyenv) (order : list Z -> list Z) (stdout : value) (tbl : list (string * string)).
  Context (h0 : heap) (a b : loc) (La : a < length h0).
  Context (small : forall n, (0 <= n < 2 ^ 70)%Z -> prints E n = true).
  Context (compact : forall enc t bs, str_encode E enc t = COk bs -> (zlen bs <= 64 * (zlen t + 1))%Z).
  Context (orders : forall l, Permutation (order l) l).
  Notation inv := (Inv h0 a b).
  Notation call := (call_fun E order stdout tbl encoder_py).
  Notation val_rep := (val_rep h0 a).
  Notation items_rep := (items_rep h0 a).
  Notation einv := (einv h0 a b).
  Notation epost := (epost h0 a b).
  Notation epart := (epart h0 a b).
  Implicit Types (Q : outcome value -> heap -> Prop).
  Ltac here := eapply einv_frame; eassumption.

  Ltac adv :=
    let h1 := fresh "h" in let I1 := fresh "I" in let K1 := fresh "K" in intros h1 I1 K1;
    match goal with
    | I : einv ?h _, K : keeps ?ex ?h00 ?h |- _ =>
        repeat match goal with B : buf h _ _ |- _ => apply (buf_keeps _ _ _ _ K1) in B end;
        repeat match goal with G : hget h _ = Some (SetO _) |- _ => apply (set_keeps _ _ _ _ K1) in G end;
        let K2 := fresh "K" in
        assert (K2 : keeps ex h00 h1) by (exact (keeps_trans _ _ _ _ K (keeps_weaken _ _ _ K1)));
        clear K K1 I; try clear h; rename K2 into K; rename I1 into I
    end.
  Ltac fail_with st := eapply (sem_eraise _ _ _ _ _ _ _ _ _ st); [eassumption|];
    let l := fresh "l" in let h := fresh "h" in let I := fresh "I" in let K := fresh "K" in let R := fresh "R" in
    intros l h I K R; run; first [apply epost_raise|apply epart_raise];
    [first [exact K | eapply keeps_trans; [eassumption|apply keeps_weaken, K]] | exact I | exact R].

  Lemma einv_put h st l o o' : einv h st -> hget h l = Some o -> is_dict_obj o = false -> length h0 <= l ->
    einv (hset h l o') st.
  Proof. intros (items & I & F) G D L. exists items. split; [eapply inv_put; eauto|exact F]. Qed.
  Lemma einv_new h st o : einv h st -> einv (h ++ [o]) st.
  Proof. intros (items & I & F). exists items. split; [apply inv_new, I|exact F]. Qed.

  (** ** _encode_bitmap *)
  Definition ebitmap_vars : list string := Eval cbv in locals_of src__encode_bitmap.
  Definition ebitmap_loop : list stmt := [
    AugAssign (Name "field") Sub (BinOp (Constant (CInt 1)) Add (Name "field_offset"));
    Assign (Name "byte") (BinOp (Name "field") FloorDiv (Constant (CInt 8)));
    Assign (Name "bit") (BinOp (Constant (CInt 7)) Sub (BinOp (Name "field") Sub (BinOp (Name "byte") Mult (Constant (CInt 8)))));
    AugAssign (Subscript (Name "bitmap") (Name "byte")) BitOr (BinOp (Constant (CInt 1)) LShift (Name "bit"))].
  Definition ebitmap_env k fv off ext f l : env :=
    [("doc_dec", RefV a); ("doc_enc", RefV b); ("field_key", StrV k); ("field_spec", fv); ("field_offset", IntV off);
     ("is_extended", BoolV ext); ("fields", RefV f); ("bitmap", RefV l)].
  Lemma wp_lshift h x y Q : (0 <= y)%Z -> Q (Done (IntV (Z.shiftl x y))) h -> wp (binop LShift (IntV x) (IntV y)) Q h.
  Proof. intros Y H. unfold wp, binop. rewrite (proj2 (Z.ltb_ge y 0)) by exact Y. exact H. Qed.
  Lemma sem_setbits c k fv off ext f l st wa fl : length h0 <= l -> Forall (fun x => (off < x <= off + 64)%Z) fl ->
    (forall w x, wa = Some (w, x) -> w <> l) -> forall h bm r, still wa h -> einv h st -> hget h l = Some (BytearrayO bm) -> length bm = 8 -> dom ebitmap_vars r -> binds (ebitmap_env k fv off ext f l) r ->
    wps (loop (fun v => step_of wa (andthen (assign E order stdout tbl c ebitmap_vars (Name "field") v)
               (exec_block E order stdout tbl c ebitmap_vars ebitmap_loop))) (map IntV fl))
      (fun ct r' h' => ct = Next /\ dom ebitmap_vars r' /\ binds (ebitmap_env k fv off ext f l) r' /\ einv h' st /\ keeps [l] h h' /\
         hget h' l = Some (BytearrayO (fold_left (set_bit off) fl bm))) r h.
  Proof.
    intros Ll Ff Nw. induction Ff as [|x fl Fx Ff IH]; intros h bm r Sw I G Lb D B; cbn [map loop fold_left].
    - run. repeat split; auto. apply keeps_refl.
    - unfold ebitmap_env in B. unfold ebitmap_loop at 1. apply wps_andthen. apply wps_step. run.
      set (y := (x - (1 + off))%Z) in *. assert (Hy : (0 <= y < 64)%Z) by (unfold y; lia).
      set (by_ := (y / 8)%Z) in *. assert (Hb : (0 <= by_ < 8)%Z) by (unfold by_; lia).
      destruct (nth_error bm (Z.to_nat by_)) as [o|] eqn:No; [|apply nth_error_None in No; lia].
      assert (Hv := b2n_lt o). set (bit_ := (7 - (y - by_ * 8))%Z) in *. assert (Ht : (0 <= bit_ < 8)%Z) by (unfold bit_, by_; lia).
      cbn [getitem]. run. eapply wp_get; [exact G|]. run. rewrite (proj2 (Z.ltb_ge by_ 0)), No by lia. run.
      apply wp_lshift; [lia|]. run. rewrite lor_bit by exact Ht. 
      set (w := N.lor (b2n o) (N.shiftl 1 (Z.to_N bit_))). assert (Hw : (w < 256)%N) by (apply lor_lt256; [exact Hv|apply shiftl_lt256; lia]).
      cbn [setitem]. run. eapply wp_get; [exact G|]. run.
      rewrite (proj2 (Z.ltb_ge by_ 0)), (proj2 (Z.ltb_ge (Z.of_N w) 0)), (proj2 (Z.ltb_ge 255 (Z.of_N w))) by lia. cbn [orb].
      rewrite (proj2 (Z.leb_gt (zlen bm) by_)) by (unfold zlen; lia). rewrite N2Z.id. apply wp_put. run.
      unfold w. rewrite <- or_byte_split by exact No. change (or_byte _ _ _) with (set_bit off bm x).
      match goal with |- _ /\ still wa ?h9 => assert (Sw' : still wa h9) end.
      { eapply still_same; [exact Sw|]. intros w9 x9 W9. apply hget_hset_other. exact (Nw _ _ W9). }
      split; [|exact Sw'].
      eapply wps_mono; [eapply (IH _ (set_bit off bm x))|].
      + exact Sw'.
      + eapply einv_put; [exact I|exact G|reflexivity|exact Ll].
      + apply hget_hset. eauto using hget_lt.
      + now rewrite set_bit_length.
      + eassumption.
      + eapply binds_less; [eassumption|repeat constructor].
      + intros ct r' h' (-> & D' & B' & I' & K' & G'). repeat split; auto.
        eapply keeps_trans; [|exact K']. apply keeps_hset_ex. left. reflexivity.
  Qed.

  Lemma wp_bytearray h bs Q : Q (Done (RefV (length h))) (h ++ [BytearrayO bs]) ->
    wp (call_type E order "bytearray" [BytesV bs]) Q h.
  Proof. exact (fun H => H). Qed.
  Lemma wp_watched_set h f F (Q : outcome (option (loc * watch)) -> heap -> Prop) : hget h f = Some (SetO F) ->
    (still (Some (f, Elems F)) h -> Q (Done (Some (f, Elems F))) h) -> wp (watched (RefV f)) Q h.
  Proof.
    intros G H. unfold wp, watched, seqc, get. rewrite G. apply H. unfold still, unchanged, seqc, get. rewrite G, same_elems_refl. reflexivity.
  Qed.
  Lemma wp_iterate_set h f F (Q : outcome (list value) -> heap -> Prop) : hget h f = Some (SetO F) ->
    Q (Done (map IntV (order F))) h -> wp (iterate order (RefV f)) Q h.
  Proof. intros G H. unfold wp, iterate, seqc, get. rewrite G. exact H. Qed.

  Lemma sem_bitmap n h st k fv fs off ext f F : einv h st -> fs_held h0 a fv fs -> hget h f = Some (SetO F) ->
    Forall (fun x => (off < x <= off + 64)%Z) F ->
    wp (call (S (S (S n))) "_encode_bitmap" [RefV a; RefV b; StrV k; fv; IntV off; BoolV ext; RefV f])
       (epost h BytesV (fun _ => True) (encode_bitmap E k fs off ext F st)) h.
  Proof.
    intros I R GF FF. remember (encode_bitmap E k fs off ext F st) as res eqn:Hm. unfold encode_bitmap in Hm. cbv zeta in Hm.
    enter. run.
    assert (Lh : length h0 <= length h) by (destruct I as (items & I & _); eapply inv_length, I).
    apply wp_bytearray. change (map n2b _) with (repeat x00 8).
    assert (I1 := einv_new _ _ (BytearrayO (repeat x00 8)) I). assert (K1 : keeps [length h] h (h ++ [BytearrayO (repeat x00 8)])) by apply keeps_new.
    assert (G1 := hget_new h (BytearrayO (repeat x00 8))). assert (GF1 : hget (h ++ [BytearrayO (repeat x00 8)]) f = Some (SetO F)).
    { rewrite hget_app by eauto using hget_lt. exact GF. } 
    revert I1 K1 G1 GF1. generalize (h ++ [BytearrayO (repeat x00 8)]). intros h1 I1 K1 G1 GF1.
    run. eapply wp_watched_set; [exact GF1|]. intros Sw. run. eapply wp_iterate_set; [exact GF1|]. run.
    eapply wps_mono; [eapply (sem_setbits _ k fv off ext f (length h) st _ (order F) Lh);
      [|intros w9 x9 [= <- _] W9; rewrite W9, G1 in GF1; discriminate|exact Sw|exact I1|exact G1|reflexivity|apply dom_list; reflexivity|repeat constructor]|].
    { eapply Permutation_Forall; [symmetry; apply orders|exact FF]. }
    intros c r2 h2 (-> & D & B & I2 & K2 & G2). assert (K : keeps [] h h2).
    { apply keeps_drop. eapply keeps_trans; eauto. }
    change (fold_left (set_bit off) (order F) (repeat x00 8)) with (make_bitmap off (order F)) in G2.
    rewrite (make_bitmap_perm off _ _ (orders F)) in G2.
    set (bm := make_bitmap off F) in *. set (hx := py_upper (py_hex bm)) in *.
    assert (Bb : buf h2 (RefV (length h)) bm) by (right; eauto). clear K1 K2 G1 G2 GF1 I1 Sw h1 I. rename I2 into I.
    unfold ebitmap_env in B. change (dom vars r2) in D.
    run. eapply wp_buf_attr; [exact Bb|reflexivity|]. run. eapply wp_buf_hex; [exact Bb|]. run. fold hx.
    unfold bind at 1 in Hm.
    match type of Hm with _ = (let (_, _) := ?x st in _) => remember (x st) as pa eqn:Ha end.
    match goal with Bx : binds ?l _ |- _ => set (L0 := l) in *;
      eapply (wps_epart _ _ _ _ _ _ (fun _ r' => dom vars r' /\ binds L0 r') pa) end.
    { clear Hm K. match goal with |- wps _ _ _ ?h9 => assert (K := keeps_refl [] h9) end.
      unfold bind, eget_dec, eset_dec, eset_enc, ret, raise in Ha. unfold L0 in *. run. destruct ext; run.
      - eapply wp_pget; [exact I|]. destruct (pget (KStr k) (s_dec st)) as [p|] eqn:Gp; [intros v V|];
        [|run; rewrite Ha; apply epart_exn; [exact K|exact I|reflexivity]].
        run. destruct p as [o|o|o]. 
        + cbn in V. subst v. run. eapply wp_pset; [exact I|]. adv. run. 
          rewrite Ha. apply epart_ok; [exact K|exact I|]. split; assumption.
        + destruct V as [->|(l & -> & _)]; run; rewrite Ha; (apply epart_exn; [exact K|exact I|reflexivity]).
        + destruct v; try contradiction; run; rewrite Ha; (apply epart_exn; [exact K|exact I|reflexivity]).
      - eapply wp_pset; [exact I|]. adv. run.
        cbn [key_of]. run. apply wp_new. run. eapply (wp_enew _ _ _ _ _ _ (mkEntry [] [])); [exact I|]. adv. run.
        rewrite Ha. apply epart_ok; [exact K|exact I|]. split; assumption. }
    2: { intros x st' Hp. adv. intros xv r' Rx. run. rewrite Hp in Hm. rewrite Hm. apply epost_exn; assumption. }
    forget_env. clear Ha. intros v st' Hp. adv. intros r (Dr & Br). rewrite Hp in Hm. clear Hp st pa v.
    rename st' into st. unfold L0 in *; clear L0. run. unfold bind at 1, prop at 1 in Hm.
    eapply wp_prop; [here|exact R|intro; apply rep_data_enc|]. destruct (fs_data_enc fs) as [de|] eqn:Fd; cbv beta iota zeta delta [ret raise] in Hm; run.
    2: { rewrite Hm. apply epost_exn; [exact K|exact I|reflexivity]. }
    change (u "b") with str_b. unfold bind at 1 in Hm.
    match type of Hm with _ = (let (_, _) := ?x st in _) => remember (x st) as pa eqn:Ha end.
    eapply (wps_epart _ _ _ _ _ _ (fun bs r' => dom vars r' /\
      binds [("doc_enc", RefV b); ("field_key", StrV k); ("is_extended", BoolV ext); ("encoded_data", BytesV bs)] r') pa).
    { clear Hm K. match goal with |- wps _ _ _ ?h9 => assert (K := keeps_refl [] h9) end. destruct (str_eqb de str_b); run.
      - eapply wp_bytes; [exact Bb|]. run. rewrite Ha. apply epart_ok; [exact K|exact I|].
        split; [assumption|eapply binds_less; [eassumption|repeat constructor]].
      - unfold bind at 1 in Ha. change (u "bytes") with str_bytes. 
        eapply wp_ecall; [eapply (sem_text E order stdout tbl h0 a b) with (p := VStr hx); [exact La|exact compact|exact I|reflexivity| |exact R]|intros [bs m] st' Hp; adv; intros Sm|intros x st' Hp; adv; intros xv Rx].
        3: { rewrite Hp in Ha. run. rewrite Ha. apply epart_exn; [exact K|exact I|exact Rx]. }
        + cbn [val_size]. destruct (make_bitmap_spec off F FF) as [L8 _]. fold bm in L8.
          unfold hx, zlen, py_upper. rewrite map_length, py_hex_length, L8. lia.
        + rewrite Hp in Ha. unfold pair_of; cbn [fst snd]. run. rewrite Ha. apply (epart_ok); [exact K|exact I|].
          split; [assumption|eapply binds_less; [eassumption|repeat constructor]]. }
    2: { intros x st' Hp. adv. intros xv r' Rx. run. rewrite Hp in Hm. rewrite Hm. apply epost_exn; assumption. }
    forget_env. clear Ha. intros bs st' Hp. adv. intros r (Dr & Br). rewrite Hp in Hm. clear Hp st pa.
    rename st' into st. run. unfold bind at 1 in Hm. destruct ext; run.
    - eapply wp_eget; [exact I|]. unfold bind, eget_enc, eset_enc, ret in Hm. destruct (sget k (s_enc st)) as [e|] eqn:Ge.
      2: { run. rewrite Hm. apply epost_exn; [exact K|exact I|reflexivity]. }
      intros l Gl _. run. eapply wp_entry_data; [exact Gl|]. run. clear Gl l.
      eapply wp_eget; [exact I|]. rewrite Ge. intros l Gl Sl. run. eapply wp_edata; [exact Gl|exact Sl|]. clear Gl Sl l. adv. run.
      rewrite Hm. apply (epost_ok h0 a b h BytesV); [exact K|exact I|exact Logic.I].
    - unfold eset_enc_data, bind, eget_enc, eset_enc, ret in Hm.
      eapply wp_eget; [exact I|]. destruct (sget k (s_enc st)) as [e|] eqn:Ge.
      2: { run. rewrite Hm. apply epost_exn; [exact K|exact I|reflexivity]. }
      intros l Gl Sl. run. eapply wp_edata; [exact Gl|exact Sl|]. clear Gl Sl l. adv. run.
      rewrite Hm. apply (epost_ok h0 a b h BytesV); [exact K|exact I|exact Logic.I].
  Qed.
End Top.
