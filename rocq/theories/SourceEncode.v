(** * SourceEncode: encoder.py as written, and the model. *)
From Coq Require Import ZifyBool ZifyNat ZifyN Permutation.
From Verif Require Import PyBase BaseFacts Types Encoder CPython311 CodecFacts PyAst Source PySem SemClaims SemFacts SemHeap SemStep.
From Verif Require Import SemDecode SemEncode SemEncodeTop SemEncodeBody SourceDecode.
Local Open Scope string_scope.
Local Open Scope list_scope.

Lemma mapM_len {A B} (f : A -> option B) l m : mapM f l = Some m -> length m = length l.
Proof.
  revert m. induction l as [|x l IH]; cbn; intros m H; [injection H as <-; reflexivity|].
  destruct (f x), (mapM f l); try discriminate. injection H as <-. cbn. f_equal. now apply IH.
Qed.
Lemma utf8_len t b : utf8_enc t = Some b -> length b <= 4 * length t.
Proof.
  revert b. induction t as [|c t IH]; cbn [utf8_enc length]; intros b H; [injection H as <-; cbn; lia|].
  destruct (utf8_char c) as [x|] eqn:X; [|discriminate]. destruct (utf8_enc t) as [r|]; [|discriminate]. injection H as <-.
  specialize (IH r eq_refl). rewrite app_length. enough (length x <= 4) by lia. clear -X. unfold utf8_char in X.
  repeat match type of X with (if ?q then _ else _) = _ => destruct q end; try discriminate; injection X as <-; cbn; lia.
Qed.
Lemma c311_short_bytes : short_bytes cpython311.
Proof.
  intros enc t b H. unfold str_encode in H. destruct (codec_of cpython311 enc) as [c|] eqn:C; [|discriminate].
  destruct (c_enc c t) as [b'|] eqn:X; [|discriminate]. injection H as <-.
  enough (length b' <= 4 * length t) by (unfold zlen; lia).
  cbn [codec_of cpython311] in C. unfold codecs_311 in C.
  destruct (str_eqb enc (u "ascii")); [injection C as <-; apply mapM_len in X; lia|].
  destruct (_ || _); [injection C as <-; apply mapM_len in X; lia|].
  destruct (str_eqb enc (u "cp500")); [injection C as <-; apply mapM_len in X; lia|].
  destruct (_ || _); [injection C as <-; apply utf8_len, X|discriminate].
Qed.

Lemma einv_start h0 a items d : hget h0 a = Some (DictO items) -> SemClaims.items_rep h0 a items d ->
  einv h0 a (S (length h0)) ((h0 ++ [BytearrayO []]) ++ [DictO []]) (mkE d []).
Proof.
  intros G F. exists items. split; [|exact (items_rep_start _ _ _ _ G F)]. assert (L := hget_lt _ _ _ G). split.
  - rewrite !hget_app by (rewrite ?app_length; lia). exact G.
  - exists []. split; [|split; [constructor|split]].
    + replace (S (length h0)) with (length (h0 ++ [BytearrayO []])) by (rewrite app_length; cbn; lia). apply hget_new.
    + cbn [map]. constructor; [cbn; lia|repeat constructor; intros []].
    + cbn [map]. repeat constructor.
  - intros l L' _. rewrite !hget_app by (rewrite ?app_length; lia). reflexivity.
Qed.
Lemma val_moved h h' a v p : (forall l, l < length h -> l <> a -> hget h' l = hget h l) -> val_rep h a v p -> val_rep h' a v p.
Proof.
  intros H V. destruct p; cbn in *; try exact V. destruct V as [V|(l & V & N & G)]; [left; exact V|right].
  exists l. rewrite H by (eauto using hget_lt). auto.
Qed.
Lemma items_left h0 a b h items st : hget h0 a = Some (DictO items) -> einv h0 a b h st -> dict_left h0 (RefV a) (s_dec st) h.
Proof.
  intros G (items' & I & F) l o Gl. split.
  - destruct o; try exact Logic.I. intros [= <-]. rewrite G in Gl. injection Gl as <-.
    exists items'. split; [exact (inv_dec _ _ _ _ _ _ I)|]. split.
    + eapply Forall2_weaken; [|exact F]. intros kv kp (X & V & _). split; [exact X|].
      eapply val_moved; [|exact V]. exact (inv_frame _ _ _ _ _ _ I).
    + intros k x Hx. enough (K : kept h0 a (k, x)).
      { destruct K as [(i0 & G0 & X)|K]; [|right; exact K]. rewrite G in G0. injection G0 as <-. left. exact X. }
      clear -F Hx. induction F as [|kv kp items' d (_ & _ & X) F IH]; [destruct Hx|]. destruct Hx as [->|Hx]; auto.
  - intros N. rewrite (inv_frame _ _ _ _ _ _ I); [exact Gl|eauto using hget_lt|]. intros ->. apply N. reflexivity.
Qed.
Lemma fresh_one h0 a b h items ed inner l o : Inv h0 a b h items ed -> length h0 <= l ->
  enc_dict h b inner ed -> NoDup (a :: b :: inner) -> Forall (fun l => length h0 <= l) (b :: inner) ->
  hget h l = Some o -> is_dict_obj o = false -> fresh h0 (l :: b :: inner).
Proof.
  intros I Ll (Len & Db & Di) N F G D. split; [|constructor; [exact Ll|exact F]].
  inversion N; subst. constructor; [|assumption]. intro H.
  assert (X : exists d, hget h l = Some (DictO d)).
  { destruct H as [<-|H]; [eexists; exact Db|].
    apply In_nth_error in H as [i Hi]. destruct (nth_error ed i) as [ke|] eqn:Ek.
    - eexists. eapply Di; eassumption.
    - apply nth_error_None in Ek. unfold loc in *. assert (X : nth_error inner i <> None) by (rewrite Hi; discriminate). apply nth_error_Some in X. lia. }
  destruct X as [d X]. rewrite X in G. injection G as <-. discriminate.
Qed.
Lemma etop_outcome h a s b items res o h' : hget h a = Some (DictO items) -> length h <= s ->
  etop h a b s res o h' ->
  dict_left h (RefV a) (s_dec (snd res)) h' /\
  encode_outcome h (RefV a) match res with (Ok s, st) => Ok (s, s_enc st) | (Raise x, _) => Raise x end o h'.
Proof.
  intros G Ls (I & H). split; [exact (items_left _ _ _ _ _ _ G I)|]. destruct I as (items' & I & _).
  destruct (inv_enc_dict _ _ _ _ _ _ I) as (inner & De & N & L).
  destruct res as [[y|x] st']; cbn [fst snd] in *.
  - destruct H as [-> Gs]. exists s, b, inner. repeat split; try assumption; try apply De.
    + eapply fresh_one; try eassumption. reflexivity.
    + constructor; assumption.
  - destruct H as (xv & -> & H). destruct x; cbn in H |- *; try contradiction; try (subst xv; reflexivity);
      try (destruct H as (t & ->); exists t; reflexivity).
    destruct H as (E1 & E2 & l & -> & Ll & Gl). exists l, b, inner. rewrite E2.
    split; [reflexivity|]. split; [exact Gl|]. split; [exact De|].
    eapply fresh_one; try eassumption. reflexivity.
Qed.

Lemma wp_isinstance_no E order h v c (Q : outcome value -> heap -> Prop) :
  leaf_class c = true -> type_of h v <> TypeV c -> Q (Done (BoolV false)) h ->
  wp (call_builtin E order "isinstance" [v; TypeV c] []) Q h.
Proof.
  intros L N1 H. unfold wp, call_builtin. cbn [String.eqb Ascii.eqb Bool.eqb andb fst snd existsb].
  rewrite !is_type_false by assumption. exact H.
Qed.

Lemma block_split E order stdout tbl call locals k l (Q : ctl -> env -> heap -> Prop) r h :
  wps (exec_block E order stdout tbl call locals (firstn k l)) (kseq (exec_block E order stdout tbl call locals (skipn k l)) Q) r h ->
  wps (exec_block E order stdout tbl call locals l) Q r h.
Proof.
  revert l r h. induction k as [|k IH]; intros l r h; [exact (fun H => H)|].
  destruct l as [|x l]; [exact (fun H => H)|]. cbn [firstn skipn exec_block]. unfold wps, andthen in *.
  destruct (exec E order stdout tbl call locals x r h) as [[[|v|xv|w] r'] h']; try exact (fun H => H). apply IH.
Qed.
Theorem encode_as_written E order stdout tbl : env_ok E -> short_bytes E -> any_order order ->
  forall h dv d spv sp depth, dict_rep h dv d -> in_memory d -> spec_rep h spv sp -> spec_apart h spv dv -> 5 <= depth ->
  let (o, h') := call_fun E order stdout tbl encoder_py depth "encode" [dv; spv] h in
  dict_left h dv (snd (encode E d sp)) h' /\ encode_outcome h dv (fst (encode E d sp)) o h'.
Proof.
  intros EO SB Or h dv d spv sp depth Rd Mem R0 Ap D.
  assert (Hd : exists n, depth = S (S (S (S (S n))))) by (exists (depth - 5); lia). destruct Hd as [n ->].
  assert (small := small_prints E EO).
  enough (W : wp (call_fun E order stdout tbl encoder_py (S (S (S (S (S n))))) "encode" [dv; spv])
    (fun o h' => dict_left h dv (snd (encode E d sp)) h' /\ encode_outcome h dv (fst (encode E d sp)) o h') h).
  { unfold wp in W. destruct (call_fun _ _ _ _ _ _ _ _ h). exact W. }
  destruct d as [d|cls].
  - destruct Rd as (a & items & -> & G & F). assert (R := spec_rep_held _ _ _ _ R0 Ap).
    assert (Lh : a < length h) by exact (hget_lt _ _ _ G).
    assert (Sz : sizes (2 ^ 62) d) by (apply Forall_forall; intros [k p] Hp; exact (Mem k p Hp)). clear Mem.
    unfold encode. replace (match encode_body E sp (mkE d []) with (Ok s, st) => (Ok (s, s_enc st), s_dec st) | (Raise x, st) => (Raise x, s_dec st) end)
      with (match encode_body E sp (mkE d []) with (Ok s, st) => Ok (s, s_enc st) | (Raise x, st) => Raise x end, s_dec (snd (encode_body E sp (mkE d []))))
      by (destruct (encode_body E sp (mkE d [])) as [[?|?] ?]; reflexivity).
    cbn [fst snd].
    eapply wp_call; [reflexivity|reflexivity|reflexivity|reflexivity|].
    apply (block_split _ _ _ _ _ _ 3).
    eapply (wps_mono _ (fun c r' h' => c = Next /\
      r' = [("doc_dec", RefV a); ("spec", spv); ("s", RefV (length h)); ("doc_enc", RefV (S (length h)))] /\
      h' = (h ++ [BytearrayO []]) ++ [DictO []])).
    { match goal with |- wps (exec_block _ _ _ _ _ ?l ?bd) _ ?r0 _ => let b' := eval cbn [firstn f_body src_encode] in (firstn 3 (f_body src_encode)) in
       change bd with b'; let l' := eval cbv in l in pose (vars := l'); change l with vars;
       pose (r := [("doc_dec", RefV a); ("spec", spv)]); change r0 with r end.
      run. eapply wp_isdict; [exact G|]. run. cbn [negb]. run. apply wp_new. run. apply wp_new. run.
      split; [reflexivity|]. split; [|reflexivity]. unfold r. cbn. rewrite app_length. cbn. rewrite Nat.add_1_r. reflexivity. }
    intros c r' h' (-> & -> & ->). cbn [kseq].
    assert (I := einv_start h a items d G F).
    eapply wps_mono; [eapply (sem_encode E order stdout tbl h a (S (length h)) Lh small SB Or n spv sp d (length h)); [exact I| |lia|exact R|exact Sz]|].
    { rewrite hget_app by (rewrite app_length; cbn; lia). apply hget_new. }
    intros c r' h' H. apply (etop_outcome _ _ _ _ items) in H; [exact H|exact G|lia].
  - destruct Rd as (C & Nd). cbn [encode fst snd encode_outcome]. enter. run.
    apply wp_isinstance_no; [reflexivity|exact Nd|]. run. cbn [negb]. run. apply wp_class. run.
    eapply wp_class_name; [exact C|]. run. split; [|reflexivity].
    intros l o Gl. split; [|intros _; exact Gl]. destruct o; try exact Logic.I. intros ->. exfalso. apply Nd. cbn. rewrite Gl. reflexivity.
Qed.
Lemma c311_encoder_machine : env_ok cpython311 /\ short_bytes cpython311.
Proof. exact (conj c311_env_ok c311_short_bytes). Qed.
