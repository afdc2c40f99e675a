(** * SourceHistory: whole executions in which the text of the library is called. *)
From Verif Require Import PyBase BaseFacts Types Decoder Encoder Tools Wire WireEncode Claims Claims2.
From Verif Require Import EncoderFacts EncodeTheorems EncodeTheorems2 EncodeMemory DecodeTheorems EncodeFault EncodeFaultWhole EncodeOrder EncodeOrder2.
From Verif Require Import PyAst Source PySem SemClaims SemFacts SemHeap SessionClaims HistoryClaims SourceDecode SourceEncode SourceTools SourceSessions.
Local Open Scope string_scope.
Local Open Scope list_scope.

Lemma left_text_dict E sp h a d h' : text_dict h a d -> dict_left h (RefV a) (snd (encode E (ADict (as_dict d)) sp)) h' ->
  (exists d', text_dict h' a d') /\ forall k, ~ bitmap_item k -> item h' a k = item h a k.
Proof.
  intros D L. destruct (left_items _ _ _ _ _ D L) as (items' & G & Ei & T). assert (SD := text_dict_str _ _ _ D).
  destruct (encode_keeps E sp (as_dict d)) as [K N]. specialize (N (proj1 SD)).
  assert (ST := encode_texts E sp (as_dict d) (proj1 SD)). set (d' := snd (encode E (ADict (as_dict d)) sp)) in *.
  assert (KS : forall k p, In (k, p) d' -> exists s, k = KStr s).
  { intros k p H. destruct (is_bitmap_key k) eqn:B.
    - destruct k as [s|]; [eauto|discriminate].
    - assert (In (k, p) (content d')) as X by (apply filter_In; cbn; rewrite B; auto). rewrite K in X. apply filter_In in X as [X _].
      apply (proj2 SD) in X as [(s & ->) _]. eauto. }
  set (text := fun p : pyval => match p with VStr t => t | _ => [] end). set (name := fun k : pykey => match k with KStr s => s | _ => [] end).
  assert (Ed : d' = as_dict (map (fun kp => (name (fst kp), text (snd kp))) d')).
  { clear - KS T. unfold as_dict. rewrite map_map. cbn. induction d' as [|[k p] d' IH]; [reflexivity|]. cbn.
    destruct (KS k p (or_introl eq_refl)) as (s & ->). destruct (T (KStr s) p (or_introl eq_refl)) as (t & ->). cbn. f_equal.
    apply IH; intros; [eapply T|eapply KS]; right; eauto. }
  set (d2 := map (fun kp => (name (fst kp), text (snd kp))) d') in *. split.
  - exists d2. split; [|split].
    + unfold dec_dict. rewrite G, Ei, Ed. unfold as_dict. rewrite map_map. reflexivity.
    + unfold is_dict in N. rewrite Ed in N. unfold as_dict in N. rewrite map_map in N. cbn [fst] in N. rewrite <- (map_map fst KStr) in N.
      eapply NoDup_map_inv; exact N.
    + intros k t H. apply (ST ltac:(intros k0 t0 H0; apply in_map_iff in H0 as ([k1 t1] & [= <- <-] & H0); exact (proj2 (proj2 D) _ _ H0)) (KStr k)).
      rewrite Ed. apply in_map_iff. exists (k, t). auto.
  - intros k Nk. rewrite (left_item _ _ _ _ _ k D L), (dict_item _ _ _ k (proj1 D)).
    assert (B : is_bitmap_key (KStr k) = false).
    { apply not_true_iff_false. intro X. apply Nk. unfold is_bitmap_key in X. unfold bitmap_item.
      apply orb_true_iff in X as [X|X]; [apply orb_true_iff in X as [X|X]|].
      - destruct (key_eqb_spec (KStr (u "p")) (KStr k)) as [Y|]; [injection Y; auto|discriminate].
      - destruct (key_eqb_spec (KStr (u "1")) (KStr k)) as [Y|]; [injection Y; auto|discriminate].
      - destruct (key_eqb_spec (KStr (u "65")) (KStr k)) as [Y|]; [injection Y; auto|discriminate]. }
    assert (S : same_content d' (as_dict d)) by (apply content_same; exact K).
    pose proof (proj1 (same_content_get _ _ N (proj1 SD)) S) as S'. unfold WireEncode.value. rewrite (S' _ B).
    clear. unfold sget, dget, as_dict. induction d as [|[k' t] d IH]; [reflexivity|]. cbn. destruct (str_eqb k k'); [reflexivity|exact IH].
Qed.

Lemma reads_kept h h' v m : (forall l, v = RefV l -> hget h' l = hget h l) -> reads h v m -> reads h' v m.
Proof. intros K R. destruct v; cbn [reads] in *; auto. destruct R as (items & G & R). exists items. split; [|exact R]. rewrite K; auto. Qed.
Section H.
  Context (E : pyenv) (order : list Z -> list Z) (M : machine E order) (a : loc) (spv : val) (sp : spec).
  (** What the caller relies on. *)
  Definition holding (h : heap) : Prop := (exists d, text_dict h a d) /\ spec_rep h spv sp /\ spec_apart h spv (RefV a).
  Lemma kept_elsewhere h h' : hget h' a = hget h a -> (forall l, part_of h spv (RefV l) -> hget h' l = hget h l) -> holding h ->
    holding h' /\ forall k, item h' a k = item h a k.
  Proof.
    intros Ka Ks ((d & D) & (m & R & K) & (N & A)). split.
    - split; [|].
      + exists d. destruct D as (D & D'). split; [|exact D']. unfold dec_dict. rewrite Ka. exact D.
      + assert (R' : reads h' spv m).
        { apply (reads_kept h); [|exact R]. intros l ->. apply Ks. left. reflexivity. }
        split.
        * exists m. split; [exact R'|]. intro k. specialize (K k). destruct (sget k sp); [|exact K].
          destruct K as (fv & fm & G & Rf & F). exists fv, fm. split; [exact G|]. split; [|exact F].
          apply (reads_kept h); [|exact Rf]. intros l ->. apply Ks. right. eauto.
        * split; [exact N|]. intros m' k fv R1 G. rewrite (reads_same _ _ _ _ k R1 R') in G. eapply A; eauto.
    - intro k. unfold item. rewrite Ka. reflexivity.
  Qed.
  Lemma kept_but h h' x : RefV a <> x -> spec_apart h spv x -> (forall l o, hget h l = Some o -> RefV l <> x -> hget h' l = Some o) -> holding h ->
    holding h' /\ forall k, item h' a k = item h a k.
  Proof.
    intros Na (Ns & As) K H. assert (Hd := H). destruct Hd as ((d & D) & (m & R & Rs) & _). apply kept_elsewhere; [|intros l P|exact H].
    - rewrite (proj1 D). apply K; [exact (proj1 D)|exact Na].
    - assert (exists o, hget h l = Some o) as (o & G).
      { destruct P as [<-|(m' & k & R' & G)]; [destruct R as (items & G & _); eauto|]. rewrite (reads_same _ _ _ _ k R' R) in G. specialize (Rs k).
        rewrite G in Rs. destruct (sget k sp); [|discriminate]. destruct Rs as (fv & fm & [= <-] & (items & Gl & _) & _). eauto. }
      rewrite G. apply K; [exact G|]. destruct P as [->|(m' & k & R' & G')]; [exact Ns|eapply As; eauto].
  Qed.
  Lemma value_is_ref (v : val) : v = RefV a \/ RefV a <> v.
  Proof. destruct v; try (right; discriminate). destruct (Nat.eq_dec l a) as [->|N]; [left; reflexivity|right; congruence]. Qed.
  Lemma event_kept h es h' : event E order a spv h es h' -> holding h ->
    holding h' /\ forall k, ~ bitmap_item k -> item h' a k = after_edits es k (item h a k).
  Proof.
    intros Ev H. assert (M' := M). destruct M' as (HE & HT & HB & HO). destruct Ev as
      [r dv d sv sp' o h h' Rd I Rs Ap Ap' C|r iv s sv sp' o h h' Ri Rs B C|r docv doc sv sp' dv dw lv lw stv w t o h h' Rd Rs W1 W2 St Gw C
      |k t items h h' G B G' K|k items h h' G G' K|h h' Ka Ks].
    - destruct r as [so tb n N]. unfold call_encode in C. cbn in C.
      assert (X := encode_as_written E order so tb HE HB HO h dv d sv sp' n Rd I Rs Ap N). rewrite C in X. destruct X as [L _].
      destruct (value_is_ref dv) as [->|Na].
      + destruct H as ((d0 & D) & R0 & A0).
        assert (d = ADict (as_dict d0)) as ->.
        { destruct D as (D & _). destruct d as [d|c]; cbn [dict_rep] in Rd.
          - destruct Rd as (a' & items & [= <-] & G & It). rewrite D in G. injection G as <-. f_equal. clear - It. unfold items_rep, as_dict in *.
            revert d It. induction d0 as [|[k t] d0 IH]; intros d It; inversion It as [|? [k' p] ? ? [A V] It']; subst; [reflexivity|].
            cbn [fst snd map] in *. subst k'. rewrite <- (IH _ It'). destruct p; cbn in V; [congruence| |contradiction].
            destruct V as [V|(l & V & _)]; discriminate.
          - destruct Rd as [_ Rd]. unfold type_of in Rd. cbn in Rd. rewrite D in Rd. cbn in Rd. congruence. }
        destruct (left_text_dict E sp' h a d0 h' D L) as [D' K]. split; [|exact K]. split; [exact D'|].
        apply (spec_moved h h' spv sp (RefV a) R0 A0). intros l ob G Nl. apply (L _ _ G). congruence.
      + destruct (kept_but h h' dv Na Ap') as [H' K]; [|exact H|split; [exact H'|intros k _; apply K]].
        intros l ob G Nl. apply (L _ _ G). congruence.
    - destruct (decode_call E order M sv sp' r h iv s o h' Rs Ri B C) as [U _].
      destruct (kept_elsewhere h h') as [H' K]; [|intros l P|exact H|split; [exact H'|intros k _; apply K]].
      + apply U. destruct H as ((d & D) & _). exact (hget_lt _ _ _ (proj1 D)).
      + apply U. destruct H as (_ & (m & R & Rm) & _). destruct P as [<-|(m' & k & R' & G)]; [destruct R as (items & G & _); exact (hget_lt _ _ _ G)|].
        rewrite (reads_same _ _ _ _ k R' R) in G. specialize (Rm k). rewrite G in Rm. destruct (sget k sp); [|discriminate].
        destruct Rm as (fv & fm & [= <-] & (items & Gl & _) & _). exact (hget_lt _ _ _ Gl).
    - destruct r as [so tb n N]. unfold call_pp in C. cbn in C. cbn in St.
      assert (X := pp_as_written E order so h docv doc sv sp' dv dw stv w t lv lw n Rd Rs W1 W2 St Gw ltac:(lia)). rewrite C in X.
      destruct X as (_ & F & _). destruct (kept_but h h' (RefV w)) as [H' K]; [| | |exact H|split; [exact H'|intros k _; apply K]].
      + destruct H as ((d & D) & _). intros [= <-]. rewrite (proj1 D) in Gw. discriminate.
      + destruct H as (_ & R & _). apply (spec_rep_apart _ _ _ _ R). intros items G. congruence.
      + intros l ob G Nl. rewrite F; [exact G|exact (hget_lt _ _ _ G)|congruence].
    - destruct H as ((d & D) & R & A). assert (Gd := proj1 D). unfold dec_dict in Gd. rewrite G in Gd. injection Gd as ->.
      split.
      + split; [|apply (spec_moved h h' spv sp (RefV a) R A); intros l ob Gl Nl; rewrite K; [exact Gl|congruence]].
        exists (sset k t d). destruct D as (_ & N & S). split; [|split].
        * unfold dec_dict. rewrite G'. f_equal. f_equal. clear. unfold sset. induction d as [|[k' t'] d IH]; [reflexivity|]. cbn.
          destruct (str_eqb k k'); [reflexivity|]. cbn. f_equal. exact IH.
        * apply dset_nodup; [apply str_eqb_spec|exact N].
        * intros k' t' X. apply (in_dset str_eqb str_eqb_spec) in X as [[-> ->]|X]; [exact B|exact (S _ _ X)].
      + intros k' _. unfold item. rewrite G, G'. unfold after_edits. cbn [fold_left edited].
        destruct (str_eqb_spec k' k) as [->|Nk]; [apply dget_dset_same, key_eqb_spec|apply dget_dset_other; [apply key_eqb_spec|congruence]].
    - destruct H as ((d & D) & R & A). assert (Gd := proj1 D). unfold dec_dict in Gd. rewrite G in Gd. injection Gd as ->.
      split.
      + split; [|apply (spec_moved h h' spv sp (RefV a) R A); intros l ob Gl Nl; rewrite K; [exact Gl|congruence]].
        exists (dpop str_eqb k d). destruct D as (_ & N & S). split; [|split].
        * unfold dec_dict. rewrite G'. f_equal. f_equal. clear. induction d as [|[k' t'] d IH]; [reflexivity|]. cbn.
          destruct (str_eqb k k'); [reflexivity|]. cbn. f_equal. exact IH.
        * apply dpop_nodup; [apply str_eqb_spec|exact N].
        * intros k' t' X. apply (S k'). eapply dpop_keys_incl; [apply str_eqb_spec|exact X].
      + intros k' _. unfold item. rewrite G, G'. unfold after_edits. cbn [fold_left edited].
        destruct (str_eqb_spec k' k) as [->|Nk]; [|apply dget_dpop_other; [apply key_eqb_spec|congruence]].
        apply dget_none; [apply key_eqb_spec|]. apply dpop_removes; [apply key_eqb_spec|].
        rewrite map_map. cbn [fst]. rewrite <- (map_map fst KStr). apply FinFun.Injective_map_NoDup; [intros x y; congruence|exact (proj1 (proj2 D))].
    - destruct (kept_elsewhere h h' Ka Ks H) as [H' K]. split; [exact H'|]. intros k _. apply K.
  Qed.
  Theorem execution_kept h es h' : execution E order a spv h es h' -> holding h ->
    holding h' /\ forall k, ~ bitmap_item k -> item h' a k = after_edits es k (item h a k).
  Proof.
    induction 1 as [h|h es h1 es' h' X IH Ev]; intro H; [split; [exact H|reflexivity]|].
    destruct (IH H) as [H1 K1]. destruct (event_kept _ _ _ Ev H1) as [H2 K2]. split; [exact H2|].
    intros k Nk. rewrite (K2 k Nk), (K1 k Nk). unfold after_edits. rewrite fold_left_app. reflexivity.
  Qed.
End H.

(** ** Nothing but the items and the specification matters *)
Lemma encode_call E order (M : machine E order) r h a d spv sp o h1 : text_dict h a d -> spec_rep h spv sp -> spec_apart h spv (RefV a) ->
  call_encode E order r [RefV a; spv] h = (o, h1) -> encode_outcome h (RefV a) (fst (encode E (ADict (as_dict d)) sp)) o h1.
Proof.
  intros D Rs Ap C. destruct M as (HE & HT & HB & HO). destruct (text_dict_rep _ _ _ D) as [R I]. destruct r as [so tb n N]. unfold call_encode in C. cbn in C.
  assert (X := encode_as_written E order so tb HE HB HO h (RefV a) _ spv sp n R I Rs Ap N). rewrite C in X. exact (proj2 X).
Qed.
Lemma text_items_content h a d g b d' : text_dict h a d -> text_dict g b d' -> (forall k, ~ bitmap_item k -> item h a k = item g b k) ->
  same_content (as_dict d) (as_dict d').
Proof.
  intros D D' H. apply same_content_get; [exact (proj1 (text_dict_str _ _ _ D))|exact (proj1 (text_dict_str _ _ _ D'))|].
  assert (X : forall (d : ddoc) k, dget key_eqb (KStr k) (as_dict d) = option_map VStr (sget k d)).
  { clear. intros d k. unfold sget, dget, as_dict. induction d as [|[k' t] d IH]; [reflexivity|]. cbn. destruct (str_eqb k k'); [reflexivity|exact IH]. }
  intros [k|n o] B.
  - rewrite !X. assert (Nk : ~ bitmap_item k) by (intros [->|[->| ->]]; vm_compute in B; discriminate). specialize (H k Nk).
    rewrite (dict_item _ _ _ k (proj1 D)), (dict_item _ _ _ k (proj1 D')) in H. destruct (sget k d), (sget k d'); cbn in *; congruence.
  - assert (Y : forall d : ddoc, dget key_eqb (KOther n o) (as_dict d) = None); [|rewrite !Y; reflexivity].
    clear. intro d. apply dget_none; [apply key_eqb_spec|]. unfold as_dict. rewrite map_map. cbn. intro X. apply in_map_iff in X as (x & X & _). discriminate.
Qed.
Theorem encode_by_items E order1 order2 (M1 : machine E order1) (M2 : machine E order2) sp r1 r2 h a d spv o h1 g b d' spv' o' g1 :
  text_dict h a d -> spec_rep h spv sp -> spec_apart h spv (RefV a) -> text_dict g b d' -> spec_rep g spv' sp -> spec_apart g spv' (RefV b) ->
  (forall k, ~ bitmap_item k -> item h a k = item g b k) ->
  call_encode E order1 r1 [RefV a; spv] h = (o, h1) -> call_encode E order2 r2 [RefV b; spv'] g = (o', g1) ->
  same_returned h1 g1 o o' \/ same_refused h1 g1 (RefV a) (RefV b) o o' \/ raised_alike o o'.
Proof.
  intros D R A D' R' A' K C C'. assert (X := encode_call E order1 M1 r1 _ _ _ _ _ _ _ D R A C). assert (Y := encode_call E order2 M2 r2 _ _ _ _ _ _ _ D' R' A' C').
  assert (S := text_items_content _ _ _ _ _ _ D D' K). assert (N := proj1 (text_dict_str _ _ _ D)). assert (N' := proj1 (text_dict_str _ _ _ D')).
  assert (W := fun s enc => encode_content E sp (as_dict d) (as_dict d') s enc (proj1 M1) N N' S). unfold encodes_to in W.
  destruct (encode E (ADict (as_dict d)) sp) as [[[s enc]|x] d1] eqn:Ex; cbn [fst] in X.
  - destruct (proj1 (W s enc)) as (d2 & Ey); [eauto|]. rewrite Ey in Y. cbn [fst] in Y. left.
    destruct X as (s1 & e1 & i & -> & G1 & E1 & _). destruct Y as (s2 & e2 & j & -> & G2 & E2 & _). exists s1, e1, s2, e2, s, enc, i, j. auto 10.
  - right. assert (K0 : forall j, In j (map fst (as_dict d)) -> exists s, j = KStr s).
    { intros j Hj. unfold as_dict in Hj. rewrite map_map in Hj. apply in_map_iff in Hj as (kt & <- & _). eexists; reflexivity. }
    assert (Z : (exists e, x = XEncodeError e) \/ forall e, x <> XEncodeError e) by (destruct x; first [left; eexists; reflexivity|right; discriminate]).
    destruct Z as [(e & Zx)|Nx].
    + left. subst x. destruct (encode_error_content E sp _ _ e d1 (proj1 M1) N N' S K0 Ex) as (e' & d2 & Ey & Em & Ea & Ef & Ed & _). rewrite Ey in Y. cbn [fst] in Y.
      apply encode_fault_iff in Ex as (msg & k & enc & _ & ->); [|assumption]. cbn in Em, Ea, Ef, Ed.
      destruct X as (l & b1 & i & -> & G & En & _). destruct Y as (l' & b2 & j & -> & G' & En' & _).
      rewrite Em, Ea, Ef in G'. rewrite Ed in En'. exists l, l', b1, b2, msg, k, enc, i, j. auto 10.
    + right. destruct (encode_escape_content E sp _ _ x d1 (proj1 M1) N N' S K0 Ex Nx) as (d2 & Ey & _). rewrite Ey in Y. cbn [fst] in Y.
      unfold encode_outcome in X, Y. destruct x as [er|er|k|t| |]; try contradiction; [destruct (Nx er eq_refl)|..].
      * exists "KeyError", k, k. auto.
      * exists "TypeError", t, t. auto.
      * destruct X as (t & ->). destruct Y as (t' & ->). exists "ValueError", t, t'. split; [reflexivity|]. split; [reflexivity|]. intro Q. destruct (Q eq_refl).
      * exists "UnboundLocalError", (u "data_to_encode"), (u "data_to_encode"). auto.
Qed.
(** After any execution. *)
Theorem encode_after_execution E order order' (M : machine E order) (M' : machine E order') sp r r' h a spv es h1 d o h2 g b d' spv' o' g1 :
  text_dict h a d -> spec_rep h spv sp -> spec_apart h spv (RefV a) -> execution E order a spv h es h1 ->
  call_encode E order r [RefV a; spv] h1 = (o, h2) ->
  text_dict g b d' -> spec_rep g spv' sp -> spec_apart g spv' (RefV b) ->
  (forall k, ~ bitmap_item k -> item g b k = after_edits es k (item h a k)) ->
  call_encode E order' r' [RefV b; spv'] g = (o', g1) ->
  same_returned h2 g1 o o' \/ same_refused h2 g1 (RefV a) (RefV b) o o' \/ raised_alike o o'.
Proof.
  intros D R A X C D' R' A' K C'. destruct (execution_kept E order M a spv sp h es h1 X) as (((d1 & D1) & R1 & A1) & K1); [split; [eauto|auto]|].
  eapply (encode_by_items E order order' M M' sp); [exact D1|exact R1|exact A1|exact D'|exact R'|exact A'| |exact C|exact C'].
  intros k Nk. rewrite (K1 k Nk), (K k Nk). reflexivity.
Qed.
Theorem decode_by_bytes E order1 order2 (M1 : machine E order1) (M2 : machine E order2) sp r1 r2 h v s spv o h1 g v' s' b spv' o' g1 :
  input_rep h v s -> holds s b -> spec_rep h spv sp -> input_rep g v' s' -> holds s' b -> spec_rep g spv' sp -> (zlen b < 2 ^ 63)%Z ->
  call_decode E order1 r1 [v; spv] h = (o, h1) -> call_decode E order2 r2 [v'; spv'] g = (o', g1) ->
  same_decoded h1 g1 v v' o o' \/ raised_alike o o'.
Proof.
  intros I H R I' H' R' B C C'. assert (Bs : buf_bytes s = b /\ buf_bytes s' = b) by (split; [apply holds_buf, H|apply holds_buf, H']). destruct Bs as [Bs Bs'].
  destruct (decode_call E order1 M1 spv sp r1 h v s o h1 R I ltac:(rewrite Bs; exact B) C) as [_ X].
  destruct (decode_call E order2 M2 spv' sp r2 g v' s' o' g1 R' I' ltac:(rewrite Bs'; exact B) C') as [_ Y].
  rewrite (decode_retag E sp s s' b H H') in Y. destruct (decode E s sp) as [[dec enc]|x] eqn:Dx; cbn [retag] in Y.
  - left. destruct X as (a & e & i & -> & D & En & _). destruct Y as (a' & e' & j & -> & D' & En' & _).
    exists a, e, a', e', dec, enc, i, j. auto 10.
  - unfold decode_outcome in X, Y. destruct x as [er|er|k|t| |]; cbn [retag_exn] in Y; try contradiction.
    + left. destruct X as (l & a & e & i & -> & G & D & En & _). destruct Y as (l' & a' & e' & j & -> & G' & D' & En' & _).
      assert (Ar : de_args0 er = de_msg er ++ u ": field " ++ de_field er ++ u " pos " ++ zstr (de_pos er)).
      { assert (Z := decode_retag E sp s s b H H). rewrite Dx in Z. cbn in Z. injection Z as Z. rewrite Z. reflexivity. }
      exists a, e, a', e', (de_doc_dec er), (de_doc_enc er), i, j. do 4 (split; [assumption|]). right.
      exists l, l', (de_msg er), (de_pos er), (de_field er). split; [reflexivity|]. split; [reflexivity|].
      unfold decode_error_at. split; [|exact G']. rewrite G. repeat f_equal. exact Ar.
    + right. exists "KeyError", k, k. auto.
    + right. exists "TypeError", t, t. auto.
    + right. destruct X as (t & ->). destruct Y as (t' & ->). exists "ValueError", t, t'. split; [reflexivity|]. split; [reflexivity|]. intro Q. destruct (Q eq_refl).
Qed.
