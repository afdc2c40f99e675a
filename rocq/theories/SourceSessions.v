(** * SourceSessions: sequences of calls, run from the text. *)
From Verif Require Import PyBase BaseFacts Types Decoder Encoder Tools Wire WireEncode Claims Claims2 Pretty.
From Verif Require Import EncoderFacts EncodeTheorems EncodeTheorems2 EncodeMemory Roundtrip Roundtrip2 Roundtrip3 Forward DecodeTheorems SpecKeys.
From Verif Require Import PyAst Source PySem SemClaims SemFacts SemHeap SessionClaims SourceDecode SourceEncode SourceTools.
Local Open Scope string_scope.
Local Open Scope list_scope.

Notation val := PySem.value.
Section S.
  Context (E : pyenv) (order : list Z -> list Z) (M : machine E order).
  Context (spv : val) (sp : spec).

  Lemma text_dict_str h a d : text_dict h a d -> str_dict (as_dict d).
  Proof.
    intros (_ & N & _). split.
    - unfold is_dict, as_dict. rewrite map_map. cbn [fst]. rewrite <- (map_map fst KStr). apply FinFun.Injective_map_NoDup; [|exact N].
      intros x y. congruence.
    - intros k v H. apply in_map_iff in H as ([k' t] & [= <- <-] & _). cbn. split; [eauto|]. eexists. reflexivity.
  Qed.
  Lemma text_dict_rep h a d : text_dict h a d -> dict_rep h (RefV a) (ADict (as_dict d)) /\ in_memory (ADict (as_dict d)).
  Proof.
    intros (D & _ & L). split.
    - exists a, (map (fun kv => (KStr (fst kv), StrV (snd kv))) d). split; [reflexivity|]. split; [exact D|].
      unfold items_rep, as_dict. clear. induction d as [|[k t] d IH]; constructor; [split; reflexivity|exact IH].
    - intros k p H. apply in_map_iff in H as ([k' t] & [= <- <-] & H). eapply L; eauto.
  Qed.
  (** The dict afterwards. *)
  Definition text_of_val (p : pyval) : val := match p with VStr t => StrV t | _ => NoneV end.
  Lemma left_items h a d d' h' : text_dict h a d -> dict_left h (RefV a) d' h' ->
    exists items', hget h' a = Some (DictO items') /\ items' = map (fun kp => (fst kp, text_of_val (snd kp))) d'
      /\ (forall k p, In (k, p) d' -> exists t, p = VStr t).
  Proof.
    intros (D & _) L. specialize (L _ _ D). cbv beta iota in L. destruct L as [L _]. destruct (L eq_refl) as (items' & G & R & T).
    exists items'. split; [exact G|].
    assert (T' : forall k x, In (k, x) items' -> exists t, x = StrV t).
    { intros k x H. destruct (T _ _ H) as [H'|H']; [|exact H']. apply in_map_iff in H' as ([k' t] & [= <- <-] & _). eauto. }
    clear - R T'. unfold items_rep in R. induction R as [|[k x] [k' p] items d' [A V] R IH]; [split; [reflexivity|intros ? ? []]|].
    cbn [fst snd] in *. subst k'. destruct (T' k x (or_introl eq_refl)) as (t & ->).
    assert (p = VStr t). { destruct p; cbn in V; [congruence| |contradiction]. destruct V as [V|(l & V & _)]; discriminate. } subst p.
    destruct IH as (-> & IH); [intros; eapply T'; right; eauto|]. split; [reflexivity|]. intros k' p [[= <- <-]|H]; [eauto|eapply IH; eauto].
  Qed.
  Lemma dget_text k d : (forall k p, In (k, p) d -> exists t, p = VStr t) ->
    dget key_eqb k (map (fun kp => (fst kp, text_of_val (snd kp))) d) = option_map text_of_val (dget key_eqb k d).
  Proof.
    induction d as [|[k' p] d IH]; intro T; [reflexivity|]. unfold dget in *. cbn. destruct (key_eqb k k'); [reflexivity|].
    apply IH. intros. eapply T. right. eauto.
  Qed.
  Lemma left_item h a d d' h' k : text_dict h a d -> dict_left h (RefV a) d' h' -> item h' a k = option_map text_of_val (WireEncode.value d' k).
  Proof.
    intros D L. destruct (left_items _ _ _ _ _ D L) as (items' & G & -> & T). unfold item. rewrite G. apply dget_text, T.
  Qed.
  Lemma dict_item h a d k : dec_dict h a d -> item h a k = option_map StrV (sget k d).
  Proof.
    intro D. unfold item. rewrite D. clear D. unfold sget, dget. induction d as [|[k' t] d IH]; [reflexivity|]. cbn.
    destruct (str_eqb k k'); [reflexivity|exact IH].
  Qed.
  Lemma left_text h a d d' h' k t : text_dict h a d -> dict_left h (RefV a) d' h' ->
    WireEncode.value d' k = Some (VStr t) <-> item h' a k = Some (StrV t).
  Proof.
    intros D L. rewrite (left_item _ _ _ _ _ k D L). destruct (left_items _ _ _ _ _ D L) as (_ & _ & _ & T).
    destruct (WireEncode.value d' k) as [p|] eqn:V; [|split; discriminate].
    apply (dget_in key_eqb key_eqb_spec) in V. destruct (T _ _ V) as (t' & ->). cbn. split; intros [= ->]; reflexivity.
  Qed.
  Lemma enc_dict_lt h b i enc : enc_dict h b i enc -> Forall (fun l => l < length h) (b :: i).
  Proof.
    intros (L & G & H). constructor; [exact (hget_lt _ _ _ G)|]. apply Forall_forall. intros m Hm. apply In_nth_error in Hm as (n & Hn).
    assert (X : n < length enc) by (rewrite <- L; apply nth_error_Some; congruence). apply nth_error_Some in X.
    destruct (nth_error enc n) as [ke|] eqn:K; [|congruence]. exact (hget_lt _ _ _ (H _ _ _ K Hn)).
  Qed.
  Lemma untouched_enc h h' b i enc : untouched h h' -> enc_dict h b i enc -> enc_dict h' b i enc.
  Proof.
    intros U D. assert (X := enc_dict_lt _ _ _ _ D). inversion X as [|? ? B I]; subst. destruct D as (L & G & H).
    split; [exact L|]. split; [rewrite U; assumption|]. intros n ke m A1 A2. rewrite U; [eapply H; eauto|].
    apply nth_error_In in A2. rewrite Forall_forall in I. auto.
  Qed.
  Lemma both_fresh (h h1 : heap) ls ks : NoDup ls -> Forall (fun l => l < length h1) ls -> fresh h1 ks -> NoDup (ls ++ ks).
  Proof.
    intros A B (C & D). 
    induction A as [|x ls N A IH]; [exact C|]. inversion B; subst. cbn. constructor; [|auto].
    intro X. apply in_app_iff in X as [X|X]; [contradiction|]. rewrite Forall_forall in D. specialize (D _ X). lia.
  Qed.

  (** ** The spec stays *)
  Lemma left_spec h a d d' h' : spec_rep h spv sp -> spec_apart h spv (RefV a) -> text_dict h a d -> dict_left h (RefV a) d' h' ->
    spec_rep h' spv sp /\ spec_apart h' spv (RefV a).
  Proof. intros R A D L. apply (spec_moved _ _ _ _ _ R A). intros l o G N. apply (L _ _ G). congruence. Qed.
  Lemma untouched_spec h h' : untouched h h' -> spec_rep h spv sp -> spec_rep h' spv sp.
  Proof. intros U R. apply (spec_untouched _ _ _ _ R). intros l o G. rewrite U; [exact G|exact (hget_lt _ _ _ G)]. Qed.
  Lemma fresh_spec h h' a : untouched h h' -> spec_rep h spv sp -> length h <= a -> spec_apart h' spv (RefV a).
  Proof.
    intros U R L. apply (spec_moved h h' spv sp (RefV a) R).
    - apply (spec_rep_apart _ _ _ _ R). intros items G. apply hget_lt in G. lia.
    - intros l o G _. rewrite U; [exact G|exact (hget_lt _ _ _ G)].
  Qed.

  (** ** The calls *)
  Lemma encode_ok_call r h a d sv ev h1 : spec_rep h spv sp -> spec_apart h spv (RefV a) -> text_dict h a d -> call_encode E order r [RefV a; spv] h = (Done (TupleV [sv; ev]), h1) ->
    exists bs enc d' s e inner, encode E (ADict (as_dict d)) sp = (Ok (bs, enc), d') /\ dict_left h (RefV a) d' h1 /\
      sv = RefV s /\ ev = RefV e /\ hget h1 s = Some (BytearrayO bs) /\ enc_dict h1 e inner enc /\ fresh h (s :: e :: inner).
  Proof.
    intros Rs Ap D C. destruct M as (HE & HT & HB & HO). destruct (text_dict_rep _ _ _ D) as [R I]. destruct r as [so tb n N]. unfold call_encode in C. cbn in C.
    assert (X := encode_as_written E order so tb HE HB HO h (RefV a) _ spv sp n R I Rs Ap N). rewrite C in X. destruct X as [L X].
    destruct (encode E (ADict (as_dict d)) sp) as [m d']. cbn [fst snd] in *. unfold encode_outcome in X.
    destruct m as [[bs enc]|[]]; try (decompose [ex and] X; discriminate); try contradiction.
    destruct X as (s & b & inner & [= -> ->] & G & En & F). exists bs, enc, d', s, b, inner. auto 10.
  Qed.
  Lemma decode_call r h sv s o h' : spec_rep h spv sp -> input_rep h sv s -> (zlen (buf_bytes s) < 2 ^ 63)%Z ->
    call_decode E order r [sv; spv] h = (o, h') -> untouched h h' /\ decode_outcome h sv (decode E s sp) o h'.
  Proof.
    intros Rs R B C. destruct M as (HE & HT & HB & HO). destruct r as [so tb n N]. unfold call_decode in C. cbn in C.
    assert (X := decode_as_written E order so tb HE HT HO h sv s spv sp n R Rs B N). rewrite C in X. exact X.
  Qed.

  (** ** What was encoded is decoded *)
  Theorem session_round_trip r1 r2 h a d sv ev h1 o h2 : spec_rep h spv sp -> spec_apart h spv (RefV a) -> reversible_spec E sp -> text_dict h a d ->
    call_encode E order r1 [RefV a; spv] h = (Done (TupleV [sv; ev]), h1) -> possible h1 sv ->
    call_decode E order r2 [sv; spv] h1 = (o, h2) ->
    exists e b c, ev = RefV e /\ o = Done (TupleV [RefV b; RefV c]) /\ same_entries h2 e c /\ ~ In a [e; b; c] /\
      (forall k v, item h2 b k = Some v <->
         wire_key sp k /\ exists fs t, sget k sp = Some fs /\ item h2 a k = Some (StrV t) /\ v = StrV (normal fs t)) /\
      (forall k, k <> u "p" -> k <> u "1" -> k <> u "65" -> item h2 a k = item h a k).
  Proof.
    intros Rs Ap Rv D C1 P C2. destruct (encode_ok_call _ _ _ _ _ _ _ Rs Ap D C1) as (bs & enc & d' & s & e & inner & H & L & -> & -> & Gs & En & F).
    assert (HE := proj1 M). assert (SD := text_dict_str _ _ _ D).
    assert (R : input_rep h1 (RefV s) (InBytearray bs)) by (exists s; auto).
    assert (P' : (zlen (buf_bytes (InBytearray bs)) < 2 ^ 63)%Z) by (specialize (P _ eq_refl); rewrite Gs in P; exact P).
    destruct (left_spec _ _ _ _ _ Rs Ap D L) as [Rs1 _]. destruct (decode_call _ _ _ _ _ _ Rs1 R P' C2) as [U O].
    destruct (encode_decode E sp _ _ _ _ (InBytearray bs) HE SD Rv H (or_intror eq_refl)) as (dec & Hd & Eq). rewrite Hd in O.
    destruct O as (b & c & inner' & -> & Db & Ec & Fr). exists e, b, c. split; [reflexivity|]. split; [reflexivity|].
    assert (La : a < length h) by (exact (hget_lt _ _ _ (proj1 D))).
    destruct (left_items _ _ _ _ _ D L) as (items' & Ga & _ & _). assert (La1 := hget_lt _ _ _ Ga).
    assert (Same : forall k, item h2 a k = item h1 a k) by (intro k; unfold item; rewrite (U a La1); reflexivity).
    split; [|split; [|split]].
    - exists enc, inner, inner'. split; [exact (untouched_enc _ _ _ _ _ U En)|]. split; [exact Ec|].
      apply (both_fresh h h1 (e :: inner) (c :: inner')); [|exact (enc_dict_lt _ _ _ _ En)|].
      + destruct F as [F _]. inversion F; assumption.
      + destruct Fr as [Fr1 Fr2]. inversion Fr1 as [|? ? N1 N2]. inversion Fr2. split; assumption.
    - intros [X|[X|[X|[]]]].
      + destruct F as [_ F]. inversion F as [|? ? _ F']. inversion F'. subst. lia.
      + destruct Fr as [_ Fr]. inversion Fr. subst. lia.
      + destruct Fr as [_ Fr]. inversion Fr as [|? ? _ Fr']. inversion Fr'. subst. lia.
    - intros k v. rewrite (dict_item _ _ _ k Db). split.
      + intro X. destruct (sget k dec) as [t|] eqn:K; [|discriminate]. injection X as <-. apply Eq in K as (W & fs & t' & A1 & A2 & ->).
        split; [exact W|]. exists fs, t'. split; [exact A1|]. split; [|reflexivity]. rewrite Same. apply (left_text _ _ _ _ _ k t' D L), A2.
      + intros (W & fs & t & A1 & A2 & ->). rewrite Same in A2. apply (left_text _ _ _ _ _ k t D L) in A2.
        assert (X : sget k dec = Some (normal fs t)) by (apply Eq; eauto 6). rewrite X. reflexivity.
    - intros k N1 N2 N3. rewrite Same, (left_item _ _ _ _ _ k D L), (kept_value E sp _ _ _ _ k HE SD H N1 N2 N3), (dict_item _ _ _ k (proj1 D)).
      clear. unfold WireEncode.value, sget, dget, as_dict. induction d as [|[k' t] d IH]; [reflexivity|]. cbn. destruct (str_eqb k k'); [reflexivity|exact IH].
  Qed.

  (** ** Encoding again *)
  Lemma kept_enc h h' b i enc : (forall l, In l (b :: i) -> hget h' l = hget h l) -> enc_dict h b i enc -> enc_dict h' b i enc.
  Proof.
    intros K (L & G & H). split; [exact L|]. split; [rewrite K; [exact G|now left]|]. intros n ke m A1 A2. rewrite K; [eapply H; eauto|].
    right. eapply nth_error_In; eauto.
  Qed.
  Theorem session_encode_twice r1 r2 h a d sv ev h1 o h2 : spec_rep h spv sp -> spec_apart h spv (RefV a) -> text_dict h a d ->
    call_encode E order r1 [RefV a; spv] h = (Done (TupleV [sv; ev]), h1) ->
    call_encode E order r2 [RefV a; spv] h1 = (o, h2) ->
    exists s e s' e', sv = RefV s /\ ev = RefV e /\ o = Done (TupleV [RefV s'; RefV e']) /\ s <> s' /\
      same_bytes h2 s s' /\ same_entries h2 e e' /\ hget h2 a = hget h1 a.
  Proof.
    intros Rs0 Ap0 D C1 C2. destruct (encode_ok_call _ _ _ _ _ _ _ Rs0 Ap0 D C1) as (bs & enc & d' & s & e & inner & H & L & -> & -> & Gs & En & F).
    destruct (left_spec _ _ _ _ _ Rs0 Ap0 D L) as [Rs Ap].
    assert (HE := proj1 M). assert (SD := text_dict_str _ _ _ D).
    destruct (left_items _ _ _ _ _ D L) as (items' & Ga & Ei & T). assert (La := hget_lt _ _ _ (proj1 D)). assert (La1 := hget_lt _ _ _ Ga).
    assert (R : dict_rep h1 (RefV a) (ADict d')).
    { exists a, items'. split; [reflexivity|]. split; [exact Ga|]. subst items'. clear - T. unfold items_rep.
      induction d' as [|[k p] d' IH]; constructor; [|apply IH; intros; eapply T; right; eauto].
      split; [reflexivity|]. destruct (T k p (or_introl eq_refl)) as (t & ->). reflexivity. }
    assert (I : in_memory (ADict d')).
    { intros k p Hk. destruct (T _ _ Hk) as (t & ->). assert (Z := encode_texts E sp (as_dict d) (proj1 SD)). rewrite H in Z. apply (Z) with (k := k); [|exact Hk].
      intros k0 t0 H0. apply in_map_iff in H0 as ([k1 t1] & [= <- <-] & H0). exact (proj2 (proj2 D) _ _ H0). }
    destruct M as (_ & _ & HB & HO). destruct r2 as [so tb n N]. unfold call_encode in C2. cbn in C2.
    assert (X := encode_as_written E order so tb HE HB HO h1 (RefV a) _ spv sp n R I Rs Ap N). rewrite C2 in X. destruct X as [L2 X].
    rewrite (encode_idempotent E sp _ _ _ _ HE (proj1 SD) H) in L2, X. cbn [fst snd] in L2, X.
    destruct X as (s' & e' & inner' & -> & G' & En' & F'). exists s, e, s', e'. do 3 (split; [reflexivity|]).
    assert (Ls := hget_lt _ _ _ Gs). assert (Ln := enc_dict_lt _ _ _ _ En).
    assert (K : forall l, l < length h1 -> l <> a -> hget h2 l = hget h1 l).
    { intros l Hl Na. destruct (hget h1 l) as [ob|] eqn:Go; [|apply nth_error_None in Go; lia]. apply (L2 _ _ Go). congruence. }
    assert (Na : forall l, In l (s :: e :: inner) -> l <> a).
    { intros l Hl ->. destruct F as [_ F]. rewrite Forall_forall in F. specialize (F _ Hl). lia. }
    split; [|split; [|split]].
    - intros ->. destruct F' as [_ F']. inversion F'. lia.
    - exists bs. split; [|exact G']. rewrite K; [exact Gs|exact Ls|apply Na; now left].
    - exists enc, inner, inner'. split; [|split; [exact En'|]].
      + apply (kept_enc h1); [|exact En]. intros l Hl. apply K; [|apply Na; now right]. rewrite Forall_forall in Ln. auto.
      + apply (both_fresh h h1 (e :: inner) (e' :: inner')); [|exact Ln|].
        * destruct F as [F _]. inversion F; assumption.
        * destruct F' as [F1 F2]. inversion F1. inversion F2. split; assumption.
    - specialize (L2 _ _ Ga). cbv beta iota in L2. destruct L2 as [L2 _]. destruct (L2 eq_refl) as (items2 & G2 & R2 & _).
      rewrite G2, Ga. do 2 f_equal. subst items'. clear - R2 T. unfold items_rep in R2.
      revert items2 R2. induction d' as [|[k p] d' IH]; intros items2 R2; inversion R2 as [|[k2 x] ? l ? [A V] R3]; subst; [reflexivity|].
      cbn in *. f_equal; [|apply IH; [intros; eapply T; right; eauto|exact R3]]. destruct (T k p (or_introl eq_refl)) as (t & ->).
      cbn in *. congruence.
  Qed.

  (** ** Encoding what was decoded *)
  Theorem session_send_on r1 r2 h sv s b a e h1 dec enc inner o h2 : spec_rep h spv sp -> bitmaps_fit E sp -> faithful_spec E sp ->
    input_rep h sv s -> holds s b -> (zlen b < 2 ^ 63)%Z ->
    call_decode E order r1 [sv; spv] h = (Done (TupleV [RefV a; RefV e]), h1) ->
    dec_dict h1 a dec -> enc_dict h1 e inner enc -> canonical_message E sp dec enc -> possible h1 (RefV a) ->
    call_encode E order r2 [RefV a; spv] h1 = (o, h2) ->
    exists s' e', o = Done (TupleV [RefV s'; RefV e']) /\ hget h2 s' = Some (BytearrayO b) /\ same_entries h2 e e'.
  Proof.
    intros Rs Bf Ff R Hs B C1 Dd Ee Cn P C2. assert (HE := proj1 M).
    assert (B' : (zlen (buf_bytes s) < 2 ^ 63)%Z) by (destruct Hs as [->| ->]; exact B).
    destruct (decode_call _ _ _ _ _ _ Rs R B' C1) as [U O].
    destruct (decode E s sp) as [[dec0 enc0]|x] eqn:Hd; cbn [decode_outcome] in O;
      [|destruct x; try (decompose [ex and] O; discriminate); contradiction].
    destruct O as (a0 & e0 & inner0 & [= <- <-] & Da & En & F).
    assert (dec0 = dec).
    { unfold dec_dict in Da, Dd. rewrite Da in Dd. injection Dd as X. clear - X. revert dec X.
      induction dec0 as [|[k t] dec0 IH]; intros [|[k2 t2] dec] X; try discriminate; [reflexivity|]. cbn in X. injection X as -> -> X. f_equal. auto. }
    subst dec0.
    assert (enc0 = enc).
    { destruct En as (L0 & G0 & H0), Ee as (L1 & G1 & H1). rewrite G0 in G1. injection G1 as X. clear - L0 L1 H0 H1 X.
      revert enc inner inner0 L0 L1 H0 H1 X. induction enc0 as [|[k0 e0] enc0 IH]; intros [|[k1 e1] enc] [|i inner] [|i0 inner0] L0 L1 H0 H1 X; try discriminate; [reflexivity|].
      cbn in X. injection X as -> -> X. f_equal.
      - specialize (H0 0 _ _ eq_refl eq_refl). specialize (H1 0 _ _ eq_refl eq_refl). rewrite H0 in H1. destruct e0, e1. cbn in H1. injection H1 as -> ->. reflexivity.
      - eapply IH; [| | |  |exact X]; [injection L0; auto|injection L1; auto| |]; intros n ke m A1 A2; [exact (H0 (S n) ke m A1 A2)|exact (H1 (S n) ke m A1 A2)]. }
    subst enc0. destruct (decode_encode E sp s b dec enc HE Bf Ff Hs Hd Cn) as (d' & H).
    destruct (decode_accounts E sp s b dec enc Hs Hd) as (_ & Km & Nd).
    assert (D : text_dict h1 a dec).
    { split; [exact Da|]. split; [rewrite Km; exact Nd|]. intros k t Hk. specialize (P _ eq_refl). rewrite Da in P. apply (P (KStr k)).
      apply in_map_iff. exists (k, t). auto. }
    assert (Rs1 := untouched_spec _ _ U Rs).
    assert (Ap : spec_apart h1 spv (RefV a)) by (apply (fresh_spec h); [exact U|exact Rs|]; destruct F as [_ F]; inversion F; assumption).
    destruct (text_dict_rep _ _ _ D) as [R2 I]. destruct M as (_ & _ & HB & HO). destruct r2 as [so tb n N]. unfold call_encode in C2. cbn in C2.
    assert (X := encode_as_written E order so tb HE HB HO h1 (RefV a) _ spv sp n R2 I Rs1 Ap N). rewrite C2, H in X. cbn [fst snd] in X. destruct X as [L X].
    destruct X as (s' & e' & inner' & -> & G' & En' & F'). exists s', e'. split; [reflexivity|]. split; [exact G'|].
    assert (Ln := enc_dict_lt _ _ _ _ En).
    exists enc, inner0, inner'. split; [|split; [exact En'|]].
    - apply (kept_enc h1); [|exact En]. intros l Hl. rewrite Forall_forall in Ln. specialize (Ln _ Hl).
      destruct (hget h1 l) as [ob|] eqn:Go; [|apply nth_error_None in Go; lia]. apply (L _ _ Go). intros [= ->].
      destruct F as [F _]. inversion F. contradiction.
    - apply (both_fresh h h1 (e :: inner0) (e' :: inner')); [|exact Ln|].
      + destruct F as [F _]. inversion F; assumption.
      + destruct F' as [F1 F2]. inversion F1. inversion F2. split; assumption.
  Qed.

  (** ** Exceptions *)
  Theorem session_decode_errors r h sv s b o h' : spec_rep h spv sp -> bitmaps_fit E sp -> spec_complete sp -> numbers_ok E sp ->
    input_rep h sv s -> holds s b -> (zlen b < 2 ^ 63)%Z -> call_decode E order r [sv; spv] h = (o, h') ->
    (exists a e, o = Done (TupleV [RefV a; RefV e])) \/ raises "DecodeError" o h'.
  Proof.
    intros Rs Bf Sc Nk R Hs B C. assert (B' : (zlen (buf_bytes s) < 2 ^ 63)%Z) by (destruct Hs as [->| ->]; exact B).
    destruct (decode_call _ _ _ _ _ _ Rs R B' C) as [U O]. destruct (decode E s sp) as [[dec enc]|x] eqn:Hd.
    - destruct O as (a & e & inner & -> & _). left. eauto.
    - destruct (decode_only_decode_error E sp s b x Bf Sc Nk Hs Hd) as (er & ->). cbn in O. destruct O as (l & a & e & inner & -> & G & _).
      right. do 3 eexists. split; [reflexivity|exact G].
  Qed.
  Theorem session_encode_errors r h a d o h' : spec_rep h spv sp -> spec_apart h spv (RefV a) -> spec_complete sp -> widths_ok sp -> limits_ok E sp ->
    text_dict h a d -> canonical_keys E (as_dict d) -> call_encode E order r [RefV a; spv] h = (o, h') ->
    (exists s e, o = Done (TupleV [RefV s; RefV e])) \/ raises "EncodeError" o h'.
  Proof.
    intros Rs Ap Sc Wk Lk D Ck C. assert (HE := proj1 M). assert (SD := text_dict_str _ _ _ D).
    destruct (text_dict_rep _ _ _ D) as [R I]. destruct M as (_ & _ & HB & HO). destruct r as [so tb n N]. unfold call_encode in C. cbn in C.
    assert (X := encode_as_written E order so tb HE HB HO h (RefV a) _ spv sp n R I Rs Ap N). rewrite C in X. destruct X as [_ X].
    destruct (encode E (ADict (as_dict d)) sp) as [[[bs enc]|x] d'] eqn:H; cbn [fst snd] in X.
    - destruct X as (s & e & inner & -> & _). left. eauto.
    - destruct (encode_only_encode_error E sp _ x d' HE Sc Wk Lk SD Ck H) as (er & ->). cbn in X. destruct X as (l & e & inner & -> & G & _).
      right. do 3 eexists. split; [reflexivity|exact G].
  Qed.

  (** ** Printing *)
  Lemma show_dec_rep h a dec : dec_dict h a dec -> doc_rep E h (RefV a) (show_dec dec).
  Proof.
    intro D. exists a. eexists. split; [reflexivity|]. split; [exact D|]. clear. unfold show_dec.
    induction dec as [|[k t] dec IH]; constructor; [split; reflexivity|exact IH].
  Qed.
  Lemma show_enc_rep h e inner enc : enc_dict h e inner enc -> doc_rep E h (RefV e) (show_enc enc).
  Proof.
    intros (L & G & H). exists e. eexists. split; [reflexivity|]. split; [exact G|]. clear G. unfold show_enc.
    revert inner L H. induction enc as [|[k x] enc IH]; intros [|i inner] L H; try discriminate; constructor.
    - split; [reflexivity|]. cbn [fst snd]. exists i. eexists. split; [reflexivity|]. split; [exact (H 0 _ _ eq_refl eq_refl)|]. split; vm_compute; reflexivity.
    - apply IH; [injection L; auto|]. intros n ke m A1 A2. exact (H (S n) ke m A1 A2).
  Qed.
  Theorem session_decode_print r1 r2 h sv s b a e h1 w t dv dw lv lw v o h2 : spec_rep h spv sp -> spec_described E sp ->
    input_rep h sv s -> holds s b -> (zlen b < 2 ^ 63)%Z -> hget h w = Some (StreamO t) ->
    call_decode E order r1 [sv; spv] h = (Done (TupleV [RefV a; RefV e]), h1) ->
    width_rep E dv dw -> width_rep E lv lw -> v = a \/ v = e ->
    call_pp E order r2 [RefV v; spv; dv; RefV w; lv] h1 = (o, h2) ->
    o = Done NoneV /\ (exists out, hget h2 w = Some (StreamO (t ++ out))) /\ forall l, l < length h1 -> l <> w -> hget h2 l = hget h1 l.
  Proof.
    intros Rs Sd R Hs B G C1 Wd Wl V C2.
    assert (B' : (zlen (buf_bytes s) < 2 ^ 63)%Z) by (destruct Hs as [->| ->]; exact B).
    destruct (decode_call _ _ _ _ _ _ Rs R B' C1) as [U O].
    assert (X := pp_after_decode E sp s dw lw Sd).
    destruct (decode E s sp) as [[dec enc]|x] eqn:Hd; cbn [decode_outcome] in O;
      [|destruct x; try (decompose [ex and] O; discriminate); contradiction].
    destruct O as (a0 & e0 & inner0 & [= <- <-] & Da & En & F).
    assert (G1 : hget h1 w = Some (StreamO t)) by (rewrite U; [exact G|exact (hget_lt _ _ _ G)]).
    assert (Y : exists doc out, doc_rep E h1 (RefV v) doc /\ pp E doc sp dw lw = (Ok tt, out)).
    { destruct X as ((o1 & X1) & o2 & X2). destruct V as [->| ->].
      - exists (show_dec dec), o1. split; [exact (show_dec_rep _ _ _ Da)|exact X1].
      - exists (show_enc enc), o2. split; [exact (show_enc_rep _ _ _ _ En)|exact X2]. }
    destruct Y as (doc & out & Rd & Pp). destruct r2 as [so tb n N]. unfold call_pp in C2. cbn in C2.
    assert (Z := pp_as_written E order so h1 (RefV v) doc spv sp dv dw (RefV w) w t lv lw n Rd (untouched_spec _ _ U Rs) Wd Wl (or_introl eq_refl) G1 ltac:(lia)).
    rewrite C2, Pp in Z. destruct Z as (Z1 & Z2 & Z3). cbn [fst snd] in *. split; [exact Z3|]. split; [eauto|exact Z2].
  Qed.
End S.
