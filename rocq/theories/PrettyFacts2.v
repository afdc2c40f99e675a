(** * PrettyFacts2: consequences for the output of pp. *)
From Coq Require Import ZifyBool ZifyNat ZifyN Permutation.
From Verif Require Import PyBase BaseFacts Types Texts TextFacts Tools Pretty Decoder Encoder EncoderFacts PrettyFacts.
Ltac Zify.zify_post_hook ::= Z.div_mod_to_equations.

(** ** Success *)
Lemma pp_output E sp dw lw d out : pp E d sp dw lw = (Ok tt, out) ->
  exists ks es, shown_keys E sp d ks /\ Forall2 (entry_of E sp dw lw d) ks es /\ out = concat es.
Proof.
  intro H. destruct (pp_run E sp dw lw d) as [(ks & es & H1 & H2 & H3)|(x & o & _ & H3)]; [|congruence].
  exists ks, es. repeat split; auto. congruence.
Qed.
Lemma pp_failure E sp dw lw d x out : pp E d sp dw lw = (Raise x, out) -> pp_stops E sp dw lw d x out.
Proof.
  intro H. destruct (pp_run E sp dw lw d) as [(ks & es & H1 & H2 & H3)|(y & o & H1 & H3)]; [congruence|].
  assert (y = x) by congruence. assert (o = out) by congruence. now subst.
Qed.
Lemma header_shown_in sp d h k : header_shown sp d h -> In k h ->
  k = u "h" /\ shows d k /\ exists fs ml, sget (u "h") sp = Some fs /\ fs_max_len fs = Some ml /\ (0 < ml)%Z.
Proof. intros [H|fs ml H1 H2 H3 H4|fs ml H1 H2 H3 H4] Hk; cbn in Hk; try tauto. destruct Hk as [<-|[]]. eauto 10. Qed.
Lemma if_shown_in d k t j : if_shown d k t -> In j t -> j = k /\ shows d k.
Proof. intros [H|H] Hj; cbn in Hj; [|tauto]. destruct Hj as [<-|[]]. auto. Qed.
Lemma pp_ready_described E sp dw d k : pp_ready E sp dw d -> shows d k ->
  (isnumeric E k = true \/ k = u "t" \/ k = u "p"
   \/ (k = u "h" /\ exists fs ml, sget (u "h") sp = Some fs /\ fs_max_len fs = Some ml /\ (0 < ml)%Z)) ->
  exists desc, description sp dw k desc.
Proof.
  intros (_ & _ & R) Hs Hk. destruct (Z.leb_spec dw 0) as [H|H]; [eexists; now constructor|].
  destruct (proj1 (R k Hs Hk) H) as (fs & desc & H1 & H2). eexists. eapply Description; eauto.
Qed.
Lemma shown_keys_cases E sp d h t p ks k : header_shown sp d h -> if_shown d (u "t") t -> if_shown d (u "p") p ->
  ks = [] \/ numbered E d ks -> In k (h ++ t ++ p ++ ks) -> shows d k /\
  (isnumeric E k = true \/ k = u "t" \/ k = u "p"
   \/ (k = u "h" /\ exists fs ml, sget (u "h") sp = Some fs /\ fs_max_len fs = Some ml /\ (0 < ml)%Z)).
Proof.
  intros Hh Ht Hp Hn H. rewrite !in_app_iff in H. destruct H as [H|[H|[H|H]]].
  - apply (header_shown_in _ _ _ _ Hh) in H as (-> & H1 & H2). auto 10.
  - apply (if_shown_in _ _ _ _ Ht) in H as [-> H]. auto.
  - apply (if_shown_in _ _ _ _ Hp) in H as [-> H]. auto.
  - destruct Hn as [->|Hn]; [destruct H|]. apply (proj1 Hn) in H as [H1 H2]. auto.
Qed.
Lemma nodup_pair {V} (k : pykey) (v w : V) (d : list (pykey * V)) : NoDup (map fst d) -> In (k, v) d -> In (k, w) d -> v = w.
Proof.
  induction d as [|[j x] d IH]; intros Hd H1 H2; [destruct H1|]. inversion Hd as [|? ? Hn Hd']; subst.
  destruct H1 as [H1|H1], H2 as [H2|H2]; try congruence; [| |now apply IH].
  - injection H1 as -> ->. exfalso. apply Hn. apply in_map_iff. exists (k, w). auto.
  - injection H2 as -> ->. exfalso. apply Hn. apply in_map_iff. exists (k, v). auto.
Qed.
Lemma prefix_sized E l pre : prefix_of E l pre -> elements l <> None.
Proof. intros [H|n H]; congruence. Qed.
Lemma ready_prints E sp dw lw d : pp_ready E sp dw d -> exists out, pp E d sp dw lw = (Ok tt, out).
Proof.
  intro R. destruct (pp_run E sp dw lw d) as [(ks & es & _ & _ & H)|(x & o & H & _)]; [eauto|]. exfalso.
  destruct H as [nm H1 H2|h t p ks done k rest es x part Hh Ht Hp Hn Hk HF Hx|h t p es k Hh Ht Hp HF Hs Hk Hi].
  - destruct (proj1 R H1) as (fs & ml & H3 & H4). destruct H2 as [[H2 _]|(fs' & H2 & H5 & _)]; congruence.
  - assert (Hin : In k (h ++ t ++ p ++ ks)) by (rewrite Hk; apply in_or_app; right; now left).
    apply (shown_keys_cases E sp d h t p ks k Hh Ht Hp Hn) in Hin as [H1 H2].
    destruct (proj2 (proj2 R) k H1 H2) as [R1 R2]. destruct Hx as [nm Hw Hd|v l o' desc Hv Hl He _].
    + destruct (R1 Hw) as (fs & desc & H3 & H4). destruct Hd as [[Hd _]|(fs' & Hd & H5 & _)]; congruence.
    + exact (R2 _ _ _ Hv Hl He).
  - destruct (proj1 (proj2 R) k Hs Hk) as [n Hn]. exact (Hi n Hn).
Qed.
Lemma pp_succeeds E sp dw lw d : NoDup (map fst d) -> ((exists out, pp E d sp dw lw = (Ok tt, out)) <-> pp_ready E sp dw d).
Proof.
  intro ND. split; [|apply ready_prints].
  intros [out H]. apply pp_output in H as (ks & es & [h t p ks' Hh Ht Hp Hn] & HF & _). split; [|split].
  - intros Hs. destruct Hh as [H|fs ml H1 H2 H3 H4|fs ml H1 H2 H3 H4]; [contradiction|eauto..].
  - intros k Hs Hk. apply (proj1 (proj2 (proj2 Hn))). now apply (proj1 Hn).
  - intros k Hs Hk.
    assert (Hin : In k (h ++ t ++ p ++ ks')).
    { rewrite !in_app_iff. destruct Hk as [Hk|[->|[->|[-> (fs & ml & K1 & K2 & K3)]]]].
      - right. right. right. now apply (proj1 Hn).
      - right. left. destruct Ht; [now left|contradiction].
      - right. right. left. destruct Hp; [now left|contradiction].
      - left. destruct Hh as [H|fs' ml' H1 H2 H3 H4|fs' ml' H1 H2 H3 H4]; [contradiction| |now left].
        assert (ml = ml') by congruence. lia. }
    apply in_split in Hin as (l1 & l2 & Hin). rewrite Hin in HF. apply Forall2_app_inv_l in HF as (e1 & e2 & _ & HF & _).
    inversion HF as [|? ? ? ? He _]; subst. destruct He as [v l o desc pre body Hv Hp' Hd Hpre _]. split.
    + intro Hdw. destruct Hd as [H|fs desc H1 H2 H3]; [lia|eauto].
    + intros v' ll oo Hv' Hl'. rewrite (nodup_pair _ _ _ _ ND Hv' Hv) in Hl'. apply parts_shown in Hl' as [-> _].
      apply parts_shown in Hp' as [<- _]. eapply prefix_sized; eauto.
Qed.
(** Every key once. *)
Lemma name_not_numeric E c : env_ok E -> (c < 128)%N -> is_digit c = false -> isnumeric E [c] = false.
Proof. intros HE H1 H2. unfold isnumeric. cbn. now rewrite (proj1 HE), H2. Qed.
Lemma shown_keys_nodup E sp d ks : env_ok E -> NoDup (map fst d) -> shown_keys E sp d ks -> NoDup ks.
Proof.
  intros HE Hd [h t p ks' Hh Ht Hp (N1 & N2 & _ & _)]. specialize (N2 Hd).
  assert (Nh : ~ In (u "h") ks') by (rewrite N1; intros [_ H]; pose proof (name_not_numeric E 104 HE eq_refl eq_refl) as X; exact (diff_true_false (eq_trans (eq_sym H) X))).
  assert (Nt : ~ In (u "t") ks') by (rewrite N1; intros [_ H]; pose proof (name_not_numeric E 116 HE eq_refl eq_refl) as X; exact (diff_true_false (eq_trans (eq_sym H) X))).
  assert (Np : ~ In (u "p") ks') by (rewrite N1; intros [_ H]; pose proof (name_not_numeric E 112 HE eq_refl eq_refl) as X; exact (diff_true_false (eq_trans (eq_sym H) X))).
  assert (P1 : NoDup (p ++ ks')). { destruct Hp; cbn; [now constructor|assumption]. }
  assert (P2 : NoDup (t ++ p ++ ks')).
  { destruct Ht; cbn; [|assumption]. constructor; [|assumption]. rewrite in_app_iff. intros [H1|H1]; [|contradiction].
    apply (if_shown_in _ _ _ _ Hp) in H1 as [H1 _]. discriminate. }
  destruct Hh; cbn; try assumption. constructor; [|assumption]. rewrite !in_app_iff. intros [H4|[H4|H4]]; [| |contradiction].
  - apply (if_shown_in _ _ _ _ Ht) in H4 as [H4 _]. discriminate.
  - apply (if_shown_in _ _ _ _ Hp) in H4 as [H4 _]. discriminate.
Qed.

(** ** Line lengths *)
Lemma fits_short w t : (zlen t <= w)%Z -> lines_fit w t.
Proof. intros H a l b -> _. unfold zlen in *. rewrite !app_length in H. lia. Qed.
Lemma fits_break w a b : lines_fit w a -> lines_fit w b -> lines_fit w (a ++ 10%N :: b).
Proof.
  intros Ha Hb x l y H Hl. destruct (Nat.le_gt_cases (length x) (length a)) as [L|L].
  - destruct (app_split x (l ++ y) a (10%N :: b) (eq_sym H) L) as (e & -> & He).
    destruct (Nat.le_gt_cases (length l) (length e)) as [L2|L2].
    + destruct (app_split l y e (10%N :: b) He L2) as (e2 & -> & _). apply (Ha x l e2); [reflexivity|assumption].
    + assert (L2' : (length e <= length l)%nat) by lia. destruct (app_split e (10%N :: b) l y (eq_sym He) L2') as (e2 & -> & He2).
      destruct e2 as [|c e2]; [rewrite app_nil_r in L2; lia|]. injection He2 as <- _. exfalso. apply Hl, in_or_app. right. now left.
  - assert (L' : (length a <= length x)%nat) by lia. destruct (app_split a (10%N :: b) x (l ++ y) H L') as (e & -> & He).
    destruct e as [|c e]; [rewrite app_nil_r in L; lia|]. injection He as <- He. apply (Hb e l y); assumption.
Qed.
Lemma fits_nil w : (0 <= w)%Z -> lines_fit w [].
Proof. intro H. now apply fits_short. Qed.
Lemma fits_join w ind reps : forall h, (zlen h <= ind)%Z -> (ind <= w)%Z -> (0 <= ind)%Z ->
  Forall (fun r => (ind + zlen r <= w)%Z) reps -> lines_fit w (h ++ between (newline ++ spaces ind) reps).
Proof.
  induction reps as [|r reps IH]; intros h Hh Hi H0 HF.
  - cbn. rewrite app_nil_r. apply fits_short. lia.
  - inversion HF as [|? ? Hr HF']; subst. destruct reps as [|r2 reps].
    + cbn. apply fits_short. unfold zlen in *. rewrite app_length. lia.
    + change (between (newline ++ spaces ind) (r :: r2 :: reps)) with (r ++ (newline ++ spaces ind) ++ between (newline ++ spaces ind) (r2 :: reps)).
      rewrite <- (app_assoc newline). rewrite app_assoc. unfold newline at 1. cbn [app]. apply fits_break.
      * apply fits_short. unfold zlen in *. rewrite app_length. lia.
      * apply IH; auto. unfold spaces, zlen. rewrite repeat_length. lia.
Qed.
Lemma fits_entries w es : (0 <= w)%Z -> Forall (fun e => exists t, e = t ++ newline /\ lines_fit w t) es -> lines_fit w (concat es).
Proof.
  intro Hw. induction 1 as [|e es (t & -> & Ht) _ IH]; cbn [concat]; [now apply fits_nil|].
  rewrite <- app_assoc. apply fits_break; assumption.
Qed.
Lemma repr_char_q E q c : (c <> q) -> c <> 39%N -> repr_char E q c = repr_char E 39 c.
Proof. intros H1 H2. unfold repr_char. destruct (N.eqb_spec c q); [contradiction|]. destruct (N.eqb_spec c 39); [contradiction|]. reflexivity. Qed.
Lemma zlen_repr_str E s : zlen (repr_str E s) = (2 + zlen (flat_map (repr_char E (pick_quote s)) s))%Z.
Proof. unfold repr_str, zlen. rewrite !app_length. cbn. lia. Qed.
Lemma unescaped_repr E s : unescaped E s -> zlen (repr_str E s) = (zlen s + 2)%Z.
Proof.
  intros [H1 H2]. rewrite zlen_repr_str.
  enough (A : forall c, In c s -> length (repr_char E (pick_quote s) c) = 1%nat).
  { assert (B : forall l, incl l s -> length (flat_map (repr_char E (pick_quote s)) l) = length l).
    { induction l as [|c l IH]; intro Hi; [reflexivity|]. cbn. rewrite app_length, A, IH; [reflexivity| |].
      - intros x Hx. apply Hi. now right.
      - apply Hi. now left. }
    unfold zlen. rewrite B by apply incl_refl. lia. }
  intros c Hc. pose proof (H1 c Hc) as H3. rewrite zlen_repr_str in H3. cbn [flat_map] in H3. rewrite app_nil_r in H3.
  assert (L : length (repr_char E (pick_quote [c]) c) = 1%nat) by (unfold zlen in H3; lia). clear H3.
  destruct (N.eq_dec c 39) as [->|Hn].
  - destruct (pick_quote_cases s) as [(-> & _)|(_ & [H|H])]; [reflexivity|contradiction|tauto].
  - assert (Hq : pick_quote [c] = 39%N). { destruct (pick_quote_cases [c]) as [(_ & [H|[]] & _)|[H _]]; congruence. }
    rewrite Hq in L. destruct (pick_quote_cases s) as [(-> & _ & H)|(-> & _)]; [|assumption].
    rewrite repr_char_q; [assumption| |assumption]. intros ->. contradiction.
Qed.
Lemma unescaped_part E s p : unescaped E s -> incl p s -> unescaped E p.
Proof. intros [H1 H2] Hi. split; [auto|]. intros [H3 H4]. apply H2. auto. Qed.
Lemma indent_nonneg dw l : (5 <= indent_of dw l)%Z.
Proof. unfold indent_of, zlen. destruct (Z.ltb_spec 0 dw); lia. Qed.
Lemma ljust_len n s : (length s <= n)%nat -> length (column n s) = n.
Proof. intro H. unfold column. rewrite app_length, repeat_length. lia. Qed.
Lemma head_len sp dw k desc l : (length k <= 3)%nat -> description sp dw k desc ->
  zlen (column 3 k ++ desc ++ u ": " ++ l) = indent_of dw l.
Proof.
  intros Hk Hd. unfold zlen, indent_of. rewrite !app_length, ljust_len by assumption. change (length (u ": ")) with 2%nat.
  destruct Hd as [H|fs desc H _ _].
  - rewrite (proj2 (Z.ltb_ge 0 dw) H). cbn [length]. unfold zlen. lia.
  - rewrite (proj2 (Z.ltb_lt 0 dw) H). rewrite app_length, ljust_len by (rewrite firstn_length; lia).
    change (length (u " ")) with 1%nat. unfold zlen. lia.
Qed.
Lemma entry_fits E sp dw lw d k e : entry_of E sp dw lw d k e -> (length k <= 3)%nat ->
  (forall v, In (KStr k, v) d -> room E dw lw v /\ forall l s, parts_of v l (OStr s) -> unescaped E s) ->
  exists t, e = t ++ newline /\ lines_fit lw t.
Proof.
  intros [v l o desc pre body Hv Hp Hd Hpre Hb] Hk HR. destruct (HR v Hv) as [Hroom Hun]. pose proof (Hroom l o pre Hp Hpre) as Hr.
  exists (column 3 k ++ desc ++ u ": " ++ pre ++ body). split; [now rewrite <- !app_assoc|].
  pose proof (head_len sp dw k desc pre Hk Hd) as HL. pose proof (indent_nonneg dw pre) as H5. set (ind := indent_of dw pre) in *.
  assert (Hi : (ind <= lw)%Z).
  { destruct o as [s|b|n r]; [specialize (Hr [] (or_introl eq_refl))..|]; unfold zlen in Hr; lia. }
  replace (column 3 k ++ desc ++ u ": " ++ pre ++ body) with ((column 3 k ++ desc ++ u ": " ++ pre) ++ body)
    by now rewrite <- !app_assoc.
  set (h := column 3 k ++ desc ++ u ": " ++ pre) in *.
  assert (One : forall r, (ind + zlen r <= lw)%Z -> lines_fit lw (h ++ r)).
  { intros r H. apply fits_short. unfold zlen in *. rewrite app_length. lia. }
  assert (Small : forall A (x : list A), (length x <= 1)%nat -> x = [] \/ exists c, x = [c] /\ In c x).
  { intros A [|c [|c2 x]] H; [now left|right; exists c; cbn; auto|cbn in H; lia]. }
  destruct Hb as [s [H|H]|b [H|H]|s parts H1 H2 (C1 & C2 & C3)|b parts H1 H2 (C1 & C2 & C3)|n r].
  - now apply One.
  - apply One, Hr, Small, H.
  - now apply One.
  - apply One, Hr, Small, H.
  - apply fits_join; [lia|assumption|lia|]. apply Forall_forall. intros r Hin. apply in_map_iff in Hin as (p & <- & Hin).
    rewrite Forall_forall in C2. destruct (C2 p Hin) as [N1 L1]. specialize (Hun _ s Hp).
    assert (Hip : incl p s). { intros c Hc. rewrite <- C1. apply in_concat. eauto. }
    rewrite (unescaped_repr E p) by (eapply unescaped_part; eauto).
    destruct p as [|c p]; [congruence|]. assert (Hc : In c s) by (apply Hip; now left).
    pose proof (Hr [c] (or_intror (ex_intro _ c (conj eq_refl Hc)))) as H3. rewrite (proj1 Hun c Hc) in H3.
    unfold per_line in L1. unfold zlen. lia.
  - apply fits_join; [lia|assumption|lia|]. apply Forall_forall. intros r Hin. apply in_map_iff in Hin as (p & <- & Hin).
    rewrite Forall_forall in C2. destruct (C2 p Hin) as [N1 [L1|L1]]; [|lia].
    destruct p as [|c [|? p]]; cbn in L1; try lia. apply Hr. right. exists c. split; [reflexivity|]. rewrite <- C1. apply in_concat.
    exists [c]. split; [assumption|now left].
  - now apply One.
Qed.
Lemma pp_lines_fit E sp dw lw d out : pp E d sp dw lw = (Ok tt, out) -> (0 <= lw)%Z ->
  (forall k v, In (KStr k, v) d -> (length k <= 3)%nat /\ room E dw lw v /\ forall l s, parts_of v l (OStr s) -> unescaped E s) ->
  lines_fit lw out.
Proof.
  intros H Hw HR. apply pp_output in H as (ks & es & _ & HF & ->). apply fits_entries; [assumption|].
  induction HF as [|k e ks es He _ IH]; constructor; [|assumption]. eapply entry_fits; [exact He| |].
  - destruct He as [v l o desc pre body Hv _ _ _ _]. now apply (HR k v).
  - intros v Hv. now apply (HR k v).
Qed.
