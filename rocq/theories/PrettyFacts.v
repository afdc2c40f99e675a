(** * PrettyFacts: the pretty printer of Tools.v meets Pretty.v. *)
From Coq Require Import ZifyBool ZifyNat ZifyN Permutation Sorting.
From Verif Require Import PyBase BaseFacts Types Numerals NumeralFacts Texts TextFacts Tools Pretty Decoder Encoder EncoderFacts.
Ltac Zify.zify_post_hook ::= Z.div_mod_to_equations.

(** ** Folding of str *)
Lemma concat_nil_nonempty {A} (l : list (list A)) : concat l = [] -> Forall (fun p => p <> []) l -> l = [].
Proof. destruct l as [|p l]; [auto|]. intros H H1. inversion H1; subst. cbn in H. apply app_eq_nil in H as [H _]. contradiction. Qed.
Lemma chunks_of_cut {A} w fuel (l : list A) : (1 <= w)%nat -> (length l <= fuel)%nat ->
  concat (chunks_of fuel w l) = l
  /\ Forall (fun p => p <> [] /\ (length p <= w)%nat) (chunks_of fuel w l)
  /\ (forall pre p q post, chunks_of fuel w l = pre ++ p :: q :: post -> length p = w).
Proof.
  intro Hw. revert l. induction fuel as [|fuel IH]; intros l Hl.
  { destruct l; [|cbn in Hl; lia]. cbn. repeat split; [constructor|]. intros [|? ?] ? ? ?; discriminate. }
  destruct l as [|x l].
  { cbn. repeat split; [constructor|]. intros [|? ?] ? ? ?; discriminate. }
  change (chunks_of (S fuel) w (x :: l)) with (firstn w (x :: l) :: chunks_of fuel w (skipn w (x :: l))).
  assert (Hs : (length (skipn w (x :: l)) <= fuel)%nat) by (rewrite skipn_length; cbn [length] in *; lia).
  destruct (IH _ Hs) as (C1 & C2 & C3). split; [cbn [concat]; now rewrite C1, firstn_skipn|]. split.
  - constructor; [|assumption]. split; [destruct w; [lia|discriminate]|]. rewrite firstn_length. lia.
  - intros [|p0 pre] p q post H.
    + injection H as <- H. rewrite firstn_length_le; [reflexivity|].
      assert (Hn : skipn w (x :: l) <> []). { intro Hn. rewrite Hn in H. destruct fuel; discriminate. }
      assert (length (skipn w (x :: l)) <> 0)%nat by (destruct (skipn w (x :: l)); [congruence|discriminate]).
      rewrite skipn_length in *. lia.
    + injection H as <- H. eapply C3. exact H.
Qed.
Lemma wrap_str_cut obj w : cut_str w obj (wrap_str obj w).
Proof.
  unfold wrap_str, cut_str. cbv zeta.
  assert (Hw : Z.to_nat (if (3 <? w)%Z then (w - 2)%Z else 1%Z) = per_line w).
  { unfold per_line. destruct (Z.ltb_spec 3 w); lia. }
  rewrite Hw. apply chunks_of_cut; [unfold per_line; lia|lia].
Qed.
Lemma app_split {A} (a b c d : list A) : a ++ b = c ++ d -> (length a <= length c)%nat -> exists e, c = a ++ e /\ b = e ++ d.
Proof.
  revert c. induction a as [|x a IH]; intros c H Hl; [now exists c|]. destruct c as [|y c]; [cbn in Hl; lia|].
  injection H as <- H. cbn in Hl. destruct (IH c H) as (e & -> & ->); [lia|]. now exists e.
Qed.
Lemma cut_str_unique w obj p1 p2 : cut_str w obj p1 -> cut_str w obj p2 -> p1 = p2.
Proof.
  revert obj p2. induction p1 as [|a p1 IH]; intros obj p2 (C1 & F1 & M1) (C2 & F2 & M2).
  - cbn in C1. symmetry. apply concat_nil_nonempty; [congruence|]. eapply Forall_impl; [|exact F2]. cbn. tauto.
  - destruct p2 as [|b p2].
    { cbn in C2. rewrite <- C2 in C1. inversion F1 as [|? ? [N1 _] ?]; subst. apply app_eq_nil in C1 as [C1 _]. contradiction. }
    inversion F1 as [|? ? [N1 L1] F1']; subst. inversion F2 as [|? ? [N2 L2] F2']; subst. cbn [concat] in C2.
    assert (Hab : a = b).
    { destruct (Nat.le_gt_cases (length a) (length b)) as [Hl|Hl].
      - destruct (app_split a (concat p1) b (concat p2) (eq_sym C2) Hl) as (e & -> & He). destruct e as [|x e]; [now rewrite app_nil_r|].
        destruct p1 as [|a' p1]; [discriminate|]. pose proof (M1 [] a a' p1 eq_refl). rewrite app_length in L2. cbn [length] in L2. lia.
      - assert (Hl' : (length b <= length a)%nat) by lia.
        destruct (app_split b (concat p2) a (concat p1) C2 Hl') as (e & -> & He). destruct e as [|x e]; [now rewrite app_nil_r|].
        destruct p2 as [|b' p2]; [discriminate|]. pose proof (M2 [] b b' p2 eq_refl). rewrite app_length in L1. cbn [length] in L1. lia. }
    subst b. f_equal. apply app_inv_head in C2. apply (IH (concat p1)); repeat split; auto.
    + intros pre p q post ->. apply (M1 (a :: pre) p q post). reflexivity.
    + intros pre p q post ->. apply (M2 (a :: pre) p q post). reflexivity.
Qed.

(** ** Folding of bytes *)
Lemma repr_byte_width q c : (1 <= length (repr_byte q c) <= 4)%nat.
Proof. unfold repr_byte. repeat match goal with |- context [if ?b then _ else _] => destruct b end; cbn; lia. Qed.
Lemma repr_byte_le s : ~ In 34%N s -> (length (flat_map (repr_byte 34) s) <= length (flat_map (repr_byte 39) s))%nat.
Proof.
  induction s as [|c s IH]; intro H; [auto|]. cbn [flat_map]. rewrite !app_length.
  assert (c <> 34%N) by (intros ->; apply H; now left). assert (length (repr_byte 34 c) <= length (repr_byte 39 c))%nat.
  { unfold repr_byte. destruct (N.eqb_spec c 34); [contradiction|]. destruct (N.eqb_spec c 39) as [->|_]; [apply Nat.leb_le; reflexivity|]. reflexivity. }
  assert (~ In 34%N s) by (intro; apply H; now right). specialize (IH H2). lia.
Qed.
Lemma repr_byte_plain s : ~ In 34%N s -> ~ In 39%N s -> flat_map (repr_byte 34) s = flat_map (repr_byte 39) s.
Proof.
  induction s as [|c s IH]; intros H1 H2; [auto|]. cbn [flat_map]. rewrite IH by (cbn in H1, H2; tauto). f_equal.
  unfold repr_byte. destruct (N.eqb_spec c 34) as [->|_]; [destruct H1; now left|].
  destruct (N.eqb_spec c 39) as [->|_]; [destruct H2; now left|]. reflexivity.
Qed.
Lemma existsb_eqb c s : existsb (N.eqb c) s = true <-> In c s.
Proof. rewrite existsb_exists. split; [intros (x & H & Hx); apply N.eqb_eq in Hx; now subst|intro H; exists c; now rewrite N.eqb_refl]. Qed.
Lemma existsb_eqb_false c s : existsb (N.eqb c) s = false <-> ~ In c s.
Proof. rewrite <- existsb_eqb. destruct (existsb (N.eqb c) s); split; congruence. Qed.
Lemma pick_quote_cases s : (pick_quote s = 34%N /\ In 39%N s /\ ~ In 34%N s) \/ (pick_quote s = 39%N /\ (~ In 39%N s \/ In 34%N s)).
Proof.
  unfold pick_quote. destruct (existsb (N.eqb 39) s) eqn:H1, (existsb (N.eqb 34) s) eqn:H2; cbn [andb negb].
  1, 2: apply (proj1 (existsb_eqb 39 s)) in H1. 3, 4: apply (proj1 (existsb_eqb_false 39 s)) in H1.
  1, 3: apply (proj1 (existsb_eqb 34 s)) in H2. 3, 4: apply (proj1 (existsb_eqb_false 34 s)) in H2. all: tauto.
Qed.
Lemma zlen_repr_bytes b : zlen (repr_bytes b) = (3 + zlen (flat_map (repr_byte (pick_quote (map b2n b))) (map b2n b)))%Z.
Proof. unfold repr_bytes, zlen. rewrite !app_length. cbn. lia. Qed.
Lemma repr_bytes_mono p x : (zlen (repr_bytes p) <= zlen (repr_bytes (p ++ x)))%Z.
Proof.
  rewrite !zlen_repr_bytes. set (s := map b2n p). rewrite map_app. set (t := map b2n x). fold s.
  rewrite flat_map_app. unfold zlen. rewrite app_length.
  enough (length (flat_map (repr_byte (pick_quote s)) s) <= length (flat_map (repr_byte (pick_quote (s ++ t))) s))%nat by lia.
  destruct (pick_quote_cases s) as [(-> & H1 & H2)|(-> & H1)], (pick_quote_cases (s ++ t)) as [(-> & H3 & H4)|(-> & H3)]; try lia.
  - now apply repr_byte_le.
  - rewrite in_app_iff in *. destruct H1 as [H1|H1]; [|tauto]. rewrite repr_byte_plain by tauto. lia.
Qed.
Lemma repr_bytes_single c : (zlen (repr_bytes [c]) <= 7)%Z.
Proof.
  rewrite zlen_repr_bytes. cbn [map flat_map]. rewrite app_nil_r. unfold zlen.
  pose proof (repr_byte_width (pick_quote [b2n c]) (b2n c)). lia.
Qed.
Lemma wrap_bytes_from_cut w obj : forall cur, (cur = [] \/ length cur = 1%nat \/ (zlen (repr_bytes cur) <= w)%Z) ->
  concat (wrap_bytes_from cur obj w) = cur ++ obj
  /\ Forall (fun p => p <> [] /\ (length p = 1%nat \/ (zlen (repr_bytes p) <= w)%Z)) (wrap_bytes_from cur obj w)
  /\ (forall pre p b q post, wrap_bytes_from cur obj w = pre ++ p :: (b :: q) :: post -> (w < zlen (repr_bytes (p ++ [b])))%Z)
  /\ (cur <> [] -> exists e post, wrap_bytes_from cur obj w = (cur ++ e) :: post).
Proof.
  induction obj as [|b obj IH]; intros cur Hc.
  - cbn [wrap_bytes_from]. rewrite app_nil_r. destruct cur as [|c cur].
    + cbn. repeat split; [constructor| |congruence]. intros [|? ?] ? ? ? ?; discriminate.
    + cbn [concat]. rewrite app_nil_r. repeat split.
      * constructor; [|constructor]. split; [discriminate|]. destruct Hc as [Hc|Hc]; [discriminate|exact Hc].
      * intros [|? [|? ?]] ? ? ? ? H; discriminate.
      * intros _. exists [], []. now rewrite app_nil_r.
  - cbn [wrap_bytes_from]. destruct (Z.ltb_spec w (zlen (repr_bytes (cur ++ [b])))) as [Hw|Hw].
    + destruct (IH [b]) as (C1 & C2 & C3 & C4); [right; now left|]. destruct (C4 ltac:(discriminate)) as (e & post0 & He).
      destruct cur as [|c cur].
      * cbn [app] in *. repeat split; auto. congruence.
      * repeat split.
        -- cbn [concat]. now rewrite C1.
        -- constructor; [|assumption]. split; [discriminate|]. destruct Hc as [Hc|Hc]; [discriminate|exact Hc].
        -- intros [|p0 pre] p b' q post H.
           ++ injection H as <- H. rewrite H in He. injection He as -> _ _. exact Hw.
           ++ injection H as <- H. eapply C3. exact H.
        -- intros _. exists [], (wrap_bytes_from [b] obj w). now rewrite app_nil_r.
    + destruct (IH (cur ++ [b])) as (C1 & C2 & C3 & C4); [auto|]. repeat split; auto.
      * rewrite C1, <- app_assoc. reflexivity.
      * intros _. destruct C4 as (e & post & He); [now destruct cur|]. exists ([b] ++ e), post. now rewrite app_assoc.
Qed.
Lemma wrap_bytes_cut obj w : cut_bytes w obj (wrap_bytes obj w).
Proof. unfold wrap_bytes, cut_bytes. destruct (wrap_bytes_from_cut w obj []) as (C1 & C2 & C3 & _); auto. Qed.
Lemma cut_bytes_unique w obj p1 p2 : cut_bytes w obj p1 -> cut_bytes w obj p2 -> p1 = p2.
Proof.
  (* If one first part is a proper prefix of the other, the longer one does not fit. *)
  assert (X : forall a (p1 : list bytes) x e (p2 : list bytes), a <> [] -> concat p1 = (x :: e) ++ concat p2 ->
    Forall (fun p : bytes => p <> [] /\ (length p = 1%nat \/ (zlen (repr_bytes p) <= w)%Z)) p1 ->
    (forall pre p b q post, a :: p1 = pre ++ p :: (b :: q) :: post -> (w < zlen (repr_bytes (p ++ [b])))%Z) ->
    (length (a ++ x :: e) = 1%nat \/ zlen (repr_bytes (a ++ x :: e)) <= w)%Z -> False).
  { intros a q1 x e q2 Ha He HF HM HL. destruct q1 as [|a' q1]; [discriminate|]. inversion HF as [|? ? [N _] _]; subst.
    destruct a' as [|y a']; [congruence|]. injection He as -> He. specialize (HM [] a x a' q1 eq_refl).
    destruct HL as [HL|HL]; [rewrite app_length in HL; destruct a; [congruence|cbn in HL; lia]|].
    pose proof (repr_bytes_mono (a ++ [x]) e). rewrite <- app_assoc in H. cbn [app] in H. lia. }
  revert obj p2. induction p1 as [|a p1 IH]; intros obj p2 (C1 & F1 & M1) (C2 & F2 & M2).
  - cbn in C1. symmetry. apply concat_nil_nonempty; [congruence|]. eapply Forall_impl; [|exact F2]. cbn. tauto.
  - destruct p2 as [|b p2].
    { cbn in C2. rewrite <- C2 in C1. inversion F1 as [|? ? [N1 _] ?]; subst. apply app_eq_nil in C1 as [C1 _]. contradiction. }
    inversion F1 as [|? ? [N1 L1] F1']; subst. inversion F2 as [|? ? [N2 L2] F2']; subst. cbn [concat] in C2.
    assert (Hab : a = b).
    { destruct (Nat.le_gt_cases (length a) (length b)) as [Hl|Hl].
      - destruct (app_split a (concat p1) b (concat p2) (eq_sym C2) Hl) as (e & -> & He). destruct e as [|x e]; [now rewrite app_nil_r|].
        exfalso. eapply (X a p1 x e p2); eauto.
      - assert (Hl' : (length b <= length a)%nat) by lia.
        destruct (app_split b (concat p2) a (concat p1) C2 Hl') as (e & -> & He). destruct e as [|x e]; [now rewrite app_nil_r|].
        exfalso. eapply (X b p2 x e p1); eauto. }
    subst b. f_equal. apply app_inv_head in C2. apply (IH (concat p1)); repeat split; auto.
    + intros pre p x q post ->. apply (M1 (a :: pre) p x q post). reflexivity.
    + intros pre p x q post ->. apply (M2 (a :: pre) p x q post). reflexivity.
Qed.

(** ** One entry *)
Lemma shown_parts v : parts_of v (shown_len v) (shown_obj v).
Proof. destruct v as [o|[l|] [d|]]; cbn; [constructor|apply (PartsDict (Some _) (Some _))|apply (PartsDict (Some _) None)|apply (PartsDict None (Some _))|apply (PartsDict None None)]. Qed.
Lemma parts_shown v l o : parts_of v l o -> l = shown_len v /\ o = shown_obj v.
Proof. intro H. destruct H as [o|[l|] [d|]]; split; reflexivity. Qed.
Lemma body_run E o ind lw out :
  exists body, body_of E ind lw o body /\
    match (if (lw <? zlen (repr E o) + ind)%Z then dispatch E o else None) with
    | Some p => p ind lw ;;; write [10%N]
    | None => write (repr E o ++ [10%N])
    end out
    = (Ok tt, out ++ body ++ newline).
Proof.
  destruct (Z.ltb_spec lw (zlen (repr E o) + ind)) as [Hw|Hw].
  - destruct o as [s|b|n r]; cbn [repr dispatch] in *.
    + unfold pprint_str. destruct (Nat.leb_spec (length s) 1) as [Hl|Hl].
      * exists (repr_str E s). split; [constructor; now right|]. unfold bind, write. now rewrite <- app_assoc.
      * eexists. split; [apply FoldStr with (parts := wrap_str s (lw - ind)); [lia|assumption|apply wrap_str_cut]|].
        unfold bind, write, fold_chunks. now rewrite <- app_assoc.
    + unfold pprint_bytes. destruct (Nat.leb_spec (length b) 1) as [Hl|Hl].
      * exists (repr_bytes b). split; [constructor; now right|]. unfold bind, write. now rewrite <- app_assoc.
      * eexists. split; [apply FoldBytes with (parts := wrap_bytes b (lw - ind)); [lia|assumption|apply wrap_bytes_cut]|].
        unfold bind, write, fold_chunks. now rewrite <- app_assoc.
    + exists r. split; [constructor|reflexivity].
  - exists (repr E o). split; [destruct o; constructor; left; cbn [repr] in Hw; lia|reflexivity].
Qed.
Lemma dget_In_pair (k : pykey) (v : ppval) d : vget k d = Some v -> In (k, v) d.
Proof. apply (dget_in key_eqb key_eqb_spec). Qed.
Section Run.
  Variables (E : pyenv) (sp : spec) (dw lw : Z) (d : ppdoc).
  Notation ent := (entry_of E sp dw lw d).
  Lemma pp_field_rest v k desc out ind : In (KStr k, v) d -> description sp dw k desc ->
    ind = (5 + (if 0 <? dw then dw + 1 else 0))%Z ->
    let m := (write (u ": ") ;;;
     (indent <- (match obj_len (shown_len v) with
                 | None => raise (XTypeError (u "object has no len()"))
                 | Some n => if (0 <? n)%nat then
                     write (repr E (shown_len v) ++ u " ") ;;; ret (ind + zlen (repr E (shown_len v)) + 1)%Z
                   else ret ind end) ;;
      (match (if (lw <? zlen (repr E (shown_obj v)) + indent)%Z then dispatch E (shown_obj v) else None) with
       | Some p => p indent lw ;;; write [10%N]
       | None => write (repr E (shown_obj v) ++ [10%N]) end))) out in
    (exists e, ent k (column 3 k ++ desc ++ e) /\ m = (Ok tt, out ++ e))
    \/ (exists x part, entry_stops sp dw d k x (column 3 k ++ desc ++ part) /\ m = (Raise x, out ++ part)).
  Proof.
    intros Hv Hd Hi m. subst m. pose proof (shown_parts v) as Hp. set (l := shown_len v) in *.
    unfold bind at 1, write at 1. change (obj_len l) with (elements l). destruct (elements l) as [n|] eqn:Hn.
    2: { right. eexists _, _. split; [eapply StopLength; eauto|reflexivity]. }
    left. assert (Hpre : exists pre, prefix_of E l pre /\ pre = if (0 <? n)%nat then repr E l ++ u " " else []).
    { destruct n as [|n]; eexists; (split; [econstructor; exact Hn|reflexivity]). }
    destruct Hpre as (pre & Hpre & Hq).
    destruct (body_run E (shown_obj v) (indent_of dw pre) lw ((out ++ u ": ") ++ pre)) as (body & Hb & R).
    exists (u ": " ++ pre ++ body ++ newline). split.
    { rewrite !app_assoc. rewrite <- !app_assoc. econstructor; eauto. }
    unfold indent_of in R. rewrite <- Hi in R. destruct (0 <? n)%nat; subst pre.
    - unfold bind at 1 2, write at 1, ret at 1.
      replace (ind + zlen (repr E l ++ u " "))%Z with (ind + zlen (repr E l) + 1)%Z in R
        by (unfold zlen; rewrite app_length; change (length (u " ")) with 1%nat; lia).
      etransitivity; [exact R|]. now rewrite <- !app_assoc.
    - unfold bind at 1, ret at 1. rewrite app_nil_r in R. cbn [app].
      replace (ind + zlen [])%Z with ind in R by (unfold zlen; cbn; lia). etransitivity; [exact R|]. now rewrite <- !app_assoc.
  Qed.
  Lemma pp_key_run k out : shows d k ->
    (exists e, ent k e /\ pp_key E d sp dw lw k out = (Ok tt, out ++ e))
    \/ (exists x part, entry_stops sp dw d k x part /\ pp_key E d sp dw lw k out = (Raise x, out ++ part)).
  Proof.
    intro Hk. unfold pp_key. destruct (vget (KStr k) d) as [v|] eqn:Hv.
    2: { exfalso. apply (dget_none key_eqb key_eqb_spec) in Hv. contradiction. }
    apply dget_In_pair in Hv. unfold pp_field. unfold bind at 1, write at 1. destruct (Z.ltb_spec 0 dw) as [Hw|Hw].
    - unfold spec_get. destruct (sget k sp) as [fs|] eqn:Hs.
      + destruct (fs_desc fs) as [desc|] eqn:Hd.
        * assert (Hi : (5 + dw + 1 = 5 + (if 0 <? dw then dw + 1 else 0))%Z) by (destruct (Z.ltb_spec 0 dw); lia).
          destruct (pp_field_rest v k _ ((out ++ column 3 k) ++ u " " ++ column (Z.to_nat dw) (firstn (Z.to_nat dw) desc)) (5 + dw + 1) Hv
            (Description _ _ _ fs desc Hw Hs Hd) Hi) as [(e & He & R)|(x & part & He & R)].
          -- left. eexists. split; [exact He|]. unfold bind at 1. unfold bind at 1, ret at 1. unfold prop. rewrite Hd.
             etransitivity; [exact R|]. now rewrite <- !app_assoc.
          -- right. exists x. eexists. split; [exact He|]. unfold bind at 1, write at 1. unfold bind at 1. unfold bind at 1, ret at 1. unfold prop. rewrite Hd.
             etransitivity; [exact R|]. now rewrite <- !app_assoc.
        * right. eexists _, _. split; [|unfold bind at 1, write at 1; unfold bind at 1; unfold bind at 1; unfold bind at 1, ret at 1, prop; rewrite Hd; reflexivity].
          constructor; [assumption|]. right. eauto.
      + right. eexists _, _. split; [|unfold bind, raise; reflexivity]. constructor; [assumption|]. now left.
    - assert (Hi : (5 = 5 + (if 0 <? dw then dw + 1 else 0))%Z) by (destruct (Z.ltb_spec 0 dw); lia).
      destruct (pp_field_rest v k [] (out ++ column 3 k) 5 Hv (NoDescription _ _ _ Hw) Hi) as [(e & He & R)|(x & part & He & R)].
      + left. eexists. split; [exact He|]. unfold bind at 1, ret at 1. etransitivity; [exact R|]. now rewrite <- !app_assoc.
      + right. eexists _, _. split; [exact He|]. unfold bind at 1, ret at 1. etransitivity; [exact R|]. now rewrite <- !app_assoc.
  Qed.
  (** [m] prints the entries of [ks], or stops at one it cannot print. *)
  Definition prints (ks : list pystr) (m : WM unit) : Prop := forall out,
    (exists es, Forall2 ent ks es /\ m out = (Ok tt, out ++ concat es))
    \/ (exists done k rest es x part, ks = done ++ k :: rest /\ Forall2 ent done es /\ entry_stops sp dw d k x part
        /\ m out = (Raise x, out ++ concat es ++ part)).
  Lemma prints_ext ks m m' : (forall out, m out = m' out) -> prints ks m' -> prints ks m.
  Proof. intros H P out. rewrite H. apply P. Qed.
  Lemma prints_nil : prints [] (ret tt).
  Proof. intro out. left. exists []. split; [constructor|]. cbn. now rewrite app_nil_r. Qed.
  Lemma prints_app ks1 ks2 m1 m2 : prints ks1 m1 -> prints ks2 m2 -> prints (ks1 ++ ks2) (m1 ;;; m2).
  Proof.
    intros H1 H2 out. unfold bind. destruct (H1 out) as [(es & F & ->)|(done & k & rest & es & x & part & -> & F & N & ->)].
    - destruct (H2 (out ++ concat es)) as [(es2 & F2 & ->)|(done & k & rest & es2 & x & part & -> & F2 & N & ->)].
      + left. exists (es ++ es2). split; [now apply Forall2_app|]. now rewrite concat_app, app_assoc.
      + right. exists (ks1 ++ done), k, rest, (es ++ es2), x, part. split; [now rewrite app_assoc|]. split; [now apply Forall2_app|].
        split; [assumption|]. now rewrite concat_app, !app_assoc.
    - right. exists done, k, (rest ++ ks2), es, x, part. split; [now rewrite <- app_assoc|auto].
  Qed.
  Lemma prints_key k : shows d k -> prints [k] (pp_key E d sp dw lw k).
  Proof.
    intros Hk out. destruct (pp_key_run k out Hk) as [(e & He & H)|(x & part & N & H)].
    - left. exists [e]. split; [now repeat constructor|]. cbn. now rewrite app_nil_r.
    - right. exists [], k, [], [], x, part. auto.
  Qed.
  Lemma prints_keys ks : Forall (shows d) ks -> prints ks (pp_keys E d sp dw lw ks).
  Proof.
    induction 1 as [|k ks Hk _ IH]; [apply prints_nil|]. cbn [pp_keys]. apply (prints_app [k] ks); [now apply prints_key|assumption].
  Qed.
End Run.

(** ** sorted(keys, key=int) *)
Definition before {A} (l : list A) (a b : A) : Prop := exists l1 l2 l3, l = l1 ++ a :: l2 ++ b :: l3.
Lemma before_cons {A} x (l : list A) a b : before l a b -> before (x :: l) a b.
Proof. intros (l1 & l2 & l3 & ->). now exists (x :: l1), l2, l3. Qed.
Lemma before_first {A} x (l : list A) b : In b l -> before (x :: l) x b.
Proof. intro H. apply in_split in H as (l1 & l2 & ->). now exists [], l1, l2. Qed.
Lemma fop_insert {A} (R : A -> A -> Prop) a x b : ForallOrdPairs R (a ++ b) -> Forall (fun y => R y x) a -> Forall (R x) b ->
  ForallOrdPairs R (a ++ x :: b).
Proof.
  induction a as [|y a IH]; cbn; intros H1 H2 H3; [now constructor|]. inversion H1 as [|? ? Hy Ht]; subst.
  inversion H2; subst. constructor; [|auto]. rewrite Forall_app in Hy |- *. destruct Hy. split; [assumption|now constructor].
Qed.
Lemma fop_impl {A} (R S : A -> A -> Prop) l : (forall a b, R a b -> S a b) -> ForallOrdPairs R l -> ForallOrdPairs S l.
Proof. intro H. induction 1; constructor; auto. eapply Forall_impl; [|eassumption]. auto. Qed.
Lemma fop_split {A} (R : A -> A -> Prop) pre a mid b post : ForallOrdPairs R (pre ++ a :: mid ++ b :: post) -> R a b.
Proof.
  induction pre as [|x pre IH]; cbn; intro H; inversion H as [|? ? Ha Ht]; subst; [|auto].
  rewrite Forall_app in Ha. destruct Ha as [_ Ha]. now inversion Ha.
Qed.
Lemma insert_by_split x l : exists a b, l = a ++ b /\ insert_by x l = a ++ x :: b /\ Forall (fun y => (fst y < fst x)%Z) a
  /\ (b = [] \/ exists y b', b = y :: b' /\ (fst x <= fst y)%Z).
Proof.
  induction l as [|y l (a & b & -> & Hi & Ha & Hb)]; [exists [], []; auto|]. cbn [insert_by].
  destruct (Z.leb_spec (fst x) (fst y)) as [H|H].
  - exists [], (y :: a ++ b). repeat split; [constructor|]. right. eauto.
  - exists (y :: a), b. rewrite Hi. repeat split; auto.
Qed.
Definition int_order (l : list (Z * pystr)) (a b : Z * pystr) : Prop := (fst a < fst b)%Z \/ (fst a = fst b /\ before l a b).
Lemma sort_facts l : Permutation l (fold_right insert_by [] l) /\ ForallOrdPairs (int_order l) (fold_right insert_by [] l).
Proof.
  induction l as [|x l [IP IO]]; cbn [fold_right]; [split; constructor|].
  destruct (insert_by_split x (fold_right insert_by [] l)) as (a & b & Hs & -> & Ha & Hb). rewrite Hs in IP, IO. split.
  - rewrite IP. apply Permutation_middle.
  - apply fop_insert.
    + eapply fop_impl; [|exact IO]. intros y z [H|[H1 H2]]; [now left|right; split; [assumption|now apply before_cons]].
    + eapply Forall_impl; [|exact Ha]. intros y Hy. now left.
    + destruct Hb as [->|(y & b' & -> & Hy)]; [constructor|].
      assert (Hle : Forall (fun z => (fst x <= fst z)%Z) (y :: b')).
      { assert (Hy' : ForallOrdPairs (int_order l) (y :: b')).
        { clear - IO. induction a as [|z a IH]; [assumption|]. cbn in IO. inversion IO; auto. }
        inversion Hy' as [|? ? Hf _]; subst. constructor; [assumption|]. eapply Forall_impl; [|exact Hf].
        intros z [H|[H _]]; lia. }
      apply Forall_forall. intros z Hz. rewrite Forall_forall in Hle. specialize (Hle z Hz).
      destruct (Z.eq_dec (fst x) (fst z)) as [He|He]; [|left; lia]. right. split; [assumption|]. apply before_first.
      apply (Permutation_in _ (Permutation_sym IP)). apply in_or_app. now right.
Qed.
Lemma key_ints_some E ks l : key_ints E ks = Some l -> map snd l = ks /\ Forall (fun x => int_text E (snd x) (fst x)) l.
Proof.
  revert l. induction ks as [|k ks IH]; cbn; intros l H; [injection H as <-; now split|].
  destruct (py_int E k) as [n|] eqn:Hn; [|discriminate]. destruct (key_ints E ks) as [l'|]; [|discriminate]. injection H as <-.
  destruct (IH l' eq_refl) as [<- HF]. split; [reflexivity|constructor; [now apply py_int_text|assumption]].
Qed.
Lemma key_ints_none E ks : key_ints E ks = None -> exists k, In k ks /\ not_int E k.
Proof.
  induction ks as [|k ks IH]; cbn; [discriminate|]. destruct (py_int E k) as [n|] eqn:Hn; [|apply py_int_no_text in Hn; eauto].
  destruct (key_ints E ks) as [l'|]; [discriminate|]. intros _. destruct IH as (j & Hj & H); eauto.
Qed.
Lemma numeric_in {V} E (d : list (pykey * V)) k : In k (numeric_str_keys E d) <-> In (KStr k) (map fst d) /\ isnumeric E k = true.
Proof.
  unfold numeric_str_keys. rewrite in_flat_map. split.
  - intros ([[j|i r] v] & H1 & H2); cbn in H2; [|destruct H2]. destruct (isnumeric E j) eqn:Hn; [|destruct H2].
    destruct H2 as [<-|[]]. split; [|assumption]. apply in_map_iff. now exists (KStr j, v).
  - intros [H1 H2]. apply in_map_iff in H1 as ([j v] & H & Hj). cbn in H. subst j. exists (KStr k, v). split; [assumption|].
    cbn. rewrite H2. now left.
Qed.
Lemma numeric_nodup {V} E (d : list (pykey * V)) : NoDup (map fst d) -> NoDup (numeric_str_keys E d).
Proof.
  induction d as [|[[k|i r] v] d IH]; cbn; intro H; [constructor| |]; inversion H; subst; [|auto].
  destruct (isnumeric E k); [|auto]. cbn. constructor; [|auto]. intro Hk. apply numeric_in in Hk as [Hk _]. contradiction.
Qed.
Lemma numeric_split {V} E (d : list (pykey * V)) l1 k l2 : numeric_str_keys E d = l1 ++ k :: l2 ->
  exists d1 v d2, d = d1 ++ (KStr k, v) :: d2 /\ numeric_str_keys E d2 = l2.
Proof.
  revert l1. induction d as [|[[j|i r] v] d IH]; intros l1 H; cbn in H.
  - destruct l1; discriminate.
  - destruct (isnumeric E j).
    + cbn in H. destruct l1 as [|y l1]; injection H as -> H.
      * now exists [], v, d.
      * destruct (IH l1 H) as (d1 & w & d2 & -> & Hd). exists ((KStr y, v) :: d1), w, d2. now split.
    + destruct (IH l1 H) as (d1 & w & d2 & -> & Hd). exists ((KStr j, v) :: d1), w, d2. now split.
  - destruct (IH l1 H) as (d1 & w & d2 & -> & Hd). exists ((KOther i r, v) :: d1), w, d2. now split.
Qed.
Lemma sorted_numbered E (d : ppdoc) ks : sorted_by_int E (numeric_str_keys E d) = Some ks -> numbered E d ks.
Proof.
  unfold sorted_by_int. destruct (key_ints E (numeric_str_keys E d)) as [l|] eqn:Hl; [|discriminate]. intros [= <-].
  apply key_ints_some in Hl as [Hs HF]. destruct (sort_facts l) as [HP HO]. set (S := fold_right insert_by [] l) in *.
  assert (HP' : Permutation (numeric_str_keys E d) (map snd S)). { rewrite <- Hs. now apply Permutation_map. }
  assert (HS : Forall (fun x => int_text E (snd x) (fst x)) S) by (eapply Permutation_Forall; eauto).
  split; [|split; [|split]].
  - intro k. unfold shows. rewrite <- numeric_in. split; intro H; [now apply (Permutation_in _ (Permutation_sym HP'))|now apply (Permutation_in _ HP')].
  - intro H. apply (Permutation_NoDup HP'). now apply numeric_nodup.
  - intros k H. apply in_map_iff in H as ([n j] & <- & H). rewrite Forall_forall in HS. apply HS in H. eauto.
  - intros pre j mid k post m n H Hm Hn.
    apply map_eq_app in H as (S1 & S2 & HS2 & _ & H). apply map_eq_cons in H as (x & S3 & -> & Hx & H).
    apply map_eq_app in H as (S4 & S5 & -> & _ & H). apply map_eq_cons in H as (y & S6 & -> & Hy & _).
    rewrite HS2 in HO. apply fop_split in HO. rewrite HS2 in HS. apply Forall_app in HS as [_ HS]. inversion HS as [|? ? Px HS']; subst.
    apply Forall_app in HS' as [_ HS']. inversion HS' as [|? ? Py _]; subst. destruct x as [m' j], y as [n' k]. cbn [fst snd] in *.
    assert (m' = m) as -> by (eapply int_text_unique; eassumption). assert (n' = n) as -> by (eapply int_text_unique; eassumption). destruct HO as [HO|[HO (l1 & l2 & l3 & Hb)]]; [now left|].
    cbn [fst] in HO. right. split; [assumption|]. rewrite Hb in Hs. rewrite !map_app in Hs. cbn in Hs. rewrite map_app in Hs. cbn in Hs.
    symmetry in Hs. apply numeric_split in Hs as (d1 & v & d2 & -> & Hs). apply numeric_split in Hs as (d3 & w & d4 & -> & _).
    now exists d1, v, d3, w, d4.
Qed.

(** ** pp *)
Lemma vget_shows k (d : ppdoc) : shows d k \/ ~ shows d k.
Proof. unfold shows. destruct (vget (KStr k) d) eqn:H.
  - left. apply (dget_some_in key_eqb key_eqb_spec). eauto.
  - right. now apply (dget_none key_eqb key_eqb_spec).
Qed.
Lemma prints_if E sp dw lw (d : ppdoc) k : exists t, if_shown d k t /\
  prints E sp dw lw d t (match vget (KStr k) d with Some _ => pp_key E d sp dw lw k | None => ret tt end).
Proof.
  destruct (vget (KStr k) d) eqn:H.
  - assert (Hs : shows d k). { unfold shows. apply (dget_some_in key_eqb key_eqb_spec). eauto. }
    exists [k]. split; [now constructor|now apply prints_key].
  - exists []. split; [constructor; now apply (dget_none key_eqb key_eqb_spec)|apply prints_nil].
Qed.
Lemma pp_run E sp dw lw (d : ppdoc) :
  (exists ks es, shown_keys E sp d ks /\ Forall2 (entry_of E sp dw lw d) ks es /\ pp E d sp dw lw = (Ok tt, concat es))
  \/ (exists x out, pp_stops E sp dw lw d x out /\ pp E d sp dw lw = (Raise x, out)).
Proof.
  unfold pp, pp_body.
  set (mh := match vget (KStr (u "h")) d with Some _ => _ | None => _ end).
  destruct (prints_if E sp dw lw d (u "t")) as (t & Ht & Pt). destruct (prints_if E sp dw lw d (u "p")) as (p & Hp & Pp).
  set (mt := match vget (KStr (u "t")) d with Some _ => _ | None => _ end) in *.
  set (mp := match vget (KStr (u "p")) d with Some _ => _ | None => _ end) in *.
  assert (Hh : (exists h, header_shown sp d h /\ prints E sp dw lw d h mh)
               \/ (shows d (u "h") /\ exists nm, lacks sp (u "h") fs_max_len (u "max_len") nm
                   /\ forall out, mh out = (Raise (XKeyError nm), out))).
  { unfold mh. destruct (vget (KStr (u "h")) d) eqn:H.
    - assert (Hs : shows d (u "h")). { unfold shows. apply (dget_some_in key_eqb key_eqb_spec). eauto. }
      unfold spec_get. destruct (sget (u "h") sp) as [fs|] eqn:H1.
      + destruct (fs_max_len fs) as [ml|] eqn:H2.
        * left. destruct (Z.ltb_spec 0 ml) as [Hm|Hm].
          -- exists [u "h"]. split; [econstructor; eauto|]. apply prints_ext with (m' := pp_key E d sp dw lw (u "h")); [|now apply prints_key].
             intro out. unfold bind, ret, prop. rewrite H2. unfold ret. now rewrite (proj2 (Z.ltb_lt _ _) Hm).
          -- exists []. split; [eapply HeaderOff; eauto|]. apply prints_ext with (m' := ret tt); [|apply prints_nil].
             intro out. unfold bind, ret, prop. rewrite H2. unfold ret. now rewrite (proj2 (Z.ltb_ge _ _) Hm).
        * right. split; [assumption|]. exists (u "max_len"). split; [right; eauto|]. intro out.
          unfold bind, ret, prop. now rewrite H2.
      + right. split; [assumption|]. exists (u "h"). split; [now left|reflexivity].
    - left. exists []. split; [constructor; now apply (dget_none key_eqb key_eqb_spec)|apply prints_nil]. }
  destruct Hh as [(h & Hh & Ph)|(Hs & nm & Hn & Hr)].
  2: { right. exists (XKeyError nm), []. split; [now constructor|]. unfold bind at 1. now rewrite Hr. }
  destruct (sorted_by_int E (numeric_str_keys E d)) as [ks|] eqn:Hk.
  - pose proof (sorted_numbered _ _ _ Hk) as Hnum.
    assert (Pk : prints E sp dw lw d ks (pp_keys E d sp dw lw ks)).
    { apply prints_keys. apply Forall_forall. intros k H. apply (proj1 Hnum) in H. apply H. }
    destruct (prints_app _ _ _ _ _ _ _ _ _ Ph (prints_app _ _ _ _ _ _ _ _ _ Pt (prints_app _ _ _ _ _ _ _ _ _ Pp Pk)) [])
      as [(es & F & R)|(done & k & rest & es & x & part & Hd & F & N & R)].
    + left. exists (h ++ t ++ p ++ ks), es. split; [now constructor|auto].
    + right. exists x, (concat es ++ part). split; [|exact R]. eapply StopEntry; eauto.
  - unfold sorted_by_int in Hk. destruct (key_ints E (numeric_str_keys E d)) eqn:Hi; [discriminate|].
    apply key_ints_none in Hi as (k & Hi & Hpi). apply numeric_in in Hi as [Hi Hni].
    destruct (prints_app _ _ _ _ _ _ _ _ _ Ph (prints_app _ _ _ _ _ _ _ _ _ Pt Pp) [])
      as [(es & F & R)|(done & j & rest & es & x & part & Hd & F & N & R)].
    + right. exists XValueError, (concat es). split; [econstructor; eauto|]. cbn [app] in R. revert R. unfold bind, raise.
      destruct (mh []) as [[[]|] o1]; [|discriminate]. destruct (mt o1) as [[[]|] o2]; [|discriminate].
      intros ->. reflexivity.
    + right. exists x, (concat es ++ part).
      split; [eapply StopEntry with (ks := []); [exact Hh|exact Ht|exact Hp|now left|rewrite !app_nil_r; exact Hd|exact F|exact N]|]. cbn [app] in R. revert R. unfold bind, raise.
      destruct (mh []) as [[[]|] o1]; [|auto]. destruct (mt o1) as [[[]|] o2]; [|auto]. now intros ->.
Qed.
