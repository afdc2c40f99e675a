(** * LiteralFacts: repr() writes literals, and literals mean one value. *)
From Coq Require Import ZifyBool ZifyNat ZifyN.
From Verif Require Import PyBase BaseFacts Types Numerals NumeralFacts Texts TextFacts Tools Pretty Claims9.
From Verif Require Import PrettyFacts2 PrettyExact PrettyUnique.
Ltac Zify.zify_post_hook ::= Z.div_mod_to_equations.
Local Open Scope list_scope.

(** ** repr() writes a literal *)
Lemma quote_cases q : quote q <-> q = 39%N \/ q = 34%N.
Proof. unfold quote. change (u "'""") with [39; 34]%N. cbn [In]. intuition congruence. Qed.
Lemma pick_quote_quote s : quote (pick_quote s).
Proof. apply quote_cases, pick_quote_or. Qed.
Lemma lower_hex_digit v : (v < 16)%N -> hex_digit (hexdig_lower v) v.
Proof. intro H. right. now apply lower_digit. Qed.
Lemma hex2_number c : (c < 256)%N -> hex_number 2 (hex2 c) c.
Proof.
  intro H. exists [c / 16 mod 16; c mod 16]%N. split; [repeat (apply Forall2_cons; [apply lower_hex_digit; lia|]); apply Forall2_nil|]. split; [reflexivity|].
  unfold hex_value. cbn [fold_left]. lia.
Qed.
Lemma Forall2_len {A B} (P : A -> B -> Prop) l m : Forall2 P l m -> length l = length m.
Proof. induction 1; cbn; congruence. Qed.
Lemma hex_number_app n m t t' c c' : hex_number n t c -> hex_number m t' c' -> hex_number (n + m) (t ++ t') (c * 16 ^ N.of_nat m + c')%N.
Proof.
  intros (ds & F & L & ->) (es & G & M & ->). exists (ds ++ es). split; [now apply Forall2_app|]. split; [rewrite app_length; lia|].
  unfold hex_value. rewrite fold_left_app. apply Forall2_len in G. rewrite <- M, G. clear.
  generalize (fold_left (fun acc d => 16 * acc + d)%N ds 0%N). induction es as [|d es IH] using rev_ind; intro a; [cbn; lia|].
  rewrite !fold_left_app. cbn [fold_left]. rewrite app_length. cbn [length]. rewrite Nat.add_1_r, Nat2N.inj_succ, N.pow_succ_r'. specialize (IH a). nia.
Qed.
Lemma hex4_number c : (c < 65536)%N -> hex_number 4 (hex4 c) c.
Proof.
  intro H. replace c with ((c / 256) * 16 ^ N.of_nat 2 + c mod 256)%N at 2 by (change (16 ^ N.of_nat 2)%N with 256%N; lia).
  apply (hex_number_app 2 2); apply hex2_number; lia.
Qed.
Lemma hex8_number c : (c < 4294967296)%N -> hex_number 8 (hex8 c) c.
Proof.
  intro H. replace c with ((c / 65536) * 16 ^ N.of_nat 4 + c mod 65536)%N at 2 by (change (16 ^ N.of_nat 4)%N with 65536%N; lia).
  apply (hex_number_app 4 4); apply hex4_number; lia.
Qed.
Lemma str_char q c x t v : quote q -> (c < 1114112)%N -> shown_as q c x -> str_content q t v -> str_content q (x ++ t) (c :: v).
Proof.
  intros Q C [H1 H2 H3|H|H|H|H|H|H|H] T; cbn [app]; apply quote_cases in Q.
  - apply StrPlain; [assumption| |assumption]. cbn. lia.
  - apply (StrEscape q [c]); [|assumption]. left. assert (A : c = 39%N \/ c = 34%N \/ c = 92%N) by lia. destruct A as [->|[->| ->]]; constructor.
  - subst c. apply (StrEscape q (u "t")); [left; constructor|assumption].
  - subst c. apply (StrEscape q (u "n")); [left; constructor|assumption].
  - subst c. apply (StrEscape q (u "r")); [left; constructor|assumption].
  - apply (StrEscape q (u "x" ++ hex2 c)); [left; constructor; now apply hex2_number|assumption].
  - apply (StrEscape q (u "u" ++ hex4 c)); [right; constructor; now apply hex4_number|assumption].
  - apply (StrEscape q (u "U" ++ hex8 c)); [right; constructor; [now apply hex8_number|assumption]|assumption].
Qed.
Lemma byte_char q b t v : quote q -> bytes_content q t v -> bytes_content q (repr_byte q (b2n b) ++ t) (b :: v).
Proof.
  intros Q T. apply quote_cases in Q. pose proof (b2n_lt b) as L. unfold repr_byte, esc.
  destruct ((b2n b =? q) || (b2n b =? 92))%N eqn:E1.
  { apply (BytesEscape q [b2n b]); [|assumption]. assert (A : b2n b = 39%N \/ b2n b = 34%N \/ b2n b = 92%N) by lia. destruct A as [->|[->| ->]]; constructor. }
  destruct (N.eqb_spec (b2n b) 9) as [E|]; [apply (BytesEscape q (u "t")); [rewrite E; constructor|assumption]|].
  destruct (N.eqb_spec (b2n b) 10) as [E|]; [apply (BytesEscape q (u "n")); [rewrite E; constructor|assumption]|].
  destruct (N.eqb_spec (b2n b) 13) as [E|]; [apply (BytesEscape q (u "r")); [rewrite E; constructor|assumption]|].
  destruct ((b2n b <? 32) || (127 <=? b2n b))%N eqn:E2.
  { apply (BytesEscape q (u "x" ++ hex2 (b2n b))); [constructor; now apply hex2_number|assumption]. }
  apply BytesPlain; [lia| |lia|assumption]. cbn. lia.
Qed.
Lemma repr_str_literal E s : valid_text s -> str_literal (repr_str E s) s.
Proof.
  intro V. exists (pick_quote s), (flat_map (repr_char E (pick_quote s)) s). split; [apply pick_quote_quote|]. split; [reflexivity|].
  pose proof (pick_quote_quote s) as Q. revert Q V. generalize (pick_quote s). intros q Q V. induction V as [|c s C _ IH]; cbn [flat_map]; [constructor|].
  apply str_char; [assumption|assumption|now apply repr_char_as|assumption].
Qed.
Lemma repr_bytes_literal b : bytes_literal (repr_bytes b) b.
Proof.
  exists (pick_quote (map b2n b)), (flat_map (repr_byte (pick_quote (map b2n b))) (map b2n b)). split; [apply pick_quote_quote|]. split; [reflexivity|].
  pose proof (pick_quote_quote (map b2n b)) as Q. revert Q. generalize (pick_quote (map b2n b)). intros q Q. induction b as [|c b IH]; cbn [map flat_map]; [constructor|].
  now apply byte_char.
Qed.

(** ** A literal means one value *)
Lemma hex_number_unique n t t' c c' x y : hex_number n t c -> hex_number n t' c' -> t ++ x = t' ++ y -> t = t' /\ c = c' /\ x = y.
Proof.
  intros (ds & F & L & ->) (es & G & M & ->) H. assert (A : t = t' /\ x = y).
  { clear F G. revert t' n L M H. induction t as [|a t IH]; intros [|a' t'] n L M H; cbn [length] in *; try lia; [auto|]. injection H as -> H.
    destruct (IH t' (length t) eq_refl ltac:(lia) H) as [-> ->]. auto. }
  destruct A as [<- <-]. split; [reflexivity|]. split; [|reflexivity]. f_equal. clear -F G. revert es G.
  induction F as [|a d t ds Ha _ IH]; intros es G; inversion G as [|? e ? es' He G']; subst; [reflexivity|].
  apply hexval_digit in Ha, He. f_equal; [congruence|]. now apply IH.
Qed.
Lemma escape_unique e e' c c' x y : escape e c \/ long_escape e c -> escape e' c' \/ long_escape e' c' -> e ++ x = e' ++ y -> e = e' /\ c = c' /\ x = y.
Proof.
  intros X Y; destruct X as [[]|[]], Y as [[]|[]]; intro EQ; assert (HH := f_equal (hd 0%N) EQ); vm_compute in HH; try discriminate HH; clear HH;
    apply (f_equal (@tl N)) in EQ; cbn in EQ; try (split; [reflexivity|]; split; [reflexivity|exact EQ]);
    (eapply hex_number_unique in EQ; [|eassumption|eassumption]; destruct EQ as (-> & -> & ->); auto).
Qed.
Lemma str_content_unique q t t' v v' x y : quote q -> str_content q t v -> str_content q t' v' -> t ++ q :: x = t' ++ q :: y -> t = t' /\ v = v' /\ x = y.
Proof.
  intros Q T. apply quote_cases in Q. revert t' v'. induction T as [|c t v H1 H2 _ IH|e c t v He _ IH]; intros t' v' T' H.
  - inversion T'; subst; cbn [app] in H; [injection H as ->; auto|injection H as H H'; congruence|injection H as H H'; lia].
  - inversion T' as [|c' t1 v1 H1' H2' T1|e' c' t1 v1 He' T1]; subst; cbn [app] in H; injection H as H H'; [congruence| |].
    + subst c'. destruct (IH _ _ T1 H') as (Et & Ev & Ex). subst. auto.
    + exfalso. apply H2. subst c. now left.
  - inversion T' as [|c' t1 v1 H1' H2' T1|e' c' t1 v1 He' T1]; subst; cbn [app] in H; [injection H as H H'; lia|injection H as H H'|injection H as H].
    + exfalso. apply H2'. subst c'. now left.
    + rewrite <- !app_assoc in H. destruct (escape_unique _ _ _ _ _ _ He He' H) as (Ee & Ec & H'). subst. destruct (IH _ _ T1 H') as (Et & Ev & Ex). subst. auto.
Qed.
Lemma bytes_content_unique q t t' v v' x y : quote q -> bytes_content q t v -> bytes_content q t' v' -> t ++ q :: x = t' ++ q :: y -> t = t' /\ v = v' /\ x = y.
Proof.
  intros Q T. apply quote_cases in Q. revert t' v'. induction T as [|c t v H1 H2 H3 _ IH|e c t v He _ IH]; intros t' v' T' H.
  - inversion T'; subst; cbn [app] in H; [injection H as ->; auto|injection H as H H'; congruence|injection H as H H'; lia].
  - inversion T' as [|c' t1 v1 H1' H2' H3' T1|e' c' t1 v1 He' T1]; subst; cbn [app] in H; injection H as H H'; [congruence| |].
    + apply b2n_inj in H. subst c'. destruct (IH _ _ T1 H') as (Et & Ev & Ex). subst. auto.
    + exfalso. apply H2. rewrite H. now left.
  - inversion T' as [|c' t1 v1 H1' H2' H3' T1|e' c' t1 v1 He' T1]; subst; cbn [app] in H; [injection H as H H'; lia|injection H as H H'|injection H as H].
    + exfalso. apply H2'. rewrite <- H. now left.
    + rewrite <- !app_assoc in H. destruct (escape_unique _ _ _ _ _ _ (or_introl He) (or_introl He') H) as (Ee & Hc & H'). subst. apply b2n_inj in Hc. subst.
      destruct (IH _ _ T1 H') as (Et & Ev & Ex). subst. auto.
Qed.
Lemma str_literal_unique t t' v v' x y : str_literal t v -> str_literal t' v' -> t ++ x = t' ++ y -> t = t' /\ v = v' /\ x = y.
Proof.
  intros (q & b & Q & -> & C) (q' & b' & Q' & -> & C') H. cbn [app] in H. injection H as <- H. rewrite <- !app_assoc in H. cbn [app] in H.
  apply (str_content_unique _ _ _ _ _ _ _ Q C C') in H as (Et & Ev & Ex). subst. auto.
Qed.
Lemma bytes_literal_unique t t' v v' x y : bytes_literal t v -> bytes_literal t' v' -> t ++ x = t' ++ y -> t = t' /\ v = v' /\ x = y.
Proof.
  intros (q & b & Q & -> & C) (q' & b' & Q' & -> & C') H. cbn [app u list_ascii_of_string map] in H. injection H as <- H. rewrite <- !app_assoc in H. cbn [app] in H.
  apply (bytes_content_unique _ _ _ _ _ _ _ Q C C') in H as (Et & Ev & Ex). subst. auto.
Qed.
Lemma blanks_unique ws ws' c d t t' : Forall blank ws -> Forall blank ws' -> ~ blank c -> ~ blank d -> ws ++ c :: t = ws' ++ d :: t' -> ws = ws' /\ c :: t = d :: t'.
Proof.
  intros F F' C D. revert ws' F'. induction F as [|w ws W _ IH]; intros ws' F' H; destruct F' as [|w' ws' W' F']; cbn [app] in H.
  - auto.
  - injection H as -> H. contradiction.
  - injection H as <- H. contradiction.
  - injection H as <- H. apply IH in H as [-> H]; auto.
Qed.
Lemma quote_not_blank q : quote q -> ~ blank q.
Proof. intro Q. apply quote_cases in Q. unfold blank. cbn. lia. Qed.
Lemma str_expression_head t v : str_expression t v -> exists q r, t = q :: r /\ quote q.
Proof. intros [? ? (q & b & Q & -> & _)|? ? ? ? ? (q & b & Q & -> & _)]; cbn [app]; eauto. Qed.
Lemma bytes_expression_head t v : bytes_expression t v -> exists r, t = 98%N :: r.
Proof. intros [? ? (q & b & Q & -> & _)|? ? ? ? ? (q & b & Q & -> & _)]; eexists; reflexivity. Qed.
Lemma str_expression_unique t v v' : str_expression t v -> str_expression t v' -> v = v'.
Proof.
  intro H. revert v'. induction H as [t v H|t v ws t1 v1 H N W T IH]; intros v' H'.
  - inversion H' as [? ? H1|t2 v2 ws' t3 v3 H2 N' W' T']; subst.
    + destruct (str_literal_unique t t v v' [] [] H H1 eq_refl) as (_ & -> & _). reflexivity.
    + destruct (str_literal_unique _ _ _ _ [] _ H H2 (eq_trans (app_nil_r _) eq_refl)) as (_ & _ & E). destruct ws'; [contradiction|discriminate E].
  - inversion H' as [? ? H1 Et|t2 v2 ws' t3 v3 H2 N' W' T' Et]; subst.
    + destruct (str_literal_unique _ _ _ _ _ [] H H1 (eq_sym (app_nil_r _))) as (_ & _ & E). destruct ws; [contradiction|discriminate E].
    + destruct (str_literal_unique _ _ _ _ _ _ H H2 (eq_sym Et)) as (-> & -> & E).
      destruct (str_expression_head _ _ T) as (q & r & -> & Q). destruct (str_expression_head _ _ T') as (q' & r' & -> & Q').
      apply blanks_unique in E as [-> E]; [|assumption|assumption|now apply quote_not_blank|now apply quote_not_blank]. rewrite <- E in T'. now rewrite (IH _ T').
Qed.
Lemma bytes_expression_unique t v v' : bytes_expression t v -> bytes_expression t v' -> v = v'.
Proof.
  intro H. revert v'. induction H as [t v H|t v ws t1 v1 H N W T IH]; intros v' H'.
  - inversion H' as [? ? H1|t2 v2 ws' t3 v3 H2 N' W' T']; subst.
    + destruct (bytes_literal_unique t t v v' [] [] H H1 eq_refl) as (_ & -> & _). reflexivity.
    + destruct (bytes_literal_unique _ _ _ _ [] _ H H2 (eq_trans (app_nil_r _) eq_refl)) as (_ & _ & E). destruct ws'; [contradiction|discriminate E].
  - inversion H' as [? ? H1 Et|t2 v2 ws' t3 v3 H2 N' W' T' Et]; subst.
    + destruct (bytes_literal_unique _ _ _ _ _ [] H H1 (eq_sym (app_nil_r _))) as (_ & _ & E). destruct ws; [contradiction|discriminate E].
    + destruct (bytes_literal_unique _ _ _ _ _ _ H H2 (eq_sym Et)) as (-> & -> & E).
      destruct (bytes_expression_head _ _ T) as (r & ->). destruct (bytes_expression_head _ _ T') as (r' & ->).
      assert (B : ~ blank 98%N) by (cbn; lia).
      apply blanks_unique in E as [-> E]; [|assumption|assumption|assumption|assumption]. rewrite <- E in T'. now rewrite (IH _ T').
Qed.
Lemma evaluates_unique t o o' : ordinary_obj o -> ordinary_obj o' -> evaluates t o -> evaluates t o' -> o = o'.
Proof.
  destruct o as [s|b|], o' as [s'|b'|]; cbn; intros H1 H2 H H'; try contradiction.
  - f_equal. now apply (str_expression_unique t).
  - apply str_expression_head in H as (q & r & -> & Q). apply bytes_expression_head in H' as (r' & [= ->]). apply quote_cases in Q. lia.
  - apply str_expression_head in H' as (q & r & -> & Q). apply bytes_expression_head in H as (r' & [= ->]). apply quote_cases in Q. lia.
  - f_equal. now apply (bytes_expression_unique t).
Qed.

(** ** The output of pp *)
Lemma repr_char_printable E q c : quote q -> printable_lines E (repr_char E q c).
Proof.
  intro Q. apply quote_cases in Q. unfold printable_lines, repr_char, esc, hex8, hex4, hex2.
  assert (D : forall v, (v < 16)%N -> (48 <= hexdig_lower v < 127)%N) by (intros v V; unfold hexdig_lower; destruct (N.ltb_spec v 10); lia).
  repeat (match goal with |- Forall _ (if ?b then _ else _) => destruct b eqn:? end); cbn [app];
    repeat (apply Forall_cons; [|]); try apply Forall_nil; try (right; left; lia);
    try (right; left; match goal with |- (32 <= hexdig_lower ?x < 127)%N => specialize (D x ltac:(lia)); lia end).
  right. right. split; [|assumption]. lia.
Qed.
Lemma repr_byte_printable E q c : quote q -> printable_lines E (repr_byte q c).
Proof.
  intro Q. apply quote_cases in Q. unfold printable_lines, repr_byte, esc, hex2.
  assert (D : forall v, (v < 16)%N -> (48 <= hexdig_lower v < 127)%N) by (intros v V; unfold hexdig_lower; destruct (N.ltb_spec v 10); lia).
  repeat (match goal with |- Forall _ (if ?b then _ else _) => destruct b eqn:? end); cbn [app];
    repeat (apply Forall_cons; [|]); try apply Forall_nil; try (right; left; lia);
    try (right; left; match goal with |- (32 <= hexdig_lower ?x < 127)%N => specialize (D x ltac:(lia)); lia end).
Qed.
Lemma flat_map_printable {A} E (f : A -> pystr) l : (forall a, printable_lines E (f a)) -> printable_lines E (flat_map f l).
Proof. intro H. induction l as [|a l IH]; cbn [flat_map]; [constructor|]. apply Forall_app. split; [apply H|exact IH]. Qed.
Lemma quote_printable E q : quote q -> printable_lines E [q].
Proof. intro Q. apply quote_cases in Q. constructor; [right; left; lia|constructor]. Qed.
Lemma repr_str_printable E s : printable_lines E (repr_str E s).
Proof.
  unfold repr_str. pose proof (pick_quote_quote s) as Q. apply Forall_app. split; [now apply quote_printable|]. apply Forall_app.
  split; [apply flat_map_printable; intro; now apply repr_char_printable|now apply quote_printable].
Qed.
Lemma repr_bytes_printable E b : printable_lines E (repr_bytes b).
Proof.
  unfold repr_bytes. pose proof (pick_quote_quote (map b2n b)) as Q. apply Forall_app.
  split; [constructor; [right; left; lia|now apply quote_printable]|]. apply Forall_app.
  split; [apply flat_map_printable; intro; now apply repr_byte_printable|now apply quote_printable].
Qed.
Lemma sep_blank ind : Forall blank (newline ++ spaces ind) /\ newline ++ spaces ind <> [].
Proof.
  split; [|discriminate]. constructor; [unfold blank; cbn; auto|]. apply Forall_forall. intros c H. apply repeat_spec in H. subst. unfold blank. cbn. auto 10.
Qed.
Lemma sep_printable E ind : printable_lines E (newline ++ spaces ind).
Proof. constructor; [now left|]. apply Forall_forall. intros c H. apply repeat_spec in H. subst. right. left. lia. Qed.
Lemma join_printable E sep l : printable_lines E sep -> Forall (printable_lines E) l -> printable_lines E (join sep l).
Proof.
  intros S F. induction F as [|x l H F IH]; [constructor|]. destruct l as [|y l]; [exact H|]. cbn [join]. repeat (apply Forall_app; split); auto.
Qed.
Lemma join_str_expression E sep parts : Forall blank sep -> sep <> [] -> parts <> [] -> Forall valid_text parts ->
  str_expression (join sep (map (repr_str E) parts)) (concat parts).
Proof.
  intros B N P F. induction F as [|x l H F IH]; [contradiction|]. destruct l as [|y l].
  - cbn. rewrite app_nil_r. apply OneStr. now apply repr_str_literal.
  - cbn [map join]. change (concat (x :: y :: l)) with (x ++ concat (y :: l)). apply MoreStr; [now apply repr_str_literal|assumption|assumption|]. now apply IH.
Qed.
Lemma join_bytes_expression sep parts : Forall blank sep -> sep <> [] -> parts <> [] ->
  bytes_expression (join sep (map repr_bytes parts)) (concat parts).
Proof.
  intros B N P. induction parts as [|x l IH]; [contradiction|]. destruct l as [|y l].
  - cbn. rewrite app_nil_r. apply OneBytes. apply repr_bytes_literal.
  - cbn [map join]. change (concat (x :: y :: l)) with (x ++ concat (y :: l)). apply MoreBytes; [apply repr_bytes_literal|assumption|assumption|]. now apply IH.
Qed.
Lemma body_evaluates E ind lw o b : ordinary_obj o -> body_of E ind lw o b -> evaluates b o /\ printable_lines E b.
Proof.
  destruct (sep_blank ind) as [B N]. intros Ho Hb. destruct Hb as [s H|s H|s parts H1 H2 (H3 & H4 & _)|s parts H1 H2 (H3 & H4 & _)|n r]; cbn [evaluates].
  - split; [apply OneStr; now apply repr_str_literal|apply repr_str_printable].
  - split; [apply OneBytes; apply repr_bytes_literal|apply repr_bytes_printable].
  - split.
    + rewrite <- H3. apply join_str_expression; [assumption|assumption|intros ->; subst s; cbn in H2; lia|].
      subst s. cbn in Ho. clear -Ho. induction parts as [|x parts IH]; constructor; cbn in Ho; apply Forall_app in Ho as [Ho1 Ho2]; [assumption|auto].
    + apply join_printable; [apply sep_printable|]. apply Forall_map, Forall_forall. intros x _. apply repr_str_printable.
  - split.
    + rewrite <- H3. apply join_bytes_expression; [assumption|assumption|intros ->; subst s; cbn in H2; lia].
    + apply join_printable; [apply sep_printable|]. apply Forall_map, Forall_forall. intros x _. apply repr_bytes_printable.
  - destruct Ho.
Qed.
Lemma prefix_evaluates E l p : ordinary_obj l -> prefix_of E l p ->
  ((p = [] /\ elements l = Some 0%nat) \/ (elements l <> Some 0%nat /\ exists t, p = t ++ u " " /\ evaluates t l)) /\ printable_lines E p.
Proof.
  intros Ho [H|n H]; [split; [now left|constructor]|]. split.
  - right. split; [congruence|]. exists (written E l). split; [reflexivity|]. destruct l as [s|b|]; cbn; [apply OneStr; now apply repr_str_literal|apply OneBytes, repr_bytes_literal|destruct Ho].
  - apply Forall_app. split; [|constructor; [right; left; cbn; lia|constructor]]. destruct l as [s|b|]; [apply repr_str_printable|apply repr_bytes_printable|destruct Ho].
Qed.
Lemma slice_firstn {A} (l : list A) w : (0 < w)%Z -> py_slice l 0 w = firstn (Z.to_nat w) l.
Proof.
  intro H. apply nth_error_ext. intro k. pose proof (proj2 (slice_stretch l 0 w _) eq_refl k) as S. rewrite S, nth_error_firstn. unfold place.
  change (0 <? 0)%Z with false. destruct (w <? 0)%Z eqn:E; [lia|]. change (Nat.min (Z.to_nat 0) (length l)) with 0%nat. rewrite Nat.add_0_l.
  destruct (Nat.ltb_spec k (Z.to_nat w)) as [H1|H1], (Nat.ltb_spec k (Nat.min (Z.to_nat w) (length l))) as [H2|H2]; try reflexivity.
  - symmetry. apply nth_error_None. lia.
  - lia.
Qed.
Lemma entry_readable E sp dw lw d k e : (forall k v, In (k, v) d -> ordinary v) -> entry_of E sp dw lw d k e -> readable_entry E sp dw d k e.
Proof.
  intros O [v l o desc pre body Hv Hp Hx Hpre Hb]. destruct (O _ _ Hv l o Hp) as [Ol Oo].
  destruct (prefix_evaluates _ _ _ Ol Hpre) as [P1 P2]. destruct (body_evaluates _ _ _ _ _ Oo Hb) as [B1 B2].
  apply ReadableEntry with (v := v) (l := l) (o := o); try assumption; [now apply ljust_justified| |now apply Forall_app].
  destruct Hx as [H|fs text H H1 H2]; [now left|]. right. split; [assumption|].
  exists fs, text, (firstn (Z.to_nat dw) text), (ljust (Z.to_nat dw) (firstn (Z.to_nat dw) text)). repeat split; try assumption.
  - intro i. rewrite <- (slice_firstn text dw H). now apply slice_stretch.
  - now apply ljust_justified.
Qed.
Lemma pp_readable E sp dw lw d out : (forall k v, In (k, v) d -> ordinary v) -> pp E d sp dw lw = (Ok tt, out) ->
  exists ks es, shown_keys E sp d ks /\ Forall2 (readable_entry E sp dw d) ks es /\ out = concat es.
Proof.
  intros O H. apply pp_output in H as (ks & es & K & F & ->). exists ks, es. split; [assumption|]. split; [|reflexivity].
  clear K. induction F as [|k e ks es H _ IH]; constructor; [|assumption]. eapply entry_readable; eassumption.
Qed.
