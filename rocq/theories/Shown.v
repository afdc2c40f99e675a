(** * Shown: facts about the numbers that can be shown in a message. *)
From Coq Require Import ZifyBool ZifyNat ZifyN.
From Verif Require Import PyBase BaseFacts Types Numerals NumeralFacts Texts TextFacts DecodeFault.
Ltac Zify.zify_post_hook ::= Z.div_mod_to_equations.
Local Open Scope list_scope.

Lemma zstr_abs n : zstr (Z.abs n) = dec (Z.abs_N n).
Proof. rewrite zstr_nonneg by lia. f_equal. lia. Qed.
Lemma prints_showable E n : prints E n = true <-> showable E n.
Proof.
  unfold prints, showable, within_digit_limit. rewrite zstr_abs. split.
  - intros H t Ht m Hm. apply numeral_dec in Ht. subst t. rewrite Hm in H. lia.
  - intro H. destruct (int_max_digits E) as [m|] eqn:Hm; [|reflexivity].
    specialize (H _ (dec_numeral _) m eq_refl). lia.
Qed.
Lemma prints_not E n : prints E n = false <-> ~ showable E n.
Proof. rewrite <- prints_showable. destruct (prints E n); intuition congruence. Qed.
Lemma showable_dec E n : showable E n \/ ~ showable E n.
Proof. rewrite <- prints_showable. destruct (prints E n); intuition congruence. Qed.

Lemma dec_length_pos n : (1 <= length (dec n))%nat.
Proof. destruct (dec_spec n) as (_ & _ & H & _). destruct (dec n); [congruence|cbn; lia]. Qed.
Lemma dec_length_le n k : (1 <= k)%nat -> (length (dec n) <= k)%nat <-> (n < 10 ^ N.of_nat k)%N.
Proof.
  intro Hk. split; intro H.
  - destruct (dec_spec n) as (A & V & _). apply dec_value_bound in A. rewrite V in A.
    assert (10 ^ N.of_nat (length (dec n)) <= 10 ^ N.of_nat k)%N by (apply N.pow_le_mono_r; lia). lia.
  - apply dec_length_bound; lia.
Qed.
(** A number can be shown when it has at most as many digits as the limit. *)
Lemma showable_bound E n : showable E n <->
  forall m, int_max_digits E = Some m -> (0 < m)%N /\ (Z.abs_N n < 10 ^ m)%N.
Proof.
  rewrite <- prints_showable. unfold prints. rewrite zstr_abs. pose proof (dec_length_pos (Z.abs_N n)) as P.
  destruct (int_max_digits E) as [m|]; [|intuition discriminate]. split.
  - intros H m' [= <-]. split; [lia|]. pose proof (dec_length_le (Z.abs_N n) (N.to_nat m)) as L.
    rewrite N2Nat.id in L. apply L; lia.
  - intro H. destruct (H m eq_refl) as [H1 H2]. pose proof (dec_length_le (Z.abs_N n) (N.to_nat m)) as L.
    rewrite N2Nat.id in L. apply N.leb_le. assert (length (dec (Z.abs_N n)) <= N.to_nat m)%nat by (apply L; [lia|assumption]). lia.
Qed.
Lemma showable_le E a b : showable E b -> (Z.abs a <= Z.abs b)%Z -> showable E a.
Proof.
  rewrite !showable_bound. intros H L m Hm. destruct (H m Hm) as [H1 H2]. split; [assumption|]. lia.
Qed.
Lemma int_showable E t n : int_text E t n -> showable E n.
Proof.
  intros (ws & sg & body & ws' & ds & -> & _ & _ & Hd & Hl & Hs). apply showable_bound. intros m Hm. specialize (Hl m Hm).
  assert (Hn : Z.abs_N n = decimal ds) by (destruct Hs; lia). rewrite Hn.
  assert (D : Forall (fun d => (d < 10)%N) ds /\ ds <> []).
  { clear -Hd. induction Hd as [c d [H _]|c d t ds [H _] _ [F _]|c d t ds [H _] _ [F _]]; split; try discriminate; auto. }
  destruct D as [F NE]. apply decimal_bound in F. destruct ds; [congruence|]. cbn [length] in *.
  split; [lia|]. assert (10 ^ N.of_nat (S (length ds)) <= 10 ^ m)%N by (apply N.pow_le_mono_r; lia). lia.
Qed.
Lemma int_prints E t n : py_int E t = Some n -> prints E n = true.
Proof. rewrite py_int_text. intro H. apply prints_showable. eauto using int_showable. Qed.

(** Every interpreter shows small numbers. *)
Lemma small_showable E n : env_ok E -> (Z.abs n < 10 ^ 18)%Z -> showable E n.
Proof.
  intros [_ H] Hn. apply showable_bound. intros m Hm. apply H in Hm. split; [lia|].
  assert (10 ^ 18 <= 10 ^ m)%N by (apply N.pow_le_mono_r; lia). lia.
Qed.

(** ** Messages *)
Definition numbers (m : list part) : list Z := flat_map (fun p => match p with Num n => [n] | _ => [] end) m.
Lemma numbers_in m n : In n (numbers m) <-> In (Num n) m.
Proof.
  unfold numbers. rewrite in_flat_map. split.
  - intros (p & Hp & H). destruct p; cbn in H; intuition congruence.
  - intro H. exists (Num n). cbn. auto.
Qed.
Definition presents (E : pyenv) (m : list part) : bool := forallb (prints E) (numbers m).
Lemma presents_iff E m : presents E m = true <-> presentable E m.
Proof.
  unfold presents, presentable. rewrite forallb_forall. split; intros H n Hn.
  - apply prints_showable, H. now apply numbers_in.
  - apply prints_showable, H. now apply numbers_in.
Qed.
Lemma presents_not E m : presents E m = false <-> ~ presentable E m.
Proof. rewrite <- presents_iff. destruct (presents E m); intuition congruence. Qed.
