(** * BaseFacts: lemmas about the built-ins of PyBase. *)
From Coq Require Import ZifyBool ZifyNat ZifyN Sorted Permutation.
From Verif Require Import PyBase.
Ltac Zify.zify_post_hook ::= Z.div_mod_to_equations.
Arguments N.add : simpl never. Arguments N.mul : simpl never.
Arguments N.sub : simpl never. Arguments N.div : simpl never.
Arguments N.modulo : simpl never. Arguments N.pow : simpl never.
Arguments N.leb : simpl never. Arguments N.ltb : simpl never. Arguments N.eqb : simpl never.
Arguments Z.add : simpl never. Arguments Z.mul : simpl never.
Arguments Z.sub : simpl never. Arguments Z.div : simpl never.
Arguments Z.leb : simpl never. Arguments Z.ltb : simpl never. Arguments Z.eqb : simpl never.
Arguments Z.of_nat : simpl never. Arguments Z.to_nat : simpl never.
Arguments Z.of_N : simpl never.
Arguments u : simpl never.

(** ** str equality *)
Lemma str_eqb_eq a b : str_eqb a b = true <-> a = b.
Proof.
  revert b; induction a as [|x a IH]; intros [|y b]; simpl; split; intro H; try congruence; try discriminate.
  - apply andb_true_iff in H as [H1 H2]. apply N.eqb_eq in H1. apply IH in H2. congruence.
  - injection H as -> ->. rewrite N.eqb_refl. simpl. now apply IH.
Qed.
Lemma str_eqb_refl a : str_eqb a a = true.
Proof. now apply str_eqb_eq. Qed.
Lemma str_eqb_neq a b : str_eqb a b = false <-> a <> b.
Proof. destruct (str_eqb a b) eqn:H; split; intro K; try congruence; try discriminate.
  - apply str_eqb_eq in H. congruence.
  - intro E. apply str_eqb_eq in E. congruence. Qed.
Lemma str_eqb_spec a b : reflect (a = b) (str_eqb a b).
Proof. apply iff_reflect. symmetry. apply str_eqb_eq. Qed.
Lemma str_eqb_sym a b : str_eqb a b = str_eqb b a.
Proof. destruct (str_eqb_spec a b), (str_eqb_spec b a); congruence. Qed.
Lemma str_eq_dec (a b : pystr) : {a = b} + {a <> b}.
Proof. destruct (str_eqb_spec a b); auto. Qed.

(** ** dicts *)
Section DictFacts.
  Context {K V : Type} (eqb : K -> K -> bool).
  Hypothesis eqb_spec : forall a b, reflect (a = b) (eqb a b).
  Implicit Types (d : list (K * V)) (k : K) (v : V).

  Lemma dget_dset_same k v d : dget eqb k (dset eqb k v d) = Some v.
  Proof. induction d as [|[k' v'] d IH]; simpl.
    - destruct (eqb_spec k k); congruence.
    - destruct (eqb_spec k k') as [->|H]; simpl.
      + destruct (eqb_spec k' k'); congruence.
      + destruct (eqb_spec k k'); congruence. Qed.
  Lemma dget_dset_other k k' v d : k <> k' -> dget eqb k (dset eqb k' v d) = dget eqb k d.
  Proof. intro Hn. induction d as [|[k2 v2] d IH]; simpl.
    - destruct (eqb_spec k k'); congruence.
    - destruct (eqb_spec k' k2) as [->|H]; simpl; destruct (eqb_spec k k2); congruence. Qed.
  Lemma dset_dset k v v' d : dset eqb k v' (dset eqb k v d) = dset eqb k v' d.
  Proof. induction d as [|[k2 v2] d IH]; simpl.
    - destruct (eqb_spec k k); congruence.
    - destruct (eqb_spec k k2) as [->|H]; simpl.
      + destruct (eqb_spec k2 k2); congruence.
      + destruct (eqb_spec k k2); congruence. Qed.
  Lemma dset_fresh k v d : ~ In k (map fst d) -> dset eqb k v d = d ++ [(k, v)].
  Proof. induction d as [|[k2 v2] d IH]; simpl; intro H; [reflexivity|].
    destruct (eqb_spec k k2); [subst; tauto|]. rewrite IH; tauto. Qed.
  Lemma dset_last k v v0 d : ~ In k (map fst d) -> dset eqb k v (d ++ [(k, v0)]) = d ++ [(k, v)].
  Proof. induction d as [|[k2 v2] d IH]; simpl; intro H.
    - destruct (eqb_spec k k); congruence.
    - destruct (eqb_spec k k2); [subst; tauto|]. rewrite IH; tauto. Qed.
  Lemma dset_keys k v d : In k (map fst d) -> map fst (dset eqb k v d) = map fst d.
  Proof. induction d as [|[k2 v2] d IH]; simpl; intro H; [tauto|].
    destruct (eqb_spec k k2); simpl; [congruence|]. rewrite IH; [reflexivity|]. destruct H; congruence. Qed.
  Lemma dset_same_id k v d : dget eqb k d = Some v -> dset eqb k v d = d.
  Proof. induction d as [|[k2 v2] d IH]; simpl; intro H; [discriminate|].
    destruct (eqb_spec k k2); [congruence|]. now rewrite IH. Qed.
  Lemma in_dset_keys k k0 v d : In k (map fst (dset eqb k0 v d)) <-> k = k0 \/ In k (map fst d).
  Proof. induction d as [|[k2 v2] d IH]; simpl; [intuition congruence|].
    destruct (eqb_spec k0 k2); simpl; subst; [intuition congruence|]. rewrite IH. intuition congruence. Qed.
  Lemma dget_in k v d : dget eqb k d = Some v -> In (k, v) d.
  Proof. induction d as [|[k2 v2] d IH]; simpl; [discriminate|].
    destruct (eqb_spec k k2); [|intuition]. intro H. left. congruence. Qed.
  Lemma dget_none k d : dget eqb k d = None <-> ~ In k (map fst d).
  Proof. induction d as [|[k2 v2] d IH]; simpl; [intuition congruence|].
    destruct (eqb_spec k k2); [subst; intuition congruence|]. rewrite IH. intuition congruence. Qed.
  Lemma dget_some_in k d : In k (map fst d) <-> exists v, dget eqb k d = Some v.
  Proof. destruct (dget eqb k d) eqn:H.
    - split; [eauto|]. intros _. apply dget_in in H. change k with (fst (k, v)). now apply in_map.
    - apply dget_none in H. split; [tauto|]. intros [v Hv]. discriminate. Qed.
  Lemma dget_app k d d' : dget eqb k (d ++ d') = match dget eqb k d with Some v => Some v | None => dget eqb k d' end.
  Proof. induction d as [|[k2 v2] d IH]; simpl; [reflexivity|]. destruct (eqb k k2); auto. Qed.
  Lemma dget_in_nodup k v d : NoDup (map fst d) -> In (k, v) d -> dget eqb k d = Some v.
  Proof. induction d as [|[k2 v2] d IH]; simpl; [tauto|]. intros Hn Hi. inversion Hn as [|? ? Hni Hn']; subst.
    destruct (eqb_spec k k2) as [->|Hk].
    - destruct Hi as [Hi|Hi]; [congruence|]. exfalso. apply Hni. change k2 with (fst (k2, v)). now apply in_map.
    - destruct Hi as [Hi|Hi]; [congruence|]. auto. Qed.
  Lemma dmem_in k d : dmem eqb k d = true <-> In k (map fst d).
  Proof. unfold dmem. rewrite dget_some_in. destruct (dget eqb k d); split; intro H; eauto.
    - discriminate. - destruct H; discriminate. Qed.
  Lemma dget_dpop_other k k' d : k <> k' -> dget eqb k (dpop eqb k' d) = dget eqb k d.
  Proof. intro Hn. induction d as [|[k2 v2] d IH]; simpl; [reflexivity|].
    destruct (eqb_spec k' k2) as [->|]; simpl; destruct (eqb_spec k k2); congruence. Qed.
  Lemma dpop_fresh k d : ~ In k (map fst d) -> dpop eqb k d = d.
  Proof. induction d as [|[k2 v2] d IH]; simpl; intro H; [reflexivity|].
    destruct (eqb_spec k k2); [subst; tauto|]. rewrite IH; tauto. Qed.
  Lemma dpop_keys_incl k d : incl (dpop eqb k d) d.
  Proof. induction d as [|[k2 v2] d IH]; simpl; [intros x Hx; exact Hx|].
    destruct (eqb_spec k k2); intros x Hx; simpl in *; [auto|]. destruct Hx; auto. Qed.
  Lemma dpop_nodup k d : NoDup (map fst d) -> NoDup (map fst (dpop eqb k d)).
  Proof. induction d as [|[k2 v2] d IH]; simpl; intro H; [assumption|]. inversion H; subst.
    destruct (eqb_spec k k2); [assumption|]. simpl. constructor; [|auto].
    intro Hi. apply in_map_iff in Hi as [[a b] [<- Hi]]. apply dpop_keys_incl in Hi.
    apply H2. simpl. change a with (fst (a,b)). now apply in_map. Qed.
  Lemma dpop_removes k d : NoDup (map fst d) -> ~ In k (map fst (dpop eqb k d)).
  Proof. induction d as [|[k2 v2] d IH]; simpl; intro H; [tauto|]. inversion H; subst.
    destruct (eqb_spec k k2); [subst; assumption|]. simpl. intros [Hc|Hc]; [congruence|]. now apply IH. Qed.
  Lemma dset_nodup k v d : NoDup (map fst d) -> NoDup (map fst (dset eqb k v d)).
  Proof. induction d as [|[k2 v2] d IH]; simpl; intro H; [repeat constructor; tauto|]. inversion H; subst.
    destruct (eqb_spec k k2); simpl; [subst; assumption|]. constructor; [|auto].
    rewrite in_dset_keys. intuition congruence. Qed.
  Lemma dpop_filter k d : NoDup (map fst d) -> dpop eqb k d = filter (fun kv => negb (eqb k (fst kv))) d.
  Proof. induction d as [|[k2 v2] d IH]; simpl; intro H; [reflexivity|]. inversion H; subst.
    destruct (eqb_spec k k2) as [->|]; simpl; [|now rewrite IH].
    symmetry. clear IH H H3. induction d as [|[k3 v3] d IH]; simpl; [reflexivity|]. simpl in H2.
    destruct (eqb_spec k2 k3); simpl; [subst; tauto|]. rewrite IH; tauto. Qed.
End DictFacts.

(** ** Slices *)
Lemma firstn_all_ge {A} n (l : list A) : (length l <= n)%nat -> firstn n l = l.
Proof. intro. apply firstn_all2. lia. Qed.
Lemma skipn_all_ge {A} n (l : list A) : (length l <= n)%nat -> skipn n l = [].
Proof. intro. apply skipn_all2. lia. Qed.

Lemma skipn_add {A} a b (l : list A) : skipn a (skipn b l) = skipn (b + a) l.
Proof. revert l; induction b as [|b IH]; intros [|x l]; simpl; rewrite ?skipn_nil; auto. Qed.

Lemma py_slice_in {A} (s : list A) (i n : Z) :
  (0 <= i)%Z -> (0 <= n)%Z ->
  py_slice s i (i + n) = firstn (Z.to_nat n) (skipn (Z.to_nat i) s).
Proof.
  intros Hi Hn. unfold py_slice, slice_index.
  replace (i <? 0)%Z with false by lia. replace (i + n <? 0)%Z with false by lia.
  set (len := Z.of_nat (length s)).
  destruct (Z_le_dec len i) as [Hl|Hl].
  - rewrite !skipn_all_ge by lia. now rewrite !firstn_nil.
  - replace (Z.min i len) with i by lia.
    destruct (Z_le_dec (i + n) len) as [Hm|Hm].
    + replace (Z.min (i + n) len) with (i + n)%Z by lia. f_equal. lia.
    + replace (Z.min (i + n) len) with len by lia.
      rewrite !firstn_all_ge; [reflexivity| |]; rewrite skipn_length; lia.
Qed.

Lemma py_slice_app {A} (pre mid post : list A) :
  py_slice (pre ++ mid ++ post) (zlen pre) (zlen pre + zlen mid) = mid.
Proof.
  unfold zlen. rewrite py_slice_in by lia. rewrite !Nat2Z.id.
  rewrite skipn_app, skipn_all, Nat.sub_diag. simpl.
  rewrite firstn_app, Nat.sub_diag, firstn_all. simpl. apply app_nil_r.
Qed.

(** If a slice of the requested non-negative length was really there, the
    sequence splits around it. *)
Lemma py_slice_split {A} (s : list A) (i n : Z) :
  (0 <= i <= zlen s)%Z -> (0 <= n)%Z -> zlen (py_slice s i (i + n)) = n ->
  s = firstn (Z.to_nat i) s ++ py_slice s i (i + n) ++ skipn (Z.to_nat (i + n)) s
  /\ (i + n <= zlen s)%Z.
Proof.
  intros Hi Hn Hl. rewrite py_slice_in in * by lia. unfold zlen in *.
  rewrite firstn_length, skipn_length in Hl. split; [|lia].
  rewrite <- (firstn_skipn (Z.to_nat i) s) at 1. f_equal.
  rewrite <- (firstn_skipn (Z.to_nat n) (skipn (Z.to_nat i) s)) at 1. f_equal.
  rewrite skipn_add. f_equal. lia.
Qed.

Lemma zlen_nonneg {A} (s : list A) : (0 <= zlen s)%Z.
Proof. unfold zlen; lia. Qed.
Lemma zlen_app {A} (s t : list A) : zlen (s ++ t) = (zlen s + zlen t)%Z.
Proof. unfold zlen. rewrite app_length. lia. Qed.
Lemma zlen_nil {A} : zlen (@nil A) = 0%Z.
Proof. reflexivity. Qed.

(** ** Bytes and integers *)
Lemma b2n_lt b : (b2n b < 256)%N.
Proof. unfold b2n. pose proof (Byte.to_N_bounded b). lia. Qed.
Lemma n2b_b2n b : n2b (b2n b) = b.
Proof. unfold n2b, b2n. now rewrite Byte.of_to_N. Qed.
Lemma b2n_n2b n : (n < 256)%N -> b2n (n2b n) = n.
Proof. intro H. unfold n2b, b2n. destruct (Byte.of_N n) eqn:E.
  - now apply Byte.to_of_N. - apply Byte.of_N_None_iff in E. lia. Qed.
Lemma b2n_inj a b : b2n a = b2n b -> a = b.
Proof. intro H. now rewrite <- (n2b_b2n a), H, n2b_b2n. Qed.

Lemma from_be_app s b : from_be (s ++ [b]) = (from_be s * 256 + b2n b)%N.
Proof. unfold from_be. now rewrite fold_left_app. Qed.
Lemma be_digits_length w n : length (be_digits w n) = w.
Proof. revert n; induction w as [|w IH]; intro n; simpl; [reflexivity|]. rewrite app_length, IH. simpl. lia. Qed.
Lemma from_be_be_digits w n : (n < 256 ^ N.of_nat w)%N -> from_be (be_digits w n) = n.
Proof.
  revert n; induction w as [|w IH]; intros n Hn; simpl be_digits.
  - change (N.of_nat 0) with 0%N in Hn. rewrite N.pow_0_r in Hn. unfold from_be. simpl. lia.
  - rewrite Nat2N.inj_succ, N.pow_succ_r' in Hn.
    rewrite from_be_app, IH by lia. rewrite b2n_n2b by lia. lia.
Qed.
Lemma from_be_bound s : (from_be s < 256 ^ N.of_nat (length s))%N.
Proof.
  induction s as [|b s IH] using rev_ind.
  - simpl. rewrite N.pow_0_r. unfold from_be; simpl; lia.
  - rewrite from_be_app, app_length. simpl. pose proof (b2n_lt b).
    rewrite Nat.add_1_r, Nat2N.inj_succ, N.pow_succ_r'. nia.
Qed.
Lemma be_digits_from_be s : be_digits (length s) (from_be s) = s.
Proof.
  induction s as [|b s IH] using rev_ind; [reflexivity|].
  rewrite app_length, Nat.add_1_r. simpl. rewrite from_be_app. pose proof (b2n_lt b).
  replace ((from_be s * 256 + b2n b) / 256)%N with (from_be s) by lia.
  replace ((from_be s * 256 + b2n b) mod 256)%N with (b2n b) by lia.
  now rewrite IH, n2b_b2n.
Qed.

(** ** Hexadecimal *)
Definition py_HEX (b : bytes) : pystr := py_upper (py_hex b).
Lemma upper_hexdig v : (v < 16)%N -> upper_char (hexdig_lower v) = hexdig_upper v.
Proof. intro H. unfold upper_char, hexdig_lower, hexdig_upper. destruct (v <? 10)%N eqn:E.
  - replace ((97 <=? 48 + v) && (48 + v <=? 122))%N with false by lia. reflexivity.
  - replace ((97 <=? 87 + v) && (87 + v <=? 122))%N with true by lia. lia. Qed.
Lemma py_HEX_cons b s : py_HEX (b :: s) = hexdig_upper (b2n b / 16) :: hexdig_upper (b2n b mod 16) :: py_HEX s.
Proof. unfold py_HEX, py_upper, py_hex. simpl. pose proof (b2n_lt b).
  rewrite !upper_hexdig by lia. reflexivity. Qed.
Lemma py_HEX_nil : py_HEX [] = []. Proof. reflexivity. Qed.
Lemma py_HEX_length b : length (py_HEX b) = (2 * length b)%nat.
Proof. induction b as [|x b IH]; [reflexivity|]. rewrite py_HEX_cons. simpl. rewrite IH. lia. Qed.
Lemma py_HEX_app a b : py_HEX (a ++ b) = py_HEX a ++ py_HEX b.
Proof. induction a as [|x a IH]; [reflexivity|].
  change ((x :: a) ++ b) with (x :: (a ++ b)). rewrite !py_HEX_cons, IH. reflexivity. Qed.
Lemma py_hex_length b : length (py_hex b) = (2 * length b)%nat.
Proof. unfold py_hex. induction b as [|x b IH]; simpl; [reflexivity|]. rewrite IH. lia. Qed.
Lemma hexval_upper v : (v < 16)%N -> hexval (hexdig_upper v) = Some v.
Proof. intro H. unfold hexval, hexdig_upper. destruct (v <? 10)%N eqn:E.
  - replace ((48 <=? 48 + v) && (48 + v <=? 57))%N with true by lia. f_equal. lia.
  - replace ((48 <=? 55 + v) && (55 + v <=? 57))%N with false by lia.
    replace ((97 <=? 55 + v) && (55 + v <=? 102))%N with false by lia.
    replace ((65 <=? 55 + v) && (55 + v <=? 70))%N with true by lia. f_equal. lia. Qed.
Lemma hexval_lt c v : hexval c = Some v -> (v < 16)%N.
Proof. unfold hexval. intro H.
  destruct ((48 <=? c) && (c <=? 57))%N eqn:E1; [injection H as <-; lia|].
  destruct ((97 <=? c) && (c <=? 102))%N eqn:E2; [injection H as <-; lia|].
  destruct ((65 <=? c) && (c <=? 70))%N eqn:E3; [injection H as <-; lia|discriminate]. Qed.
Lemma hexval_some_upper c v : hexval c = Some v -> upper_char c = hexdig_upper v.
Proof. unfold hexval, upper_char, hexdig_upper. intro H.
  destruct ((48 <=? c) && (c <=? 57))%N eqn:E1; [injection H as <-|].
  { replace ((97 <=? c) && (c <=? 122))%N with false by lia. replace (c - 48 <? 10)%N with true by lia. lia. }
  destruct ((97 <=? c) && (c <=? 102))%N eqn:E2; [injection H as <-|].
  { replace ((97 <=? c) && (c <=? 122))%N with true by lia. replace (c - 87 <? 10)%N with false by lia. lia. }
  destruct ((65 <=? c) && (c <=? 70))%N eqn:E3; [injection H as <-|discriminate].
  replace ((97 <=? c) && (c <=? 122))%N with false by lia. replace (c - 55 <? 10)%N with false by lia. lia. Qed.

Lemma hexval_hexdig_upper_range v : (v < 16)%N ->
  (48 <= hexdig_upper v <= 57 \/ 65 <= hexdig_upper v <= 70)%N.
Proof. intro H. unfold hexdig_upper. destruct (v <? 10)%N eqn:E; lia. Qed.

Lemma a2b_hex_HEX b : a2b_hex (py_HEX b) = Some b.
Proof. induction b as [|x b IH]; [reflexivity|]. rewrite py_HEX_cons. pose proof (b2n_lt x).
  cbn [a2b_hex]. rewrite !hexval_upper by lia. rewrite IH.
  do 2 f_equal. rewrite <- (n2b_b2n x) at 3. f_equal. lia. Qed.

Lemma list_ind2 {A} (P : list A -> Prop) :
  P [] -> (forall a, P [a]) -> (forall a b l, P l -> P (a :: b :: l)) -> forall l, P l.
Proof.
  intros H0 H1 H2. assert (forall l, P l /\ forall a, P (a :: l)) as H.
  { induction l as [|a l [IH1 IH2]]; [auto|]. split; auto. }
  intro l. apply H.
Qed.

Lemma a2b_hex_some s b : a2b_hex s = Some b -> py_upper s = py_HEX b.
Proof. revert b. induction s as [|c|c d s IH] using list_ind2; intros b H.
  - injection H as <-. reflexivity.
  - discriminate.
  - cbn [a2b_hex] in H. destruct (hexval c) as [h|] eqn:Hc; [|discriminate].
    destruct (hexval d) as [l|] eqn:Hd; [|discriminate]. destruct (a2b_hex s) as [t|]; [|discriminate].
    injection H as <-. rewrite py_HEX_cons. specialize (IH t eq_refl). simpl.
    pose proof (hexval_lt _ _ Hc). pose proof (hexval_lt _ _ Hd). rewrite b2n_n2b by lia.
    rewrite (hexval_some_upper _ _ Hc), (hexval_some_upper _ _ Hd), IH.
    replace ((16 * h + l) / 16)%N with h by lia. replace ((16 * h + l) mod 16)%N with l by lia. reflexivity.
Qed.
Lemma a2b_hex_length s b : a2b_hex s = Some b -> length s = (2 * length b)%nat.
Proof. intro H. apply a2b_hex_some in H. apply (f_equal (@length N)) in H.
  unfold py_upper in H. now rewrite map_length, py_HEX_length in H. Qed.

Lemma hexdig_upper_not_space v : (v < 16)%N -> c_space (hexdig_upper v) = false.
Proof. intro H. pose proof (hexval_hexdig_upper_range v H). unfold c_space. lia. Qed.
Lemma fromhex_HEX b : fromhex (py_HEX b) = Some b.
Proof. induction b as [|x b IH]; [reflexivity|]. rewrite py_HEX_cons. pose proof (b2n_lt x).
  cbn [fromhex]. rewrite hexdig_upper_not_space by lia. rewrite !hexval_upper by lia. rewrite IH.
  do 2 f_equal. rewrite <- (n2b_b2n x) at 3. f_equal. lia. Qed.
Lemma fromhex_length s b : fromhex s = Some b -> (2 * length b <= length s)%nat.
Proof.
  enough (forall n s b, (length s <= n)%nat -> fromhex s = Some b -> (2 * length b <= length s)%nat) as H
    by (intro Hf; exact (H (length s) s b (le_n _) Hf)).
  clear s b. induction n as [|n IH]; intros s b Hl H.
  - destruct s; [injection H as <-; simpl; lia|simpl in Hl; lia].
  - destruct s as [|c r]; [injection H as <-; simpl; lia|]. cbn [fromhex] in H.
    destruct (c_space c).
    + apply IH in H; simpl in *; lia.
    + destruct r as [|d r]; [discriminate|]. destruct (hexval c); [|discriminate].
      destruct (hexval d); [|discriminate]. destruct (fromhex r) as [t|] eqn:E; [|discriminate].
      injection H as <-. apply IH in E; simpl in *; lia.
Qed.

(** ** Decimal *)
(** Value of a string of ASCII digits, most significant first. *)
Definition dec_value (s : pystr) : N := fold_left (fun acc c => (acc * 10 + (c - 48))%N) s 0%N.
Definition all_digits (s : pystr) : Prop := Forall (fun c => is_digit c = true) s.

Lemma dec_fuel_spec f n acc :
  (n < 2 ^ N.of_nat f)%N -> f <> O ->
  exists d, dec_fuel f n acc = d ++ acc /\ all_digits d /\ dec_value d = n /\ d <> []
            /\ (hd 0%N d = 48%N -> n = 0%N) /\ (n = 0%N -> d = [48%N]).
Proof.
  revert n acc. induction f as [|f IH]; intros n acc Hn Hf; [congruence|].
  cbn [dec_fuel]. destruct (n / 10 =? 0)%N eqn:E.
  - exists [48 + n mod 10]%N. split; [reflexivity|]. split.
    { repeat constructor. unfold is_digit. lia. }
    unfold dec_value; cbn [fold_left hd]. split; [lia|]. split; [discriminate|]. split; [lia|].
    intro H0. f_equal. subst n. reflexivity.
  - rewrite Nat2N.inj_succ, N.pow_succ_r' in Hn.
    destruct f as [|f]; [change (N.of_nat 0) with 0%N in Hn; rewrite N.pow_0_r in Hn; lia|].
    destruct (IH (n / 10)%N (48 + n mod 10 :: acc)%N) as [d (H1 & H2 & H3 & H4 & H5 & H6)]; [|congruence|].
    { assert (n / 10 <= n / 2)%N by lia. lia. }
    exists (d ++ [48 + n mod 10]%N). split; [rewrite H1, <- app_assoc; reflexivity|]. split.
    { apply Forall_app. split; [assumption|]. repeat constructor. unfold is_digit; lia. }
    split. { unfold dec_value in *. rewrite fold_left_app, H3. cbn [fold_left]. lia. }
    split. { destruct d; discriminate. }
    split; [|intro; subst n; discriminate].
    intro Hh. destruct d as [|x d]; [congruence|]. simpl in Hh, H5. specialize (H5 Hh). lia.
Qed.
Lemma size_nat_bound n : (n < 2 ^ N.of_nat (S (N.size_nat n)))%N.
Proof.
  destruct n as [|p]; [reflexivity|]. simpl N.size_nat.
  assert (H : (N.pos p < 2 ^ N.of_nat (Pos.size_nat p))%N).
  { induction p as [p IH|p IH|]; simpl Pos.size_nat; rewrite ?Nat2N.inj_succ, ?N.pow_succ_r'; lia. }
  rewrite Nat2N.inj_succ, N.pow_succ_r'. lia.
Qed.
Lemma dec_spec n : all_digits (dec n) /\ dec_value (dec n) = n /\ dec n <> []
                   /\ (hd 0%N (dec n) = 48%N -> n = 0%N) /\ (n = 0%N -> dec n = [48%N]).
Proof.
  unfold dec. destruct (dec_fuel_spec (S (N.size_nat n)) n []) as [d (H1 & H2 & H3 & H4 & H5)];
    [apply size_nat_bound|congruence|]. rewrite H1, app_nil_r. auto.
Qed.
Lemma dec_inj a b : dec a = dec b -> a = b.
Proof. intro H. destruct (dec_spec a) as (_ & Ha & _), (dec_spec b) as (_ & Hb & _). congruence. Qed.

Lemma dec_value_app a b : dec_value (a ++ b) = (dec_value a * 10 ^ N.of_nat (length b) + dec_value b)%N.
Proof.
  unfold dec_value. rewrite fold_left_app. generalize (fold_left (fun acc c => (acc * 10 + (c - 48))%N) a 0%N) as v.
  induction b as [|c b IH] using rev_ind; intro v.
  - cbn. change (N.of_nat 0) with 0%N. rewrite N.pow_0_r. lia.
  - rewrite !fold_left_app, IH, app_length, Nat.add_1_r, Nat2N.inj_succ, N.pow_succ_r'. cbn [fold_left].
    ring.
Qed.
Lemma dec_value_bound s : all_digits s -> (dec_value s < 10 ^ N.of_nat (length s))%N.
Proof.
  induction s as [|c s IH] using rev_ind; intro H.
  - cbn. reflexivity.
  - apply Forall_app in H as [H1 H2]. inversion H2; subst. specialize (IH H1).
    rewrite app_length, Nat.add_1_r, Nat2N.inj_succ, N.pow_succ_r'.
    unfold dec_value in *. rewrite fold_left_app. cbn [fold_left]. unfold is_digit in *. nia.
Qed.
Lemma dec_value_zeros k s : dec_value (repeat 48%N k ++ s) = dec_value s.
Proof. induction k as [|k IH]; [reflexivity|]. exact IH. Qed.
Lemma fmt0d_value w n : dec_value (fmt0d w n) = n.
Proof. unfold fmt0d, zfill. rewrite dec_value_zeros. apply dec_spec. Qed.
Lemma fmt0d_digits w n : all_digits (fmt0d w n).
Proof. unfold fmt0d, zfill, all_digits. apply Forall_app. split; [|apply dec_spec].
  apply Forall_forall. intros x Hx. apply repeat_spec in Hx. subst. reflexivity. Qed.
Lemma fmt0d_length_ge w n : (w <= length (fmt0d w n))%nat.
Proof. unfold fmt0d, zfill. rewrite app_length, repeat_length. lia. Qed.
Lemma dec_length_lt n k : (k < length (dec n))%nat -> n <> 0%N -> (10 ^ N.of_nat k <= n)%N.
Proof.
  intros Hk Hn. destruct (dec_spec n) as (Hd & Hv & Hne & Hh & _).
  destruct (dec n) as [|c d]; [congruence|]. simpl in Hk, Hh.
  inversion Hd as [|? ? Hc Hd']; subst.
  assert (c <> 48%N) by (intro; apply Hn; auto).
  change (c :: d) with ([c] ++ d). rewrite dec_value_app.
  assert (10 ^ N.of_nat k <= 10 ^ N.of_nat (length d))%N by (apply N.pow_le_mono_r; lia).
  assert (1 <= dec_value [c])%N by (unfold dec_value; cbn [fold_left]; unfold is_digit in Hc; lia). nia.
Qed.
(** The formatted length is the requested width exactly when the number fits. *)
Lemma fmt0d_length_iff w n : (0 < w)%nat ->
  (length (fmt0d w n) = w <-> (n < 10 ^ N.of_nat w)%N).
Proof.
  intro Hw. split; intro H.
  - pose proof (dec_value_bound _ (fmt0d_digits w n)) as Hb. now rewrite fmt0d_value, H in Hb.
  - unfold fmt0d, zfill. rewrite app_length, repeat_length.
    destruct (Nat.le_gt_cases (length (dec n)) w) as [Hl|Hl]; [lia|].
    destruct (N.eq_dec n 0) as [->|Hn]; [change (length (dec 0)) with 1%nat in Hl; lia|].
    pose proof (dec_length_lt n w Hl Hn). lia.
Qed.
(** Digit strings of equal length and value are equal. *)
Lemma dec_value_inj a b : all_digits a -> all_digits b -> length a = length b ->
  dec_value a = dec_value b -> a = b.
Proof.
  revert b; induction a as [|c a IH] using rev_ind; intros b Ha Hb Hl Hv.
  - destruct b; [reflexivity|discriminate].
  - destruct b as [|x b _] using rev_ind; [rewrite app_length in Hl; simpl in Hl; lia|].
    rewrite !app_length in Hl. simpl in Hl.
    apply Forall_app in Ha as [Ha1 Ha2], Hb as [Hb1 Hb2]. inversion Ha2; inversion Hb2; subst.
    unfold dec_value in Hv. rewrite !fold_left_app in Hv. cbn [fold_left] in Hv.
    unfold is_digit in *.
    assert (dec_value a = dec_value b) by (unfold dec_value; lia).
    rewrite (IH b) by (auto; lia). f_equal. f_equal. unfold dec_value in H. lia.
Qed.

Lemma zstr_of_N n : zstr (Z.of_N n) = dec n.
Proof. destruct n; reflexivity. Qed.
Lemma zstr_nonneg z : (0 <= z)%Z -> zstr z = dec (Z.to_N z).
Proof. intro H. rewrite <- zstr_of_N. f_equal. lia. Qed.
Lemma zstr_digits z : (0 <= z)%Z -> all_digits (zstr z).
Proof. intro H. rewrite zstr_nonneg by assumption. apply dec_spec. Qed.
Lemma zstr_inj a b : (0 <= a)%Z -> (0 <= b)%Z -> zstr a = zstr b -> a = b.
Proof. intros Ha Hb H. rewrite !zstr_nonneg in H by assumption. apply dec_inj in H. lia. Qed.

(** ** int() on plain digit strings *)
(** What is used of the interpreter: ASCII digits are decimal digits with their
    value; other ASCII characters are not numeric; the limit on digits, if any,
    is at least the 640 that CPython guarantees. *)
Definition env_ok (E : pyenv) : Prop :=
  (forall c, (c < 128)%N -> u_numeric E c = is_digit c) /\
  (forall m, int_max_digits E = Some m -> (640 <= m)%N).

Lemma int_digits_all s b acc cnt :
  all_digits s -> (s <> [] \/ b = true) ->
  int_digits s b acc cnt
  = Some (fold_left (fun a c => (a * 10 + (c - 48))%N) s acc, cnt + N.of_nat (length s))%N.
Proof.
  revert b acc cnt. induction s as [|c s IH]; intros b acc cnt H Hb; cbn [int_digits].
  - destruct Hb as [Hb| ->]; [congruence|]. cbn. do 2 f_equal. lia.
  - inversion H as [|? ? Hc Hs]; subst. rewrite Hc, IH by auto. cbn [fold_left length]. do 2 f_equal. lia.
Qed.
Lemma digit_lt127 c : is_digit c = true -> (c <? 127)%N = true.
Proof. unfold is_digit. lia. Qed.
Lemma map_int_char_digits E s : all_digits s -> map (int_char E) s = s.
Proof. induction s as [|c s IH]; intro H; [reflexivity|]. inversion H; subst. simpl.
  rewrite IH by assumption. unfold int_char. now rewrite digit_lt127. Qed.
Lemma py_int_digits E s : env_ok E -> all_digits s -> s <> [] -> (length s <= 640)%nat ->
  py_int E s = Some (Z.of_N (dec_value s)).
Proof.
  intros HE H Hne Hl. unfold py_int. rewrite map_int_char_digits by assumption.
  assert (Hu : int_unsigned E s = Some (dec_value s)).
  { unfold int_unsigned. rewrite int_digits_all by auto.
    destruct (int_max_digits E) as [m|] eqn:Em; [|reflexivity].
    apply (proj2 HE) in Em. replace (m <? 0 + N.of_nat (length s))%N with false by lia. reflexivity. }
  destruct s as [|c s]; [congruence|]. inversion H as [|? ? Hc Hs]; subst. cbn [lstrip_c].
  replace (c_space c) with false by (unfold is_digit in Hc; unfold c_space; lia).
  replace (c =? 43)%N with false by (unfold is_digit in Hc; lia).
  replace (c =? 45)%N with false by (unfold is_digit in Hc; lia). now rewrite Hu.
Qed.
Lemma isnumeric_digits E s : env_ok E -> all_digits s -> s <> [] -> isnumeric E s = true.
Proof.
  intros HE H Hne. unfold isnumeric. destruct s; [congruence|]. apply forallb_forall.
  intros c Hc. unfold all_digits in H. rewrite Forall_forall in H. specialize (H c Hc).
  rewrite (proj1 HE); [assumption|]. unfold is_digit in H. lia.
Qed.
Lemma dec_length_bound n k : (n < 10 ^ N.of_nat k)%N -> (0 < k)%nat -> (length (dec n) <= k)%nat.
Proof.
  intros H Hk. destruct (Nat.le_gt_cases (length (dec n)) k) as [|Hl]; [assumption|].
  destruct (N.eq_dec n 0) as [->|Hn]; [change (length (dec 0)) with 1%nat in Hl; lia|].
  pose proof (dec_length_lt n k Hl Hn). lia.
Qed.

(** ** Sets of int *)
Definition zsorted (l : zset) : Prop := StronglySorted Z.lt l.
Lemma zadd_in x y l : In y (zadd x l) <-> y = x \/ In y l.
Proof. induction l as [|z l IH]; simpl; [intuition congruence|].
  destruct (x <? z)%Z; [simpl; intuition congruence|]. destruct (x =? z)%Z eqn:E.
  - assert (x = z) by lia. subst. simpl. intuition congruence.
  - simpl. rewrite IH. intuition congruence. Qed.
Lemma zadd_sorted x l : zsorted l -> zsorted (zadd x l).
Proof. unfold zsorted. induction l as [|z l IH]; intro H; simpl; [repeat constructor|].
  inversion H; subst. destruct (x <? z)%Z eqn:E1.
  - constructor; [assumption|]. constructor; [lia|]. eapply Forall_impl; [|eassumption]. intros; simpl in *; lia.
  - destruct (x =? z)%Z eqn:E2; [assumption|]. constructor; [auto|]. apply Forall_forall. intros y Hy.
    apply zadd_in in Hy as [->|Hy]; [lia|]. rewrite Forall_forall in *. auto. Qed.
Lemma zupdate_in y l xs : In y (zupdate l xs) <-> In y l \/ In y xs.
Proof. unfold zupdate. revert l. induction xs as [|x xs IH]; intro l; simpl; [intuition|].
  rewrite IH, zadd_in. intuition congruence. Qed.
Lemma zupdate_sorted l xs : zsorted l -> zsorted (zupdate l xs).
Proof. unfold zupdate. revert l. induction xs as [|x xs IH]; intros l H; simpl; [assumption|].
  apply IH, zadd_sorted, H. Qed.
Lemma zmem_in x l : zmem x l = true <-> In x l.
Proof. unfold zmem. rewrite existsb_exists. split.
  - intros [y [H1 H2]]. apply Z.eqb_eq in H2. congruence.
  - intro H. exists x. split; [assumption|]. apply Z.eqb_refl. Qed.
Lemma zmem_not_in x l : zmem x l = false <-> ~ In x l.
Proof. rewrite <- zmem_in. destruct (zmem x l); intuition congruence. Qed.
Lemma filter_sorted f l : zsorted l -> zsorted (filter f l).
Proof. unfold zsorted. induction 1 as [|z l H IH F]; simpl; [constructor|].
  destruct (f z); [|assumption]. constructor; [assumption|]. apply Forall_forall. intros y Hy.
  apply filter_In in Hy as [Hy _]. rewrite Forall_forall in F. auto. Qed.
Lemma zremove_in x y l : In y (zremove x l) <-> In y l /\ y <> x.
Proof. unfold zremove. rewrite filter_In. split; intros [H1 H2]; split; auto.
  - intro; subst. rewrite Z.eqb_refl in H2. discriminate.
  - destruct (Z.eqb_spec x y); [congruence|reflexivity]. Qed.
Lemma zsorted_ext a b : zsorted a -> zsorted b -> (forall x, In x a <-> In x b) -> a = b.
Proof.
  unfold zsorted. intro Ha; revert b. induction Ha as [|x a Ha IH Fa]; intros b Hb H.
  - destruct b as [|y b]; [reflexivity|]. exfalso. apply (H y). now left.
  - destruct Hb as [|y b Hb Fb]; [exfalso; apply (H x); now left|].
    rewrite Forall_forall in Fa, Fb.
    assert (x = y).
    { destruct (proj1 (H x) (or_introl eq_refl)) as [|H1]; [congruence|].
      destruct (proj2 (H y) (or_introl eq_refl)) as [|H2]; [congruence|].
      specialize (Fa _ H2). specialize (Fb _ H1). lia. }
    subst y. f_equal. apply IH; [assumption|]. intro z. specialize (H z). simpl in H. split; intro Hz.
    + destruct (proj1 H (or_intror Hz)); [|assumption]. subst. specialize (Fa _ Hz). lia.
    + destruct (proj2 H (or_intror Hz)); [|assumption]. subst. specialize (Fb _ Hz). lia.
Qed.
Lemma zsorted_nodup l : zsorted l -> NoDup l.
Proof. unfold zsorted. induction 1 as [|x l H IH F]; constructor; [|assumption].
  intro Hi. rewrite Forall_forall in F. specialize (F _ Hi). lia. Qed.
Lemma in_range_spec a b x : in_range a b x = true <-> (a <= x < b)%Z.
Proof. unfold in_range. lia. Qed.
