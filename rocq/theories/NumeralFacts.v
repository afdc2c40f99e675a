(** * NumeralFacts: the built-ins of PyBase.v against Numerals.v. *)
From Coq Require Import ZifyBool ZifyNat ZifyN.
From Verif Require Import PyBase BaseFacts Numerals.

(** ** Binary numbers *)
Lemma from_be_fold s : forall acc,
  fold_left (fun acc b => (acc * 256 + b2n b)%N) s acc
  = (acc * 256 ^ N.of_nat (length s) + big_endian s)%N.
Proof.
  induction s as [|b s IH]; intro acc; cbn [fold_left big_endian length]; [rewrite N.pow_0_r; lia|].
  rewrite IH, Nat2N.inj_succ, N.pow_succ_r'. lia.
Qed.
Lemma from_be_value s : from_be s = big_endian s.
Proof. unfold from_be. rewrite from_be_fold. lia. Qed.

(** ** Hexadecimal *)
Lemma nibble_cases v : (v < 16)%N ->
  v = 0%N \/ v = 1%N \/ v = 2%N \/ v = 3%N \/ v = 4%N \/ v = 5%N \/ v = 6%N \/ v = 7%N \/ v = 8%N
  \/ v = 9%N \/ v = 10%N \/ v = 11%N \/ v = 12%N \/ v = 13%N \/ v = 14%N \/ v = 15%N.
Proof. lia. Qed.
Ltac nibbles H := apply nibble_cases in H;
  repeat match type of H with _ \/ _ => destruct H as [H|H] end.
Lemma HEX_digit_eq v : (v < 16)%N -> HEX_digit v = hexdig_upper v.
Proof. intro H. nibbles H; subst; reflexivity. Qed.
Lemma hex_digit_lt c v : hex_digit c v -> (v < 16)%N.
Proof.
  assert (G : forall l, length l = 16%nat -> nth_error l (N.to_nat v) = Some c -> (v < 16)%N).
  { intros l Hl H. assert (H' : nth_error l (N.to_nat v) <> None) by congruence. apply nth_error_Some in H'. lia. }
  intros [H|H]; (eapply G; [|exact H]; reflexivity).
Qed.
Lemma hexval_digit c v : hexval c = Some v <-> hex_digit c v.
Proof.
  split.
  - intro H. pose proof (hexval_lt _ _ H) as Hv. unfold hexval in H.
    destruct ((48 <=? c) && (c <=? 57))%N eqn:E1; [|destruct ((97 <=? c) && (c <=? 102))%N eqn:E2; [|destruct ((65 <=? c) && (c <=? 70))%N eqn:E3; [|discriminate]]];
      injection H as H.
    + left. assert (c = 48 + v)%N as -> by lia. assert (v < 10)%N by lia. clear - Hv H0.
      nibbles Hv; subst; try lia; reflexivity.
    + right. assert (c = 87 + v)%N as -> by lia. assert (10 <= v)%N by lia. clear - Hv H0.
      nibbles Hv; subst; try lia; reflexivity.
    + left. assert (c = 55 + v)%N as -> by lia. assert (10 <= v)%N by lia. clear - Hv H0.
      nibbles Hv; subst; try lia; reflexivity.
  - intro H. pose proof (hex_digit_lt _ _ H) as Hv. nibbles Hv; subst; destruct H as [H|H]; cbn in H; injection H as <-; reflexivity.
Qed.
Lemma c_space_blank c : c_space c = true <-> blank c.
Proof. unfold c_space, blank. cbn [In]. split; [lia|]. intros. lia. Qed.
Lemma c_space_not_blank c : c_space c = false <-> ~ blank c.
Proof. rewrite <- c_space_blank. destruct (c_space c); split; congruence. Qed.
Lemma hexval_not_space c v : hexval c = Some v -> c_space c = false.
Proof. unfold hexval, c_space. repeat match goal with |- context [if ?b then _ else _] => destruct b eqn:? end; try discriminate; intros _; lia. Qed.
Lemma fromhex_skip ws t : Forall blank ws -> fromhex (ws ++ t) = fromhex t.
Proof.
  induction 1 as [|c ws Hc _ IH]; [reflexivity|]. cbn [app fromhex]. apply c_space_blank in Hc. now rewrite Hc.
Qed.
Lemma fromhex_spelling t b : fromhex t = Some b <-> hex_spelling t b.
Proof.
  split.
  - revert b. cut (forall n, (length t <= n)%nat -> forall b, fromhex t = Some b -> hex_spelling t b); [eauto|].
    intro n. revert t. induction n as [|n IH]; intros t Hn b H.
    + destruct t; [|cbn in Hn; lia]. injection H as <-. now constructor.
    + destruct t as [|c t]; [injection H as <-; now constructor|]. cbn [fromhex] in H. cbn [length] in Hn.
      destruct (c_space c) eqn:Hc.
      * apply c_space_blank in Hc. apply IH in H; [|lia]. destruct H as [ws Hw|ws c' d h l x t b Hw H1 H2 Hx Ht].
        -- constructor. now constructor.
        -- rewrite app_comm_cons. econstructor; eauto.
      * destruct t as [|d t]; [discriminate|]. destruct (hexval c) as [h|] eqn:Hh; [|discriminate].
        destruct (hexval d) as [l|] eqn:Hl; [|discriminate]. destruct (fromhex t) as [b'|] eqn:Hf; [|discriminate].
        injection H as <-. apply IH in Hf; [|cbn in Hn; lia].
        apply (HexByte [] c d h l); [constructor|now apply hexval_digit|now apply hexval_digit| |assumption].
        apply hexval_lt in Hh, Hl. apply b2n_n2b. lia.
  - induction 1 as [ws H|ws c d h l x t b Hw H1 H2 Hx _ IH].
    + rewrite <- (app_nil_r ws), fromhex_skip by assumption. reflexivity.
    + rewrite fromhex_skip by assumption. cbn [fromhex]. apply hexval_digit in H1, H2.
      rewrite (hexval_not_space _ _ H1), H1, H2, IH, <- Hx, n2b_b2n. reflexivity.
Qed.
Lemma fromhex_none t : fromhex t = None <-> not_hex t.
Proof.
  split.
  - intros H b Hb. apply fromhex_spelling in Hb. congruence.
  - intro H. destruct (fromhex t) as [b|] eqn:Hf; [|reflexivity]. apply fromhex_spelling in Hf. now apply H in Hf.
Qed.

Lemma hex_spelling_unique t a b : hex_spelling t a -> hex_spelling t b -> a = b.
Proof. intros H1 H2. apply fromhex_spelling in H1, H2. congruence. Qed.

(** ** int(str) *)
Lemma int_char_cases E c :
  (exists d, digit E c d /\ int_char E c = (48 + d)%N)
  \/ (int_blank E c /\ c_space (int_char E c) = true)
  \/ (c = 43%N /\ int_char E c = c) \/ (c = 45%N /\ int_char E c = c) \/ (c = 95%N /\ int_char E c = c)
  \/ (is_digit (int_char E c) = false /\ c_space (int_char E c) = false
      /\ (int_char E c <> 43 /\ int_char E c <> 45 /\ int_char E c <> 95)%N).
Proof.
  unfold int_char, digit, int_blank. destruct (c <? 127)%N eqn:Hc.
  - destruct (is_digit c) eqn:Hd.
    + left. exists (c - 48)%N. unfold is_digit in Hd. split; [split; [lia|left; lia]|lia].
    + destruct (c_space c) eqn:Hs; [right; left; split; [left; now apply c_space_blank|reflexivity]|]. right; right.
      destruct (N.eq_dec c 43), (N.eq_dec c 45), (N.eq_dec c 95); subst; auto 6. repeat right. auto.
  - destruct (u_space E c) eqn:Hs; [right; left; split; [right; split; [lia|reflexivity]|reflexivity]|].
    destruct (u_decimal E c) as [d|] eqn:Hd.
    + destruct (d <? 10)%N eqn:Hl.
      * left. exists d. split; [split; [lia|right; repeat split; auto; lia]|reflexivity].
      * repeat right. repeat split; try reflexivity; discriminate.
    + repeat right. repeat split; try reflexivity; discriminate.
Qed.
Lemma digit_char E c d : digit E c d -> int_char E c = (48 + d)%N.
Proof.
  unfold int_char. intros [Hd [->|(Hc & Hs & Hv)]].
  - destruct (48 + d <? 127)%N eqn:?; [reflexivity|lia].
  - destruct (c <? 127)%N eqn:?; [lia|]. rewrite Hs, Hv. destruct (d <? 10)%N eqn:?; [reflexivity|lia].
Qed.
Lemma blank_char E c : int_blank E c -> c_space (int_char E c) = true.
Proof.
  unfold int_char. intros [H|[H Hs]].
  - apply c_space_blank in H. destruct (c <? 127)%N eqn:?; [assumption|unfold c_space in H; lia].
  - destruct (c <? 127)%N eqn:?; [lia|]. rewrite Hs. reflexivity.
Qed.
Lemma small_char E c : (c < 127)%N -> int_char E c = c.
Proof. unfold int_char. intro. destruct (c <? 127)%N eqn:?; [reflexivity|lia]. Qed.
Lemma char_blank E c : c_space (int_char E c) = true -> int_blank E c.
Proof.
  intro H. destruct (int_char_cases E c) as [(d & [Hd _] & Hc)|[[Hb _]|[[-> Hc]|[[-> Hc]|[[-> Hc]|(_ & Hs & _)]]]]]; auto;
    try (rewrite Hc in H; unfold c_space in H; lia). congruence.
Qed.
Lemma char_digit E c : is_digit (int_char E c) = true -> exists d, digit E c d /\ int_char E c = (48 + d)%N.
Proof.
  intro H. destruct (int_char_cases E c) as [Hd|[[_ Hs]|[[-> Hc]|[[-> Hc]|[[-> Hc]|(Hd & _)]]]]]; auto;
    try (rewrite Hc in H; discriminate); try congruence.
  unfold c_space in Hs. unfold is_digit in H. lia.
Qed.
Lemma char_under E c : int_char E c = 95%N -> c = 95%N.
Proof.
  intro H. destruct (int_char_cases E c) as [(d & [Hd _] & Hc)|[[_ Hs]|[[-> Hc]|[[-> Hc]|[[-> Hc]|(_ & _ & Hn)]]]]]; auto; try lia.
  - rewrite H in Hs. discriminate.
Qed.
Lemma char_sign E c k : k = 43%N \/ k = 45%N -> int_char E c = k -> c = k.
Proof.
  intros Hk H. destruct (int_char_cases E c) as [(d & [Hd _] & Hc)|[[_ Hs]|[[-> Hc]|[[-> Hc]|[[-> Hc]|(_ & _ & Hn)]]]]]; auto; try lia.
  - rewrite H in Hs. destruct Hk; subst k; discriminate.
Qed.

(** [int_digits] reads digits, single underscores and trailing blanks. *)
Lemma blanks_map E ws : Forall (int_blank E) ws <-> forallb c_space (map (int_char E) ws) = true.
Proof.
  rewrite forallb_forall, Forall_forall. split.
  - intros H x Hx. apply in_map_iff in Hx. destruct Hx as (c & <- & Hc). apply blank_char. auto.
  - intros H c Hc. apply char_blank, H, in_map, Hc.
Qed.
Definition dval (acc : N) (ds : list N) : N := (acc * 10 ^ N.of_nat (length ds) + decimal ds)%N.
Lemma dval_cons acc d ds : dval acc (d :: ds) = dval (acc * 10 + d) ds.
Proof. unfold dval. cbn [length decimal]. rewrite Nat2N.inj_succ, N.pow_succ_r'. lia. Qed.
(** What is left to read: [prev] says whether a digit was just read. *)
Definition tail_text (E : pyenv) (prev : bool) (t : pystr) (ds : list N) : Prop :=
  exists body ws, t = body ++ ws /\ Forall (int_blank E) ws /\
    (digits E body ds
     \/ prev = true /\ (body = [] /\ ds = [] \/ exists b, body = 95%N :: b /\ digits E b ds)).
Lemma digits_head E c d b ds : digit E c d -> (digits E b ds \/ b = [] /\ ds = [] \/ exists b', b = 95%N :: b' /\ digits E b' ds) ->
  digits E (c :: b) (d :: ds).
Proof. intros Hc [H|[[-> ->]|(b' & -> & H)]]; constructor; assumption. Qed.
Lemma int_digits_sound E t : forall prev acc cnt v n,
  int_digits (map (int_char E) t) prev acc cnt = Some (v, n) ->
  exists ds, tail_text E prev t ds /\ v = dval acc ds /\ n = (cnt + N.of_nat (length ds))%N.
Proof.
  induction t as [|c t IH]; intros prev acc cnt v n H; cbn [map int_digits] in H.
  - destruct prev; [|discriminate]. injection H as <- <-. exists []. split; [|unfold dval; cbn; lia].
    exists [], []. repeat split; auto.
  - destruct (is_digit (int_char E c)) eqn:Hd.
    + apply char_digit in Hd. destruct Hd as (d & Hd & Hc). rewrite Hc in H.
      replace (48 + d - 48)%N with d in H by lia. apply IH in H. destruct H as (ds & (body & ws & -> & Hw & Hb) & -> & ->).
      exists (d :: ds). rewrite dval_cons. cbn [length]. split; [|split; [reflexivity|lia]].
      exists (c :: body), ws. split; [reflexivity|]. split; [assumption|]. left. apply digits_head; [assumption|]. tauto.
    + destruct (int_char E c =? 95)%N eqn:Hu.
      * destruct prev; [|discriminate]. assert (c = 95%N) as -> by (apply (char_under E); lia).
        apply IH in H. destruct H as (ds & (body & ws & -> & Hw & [Hb|[Hf _]]) & -> & ->); [|discriminate].
        exists ds. split; [|auto]. exists (95%N :: body), ws. split; [reflexivity|]. split; [assumption|]. right. eauto 6.
      * destruct prev; [|discriminate]. change (int_char E c :: map (int_char E) t) with (map (int_char E) (c :: t)) in H.
        cbn [andb] in H. destruct (forallb c_space (map (int_char E) (c :: t))) eqn:Hs; [|discriminate]. apply blanks_map in Hs. injection H as <- <-.
        exists []. split; [|unfold dval; cbn; lia]. exists [], (c :: t). split; [reflexivity|]. split; [assumption|]. right. auto.
Qed.
Lemma int_digits_blanks E ws acc cnt : Forall (int_blank E) ws ->
  int_digits (map (int_char E) ws) true acc cnt = Some (acc, cnt).
Proof.
  intro H. destruct ws as [|c ws]; [reflexivity|]. pose proof H as Hm. apply blanks_map in Hm. cbn [map int_digits].
  pose proof (Forall_inv H) as Hc. apply blank_char in Hc.
  replace (is_digit (int_char E c)) with false by (unfold c_space in Hc; unfold is_digit; lia).
  replace (int_char E c =? 95)%N with false by (unfold c_space in Hc; lia).
  cbn [map] in Hm. rewrite Hm. reflexivity.
Qed.
Lemma int_digits_step E c d t prev acc cnt : digit E c d ->
  int_digits (map (int_char E) (c :: t)) prev acc cnt
  = int_digits (map (int_char E) t) true (acc * 10 + d)%N (cnt + 1)%N.
Proof.
  intro H. cbn [map int_digits]. rewrite (digit_char _ _ _ H). destruct H as [Hd _].
  replace (is_digit (48 + d)) with true by (unfold is_digit; lia). repeat f_equal. lia.
Qed.
Lemma int_digits_body E ws body ds : Forall (int_blank E) ws -> digits E body ds -> forall prev acc cnt,
  int_digits (map (int_char E) (body ++ ws)) prev acc cnt
  = Some (dval acc ds, (cnt + N.of_nat (length ds))%N).
Proof.
  intros Hw H. induction H as [c d Hc|c d t ds Hc _ IH|c d t ds Hc _ IH]; intros prev acc cnt; cbn [app];
    rewrite (int_digits_step _ _ _ _ _ _ _ Hc), dval_cons; cbn [length].
  - rewrite int_digits_blanks by assumption. unfold dval. cbn. f_equal. f_equal; lia.
  - rewrite IH. do 2 f_equal. lia.
  - change ((95%N :: t) ++ ws) with (95%N :: t ++ ws). cbn [map]. rewrite small_char by lia. cbn [int_digits].
    change (is_digit 95) with false. change (95 =? 95)%N with true. cbv iota. rewrite IH. do 2 f_equal. lia.
Qed.
Lemma int_unsigned_iff E t v :
  int_unsigned E (map (int_char E) t) = Some v <->
  exists body ws ds, t = body ++ ws /\ Forall (int_blank E) ws /\ digits E body ds
    /\ within_digit_limit E (length ds) /\ v = decimal ds.
Proof.
  unfold int_unsigned, within_digit_limit. split.
  - destruct (int_digits _ _ _ _) as [[v' n]|] eqn:H; [|discriminate]. apply int_digits_sound in H.
    destruct H as (ds & (body & ws & -> & Hw & [Hb|[Hf _]]) & -> & ->); [|discriminate]. intro H.
    exists body, ws, ds. repeat split; auto.
    + intros m Hm. rewrite Hm in H. destruct (m <? _)%N eqn:Hl; [discriminate|lia].
    + destruct (int_max_digits E) as [m|]; [destruct (m <? _)%N; [discriminate|]|]; injection H as <-; unfold dval; lia.
  - intros (body & ws & ds & -> & Hw & Hb & Hl & ->). rewrite (int_digits_body _ _ _ _ Hw Hb).
    destruct (int_max_digits E) as [m|]; [|unfold dval; f_equal; lia]. specialize (Hl m eq_refl).
    destruct (m <? _)%N eqn:?; [lia|]. reflexivity.
Qed.
Lemma lstrip_split E t : exists ws t', t = ws ++ t' /\ Forall (int_blank E) ws
  /\ lstrip_c (map (int_char E) t) = map (int_char E) t'
  /\ (forall c r, t' = c :: r -> ~ int_blank E c).
Proof.
  induction t as [|c t (ws & t' & -> & Hw & Hs & Hn)].
  - exists [], []. repeat split; auto. discriminate.
  - cbn [map lstrip_c]. destruct (c_space (int_char E c)) eqn:Hc.
    + exists (c :: ws), t'. repeat split; auto. constructor; [now apply char_blank|assumption].
    + exists [], (c :: ws ++ t'). repeat split; auto. intros c' r H. injection H as <- <-. intro Hb. apply blank_char in Hb. congruence.
Qed.
Lemma lstrip_blanks E ws c r : Forall (int_blank E) ws -> c_space (int_char E c) = false ->
  lstrip_c (map (int_char E) (ws ++ c :: r)) = map (int_char E) (c :: r).
Proof.
  induction 1 as [|w ws Hw _ IH]; intro Hc; cbn [app map lstrip_c].
  - now rewrite Hc.
  - rewrite (blank_char _ _ Hw). auto.
Qed.
Lemma digits_nonempty E b ds : digits E b ds -> exists c d b', b = c :: b' /\ digit E c d.
Proof. destruct 1; eauto. Qed.
Lemma py_int_text E t n : py_int E t = Some n <-> int_text E t n.
Proof.
  unfold py_int, int_text. split.
  - destruct (lstrip_split E t) as (ws & t' & -> & Hw & -> & Hn). destruct t' as [|c r]; [discriminate|]. cbn [map].
    destruct (int_char E c =? 43)%N eqn:E1; [|destruct (int_char E c =? 45)%N eqn:E2].
    + assert (c = 43%N) as -> by (apply (char_sign E); auto; lia). destruct (int_unsigned _ _) as [v|] eqn:Hu; [|discriminate].
      intro H. injection H as <-. apply int_unsigned_iff in Hu. destruct Hu as (body & ws' & ds & -> & Hw' & Hb & Hl & ->).
      exists ws, [43%N], body, ws', ds. repeat split; auto. constructor.
    + assert (c = 45%N) as -> by (apply (char_sign E); auto; lia). destruct (int_unsigned _ _) as [v|] eqn:Hu; [|discriminate].
      intro H. injection H as <-. apply int_unsigned_iff in Hu. destruct Hu as (body & ws' & ds & -> & Hw' & Hb & Hl & ->).
      exists ws, [45%N], body, ws', ds. repeat split; auto. constructor.
    + change (int_char E c :: map (int_char E) r) with (map (int_char E) (c :: r)).
      destruct (int_unsigned _ _) as [v|] eqn:Hu; [|discriminate].
      intro H. injection H as <-. apply int_unsigned_iff in Hu. destruct Hu as (body & ws' & ds & He & Hw' & Hb & Hl & ->).
      exists ws, [], body, ws', ds. rewrite He. repeat split; auto. constructor.
  - intros (ws & sg & body & ws' & ds & -> & Hw & Hw' & Hb & Hl & Hs).
    assert (Hu : int_unsigned E (map (int_char E) (body ++ ws')) = Some (decimal ds)) by (apply int_unsigned_iff; eauto 8).
    destruct Hs; cbn [app].
    + destruct (digits_nonempty _ _ _ Hb) as (c & d & b' & -> & Hc). cbn [app] in *.
      pose proof (digit_char _ _ _ Hc) as Hi. destruct Hc as [Hd _].
      rewrite lstrip_blanks by (auto; rewrite Hi; unfold c_space; lia). cbn [map]. cbn [map] in Hu.
      destruct (int_char E c =? 43)%N eqn:?; [lia|]. destruct (int_char E c =? 45)%N eqn:?; [lia|]. rewrite Hu. reflexivity.
    + rewrite lstrip_blanks by (auto; rewrite small_char by lia; reflexivity). cbn [map]. rewrite small_char by lia. cbn [N.eqb Pos.eqb].
      rewrite Hu. reflexivity.
    + rewrite lstrip_blanks by (auto; rewrite small_char by lia; reflexivity). cbn [map]. rewrite small_char by lia. cbn [N.eqb Pos.eqb].
      rewrite Hu. reflexivity.
Qed.
Lemma py_int_no_text E t : py_int E t = None <-> not_int E t.
Proof.
  split.
  - intros H n Hn. apply py_int_text in Hn. congruence.
  - intro H. destruct (py_int E t) as [n|] eqn:Hp; [|reflexivity]. apply py_int_text in Hp. now apply H in Hp.
Qed.
Lemma int_text_unique E t m n : int_text E t m -> int_text E t n -> m = n.
Proof. intros H1 H2. apply py_int_text in H1, H2. congruence. Qed.
