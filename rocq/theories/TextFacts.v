(** * TextFacts: the built-ins of PyBase.v produce the texts of Texts.v. *)
From Coq Require Import ZifyBool ZifyNat ZifyN.
From Verif Require Import PyBase BaseFacts Numerals NumeralFacts Texts.
Ltac Zify.zify_post_hook ::= Z.div_mod_to_equations.
Local Open Scope list_scope.

(** ** Numbers *)
Lemma decimal_dec ds : decimal ds = dec_value (map (fun d => (48 + d)%N) ds).
Proof.
  induction ds as [|d ds IH]; [reflexivity|]. cbn [decimal map].
  change (48 + d :: map (fun d => (48 + d)%N) ds)%N with ([48 + d]%N ++ map (fun d => (48 + d)%N) ds).
  rewrite dec_value_app, map_length, <- IH. unfold dec_value. cbn [fold_left]. f_equal. f_equal. lia.
Qed.
Lemma ascii_digits t : all_digits t -> exists ds, t = map (fun d => (48 + d)%N) ds /\ Forall (fun d => (d < 10)%N) ds.
Proof.
  induction 1 as [|c t Hc _ (ds & -> & F)]; [exists []; split; [reflexivity|constructor]|].
  exists ((c - 48)%N :: ds). unfold is_digit in Hc. split; [cbn [map]; f_equal; lia|]. constructor; [lia|assumption].
Qed.
Lemma digits_ascii ds : Forall (fun d => (d < 10)%N) ds -> all_digits (map (fun d => (48 + d)%N) ds).
Proof. intro F. apply Forall_map. eapply Forall_impl; [|exact F]. intros d H. apply andb_true_intro. split; apply N.leb_le; cbv beta in *; lia. Qed.
Lemma digits_same ds ds' : Forall (fun d => (d < 10)%N) ds -> Forall (fun d => (d < 10)%N) ds' -> length ds = length ds' ->
  decimal ds = decimal ds' -> ds = ds'.
Proof.
  intros F F' L H. rewrite !decimal_dec in H. apply dec_value_inj in H; [|now apply digits_ascii|now apply digits_ascii|now rewrite !map_length].
  revert H. clear. revert ds'. induction ds as [|d ds IH]; intros [|e ds'] H; try discriminate H; [reflexivity|].
  cbn [map] in H. injection H as H1 H2. f_equal; [lia|]. now apply IH.
Qed.
Lemma decimal_bound ds : Forall (fun d => (d < 10)%N) ds -> (decimal ds < 10 ^ N.of_nat (length ds))%N.
Proof. intro F. rewrite decimal_dec. rewrite <- (map_length (fun d => (48 + d)%N) ds). apply dec_value_bound. now apply digits_ascii. Qed.
Lemma decimal_lower d ds : d <> 0%N -> (10 ^ N.of_nat (length ds) <= decimal (d :: ds))%N.
Proof. intro H. cbn [decimal]. nia. Qed.
(** Digits with no zero in front have the length of the number. *)
Lemma digits_length d ds e es : Forall (fun d => (d < 10)%N) (d :: ds) -> Forall (fun d => (d < 10)%N) (e :: es) ->
  d <> 0%N -> e <> 0%N -> decimal (d :: ds) = decimal (e :: es) -> length (d :: ds) = length (e :: es).
Proof.
  intros F F' Hd He H. apply decimal_bound in F. apply decimal_bound in F'. apply (decimal_lower d ds) in Hd. apply (decimal_lower e es) in He.
  rewrite H in F, Hd. assert (10 ^ N.of_nat (length ds) < 10 ^ N.of_nat (length (e :: es)))%N as A by lia.
  assert (10 ^ N.of_nat (length es) < 10 ^ N.of_nat (length (d :: ds)))%N as B by lia.
  apply N.pow_lt_mono_r_iff in A; [|lia]. apply N.pow_lt_mono_r_iff in B; [|lia]. cbn [length] in *. lia.
Qed.
Lemma zero_padded_unique w n t t' : zero_padded w n t -> zero_padded w n t' -> t = t'.
Proof.
  intros (ds & -> & F & V & L & Z) (es & -> & F' & V' & L' & Z'). f_equal. assert (M : (1 <= Nat.max 1 w)%nat) by lia. generalize dependent (Nat.max 1 w). intros m L Z L' Z' M.
  apply digits_same; [assumption|assumption| |congruence].
  destruct ds as [|d ds]; [cbn in L; lia|]. destruct es as [|e es]; [cbn in L'; lia|].
  destruct (Nat.eq_dec m (length (d :: ds))) as [E|N], (Nat.eq_dec m (length (e :: es))) as [E'|N'].
  - congruence.
  - assert (e <> 0%N) as He by (intros ->; apply Z'; [lia|reflexivity]).
    apply decimal_bound in F. apply (decimal_lower e es) in He. rewrite V in F. rewrite V' in He.
    assert (10 ^ N.of_nat (length es) < 10 ^ N.of_nat (length (d :: ds)))%N as A by lia. apply N.pow_lt_mono_r_iff in A; [|lia]. cbn [length] in *. lia.
  - assert (d <> 0%N) as He by (intros ->; apply Z; [lia|reflexivity]).
    apply decimal_bound in F'. apply (decimal_lower d ds) in He. rewrite V in He. rewrite V' in F'.
    assert (10 ^ N.of_nat (length ds) < 10 ^ N.of_nat (length (e :: es)))%N as A by lia. apply N.pow_lt_mono_r_iff in A; [|lia]. cbn [length] in *. lia.
  - apply digits_length; try assumption; [intros ->; apply Z; [lia|reflexivity]|intros ->; apply Z'; [lia|reflexivity]|congruence].
Qed.
Lemma numeral_padded n t : numeral n t <-> zero_padded 0 n t.
Proof.
  split; intros (ds & -> & F & V & H); exists ds; split; [reflexivity| |reflexivity|].
  - destruct H as [H Z]. split; [assumption|]. split; [assumption|]. destruct ds as [|d ds]; [congruence|]. cbn [length] in *. split; [lia|].
    intros L [= ->]. specialize (Z eq_refl). injection Z as ->. cbn in L. lia.
  - destruct H as [L Z]. split; [assumption|]. split; [assumption|]. split; [intros ->; cbn in L; lia|]. intro H.
    destruct ds as [|d ds]; [discriminate H|]. injection H as ->. destruct ds as [|e ds]; [reflexivity|].
    exfalso. apply Z; [cbn; lia|reflexivity].
Qed.
Lemma dec_numeral n : numeral n (dec n).
Proof.
  destruct (dec_spec n) as (A & V & NE & H & H0). destruct (ascii_digits _ A) as (ds & E & F). exists ds. split; [assumption|]. split; [assumption|].
  split; [now rewrite decimal_dec, <- E|]. split; [intros ->; contradiction|]. intro Hd. destruct ds as [|d ds]; [discriminate Hd|]. injection Hd as ->.
  rewrite E in H. cbn in H. specialize (H eq_refl). specialize (H0 H). rewrite E in H0. destruct ds; [reflexivity|discriminate H0].
Qed.
Lemma numeral_dec n t : numeral n t <-> t = dec n.
Proof.
  split; [|intros ->; apply dec_numeral]. intro H. eapply zero_padded_unique; apply numeral_padded; [exact H|apply dec_numeral].
Qed.
Lemma zstr_numeral z t : int_numeral z t <-> t = zstr z.
Proof.
  unfold int_numeral. destruct z as [|p|p]; cbn [zstr].
  - rewrite numeral_dec. split; [intros [[_ H]|[H _]]; [exact H|lia]|intros ->; left; split; [lia|reflexivity]].
  - rewrite numeral_dec. split; [intros [[_ H]|[H _]]; [exact H|lia]|intros ->; left; split; [lia|reflexivity]].
  - split.
    + intros [[H _]|(_ & t' & -> & H)]; [lia|]. rewrite numeral_dec in H. now rewrite H.
    + intros ->. right. split; [lia|]. exists (dec (N.pos p)). split; [reflexivity|]. apply dec_numeral.
Qed.
Lemma decimal_zeros_app k ds : decimal (repeat 0%N k ++ ds) = decimal ds.
Proof. induction k as [|k IH]; [reflexivity|]. cbn [repeat app decimal]. rewrite IH. lia. Qed.
Lemma fmt0d_padded w n t : zero_padded w n t <-> t = fmt0d w n.
Proof.
  split; [intro H; eapply zero_padded_unique; [exact H|]|intros ->]; clear; destruct (dec_numeral n) as (ds & E & F & V & NE & Z);
    exists (repeat 0%N (w - length ds) ++ ds);
    (assert (L : (1 <= length ds)%nat) by (destruct ds; [congruence|cbn; lia]));
    (split; [unfold fmt0d, zfill; rewrite E, map_app, map_length; f_equal; clear; induction (w - length ds)%nat as [|k IH]; [reflexivity|cbn; now f_equal]|]);
    (split; [apply Forall_app; split; [apply Forall_forall; intros x Hx; apply repeat_spec in Hx; subst; lia|assumption]|]);
    (split; [now rewrite decimal_zeros_app|]); rewrite app_length, repeat_length;
    (split; [lia|]); intros HL; (replace (w - length ds)%nat with 0%nat in * by lia); cbn [repeat app] in *;
    intro Hd; specialize (Z Hd); subst ds; cbn [length] in HL; lia.
Qed.
Lemma to_be_spells w n b : to_be w n = Some b <-> length b = w /\ big_endian b = n.
Proof.
  rewrite <- from_be_value. unfold to_be. destruct (N.ltb_spec n (256 ^ N.of_nat w)) as [H|H].
  - split; [intros [= <-]; split; [apply be_digits_length|now apply from_be_be_digits]|].
    intros [<- <-]. now rewrite be_digits_from_be.
  - split; [discriminate|]. intros [<- <-]. pose proof (from_be_bound b). lia.
Qed.
Lemma lower_digit v : (v < 16)%N -> nth_error hex_digits (N.to_nat v) = Some (hexdig_lower v).
Proof. intro H. pose proof (nibble_cases v H) as A. repeat (destruct A as [->|A]; [reflexivity|]); subst; reflexivity. Qed.
Lemma hex_nibble v c : nth_error hex_digits (N.to_nat v) = Some c -> (v < 16)%N.
Proof. intro H. assert (A : nth_error hex_digits (N.to_nat v) <> None) by congruence; apply nth_error_Some in A; change (length hex_digits) with 16%nat in A; lia. Qed.
Lemma hex_lower b t : lower_hex b t <-> t = py_hex b.
Proof.
  revert t. induction b as [|x b IH]; intro t.
  - split; [inversion 1; reflexivity|intros ->; constructor].
  - split.
    + inversion 1 as [|? h l c d ? t' H3 H4 H5 H6]; subst. pose proof (hex_nibble _ _ H4). pose proof (hex_nibble _ _ H5).
      rewrite (lower_digit h) in H4 by assumption. rewrite (lower_digit l) in H5 by assumption. injection H4 as <-. injection H5 as <-.
      cbn [py_hex flat_map app]. unfold py_hex in IH. rewrite H3. f_equal; [f_equal; lia|]. f_equal; [f_equal; lia|]. now apply IH.
    + intros ->. pose proof (b2n_lt x). cbn [py_hex flat_map app]. apply LowerByte with (h := (b2n x / 16)%N) (l := (b2n x mod 16)%N);
        [lia|apply lower_digit; lia|apply lower_digit; lia|now apply IH].
Qed.
Lemma a2b_packed s b : a2b_hex s = Some b <-> packed_hex s b.
Proof.
  split.
  - revert b. induction s as [|c|c d r IH] using list_ind2; intros b H; cbn [a2b_hex] in H; [injection H as <-; constructor|discriminate|].
    destruct (hexval c) as [h|] eqn:Eh; [|discriminate]. destruct (hexval d) as [l|] eqn:El; [|discriminate]. destruct (a2b_hex r) as [t|]; [|discriminate].
    injection H as <-. apply hexval_digit in Eh, El. apply PackedByte with (h := h) (l := l); [assumption|assumption| |now apply IH].
    apply hex_digit_lt in Eh, El. rewrite b2n_n2b; lia.
  - induction 1 as [|c d h l x t b Hc Hd Hx _ IH]; [reflexivity|]. cbn [a2b_hex]. apply hexval_digit in Hc, Hd. rewrite Hc, Hd, IH, <- Hx, n2b_b2n. reflexivity.
Qed.
Lemma upper_capitals s t : Forall2 capital s t <-> t = py_upper s.
Proof.
  assert (C : forall c c', capital c c' <-> c' = upper_char c).
  { intros c c'. unfold upper_char. assert (I : In c small_letters <-> (97 <= c <= 122)%N).
    { change small_letters with (map N.of_nat (seq 97 26)). rewrite in_map_iff. split; [intros (k & <- & H); apply in_seq in H; lia|].
      intro H. exists (N.to_nat c). split; [lia|]. apply in_seq. lia. }
    split.
    - intros [(i & H & H')|[H ->]].
      + do 26 (destruct i as [|i]; [vm_compute in H, H'; injection H as <-; injection H' as <-; reflexivity|]). destruct i; discriminate H.
      + destruct ((97 <=? c) && (c <=? 122))%N eqn:E; [|reflexivity]. exfalso. apply H, I. lia.
    - intros ->. destruct ((97 <=? c) && (c <=? 122))%N eqn:E; [left|right; split; [rewrite I; lia|reflexivity]].
      assert (A : (97 <= c <= 122)%N) by lia. exists (N.to_nat (c - 97)). apply I in A. vm_compute in A.
      repeat (destruct A as [<-|A]; [split; reflexivity|]). destruct A. }
  split.
  - induction 1 as [|c c' s t H _ IH]; [reflexivity|]. cbn [py_upper map]. apply C in H. now rewrite H, IH.
  - intros ->. induction s as [|c s IH]; constructor; [now apply C|assumption].
Qed.

(** ** Sequences *)
Lemma slice_place {A} (s : list A) i : Z.to_nat (slice_index (zlen s) i) = place (length s) i.
Proof. unfold slice_index, place, zlen. destruct (i <? 0)%Z eqn:E; lia. Qed.
Lemma nth_error_firstn {A} (l : list A) n k : nth_error (firstn n l) k = if (k <? n)%nat then nth_error l k else None.
Proof.
  revert l k. induction n as [|n IH]; intros l k; cbn [firstn]; [destruct k; reflexivity|].
  destruct l as [|x l]; [destruct k; [reflexivity|]; now destruct (_ <? _)%nat|]. destruct k as [|k]; [reflexivity|]. cbn [nth_error]. rewrite IH. reflexivity.
Qed.
Lemma nth_error_skipn {A} (l : list A) n k : nth_error (skipn n l) k = nth_error l (n + k).
Proof. revert l. induction n as [|n IH]; intros l; [reflexivity|]. destruct l as [|x l]; [destruct k; reflexivity|]. apply IH. Qed.
Lemma nth_error_ext {A} (s t : list A) : (forall k, nth_error s k = nth_error t k) -> s = t.
Proof.
  revert t. induction s as [|x s IH]; intros [|y t] H; [reflexivity|specialize (H 0%nat); discriminate|specialize (H 0%nat); discriminate|].
  pose proof (H 0%nat) as H0. injection H0 as <-. f_equal. apply IH. intro k. exact (H (S k)).
Qed.
Lemma slice_stretch {A} (s : list A) i j t : stretch s i j t <-> t = py_slice s i j.
Proof.
  assert (S : stretch s i j (py_slice s i j)).
  { intro k. unfold py_slice. fold (zlen s). rewrite nth_error_firstn, nth_error_skipn, slice_place.
    replace (k <? Z.to_nat (slice_index (zlen s) j - slice_index (zlen s) i))%nat with (place (length s) i + k <? place (length s) j)%nat; [reflexivity|].
    rewrite <- !slice_place. assert (0 <= slice_index (zlen s) i)%Z by (unfold slice_index, zlen; destruct (i <? 0)%Z eqn:E; lia). lia. }
  split; [|now intros ->]. intro H. apply nth_error_ext. intro k. now rewrite H, S.
Qed.
Lemma join_joined sep l t : joined sep l t <-> t = join sep l.
Proof.
  split.
  - induction 1 as [|x|x y l t _ ->]; reflexivity.
  - intros ->. induction l as [|x l IH]; [constructor|]. destruct l as [|y l]; [constructor|]. cbn [join]. now constructor.
Qed.
Lemma ljust_justified w s t : left_justified w s t <-> t = ljust w s.
Proof.
  unfold ljust. split.
  - intros (pad & -> & F & L). f_equal. rewrite app_length in L. replace (w - length s)%nat with (length pad) by lia. clear L.
    induction F as [|c pad <- _ IH]; [reflexivity|]. cbn. now f_equal.
  - intros ->. exists (repeat 32%N (w - length s)). split; [reflexivity|]. split; [|rewrite app_length, repeat_length; lia].
    apply Forall_forall. intros c H. apply repeat_spec in H. congruence.
Qed.
Lemma between_join sep l : between sep l = join sep l.
Proof. induction l as [|x l IH]; [reflexivity|]. destruct l as [|y l]; [reflexivity|]. cbn [between join] in *. now rewrite IH. Qed.
Lemma listed_repr l : listed l = list_repr l.
Proof. unfold listed, list_repr. now rewrite between_join. Qed.
