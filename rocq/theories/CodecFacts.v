(** * CodecFacts: the codecs and tables of CPython311 satisfy the hypotheses used elsewhere. *)
From Coq Require Import ZifyBool ZifyNat ZifyN.
From Verif Require Import PyBase BaseFacts Types Wire CPython311.
Ltac Zify.zify_post_hook ::= Z.div_mod_to_equations.

Lemma mapM_length {A B} (f : A -> option B) l m : mapM f l = Some m -> length m = length l.
Proof.
  revert m. induction l as [|a l IH]; intros m; cbn [mapM]; [intros [= <-]; reflexivity|].
  destruct (f a); [|discriminate]. destruct (mapM f l) as [m'|]; [|discriminate]. intros [= <-].
  cbn [length]. now rewrite (IH m').
Qed.
Lemma mapM_inverse {A B} (f : A -> option B) (g : B -> option A) :
  (forall a b, f a = Some b -> g b = Some a) -> forall l m, mapM f l = Some m -> mapM g m = Some l.
Proof.
  intros H. induction l as [|a l IH]; intros m; cbn [mapM]; [intros [= <-]; reflexivity|].
  destruct (f a) as [b|] eqn:Hf; [|discriminate]. destruct (mapM f l) as [m'|]; [|discriminate]. intros [= <-].
  cbn [mapM]. now rewrite (H _ _ Hf), (IH m' eq_refl).
Qed.

Lemma index_of_spec c l : forall i j, index_of c l i = Some j -> (i <= j)%N /\ nth_error l (N.to_nat (j - i)) = Some c.
Proof.
  induction l as [|x l IH]; intros i j; cbn [index_of]; [discriminate|].
  destruct (N.eqb_spec c x) as [->|].
  - intros [= <-]. split; [lia|]. now rewrite N.sub_diag.
  - intro H. apply IH in H as [H1 H2]. split; [lia|]. replace (N.to_nat (j - i)) with (S (N.to_nat (j - (i + 1)))) by lia.
    exact H2.
Qed.
Lemma index_of_complete c l : forall i k, nth_error l k = Some c -> NoDup l -> index_of c l i = Some (i + N.of_nat k)%N.
Proof.
  induction l as [|x l IH]; intros i k H Hn; [destruct k; discriminate|]. inversion Hn as [|? ? Hx Hn']; subst.
  cbn [index_of]. destruct k as [|k]; cbn [nth_error] in H.
  - injection H as ->. rewrite N.eqb_refl. f_equal. lia.
  - destruct (N.eqb_spec c x) as [->|]; [exfalso; apply Hx; eapply nth_error_In; eassumption|].
    rewrite (IH _ k H Hn'). f_equal. lia.
Qed.
Fixpoint nodupb (l : list N) : bool :=
  match l with [] => true | x :: l' => negb (existsb (N.eqb x) l') && nodupb l' end.
Lemma nodupb_nodup l : nodupb l = true -> NoDup l.
Proof.
  induction l as [|x l IH]; cbn [nodupb]; intro H; constructor; apply andb_true_iff in H as [H1 H2]; [|auto].
  intro Hi. apply negb_true_iff in H1. assert (existsb (N.eqb x) l = true); [|congruence].
  apply existsb_exists. exists x. split; [assumption|apply N.eqb_refl].
Qed.
Lemma cp500_nodup : NoDup cp500_table.
Proof. apply nodupb_nodup. vm_compute. reflexivity. Qed.
Lemma cp500_length : length cp500_table = 256%nat.
Proof. vm_compute. reflexivity. Qed.

(** ** Single-byte codecs *)
Definition good (c : codec) : Prop :=
  (forall s b, c_enc c s = Some b -> c_dec c b = Some s)
  /\ (forall s b, c_dec c b = Some s -> c_enc c s = Some b)
  /\ (forall s b, c_dec c b = Some s -> (length s <= length b)%nat)
  /\ (forall s b, Forall (fun c => (c < 128)%N) s -> c_enc c s = Some b -> length b = length s).

Lemma charmap_good enc dec : (forall c b, enc c = Some b -> dec b = Some c) -> (forall c b, dec b = Some c -> enc c = Some b) ->
  good (charmap enc dec).
Proof.
  intros H1 H2. unfold good, charmap. cbn [c_enc c_dec]. repeat split.
  - intros s b. now apply mapM_inverse.
  - intros s b. apply mapM_inverse. auto.
  - intros s b H. apply mapM_length in H. lia.
  - intros s b _ H. apply mapM_length in H. lia.
Qed.
Lemma ascii_good : good ascii_codec.
Proof.
  apply charmap_good; intros c b; cbv beta.
  - destruct (c <? 128)%N eqn:E1; [|discriminate]. intros [= <-]. rewrite b2n_n2b by lia. now rewrite E1.
  - destruct (b2n b <? 128)%N eqn:E1; [|discriminate]. intros [= <-]. rewrite E1. now rewrite n2b_b2n.
Qed.
Lemma latin1_good : good latin1_codec.
Proof.
  apply charmap_good; intros c b; cbv beta.
  - destruct (c <? 256)%N eqn:E1; [|discriminate]. intros [= <-]. now rewrite b2n_n2b by lia.
  - intros [= <-]. pose proof (b2n_lt b). replace (b2n b <? 256)%N with true by lia. now rewrite n2b_b2n.
Qed.
Lemma cp500_good : good cp500_codec.
Proof.
  apply charmap_good; intros c b; cbv beta.
  - destruct (index_of c cp500_table 0) as [i|] eqn:Hi; [|discriminate]. intros [= <-].
    apply index_of_spec in Hi as [_ Hi]. rewrite N.sub_0_r in Hi.
    assert (Hl : (N.to_nat i < 256)%nat).
    { rewrite <- cp500_length. apply nth_error_Some. congruence. }
    rewrite b2n_n2b by lia. exact Hi.
  - intro H. apply (index_of_complete c cp500_table 0) in H; [|apply cp500_nodup].
    rewrite H. cbn [option_map]. f_equal. rewrite <- (n2b_b2n b) at 2. f_equal. lia.
Qed.

(** ** utf-8 *)
Lemma cont_spec b x : cont b = Some x <-> b = n2b (128 + x) /\ (x < 64)%N.
Proof.
  unfold cont. pose proof (b2n_lt b). split.
  - destruct ((128 <=? b2n b) && (b2n b <? 192))%N eqn:E1; [|discriminate]. intros [= <-]. split; [|lia].
    rewrite <- (n2b_b2n b) at 1. f_equal. lia.
  - intros [-> Hx]. rewrite b2n_n2b by lia. replace (_ && _)%bool with true by lia. f_equal. lia.
Qed.
Lemma cont_n2b x : (x < 64)%N -> cont (n2b (128 + x)) = Some x.
Proof. intro H. apply cont_spec. auto. Qed.

Lemma utf8_char_dec c x rest : utf8_char c = Some x ->
  utf8_dec (x ++ rest) = match utf8_dec rest with Some s => Some (c :: s) | None => None end.
Proof.
  unfold utf8_char. intro H.
  destruct (c <? 128)%N eqn:E1.
  { injection H as <-. cbn [app utf8_dec]. rewrite b2n_n2b by lia. rewrite E1. reflexivity. }
  destruct (c <? 2048)%N eqn:E2.
  { injection H as <-. cbn [app utf8_dec]. rewrite b2n_n2b by lia.
    replace (192 + c / 64 <? 128)%N with false by lia. replace (192 + c / 64 <? 194)%N with false by lia.
    replace (192 + c / 64 <? 224)%N with true by lia. rewrite cont_n2b by lia.
    replace ((192 + c / 64 - 192) * 64 + c mod 64)%N with c by lia. reflexivity. }
  destruct (is_surrogate c) eqn:E3; [discriminate|].
  destruct (c <? 65536)%N eqn:E4.
  { injection H as <-. cbn [app utf8_dec]. rewrite b2n_n2b by lia.
    replace (224 + c / 4096 <? 128)%N with false by lia. replace (224 + c / 4096 <? 194)%N with false by lia.
    replace (224 + c / 4096 <? 224)%N with false by lia. replace (224 + c / 4096 <? 240)%N with true by lia.
    rewrite !cont_n2b by lia. cbv zeta.
    replace ((224 + c / 4096 - 224) * 4096 + (c / 64) mod 64 * 64 + c mod 64)%N with c by lia. rewrite E2, E3. reflexivity. }
  destruct (c <? 1114112)%N eqn:E5; [|discriminate].
  injection H as <-. cbn [app utf8_dec]. rewrite b2n_n2b by lia.
  replace (240 + c / 262144 <? 128)%N with false by lia. replace (240 + c / 262144 <? 194)%N with false by lia.
  replace (240 + c / 262144 <? 224)%N with false by lia. replace (240 + c / 262144 <? 240)%N with false by lia.
  replace (240 + c / 262144 <? 245)%N with true by lia.
  rewrite !cont_n2b by lia. cbv zeta.
  replace ((240 + c / 262144 - 240) * 262144 + (c / 4096) mod 64 * 4096 + (c / 64) mod 64 * 64 + c mod 64)%N with c by lia.
  replace ((c <? 65536) || (1114112 <=? c))%N with false by lia. reflexivity.
Qed.
Lemma utf8_enc_dec s : forall b, utf8_enc s = Some b -> utf8_dec b = Some s.
Proof.
  induction s as [|c s IH]; intros b; cbn [utf8_enc]; [intros [= <-]; reflexivity|].
  destruct (utf8_char c) as [x|] eqn:Hc; [|discriminate]. destruct (utf8_enc s) as [r|]; [|discriminate].
  intros [= <-]. rewrite (utf8_char_dec _ _ _ Hc), (IH r eq_refl). reflexivity.
Qed.

(** One step of decoding undoes one step of encoding. *)
Lemma utf8_dec_step b0 r0 s : utf8_dec (b0 :: r0) = Some s ->
  exists c x rest s', b0 :: r0 = x ++ rest /\ s = c :: s' /\ utf8_char c = Some x /\ utf8_dec rest = Some s' /\ x <> [].
Proof.
  pose proof (b2n_lt b0) as Hb0. pose proof (n2b_b2n b0) as Hb. cbn [utf8_dec].
  destruct (b2n b0 <? 128)%N eqn:E1.
  { destruct (utf8_dec r0) as [s'|] eqn:Hr; [|discriminate]. intros [= <-].
    exists (b2n b0), [b0], r0, s'. repeat split; try assumption; try discriminate.
    unfold utf8_char. now rewrite E1, Hb. }
  destruct (b2n b0 <? 194)%N eqn:E2; [discriminate|].
  destruct (b2n b0 <? 224)%N eqn:E3.
  { destruct r0 as [|b1 r1]; [discriminate|]. destruct (cont b1) as [x1|] eqn:C1; [|discriminate].
    apply cont_spec in C1 as [-> L1].
    destruct (utf8_dec r1) as [s'|] eqn:Hr; [|discriminate]. intros [= <-].
    set (c := ((b2n b0 - 192) * 64 + x1)%N).
    exists c, [b0; n2b (128 + x1)], r1, s'. repeat split; try assumption; try discriminate.
    unfold utf8_char. replace (c <? 128)%N with false by (unfold c; lia). replace (c <? 2048)%N with true by (unfold c; lia).
    replace (192 + c / 64)%N with (b2n b0) by (unfold c; lia). replace (c mod 64)%N with x1 by (unfold c; lia).
    now rewrite Hb. }
  destruct (b2n b0 <? 240)%N eqn:E4.
  { destruct r0 as [|b1 [|b2 r2]]; try discriminate. destruct (cont b1) as [x1|] eqn:C1; [|discriminate].
    destruct (cont b2) as [x2|] eqn:C2; [|discriminate].
    apply cont_spec in C1 as [-> L1]. apply cont_spec in C2 as [-> L2]. cbv zeta.
    set (c := ((b2n b0 - 224) * 4096 + x1 * 64 + x2)%N).
    destruct ((c <? 2048)%N || is_surrogate c) eqn:E5; [discriminate|]. apply orb_false_iff in E5 as [E5 E6].
    destruct (utf8_dec r2) as [s'|] eqn:Hr; [|discriminate]. intros [= <-].
    exists c, [b0; n2b (128 + x1); n2b (128 + x2)], r2, s'. repeat split; try assumption; try discriminate.
    unfold utf8_char. replace (c <? 128)%N with false by lia. rewrite E5, E6.
    replace (c <? 65536)%N with true by (unfold c; lia).
    replace (224 + c / 4096)%N with (b2n b0) by (unfold c; lia). replace ((c / 64) mod 64)%N with x1 by (unfold c; lia).
    replace (c mod 64)%N with x2 by (unfold c; lia). now rewrite Hb. }
  destruct (b2n b0 <? 245)%N eqn:E5; [|discriminate].
  destruct r0 as [|b1 [|b2 [|b3 r3]]]; try discriminate. destruct (cont b1) as [x1|] eqn:C1; [|discriminate].
  destruct (cont b2) as [x2|] eqn:C2; [|discriminate]. destruct (cont b3) as [x3|] eqn:C3; [|discriminate].
  apply cont_spec in C1 as [-> L1]. apply cont_spec in C2 as [-> L2]. apply cont_spec in C3 as [-> L3]. cbv zeta.
  set (c := ((b2n b0 - 240) * 262144 + x1 * 4096 + x2 * 64 + x3)%N).
  destruct ((c <? 65536) || (1114112 <=? c))%N eqn:E6; [discriminate|]. apply orb_false_iff in E6 as [E6 E7].
  destruct (utf8_dec r3) as [s'|] eqn:Hr; [|discriminate]. intros [= <-].
  exists c, [b0; n2b (128 + x1); n2b (128 + x2); n2b (128 + x3)], r3, s'. repeat split; try assumption; try discriminate.
  unfold utf8_char. replace (c <? 128)%N with false by lia. replace (c <? 2048)%N with false by lia.
  replace (is_surrogate c) with false by (unfold is_surrogate; lia). rewrite E6. replace (c <? 1114112)%N with true by lia.
  replace (240 + c / 262144)%N with (b2n b0) by (unfold c; lia). replace ((c / 4096) mod 64)%N with x1 by (unfold c; lia).
  replace ((c / 64) mod 64)%N with x2 by (unfold c; lia). replace (c mod 64)%N with x3 by (unfold c; lia). now rewrite Hb.
Qed.
Lemma utf8_dec_enc b : forall s, utf8_dec b = Some s -> utf8_enc s = Some b /\ (length s <= length b)%nat.
Proof.
  remember (length b) as n eqn:Hn. assert (Hle : (length b <= n)%nat) by lia. clear Hn.
  assert (forall s, utf8_dec b = Some s -> utf8_enc s = Some b /\ (length s <= length b)%nat) as H.
  2:{ intros s Hs. apply H in Hs as [? ?]. split; [assumption|lia]. }
  revert b Hle. induction n as [|n IH]; intros b Hle s H.
  - destruct b; [|simpl in Hle; lia]. injection H as <-. split; [reflexivity|simpl; lia].
  - destruct b as [|b0 r0]; [injection H as <-; split; [reflexivity|simpl; lia]|].
    apply utf8_dec_step in H as (c & x & rest & s' & Hb & -> & Hc & Hd & Hx). rewrite Hb in Hle |- *.
    rewrite app_length in Hle |- *. assert (0 < length x)%nat by (destruct x; [congruence|simpl; lia]).
    destruct (IH rest ltac:(lia) s' Hd) as [He Hl]. cbn [utf8_enc length]. rewrite Hc, He. split; [reflexivity|lia].
Qed.
Lemma utf8_ascii_len s : Forall (fun c => (c < 128)%N) s -> forall b, utf8_enc s = Some b -> length b = length s.
Proof.
  induction 1 as [|c s Hc Hs IH]; intros b; cbn [utf8_enc]; [intros [= <-]; reflexivity|].
  unfold utf8_char. replace (c <? 128)%N with true by lia. destruct (utf8_enc s) as [r|]; [|discriminate].
  intros [= <-]. cbn [app length]. now rewrite (IH r eq_refl).
Qed.
Lemma utf8_good : good utf8_codec.
Proof.
  unfold good, utf8_codec. cbn [c_enc c_dec]. repeat split.
  - intros s b. apply utf8_enc_dec.
  - intros s b H. now apply utf8_dec_enc in H.
  - intros s b H. now apply utf8_dec_enc in H.
  - intros s b H. now apply utf8_ascii_len.
Qed.

Lemma codecs_good name c : codec_of cpython311 name = Some c -> good c.
Proof.
  cbn [codec_of cpython311]. unfold codecs_311.
  destruct (str_eqb name (u "ascii")); [intros [= <-]; apply ascii_good|].
  destruct (_ || _); [intros [= <-]; apply latin1_good|].
  destruct (str_eqb name (u "cp500")); [intros [= <-]; apply cp500_good|].
  destruct (_ || _); [intros [= <-]; apply utf8_good|discriminate].
Qed.

Lemma c311_roundtrips enc : roundtrips cpython311 enc.
Proof.
  intros s b. unfold str_encode, bytes_decode. destruct (codec_of cpython311 enc) as [c|] eqn:Hc; [|discriminate].
  destruct (codecs_good _ _ Hc) as (H1 & H2 & H3 & _). destruct (c_enc c s) as [b'|] eqn:He; [|discriminate].
  intros [= <-]. apply H1 in He. destruct b'; [|now rewrite He].
  apply H3 in He. destruct s; [reflexivity|simpl in He; lia].
Qed.
(** Not for the empty byte string under an unknown codec. *)
Lemma c311_faithful enc : codec_of cpython311 enc <> None -> faithful cpython311 enc.
Proof.
  intros Hk s b. unfold str_encode, bytes_decode. destruct (codec_of cpython311 enc) as [c|] eqn:Hc; [|congruence].
  destruct (codecs_good _ _ Hc) as (H1 & H2 & H3 & H4).
  destruct b as [|x b].
  - intros [= <-]. clear Hk. cbn [codec_of cpython311] in Hc. unfold codecs_311 in Hc.
    destruct (str_eqb enc (u "ascii")); [injection Hc as <-; reflexivity|].
    destruct (_ || _); [injection Hc as <-; reflexivity|].
    destruct (str_eqb enc (u "cp500")); [injection Hc as <-; reflexivity|].
    destruct (_ || _); [injection Hc as <-; reflexivity|discriminate].
  - destruct (c_dec c (x :: b)) as [s'|] eqn:Hd; [|discriminate]. intros [= <-]. now rewrite (H2 _ _ Hd).
Qed.
Lemma c311_never_expands enc : never_expands cpython311 enc.
Proof.
  intros s b. unfold bytes_decode. destruct b as [|x b]; [intros [= <-]; simpl; lia|].
  destruct (codec_of cpython311 enc) as [c|] eqn:Hc; [|discriminate].
  destruct (codecs_good _ _ Hc) as (_ & _ & H3 & _). destruct (c_dec c (x :: b)) eqn:Hd; [|discriminate].
  intros [= <-]. now apply H3.
Qed.
Lemma c311_ascii_width enc : ascii_width cpython311 enc.
Proof.
  intros s b Hs. unfold str_encode. destruct (codec_of cpython311 enc) as [c|] eqn:Hc; [|discriminate].
  destruct (codecs_good _ _ Hc) as (_ & _ & _ & H4). destruct (c_enc c s) eqn:Hd; [|discriminate].
  intros [= <-]. now apply H4.
Qed.

Lemma c311_env_ok : env_ok cpython311.
Proof.
  split.
  - intros c Hc. assert (H : forallb (fun n => Bool.eqb (u_numeric cpython311 (N.of_nat n)) (is_digit (N.of_nat n))) (seq 0 128) = true)
      by (vm_compute; reflexivity).
    rewrite forallb_forall in H. specialize (H (N.to_nat c)). rewrite N2Nat.id in H. apply Bool.eqb_prop. apply H.
    apply in_seq. lia.
  - intros m [= <-]. lia.
Qed.
