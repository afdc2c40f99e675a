(** * Remove: fields left out of a message. *)
From Verif Require Import PyBase BaseFacts Types Numerals NumeralFacts Decoder Encoder Wire WireEncode Claims Claims8.
From Verif Require Import DecoderFacts DecodeRun DecodeTheorems EncoderFacts EncodeRun EncodeWhole EncodeTheorems EncodeTheorems2 EncodeTheorems3 Replace2 Forward.
Local Opaque data_fields.

Lemma named_field E d f : env_ok E -> In f data_fields -> has_key d (zstr f) -> has_field E d f.
Proof.
  intros HE Hf Hi. assert (Z := zstr_name f Hf). apply data_fields_in in Hf. assert (H0 : (0 <= f)%Z) by lia.
  exists (zstr f). split; [assumption|]. split; [tauto|]. split; [tauto|].
  split.
  - apply isnumeric_digits; auto using zstr_digits. rewrite zstr_nonneg by assumption. apply dec_nonempty.
  - apply py_int_text. rewrite py_int_digits; auto using zstr_digits.
    + rewrite zstr_nonneg by assumption. destruct (dec_spec (Z.to_N f)) as (_ & Hv & _). rewrite Hv. f_equal. lia.
    + rewrite zstr_nonneg by assumption. apply dec_nonempty.
    + apply short_keys. lia.
Qed.

Lemma filter_filter {A} (p q : A -> bool) l : filter p (filter q l) = filter (fun x => q x && p x) l.
Proof. induction l as [|x l IH]; [reflexivity|]. cbn. destruct (q x); cbn; [destruct (p x); congruence|assumption]. Qed.
Lemma filter_map {A B} (f : A -> B) p l : filter p (map f l) = map f (filter (fun x => p (f x)) l).
Proof. induction l as [|x l IH]; [reflexivity|]. cbn. destruct (p (f x)); cbn; congruence. Qed.

Lemma announced_value E sp d enc c1 c2 c3 f : env_ok E -> encoding E sp d c1 c2 c3 enc -> In f data_fields ->
  (announced c1 c2 c3 f = true <-> value d (zstr f) <> None).
Proof.
  intros HE He Hf. split.
  - intro Ha. destruct (enc_has _ _ _ _ _ _ _ He (zstr f)) as [e G]; [apply plan_in; right; right; right; right; eauto|].
    apply enc_sent with (1 := He) in G. destruct (sent_field_inv _ _ _ _ _ _ (zstr f) e (or_intror (ex_intro _ f (conj Hf eq_refl))) G) as (fs & v & _ & Hv & _). congruence.
  - intro Hv. destruct He as (_ & Hb & _ & _). apply data_fields_in in Hf as Hd.
    rewrite (announced_spec E d) by (assumption || lia). apply sends_data; [unfold data_field; lia|]. apply named_field; auto.
    apply (dget_some_in key_eqb key_eqb_spec). unfold value in Hv. destruct (dget key_eqb (KStr (zstr f)) d); [eauto|congruence].
Qed.

(** What the keys of two messages have in common. *)
Section Common.
  Variables (E : pyenv) (sp : spec) (d1 d2 : pdoc) (enc1 enc2 : edoc) (a1 a2 a3 b1 b2 b3 : bytes) (P : pystr -> bool).
  Hypotheses (HE : env_ok E) (He1 : encoding E sp d1 a1 a2 a3 enc1) (He2 : encoding E sp d2 b1 b2 b3 enc2).
  Hypotheses (Pp : P (u "p") = false) (P1 : P (u "1") = false) (PV : forall k, P k = true -> value d1 k = value d2 k).

  Lemma common_keys : filter P (map fst enc1) = filter P (map fst enc2).
  Proof using HE He1 He2 Pp P1 PV.
    assert (Q1 := proj1 (proj2 (proj2 He1))). assert (Q2 := proj1 (proj2 (proj2 He2))). rewrite Q1, Q2. unfold plan.
    rewrite !filter_app. f_equal. cbn [filter]. rewrite Pp. destruct (P (u "t")); [f_equal|].
    all: rewrite !filter_app; assert (X : forall b : bool, filter P (if b then [u "1"] else []) = []) by (intros []; cbn [filter]; [now rewrite P1|reflexivity]).
    all: rewrite !X; cbn [app]; rewrite !filter_map, !filter_filter; f_equal; apply filter_ext_in; intros f Hf.
    all: destruct (P (zstr f)) eqn:Hp; [|now rewrite !andb_false_r]; rewrite !andb_true_r.
    all: assert (A := announced_value _ _ _ _ _ _ _ f HE He1 Hf); assert (B := announced_value _ _ _ _ _ _ _ f HE He2 Hf); rewrite (PV _ Hp) in A.
    all: apply eq_true_iff_eq; tauto.
  Qed.
End Common.

Lemma entries_eq {K V} (l1 l2 : list (K * V)) : map fst l1 = map fst l2 ->
  (forall k e1 e2, In (k, e1) l1 -> In (k, e2) l2 -> e1 = e2) -> l1 = l2.
Proof.
  revert l2. induction l1 as [|[k e] l1 IH]; intros [|[k' e'] l2] Hk H; try discriminate; [reflexivity|].
  cbn in Hk. injection Hk as <- Hk. f_equal.
  - f_equal. apply (H k); now left.
  - apply IH; [assumption|]. intros q x y Hx Hy. apply (H q); now right.
Qed.

Lemma common_part E sp d1 s1 enc1 d1' d2 s2 enc2 d2' (P : pystr -> bool) : env_ok E -> is_dict d1 -> is_dict d2 ->
  encode E (ADict d1) sp = (Ok (s1, enc1), d1') -> encode E (ADict d2) sp = (Ok (s2, enc2), d2') ->
  P (u "p") = false -> P (u "1") = false -> (forall k, P k = true -> value d1 k = value d2 k) ->
  filter (fun ke => P (fst ke)) enc1 = filter (fun ke => P (fst ke)) enc2.
Proof.
  intros HE D1 D2 H1 H2 Pp P1 PV. assert (G1 := H1). assert (G2 := H2).
  apply encode_ok in G1 as (a1 & a2 & a3 & He1 & _); [|assumption]. apply encode_ok in G2 as (b1 & b2 & b3 & He2 & _); [|assumption].
  apply entries_eq.
  - assert (X := common_keys E sp d1 d2 enc1 enc2 _ _ _ _ _ _ P HE He1 He2 Pp P1 PV). now rewrite !filter_map in X.
  - intros k e1 e2 I1 I2. apply filter_In in I1 as [I1 Hk], I2 as [I2 _]. cbn [fst] in Hk.
    apply (enc_get _ _ _ _ _ _ _ He1) in I1. apply (enc_get _ _ _ _ _ _ _ He2) in I2.
    apply (same_bytes E sp d1 s1 enc1 d1' d2 s2 enc2 d2' k); auto; congruence.
Qed.

Lemma entry_value E sp d c1 c2 c3 enc k e : encoding E sp d c1 c2 c3 enc -> In (k, e) enc ->
  k <> u "65" /\ (k = u "p" \/ k = u "1" \/ value d k <> None).
Proof.
  intros He Hi. destruct He as (_ & _ & _ & Hf). rewrite Forall_forall in Hf. specialize (Hf _ Hi). remember (k, e) as ke eqn:Hke.
  destruct Hf as [k' fs v l b [->|(f & Hd & ->)] _ Hv _|fs v b _ Hv _| | |]; injection Hke as <- _; try (split; [discriminate|]); auto.
  - right. right. congruence.
  - split; [now apply zstr_name|]. right. right. congruence.
  - right. right. congruence.
Qed.

Lemma removed_part E sp d1 s1 enc1 d1' d2 s2 enc2 d2' gone : env_ok E -> is_dict d1 -> is_dict d2 ->
  encode E (ADict d1) sp = (Ok (s1, enc1), d1') -> encode E (ADict d2) sp = (Ok (s2, enc2), d2') ->
  same_fields_but gone d1 d2 -> without_bitmaps enc2 = without gone (without_bitmaps enc1).
Proof.
  intros HE D1 D2 H1 H2 G. unfold without_bitmaps, without. rewrite filter_filter.
  assert (G1 := H1). assert (G2 := H2).
  apply encode_ok in G1 as (a1 & a2 & a3 & He1 & _); [|assumption]. apply encode_ok in G2 as (b1 & b2 & b3 & He2 & _); [|assumption].
  assert (N1 : forall k e, In (k, e) enc1 -> k <> u "65") by (intros k e Hi; apply (entry_value _ _ _ _ _ _ _ _ _ He1 Hi)).
  set (P := fun k => negb (str_eqb k (u "p") || str_eqb k (u "1")) && negb (gone k) && negb (str_eqb k (u "65"))).
  transitivity (filter (fun ke => P (fst ke)) enc2).
  - apply filter_ext_in. intros [k e] Hi. unfold P. cbn [fst]. destruct (entry_value _ _ _ _ _ _ _ _ _ He2 Hi) as [N65 Hv].
    rewrite <- str_eqb_neq in N65. rewrite N65. cbn [negb]. rewrite andb_true_r.
    destruct (str_eqb k (u "p")) eqn:K1; [reflexivity|]. destruct (str_eqb k (u "1")) eqn:K2; [reflexivity|].
    rewrite str_eqb_neq in K1, K2, N65. destruct Hv as [Hv|[Hv|Hv]]; [contradiction..|]. rewrite (G k) in Hv by assumption.
    destruct (gone k); [contradiction|reflexivity].
  - rewrite <- (common_part E sp d1 s1 enc1 d1' d2 s2 enc2 d2' P); auto.
    + apply filter_ext_in. intros [k e] Hi. unfold P. cbn [fst]. apply N1 in Hi. rewrite <- str_eqb_neq in Hi. rewrite Hi. cbn [negb]. now rewrite andb_true_r.
    + intros k Hk. unfold P in Hk. rewrite !andb_true_iff, !negb_true_iff, orb_false_iff in Hk. destruct Hk as [[[K1 K2] K3] K4].
      rewrite str_eqb_neq in K1, K2, K4. rewrite (G k) by assumption. now rewrite K3.
Qed.

Lemma removed_encodes E sp d1 d2 gone : env_ok E -> bitmaps_sendable E sp -> header_on sp \/ header_off sp ->
  str_dict d1 -> str_dict d2 -> canonical_keys E d1 -> (exists r, fst (encode E (ADict d1) sp) = Ok r) ->
  same_fields_but gone d1 d2 -> gone (u "t") = false -> (header_on sp -> gone (u "h") = false) ->
  exists r, fst (encode E (ADict d2) sp) = Ok r.
Proof.
  intros HE Hb Hh S1 S2 C1 R1 G Gt Gh.
  assert (V : forall k, k <> u "p" -> k <> u "1" -> k <> u "65" -> gone k = false -> has_key d1 k -> has_key d2 k).
  { intros k K1 K2 K3 K4 Hk. destruct (has_value d1 k Hk) as [v Hv]. apply (dget_some_in key_eqb key_eqb_spec). exists v.
    change (value d2 k = Some v). rewrite (G k) by assumption. now rewrite K4. }
  assert (K := R1). destruct K as [[s e] K]. destruct (encode E (ADict d1) sp) as [r d1'] eqn:Q. cbn [fst] in K. subst r.
  assert (P1 := proj1 (encode_success E sp d1 HE S1 C1 Hb Hh) (ex_intro _ s (ex_intro _ e (ex_intro _ d1' Q)))). destruct P1 as (T & H & _).
  apply (mix_encode E sp d1 d1 d2); auto; try (rewrite Q; exact R1).
  - intros k v K1 K2 K3 Hv. left. rewrite (G k) in Hv by assumption. destruct (gone k); [discriminate|assumption].
  - apply V; auto; try discriminate. destruct T as (fs & v & b & A1 & A2 & A3). apply (dget_some_in key_eqb key_eqb_spec). unfold value in A2. eauto.
  - intro Ho. apply V; auto; try discriminate. destruct (H Ho) as (fs & v & l & b & A1 & A2 & A3). apply (dget_some_in key_eqb key_eqb_spec). unfold value in A2. eauto.
Qed.
