(** * Replace2: encode treats fields one by one. *)
From Verif Require Import PyBase BaseFacts Types Decoder Encoder Wire WireEncode Claims.
From Verif Require Import DecoderFacts DecodeRun DecodeTheorems EncoderFacts EncodeRun EncodeWhole EncodeTheorems EncodeTheorems2 EncodeTheorems3.
Local Opaque data_fields.

Lemma same_bytes E sp d1 s1 enc1 d1' d2 s2 enc2 d2' k e1 e2 : is_dict d1 -> is_dict d2 ->
  encode E (ADict d1) sp = (Ok (s1, enc1), d1') -> encode E (ADict d2) sp = (Ok (s2, enc2), d2') ->
  k <> u "p" -> k <> u "1" -> value d1 k = value d2 k -> sget k enc1 = Some e1 -> sget k enc2 = Some e2 -> e1 = e2.
Proof.
  intros Hd1 Hd2 H1 H2 Np N1 Hv G1 G2.
  apply encode_ok in H1 as (a1 & a2 & a3 & He1 & _); [|assumption]. apply encode_ok in H2 as (b1 & b2 & b3 & He2 & _); [|assumption].
  pose proof (enc_sent _ _ _ _ _ _ _ He1 _ _ G1) as S1. pose proof (enc_sent _ _ _ _ _ _ _ He2 _ _ G2) as S2.
  assert (Hc : field_key k \/ k = u "t").
  { remember (k, e1) as ke eqn:He. destruct S1; injection He as <- _; auto; contradiction. }
  destruct e1 as [l1 x1], e2 as [l2 x2]. destruct Hc as [Hk| ->].
  - destruct (sent_field_inv _ _ _ _ _ _ _ _ Hk S1) as (fs & v & A1 & A2 & A3).
    destruct (sent_field_inv _ _ _ _ _ _ _ _ Hk S2) as (fs' & v' & B1 & B2 & B3).
    assert (fs' = fs) by congruence. assert (v' = v) by congruence. subst.
    destruct (field_encodes_fun _ _ _ _ _ _ _ A3 B3). cbn in *. congruence.
  - destruct (sent_type_inv _ _ _ _ _ _ _ S1) as (fs & v & A1 & A2 & A3 & A4).
    destruct (sent_type_inv _ _ _ _ _ _ _ S2) as (fs' & v' & B1 & B2 & B3 & B4).
    assert (fs' = fs) by congruence. assert (v' = v) by congruence. subst.
    assert (Hb := type_encodes_fun _ _ _ _ _ A4 B4). cbn in *. congruence.
Qed.

Lemma has_value d k : has_key d k -> exists v, value d k = Some v.
Proof. intro H. now apply (dget_some_in key_eqb key_eqb_spec). Qed.

Lemma mix_encode E sp d1 d2 d : env_ok E -> bitmaps_sendable E sp -> header_on sp \/ header_off sp ->
  str_dict d1 -> str_dict d2 -> str_dict d -> canonical_keys E d1 -> canonical_keys E d2 ->
  (exists r, fst (encode E (ADict d1) sp) = Ok r) -> (exists r, fst (encode E (ADict d2) sp) = Ok r) ->
  (forall k v, k <> u "p" -> k <> u "1" -> k <> u "65" -> value d k = Some v -> value d1 k = Some v \/ value d2 k = Some v) ->
  has_key d (u "t") -> (header_on sp -> has_key d (u "h")) ->
  exists r, fst (encode E (ADict d) sp) = Ok r.
Proof.
  intros HE Hb Hh S1 S2 Sd C1 C2 [[s1 e1] R1] [[s2 e2] R2] V Ht Hd.
  destruct (encode E (ADict d1) sp) as [r1 d1'] eqn:Q1. destruct (encode E (ADict d2) sp) as [r2 d2'] eqn:Q2. cbn [fst] in *. subst r1 r2.
  assert (P1 := proj1 (encode_success E sp d1 HE S1 C1 Hb Hh) (ex_intro _ s1 (ex_intro _ e1 (ex_intro _ d1' Q1)))).
  assert (P2 := proj1 (encode_success E sp d2 HE S2 C2 Hb Hh) (ex_intro _ s2 (ex_intro _ e2 (ex_intro _ d2' Q2)))).
  clear Q1 Q2. destruct P1 as (T1 & H1 & N1 & F1), P2 as (T2 & H2 & N2 & F2).
  assert (K : forall k, k <> u "p" -> k <> u "1" -> k <> u "65" -> has_key d k -> has_key d1 k \/ has_key d2 k).
  { intros k M1 M2 M3 Hk. destruct (has_value d k Hk) as [v Hv]. destruct (V k v M1 M2 M3 Hv) as [G|G]; [left|right]; apply (dget_some_in key_eqb key_eqb_spec); unfold value in G; eauto. }
  assert (F : forall k, k <> u "p" -> k <> u "1" -> k <> u "65" -> has_key d k -> (has_key d1 k -> encodable E sp d1 k) -> (has_key d2 k -> encodable E sp d2 k) -> encodable E sp d k).
  { intros k M1 M2 M3 Hk X1 X2. destruct (has_value d k Hk) as [v Hv]. destruct (V k v M1 M2 M3 Hv) as [G|G].
    - destruct X1 as (fs & v' & l & b & A1 & A2 & A3); [apply (dget_some_in key_eqb key_eqb_spec); unfold value in G; eauto|]. exists fs, v', l, b. split; [assumption|split; [congruence|assumption]].
    - destruct X2 as (fs & v' & l & b & A1 & A2 & A3); [apply (dget_some_in key_eqb key_eqb_spec); unfold value in G; eauto|]. exists fs, v', l, b. split; [assumption|split; [congruence|assumption]]. }
  assert (C : canonical_keys E d).
  { intros k Hk Hn. destruct (str_eqb k (u "p")) eqn:M1; [apply str_eqb_eq in M1; subst k; rewrite not_numeric_keys in Hn by auto; discriminate|].
    destruct (str_eqb k (u "1")) eqn:M2; [apply str_eqb_eq in M2; subst k; split; [apply Nat.leb_le; reflexivity|now exists 1%Z]|].
    destruct (str_eqb k (u "65")) eqn:M3; [apply str_eqb_eq in M3; subst k; split; [apply Nat.leb_le; reflexivity|now exists 65%Z]|].
    apply str_eqb_neq in M1, M2, M3. destruct (K k M1 M2 M3 Hk) as [G|G]; [exact (C1 k G Hn)|exact (C2 k G Hn)]. }
  destruct (proj2 (encode_success E sp d HE Sd C Hb Hh)) as (s & enc & d' & ->); [|cbn; eauto].
  split; [|split; [|split]].
  - destruct (has_value d _ Ht) as [v Hv]. destruct (V (u "t") v ltac:(discriminate) ltac:(discriminate) ltac:(discriminate) Hv) as [G|G]; [destruct T1 as (fs & v' & b & A1 & A2 & A3)|destruct T2 as (fs & v' & b & A1 & A2 & A3)];
      exists fs, v', b; (split; [assumption|split; [congruence|assumption]]).
  - intro Ho. apply F; auto; discriminate.
  - intros n Hn Hk. destruct (Z.eq_dec n 1) as [->|X1]; [lia|]. destruct (Z.eq_dec n 65) as [->|X2]; [lia|].
    assert (Y1 : zstr n <> u "1") by (change (u "1") with (zstr 1); intro X; apply zstr_inj in X; lia).
    assert (Y2 : zstr n <> u "65") by (change (u "65") with (zstr 65); intro X; apply zstr_inj in X; lia).
    assert (Y3 : zstr n <> u "p") by (intro X; assert (D := zstr_digits n Hn); rewrite X in D; now inversion D).
    destruct (K _ Y3 Y1 Y2 Hk); eauto.
  - intros n Hn Hk. assert (Z := zstr_name n (proj2 (data_fields_in n) Hn)). apply F; [tauto|tauto|tauto|auto..].
Qed.
