(** * PrettyMessages: printing the dicts of whole messages. *)
From Coq Require Import Sorted.
From Verif Require Import PyBase BaseFacts Types Numerals NumeralFacts Decoder Encoder Tools Wire WireEncode Claims Claims2 Pretty.
From Verif Require Import DecodeRun EncodeRun EncodeTheorems EncodeTheorems2 EncodeTheorems3 DecodeTheorems Roundtrip PrettyFacts PrettyFacts2 PrettyExact PrettyUnique SpecKeys.
Local Opaque data_fields.

(** Keys in the order of the wire. *)
Definition wire_keys (sp : spec) (ks : list pystr) : Prop :=
  exists hs zs, ks = hs ++ u "t" :: u "p" :: map zstr zs
    /\ (hs = [] \/ hs = [u "h"] /\ exists fs ml, sget (u "h") sp = Some fs /\ fs_max_len fs = Some ml /\ (0 < ml)%Z)
    /\ StronglySorted Z.lt zs /\ Forall (fun z => (1 <= z <= 192)%Z) zs.
Lemma wire_keys_of sp hs xs fl : (hs = [] \/ hs = [u "h"] /\ exists fs ml, sget (u "h") sp = Some fs /\ fs_max_len fs = Some ml /\ (0 < ml)%Z) ->
  xs = [] \/ xs = [u "1"] -> StronglySorted Z.lt fl -> Forall (fun z => (2 <= z <= 192)%Z) fl ->
  wire_keys sp (hs ++ u "t" :: u "p" :: xs ++ map zstr fl).
Proof.
  intros Hh Hx Hs Hf. destruct Hx as [->| ->].
  - exists hs, fl. split; [reflexivity|]. split; [assumption|]. split; [assumption|]. eapply Forall_impl; [|exact Hf]. cbn. lia.
  - exists hs, (1%Z :: fl). split; [reflexivity|]. split; [assumption|]. split.
    + constructor; [assumption|]. eapply Forall_impl; [|exact Hf]. cbn. lia.
    + constructor; [lia|]. eapply Forall_impl; [|exact Hf]. cbn. lia.
Qed.
Lemma decode_wire_keys E sp s b dec enc : bitmaps_fit E sp -> holds s b -> decode E s sp = Ok (dec, enc) -> wire_keys sp (map fst enc) /\ map fst dec = map fst enc.
Proof.
  intros Hf Hh H. apply (decode_iff E sp s b dec enc Hf Hh) in H as (segs & (hs & t & p & xs & fields & bm1 & bm2 & bm3 & -> & H1 & H2 & H3 & H4 & H5 & _) & _ & -> & ->).
  unfold dec_of, enc_of. rewrite !map_map. cbn [fst]. split; [|reflexivity].
  rewrite map_app. cbn [map]. rewrite map_app. change (map (fun x => sg_key x) fields) with (map sg_key fields). rewrite H5.
  destruct H2 as (_ & _ & -> & _). destruct H3 as (_ & _ & -> & _). apply wire_keys_of.
  - destruct H1 as [|fs ml sg Ha Hb Hc Hd _]; [now left|]. right. cbn. rewrite Hd. split; [reflexivity|]. exists fs, ml. auto.
  - destruct H4 as [|fs sg bm2 _ _ H|fs sg d2 t2 bm2 d3 t3 bm3 _ _ H]; [now left| |]; right; cbn; now rewrite H.
  - apply filter_sorted, EncodeTheorems.data_fields_sorted.
  - apply Forall_forall. intros z Hz. apply filter_In in Hz as [Hz _]. apply data_fields_in in Hz. lia.
Qed.
Lemma encode_wire_keys E sp d s enc d' : is_dict d -> encode E (ADict d) sp = (Ok (s, enc), d') -> wire_keys sp (map fst enc).
Proof.
  intros Hd H. destruct (encode_order _ _ _ _ _ _ Hd H) as (_ & _ & hs & xs & fl & Hk & Hh & Hx & Hs & Hf).
  destruct (encode_header_present _ _ _ _ _ _ Hd H) as [Hon _]. rewrite Hk in Hon. rewrite Hk. apply wire_keys_of; auto.
  - destruct Hh as [->| ->]; [now left|]. right. split; [reflexivity|]. apply Hon. now left.
  - eapply Forall_impl; [|exact Hf]. unfold data_field. lia.
Qed.
Lemma sorted_split (zs : list Z) : StronglySorted Z.lt zs -> forall pre a mid b post, map zstr zs = pre ++ a :: mid ++ b :: post ->
  exists x y, a = zstr x /\ b = zstr y /\ In x zs /\ In y zs /\ (x < y)%Z.
Proof.
  induction 1 as [|z zs Hs IH Hz]; intros pre a mid b post H; [now destruct pre|]. destruct pre as [|q pre]; cbn [map app] in H; injection H as H1 H2.
  - assert (Hb : In b (map zstr zs)) by (rewrite H2; apply in_elt). apply in_map_iff in Hb as (y & <- & Hy). exists z, y.
    rewrite Forall_forall in Hz. cbn. auto 6.
  - destruct (IH _ _ _ _ _ H2) as (x & y & -> & -> & Hx & Hy & L). exists x, y. cbn. auto 7.
Qed.
(** All keys of a message are shown, and in its own order. *)
Lemma wire_shown E sp (d : ppdoc) ks : env_ok E -> wire_keys sp ks -> map fst d = map KStr ks -> shown_keys E sp d ks.
Proof.
  intros HE (hs & zs & -> & Hh & Hs & Hr) Hd. rewrite Forall_forall in Hr.
  assert (W : forall k, shows d k <-> In k (hs ++ u "t" :: u "p" :: map zstr zs)).
  { intro k. unfold shows. rewrite Hd. rewrite in_map_iff. split; [intros (x & [= ->] & Hx); exact Hx|intro Hx; exists k; auto]. }
  assert (Z1 : forall z, In z zs -> isnumeric E (zstr z) = true /\ int_text E (zstr z) z) by (intros z Hz; apply zstr_field; [assumption|apply Hr in Hz; lia]).
  assert (Nh : isnumeric E (u "h") = false) by (apply (name_not_numeric E 104); [assumption|lia|reflexivity]).
  assert (Nt : isnumeric E (u "t") = false) by (apply (name_not_numeric E 116); [assumption|lia|reflexivity]).
  assert (Np : isnumeric E (u "p") = false) by (apply (name_not_numeric E 112); [assumption|lia|reflexivity]).
  change (hs ++ u "t" :: u "p" :: map zstr zs) with (hs ++ [u "t"] ++ [u "p"] ++ map zstr zs). constructor.
  - destruct Hh as [-> | [-> (fs & ml & H1 & H2 & H3)]].
    + apply HeaderAbsent. rewrite W. intros [C|[C|C]]; [discriminate C|discriminate C|]. apply in_map_iff in C as (z & C & Hz). apply Z1 in Hz as [Hz _]. rewrite C in Hz. congruence.
    + eapply HeaderOn; eauto. apply W. now left.
  - apply IsShown. apply W. apply in_app_iff. right. now left.
  - apply IsShown. apply W. apply in_app_iff. right. right. now left.
  - split; [|split; [|split]].
    + intro k. rewrite W. split.
      * intro Hk. split; [apply in_app_iff; right; now do 2 right|]. apply in_map_iff in Hk as (z & <- & Hz). now apply Z1.
      * intros [Hk Hn]. apply in_app_iff in Hk as [Hk|[<-|[<-|Hk]]]; [|congruence|congruence|assumption].
        destruct Hh as [-> | [-> _]]; [contradiction|]. destruct Hk as [<-|[]]. congruence.
    + intros _. apply zstr_nodup; [intros f Hf; apply Hr in Hf; lia|]. now apply zsorted_nodup.
    + intros k Hk. apply in_map_iff in Hk as (z & <- & Hz). exists z. now apply Z1.
    + intros pre j mid k post m n H Hm Hn. destruct (sorted_split zs Hs _ _ _ _ _ H) as (x & y & -> & -> & Hx & Hy & L).
      apply Z1 in Hx as [_ Hx]. apply Z1 in Hy as [_ Hy]. left.
      rewrite (int_text_unique _ _ _ _ Hm Hx), (int_text_unique _ _ _ _ Hn Hy). exact L.
Qed.

(** The decoded dicts and the messages are determined by what is printed. *)
Lemma show_enc_keys enc : map fst (show_enc enc) = map KStr (map fst enc).
Proof. unfold show_enc. rewrite !map_map. reflexivity. Qed.
Lemma show_dec_keys dec : map fst (show_dec dec) = map KStr (map fst dec).
Proof. unfold show_dec. rewrite !map_map. reflexivity. Qed.
Lemma kstr_nodup l : NoDup l -> NoDup (map KStr l).
Proof. intro H. apply FinFun.Injective_map_NoDup; [|assumption]. intros a b [= ->]. reflexivity. Qed.
Lemma wire_nodup sp ks : wire_keys sp ks -> NoDup ks.
Proof.
  intros (hs & zs & -> & Hh & Hs & Hr). rewrite Forall_forall in Hr.
  assert (Z1 : forall z c, In z zs -> zstr z = [c] -> is_digit c = true).
  { intros z c Hz E. pose proof (zstr_digits z) as A. rewrite E in A. apply Hr in Hz. assert (B := A ltac:(lia)). now inversion B. }
  assert (T : NoDup (u "t" :: u "p" :: map zstr zs)).
  { constructor; [|constructor].
    - intros [C|C]; [discriminate C|]. apply in_map_iff in C as (z & C & Hz). apply (Z1 z 116%N) in Hz; [discriminate|assumption].
    - intro C. apply in_map_iff in C as (z & C & Hz). apply (Z1 z 112%N) in Hz; [discriminate|assumption].
    - apply zstr_nodup; [intros f Hf; apply Hr in Hf; lia|]. now apply zsorted_nodup. }
  destruct Hh as [->|[-> _]]; [exact T|]. constructor; [|exact T]. intros [C|[C|C]]; [discriminate C|discriminate C|].
  apply in_map_iff in C as (z & C & Hz). apply (Z1 z 104%N) in Hz; [discriminate|assumption].
Qed.
(** Two association lists with the same distinct keys and the same value for each. *)
Lemma assoc_eq {V} (a b : list (pystr * V)) : map fst a = map fst b -> NoDup (map fst a) ->
  (forall k, In k (map fst a) -> exists v, In (k, v) a /\ In (k, v) b) -> a = b.
Proof.
  revert b. induction a as [|[k v] a IH]; intros [|[k' w] b] H N A; try discriminate; [reflexivity|]. cbn [map fst] in *. injection H as <- H.
  inversion N as [|? ? N1 N2]; subst. destruct (A k (or_introl eq_refl)) as (x & X1 & X2).
  assert (Q : x = v). { destruct X1 as [[= ->]|X1]; [reflexivity|]. exfalso. apply N1. apply in_map_iff. now exists (k, x). }
  assert (Q' : x = w). { destruct X2 as [[= ->]|X2]; [reflexivity|]. exfalso. apply N1. rewrite H. apply in_map_iff. now exists (k, x). }
  subst x. subst w. f_equal. apply IH; [assumption|assumption|]. intros j Hj. destruct (A j (or_intror Hj)) as (y & Y1 & Y2). exists y. split.
  - destruct Y1 as [[= -> ->]|Y1]; [contradiction|assumption].
  - destruct Y2 as [[= -> ->]|Y2]; [contradiction|assumption].
Qed.
Lemma show_enc_injective E sp dw lw enc1 enc2 out : env_ok E -> wire_keys sp (map fst enc1) -> wire_keys sp (map fst enc2) ->
  pp E (show_enc enc1) sp dw lw = (Ok tt, out) -> pp E (show_enc enc2) sp dw lw = (Ok tt, out) -> enc1 = enc2.
Proof.
  intros HE K1 K2 H1 H2. assert (D1 := wire_nodup _ _ K1). assert (D2 := wire_nodup _ _ K2).
  destruct (pp_injective E sp dw lw (show_enc enc1) (show_enc enc2) out HE) with (2 := H1) (3 := H2) as (ks & S1 & S2 & A).
  { intros k v [H|H] l o Hp; apply in_map_iff in H as ([k1 [l1 d1]] & [= <- <-] & _); apply parts_shown in Hp as [-> ->]; now split. }
  assert (G1 := wire_shown E sp (show_enc enc1) _ HE K1 (show_enc_keys _)). assert (G2 := wire_shown E sp (show_enc enc2) _ HE K2 (show_enc_keys _)).
  assert (N1 : NoDup (map fst (show_enc enc1))) by (rewrite show_enc_keys; now apply kstr_nodup).
  assert (N2 : NoDup (map fst (show_enc enc2))) by (rewrite show_enc_keys; now apply kstr_nodup).
  rewrite (shown_keys_fun _ _ _ _ _ N1 S1 G1) in *. assert (Q := shown_keys_fun _ _ _ _ _ N2 S2 G2).
  apply assoc_eq; [assumption|assumption|]. intros k Hk. destruct (A k Hk) as (v1 & v2 & la & lb & o & I1 & I2 & P1 & P2 & L).
  apply in_map_iff in I1 as ([k1 [l1 d1]] & [= -> <-] & I1). apply in_map_iff in I2 as ([k2 [l2 d2]] & [= -> <-] & I2). cbn in *.
  apply parts_shown in P1 as [A1 B1]. apply parts_shown in P2 as [A2 B2]. cbn in A1, B1, A2, B2.
  assert (d1 = d2) by congruence. subst.
  assert (l1 = l2) as <- by (destruct L as [[= L]|[[= L1] [= L2]]]; [congruence|destruct l1, l2; try discriminate; reflexivity]). eauto.
Qed.
Lemma show_dec_injective E sp dw lw dec1 dec2 out : env_ok E -> wire_keys sp (map fst dec1) -> wire_keys sp (map fst dec2) ->
  (forall k s, In (k, s) dec1 \/ In (k, s) dec2 -> valid_text s) ->
  pp E (show_dec dec1) sp dw lw = (Ok tt, out) -> pp E (show_dec dec2) sp dw lw = (Ok tt, out) -> dec1 = dec2.
Proof.
  intros HE K1 K2 HV H1 H2. assert (D1 := wire_nodup _ _ K1). assert (D2 := wire_nodup _ _ K2).
  destruct (pp_injective E sp dw lw (show_dec dec1) (show_dec dec2) out HE) with (2 := H1) (3 := H2) as (ks & S1 & S2 & A).
  { intros k v [H|H] l o Hp; apply in_map_iff in H as ([j x] & [= <- <-] & H); apply parts_shown in Hp as [-> ->]; (split; [exact I|]); apply (HV j); cbn; auto. }
  assert (G1 := wire_shown E sp (show_dec dec1) _ HE K1 (show_dec_keys _)). assert (G2 := wire_shown E sp (show_dec dec2) _ HE K2 (show_dec_keys _)).
  assert (N1 : NoDup (map fst (show_dec dec1))) by (rewrite show_dec_keys; now apply kstr_nodup).
  assert (N2 : NoDup (map fst (show_dec dec2))) by (rewrite show_dec_keys; now apply kstr_nodup).
  rewrite (shown_keys_fun _ _ _ _ _ N1 S1 G1) in *. assert (Q := shown_keys_fun _ _ _ _ _ N2 S2 G2).
  apply assoc_eq; [assumption|assumption|]. intros k Hk. destruct (A k Hk) as (v1 & v2 & la & lb & o & I1 & I2 & P1 & P2 & L).
  apply in_map_iff in I1 as ([k1 s1] & [= -> <-] & I1). apply in_map_iff in I2 as ([k2 s2] & [= -> <-] & I2). cbn in *.
  apply parts_shown in P1 as [A1 B1]. apply parts_shown in P2 as [A2 B2]. cbn in A1, B1, A2, B2.
  assert (s1 = s2) by congruence. subst. eauto.
Qed.
(** ** The theorems *)
Lemma decoded_messages_printed E sp dw lw s1 b1 dec1 enc1 s2 b2 dec2 enc2 out : env_ok E -> bitmaps_fit E sp -> holds s1 b1 -> holds s2 b2 ->
  decode E s1 sp = Ok (dec1, enc1) -> decode E s2 sp = Ok (dec2, enc2) ->
  pp E (show_enc enc1) sp dw lw = (Ok tt, out) -> pp E (show_enc enc2) sp dw lw = (Ok tt, out) -> b1 = b2.
Proof.
  intros HE Hf Hh1 Hh2 H1 H2 P1 P2. destruct (decode_wire_keys _ _ _ _ _ _ Hf Hh1 H1) as [K1 _]. destruct (decode_wire_keys _ _ _ _ _ _ Hf Hh2 H2) as [K2 _].
  assert (Q := show_enc_injective _ _ _ _ _ _ _ HE K1 K2 P1 P2). apply (decode_accounts _ _ _ _ _ _ Hh1) in H1 as [<- _]. apply (decode_accounts _ _ _ _ _ _ Hh2) in H2 as [<- _]. now rewrite Q.
Qed.
Lemma encoded_messages_printed E sp dw lw d1 s1 enc1 e1 d2 s2 enc2 e2 out : env_ok E -> is_dict d1 -> is_dict d2 ->
  encode E (ADict d1) sp = (Ok (s1, enc1), e1) -> encode E (ADict d2) sp = (Ok (s2, enc2), e2) ->
  pp E (show_enc enc1) sp dw lw = (Ok tt, out) -> pp E (show_enc enc2) sp dw lw = (Ok tt, out) -> s1 = s2.
Proof.
  intros HE Hh1 Hh2 H1 H2 P1 P2. assert (K1 := encode_wire_keys _ _ _ _ _ _ Hh1 H1). assert (K2 := encode_wire_keys _ _ _ _ _ _ Hh2 H2).
  assert (Q := show_enc_injective _ _ _ _ _ _ _ HE K1 K2 P1 P2). apply (encode_order _ _ _ _ _ _ Hh1) in H1 as [-> _]. apply (encode_order _ _ _ _ _ _ Hh2) in H2 as [-> _]. now rewrite Q.
Qed.
Lemma decoded_dicts_printed E sp dw lw s1 b1 dec1 enc1 s2 b2 dec2 enc2 out : env_ok E -> bitmaps_fit E sp -> holds s1 b1 -> holds s2 b2 ->
  decode E s1 sp = Ok (dec1, enc1) -> decode E s2 sp = Ok (dec2, enc2) ->
  (forall k s, In (k, s) dec1 \/ In (k, s) dec2 -> valid_text s) ->
  pp E (show_dec dec1) sp dw lw = (Ok tt, out) -> pp E (show_dec dec2) sp dw lw = (Ok tt, out) -> dec1 = dec2.
Proof.
  intros HE Hf Hh1 Hh2 H1 H2 HV P1 P2. destruct (decode_wire_keys _ _ _ _ _ _ Hf Hh1 H1) as [K1 Q1]. destruct (decode_wire_keys _ _ _ _ _ _ Hf Hh2 H2) as [K2 Q2].
  rewrite <- Q1 in K1. rewrite <- Q2 in K2. eapply show_dec_injective; eauto.
Qed.
