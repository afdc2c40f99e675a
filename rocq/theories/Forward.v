(** * Forward: a message received under one spec, sent on under another. *)
From Coq Require Import ZifyBool ZifyNat ZifyN.
From Verif Require Import PyBase BaseFacts Types Numerals NumeralFacts Decoder Encoder Wire WireEncode Claims Claims5 Claims7 CPython311 Specs Samples CodecFacts.
From Verif Require Import DecoderFacts DecodeRun DecodeTheorems EncoderFacts EncodeRun EncodeWhole EncodeTheorems EncodeTheorems2 EncodeTheorems3.
From Verif Require Import Roundtrip Roundtrip2 Roundtrip3 SampleFacts EncodeSamples Shipped ShippedLang DecodeGapFacts Size SizeSamples.
Local Opaque data_fields.

(** ** What decode returns can be an argument of encode *)
Lemma short_keys f : (0 <= f <= 192)%Z -> (length (zstr f) <= 640)%nat.
Proof.
  assert (H : forallb (fun n => (length (zstr (Z.of_nat n)) <=? 640)%nat) (seq 0 200) = true) by (vm_compute; reflexivity).
  rewrite forallb_forall in H. intro Hf. specialize (H (Z.to_nat f)). rewrite Z2Nat.id in H by lia.
  apply Nat.leb_le, H. apply in_seq. lia.
Qed.
Lemma decoded_key E sp buf b dec enc k : bitmaps_fit E sp -> holds buf b -> decode E buf sp = Ok (dec, enc) ->
  In k (map fst dec) -> k = u "h" /\ header_on sp \/ k = u "t" \/ k = u "p" \/ k = u "1" \/ exists f, data_field f /\ k = zstr f.
Proof.
  intros Hf Hs H Hk. destruct (decode_keys _ _ _ _ _ _ Hf Hs H) as (bm1 & bm2 & bm3 & tp & _ & _ & _ & K & _).
  pose proof (proj1 (K k) Hk) as Hx. destruct Hx as [[Hx Hh]|[Hx|[Hx|[[Hx _]|(f & Hx & Hf' & _)]]]]; [left; auto|auto 6|auto 6|auto 6|]. do 4 right. exists f. split; [exact Hf'|exact Hx].
Qed.
Lemma decoded_dict E sp buf b dec enc : env_ok E -> bitmaps_fit E sp -> holds buf b -> decode E buf sp = Ok (dec, enc) ->
  str_dict (as_dict dec) /\ canonical_keys E (as_dict dec)
  /\ forall n, (0 <= n)%Z -> has_key (as_dict dec) (zstr n) -> n = 1%Z \/ data_field n.
Proof.
  intros HE Hf Hs H. destruct (decode_accounts _ _ _ _ _ _ Hs H) as (_ & K & Hn). rewrite <- K in Hn. split; [|split].
  - split; [now apply as_dict_is|]. intros k v Hi. apply in_map_iff in Hi as ([k' t] & Hx & _). injection Hx as <- <-.
    split; eexists; reflexivity.
  - intros k Hk Hnum. apply as_dict_has in Hk. apply (decoded_key _ _ _ _ _ _ _ Hf Hs H) in Hk as [[-> _]|[->|[->|[->|(f & Hd & ->)]]]].
    + rewrite not_numeric_keys in Hnum; auto; discriminate.
    + rewrite not_numeric_keys in Hnum; auto; discriminate.
    + rewrite not_numeric_keys in Hnum; auto; discriminate.
    + split; [apply (short_keys 1); lia|]. exists 1%Z. split; [lia|reflexivity].
    + split; [apply short_keys; unfold data_field in Hd; lia|]. exists f. split; [unfold data_field in Hd; lia|reflexivity].
  - intros n H0 Hk. apply as_dict_has in Hk. apply (decoded_key _ _ _ _ _ _ _ Hf Hs H) in Hk as [[Hk _]|[Hk|[Hk|[Hk|(f & Hd & Hk)]]]].
    + exfalso. exact (zstr_neq_h n H0 Hk).
    + exfalso. exact (zstr_neq_t n H0 Hk).
    + exfalso. exact (zstr_neq_p n H0 Hk).
    + left. change (u "1") with (zstr 1) in Hk. apply zstr_inj in Hk; lia.
    + right. apply zstr_inj in Hk; [now subst|lia|unfold data_field in Hd; lia].
Qed.

(** ** Any two specs *)
Lemma forward_iff E sp sp' buf b dec enc : env_ok E -> bitmaps_fit E sp -> bitmaps_sendable E sp' ->
  header_on sp' \/ header_off sp' -> holds buf b -> decode E buf sp = Ok (dec, enc) ->
  ((exists s enc' d', encode E (ADict (as_dict dec)) sp' = (Ok (s, enc'), d'))
   <-> type_encodable E sp' (as_dict dec)
       /\ (header_on sp' -> encodable E sp' (as_dict dec) (u "h"))
       /\ forall n, data_field n -> In (zstr n) (map fst dec) -> encodable E sp' (as_dict dec) (zstr n)).
Proof.
  intros HE Hf Hb Hh Hs H. destruct (decoded_dict _ _ _ _ _ _ HE Hf Hs H) as (D1 & D2 & D3).
  rewrite encode_success by assumption. split.
  - intros (A1 & A2 & _ & A4). repeat (split; [assumption|]). intros n Hn Hi. apply A4; [assumption|]. now apply as_dict_has.
  - intros (A1 & A2 & A3). repeat (split; [assumption|]). split.
    + intros n H0 Hk. destruct (D3 n H0 Hk) as [->|Hd]; [lia|]. unfold data_field in Hd. lia.
    + intros n Hn Hi. apply A3; [assumption|]. now apply as_dict_has.
Qed.
Lemma forward_values E sp sp' buf b dec enc s enc' d' buf' : env_ok E -> bitmaps_fit E sp -> reversible_spec E sp' ->
  holds buf b -> decode E buf sp = Ok (dec, enc) ->
  encode E (ADict (as_dict dec)) sp' = (Ok (s, enc'), d') -> holds buf' s ->
  exists dec', decode E buf' sp' = Ok (dec', enc')
    /\ forall k, message_key sp' k -> sget k dec' = match sget k dec with
                                                    | Some t => option_map (fun fs => normal fs t) (sget k sp')
                                                    | None => None
                                                    end.
Proof.
  intros HE Hf Hr Hs H He Hs'. destruct (decoded_dict _ _ _ _ _ _ HE Hf Hs H) as (D1 & D2 & _).
  destruct (encode_decode E sp' _ _ _ _ buf' HE D1 Hr He Hs') as (dec' & G1 & G2). exists dec'. split; [assumption|].
  intros k Hk. assert (Hd' : value d' k = value (as_dict dec) k).
  { pose proof He as Hx. apply encode_ok in Hx as (bm1 & bm2 & bm3 & _ & _ & ->); [|apply D1].
    apply (with_bitmaps_facts (as_dict dec) bm1 bm2 bm3 (proj1 D1)). unfold is_bitmap_key. cbn [key_eqb].
    assert (N : u "p" <> k /\ u "1" <> k /\ u "65" <> k).
    { destruct Hk as [[-> _]|[->|(n & Hn & ->)]]; [repeat split; discriminate|repeat split; discriminate|].
      unfold data_field in Hn. change (u "65") with (zstr 65). change (u "1") with (zstr 1). split; [intro Hx; symmetry in Hx; exact (zstr_neq_p n ltac:(lia) Hx)|].
      split; intro Hx; apply zstr_inj in Hx; lia. }
    destruct N as (N1 & N2 & N3). apply str_eqb_neq in N1. apply str_eqb_neq in N2. apply str_eqb_neq in N3. now rewrite N1, N2, N3. }
  assert (Hw : wire_key sp' k) by (destruct Hk as [Hk|[Hk|Hk]]; unfold wire_key; auto 6).
  rewrite as_dict_value in Hd'. destruct (sget k dec) as [t|] eqn:Ht.
  - assert (Hv : value d' k = Some (VStr t)) by (rewrite Hd'; reflexivity).
    destruct (wire_specified _ _ _ _ _ _ _ _ HE D1 He Hw Hv) as [fs Hfs]. rewrite Hfs. cbn [option_map]. apply G2. split; [assumption|]. eauto.
  - destruct (sget k dec') as [t|] eqn:Ht'; [|reflexivity]. apply G2 in Ht' as (_ & fs & v & _ & Hv & _). rewrite Hd' in Hv. discriminate.
Qed.

(** ** What the shipped specs read they can send *)
Lemma ascii_decode E t data : has_ascii E -> bytes_decode E (u "ascii") data = COk t -> ascii_text t /\ length t = length data.
Proof.
  intros Ha H. destruct (ascii_facts E Ha) as (_ & Hf & _). apply Hf in H. apply ascii_encode_inv in H as [H1 H2]; [|assumption]. auto.
Qed.
Lemma HEX_hex b : hex_text (HEX b).
Proof.
  induction b as [|x b IH]; [constructor|]. rewrite HEX_cons. pose proof (b2n_lt x).
  assert (b2n x / 16 < 16)%N by (apply N.div_lt_upper_bound; lia). pose proof (N.mod_lt (b2n x) 16 ltac:(lia)).
  constructor; [|constructor; [|exact IH]]; unfold hexdig_upper; destruct (_ <? 10)%N eqn:Hx; lia.
Qed.
Lemma plain_decoded E sp k fs lenb data text : has_ascii E -> plain sp -> sget k sp = Some fs -> field_wire E fs lenb data text ->
  proper_value fs text.
Proof.
  intros Ha Hp Hk (n & H1 & H2 & H3). pose proof (plain_nibbles _ _ _ Hp Hk) as Hnib.
  destruct (plain_inv _ _ _ Hp Hk) as (de & lt & ml & P1 & P2 & P3 & P4 & P5 & P6 & P7 & P8).
  unfold occupies in H2. rewrite Hnib in H2. assert (Hr : right_size fs (length data)).
  { exists (Z.of_nat lt), ml. split; [assumption|]. split; [assumption|]. unfold zlen in H2. rewrite H2.
    destruct H1 as [A1 A2 A3|lt' le' ml' A1 A2 A3 A4 A5 A6 A7].
    - assert (Z.of_nat lt = 0%Z) as -> by congruence. cbn. congruence.
    - assert (Z.of_nat lt' = Z.of_nat lt) by congruence. assert (ml' = ml) by congruence. subst ml'. destruct (Z.eqb_spec (Z.of_nat lt) 0); [lia|assumption]. }
  assert (B : text = [] /\ data = [] \/ (de = u "ascii" /\ ascii_text text /\ length text = length data) \/ (de = u "b" /\ hex_text text /\ length text = (2 * length data)%nat)).
  { destruct H3 as [-> ->|de' A1 A2 A3 A4 ->|de' A1 A2 A3 A4 A5|de' A1 A2 A3 A4].
    - left. split; [reflexivity|]. destruct data; [reflexivity|]. unfold zlen in H2. cbn in H2. lia.
    - right. right. unfold is_binary in A3. split; [congruence|]. split; [apply HEX_hex|]. apply HEX_length.
    - rewrite Hnib in A4. discriminate.
    - right. left. assert (de' = de) by congruence. subst. destruct P6 as [->| ->]; [|now destruct A3]. split; [reflexivity|]. now apply ascii_decode with E. }
  destruct B as [[-> ->]|[(-> & B1 & B2)|(-> & B1 & B2)]].
  - destruct P6 as [->| ->]; [left|right]; (split; [assumption|split; [constructor|]]); [exact Hr|exists O; split; [reflexivity|exact Hr]].
  - left. split; [assumption|]. split; [assumption|]. now rewrite B2.
  - right. split; [assumption|]. split; [assumption|]. eauto.
Qed.
Lemma classic_decoded E sp buf b dec enc : env_ok E -> has_ascii E -> plain sp -> classic sp ->
  (exists fs, sget (u "t") sp = Some fs /\ fs_data_enc fs = Some (u "ascii")) ->
  holds buf b -> decode E buf sp = Ok (dec, enc) -> proper_message sp (as_dict dec).
Proof.
  intros HE Ha Hp (C1 & C2 & C3) (ft & Hft & Hde) Hs H. pose proof (plain_fit E sp Ha Hp) as Hf.
  destruct (decode_accounts _ _ _ _ _ _ Hs H) as (_ & K & Hn). destruct (decoded_dict _ _ _ _ _ _ HE Hf Hs H) as (_ & _ & D3).
  assert (Hent : forall k, In k (map fst dec) -> exists e, sget k enc = Some e).
  { intros k Hi. rewrite K in Hi. now apply (dget_some_in str_eqb str_eqb_spec) in Hi. }
  assert (Hfld : forall n, data_field n -> In (zstr n) (map fst dec) -> exists fs t, sget (zstr n) sp = Some fs /\ sget (zstr n) dec = Some t /\ proper_value fs t).
  { intros n Hd Hi. destruct (Hent _ Hi) as [e He]. unfold data_field in Hd.
    destruct (decode_field_entry _ _ _ _ _ _ _ _ Hs H He) as (fs & t & A1 & A2 & A3).
    - apply zstr_neq_t. lia.
    - apply zstr_neq_p. lia.
    - change (u "1") with (zstr 1). intro Hx. apply zstr_inj in Hx; lia.
    - exists fs, t. split; [assumption|]. split; [assumption|]. eapply plain_decoded; eauto. }
  split; [|split].
  - destruct (decode_keys _ _ _ _ _ _ Hf Hs H) as (bm1 & bm2 & bm3 & tp & _ & _ & _ & Kn & _).
    assert (Hi : In (u "t") (map fst dec)) by (apply Kn; right; left; reflexivity). destruct (Hent _ Hi) as [e He].
    destruct (decode_entry _ _ _ _ _ _ _ _ Hs H He) as (t & Ht & Hok). exists t. rewrite as_dict_value, Ht. split; [reflexivity|].
    inversion Hok as [(fs & Hx & _ & _ & Hw)|fs [Hx|Hx] _ _ _|Hx _ _ _]; cbn [sg_key sg_data sg_text] in *; try discriminate Hx; [|congruence].
    rewrite Hft in Hx. injection Hx as <-. destruct Hw as [de A1 A2 A3 ->|de A1 A2 A3 A4].
    + rewrite Hde in A1. injection A1 as <-. discriminate A2.
    + rewrite Hde in A1. injection A1 as <-. apply ascii_decode in A4 as [B1 B2]; [|assumption]. split; [assumption|lia].
  - intros n H0 Hk. destruct (D3 n H0 Hk) as [->|Hd]; [lia|]. apply as_dict_has in Hk. destruct (Hfld n Hd Hk) as (fs & t & A1 & _).
    unfold data_field in Hd. destruct (Z.le_gt_cases n 128); [lia|]. rewrite C3 in A1 by lia. discriminate.
  - intros n Hr N65 Hk. apply as_dict_has in Hk. destruct (Hfld n ltac:(unfold data_field; lia) Hk) as (fs & t & A1 & A2 & A3).
    exists fs, t. split; [assumption|]. split; [|assumption]. now rewrite as_dict_value, A2.
Qed.
Lemma shipped_decoded E sp buf b dec enc : env_ok E -> has_ascii E -> sp = default \/ sp = default_ascii ->
  holds buf b -> decode E buf sp = Ok (dec, enc) -> proper_message sp (as_dict dec).
Proof.
  intros HE Ha [->| ->].
  - apply classic_decoded; auto; [apply default_plain|apply default_classic|]. eexists. split; reflexivity.
  - apply classic_decoded; auto; [apply default_ascii_plain|apply default_ascii_classic|]. eexists. split; reflexivity.
Qed.

(** ** Between the shipped specs *)
Definition pairb (k : pystr) : bool :=
  match sget k default, sget k default_ascii with
  | Some fs, Some fs' =>
      match fs_data_enc fs, fs_data_enc fs', fs_len_type fs, fs_len_type fs', fs_max_len fs, fs_max_len fs' with
      | Some de, Some de', Some lt, Some lt', Some ml, Some ml' =>
          str_eqb de' (u "ascii") && (lt =? lt')%Z
          && (if existsb (str_eqb k) default_binary then str_eqb de (u "b") && (ml' =? 2 * ml)%Z
              else str_eqb de (u "ascii") && (ml' =? ml)%Z)
      | _, _, _, _, _, _ => false
      end
  | _, _ => false
  end.
Lemma pairs_ok : forallb (fun n => (n =? 65)%nat || pairb (zstr (Z.of_nat n))) (seq 2 127) = true.
Proof. vm_compute. reflexivity. Qed.
Lemma pair_of n : (2 <= n <= 128)%Z -> n <> 65%Z -> exists fs fs' lt ml,
  sget (zstr n) default = Some fs /\ sget (zstr n) default_ascii = Some fs'
  /\ fs_data_enc fs' = Some (u "ascii") /\ fs_len_type fs = Some lt /\ fs_len_type fs' = Some lt /\ fs_max_len fs = Some ml
  /\ if existsb (str_eqb (zstr n)) default_binary then fs_data_enc fs = Some (u "b") /\ fs_max_len fs' = Some (2 * ml)%Z
     else fs_data_enc fs = Some (u "ascii") /\ fs_max_len fs' = Some ml.
Proof.
  intros Hn N65. pose proof pairs_ok as H. rewrite forallb_forall in H. specialize (H (Z.to_nat n)). rewrite Z2Nat.id in H by lia.
  assert (X : pairb (zstr n) = true).
  { destruct (pairb (zstr n)); [reflexivity|]. rewrite orb_false_r in H. specialize (H ltac:(apply in_seq; lia)). apply Nat.eqb_eq in H. lia. }
  clear H. unfold pairb in X. destruct (sget (zstr n) default) as [fs|]; [|discriminate]. destruct (sget (zstr n) default_ascii) as [fs'|]; [|discriminate].
  destruct (fs_data_enc fs) as [de|] eqn:A1; [|discriminate]. destruct (fs_data_enc fs') as [de'|] eqn:A2; [|discriminate].
  destruct (fs_len_type fs) as [lt|] eqn:A3; [|discriminate]. destruct (fs_len_type fs') as [lt'|] eqn:A4; [|discriminate].
  destruct (fs_max_len fs) as [ml|] eqn:A5; [|discriminate]. destruct (fs_max_len fs') as [ml'|] eqn:A6; [|discriminate].
  apply andb_true_iff in X as [X X3]. apply andb_true_iff in X as [X1 X2]. apply str_eqb_eq in X1. apply Z.eqb_eq in X2. subst de' lt'.
  exists fs, fs', lt, ml. do 6 (split; [first [reflexivity|assumption]|]). rewrite A1, A6.
  destruct (existsb (str_eqb (zstr n)) default_binary); apply andb_true_iff in X3 as [X3 X4]; apply str_eqb_eq in X3; apply Z.eqb_eq in X4; subst; auto.
Qed.
Lemma right_size_double fs fs' lt ml n : fs_len_type fs = Some lt -> fs_len_type fs' = Some lt -> fs_max_len fs = Some ml ->
  fs_max_len fs' = Some (2 * ml)%Z -> (right_size fs n <-> right_size fs' (2 * n)).
Proof.
  intros A1 A2 A3 A4. unfold right_size. split; intros (lt1 & ml1 & B1 & B2 & B3).
  - assert (lt1 = lt) by congruence. assert (ml1 = ml) by congruence. subst. exists lt, (2 * ml)%Z. repeat (split; [assumption|]). destruct (lt =? 0)%Z; lia.
  - assert (lt1 = lt) by congruence. assert (ml1 = 2 * ml)%Z by congruence. subst. exists lt, ml. repeat (split; [assumption|]). destruct (lt =? 0)%Z; lia.
Qed.
Lemma right_size_same fs fs' lt ml n : fs_len_type fs = Some lt -> fs_len_type fs' = Some lt -> fs_max_len fs = Some ml ->
  fs_max_len fs' = Some ml -> right_size fs n -> right_size fs' n.
Proof. intros A1 A2 A3 A4 (lt1 & ml1 & B1 & B2 & B3). exists lt1, ml1. repeat split; congruence. Qed.
Lemma hex_ascii s : hex_text s -> ascii_text s.
Proof. intro H. eapply Forall_impl; [|exact H]. intros c Hc. cbv beta in *. lia. Qed.

Lemma double_even (s : pystr) : Nat.even (length s) = true <-> exists n, length s = (2 * n)%nat.
Proof. rewrite Nat.even_spec. reflexivity. Qed.

Lemma widen d : proper_message default d -> proper_message default_ascii d.
Proof.
  intros (H1 & H2 & H3). split; [assumption|]. split; [assumption|]. intros n Hn N65 Hk.
  destruct (H3 n Hn N65 Hk) as (fs & s & A1 & A2 & A3). destruct (pair_of n Hn N65) as (f1 & f2 & lt & ml & P1 & P2 & P3 & P4 & P5 & P6 & P7).
  assert (f1 = fs) by congruence. subst f1. exists f2, s. split; [assumption|]. split; [assumption|]. left. split; [assumption|].
  destruct (existsb _ _); destruct P7 as [P7 P8]; destruct A3 as [(B1 & B2 & B3)|(B1 & B2 & m & B3 & B4)]; try (rewrite P7 in B1; discriminate B1).
  - split; [now apply hex_ascii|]. rewrite B3. now apply (right_size_double fs f2 lt ml).
  - split; [assumption|]. now apply (right_size_same fs f2 lt ml).
Qed.
Lemma binary_key k : In k default_binary -> exists n, (2 <= n <= 128)%Z /\ n <> 65%Z /\ k = zstr n.
Proof.
  intros [<-|[<-|[<-|[<-|[<-|[]]]]]]; [exists 52%Z|exists 55%Z|exists 64%Z|exists 96%Z|exists 128%Z]; (split; [lia|]; split; [lia|reflexivity]).
Qed.
Lemma binary_mem k : In k default_binary <-> existsb (str_eqb k) default_binary = true.
Proof.
  rewrite existsb_exists. split; [|intros (x & Hx & He)].
  - intro H. exists k. split; [assumption|]. now apply str_eqb_eq.
  - apply str_eqb_eq in He. now subst.
Qed.
Lemma narrow d : proper_message default_ascii d ->
  (proper_message default d <-> forall k s, In k default_binary -> value d k = Some (VStr s) -> whole_bytes s).
Proof.
  intros (H1 & H2 & H3). split.
  - intros (_ & _ & G3) k s Hk Hv. destruct (binary_key k Hk) as (n & Hn & N65 & ->).
    destruct (G3 n Hn N65 (value_has _ _ _ Hv)) as (fs & s' & A1 & A2 & A3). assert (s' = s) by congruence. subst s'.
    destruct (pair_of n Hn N65) as (f1 & f2 & lt & ml & P1 & P2 & P3 & P4 & P5 & P6 & P7). apply binary_mem in Hk. rewrite Hk in P7.
    assert (f1 = fs) by congruence. subst f1. destruct P7 as [P7 _]. destruct A3 as [(B1 & _)|(B1 & B2 & m & B3 & B4)]; [rewrite P7 in B1; discriminate B1|].
    split; [assumption|]. apply double_even. eauto.
  - intro Hb. split; [assumption|]. split; [assumption|]. intros n Hn N65 Hk.
    destruct (H3 n Hn N65 Hk) as (fs' & s & A1 & A2 & A3). destruct (pair_of n Hn N65) as (f1 & f2 & lt & ml & P1 & P2 & P3 & P4 & P5 & P6 & P7).
    assert (f2 = fs') by congruence. subst f2. exists f1, s. split; [assumption|]. split; [assumption|].
    destruct A3 as [(B1 & B2 & B3)|(B1 & _)]; [|rewrite P3 in B1; discriminate B1].
    destruct (existsb (str_eqb (zstr n)) default_binary) eqn:Hbin; destruct P7 as [P7 P8].
    + right. apply binary_mem in Hbin. destruct (Hb _ _ Hbin A2) as [C1 C2]. split; [assumption|]. split; [assumption|].
      apply double_even in C2 as [m Hm]. exists m. split; [assumption|]. rewrite Hm in B3. now apply (right_size_double f1 fs' lt ml).
    + left. split; [assumption|]. split; [assumption|]. now apply (right_size_same fs' f1 lt ml).
Qed.

Lemma shipped_header_off sp : sp = default \/ sp = default_ascii -> header_off sp.
Proof. intros [->| ->]; [apply default_header_off|apply ascii_header_off]. Qed.
Lemma shipped_key E sp buf b dec enc sp' k : has_ascii E -> sp = default \/ sp = default_ascii -> holds buf b -> decode E buf sp = Ok (dec, enc) ->
  In k (map fst dec) -> k <> u "p" -> k <> u "1" -> message_key sp' k.
Proof.
  intros Ha Hsp Hs H Hk Np N1. assert (Hf : bitmaps_fit E sp) by (destruct Hsp as [->| ->]; apply plain_fit; auto using default_plain, default_ascii_plain).
  apply (decoded_key _ _ _ _ _ _ _ Hf Hs H) in Hk as [[_ Hh]|[->|[->|[->|Hd]]]]; try congruence.
  - destruct Hh as (fs & ml & A1 & A2 & A3). destruct (shipped_header_off sp Hsp) as (fs' & ml' & B1 & B2 & B3). exfalso.
    rewrite A1 in B1. injection B1 as <-. rewrite A2 in B2. injection B2 as <-. lia.
  - right. left. reflexivity.
  - right. right. exact Hd.
Qed.
Lemma sget_keys {V} (d : list (pystr * V)) k : sget k d <> None <-> In k (map fst d).
Proof.
  rewrite (dget_some_in str_eqb str_eqb_spec). unfold sget. split.
  - intro H. destruct (dget str_eqb k d) as [v|]; [eauto|congruence].
  - intros [v Hv]. congruence.
Qed.

Lemma kept_value E sp d s enc d' k : env_ok E -> str_dict d -> encode E (ADict d) sp = (Ok (s, enc), d') ->
  k <> u "p" -> k <> u "1" -> k <> u "65" -> value d' k = value d k.
Proof.
  intros HE D1 He N1 N2 N3. apply encode_ok in He as (bm1 & bm2 & bm3 & _ & _ & ->); [|apply D1].
  apply (with_bitmaps_facts d bm1 bm2 bm3 (proj1 D1)). unfold is_bitmap_key. cbn [key_eqb].
  assert (N1' : u "p" <> k) by congruence. assert (N2' : u "1" <> k) by congruence. assert (N3' : u "65" <> k) by congruence.
  apply str_eqb_neq in N1'. apply str_eqb_neq in N2'. apply str_eqb_neq in N3'. now rewrite N1', N2', N3'.
Qed.
Lemma message_key_off sp k : header_off sp -> message_key sp k -> k = u "t" \/ exists n, data_field n /\ k = zstr n.
Proof.
  intros (fs & ml & A1 & A2 & A3) [[_ Hh]|[->|Hd]]; [|now left|now right].
  destruct Hh as (fs' & ml' & B1 & B2 & B3). assert (fs' = fs) by congruence. subst. assert (ml' = ml) by congruence. lia.
Qed.
Lemma not_65 sp k : header_off sp -> message_key sp k -> k <> u "65".
Proof.
  intros Ho Hk. apply message_key_off in Hk as [->|(n & Hn & ->)]; [discriminate| |assumption]. unfold data_field in Hn.
  change (u "65") with (zstr 65). intro Hx. apply zstr_inj in Hx; lia.
Qed.
Lemma resend E sp sp' bin buf b dec enc s enc' d' buf' : env_ok E -> has_ascii E ->
  sp = default \/ sp = default_ascii -> sp' = default /\ bin = default_binary \/ sp' = default_ascii /\ bin = [] ->
  holds buf b -> decode E buf sp = Ok (dec, enc) -> encode E (ADict (as_dict dec)) sp' = (Ok (s, enc'), d') -> holds buf' s ->
  exists dec', decode E buf' sp' = Ok (dec', enc')
    /\ forall k, k <> u "p" -> k <> u "1" ->
         sget k dec' = option_map (fun t => if existsb (str_eqb k) bin then py_upper t else t) (sget k dec).
Proof.
  intros HE Ha Hsp Hsp' Hs H He Hs'. assert (Hf : bitmaps_fit E sp) by (destruct Hsp as [->| ->]; apply plain_fit; auto using default_plain, default_ascii_plain).
  assert (Hsh : sp' = default \/ sp' = default_ascii) by (destruct Hsp' as [[-> _]|[-> _]]; auto).
  destruct (decoded_dict _ _ _ _ _ _ HE Hf Hs H) as (D1 & D2 & _).
  assert (R : exists dec', decode E buf' sp' = Ok (dec', enc')
    /\ forall k t, sget k dec' = Some t <-> wire_key sp' k
         /\ exists v, value d' k = Some (VStr v) /\ t = if existsb (str_eqb k) bin then py_upper v else v).
  { destruct Hsp' as [[-> ->]|[-> ->]]; [eapply default_roundtrip; eauto|].
    destruct (default_ascii_roundtrip E _ s enc' d' buf' HE Ha D1 He Hs') as (dec' & R1 & R2). exists dec'. split; [assumption|].
    intros k t. rewrite R2. cbn [existsb]. split; intros (Hw & Hv); split; auto; [eauto|]. destruct Hv as (v & Hv & ->). assumption. }
  destruct R as (dec' & R1 & R2). exists dec'. split; [assumption|]. intros k Np N1.
  destruct (sget k dec) as [t|] eqn:T; cbn [option_map].
  - assert (Hm : message_key sp' k) by (apply (shipped_key E sp buf b dec enc); auto; apply sget_keys; congruence).
    apply R2. split; [destruct Hm as [Hm|[Hm|Hm]]; unfold wire_key; auto 6|]. exists t. split; [|reflexivity].
    rewrite (kept_value E sp' _ s enc' d' k HE D1 He Np N1 (not_65 sp' k (shipped_header_off _ Hsh) Hm)). now rewrite as_dict_value, T.
  - destruct (sget k dec') as [t'|] eqn:T'; [|reflexivity]. exfalso.
    assert (Hm : message_key sp' k) by (apply (shipped_key E sp' buf' s dec' enc'); auto; apply sget_keys; congruence).
    apply R2 in T' as (_ & v & Hv & _). rewrite (kept_value E sp' _ s enc' d' k HE D1 He Np N1 (not_65 sp' k (shipped_header_off _ Hsh) Hm)), as_dict_value, T in Hv. discriminate.
Qed.

Lemma shipped_dict E sp buf b dec enc : env_ok E -> has_ascii E -> sp = default \/ sp = default_ascii ->
  holds buf b -> decode E buf sp = Ok (dec, enc) -> str_dict (as_dict dec) /\ canonical_keys E (as_dict dec).
Proof.
  intros HE Ha Hsp Hs H. assert (Hf : bitmaps_fit E sp) by (destruct Hsp as [->| ->]; apply plain_fit; auto using default_plain, default_ascii_plain).
  destruct (decoded_dict _ _ _ _ _ _ HE Hf Hs H) as (D1 & D2 & _). auto.
Qed.
Lemma to_ascii E buf b dec enc : env_ok E -> has_ascii E -> holds buf b -> decode E buf default = Ok (dec, enc) ->
  exists s enc' d', encode E (ADict (as_dict dec)) default_ascii = (Ok (s, enc'), d')
    /\ forall buf', holds buf' s -> exists dec', decode E buf' default_ascii = Ok (dec', enc')
         /\ forall k, k <> u "p" -> k <> u "1" -> sget k dec' = sget k dec.
Proof.
  intros HE Ha Hs H. destruct (shipped_dict E default buf b dec enc HE Ha (or_introl eq_refl) Hs H) as [D1 D2].
  pose proof (shipped_decoded E default buf b dec enc HE Ha (or_introl eq_refl) Hs H) as Hp. apply widen in Hp.
  apply (shipped_sends E default_ascii _ HE Ha (or_intror eq_refl) D1 D2) in Hp as (s & enc' & d' & He).
  exists s, enc', d'. split; [assumption|]. intros buf' Hs'.
  destruct (resend E default default_ascii [] buf b dec enc s enc' d' buf' HE Ha (or_introl eq_refl) (or_intror (conj eq_refl eq_refl)) Hs H He Hs') as (dec' & G1 & G2).
  exists dec'. split; [assumption|]. intros k Np N1. rewrite (G2 k Np N1). cbn [existsb]. now destruct (sget k dec).
Qed.
Lemma from_ascii_iff E buf b dec enc : env_ok E -> has_ascii E -> holds buf b -> decode E buf default_ascii = Ok (dec, enc) ->
  ((exists s enc' d', encode E (ADict (as_dict dec)) default = (Ok (s, enc'), d'))
   <-> forall k t, In k default_binary -> sget k dec = Some t -> whole_bytes t).
Proof.
  intros HE Ha Hs H. destruct (shipped_dict E default_ascii buf b dec enc HE Ha (or_intror eq_refl) Hs H) as [D1 D2].
  pose proof (shipped_decoded E default_ascii buf b dec enc HE Ha (or_intror eq_refl) Hs H) as Hp.
  rewrite (shipped_sends E default _ HE Ha (or_introl eq_refl) D1 D2), (narrow _ Hp). split; intros G k t Hk Hv; apply (G k t Hk).
  - now rewrite as_dict_value, Hv.
  - rewrite as_dict_value in Hv. destruct (sget k dec); [now injection Hv as ->|discriminate].
Qed.
Lemma from_ascii E buf b dec enc s enc' d' buf' : env_ok E -> has_ascii E -> holds buf b -> decode E buf default_ascii = Ok (dec, enc) ->
  encode E (ADict (as_dict dec)) default = (Ok (s, enc'), d') -> holds buf' s ->
  exists dec', decode E buf' default = Ok (dec', enc')
    /\ forall k, k <> u "p" -> k <> u "1" ->
         sget k dec' = option_map (fun t => if existsb (str_eqb k) default_binary then py_upper t else t) (sget k dec).
Proof.
  intros HE Ha Hs H He Hs'.
  exact (resend E default_ascii default default_binary buf b dec enc s enc' d' buf' HE Ha (or_intror eq_refl) (or_introl (conj eq_refl eq_refl)) Hs H He Hs').
Qed.
Lemma decoded_upper E buf b dec enc k t : env_ok E -> has_ascii E -> holds buf b -> decode E buf default = Ok (dec, enc) ->
  In k default_binary -> sget k dec = Some t -> py_upper t = t /\ whole_bytes t.
Proof.
  intros HE Ha Hs H Hk Ht. destruct (binary_key k Hk) as (n & Hn & N65 & ->).
  destruct (decode_accounts _ _ _ _ _ _ Hs H) as (_ & K & _).
  assert (Hi : In (zstr n) (map fst enc)) by (rewrite <- K; apply sget_keys; congruence). apply (dget_some_in str_eqb str_eqb_spec) in Hi as [e He].
  destruct (decode_field_entry _ _ _ _ _ _ _ _ Hs H He) as (fs & t' & A1 & A2 & m & B1 & B2 & B3).
  { apply zstr_neq_t. lia. } { apply zstr_neq_p. lia. } { change (u "1") with (zstr 1). intro Hx. apply zstr_inj in Hx; lia. }
  assert (t' = t) by congruence. subst t'.
  destruct (pair_of n Hn N65) as (f1 & f2 & lt & ml & P1 & P2 & P3 & P4 & P5 & P6 & P7). apply binary_mem in Hk. rewrite Hk in P7.
  assert (f1 = fs) by congruence. subst f1. destruct P7 as [P7 P8]. pose proof (plain_nibbles _ _ _ default_plain A1) as Hnib.
  destruct B3 as [-> ->|de' C1 C2 C3 C4 ->|de' C1 C2 C3 C4 C5|de' C1 C2 C3 C4].
  - split; [reflexivity|]. split; [constructor|reflexivity].
  - split; [apply upper_HEX|]. split; [apply HEX_hex|]. apply double_even. eexists. apply HEX_length.
  - rewrite Hnib in C4. discriminate.
  - rewrite P7 in C2. injection C2 as <-. now destruct C3.
Qed.
Lemma there_and_back E buf b dec enc s enc' d' buf' dec' e : env_ok E -> has_ascii E -> holds buf b ->
  decode E buf default = Ok (dec, enc) -> encode E (ADict (as_dict dec)) default_ascii = (Ok (s, enc'), d') -> holds buf' s ->
  decode E buf' default_ascii = Ok (dec', e) ->
  exists s2 enc2 d2, encode E (ADict (as_dict dec')) default = (Ok (s2, enc2), d2)
    /\ forall buf2, holds buf2 s2 -> exists dec2, decode E buf2 default = Ok (dec2, enc2)
         /\ forall k, k <> u "p" -> k <> u "1" -> sget k dec2 = sget k dec.
Proof.
  intros HE Ha Hs H He Hs' H'. destruct (to_ascii E buf b dec enc HE Ha Hs H) as (s1 & e1 & d1 & T1 & T2).
  rewrite He in T1. injection T1 as <- <- <-. destruct (T2 buf' Hs') as (dec1 & T3 & T4). rewrite H' in T3. injection T3 as <- <-.
  assert (Hb : forall k, In k default_binary -> k <> u "p" /\ k <> u "1").
  { intros k [<-|[<-|[<-|[<-|[<-|[]]]]]]; split; discriminate. }
  assert (X : exists s2 enc2 d2, encode E (ADict (as_dict dec')) default = (Ok (s2, enc2), d2)).
  { apply (from_ascii_iff E buf' s dec' e HE Ha Hs' H'). intros k t Hk Ht. destruct (Hb k Hk) as [Np N1]. rewrite (T4 k Np N1) in Ht.
    now apply (decoded_upper E buf b dec enc k t HE Ha Hs H Hk Ht). }
  destruct X as (s2 & enc2 & d2 & X). exists s2, enc2, d2. split; [assumption|]. intros buf2 Hs2.
  destruct (from_ascii E buf' s dec' e s2 enc2 d2 buf2 HE Ha Hs' H' X Hs2) as (dec2 & G1 & G2). exists dec2. split; [assumption|].
  intros k Np N1. rewrite (G2 k Np N1), (T4 k Np N1). destruct (sget k dec) as [t|] eqn:T; [|reflexivity]. cbn [option_map]. f_equal.
  destruct (existsb (str_eqb k) default_binary) eqn:Hk; [|reflexivity]. apply binary_mem in Hk. now apply (decoded_upper E buf b dec enc k t HE Ha Hs H Hk T).
Qed.
Lemma send_again E sp buf b dec enc : env_ok E -> has_ascii E -> sp = default \/ sp = default_ascii ->
  holds buf b -> decode E buf sp = Ok (dec, enc) -> exists s enc' d', encode E (ADict (as_dict dec)) sp = (Ok (s, enc'), d').
Proof.
  intros HE Ha Hsp Hs H. destruct (shipped_dict E sp buf b dec enc HE Ha Hsp Hs H) as [D1 D2].
  apply (shipped_sends E sp _ HE Ha Hsp D1 D2). exact (shipped_decoded E sp buf b dec enc HE Ha Hsp Hs H).
Qed.
