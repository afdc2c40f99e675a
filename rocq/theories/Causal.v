(** * Causal: what is read of a message depends only on the bytes up to there. *)
From Verif Require Import PyBase BaseFacts Types Numerals NumeralFacts Decoder Wire DecodeFault Claims.
From Verif Require Import DecoderFacts DecodeRun DecodeTheorems DecodeFaultFacts Replace Corrupt Claims6.
Local Opaque data_fields.

(** ** The key the reader expects after some segments; none at the end *)
Inductive after_header (E : pyenv) (sp : spec) : list segment -> option pystr -> Prop :=
| CType : after_header E sp [] (Some (u "t"))
| CPrimary t : type_part E sp t -> after_header E sp [t] (Some (u "p"))
| CExtra t p bm1 : type_part E sp t -> primary_part E sp p bm1 -> bit bm1 1 = true -> after_header E sp [t; p] (Some (u "1"))
| CField t p xs bm1 bm2 bm3 done todo segs :
    type_part E sp t -> primary_part E sp p bm1 -> extra_part E sp bm1 xs bm2 bm3 ->
    filter (announced bm1 bm2 bm3) data_fields = done ++ todo -> map sg_key segs = map zstr done ->
    after_header E sp (t :: p :: xs ++ segs) (option_map zstr (hd_error todo)).
Inductive cursor (E : pyenv) (sp : spec) : list segment -> option pystr -> Prop :=
| CHeader fs ml : sget (u "h") sp = Some fs -> fs_max_len fs = Some ml -> (0 < ml)%Z -> cursor E sp [] (Some (u "h"))
| CRest hs l k : header_part E sp hs -> after_header E sp l k -> cursor E sp (hs ++ l) k.

Lemma header_same E sp hs1 hs2 : header_part E sp hs1 -> header_part E sp hs2 -> length hs1 = length hs2.
Proof. intros [fs ml A1 A2 A3|fs ml sg A1 A2 A3 A4 A5] [fs' ml' B1 B2 B3|fs' ml' sg' B1 B2 B3 B4 B5]; try reflexivity; exfalso; assert (fs' = fs) by congruence; subst fs'; assert (ml' = ml) by congruence; lia. Qed.
Lemma header_same_app E sp hs1 hs2 l1 l2 : header_part E sp hs1 -> header_part E sp hs2 -> hs1 ++ l1 = hs2 ++ l2 -> hs1 = hs2 /\ l1 = l2.
Proof. intros A B Q. apply app_len_inv; [|assumption]. eapply header_same; eauto. Qed.
Lemma primary_same E sp p bm bm' : primary_part E sp p bm -> primary_part E sp p bm' -> bm = bm'.
Proof.
  intros (fs & _ & _ & _ & A) (fs' & _ & _ & _ & B). apply bitmap_wire_fromhex in A, B. exact (hex_spelling_unique _ _ _ A B).
Qed.
Lemma bitmap_wire_width E fs d t bm d' t' bm' : bitmap_wire E fs d t bm -> bitmap_wire E fs d' t' bm' -> length d = length d'.
Proof. intros [de A1 A2 A3 A4 A5|de A1 A2 A3 A4 A5] [de' B1 B2 B3 B4 B5|de' B1 B2 B3 B4 B5]; congruence. Qed.
Lemma bitmap_wire_same E fs d t bm t' bm' : bitmap_wire E fs d t bm -> bitmap_wire E fs d t' bm' -> t = t' /\ bm = bm'.
Proof.
  intros A B. assert (T : t = t').
  { destruct A as [de A1 A2 A3 A4 A5|de A1 A2 A3 A4 A5], B as [de' B1 B2 B3 B4 B5|de' B1 B2 B3 B4 B5]; congruence. }
  split; [assumption|]. subst t'. apply bitmap_wire_fromhex in A, B. exact (hex_spelling_unique _ _ _ A B).
Qed.
(** Two readings of the further bitmaps at the head of the same bytes. *)
Lemma extra_same E sp bm1 xs bm2 bm3 xs' bm2' bm3' r r' : extra_part E sp bm1 xs bm2 bm3 -> extra_part E sp bm1 xs' bm2' bm3' ->
  bytes_of xs ++ r = bytes_of xs' ++ r' -> xs = xs' /\ bm2 = bm2' /\ bm3 = bm3' /\ r = r'.
Proof.
  assert (S : forall sg sg' : segment, sg_key sg = u "1" -> sg_key sg' = u "1" -> sg_len sg = [] -> sg_len sg' = [] ->
    sg_data sg = sg_data sg' -> sg_text sg = sg_text sg' -> sg = sg') by (intros [] []; cbn; congruence).
  intros [A|fs sg b2 A1 A2 A3 A4 A5 A6|fs sg d2 t2 b2 d3 t3 b3 A1 A2 A3 A4 A5 A6 A7 A8 A9]
         [B|fs' sg' b2' B1 B2 B3 B4 B5 B6|fs' sg' d2' t2' b2' d3' t3' b3' B1 B2 B3 B4 B5 B6 B7 B8 B9] Q; try congruence; [auto| | | |];
    rewrite ?bytes_of_one in Q; unfold sg_bytes in Q; rewrite A4, B4 in Q; cbn [app] in Q; assert (fs' = fs) by congruence; subst fs';
    rewrite ?A5, ?B5, <- ?app_assoc in Q.
  - apply app_len_inv in Q as [Q1 Q2]; [|eapply bitmap_wire_width; eauto]. rewrite Q1 in A5. destruct (bitmap_wire_same _ _ _ _ _ _ _ A5 B5) as [T ->].
    split; [f_equal; now apply S|auto].
  - apply app_len_inv in Q as [Q1 Q2]; [|eapply bitmap_wire_width; eauto]. rewrite Q1 in A5. destruct (bitmap_wire_same _ _ _ _ _ _ _ A5 B7) as [T ->]. congruence.
  - apply app_len_inv in Q as [Q1 Q2]; [|eapply bitmap_wire_width; eauto]. rewrite Q1 in A7. destruct (bitmap_wire_same _ _ _ _ _ _ _ A7 B5) as [T ->]. congruence.
  - apply app_len_inv in Q as [Q1 Q2]; [|eapply bitmap_wire_width; eauto]. subst d2'. destruct (bitmap_wire_same _ _ _ _ _ _ _ A7 B7) as [T ->]. subst t2'.
    apply app_len_inv in Q2 as [Q1 Q2]; [|eapply bitmap_wire_width; eauto]. subst d3'. destruct (bitmap_wire_same _ _ _ _ _ _ _ A8 B8) as [T ->]. subst t3'.
    split; [f_equal; apply S; congruence|auto].
Qed.
Lemma extra_again E sp bm1 xs bm2 bm3 xs' bm2' bm3' l l' : extra_part E sp bm1 xs bm2 bm3 -> extra_part E sp bm1 xs' bm2' bm3' ->
  xs ++ l = xs' ++ l' -> xs = xs' /\ bm2 = bm2' /\ bm3 = bm3' /\ l = l'.
Proof.
  intros A B Q. assert (L : length xs = length xs') by (destruct A, B; reflexivity || congruence). apply app_len_inv in Q as [Q1 Q2]; [|assumption]. subst xs' l'.
  destruct (extra_same E sp bm1 xs bm2 bm3 xs bm2' bm3' [] [] A B eq_refl) as (_ & -> & -> & _). auto.
Qed.
Lemma hd_split {A} (l a b a' b' : list A) : l = a ++ b -> l = a' ++ b' -> length a = length a' -> b = b'.
Proof. intros -> Q L. now apply app_len_inv in Q as [_ ->]. Qed.
Lemma after_fun E sp l k l' k' : after_header E sp l k -> after_header E sp l' k' -> l = l' -> k = k'.
Proof.
  intros [|t A1|t p bm1 A1 A2 A3|t p xs bm1 bm2 bm3 done todo segs A1 A2 A3 A4 A5]
         [|t' B1|t' p' bm1' B1 B2 B3|t' p' xs' bm1' bm2' bm3' done' todo' segs' B1 B2 B3 B4 B5] Q; try reflexivity; try discriminate; injection Q as <- <- Q;
    assert (bm1' = bm1) by (eapply primary_same; eauto); subst bm1'.
  - symmetry in Q. apply app_eq_nil in Q as [-> ->]. inversion B3; congruence.
  - apply app_eq_nil in Q as [-> ->]. inversion A3; congruence.
  - destruct (extra_again _ _ _ _ _ _ _ _ _ _ _ A3 B3 Q) as (-> & -> & -> & ->).
    f_equal. f_equal. eapply hd_split; [eassumption|eassumption|]. rewrite <- (map_length zstr done), <- (map_length zstr done'). congruence.
Qed.
Lemma header_nil E sp fs ml : sget (u "h") sp = Some fs -> fs_max_len fs = Some ml -> (0 < ml)%Z -> ~ header_part E sp [].
Proof. intros A1 A2 A3 H. inversion H as [fs' ml' B1 B2 B3|]. assert (fs' = fs) by congruence. subst fs'. assert (ml' = ml) by congruence. subst. lia. Qed.
Lemma cursor_fun E sp pre k pre' k' : cursor E sp pre k -> cursor E sp pre' k' -> pre = pre' -> k = k'.
Proof.
  intros [fs ml A1 A2 A3|hs l k1 A1 A2] [fs' ml' B1 B2 B3|hs' l' k2 B1 B2] Q; [reflexivity| | |].
  - symmetry in Q. apply app_eq_nil in Q as [-> ->]. exfalso. eapply header_nil; eauto.
  - apply app_eq_nil in Q as [-> ->]. exfalso. eapply header_nil; eauto.
  - apply (header_same_app E sp) in Q as [-> ->]; [|assumption|assumption]. eapply after_fun; eauto.
Qed.

(** ** Segments read one after the other *)
Definition chain (E : pyenv) (sp : spec) (segs : list segment) : Prop :=
  forall pre sg post, segs = pre ++ sg :: post -> stage E sp pre sg.
Lemma stage_cursor E sp pre sg : stage E sp pre sg -> cursor E sp pre (Some (sg_key sg)).
Proof.
  intros [fs ml sg0 A1 A2 A3 A4 A5|hs sg0 A1 A2|hs t sg0 bm1 A1 A2 A3|hs t p sg0 bm1 bm2 bm3 A1 A2 A3 A4|hs t p xs bm1 bm2 bm3 done f todo segs sg0 A1 A2 A3 A4 A5 A6 A7 A8 A9].
  - rewrite A4. eapply CHeader; eauto.
  - destruct A2 as (fs & _ & -> & _). rewrite <- (app_nil_r hs). apply CRest; [assumption|constructor].
  - destruct A3 as (fs & _ & -> & _). apply CRest; [assumption|now constructor].
  - replace (sg_key sg0) with (u "1") by (inversion A4; congruence). apply CRest; [assumption|]. eapply CExtra; eauto. inversion A4; assumption.
  - rewrite A8. apply CRest; [assumption|]. change (Some (zstr f)) with (option_map zstr (hd_error (f :: todo))). eapply CField; eauto.
Qed.
Lemma message_chain E sp segs : message E sp segs -> chain E sp segs.
Proof. intros M pre sg post ->. eapply message_stage; eauto. Qed.
Lemma message_cursor E sp segs : message E sp segs -> cursor E sp segs None.
Proof.
  intros (hs & t & p & xs & fields & bm1 & bm2 & bm3 & -> & H1 & H2 & H3 & H4 & H5 & H6). apply CRest; [assumption|].
  change (@None pystr) with (option_map zstr (hd_error [])). eapply CField; eauto. now rewrite app_nil_r.
Qed.
Lemma chain_nil E sp : chain E sp [].
Proof. intros pre sg post Q. now destruct pre. Qed.
Lemma chain_snoc E sp segs sg : chain E sp segs -> stage E sp segs sg -> chain E sp (segs ++ [sg]).
Proof.
  intros C S pre x post Q. destruct post as [|y post] using rev_ind; [apply app_inj_tail in Q as [<- <-]; assumption|].
  clear IHpost. rewrite app_comm_cons, app_assoc in Q. apply app_inj_tail in Q as [-> _]. eapply C. reflexivity.
Qed.
Lemma chain_header E sp hs : header_part E sp hs -> chain E sp hs.
Proof. intros [fs ml A1 A2 A3|fs ml sg A1 A2 A3 A4 A5]; [apply chain_nil|]. apply (chain_snoc E sp [] sg (chain_nil E sp)). eapply AtHeader; eauto. Qed.
Lemma chain_type E sp hs t : header_part E sp hs -> type_part E sp t -> chain E sp (hs ++ [t]).
Proof. intros A B. apply chain_snoc; [now apply chain_header|now apply AtType]. Qed.
Lemma chain_primary E sp hs t p bm1 : header_part E sp hs -> type_part E sp t -> primary_part E sp p bm1 -> chain E sp (hs ++ [t; p]).
Proof.
  intros A B C. change [t; p] with ([t] ++ [p]). rewrite app_assoc. apply chain_snoc; [now apply chain_type|]. eapply AtPrimary; eauto.
Qed.
Lemma chain_extra E sp hs t p bm1 xs bm2 bm3 : header_part E sp hs -> type_part E sp t -> primary_part E sp p bm1 -> extra_part E sp bm1 xs bm2 bm3 ->
  chain E sp (hs ++ t :: p :: xs).
Proof.
  intros A B C D. destruct (extra_one _ _ _ _ _ _ D) as [->|[x ->]]; [eapply chain_primary; eauto|].
  replace (hs ++ [t; p; x]) with ((hs ++ [t; p]) ++ [x]) by now rewrite <- app_assoc. apply chain_snoc; [eapply chain_primary; eauto|]. eapply AtExtra; eauto.
Qed.
Lemma chain_fields E sp hs t p bm1 xs bm2 bm3 : header_part E sp hs -> type_part E sp t -> primary_part E sp p bm1 -> extra_part E sp bm1 xs bm2 bm3 ->
  forall segs done todo, filter (announced bm1 bm2 bm3) data_fields = done ++ todo -> map sg_key segs = map zstr done -> Forall (field_segment E sp) segs ->
  chain E sp (hs ++ t :: p :: xs ++ segs).
Proof.
  intros A B C D. induction segs as [|sg segs IH] using rev_ind; intros done todo F K W.
  - rewrite app_nil_r. eapply chain_extra; eauto.
  - rewrite map_app in K. cbn [map] in K. symmetry in K. apply map_eq_app in K as (d & r & -> & K1 & K2). apply map_eq_cons in K2 as (f & r' & -> & K2 & K3).
    apply map_eq_nil in K3. subst r'. rewrite <- app_assoc in F. cbn [app] in F. apply Forall_app in W as [W1 W2]. inversion W2; subst.
    replace (hs ++ t :: p :: xs ++ segs ++ [sg]) with ((hs ++ t :: p :: xs ++ segs) ++ [sg]) by (rewrite <- app_assoc; cbn; now rewrite <- app_assoc).
    apply chain_snoc; [eapply IH; eauto|]. eapply AtField; eauto.
Qed.
Lemma fault_chain E sp input msg pos segs last : decode_fault E sp input msg pos segs last -> chain E sp segs.
Proof.
  intros [].
  - apply chain_nil.
  - now apply chain_header.
  - now apply chain_type.
  - eapply chain_primary; eauto.
  - eapply chain_primary; eauto.
  - eapply chain_fields; eauto.
  - apply message_chain in H. intros pre sg post ->. eapply H. rewrite <- app_assoc. reflexivity.
Qed.

(** ** One segment: what it is, and that it is, depend on its bytes only *)
Definition st0 : dstate := mkD [] [].
Lemma stands_head x r : stands (x ++ r) 0 x (zlen x).
Proof. exists [], r. auto. Qed.
Lemma put_inj k l d t l' d' t' : put k l d t st0 = put k l' d' t' st0 -> l = l' /\ d = d' /\ t = t'.
Proof. unfold put, st0, sset. cbn. intros [= -> -> ->]. auto. Qed.
Lemma field_same E fs l d t r l' d' t' r' : field_wire E fs l d t -> field_wire E fs l' d' t' -> (l ++ d) ++ r = (l' ++ d') ++ r' ->
  l = l' /\ d = d' /\ t = t'.
Proof.
  intros A B Q. assert (H1 := decode_field_complete E (InBytes ((l ++ d) ++ r)) 0 [] fs st0 _ l d t A (stands_head _ r)).
  assert (H2 := decode_field_complete E (InBytes ((l' ++ d') ++ r')) 0 [] fs st0 _ l' d' t' B (stands_head _ r')). rewrite <- Q, H1 in H2.
  apply pair_ok_inj in H2 as [_ H2]. now apply put_inj in H2.
Qed.
Lemma field_no_fault E fs l d t r before msg off x y z : field_wire E fs l d t -> ~ field_fault E fs before ((l ++ d) ++ r) msg off x y z.
Proof.
  intros A B. assert (H2 := field_fault_complete E (InBytes (before ++ (l ++ d) ++ r)) [] fs st0 before _ _ _ _ _ _ eq_refl B).
  rewrite (decode_field_complete E _ (zlen before) [] fs st0 (zlen before + zlen (l ++ d)) l d t A) in H2; [discriminate|].
  exists before, r. auto.
Qed.
Lemma type_same E fs d t r d' t' r' : type_wire E fs d t -> type_wire E fs d' t' -> d ++ r = d' ++ r' -> d = d' /\ t = t'.
Proof.
  intros A B Q. assert (L : length d = length d') by (destruct A, B; congruence). apply app_len_inv in Q as [<- _]; [|assumption]. split; [reflexivity|].
  destruct A, B; congruence.
Qed.
Lemma type_no_fault E fs d t r msg x : type_wire E fs d t -> ~ type_fault E fs (d ++ r) msg x.
Proof.
  intros A B. set (sp := [(u "t", fs)]). assert (S : sget (u "t") sp = Some fs) by reflexivity.
  assert (H2 := type_fault_complete E (InBytes (d ++ r)) sp st0 fs [] _ _ _ eq_refl S B).
  rewrite (decode_type_complete E _ (zlen (@nil byte)) sp st0 (zlen d) fs d t S A) in H2; [discriminate|]. exact (stands_head d r).
Qed.
Lemma bitmap_no_fault E fs d t bm r old msg x y : bitmap_wire E fs d t bm -> ~ bitmap_fault E fs old (d ++ r) msg x y.
Proof.
  intros A B. destruct B as [de w B1 B2 B3|de data rest why B1 B2 B3 B4 B5|de data rest t0 B1 B2 B3 B4 B5 B6].
  - assert (W : length d = w) by (destruct A as [de' A1 A2 A3 A4 A5|de' A1 A2 A3 A4 A5], B2 as [[C1 C2]|[C1 C2]]; subst; congruence || (exfalso; congruence)).
    rewrite app_length in B3. lia.
  - destruct A as [de' A1 A2 A3 A4 A5|de' A1 A2 A3 A4 A5]; [congruence|]. apply app_len_inv in B3 as [<- _]; [|congruence]. inversion B5; congruence.
  - destruct A as [de' A1 A2 A3 A4 A5|de' A1 A2 A3 A4 A5]; [congruence|]. apply app_len_inv in B3 as [<- _]; [|congruence].
    assert (t0 = t) by congruence. subst t0. exact (B6 bm A5).
Qed.

(** What kind of segment a stage reads. *)
Inductive kind (E : pyenv) (sp : spec) (pre : list segment) (sg : segment) : Prop :=
| KType : type_part E sp sg -> kind E sp pre sg
| KPrimary bm : primary_part E sp sg bm -> kind E sp pre sg
| KExtra hs t p bm1 bm2 bm3 : pre = hs ++ [t; p] -> header_part E sp hs -> primary_part E sp p bm1 -> extra_part E sp bm1 [sg] bm2 bm3 -> kind E sp pre sg
| KField : sg_key sg <> u "t" -> sg_key sg <> u "p" -> sg_key sg <> u "1" -> field_segment E sp sg -> kind E sp pre sg.
Lemma in_filter_range bm1 bm2 bm3 done f todo : filter (announced bm1 bm2 bm3) data_fields = done ++ f :: todo -> (2 <= f)%Z.
Proof. intro A5. assert (I : In f (filter (announced bm1 bm2 bm3) data_fields)) by (rewrite A5; apply in_elt). apply filter_In in I as [I _]. apply data_fields_in in I. lia. Qed.
Lemma stage_kind E sp pre sg : stage E sp pre sg -> kind E sp pre sg.
Proof.
  intros [fs ml sg0 A1 A2 A3 A4 A5|hs sg0 A1 A2|hs t sg0 bm1 A1 A2 A3|hs t p sg0 bm1 bm2 bm3 A1 A2 A3 A4|hs t p xs bm1 bm2 bm3 done f todo segs sg0 A1 A2 A3 A4 A5 A6 A7 A8 A9].
  - apply KField; try assumption; rewrite A4; discriminate.
  - now apply KType.
  - eapply KPrimary; eauto.
  - eapply KExtra; eauto.
  - apply in_filter_range in A5. apply KField; try assumption; rewrite A8; [apply zstr_neq_t|apply zstr_neq_p|apply zstr_neq_1]; lia.
Qed.
Lemma extra_key E sp bm1 sg bm2 bm3 : extra_part E sp bm1 [sg] bm2 bm3 -> sg_key sg = u "1".
Proof. intro H. inversion H; assumption. Qed.
Lemma seg_eq a b : sg_key a = sg_key b -> sg_len a = sg_len b -> sg_data a = sg_data b -> sg_text a = sg_text b -> a = b.
Proof. destruct a, b; cbn; congruence. Qed.
Lemma stage_det E sp pre a b r r' : stage E sp pre a -> stage E sp pre b -> sg_bytes a ++ r = sg_bytes b ++ r' -> a = b.
Proof.
  intros A B Q. assert (K : sg_key a = sg_key b). { assert (H := cursor_fun E sp pre _ pre _ (stage_cursor _ _ _ _ A) (stage_cursor _ _ _ _ B) eq_refl). congruence. }
  apply stage_kind in A, B. destruct A as [A|bm A|hs t p bm1 bm2 bm3 A1 A2 A3 A4|A1 A2 A3 A4], B as [B|bm' B|hs' t' p' bm1' bm2' bm3' B1 B2 B3 B4|B1 B2 B3 B4];
    try (destruct A as (fs & A1 & A2 & A3 & A4)); try (destruct B as (fs' & B1 & B2 & B3 & B4));
    try (apply extra_key in A4 as A5); try (apply extra_key in B4 as B5); try (exfalso; congruence);
    try (exfalso; solve [rewrite A2, B2 in K; discriminate K|rewrite A2, B5 in K; discriminate K|rewrite A5, B2 in K; discriminate K]).
  - assert (fs' = fs) by congruence. subst fs'. unfold sg_bytes in Q. rewrite A3, B3 in Q. cbn [app] in Q. destruct (type_same _ _ _ _ _ _ _ _ A4 B4 Q). apply seg_eq; congruence.
  - assert (fs' = fs) by congruence. subst fs'. unfold sg_bytes in Q. rewrite A3, B3 in Q. cbn [app] in Q. apply app_len_inv in Q as [Q _]; [|eapply bitmap_wire_width; eauto].
    rewrite Q in A4. destruct (bitmap_wire_same _ _ _ _ _ _ _ A4 B4). apply seg_eq; congruence.
  - rewrite B1 in A1. apply (header_same_app E sp) in A1 as [_ A1]; [|assumption|assumption]. injection A1 as -> ->.
    assert (bm1' = bm1) by (eapply primary_same; eauto). subst bm1'. rewrite <- !bytes_of_one in Q.
    destruct (extra_same _ _ _ _ _ _ _ _ _ _ _ A4 B4 Q) as (W & _). congruence.
  - destruct A4 as (fs & C1 & C2), B4 as (fs' & D1 & D2). assert (fs' = fs) by congruence. subst fs'. destruct (field_same _ _ _ _ _ _ _ _ _ _ C2 D2 Q) as (? & ? & ?).
    apply seg_eq; congruence.
Qed.
Lemma bytes_rest pre x r y : bytes_of pre ++ x ++ r = bytes_of pre ++ y -> y = x ++ r.
Proof. intro H. now apply app_inv_head in H. Qed.
(** A segment that can be read is no fault, whatever follows it. *)
Lemma stage_fault E sp pre sg r msg pos last : stage E sp pre sg -> decode_fault E sp (bytes_of pre ++ sg_bytes sg ++ r) msg pos pre last ->
  exists rest, message E sp (pre ++ [last]) /\ sg_bytes sg ++ r = sg_bytes last ++ rest /\ pos = zlen (bytes_of (pre ++ [last])).
Proof.
  intros A F. assert (C := stage_cursor _ _ _ _ A).
  assert (Z : forall k, cursor E sp pre (Some k) -> sg_key sg = k) by (intros k H; assert (W := cursor_fun E sp pre _ pre _ C H eq_refl); congruence).
  apply stage_kind in A. remember (bytes_of pre ++ sg_bytes sg ++ r) as input eqn:Qi.
  destruct F as [fs ml msg off lenb data text F1 F2 F3 F4|hs rest fs msg data F1 F2 F3 F4|hs t rest fs msg data text F1 F2 F3 F4 F5
    |hs t p bm1 rest fs msg data text F1 F2 F3 F4 F5 F6 F7|hs t p bm1 d2 t2 bm2 rest fs msg data text F1 F2 F3 F4 F5 F6 F7 F8 F9
    |hs t p xs bm1 bm2 bm3 done f todo segs rest fs msg off lenb data text F1 F2 F3 F4 F5 F6 F7 F8 F9 F10|segs last rest F1 F2 F3].
  - exfalso. cbn in Qi. subst input. assert (K := Z _ (CHeader _ _ _ _ F1 F2 F3)). destruct A as [(f0 & _ & A & _)|bm (f0 & _ & A & _)|hs t p bm1 bm2 bm3 A1 A2 A3 A4|A1 A2 A3 (f0 & A4 & A5)];
      [rewrite K in A; discriminate|rewrite K in A; discriminate|apply extra_key in A4; rewrite K in A4; discriminate|].
    rewrite K in A4. assert (f0 = fs) by congruence. subst f0. eapply field_no_fault; eauto.
  - exfalso. rewrite F2 in Qi. symmetry in Qi. apply bytes_rest in Qi. subst rest.
    assert (K : sg_key sg = u "t") by (apply Z; rewrite <- (app_nil_r hs); apply CRest; [assumption|constructor]).
    destruct A as [(f0 & A0 & A & A1 & A2)|bm (f0 & _ & A & _)|hs' t p bm1 bm2 bm3 A1 A2 A3 A4|A1 A2 A3 (f0 & A4 & A5)];
      [|rewrite K in A; discriminate|apply extra_key in A4; rewrite K in A4; discriminate|congruence].
    assert (f0 = fs) by congruence. subst f0. unfold sg_bytes in F4. rewrite A1 in F4. eapply type_no_fault; eauto.
  - exfalso. rewrite F3 in Qi. symmetry in Qi. apply bytes_rest in Qi. subst rest.
    assert (K : sg_key sg = u "p") by (apply Z; apply CRest; [assumption|now constructor]).
    destruct A as [(f0 & _ & A & _)|bm (f0 & A0 & A & A1 & A2)|hs' t' p bm1 bm2 bm3 A1 A2 A3 A4|A1 A2 A3 (f0 & A4 & A5)];
      [rewrite K in A; discriminate| |apply extra_key in A4; rewrite K in A4; discriminate|congruence].
    assert (f0 = fs) by congruence. subst f0. unfold sg_bytes in F5. rewrite A1 in F5. eapply bitmap_no_fault; eauto.
  - exfalso. rewrite F5 in Qi. symmetry in Qi. apply bytes_rest in Qi. subst rest.
    assert (K : sg_key sg = u "1") by (apply Z; apply CRest; [assumption|]; eapply CExtra; eauto).
    destruct A as [(f0 & _ & A & _)|bm (f0 & A0 & A & A1 & A2)|hs' t' p' bm1' bm2 bm3 A1 A2 A3 A4|A1 A2 A3 (f0 & A4 & A5)];
      [rewrite K in A; discriminate|rewrite K in A; discriminate| |congruence].
    unfold sg_bytes in F7. inversion A4 as [|f0 sg0 b2 G1 G2 G3 G4 G5 G6 G7|f0 sg0 d2 t2 b2 d3 t3 b3 G1 G2 G3 G4 G5 G6 G7 G8 G9]; subst;
      assert (f0 = fs) by congruence; subst f0; rewrite G4 in F7; cbn [app] in F7.
    + eapply bitmap_no_fault; eauto.
    + rewrite G5, <- app_assoc in F7. eapply bitmap_no_fault; [|exact F7]. eauto.
  - exfalso. rewrite F8 in Qi. symmetry in Qi. apply bytes_rest in Qi.
    assert (K : sg_key sg = u "1") by (apply Z; apply CRest; [assumption|]; eapply CExtra; eauto).
    destruct A as [(f0 & _ & A & _)|bm (f0 & A0 & A & A1 & A2)|hs' t' p' bm1' bm2' bm3 A1 A2 A3 A4|A1 A2 A3 (f0 & A4 & A5)];
      [rewrite K in A; discriminate|rewrite K in A; discriminate| |congruence].
    unfold sg_bytes in Qi. inversion A4 as [|f0 sg0 b2 G1 G2 G3 G4 G5 G6 G7|f0 sg0 d2' t2' b2 d3 t3 b3 G1 G2 G3 G4 G5 G6 G7 G8 G9]; subst;
      assert (f0 = fs) by congruence; subst f0; rewrite G4 in Qi; cbn [app] in Qi.
    + apply app_len_inv in Qi as [Q1 Q2]; [|eapply bitmap_wire_width; eauto]. rewrite <- Q1 in G5. destruct (bitmap_wire_same _ _ _ _ _ _ _ F6 G5). congruence.
    + rewrite G5, <- app_assoc in Qi. apply app_len_inv in Qi as [Q1 Q2]; [|eapply bitmap_wire_width; eauto]. subst rest. eapply bitmap_no_fault; [|exact F9]. eauto.
  - exfalso. rewrite F8 in Qi. symmetry in Qi. apply bytes_rest in Qi. subst rest.
    assert (K : sg_key sg = zstr f).
    { apply Z. apply CRest; [assumption|]. change (Some (zstr f)) with (option_map zstr (hd_error (f :: todo))). eapply CField; eauto. }
    apply in_filter_range in F5.
    destruct A as [(f0 & _ & A & _)|bm (f0 & A0 & A & A1 & A2)|hs' t' p' bm1' bm2' bm3' A1 A2 A3 A4|A1 A2 A3 (f0 & A4 & A5)].
    + rewrite K in A. apply zstr_neq_t in A; lia.
    + rewrite K in A. apply zstr_neq_p in A; lia.
    + apply extra_key in A4. rewrite K in A4. apply zstr_neq_1 in A4; lia.
    + rewrite K in A4. assert (f0 = fs) by congruence. subst f0. eapply field_no_fault; eauto.
  - exists rest. split; [assumption|]. split; [|reflexivity]. rewrite F2 in Qi. rewrite bytes_of_app, bytes_of_one, <- app_assoc in Qi. now apply app_inv_head in Qi.
Qed.

(** ** Two readings of a common beginning *)
Lemma chain_compare E sp r r' : forall pre segs acc, chain E sp (acc ++ pre) -> chain E sp (acc ++ segs) -> bytes_of pre ++ r = bytes_of segs ++ r' ->
  (exists m, segs = pre ++ m) \/ (exists sg m, pre = segs ++ sg :: m).
Proof.
  induction pre as [|a pre IH]; intros segs acc A B Q; [left; now exists segs|]. destruct segs as [|b segs]; [right; now exists a, pre|].
  cbn in Q. rewrite <- !app_assoc in Q. assert (a = b) by (eapply stage_det; [now apply (A acc a pre)|now apply (B acc b segs)|exact Q]). subst b.
  apply app_inv_head in Q. destruct (IH segs (acc ++ [a])) as [[m ->]|(sg & m & ->)]; [now rewrite <- app_assoc|now rewrite <- app_assoc|assumption|left; now exists m|right; now exists sg, m].
Qed.
Lemma chain_end E sp segs sg m : message E sp segs -> chain E sp (segs ++ sg :: m) -> False.
Proof.
  intros M C. assert (S := C segs sg m eq_refl). apply stage_cursor in S. apply message_cursor in M.
  assert (W := cursor_fun E sp segs _ segs _ M S eq_refl). discriminate.
Qed.
Lemma field_fault_off E fs before input msg off l d t : field_fault E fs before input msg off l d t -> (0 <= off)%Z.
Proof. intros []; unfold zlen; lia. Qed.
Lemma fault_pos E sp input msg pos segs last : decode_fault E sp input msg pos segs last -> (zlen (bytes_of segs) <= pos)%Z.
Proof.
  intros []; try lia.
  - apply field_fault_off in H2. cbn. exact H2.
  - rewrite zlen_app. unfold zlen. lia.
  - apply field_fault_off in H8. lia.
  - rewrite bytes_of_app, zlen_app. unfold zlen. lia.
Qed.
Lemma fault_extends E sp pre r msg pos segs last : chain E sp pre -> decode_fault E sp (bytes_of pre ++ r) msg pos segs last ->
  (exists m, segs ++ [last] = pre ++ m) /\ (zlen (bytes_of pre) <= pos)%Z.
Proof.
  intros C F. assert (C' := fault_chain _ _ _ _ _ _ _ F). assert (P := fault_pos _ _ _ _ _ _ _ F).
  assert (X : exists r', bytes_of pre ++ r = bytes_of segs ++ r').
  { remember (bytes_of pre ++ r) as input eqn:Qi. clear Qi.
    destruct F as [| | | |hs t p bm1 d2 t2 bm2 rest fs msg data text F1 F2 F3 F4 F5 F6 F7 F8 F9| |segs last rest F1 F2 F3]; try (eexists; eassumption).
    - now exists input.
    - rewrite bytes_of_app, <- app_assoc in F2. eauto. }
  destruct X as [r' X]. destruct (chain_compare E sp r r' pre segs [] C C' X) as [[m ->]|(sg & m & ->)].
  - split; [exists (m ++ [last]); now rewrite app_assoc|]. rewrite bytes_of_app, zlen_app in P. unfold zlen in *. lia.
  - rewrite bytes_of_app, <- app_assoc in F. cbn [bytes_of flat_map] in F. rewrite <- app_assoc in F. fold (bytes_of m) in F.
    assert (S := C segs sg m eq_refl). destruct (stage_fault _ _ _ _ _ _ _ _ S F) as (rest & M & Q & ->).
    assert (S' := message_stage E sp segs last [] M). assert (sg = last) by (eapply stage_det; eauto). subst sg.
    destruct m as [|x m]; [split; [exists []; now rewrite app_nil_r|lia]|]. exfalso. eapply (chain_end E sp (segs ++ [last]) x m M). now rewrite <- app_assoc.
Qed.
Lemma message_extends E sp pre r segs : chain E sp pre -> message E sp segs -> bytes_of pre ++ r = bytes_of segs -> exists m, segs = pre ++ m.
Proof.
  intros C M Q. rewrite <- (app_nil_r (bytes_of segs)) in Q. destruct (chain_compare E sp r [] pre segs [] C (message_chain _ _ _ M) Q) as [H|(sg & m & ->)]; [assumption|].
  exfalso. eapply chain_end; eauto.
Qed.

Lemma completed_chain E sp s b d e : bitmaps_fit E sp -> holds s b -> completed (decode E s sp) d e ->
  exists segs, d = dec_of segs /\ e = enc_of segs /\ chain E sp segs.
Proof.
  intros Hf Hs [H|(er & t & x & H & H1 & H2)].
  - apply (decode_iff E sp s b d e Hf Hs) in H as (segs & M & _ & -> & ->). exists segs. auto using message_chain.
  - apply (decode_fault_iff E sp s b er Hf Hs) in H as (msg & pos & segs & last & F & _ & ->). cbn [DecodeError de_doc_dec de_doc_enc] in *.
    rewrite dec_of_app in H1. rewrite enc_of_app in H2. apply app_inj_tail in H1 as [<- _]. apply app_inj_tail in H2 as [<- _]. exists segs. split; [reflexivity|]. split; [reflexivity|]. eapply fault_chain; eauto.
Qed.
Lemma chain_prefix E sp a b : chain E sp (a ++ b) -> chain E sp a.
Proof. intros C pre sg post ->. eapply C. rewrite <- app_assoc. reflexivity. Qed.
Lemma dec_enc_split segs d1 x1 e1 y1 : dec_of segs = d1 ++ x1 -> enc_of segs = e1 ++ y1 -> length d1 = length e1 ->
  exists a b, segs = a ++ b /\ d1 = dec_of a /\ e1 = enc_of a.
Proof.
  intros A B L. exists (firstn (length d1) segs), (skipn (length d1) segs). split; [now rewrite firstn_skipn|]. split.
  - unfold dec_of in *. rewrite <- firstn_map, A, firstn_app, Nat.sub_diag, firstn_all. cbn. now rewrite app_nil_r.
  - unfold enc_of in *. rewrite <- firstn_map, B, L, firstn_app, Nat.sub_diag, firstn_all. cbn. now rewrite app_nil_r.
Qed.
(** What was read completely from some bytes is read from every input beginning
    with those bytes, and errors are reported after them. *)
Theorem decode_causal E sp s1 b1 s2 r d1 x1 e1 y1 : bitmaps_fit E sp -> holds s1 b1 -> completed (decode E s1 sp) (d1 ++ x1) (e1 ++ y1) -> length d1 = length e1 ->
  holds s2 (wire_bytes e1 ++ r) ->
  (forall d e, recorded (decode E s2 sp) d e -> exists x y, d = d1 ++ x /\ e = e1 ++ y)
  /\ (forall er, decode E s2 sp = Raise (XDecodeError er) -> (zlen (wire_bytes e1) <= de_pos er)%Z).
Proof.
  intros Hf Hs1 H1 L Hs2. destruct (completed_chain _ _ _ _ _ _ Hf Hs1 H1) as (segs & Q1 & Q2 & C). symmetry in Q1, Q2.
  destruct (dec_enc_split _ _ _ _ _ Q1 Q2 L) as (a & b & -> & -> & ->). apply chain_prefix in C. clear Q1 Q2 H1 L. rewrite wire_bytes_enc in *. split.
  - intros d e [H|(er & H & -> & ->)].
    + apply (decode_iff E sp s2 _ d e Hf Hs2) in H as (segs2 & M & Q & -> & ->). destruct (message_extends _ _ _ _ _ C M Q) as [m ->].
      rewrite dec_of_app, enc_of_app. eauto.
    + apply (decode_fault_iff E sp s2 _ er Hf Hs2) in H as (msg & pos & segs2 & last & F & _ & ->). destruct (fault_extends _ _ _ _ _ _ _ _ C F) as [[m Q] _].
      cbn [DecodeError de_doc_dec de_doc_enc]. rewrite Q, dec_of_app, enc_of_app. eauto.
  - intros er H. apply (decode_fault_iff E sp s2 _ er Hf Hs2) in H as (msg & pos & segs2 & last & F & _ & ->). now destruct (fault_extends _ _ _ _ _ _ _ _ C F) as [_ W].
Qed.

(** ** The value of altered data *)
Lemma field_reads E fs l data text : field_wire E fs l data text -> in_nibbles fs = false -> data <> [] -> reads_as E fs data text.
Proof.
  intros (n & A & O & C) Hn Hd. assert (N : n <> 0%Z).
  { intros ->. unfold occupies in O. rewrite Hn in O. destruct data; [congruence|]. unfold zlen in O. cbn [length] in O. lia. }
  destruct C as [H1 H2|de H1 H2 H3 H4 H5|de H1 H2 H3 H4 H5|de H1 H2 H3 H4]; [congruence| | |]; exists de; (split; [assumption|]); auto. rewrite Hn in H4. discriminate.
Qed.
Lemma reads_field E fs l data text data' t : field_wire E fs l data text -> in_nibbles fs = false -> data <> [] -> length data' = length data ->
  reads_as E fs data' t -> field_wire E fs l data' t.
Proof.
  intros (n & A & O & C) Hn Hd L (de & R1 & R2). assert (O' : occupies fs n (zlen data')) by (unfold zlen in *; now rewrite L). assert (N : n <> 0%Z).
  { intros ->. unfold occupies in O. rewrite Hn in O. destruct data; [congruence|]. unfold zlen in O. cbn [length] in O. lia. }
  exists n. split; [assumption|]. split; [assumption|]. destruct R2 as [[R2 ->]|[R2 R3]]; [eapply CarriesHex; eauto; now rewrite Hn|eapply CarriesText; eauto].
Qed.
Lemma type_reads E fs data text : type_wire E fs data text -> reads_as E fs data text.
Proof. intros [de H1 H2 H3 H4|de H1 H2 H3 H4]; exists de; auto. Qed.
Lemma reads_type E fs data text data' t : type_wire E fs data text -> length data' = length data -> reads_as E fs data' t -> type_wire E fs data' t.
Proof.
  intros [de H1 H2 H3 H4|de H1 H2 H3 H4] L (de' & R1 & [[R2 ->]|[R2 R3]]); try congruence; [eapply TypeBinary|eapply TypeText]; eauto; congruence.
Qed.
Theorem decode_other_value E sp s b dec enc k e fs data' s' t : bitmaps_fit E sp -> holds s b -> decode E s sp = Ok (dec, enc) ->
  k <> u "p" -> k <> u "1" -> sget k enc = Some e -> length data' = length (e_data e) -> data' <> [] ->
  sget k sp = Some fs -> k = u "t" \/ in_nibbles fs = false ->
  holds s' (wire_bytes (sset k (mkEntry (e_len e) data') enc)) ->
  decode E s' sp = Ok (sset k t dec, sset k (mkEntry (e_len e) data') enc) <-> reads_as E fs data' t.
Proof.
  intros Hf Hs D Np N1 He L Hd Hsp Hn Hs'. destruct e as [l d]. cbn [e_len e_data] in *. assert (Hd' : d <> []) by (destruct d; [destruct data'; [congruence|discriminate]|discriminate]). split.
  - intro H. assert (W := segment_of E sp s' _ _ _ k (mkEntry l data') t Hf Hs' H Np N1 (sget_sset _ _ _) (sget_sset _ _ _)). cbn [e_len e_data] in W.
    destruct (str_eqb k (u "t")) eqn:Q.
    + apply str_eqb_eq in Q. subst k. destruct W as (fs' & W1 & _ & _ & W2). assert (fs' = fs) by congruence. subst fs'. now apply type_reads.
    + apply str_eqb_neq in Q. destruct W as (fs' & W1 & W2). cbn in W1, W2. assert (fs' = fs) by congruence. subst fs'. destruct Hn as [Hn|Hn]; [contradiction|]. eapply field_reads; eauto.
  - intro R. assert (D0 := decode_accounts _ _ _ _ _ _ Hs D). destruct D0 as (_ & Hk & _).
    assert (I : In k (map fst enc)) by (apply dget_some_in with (eqb := str_eqb); [exact str_eqb_spec|eauto]).
    assert (exists v, sget k dec = Some v) as [v Hv] by (apply dget_some_in; [exact str_eqb_spec|rewrite Hk; assumption]).
    assert (W := segment_of E sp s b _ _ k _ v Hf Hs D Np N1 He Hv). cbn [e_len e_data] in W.
    apply (decode_put E sp s b dec enc (mkSeg k l data' t) s' Hf Hs D I Np N1); [|exact Hs']. cbn [sg_key].
    destruct (str_eqb k (u "t")) eqn:Q.
    + apply str_eqb_eq in Q. subst k. destruct W as (fs' & W1 & W3 & W4 & W2). cbn in W2, W4. assert (fs' = fs) by congruence. subst fs'. exists fs. cbn. repeat split; try assumption. eapply reads_type; eauto.
    + apply str_eqb_neq in Q. destruct W as (fs' & W1 & W2). cbn in W1, W2. assert (fs' = fs) by congruence. subst fs'. destruct Hn as [Hn|Hn]; [contradiction|].
      exists fs. cbn. split; [assumption|]. eapply reads_field; eauto.
Qed.
