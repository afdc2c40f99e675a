(** * EncodeMemory: encode leaves no text longer than those it was given, but for bitmaps. *)
From Verif Require Import PyBase BaseFacts Types Encoder WireEncode Claims EncoderFacts EncodeRun EncodeTheorems.

(** Nothing but bitmaps is written to the dict. *)
Definition pres {A} (P : pdoc -> Prop) (m : EM A) : Prop := forall st, P (s_dec st) -> P (s_dec (snd (m st))).
Section P.
  Context (P : pdoc -> Prop).
  Lemma pres_bind {A B} (m : EM A) (f : A -> EM B) : pres P m -> (forall a, pres P (f a)) -> pres P (bind m f).
  Proof. intros Hm Hf st H. unfold bind. specialize (Hm st H). destruct (m st) as [[a|x] st1]; cbn [snd] in *; [apply Hf|]; exact Hm. Qed.
  Lemma pres_same {A} (m : EM A) : (forall st, s_dec (snd (m st)) = s_dec st) -> pres P m.
  Proof. intros H st. rewrite H. auto. Qed.
  Lemma pres_ret {A} (a : A) : pres P (ret a). Proof. now apply pres_same. Qed.
  Lemma pres_raise {A} x : pres P (@raise exn estate A x). Proof. now apply pres_same. Qed.
  Lemma pres_eraise {A} m k : pres P (@eraise A m k). Proof. now apply pres_same. Qed.
  Lemma pres_formatted {A} E ns (m : EM A) : pres P m -> pres P (formatted E ns m).
  Proof. intro H. unfold formatted. destruct (forallb _ _); [assumption|apply pres_raise]. Qed.
  Lemma pres_set_enc k e : pres P (eset_enc k e). Proof. now apply pres_same. Qed.
  Lemma pres_get_enc k : pres P (eget_enc k).
  Proof. apply pres_same. intro st. unfold eget_enc. destruct (sget k (s_enc st)); reflexivity. Qed.
  Lemma pres_get_dec k : pres P (eget_dec k).
  Proof. apply pres_same. intro st. unfold eget_dec. destruct (pget (KStr k) (s_dec st)); reflexivity. Qed.
  Lemma pres_read : pres P eread_dec. Proof. now apply pres_same. Qed.
  Lemma pres_prop {A} (o : option A) n : pres P (prop o n).
  Proof. destruct o; [apply pres_ret|apply pres_raise]. Qed.
  Lemma pres_spec sp k : pres P (spec_get sp k).
  Proof. unfold spec_get. destruct (sget k sp); [apply pres_ret|apply pres_raise]. Qed.
End P.
Create HintDb pres.
Global Hint Resolve pres_ret pres_raise pres_eraise pres_formatted pres_set_enc pres_get_enc pres_get_dec pres_read pres_prop pres_spec : pres.
Ltac pres_step :=
  match goal with
  | |- pres _ (bind _ _) => apply pres_bind; [|intro]
  | |- pres _ (if ?b then _ else _) => destruct b
  | |- pres _ (match ?x with _ => _ end) => destruct x
  | |- pres _ (let x := _ in _) => cbv zeta
  | |- pres _ _ => solve [eauto with pres]
  end.
Section Q.
  Context (P : pdoc -> Prop).
  Lemma pres_set_enc_data k b : pres P (eset_enc_data k b).
  Proof. unfold eset_enc_data. repeat pres_step. Qed.
  Lemma pres_set_enc_len k b : pres P (eset_enc_len k b).
  Proof. unfold eset_enc_len. repeat pres_step. Qed.
  Hint Resolve pres_set_enc_data pres_set_enc_len : pres.
  Lemma pres_hex_failure {A} v k lc : pres P (@hex_failure A v k lc).
  Proof. unfold hex_failure. repeat pres_step. Qed.
  Hint Resolve pres_hex_failure : pres.
  Lemma pres_binary v k fs lc : pres P (encode_binary_field v k fs lc).
  Proof. unfold encode_binary_field. repeat pres_step. Qed.
  Lemma pres_text E v k fs lc : pres P (encode_text_field E v k fs lc).
  Proof. unfold encode_text_field. repeat pres_step. Qed.
  Hint Resolve pres_binary pres_text : pres.
  Lemma pres_length E k fs lt n : pres P (encode_length E k fs lt n).
  Proof. unfold encode_length. repeat pres_step. Qed.
  Hint Resolve pres_length : pres.
  Lemma pres_field E k fs : pres P (encode_field E k fs).
  Proof. unfold encode_field. repeat pres_step. Qed.
  Hint Resolve pres_field : pres.
  Lemma pres_header E sp : pres P (encode_header E sp).
  Proof. unfold encode_header. repeat pres_step. Qed.
  Lemma pres_type E sp : pres P (encode_type E sp).
  Proof. unfold encode_type. repeat pres_step. Qed.
  Lemma pres_fields E sp fl : forall s, pres P (encode_fields E sp fl s).
  Proof. induction fl as [|f fl IH]; intro s; cbn [encode_fields]; repeat (pres_step || apply IH). Qed.
End Q.
Global Hint Resolve pres_set_enc_data pres_set_enc_len pres_hex_failure pres_binary pres_text pres_length pres_field pres_header pres_type pres_fields : pres.

(** The texts, that of the secondary bitmap having at most [n] characters. *)
Definition texts_upto (n : Z) (d : pdoc) : Prop :=
  is_dict d /\ forall k t, In (k, VStr t) d -> (zlen t < 2 ^ 62)%Z /\ (k = KStr (u "1") -> zlen t <= n)%Z.
Lemma in_dset {K V} eqb (eqb_spec : forall a b : K, reflect (a = b) (eqb a b)) (k k' : K) (v v' : V) d :
  In (k, v) (dset eqb k' v' d) -> k = k' /\ v = v' \/ In (k, v) d.
Proof.
  induction d as [|[k0 v0] d IH]; cbn; [intros [[= <- <-]|[]]; auto|]. destruct (eqb_spec k' k0) as [->|N]; cbn.
  - intros [[= <- <-]|H]; auto.
  - intros [H|H]; [auto|]. destruct (IH H); auto.
Qed.
Lemma upto_dset n d k t : texts_upto n d -> (zlen t <= 32)%Z -> (k = u "1" -> zlen t <= n)%Z ->
  texts_upto n (dset key_eqb (KStr k) (VStr t) d).
Proof.
  intros (N & T) L B. split; [apply dset_nodup; [apply key_eqb_spec|exact N]|]. intros k' t' H.
  apply (in_dset key_eqb key_eqb_spec) in H as [[-> [= <-]]|H]; [split; [lia|]|exact (T _ _ H)]. intros [= X]. exact (B X).
Qed.
Lemma upto_more n m d : (n <= m)%Z -> texts_upto n d -> texts_upto m d.
Proof. intros L (N & T). split; [exact N|]. intros k t H. destruct (T _ _ H) as [A B]. split; [exact A|]. intro X. specialize (B X). lia. Qed.
Lemma upto_dpop n d k : texts_upto n d -> texts_upto n (dpop key_eqb k d).
Proof.
  intros (N & T). split; [apply dpop_nodup; [apply key_eqb_spec|exact N]|]. intros k' t H. apply T.
  eapply dpop_keys_incl; [apply key_eqb_spec|exact H].
Qed.
Lemma bitmap_text off l : zlen (py_upper (py_hex (make_bitmap off l))) = 16%Z.
Proof.
  change (py_upper (py_hex ?b)) with (py_HEX b). unfold zlen. rewrite py_HEX_length.
  assert (H : length (make_bitmap off l) = 8%nat); [|rewrite H; reflexivity]. unfold make_bitmap.
  assert (G : forall bm, length (fold_left (set_bit off) l bm) = length bm); [|rewrite G; reflexivity].
  induction l as [|f l IH]; intro bm; [reflexivity|]. cbn. rewrite IH. apply set_bit_length.
Qed.
Lemma pres_bitmap E k fs off l n : (16 <= n)%Z -> pres (texts_upto n) (encode_bitmap E k fs off false l).
Proof.
  intro L. unfold encode_bitmap. cbv zeta. apply pres_bind; [|intro; repeat pres_step]. apply pres_bind; [|intro; apply pres_set_enc].
  intros st H. cbn [eset_dec snd s_dec]. apply upto_dset; [exact H|rewrite bitmap_text; lia..].
Qed.
(** From a short secondary bitmap to one with the tertiary. *)
Definition goes {A} (m : EM A) : Prop := forall st, texts_upto 16 (s_dec st) -> texts_upto 32 (s_dec (snd (m st))).
Lemma goes_first {A B} (m : EM A) (f : A -> EM B) : pres (texts_upto 16) m -> (forall a, goes (f a)) -> goes (bind m f).
Proof.
  intros Hm Hf st H. unfold bind. specialize (Hm st H). destruct (m st) as [[a|x] st1]; cbn [snd] in *; [apply Hf; exact Hm|].
  now apply (upto_more 16 32).
Qed.
Lemma goes_then {A B} (m : EM A) (f : A -> EM B) : goes m -> (forall a, pres (texts_upto 32) (f a)) -> goes (bind m f).
Proof. intros Hm Hf st H. unfold bind. specialize (Hm st H). destruct (m st) as [[a|x] st1]; cbn [snd] in *; [apply Hf|]; exact Hm. Qed.
Lemma goes_pres {A} (m : EM A) : pres (texts_upto 16) m -> goes m.
Proof. intros H st X. apply (upto_more 16 32); [lia|]. apply H, X. Qed.
Lemma goes_extended E fs off l : goes (encode_bitmap E (u "1") fs off true l).
Proof.
  unfold encode_bitmap. cbv zeta. apply goes_then; [|intro; repeat pres_step].
  intros st H. unfold bind, eget_dec. destruct (pget (KStr (u "1")) (s_dec st)) as [[o|b|o]|] eqn:G; cbn [snd s_dec raise eset_dec];
    try (apply (upto_more 16 32); [lia|exact H]).
  apply (dget_in key_eqb key_eqb_spec) in G. destruct (proj2 H _ _ G) as [_ B]. specialize (B eq_refl).
  assert (Y : (zlen (o ++ py_upper (py_hex (make_bitmap off l))) <= 32)%Z).
  { unfold zlen in *. rewrite app_length. pose proof (bitmap_text off l) as X. unfold zlen in X. lia. }
  apply upto_dset; [apply (upto_more 16 32); [lia|exact H]|exact Y|intros _; exact Y].
Qed.
Lemma goes_body E sp st : is_dict (s_dec st) -> (forall k t, In (k, VStr t) (s_dec st) -> (zlen t < 2 ^ 62)%Z) ->
  texts_upto 32 (s_dec (snd (encode_body E sp st))).
Proof.
  intros D T. unfold encode_body. unfold bind at 1. cbn [epop_dec].
  assert (H : texts_upto 16 (dpop key_eqb (KStr (u "1")) (s_dec st))).
  { split; [apply dpop_nodup; [apply key_eqb_spec|exact D]|]. intros k t H. split.
    - apply (T k). eapply dpop_keys_incl; [apply key_eqb_spec|exact H].
    - intros ->. exfalso. apply (dpop_removes key_eqb key_eqb_spec (KStr (u "1")) _ D). apply (in_map fst) in H. exact H. }
  match goal with |- texts_upto 32 (s_dec (snd (?m _))) => assert (G : goes m); [|apply G; exact H] end. clear.
  apply goes_first; [intros st H; apply upto_dpop, H|intro].
  do 2 (apply goes_first; [auto with pres|intro]). apply goes_first; [auto with pres|intro d].
  destruct (numeric_keys E (map fst d)) as [[|]|ks]; [apply goes_pres; auto with pres..|]. cbv zeta.
  destruct (negb _); [apply goes_pres; auto with pres|].
  apply goes_first; [auto with pres|intro]. apply goes_first; [apply pres_bitmap; lia|intro].
  apply goes_first; [repeat (pres_step || (apply pres_bitmap; lia))|intros [bs fields]].
  apply goes_then.
  - match goal with |- goes (if ?b then _ else _) => destruct b end; [|apply goes_pres; auto with pres].
    apply goes_first; [auto with pres|intro]. apply goes_then; [apply goes_extended|intro; auto with pres].
  - intros [bt fl]. auto with pres.
Qed.
(** Whatever the outcome, the dict holds texts it held or bitmaps. *)
Lemma encode_texts E sp d : is_dict d -> (forall k t, In (k, VStr t) d -> (zlen t < 2 ^ 62)%Z) ->
  forall k t, In (k, VStr t) (snd (encode E (ADict d) sp)) -> (zlen t < 2 ^ 62)%Z.
Proof.
  intros D T k t. unfold encode. pose proof (goes_body E sp (mkE d []) D T) as [_ H].
  destruct (encode_body E sp (mkE d [])) as [[s|x] st]; intro X; exact (proj1 (H _ _ X)).
Qed.
