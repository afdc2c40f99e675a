(** * CodecTexts: the codecs of CPython311.v are the standard encodings. *)
From Coq Require Import ZifyBool ZifyNat ZifyN.
From Verif Require Import PyBase BaseFacts Numerals NumeralFacts Texts TextFacts CPython311 CodecFacts.
Ltac Zify.zify_post_hook ::= Z.div_mod_to_equations.
Local Open Scope list_scope.

Lemma mapM_Forall2 {A B} (f : A -> option B) l m : mapM f l = Some m <-> Forall2 (fun a b => f a = Some b) l m.
Proof.
  revert m. induction l as [|a l IH]; intro m; cbn [mapM].
  - split; [intros [= <-]; constructor|inversion 1; reflexivity].
  - split.
    + destruct (f a) as [b|] eqn:E; [|discriminate]. destruct (mapM f l) as [m'|]; [|discriminate]. intros [= <-]. constructor; [assumption|now apply IH].
    + inversion 1 as [|? b ? m' Hb Hm]; subst. apply IH in Hm. now rewrite Hb, Hm.
Qed.
Lemma code_points_Forall2 limit s b : code_points limit s b <-> Forall2 (fun c x => c = b2n x /\ (c < limit)%N) s b.
Proof.
  split.
  - intros [-> F]. induction b as [|x b IH]; [constructor|]. inversion F; subst. constructor; [auto|now apply IH].
  - induction 1 as [|c x s b [-> H] _ [-> F]]; split; try reflexivity; constructor; assumption.
Qed.
Lemma Forall2_iff {A B} (P Q : A -> B -> Prop) l m : (forall a b, P a b <-> Q a b) -> Forall2 P l m <-> Forall2 Q l m.
Proof. intro H. split; induction 1; constructor; auto; now apply H. Qed.
Lemma ascii_encodes s b : c_enc ascii_codec s = Some b <-> code_points 128 s b.
Proof.
  rewrite code_points_Forall2. unfold ascii_codec, latin1_codec, charmap. cbn [c_enc]. etransitivity; [apply mapM_Forall2|]. apply Forall2_iff. intros c x. destruct (N.ltb_spec c 128); [|split; [discriminate|lia]].
  split; [intros [= <-]; rewrite b2n_n2b; lia|intros [-> _]; now rewrite n2b_b2n].
Qed.
Lemma latin1_encodes s b : c_enc latin1_codec s = Some b <-> code_points 256 s b.
Proof.
  rewrite code_points_Forall2. unfold ascii_codec, latin1_codec, charmap. cbn [c_enc]. etransitivity; [apply mapM_Forall2|]. apply Forall2_iff. intros c x. destruct (N.ltb_spec c 256); [|split; [discriminate|lia]].
  split; [intros [= <-]; rewrite b2n_n2b; lia|intros [-> _]; now rewrite n2b_b2n].
Qed.
Lemma utf8_char_form c b : CPython311.utf8_char c = Some b <-> utf8_form c b.
Proof.
  unfold utf8_char. split.
  - destruct (N.ltb_spec c 128); [intros [= <-]; apply Utf1; [lia|rewrite b2n_n2b; lia]|].
    destruct (N.ltb_spec c 2048). { intros [= <-]. apply Utf2 with (x := (c / 64)%N) (y := (c mod 64)%N); rewrite ?b2n_n2b; lia. }
    destruct (is_surrogate c) eqn:Es; [discriminate|]. unfold is_surrogate in Es.
    destruct (N.ltb_spec c 65536).
    { intros [= <-]. apply Utf3 with (x := (c / 4096)%N) (y := (c / 64 mod 64)%N) (z := (c mod 64)%N); rewrite ?b2n_n2b; lia. }
    destruct (N.ltb_spec c 1114112); [|discriminate].
    intros [= <-]. apply Utf4 with (w := (c / 262144)%N) (x := (c / 4096 mod 64)%N) (y := (c / 64 mod 64)%N) (z := (c mod 64)%N); rewrite ?b2n_n2b; lia.
  - intros [a H1 H2|a b' x y|a b' d x y z|a b' d e w x y z]; intros; subst; unfold is_surrogate.
    + destruct (N.ltb_spec (b2n a) 128); [|lia]. now rewrite n2b_b2n.
    + destruct (N.ltb_spec (64 * x + y) 128); [lia|]. destruct (N.ltb_spec (64 * x + y) 2048); [|lia].
      rewrite <- (n2b_b2n a), <- (n2b_b2n b'). do 2 f_equal; [f_equal; lia|]. f_equal. f_equal. lia.
    + set (c := (64 * (64 * x + y) + z)%N) in *.
      destruct (N.ltb_spec c 128); [lia|]. destruct (N.ltb_spec c 2048); [lia|]. destruct ((55296 <=? c) && (c <=? 57343))%N eqn:Es; [lia|].
      destruct (N.ltb_spec c 65536); [|lia].
      rewrite <- (n2b_b2n a), <- (n2b_b2n b'), <- (n2b_b2n d). f_equal. f_equal; [f_equal; lia|]. f_equal; [f_equal; lia|]. f_equal. f_equal. lia.
    + set (c := (64 * (64 * (64 * w + x) + y) + z)%N) in *.
      destruct (N.ltb_spec c 128); [lia|]. destruct (N.ltb_spec c 2048); [lia|]. destruct ((55296 <=? c) && (c <=? 57343))%N eqn:Es; [lia|].
      destruct (N.ltb_spec c 65536); [lia|]. destruct (N.ltb_spec c 1114112); [|lia].
      rewrite <- (n2b_b2n a), <- (n2b_b2n b'), <- (n2b_b2n d), <- (n2b_b2n e). f_equal. f_equal; [f_equal; lia|]. f_equal; [f_equal; lia|]. f_equal; [f_equal; lia|]. f_equal. f_equal. lia.
Qed.
Lemma utf8_encodes s b : c_enc utf8_codec s = Some b <-> utf8_text s b.
Proof.
  unfold utf8_codec. cbn [c_enc]. revert b. induction s as [|c s IH]; intro b; cbn [utf8_enc].
  - split; [intros [= <-]; exists []; split; [constructor|reflexivity]|]. intros (parts & F & ->). inversion F. reflexivity.
  - split.
    + destruct (utf8_char c) as [x|] eqn:Ec; [|discriminate]. destruct (utf8_enc s) as [r|]; [|discriminate]. intros [= <-].
      destruct (proj1 (IH r) eq_refl) as (parts & F & ->). exists (x :: parts). split; [constructor; [now apply utf8_char_form|assumption]|reflexivity].
    + intros (parts & F & ->). inversion F as [|? x ? parts' Hx F']; subst. apply utf8_char_form in Hx. rewrite Hx.
      now rewrite (proj2 (IH (concat parts')) (ex_intro _ parts' (conj F' eq_refl))).
Qed.
