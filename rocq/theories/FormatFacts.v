(** * FormatFacts: what the templates of the library mean. *)
From Verif Require Import PyBase BaseFacts PyFormat.
Local Open Scope string_scope.
Local Open Scope list_scope.
Local Open Scope N_scope.

Lemma take_digits_app d t : all_digits d -> (match t with c :: _ => is_digit c = false | [] => True end) ->
  take_digits 0 (d ++ t) = (dec_value d, t).
Proof.
  intros D T. unfold dec_value. generalize 0 as k. induction D as [|c d Hc D IH]; intro k; cbn [app take_digits fold_left].
  - destruct t as [|c t]; [reflexivity|]. cbn. now rewrite T.
  - rewrite Hc. apply IH.
Qed.
Lemma digit_not_in c l : is_digit c = true -> forallb (fun x => negb (is_digit x)) l = true -> existsb (N.eqb c) l = false.
Proof.
  intros H F. apply not_true_is_false. intro X. apply existsb_exists in X as (x & I & Q). apply N.eqb_eq in Q. subst x.
  rewrite forallb_forall in F. specialize (F _ I). now rewrite H in F.
Qed.
Lemma digit_not_align c : is_digit c = true -> align_of c = None.
Proof.
  intro H. assert (X := digit_not_in c [60; 62; 94; 61] H eq_refl). cbn in X. unfold align_of.
  destruct (c =? 60), (c =? 62), (c =? 94), (c =? 61); cbn in X; try discriminate X; reflexivity.
Qed.
Lemma spec_zero_width w : parse_spec Rightward (48 :: dec w ++ u "d") = Layout {| l_fill := 48; l_align := Inside; l_width := w; l_type := Some 100 |}.
Proof.
  destruct (dec_spec w) as (D & V & N & _). assert (T := take_digits_app (dec w) (u "d") D eq_refl). rewrite V in T.
  destruct (dec w) as [|c d] eqn:Q; [now destruct N|]. unfold parse_spec. cbn [app] in *. rewrite (digit_not_align c) by now inversion D.
  change (align_of 48) with (@None align). cbv beta iota.
  change (starts_with_one (u "+- #z") (48 :: c :: d ++ u "d")) with false. change (starts_with_one (u "0") (48 :: c :: d ++ u "d")) with true. cbv beta iota. cbn [tl].
  rewrite T. reflexivity.
Qed.
Lemma spec_zero_negative p : parse_spec Rightward (48 :: zstr (Zneg p) ++ u "d") = Invalid.
Proof.
  unfold zstr. destruct (dec_spec (Npos p)) as (_ & _ & N & _). destruct (dec (Npos p)) as [|c d]; [now destruct N|]. cbn. destruct d; reflexivity.
Qed.
Lemma spec_left_width w : parse_spec Leftward (32 :: 60 :: dec w) = Layout {| l_fill := 32; l_align := Leftward; l_width := w; l_type := None |}.
Proof.
  destruct (dec_spec w) as (D & V & N & _). assert (T := take_digits_app (dec w) [] D I). rewrite V, app_nil_r in T.
  assert (X : starts_with_one (u "+- #z") (dec w) = false).
  { destruct (dec w) as [|c d]; [now destruct N|]. apply digit_not_in; [now inversion D|reflexivity]. }
  unfold parse_spec. change (align_of 60) with (Some Leftward). cbv beta iota. rewrite X, T. reflexivity.
Qed.
Section F.
  Context (E : pyenv).
  Lemma format_length m w : (0 <= m)%Z -> prints E m = true ->
    str_format E (u "{:0{len_type}d}") [Some (FInt m)] [("len_type", Some (FInt w))]
    = if (w <? 0)%Z then FError (format_why E w) else FText (fmt0d (Z.to_nat w) (Z.to_N m)).
  Proof.
    intros M P. transitivity (match format_one E (FInt m) (48 :: zstr w ++ u "d") [w] with FText s => FText (s ++ []) | r => r end); [reflexivity|].
    unfold format_one. destruct (Z.ltb_spec w 0) as [L|L].
    - destruct w as [|p|p]; try lia. rewrite spec_zero_negative. change (48 :: zstr (Z.neg p) ++ u "d") with (u "0" ++ zstr (Z.neg p) ++ u "d").
      destruct (str_eqb_spec (u "0" ++ zstr (Z.neg p) ++ u "d") (u "0" ++ zstr (Z.neg p) ++ u "d")); [reflexivity|congruence].
    - rewrite (zstr_nonneg w L), spec_zero_width, P, (proj2 (Z.ltb_ge m 0) M). change (negb (of_type 100 _)) with false. cbv beta iota. rewrite app_nil_r.
      unfold lay_out, fmt0d, zfill. cbn [l_align l_fill l_width app]. replace (Z.abs_N m) with (Z.to_N m) by lia.
      replace (N.to_nat (Z.to_N w)) with (Z.to_nat w) by lia. reflexivity.
  Qed.
  Lemma format_index s : str_format E (u "{index:3s}") [] [("index", Some (FStr s))] = FText (ljust 3 s).
  Proof. transitivity (FText (ljust 3 s ++ [])); [reflexivity|now rewrite app_nil_r]. Qed.
  Lemma format_desc s w : (0 <= w)%Z -> str_format E (u " {desc: <{desc_width}}") [] [("desc", Some (FStr s)); ("desc_width", Some (FInt w))]
    = FText (u " " ++ ljust (Z.to_nat w) s).
  Proof.
    intro L. transitivity (match format_one E (FStr s) (32 :: 60 :: zstr w ++ []) [w] with FText t => FText (32 :: t ++ []) | r => r end); [|].
    { change (str_format E _ _ _) with (match (match format_one E (FStr s) (32 :: 60 :: zstr w ++ []) [w] with FText t => FText (t ++ []) | r => r end) with FText t => FText (32 :: t) | r => r end).
      now destruct (format_one E (FStr s) (32 :: 60 :: zstr w ++ []) [w]). }
    rewrite (zstr_nonneg w L), app_nil_r. unfold format_one. rewrite spec_left_width. change (of_type 115 _) with true. cbn [l_align]. cbv beta iota.
    rewrite app_nil_r. unfold lay_out, ljust. cbn [l_align l_fill l_width app]. replace (N.to_nat (Z.to_N w)) with (Z.to_nat w) by lia. reflexivity.
  Qed.
  Lemma format_field s : str_format E (u "{} ") [Some (FStr s)] [] = FText (s ++ u " ").
  Proof. transitivity (FText ((s ++ []) ++ u " ")); [reflexivity|now rewrite app_nil_r]. Qed.
  Lemma format_line s : str_format E (u "{}" ++ [10]) [Some (FStr s)] [] = FText (s ++ [10]).
  Proof. transitivity (FText ((s ++ []) ++ [10])); [reflexivity|now rewrite app_nil_r]. Qed.
End F.
