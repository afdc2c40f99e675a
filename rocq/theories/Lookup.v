(** * Lookup: specs and printed dicts matter only as mappings. *)
From Coq Require Import Permutation.
From Verif Require Import PyBase BaseFacts Types Decoder Encoder Tools Wire WireEncode Claims Claims2 Pretty.
From Verif Require Import DontCare PrettyFacts PrettyFacts2 PrettyExact.

(** ** Specs *)
Lemma same_entry_refl k fs : same_entry k fs fs.
Proof. unfold same_entry. destruct (_ || _); [reflexivity|]. left. unfold same_field. auto 10. Qed.
Lemma same_for_ext sp sp' : (forall k, sget k sp' = sget k sp) -> forall k, same_for sp sp' k.
Proof. intros H k. unfold same_for. rewrite H. destruct (sget k sp); [apply same_entry_refl|exact I]. Qed.
Lemma decode_ext E s sp sp' : (forall k, sget k sp' = sget k sp) -> decode E s sp' = decode E s sp.
Proof. intro H. apply decode_same; intros; now apply same_for_ext. Qed.
Lemma encode_ext E doc sp sp' : (forall k, sget k sp' = sget k sp) -> encode E doc sp' = encode E doc sp.
Proof. intro H. apply encode_same; intros; now apply same_for_ext. Qed.
Lemma pp_field_ext E v sp sp' dw lw k out : (forall k, sget k sp' = sget k sp) -> pp_field E v sp' dw lw k out = pp_field E v sp dw lw k out.
Proof. intro H. unfold pp_field, spec_get. now rewrite H. Qed.
Lemma pp_key_ext E d sp sp' dw lw k out : (forall k, sget k sp' = sget k sp) -> pp_key E d sp' dw lw k out = pp_key E d sp dw lw k out.
Proof. intro H. unfold pp_key. destruct (vget (KStr k) d); [now apply pp_field_ext|reflexivity]. Qed.
Lemma bind_ext {X S A B} (m m' : M X S A) (f f' : A -> M X S B) s : (forall s, m s = m' s) -> (forall a s, f a s = f' a s) -> bind m f s = bind m' f' s.
Proof. intros H1 H2. unfold bind. rewrite H1. destruct (m' s) as [[a|x] s']; [apply H2|reflexivity]. Qed.
Lemma pp_keys_ext E d sp sp' dw lw ks : (forall k, sget k sp' = sget k sp) -> forall out, pp_keys E d sp' dw lw ks out = pp_keys E d sp dw lw ks out.
Proof. intro H. induction ks as [|k ks IH]; intro out; [reflexivity|]. cbn [pp_keys]. apply bind_ext; [intro; now apply pp_key_ext|auto]. Qed.
Lemma pp_ext E d sp sp' dw lw : (forall k, sget k sp' = sget k sp) -> pp E d sp' dw lw = pp E d sp dw lw.
Proof.
  intro H. unfold pp, pp_body. apply bind_ext; [|intros _ s1; apply bind_ext; [|intros _ s2; apply bind_ext; [|intros _ s3]]].
  - intro s. destruct (vget (KStr (u "h")) d); [|reflexivity]. unfold spec_get. rewrite H. apply bind_ext; [reflexivity|]. intros fs s1. apply bind_ext; [reflexivity|].
    intros ml s2. destruct (0 <? ml)%Z; [now apply pp_key_ext|reflexivity].
  - intro s. destruct (vget (KStr (u "t")) d); [now apply pp_key_ext|reflexivity].
  - intro s. destruct (vget (KStr (u "p")) d); [now apply pp_key_ext|reflexivity].
  - destruct (sorted_by_int E (numeric_str_keys E d)); [now apply pp_keys_ext|reflexivity].
Qed.
(** The order of the entries. *)
Lemma sget_in {V} k (v : V) l : NoDup (map fst l) -> (sget k l = Some v <-> In (k, v) l).
Proof.
  intro N. unfold sget. induction l as [|[j w] l IH]; cbn; [split; [discriminate|contradiction]|]. inversion N as [|? ? N1 N2]; subst.
  destruct (str_eqb k j) eqn:E.
  - apply str_eqb_eq in E. subst j. split; [intros [= ->]; now left|]. intros [[= ->]|H]; [reflexivity|]. exfalso. apply N1. apply in_map_iff. now exists (k, v).
  - rewrite IH by assumption. split; [auto|]. intros [[= -> ->]|H]; [|assumption]. exfalso. pose proof (str_eqb_refl k). congruence.
Qed.
Lemma sget_permutation {V} (l l' : list (pystr * V)) : NoDup (map fst l) -> Permutation l l' -> forall k, sget k l' = sget k l.
Proof.
  intros N P k. assert (N' : NoDup (map fst l')) by (eapply Permutation_NoDup; [apply Permutation_map, P|assumption]).
  destruct (sget k l) as [v|] eqn:E.
  - apply sget_in in E; [|assumption]. apply sget_in; [assumption|]. eapply Permutation_in; eauto.
  - destruct (sget k l') as [v|] eqn:E'; [|reflexivity]. apply sget_in in E'; [|assumption]. apply (Permutation_in _ (Permutation_sym P)) in E'. apply sget_in in E'; congruence.
Qed.
Lemma reordered_spec E sp sp' : NoDup (map fst sp) -> Permutation sp sp' ->
  (forall s, decode E s sp' = decode E s sp) /\ (forall doc, encode E doc sp' = encode E doc sp)
  /\ (forall d dw lw, pp E d sp' dw lw = pp E d sp dw lw).
Proof.
  intros N P. assert (H := sget_permutation sp sp' N P). repeat split; intros; [now apply decode_ext|now apply encode_ext|now apply pp_ext].
Qed.
Lemma same_lookups E sp sp' : (forall k, sget k sp' = sget k sp) ->
  (forall s, decode E s sp' = decode E s sp) /\ (forall doc, encode E doc sp' = encode E doc sp)
  /\ (forall d dw lw, pp E d sp' dw lw = pp E d sp dw lw).
Proof. intro H. repeat split; intros; [now apply decode_ext|now apply encode_ext|now apply pp_ext]. Qed.

(** ** Printed dicts *)
Section Reorder.
  Variables (E : pyenv) (sp : spec) (dw lw : Z) (d d' : ppdoc).
  Hypothesis (N : NoDup (map fst d)) (P : Permutation d d') (D : distinct_numbers E d).
  Lemma re_in kv : In kv d -> In kv d'. Proof. apply Permutation_in, P. Qed.
  Lemma re_shows k : shows d k <-> shows d' k.
  Proof. unfold shows. split; apply Permutation_in; [|apply Permutation_sym]; apply Permutation_map, P. Qed.
  Lemma re_entry k e : entry_of E sp dw lw d k e -> entry_of E sp dw lw d' k e.
  Proof. intros [v l o de pr b Hi H1 H2 H3 H4]. econstructor; eauto. now apply re_in. Qed.
  Lemma re_header h : header_shown sp d h -> header_shown sp d' h.
  Proof. intros [H|fs ml H H1 H2 H3|fs ml H H1 H2 H3]; [apply HeaderAbsent|eapply HeaderOff|eapply HeaderOn]; eauto; now rewrite <- re_shows. Qed.
  Lemma re_if k t : if_shown d k t -> if_shown d' k t.
  Proof. intros [H|H]; constructor; now rewrite <- re_shows. Qed.
  Lemma re_numbered ks : numbered E d ks -> numbered E d' ks.
  Proof.
    intros (H1 & H2 & H3 & H4). split; [|split; [|split]].
    - intro k. rewrite <- re_shows. apply H1.
    - intros _. now apply H2.
    - assumption.
    - intros pre j mid k post m n Hk Hm Hn. left. destruct (H4 _ _ _ _ _ _ _ Hk Hm Hn) as [L|[-> _]]; [assumption|]. exfalso.
      assert (Hj : In j ks) by (rewrite Hk; apply in_elt). assert (Hi : In k ks) by (rewrite Hk; apply in_app_iff; right; right; apply in_elt).
      apply H1 in Hj as [Hj1 Hj2]. apply H1 in Hi as [Hi1 Hi2]. assert (Q := D j k n Hj1 Hi1 Hj2 Hi2 Hm Hn). subst k.
      assert (W := H2 N). rewrite Hk in W. apply NoDup_remove_2 in W. apply W. apply in_app_iff. right. apply in_elt.
  Qed.
  Lemma re_shown ks : shown_keys E sp d ks -> shown_keys E sp d' ks.
  Proof. intros [h t p ks' H1 H2 H3 H4]. constructor; auto using re_header, re_if, re_numbered. Qed.
  Lemma re_entries ks es : Forall2 (entry_of E sp dw lw d) ks es -> Forall2 (entry_of E sp dw lw d') ks es.
  Proof. induction 1; constructor; auto using re_entry. Qed.
  Lemma re_entry_stops k x part : entry_stops sp dw d k x part -> entry_stops sp dw d' k x part.
  Proof. intros [nm H1 H2|v l o de H1 H2 H3 H4]; [now constructor|econstructor; eauto; now apply re_in]. Qed.
  Lemma re_stops x out : pp_stops E sp dw lw d x out -> pp_stops E sp dw lw d' x out.
  Proof.
    intros [nm H1 H2|h t p ks done k rest es y part H1 H2 H3 H4 H5 H6 H7|h t p es k H1 H2 H3 H4 H5 H6 H7].
    - apply StopHeader; [now apply re_shows|assumption].
    - apply (StopEntry E sp dw lw d' h t p ks done k rest es y part); auto using re_header, re_if, re_entries, re_entry_stops. destruct H4; auto using re_numbered.
    - apply (StopNumber E sp dw lw d' h t p es k); auto using re_header, re_if, re_entries. now apply re_shows.
  Qed.
  Lemma reordered_dict : pp E d' sp dw lw = pp E d sp dw lw.
  Proof.
    assert (N' : NoDup (map fst d')) by (eapply Permutation_NoDup; [apply Permutation_map, P|assumption]).
    destruct (pp E d sp dw lw) as [[[]|x] out] eqn:H.
    - apply pp_ok_iff in H as (ks & es & H1 & H2 & ->); [|assumption]. apply pp_ok_iff; [assumption|]. exists ks, es. auto using re_shown, re_entries.
    - apply pp_raise_iff in H; [|assumption]. apply pp_raise_iff; [assumption|]. now apply re_stops.
  Qed.
End Reorder.
