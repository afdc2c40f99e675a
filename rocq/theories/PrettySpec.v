(** * PrettySpec: what pp reads of the specification. *)
From Verif Require Import PyBase BaseFacts Types Decoder Encoder Tools Wire WireEncode Claims Claims2 Pretty PrettyFacts EncoderFacts DontCare.
From Verif Require Import PyAst Source PySem SemClaims SemFacts SemHeap SessionClaims HistoryClaims SemTools SourceTools SourceSessions.
Local Open Scope string_scope.
Local Open Scope list_scope.

Section A.
  Context (E : pyenv) (doc : ppdoc) (dw lw : Z) (sp sp' : spec) (A : prints_alike E doc dw sp sp').
  Lemma bind_alike {X Y} (m m' : WM X) (f f' : X -> WM Y) out : m out = m' out -> (forall x o, f x o = f' x o) -> bind m f out = bind m' f' out.
  Proof. intros H K. unfold bind. rewrite H. destruct (m' out) as [[x|x] o]; auto. Qed.
  Lemma field_alike v k out : Pretty.shows doc k -> shown_key E sp k -> pp_field E v sp' dw lw k out = pp_field E v sp dw lw k out.
  Proof.
    intros S Y. unfold pp_field. apply bind_alike; [reflexivity|intros _ o1]. apply bind_alike; [|reflexivity].
    destruct (Z.ltb_spec 0 dw) as [L|L]; [|reflexivity]. specialize (proj2 A k S Y L). unfold described_alike. intro D.
    unfold bind, spec_get, prop, ret, raise. destruct (sget k sp) as [fs|], (sget k sp') as [fs'|]; try contradiction; [|reflexivity].
    destruct (fs_desc fs), (fs_desc fs'); try contradiction; [|reflexivity]. rewrite D. reflexivity.
  Qed.
  Lemma key_alike k out : shown_key E sp k -> pp_key E doc sp' dw lw k out = pp_key E doc sp dw lw k out.
  Proof.
    intro Y. unfold pp_key, vget. destruct (dget key_eqb (KStr k) doc) as [v|] eqn:G; [|reflexivity]. apply field_alike; [|exact Y].
    apply (dget_in key_eqb key_eqb_spec) in G. exact (in_map fst _ _ G).
  Qed.
  Lemma keys_alike ks : (forall k, In k ks -> isnumeric E k = true) -> forall out, pp_keys E doc sp' dw lw ks out = pp_keys E doc sp dw lw ks out.
  Proof.
    induction ks as [|k ks IH]; intros N out; cbn [pp_keys]; [reflexivity|]. apply bind_alike.
    - apply key_alike. right. right. right. apply N. now left.
    - intros _. apply IH. intros k' H. apply N. now right.
  Qed.
  Theorem pp_alike : pp E doc sp' dw lw = pp E doc sp dw lw.
  Proof.
    unfold pp, pp_body. apply bind_alike.
    - unfold vget. destruct (dget key_eqb (KStr (u "h")) doc) as [v|] eqn:G; [|reflexivity].
      assert (S : Pretty.shows doc (u "h")) by (apply (dget_in key_eqb key_eqb_spec) in G; exact (in_map fst _ _ G)).
      specialize (proj1 A S). unfold header_alike. intro H. unfold bind, spec_get, prop, ret, raise.
      destruct (sget (u "h") sp) as [fs|] eqn:Hs, (sget (u "h") sp') as [fs'|]; try contradiction; [|reflexivity].
      destruct (fs_max_len fs) as [m|] eqn:Hm, (fs_max_len fs') as [m'|]; try contradiction; [|reflexivity].
      assert ((0 <? m') = (0 <? m))%Z as -> by (destruct (Z.ltb_spec 0 m'), (Z.ltb_spec 0 m); auto; lia).
      destruct (Z.ltb_spec 0 m); [|reflexivity]. apply key_alike. left. split; [reflexivity|]. exists fs, m. auto.
    - intros _ o1. apply bind_alike; [destruct (vget _ doc); [apply key_alike; right; left; reflexivity|reflexivity]|].
      intros _ o2. apply bind_alike; [destruct (vget _ doc); [apply key_alike; right; right; left; reflexivity|reflexivity]|].
      intros _ o3. destruct (sorted_by_int E _) as [ks|] eqn:Hk; [|reflexivity]. apply keys_alike. intros k H.
      apply (sorted_in E _ _ _ Hk), numeric_in in H. apply H.
  Qed.
End A.
Theorem text_pp_alike E order1 order2 r1 r2 h docv doc spv sp dv dw stv w t lv lw o h1 g docv' spv' sp' dv' stv' w' t' lv' o' g1 :
  doc_rep E h docv doc -> spec_rep h spv sp -> width_rep E dv dw -> width_rep E lv lw -> stream_rep (r_stdout r1) stv w -> hget h w = Some (StreamO t) ->
  doc_rep E g docv' doc -> spec_rep g spv' sp' -> width_rep E dv' dw -> width_rep E lv' lw -> stream_rep (r_stdout r2) stv' w' -> hget g w' = Some (StreamO t') ->
  prints_alike E doc dw sp sp' ->
  call_pp E order1 r1 [docv; spv; dv; stv; lv] h = (o, h1) -> call_pp E order2 r2 [docv'; spv'; dv'; stv'; lv'] g = (o', g1) ->
  (exists out, hget h1 w = Some (StreamO (t ++ out)) /\ hget g1 w' = Some (StreamO (t' ++ out))) /\
  (o = Done NoneV /\ o' = Done NoneV \/ raised_alike o o').
Proof.
  intros D R W L S G D' R' W' L' S' G' A C C'. destruct r1 as [so tb n N], r2 as [so' tb' n' N']. unfold call_pp in C, C'. cbn in C, C', S, S'.
  assert (X := pp_as_written E order1 so h docv doc spv sp dv dw stv w t lv lw n D R W L S G ltac:(lia)). rewrite C in X.
  assert (Y := pp_as_written E order2 so' g docv' doc spv' sp' dv' dw stv' w' t' lv' lw n' D' R' W' L' S' G' ltac:(lia)). rewrite C' in Y.
  rewrite (pp_alike E doc dw lw sp sp' A) in Y. destruct X as (X1 & _ & X2). destruct Y as (Y1 & _ & Y2).
  split; [eauto|]. unfold pp_ended, raised_alike in *. destruct (fst (pp E doc sp dw lw)) as [u|x]; [auto|].
  destruct x; try contradiction; right; try (subst; do 3 eexists; split; [reflexivity|]; split; reflexivity).
  destruct X2 as (s & ->), Y2 as (s' & ->). exists "ValueError", s, s'. split; [reflexivity|]. split; [reflexivity|]. intro Q. destruct (Q eq_refl).
Qed.
(** Rewriting a specification. *)
Lemma respec_get f k sp : sget k (respec f sp) = option_map (f k) (sget k sp).
Proof. unfold respec, sget, dget. induction sp as [|[k' fs] sp IH]; [reflexivity|]. cbn. destruct (str_eqb_spec k k') as [->|N]; [reflexivity|exact IH]. Qed.
Theorem pp_respec E doc sp f dw lw : (forall k fs, fs_desc (f k fs) = fs_desc fs /\ fs_max_len (f k fs) = fs_max_len fs) ->
  pp E doc (respec f sp) dw lw = pp E doc sp dw lw.
Proof.
  intro H. apply pp_alike. split.
  - intros _. unfold header_alike. rewrite respec_get. destruct (sget (u "h") sp) as [fs|]; cbn; [|exact I]. rewrite (proj2 (H _ _)).
    destruct (fs_max_len fs); [reflexivity|exact I].
  - intros k _ _ _. unfold described_alike. rewrite respec_get. destruct (sget k sp) as [fs|]; cbn; [|exact I]. rewrite (proj1 (H _ _)).
    destruct (fs_desc fs); [reflexivity|exact I].
Qed.
