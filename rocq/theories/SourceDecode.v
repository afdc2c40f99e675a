(** * SourceDecode: decoder.py as written, and the model. *)
From Coq Require Import ZifyBool ZifyNat ZifyN Permutation.
From Verif Require Import PyBase BaseFacts Types Decoder DecoderFacts Wire CPython311 CodecFacts Shown PyAst Source PySem SemClaims SemFacts SemHeap SemStep SemDecode SemDecodeTop.
Local Open Scope string_scope.
Local Open Scope list_scope.

Lemma small_prints E : env_ok E -> forall n, (0 <= n < 2 ^ 70)%Z -> prints E n = true.
Proof.
  intros [_ H] n B. apply prints_showable, showable_bound. intros m Hm. apply H in Hm. split; [lia|].
  assert (2 ^ 70 <= 10 ^ 640)%N by (apply N.leb_le; vm_compute; reflexivity).
  assert (10 ^ 640 <= 10 ^ m)%N by (apply N.pow_le_mono_r; lia). lia.
Qed.
Lemma c311_short : short_text cpython311.
Proof. intros enc b t L H. pose proof (c311_never_expands enc) as X. unfold never_expands in X. apply X in H. unfold zlen in *. lia. Qed.

Lemma inv_untouched h0 h items ed : Inv h0 (length h0) (S (length h0)) h items ed -> untouched h0 h.
Proof. intros I l L. apply (inv_frame _ _ _ _ _ _ I); lia. Qed.
Lemma inv_enc_dict h0 a b h items ed : Inv h0 a b h items ed -> exists inner,
  enc_dict h b inner ed /\ NoDup (a :: b :: inner) /\ Forall (fun l => length h0 <= l) (b :: inner).
Proof.
  intros I. destruct (inv_enc _ _ _ _ _ _ I) as (refs & G & F & N & L). exists (map snd refs).
  split; [|split; assumption].
  split; [rewrite map_length; clear -F; induction F; cbn; congruence|]. split.
  - rewrite G. do 2 f_equal. clear -F. induction F as [|[k l] [k' e] refs ed [E _] F IH]; [reflexivity|].
    cbn in *. subst k'. f_equal. exact IH.
  - clear -F. induction F as [|[k l] [k' e] refs ed [E X] F IH]; intros [|i] ke m; cbn; try discriminate.
    + intros [= <-] [= <-]. exact X.
    + apply IH.
Qed.

Lemma inst_fresh h0 a b h items ed inner l o : Inv h0 a b h items ed -> length h0 <= a -> length h0 <= l ->
  enc_dict h b inner ed -> NoDup (a :: b :: inner) -> Forall (fun l => length h0 <= l) (b :: inner) ->
  hget h l = Some o -> is_dict_obj o = false -> fresh h0 (l :: a :: b :: inner).
Proof.
  intros I La Ll (Len & Db & Di) N F G D. split; [|repeat (constructor; [assumption|]); exact F].
  constructor; [|exact N]. intro H.
  assert (X : exists d, hget h l = Some (DictO d)).
  { destruct H as [<-|[<-|H]]; [eexists; apply (inv_dec _ _ _ _ _ _ I)|eexists; exact Db|].
    apply In_nth_error in H as [i Hi]. destruct (nth_error ed i) as [ke|] eqn:Ek.
    - eexists. eapply Di; eassumption.
    - apply nth_error_None in Ek. unfold loc in *. assert (X : nth_error inner i <> None) by (rewrite Hi; discriminate). apply nth_error_Some in X. lia. }
  destruct X as [d X]. rewrite X in G. injection G as <-. discriminate.
Qed.

Lemma dpost_outcome h sv s res o h' :
  dpost h (length h) (S (length h)) [] h sv s (fun _ : unit => TupleV [RefV (length h); RefV (S (length h))]) (fun _ _ => True) res o h' ->
  untouched h h' /\
  decode_outcome h sv match res with (Ok _, st) => Ok (d_dec st, d_enc st) | (Raise x, _) => Raise x end o h'.
Proof.
  intros (_ & I & H). split; [exact (inv_untouched _ _ _ _ I)|].
  destruct (inv_enc_dict _ _ _ _ _ _ I) as (inner & De & N & L). assert (Dd := inv_dec _ _ _ _ _ _ I).
  destruct res as [[[]|x] st']; cbn [fst snd] in *.
  - destruct H as [-> _]; exists (length h), (S (length h)), inner; repeat split; try assumption; try apply De. constructor; [lia|assumption].
  - destruct H as (xv & -> & H). destruct x; cbn in H |- *; try contradiction; try (subst xv; reflexivity);
      try (destruct H as (t & ->); exists t; reflexivity).
    destruct H as (_ & E1 & E2 & l & -> & Ll & G). exists l, (length h), (S (length h)), inner. rewrite E1, E2.
    split; [reflexivity|]. split; [exact G|]. split; [exact Dd|]. split; [exact De|].
    eapply inst_fresh; [exact I|lia|exact Ll|exact De|exact N|exact L|exact G|reflexivity].
Qed.

(** A class without subclasses. *)
Definition leaf_class (c : string) : bool := negb (existsb (String.eqb c) (map snd bases)).
Lemma superclasses_in n : forall c d, In d (superclasses n c) -> d = c \/ In d (map snd bases).
Proof.
  induction n as [|n IH]; intros c d; cbn [superclasses]; [intros []|]. intros [<-|H]; [left; reflexivity|].
  destruct (dget String.eqb c bases) as [b|] eqn:G; [|destruct H]. right. apply IH in H as [->|H]; [|exact H].
  apply (dget_in String.eqb String.eqb_spec) in G. apply (in_map snd) in G. exact G.
Qed.
Lemma is_type_false t c : leaf_class c = true -> t <> TypeV c -> is_type t (TypeV c) = false.
Proof.
  intros L N. destruct t; try reflexivity. cbn [is_type]. destruct (subclass name c) eqn:S; [|reflexivity]. exfalso.
  unfold subclass in S. apply existsb_exists in S as (d & Hd & Ed). apply String.eqb_eq in Ed as <-.
  apply superclasses_in in Hd as [->|Hd]; [congruence|]. apply negb_true_iff in L. rewrite <- not_true_iff_false in L. apply L.
  apply existsb_exists. exists c. split; [exact Hd|apply String.eqb_refl].
Qed.
Lemma wp_isinstance_not E order h v c d (Q : outcome value -> heap -> Prop) :
  leaf_class c = true -> leaf_class d = true -> type_of h v <> TypeV c -> type_of h v <> TypeV d -> Q (Done (BoolV false)) h ->
  wp (call_builtin E order "isinstance" [v; TupleV [TypeV c; TypeV d]] []) Q h.
Proof.
  intros L1 L2 N1 N2 H. unfold wp, call_builtin. cbn [String.eqb Ascii.eqb Bool.eqb andb fst snd existsb forallb andb].
  rewrite !is_type_false by assumption. exact H.
Qed.
Lemma wp_class stdout h v (Q : outcome value -> heap -> Prop) : Q (Done (type_of h v)) h -> wp (getattr stdout v "__class__") Q h.
Proof. intro H. exact H. Qed.
Lemma wp_class_name stdout h v cls (Q : outcome value -> heap -> Prop) h' : class_name h v = Some cls -> Q (Done (StrV cls)) h' ->
  wp (getattr stdout (type_of h v) "__name__") Q h'.
Proof. unfold class_name. intros C H. destruct (type_of h v); try discriminate; injection C as <-; exact H. Qed.

Theorem decode_as_written E order stdout tbl : env_ok E -> short_text E -> any_order order ->
  forall h sv s spv sp depth, input_rep h sv s -> spec_rep h spv sp -> (zlen (buf_bytes s) < 2 ^ 63)%Z -> 5 <= depth ->
  let (o, h') := call_fun E order stdout tbl decoder_py depth "decode" [sv; spv] h in
  untouched h h' /\ decode_outcome h sv (decode E s sp) o h'.
Proof.
  intros EO ST Or h sv s spv sp depth Rs R BL D.
  assert (Hd : exists n, depth = S (S (S (S (S n))))) by (exists (depth - 5); lia). destruct Hd as [n ->].
  assert (small := small_prints E EO).
  enough (W : wp (call_fun E order stdout tbl decoder_py (S (S (S (S (S n))))) "decode" [sv; spv])
    (fun o h' => untouched h h' /\ decode_outcome h sv (decode E s sp) o h') h).
  { unfold wp in W. destruct (call_fun _ _ _ _ _ _ _ _ h). exact W. }
  destruct s as [bs|bs|cls].
  - eapply wp_mono; [eapply (sem_decode E order stdout tbl small Or ST n h sv (InBytes bs)); [left; exact Rs|reflexivity|exact R|exact BL]|].
    intros o h' H. exact (dpost_outcome _ _ _ _ _ _ H).
  - eapply wp_mono; [eapply (sem_decode E order stdout tbl small Or ST n h sv (InBytearray bs)); [right; exact Rs|reflexivity|exact R|exact BL]|].
    intros o h' H. exact (dpost_outcome _ _ _ _ _ _ H).
  - destruct Rs as (C & Nb & Na). cbn [decode decode_outcome]. enter. run.
    apply wp_isinstance_not; [reflexivity|reflexivity|exact Nb|exact Na|]. run. cbn [negb]. run. apply wp_class. run.
    eapply wp_class_name; [exact C|]. run. split; [intros l _; reflexivity|reflexivity].
Qed.
Lemma c311_machine : env_ok cpython311 /\ short_text cpython311.
Proof. exact (conj c311_env_ok c311_short). Qed.
