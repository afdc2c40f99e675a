(** * SourceErrors: the exceptions of the library, made and taken apart by its text. *)
From Verif Require Import PyBase BaseFacts Types Decoder Encoder Wire WireEncode PyAst Source PySem SemClaims SemFacts SemHeap SemStep.
From Verif Require Import EncoderFacts DecodeTheorems EncodeTheorems2 SessionClaims SourceDecode SourceEncode SourceSessions.
Local Open Scope string_scope.
Local Open Scope list_scope.

Section Errors.
  Implicit Types (Q : outcome PySem.value -> heap -> Prop).
  Context (E : pyenv) (order : list Z -> list Z) (stdout : PySem.value) (tbl : list (string * string)).
  Lemma hset_last (h : heap) o o' : hset (h ++ [o]) (length h) o' = h ++ [o'].
  Proof. induction h as [|x h IH]; [reflexivity|]. cbn. f_equal. exact IH. Qed.
  Lemma wp_setattr_last h c attrs args x v (Q : outcome unit -> heap -> Prop) :
    Q (Done tt) (h ++ [InstO c (bindv x v attrs) args]) -> wp (setattr (RefV (length h)) x v) Q (h ++ [InstO c attrs args]).
  Proof. intro H. cbn [setattr]. run. eapply wp_get; [apply hget_new|]. run. apply wp_put. rewrite hset_last. exact H. Qed.
  Lemma make_decode_error n h msg sv dv ev pos field Q : prints E pos = true ->
    Q (Done (RefV (length h))) (h ++ [decode_error_at msg sv dv ev pos field]) ->
    wp (instantiate (call_fun E order stdout tbl decoder_py (S n)) "DecodeError" [StrV msg; sv; dv; ev; IntV pos; StrV field]) Q h.
  Proof.
    intros P H. unfold instantiate. run. apply wp_new. run. enter. run. apply wp_int_text; [exact P|]. run.
    cbn [call_method String.eqb Ascii.eqb Bool.eqb andb]. run. eapply wp_get; [apply hget_new|]. run. apply wp_put. rewrite hset_last. run.
    do 6 (apply wp_setattr_last; run). exact H.
  Qed.
  Lemma make_encode_error n h msg dv ev field Q :
    Q (Done (RefV (length h))) (h ++ [encode_error_at msg dv ev field]) ->
    wp (instantiate (call_fun E order stdout tbl encoder_py (S n)) "EncodeError" [StrV msg; dv; ev; StrV field]) Q h.
  Proof.
    intros H. unfold instantiate. run. apply wp_new. run. enter. run.
    cbn [call_method String.eqb Ascii.eqb Bool.eqb andb]. run. eapply wp_get; [apply hget_new|]. run. apply wp_put. rewrite hset_last. run.
    do 4 (apply wp_setattr_last; run). exact H.
  Qed.
  Lemma wp_inst_attr h l c attrs args x v Q : hget h l = Some (InstO c attrs args) -> lookup x attrs = Some v -> x <> "__class__" ->
    Q (Done v) h -> wp (getattr stdout (RefV l) x) Q h.
  Proof. intros G L N H. unfold wp, getattr, seqc, get. rewrite (proj2 (String.eqb_neq _ _) N), G, L. exact H. Qed.
  Lemma wp_inst_class h l c attrs args Q : hget h l = Some (InstO c attrs args) ->
    Q (Done (TypeV c)) h -> wp (getattr stdout (RefV l) "__class__") Q h.
  Proof. intros G H. unfold wp, getattr. cbn. rewrite G. exact H. Qed.
  Lemma take_decode_error n h l msg sv dv ev pos field Q : hget h l = Some (decode_error_at msg sv dv ev pos field) ->
    Q (Done (TupleV [TypeV "DecodeError"; TupleV [StrV msg; sv; dv; ev; IntV pos; StrV field]])) h ->
    wp (call_fun E order stdout tbl decoder_py (S n) "DecodeError.__reduce__" [RefV l]) Q h.
  Proof.
    intros G H. enter. run. eapply wp_inst_class; [exact G|]. run.
    do 6 (eapply wp_inst_attr; [exact G|reflexivity|discriminate|]; run). exact H.
  Qed.
  Lemma take_encode_error n h l msg dv ev field Q : hget h l = Some (encode_error_at msg dv ev field) ->
    Q (Done (TupleV [TypeV "EncodeError"; TupleV [StrV msg; dv; ev; StrV field]])) h ->
    wp (call_fun E order stdout tbl encoder_py (S n) "EncodeError.__reduce__" [RefV l]) Q h.
  Proof.
    intros G H. enter. run. eapply wp_inst_class; [exact G|]. run.
    do 4 (eapply wp_inst_attr; [exact G|reflexivity|discriminate|]; run). exact H.
  Qed.
End Errors.
Lemma wp_eq {A} (c : comp A) h x y : wp c (fun o h' => o = x /\ h' = y) h -> c h = (x, y).
Proof. unfold wp. destruct (c h) as [o h']. cbn. intros [X Y]. congruence. Qed.

Section Errors2.
  Context (E : pyenv) (order : list Z -> list Z) (M : machine E order).
  Theorem decode_error_made r h msg sv dv ev pos field : (0 <= pos < 2 ^ 70)%Z ->
    new_decode_error E order r [StrV msg; sv; dv; ev; IntV pos; StrV field] h =
      (Done (RefV (length h)), h ++ [decode_error_at msg sv dv ev pos field]).
  Proof.
    intro P. unfold new_decode_error. destruct r as [so tb [|n] N]; [lia|]. apply wp_eq. apply make_decode_error; [|auto].
    apply small_prints; [exact (proj1 M)|exact P].
  Qed.
  Theorem encode_error_made r h msg dv ev field :
    new_encode_error E order r [StrV msg; dv; ev; StrV field] h = (Done (RefV (length h)), h ++ [encode_error_at msg dv ev field]).
  Proof. unfold new_encode_error. destruct r as [so tb [|n] N]; [lia|]. apply wp_eq. apply make_encode_error. auto. Qed.
  Theorem decode_error_taken r h l msg sv dv ev pos field : hget h l = Some (decode_error_at msg sv dv ev pos field) ->
    reduce_decode_error E order r (RefV l) h = (Done (TupleV [TypeV "DecodeError"; TupleV [StrV msg; sv; dv; ev; IntV pos; StrV field]]), h).
  Proof. intro G. unfold reduce_decode_error. destruct r as [so tb [|n] N]; [lia|]. apply wp_eq. eapply take_decode_error; [exact G|auto]. Qed.
  Theorem encode_error_taken r h l msg dv ev field : hget h l = Some (encode_error_at msg dv ev field) ->
    reduce_encode_error E order r (RefV l) h = (Done (TupleV [TypeV "EncodeError"; TupleV [StrV msg; dv; ev; StrV field]]), h).
  Proof. intro G. unfold reduce_encode_error. destruct r as [so tb [|n] N]; [lia|]. apply wp_eq. eapply take_encode_error; [exact G|auto]. Qed.

  Theorem session_decode_error r h spv sp sv s b l h1 : spec_rep h spv sp -> input_rep h sv s -> holds s b -> (zlen b < 2 ^ 63)%Z ->
    call_decode E order r [sv; spv] h = (Thrown (RefV l), h1) ->
    exists er a e inner, truthful_decode_error E sp s b er /\
      hget h1 l = Some (decode_error_at (de_msg er) sv (RefV a) (RefV e) (de_pos er) (de_field er)) /\
      dec_dict h1 a (de_doc_dec er) /\ enc_dict h1 e inner (de_doc_enc er) /\ fresh h (l :: a :: e :: inner) /\ untouched h h1 /\
      forall r2 r3 h2 sv' dv ev,
        reduce_decode_error E order r2 (RefV l) h1 =
          (Done (TupleV [TypeV "DecodeError"; TupleV [StrV (de_msg er); sv; RefV a; RefV e; IntV (de_pos er); StrV (de_field er)]]), h1) /\
        new_decode_error E order r3 [StrV (de_msg er); sv'; dv; ev; IntV (de_pos er); StrV (de_field er)] h2 =
          (Done (RefV (length h2)), h2 ++ [decode_error_at (de_msg er) sv' dv ev (de_pos er) (de_field er)]).
  Proof.
    intros Rs R Hs B C. assert (B' : (zlen (buf_bytes s) < 2 ^ 63)%Z) by (destruct Hs as [->| ->]; exact B).
    destruct (decode_call E order M spv sp _ _ _ _ _ _ Rs R B' C) as [U O].
    destruct (decode E s sp) as [[dec enc]|x] eqn:Hd; [cbn in O; decompose [ex and] O; discriminate|].
    destruct x as [er| | | | | ]; cbn in O; try (decompose [ex and] O; discriminate); try contradiction.
    assert (T := decode_error_truth E sp s b er Hs Hd). destruct O as (l' & a & e & inner & [= <-] & G & Da & Ee & F).
    exists er, a, e, inner. split; [exact T|]. destruct T as (_ & Ta & segs & last & rest & _ & _ & _ & _ & _ & Hb & Hp).
    rewrite Ta in G. split; [exact G|]. do 4 (split; [assumption|]). intros r2 r3 h2 sv' dv ev. split; [apply decode_error_taken, G|].
    apply decode_error_made. assert (X := f_equal (fun x => zlen x) Hb). cbn beta in X. unfold zlen in *. rewrite app_length in X. lia.
  Qed.
  Theorem session_encode_error r h spv sp a d l h1 : spec_rep h spv sp -> spec_apart h spv (RefV a) ->
    dict_rep h (RefV a) (ADict d) -> in_memory (ADict d) -> is_dict d ->
    call_encode E order r [RefV a; spv] h = (Thrown (RefV l), h1) ->
    exists er e inner d', truthful_encode_error E sp d er d' /\
      hget h1 l = Some (encode_error_at (ee_msg er) (RefV a) (RefV e) (ee_field er)) /\
      dict_left h (RefV a) d' h1 /\ enc_dict h1 e inner (ee_doc_enc er) /\ fresh h (l :: e :: inner) /\
      forall r2 r3 h2 dv ev,
        reduce_encode_error E order r2 (RefV l) h1 =
          (Done (TupleV [TypeV "EncodeError"; TupleV [StrV (ee_msg er); RefV a; RefV e; StrV (ee_field er)]]), h1) /\
        new_encode_error E order r3 [StrV (ee_msg er); dv; ev; StrV (ee_field er)] h2 =
          (Done (RefV (length h2)), h2 ++ [encode_error_at (ee_msg er) dv ev (ee_field er)]).
  Proof.
    intros Rs Ap R I D C. destruct M as (HE & HT & HB & HO). destruct r as [so tb n N]. unfold call_encode in C. cbn in C.
    assert (X := encode_as_written E order so tb HE HB HO h (RefV a) _ spv sp n R I Rs Ap N). rewrite C in X. destruct X as [L X].
    destruct (encode E (ADict d) sp) as [m d'] eqn:H. cbn [fst snd] in *. unfold encode_outcome in X.
    destruct m as [[bs enc]|[]]; try (decompose [ex and] X; discriminate); try contradiction.
    assert (T := encode_error_truth E sp d _ d' D H). destruct X as (l' & e' & inner & [= <-] & G & Ee & F).
    eexists _, e', inner, d'. split; [exact T|]. destruct T as (_ & Ta & _).
    rewrite Ta in G. split; [exact G|]. do 3 (split; [assumption|]). intros r2 r3 h2 dv ev. split; [apply encode_error_taken, G|].
    apply encode_error_made.
  Qed.
End Errors2.
