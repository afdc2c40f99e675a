(** * Retry: calls after calls that were interrupted at any moment. *)
From Coq Require Import Lia.
From Verif Require Import PyBase BaseFacts Types Decoder Encoder Tools EncoderFacts WireEncode Claims EncodeTheorems PyAst Source PySem SemClaims SessionClaims SourceDecode SourceEncode SourceTools Threads SafeClaims SafeLib.
Local Open Scope string_scope.
Local Open Scope list_scope.

Section Retry.
  Context (h : heap) (E0 : pyenv) (order0 : list Z -> list Z) (cs : list (rest * call)) (TH : tame_heap h) (NF : Forall no_functions cs).
  Context (ms : list (act PySem.value)) (h' : heap) (S : schedule (threads_of E0 order0 cs, h) (ms, h')).
  Lemma kept l o : hget h l = Some o -> (forall d, o = DictO d -> ~ to_encode cs l) -> (forall t, o <> StreamO t) -> hget h' l = Some o.
  Proof.
    intros G D T. destruct (objects_safe h E0 order0 cs TH NF ms h' S l o G) as (o' & G' & [->|[[TE (d & d' & -> & _)]|[_ (t & s & -> & _)]]]); [exact G'| |].
    - now destruct (D _ eq_refl).
    - now destruct (T t).
  Qed.
  Lemma reads_kept v m : reads h v m -> (forall x, to_encode cs x -> v <> RefV x) -> reads h' v m.
  Proof.
    destruct v; try (intro F; exact (False_ind _ F)); cbn; [|auto]. intros (items & G & R) A. exists items. split; [|exact R]. apply kept; [exact G| |discriminate].
    intros d _ TE. now apply (A _ TE).
  Qed.
  Lemma reads_back v m0 m : reads h v m0 -> (forall x, to_encode cs x -> v <> RefV x) -> reads h' v m -> reads h v m.
  Proof.
    destruct v; try (intro F; exact (False_ind _ F)); cbn; [|auto]. intros (items & G & R) A (items' & G' & R'). exists items'. split; [|exact R'].
    assert (K : hget h' l = Some (DictO items)) by (apply kept; [exact G|intros d _ TE; now apply (A _ TE)|discriminate]). congruence.
  Qed.
  Lemma spec_kept v sp : spec_rep h v sp -> (forall x, to_encode cs x -> spec_apart h v (RefV x)) -> spec_rep h' v sp.
  Proof.
    intros (m & R & F) A. exists m. split; [apply reads_kept; [exact R|]; intros x X; apply (A x X)|]. intro k. specialize (F k). destruct (sget k sp) as [fs|]; [|exact F].
    destruct F as (fv & fm & G & R' & FS). exists fv, fm. split; [exact G|]. split; [|exact FS]. apply reads_kept; [exact R'|]. intros x X. destruct (A x X) as [_ B]. eapply B; eassumption.
  Qed.
  Lemma apart_kept v sp w : spec_rep h v sp -> (forall x, to_encode cs x -> spec_apart h v (RefV x)) -> spec_apart h v w -> spec_apart h' v w.
  Proof.
    intros (m0 & R0 & _) A [N B]. split; [exact N|]. intros m k fv R. apply B. eapply reads_back; [exact R0| |exact R]. intros x X. apply (A x X).
  Qed.
  Lemma class_kept v c : class_name h v = Some c -> (forall l, v = RefV l -> hget h l <> None) -> type_of h' v = type_of h v.
  Proof.
    intros C X. destruct v; try reflexivity. cbn. destruct (hget h l) as [o|] eqn:G; [|now destruct (X l eq_refl)].
    destruct (objects_safe h E0 order0 cs TH NF ms h' S l o G) as (o' & -> & [->|[[_ (d & d' & -> & -> & _)]|[_ (t & s & -> & ->)]]]); reflexivity.
  Qed.
  Lemma input_kept v s : input_rep h v s -> (forall l, v = RefV l -> hget h l <> None) -> input_rep h' v s.
  Proof.
    intros R X. destruct s as [b|b|c]; cbn in *; [exact R| |].
    - destruct R as (l & -> & G). exists l. split; [reflexivity|]. apply kept; [exact G|discriminate|discriminate].
    - destruct R as (C & N1 & N2). unfold class_name in *. rewrite (class_kept v c C X). auto.
  Qed.
  Lemma same_key k : bitmap_key k = is_bitmap_key k.
  Proof.
    unfold bitmap_key, is_bitmap_key, key_eqb. destruct k as [s|i n]; [|reflexivity]. cbn [existsb]. rewrite orb_false_r, orb_assoc.
    now rewrite (str_eqb_sym s (u "p")), (str_eqb_sym s (u "1")), (str_eqb_sym s (u "65")).
  Qed.
  Lemma value_kept a v p : val_rep h a v p -> val_rep h' a v p.
  Proof.
    destruct p; cbn; auto. intros [->|(l & -> & N & G)]; [now left|]. right. exists l. split; [reflexivity|]. split; [exact N|]. apply kept; [exact G|discriminate|discriminate].
  Qed.
  Lemma value_one a v p q : val_rep h' a v p -> val_rep h' a v q -> p = q.
  Proof.
    destruct p as [s|b|n], q as [s'|b'|n']; cbn; try congruence; intros P Q; try (destruct Q as [->|(l' & -> & _ & G')]); try (destruct P as [P|(l & P & _ & G)]; try congruence);
      subst; try discriminate; try contradiction; try congruence.
    destruct v; try contradiction; congruence.
  Qed.
  Lemma represented a items : (forall k v, In (k, v) items -> exists p, val_rep h' a v p) -> exists d, items_rep h' a items d.
  Proof.
    induction items as [|[k v] items IH]; intro R; [exists []; constructor|]. destruct (R k v) as [p P]; [now left|]. destruct IH as [d D]; [intros; eapply R; right; eassumption|].
    exists ((k, p) :: d). constructor; [now split|exact D].
  Qed.
  Lemma rep_content a items d : items_rep h' a items d -> items_rep h' a (data_items items) (content d).
  Proof.
    intro R. induction R as [|[k v] [k' p] items d [K V] R IH]; [constructor|]. cbn in K, V. subst k'. unfold data_items, content. cbn [filter fst]. rewrite same_key.
    destruct (is_bitmap_key k); [exact IH|]. constructor; [now split|exact IH].
  Qed.
  Lemma rep_one a items d d' : items_rep h' a items d -> items_rep h' a items d' -> d = d'.
  Proof.
    intro R. revert d'. induction R as [|[k v] [k1 p] items d [K V] R IH]; intros d' R'; inversion R' as [|? [k2 q] ? d2 [K' V'] R2]; subst; [reflexivity|]. cbn in *. subst.
    f_equal; [f_equal; eapply value_one; eassumption|now apply IH].
  Qed.
  Lemma dict_kept l d : dict_rep h (RefV l) (ADict d) -> is_dict d -> exists d', dict_rep h' (RefV l) (ADict d') /\ content d' = content d /\ is_dict d'.
  Proof.
    intros (a & items & Q & G & R) D. injection Q as <-.
    assert (R1 : items_rep h' l items d).
    { clear - R TH NF S. induction R as [|[k v] [k' p] items d [K V] R IH]; constructor; [|exact IH]. split; [exact K|]. now apply value_kept. }
    assert (KEYS : forall it e, items_rep h' l it e -> map fst it = map fst e).
    { clear. intros it e R. induction R as [|x y it e [K _] R IH]; cbn; congruence. }
    destruct (objects_safe h E0 order0 cs TH NF ms h' S l _ G) as (o' & G' & X).
    assert (Y : exists items', o' = DictO items' /\ data_items items' = data_items items /\
              (forall k v, In (k, v) items' -> In (k, v) items \/ exists t, v = StrV t) /\ (NoDup (map fst items) -> NoDup (map fst items'))).
    { destruct X as [->|[[_ (d0 & d1 & [= <-] & -> & A & B & C)]|[_ (t & s & [=] & _)]]]; [exists items; repeat split; auto|]. exists d1. auto. }
    destruct Y as (items' & -> & DI & TX & ND). destruct (represented l items') as [d' R'].
    { intros k v I. destruct (TX k v I) as [I1|[t ->]]; [|exists (VStr t); reflexivity]. clear - R1 I1. induction R1 as [|[k1 v1] [k2 p] it e [_ V] R1 IH]; [destruct I1|].
      destruct I1 as [[= -> ->]|I1]; [now exists p|now apply IH]. }
    exists d'. split; [|split].
    - exists l, items'. auto.
    - apply (rep_one l (data_items items)); [rewrite <- DI|]; now apply rep_content.
    - unfold is_dict in *. rewrite <- (KEYS _ _ R'). apply ND. now rewrite (KEYS _ _ R1).
  Qed.
  Lemma content_same d d' : content d' = content d -> same_content d d'.
  Proof.
    intros Q k v B. assert (X : forall e, In (k, v) e <-> In (k, v) (content e)); [|now rewrite (X d), (X d'), Q].
    intro e. unfold content. rewrite filter_In. cbn. rewrite B. tauto.
  Qed.

  (** decode() and encode() are called again. *)
  Theorem decode_again E order stdout tbl : env_ok E -> short_text E -> any_order order ->
    forall sv s spv sp depth, input_rep h sv s -> (forall l, sv = RefV l -> hget h l <> None) -> spec_rep h spv sp -> (forall x, to_encode cs x -> spec_apart h spv (RefV x)) ->
    (zlen (buf_bytes s) < 2 ^ 63)%Z -> 5 <= depth ->
    let (o, h'') := call_fun E order stdout tbl decoder_py depth "decode" [sv; spv] h' in decode_outcome h' sv (decode E s sp) o h''.
  Proof.
    intros EO ST AO sv s spv sp depth R X SR A L D.
    pose proof (decode_as_written E order stdout tbl EO ST AO h' sv s spv sp depth (input_kept _ _ R X) (spec_kept _ _ SR A) L D) as Z.
    destruct (call_fun _ _ _ _ _ _ _ _ _) as [o h'']. apply Z.
  Qed.
  Theorem encode_again E order stdout tbl : env_ok E -> short_bytes E -> any_order order ->
    forall l d spv sp, dict_rep h (RefV l) (ADict d) -> is_dict d -> spec_rep h spv sp -> spec_apart h spv (RefV l) -> (forall x, to_encode cs x -> spec_apart h spv (RefV x)) ->
    exists d', dict_rep h' (RefV l) (ADict d') /\ content d' = content d /\
    (in_memory (ADict d') -> forall depth, 5 <= depth ->
     let (o, h'') := call_fun E order stdout tbl encoder_py depth "encode" [RefV l; spv] h' in
     (forall s enc, encodes_to E sp d s enc -> encode_outcome h' (RefV l) (Ok (s, enc)) o h'')
     /\ ((forall s enc, ~ encodes_to E sp d s enc) -> forall v, o <> Done v)).
  Proof.
    intros EO SB AO l d spv sp R D SR SA A. destruct (dict_kept l d R D) as (d' & R' & C & D'). exists d'. split; [exact R'|]. split; [exact C|]. intros IM depth DP.
    pose proof (encode_as_written E order stdout tbl EO SB AO h' (RefV l) (ADict d') spv sp depth R' IM (spec_kept _ _ SR A) (apart_kept _ _ _ SR A SA) DP) as Z.
    destruct (call_fun _ _ _ _ _ _ _ _ _) as [o h'']. destruct Z as [_ Z]. pose proof (fun s enc => encode_content E sp d d' s enc EO D D' (content_same _ _ C)) as EC. split.
    - intros s enc T. apply EC in T as [d2 T]. rewrite T in Z. exact Z.
    - intros N v ->. destruct (encode E (ADict d') sp) as [[[s enc]|x] d2] eqn:T; [apply (N s enc), EC; exists d2; exact T|]. cbn in Z.
      destruct x; try contradiction; try discriminate; repeat (destruct Z as [? Z]; try discriminate); try contradiction.
  Qed.
  Lemma object_kept E v o : obj_rep E h v o -> obj_rep E h' v o.
  Proof.
    destruct o as [s|b|n r]; cbn; auto. destruct v; auto. intros (b & G & Q). exists b. split; [|exact Q]. apply kept; [exact G|discriminate|discriminate].
  Qed.
  Lemma item_kept E v o : item_rep E h v o -> item_rep E h' v o.
  Proof. destruct v, o; cbn; auto. apply object_kept. Qed.
  Lemma doc_kept E v doc : doc_rep E h v doc ->
    (forall x, to_encode cs x -> v <> RefV x /\ forall l items k y, v = RefV l -> hget h l = Some (DictO items) -> In (k, y) items -> y <> RefV x) -> doc_rep E h' v doc.
  Proof.
    intros (l & items & -> & G & R) A. exists l, items. split; [reflexivity|]. split; [apply kept; [exact G|intros d _ TE; now destruct (A _ TE)|discriminate]|].
    assert (B : forall x, to_encode cs x -> forall k y, In (k, y) items -> y <> RefV x) by (intros x X k y; apply (A x X) with (1 := eq_refl) (2 := G)).
    clear - R B TH NF S. induction R as [|[k y] [k' p] items doc [K V] R IH]; constructor; [|apply IH; intros x X k0 y0 I; apply (B x X k0); now right].
    split; [exact K|]. cbn in *. destruct p as [o|len data]; [now apply object_kept|]. destruct V as (l & it & -> & G & P & Q). exists l, it. split; [reflexivity|].
    split; [|split; now apply item_kept]. apply kept; [exact G| |discriminate]. intros d _ TE. now apply (B _ TE k (RefV l) (or_introl eq_refl)).
  Qed.
  (** pp() is called again. *)
  Theorem pp_again E order stdout docv doc spv sp dv dw sv w t lv lw depth :
    doc_rep E h docv doc -> (forall x, to_encode cs x -> docv <> RefV x /\ forall l items k y, docv = RefV l -> hget h l = Some (DictO items) -> In (k, y) items -> y <> RefV x) ->
    spec_rep h spv sp -> (forall x, to_encode cs x -> spec_apart h spv (RefV x)) -> width_rep E dv dw -> width_rep E lv lw ->
    stream_rep stdout sv w -> hget h w = Some (StreamO t) -> 4 <= depth ->
    exists p, hget h' w = Some (StreamO (t ++ p)) /\ (to_print cs w \/ p = []) /\
    let (o, h'') := call_fun E order stdout tools_table tools_py depth "pp" [docv; spv; dv; sv; lv] h' in
    pp_outcome h' w (t ++ p) (pp E doc sp dw lw) o h''.
  Proof.
    intros R A SR B W1 W2 ST G D.
    assert (X : exists p, hget h' w = Some (StreamO (t ++ p)) /\ (to_print cs w \/ p = [])).
    { destruct (objects_safe h E0 order0 cs TH NF ms h' S w _ G) as (o' & G' & [->|[[_ (d & d' & Q & _)]|[TP (t' & s & [= <-] & ->)]]]); [|discriminate|].
      - exists []. rewrite app_nil_r. auto.
      - exists s. auto. }
    destruct X as (p & P & TP). exists p. split; [exact P|]. split; [exact TP|].
    apply pp_as_written; auto; [now apply doc_kept|now apply spec_kept].
  Qed.
End Retry.
