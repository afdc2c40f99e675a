(** * DecodeTheorems: consequences of the decoder characterisation. *)
From Coq Require Import ZifyBool ZifyNat ZifyN.
From Verif Require Import PyBase BaseFacts Types Numerals NumeralFacts Decoder Wire DecoderFacts DecodeRun DecodeComplete.
Ltac Zify.zify_post_hook ::= Z.div_mod_to_equations.

Lemma holds_buf s b : holds s b -> buf_bytes s = b.
Proof. intros [->| ->]; reflexivity. Qed.
Lemma decode_eq E s b sp : holds s b -> decode E s sp =
  match decode_body E s sp (mkD [] []) with (Ok _, st) => Ok (d_dec st, d_enc st) | (Raise x, _) => Raise x end.
Proof. intros [->| ->]; reflexivity. Qed.

Lemma wire_bytes_enc segs : wire_bytes (enc_of segs) = bytes_of segs.
Proof. unfold wire_bytes, enc_of, bytes_of. induction segs as [|x l IH]; [reflexivity|]. simpl. rewrite IH. reflexivity. Qed.

Lemma decode_sound E s b sp dec enc : holds s b -> decode E s sp = Ok (dec, enc) ->
  exists segs, b = bytes_of segs /\ dec = dec_of segs /\ enc = enc_of segs /\ NoDup (map sg_key segs)
    /\ Forall (segment_ok E sp) segs /\ (bitmaps_fit E sp -> message E sp segs).
Proof.
  intros Hs H. rewrite (decode_eq _ _ _ _ Hs) in H.
  destruct (decode_body E s sp (mkD [] [])) as [[x|x] st] eqn:Hb; [|discriminate]. injection H as <- <-.
  apply decode_body_run in Hb as (segs & (H1 & H2 & H3 & H4) & H5 & H6).
  rewrite (holds_buf _ _ Hs) in *. exists segs. repeat (split; auto).
  destruct H3 as (pre & post & Hb & Hp & Hl). apply zlen_zero in Hp. subst pre. cbn [app] in Hb.
  subst b. rewrite zlen_app in Hl. assert (zlen post = 0)%Z by lia. apply zlen_zero in H. subst post.
  now rewrite app_nil_r.
Qed.

Lemma fit_lengths E sp hs t p xs fields bm1 bm2 bm3 : bitmaps_fit E sp ->
  message_parts E sp hs t p xs fields bm1 bm2 bm3 ->
  (length bm1 <= 8)%nat /\ (length bm2 <= 8)%nat /\ (length bm3 <= 8)%nat.
Proof.
  intros Hfit (_ & _ & (fs & Hp & _ & _ & Hw) & Hx & _).
  split; [eapply Hfit; [left; reflexivity|eassumption|eassumption]|]. destruct Hx as [|fs1 sg bm2 _ H1 _ _ H2 _|fs1 sg d2 t2 bm2 d3 t3 bm3 _ H1 _ _ _ _ H2 H3 _].
  - split; apply Nat.le_0_l.
  - split; [|apply Nat.le_0_l]. eapply Hfit; [right; reflexivity|eassumption|eassumption].
  - split; (eapply Hfit; [right; reflexivity|eassumption|eassumption]).
Qed.

Lemma decode_with_rest E s sp segs rest : bitmaps_fit E sp -> message E sp segs ->
  holds s (bytes_of segs ++ rest) ->
  decode E s sp = match rest with
    | [] => Ok (dec_of segs, enc_of segs)
    | _ => Raise (XDecodeError (DecodeError (u "Extra data after last field") s (dec_of segs) (enc_of segs)
                     (zlen (bytes_of segs)) (last (map sg_key segs) [])))
    end.
Proof.
  intros Hfit (hs & t & p & xs & fields & bm1 & bm2 & bm3 & -> & Hm) Hs. rewrite (decode_eq _ _ _ _ Hs).
  destruct (fit_lengths _ _ _ _ _ _ _ _ _ _ Hfit Hm) as (L1 & L2 & L3).
  rewrite (decode_body_complete E s sp _ _ _ _ _ _ _ _ rest Hm L1 L2 L3 (holds_buf _ _ Hs)).
  destruct rest; reflexivity.
Qed.

(** C02 *)
Lemma decode_iff E sp s b dec enc : bitmaps_fit E sp -> holds s b ->
  (decode E s sp = Ok (dec, enc) <->
   exists segs, message E sp segs /\ b = bytes_of segs /\ dec = dec_of segs /\ enc = enc_of segs).
Proof.
  intros Hfit Hs. split.
  - intro H. apply (decode_sound _ _ _ _ _ _ Hs) in H as (segs & H1 & H2 & H3 & _ & _ & H4). exists segs. auto.
  - intros (segs & Hm & -> & -> & ->). rewrite <- (app_nil_r (bytes_of segs)) in Hs.
    now rewrite (decode_with_rest _ _ _ _ _ Hfit Hm Hs).
Qed.

(** C03 *)
Lemma decode_accounts E sp s b dec enc : holds s b -> decode E s sp = Ok (dec, enc) ->
  wire_bytes enc = b /\ map fst dec = map fst enc /\ NoDup (map fst enc).
Proof.
  intros Hs H. apply (decode_sound _ _ _ _ _ _ Hs) in H as (segs & -> & -> & -> & H4 & _).
  rewrite wire_bytes_enc, keys_dec, keys_enc. auto.
Qed.

(** C06 *)
Lemma header_part_keys E sp hs : header_part E sp hs ->
  forall k, In k (map sg_key hs) <->
    k = u "h" /\ exists fs ml, sget (u "h") sp = Some fs /\ fs_max_len fs = Some ml /\ (0 < ml)%Z.
Proof.
  intros [fs ml H1 H2 H3|fs ml sg H1 H2 H3 Hk _] k.
  - split; [intros []|]. intros (_ & fs' & ml' & H4 & H5 & H6). rewrite H1 in H4. injection H4 as <-.
    rewrite H2 in H5. injection H5 as <-. lia.
  - cbn [map]. rewrite Hk. split; [intros [<-|[]]; split; eauto|]. intros (-> & _). now left.
Qed.
Lemma bitmap_wire_fromhex E fs d t bm : bitmap_wire E fs d t bm -> hex_spelling t bm.
Proof. intros [de _ _ _ -> ->|]; [|assumption]. apply fromhex_spelling. rewrite HEX_eq. apply fromhex_HEX. Qed.

Lemma sget_dec segs sg : NoDup (map sg_key segs) -> In sg segs -> sget (sg_key sg) (dec_of segs) = Some (sg_text sg).
Proof.
  intros Hn Hi. apply (dget_in_nodup str_eqb str_eqb_spec); [now rewrite keys_dec|].
  apply in_map_iff. exists sg. auto.
Qed.
Lemma sget_enc segs sg : NoDup (map sg_key segs) -> In sg segs ->
  sget (sg_key sg) (enc_of segs) = Some (mkEntry (sg_len sg) (sg_data sg)).
Proof.
  intros Hn Hi. apply (dget_in_nodup str_eqb str_eqb_spec); [now rewrite keys_enc|].
  apply in_map_iff. exists sg. auto.
Qed.
Lemma sget_dec_none segs k : ~ In k (map sg_key segs) -> sget k (dec_of segs) = None.
Proof. intro H. apply (dget_none str_eqb str_eqb_spec). now rewrite keys_dec. Qed.

Lemma decode_keys E sp s b dec enc : bitmaps_fit E sp -> holds s b -> decode E s sp = Ok (dec, enc) ->
  exists bm1 bm2 bm3 tp,
    sget (u "p") dec = Some tp /\ hex_spelling tp bm1
    /\ (sget (u "1") dec = None /\ bit bm1 1 = false /\ bm2 = [] /\ bm3 = []
        \/ exists t2 t3, sget (u "1") dec = Some (t2 ++ t3) /\ bit bm1 1 = true
             /\ hex_spelling t2 bm2 /\ hex_spelling t3 bm3 /\ (bit bm2 1 = false -> t3 = []))
    /\ (forall k, In k (map fst dec) <-> named sp bm1 bm2 bm3 k)
    /\ ~ In (u "65") (map fst dec).
Proof.
  intros Hfit Hs H. apply (decode_sound _ _ _ _ _ _ Hs) in H as (segs & _ & -> & -> & Hn & _ & Hm).
  destruct (Hm Hfit) as (hs & t & p & xs & fields & bm1 & bm2 & bm3 & -> & Hh & Ht & Hp & Hx & Hf & _).
  clear Hm. exists bm1, bm2, bm3, (sg_text p).
  destruct Hp as (pfs & _ & Hpk & _ & Hpw). destruct Ht as (tfs & _ & Htk & _).
  set (segs := hs ++ t :: p :: xs ++ fields) in *.
  assert (Hip : In p segs) by (apply in_app_iff; simpl; auto).
  assert (Hkeys : forall k, In k (map fst (dec_of segs)) <-> named sp bm1 bm2 bm3 k).
  { intro k. rewrite keys_dec. unfold segs, named. rewrite map_app. cbn [map]. rewrite map_app, Hf, Htk, Hpk.
    rewrite in_app_iff. cbn [In]. rewrite in_app_iff, (header_part_keys _ _ _ Hh).
    assert (Hx1 : In k (map sg_key xs) <-> k = u "1" /\ bit bm1 1 = true).
    { destruct Hx as [Hb|fs1 sg bm2' Hb _ Hk _ _ _|fs1 sg d2 t2 bm2' d3 t3 bm3' Hb _ Hk _ _ _ _ _ _]; cbn [map];
        rewrite ?Hk, Hb; cbn [In]; intuition congruence. }
    rewrite Hx1.
    assert (Hf1 : In k (map zstr (filter (announced bm1 bm2 bm3) data_fields)) <->
      exists f, k = zstr f /\ (2 <= f <= 64 \/ 66 <= f <= 192)%Z /\ announced bm1 bm2 bm3 f = true).
    { rewrite in_map_iff. split.
      - intros (f & <- & Hi). apply filter_In in Hi as [Hi Ha]. exists f. rewrite <- data_fields_in. auto.
      - intros (f & -> & Hi & Ha). exists f. split; [reflexivity|]. apply filter_In. rewrite data_fields_in. split; assumption. }
    rewrite Hf1. intuition congruence. }
  assert (H65 : ~ named sp bm1 bm2 bm3 (u "65")).
  { intros [[H _]|[H|[H|[[H _]|(f & H & Hr & _)]]]]; try discriminate.
    change (u "65") with (zstr 65) in H. apply zstr_inj in H; lia. }
  split; [rewrite <- Hpk; apply sget_dec; assumption|].
  split; [eapply bitmap_wire_fromhex; eassumption|]. split; [|split; [assumption|rewrite Hkeys; assumption]].
  assert (Hxs : forall sg, xs = [sg] -> sg_key sg = u "1" -> sget (u "1") (dec_of segs) = Some (sg_text sg)).
  { intros sg -> <-. apply sget_dec; [assumption|]. unfold segs. rewrite in_app_iff. simpl. auto. }
  destruct Hx as [Hb|fs1 sg bm2' Hb _ Hk _ Hw Hb2|fs1 sg d2 t2 bm2' d3 t3 bm3' Hb _ Hk _ _ Ht Hw2 Hw3 Hb2].
  - left. split; [|auto]. apply sget_dec_none. rewrite <- keys_dec, Hkeys.
    intros [[H _]|[H|[H|[[H Hb1]|(f & H & Hr & _)]]]]; try discriminate; [congruence|].
    symmetry in H. apply zstr_neq_1 in H; lia.
  - right. exists (sg_text sg), []. rewrite app_nil_r, (Hxs sg eq_refl Hk).
    repeat (split; [eauto using bitmap_wire_fromhex, HexEnd|]). reflexivity.
  - right. exists t2, t3. rewrite (Hxs sg eq_refl Hk), Ht.
    repeat (split; [eauto using bitmap_wire_fromhex|]). congruence.
Qed.

(** C07 *)
Lemma decode_only_decode_error E sp s b x : bitmaps_fit E sp -> spec_complete sp -> numbers_ok E sp -> holds s b ->
  decode E s sp = Raise x -> exists e, x = XDecodeError e.
Proof.
  intros Hfit Hc Hnum Hs H. rewrite (decode_eq _ _ _ _ Hs) in H.
  destruct (decode_body E s sp (mkD [] [])) as [[y|y] st] eqn:Hb; [discriminate|]. injection H as <-.
  apply decode_body_run in Hb as [[(e & -> & _)|[_ Hx]]|(nm & -> & Hn)]; [eauto|contradiction|]. now apply Hn in Hfit.
Qed.
(** Whatever the spec, the only other exceptions are a KeyError for what it lacks
    and a ValueError for a number too long to be shown. *)
Lemma decode_exceptions E sp s b x : holds s b -> decode E s sp = Raise x ->
  (exists e, x = XDecodeError e) \/ (exists k, x = XKeyError k) \/ (x = XValueError /\ ~ numbers_ok E sp).
Proof.
  intros Hs H. rewrite (decode_eq _ _ _ _ Hs) in H.
  destruct (decode_body E s sp (mkD [] [])) as [[y|y] st] eqn:Hb; [discriminate|]. injection H as <-.
  apply decode_body_run in Hb as [[(e & -> & _)|Hx]|(nm & -> & Hn)]; eauto.
Qed.

(** C09 *)
Lemma decode_extension E sp s b s' rest dec enc : bitmaps_fit E sp -> holds s b -> holds s' (b ++ rest) ->
  rest <> [] -> decode E s sp = Ok (dec, enc) ->
  decode E s' sp = Raise (XDecodeError (DecodeError (u "Extra data after last field") s' dec enc (zlen b)
                                          (last (map fst enc) []))).
Proof.
  intros Hfit Hs Hs' Hr H. apply (decode_sound _ _ _ _ _ _ Hs) in H as (segs & -> & -> & -> & _ & _ & Hm).
  rewrite (decode_with_rest _ _ _ _ _ Hfit (Hm Hfit) Hs'). destruct rest; [congruence|]. now rewrite keys_enc.
Qed.
Lemma decode_prefix E sp s b s' b' rest dec enc : bitmaps_fit E sp -> holds s b -> holds s' b' ->
  b = b' ++ rest -> rest <> [] -> decode E s sp = Ok (dec, enc) -> exists x, decode E s' sp = Raise x.
Proof.
  intros Hfit Hs Hs' -> Hr H. destruct (decode E s' sp) as [[dec' enc']|x] eqn:H'; [|eauto].
  rewrite (decode_extension E sp s' b' s rest dec' enc' Hfit Hs' Hs Hr H') in H. discriminate.
Qed.

(** C10 *)
Lemma decode_error_truth E sp s b e : holds s b -> decode E s sp = Raise (XDecodeError e) ->
  truthful_decode_error E sp s b e.
Proof.
  intros Hs H. rewrite (decode_eq _ _ _ _ Hs) in H.
  destruct (decode_body E s sp (mkD [] [])) as [[y|y] st] eqn:Hb; [discriminate|]. injection H as ->.
  apply decode_body_run in Hb as [[(e' & [= <-] & Hf)|[H _]]|(nm & H & Hn)]; [|discriminate|discriminate].
  now rewrite (holds_buf _ _ Hs) in Hf.
Qed.

(** C23: decoding commutes with a change of buffer type. *)
Definition retag_exn (s' : pybuf) (x : exn) : exn :=
  match x with
  | XDecodeError e => XDecodeError (DecodeError (de_msg e) s' (de_doc_dec e) (de_doc_enc e) (de_pos e) (de_field e))
  | _ => x
  end.
Definition retag {A} (s' : pybuf) (r : res exn A) : res exn A :=
  match r with Ok a => Ok a | Raise x => Raise (retag_exn s' x) end.
Definition sim {A} (s' : pybuf) (m m' : DM A) : Prop :=
  forall st, m' st = (retag s' (fst (m st)), snd (m st)).

Section Sim.
  Variables s s' : pybuf.
  Hypothesis same : buf_bytes s = buf_bytes s'.
  Lemma sim_ret {A} (a : A) : sim s' (ret a) (ret a).
  Proof. intro st. reflexivity. Qed.
  Lemma sim_bind {A B} (m m' : DM A) (k k' : A -> DM B) :
    sim s' m m' -> (forall a, sim s' (k a) (k' a)) -> sim s' (bind m k) (bind m' k').
  Proof.
    intros Hm Hk st. unfold bind. rewrite (Hm st). destruct (m st) as [[a|x] st1]; simpl; [apply Hk|reflexivity].
  Qed.
  Lemma sim_draise {A} msg idx k : sim s' (@draise A s msg idx k) (draise s' msg idx k).
  Proof. intro st. reflexivity. Qed.
  Lemma sim_formatted {A} E ns (m m' : DM A) : sim s' m m' -> sim s' (formatted E ns m) (formatted E ns m').
  Proof. intros H st. unfold formatted. destruct (forallb _ _); [apply H|reflexivity]. Qed.
  Lemma sim_prop {A} (o : option A) nm : sim s' (prop o nm) (prop o nm).
  Proof. intro st. destruct o; reflexivity. Qed.
  Lemma sim_spec_get sp k : sim s' (spec_get sp k) (spec_get sp k).
  Proof. intro st. unfold spec_get. destruct (sget k sp); reflexivity. Qed.
  Lemma sim_get_dec k : sim s' (get_dec k) (get_dec k).
  Proof. intro st. unfold get_dec. destruct (sget k (d_dec st)); reflexivity. Qed.
  Lemma sim_get_enc k : sim s' (get_enc k) (get_enc k).
  Proof. intro st. unfold get_enc. destruct (sget k (d_enc st)); reflexivity. Qed.
  Lemma sim_set_dec k v : sim s' (set_dec k v) (set_dec k v).
  Proof. intro st. reflexivity. Qed.
  Lemma sim_set_enc k v : sim s' (set_enc k v) (set_enc k v).
  Proof. intro st. reflexivity. Qed.
  Lemma sim_set_enc_data k v : sim s' (set_enc_data k v) (set_enc_data k v).
  Proof. apply sim_bind; [apply sim_get_enc|intro; apply sim_set_enc]. Qed.
  Create HintDb simdb.
  Hint Resolve sim_ret sim_draise sim_prop sim_spec_get sim_get_dec sim_get_enc sim_set_dec sim_set_enc sim_set_enc_data : simdb.
  Ltac sim_step :=
    match goal with
    | |- forall _, _ => intro
    | |- sim _ (bind _ _) (bind _ _) => apply sim_bind
    | |- sim _ (formatted _ _ _) _ => apply sim_formatted
    | |- sim _ (if ?b then _ else _) _ => destruct b
    | |- sim _ (match ?b with _ => _ end) _ => destruct b
    | |- sim _ (let _ := _ in _) _ => cbv zeta
    | _ => now auto with simdb
    end.
  Ltac sim_all := repeat sim_step.

  Lemma sim_text E data idx k fs : sim s' (decode_text_data E s data idx k fs) (decode_text_data E s' data idx k fs).
  Proof. unfold decode_text_data. sim_all. Qed.
  Lemma sim_pad E idx k fs n : sim s' (remove_pad_field E s idx k fs n) (remove_pad_field E s' idx k fs n).
  Proof. unfold remove_pad_field. sim_all. Qed.
  Hint Resolve sim_text sim_pad : simdb.
  Lemma sim_length E idx k fs lt lc : sim s' (decode_length E s idx k fs lt lc) (decode_length E s' idx k fs lt lc).
  Proof. unfold decode_length. rewrite <- same. sim_all. Qed.
  Hint Resolve sim_length : simdb.
  Lemma sim_field E idx k fs : sim s' (decode_field E s idx k fs) (decode_field E s' idx k fs).
  Proof. unfold decode_field. rewrite <- same. sim_all. Qed.
  Hint Resolve sim_field : simdb.
  Lemma sim_header E idx sp : sim s' (decode_header E s idx sp) (decode_header E s' idx sp).
  Proof. unfold decode_header. sim_all. Qed.
  Lemma sim_type E idx sp : sim s' (decode_type E s idx sp) (decode_type E s' idx sp).
  Proof. unfold decode_type. rewrite <- same. sim_all. Qed.
  Lemma sim_bitmap E idx k fs off ext F : sim s' (decode_bitmap E s idx k fs off ext F) (decode_bitmap E s' idx k fs off ext F).
  Proof. unfold decode_bitmap. rewrite <- same. sim_all. Qed.
  Lemma sim_fields E sp F : forall idx f, sim s' (decode_fields E s idx sp F f) (decode_fields E s' idx sp F f).
  Proof. induction F as [|g F IH]; intros idx f; cbn [decode_fields]; sim_all. Qed.
  Hint Resolve sim_header sim_type sim_bitmap sim_fields : simdb.
  Lemma sim_body E sp : sim s' (decode_body E s sp) (decode_body E s' sp).
  Proof. unfold decode_body. rewrite <- same. sim_all. Qed.
End Sim.

Lemma decode_retag E sp s s' b : holds s b -> holds s' b -> decode E s' sp = retag s' (decode E s sp).
Proof.
  intros Hs Hs'. rewrite (decode_eq _ _ _ _ Hs), (decode_eq _ _ _ _ Hs').
  assert (same : buf_bytes s = buf_bytes s') by now rewrite (holds_buf _ _ Hs), (holds_buf _ _ Hs').
  rewrite (sim_body s s' same E sp). destruct (decode_body E s sp (mkD [] [])) as [[y|y] st]; reflexivity.
Qed.

(** C15, C37: each decoded segment obeys its spec entry. *)
Lemma decode_segments E sp s b dec enc : holds s b -> decode E s sp = Ok (dec, enc) ->
  exists segs, dec = dec_of segs /\ enc = enc_of segs /\ Forall (segment_ok E sp) segs.
Proof. intros Hs H. apply (decode_sound _ _ _ _ _ _ Hs) in H as (segs & _ & H2 & H3 & _ & H5 & _). eauto. Qed.

Lemma decode_entry E sp s b dec enc k e : holds s b -> decode E s sp = Ok (dec, enc) -> sget k enc = Some e ->
  exists t, sget k dec = Some t /\ segment_ok E sp (mkSeg k (e_len e) (e_data e) t).
Proof.
  intros Hs H Hk. apply (decode_sound _ _ _ _ _ _ Hs) in H as (segs & _ & -> & -> & Hn & Hok & _).
  apply (dget_in str_eqb str_eqb_spec) in Hk. apply in_map_iff in Hk as (sg & Hsg & Hi). injection Hsg as <- <-.
  exists (sg_text sg). split; [now apply sget_dec|]. rewrite Forall_forall in Hok. apply Hok in Hi.
  now rewrite seg_eta.
Qed.

Lemma decode_field_entry E sp s b dec enc k e : holds s b -> decode E s sp = Ok (dec, enc) -> sget k enc = Some e ->
  k <> u "t" -> k <> u "p" -> k <> u "1" ->
  exists fs t, sget k sp = Some fs /\ sget k dec = Some t /\ field_wire E fs (e_len e) (e_data e) t.
Proof.
  intros Hs H Hk H1 H2 H3. destruct (decode_entry _ _ _ _ _ _ _ _ Hs H Hk) as (t & Ht & Hok).
  inversion Hok as [(fs & _ & Hx & _)|fs [Hx|Hx] _ _ _|_ _ _ (fs & Hsp & Hw)]; cbn [sg_key sg_len sg_data sg_text] in *;
    try congruence. eauto.
Qed.

Lemma decode_limits E sp s b dec enc k e : holds s b -> decode E s sp = Ok (dec, enc) -> sget k enc = Some e ->
  k <> u "t" -> k <> u "p" -> k <> u "1" ->
  exists fs n ml lt, sget k sp = Some fs /\ fs_max_len fs = Some ml /\ fs_len_type fs = Some (Z.of_nat lt)
    /\ length (e_len e) = lt /\ (if (lt =? 0)%nat then n = ml else n <= ml)%Z /\ occupies fs n (zlen (e_data e))
    /\ announces E fs (e_len e) n.
Proof.
  intros Hs H Hk H1 H2 H3. destruct (decode_field_entry _ _ _ _ _ _ _ _ Hs H Hk H1 H2 H3) as (fs & t & Hsp & _ & n & Ha & Ho & _).
  exists fs, n. destruct Ha as [Hl Hb Hm|lt le ml Hl Hlt Hb He Hp Hm Hle].
  - exists n, O. refine (conj Hsp (conj Hm (conj Hl (conj _ (conj _ (conj Ho _)))))); [now rewrite Hb|reflexivity|now constructor].
  - exists ml, lt. destruct (Nat.eqb_spec lt 0); [congruence|].
    refine (conj Hsp (conj Hm (conj Hl (conj Hb (conj Hle (conj Ho _)))))). eapply AnnouncesVariable; eauto.
Qed.

Lemma bitmap_run_binary E fs de d t : fs_data_enc fs = Some de -> is_binary de -> bitmap_run E fs d t -> t = HEX d.
Proof.
  intros Hde Hb H. assert (Hone : forall d t bm, bitmap_wire E fs d t bm -> t = HEX d).
  { intros ? ? ? [de' _ _ _ -> ->|de' Hd Hn]; [reflexivity|]. congruence. }
  induction H as [d t bm Hw|d1 t1 d2 t2 bm H IH Hw]; [eauto|].
  apply Hone in Hw. subst. unfold HEX. now rewrite flat_map_app.
Qed.

(** The value of a binary field: canonical hex, less one pad nibble. *)
Lemma decode_binary_hex E sp s b dec enc k e fs de t : holds s b -> decode E s sp = Ok (dec, enc) ->
  sget k enc = Some e -> sget k dec = Some t -> sget k sp = Some fs -> fs_data_enc fs = Some de -> is_binary de ->
  t = HEX (e_data e)
  \/ in_nibbles fs = true /\ length t = (2 * length (e_data e) - 1)%nat
     /\ exists c, HEX (e_data e) = c :: t \/ HEX (e_data e) = t ++ [c].
Proof.
  intros Hs H Hk Ht Hsp Hde Hb. destruct (decode_entry _ _ _ _ _ _ _ _ Hs H Hk) as (t' & Ht' & Hok).
  rewrite Ht in Ht'. injection Ht' as <-.
  inversion Hok as [(fs' & Hsp' & Hx & _ & Hw)|fs' Hx _ Hsp' Hrun|_ _ _ (fs' & Hsp' & n & Ha & Ho & Hc)];
    cbn [sg_key sg_len sg_data sg_text] in *.
  - subst k. rewrite Hsp in Hsp'. injection Hsp' as <-. left. destruct Hw as [|]; [assumption|congruence].
  - rewrite Hsp in Hsp'. injection Hsp' as <-. left. eapply bitmap_run_binary; eauto.
  - rewrite Hsp in Hsp'. injection Hsp' as <-.
    destruct Hc as [Hn ->|de' Hn Hd _ Hod ->|de' Hn Hd _ Hod Hp|de' Hn Hd Hnb]; [| |right|congruence].
    + left. subst n. unfold occupies in Ho. assert (e_data e = []) as ->; [|reflexivity].
      apply zlen_zero. destruct (in_nibbles fs); lia.
    + now left.
    + apply andb_true_iff in Hod as [Hnib _]. split; [assumption|].
      assert (Hlen : length (HEX (e_data e)) = (2 * length (e_data e))%nat) by (rewrite HEX_eq; apply py_HEX_length).
      destruct Hp as [(c & _ & Hp)|[_ (c & _ & Hp)]]; rewrite Hp in Hlen |- *.
      * cbn [length] in Hlen. split; [lia|eauto].
      * rewrite app_length in Hlen. cbn [length] in Hlen. split; [lia|eauto].
Qed.

(** C35, decoder half. *)
Lemma decode_header_iff E sp s b dec enc : holds s b -> bitmaps_fit E sp -> decode E s sp = Ok (dec, enc) ->
  forall fs ml, sget (u "h") sp = Some fs -> fs_max_len fs = Some ml ->
  (In (u "h") (map fst enc) <-> (0 < ml)%Z).
Proof.
  intros Hs Hfit H fs ml Hsp Hml. destruct (decode_keys _ _ _ _ _ _ Hfit Hs H) as (bm1 & bm2 & bm3 & tp & _ & _ & _ & Hk & _).
  destruct (decode_accounts _ _ _ _ _ _ Hs H) as (_ & <- & _). rewrite Hk. split.
  - intros [(_ & fs' & ml' & H1 & H2 & H3)|[Hx|[Hx|[[Hx _]|(f & Hx & Hr & _)]]]]; try discriminate.
    + rewrite Hsp in H1. injection H1 as <-. rewrite Hml in H2. injection H2 as <-. assumption.
    + symmetry in Hx. apply zstr_neq_h in Hx; [contradiction|lia].
  - intro Hp. left. split; eauto.
Qed.

(** C33 *)
Lemma hexval_upper_char c : hexval (upper_char c) = hexval c.
Proof.
  unfold upper_char, hexval. destruct ((97 <=? c) && (c <=? 122))%N eqn:E1; [|reflexivity].
  destruct ((48 <=? c) && (c <=? 57))%N eqn:E2; [lia|].
  destruct ((48 <=? c - 32) && (c - 32 <=? 57))%N eqn:E3; [lia|].
  destruct ((97 <=? c - 32) && (c - 32 <=? 102))%N eqn:E4; [lia|].
  destruct ((65 <=? c - 32) && (c - 32 <=? 70))%N eqn:E5; destruct ((97 <=? c) && (c <=? 102))%N eqn:E6; try lia.
  - f_equal. lia.
  - destruct ((65 <=? c) && (c <=? 70))%N eqn:E7; [lia|reflexivity].
Qed.
Lemma c_space_upper c : c_space (upper_char c) = c_space c.
Proof. unfold upper_char, c_space. destruct ((97 <=? c) && (c <=? 122))%N eqn:E1; lia. Qed.
Lemma fromhex_upper t : fromhex (py_upper t) = fromhex t.
Proof.
  unfold py_upper. remember (length t) as n eqn:Hn. assert (Hle : (length t <= n)%nat) by lia. clear Hn. revert t Hle.
  induction n as [|n IH]; intros t Hle; destruct t as [|c t]; try reflexivity; [simpl in Hle; lia|].
  cbn [map fromhex]. rewrite c_space_upper. destruct (c_space c); [apply IH; simpl in Hle; lia|].
  destruct t as [|d t]; [reflexivity|]. cbn [map]. rewrite !hexval_upper_char, IH; [reflexivity|simpl in *; lia].
Qed.
Lemma recased_wire E fs d d' t bm : recased E fs d d' -> bitmap_wire E fs d t bm ->
  exists t', bitmap_wire E fs d' t' bm /\ py_upper t' = py_upper t.
Proof.
  intros (de & u1 & u2 & Hde & Hnb & L1 & L2 & D1 & D2 & Hu) [de' H1 H2 _ _ _|de' H1 H2 H3 H4 H5]; [congruence|].
  assert (de' = de) by congruence. subst de'. rewrite D1 in H4. injection H4 as <-.
  exists u2. split; [|congruence]. eapply BitmapText; eauto. apply fromhex_spelling in H5. apply fromhex_spelling. now rewrite <- fromhex_upper, <- Hu, fromhex_upper.
Qed.
Lemma recased_run_len E fs d d' : recased_run E fs d d' ->
  length d = length d' /\ exists k, length d = (16 * k)%nat /\ (0 < k)%nat.
Proof.
  induction 1 as [d d' H|a a' d d' H [IH (k & Hk & Hp)] Hr].
  - destruct H as (? & ? & ? & _ & _ & H1 & H2 & _). split; [lia|]. exists 1%nat. lia.
  - destruct Hr as (? & ? & ? & _ & _ & H1 & H2 & _). rewrite !app_length. split; [lia|]. exists (S k). lia.
Qed.
Lemma recased_run_one E fs d d' : recased_run E fs d d' -> length d = 16%nat -> recased E fs d d'.
Proof.
  intros [a a' H|a a' b b' H Hr]; [auto|]. intro L. exfalso.
  apply recased_run_len in H as (_ & k & Hk & Hp). destruct Hr as (? & ? & ? & _ & _ & H1 & _).
  rewrite app_length in L. lia.
Qed.
Lemma recased_run_two E fs d2 d3 x : recased_run E fs (d2 ++ d3) x -> length d2 = 16%nat -> length d3 = 16%nat ->
  exists d2' d3', x = d2' ++ d3' /\ recased E fs d2 d2' /\ recased E fs d3 d3'.
Proof.
  intros H L2 L3. inversion H as [a a' Ho Ha Hx|a a' b b' Ho Hr Ha Hx]; subst.
  - destruct Ho as (? & ? & ? & _ & _ & H1 & _). rewrite app_length in H1. lia.
  - assert (length b = 16%nat) by (destruct Hr as (? & ? & ? & _ & _ & H1 & _); assumption).
    assert (length a = 16%nat) as La by (apply (f_equal (@length byte)) in Ha; rewrite !app_length in Ha; lia).
    apply app_len_inv in Ha as [-> ->]; [|lia]. exists a', b'. split; [reflexivity|]. split; [|assumption].
    now apply recased_run_one.
Qed.
Lemma bitmap_wire_text_len E fs d t bm d' : recased E fs d' d \/ recased E fs d d' -> bitmap_wire E fs d t bm -> length d = 16%nat.
Proof. intros [(? & ? & ? & _ & _ & H1 & H2 & _)|(? & ? & ? & _ & _ & H1 & H2 & _)] _; assumption. Qed.

Definition recased_seg (E : pyenv) (sp : spec) (x : segment) (e' : pystr * entry) : Prop :=
  recased_entry E sp (sg_key x, mkEntry (sg_len x) (sg_data x)) e'.

Lemma not_run_binary E fs de d d' : fs_data_enc fs = Some de -> is_binary de -> ~ recased_run E fs d d'.
Proof.
  intros Hde Hb H. induction H as [d d' (de' & ? & ? & H1 & H2 & _)|a a' d d' H IH _]; [congruence|assumption].
Qed.

Lemma recased_plain E sp sg e' : recased_seg E sp sg e' -> sg_key sg <> u "p" -> sg_key sg <> u "1" ->
  e' = (sg_key sg, mkEntry (sg_len sg) (sg_data sg)).
Proof. destruct e' as [k' e']. intros [H1 [H2|([H|H] & _)]] Hp Hx; cbn in *; congruence. Qed.

Lemma recased_plain_list E sp segs : forall enc', Forall2 (recased_seg E sp) segs enc' ->
  (forall sg, In sg segs -> sg_key sg <> u "p" /\ sg_key sg <> u "1") -> enc' = enc_of segs.
Proof.
  induction segs as [|sg segs IH]; intros enc' H Hk; inversion H as [|? e' ? enc1 H1 H2]; subst; [reflexivity|].
  cbn. destruct (Hk sg (or_introl eq_refl)) as [Hp Hx]. rewrite (recased_plain _ _ _ _ H1 Hp Hx). f_equal.
  apply IH; [assumption|]. intros; apply Hk; now right.
Qed.

Lemma primary_recased E sp p bm e' : primary_part E sp p bm -> recased_seg E sp p e' ->
  exists p', primary_part E sp p' bm /\ (sg_key p', mkEntry (sg_len p') (sg_data p')) = e'.
Proof.
  destruct e' as [k' [l' d']]. intros (fs & Hsp & Hk & Hl & Hw) [H1 [H2|(_ & H2 & fs' & Hsp' & Hr)]]; cbn [fst snd e_len e_data] in *.
  - subst k'. injection H2 as <- <-. exists p. split; [|reflexivity]. exists fs. auto.
  - subst k'. rewrite Hk, Hsp in Hsp'. injection Hsp' as <-.
    assert (Hr' : recased E fs (sg_data p) d').
    { apply recased_run_one; [assumption|]. destruct Hw as [de H3 H4 _ _ _|]; [|assumption].
      exfalso. eapply not_run_binary; eauto. }
    destruct (recased_wire _ _ _ _ _ _ Hr' Hw) as (t' & Hw' & _).
    exists (mkSeg (u "p") [] d' t'). split.
    + exists fs. cbn. auto.
    + cbn. rewrite Hk, <- H2, Hl. reflexivity.
Qed.
Lemma extra_recased E sp bm1 xs bm2 bm3 enc' : extra_part E sp bm1 xs bm2 bm3 ->
  Forall2 (recased_seg E sp) xs enc' -> exists xs', extra_part E sp bm1 xs' bm2 bm3 /\ enc_of xs' = enc'.
Proof.
  intros Hx H. destruct Hx as [Hb|fs sg bm2 Hb Hsp Hk Hl Hw Hb2|fs sg d2 t2 bm2 d3 t3 bm3 Hb Hsp Hk Hl Hd Ht Hw2 Hw3 Hb2].
  - inversion H; subst. exists []. split; [now constructor|reflexivity].
  - inversion H as [|? [k' [l' d']] ? ? [H1 [H2|(_ & H2 & fs' & Hsp' & Hr)]] Hnil]; subst; inversion Hnil; subst; cbn [fst snd e_len e_data] in *; subst k'.
    + injection H2 as <- <-. exists [sg]. split; [econstructor; eauto|reflexivity].
    + rewrite Hk, Hsp in Hsp'. injection Hsp' as <-.
      assert (Hr' : recased E fs (sg_data sg) d').
      { apply recased_run_one; [assumption|]. destruct Hw as [de H3 H4 _ _ _|]; [|assumption].
        exfalso. eapply not_run_binary; eauto. }
      destruct (recased_wire _ _ _ _ _ _ Hr' Hw) as (t' & Hw' & _).
      exists [mkSeg (u "1") [] d' t']. split; [econstructor; eauto; reflexivity|]. cbn. rewrite Hk, <- H2, Hl. reflexivity.
  - inversion H as [|? [k' [l' d']] ? ? [H1 [H2|(_ & H2 & fs' & Hsp' & Hr)]] Hnil]; subst; inversion Hnil; subst; cbn [fst snd e_len e_data] in *; subst k'.
    + injection H2 as <- <-. exists [sg]. split; [eapply Tertiary with (d2:=d2) (d3:=d3); eauto|reflexivity].
    + rewrite Hk, Hsp in Hsp'. injection Hsp' as <-. rewrite Hd in Hr.
      assert (HL : forall d t bm, bitmap_wire E fs d t bm -> length d = 16%nat).
      { intros d t bm [de H3 H4 _ _ _|]; [|assumption]. exfalso. eapply not_run_binary; eauto. }
      apply recased_run_two in Hr as (d2' & d3' & -> & R2 & R3); [|eauto|eauto].
      destruct (recased_wire _ _ _ _ _ _ R2 Hw2) as (t2' & Hw2' & _).
      destruct (recased_wire _ _ _ _ _ _ R3 Hw3) as (t3' & Hw3' & _).
      exists [mkSeg (u "1") [] (d2' ++ d3') (t2' ++ t3')].
      split; [eapply Tertiary with (d2:=d2') (d3:=d3'); eauto; reflexivity|]. cbn. rewrite Hk, <- H2, Hl. reflexivity.
Qed.

Lemma header_keys E sp hs sg : header_part E sp hs -> In sg hs -> sg_key sg = u "h".
Proof. intros [|fs ml sg' _ _ _ Hk _] Hi; [destruct Hi|]. destruct Hi as [<-|[]]. assumption. Qed.
Lemma fields_keys E sp bm1 bm2 bm3 fields sg : fields_part E sp bm1 bm2 bm3 fields -> In sg fields ->
  exists f, sg_key sg = zstr f /\ (2 <= f <= 64 \/ 66 <= f <= 192)%Z.
Proof.
  intros [Hf _] Hi. apply (in_map sg_key) in Hi. rewrite Hf in Hi. apply in_map_iff in Hi as (f & Hk & Hi).
  apply filter_In in Hi as [Hi _]. exists f. rewrite <- data_fields_in. auto.
Qed.

Lemma enc_of_forall2 E sp segs enc' : Forall2 (recased_entry E sp) (enc_of segs) enc' -> Forall2 (recased_seg E sp) segs enc'.
Proof.
  revert enc'. induction segs as [|sg segs IH]; intros enc' H; inversion H; subst; constructor; auto.
Qed.

Lemma decode_recased E sp s b s' dec enc enc' : bitmaps_fit E sp -> holds s b -> decode E s sp = Ok (dec, enc) ->
  Forall2 (recased_entry E sp) enc enc' -> holds s' (wire_bytes enc') ->
  exists dec', decode E s' sp = Ok (dec', enc')
    /\ forall k, k <> u "p" -> k <> u "1" -> sget k dec' = sget k dec.
Proof.
  intros Hfit Hs H Hr Hs'. apply (decode_sound _ _ _ _ _ _ Hs) in H as (segs & _ & -> & -> & _ & _ & Hm).
  destruct (Hm Hfit) as (hs & t & p & xs & fields & bm1 & bm2 & bm3 & -> & Hh & Ht & Hp & Hx & Hf). clear Hm.
  apply enc_of_forall2 in Hr.
  apply Forall2_app_inv_l in Hr as (eh & er & Rh & Rr & ->).
  inversion Rr as [|? et ? er1 Rt Rr1]; subst. inversion Rr1 as [|? ep ? er2 Rp Rr2]; subst.
  apply Forall2_app_inv_l in Rr2 as (ex & ef & Rx & Rf & ->).
  assert (eh = enc_of hs) as ->.
  { eapply recased_plain_list; eauto. intros sg Hi. rewrite (header_keys _ _ _ _ Hh Hi). split; discriminate. }
  assert (ef = enc_of fields) as ->.
  { eapply recased_plain_list; eauto. intros sg Hi. destruct (fields_keys _ _ _ _ _ _ _ Hf Hi) as (f & -> & Hrg).
    split; [apply zstr_neq_p|apply zstr_neq_1]; lia. }
  assert (Htk : sg_key t = u "t") by (destruct Ht as (? & _ & ? & _); assumption).
  assert (et = (sg_key t, mkEntry (sg_len t) (sg_data t))) as ->.
  { eapply recased_plain; eauto; rewrite Htk; discriminate. }
  destruct (primary_recased _ _ _ _ _ Hp Rp) as (p' & Hp' & <-).
  destruct (extra_recased _ _ _ _ _ _ _ Hx Rx) as (xs' & Hx' & <-).
  set (segs' := hs ++ t :: p' :: xs' ++ fields).
  assert (He : enc_of hs ++ (sg_key t, mkEntry (sg_len t) (sg_data t))
     :: (sg_key p', mkEntry (sg_len p') (sg_data p')) :: enc_of xs' ++ enc_of fields = enc_of segs').
  { unfold segs'. rewrite enc_of_app. cbn. now rewrite enc_of_app. }
  rewrite He in *. exists (dec_of segs'). split.
  - apply (decode_iff E sp s' _ _ _ Hfit Hs'). exists segs'. split; [|now rewrite wire_bytes_enc].
    exists hs, t, p', xs', fields, bm1, bm2, bm3. split; [reflexivity|]. auto.
  - intros k Hkp Hk1. unfold segs'. rewrite !dec_of_app. unfold sget. rewrite !(dget_app str_eqb).
    destruct (dget str_eqb k (dec_of hs)); [reflexivity|].
    cbn [dec_of map dget]. destruct (str_eqb k (sg_key t)); [reflexivity|].
    destruct Hp as (_ & _ & Hpk & _). destruct Hp' as (_ & _ & Hpk' & _). rewrite Hpk, Hpk'.
    rewrite (proj2 (str_eqb_neq k (u "p")) Hkp).
    assert (Hxk : forall l, (exists bmx bmy, extra_part E sp bm1 l bmx bmy) -> dget str_eqb k (dec_of l) = None).
    { intros l (? & ? & Hl). destruct Hl as [|? sg ? _ _ Hk _ _ _|? sg ? ? ? ? ? ? _ _ Hk _ _ _ _ _ _]; cbn; [reflexivity| |];
        rewrite Hk, (proj2 (str_eqb_neq k (u "1")) Hk1); reflexivity. }
    fold (dec_of (xs ++ fields)). fold (dec_of (xs' ++ fields)). rewrite !dec_of_app, !(dget_app str_eqb).
    rewrite (Hxk xs), (Hxk xs') by eauto. reflexivity.
Qed.

(** Codecs that never decode to more characters than bytes. *)
Lemma fit_of_shrink E sp : (forall enc, never_expands E enc) -> bitmaps_fit E sp.
Proof.
  intros H k fs data text bm _ _ [de _ _ Hl _ ->|de _ _ Hl Hd Hf]; [lia|].
  apply H in Hd. apply fromhex_spelling, fromhex_length in Hf. lia.
Qed.

Lemma retag_form s' r : forall (x : exn), r = retag_exn s' x -> forall e, r = XDecodeError e ->
  e = DecodeError (de_msg e) s' (de_doc_dec e) (de_doc_enc e) (de_pos e) (de_field e).
Proof. intros x -> e. destruct x; try discriminate. intros [= <-]. reflexivity. Qed.

Lemma decode_bytes_bytearray E sp b :
  match decode E (InBytes b) sp, decode E (InBytearray b) sp with
  | Ok r, Ok r' => r = r'
  | Raise (XDecodeError e), Raise (XDecodeError e') =>
      de_msg e = de_msg e' /\ de_args0 e = de_args0 e' /\ de_pos e = de_pos e' /\ de_field e = de_field e'
      /\ de_doc_dec e = de_doc_dec e' /\ de_doc_enc e = de_doc_enc e'
      /\ de_s e = InBytes b /\ de_s e' = InBytearray b
  | Raise x, Raise x' => x = x'
  | _, _ => False
  end.
Proof.
  pose proof (decode_retag E sp (InBytes b) (InBytearray b) b (or_introl eq_refl) (or_intror eq_refl)) as H.
  pose proof (decode_retag E sp (InBytearray b) (InBytes b) b (or_intror eq_refl) (or_introl eq_refl)) as H'.
  destruct (decode E (InBytes b) sp) as [r|x]; destruct (decode E (InBytearray b) sp) as [r'|x'];
    cbn [retag] in *; try discriminate; [congruence|].
  injection H as ->. injection H' as H'. destruct x as [e| | | | |]; try reflexivity.
  cbn [retag_exn] in *. injection H' as He. cbn [de_msg de_args0 de_pos de_field de_doc_dec de_doc_enc de_s DecodeError].
  repeat split; try reflexivity; rewrite He; reflexivity.
Qed.
Lemma decode_other E cls sp : decode E (InOther cls) sp =
  Raise (XTypeError (u "Encoded ISO8583 data must be bytes or bytearray, not " ++ cls)).
Proof. reflexivity. Qed.
