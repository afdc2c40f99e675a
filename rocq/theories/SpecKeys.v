(** * SpecKeys: the dicts built by decode and encode have only keys of the spec, so
    that pp can print them. *)
From Coq Require Import ZifyBool ZifyNat ZifyN.
From Verif Require Import PyBase BaseFacts Types Numerals NumeralFacts Decoder Encoder Tools Wire WireEncode Claims Claims2 Pretty.
From Verif Require Import DecoderFacts EncoderFacts EncodeRun EncodeWhole EncodeTheorems EncodeTheorems2 Roundtrip Shipped PrettyFacts PrettyFacts2.
Local Opaque data_fields.

Section Invariant.
  Context {S : Type} (inv : S -> Prop) (says : exn -> S -> Prop).
  (** [m] keeps [inv], and the errors it raises show the state. *)
  Definition safe {A} (m : M exn S A) : Prop := forall st r st1, m st = (r, st1) -> inv st ->
    inv st1 /\ match r with Ok _ => True | Raise x => says x st1 end.
  Lemma safe_bind {A B} (m : M exn S A) (f : A -> M exn S B) : safe m -> (forall a, safe (f a)) -> safe (bind m f).
  Proof.
    intros Hm Hf st r st1. unfold bind. destruct (m st) as [[a|x] st2] eqn:H; intros H1 Hi.
    - apply (Hf a st2); [assumption|]. eapply Hm; eauto.
    - injection H1 as <- <-. exact (Hm _ _ _ H Hi).
  Qed.
  Lemma safe_ret {A} (a : A) : safe (ret a).
  Proof. intros st r st1 [= <- <-]. auto. Qed.
  Lemma safe_raise {A} x : (forall st, says x st) -> safe (@raise exn S A x).
  Proof. intros H st r st1 [= <- <-]. auto. Qed.
  Lemma safe_prop {A} (o : option A) n : (forall st, says (XKeyError n) st) -> safe (prop o n).
  Proof. intro H. destruct o; [apply safe_ret|now apply safe_raise]. Qed.
  Lemma safe_spec {A} sp k (f : fspec -> M exn S A) : (forall n st, says (XKeyError n) st) ->
    (forall fs, sget k sp = Some fs -> safe (f fs)) -> safe (bind (spec_get sp k) f).
  Proof.
    intros Hy H st r st1. unfold bind, spec_get. destruct (sget k sp) as [fs|]; cbv [ret raise].
    - now apply H.
    - intros [= <- <-] Hi. split; [assumption|apply Hy].
  Qed.
End Invariant.
Create HintDb safe.
Ltac safe_step :=
  match goal with
  | |- safe _ _ (bind (spec_get _ _) _) => apply safe_spec; [intros; exact I|intros ? ?]
  | |- safe _ _ (bind _ _) => apply safe_bind; [|intro]
  | |- safe _ _ (if ?b then _ else _) => destruct b
  | |- safe _ _ (match ?x with _ => _ end) => destruct x
  | |- safe _ _ (let x := _ in _) => cbv zeta
  | |- _ => solve [eauto with safe]
  end.
Global Hint Resolve safe_ret safe_raise safe_prop : safe.

(** ** decode *)
Section DecodeKeys.
  Variables (E : pyenv) (P : pystr -> Prop).
  Definition dinv (st : dstate) : Prop := Forall P (map fst (d_dec st)) /\ Forall P (map fst (d_enc st)).
  Definition dsays (x : exn) (st : dstate) : Prop :=
    match x with XDecodeError e => de_doc_dec e = d_dec st /\ de_doc_enc e = d_enc st
      /\ e = DecodeError (de_msg e) (de_s e) (de_doc_dec e) (de_doc_enc e) (de_pos e) (de_field e) | _ => True end.
  Notation ok := (safe dinv dsays).
  Lemma forall_sset {V} k (v : V) d : P k -> Forall P (map fst d) -> Forall P (map fst (sset k v d)).
  Proof.
    intros Hk H. apply Forall_forall. intros x Hx. apply (in_dset_keys str_eqb str_eqb_spec) in Hx as [->|Hx]; [assumption|].
    rewrite Forall_forall in H. auto.
  Qed.
  Lemma safe_draise {A} s m i k : ok (@draise A s m i k).
  Proof. intros st r st1 [= <- <-] H. repeat split; apply H. Qed.
  Lemma safe_formatted {A} F ns s m i k : ok (formatted F ns (@draise A s m i k)).
  Proof. unfold formatted. destruct (forallb _ _); [apply safe_draise|]. intros st r st1 [= <- <-] H. split; [assumption|exact I]. Qed.
  Lemma safe_set_dec k v : P k -> ok (set_dec k v).
  Proof. intros Hk st r st1 [= <- <-] [H1 H2]. split; [split; [now apply forall_sset|assumption]|exact I]. Qed.
  Lemma safe_set_enc k v : P k -> ok (set_enc k v).
  Proof. intros Hk st r st1 [= <- <-] [H1 H2]. split; [split; [assumption|now apply forall_sset]|exact I]. Qed.
  Lemma safe_get_dec k : ok (get_dec k).
  Proof. intros st r st1. unfold get_dec. destruct (sget k (d_dec st)); intros [= <- <-] H; split; auto; exact I. Qed.
  Lemma safe_get_enc k : ok (get_enc k).
  Proof. intros st r st1. unfold get_enc. destruct (sget k (d_enc st)); intros [= <- <-] H; split; auto; exact I. Qed.
End DecodeKeys.
Global Hint Extern 1 (forall st, dsays _ st) => (intro; exact I) : safe.
Global Hint Resolve safe_draise safe_formatted safe_set_dec safe_set_enc safe_get_dec safe_get_enc : safe.
Section DecodeKeys2.
  Variables (E : pyenv) (sp : spec).
  Notation specified := (specified sp).
  Notation ok := (safe (dinv specified) dsays).
  Lemma safe_set_enc_data k b : specified k -> ok (set_enc_data k b).
  Proof. intro H. unfold set_enc_data. repeat safe_step. Qed.
  Lemma safe_text s d i k fs : ok (decode_text_data E s d i k fs).
  Proof. unfold decode_text_data. repeat safe_step. Qed.
  Lemma safe_pad s i k fs n : ok (remove_pad_field E s i k fs n).
  Proof. unfold remove_pad_field. repeat safe_step. Qed.
  Lemma safe_length s i k fs lt c : ok (decode_length E s i k fs lt c).
  Proof. unfold decode_length. repeat safe_step. Qed.
  Hint Resolve safe_set_enc_data safe_text safe_pad safe_length : safe.
  Lemma safe_field s i k fs : specified k -> ok (decode_field E s i k fs).
  Proof. intro H. unfold decode_field. repeat safe_step. Qed.
  Lemma safe_bitmap s i k fs off x fl : specified k -> ok (decode_bitmap E s i k fs off x fl).
  Proof. intro H. unfold decode_bitmap. repeat safe_step. Qed.
  Hint Resolve safe_field safe_bitmap : safe.
  Hint Unfold Claims2.specified : safe.
  Lemma safe_fields s l : forall i k, ok (decode_fields E s i sp l k).
  Proof. induction l as [|f l IH]; intros i k; cbn [decode_fields]; repeat safe_step. Qed.
  Hint Resolve safe_fields : safe.
  Lemma safe_body s : ok (decode_body E s sp).
  Proof. unfold decode_body, decode_header, decode_type. repeat safe_step. Qed.
End DecodeKeys2.

(** ** encode *)
Section EncodeKeys.
  Variables (E : pyenv) (sp : spec).
  Notation P := (specified sp).
  Definition einv (st : estate) : Prop := Forall P (map fst (s_enc st)).
  Definition esays (x : exn) (st : estate) : Prop :=
    match x with XEncodeError e => ee_doc_enc e = s_enc st
      /\ e = EncodeError (ee_msg e) (ee_doc_dec e) (ee_doc_enc e) (ee_field e) | _ => True end.
  Notation ok := (safe einv esays).
  Lemma safe_eraise {A} m k : ok (@eraise A m k).
  Proof. intros st r st1 [= <- <-] H. repeat split; apply H. Qed.
  Lemma safe_eformatted {A} ns m k : ok (formatted E ns (@eraise A m k)).
  Proof. unfold formatted. destruct (forallb _ _); [apply safe_eraise|]. intros st r st1 [= <- <-] H. split; [assumption|exact I]. Qed.
  Lemma safe_eset_enc k v : P k -> ok (eset_enc k v).
  Proof. intros Hk st r st1 [= <- <-] H1. split; [now apply forall_sset|exact I]. Qed.
  Lemma safe_eset_dec k v : ok (eset_dec k v).
  Proof. intros st r st1 [= <- <-] H1. split; [assumption|exact I]. Qed.
  Lemma safe_epop k : ok (epop_dec k).
  Proof. intros st r st1 [= <- <-] H1. split; [assumption|exact I]. Qed.
  Lemma safe_eget_dec k : ok (eget_dec k).
  Proof. intros st r st1. unfold eget_dec. destruct (pget _ _); intros [= <- <-] H; split; auto; exact I. Qed.
  Lemma safe_eget_enc k : ok (eget_enc k).
  Proof. intros st r st1. unfold eget_enc. destruct (sget _ _); intros [= <- <-] H; split; auto; exact I. Qed.
  Lemma safe_eread : ok eread_dec.
  Proof. intros st r st1 [= <- <-] H. split; [assumption|exact I]. Qed.
  Hint Extern 1 (forall st, esays _ st) => (intro; exact I) : safe.
  Hint Resolve safe_eraise safe_eformatted safe_eset_enc safe_eset_dec safe_epop safe_eget_dec safe_eget_enc safe_eread : safe.
  Lemma safe_eset_enc_data k b : P k -> ok (eset_enc_data k b).
  Proof. intro H. unfold eset_enc_data. repeat safe_step. Qed.
  Lemma safe_eset_enc_len k b : P k -> ok (eset_enc_len k b).
  Proof. intro H. unfold eset_enc_len. repeat safe_step. Qed.
  Lemma safe_etext v k fs c : ok (encode_text_field E v k fs c).
  Proof. unfold encode_text_field. repeat safe_step. Qed.
  Lemma safe_hexfail {A} v k c : ok (@hex_failure A v k c).
  Proof. unfold hex_failure. repeat safe_step. Qed.
  Hint Resolve safe_eset_enc_data safe_eset_enc_len safe_etext safe_hexfail : safe.
  Lemma safe_ebin v k fs c : ok (encode_binary_field v k fs c).
  Proof. unfold encode_binary_field. repeat safe_step. Qed.
  Lemma safe_elength k fs lt n : P k -> ok (encode_length E k fs lt n).
  Proof. intro H. unfold encode_length. repeat safe_step. Qed.
  Hint Resolve safe_ebin safe_elength : safe.
  Lemma safe_efield k fs : P k -> ok (encode_field E k fs).
  Proof. intro H. unfold encode_field. repeat safe_step. Qed.
  Lemma safe_ebitmap k fs off x fl : P k -> ok (encode_bitmap E k fs off x fl).
  Proof. intro H. unfold encode_bitmap. repeat safe_step. Qed.
  Hint Resolve safe_efield safe_ebitmap : safe.
  Hint Unfold Claims2.specified : safe.
  Lemma safe_efields l : forall s, ok (encode_fields E sp l s).
  Proof. induction l as [|f l IH]; intros s; cbn [encode_fields]; repeat safe_step. Qed.
  Hint Resolve safe_efields : safe.
  Lemma safe_ebody : ok (encode_body E sp).
  Proof. unfold encode_body, encode_header, encode_type. repeat safe_step. Qed.
End EncodeKeys.

Section Results.
  Variables (E : pyenv) (sp : spec).
  Definition header_ready : Prop := exists fs ml, sget (u "h") sp = Some fs /\ fs_max_len fs = Some ml.
  (** The header is the first thing looked at. *)
  Lemma decode_header_ready s : match decode E s sp with
    | Ok _ | Raise (XDecodeError _) => header_ready | _ => True end.
  Proof.
    unfold decode. destruct s as [b|b|cls]; [| |exact I];
    (unfold decode_body, decode_header, spec_get, bind at 1 2;
     destruct (sget (u "h") sp) as [fs|] eqn:Hh; [|exact I]; cbv [ret];
     unfold bind at 1; destruct (fs_max_len fs) as [ml|] eqn:Hm; [|exact I]).
    all: match goal with |- match (match ?m with _ => _ end) with _ => _ end => destruct m as [[?|[]] ?] end;
      try exact I; exists fs, ml; auto.
  Qed.
  Lemma encode_header_ready doc : match fst (encode E doc sp) with
    | Ok _ | Raise (XEncodeError _) => header_ready | _ => True end.
  Proof.
    destruct doc as [d|cls]; [|exact I]. unfold encode.
    unfold encode_body. unfold bind at 1. unfold epop_dec at 1. unfold bind at 1. unfold epop_dec at 1. 
    unfold encode_header, spec_get, bind at 1 2;
     destruct (sget (u "h") sp) as [fs|] eqn:Hh; [|exact I]; cbv [ret];
     unfold bind at 1; destruct (fs_max_len fs) as [ml|] eqn:Hm; [|exact I].
    match goal with |- match fst (match ?m with _ => _ end) with _ => _ end => destruct m as [[?|[]] ?] end;
      try exact I; exists fs, ml; auto.
  Qed.
  Lemma decode_spec_keys s : match decode E s sp with
    | Ok (dec, enc) => Forall (specified sp) (map fst dec) /\ Forall (specified sp) (map fst enc)
    | Raise (XDecodeError e) => Forall (specified sp) (map fst (de_doc_dec e)) /\ Forall (specified sp) (map fst (de_doc_enc e))
    | _ => True end.
  Proof.
    unfold decode. destruct s as [b|b|cls]; [| |exact I].
    all: match goal with |- context [decode_body E ?b sp _] =>
           assert (Hi : dinv (specified sp) (mkD [] [])) by (split; constructor);
           destruct (decode_body E b sp (mkD [] [])) as [r st] eqn:H;
           destruct (safe_body E sp b _ _ _ H Hi) as [[H1 H2] H3] end.
    all: destruct r as [|[]]; try exact I; [now split|]; destruct H3 as (-> & -> & _); now split.
  Qed.
  Lemma encode_spec_keys doc : match fst (encode E doc sp) with
    | Ok (_, enc) => Forall (specified sp) (map fst enc)
    | Raise (XEncodeError e) => Forall (specified sp) (map fst (ee_doc_enc e))
    | _ => True end.
  Proof.
    destruct doc as [d|cls]; [|exact I]. unfold encode.
    destruct (encode_body E sp (mkE d [])) as [r st] eqn:H.
    assert (Hi : einv sp (mkE d [])) by constructor. destruct (safe_ebody E sp _ _ _ H Hi) as [H1 H3]. destruct r as [|[]]; try exact I; [assumption|]. cbn in *. now rewrite (proj1 H3).
  Qed.
  (** Every error is built by its constructor. *)
  Lemma decode_error_made s e : decode E s sp = Raise (XDecodeError e) ->
    e = DecodeError (de_msg e) (de_s e) (de_doc_dec e) (de_doc_enc e) (de_pos e) (de_field e).
  Proof.
    assert (Hi : dinv (specified sp) (mkD [] [])) by (split; constructor).
    unfold decode. destruct s as [b|b|cls]; [| |discriminate].
    all: match goal with |- context [decode_body E ?b sp _] =>
           destruct (decode_body E b sp (mkD [] [])) as [r st] eqn:H;
           destruct (safe_body E sp b _ _ _ H Hi) as [_ H3] end.
    all: destruct r as [|x]; [discriminate|]; intros [= ->]; apply H3.
  Qed.
  Lemma encode_error_made doc e d' : encode E doc sp = (Raise (XEncodeError e), d') ->
    e = EncodeError (ee_msg e) (ee_doc_dec e) (ee_doc_enc e) (ee_field e).
  Proof.
    destruct doc as [d|cls]; [|discriminate]. unfold encode. destruct (encode_body E sp (mkE d [])) as [r st] eqn:H.
    assert (Hi : einv sp (mkE d [])) by constructor. destruct (safe_ebody E sp _ _ _ H Hi) as [_ H3].
    destruct r as [|x]; [discriminate|]. intros [= -> _]. apply H3.
  Qed.
  Lemma ready_of_specified dw (d : ppdoc) : spec_described E sp -> header_ready ->
    (forall k, shows d k -> specified sp k) -> (forall k v l o, In (k, v) d -> parts_of v l o -> elements l <> None) -> pp_ready E sp dw d.
  Proof.
    intros Hd Hh Hk Hl. split; [auto|]. split.
    - intros k Hs Hn. destruct (Hk k Hs) as [fs Hf]. destruct (Hd k fs Hf) as [_ H]. auto.
    - intros k Hs _. split; [|intros v l o; now apply Hl]. intros _. destruct (Hk k Hs) as [fs Hf]. destruct (Hd k fs Hf) as [[desc H] _]. eauto.
  Qed.
  Lemma shows_dec dec k : shows (show_dec dec) k <-> In k (map fst dec).
  Proof.
    unfold shows, show_dec. rewrite map_map. cbn. rewrite !in_map_iff. split; intros [[k1 v] [H1 H2]]; exists (k1, v); cbn in *; split; congruence.
  Qed.
  Lemma shows_enc enc k : shows (show_enc enc) k <-> In k (map fst enc).
  Proof.
    unfold shows, show_enc. rewrite map_map. cbn. rewrite !in_map_iff. split; intros [[k1 v] [H1 H2]]; exists (k1, v); cbn in *; split; congruence.
  Qed.
  Lemma pp_dec dw lw dec : spec_described E sp -> header_ready -> Forall (specified sp) (map fst dec) ->
    exists out, pp E (show_dec dec) sp dw lw = (Ok tt, out).
  Proof.
    intros H1 H2 H3. apply ready_prints. apply ready_of_specified; auto.
    - intros k Hk. rewrite shows_dec in Hk. rewrite Forall_forall in H3. auto.
    - intros k v l o Hv Hp. apply in_map_iff in Hv as ([j s] & [= <- <-] & _). apply parts_shown in Hp as [-> _]. discriminate.
  Qed.
  Lemma pp_enc dw lw enc : spec_described E sp -> header_ready -> Forall (specified sp) (map fst enc) ->
    exists out, pp E (show_enc enc) sp dw lw = (Ok tt, out).
  Proof.
    intros H1 H2 H3. apply ready_prints. apply ready_of_specified; auto.
    - intros k Hk. rewrite shows_enc in Hk. rewrite Forall_forall in H3. auto.
    - intros k v l o Hv Hp. apply in_map_iff in Hv as ([j s] & [= <- <-] & _). apply parts_shown in Hp as [-> _]. discriminate.
  Qed.
  Lemma pp_after_decode s dw lw : spec_described E sp -> match decode E s sp with
    | Ok (dec, enc) => (exists out, pp E (show_dec dec) sp dw lw = (Ok tt, out))
                       /\ (exists out, pp E (show_enc enc) sp dw lw = (Ok tt, out))
    | Raise (XDecodeError e) => (exists out, pp E (show_dec (de_doc_dec e)) sp dw lw = (Ok tt, out))
                       /\ (exists out, pp E (show_enc (de_doc_enc e)) sp dw lw = (Ok tt, out))
    | _ => True end.
  Proof.
    intro H. generalize (decode_header_ready s) (decode_spec_keys s). destruct (decode E s sp) as [[dec enc]|[]]; auto.
    - intros H1 [H2 H3]. split; [now apply pp_dec|now apply pp_enc].
    - intros H1 [H2 H3]. split; [now apply pp_dec|now apply pp_enc].
  Qed.
  Lemma pp_after_encode doc dw lw : spec_described E sp -> match fst (encode E doc sp) with
    | Ok (_, enc) => exists out, pp E (show_enc enc) sp dw lw = (Ok tt, out)
    | Raise (XEncodeError e) => exists out, pp E (show_enc (ee_doc_enc e)) sp dw lw = (Ok tt, out)
    | _ => True end.
  Proof.
    intro H. generalize (encode_header_ready doc) (encode_spec_keys doc). destruct (fst (encode E doc sp)) as [[dec enc]|[]]; auto; intros; now apply pp_enc.
  Qed.
End Results.

(** After a successful encode, the caller's dict can be printed, too. *)
Lemma pp_after_encode_dict E sp d s enc d' dw lw : env_ok E -> spec_described E sp -> str_dict d -> canonical_keys E d ->
  encode E (ADict d) sp = (Ok (s, enc), d') -> forall reps, exists out, pp E (show_dict reps d') sp dw lw = (Ok tt, out).
Proof.
  intros HE Hs Hd Hc He reps. apply ready_prints.
  assert (Hh : header_ready sp). { pose proof (encode_header_ready E sp (ADict d)) as H. now rewrite He in H. }
  assert (Hsh : forall k, shows (show_dict reps d') k -> exists v, value d' k = Some v).
  { intros k Hk. unfold shows, show_dict in Hk. rewrite map_map in Hk. cbn in Hk.
    apply (dget_some_in key_eqb key_eqb_spec) in Hk as [v Hv]. eauto. }
  pose proof (proj1 (encode_ok E sp d s enc d' (proj1 Hd)) He) as (bm1 & bm2 & bm3 & Henc & _ & Hd').
  destruct (with_bitmaps_facts d bm1 bm2 bm3 (proj1 Hd)) as (_ & Vp & V1 & V65 & _). rewrite <- Hd' in Vp, V1, V65.
  assert (Hstr : forall k v, value d' k = Some v -> is_str v).
  { intros k v Hv. destruct (str_eqb_spec k (u "p")) as [-> |H1]; [rewrite Vp in Hv; injection Hv as <-; now eexists|].
    destruct (str_eqb_spec k (u "1")) as [-> |H2].
    { rewrite V1 in Hv. destruct (bit bm1 1); [injection Hv as <-; now eexists|discriminate]. }
    destruct (str_eqb_spec k (u "65")) as [-> |H3]; [congruence|].
    rewrite (value_kept d d' bm1 bm2 bm3 Hd Hd' k H1 H2 H3) in Hv. now apply str_dict_value in Hv. }
  assert (Hnum : forall k, shows (show_dict reps d') k -> isnumeric E k = true ->
            wire_key sp k /\ exists n, int_text E k n).
  { intros k Hk Hn. destruct (Hsh k Hk) as [v Hv].
    destruct (str_eqb_spec k (u "1")) as [-> |H2]; [split; [unfold wire_key; auto|]|].
    { exists 1%Z. apply (zstr_field E 1 HE). lia. }
    destruct (str_eqb_spec k (u "65")) as [-> |H3]; [congruence|].
    destruct (str_eqb_spec k (u "p")) as [-> |H1].
    { now rewrite (p_not_numeric E HE) in Hn. }
    rewrite (value_kept d d' bm1 bm2 bm3 Hd Hd' k H1 H2 H3) in Hv.
    assert (Hi : In (KStr k) (map fst d)) by (apply (dget_some_in key_eqb key_eqb_spec); eauto).
    destruct Henc as (Hko & _). destruct (Hko _ Hi) as (k1 & [= <-] & H). destruct (H H2 H3 Hn) as (f & Hf & Hr).
    assert (Hfd : has_field E d f) by (exists k; auto).
    assert (Hz : k = zstr f).
    { destruct (Hc k Hi Hn) as (Hl & m & Hm & ->). apply py_int_text in Hf. rewrite (py_int_digits E (zstr m) HE) in Hf; auto.
      - rewrite zstr_nonneg in Hf by assumption. destruct (dec_spec (Z.to_N m)) as (_ & Hv' & _). rewrite Hv' in Hf.
        injection Hf as Hf. f_equal. lia.
      - now apply zstr_digits.
      - destruct (dec_spec (Z.to_N m)) as (_ & _ & Hne & _). now rewrite zstr_nonneg. }
    split; [|eauto]. unfold wire_key. do 4 right. exists f. split; [|assumption]. unfold data_field.
    assert (f <> 1)%Z by (intros ->; now apply H2). assert (f <> 65)%Z by (intros ->; now apply H3). lia. }
  assert (Hspec : forall k, shows (show_dict reps d') k -> wire_key sp k -> exists fs desc, sget k sp = Some fs /\ fs_desc fs = Some desc).
  { intros k Hk Hw. destruct (Hsh k Hk) as [v Hv]. destruct (Hstr k v Hv) as [t ->].
    destruct (wire_specified E sp d s enc d' k t HE Hd He Hw Hv) as [fs Hf]. destruct (Hs k fs Hf) as [[desc Hdesc] _]. eauto. }
  split; [auto|]. split; [intros k H1 H2; now apply Hnum|].
  intros k H1 H2. split.
  2: { intros v l o Hv Hp. apply in_map_iff in Hv as ([j w] & [= -> <-] & _). apply parts_shown in Hp as [-> _]. cbn. destruct w; discriminate. }
  intros _. apply Hspec; [assumption|]. destruct H2 as [H2|[->|[->|(-> & fs & ml & Hm)]]].
  - now apply Hnum.
  - unfold wire_key. auto.
  - unfold wire_key. auto.
  - left. split; [reflexivity|]. now exists fs, ml.
Qed.
