(** * PrettySamples: consequences, examples and counterexamples about spec
    properties, pp and errors. *)
From Coq Require Import ZifyBool ZifyNat ZifyN.
From Verif Require Import PyBase BaseFacts Types Decoder Encoder Tools Wire WireEncode Claims Claims2 Pretty CPython311 Specs Samples.
From Verif Require Import CodecFacts EncoderFacts EncodeTheorems2 Roundtrip Shipped SampleFacts EncodeSamples DontCare PrettyFacts PrettyFacts2 SpecKeys.
Local Open Scope string_scope.
Local Opaque data_fields.

(** ** C22 *)
Lemma sget_respec f sp k : sget k (respec f sp) = option_map (f k) (sget k sp).
Proof.
  unfold sget, respec. induction sp as [|[k' fs] sp IH]; [reflexivity|]. cbn [map dget fst snd].
  destruct (str_eqb_spec k k') as [->|H]; [reflexivity|exact IH].
Qed.
Lemma respec_same f sp k : (forall k fs, same_entry k fs (f k fs)) -> same_for sp (respec f sp) k.
Proof. intro H. unfold same_for. rewrite sget_respec. destruct (sget k sp); cbn; auto. Qed.
Lemma respec_decode E s sp f : (forall k fs, same_entry k fs (f k fs)) -> decode E s (respec f sp) = decode E s sp.
Proof. intro H. apply decode_same; intros; now apply respec_same. Qed.
Lemma respec_encode E doc sp f : (forall k fs, same_entry k fs (f k fs)) -> encode E doc (respec f sp) = encode E doc sp.
Proof. intro H. apply encode_same; intros; now apply respec_same. Qed.
Lemma same_for_refl sp k : same_for sp sp k.
Proof.
  unfold same_for. destruct (sget k sp); [|exact I]. unfold same_entry. destruct (_ || _); [reflexivity|].
  left. apply same_field_refl.
Qed.
Lemma same_for_other sp k fs j : j <> k -> same_for sp (sset k fs sp) j.
Proof.
  intro H. pose proof (same_for_refl sp j) as R. unfold same_for in *. unfold sget, sset in *.
  rewrite (dget_dset_other str_eqb str_eqb_spec) by auto. exact R.
Qed.
Lemma absent_decode E s sp k fs : k <> u "h" -> ~ decode_mentions (decode E s sp) k ->
  decode E s (sset k fs sp) = decode E s sp.
Proof.
  intros Hh Hm. apply decode_same; [apply same_for_other; congruence|]. intros j Hj. apply same_for_other. intros ->. contradiction.
Qed.
Lemma absent_encode E doc sp k fs : k <> u "h" -> ~ encode_mentions (fst (encode E doc sp)) k ->
  encode E doc (sset k fs sp) = encode E doc sp.
Proof.
  intros Hh Hm. apply encode_same; [apply same_for_other; congruence|]. intros j Hj. apply same_for_other. intros ->. contradiction.
Qed.
(** A rewriting that uses all the freedom: new descriptions; the len_enc of fixed
    fields and the pads of fields that need none dropped; "bytes" written out. *)
Definition binaryb (fs : fspec) : bool := match fs_data_enc fs with Some de => str_eqb de (u "b") | None => false end.
Definition scrub (k : pystr) (fs : fspec) : fspec :=
  {| fs_data_enc := fs_data_enc fs;
     fs_len_enc := match fs_len_type fs with Some 0%Z => None | _ => fs_len_enc fs end;
     fs_len_type := fs_len_type fs; fs_max_len := fs_max_len fs;
     fs_len_count := Some (unit_name fs);
     fs_left_pad := if binaryb fs && in_nibbles fs then fs_left_pad fs else None;
     fs_right_pad := if binaryb fs && in_nibbles fs then fs_right_pad fs else None;
     fs_desc := Some k |}.
Lemma scrub_same k fs : same_entry k fs (scrub k fs).
Proof.
  unfold same_entry. destruct (_ || _); [reflexivity|]. left. repeat split; try reflexivity.
  - intros lt H Hz. cbn. rewrite H. now destruct lt.
  - cbn. unfold binaryb. now rewrite H, H0.
  - cbn. unfold binaryb. now rewrite H, H0.
Qed.
Lemma scrub_changes : respec scrub rich <> rich /\ respec scrub default <> default.
Proof. split; intro H; apply (f_equal (fun l => hd_error (map (fun kf => fs_desc (snd kf)) l))) in H; vm_compute in H; discriminate. Qed.
(** A field that is not in the message, with an entry that breaks the old one. *)
Lemma msg_rich_absent : u "4" <> u "h" /\ ~ decode_mentions (decode cpython311 (InBytes msg_rich) rich) (u "4")
  /\ exists r, decode cpython311 (InBytes msg_rich) rich = Ok r.
Proof.
  split; [discriminate|]. destruct (decode cpython311 (InBytes msg_rich) rich) as [[dec enc]|x] eqn:H; vm_compute in H; [|discriminate].
  split; [|eauto]. injection H as <- <-. cbn. intuition discriminate.
Qed.
(** Dropping a property that matters changes the result. *)
Lemma len_enc_matters : exists sp' x, sp' = respec (fun k fs => {| fs_data_enc := fs_data_enc fs; fs_len_enc := None;
    fs_len_type := fs_len_type fs; fs_max_len := fs_max_len fs; fs_len_count := fs_len_count fs;
    fs_left_pad := fs_left_pad fs; fs_right_pad := fs_right_pad fs; fs_desc := fs_desc fs |}) rich
  /\ decode cpython311 (InBytes msg_rich) sp' = Raise x.
Proof. eexists. eexists. split; [reflexivity|]. vm_compute. reflexivity. Qed.

(** ** pp *)
Definition pp_doc : list (pykey * ppval) :=
  [(KStr (u "t"), PStr (u "0200")); (KStr (u "35"), PBytes (asc "Y")); (KOther 7%N (u "7"), PStr (u "seven"));
   (KStr (u "2"), PDict (Some (OBytes (asc "10"))) (Some (OBytes (asc "AB'CDEFGHI")))); (KStr (u "bm"), PStr (u "none"));
   (KStr (u "h"), PStr (u "HD")); (KStr (u "p"), PStr (u "4000000000000000"))].
Definition lf : string := String (Ascii.ascii_of_nat 10) EmptyString.
Lemma pp_doc_printed : pp cpython311 pp_doc rich 6 30 = (Ok tt, u (
  "h   Messag: 'HD'" ++ lf ++
  "t   Messag: '0200'" ++ lf ++
  "p   Bitmap: '4000000000000000'" ++ lf ++
  "2   sample: b'10' b""AB'CDEFGH""" ++ lf ++
  "                  b'I'" ++ lf ++
  "35  sample: b'Y'" ++ lf)).
Proof. vm_compute. reflexivity. Qed.
Lemma pp_doc_keys : env_ok cpython311 /\ NoDup (map fst pp_doc)
  /\ forall k v, In (KStr k, v) pp_doc -> (length k <= 3)%nat.
Proof.
  split; [apply c311_env_ok|]. split; [apply nodup_keys_ok; vm_compute; reflexivity|].
  assert (H : forallb (fun kv => match fst kv with KStr k => (length k <=? 3)%nat | _ => true end) pp_doc = true) by (vm_compute; reflexivity).
  rewrite forallb_forall in H. intros k v Hk. apply H in Hk. now apply Nat.leb_le in Hk.
Qed.
(** Dicts pp cannot print. *)
Lemma pp_no_entry : pp cpython311 [(KStr (u "t"), PStr (u "0200")); (KStr (u "129"), PStr (u "x"))] default 6 30 =
  (Raise (XKeyError (u "129")), u ("t   Messag: '0200'" ++ lf ++ "129")).
Proof. vm_compute. reflexivity. Qed.
Lemma pp_no_number : pp cpython311 [(KStr (u "t"), PStr (u "0200")); (KStr [189%N], PStr (u "x"))] default 6 30 =
  (Raise XValueError, u ("t   Messag: '0200'" ++ lf)).
Proof. vm_compute. reflexivity. Qed.

(** Values of other kinds: lists, a str as the length, a length without length. *)
Definition pp_odd : list (pykey * ppval) :=
  [(KStr (u "t"), PObj (OOther (Some 2%nat) (u "['0200', '0210']"))); (KStr (u "3"), PDict None None);
   (KStr (u "2"), PDict (Some (OStr (u "two"))) (Some (OOther None (u "<object that is never folded>"))));
   (KStr (u "4"), PDict (Some (OOther (Some 0%nat) (u "[]"))) (Some (OStr (u "abc"))))].
Lemma pp_odd_printed : NoDup (map fst pp_odd) /\ pp cpython311 pp_odd default 6 20 = (Ok tt, u (
  "t   Messag: ['0200', '0210']" ++ lf ++
  "2   Primar: 'two' <object that is never folded>" ++ lf ++
  "3   Proces: b''" ++ lf ++
  "4   Amount: 'abc'" ++ lf)).
Proof. split; [apply nodup_keys_ok; vm_compute; reflexivity|vm_compute; reflexivity]. Qed.
Lemma pp_bad_length :
  pp cpython311 [(KStr (u "t"), PStr (u "0200")); (KStr (u "2"), PDict (Some (OOther None (u "2"))) (Some (OBytes (asc "X"))))] default 6 30 =
  (Raise (XTypeError (u "object has no len()")), u ("t   Messag: '0200'" ++ lf ++ "2   Primar: ")).
Proof. vm_compute. reflexivity. Qed.

(** C29: the hypothesis is satisfiable by a dict that is folded, ... *)
Lemma byte_reprs : forallb (fun n => (zlen (repr_bytes [n2b (N.of_nat n)]) <=? 7)%Z) (seq 0 256) = true.
Proof. vm_compute. reflexivity. Qed.
Definition pp_narrow : list (pykey * ppval) :=
  [(KStr (u "t"), PStr (u "0200")); (KStr (u "2"), PDict (Some (OBytes (asc "10"))) (Some (OBytes (asc "AB'CDEFGHI"))))].
Lemma pp_narrow_fits : (forall k v, In (KStr k, v) pp_narrow ->
    (length k <= 3)%nat /\ room cpython311 6 25 v /\ forall l s, parts_of v l (OStr s) -> unescaped cpython311 s)
  /\ pp cpython311 pp_narrow rich 6 25 = (Ok tt, u (
  "t   Messag: '0200'" ++ lf ++
  "2   sample: b'10' b""AB'C""" ++ lf ++
  "                  b'DEFG'" ++ lf ++
  "                  b'HI'" ++ lf)).
Proof.
  split; [|vm_compute; reflexivity].
  intros k v H. cbn in H. destruct H as [H|[H|[]]]; injection H as <- <-; (split; [vm_compute; lia|split]).
  - intros l o pre Ho Hpre. apply parts_shown in Ho as [-> ->]. destruct Hpre as [He|n He]; try discriminate He. clear He. intros x [->|(c & -> & Hc)]; [vm_compute; discriminate|].
    cbn in Hc. repeat (destruct Hc as [<-|Hc]; [vm_compute; discriminate|]). destruct Hc.
  - intros l s Hp. apply parts_shown in Hp as [_ [= ->]]. split; [|vm_compute; intuition discriminate].
    intros c Hc. cbn in Hc. repeat (destruct Hc as [<-|Hc]; [vm_compute; reflexivity|]). destruct Hc.
  - intros l o pre Ho Hpre. apply parts_shown in Ho as [-> ->]. destruct Hpre as [He|n He]; try discriminate He. clear He. intros x [->|(c & -> & Hc)]; [vm_compute; discriminate|].
    vm_compute in Hc. repeat (destruct Hc as [<-|Hc]; [vm_compute; discriminate|]). destruct Hc.
  - intros l s Hp. now apply parts_shown in Hp as [_ Hp].
Qed.
(** ... and without it lines do get too long. *)
Lemma not_fit w a l b : ~ In 10%N l -> (w <? zlen l)%Z = true -> ~ lines_fit w (a ++ l ++ b)%list.
Proof. intros Hn Hl H. specialize (H a l b eq_refl Hn). lia. Qed.
Definition tabs : pystr := [9; 9; 9; 9; 9; 9]%N.
Lemma escapes_overflow : exists d out, (forall k v, In (KStr k, v) d -> (length k <= 3)%nat /\ room cpython311 6 20 v)
  /\ pp cpython311 d default 6 20 = (Ok tt, out) /\ ~ lines_fit 20 out.
Proof.
  exists [(KStr (u "2"), PStr tabs)]. eexists. split; [|split; [vm_compute; reflexivity|]].
  - intros k v [H|[]]. injection H as <- <-. split; [vm_compute; lia|]. intros l o pre Ho Hpre. apply parts_shown in Ho as [-> ->].
    destruct Hpre as [He|n He]; try discriminate He. clear He. intros x [->|(c & -> & Hc)]; [vm_compute; discriminate|].
    cbn in Hc. repeat (destruct Hc as [<-|Hc]; [vm_compute; discriminate|]). destruct Hc.
  - match goal with |- ~ lines_fit _ ?o => change (~ lines_fit 20 ([] ++ firstn 26 o ++ skipn 26 o)%list) end.
    apply not_fit; [vm_compute; intuition discriminate|vm_compute; reflexivity].
Qed.
Lemma long_keys_overflow : exists d out,
  (forall k v, In (KStr k, v) d -> room cpython311 0 10 v /\ forall l s, parts_of v l (OStr s) -> unescaped cpython311 s)
  /\ pp cpython311 d default 0 10 = (Ok tt, out) /\ ~ lines_fit 10 out.
Proof.
  exists [(KStr (u "0000002"), PStr (u "abc"))]. eexists. split; [|split; [vm_compute; reflexivity|]].
  - intros k v [H|[]]. injection H as <- <-. split.
    + intros l o pre Ho Hpre. apply parts_shown in Ho as [-> ->]. destruct Hpre as [He|n He]; try discriminate He. clear He. intros x [->|(c & -> & Hc)]; [vm_compute; discriminate|].
      cbn in Hc. repeat (destruct Hc as [<-|Hc]; [vm_compute; discriminate|]). destruct Hc.
    + intros l s Hp. apply parts_shown in Hp as [_ [= ->]]. split; [|vm_compute; intuition discriminate].
      intros c Hc. cbn in Hc. repeat (destruct Hc as [<-|Hc]; [vm_compute; reflexivity|]). destruct Hc.
  - match goal with |- ~ lines_fit _ ?o => change (~ lines_fit 10 ([] ++ firstn 13 o ++ skipn 13 o)%list) end.
    apply not_fit; [vm_compute; intuition discriminate|vm_compute; reflexivity].
Qed.

(** ** Specs with descriptions *)
Definition described_entry (kf : pystr * fspec) : bool :=
  match fs_desc (snd kf) with Some _ => true | None => false end
  && (existsb (str_eqb (fst kf)) [u "h"; u "t"; u "p"]
      || existsb (fun n => str_eqb (fst kf) (zstr (Z.of_nat n))) (seq 1 192)).
Lemma described_check E sp : env_ok E -> forallb described_entry sp = true -> spec_described E sp.
Proof.
  intros HE H k fs Hk. apply sget_in in Hk. rewrite forallb_forall in H. apply H in Hk.
  apply andb_true_iff in Hk as [H1 H2]. cbn [fst snd] in H1, H2. split.
  - destruct (fs_desc fs); [eauto|discriminate].
  - intro Hn. apply orb_true_iff in H2 as [H2|H2].
    + exfalso. apply existsb_exists in H2 as (x & Hx & He). apply str_eqb_eq in He as ->.
      rewrite (not_numeric_keys E) in Hn; [discriminate|assumption|]. cbn in Hx. intuition.
    + apply existsb_exists in H2 as (n & Hx & He). apply str_eqb_eq in He as ->. apply in_seq in Hx.
      exists (Z.of_nat n). apply zstr_field; [assumption|lia].
Qed.
Lemma shipped_described E : env_ok E -> spec_described E default /\ spec_described E default_ascii.
Proof. intro HE. split; (apply described_check; [assumption|vm_compute; reflexivity]). Qed.
Lemma rich_described E : env_ok E -> spec_described E rich.
Proof. intro HE. apply described_check; [assumption|vm_compute; reflexivity]. Qed.

(** ** Forms used in the property file *)
Lemma pp_output_nodup E sp dw lw d out : env_ok E -> NoDup (map fst d) -> pp E d sp dw lw = (Ok tt, out) ->
  exists ks es, shown_keys E sp d ks /\ NoDup ks /\ Forall2 (entry_of E sp dw lw d) ks es /\ out = concat es.
Proof.
  intros HE Hn H. apply pp_output in H as (ks & es & H1 & H2 & H3). exists ks, es. repeat split; auto.
  eapply shown_keys_nodup; eauto.
Qed.
Lemma wrap_bytes_iff obj w parts : cut_bytes w obj parts <-> parts = wrap_bytes obj w.
Proof. split; [intro H; eapply cut_bytes_unique; eauto using wrap_bytes_cut|intros ->; apply wrap_bytes_cut]. Qed.
Lemma wrap_str_iff obj w parts : cut_str w obj parts <-> parts = wrap_str obj w.
Proof. split; [intro H; eapply cut_str_unique; eauto using wrap_str_cut|intros ->; apply wrap_str_cut]. Qed.
Lemma wrap_bytes_example : wrap_bytes (asc "AB'CDEFGHI") 7 = [asc "AB'C"; asc "DEFG"; asc "HI"].
Proof. vm_compute. reflexivity. Qed.
Lemma wrap_str_example : wrap_str (u "AB'CDEFGHI") 6 = [u "AB'C"; u "DEFG"; u "HI"].
Proof. vm_compute. reflexivity. Qed.
Lemma decode_pickle E s sp e : decode E s sp = Raise (XDecodeError e) ->
  let '(msg, s', doc_dec, doc_enc, pos, field) := DecodeError_reduce e in
  DecodeError msg s' doc_dec doc_enc pos field = e.
Proof. intro H. symmetry. exact (decode_error_made E sp s e H). Qed.
Lemma made_decode_pickle msg s dd de pos field : let '(msg', s', dd', de', pos', field') :=
    DecodeError_reduce (DecodeError msg s dd de pos field) in
  DecodeError msg' s' dd' de' pos' field' = DecodeError msg s dd de pos field.
Proof. reflexivity. Qed.
Lemma made_encode_pickle msg dd de field : let '(msg', dd', de', field') := EncodeError_reduce (EncodeError msg dd de field) in
  EncodeError msg' dd' de' field' = EncodeError msg dd de field.
Proof. reflexivity. Qed.
Lemma encode_pickle E doc sp e d' : encode E doc sp = (Raise (XEncodeError e), d') ->
  let '(msg, doc_dec, doc_enc, field) := EncodeError_reduce e in EncodeError msg doc_dec doc_enc field = e.
Proof. intro H. symmetry. exact (encode_error_made E sp doc e d' H). Qed.
Lemma short_type : exists e, decode cpython311 (InBytes (asc "02")) default = Raise (XDecodeError e)
  /\ de_args0 e = u "Field data is 2 bytes, expecting 4: field t pos 0".
Proof. eexists. split; [vm_compute; reflexivity|vm_compute; reflexivity]. Qed.
Lemma noncanonical_unprintable : exists d s enc d', str_dict d /\ spec_described cpython311 default
  /\ encode cpython311 (ADict d) default = (Ok (s, enc), d')
  /\ forall reps, fst (pp cpython311 (show_dict reps d') default 30 80) = Raise (XKeyError (u "02")).
Proof.
  exists (sdict [("t", "0200"); ("2", "12"); ("02", "34")]).
  destruct (encode cpython311 (ADict (sdict [("t", "0200"); ("2", "12"); ("02", "34")])) default) as [[[s enc]|x] d'] eqn:H;
    vm_compute in H; [|discriminate].
  exists s, enc, d'. split; [apply str_dict_check; vm_compute; reflexivity|]. split; [exact (proj1 (shipped_described _ c311_env_ok))|].
  split; [reflexivity|]. injection H as _ _ <-. vm_compute. reflexivity.
Qed.
