(** * SourceSamples: concrete runs of the text of the library. *)
From Coq Require Import Permutation.
From Verif Require Import PyBase BaseFacts Types Decoder Encoder CPython311 Specs Tools Pretty Samples PyAst Source PySem SemClaims.
Local Open Scope string_scope.
Local Open Scope list_scope.

(** Every spec of the model is that of some mapping. *)
Definition opt_prop {A} (k : string) (f : A -> value) (o : option A) : list (pystr * value) :=
  match o with Some x => [(u k, f x)] | None => [] end.
Definition entry_map (fs : fspec) : list (pystr * value) :=
  opt_prop "data_enc" StrV (fs_data_enc fs) ++ opt_prop "len_enc" StrV (fs_len_enc fs) ++
  opt_prop "len_type" IntV (fs_len_type fs) ++ opt_prop "max_len" IntV (fs_max_len fs) ++
  opt_prop "len_count" StrV (fs_len_count fs) ++ opt_prop "left_pad" StrV (fs_left_pad fs) ++
  opt_prop "right_pad" StrV (fs_right_pad fs) ++ opt_prop "desc" StrV (fs_desc fs).
Definition spec_map (sp : spec) : list (pystr * value) := map (fun kf => (fst kf, MapV (entry_map (snd kf)))) sp.
Lemma entry_map_rep fs : fs_rep (entry_map fs) fs.
Proof. destruct fs as [[] [] [] [] [] [] [] []]; split; reflexivity. Qed.
Lemma spec_map_rep h sp : spec_rep h (MapV (spec_map sp)) sp.
Proof.
  exists (spec_map sp). split; [reflexivity|]. intro k. induction sp as [|[k' fs] sp IH]; cbn; [reflexivity|].
  unfold sget, dget in *. cbn. destruct (str_eqb k k'); [|exact IH].
  exists (MapV (entry_map fs)), (entry_map fs). split; [reflexivity|]. split; [reflexivity|apply entry_map_rep].
Qed.
Lemma spec_map_apart h sp l : spec_apart h (MapV (spec_map sp)) (RefV l).
Proof.
  split; [discriminate|]. intros m k fv <- G. induction sp as [|[k' fs] sp IH]; cbn in G; [discriminate|].
  unfold sget, dget in *. cbn in G. destruct (str_eqb k k'); [injection G as <-; discriminate|exact (IH G)].
Qed.
(** As dicts: that of the [i]th field at [n + i], the dict of them after the last. *)
Definition str_items (m : list (pystr * value)) : list (pykey * value) := map (fun kv => (KStr (fst kv), snd kv)) m.
Fixpoint spec_refs (n : nat) (sp : spec) : list (pystr * value) :=
  match sp with [] => [] | (k, _) :: sp' => (k, RefV n) :: spec_refs (S n) sp' end.
Definition spec_dicts (h : heap) (sp : spec) : heap :=
  h ++ map (fun kf => DictO (str_items (entry_map (snd kf)))) sp ++ [DictO (str_items (spec_refs (length h) sp))].
Lemma str_items_get m k : dget key_eqb (KStr k) (str_items m) = sget k m.
Proof. induction m as [|[k' v] m IH]; cbn; [reflexivity|]. destruct (str_eqb k k'); [reflexivity|exact IH]. Qed.
Lemma spec_dicts_rep h sp : untouched h (spec_dicts h sp) /\ spec_rep (spec_dicts h sp) (RefV (length h + length sp)) sp.
Proof.
  split.
  - intros l L. unfold hget, spec_dicts. apply nth_error_app1. exact L.
  - exists (spec_refs (length h) sp). split.
    + exists (str_items (spec_refs (length h) sp)). split; [|apply str_items_get].
      unfold hget, spec_dicts. rewrite app_assoc, nth_error_app2 by (rewrite app_length, map_length; lia).
      rewrite app_length, map_length, Nat.sub_diag. reflexivity.
    + assert (H : forall l n, (forall i, i < length l -> hget (spec_dicts h sp) (n + i) = nth_error (map (fun kf => DictO (str_items (entry_map (snd kf)))) l) i) ->
        forall k, match sget k l with
                  | Some fs => exists fv fm, sget k (spec_refs n l) = Some fv /\ reads (spec_dicts h sp) fv fm /\ fs_rep fm fs
                  | None => sget k (spec_refs n l) = None
                  end).
      { induction l as [|[k' fs] l IH]; intros n Hn k; cbn; [reflexivity|]. destruct (str_eqb k k').
        - exists (RefV n), (entry_map fs). split; [reflexivity|]. split; [|apply entry_map_rep].
          exists (str_items (entry_map fs)). split; [|apply str_items_get]. specialize (Hn 0 ltac:(cbn; lia)). rewrite Nat.add_0_r in Hn. exact Hn.
        - apply IH. intros i Hi. specialize (Hn (S i) ltac:(cbn; lia)). rewrite <- plus_n_Sm in Hn. exact Hn. }
      apply H. intros i Hi. unfold hget, spec_dicts. rewrite nth_error_app2 by lia. rewrite nth_error_app1 by (rewrite map_length; lia).
      f_equal. lia.
Qed.
Lemma spec_refs_get n sp k fv : sget k (spec_refs n sp) = Some fv -> exists l, fv = RefV l /\ n <= l.
Proof.
  revert n. induction sp as [|[k' fs] sp IH]; intro n; cbn; [discriminate|]. destruct (str_eqb k k').
  - intros [= <-]. eauto.
  - intro H. destruct (IH _ H) as (l & -> & L). exists l. split; [reflexivity|lia].
Qed.
Lemma spec_dicts_apart h sp l : l < length h -> spec_apart (spec_dicts h sp) (RefV (length h + length sp)) (RefV l).
Proof.
  intro L. split; [intros [= X]; lia|]. intros m k fv (items & G & K) Gk. rewrite <- K in Gk.
  unfold hget, spec_dicts in G. rewrite app_assoc, nth_error_app2 in G by (rewrite app_length, map_length; lia).
  rewrite app_length, map_length, Nat.sub_diag in G. injection G as <-. rewrite str_items_get in Gk.
  destruct (spec_refs_get _ _ _ _ Gk) as (l' & -> & L'). intros [= X]. lia.
Qed.
Lemma spec_rep_exists h sp : exists h' l, untouched h h' /\ spec_rep h' (RefV l) sp /\ forall a, a < length h -> spec_apart h' (RefV l) (RefV a).
Proof.
  exists (spec_dicts h sp), (length h + length sp). split; [apply spec_dicts_rep|]. split; [apply spec_dicts_rep|apply spec_dicts_apart].
Qed.
Lemma same_order : any_order (fun l => l).
Proof. intro l. apply Permutation_refl. Qed.
Lemma reverse_order : any_order (@rev Z).
Proof. intro l. apply Permutation_sym, Permutation_rev. Qed.

(** One object beforehand: the bytearray decoded. *)
Definition run_decode (order : list Z -> list Z) (b : bytes) (sp : spec) : outcome value * heap :=
  call_fun cpython311 order NoneV [] decoder_py 5 "decode" [RefV 0; RefV (1 + length sp)] (spec_dicts [BytearrayO b] sp).
Definition text_items (l : list (string * string)) : object :=
  DictO (map (fun kv => (KStr (u (fst kv)), StrV (u (snd kv)))) l).
Lemma run_decode_ok :
  let (o, h) := run_decode (@rev Z) msg_default default in
  exists a e, o = Done (TupleV [RefV a; RefV e]) /\
  hget h 0 = Some (BytearrayO msg_default) /\
  hget h a = Some (text_items [("t", "0200"); ("p", "6000000000000000"); ("2", "1234"); ("3", "000000")]).
Proof. vm_compute. do 2 eexists. repeat split. Qed.
Lemma run_decode_error :
  let (o, h) := run_decode (fun l => l) (asc "0200" ++ raw [96; 0; 0; 0; 0; 0; 0; 0]%N ++ asc "0412") default in
  exists l a b, o = Thrown (RefV l) /\
    hget h l = Some (InstO "DecodeError"
      [("msg", StrV (u "Field data is 2 bytes, expecting 4")); ("s", RefV 0); ("doc_dec", RefV a); ("doc_enc", RefV b);
       ("field", StrV (u "2")); ("pos", IntV 14)] [StrV (u "Field data is 2 bytes, expecting 4: field 2 pos 14")]) /\
    hget h a = Some (text_items [("t", "0200"); ("p", "6000000000000000"); ("2", "")]).
Proof. vm_compute. do 3 eexists. repeat split. Qed.
Lemma run_decode_type : forall h,
  fst (call_fun cpython311 (fun l => l) NoneV [] decoder_py 5 "decode" [StrV (u "0200"); MapV (spec_map default)] h)
  = Thrown (ExcV "TypeError" (u "Encoded ISO8583 data must be bytes or bytearray, not str")).
Proof. intro h. vm_compute. reflexivity. Qed.

(** The dict encoded is object 0. *)
Definition run_encode (order : list Z -> list Z) (items : list (pykey * value)) (h : heap) (sp : spec) : outcome value * heap :=
  call_fun cpython311 order NoneV [] encoder_py 5 "encode" [RefV 0; RefV (S (length h) + length sp)]
    (spec_dicts (DictO items :: h) sp).
Definition key (k : string) : pykey := KStr (u k).
Definition txt (t : string) : value := StrV (u t).
Lemma run_encode_ok :
  let (o, h) := run_encode (@rev Z) [(key "t", txt "0200"); (key "1", NoneV); (key "3", txt "000000"); (key "2", txt "1234")] [] default in
  exists s e, o = Done (TupleV [RefV s; RefV e]) /\
  hget h 0 = Some (text_items [("t", "0200"); ("3", "000000"); ("2", "1234"); ("p", "6000000000000000")]) /\
  hget h s = Some (BytearrayO msg_default).
Proof. vm_compute. do 2 eexists. repeat split. Qed.
Lemma run_encode_error :
  let (o, h) := run_encode (fun l => l) [(key "t", txt "0200"); (key "52", RefV 1); (key "3", txt "123")]
                  [BytearrayO (raw [1; 2]%N)] default in
  exists l b, o = Thrown (RefV l) /\
    hget h l = Some (InstO "EncodeError"
      [("msg", txt "Field data is 3 bytes, expecting 6"); ("doc_dec", RefV 0); ("doc_enc", RefV b); ("field", txt "3")]
      [txt "Field data is 3 bytes, expecting 6: field 3"]) /\
    hget h 0 = Some (DictO [(key "t", txt "0200"); (key "52", RefV 1); (key "3", txt "123"); (key "p", txt "2000000000001000")]) /\
    hget h 1 = Some (BytearrayO (raw [1; 2]%N)).
Proof. vm_compute. do 2 eexists. repeat split. Qed.
Lemma run_encode_keys :
  let (o, h) := run_encode (fun l => l) [(key "t", txt "0200"); (KOther 5 (u "5"), NoneV)] [] default in
  exists l b, o = Thrown (RefV l) /\
    hget h l = Some (InstO "EncodeError"
      [("msg", txt "Dictionary contains invalid fields [5]"); ("doc_dec", RefV 0); ("doc_enc", RefV b); ("field", txt "p")]
      [txt "Dictionary contains invalid fields [5]: field p"]).
Proof. vm_compute. do 2 eexists. repeat split. Qed.
Lemma run_encode_type : forall h,
  fst (call_fun cpython311 (fun l => l) NoneV [] encoder_py 5 "encode" [BytesV (asc "0200"); MapV (spec_map default)] h)
  = Thrown (ExcV "TypeError" (u "Decoded ISO8583 data must be dict, not bytes")).
Proof. intro h. vm_compute. reflexivity. Qed.

(** Every argument of the model is that of some object. *)
Definition value_of (p : pyval) : value :=
  match p with
  | VStr t => StrV t
  | VBytes b => BytesV b
  | VOther None => NoneV
  | VOther (Some n) => TupleV (repeat NoneV n)
  end.
Definition items_of (d : pdoc) : list (pykey * value) := map (fun kp => (fst kp, value_of (snd kp))) d.
Lemma items_of_rep h a d : items_rep h a (items_of d) d.
Proof.
  induction d as [|[k p] d IH]; [constructor|]. constructor; [|exact IH].
  split; [reflexivity|]. cbn [fst snd]. destruct p as [t|b|[n|]]; cbn; auto. rewrite repeat_length. reflexivity.
Qed.
Lemma dict_rep_exists d : exists h dv, dict_rep h dv d.
Proof.
  destruct d as [d|cls].
  - exists [DictO (items_of d)], (RefV 0), 0, (items_of d). split; [reflexivity|]. split; [reflexivity|apply items_of_rep].
  - exists [], (OtherV (mkOther 0 cls None [])). split; [reflexivity|discriminate].
Qed.

(** Every document of the model is that of some dict: one dict at 0, a stream at 1, the dict of the [i]th item at [2 + i]. *)
Definition obj_of (o : ppobj) : value :=
  match o with OStr s => StrV s | OBytes b => BytesV b | OOther n r => OtherV (mkOther 0 [] n r) end.
Definition opt_item (k : string) (o : option ppobj) : list (pykey * value) :=
  match o with Some o => [(KStr (u k), obj_of o)] | None => [] end.
Definition dict_of (p : ppval) : object :=
  match p with PDict len data => DictO (opt_item "len" len ++ opt_item "data" data) | PObj _ => DictO [] end.
Fixpoint doc_items (i : nat) (doc : list (pykey * ppval)) : list (pykey * value) :=
  match doc with
  | [] => []
  | (k, p) :: doc' => (k, match p with PObj o => obj_of o | PDict _ _ => RefV i end) :: doc_items (S i) doc'
  end.
Definition doc_heap (doc : list (pykey * ppval)) : heap :=
  DictO (doc_items 2 doc) :: StreamO [] :: map (fun kp => dict_of (snd kp)) doc.
Lemma obj_of_rep E h o : obj_rep E h (obj_of o) o.
Proof. destruct o; cbn; auto. Qed.
Lemma doc_heap_rep E doc : doc_rep E (doc_heap doc) (RefV 0) doc.
Proof.
  exists 0, (doc_items 2 doc). split; [reflexivity|]. split; [reflexivity|].
  assert (H : forall i l, (forall j, j < length l -> hget (doc_heap doc) (i + j) = nth_error (map (fun kp => dict_of (snd kp)) l) j) ->
    Forall2 (fun kv kp => fst kv = fst kp /\ shown_rep E (doc_heap doc) (snd kv) (snd kp)) (doc_items i l) l).
  { intros i l; revert i. induction l as [|[k p] l IH]; intros i Hi; [constructor|]. constructor.
    - split; [reflexivity|]. cbn [fst snd]. destruct p as [o|len data]; [apply obj_of_rep|].
      exists i, (opt_item "len" len ++ opt_item "data" data). split; [reflexivity|].
      split; [specialize (Hi 0 ltac:(cbn; lia)); rewrite Nat.add_0_r in Hi; exact Hi|].
      destruct len as [[]|], data as [[]|]; split; vm_compute; auto.
    - apply IH. intros j Hj. specialize (Hi (S j) ltac:(cbn; lia)). rewrite <- plus_n_Sm in Hi. exact Hi. }
  apply H. intros j _. reflexivity.
Qed.
Lemma doc_rep_exists E doc : exists h v w, doc_rep E h v doc /\ hget h w = Some (StreamO []).
Proof. exists (doc_heap doc), (RefV 0), 1. split; [apply doc_heap_rep|reflexivity]. Qed.

(** The document is object 0, the stream object 1. *)
Definition lf : string := String (Ascii.ascii_of_nat 10) EmptyString.
Definition run_pp (items : list (pykey * value)) (h : heap) (sp : spec) (dw lw : value) : outcome value * heap :=
  call_fun cpython311 (fun l => l) (RefV 1) tools_table tools_py 4 "pp" [RefV 0; RefV (S (S (length h)) + length sp); dw; NoneV; lw]
    (spec_dicts (DictO items :: StreamO (u "> ") :: h) sp).
Lemma run_pp_ok :
  let (o, h) := run_pp [(key "35", RefV 3); (key "2", RefV 2); (key "bm", NoneV); (key "t", txt "0200")]
      [DictO [(key "data", BytesV (asc "AB'CDEFGHI")); (key "len", BytesV (asc "10"))]; BytearrayO (asc "Y")] default (txt "6") (IntV 30) in
  o = Done NoneV /\
  hget h 1 = Some (StreamO (u (
    "> t   Messag: '0200'" ++ lf ++
    "2   Primar: b'10' b""AB'CDEFGH""" ++ lf ++
    "                  b'I'" ++ lf ++
    "35  Track : bytearray(b'Y')" ++ lf))) /\
  hget h 3 = Some (BytearrayO (asc "Y")).
Proof. vm_compute. repeat split. Qed.
Lemma run_pp_error :
  let (o, h) := run_pp [(key "129", txt "x"); (key "t", txt "0200")] [] default (IntV 6) (IntV 30) in
  o = Thrown (ExcV "KeyError" (u "129")) /\ hget h 1 = Some (StreamO (u ("> t   Messag: '0200'" ++ lf ++ "129"))).
Proof. vm_compute. repeat split. Qed.
Lemma run_pp_number :
  let (o, h) := run_pp [(KStr [189%N], txt "x"); (key "t", txt "0200")] [] default (IntV 6) (IntV 30) in
  (exists t, o = Thrown (ExcV "ValueError" t)) /\ hget h 1 = Some (StreamO (u ("> t   Messag: '0200'" ++ lf))).
Proof. vm_compute. split; [eexists|]; reflexivity. Qed.
