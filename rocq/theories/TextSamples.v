(** * TextSamples: proofs about built-ins together, and concrete cases. *)
From Coq Require Import Sorted.
From Verif Require Import PyBase BaseFacts Types Numerals NumeralFacts Texts Tools Pretty Claims9 CPython311 Specs Samples.
From Verif Require Import CodecFacts TextFacts CodecTexts LiteralFacts PrettyFacts PrettySamples PrettyUniqueSamples.
Local Open Scope string_scope.
Local Open Scope list_scope.

Lemma ints_written : (forall z t, int_numeral z t <-> t = zstr z)
  /\ (forall w n t, zero_padded w n t <-> t = fmt0d w n).
Proof. split; [exact zstr_numeral|exact fmt0d_padded]. Qed.
Lemma ints_read : (forall E t n, py_int E t = Some n <-> int_text E t n) /\ (forall E t, py_int E t = None <-> not_int E t).
Proof. split; [exact py_int_text|exact py_int_no_text]. Qed.
Lemma bytes_numbers : (forall b, from_be b = big_endian b) /\ (forall w n b, to_be w n = Some b <-> length b = w /\ big_endian b = n).
Proof. split; [exact from_be_value|exact to_be_spells]. Qed.
Lemma hexadecimal : (forall t b, fromhex t = Some b <-> hex_spelling t b) /\ (forall t b, a2b_hex t = Some b <-> packed_hex t b)
  /\ (forall b t, lower_hex b t <-> t = py_hex b) /\ (forall s t, Forall2 capital s t <-> t = py_upper s).
Proof. repeat split; try apply fromhex_spelling; try apply a2b_packed; try apply hex_lower; apply upper_capitals. Qed.
Lemma sequences : (forall A (s : list A) i j t, stretch s i j t <-> t = py_slice s i j)
  /\ (forall sep l t, joined sep l t <-> t = join sep l) /\ (forall w s t, left_justified w s t <-> t = ljust w s).
Proof. split; [exact @slice_stretch|]. split; [exact join_joined|exact ljust_justified]. Qed.
Lemma good_decodes c (R : pystr -> bytes -> Prop) : good c -> (forall s b, c_enc c s = Some b <-> R s b) -> forall s b, c_dec c b = Some s <-> R s b.
Proof. intros (G1 & G2 & _) H s b. rewrite <- H. split; [apply G2|apply G1]. Qed.
Lemma codec_means_of enc c R : codec_of cpython311 enc = Some c -> good c -> c_dec c [] = Some [] -> (forall s b, c_enc c s = Some b <-> R s b) ->
  codec_means cpython311 enc R.
Proof.
  intros Hc Hg H0 H s b. pose proof (good_decodes c R Hg H) as Hd. unfold str_encode, bytes_decode. rewrite Hc. split.
  - rewrite <- H. destruct (c_enc c s) as [x|]; split; intro K; try discriminate K; injection K as ->; reflexivity.
  - rewrite <- Hd. destruct b as [|x b].
    + rewrite H0. split; intro K; injection K as <-; reflexivity.
    + destruct (c_dec c (x :: b)) as [y|]; split; intro K; try discriminate K; injection K as ->; reflexivity.
Qed.
Lemma ebcdic_char c b : ebcdic_form c b -> option_map n2b (index_of c cp500_table 0) = Some b.
Proof.
  intros (a & f & n & i & Hi & Hn & -> & Hb). rewrite <- (n2b_b2n b), Hb. clear b Hb.
  assert (H : forallb (fun r : N * N * N => let '(a, f, n) := r in
    forallb (fun i => match index_of (a + N.of_nat i) cp500_table 0 with Some j => N.eqb j (f + N.of_nat i) | None => false end) (seq 0 (N.to_nat n))) ebcdic_runs = true)
    by (vm_compute; reflexivity).
  rewrite forallb_forall in H. specialize (H _ Hi). cbv beta iota in H. rewrite forallb_forall in H.
  specialize (H (N.to_nat i)). rewrite N2Nat.id in H. destruct (index_of (a + i) cp500_table 0) as [j|]; cbn [option_map].
  - assert (E : N.eqb j (f + i) = true) by (apply H, in_seq; lia). apply N.eqb_eq in E. now subst.
  - discriminate H. apply in_seq. lia.
Qed.
Lemma codecs_meant :
  (forall enc, enc = u "ascii" -> codec_means cpython311 enc (code_points 128))
  /\ (forall enc, enc = u "latin-1" \/ enc = u "latin1" -> codec_means cpython311 enc (code_points 256))
  /\ (forall enc, enc = u "utf-8" \/ enc = u "utf8" -> codec_means cpython311 enc utf8_text)
  /\ (exists R, codec_means cpython311 (u "cp500") R /\ forall s b, Forall2 ebcdic_form s b -> R s b)
  /\ (forall enc s b, codec_of cpython311 enc = None -> b <> [] ->
       str_encode cpython311 enc s = CLookup /\ bytes_decode cpython311 enc b = CLookup)
  /\ (forall enc, codec_of cpython311 enc <> None <->
       In enc [u "ascii"; u "latin-1"; u "latin1"; u "cp500"; u "utf-8"; u "utf8"]).
Proof.
  split; [|split; [|split; [|split; [|split]]]].
  - intros enc ->. apply codec_means_of with ascii_codec; [reflexivity|exact ascii_good|reflexivity|exact ascii_encodes].
  - intros enc [-> | ->]; apply codec_means_of with latin1_codec; try reflexivity; [exact latin1_good|exact latin1_encodes|exact latin1_good|exact latin1_encodes].
  - intros enc [-> | ->]; apply codec_means_of with utf8_codec; try reflexivity; [exact utf8_good|exact utf8_encodes|exact utf8_good|exact utf8_encodes].
  - exists (fun s b => c_enc cp500_codec s = Some b). split; [apply codec_means_of with cp500_codec; [reflexivity|exact cp500_good|reflexivity|reflexivity]|].
    intros s b H. induction H as [|c x s b Hx H IH]; [reflexivity|]. cbn [c_enc cp500_codec charmap mapM] in *. now rewrite (ebcdic_char _ _ Hx), IH.
  - intros enc s b H Hb. unfold str_encode, bytes_decode. rewrite H. destruct b; [congruence|]. auto.
  - intro enc. cbn [codec_of cpython311]. unfold codecs_311. split.
    + repeat match goal with |- context [str_eqb ?a ?b] => destruct (str_eqb_spec a b) as [->|] end; cbn [orb]; intro H; try (cbn [In]; auto 10); congruence.
    + cbn [In]. intros [<-|[<-|[<-|[<-|[<-|[<-|[]]]]]]]; discriminate.
Qed.
Lemma dpop_absent {V} k (d : list (pystr * V)) : NoDup (map fst d) -> dget str_eqb k (dpop str_eqb k d) = None.
Proof. intro H. apply (dget_none _ str_eqb_spec). now apply (dpop_removes _ str_eqb_spec). Qed.
Lemma dicts_meant (V : Type) (k j : pystr) (v : V) (d : list (pystr * V)) :
  sget k (sset k v d) = Some v /\ (j <> k -> sget j (sset k v d) = sget j d)
  /\ (In k (map fst d) -> map fst (sset k v d) = map fst d) /\ (~ In k (map fst d) -> sset k v d = d ++ [(k, v)])
  /\ (In k (map fst d) <-> exists w, sget k d = Some w)
  /\ (NoDup (map fst d) -> NoDup (map fst (sset k v d))
      /\ (In (k, v) d <-> sget k d = Some v)
      /\ dpop str_eqb k d = filter (fun kv => negb (str_eqb k (fst kv))) d
      /\ sget k (dpop str_eqb k d) = None /\ (j <> k -> sget j (dpop str_eqb k d) = sget j d)).
Proof.
  split; [apply dget_dset_same, str_eqb_spec|]. split; [apply dget_dset_other, str_eqb_spec|]. split; [apply dset_keys, str_eqb_spec|].
  split; [apply dset_fresh, str_eqb_spec|]. split; [apply dget_some_in, str_eqb_spec|]. intro H.
  split; [now apply (dset_nodup _ str_eqb_spec)|]. split; [split; [now apply (dget_in_nodup _ str_eqb_spec)|apply (dget_in _ str_eqb_spec)]|].
  split; [now apply (dpop_filter _ str_eqb_spec)|]. split; [now apply dpop_absent|apply (dget_dpop_other _ str_eqb_spec)].
Qed.
Lemma sets_meant l xs x a b : StronglySorted Z.lt l ->
  StronglySorted Z.lt (zset_of xs) /\ StronglySorted Z.lt (zadd x l) /\ StronglySorted Z.lt (zremove x l)
  /\ forall y, (In y (zset_of xs) <-> In y xs) /\ (In y (zadd x l) <-> y = x \/ In y l) /\ (In y (zremove x l) <-> In y l /\ y <> x)
     /\ (In y (zinter_range a b l) <-> In y l /\ (a <= y < b)%Z) /\ (In y (zdiff_range a b l) <-> In y l /\ ~ (a <= y < b)%Z)
     /\ (zmem y l = true <-> In y l) /\ (zsubset_range a b l = true <-> forall z, In z l -> (a <= z < b)%Z).
Proof.
  intro S. split; [apply zupdate_sorted; constructor|]. split; [now apply zadd_sorted|]. split; [now apply filter_sorted|]. intro y.
  split; [unfold zset_of; rewrite zupdate_in; cbn; tauto|]. split; [apply zadd_in|]. split; [apply zremove_in|].
  split; [unfold zinter_range; rewrite filter_In, in_range_spec; tauto|].
  split; [unfold zdiff_range; rewrite filter_In, negb_true_iff, <- not_true_iff_false, in_range_spec; tauto|].
  split; [apply zmem_in|]. unfold zsubset_range. rewrite forallb_forall. split; intros H z Z; [apply in_range_spec|apply (proj2 (in_range_spec a b z))]; auto.
Qed.

(** ** Concrete cases *)
Lemma text_samples :
  int_numeral (-120) (u "-120") /\ zero_padded 3 7 (u "007") /\ zero_padded 1 123 (u "123")
  /\ int_text cpython311 (u " -1_0 ") (-10) /\ not_int cpython311 (u "1__0") /\ int_text cpython311 [1635; 50]%N 32
  /\ hex_spelling (u "0f F1") (raw [15; 241]%N) /\ packed_hex (u "0fF1") (raw [15; 241]%N) /\ not_hex (u "0fF")
  /\ stretch (u "abcdef") (-4) (-1) (u "cde") /\ joined (u ", ") [u "a"; u "b"] (u "a, b") /\ left_justified 4 (u "ab") (u "ab  ")
  /\ utf8_text [8364; 65]%N (raw [226; 130; 172; 65]%N).
Proof.
  repeat match goal with |- _ /\ _ => split end.
  - now apply zstr_numeral. - now apply fmt0d_padded. - now apply fmt0d_padded.
  - now apply py_int_text. - now apply py_int_no_text. - now apply py_int_text.
  - now apply fromhex_spelling. - now apply a2b_packed. - now apply fromhex_none.
  - now apply slice_stretch. - now apply join_joined. - now apply ljust_justified. - now apply utf8_encodes.
Qed.
(** A str with quotes, a tab, a control character, a backslash and characters beyond ASCII, folded. *)
Definition odd_text : pystr := u "it's" ++ [34; 9; 1; 92; 233; 8203; 128512]%N.
Definition odd_doc : list (pykey * ppval) := [(KStr (u "2"), PDict (Some (OBytes (raw [0; 11]%N))) (Some (OStr odd_text)))].
Lemma odd_printed : pp cpython311 odd_doc default 0 22 = (Ok tt, u ("2  : b'\x00\x0b' ""it'""" ++ lf ++ "                 's""\t'" ++ lf
    ++ "                 '\x01\\")%string ++ [233; 39; 10]%N ++ u "                 '\u200b" ++ [128512; 39; 10]%N).
Proof. vm_compute. reflexivity. Qed.
Lemma odd_ordinary k v : In (k, v) odd_doc -> ordinary v.
Proof.
  intros [H|[]]. injection H as _ <-. intros l o Ho. inversion Ho; subst. split; [exact I|]. now apply valid_check.
Qed.
Lemma odd_evaluates : str_expression (u ("""it'""" ++ lf ++ "                 's""\t'" ++ lf
    ++ "                 '\x01\\")%string ++ [233; 39; 10]%N ++ u "                 '\u200b" ++ [128512; 39]%N) odd_text
  /\ bytes_expression (u "b'\x00\x0b'") (raw [0; 11]%N).
Proof.
  split.
  - pose proof (join_str_expression cpython311 (newline ++ spaces 17) [u "it'"; u "s" ++ [34; 9]%N; [1; 92; 233]%N; [8203; 128512]%N]
      (proj1 (sep_blank 17)) (proj2 (sep_blank 17)) ltac:(discriminate) ltac:(repeat (apply Forall_cons; [now apply valid_check|]); apply Forall_nil)) as H.
    vm_compute in H. vm_compute. exact H.
  - pose proof (repr_bytes_literal (raw [0; 11]%N)) as H. vm_compute in H. apply OneBytes. vm_compute. exact H.
Qed.
