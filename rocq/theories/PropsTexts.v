(** * PropsTexts: the modelled built-ins, and printed values as Python source.
    Statements only; proofs are elsewhere. *)
From Coq Require Import Sorted.
From Verif Require Import PyBase Types Numerals Texts Tools Pretty Claims9 CPython311 Specs Samples.
From Verif Require Import LiteralFacts PrettySamples TextSamples.
Local Open Scope string_scope.
Local Open Scope list_scope.

(** C56 *)
Theorem C56_int_reads_numerals :
  (forall E t n, py_int E t = Some n <-> int_text E t n) /\ (forall E t, py_int E t = None <-> not_int E t).
Proof. exact ints_read. Qed.
Print Assumptions C56_int_reads_numerals.
Theorem C56_str_and_format_write_numerals :
  (forall z t, int_numeral z t <-> t = zstr z) /\ (forall w n t, zero_padded w n t <-> t = fmt0d w n).
Proof. exact ints_written. Qed.
Print Assumptions C56_str_and_format_write_numerals.
Theorem C56_bytes_are_numbers :
  (forall b, from_be b = big_endian b)
  /\ (forall w n b, to_be w n = Some b <-> length b = w /\ big_endian b = n).
Proof. exact bytes_numbers. Qed.
Print Assumptions C56_bytes_are_numbers.
Theorem C56_hexadecimal :
  (forall t b, fromhex t = Some b <-> hex_spelling t b) /\ (forall t b, a2b_hex t = Some b <-> packed_hex t b)
  /\ (forall b t, lower_hex b t <-> t = py_hex b) /\ (forall s t, Forall2 capital s t <-> t = py_upper s).
Proof. exact hexadecimal. Qed.
Print Assumptions C56_hexadecimal.
Theorem C56_sequences :
  (forall A (s : list A) i j t, stretch s i j t <-> t = py_slice s i j)
  /\ (forall sep l t, joined sep l t <-> t = join sep l)
  /\ (forall w s t, left_justified w s t <-> t = ljust w s).
Proof. exact sequences. Qed.
Print Assumptions C56_sequences.
Theorem C56_codecs :
  (forall enc, enc = u "ascii" -> codec_means cpython311 enc (code_points 128))
  /\ (forall enc, enc = u "latin-1" \/ enc = u "latin1" -> codec_means cpython311 enc (code_points 256))
  /\ (forall enc, enc = u "utf-8" \/ enc = u "utf8" -> codec_means cpython311 enc utf8_text)
  /\ (exists R, codec_means cpython311 (u "cp500") R /\ forall s b, Forall2 ebcdic_form s b -> R s b)
  /\ (forall enc s b, codec_of cpython311 enc = None -> b <> [] ->
       str_encode cpython311 enc s = CLookup /\ bytes_decode cpython311 enc b = CLookup)
  /\ (forall enc, codec_of cpython311 enc <> None <->
       In enc [u "ascii"; u "latin-1"; u "latin1"; u "cp500"; u "utf-8"; u "utf8"]).
Proof. exact codecs_meant. Qed.
Print Assumptions C56_codecs.
Theorem C56_dicts :
  forall (V : Type) (k j : pystr) (v : V) (d : list (pystr * V)),
  sget k (sset k v d) = Some v /\ (j <> k -> sget j (sset k v d) = sget j d)
  /\ (In k (map fst d) -> map fst (sset k v d) = map fst d) /\ (~ In k (map fst d) -> sset k v d = d ++ [(k, v)])
  /\ (In k (map fst d) <-> exists w, sget k d = Some w)
  /\ (NoDup (map fst d) -> NoDup (map fst (sset k v d))
      /\ (In (k, v) d <-> sget k d = Some v)
      /\ dpop str_eqb k d = filter (fun kv => negb (str_eqb k (fst kv))) d
      /\ sget k (dpop str_eqb k d) = None /\ (j <> k -> sget j (dpop str_eqb k d) = sget j d)).
Proof. exact dicts_meant. Qed.
Print Assumptions C56_dicts.
Theorem C56_sets :
  forall l xs x a b, StronglySorted Z.lt l ->
  StronglySorted Z.lt (zset_of xs) /\ StronglySorted Z.lt (zadd x l) /\ StronglySorted Z.lt (zremove x l)
  /\ forall y, (In y (zset_of xs) <-> In y xs) /\ (In y (zadd x l) <-> y = x \/ In y l) /\ (In y (zremove x l) <-> In y l /\ y <> x)
     /\ (In y (zinter_range a b l) <-> In y l /\ (a <= y < b)%Z) /\ (In y (zdiff_range a b l) <-> In y l /\ ~ (a <= y < b)%Z)
     /\ (zmem y l = true <-> In y l) /\ (zsubset_range a b l = true <-> forall z, In z l -> (a <= z < b)%Z).
Proof. exact sets_meant. Qed.
Print Assumptions C56_sets.
Example C56_example :
  int_numeral (-120) (u "-120") /\ zero_padded 3 7 (u "007") /\ zero_padded 1 123 (u "123")
  /\ int_text cpython311 (u " -1_0 ") (-10) /\ not_int cpython311 (u "1__0") /\ int_text cpython311 [1635; 50]%N 32
  /\ hex_spelling (u "0f F1") (raw [15; 241]%N) /\ packed_hex (u "0fF1") (raw [15; 241]%N) /\ not_hex (u "0fF")
  /\ stretch (u "abcdef") (-4) (-1) (u "cde") /\ joined (u ", ") [u "a"; u "b"] (u "a, b") /\ left_justified 4 (u "ab") (u "ab  ")
  /\ utf8_text [8364; 65]%N (raw [226; 130; 172; 65]%N).
Proof. exact text_samples. Qed.

(** C57 *)
Theorem C57_printed_values_are_literals :
  forall E sp dw lw d out, (forall k v, In (k, v) d -> ordinary v) -> pp E d sp dw lw = (Ok tt, out) ->
  exists ks es, shown_keys E sp d ks /\ Forall2 (readable_entry E sp dw d) ks es /\ out = concat es.
Proof. exact pp_readable. Qed.
Print Assumptions C57_printed_values_are_literals.
Theorem C57_literals_mean_one_value :
  forall t o o', ordinary_obj o -> ordinary_obj o' -> evaluates t o -> evaluates t o' -> o = o'.
Proof. exact evaluates_unique. Qed.
Print Assumptions C57_literals_mean_one_value.
Example C57_example :
  pp cpython311 odd_doc default 0 22 = (Ok tt, u ("2  : b'\x00\x0b' ""it'""" ++ lf ++ "                 's""\t'" ++ lf
    ++ "                 '\x01\\")%string ++ [233; 39; 10]%N ++ u "                 '\u200b" ++ [128512; 39; 10]%N).
Proof. exact odd_printed. Qed.
Example C57_example_ordinary : forall k v, In (k, v) odd_doc -> ordinary v.
Proof. exact odd_ordinary. Qed.
Example C57_example_evaluates :
  str_expression (u ("""it'""" ++ lf ++ "                 's""\t'" ++ lf
    ++ "                 '\x01\\")%string ++ [233; 39; 10]%N ++ u "                 '\u200b" ++ [128512; 39]%N) odd_text
  /\ bytes_expression (u "b'\x00\x0b'") (raw [0; 11]%N).
Proof. exact odd_evaluates. Qed.
