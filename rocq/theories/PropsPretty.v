(** * PropsPretty: what the pretty-printed text tells about what was printed.
    Statements only; proofs are elsewhere. *)
From Verif Require Import PyBase BaseFacts Types Decoder Encoder Tools Wire WireEncode Claims Claims2 Pretty CPython311 Specs Samples.
From Verif Require Import CodecFacts SampleFacts PrettySamples PrettyUnique PrettyMessages PrettyUniqueSamples.
Local Open Scope string_scope.

(** C44 *)
Theorem C44_the_output_determines_the_printed_entries :
  forall E sp dw lw d1 d2 out, env_ok E ->
  (forall k v, In (k, v) d1 \/ In (k, v) d2 -> ordinary v) ->
  pp E d1 sp dw lw = (Ok tt, out) -> pp E d2 sp dw lw = (Ok tt, out) ->
  exists ks, shown_keys E sp d1 ks /\ shown_keys E sp d2 ks
    /\ forall k, In k ks -> exists v1 v2 l1 l2 o, In (KStr k, v1) d1 /\ In (KStr k, v2) d2
         /\ parts_of v1 l1 o /\ parts_of v2 l2 o /\ same_length l1 l2.
Proof. exact pp_injective. Qed.
Print Assumptions C44_the_output_determines_the_printed_entries.
Theorem C44_the_output_determines_the_decoded_message :
  forall E sp dw lw s1 b1 dec1 enc1 s2 b2 dec2 enc2 out, env_ok E -> bitmaps_fit E sp ->
  holds s1 b1 -> holds s2 b2 -> decode E s1 sp = Ok (dec1, enc1) -> decode E s2 sp = Ok (dec2, enc2) ->
  pp E (show_enc enc1) sp dw lw = (Ok tt, out) -> pp E (show_enc enc2) sp dw lw = (Ok tt, out) ->
  b1 = b2.
Proof. exact decoded_messages_printed. Qed.
Print Assumptions C44_the_output_determines_the_decoded_message.
Theorem C44_the_output_determines_the_encoded_message :
  forall E sp dw lw d1 s1 enc1 e1 d2 s2 enc2 e2 out, env_ok E -> is_dict d1 -> is_dict d2 ->
  encode E (ADict d1) sp = (Ok (s1, enc1), e1) -> encode E (ADict d2) sp = (Ok (s2, enc2), e2) ->
  pp E (show_enc enc1) sp dw lw = (Ok tt, out) -> pp E (show_enc enc2) sp dw lw = (Ok tt, out) ->
  s1 = s2.
Proof. exact encoded_messages_printed. Qed.
Print Assumptions C44_the_output_determines_the_encoded_message.
Theorem C44_the_output_determines_the_decoded_dict :
  forall E sp dw lw s1 b1 dec1 enc1 s2 b2 dec2 enc2 out, env_ok E -> bitmaps_fit E sp ->
  holds s1 b1 -> holds s2 b2 -> decode E s1 sp = Ok (dec1, enc1) -> decode E s2 sp = Ok (dec2, enc2) ->
  (forall k s, In (k, s) dec1 \/ In (k, s) dec2 -> valid_text s) ->
  pp E (show_dec dec1) sp dw lw = (Ok tt, out) -> pp E (show_dec dec2) sp dw lw = (Ok tt, out) ->
  dec1 = dec2.
Proof. exact decoded_dicts_printed. Qed.
Print Assumptions C44_the_output_determines_the_decoded_dict.
Example C44_example : exists dec enc out, decode cpython311 (InBytes msg_rich) rich = Ok (dec, enc)
  /\ pp cpython311 (show_enc enc) rich 10 40 = (Ok tt, out) /\ (100 < zlen out)%Z.
Proof. exact rich_printed. Qed.
Example C44_example_tricky :
  pp cpython311 tricky1 default 0 13 = (Ok tt, u (
    "t  : '0200'" ++ lf ++
    "2  : ""AB' 'C""" ++ lf ++
    "     'D'" ++ lf))
  /\ pp cpython311 tricky2 default 0 13 = (Ok tt, u (
    "t  : '0200'" ++ lf ++
    "2  : b""AB' '""" ++ lf ++
    "     b'CD'" ++ lf)).
Proof. exact tricky_printed. Qed.
Example C44_example_valid : forall k v, In (k, v) tricky1 \/ In (k, v) tricky2 -> ordinary v.
Proof. exact tricky_valid. Qed.
