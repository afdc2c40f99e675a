(** * PropsLookup: specs and dicts matter only as mappings.
    Statements only; proofs are elsewhere. *)
From Coq Require Import Permutation.
From Verif Require Import PyBase BaseFacts Types Decoder Encoder Tools Wire WireEncode Claims Claims2 Pretty CPython311 Specs Samples.
From Verif Require Import CodecFacts SampleFacts PrettySamples Lookup EncodeOrder EncodeOrder2 LookupSamples.
Local Open Scope string_scope.

(** C45 *)
Theorem C45_a_spec_is_what_its_lookups_return :
  forall E sp sp', (forall k, sget k sp' = sget k sp) ->
  (forall s, decode E s sp' = decode E s sp) /\ (forall doc, encode E doc sp' = encode E doc sp)
  /\ (forall d dw lw, pp E d sp' dw lw = pp E d sp dw lw).
Proof. exact same_lookups. Qed.
Print Assumptions C45_a_spec_is_what_its_lookups_return.
Theorem C45_the_order_of_the_spec_is_irrelevant :
  forall E sp sp', NoDup (map fst sp) -> Permutation sp sp' ->
  (forall s, decode E s sp' = decode E s sp) /\ (forall doc, encode E doc sp' = encode E doc sp)
  /\ (forall d dw lw, pp E d sp' dw lw = pp E d sp dw lw).
Proof. exact reordered_spec. Qed.
Print Assumptions C45_the_order_of_the_spec_is_irrelevant.
Example C45_example : NoDup (map fst (full [])) /\ NoDup (map fst default) /\ NoDup (map fst default_ascii).
Proof. exact specs_nodup. Qed.
Example C45_example_reversed : Permutation default (rev default) /\ rev default <> default.
Proof. exact rev_default. Qed.
Theorem C45_the_order_of_the_printed_dict_is_irrelevant :
  forall E sp dw lw d d', NoDup (map fst d) -> Permutation d d' -> distinct_numbers E d ->
  pp E d' sp dw lw = pp E d sp dw lw.
Proof. exact reordered_dict. Qed.
Print Assumptions C45_the_order_of_the_printed_dict_is_irrelevant.
Example C45_example_dict : distinct_numbers cpython311 shuffled /\ NoDup (map fst shuffled).
Proof. exact shuffled_distinct. Qed.
Example C45_example_printed :
  pp cpython311 shuffled default 0 80
    = (Ok tt, u ("t  : '0200'" ++ lf ++ "2  : 'X'" ++ lf ++ "35 : 'Y'" ++ lf))
  /\ pp cpython311 (rev shuffled) default 0 80
    = (Ok tt, u ("t  : '0200'" ++ lf ++ "2  : 'X'" ++ lf ++ "35 : 'Y'" ++ lf)).
Proof. exact shuffled_printed. Qed.
(** Two spellings of one number are printed in the order of the dict. *)
Theorem C45_two_spellings_refuted :
  exists d d', NoDup (map fst d) /\ Permutation d d' /\ pp cpython311 d default 0 80 <> pp cpython311 d' default 0 80.
Proof. exact (ex_intro _ twice (ex_intro _ (rev twice) twice_printed)). Qed.
Print Assumptions C45_two_spellings_refuted.
(** Encodings are the subject of C14; this is for the dicts encode refuses. *)
Theorem C45_encode_errors_depend_on_content_only :
  forall E sp d1 d2 e d1', env_ok E -> is_dict d1 -> is_dict d2 -> same_content d1 d2 ->
  (forall j, In j (map fst d1) -> exists s, j = KStr s) ->
  encode E (ADict d1) sp = (Raise (XEncodeError e), d1') ->
  exists e' d2', encode E (ADict d2) sp = (Raise (XEncodeError e'), d2')
    /\ ee_msg e' = ee_msg e /\ ee_args0 e' = ee_args0 e /\ ee_field e' = ee_field e
    /\ ee_doc_enc e' = ee_doc_enc e /\ same_content d1' d2'.
Proof. exact encode_error_content. Qed.
Print Assumptions C45_encode_errors_depend_on_content_only.
Example C45_example_refused : is_dict bad3 /\ is_dict (rev bad3) /\ same_content bad3 (rev bad3)
  /\ (forall j, In j (map fst bad3) -> exists s, j = KStr s)
  /\ msg_of (encode cpython311 (ADict bad3) default) = Some (u "Field data is 2 bytes, expecting 6").
Proof. exact bad3_refused. Qed.
Theorem C45_other_exceptions_depend_on_content_only :
  forall E sp d1 d2 x d1', env_ok E -> is_dict d1 -> is_dict d2 -> same_content d1 d2 ->
  (forall j, In j (map fst d1) -> exists s, j = KStr s) ->
  encode E (ADict d1) sp = (Raise x, d1') -> (forall e, x <> XEncodeError e) ->
  exists d2', encode E (ADict d2) sp = (Raise x, d2') /\ same_content d1' d2'.
Proof. exact encode_escape_content. Qed.
Print Assumptions C45_other_exceptions_depend_on_content_only.
Example C45_example_raised : is_dict spelt3 /\ is_dict (rev spelt3) /\ same_content spelt3 (rev spelt3)
  /\ (forall j, In j (map fst spelt3) -> exists s, j = KStr s)
  /\ fst (encode cpython311 (ADict spelt3) default) = Raise (XKeyError (u "2")).
Proof. exact spelt3_raises. Qed.
(** The message about keys that are no str lists them in the order of the dict. *)
Theorem C45_foreign_keys_refuted : exists d1 d2,
  is_dict d1 /\ is_dict d2 /\ same_content d1 d2
  /\ msg_of (encode cpython311 (ADict d1) default) = Some (u "Dictionary contains invalid fields [2, 3]")
  /\ msg_of (encode cpython311 (ADict d2) default) = Some (u "Dictionary contains invalid fields [3, 2]").
Proof. exact (ex_intro _ odd_keys (ex_intro _ (rev odd_keys) odd_keys_order)). Qed.
Print Assumptions C45_foreign_keys_refuted.
