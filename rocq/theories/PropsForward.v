(** * PropsForward: messages received under one spec and sent on under another (C54). *)
From Verif Require Import PyBase BaseFacts Types Decoder Encoder Wire WireEncode Claims Claims5 Claims7 CPython311 Specs Samples.
From Verif Require Import Shipped Forward ForwardSamples.
Local Open Scope string_scope. Local Open Scope list_scope.

(** C54. Any two specs. *)
Theorem C54_sending_on_succeeds_iff_the_fields_fit : forall E sp sp' buf b dec enc,
  env_ok E -> bitmaps_fit E sp -> bitmaps_sendable E sp' -> header_on sp' \/ header_off sp' ->
  holds buf b -> decode E buf sp = Ok (dec, enc) ->
  ((exists s enc' d', encode E (ADict (as_dict dec)) sp' = (Ok (s, enc'), d'))
   <-> type_encodable E sp' (as_dict dec)
       /\ (header_on sp' -> encodable E sp' (as_dict dec) (u "h"))
       /\ forall n, data_field n -> In (zstr n) (map fst dec) -> encodable E sp' (as_dict dec) (zstr n)).
Proof. exact forward_iff. Qed.
Print Assumptions C54_sending_on_succeeds_iff_the_fields_fit.
Theorem C54_what_arrives_is_what_was_received : forall E sp sp' buf b dec enc s enc' d' buf',
  env_ok E -> bitmaps_fit E sp -> reversible_spec E sp' -> holds buf b -> decode E buf sp = Ok (dec, enc) ->
  encode E (ADict (as_dict dec)) sp' = (Ok (s, enc'), d') -> holds buf' s ->
  exists dec', decode E buf' sp' = Ok (dec', enc')
    /\ forall k, message_key sp' k -> sget k dec' = match sget k dec with
                                                    | Some t => option_map (fun fs => normal fs t) (sget k sp')
                                                    | None => None
                                                    end.
Proof. exact forward_values. Qed.
Print Assumptions C54_what_arrives_is_what_was_received.
(** The shipped specs. *)
Theorem C54_what_the_shipped_specs_read_they_can_send : forall E sp buf b dec enc,
  env_ok E -> has_ascii E -> sp = default \/ sp = default_ascii -> holds buf b -> decode E buf sp = Ok (dec, enc) ->
  exists s enc' d', encode E (ADict (as_dict dec)) sp = (Ok (s, enc'), d').
Proof. exact send_again. Qed.
Print Assumptions C54_what_the_shipped_specs_read_they_can_send.
Theorem C54_from_default_to_default_ascii : forall E buf b dec enc,
  env_ok E -> has_ascii E -> holds buf b -> decode E buf default = Ok (dec, enc) ->
  exists s enc' d', encode E (ADict (as_dict dec)) default_ascii = (Ok (s, enc'), d')
    /\ forall buf', holds buf' s -> exists dec', decode E buf' default_ascii = Ok (dec', enc')
         /\ forall k, k <> u "p" -> k <> u "1" -> sget k dec' = sget k dec.
Proof. exact to_ascii. Qed.
Print Assumptions C54_from_default_to_default_ascii.
Theorem C54_from_default_ascii_to_default : forall E buf b dec enc,
  env_ok E -> has_ascii E -> holds buf b -> decode E buf default_ascii = Ok (dec, enc) ->
  ((exists s enc' d', encode E (ADict (as_dict dec)) default = (Ok (s, enc'), d'))
   <-> forall k t, In k default_binary -> sget k dec = Some t -> whole_bytes t).
Proof. exact from_ascii_iff. Qed.
Print Assumptions C54_from_default_ascii_to_default.
Theorem C54_values_from_default_ascii_to_default : forall E buf b dec enc s enc' d' buf',
  env_ok E -> has_ascii E -> holds buf b -> decode E buf default_ascii = Ok (dec, enc) ->
  encode E (ADict (as_dict dec)) default = (Ok (s, enc'), d') -> holds buf' s ->
  exists dec', decode E buf' default = Ok (dec', enc')
    /\ forall k, k <> u "p" -> k <> u "1" ->
         sget k dec' = option_map (fun t => if existsb (str_eqb k) default_binary then py_upper t else t) (sget k dec).
Proof. exact from_ascii. Qed.
Print Assumptions C54_values_from_default_ascii_to_default.
Theorem C54_there_and_back : forall E buf b dec enc s enc' d' buf' dec' e,
  env_ok E -> has_ascii E -> holds buf b -> decode E buf default = Ok (dec, enc) ->
  encode E (ADict (as_dict dec)) default_ascii = (Ok (s, enc'), d') -> holds buf' s ->
  decode E buf' default_ascii = Ok (dec', e) ->
  exists s2 enc2 d2, encode E (ADict (as_dict dec')) default = (Ok (s2, enc2), d2)
    /\ forall buf2, holds buf2 s2 -> exists dec2, decode E buf2 default = Ok (dec2, enc2)
         /\ forall k, k <> u "p" -> k <> u "1" -> sget k dec2 = sget k dec.
Proof. exact there_and_back. Qed.
Print Assumptions C54_there_and_back.
Example C54_example :
  sent_on pin_default default default_ascii = Some pin_ascii
  /\ sent_on pin_ascii default_ascii default = Some pin_default
  /\ sent_on pin_small default_ascii default_ascii = Some pin_small
  /\ sent_on pin_small default_ascii default = Some pin_default
  /\ sent_on pin_bad default_ascii default_ascii = Some pin_bad
  /\ sent_on pin_bad default_ascii default = None.
Proof. exact sent_on_cases. Qed.
