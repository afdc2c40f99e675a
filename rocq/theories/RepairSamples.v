(** * RepairSamples: concrete cases for C58. *)
From Verif Require Import PyBase BaseFacts Types Decoder Encoder Wire WireEncode Claims Claims10 CPython311 Specs Samples.
From Verif Require Import DecoderFacts DecodeRun DecodeTheorems EncoderFacts EncodeRun EncodeTheorems2 CodecFacts SampleFacts EncodeSamples Repair.
Local Open Scope string_scope.
Local Open Scope list_scope.
Local Opaque data_fields.

(** Field 3 is too short and field 35 is not hexadecimal. *)
Definition doc_broken : pdoc := sdict [("h", "HD"); ("t", "0200"); ("35", "12X4"); ("3", "12345"); ("2", "12345"); ("66", "1")].
Definition doc_mended : pdoc := sdict [("h", "HD"); ("t", "0200"); ("2", "12345"); ("66", "1")].
Lemma mended_success : type_encodable cpython311 rich doc_mended /\ encodable cpython311 rich doc_mended (u "h")
  /\ encodable cpython311 rich doc_mended (u "2").
Proof.
  assert (H : exists s enc d', encode cpython311 (ADict doc_mended) rich = (Ok (s, enc), d')) by (do 3 eexists; vm_compute; reflexivity).
  apply encode_success in H as (H1 & H2 & _ & H4).
  - split; [assumption|]. split; [apply H2; exact rich_header_on|]. apply (H4 2%Z); [unfold data_field; lia|]. vm_compute. auto.
  - exact c311_env_ok.
  - apply str_dict_check. vm_compute. reflexivity.
  - apply canonical_check. vm_compute. reflexivity.
  - exact rich_sendable.
  - left. exact rich_header_on.
Qed.
Lemma broken_frame : sendable_frame cpython311 rich doc_broken.
Proof.
  destruct mended_success as (T & H & _). constructor.
  - apply str_dict_check. vm_compute. reflexivity.
  - apply canonical_check. vm_compute. reflexivity.
  - exact rich_sendable.
  - left. exact rich_header_on.
  - destruct T as (fs & v & b & H1 & H2 & H3). exists fs, v, b. split; [assumption|]. split; [|assumption]. rewrite <- H2. vm_compute. reflexivity.
  - intros _. apply encodable_value with doc_mended; [vm_compute; reflexivity|assumption].
  - intros n H0 Hi. unfold has_key, doc_broken in Hi. cbn [sdict map fst In] in Hi.
    destruct Hi as [Hi|[Hi|[Hi|[Hi|[Hi|[Hi|[]]]]]]]; injection Hi as Hi.
    + exfalso. exact (zstr_neq_h n H0 (eq_sym Hi)).
    + exfalso. exact (zstr_neq_t n H0 (eq_sym Hi)).
    + change (zstr 35 = zstr n) in Hi. apply zstr_inj in Hi; lia.
    + change (zstr 3 = zstr n) in Hi. apply zstr_inj in Hi; lia.
    + change (zstr 2 = zstr n) in Hi. apply zstr_inj in Hi; lia.
    + change (zstr 66 = zstr n) in Hi. apply zstr_inj in Hi; lia.
  - destruct rich_complete as (C1 & C2 & C3 & C4 & C5). intros k [->|[->|[->|[->|(n & Hn & -> & _)]]]]; auto. apply C5. now apply data_fields_in.
  - exact rich_widths.
  - exact rich_limits.
Qed.
Lemma broken_repaired : env_ok cpython311 /\ sendable_frame cpython311 rich doc_broken
  /\ (exists e d', encode cpython311 (ADict doc_broken) rich = (Raise (XEncodeError e), d') /\ ee_field e = u "3")
  /\ content (repair cpython311 rich 7 doc_broken) = doc_mended.
Proof.
  split; [exact c311_env_ok|]. split; [exact broken_frame|]. split; [|vm_compute; reflexivity].
  eexists. eexists. split; vm_compute; reflexivity.
Qed.
