{
 "claims": [
  {
   "property": "C01",
   "status": "proved",
   "theorems": [
    "C01_decode_returns_what_was_encoded",
    "C01_every_wire_key_is_specified",
    "C01_specs_of_CPython_codecs_are_reversible",
    "C01_lower_case_pad_refuted"
   ],
   "note": "reversible_spec also asks for text bitmaps and text lengths in an encoding with one byte per ASCII character; the refutation shows that upper-case pads are needed"
  },
  {
   "property": "C02",
   "status": "proved",
   "theorems": [
    "C02_decode_accepts_exactly_the_wire_language",
    "C02_hypothesis",
    "C02_hypothesis_holds_on_CPython"
   ],
   "note": "bitmaps_fit: text bitmaps never spell more than 64 bits; implied by any codec that does not decode bytes to more characters than bytes"
  },
  {
   "property": "C03",
   "status": "proved",
   "theorems": [
    "C03_decode_accounts_for_every_byte"
   ],
   "note": ""
  },
  {
   "property": "C04",
   "status": "proved",
   "theorems": [
    "C04_output_is_the_concatenation_in_wire_order"
   ],
   "note": ""
  },
  {
   "property": "C05",
   "status": "proved",
   "theorems": [
    "C05_bitmaps_name_exactly_the_fields_present",
    "C05_bitmaps_of_any_dict",
    "C05_noncanonical_refuted"
   ],
   "note": "canonical keys as the property says; second theorem covers any keys; refutation shows canonicality is needed. Key \"65\" is not a data field: encode discards it"
  },
  {
   "property": "C06",
   "status": "proved",
   "theorems": [
    "C06_decoded_keys_are_the_announced_ones"
   ],
   "note": "under bitmaps_fit"
  },
  {
   "property": "C07",
   "status": "proved",
   "theorems": [
    "C07_decode_raises_only_DecodeError",
    "C07_any_spec_exceptions",
    "C07_default_spec_refuted",
    "C07_default_ascii_spec_refuted"
   ],
   "note": "proved for complete specs; the shipped specs lack fields 129..192 and hostile bytes raise KeyError"
  },
  {
   "property": "C08",
   "status": "partial",
   "theorems": [
    "C08_str_dict_KeyError_refuted",
    "C08_str_dict_ValueError_refuted",
    "C08_any_str_dict_partial",
    "C08_canonical_keys_only_EncodeError_partial",
    "C08_default_spec_refuted"
   ],
   "note": "false as stated: keys such as \"02\" raise KeyError and \"\u00b2\" raises ValueError. Proved: these are the only two other exceptions (any str dict), and none with canonical keys. See C38"
  },
  {
   "property": "C09",
   "status": "proved",
   "theorems": [
    "C09_extensions_are_rejected",
    "C09_prefixes_are_rejected"
   ],
   "note": "under bitmaps_fit"
  },
  {
   "property": "C10",
   "status": "proved",
   "theorems": [
    "C10_DecodeError_is_truthful"
   ],
   "note": ""
  },
  {
   "property": "C11",
   "status": "proved",
   "theorems": [
    "C11_EncodeError_is_truthful"
   ],
   "note": ""
  },
  {
   "property": "C12",
   "status": "proved",
   "theorems": [
    "C12_only_bitmaps_change"
   ],
   "note": ""
  },
  {
   "property": "C13",
   "status": "proved",
   "theorems": [
    "C13_encode_is_idempotent"
   ],
   "note": ""
  },
  {
   "property": "C14",
   "status": "proved",
   "theorems": [
    "C14_bytes_depend_on_content_only",
    "C14_earlier_encodes_do_not_matter"
   ],
   "note": ""
  },
  {
   "property": "C15",
   "status": "proved",
   "theorems": [
    "C15_decoded_lengths_respect_the_spec",
    "C15_encoded_lengths_respect_the_spec"
   ],
   "note": ""
  },
  {
   "property": "C16",
   "status": "proved",
   "theorems": [
    "C16_length_prefixes_are_exact",
    "C16_too_long_is_rejected"
   ],
   "note": ""
  },
  {
   "property": "C17",
   "status": "proved",
   "theorems": [
    "C17_encode_pads_odd_digits_only",
    "C17_decode_removes_exactly_the_pad",
    "C17_odd_digits_without_pad_are_rejected"
   ],
   "note": ""
  },
  {
   "property": "C18",
   "status": "proved",
   "theorems": [
    "C18_encode_undoes_decode_of_canonical_messages",
    "C18_specs_of_CPython_codecs_are_faithful",
    "C18_lower_case_bitmap_refuted",
    "C18_unneeded_bitmap_refuted",
    "C18_length_syntax_refuted",
    "C18_other_pad_refuted",
    "C18_odd_nibbles_of_text_refuted"
   ],
   "note": "the refutations show that each clause of canonicality is needed"
  },
  {
   "property": "C19",
   "status": "proved",
   "theorems": [
    "C19_reencoding_is_stable",
    "C19_reencoding_is_stable_for_canonical_keys",
    "C19_key_01_refuted"
   ],
   "note": "keys must not denote field 1 or 65; refutation for key \"01\""
  },
  {
   "property": "C20",
   "status": "proved",
   "theorems": [
    "C20_encode_is_injective"
   ],
   "note": ""
  },
  {
   "property": "C21",
   "status": "proved",
   "theorems": [
    "C21_replacing_a_value_changes_only_its_segment"
   ],
   "note": ""
  },
  {
   "property": "C22",
   "status": "proved",
   "theorems": [
    "C22_decode_ignores_other_properties",
    "C22_encode_ignores_other_properties",
    "C22_rewritten_spec_decodes_alike",
    "C22_rewritten_spec_encodes_alike",
    "C22_absent_field_decodes_alike",
    "C22_absent_field_encodes_alike"
   ],
   "note": "equality of results includes errors and, for encode, the dict left behind"
  },
  {
   "property": "C23",
   "status": "proved",
   "theorems": [
    "C23_bytes_and_bytearray_decode_alike",
    "C23_other_inputs_raise_TypeError"
   ],
   "note": ""
  },
  {
   "property": "C24",
   "status": "proved",
   "theorems": [
    "C24_default_round_trips",
    "C24_default_ascii_round_trips"
   ],
   "note": "for any interpreter with the ASCII codec"
  },
  {
   "property": "C25",
   "status": "proved",
   "theorems": [
    "C25_default_lengths_fit",
    "C25_default_ascii_lengths_fit",
    "C25_lengths_fit"
   ],
   "note": "for any interpreter with the ASCII codec; third theorem covers any spec whose maximum lengths fit"
  },
  {
   "property": "C26",
   "status": "proved",
   "theorems": [
    "C26_pp_prints_the_shown_keys_in_order",
    "C26_pp_succeeds_exactly_when_ready",
    "C26_the_output_is_determined",
    "C26_pp_raises_exactly_where_it_must_stop"
   ],
   "note": "also says exactly when pp succeeds and what it has written when it raises"
  },
  {
   "property": "C27",
   "status": "proved",
   "theorems": [
    "C27_folding_bytes"
   ],
   "note": "the chunks are the only list with the stated properties"
  },
  {
   "property": "C28",
   "status": "proved",
   "theorems": [
    "C28_folding_str"
   ],
   "note": "the chunks are the only list with the stated properties"
  },
  {
   "property": "C29",
   "status": "proved",
   "theorems": [
    "C29_lines_fit",
    "C29_escapes_refuted",
    "C29_long_keys_refuted"
   ],
   "note": "the refutations show that the conditions on escapes and keys are needed"
  },
  {
   "property": "C30",
   "status": "proved",
   "theorems": [
    "C30_decode_errors_survive_pickling",
    "C30_encode_errors_survive_pickling",
    "C30_constructed_decode_errors_survive_pickling",
    "C30_constructed_encode_errors_survive_pickling"
   ],
   "note": "pickle itself is not modelled: the class is called with the tuple returned by __reduce__"
  },
  {
   "property": "C31",
   "status": "proved",
   "theorems": [
    "C31_bitmap_keys_are_managed"
   ],
   "note": ""
  },
  {
   "property": "C32",
   "status": "proved",
   "theorems": [
    "C32_encode_succeeds_exactly_on_encodable_messages",
    "C32_encode_characterised"
   ],
   "note": ""
  },
  {
   "property": "C33",
   "status": "proved",
   "theorems": [
    "C33_bitmap_letter_case_is_irrelevant"
   ],
   "note": "under bitmaps_fit"
  },
  {
   "property": "C34",
   "status": "proved",
   "theorems": [
    "C34_encode_pads_left_when_both",
    "C34_decode_removes_left_pad_first"
   ],
   "note": ""
  },
  {
   "property": "C35",
   "status": "proved",
   "theorems": [
    "C35_header_decoded_iff_enabled",
    "C35_header_encoded_iff_enabled",
    "C35_disabled_header_is_ignored",
    "C35_missing_header_is_rejected"
   ],
   "note": ""
  },
  {
   "property": "C36",
   "status": "proved",
   "theorems": [
    "C36_iteration_order_is_irrelevant"
   ],
   "note": ""
  },
  {
   "property": "C37",
   "status": "proved",
   "theorems": [
    "C37_binary_values_decode_to_canonical_hex"
   ],
   "note": ""
  },
  {
   "property": "C38",
   "status": "proved",
   "theorems": [
    "C38_exceptions_of_encode",
    "C38_canonical_keys_only_EncodeError"
   ],
   "note": ""
  },
  {
   "property": "C39",
   "status": "proved",
   "theorems": [
    "C39_decode_uses_only_spec_keys",
    "C39_encode_uses_only_spec_keys",
    "C39_pp_prints_decode_results",
    "C39_pp_prints_encode_results",
    "C39_pp_prints_the_encoded_dict",
    "C39_shipped_specs_are_described",
    "C39_noncanonical_key_refuted"
   ],
   "note": ""
  },
  {
   "property": "C40",
   "status": "proved",
   "theorems": [
    "C40_decode_errors_are_exactly_the_faults",
    "C40_value_errors_are_exactly_the_faults_that_cannot_be_shown",
    "C40_every_fault_can_be_shown",
    "C40_the_fault_is_unique",
    "C40_message_or_fault"
   ],
   "note": "the faults are defined in DecodeFault.v, independently of the decoder model"
  },
  {
   "property": "C41",
   "status": "proved",
   "theorems": [
    "C41_truncation_is_reported_at_the_cut"
   ],
   "note": ""
  },
  {
   "property": "C42",
   "status": "proved",
   "theorems": [
    "C42_a_stream_splits_in_one_way_only",
    "C42_so_do_the_first_messages"
   ],
   "note": ""
  },
  {
   "property": "C43",
   "status": "proved",
   "theorems": [
    "C43_encode_errors_are_exactly_the_faults",
    "C43_the_fault_is_unique",
    "C43_message_or_fault",
    "C43_never_both"
   ],
   "note": "the faults are defined in EncodeFault.v, independently of the encoder model"
  },
  {
   "property": "C44",
   "status": "proved",
   "theorems": [
    "C44_the_output_determines_the_printed_entries",
    "C44_the_output_determines_the_decoded_message",
    "C44_the_output_determines_the_encoded_message",
    "C44_the_output_determines_the_decoded_dict"
   ],
   "note": "texts are sequences of Unicode code points; same spec and widths for both outputs"
  },
  {
   "property": "C45",
   "status": "proved",
   "theorems": [
    "C45_a_spec_is_what_its_lookups_return",
    "C45_the_order_of_the_spec_is_irrelevant",
    "C45_the_order_of_the_printed_dict_is_irrelevant",
    "C45_two_spellings_refuted",
    "C45_encode_errors_depend_on_content_only",
    "C45_other_exceptions_depend_on_content_only",
    "C45_foreign_keys_refuted"
   ],
   "note": "the order of the printed dict: when no two keys spell the same number; exceptions of encode: when all keys are str (otherwise the message lists the foreign keys in dict order)"
  },
  {
   "property": "C46",
   "status": "proved",
   "theorems": [
    "C46_old_messages_decode_alike",
    "C46_old_dicts_encode_alike",
    "C46_only_messages_with_new_fields_are_new",
    "C46_only_dicts_with_new_fields_are_new",
    "C46_fixed_length_refuted"
   ],
   "note": "extension: entries added, and larger max_len of variable-length fields; the refuted theorem shows that fixed fields must be left out"
  },
  {
   "property": "C47",
   "status": "proved",
   "theorems": [
    "C47_a_field_can_be_pasted_from_another_message",
    "C47_equal_values_are_sent_alike",
    "C47_a_mixture_of_encodable_dicts_is_encodable"
   ],
   "note": "bitmaps excepted, they depend on the set of fields; mixtures: str values, canonical field numbers and a spec that can send any bitmap"
  },
  {
   "property": "C48",
   "status": "proved",
   "theorems": [
    "C48_key_errors_are_exactly_the_gaps",
    "C48_no_other_outcome",
    "C48_message_fault_or_gap",
    "C48_shipped_specs_lack_fields_129_to_192_only"
   ],
   "note": "the gaps are defined in DecodeGap.v, independently of the decoder model"
  },
  {
   "property": "C49",
   "status": "proved",
   "theorems": [
    "C49_other_failures_are_exactly_the_escapes",
    "C49_other_arguments_raise_TypeError",
    "C49_message_fault_or_escape",
    "C49_shipped_specs_lack_fields_129_to_192_only"
   ],
   "note": "the escapes are defined in EncodeEscape.v, independently of the encoder model"
  },
  {
   "property": "C50",
   "status": "proved",
   "theorems": [
    "C50_shipped_specs_send_exactly_the_proper_messages"
   ],
   "note": ""
  },
  {
   "property": "C51",
   "status": "proved",
   "theorems": [
    "C51_decoded_messages_are_bounded",
    "C51_encoded_messages_are_bounded",
    "C51_fixed_parts_fix_the_size_decoded",
    "C51_fixed_parts_fix_the_size_encoded",
    "C51_shipped_specs_decoded",
    "C51_shipped_specs_encoded"
   ],
   "note": "the size vocabulary is in Claims5.v"
  },
  {
   "property": "C52",
   "status": "proved",
   "theorems": [
    "C52_altered_data_stays_local",
    "C52_altered_data_has_the_value_of_its_bytes"
   ],
   "note": "bitmaps are excluded: changing them changes which fields follow"
  },
  {
   "property": "C53",
   "status": "proved",
   "theorems": [
    "C53_what_was_read_depends_only_on_its_bytes"
   ],
   "note": "also for inputs that fail: their completed fields"
  },
  {
   "property": "C54",
   "status": "proved",
   "theorems": [
    "C54_sending_on_succeeds_iff_the_fields_fit",
    "C54_what_arrives_is_what_was_received",
    "C54_what_the_shipped_specs_read_they_can_send",
    "C54_from_default_to_default_ascii",
    "C54_from_default_ascii_to_default",
    "C54_values_from_default_ascii_to_default",
    "C54_there_and_back"
   ],
   "note": "as_dict turns the returned dict into an argument of encode"
  },
  {
   "property": "C55",
   "status": "proved",
   "theorems": [
    "C55_a_dict_stays_encodable_without_some_fields",
    "C55_the_other_segments_stay",
    "C55_messages_share_what_their_dicts_share"
   ],
   "note": "gone: the keys removed; bitmaps are recomputed (C05, C31)"
  },
  {
   "property": "C56",
   "status": "proved",
   "theorems": [
    "C56_int_reads_numerals",
    "C56_str_and_format_write_numerals",
    "C56_bytes_are_numbers",
    "C56_hexadecimal",
    "C56_sequences",
    "C56_codecs",
    "C56_dicts",
    "C56_sets"
   ],
   "note": "Texts.v and Numerals.v describe the results without the functions of PyBase.v; the theorems are equivalences. cp500 is a table taken from CPython; proved: one-to-one, and the EBCDIC codes of space, letters and digits."
  },
  {
   "property": "C57",
   "status": "proved",
   "theorems": [
    "C57_printed_values_are_literals",
    "C57_literals_mean_one_value"
   ],
   "note": "Literals as in section 2.4.1 of the Python language reference, restricted to the escapes repr() uses. Other objects than str and bytes are excluded, their repr() being arbitrary."
  },
  {
   "property": "C58",
   "status": "proved",
   "theorems": [
    "C58_the_field_reported_is_the_first_unsendable",
    "C58_encode_succeeds_iff_nothing_is_unsendable",
    "C58_dropping_reported_fields_ends_with_the_sendable_ones"
   ],
   "note": "sendable_frame: header, type, keys, bitmaps are fine; repair: the loop of a caller who drops the reported field"
  },
  {
   "property": "C59",
   "status": "proved",
   "theorems": [
    "C59_what_was_read_before_an_error_is_a_message",
    "C59_what_was_read_before_an_error_is_read_again"
   ],
   "note": "Fields read in a non-canonical form (C18) are excluded from the first theorem"
  },
  {
   "property": "C60",
   "status": "proved",
   "theorems": [
    "C60_decoder_as_written",
    "C60_machine_exists",
    "C60_specs_exist"
   ],
   "note": "decoder_py: syntax trees generated from the text by source/gen.py; call_fun: PySem.v; decode: the model of the other claims"
  },
  {
   "property": "C61",
   "status": "proved",
   "theorems": [
    "C61_encoder_as_written",
    "C61_machine_exists",
    "C61_dicts_exist"
   ],
   "note": "encoder_py: syntax trees generated from the text by source/gen.py; call_fun: PySem.v; encode: the model of the other claims"
  },
  {
   "property": "C62",
   "status": "proved",
   "theorems": [
    "C62_tools_as_written",
    "C62_defaults_as_written",
    "C62_docs_exist"
   ],
   "note": "tools_py, tools_table, defaults_pp: generated from the text by source/gen.py; call_fun: PySem.v; pp: the model of the other claims"
  },
  {
   "property": "C63",
   "status": "proved",
   "theorems": [
    "C63_round_trip_of_the_text",
    "C63_encoding_twice",
    "C63_encoding_what_was_decoded",
    "C63_decode_raises_only_DecodeError",
    "C63_encode_raises_only_EncodeError",
    "C63_printing_what_was_decoded",
    "C63_machine_exists",
    "C63_heaps_exist"
   ],
   "note": "call_encode, call_decode, call_pp: the syntax trees run by PySem.v; the model of the other claims does not appear"
  },
  {
   "property": "C64",
   "status": "proved",
   "theorems": [
    "C64_specs_as_written",
    "C64_round_trip_with_the_shipped_specs"
   ],
   "note": "specs_py: syntax trees generated from the text by source/gen.py; run_module: PySem.v"
  },
  {
   "property": "C65",
   "status": "proved",
   "theorems": [
    "C65_decode_errors_of_the_text",
    "C65_encode_errors_of_the_text",
    "C65_making_DecodeErrors",
    "C65_making_EncodeErrors",
    "C65_reduce_of_DecodeErrors",
    "C65_reduce_of_EncodeErrors"
   ],
   "note": "__init__ and __reduce__ run from their syntax trees"
  },
  {
   "property": "C66",
   "status": "proved",
   "theorems": [
    "C66_items_after_an_execution",
    "C66_encode_after_an_execution",
    "C66_encode_sees_items_and_spec_only",
    "C66_decode_sees_bytes_and_spec_only"
   ],
   "note": "event, execution: HistoryClaims.v; the calls in them are runs of the syntax trees"
  },
  {
   "property": "C67",
   "status": "proved",
   "theorems": [
    "C67_pp_reads_descriptions_and_header_only",
    "C67_rewritten_spec_prints_alike",
    "C67_the_text_of_pp_prints_alike"
   ],
   "note": "the first two about the model of pp, the third about its text"
  },
  {
   "property": "C68",
   "status": "proved",
   "theorems": [
    "C68_threads_sharing_a_spec",
    "C68_threads_of_any_programs",
    "C68_no_schedule_goes_on_forever",
    "C68_no_thread_waits"
   ],
   "note": "act, switch, schedule: Threads.v; threads_ready, task, jobs_apart: ThreadTasks.v; alike, shows_heap: ThreadClaims.v"
  },
  {
   "property": "C69",
   "status": "proved",
   "theorems": [
    "C69_callers_objects_at_every_moment",
    "C69_results_share_nothing_with_the_caller"
   ],
   "note": "tame_heap, no_functions, data_items, to_encode, to_print, new_value: SafeClaims.v; schedule: Threads.v. By a checker of writes proved right for all programs (SafeCheck.v, SafeFacts.v) and run on the syntax trees of the library"
  },
  {
   "property": "C70",
   "status": "proved",
   "theorems": [
    "C70_streams_only_grow",
    "C70_interrupted_pp_wrote_an_initial_part"
   ],
   "note": "to_print, tame_heap, no_functions: SafeClaims.v; threads_ready: ThreadTasks.v; schedule: Threads.v"
  },
  {
   "property": "C71",
   "status": "proved",
   "theorems": [
    "C71_encode_again_after_interrupted_calls",
    "C71_decode_again_after_interrupted_calls",
    "C71_pp_again_after_interrupted_calls"
   ],
   "note": "call_fun runs the text of encoder.py and decoder.py; encodes_to, content: the model of C14; the moment is any state schedule reaches"
  }
 ]
}