{
 "claims": [
  {
   "property": "C01",
   "status": "proved",
   "theorems": [
    "C01_known_messages",
    "C01_unknown_messages",
    "C01_kinds_exclusive"
   ],
   "note": ""
  },
  {
   "property": "C02",
   "status": "proved",
   "theorems": [
    "C02_eight_bytes_suffice",
    "C02_fewer_bytes"
   ],
   "note": ""
  },
  {
   "property": "C03",
   "status": "proved",
   "theorems": [
    "C03_smcr_decode"
   ],
   "note": ""
  },
  {
   "property": "C04",
   "status": "proved",
   "theorems": [
    "C04_smcd_decode"
   ],
   "note": ""
  },
  {
   "property": "C05",
   "status": "proved",
   "theorems": [
    "C05_smcdv2_decode"
   ],
   "note": ""
  },
  {
   "property": "C06",
   "status": "proved",
   "theorems": [
    "C06_decline_decode",
    "C06_declinev2_decode"
   ],
   "note": ""
  },
  {
   "property": "C07",
   "status": "proved",
   "theorems": [
    "C07_proposal_decode",
    "C07_proposal_no_room"
   ],
   "note": ""
  },
  {
   "property": "C08",
   "status": "proved",
   "theorems": [
    "C08_proposalv2_decode",
    "C08_no_ip_room",
    "C08_no_extension_room",
    "C08_no_smcd_room"
   ],
   "note": ""
  },
  {
   "property": "C09",
   "status": "proved",
   "theorems": [
    "C09_too_short"
   ],
   "note": ""
  },
  {
   "property": "C10",
   "status": "proved",
   "theorems": [
    "C10_fixed_formats_never_panic",
    "C10_objects_well_formed"
   ],
   "note": ""
  },
  {
   "property": "C11",
   "status": "proved",
   "theorems": [
    "C11_exact_panics"
   ],
   "note": ""
  },
  {
   "property": "C12",
   "status": "proved",
   "theorems": [
    "C12_complete_proposal_panics_refuted",
    "C12_exact_panics",
    "C12_exact_panics_any_buffer"
   ],
   "note": "The expectation 'never panics' is refuted with a 52-byte witness; the exact panic condition is proved, also for truncated buffers."
  },
  {
   "property": "C13",
   "status": "proved",
   "theorems": [
    "C13_complete_proposalv2_panics_refuted",
    "C13_exact_panics",
    "C13_exact_panics_any_buffer",
    "C13_counts_up_to_eight"
   ],
   "note": "The expectation 'never panics' is refuted with a 412-byte witness; the exact panic condition is proved, also for truncated buffers, and safety for counts up to 8."
  },
  {
   "property": "C14",
   "status": "proved",
   "theorems": [
    "C14_trailer",
    "C14_trailer_of_messages"
   ],
   "note": ""
  },
  {
   "property": "C15",
   "status": "proved",
   "theorems": [
    "C15_fixed_formats",
    "C15_smcdv2_refuted",
    "C15_proposal_exact",
    "C15_proposal_refuted"
   ],
   "note": "Proved for fixed formats; the exceptions (FCE of SMC-D v2, Proposals) are refuted with witnesses and characterised exactly."
  },
  {
   "property": "C16",
   "status": "proved",
   "theorems": [
    "C16_fixed_formats",
    "C16_proposal_refuted",
    "C16_proposal_complete",
    "C16_proposalv2_complete"
   ],
   "note": "Proved for fixed formats (returned object or panic; only the log dump of too short messages shows bytes behind the slice). Refuted for Proposals, with sufficient conditions."
  },
  {
   "property": "C17",
   "status": "proved",
   "theorems": [
    "C17_clc_dump_is_live",
    "C17_llc_hex_is_a_copy",
    "C17_bth_hex_is_a_copy"
   ],
   "note": ""
  },
  {
   "property": "C18",
   "status": "proved",
   "theorems": [
    "C18_layout",
    "C18_layout_unique",
    "C18_hex_dump_injective"
   ],
   "note": ""
  },
  {
   "property": "C19",
   "status": "proved",
   "theorems": [
    "C19_object_text",
    "C19_objects",
    "C19_fixed_formats",
    "C19_proposal",
    "C19_proposalv2"
   ],
   "note": ""
  },
  {
   "property": "C20",
   "status": "proved",
   "theorems": [
    "C20_shown_fce",
    "C20_long_message_refuted"
   ],
   "note": "'Shows what the message contains' is refuted for declared lengths above 114; what is shown is proved for every length."
  },
  {
   "property": "C21",
   "status": "proved",
   "theorems": [
    "C21_eid_text",
    "C21_eid_text_unique",
    "C21_bytes_string_injective"
   ],
   "note": ""
  },
  {
   "property": "C22",
   "status": "proved",
   "theorems": [
    "C22_eyecatcher",
    "C22_tcp_option"
   ],
   "note": ""
  },
  {
   "property": "C23",
   "status": "proved",
   "theorems": [
    "C23_texts",
    "C23_tables_unambiguous",
    "C23_documented_or_default",
    "C23_texts_injective"
   ],
   "note": ""
  },
  {
   "property": "C24",
   "status": "proved",
   "theorems": [
    "C24_size_codes",
    "C24_size_text",
    "C24_size_any"
   ],
   "note": ""
  },
  {
   "property": "C25",
   "status": "proved",
   "theorems": [
    "C25_dispatch",
    "C25_other"
   ],
   "note": ""
  },
  {
   "property": "C26",
   "status": "proved",
   "theorems": [
    "C26_panics_exactly_on_rkey_cont",
    "C26_never_panics_refuted"
   ],
   "note": "The expectation 'never panics' is refuted with a witness; the exact panic condition is proved."
  },
  {
   "property": "C27",
   "status": "proved",
   "theorems": [
    "C27_decode",
    "C27_decode_payload",
    "C27_lossless",
    "C27_objects_wf"
   ],
   "note": ""
  },
  {
   "property": "C28",
   "status": "proved",
   "theorems": [
    "C28_exported_parsers",
    "C28_parse_methods"
   ],
   "note": ""
  },
  {
   "property": "C29",
   "status": "proved",
   "theorems": [
    "C29_type_and_length"
   ],
   "note": ""
  },
  {
   "property": "C30",
   "status": "proved",
   "theorems": [
    "C30_object_text",
    "C30_payload_text",
    "C30_add_link_string",
    "C30_add_link_actual",
    "C30_add_link_cont_actual",
    "C30_add_link_cont_refuted",
    "C30_add_link_reserved_refuted",
    "C30_bth_text"
   ],
   "note": "The two exceptions are refuted with witnesses and the actual texts are proved."
  },
  {
   "property": "C31",
   "status": "proved",
   "theorems": [
    "C31_v1_partition",
    "C31_v2_partition"
   ],
   "note": ""
  },
  {
   "property": "C32",
   "status": "proved",
   "theorems": [
    "C32_v1_panics",
    "C32_v2_panics"
   ],
   "note": ""
  },
  {
   "property": "C33",
   "status": "proved",
   "theorems": [
    "C33_bth_decode",
    "C33_bth_lossless",
    "C33_bth_short"
   ],
   "note": ""
  },
  {
   "property": "C34",
   "status": "proved",
   "theorems": [
    "C34_opcode_texts",
    "C34_parsed_opcode"
   ],
   "note": ""
  },
  {
   "property": "C35",
   "status": "proved",
   "theorems": [
    "C35_grh_decode",
    "C35_grh_short",
    "C35_grh_total",
    "C35_grh_text",
    "C35_next_header"
   ],
   "note": ""
  },
  {
   "property": "C36",
   "status": "proved",
   "theorems": [
    "C36_linearizable",
    "C36_order_is_stable"
   ],
   "note": ""
  },
  {
   "property": "C37",
   "status": "proved",
   "theorems": [
    "C37_copies_do_not_change",
    "C37_all_copies",
    "C37_changing_a_copy_is_harmless"
   ],
   "note": ""
  },
  {
   "property": "C38",
   "status": "proved",
   "theorems": [
    "C38_what_a_flush_removes",
    "C38_flush_race_refuted",
    "C38_failed_response_refuted",
    "C38_response",
    "C38_one_response",
    "C38_one_reset"
   ],
   "note": "'Delivers everything it removes' is refuted with two schedules; what is removed and what is delivered is proved exactly."
  },
  {
   "property": "C39",
   "status": "proved",
   "theorems": [
    "C39_flush_parameter",
    "C39_request"
   ],
   "note": ""
  },
  {
   "property": "C40",
   "status": "proved",
   "theorems": [
    "C40_target_unique",
    "C40_dial",
    "C40_listen",
    "C40_dial_all",
    "C40_listen_all"
   ],
   "note": ""
  },
  {
   "property": "C41",
   "status": "proved",
   "theorems": [
    "C41_outcomes",
    "C41_terminates",
    "C41_error_refuted"
   ],
   "note": "'Every failure is reported as an error' is refuted with witnesses; all outcomes are characterised exactly."
  },
  {
   "property": "C42",
   "status": "proved",
   "theorems": [
    "C42_split",
    "C42_round_trip",
    "C42_unique",
    "C42_parse"
   ],
   "note": ""
  },
  {
   "property": "C43",
   "status": "proved",
   "theorems": [
    "C43_closes_own",
    "C43_no_leak",
    "C43_conn_stays",
    "C43_stray_finalizer",
    "C43_refuted"
   ],
   "note": "'Closed exactly once' is proved for all schedules without finalizers and refuted with three schedules with finalizers. Finalizers, descriptor reuse and dup are modelled after the documentation of os.NewFile and net.FileConn."
  },
  {
   "property": "C44",
   "status": "proved",
   "theorems": [
    "C44_llc_used_object",
    "C44_add_link_keeps_two_bytes",
    "C44_add_link_refuted",
    "C44_partial_tail"
   ],
   "note": "The exception (Add Link) is refuted with a witness and characterised exactly."
  },
  {
   "property": "C45",
   "status": "proved",
   "theorems": [
    "C45_llc_only_visible_bytes",
    "C45_roce_only_visible_bytes"
   ],
   "note": ""
  },
  {
   "property": "C46",
   "status": "proved",
   "theorems": [
    "C46_icrc_is_live"
   ],
   "note": ""
  },
  {
   "property": "C47",
   "status": "proved",
   "theorems": [
    "C47_contained_entries",
    "C47_missing_entries_refuted"
   ],
   "note": "The case of missing entries is refuted with a witness; the full text in that case is in C19_proposalv2."
  },
  {
   "property": "C48",
   "status": "proved",
   "theorems": [
    "C48_usual_offset",
    "C48_ip_offset_refuted",
    "C48_extension_offset_refuted",
    "C48_offsets_unused"
   ],
   "note": "'Parts are found at their offsets' is refuted with witnesses; C48_offsets_unused shows that the offset fields never influence anything but themselves."
  },
  {
   "property": "C49",
   "status": "proved",
   "theorems": [
    "C49_calls_can_return",
    "C49_mutex_is_released"
   ],
   "note": ""
  },
  {
   "property": "C50",
   "status": "proved",
   "theorems": [
    "C50_bytes_are_accounted_for"
   ],
   "note": ""
  },
  {
   "property": "C51",
   "status": "proved",
   "theorems": [
    "C51_StartServer_works_once",
    "C51_StartServer_exits"
   ],
   "note": ""
  },
  {
   "property": "C52",
   "status": "proved",
   "theorems": [
    "C52_decimal",
    "C52_hexadecimal",
    "C52_binary",
    "C52_bytes",
    "C52_numeral_unique",
    "C52_numeral_value"
   ],
   "note": ""
  },
  {
   "property": "C53",
   "status": "proved",
   "theorems": [
    "C53_ip",
    "C53_ip_unique",
    "C53_ip_lossless",
    "C53_mac"
   ],
   "note": ""
  },
  {
   "property": "C54",
   "status": "proved",
   "theorems": [
    "C54_clc",
    "C54_llc",
    "C54_bth",
    "C54_smcdv2_refuted"
   ],
   "note": ""
  },
  {
   "property": "C55",
   "status": "proved",
   "theorems": [
    "C55_header",
    "C55_decline_os_type"
   ],
   "note": ""
  },
  {
   "property": "C56",
   "status": "proved",
   "theorems": [
    "C56_silent_exactly_if_sound",
    "C56_end_to_end"
   ],
   "note": ""
  },
  {
   "property": "C57",
   "status": "proved",
   "theorems": [
    "C57_stream"
   ],
   "note": ""
  },
  {
   "property": "C58",
   "status": "proved",
   "theorems": [
    "C58_encoder",
    "C58_object_fields",
    "C58_clc_round_trip",
    "C58_clc_rebuild",
    "C58_llc_round_trip",
    "C58_payload_round_trip",
    "C58_llc_rebuild",
    "C58_bth_round_trip",
    "C58_bth_rebuild",
    "C58_grh_round_trip",
    "C58_grh_rebuild"
   ],
   "note": ""
  },
  {
   "property": "C59",
   "status": "proved",
   "theorems": [
    "C59_clc",
    "C59_separators_refuted"
   ],
   "note": "Without the hypothesis on separators it is refuted with a witness (C59_separators_refuted)."
  },
  {
   "property": "C60",
   "status": "proved",
   "theorems": [
    "C60_incomplete",
    "C60_incomplete_text"
   ],
   "note": ""
  },
  {
   "property": "C61",
   "status": "proved",
   "theorems": [
    "C61_new_message",
    "C61_new_clc",
    "C61_new_llc",
    "C61_new_roce"
   ],
   "note": ""
  },
  {
   "property": "C62",
   "status": "proved",
   "theorems": [
    "C62_llc",
    "C62_roce",
    "C62_grh_hex"
   ],
   "note": ""
  },
  {
   "property": "C63",
   "status": "proved",
   "theorems": [
    "C63_clc",
    "C63_clc_object",
    "C63_llc",
    "C63_llc_object",
    "C63_headers",
    "C63_headers_object",
    "C63_roce_v2",
    "C63_roce_v1"
   ],
   "note": ""
  },
  {
   "property": "C64",
   "status": "proved",
   "theorems": [
    "C64_same_runs",
    "C64_clc",
    "C64_llc",
    "C64_bth",
    "C64_unchanged_refuted"
   ],
   "note": "The expectation 'unchanged' is refuted with a witness; what is left behind is proved for all types. For Proposals the field list covers the fixed part; see C65 and C67 for the areas of variable size."
  },
  {
   "property": "C65",
   "status": "proved",
   "theorems": [
    "C65_proposal",
    "C65_eids",
    "C65_gids",
    "C65_no_others"
   ],
   "note": ""
  },
  {
   "property": "C66",
   "status": "proved",
   "theorems": [
    "C66_no_data_race",
    "C66_buffer_needs_mutex",
    "C66_bytes_need_mutex"
   ],
   "note": ""
  },
  {
   "property": "C67",
   "status": "proved",
   "theorems": [
    "C67_proposal",
    "C67_proposalv2"
   ],
   "note": ""
  },
  {
   "property": "C68",
   "status": "proved",
   "theorems": [
    "C68_clc",
    "C68_llc",
    "C68_bth",
    "C68_grh"
   ],
   "note": ""
  },
  {
   "property": "C69",
   "status": "proved",
   "theorems": [
    "C69_dump",
    "C69_clc_text",
    "C69_prefixes",
    "C69_reused_proposal_refuted",
    "C69_llc_text",
    "C69_bth_text",
    "C69_grh_text",
    "C69_clc_log",
    "C69_new_log",
    "C69_silent"
   ],
   "note": "A limit for reused Proposals is refuted; the limits are proved in terms of the number of prefixes held."
  },
  {
   "property": "C70",
   "status": "proved",
   "theorems": [
    "C70_accepted",
    "C70_exactly"
   ],
   "note": ""
  },
  {
   "property": "C71",
   "status": "proved",
   "theorems": [
    "C71_no_copies",
    "C71_receiver",
    "C71_others",
    "C71_others_same",
    "C71_copies_refuted"
   ],
   "note": "That copies are independent is refuted; what can and cannot change is proved."
  },
  {
   "property": "C72",
   "status": "proved",
   "theorems": [
    "C72_untouched",
    "C72_recognition",
    "C72_texts",
    "C72_trailer",
    "C72_options",
    "C72_behind",
    "C72_in_step",
    "C72_smcd",
    "C72_option_refuted"
   ],
   "note": "That SMCOption can be changed without an effect on CLC messages is refuted."
  },
  {
   "property": "C73",
   "status": "proved",
   "theorems": [
    "C73_clc",
    "C73_llc",
    "C73_bth",
    "C73_proposal",
    "C73_proposalv2",
    "C73_length_only_refuted"
   ],
   "note": "That the object depends on the bytes of the buffer alone is refuted; what it holds is proved for all types."
  },
  {
   "property": "C74",
   "status": "proved",
   "theorems": [
    "C74_clc",
    "C74_llc",
    "C74_bth",
    "C74_one_line",
    "C74_quiet_refuted"
   ],
   "note": "That a panicking Parse logs nothing is refuted; what it logs and does is proved for all types."
  },
  {
   "property": "C75",
   "status": "proved",
   "theorems": [
    "C75_reserved",
    "C75_string",
    "C75_bth",
    "C75_bth_string",
    "C75_grh",
    "C75_packet_v2",
    "C75_packet_v1",
    "C75_packet_refuted"
   ],
   "note": "That all texts together determine a packet is refuted; which packets have the same texts is proved exactly."
  },
  {
   "property": "C76",
   "status": "proved",
   "theorems": [
    "C76_clc",
    "C76_same_fields",
    "C76_whole",
    "C76_bytes_refuted"
   ],
   "note": "That texts determine the bytes is refuted (bytes in gaps); which sound messages have the same texts is proved exactly."
  },
  {
   "property": "C77",
   "status": "proved",
   "theorems": [
    "C77_clc",
    "C77_texts",
    "C77_new",
    "C77_after",
    "C77_llc",
    "C77_llc_after",
    "C77_roce",
    "C77_capacity_refuted"
   ],
   "note": "That length and bytes decide without the capacity is refuted."
  },
  {
   "property": "C78",
   "status": "proved",
   "theorems": [
    "C78_pieces",
    "C78_any_split",
    "C78_good",
    "C78_capacity_refuted"
   ],
   "note": "With Parse(buf[:length]) and messages that are not sound, independence of the pieces is refuted; with Parse(buf[:length:length]) it is proved for all complete messages."
  },
  {
   "property": "C79",
   "status": "proved",
   "theorems": [
    "C79_apart",
    "C79_parse",
    "C79_store",
    "C79_later",
    "C79_buffers"
   ],
   "note": ""
  },
  {
   "property": "C80",
   "status": "proved",
   "theorems": [
    "C80_proposal",
    "C80_proposal_v2",
    "C80_ends",
    "C80_24bit",
    "C80_sizes"
   ],
   "note": ""
  },
  {
   "property": "C81",
   "status": "proved",
   "theorems": [
    "C81_parse",
    "C81_later",
    "C81_buffers",
    "C81_grh"
   ],
   "note": ""
  },
  {
   "property": "C82",
   "status": "proved",
   "theorems": [
    "C82_clc",
    "C82_header",
    "C82_llc",
    "C82_bth",
    "C82_grh",
    "C82_dump",
    "C82_log",
    "C82_new_log",
    "C82_received_refuted"
   ],
   "note": "That texts of all received messages are printable is refuted with a witness; what is proved is that only the names can make a difference."
  },
  {
   "property": "C83",
   "status": "proved",
   "theorems": [
    "C83_handled",
    "C83_moved",
    "C83_refused",
    "C83_clean",
    "C83_follow",
    "C83_location",
    "C83_follow_any",
    "C83_flush",
    "C83_same_query_refuted"
   ],
   "note": "The functions of net/http, path and net/url were modelled without their source at hand and are part of the trusted base. That the query always stays the same is refuted with a witness."
  }
 ]
}