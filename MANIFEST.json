{
 "claims": [
  {
   "property": "C01",
   "status": "proved",
   "theorems": [
    "C01_length_round_trip",
    "C01_length_too_large"
   ],
   "note": ""
  },
  {
   "property": "C02",
   "status": "proved",
   "theorems": [
    "C02_length_bytes",
    "C02_length_minimal"
   ],
   "note": ""
  },
  {
   "property": "C03",
   "status": "proved",
   "theorems": [
    "C03_compress",
    "C03_compress_too_large",
    "C03_no_unknown_error"
   ],
   "note": ""
  },
  {
   "property": "C04",
   "status": "proved",
   "theorems": [
    "C04_every_byte",
    "C04_reencode"
   ],
   "note": ""
  },
  {
   "property": "C05",
   "status": "proved",
   "theorems": [
    "C05_decompress_refuted",
    "C05_decompress_exact"
   ],
   "note": "Refuted by the code: an over-wide mantissa is rejected, but reported as ExponentTooLarge. The exact outcome of every pair is proved."
  },
  {
   "property": "C06",
   "status": "proved",
   "theorems": [
    "C06_action_round_trip"
   ],
   "note": "wf_action is the consistency condition; TxStatus is covered by C41 and a status of an unknown interface type by C09."
  },
  {
   "property": "C07",
   "status": "proved",
   "theorems": [
    "C07_layout",
    "C07_first_byte"
   ],
   "note": ""
  },
  {
   "property": "C08",
   "status": "proved",
   "theorems": [
    "C08_dispatch",
    "C08_unassigned"
   ],
   "note": ""
  },
  {
   "property": "C09",
   "status": "proved",
   "theorems": [
    "C09_reencode_refuted",
    "C09_reencode_exact",
    "C09_command_reencode"
   ],
   "note": "Refuted by the code: a status of an unknown interface (and TxStatus) does not re-parse. Serialising always succeeds, and exactly which parsed actions come back is proved."
  },
  {
   "property": "C10",
   "status": "proved",
   "theorems": [
    "C10_command_round_trip"
   ],
   "note": ""
  },
  {
   "property": "C11",
   "status": "proved",
   "theorems": [
    "C11_concat_refuted",
    "C11_concat_exact",
    "C11_concat_bits",
    "C11_concat",
    "C11_actions",
    "C11_fails"
   ],
   "note": "Refuted by the code for TxStatus (wizzilab), which is not a whole number of bytes; C11_concat_exact says when it holds, for any two commands; proved for every command without TxStatus, and for all commands at the level of bits."
  },
  {
   "property": "C13",
   "status": "proved",
   "theorems": [
    "C13_action_truncated",
    "C13_command_truncated",
    "C13_command_cut"
   ],
   "note": ""
  },
  {
   "property": "C14",
   "status": "proved",
   "theorems": [
    "C14_garbage_refuted",
    "C14_garbage_exact"
   ],
   "note": "Refuted by the code: one extra byte is accepted silently. The exact outcome for every suffix is proved."
  },
  {
   "property": "C15",
   "status": "proved",
   "theorems": [
    "C15_remainder_refuted",
    "C15_remainder_exact",
    "C15_remainder_well_formed",
    "C15_remainder_bits",
    "C15_command_remainder"
   ],
   "note": "Refuted by the code: the remainder misses one byte per parsed action. The exact remainder is proved; for commands with TxStatus it is in C50_command."
  },
  {
   "property": "C16",
   "status": "proved",
   "theorems": [
    "C16_indirect_last",
    "C16_rest_ignored",
    "C16_no_round_trip"
   ],
   "note": ""
  },
  {
   "property": "C37",
   "status": "proved",
   "theorems": [
    "C37_offset_refuted",
    "C37_offset_mixed",
    "C37_offset_next_byte",
    "C37_offset_unassigned",
    "C37_offset_short",
    "C37_offset_whole_bytes"
   ],
   "note": "Refuted by the code: at an offset inside a byte the opcode is taken there but the operand from the following byte boundary. Exact behaviour proved."
  },
  {
   "property": "C41",
   "status": "proved",
   "theorems": [
    "C41_tx_status_refuted"
   ],
   "note": "Refuted by the code: no TxStatus round-trips; its bytes always parse as a Nop."
  },
  {
   "property": "C42",
   "status": "proved",
   "theorems": [
    "C42_prefix_free",
    "C42_commands"
   ],
   "note": ""
  },
  {
   "property": "C43",
   "status": "proved",
   "theorems": [
    "C43_fails_refuted",
    "C43_fails_exact"
   ],
   "note": "Refuted by the code: the size of a payload is taken modulo 2^32. The exact condition is proved for every value of the types."
  },
  {
   "property": "C48",
   "status": "proved",
   "theorems": [
    "C48_size",
    "C48_at_least_one_byte"
   ],
   "note": "The second half of C43_fails_exact gives the same size for whatever can be written."
  },
  {
   "property": "C49",
   "status": "proved",
   "theorems": [
    "C49_opcode_ignored"
   ],
   "note": ""
  },
  {
   "property": "C17",
   "status": "proved",
   "theorems": [
    "C17_tags",
    "C17_tags_exist"
   ],
   "note": ""
  },
  {
   "property": "C18",
   "status": "proved",
   "theorems": [
    "C18_first_status",
    "C18_other_actions"
   ],
   "note": ""
  },
  {
   "property": "C47",
   "status": "proved",
   "theorems": [
    "C47_display",
    "C47_status"
   ],
   "note": "C47_display: the rendering of one action or status is a parameter. C47_status: the rendering of the status, by the derived text of its parts."
  },
  {
   "property": "C19",
   "status": "proved",
   "theorems": [
    "C19_addressee_round_trip",
    "C19_addressee_layout",
    "C19_addressee_exact"
   ],
   "note": ""
  },
  {
   "property": "C20",
   "status": "proved",
   "theorems": [
    "C20_update_repairs",
    "C20_without_update",
    "C20_update_fixpoint"
   ],
   "note": ""
  },
  {
   "property": "C21",
   "status": "proved",
   "theorems": [
    "C21_query_layout",
    "C21_query_exact"
   ],
   "note": ""
  },
  {
   "property": "C44",
   "status": "proved",
   "theorems": [
    "C44_update_refuted",
    "C44_update_agrees",
    "C44_length_kept",
    "C44_updated_comes_back",
    "C44_updated_exact"
   ],
   "note": "Refuted by the code: update() leaves the stored length alone for comparison with another file and for bitmap range comparison. C44_update_agrees and C44_length_kept say which queries it repairs; C44_updated_exact says when the updated query comes back."
  },
  {
   "property": "C46",
   "status": "proved",
   "theorems": [
    "C46_otaa",
    "C46_abp"
   ],
   "note": ""
  },
  {
   "property": "C22",
   "status": "proved",
   "theorems": [
    "C22_file_round_trip",
    "C22_file_exact"
   ],
   "note": ""
  },
  {
   "property": "C23",
   "status": "proved",
   "theorems": [
    "C23_prefix_refuted",
    "C23_written_prefix",
    "C23_consumed",
    "C23_typed_ignores_prefix",
    "C23_untyped_exact"
   ],
   "note": "Refuted by the code: the written prefix is the exact byte count, but a file with typed content ignores the prefix when read. The other theorems say exactly what is consumed."
  },
  {
   "property": "C24",
   "status": "proved",
   "theorems": [
    "C24_write_string",
    "C24_read_string",
    "C24_firmware_exact",
    "C24_firmware_otherwise"
   ],
   "note": ""
  },
  {
   "property": "C25",
   "status": "proved",
   "theorems": [
    "C25_size_refuted",
    "C25_size_exact",
    "C25_id_selects"
   ],
   "note": "Refuted by the code: the sizes are 15 and 65, SIZE says 17 and 0. The ids are right."
  },
  {
   "property": "C26",
   "status": "proved",
   "theorems": [
    "C26_file_id_refuted",
    "C26_file_id_exact"
   ],
   "note": "Refuted by the code: try_from is total, but Into<u8> panics for the ids that share a variant. C26_file_id_exact lists them."
  },
  {
   "property": "C29",
   "status": "proved",
   "theorems": [
    "C29_phy_status_refuted",
    "C29_phy_status_exact",
    "C29_phy_status_wraps",
    "C29_update_exact"
   ],
   "note": "Refuted by the code: more than 255 channels wrap the count in new(). update() behaves as stated."
  },
  {
   "property": "C27",
   "status": "proved",
   "theorems": [
    "C27_refuted",
    "C27_operation_round_trip",
    "C27_action_wf",
    "C27_other_exact",
    "C27_lorawan_rejected"
   ],
   "note": "Refuted by the code for the status Other: its type has no code, so no type byte is written. Host, serial and DASH7 statuses round-trip; C27_other_exact says when an Other status comes back; LoRaWAN types are rejected."
  },
  {
   "property": "C30",
   "status": "proved",
   "theorems": [
    "C30_refuted",
    "C30_access_class_exact",
    "C30_channel_status_exact",
    "C30_string_search_exact"
   ],
   "note": "Refuted by the code: no error is reported, the high bits are dropped. The exact theorems say what is written and what is read back."
  },
  {
   "property": "C31",
   "status": "proved",
   "theorems": [
    "C31_physical",
    "C31_network",
    "C31_session",
    "C31_data",
    "C31_app",
    "C31_query",
    "C31_query_written",
    "C31_permission",
    "C31_tx_status_type",
    "C31_interface_type_exact",
    "C31_interface_type_unknown_refuted"
   ],
   "note": "Holds for all code-carrying enums except the interface type, which accepts every code and forgets the unassigned ones. For file ids see C26."
  },
  {
   "property": "C32",
   "status": "proved",
   "theorems": [
    "C32_is_err_refuted",
    "C32_is_err_exact"
   ],
   "note": "Refuted by the code at 0x80 only."
  },
  {
   "property": "C36",
   "status": "proved",
   "theorems": [
    "C36_pad_rest_refuted",
    "C36_panic_exact",
    "C36_panic_large",
    "C36_no_panic_small",
    "C36_suffix",
    "C36_no_error"
   ],
   "note": "Refuted by the code: slicing past the end panics for bit offsets above 8. C36_panic_exact says exactly when; otherwise the result is the stated suffix."
  },
  {
   "property": "C38",
   "status": "proved",
   "theorems": [
    "C38_drops_refuted",
    "C38_failure_exact",
    "C38_success",
    "C38_result"
   ],
   "note": "Refuted by the code: on failure at element k the guard drops slots k to 2k-1 instead of 0 to k-1. Success is as stated."
  },
  {
   "property": "C12",
   "status": "proved",
   "theorems": [
    "C12_action_no_panic",
    "C12_command_no_panic",
    "C12_frames_no_panic",
    "C12_from_bytes_refuted",
    "C12_from_bytes_exact"
   ],
   "note": "All try_from entry points and all frame readers proved panic free. The derived ForegroundFrame::from_bytes, which returns the rest, does panic; when exactly is C12_from_bytes_exact (spec and subiot) and C61_frame (all builds)."
  },
  {
   "property": "C33",
   "status": "proved",
   "theorems": [
    "C33_bytes",
    "C33_value",
    "C33_exact"
   ],
   "note": "payload and crc16 are in host byte order, either order is covered."
  },
  {
   "property": "C34",
   "status": "proved",
   "theorems": [
    "C34_refuted",
    "C34_layout",
    "C34_split",
    "C34_exact",
    "C34_otherwise",
    "C34_intended_length",
    "C34_api",
    "C34_wizzilab"
   ],
   "note": "Refuted by the code: the loop compares the length field with the position in the whole input, so a length that counts the bytes behind it runs over the CRC. Exact characterisations for all three features."
  },
  {
   "property": "C35",
   "status": "proved",
   "theorems": [
    "C35_refuted",
    "C35_network_bits",
    "C35_transport_bits",
    "C35_reads",
    "C35_offsets"
   ],
   "note": "Refuted by the code: the transport control field has 7 bits, the network control field 9 bits (8 with wizzilab)."
  },
  {
   "property": "C28",
   "status": "proved",
   "theorems": [
    "C28_refuted",
    "C28_exact",
    "C28_turned_writing",
    "C28_turned_reading"
   ],
   "note": "Refuted by the code: security key file, ABP address and network id, transmission time stamp and the frames' checksum and payload are in host byte order. Exact condition for equal bytes, and what the other machine reads and writes."
  },
  {
   "property": "C39",
   "status": "proved",
   "theorems": [
    "C39_refuted",
    "C39_systemfile_refuted",
    "C39_fails_exact",
    "C39_any_exact",
    "C39_systemfile_exact"
   ],
   "note": "Refuted by the code: only malformed hex is reported. Eight bytes or more are printed as a unique id, fewer as an empty file."
  },
  {
   "property": "C40",
   "status": "proved",
   "theorems": [
    "C40_white_space",
    "C40_bytes",
    "C40_parsed",
    "C40_rejected",
    "C40_spelling"
   ],
   "note": "For all strings of Unicode scalar values."
  },
  {
   "property": "C45",
   "status": "proved",
   "theorems": [
    "C45_refuted",
    "C45_lorawan_refuted",
    "C45_frames_refuted",
    "C45_network_frame",
    "C45_small",
    "C45_queries",
    "C45_large",
    "C45_actions",
    "C45_actions_changed",
    "C45_cut_short",
    "C45_wire_form"
   ],
   "note": "Refuted by the code: the defaults of FileData, of the two LoRaWAN configurations, of ForegroundFrame and of the transport Frame are written but cannot be read back; the network Frame only without the wizzilab feature. All other defaults come back; default operands come back with the opcode of their action."
  },
  {
   "property": "C50",
   "status": "proved",
   "theorems": [
    "C50_action",
    "C50_action_try_from",
    "C50_command",
    "C50_command_try_from",
    "C50_references"
   ],
   "note": "For all byte strings; includes the exact remainder that from_bytes reports."
  },
  {
   "property": "C51",
   "status": "proved",
   "theorems": [
    "C51_types",
    "C51_operations",
    "C51_file"
   ],
   "note": "For all byte strings; from_bytes and TryFrom of 22 types, and File::from_bytes by file number and length."
  },
  {
   "property": "C52",
   "status": "proved",
   "theorems": [
    "C52_refuted",
    "C52_understood",
    "C52_written",
    "C52_written_subiot",
    "C52_written_forward",
    "C52_read_wizzilab",
    "C52_read_subiot",
    "C52_read_forward",
    "C52_read_subiot_command"
   ],
   "note": "Refuted by the code: a subiot build and a spec build parse each other's DASH7 forwards as different commands, and the group condition of wizzilab is dropped silently. Exact relation between the builds for every input, and the commands that all builds agree on."
  },
  {
   "property": "C53",
   "status": "proved",
   "theorems": [
    "C53_action",
    "C53_types",
    "C53_file",
    "C53_interfaces"
   ],
   "note": "For all inputs and continuations."
  },
  {
   "property": "C54",
   "status": "proved",
   "theorems": [
    "C54_join",
    "C54_join_closed",
    "C54_split",
    "C54_join_try_from",
    "C54_split_try_from"
   ],
   "note": "For all byte strings."
  },
  {
   "property": "C55",
   "status": "proved",
   "theorems": [
    "C55_command",
    "C55_action"
   ],
   "note": "For all byte strings."
  },
  {
   "property": "C56",
   "status": "proved",
   "theorems": [
    "C56_action"
   ],
   "note": "For all actions. The case of unknown interfaces depends on the assumption e_rewind about deku, which the statement names."
  },
  {
   "property": "C57",
   "status": "proved",
   "theorems": [
    "C57_command",
    "C57_command_known",
    "C57_not_put_back"
   ],
   "note": "For all commands and builds, whether or not the id of an unknown interface is put back into the stream."
  },
  {
   "property": "C58",
   "status": "proved",
   "theorems": [
    "C58_action_refuted",
    "C58_query_refuted",
    "C58_forward_refuted",
    "C58_frame_refuted",
    "C58_file_data_refuted",
    "C58_useless",
    "C58_indirect_exact",
    "C58_forward_exact"
   ],
   "note": "Refuted by the code: update() of Action does nothing and the derived update() does not descend (C58_useless: it changes neither the bytes of any value nor whether they parse back). Exact result of updating the innermost part instead."
  },
  {
   "property": "C59",
   "status": "proved",
   "theorems": [
    "C59_forward",
    "C59_indirect_forward",
    "C59_addressee",
    "C59_chunk",
    "C59_header",
    "C59_parts",
    "C59_file_data_refuted",
    "C59_file_data_exact",
    "C59_status_exact",
    "C59_final_panics",
    "C59_tx_panics",
    "C59_final_built",
    "C59_header_bytes",
    "C59_access_class",
    "C59_tx_built",
    "C59_interface_status",
    "C59_unchecked",
    "C59_from_u32"
   ],
   "note": "Refuted by the code for FileData::new (content of another file) and for the conversions of final and transmission statuses (panic); proved for the others, exact for all."
  },
  {
   "property": "C60",
   "status": "proved",
   "theorems": [
    "C60_physical_refuted",
    "C60_network_refuted",
    "C60_session_refuted",
    "C60_data_refuted",
    "C60_query_refuted",
    "C60_operation_refuted",
    "C60_frames_refuted",
    "C60_noise_floor_refuted",
    "C60_physical_exact",
    "C60_network_exact",
    "C60_app_exact",
    "C60_headers_exact",
    "C60_noise_floor_exact"
   ],
   "note": "Refuted by the code: TryFrom of these types rejects every input. Exact behaviour of to_bytes and from_bytes for the enums."
  },
  {
   "property": "C61",
   "status": "proved",
   "theorems": [
    "C61_frame",
    "C61_background_frame"
   ],
   "note": "For all byte strings. Says also when from_bytes panics and what try_from makes of it."
  },
  {
   "property": "C62",
   "status": "proved",
   "theorems": [
    "C62_refuted",
    "C62_exact",
    "C62_accepted"
   ],
   "note": "Refuted by the code: without a limit the checksum is parsed as further actions. Exact for well-formed frames; whatever the bytes, an accepted frame of length 0 ends with an indirect forward."
  },
  {
   "property": "C63",
   "status": "proved",
   "theorems": [
    "C63_incomplete_refuted",
    "C63_action_exact",
    "C63_action_stuck",
    "C63_command_exact",
    "C63_command_stuck"
   ],
   "note": "Refuted by the code: three kinds of cut input are reported as incomplete although no continuation is accepted. Exact for all byte strings and builds; the inputs concerned are listed in SpecLive.v."
  },
  {
   "property": "C64",
   "status": "proved",
   "theorems": [
    "C64_types",
    "C64_file",
    "C64_version_refuted",
    "C64_status_refuted",
    "C64_action",
    "C64_command"
   ],
   "note": "Refuted by the code for the firmware version file and the interface status operation (see C63); proved for 21 other types, all other files, actions and commands."
  },
  {
   "property": "C65",
   "status": "proved",
   "theorems": [
    "C65_file",
    "C65_file_exact",
    "C65_status",
    "C65_status_exact",
    "C65_network",
    "C65_transport",
    "C65_layout",
    "C65_refuted",
    "C65_network_exact",
    "C65_network_exact_wizzilab",
    "C65_transport_exact"
   ],
   "note": "Refuted by the code: C65_refuted gives a file, a status, a transport and a network frame that do not come back; the _exact theorems say which do; C65_file, C65_status, C65_network and C65_transport give the outcome of try_from and from_bytes for every input."
  },
  {
   "property": "C66",
   "status": "proved",
   "theorems": [
    "C66_refuted",
    "C66_action",
    "C66_command",
    "C66_rigid"
   ],
   "note": "Refuted by the code: several byte strings mean the same action. C66_action and C66_command say exactly which input comes back unchanged, in terms of a strict decoder (SpecCanonical.v); C66_rigid lists kinds of action without a second form."
  },
  {
   "property": "C67",
   "status": "proved",
   "theorems": [
    "C67_types",
    "C67_operations",
    "C67_frame",
    "C67_file",
    "C67_physical_enums",
    "C67_network_enums",
    "C67_app_enums",
    "C67_continue",
    "C67_continue_bits",
    "C67_unassigned_refuted",
    "C67_interface_exact",
    "C67_indirect_exact",
    "C67_status_exact"
   ],
   "note": "Refuted by the code for the three types whose last variant takes any id, exactly where deku puts such an id back into the stream (the crate's dependency decides which, see the trusted base); proved for all others, with the exact outcome for the three."
  },
  {
   "property": "C68",
   "status": "proved",
   "theorems": [
    "C68_debug_text",
    "C68_debug_text_parsed"
   ],
   "note": "For the text derive(Debug) writes, as stated in the trusted base. The hypotheses (SpecDebug.v, real_*) say only that the value exists in the build; C68_debug_text_parsed shows every parsed value does."
  },
  {
   "property": "C69",
   "status": "proved",
   "theorems": [
    "C69_display_refuted",
    "C69_display_exact"
   ],
   "note": "Refuted by the code: C69_display_refuted has the witness, C69_display_exact says exactly when two commands print the same."
  },
  {
   "property": "C70",
   "status": "proved",
   "theorems": [
    "C70_one_line_refuted",
    "C70_same_result_refuted",
    "C70_one_line_exact",
    "C70_lines_exact",
    "C70_no_input",
    "C70_results",
    "C70_tool_output",
    "C70_input",
    "C70_tool_output_plain"
   ],
   "note": "Refuted by the code: C70_one_line_refuted and C70_same_result_refuted have the witnesses, C70_lines_exact, C70_results and C70_tool_output say exactly what is printed. A file id option is a byte, as clap parses it."
  },
  {
   "property": "C71",
   "status": "proved",
   "theorems": [
    "C71_silent_refuted",
    "C71_lines_exact",
    "C71_failed_action",
    "C71_failed_command"
   ],
   "note": "Refuted by the code: C71_silent_refuted has the witness, C71_lines_exact says exactly what is written."
  },
  {
   "property": "C72",
   "status": "proved",
   "theorems": [
    "C72_one_arrives",
    "C72_up_best",
    "C72_up_monotone",
    "C72_down_below",
    "C72_down_best_refuted",
    "C72_down_exact",
    "C72_down_monotone_refuted",
    "C72_down_order"
   ],
   "note": "Refuted by the code for rounding down: C72_down_best_refuted and C72_down_monotone_refuted have the witnesses, C72_down_exact and C72_down_order say exactly where. Holds for rounding up."
  },
  {
   "property": "C73",
   "status": "proved",
   "theorems": [
    "C73_start",
    "C73_action",
    "C73_command",
    "C73_types",
    "C73_operations",
    "C73_enums",
    "C73_left_types",
    "C73_left_operations",
    "C73_left_action",
    "C73_one_by_one",
    "C73_left_command_refuted",
    "C73_left_command_exact",
    "C73_frame_refuted",
    "C73_frame_exact",
    "C73_frame_late",
    "C73_frame_unlimited"
   ],
   "note": "Refuted by the code for commands and foreground frames: C73_left_command_refuted and C73_frame_refuted have the witnesses, C73_left_command_exact and C73_frame_exact say exactly what happens. Holds for actions and all standalone types."
  },
  {
   "property": "C74",
   "status": "proved",
   "theorems": [
    "C74_written",
    "C74_refuted",
    "C74_reencode",
    "C74_reencode_known",
    "C74_exact",
    "C74_alone",
    "C74_followed",
    "C74_known",
    "C74_wizzilab",
    "C74_wizzilab_wf",
    "C74_wizzilab_odd"
   ],
   "note": "Refuted by the code: C74_refuted has the witness; C74_alone, C74_exact and C74_wizzilab say exactly which frames come back (any value; with wizzilab a length other than 0, or any well-formed frame). C74_exact allows for bytes behind the frame and then leaves out statuses of unknown interfaces whose id is not put back; C74_alone does not."
  },
  {
   "property": "C75",
   "status": "proved",
   "theorems": [
    "C75_refuted",
    "C75_action",
    "C75_by_one",
    "C75_command"
   ],
   "note": "Refuted by the code: C75_refuted has the witness, C75_action and C75_by_one say exactly which actions grow and by how much."
  },
  {
   "property": "C76",
   "status": "proved",
   "theorems": [
    "C76_frame_pieces",
    "C76_frame",
    "C76_action",
    "C76_types",
    "C76_operations"
   ],
   "note": ""
  },
  {
   "property": "C77",
   "status": "proved",
   "theorems": [
    "C77_incomplete_refuted",
    "C77_incomplete_exact",
    "C77_stuck",
    "C77_names",
    "C77_entry_points",
    "C77_background"
   ],
   "note": "Refuted by the code: a cut frame with an unassigned security method is reported as Incomplete; C77_incomplete_exact and C77_stuck say exactly when."
  },
  {
   "property": "C78",
   "status": "proved",
   "theorems": [
    "C78_refuted",
    "C78_frame",
    "C78_wizzilab",
    "C78_wizzilab_0"
   ],
   "note": "Refuted by the code: a frame with a number in two bytes where one is enough is written in fewer bytes than it was read from; C78_frame and C78_wizzilab say exactly what comes back; C78_frame leaves out a frame with bytes behind it whose status of an unknown interface lost its id (C78_example_unknown shows why). C78_wizzilab leaves out length field 0, for which C78_wizzilab_0 has a witness."
  },
  {
   "property": "C79",
   "status": "proved",
   "theorems": [
    "C79_unambiguous",
    "C79_prefix_refuted",
    "C79_prefix_exact",
    "C79_counted",
    "C79_background"
   ],
   "note": "Refuted by the code in one part: a frame without actions is the beginning of one with a Nop and the same length field; C79_prefix_exact says when this happens and C79_counted that it does not with length fields that fit."
  },
  {
   "property": "C80",
   "status": "proved",
   "theorems": [
    "C80_refuted",
    "C80_operations_refuted",
    "C80_one_form",
    "C80_types",
    "C80_operations",
    "C80_file"
   ],
   "note": "Refuted by the code for most types: Length takes 40 01 and writes 01. C80_one_form lists the types for which it holds; C80_types, C80_operations and C80_file say for which inputs it holds otherwise."
  },
  {
   "property": "C81",
   "status": "proved",
   "theorems": [
    "C81_held",
    "C81_refuted",
    "C81_written"
   ],
   "note": "Refuted by the code in one part: a frame of 79 bytes with an access profile announced as empty is written in 80. C81_written is the bound."
  },
  {
   "property": "C82",
   "status": "proved",
   "theorems": [
    "C82_refuted",
    "C82_read_subiot",
    "C82_written_subiot",
    "C82_written_wizzilab",
    "C82_common"
   ],
   "note": "Refuted by the code: the network control field has 9 bits without wizzilab and 8 with it, and the forward over DASH7 has a byte less with subiot, so frames are misread without an error. The other theorems say what is understood."
  },
  {
   "property": "C83",
   "status": "proved",
   "theorems": [
    "C83_types",
    "C83_operations",
    "C83_files",
    "C83_status",
    "C83_refuted",
    "C83_file",
    "C83_file_parsed"
   ],
   "note": "Refuted by the code for one type: the status of an unknown interface with a payload of one byte, announced in two, is written as [1, payload] and read as the status of the serial interface. C83_status is the exact condition; the other theorems settle every other type."
  },
  {
   "property": "C84",
   "status": "proved",
   "theorems": [
    "C84_foreground",
    "C84_background",
    "C84_command",
    "C84_types",
    "C84_operations",
    "C84_files",
    "C84_eirp",
    "C84_access",
    "C84_tag"
   ],
   "note": "Any value at all, for frames, commands, files and 33 types on their own."
  },
  {
   "property": "C85",
   "status": "proved",
   "theorems": [
    "C85_codes",
    "C85_parsed",
    "C85_empty",
    "C85_written",
    "C85_survives_refuted",
    "C85_survives_exact",
    "C85_specifier"
   ],
   "note": "Refuted by the code: Rfu, D7AalpRfu and Other keep no number, are written as no bytes at all, and what is written does not parse. C85_codes, C85_parsed, C85_written and C85_survives_exact say what happens for every byte and every value."
  },
  {
   "property": "C86",
   "status": "proved",
   "theorems": [
    "C86_same",
    "C86_refuted",
    "C86_bound",
    "C86_action",
    "C86_command",
    "C86_frame"
   ],
   "note": "Refuted by the code: seven bytes announce a file of 2^30 - 1 bytes and room is made for them before the input is found to be short. C86_bound and the last three theorems say how much is set aside: exactly the vectors of the result where there is one, and at most one more vector than was filled where there is none."
  },
  {
   "property": "C87",
   "status": "proved",
   "theorems": [
    "C87_refuted",
    "C87_any",
    "C87_try_from",
    "C87_background",
    "C87_written"
   ],
   "note": "Refuted by the code: crc16 is an ordinary field. C87_any and C87_try_from: behind every accepted frame every checksum is accepted, and only the field changes. C87_written: it is written as it is."
  },
  {
   "property": "C88",
   "status": "proved",
   "theorems": [
    "C88_bounds",
    "C88_least",
    "C88_greatest",
    "C88_any"
   ],
   "note": "The table is SpecBounds.bounds. The greatest action is a query with a mask, of 2^31 + 9 bytes (C88_any)."
  },
  {
   "property": "C89",
   "status": "proved",
   "theorems": [
    "C89_refuted",
    "C89_once",
    "C89_many",
    "C89_settles"
   ],
   "note": "Refuted by the code: a status of an unknown interface is written without its id, so what follows may be parsed differently. C89_many: any number of rounds may change something. C89_settles: no more than there are bytes, as long as no file of C75_action is parsed on the way; with such files, which are written longer than they were parsed, neither an end nor an endless sequence is shown."
  },
  {
   "property": "C90",
   "status": "proved",
   "theorems": [
    "C90_value",
    "C90_kind",
    "C90_refuted",
    "C90_exact",
    "C90_mantissa"
   ],
   "note": "Refuted by the code: 2 ^ 3 and 2 ^ 5 are exclusive ors, so the texts give 1 and 7 as the largest exponent and mantissa instead of 7 and 31; a mantissa that is too large is called an exponent. C90_value: true of values. C90_exact: the text for every exponent and mantissa. C90_mantissa: the text about mantissas is never given."
  },
  {
   "property": "C91",
   "status": "proved",
   "theorems": [
    "C91_text",
    "C91_unique"
   ],
   "note": "The errors of String::from_utf8 are part of the trusted base. C91_unique: what the text says is determined by the bytes."
  },
  {
   "property": "C92",
   "status": "proved",
   "theorems": [
    "C92_written",
    "C92_read",
    "C92_configuration",
    "C92_action",
    "C92_doubled"
   ],
   "note": "C92_read: values without such a status, from any stream and any bit. C92_configuration and C92_action: errors included, from the beginning of a byte. C92_doubled: the exact difference."
  },
  {
   "property": "C93",
   "status": "proved",
   "theorems": [
    "C93_action",
    "C93_command",
    "C93_command_reached",
    "C93_frame",
    "C93_background",
    "C93_tool"
   ],
   "note": "Bytes of UTF-8 text are counted. Reached: the bounds of commands (C93_command_reached), of one action and of background frames (example)."
  },
  {
   "property": "C94",
   "status": "proved",
   "theorems": [
    "C94_action",
    "C94_command",
    "C94_frame",
    "C94_background",
    "C94_types",
    "C94_operations",
    "C94_files",
    "C94_layout"
   ],
   "note": "Which values cannot be written is settled by C43 and C84. The tables are written down apart from the writers; the encodings of a Length and of a VarInt are the documented ones of C07."
  },
  {
   "property": "C95",
   "status": "proved",
   "theorems": [
    "C95_queries",
    "C95_queries_updated",
    "C95_addressee",
    "C95_addressee_updated",
    "C95_phy_status",
    "C95_phy_status_updated",
    "C95_interface_status",
    "C95_final_status",
    "C95_status",
    "C95_indirect_forward",
    "C95_indirect_forward_updated",
    "C95_forward",
    "C95_file_data",
    "C95_kept"
   ],
   "note": "When the result comes back from the wire is settled by C21, C44, C58 and C59. Found by mutation testing: two constructors with swapped arguments got past every earlier theorem."
  },
  {
   "property": "C96",
   "status": "proved",
   "theorems": [
    "C96_length",
    "C96_length_followed",
    "C96_file_offset",
    "C96_varint",
    "C96_varint_refuted",
    "C96_varint_exact",
    "C96_varint_sendable",
    "C96_varint_bytes_refuted"
   ],
   "note": "Refuted by the code: for VarInts only. A number rounded up can be written as a greater byte than a greater number rounded down, exactly if no number between them can be sent as it is; and bytes that write never gives do not sort like their numbers (C96_varint_bytes_refuted). Everything else holds."
  },
  {
   "property": "C97",
   "status": "proved",
   "theorems": [
    "C97_action",
    "C97_command",
    "C97_refuted",
    "C97_status"
   ],
   "note": "Refuted by the code, as is intended there: the first bit of an IndirectForward says whether a configuration follows, and the bits of a Status and of a TxStatus are its kind. C97_action and C97_command: true of all other opcodes, and of an IndirectForward whose first bit stays."
  },
  {
   "property": "C98",
   "status": "proved",
   "theorems": [
    "C98_command_refuted",
    "C98_command_exact",
    "C98_six_bytes",
    "C98_command_short",
    "C98_frame_needs",
    "C98_frame_refuted",
    "C98_frame_alone",
    "C98_frame_exact",
    "C98_whole_frame",
    "C98_file_refuted",
    "C98_file_exact"
   ],
   "note": "Refuted by the code. C98_command_exact: a command is shown as such unless it has six bytes or starts with a frame followed by as many bytes as the frame has actions (less with wizzilab). C98_frame_alone: a frame with nothing behind it is shown exactly if it has no action, with wizzilab one. C98_file_exact: without an id only unique ids are shown right, and empty files of an unstructured kind."
  },
  {
   "property": "C99",
   "status": "proved",
   "theorems": [
    "C99_action_refuted",
    "C99_action_exact",
    "C99_command_refuted",
    "C99_command_exact",
    "C99_command_long",
    "C99_command_parsed",
    "C99_command_known",
    "C99_frame_refuted",
    "C99_frame_exact",
    "C99_frame_any"
   ],
   "note": "Refuted by the code: a status of an unknown interface with one zero byte is written like one of the serial interface, and an empty one followed by a Nop like one of the host interface. C99_action_exact and C99_command_exact: nothing else is written alike, apart from the stored opcode of a transmission status. C99_command_exact covers transmission statuses, behind which the bits are shifted by six. It leaves out, should deku not put the id byte back, commands of 385 million bytes and more, for which C99_command_long shows other pairs. C99_command_parsed says it of commands as they are parsed, whose actions can have wrong opcodes with wizzilab. C99_frame_exact says the same of foreground frames without the wizzilab feature and C99_frame_any of those of every build, of any length below that, up to the stored opcodes, which are not written."
  },
  {
   "property": "C100",
   "status": "proved",
   "theorems": [
    "C100_inputs_refuted",
    "C100_length_exact",
    "C100_length_count",
    "C100_read_exact",
    "C100_read_count",
    "C100_write_exact",
    "C100_write_uid_exact"
   ],
   "note": "Refuted by the code: 01 04 00 08 and 01 04 40 00 08 are parsed as the same action. C100_length_exact and C100_length_count: a length below 2^30 has four, three, two or one spellings and nothing else is read as it. C100_read_exact and C100_read_count describe and count all inputs that are parsed as a given ReadFileData (4112 for short numbers, as one byte behind the action is ignored); C100_write_exact describes those of a WriteFileData with uninterpreted bytes and C100_write_uid_exact those of one of the UId file, where any length is accepted. The inputs of the other actions are not described this way."
  }
 ]
}