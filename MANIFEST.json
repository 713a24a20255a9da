{
 "claims": [
  {
   "property": "C01",
   "status": "proved",
   "theorems": [
    "C01_wired_acceptance_exact"
   ],
   "note": ""
  },
  {
   "property": "C02",
   "status": "proved",
   "theorems": [
    "C02_wired_round_trip",
    "C02_encoding_is_bytes",
    "C02_every_address"
   ],
   "note": ""
  },
  {
   "property": "C03",
   "status": "partial",
   "theorems": [
    "C03_single_byte_corruption_refuted",
    "C03_single_byte_corruption_partial"
   ],
   "note": "False as stated: byte 3 of a long frame is ignored and a first byte turned into 0xE5 reads as an acknowledgement (refuted theorem). Proved: these are the only undetected single-byte changes."
  },
  {
   "property": "C04",
   "status": "partial",
   "theorems": [
    "C04_wired_no_panic_refuted",
    "C04_wired_no_panic_partial"
   ],
   "note": "False as stated: debug builds panic on inputs of 4 or 5 bytes starting with 0x68 (refuted theorem). Proved: exactly those, so release builds never panic."
  },
  {
   "property": "C05",
   "status": "partial",
   "theorems": [
    "C05_second_start_byte_refuted",
    "C05_second_start_byte_ignored",
    "C05_first_start_byte_partial"
   ],
   "note": "False: the second start byte is never examined (refuted and general theorems). Proved: the first byte is always checked."
  },
  {
   "property": "C06",
   "status": "proved",
   "theorems": [
    "C06_wired_self_delimiting"
   ],
   "note": ""
  },
  {
   "property": "C07",
   "status": "proved",
   "theorems": [
    "C07_manufacturer_acceptance",
    "C07_manufacturer_rejection",
    "C07_from_id_to_id",
    "C07_to_id_from_id"
   ],
   "note": ""
  },
  {
   "property": "C08",
   "status": "proved",
   "theorems": [
    "C08_identification_value",
    "C08_identification_rejection",
    "C08_decode_encode",
    "C08_encode_decode"
   ],
   "note": ""
  },
  {
   "property": "C09",
   "status": "proved",
   "theorems": [
    "C09_device_type_lossless",
    "C09_security_mode_lossless",
    "C09_mode_depends_on_bits_8_to_12",
    "C09_configuration_fields"
   ],
   "note": ""
  },
  {
   "property": "C10",
   "status": "proved",
   "theorems": [
    "C10_wireless_acceptance_exact",
    "C10_wireless_errors"
   ],
   "note": ""
  },
  {
   "property": "C11",
   "status": "proved",
   "theorems": [
    "C11_format_a_inverse",
    "C11_encoding_exists",
    "C11_strip_then_parse"
   ],
   "note": ""
  },
  {
   "property": "C12",
   "status": "proved",
   "theorems": [
    "C12_format_a_safe",
    "C12_strips_shrinks"
   ],
   "note": ""
  },
  {
   "property": "C13",
   "status": "proved",
   "theorems": [
    "C13_crc_detects_bursts",
    "C13_crc_detects_two_adjacent_bytes",
    "C13_crc_detects_one_byte"
   ],
   "note": ""
  },
  {
   "property": "C14",
   "status": "proved",
   "theorems": [
    "C14_iv_is_the_header_bytes",
    "C14_iv_of_a_frame"
   ],
   "note": ""
  },
  {
   "property": "C15",
   "status": "proved",
   "theorems": [
    "C15_key_provider_is_first_wins_map"
   ],
   "note": ""
  },
  {
   "property": "C16",
   "status": "proved",
   "theorems": [
    "C16_decrypt_inverts_cbc",
    "C16_cbc_errors_and_frame",
    "C16_refuses_without_key_or_mode",
    "C16_mode_0_copies"
   ],
   "note": ""
  },
  {
   "property": "C17",
   "status": "proved",
   "theorems": [
    "C17_records_are_laid_out"
   ],
   "note": ""
  },
  {
   "property": "C18",
   "status": "proved",
   "theorems": [
    "C18_error_is_last",
    "C18_done_after_error",
    "C18_done_forever",
    "C18_vec_all_or_nothing"
   ],
   "note": ""
  },
  {
   "property": "C19",
   "status": "proved",
   "theorems": [
    "C19_idle_fillers_ignored"
   ],
   "note": ""
  },
  {
   "property": "C20",
   "status": "proved",
   "theorems": [
    "C20_concatenation"
   ],
   "note": ""
  },
  {
   "property": "C21",
   "status": "partial",
   "theorems": [
    "C21_no_panic_refuted",
    "C21_record_panic_causes_partial",
    "C21_iteration_panic_causes_partial"
   ],
   "note": "False: VIF 7D, long VIFE chains, long plain text units and (debug builds) LVAR E0 panic (refuted theorem, examples). Proved: these four causes, given as byte patterns, are the only ones, for single records and iteration."
  },
  {
   "property": "C22",
   "status": "proved",
   "theorems": [
    "C22_integer_fields",
    "C22_variable_length_integers",
    "C22_exact_up_to_2_53"
   ],
   "note": "Rests on the standard library's axioms of the reals (see DESIGN.md)."
  },
  {
   "property": "C23",
   "status": "proved",
   "theorems": [
    "C23_long_bcd",
    "C23_bcd_fields",
    "C23_variable_length_bcd"
   ],
   "note": "Rests on the standard library's axioms of the reals (see DESIGN.md). Fixed-width fields, and LVAR numbers of every length up to 18 digits: exact up to 2^53, and at most 73 off beyond."
  },
  {
   "property": "C24",
   "status": "proved",
   "theorems": [
    "C24_real_fields"
   ],
   "note": "Rests on the standard library's axioms of the reals (see DESIGN.md)."
  },
  {
   "property": "C25",
   "status": "partial",
   "theorems": [
    "C25_storage_number_refuted",
    "C25_dib_numbers_partial"
   ],
   "note": "False for the storage number: DIFE bits land four places too high (refuted theorem). Proved: tariff and subunit for all chains, and the exact value of the storage number."
  },
  {
   "property": "C26",
   "status": "partial",
   "theorems": [
    "C26_storage_refuted",
    "C26_same_numbers_partial"
   ],
   "note": "False when a DIFE has storage bits: DataInformation shifts them four places too far (refuted theorem). Tariff and device are proved equal for every chain; the XML storage number is proved to be that of the standard."
  },
  {
   "property": "C27",
   "status": "partial",
   "theorems": [
    "C27_dif_chain_refuted",
    "C27_dif_chain_accepted_partial",
    "C27_dif_chain_errors_partial"
   ],
   "note": "False: a chain of 12 bytes is accepted (refuted theorem). Proved: exact acceptance and each error, with the bound 12."
  },
  {
   "property": "C28",
   "status": "partial",
   "theorems": [
    "C28_vif_chain_refuted",
    "C28_vif_chain_partial"
   ],
   "note": "False: an unterminated chain at the end of the data is accepted, and VIF 7C without extension has no text in the default build (refuted theorem). Proved: exact layout and size of every accepted chain."
  },
  {
   "property": "C29",
   "status": "proved",
   "theorems": [
    "C29_type_g_round_trip",
    "C29_type_g_any_header"
   ],
   "note": ""
  },
  {
   "property": "C30",
   "status": "partial",
   "theorems": [
    "C30_timestamp_year_refuted",
    "C30_type_f_fields_partial",
    "C30_type_i_fields_partial"
   ],
   "note": "False: the year is taken from the minute and hour bytes (refuted theorem). Proved: the exact decoding of every field of types F and I."
  },
  {
   "property": "C31",
   "status": "partial",
   "theorems": [
    "C31_record_width_refuted",
    "C31_record_width_partial"
   ],
   "note": "False for VIFs 6C and 6D, whose date coding replaces the announced width (refuted theorem). Proved for every other VIF and DIF."
  },
  {
   "property": "C32",
   "status": "proved",
   "theorems": [
    "C32_scales_agree"
   ],
   "note": "Stated for every primary VIF byte both tables have; the XML gives times in seconds, so its multiplier also has the seconds of the unit. Units and quantities are C88 and C89."
  },
  {
   "property": "C33",
   "status": "proved",
   "theorems": [
    "C33_corrections_add_up",
    "C33_any_order"
   ],
   "note": ""
  },
  {
   "property": "C34",
   "status": "proved",
   "theorems": [
    "C34_dispatch_exact",
    "C34_never_panics",
    "C34_errors_exact"
   ],
   "note": ""
  },
  {
   "property": "C35",
   "status": "proved",
   "theorems": [
    "C35_long_encrypted_no_records",
    "C35_short_encrypted_no_records",
    "C35_behind_ell"
   ],
   "note": ""
  },
  {
   "property": "C36",
   "status": "partial",
   "theorems": [
    "C36_is_encrypted_both_headers_refuted",
    "C36_is_encrypted_long_partial",
    "C36_answers_for_long_headers_only"
   ],
   "note": "False for short headers: is_encrypted is None for every message that has no long header (refuted theorem). Proved: exact for long headers, and only those get an answer."
  },
  {
   "property": "C37",
   "status": "proved",
   "theorems": [
    "C37_ell_i_before_short_header",
    "C37_ell_i_before_no_header",
    "C37_ell_i_before_others",
    "C37_ell_ii",
    "C37_ell_iii"
   ],
   "note": "Also shown: payloads with a long header or fixed structure behind ELL I are refused."
  },
  {
   "property": "C38",
   "status": "proved",
   "theorems": [
    "C38_wired",
    "C38_wireless"
   ],
   "note": "Both impls, for all inputs: success exactly on readable frames, layers as specified, errors only frame errors; the wireless parse never panics."
  },
  {
   "property": "C39",
   "status": "partial",
   "theorems": [
    "C39_same_records_refuted",
    "C39_same_records_wired_partial",
    "C39_same_records_wireless_partial"
   ],
   "note": "False for reversed byte order (CI 0x76), where data_records drops the header (refuted theorem). Proved for every other message, wired and wireless."
  },
  {
   "property": "C40",
   "status": "partial",
   "theorems": [
    "C40_tiling_refuted",
    "C40_tiling_partial",
    "C40_one_label_per_byte_partial",
    "C40_decrypted_view_tiles"
   ],
   "note": "False for wired single character frames, of which only the first byte is covered, so that trailing bytes stay unlabelled (refuted theorem). Proved: segments tile the input otherwise, every byte carries one label."
  },
  {
   "property": "C41",
   "status": "proved",
   "theorems": [
    "C41_encrypted_payload",
    "C41_encrypted_payload_format_a"
   ],
   "note": ""
  },
  {
   "property": "C42",
   "status": "proved",
   "theorems": [
    "C42_hex_input_read",
    "C42_round_trip"
   ],
   "note": ""
  },
  {
   "property": "C43",
   "status": "partial",
   "theorems": [
    "C43_only_hex_input_accepted",
    "C43_error_index_points_into_input_refuted",
    "C43_error_index_partial",
    "C43_never_panics"
   ],
   "note": "False for the index: it counts from the first non-blank character, not from the start of the input (refuted theorem). Proved: only hexadecimal inputs are accepted, nothing panics, and the exact place the index names in the text without surrounding white space."
  },
  {
   "property": "C44",
   "status": "proved",
   "theorems": [
    "C44_integer_text_exact",
    "C44_empty"
   ],
   "note": ""
  },
  {
   "property": "C45",
   "status": "partial",
   "theorems": [
    "C45_value_exact",
    "C45_canonical_form_refuted",
    "C45_canonical_form_partial"
   ],
   "note": "The denoted value is proved exact. The canonical form is false for a zero significand whose positive scale exceeds the correction's exponent, e.g. \"001\" (refuted theorem); proved canonical in every other case."
  },
  {
   "property": "C46",
   "status": "proved",
   "theorems": [
    "C46_no_ciphertext_records"
   ],
   "note": "For the encryption markers that the library looks at: the transport header behind extended link layers I, or an extended link layer II or III at the start. Nested sessions are C78."
  },
  {
   "property": "C47",
   "status": "partial",
   "theorems": [
    "C47_offset_refuted",
    "C47_offset_partial"
   ],
   "note": "False when fillers precede the failing record: they are not counted (refuted theorem). Proved: the offset is the position less the number of fillers before it."
  },
  {
   "property": "C48",
   "status": "proved",
   "theorems": [
    "C48_wrapping",
    "C48_box_lines",
    "C48_box_as_wide_as_asked"
   ],
   "note": "The width of characters and texts (crate unicode-width) is a parameter; box alignment assumes that the width of a text is the sum of its characters' widths."
  },
  {
   "property": "C49",
   "status": "proved",
   "theorems": [
    "C49_xml_round_trip",
    "C49_xml_read_one_way",
    "C49_xml_safe"
   ],
   "note": ""
  },
  {
   "property": "C50",
   "status": "partial",
   "theorems": [
    "C50_label_round_trip",
    "C50_label_read_one_way",
    "C50_label_safe",
    "C50_old_label_safe",
    "C50_old_label_recoverable_refuted",
    "C50_old_label_recoverable_partial"
   ],
   "note": "Safety is proved for both escape functions. Recoverability is proved for the current one and false for the older one when the text contains a number sign (refuted theorem, and partial theorem for the rest)."
  },
  {
   "property": "C51",
   "status": "proved",
   "theorems": [
    "C51_csv_view_keeps_text",
    "C51_csv_view_read_one_way"
   ],
   "note": "Covers the CSV highlighter, which is the repository's own code; the other languages are handled by the crate syntect."
  },
  {
   "property": "C52",
   "status": "proved",
   "theorems": [
    "C52_view_is_a_frame",
    "C52_view_shows_plaintext"
   ],
   "note": "For any block cipher that keeps block sizes; and with the right key for any invertible one, the view is exactly the frame of the plaintext."
  },
  {
   "property": "C53",
   "status": "partial",
   "theorems": [
    "C53_view_refuted",
    "C53_view_replaces_payload_partial",
    "C53_view_shows_plaintext_partial"
   ],
   "note": "False for frames that end with a CRC over the whole frame: the plaintext is spliced two bytes late (refuted theorem). Proved for frames without one, plain or Format A."
  },
  {
   "property": "C54",
   "status": "proved",
   "theorems": [
    "C54_names_exact",
    "C54_round_trip",
    "C54_error_carries_text"
   ],
   "note": ""
  },
  {
   "property": "C55",
   "status": "proved",
   "theorems": [
    "C55_control_information",
    "C55_function",
    "C55_function_injective",
    "C55_reset_subcode",
    "C55_device_type",
    "C55_security_mode"
   ],
   "note": ""
  },
  {
   "property": "C56",
   "status": "proved",
   "theorems": [
    "C56_crc_is_polynomial_remainder"
   ],
   "note": ""
  },
  {
   "property": "C57",
   "status": "partial",
   "theorems": [
    "C57_later_blocks_partial",
    "C57_format_a_corruption_refuted",
    "C57_format_a_corruption_partial"
   ],
   "note": "False as stated: a corrupted later block is passed through with its CRC bytes as content (refuted theorem). Proved: any single-byte change in the first block or its CRC is detected, and no damage behind it is: whatever follows an intact first block is accepted as a frame of the same sender."
  },
  {
   "property": "C58",
   "status": "proved",
   "theorems": [
    "C58_long_header_message_decrypts",
    "C58_clear_message_refused"
   ],
   "note": ""
  },
  {
   "property": "C59",
   "status": "proved",
   "theorems": [
    "C59_short_header_message_decrypts",
    "C59_identity_is_needed"
   ],
   "note": ""
  },
  {
   "property": "C60",
   "status": "proved",
   "theorems": [
    "C60_cli_key_exact",
    "C60_wasm_key_exact"
   ],
   "note": ""
  },
  {
   "property": "C61",
   "status": "partial",
   "theorems": [
    "C61_older_reader_guesses_refuted",
    "C61_older_reader_well_formed_partial"
   ],
   "note": "False: characters that are no digits become zero bytes (refuted theorem). Proved: well-formed texts are read exactly."
  },
  {
   "property": "C62",
   "status": "proved",
   "theorems": [
    "C62_errors",
    "C62_success",
    "C62_panics"
   ],
   "note": "Completeness and errors for every readable frame; a panic can only come from the wired parser in debug builds (C04) or from one of the record parser causes of C24 in bytes of the message."
  },
  {
   "property": "C63",
   "status": "proved",
   "theorems": [
    "C63_format_a_labels"
   ],
   "note": ""
  },
  {
   "property": "C64",
   "status": "partial",
   "theorems": [
    "C64_record_groups_refuted",
    "C64_text_first_refuted",
    "C64_record_groups_partial"
   ],
   "note": "False for the special DIF 0x7F, labelled unknown although the iterator yields a record, and with the feature plaintext-before-extension, where plain text and VIFE labels are swapped (refuted theorems). Proved in the remaining cases."
  },
  {
   "property": "C65",
   "status": "proved",
   "theorems": [
    "C65_frame_header",
    "C65_long_header",
    "C65_short_header"
   ],
   "note": ""
  },
  {
   "property": "C66",
   "status": "partial",
   "theorems": [
    "C66_no_ciphertext_records_refuted",
    "C66_wired_records_partial",
    "C66_wireless_records_partial"
   ],
   "note": "False: MbusData.data_records is present for encrypted messages and decodes ciphertext (refuted theorem). Proved: it is exactly the variable data block, encrypted or not, without header."
  },
  {
   "property": "C67",
   "status": "proved",
   "theorems": [
    "C67_clear_records_shown"
   ],
   "note": ""
  },
  {
   "property": "C68",
   "status": "proved",
   "theorems": [
    "C68_sealed_records_shown"
   ],
   "note": "For any block cipher with an inverse; AES itself is a parameter."
  },
  {
   "property": "C69",
   "status": "proved",
   "theorems": [
    "C69_partial_iff_warned"
   ],
   "note": ""
  },
  {
   "property": "C70",
   "status": "proved",
   "theorems": [
    "C70_frames_decoded",
    "C70_errors",
    "C70_accepted"
   ],
   "note": ""
  },
  {
   "property": "C71",
   "status": "partial",
   "theorems": [
    "C71_never_panics_refuted",
    "C71_panics_partial"
   ],
   "note": "False: records with VIF 7D panic (refuted theorem). Proved: every panic, also after decryption, has one of the known causes, found in the message or in what the key opens it to."
  },
  {
   "property": "C72",
   "status": "proved",
   "theorems": [
    "C72_enrichment_of_manufacturer",
    "C72_enrichment_only_adds",
    "C72_unused_key"
   ],
   "note": ""
  },
  {
   "property": "C73",
   "status": "proved",
   "theorems": [
    "C73_hex_input",
    "C73_original",
    "C73_original_decodes_again"
   ],
   "note": ""
  },
  {
   "property": "C74",
   "status": "proved",
   "theorems": [
    "C74_format_a_transparent"
   ],
   "note": ""
  },
  {
   "property": "C75",
   "status": "proved",
   "theorems": [
    "C75_identity_fixed",
    "C75_identity_transport",
    "C75_identity_link"
   ],
   "note": ""
  },
  {
   "property": "C76",
   "status": "proved",
   "theorems": [
    "C76_record_bytes"
   ],
   "note": ""
  },
  {
   "property": "C77",
   "status": "partial",
   "theorems": [
    "C77_extended_integers_partial",
    "C77_extended_decimals_partial",
    "C77_maximum_power_refuted",
    "C77_long_decimals_partial",
    "C77_exact_values_refuted",
    "C77_integers_partial",
    "C77_decimals_partial",
    "C77_variable_integers_partial",
    "C77_variable_decimals_partial"
   ],
   "note": "False for decimals of variable length beyond 2^53, shown from a rounded float, and for the codes FB 78 to FB 7B, whose value gets a power of ten added (refuted theorems). Proved for integers of every width, decimals of fixed width, and decimals of variable length of every length with a value up to 2^53; for the fixed widths also against the standard's tables of extensions."
  },
  {
   "property": "C78",
   "status": "partial",
   "theorems": [
    "C78_nested_session_refuted",
    "C78_nested_partial"
   ],
   "note": "False for an encrypted session (ELL II) inside an ELL I: shown in clear (refuted theorem). Proved for encrypted transport headers behind any number of ELL I, and for sessions that start the message."
  },
  {
   "property": "C79",
   "status": "proved",
   "theorems": [
    "C79_well_formed"
   ],
   "note": "The reader (Spec/XmlSpec.v) is written independently. The declared encoding is not checked: characters above 255 can occur although ISO-8859-1 is declared."
  },
  {
   "property": "C80",
   "status": "proved",
   "theorems": [
    "C80_clear_records",
    "C80_wired_unsupported"
   ],
   "note": "Wired messages must have a long header, as the theorem says; the others are proved refused."
  },
  {
   "property": "C81",
   "status": "proved",
   "theorems": [
    "C81_long_header",
    "C81_link_header",
    "C81_unread_message"
   ],
   "note": "ProductName is compared with the table of libmbus product names written out in Spec/ProductSpec.v."
  },
  {
   "property": "C82",
   "status": "partial",
   "theorems": [
    "C82_no_ciphertext_refuted",
    "C82_no_ciphertext_partial",
    "C82_wired_partial"
   ],
   "note": "False for wired frames with an encrypted long header (refuted theorem); proved for wireless frames."
  },
  {
   "property": "C83",
   "status": "proved",
   "theorems": [
    "C83_sealed_records"
   ],
   "note": ""
  },
  {
   "property": "C84",
   "status": "proved",
   "theorems": [
    "C84_errors"
   ],
   "note": "XPayloadLength is listed with decryption failures; it is not shown unreachable."
  },
  {
   "property": "C85",
   "status": "partial",
   "theorems": [
    "C85_never_panics_refuted",
    "C85_panics_partial"
   ],
   "note": "False: record reading can panic (refuted theorem). Proved that only the known causes of C01 and C21 make it panic, in the message or in what the key opens it to."
  },
  {
   "property": "C86",
   "status": "partial",
   "theorems": [
    "C86_units_refuted",
    "C86_binary_refuted",
    "C86_fixed_partial"
   ],
   "note": "False for unit codes 0D and 0E, which are exchanged, and for binary counters, which are read as decimals (refuted theorems). Proved for all other codes, counters, media and headers."
  },
  {
   "property": "C87",
   "status": "proved",
   "theorems": [
    "C87_function"
   ],
   "note": ""
  },
  {
   "property": "C88",
   "status": "partial",
   "theorems": [
    "C88_primary_table_refuted",
    "C88_primary_table_partial"
   ],
   "note": "False for averaging and actuality durations, which get no unit (refuted theorem). Proved for all other primary VIFs without extensions."
  },
  {
   "property": "C89",
   "status": "partial",
   "theorems": [
    "C89_values_refuted",
    "C89_integers_partial",
    "C89_decimals_partial",
    "C89_range",
    "C89_integers_close",
    "C89_decimals_close",
    "C89_reals_close",
    "C89_per_hour_refuted",
    "C89_variable_refuted"
   ],
   "note": "False below 10^-6 (refuted theorem). Proved for integers and decimals of fixed length whose value needs at most six digits after the point and fits the range of Spec/RscadaSpec.v six_digits, which includes all four-byte integers with scales -6 to 6. Decimals are read low digits first even if the header says otherwise. Refuted with combinable extensions, whose units are dropped, and for numbers of variable length, shown as hexadecimal bytes; codes of the extension tables are C129. For values outside that range the C89_*_close theorems bound the error of the text shown: half of the last of the six decimals plus the double rounding of the value and of the factor, with ties of the sixth decimal to even."
  },
  {
   "property": "C90",
   "status": "proved",
   "theorems": [
    "C90_csv"
   ],
   "note": ""
  },
  {
   "property": "C91",
   "status": "proved",
   "theorems": [
    "C91_table"
   ],
   "note": "For texts whose width is the sum of the widths of their characters (crate unicode-width measures some emoji sequences otherwise). The heading \"Record n\" of the narrow layout may be wider than the table."
  },
  {
   "property": "C92",
   "status": "proved",
   "theorems": [
    "C92_diagram"
   ],
   "note": ""
  },
  {
   "property": "C93",
   "status": "proved",
   "theorems": [
    "C93_annotated_text",
    "C93_bytes_read_back"
   ],
   "note": ""
  },
  {
   "property": "C94",
   "status": "proved",
   "theorems": [
    "C94_rendered_if_decoded",
    "C94_table",
    "C94_other_formats",
    "C94_hexadecimal"
   ],
   "note": "The YAML writer is a parameter that cannot fail."
  },
  {
   "property": "C95",
   "status": "partial",
   "theorems": [
    "C95_nested_session_refuted",
    "C95_transport_partial"
   ],
   "note": "Fails for an encrypted session (extended link layer II or III) inside an extended link layer I, where a short header is invented (C95_nested_session_refuted); proved for all other messages."
  },
  {
   "property": "C96",
   "status": "proved",
   "theorems": [
    "C96_wired_frame",
    "C96_wireless_frame"
   ],
   "note": ""
  },
  {
   "property": "C97",
   "status": "partial",
   "theorems": [
    "C97_protection_partial",
    "C97_decryption_state"
   ],
   "note": "C97_protection_partial excludes an encrypted session inside an extended link layer I, which is reported as cleartext (C95_nested_session_refuted). C97_decryption_state holds for every output."
  },
  {
   "property": "C98",
   "status": "partial",
   "theorems": [
    "C98_labels_partial",
    "C98_special",
    "C98_quantity_partial",
    "C98_specific",
    "C98_text_refuted",
    "C98_extended_partial"
   ],
   "note": "Storage number: right exactly when no DIFE carries storage bits (C26). Quantity and unit: primary VIFs, the two extension tables, the combinable extensions and manufacturer specific codes, but for the codes of C116 and C117 that depart from the standard; durations are shown without unit (C88). Refuted for a unit spelled out in the frame, shown neither as unit nor as quantity."
  },
  {
   "property": "C99",
   "status": "proved",
   "theorems": [
    "C99_records_alone",
    "C99_records_empty",
    "C99_records_hex",
    "C99_records_not_hex"
   ],
   "note": "The offset of the error is C47."
  },
  {
   "property": "C100",
   "status": "proved",
   "theorems": [
    "C100_notices",
    "C100_refused_message"
   ],
   "note": ""
  },
  {
   "property": "C101",
   "status": "partial",
   "theorems": [
    "C101_century_refuted",
    "C101_year_refuted",
    "C101_date_partial",
    "C101_datetime_partial",
    "C101_datetime48_partial"
   ],
   "note": "False: the century is missing (C101_century_refuted) and the year of types F and I comes from the wrong bytes (C101_year_refuted). The partial theorems give exactly what is shown for types F, G and I."
  },
  {
   "property": "C102",
   "status": "proved",
   "theorems": [
    "C102_xml_date",
    "C102_xml_datetime",
    "C102_xml_datetime48"
   ],
   "note": "Codings 2 (type G), 4 (type F) and 6 (type I)."
  },
  {
   "property": "C103",
   "status": "proved",
   "theorems": [
    "C103_text",
    "C103_xml_text"
   ],
   "note": ""
  },
  {
   "property": "C104",
   "status": "proved",
   "theorems": [
    "C104_direction"
   ],
   "note": ""
  },
  {
   "property": "C105",
   "status": "proved",
   "theorems": [
    "C105_real"
   ],
   "note": "Uses the axioms of the real numbers."
  },
  {
   "property": "C106",
   "status": "proved",
   "theorems": [
    "C106_lookup",
    "C106_listed_once",
    "C106_capitals",
    "C106_reachable"
   ],
   "note": "Every registered code is also shown to be spelled by a manufacturer number."
  },
  {
   "property": "C107",
   "status": "proved",
   "theorems": [
    "C107_wide_csv"
   ],
   "note": ""
  },
  {
   "property": "C108",
   "status": "partial",
   "theorems": [
    "C108_ciphertext_listed_refuted",
    "C108_ciphertext_panic_refuted",
    "C108_session_refuted",
    "C108_summary_partial"
   ],
   "note": "Refuted: the older JSON and YAML carry records read from ciphertext, reading them can panic, and payloads of encrypted sessions are summarized as clear. Proved for the frame summary of messages whose transport header tells the encryption."
  },
  {
   "property": "C109",
   "status": "partial",
   "theorems": [
    "C109_truncation_refuted",
    "C109_clear_partial",
    "C109_sealed_partial"
   ],
   "note": "Refuted for unreadable records, which leave no trace in the summary. Proved that the readable records agree for messages in clear and for sealed ones with the right key."
  },
  {
   "property": "C110",
   "status": "partial",
   "theorems": [
    "C110_meter_partial",
    "C110_frame",
    "C110_wireless",
    "C110_number",
    "C110_fixed_refuted",
    "C110_access_refuted"
   ],
   "note": "Refuted, and so excepted: the device type of a fixed data structure and the access number of an extended link layer, which only the newer outputs show."
  },
  {
   "property": "C111",
   "status": "partial",
   "theorems": [
    "C111_record",
    "C111_number",
    "C111_wide_refuted"
   ],
   "note": "False for integers wider than eight bytes, of which the older summary has the low eight without a mark (refuted theorem). The text of a floating point number is left to the standard library (a parameter)."
  },
  {
   "property": "C112",
   "status": "proved",
   "theorems": [
    "C112_same_frames"
   ],
   "note": ""
  },
  {
   "property": "C113",
   "status": "partial",
   "theorems": [
    "C113_group_refuted",
    "C113_line_refuted",
    "C113_ciphertext_refuted",
    "C113_nodes_partial",
    "C113_rows_partial",
    "C113_boxes_partial",
    "C113_sender_partial"
   ],
   "note": "Refuted: undeclared group, line feeds kept in labels, ciphertext shown as records. Proved that every record of a clear message has its node, in order, how the nodes are laid out in rows, and the boxes of the frame, the meter and the sender."
  },
  {
   "property": "C114",
   "status": "proved",
   "theorems": [
    "C114_rendering",
    "C114_unsupported",
    "C114_unread",
    "C114_place",
    "C114_answers"
   ],
   "note": "All eight canonical formats and their errors; the older names are treated in C107 to C113. The older JSON and YAML texts are a parameter."
  },
  {
   "property": "C115",
   "status": "partial",
   "theorems": [
    "C115_wired",
    "C115_no_key",
    "C115_wireless_partial",
    "C115_wireless_refuted"
   ],
   "note": "Wired frames in full. False for wireless frames with a CRC at the end (refuted theorem); proved for those without one that still parse after decryption."
  },
  {
   "property": "C116",
   "status": "partial",
   "theorems": [
    "C116_main_table_refuted",
    "C116_alternate_table_refuted",
    "C116_displaced_refuted",
    "C116_second_level_refuted",
    "C116_quantities_partial",
    "C116_every_code"
   ],
   "note": "Refuted for the codes listed in main_departs and alternate_departs, for FD 31 to 35 and for FD FD 02; proved for all other codes of the tables. Codes on which editions of the standard differ are left out: FB 06, 22 to 27, 68 to 6E; FC 0D and from 13 on; FD 65."
  },
  {
   "property": "C117",
   "status": "partial",
   "theorems": [
    "C117_combinable_table_refuted",
    "C117_constant_one_refuted",
    "C117_manufacturer_refuted",
    "C117_combined_partial",
    "C117_record_header_partial"
   ],
   "note": "Refuted for 2C, 6B, 6E, 6F, 7B and for bytes after 7F; proved for all sequences of the other codes, up to the ten extensions the header holds."
  },
  {
   "property": "C118",
   "status": "proved",
   "theorems": [
    "C118_unknown_sender",
    "C118_unsupported_mode",
    "C118_nothing_sealed",
    "C118_session",
    "C118_decrypted",
    "C118_cases",
    "C118_only_encrypted"
   ],
   "note": ""
  },
  {
   "property": "C119",
   "status": "partial",
   "theorems": [
    "C119_one_text_each",
    "C119_wired_partial",
    "C119_wireless_partial",
    "C119_format_a",
    "C119_values",
    "C119_decrypted_view",
    "C119_decrypted_values",
    "C119_second_start_refuted",
    "C119_text_first_refuted",
    "C119_number_refuted"
   ],
   "note": "Refuted for the second start byte of a long frame (any byte is accepted there and called 0x68), for the text of a VIF with the text-first setting, and as far as the number over the identification (bytes in wire order) is not the identification number of the decoded frame; proved for all other ranges, in the decrypted view too."
  },
  {
   "property": "C120",
   "status": "proved",
   "theorems": [
    "C120_json",
    "C120_lossless"
   ],
   "note": "Asked of the text of an f64: it is a numeral, and for losslessness different for different numbers (serde_json prints the shortest text that reads back)."
  },
  {
   "property": "C121",
   "status": "proved",
   "theorems": [
    "C121_annotated",
    "C121_bytes",
    "C121_older_segments",
    "C121_older_view"
   ],
   "note": "The older decrypted view asks that decryption yields bytes. The texts of the ranges are the subject of C119."
  },
  {
   "property": "C122",
   "status": "proved",
   "theorems": [
    "C122_success",
    "C122_failure",
    "C122_panic"
   ],
   "note": "The reading of the arguments by clap, and failures of standard output, are not modelled."
  },
  {
   "property": "C123",
   "status": "proved",
   "theorems": [
    "C123_render",
    "C123_unread",
    "C123_unnamed",
    "C123_older"
   ],
   "note": "The texts of errors made elsewhere are a parameter, the same for all."
  },
  {
   "property": "C124",
   "status": "partial",
   "theorems": [
    "C124_parse",
    "C124_lossless",
    "C124_records",
    "C124_application",
    "C124_refused",
    "C124_key_refused",
    "C124_javascript",
    "C124_javascript_unread",
    "C124_javascript_key",
    "C124_key_blame_refuted"
   ],
   "note": "The text that Python gives to json.loads, and the structure that JavaScript gets through serde_wasm_bindgen, are the subject; those two conversions are not modelled. Refuted: that an error tells a faulty key from a faulty frame."
  },
  {
   "property": "C125",
   "status": "proved",
   "theorems": [
    "C125_csv",
    "C125_wide",
    "C125_table"
   ],
   "note": "The crate csv is not in /repo; its writer is modelled from its documentation."
  },
  {
   "property": "C126",
   "status": "proved",
   "theorems": [
    "C126_highlighted",
    "C126_rendered"
   ],
   "note": "The other languages of the highlighter are handled by the crate syntect."
  },
  {
   "property": "C127",
   "status": "proved",
   "theorems": [
    "C127_json",
    "C127_source"
   ],
   "note": "Asked of the text of a number that is not an integer: it is a numeral. The records are those of C109."
  },
  {
   "property": "C128",
   "status": "proved",
   "theorems": [
    "C128_lossless"
   ],
   "note": "Asked of the texts of numbers: those of different finite numbers differ. The payload of a wired frame is not in the JSON except as records; bytes are compared as hexadecimal texts."
  },
  {
   "property": "C129",
   "status": "partial",
   "theorems": [
    "C129_table_refuted",
    "C129_integers_partial",
    "C129_decimals_partial"
   ],
   "note": "False for FB 08, 09, 30, 31 and 79 (refuted theorem). Proved for the other codes of Spec/XmlVifSpec.v, for values that need at most six digits after the point and fit the range of six_digits. Codes newer than libmbus, which it calls reserved, dates, and times in months and years are left out."
  },
  {
   "property": "C130",
   "status": "proved",
   "theorems": [
    "C130_texts",
    "C130_decimals",
    "C130_integers",
    "C130_wide_integers",
    "C130_empty_integer",
    "C130_reserved",
    "C130_no_length"
   ],
   "note": "Rests on the standard library's axioms of the reals (see DESIGN.md)."
  },
  {
   "property": "C131",
   "status": "proved",
   "theorems": [
    "C131_shows_source",
    "C131_read_one_way",
    "C131_always_shown",
    "C131_errors",
    "C131_language",
    "C131_no_language"
   ],
   "note": "The library syntect is a parameter: it is expected to give balanced elements around the escaped lines it is fed (Spec/HighlightSpec.v faithful)."
  },
  {
   "property": "C132",
   "status": "partial",
   "theorems": [
    "C132_manufacturer_block",
    "C132_global_readout",
    "C132_reserved",
    "C132_no_data_refuted",
    "C132_no_data_partial"
   ],
   "note": "False for data field 0 or 8 with a date VIF (6C, 6D), which takes the following bytes as a date (refuted); proved for every other VIF, and without condition for the special functions."
  },
  {
   "property": "C133",
   "status": "partial",
   "theorems": [
    "C133_with_crc",
    "C133_without_crc_refuted",
    "C133_without_crc_partial",
    "C133_delimited",
    "C133_damage_refuted",
    "C133_damage_partial"
   ],
   "note": "False for damaged frames: a changed payload byte makes the parser take the CRC for two more bytes of payload (refuted theorem, and what happens for every such change). Without a CRC a payload that happens to end like one loses two bytes (refuted); every other payload, every frame with a CRC, and that frames are delimited, are proved."
  },
  {
   "property": "C134",
   "status": "partial",
   "theorems": [
    "C134_wired",
    "C134_wireless_refuted",
    "C134_length_229_partial",
    "C134_length_104_refuted",
    "C134_wireless_partial",
    "C134_as_received_partial",
    "C134_as_received_refuted"
   ],
   "note": "False for wireless frames with the length byte 0xE5 (230 bytes): they are all taken for a wired acknowledgement and their records are lost (refuted, and for every such frame). False too for some with length byte 0x68 and control field 0x63, whose bytes are also a wired frame (refuted). Proved for wired frames and for all other wireless frames. Shown as received is false for a payload that starts with the CRC of the header, which is taken for Format A (refuted), and proved for all others."
  },
  {
   "property": "C135",
   "status": "partial",
   "theorems": [
    "C135_wrong_key_refuted",
    "C135_not_vouched_for_partial"
   ],
   "note": "False: the two idle fillers are not checked, and a wrong key can yield records (refuted theorem). Proved: whatever a key opens is marked as decrypted_unverified, except in an encrypted session inside an extended link layer I (C95)."
  }
 ]
}