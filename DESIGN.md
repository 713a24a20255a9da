# Formal model of maebli/m-bus-parser in Rocq (Coq 8.16.1)

## 1. Approach

* `rocq/theories/Model/*.v`: total, computable Gallina transcriptions of the Rust
  functions, one definition per function, type or match-arm group. Each carries a
  comment with file and lines in /repo, and says where it simplifies.
* `rocq/theories/Spec/*.v`: small specifications that do not use the model's helpers
  (frame encoders, two's complement, decimal digits, CRC as a polynomial remainder,
  an XML reader, the primary VIF table, ...).
* `rocq/theories/Proof/*.v`: lemmas.
* `rocq/theories/Props/*.v`: the property theorems and nothing else, each closed by
  `exact lemma`, followed by `Print Assumptions`, and `Example`s showing that a
  concrete, non-trivial case meets the hypotheses.
* `seeded/LOG.jsonl`: wrong programs tried against the theorems. `first_proofs_broken`
  lists the proofs Coq rejected after the edit; `theorems_failed` lists the property
  theorems that rest on one of them. A rejected proof script is evidence that the
  statement noticed the edit, not a proof that the statement became false.
  An id such as `q1-10` is entry q1 of batch 10, where an earlier batch used q1 too.

### Modelling conventions

* A byte is an `N`; byte strings are `list N`; theorems assume `bytes_ok`
  (every element < 256) where it matters. A slice returned by the code is a list;
  where the *position* matters the theorem relates it to the input by
  `skipn`/`firstn`/`++`.
* `Result`/`Option` stay data. `outcome E A := Ok a | Err e | Panic p`: each panic
  path of the Rust code (index out of range, `unreachable!`, `ArrayVec::push` on a full
  vector, arithmetic overflow with overflow checks) is an explicit `Panic`.
* A `config` record carries the two build settings on which behaviour depends:
  `overflow_checks` (debug: panic, release: wrap) and the cargo feature
  `plaintext-before-extension`. Theorems quantify over it.
* usize is 64 bit. A Rust slice never exceeds isize::MAX bytes, so additions of
  lengths do not overflow.
* f64 values are `spec_float` of the standard library (`Coq.Floats.SpecFloat`, pure
  Gallina, precision 53, emax 1024): rounding is modelled, not idealised. NaN payloads
  are not represented.
* Strings are lists of Unicode scalar values (`Model/Text.v`).
* Mutable output buffers are passed as lists and returned as new lists.
* Iterators are a state plus a `next` function. Running one to exhaustion uses fuel;
  running out of fuel is an outcome of its own, and theorems show it does not occur.

## 2. Plan and result per property

The result column repeats MANIFEST.json; a `_refuted` theorem gives a witness against the property as stated, the `_partial` theorems say what holds instead.

| id | modelled | proof | result |
|---|---|---|---|
| C01 | WiredFrame::try_from, validate_checksum, Function, Address | case analysis to an iff against an inductive frame predicate | proved |
| C02 | same; Spec encoder | from C01 | proved |
| C03 | same | modular arithmetic on the sum; exceptions refuted | partial, false as stated |
| C04 | same, with checked subtraction | exact characterisation of panicking inputs | partial, false as stated |
| C05 | same | witness; case analysis | partial, false as stated |
| C06 | same | length equation from C01 | proved |
| C07 | ManufacturerCode | arithmetic on the three five-bit fields | proved |
| C08 | bcd_hex_digits_to_u32, decimal_to_bcd | digit induction | proved |
| C09 | DeviceType, SecurityMode, ConfigurationField | byte sweep lifted to all bytes, bit arithmetic | proved |
| C10 | WirelessFrame::try_from, ManufacturerId, trailing CRC | iff against an inductive frame predicate | proved |
| C11 | strip_format_a_crcs | induction on the blocks of a Spec encoder | proved |
| C12 | same | loop invariant | proved |
| C13 | crc16 | linearity and injectivity of the state update, induction on the suffix | proved |
| C14 | derive_iv, KeyContext of a frame | round trips C07 to C09 | proved |
| C15 | StaticKeyProvider | induction over operation histories | proved |
| C16 | decrypt_aes_cbc_into, block cipher as parameter | induction on blocks | proved |
| C17 | DataRecords::next, DataRecord::parse and everything below | fuel measure, invariant over the iteration | proved |
| C18 | DataRecords::next, DataRecord::parse and everything below | fuel measure, invariant over the iteration | proved |
| C19 | DataRecords::next, DataRecord::parse and everything below | fuel measure, invariant over the iteration | proved |
| C20 | DataRecords::next, DataRecord::parse and everything below | fuel measure, invariant over the iteration | proved |
| C21 | same, with Panic outcomes | byte patterns of every panicking input | partial, false as stated |
| C22 | DataFieldCoding::parse over spec_float | two's complement and digit induction; float exactness via Flocq | proved |
| C23 | DataFieldCoding::parse over spec_float | two's complement and digit induction; float exactness via Flocq | proved |
| C24 | DataFieldCoding::parse over spec_float | two's complement and digit induction; float exactness via Flocq | proved |
| C25 | DataInformation::try_from | induction over DIFEs | partial, false as stated |
| C26 | same and rscada_xml storage_number | induction over DIFEs | partial, false as stated |
| C27 | DataInformationBlock parser | induction over the chain | partial, false as stated |
| C28 | ValueInformationBlock parser | induction over the chain | partial, false as stated |
| C29 | date arms of parse | bit arithmetic on type G | proved |
| C30 | same | bit arithmetic on types F and I | partial, false as stated |
| C31 | DataRecord::parse | case analysis | partial, false as stated |
| C32 | both VIF tables | sweep over the primary VIFs | proved |
| C33 | ValueInformation::try_from | induction over VIFEs | proved |
| C34 | UserDataBlock::try_from | case analysis over the CI byte | proved |
| C35 | data_records, encrypted headers | case analysis | proved |
| C36 | is_encrypted | case analysis | partial, false as stated |
| C37 | extended link layers I, II, III | recursion | proved |
| C38 | MbusData::try_from, wired and wireless | case analysis | proved |
| C39 | same | comparison with the record iterator | partial, false as stated |
| C40 | annotate.rs segment builders | tiling invariant by induction | partial, false as stated |
| C41 | same | tiling and case analysis | proved |
| C42 | decode_hex_bytes | induction over characters | proved |
| C43 | same | induction over characters | partial, false as stated |
| C44 | signed_le_decimal | digit-string semantics | proved |
| C45 | scaled_decimal | digit-string semantics | partial, false as stated |
| C46 | decode_bytes, prepare_security | case analysis | proved |
| C47 | collect_records | induction over the iteration | partial, false as stated |
| C48 | wrap_display, boxed_line, key_value_box | induction over characters | proved |
| C49 | xml_encode | induction over characters | proved |
| C50 | mermaid_escape, both versions | induction over characters | partial, false as stated |
| C51 | highlight_csv | induction over characters | proved |
| C52 | decrypted wired view | list arithmetic | proved |
| C53 | decrypted wireless view | list arithmetic | partial, false as stated |
| C54 | OutputFormat | case analysis | proved |
| C55 | ControlInformation, Function, ... | byte sweep | proved |
| C56 | crc16_en13757 | polynomial division over bits | proved |
| C57 | strip_format_a_crcs | C13 on the first block | partial, false as stated |
| C58 | UserDataBlock::decrypt_variable_data | C14, C16 | proved |
| C59 | same with link-layer identity | C14, C16 | proved |
| C60 | key readers of cli and wasm | induction over characters | proved |
| C61 | clean_and_convert | induction over characters | partial, false as stated |
| C62 | annotate | case analysis; panics traced to ranges of the message | proved |
| C63 | same | segment insertion commutes with the encoder | proved |
| C64 | annotate_records | induction with the record iterator | partial, false as stated |
| C65 | frame header segments | case analysis | proved |
| C66 | MbusData.data_records | case analysis | partial, false as stated |
| C67 | decode_bytes | composition of C17, C34, C38 | proved |
| C68 | same | composition with C16, C58, C59 | proved |
| C69 | build_output | case analysis | proved |
| C70 | same | case analysis | proved |
| C71 | same | C21 lifted through decryption | partial, false as stated |
| C72 | DecodeOptions | case analysis | proved |
| C73 | decode_hex | C42 | proved |
| C74 | decode_bytes | C11 | proved |
| C75 | meter identity | C07, C08 | proved |
| C76 | record_out | layout of C17 | proved |
| C77 | record values | C22, C23, C45; with extensions C117 | partial, false as stated |
| C78 | security classification | induction over nested layers | partial, false as stated |
| C79 | render of rscada_xml | structural induction with an XML reader | proved |
| C80 | same | induction over records | proved |
| C81 | slave information | composition with C75 | proved |
| C82 | same | case analysis | partial, false as stated |
| C83 | same | C68 | proved |
| C84 | errors of rscada_xml | case analysis | proved |
| C85 | panics of rscada_xml | C04, C21 lifted through decryption | partial, false as stated |
| C86 | fixed data structure | case analysis, digit induction | partial, false as stated |
| C87 | function names | sweep over DIFs | proved |
| C88 | primary VIF table | sweep over VIFs | partial, false as stated |
| C89 | values with six decimals; error bound otherwise | float exactness and relative error via Flocq | partial, false as stated |
| C90 | CSV headings and cells, the writer of the crate csv (Csv.v) | columns related to an independent list of columns; headings distinct because decimal numerals are | proved |
| C91 | layout of the table in three widths | every cell laid out by wrapping is read back; widths by arithmetic on column widths | proved |
| C92 | Mermaid text | a reader of the diagram language run over the text by induction on the groups | proved |
| C93 | hex dump and segment list | induction over chunks and segments | proved |
| C94 | dispatch on the format | case analysis over decoding | proved |
| C95 | transport and security sections of the output | inversion of the meaning of the message, relation to the bytes through any nesting; witness for the nested session | partial, false as stated |
| C96 | frame and raw sections of the output | case analysis over frames | proved |
| C97 | security section and notices | determinism of the security mode of a message; case analysis over the notices | partial |
| C98 | record_output without the value | sweeps over DIF bytes, the table of primary VIFs; with extensions, the tables of C116 and C117 and a table of words and unit symbols | partial, false as stated |
| C99 | decode_data_records, hexadecimal variant | layout of the records by induction over the buffer | proved |
| C100 | diagnostics of the output | case analysis over the notices; exact dispatch of messages | proved |
| C101 | temporal values of the output | sweeps over date bytes; witnesses | partial, false as stated |
| C102 | dates of the XML | sweeps over date bytes | proved |
| C103 | text values, from_utf8 and its lossy variant | induction over the bytes: the decoder accepts exactly UTF-8 | proved |
| C104 | Direction::from | sweep over the bytes | proved |
| C105 | float values of the output | the real number theorem of C28 carried to the output | proved |
| C106 | the whole registry as a table | computation on the table; surjectivity of the letter coding | proved |
| C107 | parse_to_csv, serialize_mbus_data | the columns are built pairwise; distinct numbers have distinct texts | proved |
| C108 | user_data_is_encrypted, build_frame_summary | case analysis; witnesses for the refuted parts | partial, false as stated |
| C109 | summarize_records against decode_bytes | both read by the record iterator; induction over its items | partial, false as stated |
| C110 | build_frame_summary against decode_bytes | case analysis over the headers | partial, false as stated |
| C111 | summarize_record and the Display impls | table sweep over the primary VIFs | partial, false as stated |
| C112 | parse_frame_bytes against decode_bytes | both reduce to the link layer parsers | proved |
| C113 | parse_to_mermaid | induction over the records; witnesses for the refuted parts | partial, false as stated |
| C114 | serialize_mbus_data, OutputError | case analysis over format name, text and frame | proved |
| C115 | render_annotated_bytes, decrypted_*_hexview | the cipher theorem of C58 carried through re-annotation | partial, false as stated |
| C116 | value information, extension tables FB and FD | each table entry by computation, lifted to all tails | partial, false as stated |
| C117 | consume_orthhogonal_vife | induction on the sequence of extensions; units and powers are sums | partial, false as stated |
| C118 | prepare_security, decrypt_user_data, decrypt_into | case analysis over header, mode, sender and block | proved |
| C119 | the detail texts of annotate.rs (AnnotateText.v), the ranges being those of Annotate.v | each segment constructor against an inductive reading of the standard; induction over records and over the blocks of Format A | partial, false as stated |
| C120 | the documents made by the Serialize derives of output.rs and the pretty printer of serde_json (Json.v); RFC 8259 as a grammar in JsonSpec.v | the grammar is unambiguous (induction over derivations), the writer follows it (induction over documents), and the fields are read back one by one | proved |
| C121 | the documents of mbus_data.rs:1175-1265 with the texts of AnnotateText.v (JsonView.v) | as C120; the ranges are those of Annotate.v | proved |
| C122 | main, run and parse_key of cli/src/main.rs after clap has read the arguments (Bindings.v); files and terminal are given | case analysis in the order of the checks | proved |
| C123 | render and m_bus_parse of python, m_bus_render, m_bus_parse and m_bus_parse_with_key of wasm (Bindings.v) | each front end reduces to render_bytes; its errors by C114 | proved |
| C124 | parse, parse_records, parse_application_layer, extract_bytes and extract_key of python, m_bus_decode and error_to_js of wasm, and the compact writer of serde_json (Bindings.v) | as C120, with the compact writer; case analysis over the arguments | partial, false as stated |
| C125 | the writer of the crate csv (Csv.v), csv_headers, csv_row, parse_to_csv | a grammar of RFC 4180; the grammar is shown to be unambiguous by induction | proved |
| C126 | highlight_csv (Escape.v) | induction over cells, lines and files of the grammar of C125 | proved |
| C127 | the derived serde serialisations of the frame, the user data, the records and the summary (LegacyJson.v), the pretty printer (Json.v) | every part of the document is a well-formed value and says its part of what was parsed, by cases; the frame and user data are those of C38; the text has one reading by C120 | proved |
| C128 | as C127 | each description determines what it describes; the text has one value | proved |
| C129 | vif_unit_normalize and vib_unit_normalize (Rscada.v) against a table of the extension codes (Spec/XmlVifSpec.v) | each row of the table by computation; the values as in C89 | partial, false as stated |
| C130 | parse_variable_length (DataInfo.v) against the lengths of the standard (Spec/RecordSpec.v lvar_width) | case analysis of the length byte; float exactness via Flocq | proved |
| C131 | highlight_source, syntax_for and m_bus_highlight (Model/Highlight.v), syntect as a parameter | induction on the HTML: the last line feed is the one that was appended | proved |
| C132 | data_record_parse, records_next (Record.v), coding_parse (DataInfo.v) | case analysis of the DIF; the iterator through laid_out (C17) | partial, false as stated |
| C133 | wireless_try_from (Wireless.v) | encoder in Spec/SenderSpec.v; exact acceptance (C10), single byte changes of the CRC (C13) | partial, false as stated |
| C134 | decode_bytes (Output.v), wired_try_from (Wired.v) | C70 and the layouts of Spec/WiredSpec.v and Spec/SenderSpec.v compared | partial, false as stated |
| C135 | prepare_security, decode_bytes (Output.v) | from the reports of C97; witness by computation with the toy cipher | partial, false as stated |

No property is left out as not expressible in a model.

## 3. Trusted base

* The kernel of Coq 8.16.1, including `vm_compute`. No `native_compute`, no plugin, no
  kernel check switched off, no axiom, parameter, functor or module type of this development.
* The axioms listed below, all from the standard library, only where the theorems speak
  about real numbers (through Flocq, whose development adds no axiom).
* That the model says what the Rust source says. Each definition cites the lines it
  models; the large match tables (`Model/ValueInfo.v`, the tables of `Model/Rscada.v` and
  `Model/Show.v`) were transcribed mechanically from the source text.
* The Rust standard library as used: integer and slice semantics, `char` and `str`
  methods (`Model/Text.v`), IEEE-754 binary64 round to nearest even.

### What is modelled

| file in /repo | model | left out |
|---|---|---|
| crates/m-bus-core/src/lib.rs | Core.v, Show.v | `defmt` impls |
| crates/m-bus-core/src/decryption.rs | Decrypt.v | the AES-128 block function, a parameter |
| crates/wired-mbus-link-layer/src/lib.rs | Wired.v, Show.v | - |
| crates/wireless-mbus-link-layer/src/lib.rs | Wireless.v | - |
| crates/m-bus-application-layer/src/data_information.rs | DataInfo.v, Show.v | `Unimplemented` texts |
| crates/m-bus-application-layer/src/value_information.rs | ValueInfo.v, Show.v | - |
| crates/m-bus-application-layer/src/data_record.rs, iterator in lib.rs | Record.v | - |
| crates/m-bus-application-layer/src/lib.rs, extended_link_layer.rs | UserData.v | Display of headers that no output uses |
| crates/m-bus-application-layer/src/variable_user_data.rs | Core.v, DataInfo.v (errors) | - |
| src/mbus_data.rs | MbusData.v, Escape.v, Legacy.v, LegacyJson.v, Serialize.v, JsonView.v | the YAML of the older formats (serde); `parse_to_table`, compiled only for tests |
| src/output.rs, decoding | Output.v, Decimal.v, Hex.v, Format.v, Show.v | - |
| src/output.rs, rendering | Render.v, Table.v, Escape.v, Json.v, Csv.v | the YAML writer (serde), the text of an f64 |
| src/rscada_xml.rs | Rscada.v, Escape.v | - |
| src/annotate.rs | Annotate.v, AnnotateText.v, Render.v, JsonView.v | |
| src/manufacturers.rs | Manufacturers.v | - (the registry stays a parameter of decoding) |
| cli, wasm, python | Hex.v (keys), Escape.v (CSV highlighter), Highlight.v (highlighting of all languages, syntect as a parameter), Bindings.v (all entry points) | clap, pyo3, wasm-bindgen, json.loads, serde_wasm_bindgen, the inside of syntect |

### Parameters

The theorems quantify over what is outside the code base:

* `aes : key -> block -> block`, the AES-128 block decryption. Where the right key must
  give the plaintext back, the theorem assumes an encryption of which it is the inverse,
  and that blocks keep their length of 16.
* `environment` (Model/Output.v): the text of error messages and the manufacturer registry.
* `powi` (Model/Rscada.v): `f64::powi`, whose precision Rust leaves unspecified.
* `cw`, `sw` (Model/Table.v): the widths of characters and texts of crate unicode-width.
* `renderers` (Model/Render.v): those widths, the text of an f64 (as serde_json and as `Display` write it), the YAML
  writer, `powi`.
* `legacy_renderers` (Model/Serialize.v): the text of an f64, the YAML of the older outputs, the messages of
  errors.
* The crate csv is not in /repo: its writer with default settings is modelled (Csv.v) from its documentation.
* serde_json, serde and bitflags are not in /repo: the pretty printer, the escaping of strings, the order of members (Json.v) and what
  the derived implementations and the flags of a status are written as (LegacyJson.v) are modelled from their documentation.

### The model run against the repository's own tests

`theories/Test/` evaluates the model (`vm_compute`) on test data of the repository. No theorem depends on these files; they
are evidence that the model says what the source says.

* `LibmbusCorpus.v`: all 73 frames of tests/rscada/test-frames that come with a normalised XML. The XML of the model is the
  expected file byte for byte, for both settings of the feature plaintext-before-extension, except for exactly the frames
  that tests/rscada_xml.rs lists as known mismatches.
* `RepoTests.v`: the wmbusmeters vectors, the output contract, the application layer frames, annotations, and the decryption
  of real frames (with AES-128 written out in `Aes.v`).
* `LegacyTests.v`: the expected wide CSV, cell by cell, and what the tests ask of the older JSON.

### Print Assumptions, theorem by theorem

399 property theorems. The following 25 depend on the standard library's axioms of the real numbers and on nothing else:

* `ClassicalDedekindReals.sig_forall_dec`
* `ClassicalDedekindReals.sig_not_dec`
* `Classical_Prop.classic`
* `FunctionalExtensionality.functional_extensionality_dep`

`C105_real`, `C129_decimals_partial`, `C129_integers_partial`, `C130_decimals`, `C130_empty_integer`, `C130_integers`, `C130_wide_integers`, `C22_exact_up_to_2_53`, `C22_integer_fields`, `C22_variable_length_integers`, `C23_bcd_fields`, `C23_long_bcd`, `C23_variable_length_bcd`, `C24_real_fields`, `C77_decimals_partial`, `C77_extended_decimals_partial`, `C77_extended_integers_partial`, `C77_integers_partial`, `C77_long_decimals_partial`, `C77_variable_decimals_partial`, `C89_decimals_close`, `C89_decimals_partial`, `C89_integers_close`, `C89_integers_partial`, `C89_reals_close`.

The other 374 are closed under the global context (no axioms):

`C01_wired_acceptance_exact`, `C02_encoding_is_bytes`, `C02_every_address`, `C02_wired_round_trip`, `C03_single_byte_corruption_partial`, `C03_single_byte_corruption_refuted`, `C04_wired_no_panic_partial`, `C04_wired_no_panic_refuted`, `C05_first_start_byte_partial`, `C05_second_start_byte_ignored`, `C05_second_start_byte_refuted`, `C06_wired_self_delimiting`, `C07_from_id_to_id`, `C07_manufacturer_acceptance`, `C07_manufacturer_rejection`, `C07_to_id_from_id`, `C08_decode_encode`, `C08_encode_decode`, `C08_identification_rejection`, `C08_identification_value`, `C09_configuration_fields`, `C09_device_type_lossless`, `C09_mode_depends_on_bits_8_to_12`, `C09_security_mode_lossless`, `C100_notices`, `C100_refused_message`, `C101_century_refuted`, `C101_date_partial`, `C101_datetime48_partial`, `C101_datetime_partial`, `C101_year_refuted`, `C102_xml_date`, `C102_xml_datetime`, `C102_xml_datetime48`, `C103_text`, `C103_xml_text`, `C104_direction`, `C106_capitals`, `C106_listed_once`, `C106_lookup`, `C106_reachable`, `C107_wide_csv`, `C108_ciphertext_listed_refuted`, `C108_ciphertext_panic_refuted`, `C108_session_refuted`, `C108_summary_partial`, `C109_clear_partial`, `C109_sealed_partial`, `C109_truncation_refuted`, `C10_wireless_acceptance_exact`, `C10_wireless_errors`, `C110_access_refuted`, `C110_fixed_refuted`, `C110_frame`, `C110_meter_partial`, `C110_number`, `C110_wireless`, `C111_number`, `C111_record`, `C111_wide_refuted`, `C112_same_frames`, `C113_boxes_partial`, `C113_ciphertext_refuted`, `C113_group_refuted`, `C113_line_refuted`, `C113_nodes_partial`, `C113_rows_partial`, `C113_sender_partial`, `C114_answers`, `C114_place`, `C114_rendering`, `C114_unread`, `C114_unsupported`, `C115_no_key`, `C115_wired`, `C115_wireless_partial`, `C115_wireless_refuted`, `C116_alternate_table_refuted`, `C116_displaced_refuted`, `C116_every_code`, `C116_main_table_refuted`, `C116_quantities_partial`, `C116_second_level_refuted`, `C117_combinable_table_refuted`, `C117_combined_partial`, `C117_constant_one_refuted`, `C117_manufacturer_refuted`, `C117_record_header_partial`, `C118_cases`, `C118_decrypted`, `C118_nothing_sealed`, `C118_only_encrypted`, `C118_session`, `C118_unknown_sender`, `C118_unsupported_mode`, `C119_decrypted_values`, `C119_decrypted_view`, `C119_format_a`, `C119_number_refuted`, `C119_one_text_each`, `C119_second_start_refuted`, `C119_text_first_refuted`, `C119_values`, `C119_wired_partial`, `C119_wireless_partial`, `C11_encoding_exists`, `C11_format_a_inverse`, `C11_strip_then_parse`, `C120_json`, `C120_lossless`, `C121_annotated`, `C121_bytes`, `C121_older_segments`, `C121_older_view`, `C122_failure`, `C122_panic`, `C122_success`, `C123_older`, `C123_render`, `C123_unnamed`, `C123_unread`, `C124_application`, `C124_javascript`, `C124_javascript_key`, `C124_javascript_unread`, `C124_key_blame_refuted`, `C124_key_refused`, `C124_lossless`, `C124_parse`, `C124_records`, `C124_refused`, `C125_csv`, `C125_table`, `C125_wide`, `C126_highlighted`, `C126_rendered`, `C127_json`, `C127_source`, `C128_lossless`, `C129_table_refuted`, `C12_format_a_safe`, `C12_strips_shrinks`, `C130_no_length`, `C130_reserved`, `C130_texts`, `C131_always_shown`, `C131_errors`, `C131_language`, `C131_no_language`, `C131_read_one_way`, `C131_shows_source`, `C132_global_readout`, `C132_manufacturer_block`, `C132_no_data_partial`, `C132_no_data_refuted`, `C132_reserved`, `C133_damage_partial`, `C133_damage_refuted`, `C133_delimited`, `C133_with_crc`, `C133_without_crc_partial`, `C133_without_crc_refuted`, `C134_as_received_partial`, `C134_as_received_refuted`, `C134_length_104_refuted`, `C134_length_229_partial`, `C134_wired`, `C134_wireless_partial`, `C134_wireless_refuted`, `C135_not_vouched_for_partial`, `C135_wrong_key_refuted`, `C13_crc_detects_bursts`, `C13_crc_detects_one_byte`, `C13_crc_detects_two_adjacent_bytes`, `C14_iv_is_the_header_bytes`, `C14_iv_of_a_frame`, `C15_key_provider_is_first_wins_map`, `C16_cbc_errors_and_frame`, `C16_decrypt_inverts_cbc`, `C16_mode_0_copies`, `C16_refuses_without_key_or_mode`, `C17_records_are_laid_out`, `C18_done_after_error`, `C18_done_forever`, `C18_error_is_last`, `C18_vec_all_or_nothing`, `C19_idle_fillers_ignored`, `C20_concatenation`, `C21_iteration_panic_causes_partial`, `C21_no_panic_refuted`, `C21_record_panic_causes_partial`, `C25_dib_numbers_partial`, `C25_storage_number_refuted`, `C26_same_numbers_partial`, `C26_storage_refuted`, `C27_dif_chain_accepted_partial`, `C27_dif_chain_errors_partial`, `C27_dif_chain_refuted`, `C28_vif_chain_partial`, `C28_vif_chain_refuted`, `C29_type_g_any_header`, `C29_type_g_round_trip`, `C30_timestamp_year_refuted`, `C30_type_f_fields_partial`, `C30_type_i_fields_partial`, `C31_record_width_partial`, `C31_record_width_refuted`, `C32_scales_agree`, `C33_any_order`, `C33_corrections_add_up`, `C34_dispatch_exact`, `C34_errors_exact`, `C34_never_panics`, `C35_behind_ell`, `C35_long_encrypted_no_records`, `C35_short_encrypted_no_records`, `C36_answers_for_long_headers_only`, `C36_is_encrypted_both_headers_refuted`, `C36_is_encrypted_long_partial`, `C37_ell_i_before_no_header`, `C37_ell_i_before_others`, `C37_ell_i_before_short_header`, `C37_ell_ii`, `C37_ell_iii`, `C38_wired`, `C38_wireless`, `C39_same_records_refuted`, `C39_same_records_wired_partial`, `C39_same_records_wireless_partial`, `C40_decrypted_view_tiles`, `C40_one_label_per_byte_partial`, `C40_tiling_partial`, `C40_tiling_refuted`, `C41_encrypted_payload`, `C41_encrypted_payload_format_a`, `C42_hex_input_read`, `C42_round_trip`, `C43_error_index_partial`, `C43_error_index_points_into_input_refuted`, `C43_never_panics`, `C43_only_hex_input_accepted`, `C44_empty`, `C44_integer_text_exact`, `C45_canonical_form_partial`, `C45_canonical_form_refuted`, `C45_value_exact`, `C46_no_ciphertext_records`, `C47_offset_partial`, `C47_offset_refuted`, `C48_box_as_wide_as_asked`, `C48_box_lines`, `C48_wrapping`, `C49_xml_read_one_way`, `C49_xml_round_trip`, `C49_xml_safe`, `C50_label_read_one_way`, `C50_label_round_trip`, `C50_label_safe`, `C50_old_label_recoverable_partial`, `C50_old_label_recoverable_refuted`, `C50_old_label_safe`, `C51_csv_view_keeps_text`, `C51_csv_view_read_one_way`, `C52_view_is_a_frame`, `C52_view_shows_plaintext`, `C53_view_refuted`, `C53_view_replaces_payload_partial`, `C53_view_shows_plaintext_partial`, `C54_error_carries_text`, `C54_names_exact`, `C54_round_trip`, `C55_control_information`, `C55_device_type`, `C55_function`, `C55_function_injective`, `C55_reset_subcode`, `C55_security_mode`, `C56_crc_is_polynomial_remainder`, `C57_format_a_corruption_partial`, `C57_format_a_corruption_refuted`, `C57_later_blocks_partial`, `C58_clear_message_refused`, `C58_long_header_message_decrypts`, `C59_identity_is_needed`, `C59_short_header_message_decrypts`, `C60_cli_key_exact`, `C60_wasm_key_exact`, `C61_older_reader_guesses_refuted`, `C61_older_reader_well_formed_partial`, `C62_errors`, `C62_panics`, `C62_success`, `C63_format_a_labels`, `C64_record_groups_partial`, `C64_record_groups_refuted`, `C64_text_first_refuted`, `C65_frame_header`, `C65_long_header`, `C65_short_header`, `C66_no_ciphertext_records_refuted`, `C66_wired_records_partial`, `C66_wireless_records_partial`, `C67_clear_records_shown`, `C68_sealed_records_shown`, `C69_partial_iff_warned`, `C70_accepted`, `C70_errors`, `C70_frames_decoded`, `C71_never_panics_refuted`, `C71_panics_partial`, `C72_enrichment_of_manufacturer`, `C72_enrichment_only_adds`, `C72_unused_key`, `C73_hex_input`, `C73_original`, `C73_original_decodes_again`, `C74_format_a_transparent`, `C75_identity_fixed`, `C75_identity_link`, `C75_identity_transport`, `C76_record_bytes`, `C77_exact_values_refuted`, `C77_maximum_power_refuted`, `C77_variable_integers_partial`, `C78_nested_partial`, `C78_nested_session_refuted`, `C79_well_formed`, `C80_clear_records`, `C80_wired_unsupported`, `C81_link_header`, `C81_long_header`, `C81_unread_message`, `C82_no_ciphertext_partial`, `C82_no_ciphertext_refuted`, `C82_wired_partial`, `C83_sealed_records`, `C84_errors`, `C85_never_panics_refuted`, `C85_panics_partial`, `C86_binary_refuted`, `C86_fixed_partial`, `C86_units_refuted`, `C87_function`, `C88_primary_table_partial`, `C88_primary_table_refuted`, `C89_per_hour_refuted`, `C89_range`, `C89_values_refuted`, `C89_variable_refuted`, `C90_csv`, `C91_table`, `C92_diagram`, `C93_annotated_text`, `C93_bytes_read_back`, `C94_hexadecimal`, `C94_other_formats`, `C94_rendered_if_decoded`, `C94_table`, `C95_nested_session_refuted`, `C95_transport_partial`, `C96_wired_frame`, `C96_wireless_frame`, `C97_decryption_state`, `C97_protection_partial`, `C98_extended_partial`, `C98_labels_partial`, `C98_quantity_partial`, `C98_special`, `C98_specific`, `C98_text_refuted`, `C99_records_alone`, `C99_records_empty`, `C99_records_hex`, `C99_records_not_hex`.

## 4. Faults of the code met on the way

Behaviour of the faithful model that contradicts what a user would expect. Those with an
id have a `_refuted` theorem with a witness.

* C04: wired frames of 4 or 5 bytes starting with 68 panic when overflow checks are on. C05: the second 68 is not checked.
* C21, C71, C85, C108: VIF 7D, chains of more than ten VIFEs, plain text units of more than nine characters, and LVAR E0 (debug) panic.
* C25, C26: storage number bits of DIFEs land four places too high. C27: eleven DIFEs are accepted.
* C28: a truncated VIFE chain is accepted; VIF 7C does not consume its text in the default build.
* C30: the year of timestamps (types F, I) is read from the wrong bytes.
* C31: date VIFs 6C, 6D override the width of the DIF.
* C36: no answer about encryption for short headers. C39: reversed byte order is lost. C66: ciphertext is decoded as records.
* C40: bytes after a single character frame are not labelled. C64: labels of VIFE and text swapped, DIF 7F labelled unknown.
* C43: the error index counts from the first non-blank character. C61: non-digits read as zero.
* C45: "001" style decimals for zero. C77: long variable decimals are shown from a rounded float; the cumulative maximum of active power (FB 78 to FB 7B) is shown with 0.001 to 1 added.
* C47: the offset of a failing record does not count fillers. C53: decrypted view splices two bytes late after a trailing CRC.
* C50: the older mermaid escape is not injective. C57: a corrupted later Format A block is passed on with its CRC.
* C78: an encrypted session inside an ELL I is shown in clear. C82: XML of encrypted wired frames shows ciphertext as values.
* C86: units MJ and 100 kJ of the fixed structure are exchanged, and binary counters are read as decimals. C88: averaging and actuality duration have no unit. C89: XML values below 0.000001 are shown as 0.
* C108: the older JSON and YAML list records read from ciphertext and can panic on it; an encrypted session is summarized as if in clear. C109: an unreadable record leaves no trace in the older summary.
* C98: a unit spelled out in the frame (VIF 7C) is shown neither as unit nor as quantity, which reads "Plain text".
* C113: the older chart refers to a group that need not exist, keeps line feeds of texts, and ignores the key.
* C116: FB 00 and 01 (0.1 and 1 MWh) get the unit W^3/h; FD 3B to 3F are reserved while FD 31 to 35, tariff codes in the standard, get their names (FD 33 with the unit metre for minute); FD 6F is in hours instead of years; FD 70 has the unit second; FD 74 has no unit; the third byte of FD FD xx is consumed twice.
* C117: extension 2C, per litre, multiplies by litre; the labels of 6B, 6E and 6F are permuted; 7B, a constant of one, is lost; extensions after 7F, manufacturer specific, are read by the standard table.
* Not in a theorem: data type J is never produced; timestamps of type I with "every second" are shown with second 00; in the XML the multiplier of 0x6F differs from the standard.
* C119: the second start byte of a long frame is called 0x68 whatever it is; with the text-first setting the text of a VIF is shown over its extensions; identification and manufacturer are shown in wire order, "ID: 78563412" for the meter 12345678.
* C129: in the XML, 0.1 and 1 GJ (FB 08, 09) have the unit "Reserved", 0.1 and 1 GJ/h (FB 30, 31) the unit J, and FB 79 is ten times too small. C89: the units of combinable extensions are dropped, and numbers of variable length are shown as hexadecimal bytes.
* C111: of an integer wider than eight bytes the older summary has the low eight bytes as its number, without a mark; the newer outputs show the whole number.
* C124: a key that is no text of bytes is reported by the Python and JavaScript modules with the code, place and message of a faulty frame.
* C132: a record without data whose VIF is 6C or 6D takes the bytes of the next record as its date.
* C133: a wireless frame whose content does not fit the CRC at its end is accepted; the two CRC bytes become payload.
* C134: a wireless frame of 230 bytes (length byte 0xE5) is decoded as a wired acknowledgement; all its records are lost.
* C135: the idle fillers 2F 2F at the start of an opened message are not checked; a wrong key can yield records (marked unverified).
