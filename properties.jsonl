{"id": "C01", "title": "Wired long-frame acceptance is exact", "statement": "WiredFrame::try_from returns a long or control frame exactly when the input is 0x68, L, L, one more byte (see C05), C, A, L-2 data bytes, arithmetic checksum of C..data, 0x16, with a control byte naming a known function and L>=2; the returned function, address and data are exactly the bytes at those positions (control frame iff C=0x53). No other input starting with 0x68 is accepted.", "quantifier": "all byte strings of every length", "why_tests_cant": "there are 256^n inputs per length; examples only sample accepted and rejected frames", "anchors": ["crates/wired-mbus-link-layer/src/lib.rs:TryFrom<&[u8]> for WiredFrame", "crates/m-bus-core/src/lib.rs:TryFrom<u8> for Function"]}
{"id": "C02", "title": "Wired encode/parse round trip", "statement": "Framing any function, address and user data of at most 253 bytes according to EN 13757-2 and parsing the result with WiredFrame::try_from gives back the same function, address and data; likewise for short frames and the single-character acknowledgement.", "quantifier": "all functions, all addresses, all user data of length 0..253", "why_tests_cant": "the user data is an arbitrary byte string", "anchors": ["crates/wired-mbus-link-layer/src/lib.rs:WiredFrame", "crates/m-bus-core/src/lib.rs:Function"]}
{"id": "C03", "title": "Any single corrupted byte of a wired frame is detected", "statement": "Replacing one byte of an accepted long or short frame by a different value makes WiredFrame::try_from return an error.", "quantifier": "all accepted frames, all byte positions, all replacement values", "why_tests_cant": "must hold for every frame, position and value", "anchors": ["crates/wired-mbus-link-layer/src/lib.rs:validate_checksum"]}
{"id": "C04", "title": "Wired parsing never panics", "statement": "WiredFrame::try_from returns Ok or Err for every byte string; it never panics in a debug or release build.", "quantifier": "all byte strings, both overflow-check settings", "why_tests_cant": "a fuzz run samples the inputs; absence of panic is a universal statement", "anchors": ["crates/wired-mbus-link-layer/src/lib.rs:validate_checksum", "crates/wired-mbus-link-layer/src/lib.rs:TryFrom<&[u8]> for WiredFrame"]}
{"id": "C05", "title": "Both start bytes of a wired long frame are verified", "statement": "If WiredFrame::try_from accepts a long or control frame then bytes 0 and 3 are both 0x68, as EN 13757-2 requires.", "quantifier": "all byte strings", "why_tests_cant": "an example based test checks a handful of headers", "anchors": ["crates/wired-mbus-link-layer/src/lib.rs:TryFrom<&[u8]> for WiredFrame"]}
{"id": "C06", "title": "Wired frames are self-delimiting", "statement": "If a byte string is accepted as a long, control or short frame then no proper prefix and no proper extension of it is accepted as such a frame: framing never silently drops or invents trailing bytes.", "quantifier": "all accepted frames, all prefixes and all extensions", "why_tests_cant": "quantifies over all suffixes", "anchors": ["crates/wired-mbus-link-layer/src/lib.rs:TryFrom<&[u8]> for WiredFrame"]}
{"id": "C07", "title": "Manufacturer codes round trip", "statement": "ManufacturerCode::from_id then to_id is the identity on the ids it accepts, to_id then from_id is the identity on all three letter codes A-Z, and from_id accepts exactly the ids whose three 5-bit groups are 1..26 with bit 15 ignored or rejected consistently.", "quantifier": "all 16-bit ids, all letter triples", "why_tests_cant": "65536 ids and 17576 codes", "anchors": ["crates/m-bus-core/src/lib.rs:ManufacturerCode"]}
{"id": "C08", "title": "Identification numbers round trip", "statement": "The four little-endian BCD bytes of an identification number are decoded to the number whose decimal digits they spell; bytes with a non-decimal nibble are rejected; re-encoding an accepted number yields the same four bytes.", "quantifier": "all 4-byte strings", "why_tests_cant": "2^32 byte strings", "anchors": ["crates/m-bus-core/src/lib.rs:IdentificationNumber", "crates/m-bus-core/src/lib.rs:bcd_hex_digits_to_u32", "crates/m-bus-core/src/decryption.rs:decimal_to_bcd"]}
{"id": "C09", "title": "Device types and security modes are lossless", "statement": "Converting any device-type byte to DeviceType and back yields the same byte; SecurityMode::from_bits/to_bits is lossless on the 5 mode bits; ConfigurationField's security mode depends only on bits 8-12 of the raw value and rebuilding the field from its bytes is the identity.", "quantifier": "all 256 device bytes, all 65536 configuration words", "why_tests_cant": "each value must be checked, tests list a few", "anchors": ["crates/m-bus-core/src/lib.rs:DeviceType", "crates/m-bus-core/src/lib.rs:SecurityMode", "crates/m-bus-core/src/lib.rs:ConfigurationField"]}
{"id": "C10", "title": "Wireless frame acceptance is exact", "statement": "WirelessFrame::try_from accepts exactly the inputs with a decodable 9-byte link header and whose first byte plus one equals their length; the payload is bytes 10 to the end, minus a trailing CRC when the last two bytes are the EN 13757 CRC of everything before them; errors carry the right expected/actual lengths. It never panics.", "quantifier": "all byte strings", "why_tests_cant": "infinite input space", "anchors": ["crates/wireless-mbus-link-layer/src/lib.rs:TryFrom<&[u8]> for WirelessFrame", "crates/wireless-mbus-link-layer/src/lib.rs:trailing_frame_crc_start", "crates/wireless-mbus-link-layer/src/lib.rs:ManufacturerId"]}
{"id": "C11", "title": "Format A CRC stripping inverts Format A encoding", "statement": "For every frame content (10 byte first block plus any number of 16-byte blocks and a final shorter block), inserting the block CRCs of EN 13757-4 Format A and calling strip_format_a_crcs returns exactly the original bytes with the L field recomputed, whatever the output buffer contained, provided it is large enough.", "quantifier": "all contents of every length, all output buffers", "why_tests_cant": "content is arbitrary; the stripper guesses block sizes by CRC so only a proof excludes wrong guesses", "anchors": ["crates/wireless-mbus-link-layer/src/lib.rs:strip_format_a_crcs"]}
{"id": "C12", "title": "Format A stripping is safe on arbitrary input", "statement": "For every input and output buffer strip_format_a_crcs never panics; it returns None or a prefix of the output buffer whose length is at most the input length and bytes beyond the returned prefix are unchanged; it returns None whenever the first block's CRC is wrong.", "quantifier": "all inputs, all buffers", "why_tests_cant": "index arithmetic must be safe for every input", "anchors": ["crates/wireless-mbus-link-layer/src/lib.rs:strip_format_a_crcs"]}
{"id": "C13", "title": "The EN 13757 CRC detects every short burst", "statement": "Two messages of equal length which differ only within two adjacent bytes have different CRCs; in particular every single-byte corruption of a Format A block is noticed.", "quantifier": "all message pairs of every length, all positions", "why_tests_cant": "2^n messages", "anchors": ["crates/wireless-mbus-link-layer/src/lib.rs:crc16", "src/annotate.rs:crc16_en13757"]}
{"id": "C14", "title": "AES initialisation vector equals the on-air bytes", "statement": "The IV used for security mode 5 is manufacturer (2 bytes LE), identification (4 bytes BCD LE), version, device type, then the access number eight times, i.e. byte for byte the 8 header bytes the identity was parsed from followed by 8 access numbers.", "quantifier": "all meter identities and access numbers, for every control information byte outside the manufacturer specific range 0xA0-0xAF (where the code takes the device type from half a byte)", "why_tests_cant": "all 2^64 header values", "anchors": ["crates/m-bus-core/src/decryption.rs:derive_iv"]}
{"id": "C15", "title": "Key provider behaves as a bounded first-wins map", "statement": "After any sequence of add_key calls StaticKeyProvider::get_key returns the first key that was added for that manufacturer and identification number, KeyNotFound if none was, and adding fails exactly when capacity N is reached, leaving earlier keys retrievable.", "quantifier": "all capacities, all histories of add_key/get_key", "why_tests_cant": "history property", "anchors": ["crates/m-bus-core/src/decryption.rs:StaticKeyProvider"]}
{"id": "C16", "title": "CBC decryption inverts CBC encryption and touches nothing else", "statement": "Decrypting the CBC encryption of any whole number of blocks returns the plaintext; trailing bytes after the last whole block are copied unchanged; the output length equals the input length; output bytes beyond it are unchanged; wrong key length, empty input or short buffer are errors and never panics.", "quantifier": "all block ciphers with a decryption function, keys, IVs, payloads of every length, buffers", "why_tests_cant": "payload lengths and contents are unbounded", "anchors": ["crates/m-bus-core/src/decryption.rs:decrypt_aes_cbc_into", "crates/m-bus-core/src/decryption.rs:decrypt_into"]}
{"id": "C17", "title": "Record iteration terminates and walks the buffer in order", "statement": "Iterating DataRecords over any buffer terminates; every Ok record carries raw bytes that are a non-empty slice of the buffer, slices appear in order without overlap, and every byte between them is a skipped filler/reserved byte or belongs to the trailing manufacturer data or the erroneous rest.", "quantifier": "all buffers, all TPL headers", "why_tests_cant": "loop progress over arbitrary data", "anchors": ["crates/m-bus-application-layer/src/lib.rs:Iterator for DataRecords", "crates/m-bus-application-layer/src/data_record.rs:DataRecord::parse"]}
{"id": "C18", "title": "A record error ends iteration", "statement": "Iterating DataRecords yields at most one Err, it is the last item, and afterwards the iterator yields None forever; collecting into a Vec via From yields either all records or none.", "quantifier": "all buffers, any number of further next() calls", "why_tests_cant": "history property of an iterator", "anchors": ["crates/m-bus-application-layer/src/lib.rs:Iterator for DataRecords", "crates/m-bus-application-layer/src/lib.rs:From<DataRecords> for Vec"]}
{"id": "C19", "title": "Idle fillers never change the records", "statement": "Inserting any number of 0x2F idle filler bytes between complete records, before the first or after the last one leaves the sequence of decoded records unchanged.", "quantifier": "all record sequences, all filler counts", "why_tests_cant": "arbitrary interleavings", "anchors": ["crates/m-bus-application-layer/src/lib.rs:Iterator for DataRecords"]}
{"id": "C20", "title": "Concatenated records decode independently", "statement": "If a buffer decodes without error into records that consume it completely, and each record is length-complete, then decoding that buffer followed by any other buffer yields its records followed by the records of the other buffer.", "quantifier": "all complete buffers, all continuations", "why_tests_cant": "unbounded concatenation", "anchors": ["crates/m-bus-application-layer/src/lib.rs:Iterator for DataRecords", "crates/m-bus-application-layer/src/data_record.rs:DataRecord::parse", "crates/m-bus-application-layer/src/data_information.rs:DataFieldCoding::parse"]}
{"id": "C21", "title": "Record parsing never panics", "statement": "DataRecord::try_from and DataRecords iteration return values or errors for every byte string; no input makes them panic.", "quantifier": "all byte strings, both overflow-check settings, both plaintext features", "why_tests_cant": "adversarial meter data; universal statement", "anchors": ["crates/m-bus-application-layer/src/data_record.rs:DataRecord::parse", "crates/m-bus-application-layer/src/value_information.rs:TryFrom<&[u8]> for ValueInformationBlock", "crates/m-bus-application-layer/src/value_information.rs:ValueInformationCoding", "crates/m-bus-application-layer/src/data_information.rs:DataFieldCoding::parse"]}
{"id": "C22", "title": "Integer fields decode as little-endian two's complement", "statement": "A record with an 8/16/24/32/48/64 bit integer data field (and LVAR binary numbers of 1..8 bytes) has the value of the little-endian two's-complement number in its data bytes, converted to f64 by correct rounding, exactly when its magnitude is at most 2^53.", "quantifier": "all byte strings of the field width", "why_tests_cant": "2^64 field values", "anchors": ["crates/m-bus-application-layer/src/data_information.rs:integer_from_bytes / parse", "crates/m-bus-application-layer/src/data_information.rs:DataFieldCoding::parse"]}
{"id": "C23", "title": "BCD fields decode as decimal numbers", "statement": "A record with a 2..12 digit BCD field whose nibbles are all decimal digits has exactly the number those digits spell as its value; a non-decimal nibble is an error; the lsb_order flag of the TPL header reverses the byte order and nothing else.", "quantifier": "all BCD byte strings up to 6 bytes", "why_tests_cant": "10^12 numbers, floating point accumulation", "anchors": ["crates/m-bus-application-layer/src/data_information.rs:bcd_to_value"]}
{"id": "C24", "title": "Real fields decode to the IEEE value", "statement": "A 32 bit real field is decoded to exactly the IEEE-754 single precision number in its four little-endian bytes, including sign, zeros, subnormals, infinities and NaN.", "quantifier": "all 2^32 bit patterns", "why_tests_cant": "2^32 patterns", "anchors": ["crates/m-bus-application-layer/src/data_information.rs:DataFieldCoding::parse"]}
{"id": "C25", "title": "Storage, tariff and subunit numbers follow EN 13757-3", "statement": "DataInformation's storage number is bit 6 of the DIF followed by the low nibble of each DIFE (first DIFE at bit 1), tariff is two bits per DIFE and device is one bit per DIFE, for every chain of up to 10 DIFEs.", "quantifier": "all DIF/DIFE chains", "why_tests_cant": "16^10 storage chains", "anchors": ["crates/m-bus-application-layer/src/data_information.rs:TryFrom<&DataInformationBlock> for DataInformation"]}
{"id": "C26", "title": "XML and native storage numbers agree", "statement": "The storage number, tariff and device printed in the rSCADA XML equal those of DataInformation for the same record header.", "quantifier": "all DIF/DIFE chains", "why_tests_cant": "two independent implementations must agree on every chain", "anchors": ["src/rscada_xml.rs:storage_number", "crates/m-bus-application-layer/src/data_information.rs:DataInformation"]}
{"id": "C27", "title": "DIF chain length is bounded and exact", "statement": "DataInformationBlock::try_from consumes 1 + number of bytes while the extension bit is set, never more than 11; it returns DataTooLong/DataTooShort/NoData exactly for over-long, truncated and empty chains.", "quantifier": "all byte strings", "why_tests_cant": "infinite inputs", "anchors": ["crates/m-bus-application-layer/src/data_information.rs:TryFrom<&[u8]> for DataInformationBlock"]}
{"id": "C28", "title": "VIF chain length is exact", "statement": "ValueInformationBlock::try_from consumes the VIF, all VIFEs up to the first without extension bit and a length-prefixed plaintext unit; get_size equals the bytes consumed and never exceeds the data present.", "quantifier": "all byte strings", "why_tests_cant": "infinite inputs", "anchors": ["crates/m-bus-application-layer/src/value_information.rs:TryFrom<&[u8]> for ValueInformationBlock", "crates/m-bus-application-layer/src/value_information.rs:get_size"]}
{"id": "C29", "title": "Type G dates round trip", "statement": "A type G date field written according to EN 13757-3 for any day 1-31, month 1-12 and two-digit year 0-99 decodes to the same day, month and year; day 0 and year 127 decode to Every and months outside 1-12 to Invalid.", "quantifier": "all 65536 field values", "why_tests_cant": "finite but exhaustive only by sweep", "anchors": ["crates/m-bus-application-layer/src/data_information.rs:DateTypeG", "crates/m-bus-application-layer/src/data_information.rs:parse_year"]}
{"id": "C30", "title": "Type F and I timestamps decode their own year", "statement": "For CP32/CP48 timestamps, the decoded year is the one encoded in the day/month bytes, the same as for a type G field holding the same date, and independent of minutes and hours.", "quantifier": "all field values", "why_tests_cant": "2^32 / 2^48 field values", "anchors": ["crates/m-bus-application-layer/src/data_information.rs:parse_year", "crates/m-bus-application-layer/src/data_information.rs:DateTimeTypeF", "crates/m-bus-application-layer/src/data_information.rs:DateTimeTypeI", "src/rscada_xml.rs:date_f_decode"]}
{"id": "C31", "title": "Record size matches the data field width", "statement": "A successful record's raw bytes are the header followed by exactly the number of data bytes announced by the DIF data field (or LVAR), for every DIF and VIF.", "quantifier": "all record byte strings", "why_tests_cant": "every DIF/VIF combination and data", "anchors": ["crates/m-bus-application-layer/src/data_record.rs:DataRecord::parse", "crates/m-bus-application-layer/src/data_information.rs:DataFieldCoding::parse"]}
{"id": "C32", "title": "Native and XML decimal scaling agree for primary VIFs", "statement": "For each primary VIF with a decimal scale, the power of ten in ValueInformation equals the multiplier of the rSCADA table for the same VIF.", "quantifier": "all primary VIF bytes", "why_tests_cant": "two tables written independently, must agree on every entry", "anchors": ["crates/m-bus-application-layer/src/value_information.rs:TryFrom<&ValueInformationBlock> for ValueInformation", "src/rscada_xml.rs:VIF_TABLE"]}
{"id": "C33", "title": "Multiplicative correction VIFEs compose", "statement": "Appending VIFE 0x70|n (correction 10^(n-6)) to any complete VIF chain, other than those of the plain-text, wildcard and manufacturer VIFs 7B-7F, changes the scale exponent by exactly n-6 and nothing else, independent of the order of several corrections.", "quantifier": "all VIF chains, all corrections", "why_tests_cant": "arbitrary chains", "anchors": ["crates/m-bus-application-layer/src/value_information.rs:consume_orthogonal_vife"]}
{"id": "C34", "title": "Application-layer dispatch is total and exact", "statement": "UserDataBlock::try_from on any byte string returns a value or an error and never panics; the variant is determined by the control information byte; the variable data block is exactly the suffix of the input after the header of 13, 5, 6 or 1 bytes; header fields equal the header bytes.", "quantifier": "all byte strings", "why_tests_cant": "infinite inputs", "anchors": ["crates/m-bus-application-layer/src/lib.rs:TryFrom<&[u8]> for UserDataBlock"]}
{"id": "C35", "title": "Encrypted payloads never yield records", "statement": "UserDataBlock::data_records is None whenever the configuration field announces an encryption mode, for long and short TPL headers, so ciphertext is never decoded as meter readings through that API.", "quantifier": "all byte strings", "why_tests_cant": "confidential/garbage readings for any ciphertext", "anchors": ["crates/m-bus-application-layer/src/lib.rs:data_records", "crates/m-bus-application-layer/src/lib.rs:is_encrypted"]}
{"id": "C36", "title": "Encryption state is reported for both TPL headers", "statement": "UserDataBlock::is_encrypted reports Some(true) exactly when the security mode of the transport header in use, long or short, is not NoEncryption.", "quantifier": "all byte strings", "why_tests_cant": "all headers", "anchors": ["crates/m-bus-application-layer/src/lib.rs:is_encrypted"]}
{"id": "C37", "title": "Extended link layer is transparent", "statement": "Prefixing a short-header or header-less application payload by an ELL I header parses to the same payload with that ELL attached; the ELL fields are exactly the prefix bytes; ELL II and III consume 8 and 16 bytes.", "quantifier": "all payloads, all ELL headers", "why_tests_cant": "arbitrary payloads and nesting", "anchors": ["crates/m-bus-application-layer/src/lib.rs:TryFrom<&[u8]> for UserDataBlock", "crates/m-bus-application-layer/src/extended_link_layer.rs:ExtendedLinkLayer"]}
{"id": "C38", "title": "Application errors never lose the link frame", "statement": "MbusData::try_from succeeds exactly when the link-layer frame parses; an application-layer failure is reported in application_error with the frame intact and no records; user_data and application_error are never both present.", "quantifier": "all byte strings, wired and wireless", "why_tests_cant": "all inputs", "anchors": ["src/mbus_data.rs:TryFrom<&[u8]> for MbusData"]}
{"id": "C39", "title": "MbusData records equal UserDataBlock records", "statement": "When an MbusData carries an unencrypted variable data block, iterating MbusData.data_records yields the same records as user_data.data_records().", "quantifier": "all frames", "why_tests_cant": "both routes must agree on every frame incl. lsb-ordered headers", "anchors": ["src/mbus_data.rs:MbusData", "crates/m-bus-application-layer/src/lib.rs:data_records"]}
{"id": "C40", "title": "Frame annotations tile the input", "statement": "annotate_frame's segments are non-empty, sorted, contiguous and cover the whole input exactly once, for wired, wireless, and wireless Format A input.", "quantifier": "all byte strings accepted by annotate_frame", "why_tests_cant": "infinite inputs, nested headers, interleaved CRCs", "anchors": ["src/annotate.rs:annotate_frame", "src/annotate.rs:annotate_data_records", "src/annotate.rs:annotate_wireless_format_a"]}
{"id": "C41", "title": "Annotations never dissect encrypted payloads", "statement": "When the TPL configuration announces encryption, no DIF/VIF/data segment is produced for the payload; it is a single encrypted-payload segment, interrupted only by the block CRCs when the input is a Format A frame.", "quantifier": "all byte strings", "why_tests_cant": "all ciphertexts", "anchors": ["src/annotate.rs:annotate_application_layer"]}
{"id": "C42", "title": "Hex input round trips", "statement": "decode_hex_bytes of the compact hex spelling, or of any spelling with whitespace, colon or dash separators and optional 0x prefixes per byte, returns exactly the bytes spelled; output hex_string followed by decode_hex_bytes is the identity on non-empty data.", "quantifier": "all byte strings and all separator choices", "why_tests_cant": "arbitrary strings", "anchors": ["src/output.rs:decode_hex_bytes", "src/output.rs:push_hex_token", "src/output.rs:hex_string"]}
{"id": "C43", "title": "Malformed hex input is rejected, never guessed", "statement": "decode_hex_bytes returns Ok only if every hex digit of the input contributes to the output (no digit or foreign character is silently dropped); the error index points into the input at an offending character.", "quantifier": "all strings", "why_tests_cant": "arbitrary strings", "anchors": ["src/output.rs:decode_hex_bytes"]}
{"id": "C44", "title": "Exact integer rendering", "statement": "The exact decimal string rendered for an integer field of any length is the canonical decimal representation of the little-endian two's-complement value (no rounding, no leading zeros, '-' only for negatives).", "quantifier": "byte strings of every length", "why_tests_cant": "arbitrary precision", "anchors": ["src/output.rs:signed_le_decimal"]}
{"id": "C45", "title": "Exact scaled values", "statement": "The decimal string rendered for a scaled value denotes exactly significand*10^scale + 10^offset_power (the second term only for units with an additive correction), for every decimal significand, offset and exponent, and is in canonical form.", "quantifier": "all significands, exponents and offsets", "why_tests_cant": "arbitrary precision string arithmetic", "anchors": ["src/output.rs:scaled_decimal", "src/output.rs:add_signed_decimal_integers", "src/output.rs:apply_power10"]}
{"id": "C46", "title": "Decode without key never emits ciphertext records", "statement": "decode_bytes without a key on a frame whose message is encrypted (by its transport header, behind any extended link layers I, or by an extended link layer II or III that starts the message) succeeds with no records, is marked partial with the diagnostic that the key is missing, and shows no decrypted payload.", "quantifier": "all frames with an encrypted message, wired, wireless and Format A", "why_tests_cant": "all ciphertexts", "anchors": ["src/output.rs:decode_bytes", "src/output.rs:prepare_security", "src/output.rs:build_output"]}
{"id": "C47", "title": "Record error offsets point at the failing byte", "statement": "The byte offset reported with a data-record error equals the offset in the application payload at which the undecodable record starts.", "quantifier": "all payloads with any mix of records and fillers", "why_tests_cant": "arbitrary payloads", "anchors": ["src/output.rs:collect_records"]}
{"id": "C48", "title": "Text tables respect the requested width and lose nothing", "statement": "wrap_display splits any cell so that each line's display width is at most the column width (characters wider than the column excepted) and the concatenation of the lines is the original text without newlines.", "quantifier": "all strings, all widths", "why_tests_cant": "arbitrary text", "anchors": ["src/output.rs:wrap_display", "src/output.rs:render_table"]}
{"id": "C49", "title": "XML escaping is injective and safe", "statement": "Text passed through the XML encoder contains no raw <, >, \" or control characters and every & starts one of the four entities; decoding entities gives back the text with control characters replaced by spaces.", "quantifier": "all strings", "why_tests_cant": "arbitrary meter-supplied text, injection safety", "anchors": ["src/rscada_xml.rs:xml_encode"]}
{"id": "C50", "title": "Diagram labels cannot break out of quotes", "statement": "Mermaid labels produced by the escape functions contain no quote, bracket (source view) or newline/angle bracket (output view) whatever text the meter sent; the text can be recovered.", "quantifier": "all strings", "why_tests_cant": "arbitrary text", "anchors": ["src/output.rs:mermaid_escape", "src/mbus_data.rs:mermaid_escape"]}
{"id": "C51", "title": "Syntax highlighting preserves the text", "statement": "Removing the span tags and unescaping the HTML produced by the CSV highlighter gives back the source text, and meter-supplied text can never introduce a tag.", "quantifier": "all CSV strings", "why_tests_cant": "arbitrary text", "anchors": ["wasm/src/highlight.rs:highlight_csv", "wasm/src/highlight.rs:push_escaped_html"]}
{"id": "C52", "title": "Decrypted wired frame view is a valid frame", "statement": "The frame rebuilt for display after decryption has consistent L fields and checksum, parses as the same function/address, differs from the received frame only in the payload, L, and checksum bytes.", "quantifier": "all frames and plaintexts", "why_tests_cant": "arbitrary payloads", "anchors": ["src/mbus_data.rs:decrypted_wired_hexview_data"]}
{"id": "C53", "title": "Decrypted wireless frame view replaces exactly the payload", "statement": "The wireless frame rebuilt for display after decryption equals the received frame with exactly the encrypted payload bytes replaced by the plaintext.", "quantifier": "all frames incl. those with trailing CRC", "why_tests_cant": "arbitrary payloads", "anchors": ["src/mbus_data.rs:decrypted_wireless_hexview_data"]}
{"id": "C54", "title": "Output format names round trip", "statement": "OutputFormat::from_str(as_str(f)) = f for each format, names are case-insensitive and surrounding whitespace is ignored; no other string is accepted.", "quantifier": "all strings", "why_tests_cant": "all strings", "anchors": ["src/output.rs:OutputFormat"]}
{"id": "C55", "title": "Control information, function and reset sub-code tables are exact", "statement": "Each control information byte, link function byte and reset sub-code maps to its meaning and unknown bytes are errors carrying the byte; distinct accepted function bytes map to distinct functions.", "quantifier": "all 256 byte values", "why_tests_cant": "finite but must be exhaustive", "anchors": ["crates/m-bus-application-layer/src/lib.rs:ControlInformation", "crates/m-bus-application-layer/src/lib.rs:ApplicationResetSubcode", "crates/m-bus-core/src/lib.rs:Function"]}
{"id": "C56", "title": "The frame CRC is the EN 13757-4 polynomial remainder", "statement": "The CRC used for Format A blocks and trailing frame CRCs is the complement of the remainder of the message times x^16 divided by x^16+x^13+x^12+x^11+x^10+x^8+x^6+x^5+x^2+1, for messages of every length; no other value passes the check.", "quantifier": "all byte strings", "why_tests_cant": "all message lengths and contents", "anchors": ["crates/wireless-mbus-link-layer/src/lib.rs:crc16_en13757", "src/annotate.rs:crc16_en13757"]}
{"id": "C57", "title": "Corrupted Format A frames are noticed", "statement": "If one byte of a Format A frame is changed in transit, strip_format_a_crcs does not return a frame with different content as if it were good.", "quantifier": "all frames, positions and values", "why_tests_cant": "all frames and corruptions", "anchors": ["crates/wireless-mbus-link-layer/src/lib.rs:strip_format_a_crcs"]}
{"id": "C58", "title": "Long-header messages decrypt end to end", "statement": "For an AES-CBC encrypted message with long TPL header (mode 5 or 7), parsing the bytes and calling decrypt_variable_data with a provider that knows the meter's key writes exactly the plaintext into the buffer, the vector being the header bytes and the access number; unencrypted messages are refused with NotEncrypted and an untouched buffer.", "quantifier": "all headers, keys, plaintexts, buffers, invertible block ciphers", "why_tests_cant": "all messages and keys", "anchors": ["crates/m-bus-application-layer/src/lib.rs:decrypt_variable_data", "crates/m-bus-core/src/decryption.rs:EncryptedPayload"]}
{"id": "C59", "title": "Short-header messages decrypt with the link-layer identity", "statement": "For an AES-CBC encrypted message with short TPL header behind a wireless link header, decrypt_variable_data_with_context with the identity parsed from that header writes exactly the plaintext; without the context it is refused and the buffer untouched.", "quantifier": "all headers, keys, plaintexts, buffers, invertible block ciphers", "why_tests_cant": "all messages and keys", "anchors": ["crates/m-bus-application-layer/src/lib.rs:decrypt_variable_data_with_context", "crates/wireless-mbus-link-layer/src/lib.rs:ManufacturerId"]}
{"id": "C60", "title": "Key texts are read exactly", "statement": "The CLI accepts a decryption key text exactly when it is 32 hexadecimal digits, and the wasm entry points exactly when it is a hexadecimal input of 16 bytes; the key is then those 16 bytes, first digit pair first.", "quantifier": "all key strings", "why_tests_cant": "all strings", "anchors": ["cli/src/main.rs:parse_key", "wasm/src/lib.rs:parse_key"]}
{"id": "C61", "title": "The older text entry points read hexadecimal without guessing", "statement": "serialize_mbus_data interprets well-formed text (byte pairs with optional 0x, spaces and commas) as exactly those bytes, and does not invent bytes for characters that are not hexadecimal.", "quantifier": "all strings", "why_tests_cant": "all strings", "anchors": ["src/mbus_data.rs:clean_and_convert", "src/mbus_data.rs:serialize_mbus_data"]}
{"id": "C62", "title": "Annotation succeeds exactly on readable frames", "statement": "annotate_frame returns segments exactly for the inputs that WiredFrame::try_from or WirelessFrame::try_from accepts, as they are or after removing Format A CRCs; for every other input it returns one error and no segments, and it never invents a frame from an unreadable input.", "quantifier": "all byte strings", "why_tests_cant": "infinite inputs", "anchors": ["src/annotate.rs:annotate_frame"]}
{"id": "C63", "title": "Format A labels are those of the plain frame", "statement": "Annotating a Format A frame labels each content byte as annotating the plain frame does, and labels every other byte as a CRC byte.", "quantifier": "all Format A encodings of all frames", "why_tests_cant": "arbitrary contents and block counts; position mapping must be right everywhere", "anchors": ["src/annotate.rs:annotate_wireless_format_a"]}
{"id": "C64", "title": "Annotated records are the decoded records", "statement": "The groups of segments annotate_frame makes for the variable data block are, in order, the DIF, DIFEs, VIF, VIFEs, plain text and data of the records which DataRecords yields for the same block.", "quantifier": "all clear messages in wired and wireless frames", "why_tests_cant": "two independent walks over arbitrary data must agree", "anchors": ["src/annotate.rs:annotate_data_records", "crates/m-bus-application-layer/src/lib.rs:Iterator for DataRecords"]}
{"id": "C65", "title": "Frame and transport header fields are labelled at their positions", "statement": "For wired long frames, wireless frames and messages with long or short TPL header, annotate_frame labels each header field at exactly the byte positions EN 13757 gives it.", "quantifier": "all frames, all payloads", "why_tests_cant": "all frames", "anchors": ["src/annotate.rs:annotate_frame", "src/annotate.rs:annotate_application_layer"]}
{"id": "C66", "title": "MbusData offers no records for encrypted payloads", "statement": "When the application layer of a frame is encrypted, MbusData.data_records is None, so that ciphertext is never decoded as measured values.", "quantifier": "all frames", "why_tests_cant": "all ciphertexts", "anchors": ["src/mbus_data.rs:MbusData", "crates/m-bus-application-layer/src/lib.rs:variable_user_data.rs:From<&[u8]> for DataRecords"]}
{"id": "C67", "title": "Records of clear messages are shown", "statement": "decode_bytes on a frame whose message is not encrypted shows exactly the records which the record iterator yields for its variable data block, in order; when a record cannot be read it shows those before it, is marked partial and reports the reason; it is marked complete otherwise.", "quantifier": "all frames with a clear message, any key", "why_tests_cant": "arbitrary record sequences", "anchors": ["src/output.rs:decode_bytes", "src/output.rs:collect_records", "src/output.rs:build_output"]}
{"id": "C68", "title": "Records of sealed messages are shown with the right key", "statement": "For a message sealed with AES-CBC under a key, decode_bytes with that key shows exactly the records of the sealed plaintext, and the decrypted payload shown is that plaintext, whether the vector comes from the long header or from the wireless link header.", "quantifier": "all frames, keys, plaintexts, invertible block ciphers", "why_tests_cant": "all messages and keys", "anchors": ["src/output.rs:decode_bytes", "src/output.rs:prepare_security", "src/output.rs:decrypt_user_data"]}
{"id": "C69", "title": "An output is partial exactly when it carries a warning", "statement": "The decode state is partial or complete; it is partial exactly when a diagnostic has severity warning, which are those for an unreadable message, an unreadable record and a missing key.", "quantifier": "all inputs, keys and options", "why_tests_cant": "all inputs", "anchors": ["src/output.rs:build_output"]}
{"id": "C70", "title": "Frames are decoded and everything else is refused", "statement": "Without a key, decode_bytes succeeds on every wired frame and every wireless frame, plain or in Format A; its errors are empty input, input that is no frame and failed decryption; an accepted input is a frame, shown with its protocol and its bytes.", "quantifier": "all byte strings", "why_tests_cant": "infinite inputs", "anchors": ["src/output.rs:decode_bytes"]}
{"id": "C71", "title": "Decoding for display never panics", "statement": "decode_bytes returns an output or an error for every input.", "quantifier": "all byte strings, keys and options", "why_tests_cant": "all inputs", "anchors": ["src/output.rs:decode_bytes"]}
{"id": "C72", "title": "Options change only what they are for", "statement": "Asking for enrichment adds the manufacturer details and changes nothing else; a key given for a message in clear changes nothing but the note that it was not needed.", "quantifier": "all frames, all keys", "why_tests_cant": "all inputs", "anchors": ["src/output.rs:decode_bytes", "src/output.rs:enrichment_for"]}
{"id": "C73", "title": "Hexadecimal input is decoded like bytes, and the frame shown can be given back", "statement": "decode_hex on any hexadecimal spelling of the bytes gives the output of decode_bytes apart from the echo of the input; the original frame shown is the input, and decoding it again gives the same output.", "quantifier": "all byte strings and spellings", "why_tests_cant": "arbitrary strings", "anchors": ["src/output.rs:decode_hex", "src/output.rs:decode_bytes"]}
{"id": "C74", "title": "Format A framing is transparent to decoding", "statement": "decode_bytes on the Format A encoding of a frame gives the same output, error or panic as on the frame itself, apart from the bytes shown.", "quantifier": "all wireless frames, keys and options", "why_tests_cant": "arbitrary contents and block counts", "anchors": ["src/output.rs:decode_bytes", "crates/wireless-mbus-link-layer/src/lib.rs:strip_format_a_crcs"]}
{"id": "C75", "title": "The meter shown is the one named in the frame", "statement": "With a long transport header, the identity shown has the number, manufacturer, version and device type of that header in its byte order, and a wireless link header is listed beside it; without one it is that of the wireless link header.", "quantifier": "all frames", "why_tests_cant": "all headers", "anchors": ["src/output.rs:meter_and_transport", "src/output.rs:identity_from_long", "src/output.rs:identity_from_wireless"]}
{"id": "C76", "title": "Bytes shown with records are the bytes decoded", "statement": "Header and data bytes shown with the records, put together in order, are the variable data block less the filler bytes; records are numbered from 0.", "quantifier": "all variable data blocks", "why_tests_cant": "arbitrary blocks", "anchors": ["src/output.rs:record_output", "src/output.rs:collect_records"]}
{"id": "C77", "title": "Displayed values are exact", "statement": "The decimal text shown for an integer or decimal data field denotes exactly the number in the field times the power of ten of its unit plus the additive correction.", "quantifier": "all records of integer and decimal coding, all widths, units and extensions", "why_tests_cant": "all values and units; floating point must not leak into the text", "anchors": ["src/output.rs:value_output", "src/output.rs:exact_significand", "src/output.rs:scaled_decimal"]}
{"id": "C78", "title": "No nesting of link layers makes ciphertext appear in clear", "statement": "However extended link layers wrap an encrypted message, decode_bytes without a key shows no records and reports the payload as encrypted.", "quantifier": "all nestings of extended link layers, all frames", "why_tests_cant": "unbounded nesting", "anchors": ["src/output.rs:security_fields", "crates/m-bus-application-layer/src/lib.rs:TryFrom<&[u8]> for UserDataBlock"]}
{"id": "C79", "title": "The XML is well-formed libmbus XML", "statement": "Whatever bytes a frame contains, the result of render_from_bytes reads back, by the rules of XML, as one MBusData element with one SlaveInformation and DataRecord elements numbered 0, 1, 2, ...; no byte of the frame can end up as markup.", "quantifier": "all frames and keys", "why_tests_cant": "injection must be impossible for every text a meter can send", "anchors": ["src/rscada_xml.rs:render_from_bytes", "src/rscada_xml.rs:xml_encode"]}
{"id": "C80", "title": "The XML has an element for every record", "statement": "For a message in clear, the DataRecord elements are those of the records which the record iterator yields for its data block, in order, up to the first that cannot be read; wired frames without long header and fixed structure are refused.", "quantifier": "all frames with a clear message, any key", "why_tests_cant": "arbitrary record sequences", "anchors": ["src/rscada_xml.rs:render_from_bytes", "src/rscada_xml.rs:render_variable"]}
{"id": "C81", "title": "The XML names the meter of the frame", "statement": "The SlaveInformation has the number, manufacturer, version, medium, access number, status and signature of the long header, or else of the wireless link header and short header or extended link layer.", "quantifier": "all frames", "why_tests_cant": "all headers", "anchors": ["src/rscada_xml.rs:render_variable_header", "src/rscada_xml.rs:render_wireless_variable"]}
{"id": "C82", "title": "Encrypted payloads do not become XML records", "statement": "Without a key, a frame whose message is encrypted is converted without any DataRecord.", "quantifier": "all encrypted frames", "why_tests_cant": "all ciphertexts", "anchors": ["src/rscada_xml.rs:render_with_optional_decryption", "src/rscada_xml.rs:render_wireless_with_optional_decryption", "src/rscada_xml.rs:render_from_bytes"]}
{"id": "C83", "title": "Sealed messages become XML with the right key", "statement": "For a message sealed with AES-CBC under a key, render_from_bytes with that key gives an element for each record of the sealed plaintext.", "quantifier": "all frames, keys, plaintexts, invertible block ciphers", "why_tests_cant": "all messages and keys", "anchors": ["src/rscada_xml.rs:render_with_optional_decryption", "src/rscada_xml.rs:render_wireless_with_optional_decryption"]}
{"id": "C84", "title": "The conversion to XML fails for known reasons only", "statement": "render_from_bytes fails only on input that is no frame, on wired frames without a long header or fixed structure, and when decryption with the given key fails.", "quantifier": "all byte strings and keys", "why_tests_cant": "all inputs", "anchors": ["src/rscada_xml.rs:render_from_bytes"]}
{"id": "C85", "title": "The conversion to XML never panics", "statement": "render_from_bytes returns a text or an error for every input.", "quantifier": "all byte strings and keys", "why_tests_cant": "all inputs", "anchors": ["src/rscada_xml.rs:render_from_bytes"]}
{"id": "C86", "title": "Fixed data structures are converted exactly", "statement": "A fixed data structure becomes a document with its number, medium, access number and status, and two records with the value of each counter and the unit that EN 13757-3 assigns to its code.", "quantifier": "all fixed data structures", "why_tests_cant": "all counters and codes", "anchors": ["src/rscada_xml.rs:render_fixed", "src/rscada_xml.rs:fixed_unit", "src/rscada_xml.rs:fixed_medium"]}
{"id": "C87", "title": "The function of a value is the one of its DIF", "statement": "Instantaneous, maximum, minimum and value during error state are told by bits 4 and 5 of the DIF, in DataInformation and in the XML alike.", "quantifier": "all records", "why_tests_cant": "all DIF bytes, whatever follows them", "anchors": ["crates/m-bus-application-layer/src/data_information.rs:FunctionField", "src/rscada_xml.rs:function_string"]}
{"id": "C88", "title": "Primary VIFs mean what the standard says", "statement": "For a record with a primary VIF, ValueInformation has the quantity, the unit and the power of ten that the table of EN 13757-3 gives to the code.", "quantifier": "all records with a primary VIF", "why_tests_cant": "every entry of the table", "anchors": ["crates/m-bus-application-layer/src/value_information.rs:TryFrom<&ValueInformationBlock> for ValueInformation"]}
{"id": "C89", "title": "XML values are exact", "statement": "The Value of a record with an integer or decimal data field and a primary VIF denotes exactly the number in the field times the power of ten of its VIF, in the unit and quantity shown; times are in seconds.", "quantifier": "all records with a primary VIF and integer or decimal coding", "why_tests_cant": "all values; floating point must not show", "anchors": ["src/rscada_xml.rs:normalize_record", "src/rscada_xml.rs:vif_unit_normalize", "src/rscada_xml.rs:render_variable_record"]}
{"id": "C90", "title": "The CSV has every value under its heading", "statement": "The CSV rendering of a frame is one line of headings and one line of as many cells, no heading occurring twice; the cell under each heading is the value the decoded frame has for it, and every record contributes its eleven columns under its own number.", "quantifier": "all frames that decode, all keys and options", "why_tests_cant": "arbitrary numbers of records; a shifted cell would silently mislabel a reading", "anchors": ["src/output.rs:render_csv"]}
{"id": "C91", "title": "The text table shows everything within its width", "statement": "The table rendering shows the summary of the frame, each record's index, reading, storage, tariff, subunit, function and bytes, and each diagnostic; every text can be read back from its column, and no line is wider than the requested width.", "quantifier": "all frames that decode, all widths from 32, all texts measured as the sum of their characters", "why_tests_cant": "arbitrary texts, widths and numbers of records", "anchors": ["src/output.rs:render_table"]}
{"id": "C92", "title": "The diagram is well-formed and says what was decoded", "statement": "Each line of the Mermaid rendering is a statement, nodes are declared once before they are used, the labels unescape to the decoded values, and the records are chained in order; no text in a frame can change the structure.", "quantifier": "all frames that decode", "why_tests_cant": "arbitrary texts and numbers of records", "anchors": ["src/output.rs:render_mermaid"]}
{"id": "C93", "title": "The annotated text shows all bytes and all segments", "statement": "The annotated text shows every byte of the frame in a dump at its offset, from which the bytes can be read back, and one line for each segment with its range, bytes and kind, under headings for the parts and records.", "quantifier": "all byte strings that are annotated", "why_tests_cant": "arbitrary lengths", "anchors": ["src/annotate.rs:render_annotations", "src/annotate.rs:annotate_and_render"]}
{"id": "C94", "title": "Rendering succeeds exactly when decoding does", "statement": "render_bytes gives a text in JSON, YAML, CSV and Mermaid exactly when decode_bytes succeeds and else its error; the table also needs 32 columns; hexadecimal input is rendered like the bytes it spells.", "quantifier": "all byte strings, formats, keys and options", "why_tests_cant": "all inputs and formats", "anchors": ["src/output.rs:render_bytes", "src/output.rs:render_hex"]}
{"id": "C95", "title": "The transport header shown is the one of the message", "statement": "The header kind, access number, status, configuration and extended link layer fields shown by decode_bytes are those of the message, and the security mode is the number in bits 0 to 4 of the high byte of its configuration with the name EN 13757-7 gives it; a message without a header shows none.", "quantifier": "all frames and all nestings of extended link layers", "why_tests_cant": "all header bytes, unbounded nesting", "anchors": ["src/output.rs:meter_and_transport", "src/output.rs:add_short_transport", "src/output.rs:ell_output", "src/output.rs:security_fields"]}
{"id": "C96", "title": "The link layer shown is the one of the frame", "statement": "For every wired frame decode_bytes shows its kind, its function and its address in words, and its payload; for every wireless frame its control byte and, if it is a known one, its function, whether CRCs were removed, and the bytes before and after that.", "quantifier": "all frames", "why_tests_cant": "all control and address bytes", "anchors": ["src/output.rs:build_wired_output", "src/output.rs:build_wireless_output", "src/output.rs:decode_bytes"]}
{"id": "C97", "title": "Encryption is reported as it is", "statement": "The protection shown is encrypted exactly when the message has a security mode other than 0 or is in an encrypted session, and then the encrypted bytes are shown; the state of decryption and the notices about keys follow from the protection and from whether a key was given.", "quantifier": "all frames, with and without key", "why_tests_cant": "all messages", "anchors": ["src/output.rs:security_fields", "src/output.rs:prepare_security", "src/output.rs:build_output"]}
{"id": "C98", "title": "Labels of records come from their DIF and VIF", "statement": "Function, storage number, tariff, subunit, coding, quantity and unit shown with a record are those its DIF, DIFEs and VIF state; manufacturer data and readout requests are shown as such.", "quantifier": "all records", "why_tests_cant": "all DIF, DIFE and VIF bytes", "anchors": ["src/output.rs:record_output", "src/output.rs:data_coding_name", "src/output.rs:quantity_name", "src/output.rs:unit_output"]}
{"id": "C99", "title": "Records alone are decoded all or not at all", "statement": "decode_data_records gives all records of the buffer numbered in order, or the error of the first that cannot be read; the hexadecimal variant does the same with the bytes spelled, and refuses any other text.", "quantifier": "all byte strings and all texts", "why_tests_cant": "arbitrary record sequences and strings", "anchors": ["src/output.rs:decode_data_records", "src/output.rs:decode_data_records_hex"]}
{"id": "C100", "title": "Diagnostics are the documented ones", "statement": "Each diagnostic of decode_bytes has one of five codes with its fixed severity and layer, no code occurs twice, and a message that cannot be understood is reported with its reason and shown without header, records or encryption.", "quantifier": "all inputs and keys", "why_tests_cant": "all inputs", "anchors": ["src/output.rs:build_output"]}
{"id": "C101", "title": "Dates and times are shown as transmitted", "statement": "A date, or date and time, is shown as the ISO 8601 text of the moment transmitted when all its parts are given, and part by part otherwise.", "quantifier": "all date records of types F, G and I", "why_tests_cant": "all encodings", "anchors": ["src/output.rs:temporal_value", "src/output.rs:temporal_iso", "crates/m-bus-application-layer/src/data_information.rs:DataType"]}
{"id": "C102", "title": "Dates and times in the XML are those transmitted", "statement": "The Value of a date or time record in the XML is the date and time transmitted in digits, with years from 2000; a time marked invalid is shown as 1900-01-00T00:00:00Z.", "quantifier": "all date records of types F, G and I", "why_tests_cant": "all encodings", "anchors": ["src/rscada_xml.rs:date_g_decode", "src/rscada_xml.rs:date_f_decode", "src/rscada_xml.rs:date_i_decode"]}
{"id": "C103", "title": "Texts are shown as transmitted", "statement": "The text of a record of variable length is shown with its characters in order, whatever characters it has: as UTF-8 if it is, else one character per byte; the XML shows UTF-8 texts with spaces for control characters.", "quantifier": "all texts of up to 191 bytes", "why_tests_cant": "all byte strings, all of Unicode", "anchors": ["crates/m-bus-application-layer/src/data_information.rs:decode_text_unit", "src/rscada_xml.rs:variable_value_decode"]}
{"id": "C104", "title": "The direction of a message is that of its control information", "statement": "Direction::from tells for each control information byte whether the message comes from the meter or goes to it, as EN 13757-7 assigns it.", "quantifier": "all control information bytes", "why_tests_cant": "exhaustive table", "anchors": ["crates/m-bus-application-layer/src/lib.rs:From<ControlInformation> for Direction"]}
{"id": "C105", "title": "Real numbers are shown as transmitted", "statement": "A 32-bit real field is shown as a number equal to the IEEE 754 single it encodes, with words for infinities and for what is not a number.", "quantifier": "all four-byte patterns", "why_tests_cant": "all bit patterns", "anchors": ["src/output.rs:value_output", "crates/m-bus-application-layer/src/data_information.rs:DataFieldCoding"]}
{"id": "C106", "title": "The manufacturer registry is unambiguous", "statement": "lookup_manufacturer answers exactly for the codes the registry lists, no code is listed twice, and each code is one that a manufacturer number of a frame can spell.", "quantifier": "all texts, all entries", "why_tests_cant": "the whole registry and every text", "anchors": ["src/manufacturers.rs:lookup_manufacturer"]}
{"id": "C107", "title": "The wide CSV has every value under its heading", "statement": "The older wide CSV can be read in one way only, as a line of headings and a line of as many cells, no heading occurring twice; the columns are the fields of the frame summary and two for each record.", "quantifier": "all frames, keys", "why_tests_cant": "arbitrary numbers of records", "anchors": ["src/mbus_data.rs:parse_to_csv", "src/mbus_data.rs:serialize_mbus_data"]}
{"id": "C108", "title": "The older outputs show no records of encrypted messages", "statement": "Without the key, the older JSON, YAML and wide CSV of a frame whose payload is protected say that it is encrypted, show its bytes and show no records.", "quantifier": "all frames with a protected payload", "why_tests_cant": "all ciphertexts", "anchors": ["src/mbus_data.rs:user_data_is_encrypted", "src/mbus_data.rs:build_frame_summary", "src/mbus_data.rs:parse_to_json", "src/mbus_data.rs:parse_to_yaml"]}
{"id": "C109", "title": "Older and newer outputs show the same records", "statement": "The records in the summary of the older outputs are those the newer ones show, with the same bytes, in the same order, and a record that cannot be read is told in both.", "quantifier": "all frames, with and without key", "why_tests_cant": "arbitrary record sequences", "anchors": ["src/mbus_data.rs:summarize_records", "src/output.rs:decode_bytes"]}
{"id": "C110", "title": "Older and newer outputs name the same meter", "statement": "Identification number, manufacturer, version, medium, access number, status and security mode in the summary are those the newer outputs show, and a wired frame is shown with its type, function and address.", "quantifier": "all frames", "why_tests_cant": "all headers and control bytes", "anchors": ["src/mbus_data.rs:build_frame_summary", "src/output.rs:decode_bytes"]}
{"id": "C111", "title": "The text of a record has its value, scale, unit and quantity", "statement": "In the older outputs a record with a primary VIF is shown as its value, the power of ten, the unit and the quantity EN 13757-3 gives to that VIF.", "quantifier": "all records with a primary VIF", "why_tests_cant": "all values and table entries", "anchors": ["src/mbus_data.rs:summarize_record", "crates/m-bus-application-layer/src/data_information.rs:Display for DataType", "crates/m-bus-application-layer/src/value_information.rs:Display for ValueInformation"]}
{"id": "C112", "title": "Older and newer outputs accept the same frames", "statement": "The older outputs give an answer for every input, and reject exactly the inputs the newer ones reject as no frame.", "quantifier": "all byte strings, keys", "why_tests_cant": "all inputs", "anchors": ["src/mbus_data.rs:parse_to_json", "src/output.rs:decode_bytes"]}
{"id": "C113", "title": "The older chart shows what was decoded", "statement": "The older Mermaid chart is made of statements, refers only to groups it declares, shows the function and address of a wired frame and what the summary says of its meter, or the function and the sender of a wireless frame, has a node for each record of a message in clear in order, and no record of an encrypted message.", "quantifier": "all frames", "why_tests_cant": "arbitrary record sequences and texts", "anchors": ["src/mbus_data.rs:parse_to_mermaid"]}
{"id": "C114", "title": "The text interface answers with the rendering or says what is wrong", "statement": "serialize_mbus_data returns the rendering in the format named, without regard to case and surrounding space; otherwise a text Error [code]: message whose code tells whether the format, the text, the frame, the key or the decryption is at fault, and where in the text.", "quantifier": "all texts, format names and keys", "why_tests_cant": "all strings", "anchors": ["src/mbus_data.rs:serialize_mbus_data", "src/output.rs:OutputError"]}
{"id": "C115", "title": "The decrypted view shows the plain frame", "statement": "With the right key the annotated rendering and the older hex view show the frame with the plain message in place of the encrypted one, label the records of the plain message, and keep the view of the bytes received.", "quantifier": "all frames with a sealed message, all keys, invertible block ciphers", "why_tests_cant": "all plaintexts and keys", "anchors": ["src/output.rs:render_annotated_bytes", "src/mbus_data.rs:decrypted_wired_hexview", "src/mbus_data.rs:decrypted_wireless_hexview"]}
{"id": "C116", "title": "Extension value codes mean what the standard says", "statement": "A record whose VIF is FB or FD is read with the quantity, unit and power of ten that the extension tables of EN 13757-3 give to the following byte, and no code of these tables is refused.", "quantifier": "all extension codes, all following bytes", "why_tests_cant": "two tables of 128 codes with arithmetic on the code", "anchors": ["crates/m-bus-application-layer/src/value_information.rs:TryFrom<&ValueInformationBlock> for ValueInformation"]}
{"id": "C117", "title": "Combinable extensions add their meaning", "statement": "Each combinable extension byte after a value code adds its label, units and factor to the meaning of the code and takes nothing away, in any number and order; bytes after the manufacturer code have no standard meaning.", "quantifier": "all sequences of combinable extensions after all value codes", "why_tests_cant": "unbounded combinations", "anchors": ["crates/m-bus-application-layer/src/value_information.rs:consume_orthhogonal_vife", "crates/m-bus-application-layer/src/value_information.rs:TryFrom<&ValueInformationBlock> for ValueInformation"]}
{"id": "C118", "title": "A message that is not decrypted is refused with its reason", "statement": "If a key is given and the message is encrypted, the answer is never a record list made from ciphertext: a security mode other than 5 and 7 and an encrypted session are refused as unsupported, a message whose sender cannot be known or with nothing sealed as failed, and every other encrypted message is decrypted. No message in clear is refused.", "quantifier": "all frames, keys, block ciphers", "why_tests_cant": "all headers, modes and lengths", "anchors": ["src/output.rs:prepare_security", "src/output.rs:decrypt_user_data", "crates/m-bus-core/src/decryption.rs:decrypt_into"]}
{"id": "C119", "title": "The text over a byte range says what these bytes hold", "statement": "Every labelled byte range of a frame has one text. The text of a header field states the value of the bytes under it, with the words of the standard for function, address and control information; the text of a record field states its bytes or their number; the text over the data of a record is the value that decoding the frame gives to this record; and the checksums of Format A are stated as they are in the frame.", "quantifier": "all frames, wired and wireless, with and without the checksums of Format A, both settings", "why_tests_cant": "every field of every header and every record, at every position", "anchors": ["src/annotate.rs:annotate_frame", "src/annotate.rs:annotate_application_layer", "src/annotate.rs:annotate_wireless_format_a", "src/mbus_data.rs:parse_to_hexview"]}
{"id": "C120", "title": "The JSON output is valid JSON and says everything", "statement": "The JSON output of a frame is a JSON text of exactly one value, no object in it names a member twice, each member holds what decoding the frame gives for it (members without a value are left out), and nothing is lost: two inputs with the same JSON decode to the same.", "quantifier": "all inputs, keys and options that render", "why_tests_cant": "texts of meters may hold any character; every combination of absent and present fields", "anchors": ["src/output.rs:render_bytes", "src/output.rs:DecodedOutput", "src/output.rs:RecordOutput"]}
{"id": "C121", "title": "The annotated JSON holds the bytes and their ranges", "statement": "The annotated JSON of a frame is a JSON text of exactly one value that holds the bytes shown and, for each of their ranges, its place, kind, text, record and layer; decrypted bytes are marked as such and accompanied by the bytes received, which can always be read back. The older annotated outputs are JSON texts too, even when the bytes are refused.", "quantifier": "all inputs and keys", "why_tests_cant": "every frame, record and text", "anchors": ["src/mbus_data.rs:render_annotated_bytes", "src/mbus_data.rs:parse_to_hexview", "src/mbus_data.rs:annotated_segments_to_json", "src/annotate.rs:Segment"]}
{"id": "C122", "title": "The command line tool prints the rendering or one complaint", "statement": "The tool exits with 0 exactly if a frame is given in a file or as an argument, the format is a known name, the key (if any) is 32 hexadecimal digits and the library renders the frame; standard output then holds exactly the rendering and standard error nothing. Otherwise it exits with 1, standard output is empty and standard error holds one line error: [code] message whose code says what was wrong. Only a panic of the library makes it panic.", "quantifier": "all arguments, file contents, terminals, keys, frames", "why_tests_cant": "all combinations of arguments and texts", "anchors": ["cli/src/main.rs:run", "cli/src/main.rs:main", "cli/src/main.rs:parse_key"]}
{"id": "C123", "title": "The tool and the modules agree with the library", "statement": "For the same frame, format, key, width and options, the command line tool, the Python module (given text or bytes) and the JavaScript module give the same rendering as the library, or all make the same complaint: the same code, message and place.", "quantifier": "all frames, texts, formats, keys and options", "why_tests_cant": "all inputs of four interfaces", "anchors": ["cli/src/main.rs:run", "python/src/lib.rs:render", "python/src/lib.rs:m_bus_parse", "wasm/src/lib.rs:m_bus_render", "wasm/src/lib.rs:m_bus_parse_with_key"]}
{"id": "C124", "title": "The modules decode as the library does and refuse other arguments", "statement": "parse of the Python module makes a JSON text of one value that says what decode_bytes gives, losing nothing, and m_bus_decode of the JavaScript module gives what decode_hex gives; parse_records and parse_application_layer do the same for records alone. Arguments that stand for no bytes, and keys that are not 16 bytes, are refused with an error that says so, carrying a code, and in JavaScript the layer and the place.", "quantifier": "all arguments of every type, all keys", "why_tests_cant": "all texts and bytes", "anchors": ["python/src/lib.rs:parse", "python/src/lib.rs:parse_records", "python/src/lib.rs:parse_application_layer", "python/src/lib.rs:extract_bytes", "python/src/lib.rs:extract_key", "wasm/src/lib.rs:m_bus_decode", "wasm/src/lib.rs:parse_key"]}
{"id": "C125", "title": "CSV cells are never split or merged", "statement": "A CSV output, older or newer, can be read in one way only under RFC 4180: as a line of names and a line of as many cells, whatever commas, quotes and line breaks the texts of the meter contain.", "quantifier": "all frames, keys and options; all tables of texts", "why_tests_cant": "texts of meters may hold any character", "anchors": ["src/output.rs:render_csv", "src/mbus_data.rs:parse_to_csv", "src/mbus_data.rs:serialize_mbus_data"]}
{"id": "C126", "title": "The highlighted CSV colours cells by column", "statement": "In the highlighted view of a CSV text every cell is one coloured element with the class of its column, counted anew in each line; a comma or line break within a quoted cell does not end it.", "quantifier": "all CSV texts", "why_tests_cant": "arbitrary tables and cell contents", "anchors": ["wasm/src/highlight.rs:highlight_csv"]}
{"id": "C127", "title": "The older JSON is valid JSON and says what was parsed", "statement": "The older JSON output is a JSON text of exactly one value: the frame received, the headers of its user data, each record with its bytes, header and value, and the summary, each under its name and as it was parsed; it is the empty object if the input holds no frame.", "quantifier": "all inputs, keys", "why_tests_cant": "texts of meters may hold any character; every combination of absent and present parts", "anchors": ["src/mbus_data.rs:parse_to_json", "src/mbus_data.rs:ParsedFrameOutput", "crates/m-bus-application-layer/src/lib.rs:UserDataBlock", "crates/m-bus-application-layer/src/data_record.rs:DataRecord"]}
{"id": "C128", "title": "The older JSON tells frames apart", "statement": "Two inputs with the same older JSON have the same frame header, the same headers of the user data, the same bytes in every record and the same summary; only values that are not finite are not told apart.", "quantifier": "all pairs of inputs and keys", "why_tests_cant": "all pairs of inputs", "anchors": ["src/mbus_data.rs:parse_to_json", "src/mbus_data.rs:FrameSummary"]}
{"id": "C129", "title": "The XML says what extension codes mean", "statement": "In the libmbus XML a record whose VIF is FB or FD followed by one code has the quantity and the unit that libmbus names for this code of the extension tables of EN 13757-3, and an integer or decimal value in this unit.", "quantifier": "all codes of the two extension tables, all integers and decimals of fixed length", "why_tests_cant": "two tables of 128 codes, all values", "anchors": ["src/rscada_xml.rs:vif_unit_normalize", "src/rscada_xml.rs:vib_unit_normalize", "src/rscada_xml.rs:normalize_record"]}
{"id": "C130", "title": "Data fields of variable length are read by their length byte or refused", "statement": "The byte before a data field of variable length decides: up to BF it is a text of that many bytes, given as the bytes sent; C0 to C9 and D0 to D9 are decimals, positive and negative, read exactly up to 2^53 and never more than 73 off, or refused for a nibble that is no digit; E1 to E8 are integers, given as the nearest floating point number; wider integers are marked as lossy and have the value of their eight low bytes; an integer of no bytes is zero, or a panic of builds with overflow checks; all other length bytes and a missing length are errors. A field shorter than announced is an error, and the record ends with the field.", "quantifier": "all length bytes, all following bytes, all record headers with a VIF other than those of dates", "why_tests_cant": "256 lengths with all contents, after all headers", "anchors": ["crates/m-bus-application-layer/src/data_information.rs:DataFieldCoding::parse", "crates/m-bus-application-layer/src/data_information.rs:bcd_to_value_internal", "crates/m-bus-application-layer/src/data_information.rs:integer_to_value_internal"]}
{"id": "C131", "title": "Every highlighted view shows its source and nothing else", "statement": "In every language the highlighted view of a text consists of balanced coloured elements whose text content is the source, character by character, with or without a line feed at its end, and can be read in one way only. The language is named like the output formats, without regard to case and surrounding space; what is no such name is shown as plain text. Highlighting fails only if the highlighting library does, and passes its message on.", "quantifier": "all texts, all language names, all highlighting libraries that wrap the whole lines they are given", "why_tests_cant": "arbitrary texts and names; a library outside the code", "anchors": ["wasm/src/highlight.rs:highlight_source", "wasm/src/highlight.rs:syntax_for", "wasm/src/lib.rs:m_bus_highlight"]}
{"id": "C132", "title": "Records without data take no data", "statement": "A record that starts with 0F or 1F holds everything up to the end of the message, as sent, without quantity or unit, and nothing in it is read as a record; 7F is a record of one byte without value, after which the next record starts; the reserved special functions are never a record; and a record whose data field is 0 (no data) or 8 (selection for readout) is its header alone, without value.", "quantifier": "all messages, all record headers", "why_tests_cant": "all following bytes, all headers", "anchors": ["crates/m-bus-application-layer/src/data_information.rs:DataFieldCoding::parse", "crates/m-bus-application-layer/src/data_information.rs:DataInformationField", "crates/m-bus-application-layer/src/data_record.rs:DataRecord", "crates/m-bus-application-layer/src/lib.rs:DataRecords"]}
{"id": "C133", "title": "Wireless frames give back what the sender put in", "statement": "A wireless frame built from a control field, a manufacturer, an identification number, a version, a device type and a payload, with or without a CRC over the whole frame at its end, is accepted and decodes to exactly these. No frame with bytes missing or added at its end is accepted as well. A frame whose payload no longer fits the CRC at its end is refused.", "quantifier": "all senders, all payloads up to the length a frame can have, all changes of one payload byte", "why_tests_cant": "all header values and payloads", "anchors": ["crates/wireless-mbus-link-layer/src/lib.rs:TryFrom<&[u8]> for WirelessFrame", "crates/wireless-mbus-link-layer/src/lib.rs:trailing_frame_crc_start", "crates/wireless-mbus-link-layer/src/lib.rs:ManufacturerId"]}
{"id": "C134", "title": "Wired and wireless frames are told apart", "statement": "Decoding takes every wired frame for a wired one, and the wireless frame of any sender, with any payload, for a wireless one, which is shown as received if it is not in Format A.", "quantifier": "all wired frames, all senders and payloads, all keys", "why_tests_cant": "all lengths and contents; the clash is at single lengths", "anchors": ["src/output.rs:decode_bytes", "crates/wired-mbus-link-layer/src/lib.rs:TryFrom<&[u8]> for WiredFrame"]}
{"id": "C135", "title": "A wrong key is noticed", "statement": "If the key given is not the one a message was sealed with, so that what it opens does not start with the two idle fillers the standard puts there, no records are shown; and nothing opened with a key is presented as verified.", "quantifier": "all sealed messages, all keys, all block ciphers", "why_tests_cant": "all keys and ciphers", "anchors": ["src/output.rs:prepare_security", "src/output.rs:decrypt_user_data", "src/output.rs:decode_bytes"]}
