{"id": "C01", "title": "Length operand round-trips and consumes exactly its own bytes", "statement": "Serialising a Length holding any value below 2^30 succeeds; parsing that encoding, wherever it sits in a byte stream and whatever follows it, returns the same value and leaves the stream positioned on the first byte after it. Serialising a Length holding 2^30 or more returns an error, never bytes.", "quantifier": "all u32 values; all trailing byte sequences; every bit alignment of the reader", "why_tests_cant": "2^32 values times unbounded suffixes; unit tests check three values", "anchors": ["dash7/src/app/operation/length.rs: Length::read, Length::write, Length::required_bits"]}
{"id": "C02", "title": "Length wire form is the documented one and is the shortest possible", "statement": "The bytes of a Length are the 2-bit count k of extra bytes followed by the value in 6+8k bits, big-endian, with the smallest k that fits: 1 byte below 64, 2 below 2^14, 3 below 2^22, 4 below 2^30. No other byte string that parses to the same value is shorter.", "quantifier": "all values below 2^30, all byte strings that parse to the value", "why_tests_cant": "minimality quantifies over all competing encodings", "anchors": ["dash7/src/app/operation/length.rs: Length::write"]}
{"id": "C03", "title": "VarInt compression rounds in the requested direction within one quantum and never fails in range", "statement": "For every value up to VarInt::MAX, compress(value, ceil) returns an exponent at most 7 and mantissa at most 31; the value it stands for is at most the input when ceil is false, at least the input when ceil is true, differs from it by less than 4^exponent, equals it whenever some (exponent, mantissa) pair represents it exactly, and no smaller exponent could have represented the input's magnitude. Above MAX it returns ValueTooLarge. The 'Unknown' error is unreachable.", "quantifier": "all u32 values, both rounding modes", "why_tests_cant": "half a million in-range values in two modes plus 4 billion out-of-range ones, with a minimality claim over alternatives", "anchors": ["dash7/src/types.rs: VarInt::compress, VarInt::is_valid, VarInt::new"]}
{"id": "C04", "title": "Every byte is a valid VarInt and re-encoding what was read preserves the value", "statement": "Parsing any byte as VarInt succeeds with value 4^(byte/32) * (byte mod 32), at most VarInt::MAX. Serialising a parsed VarInt succeeds and yields one byte that parses to the same value.", "quantifier": "all bytes; every surrounding stream", "why_tests_cant": "must hold for every byte in any stream position and through both rounding modes", "anchors": ["dash7/src/types.rs: VarInt::decompress, VarInt::read, VarInt::write"]}
{"id": "C05", "title": "VarInt::decompress rejects over-wide parts", "statement": "decompress(exponent, mantissa) succeeds exactly when exponent < 8 and mantissa < 32, an over-wide exponent is reported as ExponentTooLarge and an over-wide mantissa is reported as MantissaTooLarge.", "quantifier": "all pairs of u8", "why_tests_cant": "65536 pairs, no test covers an error branch", "anchors": ["dash7/src/types.rs: VarInt::decompress, VarIntError"]}
{"id": "C06", "title": "Every well-formed ALP action round-trips", "statement": "Serialising any action whose fields are in range and mutually consistent succeeds with a whole number of bytes, and parsing those bytes, followed by anything at all, gives back an equal action and leaves the reader on the first byte after it; TryFrom on exactly those bytes returns the action.", "quantifier": "all 27 action kinds (28 with the wizzilab feature), all field values, all suffixes, all three protocol variants", "why_tests_cant": "unbounded payload sizes and field combinations", "anchors": ["dash7/src/app/action.rs: Action, DekuReader for Action, DekuWriter for Action, TryFrom", "dash7/src/app/operation/mod.rs"]}
{"id": "C07", "title": "Action wire layout", "statement": "The first byte of every serialised action is 64 times its two flag bits plus the opcode of its kind, and the remaining bytes are its operands in the documented order, sizes and big-endian byte order.", "quantifier": "all well-formed actions", "why_tests_cant": "a mirrored mistake in reader and writer survives every round-trip test; the layout must be right for every field value", "anchors": ["dash7/src/app/action.rs: OpCode, deku_id, to_writer", "dash7/src/app/operation/mod.rs"]}
{"id": "C08", "title": "Opcode dispatch is exact", "statement": "Parsing an action from a byte-aligned stream succeeds only if the low six bits of the first byte are one of the assigned opcodes, the kind of the result is the one assigned to that opcode, and the parsed opcode field repeats it; any unassigned opcode is rejected whatever follows.", "quantifier": "all byte streams", "why_tests_cant": "all inputs, including adversarial ones", "anchors": ["dash7/src/app/action.rs: OpCode, DekuReader for Action"]}
{"id": "C09", "title": "Whatever parses can be serialised again and re-parses to the same value", "statement": "If an action is parsed from arbitrary (also non-canonical) bytes, serialising it succeeds and parsing the result gives an equal action.", "quantifier": "all byte streams accepted by the action parser", "why_tests_cant": "ranges over every accepted input, including non-canonical lengths, ignored padding bits and reserved codes", "anchors": ["dash7/src/app/action.rs", "dash7/src/app/operation/mod.rs", "dash7/src/app/query.rs", "dash7/src/file/mod.rs", "dash7/src/session/mod.rs"]}
{"id": "C10", "title": "Every well-formed command round-trips", "statement": "For every list of well-formed actions in which an IndirectForward occurs at most as the last action, serialising succeeds, and Command::try_from on the bytes returns exactly the same actions in the same order.", "quantifier": "all action lists of any length", "why_tests_cant": "unbounded list length", "anchors": ["dash7/src/app/command.rs: Command, from_reader_with_ctx, to_writer, TryFrom"]}
{"id": "C11", "title": "Command serialisation is concatenation", "statement": "The bytes of a command are the bytes of its actions in order; serialising the concatenation of two commands gives the concatenation of their bytes, and fails exactly if one of the actions fails.", "quantifier": "all pairs of commands", "why_tests_cant": "unbounded lists", "anchors": ["dash7/src/app/command.rs: to_bytes, to_writer"]}
{"id": "C12", "title": "Parsing terminates and never panics on arbitrary bytes", "statement": "Command::try_from, Action::try_from and the frame parsers return a value or an error on every byte string: each pass of the action loop consumes at least one byte, so the number of parsed actions never exceeds the number of input bytes, and no slice index, unwrap or arithmetic on the path panics.", "quantifier": "all byte strings", "why_tests_cant": "termination and absence of panics range over all inputs", "anchors": ["dash7/src/app/command.rs: from_reader_with_ctx", "dash7/src/utils.rs: from_bytes, pad_rest", "dash7/src/link/frame.rs"]}
{"id": "C13", "title": "Truncation is detected", "statement": "No strict prefix of a serialised action parses as an action; a prefix of a serialised command parses exactly when it ends on an action boundary, and then yields the corresponding prefix of the action list.", "quantifier": "all well-formed actions/commands, all cut points", "why_tests_cant": "every cut point of every message", "anchors": ["dash7/src/app/action.rs", "dash7/src/app/command.rs"]}
{"id": "C14", "title": "Trailing garbage is rejected", "statement": "Action::try_from on a serialised action followed by one or more extra bytes returns the 'Too much data' error.", "quantifier": "all well-formed actions, all non-empty suffixes", "why_tests_cant": "every suffix", "anchors": ["dash7/src/app/action.rs: TryFrom<&[u8]> for Action", "dash7/src/utils.rs: pad_rest, from_bytes"]}
{"id": "C15", "title": "from_bytes returns exactly the unread remainder", "statement": "Action::from_bytes and Command::from_bytes return, next to the value, the sub-slice of the input that starts right after the parsed item.", "quantifier": "all accepted inputs", "why_tests_cant": "every input and remainder length", "anchors": ["dash7/src/utils.rs: from_bytes, pad_rest, from_reader", "dash7/src/app/action.rs: DekuContainerRead for Action", "dash7/src/app/command.rs: Command::from_bytes"]}
{"id": "C16", "title": "An IndirectForward ends the parsed command", "statement": "When the parser meets an IndirectForward it returns the actions read so far including it and interprets nothing after it; therefore a command with actions after an IndirectForward does not survive a round trip, and whether the loss is reported or silent is determined by how many bytes follow.", "quantifier": "all action lists containing an IndirectForward before the end", "why_tests_cant": "all lists and suffix lengths", "anchors": ["dash7/src/app/command.rs: from_reader_with_ctx, TryFrom"]}
{"id": "C17", "title": "Tag accessors report the first tag", "statement": "request_id/response_id return the id of the first RequestTag/ResponseTag action and None iff there is none; tag_id prefers the request tag; is_last_response is the end-of-packet flag of the first response tag and false without one.", "quantifier": "all commands", "why_tests_cant": "lists of any length with any number of tags in any order", "anchors": ["dash7/src/app/command.rs: request_tag, request_id, response_tag, response_id, tag_id, is_last_response"]}
{"id": "C18", "title": "Interface status extraction partitions the actions", "statement": "interface_status returns the first interface status in the command (None iff there is none); actions_without_interface_status returns every other action, in the original order, and drops nothing else.", "quantifier": "all commands", "why_tests_cant": "lists of any length", "anchors": ["dash7/src/app/command.rs: interface_status, actions_without_interface_status"]}
{"id": "C19", "title": "Addressees round-trip and have the documented layout in every protocol variant", "statement": "Addressee::new(...) with in-range parts serialises to control byte, access class byte, 0/1/2/8 address bytes and 0 or 5 security bytes, and parses back to an equal value, for spec, subiot and wizzilab.", "quantifier": "all addresses, NLS states, access classes and (wizzilab) group conditions; all three variants", "why_tests_cant": "2^64 UIDs etc. in three build configurations", "anchors": ["dash7/src/network/addressee.rs: Addressee", "dash7/src/network/mod.rs: Address, NlsState", "dash7/src/link/mod.rs: AccessClass"]}
{"id": "C20", "title": "update() repairs dependent fields after mutation", "statement": "After assigning any address and nls_state to an Addressee, calling update() makes it consistent again, hence serialisable and parseable to an equal value, and is idempotent; without update() a mutated addressee that changes kind does not round-trip.", "quantifier": "all addressees and all mutations", "why_tests_cant": "all mutation histories", "anchors": ["dash7/src/network/addressee.rs: Addressee"]}
{"id": "C21", "title": "Queries round-trip exactly when mask and value lengths agree", "statement": "A query built by its constructor parses back to itself iff its mask is absent or as long as its value (string token search: iff it is as long as the value), and its bytes follow the documented layout.", "quantifier": "all query kinds, all masks, values, offsets", "why_tests_cant": "unbounded byte vectors", "anchors": ["dash7/src/app/query.rs"]}
{"id": "C22", "title": "System files round-trip", "statement": "Every File value whose variant matches the file id and whose fields are in range serialises and parses back to an equal value consuming exactly its own bytes.", "quantifier": "all file kinds and contents", "why_tests_cant": "unbounded contents", "anchors": ["dash7/src/file/mod.rs: File", "dash7/src/file/access_profile.rs", "dash7/src/file/dll_config.rs", "dash7/src/file/dll_status.rs", "dash7/src/file/engineering_mode.rs", "dash7/src/file/factory_settings.rs", "dash7/src/file/firmware_version.rs", "dash7/src/file/interface_configuration.rs", "dash7/src/file/phy_status.rs", "dash7/src/file/security_key.rs"]}
{"id": "C23", "title": "The data length prefix of a file operation is honoured", "statement": "Serialised file data carries the exact byte count of its payload; parsing consumes exactly as many payload bytes as the prefix announces.", "quantifier": "all file data operations; all byte streams", "why_tests_cant": "all lengths; adversarial prefixes", "anchors": ["dash7/src/app/operation/mod.rs: FileData::read, FileData::write", "dash7/src/utils.rs: write_length_prefixed_ext"]}
{"id": "C24", "title": "Firmware version strings", "statement": "Writing a string into an N-byte field emits exactly N bytes: its first N bytes, NUL padded. Reading accepts exactly valid UTF-8 and returns all N bytes. Hence a firmware version round-trips iff its strings are exactly 6 and 7 bytes long; shorter ones come back NUL-padded, and a longer one that is cut inside a multi-byte character cannot be read back.", "quantifier": "all strings", "why_tests_cant": "all strings of any length and any UTF-8 content", "anchors": ["dash7/src/utils.rs: read_string, write_string", "dash7/src/file/firmware_version.rs"]}
{"id": "C25", "title": "SystemFile::SIZE equals the serialised size", "statement": "For each type implementing SystemFile, every value serialises to SIZE bytes and is selected by the file id ID.", "quantifier": "all values of FirmwareVersion and AccessProfile<S>", "why_tests_cant": "all values", "anchors": ["dash7/src/file/mod.rs: SystemFile", "dash7/src/file/firmware_version.rs", "dash7/src/file/access_profile.rs"]}
{"id": "C26", "title": "File id conversion", "statement": "FileId::try_from(u8) succeeds for every byte; converting back with Into<u8> returns the original byte.", "quantifier": "all bytes", "why_tests_cant": "the back conversion unwraps; must not panic for any byte", "anchors": ["dash7/src/file/mod.rs: FileId, TryFrom<u8>, Into<u8>"]}
{"id": "C27", "title": "Interface status operations round-trip", "statement": "Every interface status (host, serial, DASH7, other) converted into a status operation serialises and parses back to an equal value; LoRaWAN interface types are rejected by the parser.", "quantifier": "all interface statuses", "why_tests_cant": "unbounded payloads, all field values", "anchors": ["dash7/src/app/operation/mod.rs: InterfaceStatusOperation, StatusOperand", "dash7/src/session/mod.rs: InterfaceStatus, InterfaceType"]}
{"id": "C28", "title": "The wire format does not depend on the endianness of the host", "statement": "Serialising the same value on a little-endian and on a big-endian machine gives the same bytes.", "quantifier": "all values of all types, both host byte orders", "why_tests_cant": "CI runs on one byte order only", "anchors": ["dash7/src/link/frame.rs", "dash7/src/file/security_key.rs", "dash7/src/app/interface.rs: LoRaWANABPInterfaceConfiguration", "dash7/src/session/interface_final.rs: Dash7InterfaceTxStatus"]}
{"id": "C29", "title": "PHY status channel list", "statement": "PhyStatus::new with any list of channel statuses serialises to a value that parses back to itself; update() fails rather than produce an inconsistent count.", "quantifier": "all channel lists", "why_tests_cant": "lists of any length, including more than 255 entries", "anchors": ["dash7/src/file/phy_status.rs: PhyStatus::new"]}
{"id": "C30", "title": "Values too wide for their bit field are not silently corrupted", "statement": "Serialising a struct whose public integer field exceeds its bit width (access class specifier/mask, channel index, max_errors) reports an error.", "quantifier": "all field values", "why_tests_cant": "all u8/u16 values", "anchors": ["dash7/src/link/mod.rs: AccessClass", "dash7/src/physical/mod.rs: ChannelStatusIdentifier", "dash7/src/app/query.rs: StringTokenSearch"]}
{"id": "C31", "title": "Reserved codes are rejected and assigned codes are a bijection", "statement": "For each code-carrying enum, parsing an n-bit code succeeds iff the code is assigned, and the code of the parsed variant is the code read.", "quantifier": "all codes of all enums", "why_tests_cant": "exhaustive over codes and stream positions", "anchors": ["dash7/src/physical/mod.rs", "dash7/src/session/mod.rs", "dash7/src/data/mod.rs", "dash7/src/network/mod.rs", "dash7/src/app/query.rs", "dash7/src/app/operation/mod.rs"]}
{"id": "C32", "title": "StatusCode::is_err classifies codes", "statement": "is_err is true for exactly the error codes: every code from 0x80 (UNKNOWN_ERROR) to 0xFF, and false for OK, RECEIVED, ITF_FULL and all others below 0x80.", "quantifier": "all status codes", "why_tests_cant": "boundary must be right for all 256 codes", "anchors": ["dash7/src/app/operation/mod.rs: StatusCode::is_err"]}
{"id": "C33", "title": "Background frames round-trip", "statement": "Any 6-byte string parses as a background frame, re-serialising gives the same 6 bytes, and strings of any other length are rejected.", "quantifier": "all byte strings", "why_tests_cant": "2^48 frames; all lengths", "anchors": ["dash7/src/link/frame.rs: BackgroundFrame"]}
{"id": "C34", "title": "Foreground frames: length field and CRC", "statement": "A foreground frame whose length field equals the number of bytes that follow it parses, the command inside ends where the CRC begins, and re-serialising gives the same bytes.", "quantifier": "all foreground frames", "why_tests_cant": "all commands, addresses and control flags", "anchors": ["dash7/src/link/frame.rs: ForegroundFrame", "dash7/src/network/network.rs: Frame", "dash7/src/transport/mod.rs: Frame", "dash7/src/app/command.rs"]}
{"id": "C35", "title": "Network and transport control fields occupy one byte", "statement": "The network and transport control fields are one byte each, so that every following field of a frame starts on a byte boundary.", "quantifier": "all control values in all variants", "why_tests_cant": "all values and variants", "anchors": ["dash7/src/network/network.rs: Control", "dash7/src/transport/mod.rs: Control"]}
{"id": "C36", "title": "pad_rest stays inside the slice", "statement": "For every input slice, bit offset and bit count, pad_rest returns a suffix of the input and does not panic.", "quantifier": "all inputs, offsets and counts", "why_tests_cant": "all usize arguments", "anchors": ["dash7/src/utils.rs: pad_rest"]}
{"id": "C37", "title": "Parsing at a bit offset parses the item at that offset", "statement": "Action::from_bytes((input, k)) parses the action whose bits start k bits into the input.", "quantifier": "all inputs and offsets", "why_tests_cant": "all offsets", "anchors": ["dash7/src/utils.rs: from_bytes", "dash7/src/app/action.rs: DekuReader for Action (seek_relative)"]}
{"id": "C38", "title": "read_array cleans up exactly what it initialised", "statement": "If reading an N-element array fails at element k, exactly the k elements read so far are dropped, no other memory is touched; on success nothing is dropped.", "quantifier": "all N, all failure points k", "why_tests_cant": "all failure points; effect is on memory, not on the return value", "anchors": ["dash7/src/utils.rs: read_array, TransientDropper"]}
{"id": "C39", "title": "The command line tool reports unparseable input", "statement": "`dash7 parse` without a type fails with an error when the input is none of the supported kinds; with type systemfile and no id it reports failure when no system file matches.", "quantifier": "all hex inputs", "why_tests_cant": "all inputs", "anchors": ["dash7-cli/src/parse.rs: parse_any, parse_any_file, parse_file, main"]}
{"id": "C40", "title": "The command line tool ignores white space", "statement": "Inserting or removing white space anywhere in the hex argument does not change what is parsed; the decoded bytes are the hex digit pairs in order; anything else is rejected.", "quantifier": "all strings", "why_tests_cant": "all insertions", "anchors": ["dash7-cli/src/parse.rs: remove_whitespace, main"]}
{"id": "C41", "title": "TxStatus actions round-trip (wizzilab)", "statement": "A wizzilab TxStatus action serialises to bytes that parse back to the same action.", "quantifier": "all TxStatus actions", "why_tests_cant": "all values; no test serialises the action", "anchors": ["dash7/src/app/interface_final.rs: TxStatusOperation, TxStatusType", "dash7/src/app/action.rs"]}
{"id": "C42", "title": "Encodings are unambiguous", "statement": "Distinct well-formed actions have distinct encodings and no encoding is a prefix of another; distinct well-formed commands have distinct encodings.", "quantifier": "all pairs of well-formed actions/commands", "why_tests_cant": "pairs of unbounded messages", "anchors": ["dash7/src/app/action.rs", "dash7/src/app/command.rs"]}
{"id": "C43", "title": "Serialisation fails exactly on unrepresentable numbers", "statement": "Serialising an action returns an error iff it contains a Length of 2^30 or more, a payload of 2^30 bytes or more, or a VarInt above VarInt::MAX; it never panics.", "quantifier": "all actions, well-formed or not", "why_tests_cant": "all values", "anchors": ["dash7/src/app/operation/length.rs", "dash7/src/types.rs", "dash7/src/utils.rs"]}
{"id": "C44", "title": "Query update() makes lengths consistent", "statement": "After replacing mask and value of a query and calling update(), the stored length and mask flag agree with the vectors.", "quantifier": "all queries and mutations", "why_tests_cant": "all vectors", "anchors": ["dash7/src/app/query.rs: ComparisonWithZero", "dash7/src/app/query.rs: ComparisonWithValue", "dash7/src/app/query.rs: ComparisonWithOtherFile", "dash7/src/app/query.rs: BitmapRangeComparison", "dash7/src/app/query.rs: StringTokenSearch"]}
{"id": "C45", "title": "Default values are serialisable and parse back", "statement": "The Default value of every public operation and configuration type round-trips.", "quantifier": "all types with a Default", "why_tests_cant": "one value per type but through generic paths; included because users start from Default and mutate", "anchors": ["dash7/src/app/operation/mod.rs", "dash7/src/app/interface.rs", "dash7/src/file/mod.rs"]}
{"id": "C46", "title": "LoRaWAN configurations", "statement": "A LoRaWAN interface configuration round-trips iff its EUI/key vectors have exactly their fixed sizes.", "quantifier": "all vectors", "why_tests_cant": "vectors of any length", "anchors": ["dash7/src/app/interface.rs"]}
{"id": "C47", "title": "Display of a command", "statement": "Printing a command shows its tag id, a completion status derived from the first response tag, every action that is not an interface status in order, and the first interface status.", "quantifier": "all commands", "why_tests_cant": "lists of any length", "anchors": ["dash7/src/app/command.rs: Display for Command"]}
{"id": "C48", "title": "Serialised size of any action", "statement": "Every action that can be serialised, well formed or not, occupies a number of bytes given by the sizes of its fields alone (one byte header, one to four bytes per Length, payload sizes), independent of the values stored in them.", "quantifier": "all actions, well-formed or not, all three protocol variants", "why_tests_cant": "all field values and payload sizes", "anchors": ["dash7/src/app/action.rs: to_writer", "dash7/src/app/operation/mod.rs", "dash7/src/app/operation/length.rs"]}
{"id": "C49", "title": "The stored opcode never reaches the wire", "statement": "The opcode written is that of the action kind; changing the opcode field stored in an operand does not change a single byte of the output.", "quantifier": "all actions, all stored opcodes", "why_tests_cant": "holds for every operand type and every value of the field", "anchors": ["dash7/src/app/action.rs: DekuWriter for Action, deku_id", "dash7/src/app/operation/mod.rs"]}
{"id": "C50", "title": "Parsing agrees with a reference decoder", "statement": "Action::from_bytes and Command::try_from accept exactly the inputs that an independent byte-by-byte description of the format accepts and return the value it gives; everything else is an error, never a panic. Where the reported remainder differs from the undecoded bytes, the difference is described exactly.", "quantifier": "all byte strings of any length, all three protocol variants, both host byte orders", "why_tests_cant": "an infinite input space, with rejected inputs and nested variable length fields; tests sample accepted inputs", "anchors": ["dash7/src/app/action.rs: DekuReader for Action", "dash7/src/app/command.rs: DekuReader for Command", "dash7/src/app/operation/mod.rs", "dash7/src/app/operation/length.rs", "dash7/src/app/operation/file_offset.rs", "dash7/src/file/access_profile.rs", "dash7/src/file/dll_config.rs", "dash7/src/file/dll_status.rs", "dash7/src/file/engineering_mode.rs", "dash7/src/file/factory_settings.rs", "dash7/src/file/firmware_version.rs", "dash7/src/file/interface_configuration.rs", "dash7/src/file/mod.rs", "dash7/src/file/phy_status.rs", "dash7/src/file/security_key.rs", "dash7/src/session/mod.rs", "dash7/src/session/interface_final.rs"]}
{"id": "C51", "title": "Standalone types parse as the reference decoder says", "statement": "For every type that can be parsed on its own (lengths, offsets, channels, access profiles, addressees, statuses, queries, interface configurations, files) the derived from_bytes returns the reference value and exactly the undecoded bytes, the derived TryFrom accepts exactly the inputs that are used up, and everything else is an error.", "quantifier": "all byte strings of any length, all file numbers and announced lengths, all three protocol variants, both host byte orders", "why_tests_cant": "an infinite input space; the unit tests decode a handful of values per type and never look at the remainder of malformed input", "anchors": ["dash7/src/types.rs", "dash7/src/physical/mod.rs", "dash7/src/link/mod.rs", "dash7/src/link/frame.rs", "dash7/src/network/mod.rs", "dash7/src/network/addressee.rs", "dash7/src/network/network.rs", "dash7/src/session/mod.rs", "dash7/src/session/interface_final.rs", "dash7/src/file/access_profile.rs", "dash7/src/file/dll_config.rs", "dash7/src/file/dll_status.rs", "dash7/src/file/engineering_mode.rs", "dash7/src/file/factory_settings.rs", "dash7/src/file/firmware_version.rs", "dash7/src/file/interface_configuration.rs", "dash7/src/file/mod.rs", "dash7/src/file/phy_status.rs", "dash7/src/file/security_key.rs", "dash7/src/app/query.rs", "dash7/src/app/interface.rs"]}
{"id": "C52", "title": "The three builds of the crate understand each other", "statement": "Bytes written by the crate built with one cargo feature (spec, _subiot, _wizzilab) and parsed by the crate built with another give the same command or an error, never a different command.", "quantifier": "all commands, all byte strings, all pairs of builds", "why_tests_cant": "a test binary contains only one build; the features are exclusive at compile time", "anchors": ["dash7/src/network/addressee.rs: Addressee", "dash7/src/app/interface.rs: Dash7InterfaceConfiguration", "dash7/src/app/operation/mod.rs: Status", "dash7/src/app/action.rs: Action"]}
{"id": "C53", "title": "Incremental parsing", "statement": "When input arrives piece by piece: what was parsed from the first bytes stays the same however the input goes on; an error other than Incomplete stays the same however the input goes on; input that can still be completed is reported as Incomplete.", "quantifier": "all byte strings, all continuations, all start bits, all three protocol variants", "why_tests_cant": "quantifies over every input and every continuation of it", "anchors": ["dash7/src/app/action.rs: Action", "dash7/src/utils.rs: from_bytes", "dash7/src/file/access_profile.rs", "dash7/src/file/dll_config.rs", "dash7/src/file/dll_status.rs", "dash7/src/file/engineering_mode.rs", "dash7/src/file/factory_settings.rs", "dash7/src/file/firmware_version.rs", "dash7/src/file/interface_configuration.rs", "dash7/src/file/mod.rs", "dash7/src/file/phy_status.rs", "dash7/src/file/security_key.rs", "dash7/src/session/mod.rs", "dash7/src/session/interface_final.rs", "dash7/src/app/interface.rs"]}
{"id": "C54", "title": "Commands can be joined and split", "statement": "The encodings of two commands one after the other parse as the actions of the first followed by those of the second, and are rejected if the second is; the encoding of a command can be split between any two of its actions. Exceptions: nothing behind an indirect forward is looked at, and no cut is possible after a transmission status.", "quantifier": "all byte strings, all commands, all three protocol variants", "why_tests_cant": "infinitely many pairs of inputs; depends on no reader ever looking past its own bytes", "anchors": ["dash7/src/app/command.rs: Command"]}
{"id": "C55", "title": "Parsed values are no larger than the input", "statement": "The number of parsed actions plus the lengths of all their vectors and strings is at most the number of input bytes.", "quantifier": "all byte strings, all three protocol variants", "why_tests_cant": "a bound on memory for every hostile input, including lying length fields", "anchors": ["dash7/src/app/command.rs: Command", "dash7/src/app/action.rs: Action", "dash7/src/file/mod.rs: File", "dash7/src/app/query.rs: Query"]}
{"id": "C56", "title": "Which actions survive being written and parsed again", "statement": "An action written with to_bytes is given back unchanged by TryFrom exactly if its fields are consistent and in range, or it is a status of an unknown interface whose encoded length does not start with the id byte of a known interface.", "quantifier": "all actions, all three protocol variants", "why_tests_cant": "the values that do not survive have to be characterised too; an equivalence over all values of all operand types", "anchors": ["dash7/src/app/action.rs: Action", "dash7/src/app/operation/mod.rs"]}
{"id": "C57", "title": "Which commands survive being written and parsed again", "statement": "A command is given back unchanged exactly if each action survives alone and nothing follows an indirect forward.", "quantifier": "all commands, all three protocol variants", "why_tests_cant": "wrong lengths of neighbouring actions could cancel out; only a proof for all lists excludes it", "anchors": ["dash7/src/app/command.rs: Command"]}
{"id": "C58", "title": "update() on an enclosing value repairs what it contains", "statement": "After changing a part of an action and calling update() on the action (or on the query, forward or configuration around the part), the action serialises to bytes that parse back to it; likewise for a part of a frame.", "quantifier": "all actions and frames", "why_tests_cant": "the tests never call update(); a claim about every nesting of every type", "anchors": ["dash7/src/app/action.rs: DekuUpdate for Action", "dash7/src/transport/mod.rs: Frame", "dash7/src/app/operation/mod.rs: IndirectForward", "dash7/src/app/query.rs: Query", "dash7/src/app/interface.rs: Dash7InterfaceConfiguration"]}
{"id": "C59", "title": "Constructors and conversions build values that survive the wire", "statement": "A value built by Forward::new, IndirectForward::new, Addressee::new, FileData::new, ActionHeader::new, ChannelHeader::new, FileOffset::no_offset, AccessClass::unavailable, Into<Chunk>, or the status conversions is given back by parsing its encoding whenever the arguments are in range; none of them panics.", "quantifier": "all arguments, all three protocol variants", "why_tests_cant": "all combinations of arguments, including inconsistent ones", "anchors": ["dash7/src/app/operation/mod.rs: new, Into", "dash7/src/app/interface_final.rs: From, Into", "dash7/src/link/mod.rs: AccessClass", "dash7/src/physical/mod.rs: ChannelHeader"]}
{"id": "C60", "title": "Types smaller than a byte can be parsed on their own", "statement": "The public TryFrom<&[u8]> of every enum, header and query part accepts the bytes that its to_bytes produces.", "quantifier": "all byte strings", "why_tests_cant": "says that no input whatsoever is accepted", "anchors": ["dash7/src/physical/mod.rs", "dash7/src/network/mod.rs", "dash7/src/session/mod.rs", "dash7/src/data/mod.rs", "dash7/src/app/query.rs", "dash7/src/app/operation/mod.rs"]}
{"id": "C61", "title": "Frame parsing agrees with a reference decoder", "statement": "For every byte string, ForegroundFrame and BackgroundFrame are accepted with exactly the value that a separately written decoder on plain bytes gives, and rejected where it gives none.", "quantifier": "all byte strings, all three protocol variants, both host byte orders", "why_tests_cant": "headers that do not fill whole bytes shift everything behind them, and the length field interacts with every action; only a proof covers all frames", "anchors": ["dash7/src/link/frame.rs: ForegroundFrame, BackgroundFrame", "dash7/src/network/network.rs: Frame", "dash7/src/transport/mod.rs: Frame", "dash7/src/app/command.rs: Command"]}
{"id": "C62", "title": "A frame with length 0 parses", "statement": "A foreground frame whose length field is 0, which the command parser takes for no limit, is given back by parsing its encoding.", "quantifier": "all frames with length 0, anything may follow", "why_tests_cant": "says that no continuation of the bytes helps", "anchors": ["dash7/src/app/command.rs: valid_length", "dash7/src/link/frame.rs: ForegroundFrame"]}
{"id": "C63", "title": "Incomplete input can be completed", "statement": "Where parsing an action or a command reports Incomplete, some further bytes make it succeed.", "quantifier": "all byte strings, all builds", "why_tests_cant": "both a claim that a continuation exists for every cut and a claim that none exists at all", "anchors": ["dash7/src/app/action.rs: Action::from_reader_with_ctx", "dash7/src/app/command.rs: Command::from_reader_with_ctx", "dash7/src/utils.rs: read_string", "dash7/src/session/mod.rs: InterfaceStatus", "dash7/src/app/interface_final.rs: TxStatusOperation"]}
{"id": "C64", "title": "Errors are named correctly", "statement": "A parse error of a single type is TooMuchData if a beginning of the input is accepted, Incomplete if some continuation is, and Parse if neither; for actions and commands InvalidParam stands for an unassigned opcode, reached by parsing the actions before it, and no other error occurs.", "quantifier": "all byte strings, all builds, 21 types and all files", "why_tests_cant": "existence and non-existence of continuations, for every input", "anchors": ["dash7/src/app/action.rs: Action::from_reader_with_ctx", "dash7/src/app/command.rs: Command::from_reader_with_ctx", "dash7/src/file/mod.rs: File", "dash7/src/file/firmware_version.rs: FirmwareVersion", "dash7/src/app/operation/mod.rs: InterfaceStatusOperation"]}
{"id": "C65", "title": "Types with a default context round-trip on their own", "statement": "File, Status, network Frame and transport Frame declare a default context, so each can be written with to_bytes and parsed with try_from and from_bytes without one. A value written this way is parsed back to the same value by the same type. (False: a file only if it is the empty raw file, a status only if it is an action status; a network frame only with an empty command (with wizzilab: one plain no-operation), a transport frame only with one plain no-operation as command; from_bytes panics on a network frame that carries any action, without wizzilab.) Which values the parsers accept, the bytes they hand back and when they panic is given by a reference decoder for every input.", "quantifier": "all builds; all byte strings; all files and statuses that can be written; all well-formed network and transport frames", "why_tests_cant": "The failures depend on bit alignment, on the length of the command and on what the missing context is replaced with; single examples (an empty command, a zero action) pass.", "anchors": ["dash7/src/file/mod.rs: File", "dash7/src/app/operation/mod.rs: Status", "dash7/src/network/network.rs: Frame", "dash7/src/transport/mod.rs: Frame"]}
{"id": "C66", "title": "Parsing and serialising again gives the same bytes", "statement": "An input that is accepted by Action::try_from or Command::try_from and whose value is then serialised with to_bytes comes back byte for byte. (False: several byte strings stand for the same action. True exactly for canonical input: numbers of variable size in their shortest form, ignored bits and bytes zero, the length in front of a typed file or a status equal to its size, a status of an unassigned interface only if the parser put its id byte back into the stream, no transmission status.) No-operations, file id operations, copies, permission requests, response tags, chunks, logic operations and action statuses have one form only.", "quantifier": "all builds; all byte strings; all actions and commands", "why_tests_cant": "Tests compare the bytes of a handful of hand-made frames, all of them canonical; that no other input comes back unchanged, and that none of these is changed, is a statement about every byte string.", "anchors": ["dash7/src/app/action.rs: Action", "dash7/src/app/command.rs: Command", "dash7/src/app/operation/length.rs: Length", "dash7/src/types.rs: VarInt"]}
{"id": "C67", "title": "Every standalone type can be parsed at a bit offset", "statement": "from_bytes((input, k)) of a type with derived entry points, and File::from_bytes, parse the item whose bits start k bits into the input, whether or not k is a multiple of 8, and hand back the place behind it, so that the next item can be parsed from there; enums smaller than a byte included. (False for interface configurations, indirect interfaces and interface statuses with an unassigned id, if deku puts that id back: there the second reading of the id sees the byte after the next byte boundary.)", "quantifier": "all byte strings, all bit offsets, 21 byte-sized types (and the three exceptions exactly), all files, 20 enums, all builds, both host byte orders, both treatments of an unassigned id", "why_tests_cant": "tests parse at offset 0; offsets and input are unbounded, and the rewinding of an unassigned id shows only at offsets that are no multiple of 8", "anchors": ["dash7/src/app/interface.rs: InterfaceConfiguration", "dash7/src/app/interface.rs: IndirectInterface", "dash7/src/session/mod.rs: InterfaceType", "dash7/src/file/mod.rs: File::from_bytes", "dash7/src/physical/mod.rs: Channel", "dash7/src/utils.rs: pad_rest"]}
{"id": "C68", "title": "The Debug text of a value identifies it and stays on one line", "statement": "Two different frames, commands, actions, files, headers, queries, interface configurations or statuses, addressees or channels have different {:?} text, and the text contains no control character, whatever bytes (firmware names for instance) were received. Every value the parsers return is covered.", "quantifier": "all builds, all values of 15 types, every choice of the characters above U+007F that are printed unescaped; all byte strings for the parsed values", "why_tests_cant": "That no two of infinitely many values share their text, strings with quotes, backslashes and brackets included, is not visible from examples.", "anchors": ["dash7/src/app/action.rs: Action", "dash7/src/app/command.rs: Command", "dash7/src/file/mod.rs: File", "dash7/src/file/firmware_version.rs: FirmwareVersion", "dash7/src/link/frame.rs: ForegroundFrame", "dash7/src/link/frame.rs: BackgroundFrame", "dash7/src/network/addressee.rs: Addressee"]}
{"id": "C69", "title": "A printed command shows everything the command contains", "statement": "Commands with the same Display text are equal. (False: the place of the interface status, every interface status after the first, and the rounding flag of its timeout are not shown; two commands have the same text exactly if they agree on everything else.)", "quantifier": "all builds, all commands, every choice of characters printed unescaped; the counterexamples are parsed from bytes in every build", "why_tests_cant": "No test compares the text of two commands, and the converse direction speaks about all pairs of commands.", "anchors": ["dash7/src/app/command.rs: Display for Command", "dash7/src/session/mod.rs: Display for Dash7InterfaceStatus", "dash7/src/session/mod.rs: Display for InterfaceStatus"]}
{"id": "C70", "title": "The parse tool prints what it parsed and nothing else, and its output is safe for a terminal", "statement": "The standard output of a run of the parse command is the text of the result: runs with the same result print the same text, and a frame or a file takes one line. (False: a debugging line of the library with the value, a bit count and the whole input precedes every command and file, also a command that is then refused. Exactly the frames take one line; the lines of every run are listed; two runs print the same text exactly if all these lines agree, and with a library line among them only for the same input bytes; no run prints a control character except line feed and tab.)", "quantifier": "all builds, all options, all input texts", "why_tests_cant": "The tool has no tests, and injectivity and the absence of control characters are statements about all inputs.", "anchors": ["dash7-cli/src/parse.rs: parse_foreground_frame", "dash7-cli/src/parse.rs: parse_background_frame", "dash7-cli/src/parse.rs: parse_alp_command", "dash7-cli/src/parse.rs: parse_file", "dash7-cli/src/parse.rs: parse_any", "dash7/src/utils.rs: from_bytes"]}
{"id": "C71", "title": "Parsing writes nothing to standard output", "statement": "The parsers have no effect but their result. (False: from_bytes and TryFrom of Action and Command and File::from_bytes write one line whenever a value was read, even if they then fail; a failing TryFrom has written a line exactly if the error is 'Too much data'. The result is the same with and without the line.)", "quantifier": "all builds, all byte strings, all bit offsets, all file ids and lengths", "why_tests_cant": "The test harness captures standard output, so no test notices the line.", "anchors": ["dash7/src/utils.rs: from_bytes", "dash7/src/app/action.rs: TryFrom<&[u8]> for Action", "dash7/src/app/command.rs: TryFrom<&[u8]> for Command", "dash7/src/file/mod.rs: File::from_bytes"]}
{"id": "C72", "title": "A VarInt is rounded to the nearest sendable number on the requested side, and order is kept", "statement": "The number that arrives is the least sendable one not below the number sent (rounding up) or the greatest not above it (rounding down), and a greater number never arrives as a smaller one. (True for rounding up. False for rounding down: between 31 and 32 times a power of four from 4 to 4096, 28 times that power arrives although 31 times it could be sent, so 125 arrives as 112 and 124 as 124. These are the only exceptions to both claims.)", "quantifier": "all numbers up to VarInt::MAX, both rounding directions, all pairs of numbers", "why_tests_cant": "The tests try a handful of numbers; optimality compares with every sendable number and monotonicity with every pair.", "anchors": ["dash7/src/types.rs: VarInt::compress", "dash7/src/types.rs: VarInt::decompress", "dash7/src/types.rs: VarInt::read", "dash7/src/types.rs: VarInt::write"]}
{"id": "C73", "title": "from_reader does not depend on what was read from the stream before, and leaves the stream behind the item", "statement": "Reading an item from the middle of a stream gives the same value, count or error as from a stream that starts with the item, and the stream is left right behind it. (True for actions and all standalone types, so actions can be read one at a time. False for commands: Command::from_reader takes one more byte whenever bytes follow the command. False for foreground frames: the length field is compared with the position in the stream, so a frame that starts behind as many bytes as it claims to have is read without its actions.)", "quantifier": "all builds, all byte strings, all positions in them, all bit offsets for independence of the past", "why_tests_cant": "All tests read from the start of a slice; none reads a second item from the same stream.", "anchors": ["dash7/src/utils.rs: from_reader", "dash7/src/app/action.rs: Action::from_reader", "dash7/src/app/command.rs: Command::from_reader", "dash7/src/app/command.rs: DekuReader<u32> for Command", "dash7/src/link/frame.rs: ForegroundFrame"]}
{"id": "C74", "title": "A foreground frame that was parsed comes back when it is written and parsed again", "statement": "A ForegroundFrame that was parsed can be written, and what was written parses to the same frame. (Writing always works. False for the rest: the length field is kept and compared with the position while the numbers inside are written in their shortest form, so a frame in which a number took more bytes than needed may not parse again. Without wizzilab it comes back exactly if the length field stops the action loop behind the last action as written; with wizzilab exactly if the bits behind the checksum are zero.)", "quantifier": "all builds, all byte strings that parse as a frame, all frame values, all bytes behind", "why_tests_cant": "The tests parse the bytes they have just written, with the shortest form of every number; a frame received in another form is never tried.", "anchors": ["dash7/src/link/frame.rs: ForegroundFrame", "dash7/src/app/command.rs: DekuReader<u32> for Command", "dash7/src/app/operation/length.rs: Length"]}
{"id": "C75", "title": "What was parsed is never written in more bytes than it was parsed from", "statement": "An action or command that was parsed, written again, takes no more bytes than it was parsed from. (False: the size announced in front of file data of a known kind is not looked at when parsing, but it is written; an access profile or the status of 17 channels or more, announced with a one-byte number, is written with two. It is never more than one byte per action, no other action grows, and for each such action there are bytes from which it grows.)", "quantifier": "all builds, all byte strings, all positions, all actions and commands parsed from them", "why_tests_cant": "Tests compare the bytes of shortest forms only; a bound over everything that parses, and that only two kinds of file data break it, takes a proof over all actions.", "anchors": ["dash7/src/app/operation/mod.rs: FileData", "dash7/src/file/mod.rs: File", "dash7/src/app/operation/length.rs: Length", "dash7/src/app/command.rs: Command"]}
{"id": "C76", "title": "Frames can be parsed piece by piece, and exactly the bytes up to where the stream is left are needed", "statement": "Reading a foreground or background frame from bytes that arrive piece by piece: more bytes never change what was accepted, no error but Incomplete can be mended by more bytes, and what can be mended is reported as Incomplete. Where from_reader has read a frame, an action or another item from byte p of a stream and left the stream at byte q, the same is read if the stream ends at q or later, and Incomplete is reported if it ends earlier. (Not so for commands, which end where the bytes end; a frame has its checksum behind the command.)", "quantifier": "all builds, all byte strings, all starting bits and bytes, all places to cut off", "why_tests_cant": "A frame contains a command whose end depends on the end of the input; that this never shows outside takes a proof over all cut points of all inputs. The tests never cut a frame short.", "anchors": ["dash7/src/link/frame.rs: ForegroundFrame", "dash7/src/link/frame.rs: BackgroundFrame", "dash7/src/app/action.rs: Action", "dash7/src/app/command.rs: DekuReader<u32> for Command"]}
{"id": "C77", "title": "A frame is reported as incomplete exactly if more bytes can complete it, and the errors are named for what they are", "statement": "If a frame is rejected, it is reported as Incomplete exactly if some continuation is accepted; InvalidParam exactly if the command leads to an unassigned opcode; Parse otherwise; no other error is reported. from_bytes reports the same, TryFrom also TooMuchData. (The first part is false: with nine-bit network control fields, one that is cut before its last bit is reported as Incomplete even if its security method is already known to be unassigned; and so are the three cases of C63 within the command. There are no other exceptions.) The errors of background frames are named without exception.", "quantifier": "all builds, all byte strings", "why_tests_cant": "Whether any continuation exists is a statement about infinitely many inputs; the tests never feed a frame that is cut short or that cannot be continued.", "anchors": ["dash7/src/link/frame.rs: ForegroundFrame", "dash7/src/link/frame.rs: BackgroundFrame", "dash7/src/network/network.rs: Control", "dash7/src/app/command.rs: DekuReader<u32> for Command"]}
{"id": "C78", "title": "The frames that come back unchanged when they are parsed and serialised again", "statement": "If a frame is parsed from some bytes and serialised again, the result is what was consumed. (False: numbers that are longer than necessary, set unused bits and the forms C66 excludes do not come back, and with wizzilab hardly anything does.) It is so exactly if a strict decoder accepts the bytes: one that takes numbers in their shortest form only, requires unused bits to be zero, takes only the actions C66 leaves, and with wizzilab, for frames with a length field other than 0, requires the bit in front of the command, the command and the checksum to be zeros. With wizzilab and length field 0 there are others, whose command is not all Nops.", "quantifier": "all byte strings, all frames; without wizzilab all builds (unknown statuses whose id is not put back: frames that are all of the input); with wizzilab length fields other than 0", "why_tests_cant": "A comparison of bytes in and bytes out over all inputs; the tests only start from values that they have written themselves.", "anchors": ["dash7/src/link/frame.rs: ForegroundFrame", "dash7/src/network/network.rs: Control", "dash7/src/network/network.rs: Frame", "dash7/src/transport/mod.rs: Frame", "dash7/src/app/command.rs: DekuReader<u32> for Command"]}
{"id": "C79", "title": "Frame encodings are unambiguous", "statement": "Two well-formed foreground frames with the same bytes are equal, and so are two background frames. The bytes of a foreground frame never begin with those of another one. (The last part is false, as nothing in a frame marks its end but the length field, which can have any value; it happens exactly to frames with equal headers whose command and checksum begin with each other's, and never if both length fields give the number of bytes that follow.)", "quantifier": "all builds, all pairs of well-formed frames", "why_tests_cant": "A statement about pairs of frames; tests write single frames.", "anchors": ["dash7/src/link/frame.rs: ForegroundFrame", "dash7/src/link/frame.rs: BackgroundFrame"]}
{"id": "C80", "title": "Which inputs of the types on their own come back unchanged", "statement": "An input that one of the types with its own entry point accepts whole comes back unchanged when the value is serialised. (True for ChannelStatus, SubBand, QoS and FinalStatusCode only; for every other type, and for files by number and announced length, exactly for the inputs with shortest numbers, zero padding and fitting announced lengths.)", "quantifier": "all builds, all inputs, 22 types and all files", "why_tests_cant": "The set of accepted inputs of a type is infinite or too large to list; the tests only go from values to bytes and back.", "anchors": ["dash7/src/app/operation/length.rs: Length", "dash7/src/app/query.rs: Query", "dash7/src/physical/mod.rs: Channel", "dash7/src/network/addressee.rs: Addressee", "dash7/src/session/mod.rs: Dash7InterfaceStatus", "dash7/src/app/interface.rs: InterfaceConfiguration", "dash7/src/file/mod.rs: File"]}
{"id": "C81", "title": "The size of a parsed frame", "statement": "The actions of a parsed foreground frame and the elements of their vectors and strings together are at most ten less than the bytes taken, so a frame cannot make the parser build something larger than itself; and written again it takes no more bytes than it was parsed from. (The last part is false, as for commands (C75): it grows by at most one byte per action that holds an access profile or the status of 17 channels or more, and not at all without one; the headers never grow.)", "quantifier": "all builds, all inputs, any starting byte of a stream", "why_tests_cant": "Holds for every input, whatever its length field and announced sizes say.", "anchors": ["dash7/src/link/frame.rs: ForegroundFrame", "dash7/src/app/command.rs: Command"]}
{"id": "C82", "title": "Frames between builds with different features", "statement": "A frame written by a build with one of the features spec, subiot, wizzilab is understood alike, or rejected, by a build with another. (False for every pair of different features: each has a frame that the writing build gives back and the other reads as something else. Exactly: without a forward over DASH7 spec and subiot builds read and write alike; a spec and a wizzilab build write a frame alike exactly if everything from the security method on is zero; if both accept the same bytes they agree on everything in front of the security method and the wizzilab build sees its upper three bits.)", "quantifier": "all pairs of features, all hosts, all frames, all inputs", "why_tests_cant": "The crate is compiled with one feature at a time; a test never sees two builds, and both succeed.", "anchors": ["dash7/src/network/network.rs: Control", "dash7/src/link/frame.rs: ForegroundFrame", "dash7/src/app/interface.rs: Dash7InterfaceConfiguration", "dash7/src/network/addressee.rs: Addressee"]}
{"id": "C83", "title": "Which values of the types on their own survive, and what parsing can give", "statement": "For every type with its own entry point (numbers, offsets, channels, access profiles, addressees, statuses, queries, configurations, system files): whatever the input, a parsed value has its fields in range and in agreement with each other; a value is given back after being written exactly if it is of this kind. (True for 30 types and for files by number and announced length. One exception: a status of an unknown interface is parsed but does not always come back; exactly those do whose length byte is not the id of a known interface, and only where the id of an unknown variant is put back into the stream.)", "quantifier": "all builds, all values, all inputs", "why_tests_cant": "Speaks about every value of 30 types, including those no test builds, and about every input.", "anchors": ["dash7/src/app/operation/length.rs: Length", "dash7/src/types.rs: VarInt", "dash7/src/app/operation/mod.rs: InterfaceStatusOperation", "dash7/src/file/mod.rs: File", "dash7/src/network/addressee.rs: Addressee", "dash7/src/app/query.rs: Query", "dash7/src/app/interface.rs: InterfaceConfiguration", "dash7/src/session/mod.rs: InterfaceStatus"]}
{"id": "C84", "title": "Serialising frames and the types on their own: which values are rejected, and how many bytes the others take", "statement": "For any value of ForegroundFrame, BackgroundFrame, Command, File and the operand types on their own, to_bytes never panics; it returns InvalidParam exactly if the value contains a Length of 2^30 or more, a VarInt above 507904, or a payload whose size modulo 2^32 is 2^30 or more; otherwise it returns a number of bytes that is given by the sizes of the parts. The power of a foreground frame, its access class and the tag of a background frame are written modulo their width.", "quantifier": "all values of each type, well formed or not; every protocol variant and host", "why_tests_cant": "Every unit test serialises a hand-picked valid value; the boundary is a property of all numbers in all fields, and the size formula of all combinations of optional fields.", "anchors": ["dash7/src/link/frame.rs: ForegroundFrame", "dash7/src/link/frame.rs: BackgroundFrame", "dash7/src/network/network.rs: Frame", "dash7/src/transport/mod.rs: Frame", "dash7/src/app/operation/length.rs: Length", "dash7/src/types.rs: VarInt", "dash7/src/file/mod.rs: File"]}
{"id": "C85", "title": "File ids as a type of their own", "statement": "Every byte is parsed as the FileId the documentation names for it, and as no other; a FileId that was parsed is written as the byte it was parsed from and comes back when that is parsed; from_bytes leaves the bytes behind the id. The specifier of an access profile file is the number of the FileId its ID constant converts to.", "quantifier": "all bytes, all byte strings, all FileId values, all const parameters S whose ID fits in a byte; both behaviours of deku for id_pat variants", "why_tests_cant": "No unit test touches FileId, and a finite test of the conversions cannot show that no other byte has a name.", "anchors": ["dash7/src/file/mod.rs: FileId", "dash7/src/file/access_profile.rs: AccessProfile"]}
{"id": "C86", "title": "Memory set aside while parsing", "statement": "Parsing makes room for no more vector elements than the input has bytes: a length field is not believed before the bytes it announces are there.", "quantifier": "all byte strings, as an Action, a Command or a ForegroundFrame; all feature sets, byte orders and both behaviours of deku for id_pat variants", "why_tests_cant": "Tests parse inputs whose length fields are right; they measure no memory, and no finite number of inputs shows a bound.", "anchors": ["dash7/src/app/query.rs: ComparisonWithValue", "dash7/src/file/mod.rs: File", "dash7/src/file/phy_status.rs: PhyStatus", "dash7/src/session/mod.rs: InterfaceStatus", "dash7/src/app/command.rs: Command"]}
{"id": "C87", "title": "Frames with a wrong checksum are rejected", "statement": "A frame is accepted only if its crc16 field is the checksum of the bytes in front of it, and a frame is written with that checksum.", "quantifier": "all byte strings and starting bytes, all frame values, all checksums; all feature sets, byte orders and both behaviours of deku for id_pat variants", "why_tests_cant": "Tests parse frames that are right; that no function whatever of the preceding bytes is enforced, and that every checksum is accepted behind every frame, are statements about all inputs.", "anchors": ["dash7/src/link/frame.rs: BackgroundFrame", "dash7/src/link/frame.rs: ForegroundFrame"]}
{"id": "C88", "title": "How few and how many bytes an action takes", "statement": "For every opcode there is a least and a greatest number of bytes an accepted action can take; both are reached, and opcodes outside the table are never accepted.", "quantifier": "all byte strings and starting bytes, all opcodes; all feature sets, byte orders and both behaviours of deku for id_pat variants", "why_tests_cant": "The greatest lengths lie beyond 2^30 and 2^31 bytes, which no test allocates; that nothing outside the table is accepted concerns all inputs.", "anchors": ["dash7/src/app/action.rs: Action", "dash7/src/app/query.rs: ComparisonWithValue", "dash7/src/app/operation/length.rs: Length"]}
{"id": "C89", "title": "Parsing and writing gives a normal form", "statement": "The bytes that are written for a parsed command are a normal form: parsing and writing them again changes nothing.", "quantifier": "all byte strings, all numbers of rounds; all feature sets, byte orders and both behaviours of deku for id_pat variants", "why_tests_cant": "A test does one round. That the number of rounds until nothing changes is unbounded, and that it is at most the number of bytes, are statements about all inputs.", "anchors": ["dash7/src/app/command.rs: Command", "dash7/src/app/operation/mod.rs: InterfaceStatusOperation", "dash7/src/session/mod.rs: InterfaceStatus"]}
{"id": "C90", "title": "An error about a VarInt names the limit", "statement": "When a value, an exponent or a mantissa is too large for a VarInt, the text of the error names the number and the largest number that would have been accepted in its place.", "quantifier": "all values, exponents and mantissas", "why_tests_cant": "Existing tests do not look at the text of errors. That the number given as the largest is the largest is a statement about all numbers.", "anchors": ["dash7/src/types.rs: VarIntError", "dash7/src/types.rs: VarInt"]}
{"id": "C91", "title": "An error about a text says where it stops being UTF-8", "statement": "Bytes that are not UTF-8 where a text is read are reported with the bytes, the number of bytes in front that are UTF-8, and the number of bytes that are in the way behind them, or that the text ends within a character.", "quantifier": "all byte strings of all lengths, all places of the input", "why_tests_cant": "There are unboundedly many byte strings that are not UTF-8, and no test looks at the text of the error.", "anchors": ["dash7/src/utils.rs: read_string"]}
{"id": "C92", "title": "What deku does with the id of a variant found by a pattern matters to the status of unknown interfaces only", "statement": "Whether deku puts the id of a variant that it found by a pattern back into the stream, or hands it to the first field, makes no difference to what is written, and no difference to what is read except for the status of an interface whose number is unassigned; there the one reads what the other reads when the number stands twice.", "quantifier": "all values, all byte strings, all positions and bit offsets of streams, all builds", "why_tests_cant": "Tests run with one version of deku. That only one kind of action depends on the difference is a statement about all inputs and two programs.", "anchors": ["dash7/src/session/mod.rs: InterfaceType", "dash7/src/app/operation/mod.rs: InterfaceStatusOperation", "dash7/src/app/interface.rs: InterfaceConfiguration", "dash7/src/app/interface.rs: IndirectInterface"]}
{"id": "C93", "title": "The text printed for an input is at most proportional to it", "statement": "The text of an action is at most 99 bytes for each byte it was read from and 47 more, that of a command at most 102 and 77 more, that of a frame at most 101; the bound of commands is reached at every length. Everything the tool writes for n bytes of input, the lines printed by the library included, has at most 209 n + 184 bytes.", "quantifier": "all byte strings, all positions, all types of input of the tool, all builds, all choices of what Unicode counts as printable", "why_tests_cant": "A test prints chosen inputs. That no input makes a small frame print a large text is a statement about all values the parsers can return.", "anchors": ["dash7/src/app/command.rs: Command", "dash7/src/app/action.rs: Action", "dash7/src/link/frame.rs: ForegroundFrame", "dash7/src/link/frame.rs: BackgroundFrame", "dash7/src/utils.rs: from_bytes", "dash7-cli/src/parse.rs: parse_any"]}
{"id": "C94", "title": "What is written for a value that makes no sense", "statement": "Every value that can be written at all is written field by field: of each number the low bits its field has room for, strings cut off or filled with zeros, vectors and byte strings as long as they are, the opcode from the kind of action, the prefix of a payload from its actual size modulo 2^32, and everything optional that is given, whatever the fields in front announce. Nothing is checked against anything else. For well-formed actions this is the documented layout.", "quantifier": "all actions, commands, frames, files and types of their own, well formed or not, all builds", "why_tests_cant": "Tests encode sensible values. Here every combination of fields that contradict each other is covered, and none of them is rejected or repaired.", "anchors": ["dash7/src/app/action.rs: Action", "dash7/src/app/command.rs: Command", "dash7/src/link/frame.rs: ForegroundFrame", "dash7/src/link/frame.rs: BackgroundFrame", "dash7/src/file/mod.rs: File", "dash7/src/app/operation/mod.rs: Status", "dash7/src/utils.rs: write_string"]}
{"id": "C95", "title": "Constructors put each argument in its place", "statement": "The bytes written for a value from new, from, into or update follow from the arguments: flags say whether a mask or an overload was given, type fields name the kind of the address, of the security state or of the status, the length of a query is the number of bytes of the value (or of the mask where there is no value), and every argument is written once, in the documented order. update changes these derived fields only, and leaves the length alone in two of the five queries.", "quantifier": "all arguments, well formed or not, all builds", "why_tests_cant": "The unit tests build one value with each constructor, and most build masks and values of the same length.", "anchors": ["dash7/src/app/query.rs: ComparisonWithOtherFile", "dash7/src/app/query.rs: BitmapRangeComparison", "dash7/src/app/query.rs: StringTokenSearch", "dash7/src/network/addressee.rs: Addressee", "dash7/src/file/phy_status.rs: PhyStatus", "dash7/src/app/operation/mod.rs: IndirectForward", "dash7/src/app/operation/mod.rs: Forward", "dash7/src/app/operation/mod.rs: FileData", "dash7/src/app/operation/mod.rs: Status"]}
{"id": "C96", "title": "Encoded numbers sort like the numbers", "statement": "Compared byte by byte, the encodings of two Lengths are in the order of the lengths, whatever follows them, and those of two FileOffsets in the order of file and offset. A greater number is never written as a smaller VarInt byte; and the bytes of VarInts are in the order of the numbers they stand for.", "quantifier": "all lengths below 2^30, all file ids, all VarInts in range with each direction of rounding, all bytes", "why_tests_cant": "The tests encode single values and never compare two encodings.", "anchors": ["dash7/src/app/operation/length.rs: Length", "dash7/src/app/operation/file_offset.rs: FileOffset", "dash7/src/types.rs: VarInt"]}
{"id": "C97", "title": "The two bits in front of an opcode do not change how the operands are parsed", "statement": "If the two bits in front of the opcode of an action are changed, the same bytes are parsed to the same action with these bits in its header, the same bytes are left over, and the other actions of a command stay as they are; bytes that are rejected stay rejected with the same error.", "quantifier": "all builds, all opcodes, all values of the two bits before and after, all bytes behind them; in commands, behind any well-formed actions other than an IndirectForward", "why_tests_cant": "The tests parse each kind of action with one or two settings of its flags.", "anchors": ["dash7/src/app/action.rs: DekuReader for Action", "dash7/src/app/operation/mod.rs: ActionHeader", "dash7/src/app/operation/mod.rs: ResponseTagHeader", "dash7/src/app/operation/mod.rs: ForwardHeader", "dash7/src/app/operation/mod.rs: IndirectForwardHeader", "dash7/src/app/operation/mod.rs: StatusOperand"]}
{"id": "C98", "title": "The parse tool shows an input as what it is", "statement": "`dash7 parse` without a type shows the bytes of a command as that command; with or without the type it shows the bytes of a foreground frame as that frame; with type systemfile and no id it shows the bytes of a system file as that file.", "quantifier": "all builds, all hex inputs that are a command, start with a foreground frame, or start with a system file", "why_tests_cant": "The tool has no tests; which inputs are taken for another kind depends on every byte.", "anchors": ["dash7-cli/src/parse.rs: parse_any", "dash7-cli/src/parse.rs: parse_foreground_frame", "dash7-cli/src/parse.rs: parse_any_file", "dash7/src/link/frame.rs: ForegroundFrame", "dash7/src/link/frame.rs: BackgroundFrame"]}
{"id": "C99", "title": "Different values that were parsed are written differently", "statement": "If two actions that can be parsed are different, so are the bytes to_bytes gives for them; the same holds for commands made of such actions and for foreground frames that can be parsed. (False: a status of an unknown interface is written without the id of the interface. True for all others; which values are written alike is said exactly.)", "quantifier": "all builds, all pairs of actions that some input is parsed as, all pairs of commands made of them, all pairs of foreground frames that some input is parsed as", "why_tests_cant": "Two values have to be compared, and one of them has to be a status of an interface the crate does not know.", "anchors": ["dash7/src/session/mod.rs: InterfaceType", "dash7/src/app/operation/mod.rs: InterfaceStatusOperation", "dash7/src/app/action.rs: Action", "dash7/src/app/command.rs: Command", "dash7/src/link/frame.rs: ForegroundFrame"]}
{"id": "C100", "title": "Different inputs are parsed as different values", "statement": "If Action::try_from accepts two different inputs, it gives different actions. (False: a length may be spelled with more bytes than it needs, and one byte behind the action is ignored. Which inputs are read as a given length, and which are parsed as a given ReadFileData or a given WriteFileData of uninterpreted bytes or of the UId file, is said exactly.)", "quantifier": "all builds; all byte strings and all lengths; for actions exactly described: all byte strings and all ReadFileData values with opcode 1 and WriteFileData values with opcode 4 of these two kinds", "why_tests_cant": "Encoders write the shortest spelling only, so tests that start from values never see the others; the count of spellings is about all lengths below 2^30.", "anchors": ["dash7/src/app/operation/length.rs: Length", "dash7/src/app/operation/file_offset.rs: FileOffset", "dash7/src/app/operation/mod.rs: ReadFileData", "dash7/src/app/action.rs: Action"]}
