{"id": "C01", "title": "Serial frame round trip", "statement": "When one Parser frames any sequence of payloads of 0..255 bytes with build_serial_frame and the concatenated frames are given to a receiving Parser running with skip_alp_parsing, the receiver returns exactly those payloads, byte for byte, in order, each with message type ALP_DATA, reports no error and keeps nothing in its buffer, whatever the two counters were.", "quantifier": "all finite sequences of payloads of at most 255 bytes, all states of the sender's and receiver's counters", "why_tests_cant": "The number and content of payloads and the counter values are unbounded combinations; tests try a few frames.", "anchors": ["d7a/serial_modem_interface/parser.py: Parser.build_serial_frame, Parser.parse, parse_serial_interface_header", "d7a/support/Crc.py: calculate_crc"]}
{"id": "C02", "title": "Command round trip over the serial link", "statement": "A command built from supported actions (read/write/return file data with non-empty data, create file, return file header, break query, forward, indirect forward), serialized and framed by build_serial_frame, is parsed by the peer's Parser into a command with the same tag id, the same respond-when-completed flag and the same sequence of actions with the same operands; nothing else is delivered and no byte is left.", "quantifier": "all well-formed commands whose serialization is at most 255 bytes, all counter values, all sequences of such commands", "why_tests_cant": "The space of commands (nested operands, list lengths, values) is infinite.", "anchors": ["d7a/serial_modem_interface/parser.py: build_serial_frame, parse_one_command_from_buffer", "d7a/alp/parser.py: Parser.parse", "d7a/alp/command.py: Command.__iter__"]}
{"id": "C03", "title": "Delivery does not depend on how the byte stream is chunked", "statement": "Feeding a byte stream to Parser.parse in any sequence of chunks (one byte at a time as the modem thread does, or all at once) delivers the same messages with the same types in the same order and leaves the same bytes in the buffer, and raises for the one exactly if it raises for the other, for every byte stream including garbage, corrupt and truncated frames. In ALP mode this presumes that reading a flag at the end of the stream counts as a ReadError of the bitstring library; otherwise it holds as long as no such error is reported, and fails if one is.", "quantifier": "all byte streams, all ways to cut them into chunks, both parser modes", "why_tests_cant": "There are exponentially many chunkings of every one of infinitely many streams.", "anchors": ["d7a/serial_modem_interface/parser.py: Parser.parse, parse_buffer, parse_one_command_from_buffer, skip_bad_buffer_content"]}
{"id": "C04", "title": "Re-synchronisation after garbage", "statement": "After any garbage that contains no 0xC0 byte, every following well-formed frame is delivered intact; the garbage is reported as exactly one error whose skipped count is the garbage length when it arrives in one chunk with the frame.", "quantifier": "all garbage byte strings without 0xC0, all following frame sequences, all parser states with an empty buffer", "why_tests_cant": "Arbitrary garbage content and length.", "anchors": ["d7a/serial_modem_interface/parser.py: skip_bad_buffer_content, parse_one_command_from_buffer"]}
{"id": "C05", "title": "A message is delivered only if its CRC matches its payload", "statement": "Every message Parser.parse returns was preceded in the consumed bytes by a header C0 00 with the message's type, a length byte n and the two CRC bytes equal to calculate_crc of exactly the n bytes that follow.", "quantifier": "all byte streams, all parser states, both modes", "why_tests_cant": "Needs all byte streams, including adversarial ones.", "anchors": ["d7a/serial_modem_interface/parser.py: parse_serial_interface_header", "d7a/support/Crc.py: calculate_crc"]}
{"id": "C06", "title": "CRC detects bursts, odd and double bit errors", "statement": "For two payload+CRC strings of the same length that differ, calculate_crc accepts at most one of them if the difference is confined to a window of 16 consecutive bits, or has an odd number of flipped bits, or consists of two flipped bits anywhere within a maximum-size (255 byte payload) frame.", "quantifier": "all payloads, all burst positions and patterns of at most 16 bits, all odd-weight error patterns, all two-bit error patterns of frames up to 255 bytes", "why_tests_cant": "Number of error patterns is astronomically large.", "anchors": ["d7a/support/Crc.py: calculate_crc", "d7a/serial_modem_interface/parser.py: parse_serial_interface_header"]}
{"id": "C07", "title": "The frame header is not protected", "statement": "The CRC covers the payload only: changing the counter or message-type byte of a frame in transit is not detected, and the message is delivered under the changed type.", "quantifier": "all payloads, all counter and type values", "why_tests_cant": "A test shows one changed header; the property says every header change to these bytes goes unnoticed.", "anchors": ["d7a/serial_modem_interface/parser.py: build_serial_frame, parse_serial_interface_header"]}
{"id": "C08", "title": "Frame counters stay in step and detect loss", "statement": "Once a receiver has accepted one frame from a sender, any number of further frames received in order (through every wrap from 255 to 0) adds nothing to its error_counter; if a run of k frames is lost in between, error_counter grows by exactly one unless k is a multiple of 256; a fresh sender/receiver pair counts exactly one error on the very first frame.", "quantifier": "all frame sequences of any length, all loss run lengths, all counter values", "why_tests_cant": "Wrap-around after 256 frames and arbitrary loss patterns.", "anchors": ["d7a/serial_modem_interface/parser.py: build_serial_frame, parse_serial_interface_header"]}
{"id": "C09", "title": "The receiver always terminates and leaves a clean buffer", "statement": "Every call of Parser.parse terminates; when it returns, the bytes it keeps are a suffix of old buffer + new input, and are either empty or start with 0xC0 and cannot yet be decided (more input is needed).", "quantifier": "all byte inputs, all parser states reachable or not, both modes", "why_tests_cant": "Loops over arbitrary adversarial input.", "anchors": ["d7a/serial_modem_interface/parser.py: parse_buffer, parse_one_command_from_buffer, skip_bad_buffer_content", "d7a/alp/parser.py: Parser.parse"]}
{"id": "C10", "title": "Poison frame: some CRC-valid frames make the receiver raise for ever", "statement": "Expected: Parser.parse never raises, it reports errors in its result. Actual: it raises (IndexError) exactly when the message at the head of the stream hits an assertion without message while being ALP-parsed; the offending frame then stays at the head of the buffer, every later call raises again whatever is received, and all messages decoded earlier in the same call are lost. In skip_alp_parsing mode parse never raises.", "quantifier": "all byte streams and all later inputs", "why_tests_cant": "The claim is about all continuations after the crash and absence of crashes for all other streams.", "anchors": ["d7a/serial_modem_interface/parser.py: parse_one_command_from_buffer (e.args[0])", "d7a/alp/parser.py: parse_forward_action", "d7a/alp/operands/query.py: QueryOperand.parse"]}
{"id": "C11", "title": "A frame consumes exactly its declared length", "statement": "A decoded message consumes exactly 7 + length bytes in skip_alp_parsing mode for every type but REBOOTED, and always for LOGGING. A REBOOTED frame always consumes 8 bytes and an ALP frame may consume more than declared, eating the start of the next frame, when the last action runs over the declared length.", "quantifier": "all streams, types and lengths", "why_tests_cant": "Needs all frames and all continuations.", "anchors": ["d7a/serial_modem_interface/parser.py: parse_one_command_from_buffer", "d7a/alp/parser.py: Parser.parse"]}
{"id": "C12", "title": "Oversized commands are refused without side effects", "statement": "build_serial_frame of a command that serializes to more than 255 bytes raises and leaves the parser (in particular the up counter) unchanged; otherwise the frame has exactly 7 + n bytes and the counter advances by one modulo 256.", "quantifier": "all commands / payload sizes and all counter states", "why_tests_cant": "All sizes.", "anchors": ["d7a/serial_modem_interface/parser.py: build_serial_frame"]}
{"id": "C13", "title": "Bounded buffering", "statement": "In skip_alp_parsing mode the bytes retained between calls are never more than 261 (an incomplete frame); in ALP mode a single CRC-valid frame of 14 bytes can make the parser retain up to 2^30-2 further bytes without delivering or reporting anything.", "quantifier": "all byte streams, all chunkings", "why_tests_cant": "Unbounded streams.", "anchors": ["d7a/serial_modem_interface/parser.py: parse, parse_buffer", "d7a/alp/operands/length.py: Length.parse"]}
{"id": "C14", "title": "Non-ALP messages reach the caller unchanged", "statement": "A well-formed LOGGING frame is delivered as the raw payload bytes and a well-formed REBOOTED frame with a one byte payload as that byte's value, in both parser modes and between any other frames.", "quantifier": "all payloads, all positions in a stream", "why_tests_cant": "All payloads and interleavings with other frames.", "anchors": ["d7a/serial_modem_interface/parser.py: parse_one_command_from_buffer"]}
{"id": "C15", "title": "ALP parsing is total on arbitrary bytes", "statement": "AlpParser.parse on any byte string and any length terminates and either returns a command or raises one of ReadError/IndexError (input too short), ParseError, ValueError, AttributeError or AssertionError; when it returns, it has consumed at least the declared number of bytes (for a non-negative length) and whole bytes only.", "quantifier": "all byte strings, all declared lengths", "why_tests_cant": "Arbitrary adversarial input.", "anchors": ["d7a/alp/parser.py: Parser.parse, parse_alp_action"]}
{"id": "C16", "title": "Every supported action round-trips", "statement": "Every action the library can build can be serialized, and for every action whose opcode the parser supports, parsing the serialized bytes gives an action with the same opcode, flags and operand, and consumes exactly the serialized bytes, whatever follows, with exactly these exceptions: file data that is empty (C17), an NBID addressee whose estimate is not encoded by a byte up to 31 or by 43, a query other than an unmasked comparison with a value of the stated length, a forward with the group flag or whose configuration does not belong to its interface, and an indirect forward whose overload flag and configuration disagree. Bytes starting with an opcode the parser does not know are refused, and so are flags that a status, forward or tag request does not have, and statuses of or forwards to the host or an unknown interface; the unknown opcodes include those of three requests (no operation, read file header, write file header) that the library can build.", "quantifier": "all actions over all operand values, all continuations", "why_tests_cant": "Infinite operand space.", "anchors": ["d7a/alp/parser.py: parse_alp_action", "d7a/alp/regular_action.py", "d7a/alp/tag_request_action.py", "d7a/alp/tag_response_action.py", "d7a/alp/indirect_forward_action.py", "d7a/alp/operations/operation.py: Operation.__iter__"]}
{"id": "C17", "title": "Writing or returning empty data loses the operand", "statement": "Expected: a write/return file data action serializes its file offset and length. Actual: exactly when the data is empty the operand is dropped and only the one opcode byte is emitted, which a parser takes as the start of an operand formed by the following bytes.", "quantifier": "all file ids, offsets and data", "why_tests_cant": "Boundary holds for all offsets.", "anchors": ["d7a/alp/operands/file.py: Data.__len__", "d7a/alp/operations/operation.py: Operation.__iter__"]}
{"id": "C18", "title": "ALP length coding is canonical and unambiguous", "statement": "Length serializes every value 0..0x3FFFFFFF to the shortest of the 1..4 byte forms, refuses every other value, and parsing any continuation after it returns the value and the continuation; two different values never have one encoding a prefix of the other; parsing accepts the longer forms as well and never returns a value above 0x3FFFFFFF.", "quantifier": "all integers, all continuations", "why_tests_cant": "2^30 values.", "anchors": ["d7a/alp/operands/length.py: Length.__iter__, Length.parse"]}
{"id": "C19", "title": "Tag bookkeeping of a parsed command", "statement": "A parsed command exposes the tag of its tag request or tag response, execution_completed is true exactly if it contains a tag response with end-of-packet set, and completed_with_error is that action's error flag; a command with two tag actions or two interface status actions is rejected; the remaining actions keep their order.", "quantifier": "all action sequences", "why_tests_cant": "All sequences of actions.", "anchors": ["d7a/alp/command.py: Command.__init__", "d7a/alp/parser.py: Parser.parse"]}
{"id": "C20", "title": "Re-serializing a received command", "statement": "Expected: bytearray(parsed command) gives back the received bytes. Actual: for canonically encoded commands this holds exactly when every action is re-serializable; a tag action is silently dropped, a forward action raises AttributeError, an interface status loses its length byte or, without a parsed body, raises TypeError (before anything else is looked at), nothing else ever raises, empty data loses its operand, and longer than necessary Length codings are re-serialized short.", "quantifier": "all parsed commands", "why_tests_cant": "All commands.", "anchors": ["d7a/alp/command.py: Command.__iter__", "d7a/alp/forward_action.py: ForwardAction.__iter__", "d7a/alp/operands/interface_status.py"]}
{"id": "C21", "title": "Command factories produce the documented bytes", "statement": "Command.create_with_read_file_action, create_with_write_file_action, create_with_return_file_data_action, create_with_read_file_header, create_with_write_file_header and create_with_create_new_file serialize to tag request, the requested forward action (none for HOST), then the one requested action with exactly the given file id, offset, length and data.", "quantifier": "all file ids, offsets, lengths, data, interface types and configurations, all random tags", "why_tests_cant": "All argument values.", "anchors": ["d7a/alp/command.py: Command.create_with_*", "d7a/alp/command.py: add_forward_action"]}
{"id": "C22", "title": "Tag of a generated command", "statement": "A command created without tag gets a tag in 0..255 and its serialization starts with a tag request carrying exactly the tag the modem later waits for; a command created with generate_tag_request_action=False serializes no tag request.", "quantifier": "all commands, all random draws", "why_tests_cant": "Random draw and all commands.", "anchors": ["d7a/alp/command.py: Command.__init__, __iter__", "modem/modem.py: execute_command"]}
{"id": "C23", "title": "Compressed time rounds up to the nearest representable value", "statement": "CT.compress(v) for 0 <= v <= 507904 returns the smallest representable time not below v, with the smallest exponent able to hold v; it is monotone, exact on representable values, returns None above 507904 and raises ValueError for negative v.", "quantifier": "all integers v", "why_tests_cant": "Half a million values times all competitors.", "anchors": ["d7a/types/ct.py: CT.compress, CT.decompress"]}
{"id": "C24", "title": "Compressed time rounding down is not optimal", "statement": "Expected: compress(v, ceil=False) returns the largest representable value not above v and is monotone. Actual: it is never above v and off by less than one unit of its exponent, but it is not the largest representable value and not monotone.", "quantifier": "all integers v", "why_tests_cant": "The failing region is a small set of values.", "anchors": ["d7a/types/ct.py: CT.compress"]}
{"id": "C25", "title": "CT byte round trip", "statement": "Every byte parses to a CT that serializes back to that byte, every valid CT (exponent 0..7, mantissa 0..31) survives serialize/parse, and its integer value is mant * 4^exp.", "quantifier": "all bytes, all CTs, all continuations", "why_tests_cant": "Exhaustive over CTs and all continuations.", "anchors": ["d7a/types/ct.py: CT"]}
{"id": "C26", "title": "Addressee round trip", "statement": "UID, VID and NOID addressees survive serialize/parse for every id, access class and nls method and occupy 10, 4 and 2 bytes; an addressee whose nls nibble is 8..15 is rejected.", "quantifier": "all addressees, all continuations", "why_tests_cant": "2^64 ids.", "anchors": ["d7a/d7anp/addressee.py: Addressee"]}
{"id": "C27", "title": "NBID addressees are decoded wrongly", "statement": "Expected: a number-of-bits/responders addressee survives serialize/parse. Actual: the received byte is compressed a second time, so it survives exactly if its compressed byte is 0..31 or 43, and is changed for all the other 223 values.", "quantifier": "all NBID addressees", "why_tests_cant": "Exact set of surviving values.", "anchors": ["d7a/d7anp/addressee.py: Addressee.parse"]}
{"id": "C28", "title": "D7ASP interface configuration round trip", "statement": "QoS survives serialize/parse for all defined response modes, retry modes and flags, and a configuration (QoS, dormant timeout, addressee) survives for every addressee that does.", "quantifier": "all QoS values, configurations, continuations", "why_tests_cant": "All combinations.", "anchors": ["d7a/sp/qos.py: QoS", "d7a/sp/configuration.py: Configuration"]}
{"id": "C29", "title": "D7ASP status round trip", "statement": "A D7ASP status survives serialize/parse for all field values with rx_level at most 127 and an addressee that survives (C26, C27); a received status whose rx_level byte is 128..255 is never accepted: it raises ValueError whenever the same bytes with a valid level would be read, and otherwise the error they would raise.", "quantifier": "all statuses, all byte strings", "why_tests_cant": "All field combinations.", "anchors": ["d7a/sp/status.py: Status"]}
{"id": "C30", "title": "Channel header and channel id binary round trip", "statement": "Every channel header and channel id survives serialize/parse; the parser rejects exactly the bytes whose band bits are 1, 5, 6 or 7; the RFU bit is ignored.", "quantifier": "all headers, indices 0..65535, all bytes and continuations", "why_tests_cant": "All bytes and continuations.", "anchors": ["d7a/phy/channel_header.py", "d7a/phy/channel_id.py"]}
{"id": "C31", "title": "Channel string round trip", "statement": "Expected: ChannelID.from_string(str(c)) gives c. Actual: it does exactly when the class is not LORA, the coding is not RFU, the band is not NOT_IMPL and the index is at most 999; LORA comes back as LO_RATE and larger indices are cut to their first three digits. from_string reads exactly the texts consisting of band, class letter, coding letter and three characters that are an integer for Python (blanks, sign, digits, blanks) and not negative, whatever follows; a text that ends too early raises IndexError, an unknown band, class or coding NotImplementedError, anything else ValueError.", "quantifier": "all channel ids, all texts", "why_tests_cant": "65536 indices times all headers.", "anchors": ["d7a/phy/channel_header.py: ChannelHeader.__str__, from_string", "d7a/phy/channel_id.py: ChannelID.__str__, from_string"]}
{"id": "C32", "title": "PHY and file-system structures round-trip", "statement": "Sub band, channel status identifier, sub profile, file permissions, file properties and file header survive serialize/parse with the documented bit layout, and their parsers reject exactly the reserved encodings.", "quantifier": "all field values, all continuations", "why_tests_cant": "All field values.", "anchors": ["d7a/phy/subband.py", "d7a/phy/channel_status_identifier.py", "d7a/dll/sub_profile.py", "d7a/fs/file_permissions.py", "d7a/fs/file_properties.py", "d7a/fs/file_header.py"]}
{"id": "C33", "title": "Access profile round trip", "statement": "An access profile survives serialize/parse exactly if it has 8 sub bands; with fewer sub bands the parser reads past its end.", "quantifier": "all access profiles, all continuations", "why_tests_cant": "All field values and list lengths.", "anchors": ["d7a/dll/access_profile.py: AccessProfile"]}
{"id": "C34", "title": "Query operand round trip", "statement": "A break query with an arithmetic comparison operand survives serialize/parse when its compare_length equals the number of compare bytes; the constructor does not enforce this, and operands with another query type or a mask always fail to parse.", "quantifier": "all query operands", "why_tests_cant": "All operands.", "anchors": ["d7a/alp/operands/query.py: QueryOperand, ArithQueryParams"]}
{"id": "C35", "title": "Foreground frame parsing", "statement": "ForegroundFrame.parse of a well-formed unicast/broadcast foreground frame recovers every field and the ALP command and consumes exactly length + 1 bytes; frames whose length or subnet byte is 128 or more are always rejected with ValueError.", "quantifier": "all well-formed frames, all continuations", "why_tests_cant": "All field values.", "anchors": ["d7a/dll/foreground_frame.py", "d7a/d7anp/frame.py", "d7a/d7atp/frame.py"]}
{"id": "C36", "title": "Serialization of DLL, network and transport frames", "statement": "Expected: bytearray(frame) gives the frame bytes. Actual: it raises for every foreground and every background frame. The parts are better: the control byte of a transport frame and those of foreground and background frames give their one byte (the network control raises); a transport frame without listen and execution delay timeouts gives its fields in order followed by the command, and raises if an acknowledgement is announced but none is given; a received one is written as it was read if it carries no time at all, loses a congestion timeout, and cannot be written with one of the other two.", "quantifier": "all frames and control fields", "why_tests_cant": "All frames.", "anchors": ["d7a/d7anp/control.py: Control.__iter__", "d7a/dll/background_frame.py: BackgroundFrame.__iter__"]}
{"id": "C37", "title": "DLL parser handles any input", "statement": "Each call of the DLL Parser.parse on any input delivers at most one frame and keeps the unparsed rest, or delivers none because the rest is incomplete, or raises with the buffer intact; repeated calls drain a buffer holding several frames, and once it has raised on a frame it raises on every later call (presuming that reading a flag at the end of the data counts as a ReadError of the bitstring library; otherwise a call can raise on an incomplete frame that a later call delivers).", "quantifier": "all byte streams and chunkings", "why_tests_cant": "All streams.", "anchors": ["d7a/dll/parser.py: Parser"]}
{"id": "C38", "title": "System file round trips", "statement": "UID, VID, DLL configuration, DLL status and engineering mode files survive serialize/parse for all valid contents and serialize to exactly their declared file length.", "quantifier": "all file contents", "why_tests_cant": "All field values.", "anchors": ["d7a/system_files/uid.py", "d7a/system_files/vid.py", "d7a/system_files/dll_config.py", "d7a/system_files/dll_status.py", "d7a/system_files/engineering_mode.py"]}
{"id": "C39", "title": "Firmware version file round trip", "statement": "The firmware version file always serializes to 17 bytes; it survives serialize/parse exactly if the application name has 6 and the git hash 7 characters, and otherwise comes back padded with blanks. Text that is not ASCII is refused with a UnicodeError, when read and when written.", "quantifier": "all names", "why_tests_cant": "All strings.", "anchors": ["d7a/system_files/firmware_version.py"]}
{"id": "C40", "title": "Factory settings file round trip fails", "statement": "Expected: factory settings survive serialize/parse. Actual: the RSSI smoothing factor is transformed once more on parsing, so no file survives unchanged, and a serialized stored value of 0 or 1 cannot be parsed at all; a negative gain or RSSI offset cannot be serialized although it is accepted.", "quantifier": "all factory settings", "why_tests_cant": "All field values.", "anchors": ["d7a/system_files/factory_settings.py"]}
{"id": "C41", "title": "Security key files", "statement": "A key file accepts exactly the keys 0..2^128 and raises ValueError for others. The security key file serializes its 128 bit key to 16 bytes, least significant byte first; the two authentication key files append 24 zero bytes. The value 2^128, one above the range, is accepted and silently serialized as zero. No key file content can ever be parsed.", "quantifier": "all keys, all file contents", "why_tests_cant": "2^128 keys.", "anchors": ["d7a/system_files/security_key.py", "d7a/support/schema.py: Types.BITS"]}
{"id": "C42", "title": "Physical status file state leaks between instances", "statement": "Expected: a PhyStatusFile built with default lists does not depend on earlier constructions. Actual: the constructor extends the shared default list and the caller's list in place with default channel entries (no band, 25 kHz, index 0) and zero noise: a file built with default lists holds as many entries as the longest one built before, and once a list has more than 255 entries no file can be built with the default any more. The serialized bytes are not affected.", "quantifier": "all construction histories", "why_tests_cant": "Histories.", "anchors": ["d7a/system_files/phy_status.py: PhyStatusFile.__init__"]}
{"id": "C43", "title": "Parsed content of returned system files", "statement": "A ReturnFileData action never raises while decoding system file content; whenever it exposes parsed content, that content is the parse of the returned data for the file with the given id, ignoring the offset.", "quantifier": "all returned file data operands", "why_tests_cant": "All ids, offsets, data.", "anchors": ["d7a/alp/operations/responses.py: ReturnFileData.try_parse_system_file", "d7a/system_files/system_files.py"]}
{"id": "C44", "title": "Every received message goes to exactly one place", "statement": "Each message of a known type handed to the modem's reader goes to exactly one of: result list of the running synchronous command, the unsolicited callback, the unsolicited list, the reboot callback/list or the log, and each destination receives its messages in arrival order; messages with a type above 5 are dropped.", "quantifier": "all message sequences, all modem states", "why_tests_cant": "All histories.", "anchors": ["modem/modem.py: Modem._read_async"]}
{"id": "C45", "title": "Synchronous execution returns only matching responses", "statement": "If the reader handles each message without interleaving with execute_command, execute_command returns either [] or a list of commands all carrying the command's own tag, in arrival order, of which one is completed; stale responses of an earlier command with a different tag are never returned.", "quantifier": "all message sequences and arrival times, all tags", "why_tests_cant": "All histories.", "anchors": ["modem/modem.py: Modem.execute_command, _read_async"]}
{"id": "C46", "title": "Race between reader and execute_command", "statement": "Expected: the property above holds under every thread schedule. Actual: a late response of a timed-out command can be appended to the result of the next command and mark it completed, because the reader's check and append are not atomic with the reset in execute_command.", "quantifier": "all interleavings of the two threads", "why_tests_cant": "Thread schedules.", "anchors": ["modem/modem.py: Modem.execute_command, _read_async"]}
{"id": "C47", "title": "Untagged responses are swallowed when no synchronous command has been issued", "statement": "Expected: while no synchronous command is running, every ALP message reaches the unsolicited callback. Actual: when the last command was asynchronous (or none was sent yet) an untagged message is taken for a response and never reaches callback nor list.", "quantifier": "all histories of commands and messages", "why_tests_cant": "All histories.", "anchors": ["modem/modem.py: Modem._read_async, execute_command"]}
{"id": "C48", "title": "Bridge mode publishes every ALP payload once and in order", "statement": "A connected modem in skip_alp_parsing mode with a callback, fed any sequence of well-formed ALP frames in any chunking, calls the callback exactly once per frame with the exact payload, in order.", "quantifier": "all frame sequences and chunkings", "why_tests_cant": "All sequences and chunkings.", "anchors": ["modem/modem.py: Modem._read_async", "tools/modem2mqtt.py", "d7a/serial_modem_interface/parser.py"]}
{"id": "C49", "title": "Accepted objects can be serialized", "statement": "Expected: an object whose constructor accepted its arguments can be serialized. This holds for CT, channel id, sub band, addressee, QoS, length, offset, data, data request, file header and the engineering mode file, and fails for the DLL configuration and factory settings files and the noise values of a PHY status file, whose schemas leave fields unchecked, for an access profile file without a profile, for an interface status without a status, and for DLL frames.", "quantifier": "all constructor arguments (integers)", "why_tests_cant": "All integers.", "anchors": ["d7a/support/schema.py: Validatable.validate", "d7a/system_files/dll_config.py", "d7a/system_files/factory_settings.py"]}
{"id": "C50", "title": "System file command factories", "statement": "The factories taking a system file object build a command that reads the declared length of, or writes the serialized content to, the file with that object's id at offset 0, for every system file whose id is an integer; for the placeholder entries of the system file table whose id is an enumeration member they raise ValueError; an object that cannot be serialized makes the write factory raise the same error. The entries of the table contain the documented default contents, byte for byte; writing an entry as it is writes exactly these bytes, except for the placeholders (ValueError) and the access profiles (TypeError, they contain no profile).", "quantifier": "all system file objects, all entries of the table", "why_tests_cant": "All contents of all system files.", "anchors": ["d7a/alp/command.py: Command.create_with_read_file_action_system_file, create_with_write_file_action_system_file", "d7a/system_files/system_files.py"]}
{"id": "C51", "title": "The loss counter depends on chunking", "statement": "Expected: error_counter counts discontinuities of the received frame counters. Actual: a frame whose message is incomplete is checked again each time parse is called, and its own counter then counts as a discontinuity: a message completed after n further calls is delivered once, without an error, and adds n to error_counter beside what the first check adds, so the same bytes give different error counts when received in different chunks. (If the bit library does not report a missing single bit as ReadError, a chunk that ends right before a single bit the ALP decoder reads makes parse report an error and give the frame up.)", "quantifier": "all frames with a message that runs over its frame, all chunkings of the rest, all receivers with an empty buffer", "why_tests_cant": "Depends on the timing of the serial port.", "anchors": ["d7a/serial_modem_interface/parser.py: parse_serial_interface_header"]}
{"id": "C52", "title": "Every byte is accounted for", "statement": "In the result of Parser.parse, parsed bits plus 8 times the sum of the skipped counts plus the bits left in the buffer are exactly the bits of the old buffer and the new input, and every reported error skipped at least one byte.", "quantifier": "all parser states and inputs for which the call returns", "why_tests_cant": "All byte streams.", "anchors": ["d7a/serial_modem_interface/parser.py: parse_buffer, parse_one_command_from_buffer, skip_bad_buffer_content"]}
{"id": "C53", "title": "Length bytes that do not count the CRC", "statement": "Expected: a foreground frame is parsed completely. Actual: the parser takes the CRC to be counted in the length byte; in a frame whose length byte leaves it out (like the frames of the library's own test) the ALP part is taken to be two bytes shorter, so the command is recovered when its last action is longer than two bytes, and a last action of exactly two bytes is silently dropped, reported as the CRC, and the real CRC is left in the buffer.", "quantifier": "all such frames, all commands", "why_tests_cant": "The library's test frames carry a single long action, which hides the loss.", "anchors": ["d7a/dll/foreground_frame.py: ForegroundFrame.parse", "d7a/dll/test/parser.py"]}
{"id": "C54", "title": "Result lists of synchronous commands", "statement": "Under every schedule of the reader and one application thread, every message of an ALP type is once in one result list, handed to the callback, among the unsolicited messages or still with the reader, all result lists in order of creation hold the responses in order of arrival, lists only grow at their end, and a list that a newer execute_command has replaced never changes again. Expected: a list returned by execute_command is final. Actual: it keeps growing with later responses to the same tag until the next command.", "quantifier": "all schedules of both threads, all messages, all list objects", "why_tests_cant": "Depends on the interleaving of two threads and on object identity.", "anchors": ["modem/modem.py: Modem.execute_command, _read_async"]}
{"id": "C55", "title": "Life of the reader thread", "statement": "The reader thread runs on exactly as long as the device raises no SerialException and no parse call raises. Expected: it reconnects after a SerialException. Actual: the reconnect method does not exist, so the thread ends; from then on nothing is ever delivered, all messages received before stay where they are, and every later execute_command returns an empty list. In skip_alp_parsing mode no received bytes can end the thread; otherwise one malformed frame can.", "quantifier": "all sequences of device events and commands", "why_tests_cant": "Needs arbitrary fault positions and everything that follows.", "anchors": ["modem/modem.py: Modem._read_async", "d7a/serial_modem_interface/parser.py: parse"]}
{"id": "C56", "title": "connect()", "statement": "connect() sends one frame asking for the UID and firmware version files and returns True exactly if both are known afterwards: from the last such file in the first response, or from an earlier attempt; without a completed response it returns False. A UID file without exactly 8 bytes or an unparsable firmware file raises, keeping what was learnt before it. With check_alive off or in skip_alp_parsing mode it returns True without waiting. For any traffic around the modem's answer and any chunking of the bytes, uid and firmware_version are those of the answer. Apart from the execution of its own command a call changes nothing else: set-up, kept messages, recorded callback calls and the reader. Expected: a repeated call also returns True. Actual: it returns None.", "quantifier": "all session states, tags, answers, surrounding traffic and chunkings", "why_tests_cant": "All byte streams and histories of earlier attempts.", "anchors": ["modem/modem.py: Modem.connect, execute_command, _read_async"]}
{"id": "C57", "title": "The CRC is CRC-16/CCITT-FALSE", "statement": "calculate_crc of a payload is the remainder of the payload polynomial, with the first 16 bits inverted and 16 zero bits appended, modulo x^16+x^12+x^5+1; it is the only 16 bit number with this property, a payload followed by its CRC has CRC 0, and the byte-wise table-driven computation gives the same value.", "quantifier": "all payloads of any length", "why_tests_cant": "A polynomial identity over all byte strings.", "anchors": ["d7a/serial_modem_interface/parser.py: build_serial_frame, parse_serial_interface_header", "d7a/support/Crc.py: calculate_crc"]}
{"id": "C58", "title": "Several threads sending through one modem", "statement": "Whatever the interleaving of threads calling execute_command_async on one Modem, the bytes on the wire are whole frames one after the other, each thread's commands appear exactly once and in its own order, exactly for the calls that returned, a receiver recovers exactly these commands from any chunking, and no interleaving blocks. If the calls do not overlap, whichever threads make them, the frames and counters are those of one thread, also at the wrap, and a receiver in step counts no loss. While the frame counter does not wrap only oversized or unserializable commands raise. Expected: frames carry different counters and legal commands never raise. Actual: two threads can send the same counter, and at the wrap a thread can read 256 and get ValueError for a legal command.", "quantifier": "any number of threads, any programs, all interleavings at the level of single attribute accesses and single bytes", "why_tests_cant": "The races need particular interleavings.", "anchors": ["modem/modem.py: Modem.execute_command_async, execute_command", "d7a/serial_modem_interface/parser.py: build_serial_frame"]}
{"id": "C59", "title": "Writing a firmware image in pieces", "statement": "The OTA example sends the image in commands writing 239 bytes each to file 200. Whatever the device does in between, the bytes sent carry exactly those commands, a node carrying them out holds the first 239 bytes per command of the image and its old content behind; when the script ends without 'write failed' every command was confirmed by a response with its own tag and the node has the whole image; 'write failed' means that exactly the last command was not confirmed; on a line that damages frames each call sees what the damage leaves of its replies, so the first damaged confirmation ends the script with 'write failed' although the node was sent that piece, too; only images of more than 2^30-1 bytes raise.", "quantifier": "all images, tags, device behaviours and points of interruption", "why_tests_cant": "Images of any size, arbitrary faults at any point.", "anchors": ["examples/write_update.py", "modem/modem.py: Modem.execute_command", "d7a/alp/operands/file.py: Data"]}
{"id": "C60", "title": "Comparing objects", "statement": "Two valid lengths, file headers, file properties, file permissions or channel headers of the same class are equal exactly if they serialize to the same bytes; across classes only a length and an int of its value, and an int and a long of the same value, are equal; == is reflexive and symmetric. Expected: == is transitive and != is its negation. Actual: Length(5) == 5 and 5 == 5L but not Length(5) == 5L (without longs it is transitive), and a channel header compared with anything else is neither == nor !=, so != is not symmetric.", "quantifier": "all pairs and triples of objects of these classes, numbers and foreign objects", "why_tests_cant": "Relations over all triples of values.", "anchors": ["d7a/alp/operands/length.py: Length.__eq__, __ne__", "d7a/fs/file_header.py: FileHeader.__eq__", "d7a/fs/file_properties.py: FileProperties.__eq__", "d7a/fs/file_permissions.py: FilePermissions.__eq__", "d7a/phy/channel_header.py: ChannelHeader.__eq__, __ne__"]}
{"id": "C61", "title": "Polling for unsolicited responses and reboots", "statement": "Whatever the interleaving of the reader thread with get_unsolicited_responses_received / clear_unsolicited_responses_received (and the reboot pair), the list objects used, oldest first, hold every message exactly once in order of arrival, and a cleared list gets at most the one message that was being appended. Expected: an application that gets the list, goes through it and clears it sees every message. Actual: it sees none twice and none out of order, but loses those appended in between, unless the reader thread is idle then; getting, clearing and then going through the list loses at most one per round, and none if the reader gets done with its message before.", "quantifier": "all interleavings of single attribute accesses, any number of messages and polling rounds", "why_tests_cant": "Needs particular interleavings of two threads.", "anchors": ["modem/modem.py: Modem.get_unsolicited_responses_received, clear_unsolicited_responses_received, get_rebooted_received, clear_rebooted_received, _read_async"]}
{"id": "C62", "title": "A callback that raises", "statement": "If the unsolicited or rebooted callback raises for a message, everything up to and including that message is delivered as it would be otherwise, the remaining messages decoded with it are dropped, the reader thread ends and no later byte is ever read; while the thread lives no callback has raised, and callbacks that never raise change nothing.", "quantifier": "all byte streams, chunkings and callbacks, raising at any call depending on anything before", "why_tests_cant": "The point of the exception is arbitrary.", "anchors": ["modem/modem.py: Modem._read_async", "examples/engineering_mode.py: received_command_callback"]}
{"id": "C63", "title": "Constructors accept exactly the documented values", "statement": "For every class with a schema and any Python values at all, the constructor returns if and only if each value is of the kind its schema names (a whole number in the range, a boolean, a member of the enumeration, an instance of the class, a byte sequence, \u2026), an addressee moreover only if its identifier fits its identifier type. Values of a foreign type are refused except in thirty attributes, listed completely, in which any value is taken (mostly because the schema key is misspelled). Booleans pass for whole numbers and a 128 bit key may be 2^128.", "quantifier": "all classes and all attribute values, of any Python type", "why_tests_cant": "The values are unbounded in type and size, and that an attribute is never checked shows only when a wrong value is tried in it.", "anchors": ["d7a/support/schema.py: Validatable.validate, Types", "d7a/types/ct.py: CT.SCHEMA", "d7a/d7anp/addressee.py: Addressee.SCHEMA", "d7a/fs/file_permissions.py: FilePermissions.SCHEMA", "d7a/system_files/dll_config.py: DllConfigFile.SCHEMA"]}
{"id": "C64", "title": "as_dict exports everything, as plain data", "statement": "as_dict() of every command the constructor or the parser delivers, of every parsed DLL frame and of every implemented system file is a tree of plain data with no object or class left in it. Every value an access path finds in the object is found by the same path in the export, except classes, and the export holds nothing more but each object's class name. Two commands, two parsed frames or two system files with the same export are equal. In general only the first level of a list is converted: an object in a list within a list stays an object.", "quantifier": "all commands with any number of actions and any operands, all parsed frames, all files, all access paths", "why_tests_cant": "The objects are trees of unbounded size, and a lost attribute shows only when two objects differ in it alone.", "anchors": ["d7a/support/schema.py: Validatable.as_dict", "examples/minimal.py", "examples/partial.py", "d7a/dll/foreground_frame.py: Frame.__str__"]}
{"id": "C65", "title": "The tool for hexadecimal text shows what the bytes contain", "statement": "parse_hexstring understands a text exactly when it is some bytes written with two digits each, in either case, with blanks anywhere and white space around; any other text ends it with TypeError. With type alp it shows the command a receiver of those bytes gets, for commands sent by this library and by a device; with type serial all the commands of a recording of frames in order; with type systemfile the file, if its identifier is one of the 23 that have a working parser. Expected: types fg and bg show the frame. Actual: they never show anything; a correct frame ends the tool with ValueError.", "quantifier": "all texts, all commands, recordings, files and frames", "why_tests_cant": "The texts and the recordings are unbounded; that two of the five types never work shows only when they are used.", "anchors": ["tools/parse_hexstring.py", "d7a/dll/parser.py: Parser.parse", "d7a/system_files/system_files.py: SystemFiles.files"]}
{"id": "C66", "title": "Printing a command, frame or file", "statement": "str() of every command delivered by the parser or the constructor, of every DLL frame and of every parsed system file returns a text and never raises; a PHY status file raises IndexError exactly when its lists are shorter than its length field. A command's text gives its tag, whether it is executing or completed (with or without error), one line per action in order and the interface status if there is one; an action's text is the name of its operation and the text of its operand, or the class and content of a recognised system file. Wherever a text has name=value fields, the value is that of the attribute the name stands for, and every attribute has such a field except a listed set. It is false for the LoRa settings of the factory settings file, whose spreading factor and bandwidth are printed under each other's name; the noise floor parameters of the DLL configuration, action flags and file permissions are not printed at all. DLL frames, QoS, sub profiles and the interface configurations (D7ASP, LoRaWAN ABP and OTAA) print the dict that as_dict exports. Queries, and files that have no class of their own, print as Python's default, class and address.", "quantifier": "all commands, frames and system files, all attribute values", "why_tests_cant": "the shapes of nested objects multiply; a swapped or missing argument of a format string shows only for particular values, and a missing attribute only in particular states", "anchors": ["d7a/alp/command.py:__str__", "d7a/alp/action.py:__str__", "d7a/alp/status_action.py:__str__", "d7a/alp/operations/operation.py:__str__", "d7a/sp/status.py:__str__", "d7a/system_files/factory_settings.py:__str__", "d7a/system_files/dll_config.py:__str__", "d7a/system_files/phy_status.py:__str__"]}
{"id": "C67", "title": "Building a command call by call", "statement": "Starting from any command, add_action, add_forward_action and add_indirect_forward_action each add exactly their action at the end and change nothing else; a configuration for the host or a file id outside 0..255 is refused with ValueError and leaves the command as it was, and a program may go on with it. The constructor given a list of plain actions does the same as adding them one by one. The bytes are those of the command followed by those of each call in order, and a receiver gets the command with exactly the added actions; an address given without overload never reaches the wire. Expected: this holds for every accepted call. Actual: overload without an address is accepted and sets the flag but sends no address, so the receiver takes the bytes of the next action for it, two different programs send the same bytes, and at the end of a command the receiver fails with ReadError; a tag action added to a command that sends its own tag makes every receiver refuse the command. get_d7asp_interface_status never fails on a received command and returns the status exactly when the message carries one for the D7 interface; on a command an application builds it likewise returns only a status of the D7 interface, even when one for another interface has a body.", "quantifier": "all commands, all sequences of calls with all arguments, all received messages, all constructor arguments", "why_tests_cant": "the sequences of calls are unbounded, and a dropped address or a misplaced action shows only in the bytes of particular sequences", "anchors": ["d7a/alp/command.py: Command.add_action", "d7a/alp/command.py: Command.add_forward_action", "d7a/alp/command.py: Command.add_indirect_forward_action", "d7a/alp/command.py: Command.get_d7asp_interface_status", "d7a/alp/parser.py: Parser.parse_indirect_forward_action"]}
{"id": "C68", "title": "Several threads waiting for answers through one modem", "statement": "Expected: any number of threads may call execute_command on one Modem, each gets the answers to its own command, and no call fails for reasons outside its command. This holds when the application serialises the calls (a call starts only when no other is in progress, and no message is being handled while a call sets up): then every call gives back an empty list, or a completed run of the answers to its own tag that arrived during it, and none raises. Actual, without serialising: a call can give back the list with another thread's answers, shared with that thread; it can raise AssertionError; it can time out although its answer arrived, because another thread sent something (even without waiting) and the answer went to the callback or the unsolicited messages; it can give back an empty list although its answer was collected. Under every schedule: whatever a call gives back arrived from the modem and is untagged or answers some thread's waiting command, every ALP message received is in exactly one place (one response list, the callback, the unsolicited messages, or in the reader's hands), and AssertionError occurs only if another thread also waits for an answer.", "quantifier": "all numbers of threads, all programs of calls with all tags, all arriving messages, all interleavings of the threads and the reader", "why_tests_cant": "the failures need particular interleavings of three threads, and the guarantees speak about all of them", "anchors": ["modem/modem.py: Modem.execute_command", "modem/modem.py: Modem.execute_command_async", "modem/modem.py: Modem._read_async"]}
{"id": "C69", "title": "Conversations end to end", "statement": "For any number of successive execute_command calls with a timeout on one open modem object, whatever the other side sends between them (replies with the tag, commands with other tags, reboot and log messages, in any order) and however the serial port cuts the bytes into pieces: every call returns exactly the commands carrying its tag that arrived before the next call, in order of arrival, if one of them has the end-of-packet flag, and the empty list otherwise; every other message reaches the callback (or the unsolicited, reboot or log list) once and in order; and a peer that reads the bytes written with the same parser obtains exactly the commands, in order, with no error and no lost frame counted. Replies that a peer builds with this library (a tag response appended with add_action, then other actions) are returned to the caller as built. A tag response passed to the Command constructor instead is never put on the wire.", "quantifier": "all lists of calls (commands within the sendable range, any positive timeout), all traffic, all chunkings in both directions, all reply contents", "why_tests_cant": "the claim composes builder, framing, CRC, parser, reader thread and tag matching over histories of unbounded length; unit tests exercise each piece on a few literals", "anchors": ["modem/modem.py: Modem.execute_command, Modem._read_async", "d7a/serial_modem_interface/parser.py: Parser.parse, Parser.build_serial_frame", "d7a/alp/command.py: Command.__init__, Command.add_action, Command.__iter__"]}
{"id": "C70", "title": "What the configuration programs send and do", "statement": "engineering_mode.py builds a command exactly if the channel text is valid, EIRP and timeout are in range and the factory options, when given, are within 0..3 and 0..65535; otherwise it raises ValueError (or the error of the channel text) before anything is sent. The bytes are a tag request, with -f a broadcast to neighbours, with a factory option a write of the factory settings, and a write of the engineering mode file; a node that carries them out has exactly the requested mode, channel, EIRP and timeout (255 for PER_TX without timeout) and no other file changed. Ctrl-C switches the mode off and leaves the other fields alone. The program sends the same command again until a call was confirmed without error and then stops. If answers are damaged on the line, it repeats the command exactly until the first call whose confirmation arrives intact, and its reader survives every damaged answer. change_access_profile.py writes the file of the chosen specifier with the channel, EIRP, bitmap and the shortest period that can be expressed and is not below the one asked for; write_factory_settings.py writes file 1 with the given settings. Actual deviations: the factory paramp option alone always raises, the gaussian option alone also sets paramp to 255 and resets every other factory setting; negative gains and RSSI offsets, allowed by the schema, raise; a message with the same tag but without tag response ends the engineering mode loop with AttributeError; interface_configuration.py raises before sending anything.", "quantifier": "all option values, all channel texts, all tags, all node file contents, all modem behaviour over any number of rounds", "why_tests_cant": "the options combine freely and the loop is unbounded; the failing option combinations and messages are rare", "anchors": ["examples/engineering_mode.py", "examples/change_access_profile.py", "examples/write_factory_settings.py", "examples/interface_configuration.py", "d7a/system_files/engineering_mode.py", "d7a/system_files/factory_settings.py", "d7a/dll/access_profile.py", "modem/modem.py:execute_command"]}
{"id": "C71", "title": "The verdict of the throughput test", "statement": "throughput_test.py sends, for a payload of at least one byte and a configuration whose message fits into one frame (at most 255 bytes), exactly as many copies of the message as asked for, each with the payload 0..n-1 returned from file 0x40 through the requested configuration, whatever the devices answer; a message of 256 bytes or more raises ValueError and sends nothing, a payload of more than 256 bytes raises ValueError when the command is built. The receiver counts exactly the commands with a D7 interface status. It says OK exactly if the number counted at the beginning of the last waiting turn equals the number sent and every command that has arrived by the end carries the payload; it ends with an exception exactly if a command without data arrived; a surplus at a count is never OK. If nothing arrives twice and nobody else sends, OK means that everything arrived. In general OK does not mean that (a duplicate hides a loss), NOK does not mean that anything is missing (the last turn is not counted), and OK does not mean that file data was returned (the type test is always true).", "quantifier": "all payload sizes, configurations, message counts, all device behaviour while sending, all histories of arrivals over any number of waiting turns", "why_tests_cant": "the verdict depends on when messages arrive relative to the counting; the failing schedules are races between the reader thread and the waiting loop", "anchors": ["examples/throughput_test.py:start_transmitting", "examples/throughput_test.py:wait_for_receiver", "examples/throughput_test.py:receiver_cmd_callback", "d7a/alp/command.py:create_with_return_file_data_action", "modem/modem.py:execute_command"]}
{"id": "C72", "title": "The push notification, query, PHY status and LoRaWAN examples", "statement": "switch_to_push_notification.py as shipped never sends a command, for any temperature: a threshold outside 0..6553.5 degrees is a struct.error, every other one a ValueError, because DataRequest is given a Length object where it wants a number; the modem is left as it was. With the number in its place the program sends exactly one frame, with fully determined bytes, for every threshold v (in tenths of a degree) from 0 to 65535. On every node that carries the command out, file 0x41 then begins with an ALP command that the library parses back and that, for every content of the sensor file, returns its first two bytes exactly if their big-endian value is greater than v; file 0x42 begins with the D7ASP interface configuration (no response, access class 1, no id), which parses back; no other file content changes; the header written for file 0x40 parses back to 'action on write, command in 0x41, interface in 0x42'. The library itself cannot parse the command it sends (write file header). The report prints exactly the ids of the responses that do not report completion and stops with an AttributeError at the first of them without a D7 interface status. query_nodes.py sends one frame (all nodes respond, read 2 bytes of file 0x40) and logs every command with a tag up to and including the first completed one; commands without a tag are not seen, a message that is no command ends the reader thread. read_phy_status.py asks for 45 bytes of file 9. send_lorawan.py never sends anything: both configurations are called with keywords the classes do not have (TypeError); with the keywords they have the bytes are determined.", "quantifier": "all thresholds, tags, modem states, device behaviours, previous file contents of nodes, sensor values, response lists and message sequences", "why_tests_cant": "the examples need radio hardware and nodes and have no tests; whether the stored action compares as intended for every sensor value, and that no argument makes two of the programs work, is a statement over all values.", "anchors": ["examples/switch_to_push_notification.py", "examples/query_nodes.py:received_command_callback", "examples/read_phy_status.py", "examples/send_lorawan.py", "d7a/alp/operands/query.py:QueryOperand", "d7a/alp/operands/file.py:DataRequest", "d7a/alp/operands/length.py:Length", "d7a/alp/command.py:Command.get_d7asp_interface_status"]}
{"id": "C73", "title": "The MQTT bridge program", "statement": "The modem2mqtt program, at any moment of any interleaving of its main thread and the modem's reader thread and for any chunking of the byte stream, has handed to the MQTT client exactly the ALP payloads of the frames handled since its constructor finished (client and topic assigned), once each, in order and unchanged; ALP payloads handled between connect() and that point are lost with a logged error, those handled before connect() are put aside and never looked at. So not every message received after connect() is published; every one is if the constructor is done before the first byte arrives. No bytes whatsoever end the reading, and what is published always comes from frames found in the bytes; if the device fails, reading ends and nothing is published any more although the program keeps running. Reboot messages are neither published nor given to a callback: all of them, in order, end up in a list the program never looks at; messages of type logging go to the log. The program sends the device nothing but the one request of connect(). Its statistics are never reported, because nothing counts the messages. If the counting method were called for every message, each message would be in exactly one report or still waiting for one, and reports would be more than 15 seconds apart.", "quantifier": "every interleaving of the threads, every chunking, every sequence of frames and every byte stream, every random tag, every moment", "why_tests_cant": "the window between connect() and the assignment of the client is a race; a test sees one interleaving and one traffic", "anchors": ["tools/modem2mqtt.py: Modem2Mqtt.__init__, connect_to_mqtt, on_command_received, publish_to_mqtt, run, keep_stats, report_stats", "modem/modem.py: Modem.connect, _read_async"]}
{"id": "C74", "title": "Stopping and restarting the reader", "statement": "When stop_reading and start_reading of a modem are called in turns (the constructor starts the reader), then under every interleaving of the application, the reader threads and the device: there is never more than one reader; bytes are neither lost nor reordered nor handled twice, even when the reader is stopped in the middle of a frame, so the modem is as if it had been reading without a break, and every message of the traffic is delivered once nothing is left to do; after stop_reading has returned nothing is handled until start_reading is called, and while it is being stopped at most one more byte is; stop_reading returns after at most five steps of the program, whether or not anything arrives. Not so: after a device exception no restart makes the modem read again; and calling start_reading on a modem that is already reading creates a second reader, with which bytes change places and messages are lost, stop_reading can return although a reader goes on, or does not return until another byte arrives.", "quantifier": "every schedule of calls, reader threads, arriving bytes and device failures; every byte stream, every moment; both parser modes", "why_tests_cant": "the outcomes depend on where the reader is when stop_reading sets its flag and cancels the read; a test exercises a few of these moments", "anchors": ["modem/modem.py: Modem.__init__, start_reading, stop_reading, _read_async"]}
{"id": "C75", "title": "An operation can only be made with the operand it is for", "statement": "Calling the class of an ALP operation with one argument, or with none, makes the operation exactly when the argument is an object of the operand class of that operation (and, for the operation that has no operand, when there is none); the operation then carries the six bit code of its kind and the very object passed. In every other case - another operand's object, a number, a list, a missing operand, an operand too many - an exception is raised and there is no operation. Each of the operations has one class, two operations have the same code only if they are of the same class, and the code is found in the low six bits of the first byte of any action made of the operation, whatever its flags, followed by exactly the bytes of the operand.", "quantifier": "every operation of the library, every Python value passed as the operand, every action made of an operation", "why_tests_cant": "unit tests try one wrong operand with a class made up by the test, not each of the operation classes with each value", "anchors": ["d7a/alp/operations/operation.py: Operation.__init__", "d7a/alp/operations/nop.py: NoOperation", "d7a/alp/operations/requests.py", "d7a/alp/operations/responses.py", "d7a/alp/operations/write_operations.py", "d7a/alp/operations/break_query.py", "d7a/alp/operations/forward.py", "d7a/alp/operations/status.py", "d7a/alp/operations/tag_request.py", "d7a/alp/regular_action.py: __iter__"]}
{"id": "C76", "title": "Members of enumerations by number, by name and through JSON", "statement": "For every enumeration of the library, names and values determine each other: no member has two names. Constructing a member from a number succeeds exactly for the declared values and raises ValueError otherwise; looking it up by name succeeds exactly for the declared names and raises KeyError otherwise. A member written by the registered jsonpickle handler names its module, class and member, is read back as the same member, and two different members, also of different enumerations, are never written alike; a stored name that no member has is refused. The fields read from the wire use the same tables in both directions. The names mean what they say: every member that occurs on the wire has its documented name, and the id of every system file is named after the file. The list of all system files has every id with an entry in the table exactly once, in increasing order, whatever the order of the dict.", "quantifier": "every enumeration of the library, every member, every integer, every string as a name, every order of the dict", "why_tests_cant": "unit tests use single members; that no number is misread, no name is ambiguous and the restored member is the same one must hold for all of them", "anchors": ["d7a/support/serialization/enum_handler.py: EnumHandler.flatten, restore", "d7a/__init__.py: jsonpickle.handlers.register", "d7a/system_files/system_file_ids.py: SystemFileIds", "d7a/system_files/system_files.py: SystemFiles.get_all_system_files", "d7a/d7anp/addressee.py: IdType, NlsMethod", "d7a/alp/interface.py: InterfaceType", "d7a/sp/qos.py: ResponseMode, RetryMode"]}
{"id": "C77", "title": "How long execute_command waits", "statement": "Whatever the schedule of the threads and as long as the computer's clock is not set back, execute_command with a timeout returns the answers whenever a completed one was filed before the clock showed the end of the timeout, even if the waiting thread sleeps through that moment; all answers that have arrived by then are in the list. An empty list means that no completed answer was there although the clock showed that the time was over. The call returns within one sleep of 50 ms (and the delays of the computer) after the timeout, and within one sleep after the answer is complete; the number of looks is bounded by the timeout. A timeout of zero does not wait, a negative one looks once. Expected: this holds whatever happens to the clock. Actual: the timeout is measured with the wall clock, so a clock set back while the call waits makes it wait exactly as much longer, without bound, and a clock set forward makes it return an empty list although the answer arrives within the timeout.", "quantifier": "all timeouts, all clocks, all instants at which the threads run, all answers and their times of arrival", "why_tests_cant": "tests wait for real time on one machine with one schedule; they do not set the clock, and cannot try every instant of arrival around the end of the timeout", "anchors": ["modem/modem.py: Modem.execute_command"]}
{"id": "C78", "title": "Calling the modem from within one of its callbacks", "statement": "Callbacks run in the thread that reads the serial port, so a callback may call execute_command only with limits, and these are exact. A synchronous call made from a callback never returns a response: it returns the empty list (or raises, which happens only for commands that cannot be serialised or framed), and only when its full timeout is over, however early the response arrives; until then no message is handled. Nothing is lost by the waiting itself: the bytes that arrive meanwhile are handled afterwards, in order, and the final state, the bytes sent and the values returned do not depend on when they arrived: they are those of handling the bytes one by one with each such call returning the empty list at once. Each accepted command is sent as exactly one frame, in order. But the responses to a synchronous call made from a callback reach neither the call nor the callback nor the list of unsolicited responses. A callback that only uses execute_command_async (or a timeout of at most 0) and neither raises nor stops the reader loses nothing: every message, including the responses to its own commands, goes where it belongs in order. A callback that calls stop_reading ends the reader: no further byte is read. The reader never hangs for good.", "quantifier": "all callback programs that end (any sequence of calls of execute_command and stop_reading, depending on all earlier results and on the whole state of the modem, ending by return or by an exception), all bytes, all times at which bytes arrive and timeouts end, both kinds of bitstring version; delivery statements: all well-formed traffic", "why_tests_cant": "The outcome depends on where bytes arrive relative to the calls and on what a user callback does; unit tests cannot try all programs and schedules, and a response that vanishes leaves no trace to assert on.", "anchors": ["modem/modem.py: Modem.execute_command, Modem.execute_command_async, Modem._read_async, Modem.stop_reading"]}
{"id": "C79", "title": "Objects made with default arguments, or from the same objects, share their parts", "statement": "Building an object does not copy what it is built from, and a default argument is one object for the whole program. What follows from this is exact. Two commands are independent precisely when they have no object in common: whatever a program does to objects a command does not reach leaves the command, its value and what it sends as they are, and a change of a simple object (a QoS, a time, an addressee, a length, a list of bytes) is seen in a command if and only if the command reaches it. A command made by create_with_write_file_action, create_with_return_file_data_action or create_with_read_file_action has in common with the objects that existed before exactly: the caller's list of bytes, and the caller's configuration with its parts, or, for the D7ASP interface without a configuration, the default QoS, the default dormant timeout and the default addressee, which it shares with every other Configuration() of the program; nothing for the host and serial interfaces. Until someone changes it, the default is the documented one, and no call of the library itself changes an object other than the command it is called on. At any later time the command is what the factory would make of the values its arguments have then, except that the length in the operand, and the system file recognised in returned data, are those of the data at the time of the call: so after a change of the list the new bytes follow the old length on the wire, and a command made with an empty list sends no data whatever is put in the list later. A configuration read from the wire shares nothing. The expectation that two commands made without a configuration are independent is false: changing the response mode of one changes what the other, and every later one, sends.", "quantifier": "all programs (any sequence of constructor, factory, add_action, add_forward_action and parse calls and attribute assignments, on any objects), all arguments, all objects reached directly or through other objects", "why_tests_cant": "Unit tests build one command at a time and never modify it afterwards; sharing through default arguments shows only when an object made elsewhere in the program is modified, and only for particular histories.", "anchors": ["d7a/sp/configuration.py:45 Configuration", "d7a/alp/operands/file.py:40 Data, :71 DataRequest", "d7a/alp/operands/offset.py:39 Offset", "d7a/alp/command.py: Command.add_action, Command.add_forward_action, create_with_read_file_action, create_with_write_file_action, create_with_return_file_data_action", "d7a/alp/operations/responses.py: ReturnFileData"]}
{"id": "C80", "title": "Equal objects in lists, sets and dicts", "statement": "Expected: objects that compare equal are interchangeable in sets and as keys of dicts, as they are in lists. Actual: in a list an object is found by value, but lengths, file headers, file properties, file permissions and channel headers define == without a hash, so in a set or dict they are found only if it is the very same object: a set built from a list of them has one entry per object however many are equal, a dict gives what was last stored under the same object (or the same number) and nothing that was stored under an equal one. The only exception depends on memory: a length is found among ints of its value exactly if its address happens to have the hash of that int. On the other hand an object put in a set is found again after any change of its attributes.", "quantifier": "all lists, sets and dicts of objects of these classes, ints, longs and other objects, at all addresses a 64 bit CPython 2.7 can place them", "why_tests_cant": "The outcome depends on the identity and address of objects; a test that looks up the object it has just stored succeeds.", "anchors": ["d7a/alp/operands/length.py: Length.__eq__", "d7a/fs/file_header.py: FileHeader.__eq__", "d7a/fs/file_properties.py: FileProperties.__eq__", "d7a/fs/file_permissions.py: FilePermissions.__eq__", "d7a/phy/channel_header.py: ChannelHeader.__eq__", "d7a/support/schema.py: Validatable"]}
{"id": "C81", "title": "Application threads and callbacks may call the modem at the same time; only the last accepted command gets its responses", "statement": "execute_command may be called by any number of application threads and, at the same time, by the callbacks, which run in the reader thread. Whatever the schedule: a call that returns was accepted before (its frame was built and sent) and its caller did nothing else in between; the value it returns is exactly what was collected for the command accepted last before the return, by whomever: all messages of a response type with that command's tag that were handled since it was accepted, in order, if one of them says the execution is complete, and the empty list otherwise. So a call during which nobody else calls returns its own responses, all of them, and a call that overlaps with a later one returns responses of the later one or nothing. A call made by a callback never gets a response, whatever the threads do. A call raises only if no frame can be built for its command. One frame is sent per accepted call, in the order in which the calls were accepted, consecutively numbered. Two expectations are false: that a waiting call gets its complete response as long as callbacks only use execute_command_async (one such call in a callback makes the waiting call time out, and its response goes to the callback), and that a call returns only responses with its own tag.", "quantifier": "all numbers and programs of application threads (each call depending on what earlier calls returned), all callback programs, all byte streams from the modem, all schedules of threads, reader and clocks, all modes", "why_tests_cant": "the outcome depends on the interleaving of three kinds of activity and on when bytes arrive; a test sees single schedules, and a mix-up looks like a radio time-out", "anchors": ["modem/modem.py:Modem.execute_command", "modem/modem.py:Modem.execute_command_async", "modem/modem.py:Modem._read_async"]}
{"id": "C82", "title": "A damaged or truncated frame costs no later frame", "statement": "Whatever bytes are on the line before a sequence of intact frames (sync bytes and headers included, for instance the remains of frames that were hit or cut), the receiver delivers every one of the intact frames, in order and nothing else, for any division of the stream into calls, and ends with an empty buffer, provided that no complete frame with a right CRC starts inside the damage and that nothing that starts there is still unfinished. The second condition always holds once 261 bytes followed the damage; before that either all intact frames were delivered or all of them are still in the buffer, which then holds at most 261 bytes. In particular a frame without further 0xC0 bytes that was hit by an error the CRC always detects costs no later frame, and neither does one that lost its last byte or its last two bytes, unless the lost bytes are those every frame begins with: then the truncated frame is delivered with the sync byte of the next frame in their place, and the next frame is lost. The same holds when damage and intact frames alternate any number of times.", "quantifier": "every damage, every sequence of frames behind it, every division into calls, every receiver state", "why_tests_cant": "A test feeds one damaged frame; which byte sequences stall or mislead a receiver that looks for sync bytes inside damage, and for how long, depends on every byte of the damage and of what follows.", "anchors": ["d7a/serial_modem_interface/parser.py:Parser.parse", "d7a/serial_modem_interface/parser.py:Parser.parse_one_command_from_buffer", "d7a/serial_modem_interface/parser.py:Parser.skip_bad_buffer_content", "d7a/serial_modem_interface/parser.py:Parser.parse_serial_interface_header"]}
{"id": "C83", "title": "A device that fails while a command is written", "statement": "When writing to or flushing the serial device raises, execute_command raises, and it raises for no other reason than that or a command for which no frame can be built (in that case nothing at all changes). The failure changes nothing but the bytes on the line: for every history of calls, device data and connects, everything the application can observe of the modem object, then and later, is as if the device had never failed. The bytes on the line are the frames of all calls in order with consecutive counters, each of them whole or cut where the device failed, a call whose frame was lost entirely still using up its counter. The other end receives exactly the commands whose frames were taken in full, in order, if the cut frames are harmless in the sense of C82. An answer that arrives after the call raised is not handed over as unsolicited: it is kept for the call that is over. A connect that raised this way leaves the modem unconnected and the next connect asks again; without ALP parsing it leaves the modem connected although it raised, and later connects do nothing.", "quantifier": "every history of calls, connects and device data, every point at which each write fails, every receiver at the other end", "why_tests_cant": "A test device either works or fails at once; a failure after any number of bytes, followed by further calls and by the reaction of the peer's parser, is not set up in tests.", "anchors": ["modem/modem.py:Modem.execute_command", "modem/modem.py:Modem.connect", "d7a/serial_modem_interface/parser.py:Parser.build_serial_frame", "d7a/serial_modem_interface/parser.py:Parser.parse"]}
{"id": "C84", "title": "Both ends send and receive at the same time", "statement": "When two ends of a serial line each use one Parser object both to build frames and to parse incoming bytes, then whatever the order of sends and reads at the two ends and whatever the length of each read: no call of parse raises or reports an error, each end gets exactly the first messages of those the other end sent, in order and once, and the rest once the line is read empty. What an end sends never changes what it receives. The error counter of an end grows by one with the first frame if the counters were out of step before (always so for two new objects) and never after that; a command that cannot be sent has no effect.", "quantifier": "all pairs of parsers at rest, all interleavings of sends, refused sends and reads at the two ends, all read lengths, all commands", "why_tests_cant": "Interleavings of two directions with arbitrary splits are unbounded.", "anchors": ["d7a/serial_modem_interface/parser.py: Parser.build_serial_frame, Parser.parse"]}
{"id": "C85", "title": "The program that logs pushed messages", "statement": "The example that logs unsolicited messages writes, for intact traffic cut in any way, one line per reboot, and one line with the text of the command per command that is completely received after connect() has returned true, in order of arrival, except commands that carry the tag connect() used. Commands received earlier are never logged. connect() returns true exactly when the first answer to its request contains UID and firmware version (both usable). Refuted: that the program logs what arrives whenever it is running; if the modem does not answer in time it goes on running and never logs a command. For any other bytes, too, the log has exactly one line per reboot and per command (if it can be printed) handed to the callbacks, in order; but bytes for which the parser raises end the logging for good, although the program goes on running.", "quantifier": "all intact traffic, all ways to cut it, all moments of the call of connect(), all tags", "why_tests_cant": "Traffic, chunking and timing are unbounded.", "anchors": ["examples/unsolicited_response_logger.py", "modem/modem.py: Modem.connect, _read_async"]}
{"id": "C86", "title": "The program that prints messages", "statement": "The example that generates messages prints, for each command, its description, the command as plain data and one line of lower-case hexadecimal text of a frame that carries exactly the bytes of the command. Given to the program that parses hexadecimal text, a printed line shows exactly that command. A command that cannot be serialised, or takes more than 255 bytes, leaves only its description, and the program stops. Its six built-in messages are all printed, with the stated bytes, whatever tags are drawn. When the printed frames are sent one after the other, in any chunks, every command arrives, but every frame after the first is counted as one that follows lost frames, because all of them carry the counter value 0 (so does the first, unless the receiver expects 0).", "quantifier": "all well-formed commands, all descriptions, all tags, all sequences of printed frames and all ways to cut them", "why_tests_cant": "The commands, tags and sequences of frames are unbounded.", "anchors": ["d7a/serial_modem_interface/examples/generate_messages.py: output_serial_frame", "d7a/serial_modem_interface/parser.py: Parser.build_serial_frame"]}
{"id": "C87", "title": "Answers that come after their call has given up", "statement": "In any sequence of synchronous calls on one modem object, with answers that may arrive during a later call than the one they answer: a call returns, in order of arrival and if one of them ends the execution, exactly the answers to those calls that had the same tag. So if every late answer belongs to a call with another tag (in particular if all tags differ), every call returns all answers to its own command that arrive in time and nothing else, and the late ones are handed over like unsolicited messages. Expected: a call never returns the answer to another command. Actual: tags are drawn at random from 256 values without regard to commands still unanswered; with equal tags the late answer to one command is returned as the answer to any other. While n different tags are open a new command takes one of them for exactly n of the 256 draws, and among 257 commands two have the same tag whatever is drawn.", "quantifier": "all sequences of calls, all answers and the calls they arrive in, all other traffic, all chunkings, all draws", "why_tests_cant": "The number of calls, delays, tags and contents of answers are unbounded, and a collision is rare.", "anchors": ["modem/modem.py: Modem.execute_command, _read_async", "d7a/alp/command.py: Command.__init__"]}
{"id": "C88", "title": "What an error report of the serial parser shows", "statement": "Every error that Parser.parse reports comes with the number of bytes given up and a text. The bytes given up are the first one of the buffer and what follows it up to the next 0xC0 (or the end); the text shows, in hexadecimal, exactly these bytes and everything behind them. The bytes given up and the bytes of the messages, in order, and the bytes kept for later, are together exactly the bytes received. The text of a report, given to tools/parse_hexstring.py --type serial, reproduces that error, the later errors and the later messages of the call. A call that raises returns no reports, also of errors it has found before. Not so for the log of a modem: there the text is always that of the one byte just read, also when a whole damaged frame is given up.", "quantifier": "all parser states, both modes, all inputs; all damaged frames without a further 0xC0", "why_tests_cant": "A test can look at the report of one corrupted frame; that reports account for every byte and can be replayed must hold for every stream and buffer state.", "anchors": ["d7a/serial_modem_interface/parser.py:Parser.parse_one_command_from_buffer", "d7a/serial_modem_interface/parser.py:Parser.skip_bad_buffer_content", "modem/modem.py:Modem._read_async", "tools/parse_hexstring.py"]}
{"id": "C89", "title": "How much the receiver does for the bytes it receives", "statement": "However a byte stream is cut into chunks, Parser.parse makes at most one attempt to read a message per byte received plus one per call, and an attempt computes the CRC of at most 255 bytes. With skip_alp_parsing, and chunks of at most k bytes, an attempt copies at most 261 + k bytes and its error text has at most three characters for each of them, so the work is linear in the number of bytes. Not so for long chunks: one call with n bytes 0xC0 copies n(n+1)/2 bytes and returns (3n^2+n-4)/2 characters of error texts. Not so with ALP parsing either, even when bytes come one by one: behind one frame of 14 bytes, n further bytes cost n(n+29)/2 copied bytes, while nothing is delivered or reported.", "quantifier": "all byte streams, all chunkings, all parser states; the two quadratic cases for every n (below 2^30 in the second)", "why_tests_cant": "Cost bounds are statements about all streams and lengths; a timing test of a few streams neither gives the bound nor finds the streams that exceed it.", "anchors": ["d7a/serial_modem_interface/parser.py:Parser.parse", "d7a/serial_modem_interface/parser.py:Parser.parse_buffer", "d7a/serial_modem_interface/parser.py:Parser.parse_one_command_from_buffer"]}
{"id": "C90", "title": "What describe_actions says", "statement": "describe_actions() of every command the parser delivers, and of every command built by the constructor, returns; the result is the texts of the actions (str of each), in order, separated by a comma and a blank. Only commas and blanks at the very end can be missing, and they are missing exactly if the last action returns a firmware version whose git hash ends in a comma or blank - which is how the library itself writes a hash shorter than seven characters; so in that case the description is not the complete list of the texts.", "quantifier": "all commands, all numbers of actions, every way of writing numbers, lists and dicts that does not begin or end with a comma or blank", "why_tests_cant": "the texts depend on the content of every field and every system file; the missing characters need a particular content in the last action", "anchors": ["d7a/alp/command.py:Command.describe_actions", "d7a/alp/action.py:Action.__str__", "d7a/system_files/firmware_version.py:FirmwareVersionFile.__str__"]}
{"id": "C91", "title": "Frames written into the content of a message", "statement": "Expected: the content of a message is never taken for a message. A command that returns file content contains the content byte for byte, so whoever writes the file can put complete frames into it. If the frame around them arrives as it was sent, only the message around them is delivered, whatever the content. But if one byte in front of them is changed (sync, version, a CRC byte or a payload byte), or the receiver starts in the middle of the frame before them, and no other 0xC0 is in that part, the message around them is dropped and exactly the messages written into the content are delivered, as if they had been sent, followed by all later ones; without such frames in the content only the later ones are. A modem waiting for an answer returns such a message, if it carries the tag and ends the execution, as the answer to its command, and hands the others to the callback.", "quantifier": "all contents up to 250 bytes, all frames in them, all single damaged bytes outside counter, type and length, all points to start at, all later traffic, all chunkings, all commands waited for", "why_tests_cant": "The content, the damage and the moment are arbitrary; a test sees nothing wrong with any undamaged frame.", "anchors": ["d7a/serial_modem_interface/parser.py: Parser.parse, parse_one_command_from_buffer, skip_bad_buffer_content", "d7a/alp/operands/file.py: Data.__iter__", "modem/modem.py: Modem.execute_command, _read_async"]}
{"id": "C92", "title": "What the CRC of a frame cannot tell", "statement": "Expected: content that arrives is the content that was sent. The CRC does not give this: whatever surrounds them, for any two neighbouring bytes exactly one choice gives any wanted CRC. Of all contents of a length of at least two bytes exactly one in 65536 has a given CRC, so in place of a payload of n+2 bytes exactly 256^n - 1 wrong ones have the header of its frame, and each of them is delivered without an error. In a command that returns file content all but the last two bytes of the content may be replaced by anything: with exactly one choice of the two the frame header still fits, and the receiver delivers the command with the other content. Two contents of one length have the same CRC exactly if their difference is a multiple of the generator polynomial; so in every payload of at least three bytes four bits within 17, starting at any bit, can be flipped unnoticed, while one to three never can (C06).", "quantifier": "all payloads of at least two bytes, all replacements of the same length, all file contents of 2 to 250 bytes", "why_tests_cant": "The number of contents is astronomical; it takes a counting argument.", "anchors": ["d7a/serial_modem_interface/parser.py: Parser.parse_one_command_from_buffer", "d7a/support/Crc.py: calculate_crc"]}
{"id": "C93", "title": "Making a command from a list of actions", "statement": "Command(actions, generate_tag_request_action, tag_id, ...) succeeds exactly if the list has no None, at most one interface status, and no tag action when a tag id is given or else at most one, which carries a tag id. Otherwise the first action that does not fit decides: ParseError for a second tag or interface status, AttributeError for a tag action without a tag id; ValueError if only a None is wrong. The command then consists of the other actions in order, the interface status, and the tag and flags of the tag action wherever it stood in the list; a random tag is used only without any other and only if the command sends a tag request. On the wire the tag action is not where the list had it: it comes first, as a tag request, or, with generate_tag_request_action=False, not at all.", "quantifier": "all lists of actions with or without None, all flags, all tag ids, all random draws", "why_tests_cant": "All lists; the position, number and kind of special actions matter.", "anchors": ["d7a/alp/command.py: Command.__init__, Command.__iter__"]}
{"id": "C94", "title": "The bytes identify what was sent", "statement": "Two valid commands that serialize to the same bytes agree in everything that is sent: the actions, whether a tag request precedes them, and if so the tag and the respond-when-completed flag; and commands that agree in these have the same bytes. No action's bytes begin those of a different action, so bytes that begin with those of a list of actions are those actions followed by others. The bytes of several serial frames one after the other determine every counter, type and payload. The same holds of every structure that is read back from its own bytes.", "quantifier": "all pairs of well-formed commands, actions and structures, with anything following; all lists of frames", "why_tests_cant": "A collision is a pair of values among all pairs; tests compare a few values with literals.", "anchors": ["d7a/alp/command.py: Command.__iter__", "d7a/alp/regular_action.py: RegularAction", "d7a/serial_modem_interface/parser.py: Parser.build_serial_frame"]}
{"id": "C95", "title": "The text of an error entry tells its cause", "statement": "Each error entry the serial parser returns has one of four causes, and its text and position say which and with which values: at bit 8 the first byte is not 0xC0 (and the text gives it), at bit 16 the version is not 0 (and the text gives it), at bit 56 the CRC is wrong (the text gives the two bytes received and the two computed of the payload announced); every other entry is about the payload of a complete frame whose CRC is right, which the ALP parser refused, and there are none of these in skip mode. Conversely whatever of the first three is wrong is what the entry says; two different findings never have the same text. After every call the parser keeps either nothing or bytes that begin with 0xC0, so a missing 0xC0 is reported only for the byte directly after a message or for the first byte received while nothing was kept; a call reports at most one more of them than it returns messages. The modem replaces only the buffer text, its log keeps cause and position.", "quantifier": "all parser states with a buffer of bytes, all byte sequences and splits into calls, both modes", "why_tests_cant": "A unit test triggers one error of each kind; that the entry always names the true cause, for every garbage, split and retry after an earlier error, is about all byte sequences.", "anchors": ["d7a/serial_modem_interface/parser.py:Parser.parse_one_command_from_buffer", "d7a/serial_modem_interface/parser.py:Parser.parse_serial_interface_header", "modem/modem.py:Modem._read_async"]}
{"id": "C96", "title": "Values changed after an object was made", "statement": "Values are checked by constructors only, so an attribute set afterwards may be out of range when the object is sent. Expected: serialization then raises. This holds for lengths, offsets, data requests, file ids, tags, file headers, queries, the LoRaWAN configurations, channel ids, sub bands and the UID, VID, DLL configuration, DLL status and engineering mode files: what they serialize to is always within the ranges, nothing is cut off. It fails for four: a compressed time goes out whenever 32 * exp + mant is a byte and is read back as another time unless both are in range; a VID addressee sends the low 16 bits of any id below 2^64, so it addresses another node (a UID addressee does not); a channel index goes out modulo 2048; and data that was replaced keeps the length of the old, so the reader takes that many bytes out of the new data and the actions behind it, or fails for lack of bytes, and data filled in after being made empty is not sent at all.", "quantifier": "all integer values of all attributes, all byte strings as data, all bytes that follow", "why_tests_cant": "A unit test constructs objects and sends them; what an assignment between the two does depends on the value and, for data, on all the bytes that follow.", "anchors": ["d7a/types/ct.py: CT.__iter__", "d7a/d7anp/addressee.py: Addressee.__iter__", "d7a/phy/channel_status_identifier.py: ChannelStatusIdentifier.__iter__", "d7a/alp/operands/file.py: Data.__iter__", "d7a/alp/operands/length.py: Length.__iter__"]}
{"id": "C97", "title": "A late response stops the example programs from hearing anything", "statement": "write_update and engineering_mode pass a callback that calls sys.exit when a completed command arrives that is not the answer waited for. It runs in the reader thread and ends that thread only. Expected: a response that comes late, for instance the confirmation of an earlier write after its ten seconds, does no harm. Refuted: from then on nothing the device sends is noticed, neither confirmations nor reboots; write_update reports its next write as failed even if the confirmation follows right behind, and engineering_mode sends its command again for ever. This happens exactly when something arrives that completes another command; otherwise the programs behave as with a callback that never raises. In every case write_update reports success only if the node has confirmed every piece and has the whole image.", "quantifier": "all images, tags, states of a connected modem, everything the device sends before and after, every division into reads, all callbacks for the last part", "why_tests_cant": "Needs a response to arrive late in a particular round of a running program; what is lost afterwards is unbounded.", "anchors": ["examples/write_update.py: received_command_callback", "examples/engineering_mode.py: received_command_callback", "modem/modem.py: Modem._read_async"]}
{"id": "C98", "title": "A message is delivered with its last byte", "statement": "While the device sends undamaged frames, each read makes available exactly the messages whose last byte it contains: never a message of which bytes are still missing, and no complete message is held back until later bytes arrive. What belongs to the next frame is kept, and nothing is reported as an error because a frame is incomplete. Accordingly, execute_command stops waiting with the last byte of the first reply that ends the execution of its command, not before, and the result at any moment is the one determined by the frames complete at that moment.", "quantifier": "all sequences of well formed frames, every point inside them at which reading may stand, every division into reads, the parser with and without skip_alp_parsing, all commands", "why_tests_cant": "Every cut point of every sequence of frames of every length would have to be tried.", "anchors": ["d7a/serial_modem_interface/parser.py: Parser.parse", "modem/modem.py: Modem._read_async", "modem/modem.py: Modem.execute_command"]}
{"id": "C99", "title": "Passing received commands on", "statement": "The actions of a received command can always be used to make a new command, which gets a tag of its own and none of the received status. If it can be written, the next node receives the new tag and the same actions in the same order, except that the device estimate of an NBID addressee in an indirect forward overload is compressed once more. The actions arrive exactly as they were if and only if none is a forward, none carries empty file data, and every such estimate is encoded by a byte up to 31 or by 43. This then holds for any number of hops. Estimates above that shrink at each hop and from the fourth hop on are all encoded by 43 (44 devices). A command containing a received forward action can be made, but writing it raises AttributeError.", "quantifier": "all commands the ALP parser can return, all tags, any number of nodes passing the command on", "why_tests_cant": "A chain of nodes of any length and every received command would have to be tried; single round trips do not show that the estimates drift.", "anchors": ["d7a/alp/command.py: Command.__init__", "d7a/alp/command.py: Command.__iter__", "d7a/alp/parser.py: Parser.parse", "d7a/d7anp/addressee.py: Addressee.parse", "d7a/types/ct.py: CT.compress"]}
{"id": "C100", "title": "Any number of reader threads", "statement": "However often and by whomever start_reading and stop_reading are called, also by callbacks running in a reader thread and by several threads at once: every byte taken from the port is handed to the parser exactly once, or is still held by a reader, and none is skipped. A byte is handed over at most as many places too early as there were further calls of start_reading, and that many are possible; with one further call a byte can come after any number of later ones. Without a further call, and whenever no two readers hold a byte at once, the order is kept. From stop_reading until the next start_reading every reader inside read() hands over at most one more byte. stop_reading called by the application returns only after the reader started last has ended (unless another is being started), so with one reader nothing is handed over after it has returned; with further readers this can happen after stop_reading has returned, once for each. No calls wait for each other for ever: if nothing goes on and a call has not returned, a reader is waiting for input, and as many bytes as there are readers in read() let every reader end and every call return. After an exception of the device nothing more is read by anyone. stop_reading called by a callback of the only reader does not wait for it, and no further byte is handed over.", "quantifier": "all numbers of application threads and calls, all interleavings at the granularity of one access to a shared attribute, all arrivals and device failures, callbacks of any duration that return or raise", "why_tests_cant": "The outcome depends on the interleaving of threads; tests run a few schedules and with one reader.", "anchors": ["modem/modem.py: Modem.start_reading", "modem/modem.py: Modem.stop_reading", "modem/modem.py: Modem._read_async"]}
{"id": "C101", "title": "Several threads inside one receiver", "statement": "When several threads call Parser.parse on the same Parser at the same time, then under every interleaving: a thread inside parse never waits for another; a call raises only IndexError, and only if a whole frame with the right CRC on which the ALP parser raises an assertion without text stood at the beginning of the receive buffer at some moment; and every message that a call returns is carried by a whole frame with the right CRC that stood at the beginning of a receive buffer at some moment. A call during which no other thread goes on gives exactly the result, the remaining bytes and the counters of a call made by a single thread, even if other threads are stopped in the middle of theirs; so calls made one after the other, by whatever threads, give what one thread making them would get. It is not true that a message is returned at most once: two threads can return the same message of one frame, also when every call is given one byte, as the modem's reader does. It is not true that none is lost: a frame given while another thread is shortening the buffer can disappear without any error being reported. A thread that is left alone from any moment on comes out of its call. As long as no thread comes upon a broken frame, all calls end under every schedule. In general it is not true that calls end: two threads skipping the same bytes can undo each other's work for ever, both going on again and again and neither returning; ten bytes given one at a time are enough.", "quantifier": "all numbers of threads, all calls with any bytes, all interleavings at the granularity of one access to the shared buffer, both behaviours of the bitstring library, both settings of skip_alp_parsing", "why_tests_cant": "The outcome depends on where the threads are interrupted; the unit tests use one thread.", "anchors": ["d7a/serial_modem_interface/parser.py: Parser.parse", "d7a/serial_modem_interface/parser.py: Parser.parse_one_command_from_buffer", "d7a/serial_modem_interface/parser.py: Parser.skip_bad_buffer_content", "d7a/serial_modem_interface/parser.py: Parser.shift_buffer"]}
{"id": "C102", "title": "Readers and receiver together", "statement": "While the application calls stop_reading and start_reading, under every schedule of the reader threads inside and outside Parser.parse: as long as there are never two reader threads at once, the bytes from the serial port are parsed in the order in which they came, none twice and none left out, and the results of parse are those of a single thread that parses them one by one, also across a stop and a restart in the middle of a frame. This is guaranteed if start_reading is called only when no reader runs and nobody is starting one, in particular if one thread of the application calls stop_reading and start_reading in turn; then the program also comes to rest after boundedly many steps when nothing arrives. When the program is at rest, a pending stop_reading or start_reading is waiting for a reader that waits for input. A reader whose call of parse raised parses nothing more and can only end, and from then on every reader, as long as there are never two at once, raises on the first byte it parses. With more than one reader every returned message is still carried by a whole frame with the right CRC that stood in the receive buffer, but one call of start_reading too many is enough for a frame to be returned as a message of another type than was sent, for a frame to be lost, for a message to be returned twice, and for stop_reading never to return although no reader is ever blocked and no more bytes arrive.", "quantifier": "all histories of calls of start_reading and stop_reading by any threads, all bytes, all interleavings at the granularity of one access to shared data, both behaviours of the bitstring library, both settings of skip_alp_parsing", "why_tests_cant": "It takes a serial port and particular interleavings of several threads; the unit tests use one thread and no port.", "anchors": ["modem/modem.py: Modem._read_async", "modem/modem.py: Modem.start_reading", "modem/modem.py: Modem.stop_reading", "d7a/serial_modem_interface/parser.py: Parser.parse"]}
{"id": "C103", "title": "Where and why a payload is refused", "statement": "When the payload of a frame with a right CRC is refused for its content, the entry in info[\"errors\"] says where and why. \"pos\" is the position, in bits from the beginning of the receive buffer, at which the decision falls: every buffer that agrees up to there is refused in the same way with the same text, whatever follows, and one that ends earlier is not refused but awaited; there is only one such position. If \"error\" is a text it is true of the bytes in front of \"pos\": it names the number of the unknown operation, the reserved bit that is set, the interface without a status, the value and the class it does not belong to, at the place where the action carries it, or the kind of action that the command contains for the second time, and then both actions stand in front of \"pos\" and the command has been read whole. At a position only one text about an action is true. \"error\" is no text for exactly two causes: an interface status with a level of 128 or more, and a status of an action. Assertions without a text leave parse instead (C10), and missing bits wait, up to the library's behaviour at the end of the stream.", "quantifier": "all bytes received in all pieces, all payloads, all following bytes, both behaviours of the bitstring library", "why_tests_cant": "The unit tests provoke few errors and look at no text or position of the ALP parser; that the position does not depend on what follows concerns all continuations.", "anchors": ["d7a/serial_modem_interface/parser.py: Parser.parse_one_message", "d7a/alp/parser.py: Parser.parse", "d7a/alp/parser.py: Parser.parse_alp_action", "d7a/alp/command.py: Command.__init__"]}
{"id": "C104", "title": "What the readers do with the messages", "statement": "However often and by whomever start_reading and stop_reading are called, also by callbacks, every reader thread handles the messages that Parser.parse returned to it once each and in that order. A message that has not been handled is still waiting in the loop of a running reader, or its reader has ended because an exception left the handling of another message; otherwise none is forgotten. As long as there are never two readers at once, the messages handled are exactly those that a single thread finds in the bytes, in that order, none twice and, unless a callback raised, none left out. This holds if one thread of the application calls stop_reading and start_reading in turn, and then, when stop_reading has returned, every message in the bytes read so far has been handled, and none is handled before the next start_reading. In this case the threads also come to rest after finitely many steps unless bytes arrive or calls are made, and if a reader is then still running, every message in the bytes that arrived has been handled, unless a callback raised. Whoever stopped the readers, when none runs and none is being started nothing is handled. With any calls, a message that is never handled waits for a callback of its reader that is in a call of stop_reading or start_reading which does not return. It is not true with one call of start_reading too many: messages can be handled in another order than their frames came, and after stop_reading has returned. It is not true that an exception of a callback affects one message only: two messages can be returned by one call of parse although every call is given one byte (whole frames inside a broken one), and the second disappears. Nor is it true that with any calls every message is handled in the end: a callback that calls stop_reading while the application calls start_reading can hang, and the next message of its reader is not handled.", "quantifier": "all bytes arriving at any time, all schedules of any number of reader and application threads inside and outside parse, all calls of start_reading and stop_reading, all exceptions of callbacks", "why_tests_cant": "The unit tests start no reader thread; the order depends on how the threads interleave with parse, with callbacks and with stop and start.", "anchors": ["modem/modem.py: Modem._read_async", "modem/modem.py: Modem.start_reading", "modem/modem.py: Modem.stop_reading", "d7a/serial_modem_interface/parser.py: Parser.parse"]}
{"id": "C105", "title": "Several readers and execute_command", "statement": "However many reader threads handle messages (every start_reading adds one) and however many application threads call execute_command, under every schedule: every ALP message that a reader takes is in exactly one place (one list of responses, the callback, the unsolicited messages, or that reader's hands); what a call gives back was received and is untagged or answers some thread's waiting command; a call raises AssertionError only if another thread also waits for an answer. If the application serialises its calls, and no message is being handled while a call sets up, every call gives back an empty list, or answers to its own command that were received during the call, none twice, one of them saying that the execution is complete. With one reader these are all answers received before that one, in order. With two readers this is not true: an answer received before the completing one can be missing in the list when the call returns and be appended to it afterwards, and the answers can be in another order than they were received.", "quantifier": "all numbers of reader threads and calling threads, all programs of calls with all tags, all messages, all interleavings of readers and calls", "why_tests_cant": "The unit tests start no reader thread and call execute_command nowhere; which answers are in the list depends on the interleaving.", "anchors": ["modem/modem.py: Modem._read_async", "modem/modem.py: Modem.execute_command", "modem/modem.py: Modem.start_reading"]}
{"id": "C106", "title": "Counters of a Parser used by several threads", "statement": "When several threads are inside Parser.parse of one Parser, each load and store of down_counter and error_counter being a step of its own: a thread that counts its frame undisturbed has exactly the effect of parse in one thread, and so have threads that take turns; every thread that has begun to count a frame can finish whatever the others do; whenever no thread is counting a frame, down_counter is 0..255; error_counter is never below its first value nor above it by more than the number of frames counted; and after any interleaving, successive frames counted one after the other add at most one error. What the calls of parse return or raise, and the bytes left in the buffer, do not depend on the counters, in whatever way these change meanwhile. Expected but not true with two threads: that frames received without loss add no error, that every frame out of step is counted, that error_counter never decreases, and that down_counter is always 0..255 (while threads are counting it can become arbitrarily large).", "quantifier": "all counters at the start (down_counter 0..255), all numbers of threads, all sequences of frame counters 0..255, all interleavings of the single loads and stores", "why_tests_cant": "The unit tests use a Parser from one thread only; lost updates appear only in some interleavings of single accesses.", "anchors": ["serial_modem_interface/parser.py: Parser.parse_serial_interface_header", "serial_modem_interface/parser.py: Parser.parse"]}
{"id": "C107", "title": "What the loss counter counts", "statement": "For any bytes: after a call of Parser.parse, also one that raises, error_counter has grown by the number of headers the parser looked at (sync bytes, and as many bytes as announced) whose counter does not follow the one before, whether or not the CRC was right, and down_counter is the last of them. In chunks (with a bit library that reports a missing single bit as ReadError, or with skip_alp_parsing), down_counter is the same as after one call with all bytes, and error_counter is larger by exactly the number of times a frame with an incomplete message was looked at again; one call counts least. If good frames and frames with a wrong CRC arrive in any order and in any chunks, the good ones are delivered, each damaged one is reported once, and both count. Expected but not true: that a message lost to transmission errors is counted (frames sent in sequence of which some arrive with a wrong CRC add nothing), and that nothing is counted when nothing is lost (bytes that look like a damaged frame before frames in sequence add one or two).", "quantifier": "all receivers (buffer of bytes, down_counter 0..255), all byte sequences, both modes, all chunkings, all sequences of good and damaged frames (no 0xC0 inside the damaged ones)", "why_tests_cant": "The unit tests look at the counters for single undamaged frames; what garbage and damage do to them depends on all byte sequences.", "anchors": ["serial_modem_interface/parser.py: Parser.parse_serial_interface_header", "serial_modem_interface/parser.py: Parser.parse_one_command_from_buffer"]}
{"id": "C108", "title": "The modem on a line that damages frames", "statement": "If good frames and frames with a wrong CRC arrive in any order and in any chunks, then after any prefix of the bytes the parser has returned exactly the messages of the good frames that are complete and reported exactly the damaged ones that are complete, and keeps the bytes of the next frame. The modem's reader survives every damaged frame and at any time has handled exactly the good messages whose last byte was read; its state is that after the good frames alone. execute_command is answered exactly by the last byte of the first good reply that ends the execution; a final reply that arrives damaged is none: the call waits until the timeout and returns an empty list, also if earlier replies were good. In a conversation of any number of calls each returns what the damage left of its replies, and every other good message goes to its callback or queue. connect() ends exactly as it would if only the good frames had been sent; if its answer was damaged it returns false and the modem is not connected. It may be called again any number of times: the first call whose answer arrives intact returns true and knows UID and firmware version. If the commands are damaged on their way as well, a parser at the other end gets exactly the undamaged ones, in order, reports each of the others once, and counts no lost frame.", "quantifier": "all modems in use, all well-formed commands of at most 255 bytes, all sequences of good and damaged frames (no 0xC0 inside the damaged ones), all chunkings, all prefixes, all conversations", "why_tests_cant": "The modem's tests mock the parser; which of the messages around a damaged frame reach the caller, and when, depends on all sequences and all chunk boundaries.", "anchors": ["serial_modem_interface/parser.py: Parser.parse", "modem/modem.py: Modem.execute_command", "modem/modem.py: Modem._read_async"]}
