{"id": "C01", "title": "Parsing never touches memory outside the input", "statement": "sml_file_parse(buffer, n) never reads outside the n given bytes, never dereferences NULL and never writes through a wild pointer, whatever the bytes are, as long as n <= 294912; and it leaves the bytes of its private copy unmodified.", "quantifier": "every byte sequence of length <= 294912 (9 * 32768) and both host byte orders", "why_tests_cant": "the number of byte strings is astronomically large; fuzzing only samples it", "anchors": ["sml/src/sml_file.c:sml_file_parse", "sml/src/sml_message.c:sml_message_parse", "sml/src/sml_shared.c", "sml/src/sml_number.c:sml_number_parse", "sml/src/sml_octet_string.c:sml_octet_string_parse", "sml/src/sml_list.c", "sml/src/sml_tree.c"]}
{"id": "C02", "title": "The size bound of C01 is sharp (message counter is a short)", "statement": "There is an input of 294912 bytes + 1 (32768 minimal 9-byte messages and a terminator) on which sml_file_parse performs a wild write because messages_len is a short; unrestricted memory safety of sml_file_parse is false.", "quantifier": "existence of an input; the run on it has 32768 iterations", "why_tests_cant": "no unit test feeds 32768 messages; the failing run is found only by reasoning about the counter's type", "anchors": ["sml/include/sml/sml_file.h:sml_file.messages_len", "sml/src/sml_file.c:sml_file_add_message"]}
{"id": "C03", "title": "Parsing terminates with a linear bound", "statement": "sml_file_parse terminates on every input; every declared element count, however large, leaves the number of steps at most linear in the number of input bytes, and the file holds at most (n-1)/9 messages.", "quantifier": "every byte sequence, every declared list length up to 2^31-1, every nesting depth", "why_tests_cant": "non-termination and blow-up are properties of infinitely many inputs", "anchors": ["sml/src/sml_file.c:sml_file_parse", "sml/src/sml_list.c:sml_sequence_parse", "sml/src/sml_list.c:sml_list_parse", "sml/src/sml_tree.c:sml_tree_parse", "sml/src/sml_tree.c:sml_tree_path_parse"]}
{"id": "C04", "title": "TL decoding is the SML type-length encoding", "statement": "For every well-formed TL field (a chain of bytes with the continuation bit, closed by one without) whose value fits an int, the reader returns the type of the first byte, and the encoded value minus the number of TL bytes (the value itself for lists), leaves the cursor right behind the field and raises no error; when the chain is not closed before the end of the buffer it raises an error.", "quantifier": "every TL field of every length and every following content", "why_tests_cant": "there are infinitely many chains and lengths", "anchors": ["sml/src/sml_shared.c:sml_buf_get_next_length", "sml/src/sml_shared.c:sml_buf_get_next_type"]}
{"id": "C05", "title": "Signed overflow while reading a TL length happens exactly for oversized TL values", "statement": "Reading a TL field executes undefined signed arithmetic only if the nibble value does not fit in an int; inputs without seven consecutive bytes that have the continuation bit set never trigger it; an 8-byte all-ones TL field does trigger it, so strict absence of undefined behaviour of sml_file_parse is false.", "quantifier": "every input buffer", "why_tests_cant": "needs all inputs; sanitizer runs only sample", "anchors": ["sml/src/sml_shared.c:sml_buf_get_next_length"]}
{"id": "C06", "title": "Error flag discipline of the parser", "statement": "During parsing the cursor never moves backwards and never passes the end, the error flag once raised stays raised, and when sml_file_parse stops early every message it returned had been parsed completely and without error.", "quantifier": "every input and every parse function reachable from sml_file_parse", "why_tests_cant": "an invariant over all executions", "anchors": ["sml/src/sml_shared.c:sml_buf_has_errors", "sml/src/sml_file.c:sml_file_parse"]}
{"id": "C07", "title": "No message is delivered without a matching checksum", "statement": "Every message returned by sml_file_parse carries a crc field equal to the CRC-16/X.25 (byte-swapped) or CRC-16/KERMIT checksum of exactly the message's own bytes, from its opening TL up to its crc field, in the input.", "quantifier": "every input, every message in the result", "why_tests_cant": "quantifies over all inputs and all messages in them", "anchors": ["sml/src/sml_message.c:sml_message_parse", "sml/src/sml_crc16.c"]}
{"id": "C08", "title": "A message with a wrong checksum is dropped alone", "statement": "If a message is syntactically complete but its checksum matches neither algorithm, exactly that message is missing from the result: the messages before and after it are returned unchanged and in order.", "quantifier": "every sequence of well-formed messages with any subset of corrupted checksums, any padding", "why_tests_cant": "all files and all corruption subsets", "anchors": ["sml/src/sml_message.c:sml_message_parse", "sml/src/sml_file.c:sml_file_parse"]}
{"id": "C09", "title": "More input never changes messages already recognised", "statement": "Appending bytes to an input leaves the list of messages sml_file_parse returned for the shorter input a prefix of the list for the longer one.", "quantifier": "every input and every continuation", "why_tests_cant": "pairs of inputs, infinitely many", "anchors": ["sml/src/sml_file.c:sml_file_parse", "sml/src/sml_message.c:sml_message_parse"]}
{"id": "C10", "title": "Integer fields decode to their two's-complement value on every host", "statement": "For an integer field of 1..n bytes read into an n-byte variable (n = 1,2,4,8) the variable holds the big-endian (two's complement, sign-extended, for signed; zero-extended for unsigned) value of the field, on little- and big-endian hosts alike; exactly the field's bytes are consumed. Every other field (another type, more bytes than the variable has, no valid length, or cut off by the end of the buffer) is refused with the error flag.", "quantifier": "all field widths, all byte values, both byte orders, all surrounding buffer contents", "why_tests_cant": "2^64 values times widths times hosts; the test suite runs on one host", "anchors": ["sml/src/sml_number.c:sml_number_parse", "sml/src/sml_number.c:sml_number_byte_swap"]}
{"id": "C11", "title": "A zero-length signed integer takes its value from the next field", "statement": "Reading an integer field with zero data bytes yields 0 or -1 depending on the byte that FOLLOWS the field, so 'the value of a field depends on that field only' is false.", "quantifier": "existence of two inputs that differ only after the field", "why_tests_cant": "the tests contain no zero-length integers", "anchors": ["sml/src/sml_number.c:sml_number_parse"]}
{"id": "C12", "title": "Integer write/read round trip", "statement": "Writing any number created by sml_{u,i}{8,16,32,64}_init and reading it back with the matching parse function returns the same number, on every host; both hosts produce the same bytes.", "quantifier": "all 64-bit numbers, all four sizes, signed and unsigned, both hosts", "why_tests_cant": "2^64 values", "anchors": ["sml/src/sml_number.c:sml_number_write", "sml/src/sml_number.c:sml_number_parse", "sml/src/sml_number.c:sml_number_init"]}
{"id": "C13", "title": "Values keep their numeric value in the smallest sufficient width", "statement": "sml_value_parse/sml_status_parse of an integer field with 1..8 data bytes with a one-byte TL field returns a value whose type field is (type | smallest power of two >= number of bytes) and whose memory holds exactly the field's numeric value. The same field with a TL field of more than one byte (e.g. e0 04) is rejected.", "quantifier": "all field contents and widths 1..8", "why_tests_cant": "2^64 values", "anchors": ["sml/src/sml_value.c:sml_value_parse", "sml/src/sml_status.c:sml_status_parse"]}
{"id": "C14", "title": "Integer fields of 9 to 14 bytes corrupt the value's type tag", "statement": "sml_value_parse accepts integer fields of 9..14 bytes without an error but returns a value whose type is no number type (0x70 or 0x50), which sml_value_write writes back as nothing at all (0x70) or as an integer field without data (0x50): the claim that every accepted value has a valid type is false.", "quantifier": "all such fields", "why_tests_cant": "no test uses more than 8 bytes", "anchors": ["sml/src/sml_value.c:sml_value_parse", "sml/src/sml_value.c:sml_value_write"]}
{"id": "C15", "title": "sml_value_to_double is exact up to 2^53 and correctly typed", "statement": "For every value whose type is one of the eight number types, the result is the numeric value of the variable, correctly rounded (half to even) and so exact whenever its magnitude is at most 2^53; for every other type it is 0.", "quantifier": "all values of all eight types", "why_tests_cant": "2^64 values", "anchors": ["sml/src/sml_value.c:sml_value_to_double"]}
{"id": "C16", "title": "TL write/read round trip: exactly which lengths survive", "statement": "A TL field written for a non-list type with payload length n (n < 2^28-1) into zeroed memory is read back with its type, and with the same length (otherwise as a negative length) if and only if n+1 is not within k below the power 16^(k+1) for k = 1..6, i.e. for all n except 254, 4093, 4094, 65532..65534, 1048571..1048574, 16777210..16777214 and 268435449..268435454.", "quantifier": "all lengths below 2^28-1 and all TL types", "why_tests_cant": "the failing lengths are isolated points that a sample misses", "anchors": ["sml/src/sml_shared.c:sml_buf_set_type_and_length", "sml/src/sml_shared.c:sml_buf_get_next_length"]}
{"id": "C17", "title": "List TL fields: element counts up to 15 survive, larger ones do not", "statement": "A list header written for n elements is read back as n elements iff n <= 15; for every n from 16 to 2^28-1 the written count differs from n.", "quantifier": "all element counts", "why_tests_cant": "tests write only short lists", "anchors": ["sml/src/sml_shared.c:sml_buf_set_type_and_length"]}
{"id": "C18", "title": "Octet string write/read round trip", "statement": "Every non-empty octet string whose length is not one of the lengths excluded in C16, written and followed by at least one more byte, is read back identically; an absent string is read back as absent, and so is a present but empty one.", "quantifier": "all byte strings", "why_tests_cant": "unbounded domain", "anchors": ["sml/src/sml_octet_string.c:sml_octet_string_write", "sml/src/sml_octet_string.c:sml_octet_string_parse"]}
{"id": "C19", "title": "An octet string that ends the buffer is rejected", "statement": "sml_octet_string_parse fails on every well-formed octet string that is the last thing in the buffer (off-by-one in the bounds check): 'every complete octet string is accepted' is false.", "quantifier": "all octet strings", "why_tests_cant": "tests always leave room behind the string", "anchors": ["sml/src/sml_octet_string.c:sml_octet_string_parse"]}
{"id": "C20", "title": "Octet string comparison decides equality", "statement": "sml_octet_string_cmp returns 0 iff both strings have the same bytes; sml_octet_string_cmp_with_hex returns 0 iff the string equals the decoded hex text; the latter dereferences NULL exactly when the hex text has odd length, and takes characters that are no hex digits as 0.", "quantifier": "all pairs of strings, all hex texts", "why_tests_cant": "unbounded domain", "anchors": ["sml/src/sml_octet_string.c:sml_octet_string_cmp", "sml/src/sml_octet_string.c:sml_octet_string_cmp_with_hex", "sml/src/sml_octet_string.c:sml_octet_string_init_from_hex"]}
{"id": "C21", "title": "Hex text conversion inverts hex printing", "statement": "sml_octet_string_init_from_hex of the hex digits (either letter case) of any byte string returns that string; sml_value_to_strhex in non-mixed mode prints exactly those lower-case digit pairs each followed by a blank, and its output including the terminator never exceeds the 3*len+1 bytes it allocates, in either mode.", "quantifier": "all byte strings, both modes", "why_tests_cant": "unbounded domain; the buffer bound is a for-all", "anchors": ["sml/src/sml_octet_string.c:sml_octet_string_init_from_hex", "sml/src/sml_value.c:sml_value_to_strhex"]}
{"id": "C22", "title": "The table-driven checksums are the published CRCs", "statement": "sml_crc16_calculate is CRC-16/X.25 (reflected polynomial 0x1021, init 0xffff, xorout 0xffff) with its two bytes swapped, sml_crc16kermit_calculate is CRC-16/KERMIT, for every message: both equal the bit-by-bit definition.", "quantifier": "all byte strings of all lengths", "why_tests_cant": "a wrong table entry only shows on inputs that hit it in the right state", "anchors": ["sml/src/sml_crc16.c"]}
{"id": "C23", "title": "Both checksums detect every burst of up to 16 bits and every odd number of flipped bits", "statement": "Two messages of equal length that differ only inside a window of 16 consecutive bits, or in an odd number of bits, have different checksums.", "quantifier": "all messages, all error patterns of the class", "why_tests_cant": "infinitely many messages and patterns", "anchors": ["sml/src/sml_crc16.c"]}
{"id": "C24", "title": "Accepting either checksum keeps odd errors detectable but loses the burst guarantee", "statement": "sml_message_parse accepts a message if either of the two checksums matches. No message it accepts turns into another one it accepts by flipping an odd number of bits of the message and the two bytes of its checksum (in particular a single one). But there is a message with a valid X.25 checksum and two bits, nine apart, whose flip yields a different message that is still accepted (through the KERMIT alternative): 'every burst of up to 16 bits is detected' is false.", "quantifier": "all pairs of messages that differ in an odd number of bits; existence of a message and two bits", "why_tests_cant": "the unit test flips one bit of one message", "anchors": ["sml/src/sml_message.c:sml_message_parse"]}
{"id": "C25", "title": "Message write/read round trip", "statement": "For each of the 14 message types, every message whose fields are within the limits named in C14 and C16..C18, whose value lists the DZG workaround leaves alone (C45) and that avoids the constructs of C26..C30, written with sml_message_write into a large enough zeroed buffer and read with sml_message_parse, is returned identically (including its crc field).", "quantifier": "all messages of all 14 types, all list/tree sizes and depths", "why_tests_cant": "unbounded domain of structures", "anchors": ["sml/src/sml_message.c:sml_message_write", "sml/src/sml_message.c:sml_message_parse", "sml/src/sml_open_request.c", "sml/src/sml_open_response.c", "sml/src/sml_close_request.c", "sml/src/sml_close_response.c", "sml/src/sml_get_list_request.c", "sml/src/sml_get_list_response.c", "sml/src/sml_get_profile_pack_request.c", "sml/src/sml_get_profile_pack_response.c", "sml/src/sml_get_profile_list_response.c", "sml/src/sml_get_proc_parameter_request.c", "sml/src/sml_get_proc_parameter_response.c", "sml/src/sml_set_proc_parameter_request.c", "sml/src/sml_attention_response.c"]}
{"id": "C26", "title": "GetProfilePack/GetProfileList requests with an object list never survive writing", "statement": "sml_get_profile_pack_request_write announces n objects but writes n-1 (the last one is never written), for every non-empty object list; reading the result back therefore never returns the request.", "quantifier": "all requests with a non-empty object list", "why_tests_cant": "no test writes such a request", "anchors": ["sml/src/sml_get_profile_pack_request.c:sml_get_profile_pack_request_write"]}
{"id": "C27", "title": "Tupel entries never survive writing", "statement": "sml_tupel_entry_write announces 24 instead of 23 elements, so sml_tupel_entry_parse rejects every tupel entry the library writes.", "quantifier": "all tupel entries", "why_tests_cant": "no test writes a tupel entry", "anchors": ["sml/src/sml_tree.c:sml_tupel_entry_write", "sml/src/sml_tree.c:sml_tupel_entry_parse"]}
{"id": "C28", "title": "Lists and sequences of 16 or more elements never survive writing", "statement": "Every value list (sml_list) with 16..255 entries written by sml_list_write is rejected or misread by sml_list_parse: it never returns the list that was written.", "quantifier": "all lists with at least 16 entries", "why_tests_cant": "tests write one-element lists", "anchors": ["sml/src/sml_list.c:sml_list_write", "sml/src/sml_list.c:sml_list_parse", "sml/src/sml_shared.c:sml_buf_set_type_and_length"]}
{"id": "C29", "title": "An empty tree path is written as nothing", "statement": "sml_tree_path_write writes no byte at all for a present but empty path (which sml_tree_path_parse does produce), so the element count of the enclosing message is wrong and the message does not survive a round trip.", "quantifier": "all messages with an empty path", "why_tests_cant": "no test writes an empty path", "anchors": ["sml/src/sml_tree.c:sml_tree_path_write"]}
{"id": "C30", "title": "Times in the three-element form do not survive rewriting, and time errors can go unreported", "statement": "sml_time_parse accepts a time given as a 3-element list but drops its value; writing such a time produces a field that sml_time_parse answers with NULL, without raising an error and without consuming the value.", "quantifier": "all such times", "why_tests_cant": "no test rewrites such a time", "anchors": ["sml/src/sml_time.c:sml_time_parse", "sml/src/sml_time.c:sml_time_write"]}
{"id": "C31", "title": "A message body may be NULL although the message was accepted", "statement": "There is an input for which sml_file_parse returns a message whose message_body is NULL (body with a skipped tag and a matching crc); sml_file_print and the example receiver dereference it.", "quantifier": "existence of an input", "why_tests_cant": "needs a crafted checksum", "anchors": ["sml/src/sml_message.c:sml_message_body_parse", "sml/src/sml_file.c:sml_file_print", "examples/sml_server.c:transport_receiver"]}
{"id": "C32", "title": "File write/read round trip", "statement": "Writing a file of round-trippable messages (C25) with sml_file_write and parsing the bytes with sml_file_parse returns the same messages in the same order, for any number of messages up to 32767.", "quantifier": "all message sequences", "why_tests_cant": "unbounded domain", "anchors": ["sml/src/sml_file.c:sml_file_write", "sml/src/sml_file.c:sml_file_parse"]}
{"id": "C33", "title": "Parsed messages are normal forms", "statement": "For every input, every message returned by sml_file_parse that has a body (C31), whose value lists the DZG workaround leaves alone (C45) and that avoids the constructs of C14, C16..C18 and C26..C30 is returned identically after being written and parsed again.", "quantifier": "every input", "why_tests_cant": "all inputs", "anchors": ["sml/src/sml_file.c", "sml/src/sml_message.c"]}
{"id": "C34", "title": "Writing overflows the buffer exactly when the encoding does not fit", "statement": "sml_message_write/sml_file_write write outside the buffer if and only if cursor + encoded size exceeds buffer_len (there is no bounds check); otherwise they write exactly the encoded bytes, move the cursor by their number and touch nothing else.", "quantifier": "all messages, all buffer sizes and cursor positions", "why_tests_cant": "all sizes", "anchors": ["sml/src/sml_file.c:sml_file_init", "sml/src/sml_file.c:sml_file_write", "sml/src/sml_shared.c:sml_buf_set_type_and_length"]}
{"id": "C35", "title": "Sending a parsed file overflows its buffer", "statement": "The buffer of a file obtained from sml_file_parse has exactly the size of the input; sml_transport_write on it overflows the heap block whenever re-encoding does not shrink the file by at least 16 bytes, in particular for every file written by the library itself; the documented use ('the file must be in the parsed format') is unsafe.", "quantifier": "all canonical files", "why_tests_cant": "heap overflow is silent in a plain test run", "anchors": ["sml/src/sml_transport.c:sml_transport_write", "sml/src/sml_file.c:sml_file_parse"]}
{"id": "C36", "title": "Reusing a write buffer needs zeroed memory", "statement": "The multi-byte TL writer ORs into the buffer: on zeroed memory it writes the intended field, but there is a buffer content for which the field it leaves behind is different, so sending changed messages twice through the same file buffer can corrupt lengths.", "quantifier": "all buffer contents", "why_tests_cant": "tests use fresh buffers", "anchors": ["sml/src/sml_shared.c:sml_buf_set_type_and_length", "sml/src/sml_transport.c:sml_transport_write"]}
{"id": "C37", "title": "sml_transport_read stays inside the caller's buffer and returns only complete frames", "statement": "For every input stream and every max_len >= 8, sml_transport_read writes at most max_len bytes; a non-zero result n satisfies 16 <= n < max_len, n divisible by 4, and the buffer starts with 1b1b1b1b01010101, has 1b1b1b1b1a at n-8, has no aligned escape sequence in between, and its n bytes are consecutive bytes of the stream.", "quantifier": "every byte stream, every max_len, every read schedule", "why_tests_cant": "all streams", "anchors": ["sml/src/sml_transport.c:sml_transport_read"]}
{"id": "C38", "title": "The result of reading does not depend on how the device delivers the bytes", "statement": "Two devices that deliver the same bytes, split into arbitrary chunks and with arbitrary EINTR/EAGAIN interruptions, make sml_transport_read and sml_transport_listen deliver the same frames.", "quantifier": "every split and every interruption schedule", "why_tests_cant": "exponentially many schedules", "anchors": ["sml/src/sml_transport.c:sml_read", "sml/src/sml_transport.c:sml_transport_read", "sml/src/sml_transport.c:sml_transport_listen"]}
{"id": "C39", "title": "A frame is found after noise that contains no escape byte", "statement": "After any noise without the byte 0x1b, the next well-formed frame shorter than max_len is returned unchanged, and the stream is left right behind it.", "quantifier": "all noise prefixes without 0x1b, all frames", "why_tests_cant": "infinitely many prefixes", "anchors": ["sml/src/sml_transport.c:sml_transport_read"]}
{"id": "C40", "title": "A frame directly preceded by an escape byte is missed", "statement": "The start-sequence scanner does not reconsider a mismatching byte: there is a stream that contains a complete frame (preceded by a single 0x1b) for which sml_transport_read does not return that frame. For j escape bytes in front of a frame the frame is found iff j is divisible by 5.", "quantifier": "existence of a stream", "why_tests_cant": "needs a special noise byte", "anchors": ["sml/src/sml_transport.c:sml_transport_read"]}
{"id": "C41", "title": "sml_transport_listen delivers every frame of a clean stream once and in order", "statement": "For a stream consisting of well-formed frames shorter than 8096 bytes, separated by noise without 0x1b, the receiver is called exactly once per frame, in order, with exactly the frame's bytes.", "quantifier": "all such streams, any number of frames, any schedule", "why_tests_cant": "all streams and schedules", "anchors": ["sml/src/sml_transport.c:sml_transport_listen"]}
{"id": "C42", "title": "One bad frame ends sml_transport_listen", "statement": "A frame that is too long or contains another escape sequence makes sml_transport_listen return although more frames follow ('endless loop' in the header is false).", "quantifier": "existence, and for every stream that starts with such a frame", "why_tests_cant": "tests have no streams", "anchors": ["sml/src/sml_transport.c:sml_transport_listen", "sml/src/sml_transport.c:sml_transport_read"]}
{"id": "C43", "title": "Transport write/read round trip", "statement": "What sml_transport_write sends for a file is a single frame which sml_transport_read returns unchanged and whose payload sml_file_parse turns into the same messages, provided no 4-byte-aligned 1b1b1b1b occurs in the payload; the transport CRC bytes it appends are the X.25 checksum of everything before them. Without the proviso it is false (payload is not escaped).", "quantifier": "all files of round-trippable messages", "why_tests_cant": "unbounded domain", "anchors": ["sml/src/sml_transport.c:sml_transport_write", "sml/src/sml_transport.c:sml_transport_read"]}
{"id": "C44", "title": "sml_transport_read does not check the transport checksum", "statement": "For every frame, changing its last two (checksum) bytes to any values changes nothing in whether it is delivered: frames with a wrong checksum are delivered.", "quantifier": "all frames and checksum bytes", "why_tests_cant": "for-all over corruptions", "anchors": ["sml/src/sml_transport.c:sml_transport_read"]}
{"id": "C45", "title": "The DZG workaround touches only the power entry of affected meters", "statement": "In a value list, an entry is returned with a changed type only if an earlier entry of the same list carried a serial number in the affected ranges and this entry is the object 1-0:16.7.0*255 with a 1..3 byte TL length nibble; without such a serial number in the list every entry is what the field parsers returned.", "quantifier": "all value lists", "why_tests_cant": "all lists and serial numbers", "anchors": ["sml/src/sml_list.c:detect_buggy_dzg_dvs74", "sml/src/sml_list.c:sml_list_entry_parse", "sml/src/sml_list.c:sml_list_parse"]}
{"id": "C46", "title": "The DZG workaround makes 1- and 2-byte values unsigned", "statement": "After an affected serial number, a power value sent in 1 or 2 data bytes is reported by sml_value_to_double as the unsigned big-endian value of these bytes.", "quantifier": "all serial numbers in the ranges and all data bytes", "why_tests_cant": "all combinations", "anchors": ["sml/src/sml_list.c:sml_list_entry_parse", "sml/src/sml_value.c:sml_value_to_double"]}
{"id": "C47", "title": "The DZG workaround can confuse an octet string with a number", "statement": "For an affected meter, a power object whose value is an octet string of 1 or 2 bytes is returned with a number type although its data is an octet string; freeing it leaks the string.", "quantifier": "existence and for all such lists", "why_tests_cant": "needs a special meter", "anchors": ["sml/src/sml_list.c:sml_list_entry_parse", "sml/src/sml_value.c:sml_value_free"]}
{"id": "C48", "title": "The example receiver does not crash on ordinary meter output", "statement": "transport_receiver of sml_server runs without invalid memory access on every frame whose messages all have a body and whose list entries all have an object name of at least 6 bytes and non-empty octet string values; each precondition is necessary (for each there is an input with a valid checksum that makes it access invalid memory).", "quantifier": "all frames", "why_tests_cant": "all frames", "anchors": ["examples/sml_server.c:transport_receiver"]}
{"id": "C49", "title": "The example receiver prints every boolean as true", "statement": "For every boolean value the receiver prints 'true', whatever the value is.", "quantifier": "all boolean entries", "why_tests_cant": "the printed text is not tested", "anchors": ["examples/sml_server.c:transport_receiver"]}
{"id": "C50", "title": "Unit lookup is exactly the table", "statement": "dlms_get_unit(c) is not NULL iff c is one of the listed codes, and dlms_get_unit(0) is NULL.", "quantifier": "all 256 codes", "why_tests_cant": "no test", "anchors": ["examples/unit.h:dlms_get_unit"]}
{"id": "C51", "title": "Parsing and freeing leaves no memory behind and frees nothing twice", "statement": "For every input, after sml_file_parse followed by sml_file_free every heap block allocated in between has been freed exactly once, and no freed block is accessed, unless the DZG type confusion of C47 occurred.", "quantifier": "every input", "why_tests_cant": "leaks and double frees depend on the error path taken", "anchors": ["sml/src/*.c:*_free", "sml/src/*.c:*_parse"]}
{"id": "C52", "title": "Rewriting a message that already has a checksum leaks it", "statement": "sml_message_write replaces the crc pointer without freeing it: writing a parsed message, or writing twice, leaks one block per message.", "quantifier": "every message with a crc", "why_tests_cant": "leaks are invisible to the tests", "anchors": ["sml/src/sml_message.c:sml_message_write"]}
{"id": "C53", "title": "Exactly the readable messages survive being written and read back", "statement": "A message with a body whose lengths can be written at all, written with sml_message_write into zeroed memory and read with sml_message_parse, is returned with the same contents if and only if: no octet string is empty or has one of the lengths of C16, every list has at most 15 elements, it has no object list, no empty path, no value, status or time without a proper value, and its value list is one the DZG workaround leaves alone. When it is returned, it is identical including the crc and everything written was read.", "quantifier": "all messages of all 14 types, all memory around them", "why_tests_cant": "the converse direction says that nothing outside the class survives by accident; tests can only show single losses", "anchors": ["sml/src/sml_message.c:sml_message_write", "sml/src/sml_message.c:sml_message_parse"]}
{"id": "C54", "title": "A time sent as a bare number is read as a seconds index", "statement": "Where a time is expected, a plain 32-bit unsigned field (as some meters send) is accepted as the time with choice 1 (seconds index) and the field's value; written again it takes the standard two-element form, which reads as the same time.", "quantifier": "all values, all surrounding bytes, both byte orders", "why_tests_cant": "all values and positions", "anchors": ["sml/src/sml_time.c:sml_time_parse", "sml/src/sml_time.c:sml_time_write"]}
{"id": "C55", "title": "Sending reports success only if the whole frame was taken", "statement": "sml_transport_write returns the number of bytes of the frame if write() took all of them, and 0 if write() failed or took only a part (what was sent is then not reported).", "quantifier": "all files that can be sent and every answer of write()", "why_tests_cant": "depends on the answers of the operating system", "anchors": ["sml/src/sml_transport.c:sml_transport_write"]}
{"id": "C56", "title": "From the sender's messages to the lines on the screen", "statement": "If messages are sent with sml_transport_write, with noise without escape bytes in between, and the example server reads the stream in any pieces and with any interruptions, it prints one line for every entry of every list response, in order, and nothing else. In general it prints what the frames found by sml_transport_listen contain, and crashes exactly if one of them has a message without body or an entry that cannot be shown. With -s it stops after the first list response and leaves the rest of the stream unread; -v adds the summary of each file and changes nothing else.", "quantifier": "all streams, all schedules of reads, all messages that can be shown", "why_tests_cant": "whole-program behaviour over unbounded streams and schedules", "anchors": ["examples/sml_server.c:transport_receiver", "examples/sml_server.c:main", "sml/src/sml_transport.c:sml_transport_listen", "sml/src/sml_transport.c:sml_transport_write", "sml/src/sml_file.c:sml_file_print"]}
{"id": "C57", "title": "Building, sending and freeing messages leaves no memory behind", "statement": "A program that makes a file with sml_file_init, builds messages with the init and add functions, adds them, sends the file with sml_transport_write and frees it with sml_file_free never touches memory that is not its own, sends the bytes determined by the messages, which the receiver's parser turns back into them, and leaves the memory exactly as it found it. Two things lose memory: sml_list_add on an entry that already has a successor loses the successors, and a body with an unknown tag loses its data. A new message has a version 4 UUID as its transaction id, made of the given random bytes.", "quantifier": "all lists of well-formed messages without checksum, of any size that fits the buffer, every heap, every allocator and every answer of write()", "why_tests_cant": "leaks and invalid accesses depend on the shape of the messages and are invisible to the tests", "anchors": ["sml/src/sml_file.c:sml_file_init", "sml/src/sml_file.c:sml_file_add_message", "sml/src/sml_message.c:sml_message_init", "sml/src/sml_message.c:sml_message_body_init", "sml/src/sml_list.c:sml_list_add", "sml/src/sml_tree.c:sml_tree_add_tree", "sml/src/sml_transport.c:sml_transport_write", "sml/src/sml_octet_string.c:sml_octet_string_generate_uuid"]}
{"id": "C58", "title": "Errors of up to three bits change both checksums in messages of up to 4095 bytes", "statement": "Two messages of equal length, at most 4095 bytes, that differ in one, two or three bits have different checksums, with both checksum functions. Including the two checksum bytes sent behind a message, two messages with correct X.25 checksums and together at most 4095 bytes each never differ in one, two or three bits. 4095 is the limit (two bits at a distance of 32767 go unnoticed), and so are three bits (the generator polynomial has four).", "quantifier": "all messages up to 4095 bytes, all positions of the errors", "why_tests_cant": "there are 10^13 pairs and triples of positions for one message length alone", "anchors": ["sml/src/sml_crc16.c:sml_crc16_calculate", "sml/src/sml_crc16.c:sml_crc16kermit_calculate"]}
{"id": "C59", "title": "The tree parser recurses at most once for every four bytes", "statement": "With n unread bytes, sml_tree_parse makes at most n/4 + 1 nested calls, whatever the bytes are, and the tree it returns is at most n/4 + 1 levels deep (which bounds the recursion of sml_tree_write and sml_tree_free). The bound is reached: the bytes 73 01 01 71, repeated n times, make it recurse more than n levels deep, so the stack a caller needs grows with the input.", "quantifier": "all inputs, both byte orders", "why_tests_cant": "stack use for every input; a test shows it for one", "anchors": ["sml/src/sml_tree.c:sml_tree_parse"]}
{"id": "C60", "title": "The byte order of the host cannot be observed", "statement": "The library does the same thing on a little endian and on a big endian host: sml_file_parse accepts the same inputs and returns the same objects with their numbers in the byte order of the host, sml_transport_write and sml_file_write of corresponding objects give the same bytes, sml_value_to_double the same number, and the example server prints the same text from the same stream. So a message built on a host of one byte order and sent to a host of the other arrives as the same message, and shows the same on its screen.", "quantifier": "all inputs, all well-formed objects (those the parser and the init functions give), both byte orders on either side", "why_tests_cant": "tests run on one host, almost always a little endian one", "anchors": ["sml/src/sml_number.c:sml_number_endian", "sml/src/sml_number.c:sml_number_parse", "sml/src/sml_number.c:sml_number_write", "sml/src/sml_number.c:sml_number_init", "sml/src/sml_file.c:sml_file_parse", "sml/src/sml_transport.c:sml_transport_write", "examples/sml_server.c:transport_receiver"]}
{"id": "C61", "title": "The hex dump shows every byte and can be read back", "statement": "sml_hexdump prints two upper case digits and a space for every byte, a newline after every eighth and one at the end, so rows of eight bytes and a last row with fewer (empty if the number of bytes is a multiple of eight). Without spaces and newlines the text is one that sml_octet_string_init_from_hex turns back into the same bytes; different buffers have different dumps.", "quantifier": "all byte strings of any length", "why_tests_cant": "every length and every content; the dump is not tested at all", "anchors": ["sml/src/sml_shared.c:sml_hexdump", "sml/src/sml_octet_string.c:sml_octet_string_init_from_hex"]}
{"id": "C62", "title": "The command line of the example program", "statement": "The example server listens to its one operand (to the standard input for -), verbosely if v is among its switches and for one list only if s is, in any grouping, order and repetition of the switches; with any other number of operands, a wrong letter, or a device that cannot be opened it exits with status 1 without listening, with h it prints its usage and exits with status 0. Switches behind the device are operands. A serial port is set to 8 data bits, no parity, one stop bit, 9600 baud, no translation and no line editing, with RTS up, and its other settings are kept.", "quantifier": "all command lines, all devices, all previous settings of the port and all sensible values of the flag constants", "why_tests_cant": "unboundedly many command lines and settings; the program has no tests", "anchors": ["examples/sml_server.c:main", "examples/sml_server.c:serial_port_open"]}
{"id": "C63", "title": "The memory that parsing takes is linear in the input", "statement": "After sml_file_parse of n bytes, at most 97 n + 216 bytes more than before are allocated (counting 8 bytes for a pointer or an integer member, 1 for a byte and 16 for the administration of each block), whatever the bytes are and wherever malloc puts the blocks, and so at most (97 n + 216) / 16 blocks. While it runs, it never needs more than twice the memory in use before plus 97 n + 216 (twice, because realloc may need the old and the new array). Lengths that the input only announces, of lists, strings or long TL fields, do not count.", "quantifier": "all inputs, all contents of the memory before, all choices of addresses, both byte orders", "why_tests_cant": "every input; a hostile one announces lengths that it does not have, at any of some hundred places", "anchors": ["sml/src/sml_file.c:sml_file_parse", "sml/src/sml_octet_string.c:sml_octet_string_parse", "sml/src/sml_list.c:sml_list_parse", "sml/src/sml_list.c:sml_sequence_parse", "sml/src/sml_tree.c:sml_tree_parse", "sml/src/sml_tree.c:sml_tree_add_tree"]}
{"id": "C64", "title": "Exactly the messages of the SML grammar are accepted, as what they say", "statement": "sml_message_parse returns a message, from anywhere in a buffer, if and only if the bytes there spell that message in the grammar of SML (extended by a short list of known deviations), and it stops right behind them. It returns nothing without an error exactly at messages with a wrong checksum. sml_file_parse gives the messages m1 ... mn without an error if and only if the file is these messages with fill bytes and damaged messages in between; with an error it gives the messages in front of the first place where no message starts.", "quantifier": "all inputs below 2^31 bytes, all messages of all 14 types, both byte orders", "why_tests_cant": "both directions are about infinitely many inputs: everything in the language must be accepted and nothing else", "anchors": ["sml/src/sml_message.c:sml_message_parse", "sml/src/sml_message.c:sml_message_body_parse", "sml/src/sml_list.c:sml_list_parse", "sml/src/sml_tree.c:sml_tree_parse", "sml/src/sml_time.c:sml_time_parse", "sml/src/sml_value.c:sml_value_parse", "sml/src/sml_file.c:sml_file_parse"]}
{"id": "C65", "title": "Standard SML is read as what it says, and says one thing", "statement": "Every message and every file in the standard SML grammar, whatever encodings of lengths and numbers it uses, is read without an error to exactly the contents it spells. The same bytes never spell two different messages, nor the same message with two different ends, even with the deviations the library accepts. It does accept more than the standard.", "quantifier": "all messages and files of the grammar below 2^31 bytes with at most 32767 messages", "why_tests_cant": "the grammar has infinitely many sentences, and several spellings for every content", "anchors": ["sml/src/sml_message.c:sml_message_parse", "sml/src/sml_file.c:sml_file_parse", "sml/src/sml_shared.c:sml_buf_get_next_length"]}
{"id": "C66", "title": "What is written is standard SML that says what was written", "statement": "The bytes that sml_message_write leaves in a zeroed part of a buffer are, for every message that can be written faithfully and has one of the standard bodies, a sentence of the standard SML grammar that spells exactly this message with its checksum, whatever follows; so every reader of standard SML takes them for this message. sml_file_write leaves the messages of the file one after the other; zeros behind them are fill bytes. A message with a body of an unknown type is read back by the library but is not standard SML.", "quantifier": "all messages whose fields have the C types (numbers of the right width, no element of C14, C16, C17, C26 - C30), all positions in all buffers, both byte orders", "why_tests_cant": "unboundedly many messages; a mistake that writer and parser share survives every round trip test", "anchors": ["sml/src/sml_message.c:sml_message_write", "sml/src/sml_file.c:sml_file_write", "sml/src/sml_list.c:sml_list_entry_write", "sml/src/sml_tree.c:sml_tree_write", "sml/src/sml_value.c:sml_value_write"]}
{"id": "C67", "title": "The screen shows exactly the reading", "statement": "For every list entry the program prints its name A-B:C.D.E*F in decimal and, for a number z with scaler s, the decimal notation of z * 10^s with exactly max(0, -s) decimals: exactly the transmitted number as long as |z| * 10^max(0, s) is at most 2^50, and within one part in 2^50 plus half a unit of the last digit for every number of at most 64 bits and every scaler; then the unit. So every reading a meter sends with the library appears character by character on the screen of the receiver, provided pow(10, s) is right to one unit in the last place. Above the bound digits are lost: 2^53 + 1 is printed as 2^53.", "quantifier": "all numbers of all integer types, all 256 scalers, all names and units, all power functions within the error bound, all schedules of the device", "why_tests_cant": "two roundings and a decimal conversion: 2^64 numbers times 256 scalers, and every implementation of pow", "anchors": ["examples/sml_server.c:transport_receiver", "examples/unit.h:dlms_get_unit", "sml/src/sml_value.c:sml_value_to_double"]}
{"id": "C68", "title": "Different readings look different", "statement": "The text of an octet string (sml_value_to_strhex, both modes) determines its octets although printable and hexadecimal parts are mixed without a mark. A line of an octet string determines the name and the octets; a line of a number determines the name, the number (up to 2^50) and the unit's text. A line does not determine which of the two it is: the octets \"42\" and the number 42 without a unit give the same line.", "quantifier": "all pairs of octet strings, of list entries with octet strings, and of list entries with numbers", "why_tests_cant": "injectivity is about all pairs of inputs", "anchors": ["sml/src/sml_value.c:sml_value_to_strhex", "examples/sml_server.c:transport_receiver"]}
{"id": "C69", "title": "Running out of memory is never reported", "statement": "If malloc or realloc fails while sml_file_parse runs, whichever call it is, the program ends with a write through NULL: the result is either what it would have been with memory in plenty, or that crash, never an error and never a different result. If the memory allows for twice the bound of C63 in addition to what is in use, no call fails and everything said about parsing and freeing holds. If it allows for less than the parser's peak, the crash happens. Writing goes on when malloc fails for the checksum: the message is sent without one, nothing is reported, and no receiver accepts it.", "quantifier": "all byte strings up to 288 KiB, all hosts, all allocators, and all policies that refuse requests depending on the request and on the state of the program", "why_tests_cant": "tests do not make malloc fail at every call of every run", "anchors": ["sml/src/sml_file.c:sml_file_parse", "sml/src/sml_number.c:sml_number_init", "sml/src/sml_number.c:sml_number_parse", "sml/src/sml_list.c:sml_sequence_add", "sml/src/sml_message.c:sml_message_write"]}
{"id": "C70", "title": "One wrong bit in a length can replace a message", "statement": "If a file arrives with wrong bits but with the same message boundaries (each damaged message still has a complete head of the same length), and each message and its checksum have no or an odd number of wrong bits, then exactly the untouched messages are delivered, as they were sent, in order. If the wrong bit is in a length field this fails: a correctly sent message exists such that a single flipped bit of its frame makes the example program show a different reading, because the checksum covers only what the parser takes for the message and the checksum of the frame is not looked at.", "quantifier": "all files of any number of messages and all patterns of errors with an odd number of bits per damaged message; for the second part one message, computed", "why_tests_cant": "all messages times all error patterns; the failing case needs a message that is hidden in another", "anchors": ["sml/src/sml_file.c:sml_file_parse", "sml/src/sml_message.c:sml_message_parse", "sml/src/sml_transport.c:sml_read", "examples/sml_server.c:transport_receiver"]}
{"id": "C71", "title": "Writing a length of more than one byte shifts out of range", "statement": "sml_file_write and sml_transport_write execute an int shift whose result does not fit an int (0xF0 << 24, undefined in C) exactly if some octet string of some message has more than 14 bytes or some list more than 15 elements; messages without such elements are written without undefined arithmetic.", "quantifier": "all files whose lengths can be written at all (below 2^28), all buffers, both byte orders", "why_tests_cant": "compilers give the expected result, so no test notices; the statement is about every message", "anchors": ["sml/src/sml_shared.c:sml_buf_set_type_and_length", "sml/src/sml_file.c:sml_file_write", "sml/src/sml_transport.c:sml_transport_write"]}
{"id": "C72", "title": "The example program runs in constant memory", "statement": "However many frames arrive, and however they are damaged, as long as the receiver does not meet an entry it crashes on (C48): every block it allocates for a frame, its own texts included, is freed exactly once before the next frame is read, nothing is used after it is freed, and the memory after the last frame is what it was before the first, unless a frame contains the serial number of a DZG meter; then only texts of one or two bytes are lost (C47). At no time is more than four times (what was in use before + 800000 bytes) in use. What it prints is the same as without looking at the memory (C56).", "quantifier": "all bytes from the device in all schedules, all options, any memory contents before, all allocators, both byte orders", "why_tests_cant": "a leak of a few bytes per frame only shows after weeks; every run of every length is meant", "anchors": ["examples/sml_server.c:transport_receiver", "sml/src/sml_transport.c:sml_transport_listen", "sml/src/sml_file.c:sml_file_free", "sml/src/sml_value.c:sml_value_to_strhex"]}
{"id": "C73", "title": "Everything on the standard output, with -v and -s", "statement": "For every stream of bytes and all four settings of -v and -s, the program writes exactly the text of the frames that sml_transport_listen finds, in order, up to and including the first one with a list response if -s is given; or it crashes, and this at the first frame with a message without body or an entry that cannot be shown among those it looks at. The text of a frame with -v is: the number of messages and of bytes read in decimal, one line with the kind of each message in hexadecimal, the header, and the lines of C67. For frames of sent messages these are the number, the kinds and the entries of the messages that were sent, and the number of bytes between the start and the end sequence. From the text the number of messages, their kinds and the number of bytes can be read back.", "quantifier": "all streams in all schedules, all settings of the two options, all sequences of transmissions of messages, both byte orders", "why_tests_cant": "all inputs times all options; a crash depends on which messages an option makes the program look at", "anchors": ["examples/sml_server.c:transport_receiver", "sml/src/sml_file.c:sml_file_print", "sml/src/sml_transport.c:sml_transport_listen"]}
{"id": "C74", "title": "The example program with little memory", "statement": "If malloc fails at some time, for whatever reason, the example program still prints exactly what it prints with memory in plenty or it crashes on NULL: it never prints anything else and never goes on with a damaged heap. If requests are granted as long as no more than L bytes are in use and L is at least four times (what is in use before + 800000 bytes), it never crashes for want of memory however long it runs, unless a frame contains the serial number of a DZG meter; and if requests above L are refused and the run needs more than L, it crashes.", "quantifier": "all allocation failures (a function of the request and the state), all bytes from the device in all schedules, all options, all addresses", "why_tests_cant": "which of the thousands of requests fails, and when, cannot be enumerated; memory exhaustion over weeks cannot be tested", "anchors": ["examples/sml_server.c:transport_receiver", "sml/src/sml_value.c:sml_value_to_strhex", "sml/src/sml_file.c:sml_file_parse"]}
{"id": "C75", "title": "Nothing is lost silently", "statement": "For every message that sml_file_parse passes over because of a wrong checksum it writes one line to stderr, and one more if it stops before the end of the input; it writes no other line about losses. So if there is no such line, the whole input consists of intact messages and fill bytes and all of these messages are in the result; and the other way round. A line about the type of a message names a type that the library does not implement. Printing changes nothing else.", "quantifier": "all inputs below 2^31 bytes without length fields of more than 7 bytes, both byte orders", "why_tests_cant": "that there is no input with a silent loss is a statement about all inputs", "anchors": ["sml/src/sml_file.c:sml_file_parse", "sml/src/sml_message.c:sml_message_parse", "sml/src/sml_message.c:sml_message_body_parse"]}
{"id": "C76", "title": "Why listening ends, and what is said about it", "statement": "sml_transport_listen always returns on a device that delivers finitely many bytes, having delivered frames only, and for one of four reasons: the device has nothing more (nothing is written to stderr), the device fails (one line), a frame contains an escape sequence that is not its end (one line), or a frame has 8080 bytes of payload or more (nothing is written, although frames may follow). At most one line is written. After any frames with noise in between, each of the four has this effect. So silence with bytes left on the device means that a frame was too long, and a device that fails is reported, unless listening ended before.", "quantifier": "all devices: all bytes in all schedules of partial reads, interruptions and failures; all buffer sizes from 16 on for a single read", "why_tests_cant": "all streams times all schedules; silence is a statement about every run", "anchors": ["sml/src/sml_transport.c:sml_transport_listen", "sml/src/sml_transport.c:sml_transport_read", "sml/src/sml_transport.c:sml_read"]}
{"id": "C77", "title": "What the example program writes to stderr", "statement": "For every stream of bytes and all settings of -v and -s, stderr gets, for the frames in their order up to the one that ends the program: what the parser says about the content of the frame, then one line for each entry without a value and for each integer without a proper size (C14, C47; it is shown as 0) among the messages that are looked at, then, unless the program ends with this frame, one line for each message of a type that the library does not know; and after the last frame the line about the end of listening, if there is one. So if nothing is written, every frame consisted of intact messages of known types and fill bytes, all times and all entries had values, all integers a proper size, and the device was read to its end or to a frame that is too long; and for frames of sent messages of known types with values, nothing is written. -v has no influence.", "quantifier": "all devices with all bytes and schedules, all settings of the two options, all sequences of transmissions, both byte orders", "why_tests_cant": "that nothing goes wrong without a line is a statement about every stream and every option", "anchors": ["examples/sml_server.c:transport_receiver", "sml/src/sml_transport.c:sml_transport_listen", "sml/src/sml_file.c:sml_file_parse", "sml/src/sml_file.c:sml_file_free", "sml/src/sml_message.c:sml_message_body_free"]}
{"id": "C78", "title": "A time that is dropped is reported", "statement": "A time that is sent as a local time (seconds and two offsets) is returned without a value, and one line on stderr has the three numbers as they were sent (an omitted one as 0); reading goes on behind it, and its tag is kept. For every input there are at least as many such lines as times without a value in what is returned; if no message was lost, there are exactly as many, and stderr has, message by message, these and the line about an unknown type and nothing else. So silence of sml_file_parse means that all messages were read with the values of all their times.", "quantifier": "all inputs, all messages at all positions, all values of the three numbers, both byte orders", "why_tests_cant": "a time may be in an open response, a list, each of its entries, a profile, each of its periods, an attention or at any depth of a parameter tree; that none is dropped in silence is a statement about all of them", "anchors": ["sml/src/sml_time.c:sml_time_parse", "sml/src/sml_file.c:sml_file_parse", "sml/src/sml_message.c:sml_message_parse"]}
{"id": "C79", "title": "What writing says on stderr, and what it does not", "statement": "sml_file_write writes to stderr, message by message, one line for a message of a type the library does not know, and otherwise one line for each node of its trees whose tag is none of the four of SML; nothing else, and if it crashes, the first of these lines. Objects that were read have no such tags: if no message was lost, writing them says about types what reading them said, and nothing else. Silence does not mean that the message can be read: every message of a known type that never survives writing (C26 to C30) is written without a line.", "quantifier": "all files with all messages, trees of all depths, all buffers, both byte orders", "why_tests_cant": "a statement about all objects an application may build and about all inputs", "anchors": ["sml/src/sml_file.c:sml_file_write", "sml/src/sml_message.c:sml_message_write", "sml/src/sml_message.c:sml_message_body_write", "sml/src/sml_tree.c:sml_tree_write", "sml/src/sml_tree.c:sml_proc_par_value_write"]}
{"id": "C80", "title": "A sender that stops inside a frame, and bytes lost on the line", "statement": "If the sender stops inside a frame for good, exactly the complete frames before it are delivered. If it then sends other frames without a pause (frames with 0x1b only in their start and end), what is received depends on the byte at which it stopped: before the first byte nothing is lost; within the start sequence the next frame is lost, too; within the payload or the first five bytes of the end nothing is ever received again; within the last three bytes the frame is delivered with the first bytes of the next one at its end, and the next one is lost. If bytes of a payload are lost or doubled so that their number is no multiple of four, neither this frame nor any that follows is received, and after 8080 bytes listening returns without a line on stderr.", "quantifier": "all frames up to the size of the library's buffer, all crash points, all sequences of frames before and after, all ways a device may deliver the bytes", "why_tests_cant": "a statement about every crash point and every continuation of the stream, without bound", "anchors": ["sml/src/sml_transport.c:sml_transport_read", "sml/src/sml_transport.c:sml_transport_listen", "sml/src/sml_transport.c:sml_read"]}
{"id": "C81", "title": "Ids of new messages without libuuid", "statement": "In a build without libuuid on Linux every sml_message_init opens a file descriptor that is never closed: after n messages n more are open, up to the limit of the process. As long as descriptors are left the transaction id is a UUID of random bytes, whatever was in memory before; from then on it consists of uninitialised memory, whatever the random bytes are, and may be the same again and again. On other systems no byte of an id is 255, except those that carry the version.", "quantifier": "all numbers of messages, all limits, all random bytes, all contents of uninitialised memory", "why_tests_cant": "the effect appears after as many messages as the process may have descriptors, and depends on uninitialised memory", "anchors": ["sml/src/sml_octet_string.c:sml_octet_string_generate_uuid", "sml/src/sml_message.c:sml_message_init"]}
{"id": "C82", "title": "The whole program", "statement": "What the user of the example program sees is settled for every command line: with -h before any wrong letter the usage on stdout and status 0; with a wrong letter the name of the first of them on stderr, a hint on stdout and status 1; with no operand or several an error on stdout and status 1; with a device that cannot be opened one line with its name on stderr and status 1; otherwise the texts of the frames that arrive on stdout, their lines on stderr, and status 0, or a crash at the first frame that cannot be shown. The program never loops without reading, and never fails silently.", "quantifier": "all command lines, all answers of open, everything the devices deliver, all accurate pow functions, both byte orders", "why_tests_cant": "command lines, devices and frames are unbounded, and the outcomes are combinations of all of them", "anchors": ["examples/sml_server.c:main", "examples/sml_server.c:serial_port_open", "examples/sml_server.c:transport_receiver"]}
{"id": "C83", "title": "Sending when memory runs out", "statement": "If malloc refuses memory while messages that are in memory are sent, sending does not crash and the return value does not tell: a proper frame with all messages is sent, but each message whose two bytes for a checksum were refused goes without it. The receiver gets exactly the messages before the first such message, intact and in order, none behind it, and the error flag of its buffer is set; if no request was refused it gets all. If there is no memory at all it gets nothing. The file can be freed afterwards, and nothing is left behind.", "quantifier": "all files of messages that survive writing, all ways malloc may answer each request, all placements in memory, all buffers that are large enough, both byte orders", "why_tests_cant": "which requests fail cannot be chosen in a test of the library, and every message may be the first that fails", "anchors": ["sml/src/sml_message.c:sml_message_write", "sml/src/sml_number.c:sml_number_init", "sml/src/sml_transport.c:sml_transport_write", "sml/src/sml_message.c:sml_message_parse", "sml/src/sml_file.c:sml_file_parse"]}
{"id": "C84", "title": "Sending again from the same buffer", "statement": "A file whose buffer was zero at first may be sent any number of times, and values may be changed in between: as long as the structure of the messages and the lengths of all strings and lists stay the same, every transmission is byte for byte what it would be from a zeroed buffer. For any old content of the buffer the bytes sent are those exactly if the old byte under each second or later byte of a length field has no bit that the new byte lacks; so if the length of a string of 15 bytes or more changes, the receiver may get nothing although the sender is told that all went well. Each transmission after the first leaves one block per message behind.", "quantifier": "all files, all sequences of changed values, all numbers of transmissions, all contents of the buffer, all placements in memory, both byte orders", "why_tests_cant": "a statement about all histories of one buffer, and about every content it may have", "anchors": ["sml/src/sml_shared.c:sml_buf_set_type_and_length", "sml/src/sml_transport.c:sml_transport_write", "sml/src/sml_file.c:sml_file_write", "sml/src/sml_message.c:sml_message_write"]}
{"id": "C85", "title": "Parsing takes linear time", "statement": "sml_file_parse takes at most 82 steps for each byte of its input and 700 more, whatever element counts and lengths the input declares and however deeply it is nested, and whether the input is intact or damaged; and it takes at least one step for every byte it consumes. A step is a look at or a change of the buffer, the cursor or the error flag, or one byte that is copied, filled in, swapped, compared or put into a checksum; every iteration of every loop is at least one step.", "quantifier": "all byte sequences, all declared counts and lengths, all nesting depths, both byte orders", "why_tests_cant": "the worst case over all inputs of a length cannot be measured; a single hostile count or nesting would make it exponential or unbounded", "anchors": ["sml/src/sml_file.c:sml_file_parse", "sml/src/sml_message.c:sml_message_parse", "sml/src/sml_shared.c:sml_buf_get_next_length", "sml/src/sml_list.c:sml_sequence_parse", "sml/src/sml_list.c:sml_list_parse", "sml/src/sml_tree.c:sml_tree_parse", "sml/src/sml_number.c:sml_number_parse", "sml/src/sml_crc16.c:sml_crc16_calculate"]}
{"id": "C86", "title": "A message that was added belongs to the file", "statement": "sml_file_add_message hands the message over: sml_file_free frees it together with the file. There is no check against sharing it: freeing it after the file, freeing it before the file, adding it to the same file twice, or adding it to two files that are both freed always ends in an access to freed memory, as does freeing a message or a file twice. All calls but the last one return normally, so nothing points to the mistake before.", "quantifier": "all messages, all files with any messages and buffers, every heap, every allocator", "why_tests_cant": "whether the access to freed memory is noticed in a test depends on the allocator and on what is in the blocks", "anchors": ["sml/src/sml_file.c:sml_file_add_message", "sml/src/sml_file.c:sml_file_free", "sml/src/sml_message.c:sml_message_free"]}
{"id": "C87", "title": "What the fuzz target can find", "statement": "The project's fuzz target (LLVMFuzzerTestOneInput) returns 0 for every input of up to 294920 bytes. The sanitizers have exactly two kinds of reports for such inputs: signed overflow, which occurs only if the parsed part has seven bytes in a row with the highest bit set, and lost blocks of one or two bytes, which occur only if it contains the beginning of a DZG serial number. Both occur. Every input of the parser is tried by some input of the fuzz target, and the first eight of more than eight bytes do not matter.", "quantifier": "all inputs of the fuzz target of up to 294920 bytes, every heap and allocator, both byte orders", "why_tests_cant": "a fuzzer tries some of the inputs; that it has nothing else to find is a statement on all of them", "anchors": ["test/src/fuzzer.c:LLVMFuzzerTestOneInput", "sml/src/sml_file.c:sml_file_parse", "sml/src/sml_file.c:sml_file_free"]}
