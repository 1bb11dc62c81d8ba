{"id": "C01", "title": "Packet byte accessors obey the store laws", "statement": "For every packet and every byte index below 16, writing a byte and reading the same index returns the written byte, reading any other index is unchanged, writing the same index twice keeps the last value, and writing an index of 16 or more leaves the packet unchanged. After reset() all bytes are zero.", "quantifier": "all packets (four arbitrary 32-bit words), all indices, all byte values", "why_tests_cant": "2^128 packets times 16x16 index pairs; unit tests sample a handful of constants.", "anchors": ["inc/midi/universal_packet.h: universal_packet::get_byte, set_byte, get_byte_7bit, set_byte_7bit", "src/universal_packet.cpp"]}
{"id": "C02", "title": "Packet equality is equality of the transmitted words", "statement": "operator== on packets is reflexive, symmetric and transitive, and holds exactly when both packets have the same size() and the same size() leading words; words beyond the size never influence it, and != is its negation.", "quantifier": "all pairs and triples of packets", "why_tests_cant": "An equivalence relation is a statement about all triples; the comparison only looks at the left operand's size, so symmetry is not evident from samples.", "anchors": ["inc/midi/universal_packet.h: operator==, operator!=, size"]}
{"id": "C03", "title": "Packet header fields are independent", "statement": "type(), group(), status(), byte2..4 return the architected bit fields of word 0; set_type and set_group with a value below 16 change exactly their own nibble and nothing else in the packet; size() is the UMP size of the type nibble (1..4). The predicates for utility, system, channel voice and data messages depend on the type alone and exclude each other.", "quantifier": "all packets, all 4-bit types and groups", "why_tests_cant": "Needs independence for every word value, not for sampled ones.", "anchors": ["inc/midi/universal_packet.h: type, group, status, set_type, set_group, size, is_midi1_protocol_message"]}
{"id": "C04", "title": "Packets survive being printed and parsed", "statement": "Printing any sequence of packets separated by white space with operator<< and reading the text back with operator>> yields packets equal (==) to the originals, consumes exactly the printed text, reports no failure, and leaves the flags of both streams alone, whatever the variable read into held before and for any width, fill character and flags of the output stream other than std::left or std::showbase without std::internal. Each packet prints as its words of eight hexadecimal digits. (Other flags, the leaked fill character, and truncated or invalid input are recorded as refutations.)", "quantifier": "all finite sequences of packets with arbitrary contents, all separators, all stream states in the safe set, all previous contents of the variable", "why_tests_cant": "Unbounded sequences and arbitrary 128-bit packets.", "anchors": ["src/universal_packet.cpp: operator<<, operator>>"]}
{"id": "C05", "title": "Upscaling loses nothing", "statement": "Downscaling an upscaled value returns the original: 7->16, 7->32, 14->32 bits, and the generic x->y upscaler followed by a right shift of y-x, for every 2<=x<y<=32 and every x-bit value. The same holds for what is put into and read from velocities, controller values and pitch bends; reading with fewer bits yields the highest bits.", "quantifier": "all source values of every bit width, all width pairs", "why_tests_cant": "The generic function has 465 width pairs with up to 2^31 values each.", "anchors": ["inc/midi/types.h: upsample_7_to_16bit, upsample_7_to_32bit, upsample_14_to_32bit, upsample_x_to_ybit, downsample_*"]}
{"id": "C06", "title": "Upscaling keeps minimum, centre, maximum and order", "statement": "Every upscaler maps 0 to 0, the centre to the centre and the maximum to the maximum, is strictly increasing, and never exceeds the target width. Its results are exactly those of the min-center-max scaling of the MIDI 2 specification: up to the centre a shift, above the centre the low bits are repeated.", "quantifier": "all pairs of source values and all width pairs", "why_tests_cant": "Monotonicity ranges over all ordered pairs of values.", "anchors": ["inc/midi/types.h: upsample_7_to_16bit, upsample_7_to_32bit, upsample_14_to_32bit, upsample_x_to_ybit"]}
{"id": "C07", "title": "The generic upscaler agrees with the specialised ones", "statement": "upsample_x_to_ybit(v,7,16), (v,7,32) and (v,14,32) return the same value as the dedicated functions for every source value.", "quantifier": "all 7- and 14-bit values", "why_tests_cant": "Tests compare a few constants; two different bit-repeat algorithms must agree everywhere.", "anchors": ["inc/midi/types.h: upsample_x_to_ybit"]}
{"id": "C08", "title": "Pitch arithmetic saturates", "statement": "Adding a pitch increment to a pitch, or two pitch increments, returns the mathematically exact sum clamped to the representable range; it never wraps, is monotone, and no intermediate signed computation overflows.", "quantifier": "all 32-bit pitches and signed 32-bit increments", "why_tests_cant": "2^64 operand pairs; overflow cases are edge conditions.", "anchors": ["inc/midi/types.h: operator+(pitch_7_25, pitch_increment), pitch_increment::operator+="]}
{"id": "C09", "title": "Controller arithmetic saturates", "statement": "Adding an increment to a controller value returns the exact sum clamped to [0, 2^32-1] with no intermediate overflow, and += agrees with +.", "quantifier": "all 32-bit controller values and signed increments", "why_tests_cant": "2^64 operand pairs.", "anchors": ["inc/midi/types.h: operator+(controller_value, controller_increment)"]}
{"id": "C10", "title": "Pitch bend times sensitivity is exact, bounded and monotone", "statement": "The product equals (bend-2^31)*sensitivity/2^31 truncated toward zero and clamped to 32 signed bits; the 64-bit intermediate never overflows; centre bend gives 0; bends mirrored around the centre give opposite results (before clamping); the result never exceeds the sensitivity in magnitude and is monotone in the bend.", "quantifier": "all 32-bit bends and sensitivities", "why_tests_cant": "2^64 operand pairs; the intermediate comes within one sensitivity step of the int64 limit.", "anchors": ["inc/midi/types.h: operator*(pitch_bend, pitch_bend_sensitivity)"]}
{"id": "C11", "title": "Floating point conversions return the original value", "statement": "A value converted to floating point and constructed again from the result is the same: velocity and pitch_7_9 via double and via float, controller_value and pitch_7_25 via double. A 32-bit value sent through float comes back within 129 (controller_value), 128 (pitch_7_25) or 194 (pitch_bend) steps. A pitch_bend via double comes back unchanged unless it is one of the 4095 values above the centre, and then at most one lower. (Exact return of every pitch_bend is refuted.)", "quantifier": "all 16-bit and all 32-bit values", "why_tests_cant": "2^32 values and IEEE rounding at every step.", "anchors": ["inc/midi/types.h: from_float_0_1, to_float_0_1, velocity, controller_value, pitch_bend"]}
{"id": "C12", "title": "Any legal MIDI 1 byte stream is decoded to exactly its messages", "statement": "For every sequence of channel voice and system common messages rendered to bytes, with running status used at any permitted place and real-time bytes inserted at any position, the parser emits exactly these messages, each real-time message at its position, in order and nothing else.", "quantifier": "all finite message sequences, all running-status choices, all real-time interleavings, all groups", "why_tests_cant": "Unbounded sequences and interleavings; parser state carries over between messages.", "anchors": ["src/midi1_byte_stream.cpp", "inc/midi/midi1_byte_stream.h"]}
{"id": "C13", "title": "Real-time bytes are transparent", "statement": "Feeding a real-time byte at any moment, in any parser state reached by any history, emits that message at once (or nothing for the undefined F9/FD) and has no effect on how the surrounding bytes are decoded.", "quantifier": "all byte histories, all insertion points, both SysEx modes", "why_tests_cant": "Quantifies over every reachable parser state.", "anchors": ["src/midi1_byte_stream.cpp", "inc/midi/midi1_byte_stream.h"]}
{"id": "C14", "title": "Chunking does not matter", "statement": "Feeding a byte range in one call or split into any sequence of smaller feeds (including empty ones and single bytes) yields the same emitted packets, the same SysEx callbacks and the same final state.", "quantifier": "all byte sequences and all ways of splitting them", "why_tests_cant": "Exponentially many splits of unbounded streams.", "anchors": ["src/midi1_byte_stream.cpp", "inc/midi/midi1_byte_stream.h"]}
{"id": "C15", "title": "The parser resynchronises at the next status byte", "statement": "After an arbitrary byte history, a complete channel voice or system common message (status byte plus its data bytes) is emitted exactly once and unchanged; data bytes without a status are ignored, and undefined status bytes cancel running status and emit nothing.", "quantifier": "all byte histories followed by all messages", "why_tests_cant": "Quantifies over all garbage prefixes.", "anchors": ["src/midi1_byte_stream.cpp", "inc/midi/midi1_byte_stream.h"]}
{"id": "C16", "title": "Parser output is always well-formed and stamped with the group", "statement": "Whatever calls are made (feeding any bytes, changing the group, enabling, resetting), every emitted packet is a MIDI 1 protocol message (system, MIDI 1 channel voice or SysEx7) on a group that was configured for the parser, data bytes are 7-bit, unused bytes are zero, SysEx packets carry at most 6 bytes. (A group change takes effect at the next status byte: running-status messages keep the group of their status byte.)", "quantifier": "all byte sequences, all groups, all parser histories", "why_tests_cant": "Arbitrary input; needs an invariant over the parser state.", "anchors": ["src/midi1_byte_stream.cpp", "inc/midi/midi1_byte_stream.h"]}
{"id": "C17", "title": "Disabled parsers are silent and reset restores the initial behaviour", "statement": "With callbacks disabled no byte sequence causes any callback; after reset() the reaction to any further bytes equals that of a newly constructed parser with the same configuration, whatever was fed before.", "quantifier": "all histories and all continuations", "why_tests_cant": "Behavioural equality over all continuations.", "anchors": ["src/midi1_byte_stream.cpp", "inc/midi/midi1_byte_stream.h"]}
{"id": "C18", "title": "SysEx bytes to packets is lossless", "statement": "Without a SysEx callback, feeding F0, any non-empty sequence of 7-bit bytes, F7 (with real-time bytes interleaved) emits one well-formed SysEx7 packet sequence (complete, or start continue* end) whose payload is exactly these bytes; converting the packets with to_midi1_byte_stream gives back the original bytes.", "quantifier": "all payloads of any length", "why_tests_cant": "Unbounded payloads; packet boundaries at every residue mod 6.", "anchors": ["src/midi1_byte_stream.cpp", "inc/midi/midi1_byte_stream.h"]}
{"id": "C19", "title": "SysEx bytes to SysEx callback is lossless", "statement": "With a SysEx callback, F0, a one- or three-byte manufacturer id, any 7-bit data, F7 invokes the callback exactly once with this id and this data, after any history; SysEx interrupted by a status byte or without complete manufacturer id is not delivered and does not influence later messages.", "quantifier": "all ids, all payloads, all histories", "why_tests_cant": "Unbounded payloads and histories.", "anchors": ["src/midi1_byte_stream.cpp", "inc/midi/midi1_byte_stream.h"]}
{"id": "C20", "title": "Serialising a packet to MIDI 1 bytes respects the buffer and parses back", "statement": "to_midi1_byte_stream never reads outside of the packet and never writes more than 8 bytes; for system and channel voice packets it writes exactly midi1_byte_stream_size() bytes, for SysEx7 packets the payload (counted by midi1_byte_stream_size()) framed by F0/F7 as the packet format requires, and nothing for non MIDI 1 packets; feeding the bytes of a valid system or channel voice packet to a parser of the same group, in any state, returns the packet; from_midi1_byte_stream is the inverse direction.", "quantifier": "all packets", "why_tests_cant": "2^128 packets.", "anchors": ["src/midi1_byte_stream.cpp", "inc/midi/midi1_byte_stream.h"]}
{"id": "C21", "title": "The parser never faults", "statement": "No byte sequence makes the parser access a packet out of bounds, violate one of its own assertions or the assertions of the packet API, for groups 0..15.", "quantifier": "all byte sequences, all configurations", "why_tests_cant": "Absence of faults is a property of every reachable state.", "anchors": ["src/midi1_byte_stream.cpp", "inc/midi/midi1_byte_stream.h"]}
{"id": "C22", "title": "send_sysex7 produces one well-formed message", "statement": "For every message with a non-zero valid manufacturer id (one byte, or zero and two bytes), send_sysex7 emits either one complete packet or start, continue*, end; every packet except the last carries 6 bytes, the last at least one, all on the requested group; the concatenated payload is the manufacturer id bytes followed by the data (7 bit); as_sysex7_packets returns the same packets. (For id 0 and for ids with both a high and a low part, which is_valid() accepts, this is false; recorded as refutation.)", "quantifier": "all manufacturer ids, all data lengths and contents, all groups", "why_tests_cant": "Unbounded data length; the packet kind is computed from a length estimate separate from the emission loop.", "anchors": ["src/sysex.cpp", "inc/midi/sysex.h", "inc/midi/data_message.h"]}
{"id": "C23", "title": "SysEx7 survives packetising and collecting", "statement": "Feeding the packets of send_sysex7 for a message with non-zero valid manufacturer id to an unlimited sysex7_collector, in any reachable state of the collector, invokes the callback exactly once, at the last packet, with the original message. (Messages with id 0 arrive changed; recorded as refutation.)", "quantifier": "all valid messages, all collector histories, all groups", "why_tests_cant": "Unbounded messages and histories.", "anchors": ["src/sysex.cpp", "inc/midi/sysex.h", "inc/midi/data_message.h", "src/sysex_collector.cpp", "inc/midi/sysex_collector.h"]}
{"id": "C24", "title": "send_sysex8 produces one well-formed message", "statement": "For every message, send_sysex8 emits either one complete packet or start, continue*, end with the stream id, concatenated payload equal to the two-byte manufacturer id followed by the data. (False for particular lengths; the exact set is determined.)", "quantifier": "all manufacturer ids, data lengths, stream ids, groups", "why_tests_cant": "The failing lengths (11, 12, 13) are isolated points; only a proof determines the exact set.", "anchors": ["inc/midi/sysex.h: send_sysex8, as_sysex8_packets", "inc/midi/extended_data_message.h"]}
{"id": "C25", "title": "SysEx8 survives packetising and collecting", "statement": "Feeding the packets of send_sysex8 to an unlimited sysex8_collector in any reachable state invokes the callback exactly once with the original message and stream id, for every message outside the malformed lengths.", "quantifier": "all valid messages and histories", "why_tests_cant": "Unbounded messages and histories.", "anchors": ["src/sysex_collector.cpp", "inc/midi/sysex_collector.h", "inc/midi/sysex.h: send_sysex8"]}
{"id": "C26", "title": "Delivered SysEx is what the packets received since the last start carry", "statement": "An unlimited collector fed with any packet sequence delivers a message only at a complete or end packet, and the delivered message decodes exactly the payload of the most recent complete packet, or of the most recent start packet and all continue packets since (for sysex8: of the active stream); aborted or orphaned packets never contribute.", "quantifier": "all packet sequences", "why_tests_cant": "Arbitrary, malformed and interrupted sequences of any length.", "anchors": ["src/sysex_collector.cpp", "inc/midi/sysex_collector.h"]}
{"id": "C27", "title": "The collector size limit is an upper bound", "statement": "On a collector configured with a maximum size before use, no delivered message has more data bytes than the limit, whatever packets are fed. (Lowering the limit of a collector that already holds more memory does not have this effect; recorded as refutation.)", "quantifier": "all limits, all packet sequences", "why_tests_cant": "Growth policy interacts with capacity over the whole history.", "anchors": ["src/sysex_collector.cpp", "inc/midi/sysex_collector.h"]}
{"id": "C28", "title": "Messages within the limit are accepted, oversized ones are dropped cleanly", "statement": "With a limit, every message whose packets stay within the limit is delivered, and an oversized message is dropped without affecting the next message. (The second half is false when the overflow happens at the end packet or the message is abandoned; recorded as refutation, and the exact condition proved.)", "quantifier": "all limits, all histories, all messages", "why_tests_cant": "Depends on the state left behind by the overflowing packet.", "anchors": ["src/sysex_collector.cpp", "inc/midi/sysex_collector.h"]}
{"id": "C29", "title": "Collectors never read outside a packet", "statement": "Feeding any 128-bit packet in any state never reads a packet byte outside the packet and never stores more bytes than the packet's payload size.", "quantifier": "all packets, all states", "why_tests_cant": "2^128 packets times all states.", "anchors": ["src/sysex_collector.cpp", "inc/midi/sysex_collector.h"]}
{"id": "C30", "title": "Collectors recover after any history", "statement": "After an arbitrary packet sequence an unlimited collector delivers the next complete well-formed message exactly; non-SysEx packets are ignored; reset() makes the collector behave as newly constructed.", "quantifier": "all packet histories and messages", "why_tests_cant": "Quantifies over all histories.", "anchors": ["src/sysex_collector.cpp", "inc/midi/sysex_collector.h"]}
{"id": "C31", "title": "SysEx8 streams do not mix", "statement": "While a sysex8 message of one stream is being collected, continue and end packets of other streams have no effect on it; a start or complete packet of another stream abandons it.", "quantifier": "all interleavings of packets of other streams", "why_tests_cant": "Arbitrary interleavings.", "anchors": ["src/sysex_collector.cpp", "inc/midi/sysex_collector.h"]}
{"id": "C32", "title": "SysEx7 survives the MIDI 1 byte stream", "statement": "A valid sysex7 sent as packets, converted to MIDI 1 bytes and fed to a byte stream parser with SysEx callback is delivered unchanged, exactly once.", "quantifier": "all valid messages, all parser histories", "why_tests_cant": "Unbounded messages; composition of three components.", "anchors": ["src/sysex.cpp", "inc/midi/sysex.h", "inc/midi/data_message.h", "src/midi1_byte_stream.cpp", "inc/midi/midi1_byte_stream.h"]}
{"id": "C33", "title": "MIDI 1 to MIDI 2 and back is the identity", "statement": "For every well-formed MIDI 1 channel voice message that translates to MIDI 2, translating back yields the same message, except that note-on with velocity 0 becomes note-off with velocity 64; exactly the reserved controllers do not translate.", "quantifier": "all MIDI 1 channel voice messages", "why_tests_cant": "All 2^18 combinations per status times all scaling values.", "anchors": ["inc/midi/channel_voice_message.h", "inc/midi/midi1_channel_voice_message.h", "inc/midi/midi2_channel_voice_message.h"]}
{"id": "C34", "title": "MIDI 2 to MIDI 1 translation yields valid messages", "statement": "Whatever MIDI 2 packet is given, a translated message is a MIDI 1 channel voice message of the same kind, group and channel with 7-bit data bytes; a note-on never turns into a note-off; valid messages translate to exactly the specified MIDI 1 message and those without MIDI 1 equivalent are not translated. (Attribute type 0x80 is mistaken for no attribute; recorded as a refutation.)", "quantifier": "all 128-bit packets", "why_tests_cant": "2^64 message words.", "anchors": ["inc/midi/channel_voice_message.h", "inc/midi/midi1_channel_voice_message.h", "inc/midi/midi2_channel_voice_message.h"]}
{"id": "C35", "title": "Protocol-agnostic getters agree across translation", "statement": "For every translatable MIDI 1 message the protocol-agnostic predicates and getters (note number, velocity, controller, value, program, pressure, bend) return the same on the message and on its MIDI 2 translation.", "quantifier": "all well-formed MIDI 1 messages", "why_tests_cant": "Quantifies over all messages and all getters.", "anchors": ["inc/midi/channel_voice_message.h", "inc/midi/midi1_channel_voice_message.h", "inc/midi/midi2_channel_voice_message.h"]}
{"id": "C36", "title": "Message classification is unambiguous", "statement": "No packet is both a note-on and a note-off, and each packet is at most one of the channel voice kinds; a MIDI 1 note-on with velocity 0 is a note-off, a MIDI 2 note-on with velocity 0 is a note-on.", "quantifier": "all packets", "why_tests_cant": "2^128 packets.", "anchors": ["inc/midi/channel_voice_message.h", "inc/midi/midi1_channel_voice_message.h", "inc/midi/midi2_channel_voice_message.h"]}
{"id": "C37", "title": "Channel voice constructors and accessors are inverse", "statement": "For each MIDI 1 and MIDI 2 channel voice constructor with in-range arguments, the accessors return the arguments, the layout is the architected one, and all unused bits are zero. The generic constructors make the same messages from kind and fields.", "quantifier": "all arguments of all constructors", "why_tests_cant": "Full argument ranges up to 32-bit values.", "anchors": ["inc/midi/channel_voice_message.h", "inc/midi/midi1_channel_voice_message.h", "inc/midi/midi2_channel_voice_message.h"]}
{"id": "C38", "title": "Protocol-agnostic getters have defined behaviour", "statement": "The protocol-agnostic getters compute without undefined behaviour and return values in range for every packet, except the channel pitch bend getter, which is undefined exactly for MIDI 1 channel voice packets whose second data byte has the top bit set (recorded as a refutation of the unrestricted claim). A channel voice view of a packet of another protocol is not obtained from as_midi1_channel_voice_message_view or as_midi2_channel_voice_message_view and refused by the assertion of the constructor.", "quantifier": "all packets", "why_tests_cant": "Malformed wire data is not in the test vectors.", "anchors": ["inc/midi/channel_voice_message.h", "inc/midi/midi1_channel_voice_message.h", "inc/midi/midi2_channel_voice_message.h"]}
{"id": "C39", "title": "System messages keep their fields", "statement": "Constructing a system message or song position message and viewing it returns group, status and data; song position covers the whole 14-bit range.", "quantifier": "all groups, status bytes, 14-bit positions", "why_tests_cant": "Full argument ranges.", "anchors": ["inc/midi/system_message.h"]}
{"id": "C40", "title": "Jitter reduction timestamps are modular", "statement": "The difference of two 16-bit timestamps is the number of ticks from the second to the first modulo 65536; adding it back yields the first; the elapsed sender time is recovered over any number of wrap-arounds as long as it is below 2^16 ticks.", "quantifier": "all timestamp pairs, all unwrapped sender times", "why_tests_cant": "2^32 pairs including wrap-around.", "anchors": ["src/jitter_reduction_timestamps.cpp", "inc/midi/jitter_reduction_timestamps.h", "inc/midi/utility_message.h"]}
{"id": "C41", "title": "Scheduled messages keep their order", "statement": "Between resets, message times returned by the clock follower never go backwards, provided reception times do not and no message is reconstructed later than it was received. (Without this provision the order can be violated; recorded as refutation.)", "quantifier": "all sequences of clock and timestamp events", "why_tests_cant": "Histories of any length, with wrap-around and arbitrary jitter.", "anchors": ["src/jitter_reduction_timestamps.cpp", "inc/midi/jitter_reduction_timestamps.h", "inc/midi/utility_message.h"]}
{"id": "C42", "title": "The security offset only grows and covers the jitter", "statement": "Whatever clocks and messages are processed, measured jitter never is negative, jitter and security offset never decrease until explicitly set or reset, and the offset is at least 1.2 times the jitter unless it was set explicitly (recorded as a refutation).", "quantifier": "all event histories", "why_tests_cant": "Invariant over histories.", "anchors": ["src/jitter_reduction_timestamps.cpp", "inc/midi/jitter_reduction_timestamps.h", "inc/midi/utility_message.h"]}
{"id": "C43", "title": "A jitter free clock schedules exactly", "statement": "If clocks are received exactly on the sender's time grid, every message is scheduled at its sender time plus the security offset, jitter stays zero and the offset keeps its value, over any number of timestamp wrap-arounds. (The first clock must not be received at the very time of construction; recorded as a refutation.)", "quantifier": "all clock sequences with gaps below 2^16 ticks, all message timestamps", "why_tests_cant": "Histories of any length.", "anchors": ["src/jitter_reduction_timestamps.cpp", "inc/midi/jitter_reduction_timestamps.h", "inc/midi/utility_message.h"]}
{"id": "C44", "title": "Stream messages keep their fields", "statement": "Each stream message constructor writes the sixteen bytes of the message format for all arguments its types admit, and assertion builds reject exactly the documented misuse. A view accepts a received packet exactly if it has type stream and the view's status byte; on every packet its accessors return the fields of the bytes. For in-range arguments the message is accepted by its own view only and the accessors return the arguments. (16-group function blocks, endpoint block counts above 127, manufacturers above 24 bits and the two ignored status bits are recorded as refutations.)", "quantifier": "all arguments of all eleven constructors, all received packets, both build variants", "why_tests_cant": "Full argument ranges.", "anchors": ["inc/midi/stream_message.h"]}
{"id": "C45", "title": "Names survive being split into packets", "statement": "send_endpoint_name, send_product_instance_id and send_function_block_name emit one complete packet or start continue* end, each with the next full piece of the text; every packet is accepted by the view and names the block, and the payloads put together are the text, less the high bit of each byte, for every text without bytes 0 and 128. So 7-bit texts survive. (UTF-8 text beyond ASCII does not; product ids above 16 characters are rejected or cut.)", "quantifier": "all texts of any length, all blocks, both build variants", "why_tests_cant": "Unbounded length, boundaries at each multiple of 13/14.", "anchors": ["inc/midi/stream_message.h: send_endpoint_name, send_function_block_name, payload"]}
{"id": "C46", "title": "Flex data messages keep their fields", "statement": "Each flex data constructor writes the sixteen bytes of the message format, and assertion builds reject exactly the documented misuse; the view accepts exactly packets of type flex data, and on every packet the accessors return the fields of the bytes. For in-range arguments the accessors return header and data words, and the payload returns every text of up to 12 non-zero bytes.", "quantifier": "all arguments of all seven constructors, all received packets, both build variants", "why_tests_cant": "Full argument ranges.", "anchors": ["inc/midi/flex_data_message.h"]}
{"id": "C47", "title": "SysEx7 integer fields round trip", "statement": "add_uint7/14/28/32 followed by make_uintN at the written position returns the value for every N-bit value, appends exactly 1/2/4/5 7-bit bytes, least significant first, and does not disturb other bytes; also for device identities. Values of more than N bits trip an assertion in debug builds and are reduced modulo 2^N otherwise, so a sysex never gets an 8-bit byte this way. Reading any 7-bit message, whoever made it, returns the number its bytes at that position denote, and asserts exactly if they are not all inside the message.", "quantifier": "all values, all preceding contents; all 7-bit messages and positions", "why_tests_cant": "2^32 values and unbounded contents.", "anchors": ["inc/midi/sysex.h", "src/sysex.cpp"]}
{"id": "C48", "title": "Identity replies round trip", "statement": "Constructing an identity reply and viewing it returns the identity for every one-byte (0xNN0000, NN > 0) or three-byte (below 0x10000) manufacturer id and every 14-bit family, 14-bit model and 28-bit revision; the result has 12 or 14 data bytes and is 7-bit clean for device ids below 128. A reply made from an identity alone is addressed to device id 0x7F (all). Validating any SysEx is safe, accepts exactly the complete replies, and every accepted reply can be read without leaving the message. (Ids that mix both forms are altered, device ids above 127 are written unmasked, and a reply with a one-byte id and two trailing bytes is accepted; recorded as refutations.)", "quantifier": "all device identities, device ids and SysEx messages", "why_tests_cant": "Full argument ranges.", "anchors": ["inc/midi/universal_sysex.h", "src/universal_sysex.cpp"]}
{"id": "C49", "title": "MIDI-CI management messages round trip", "statement": "For discovery (both versions), endpoint, invalidate MUID, ACK and NAK messages made from arguments in range: the call succeeds in debug and release builds, the message has exactly the specified bytes, exactly the views of its kind accept it, and the accessors return the arguments. A NAK answering a message goes from that message's destination to its source and names its kind. Changing the source or destination of a message changes nothing else. (Sizes of 2^16 and more are truncated silently: recorded as a refutation.)", "quantifier": "all arguments in range, all texts and payloads below 2^14 bytes, any answered message", "why_tests_cant": "Full argument ranges and unbounded payloads.", "anchors": ["inc/midi/capability_inquiry.h", "src/capability_inquiry.cpp"]}
{"id": "C50", "title": "MIDI-CI profile messages round trip", "statement": "The same for profile inquiry, reply, set on/off, enabled/disabled report, added, removed, details inquiry and reply and specific data, including lists of enabled and disabled profiles of any length below 2^14. The vector overload of the specific data constructor agrees with the other one for fewer than 2^16 bytes. (Beyond, data and profile lists vanish silently: recorded as refutations.)", "quantifier": "all profile lists, all payloads below 2^28 bytes", "why_tests_cant": "Unbounded lists.", "anchors": ["inc/midi/capability_inquiry.h", "src/capability_inquiry.cpp"]}
{"id": "C51", "title": "MIDI-CI property exchange messages round trip", "statement": "The same for property exchange capabilities messages and for property data inquiries, replies, subscriptions and notifications with a header of any contents, a chunk of any contents, and any valid chunk numbering, the header being in the first chunk. (With a header in a later chunk the message is constructed but no view accepts it.)", "quantifier": "all headers and bodies below 2^14 bytes, all chunk numbers", "why_tests_cant": "Unbounded contents.", "anchors": ["inc/midi/capability_inquiry.h", "src/capability_inquiry.cpp"]}
{"id": "C52", "title": "Validated MIDI-CI views are memory safe", "statement": "If a view's validate() accepts a SysEx7 message of any size and content, every accessor of the view reads only inside the message.", "quantifier": "all SysEx7 messages, all views and accessors", "why_tests_cant": "Attacker-controlled contents: lengths inside the message drive the reads.", "anchors": ["inc/midi/capability_inquiry.h", "src/capability_inquiry.cpp"]}
{"id": "C53", "title": "MIDI-CI validation itself is memory safe", "statement": "validate() never reads outside the message, whatever its size and contents. (False for discovery inquiry and reply; the exact set of faulting inputs is proved.) It accepts exactly the 7-bit messages that have the kind's sub-id and the size required by the version and by the length fields in the message, and as<view>() yields a view for exactly these.", "quantifier": "all SysEx7 messages", "why_tests_cant": "Short malformed messages.", "anchors": ["inc/midi/capability_inquiry.h", "src/capability_inquiry.cpp"]}
{"id": "C54", "title": "MIDI-CI messages are transported unchanged", "statement": "A MIDI-CI message made by the library consists of 7-bit bytes if and only if the arguments it copies as bytes (device id, profile bytes, status bytes, texts and payloads) are 7-bit; all other arguments never matter. A message made from arguments in range is a valid SysEx7 and arrives unchanged after packetising as SysEx7 and collecting, and also after conversion of the packets to MIDI 1 bytes and parsing with a SysEx callback. As SysEx8 exactly the messages with a payload arrive unchanged; those that only have the common header (profile inquiry, process inquiry capabilities inquiry, MIDI message report end, version 1 NAK) lose the last byte of the destination MUID: recorded as a refutation. (Nothing checks the copied bytes, not even a debug build: recorded as a refutation.)", "quantifier": "all arguments of all constructors including out-of-range ones; all groups, all collector and parser histories, all stream ids", "why_tests_cant": "Full argument ranges.", "anchors": ["inc/midi/capability_inquiry.h", "src/capability_inquiry.cpp"]}
{"id": "C55", "title": "Property exchange headers are well-formed JSON", "statement": "The header text built from a resource or status and options parses as a JSON object with exactly these keys and values in order, for all keys and values without characters that need escaping and non-empty option values that are not digit sequences JSON forbids; an option value that is a JSON integer becomes a number, any other a text. Every property exchange constructor puts exactly its arguments into the header under the documented keys, and the message reads back. (An empty option value reads outside the text; '-' and '007' give malformed JSON; nothing is escaped; a message text of digits becomes a number: recorded as refutations.)", "quantifier": "all strings over the unescaped alphabet, any number of options, all 32-bit status values, all 17 constructors", "why_tests_cant": "Unbounded strings.", "anchors": ["inc/midi/capability_inquiry.h", "src/capability_inquiry.cpp", "src/capability_inquiry.cpp: make_rjson, is_number"]}
{"id": "C56", "title": "Note numbers and pitches convert exactly", "statement": "A note number turned into a 7.9 or 7.25 pitch is exactly that number of semitones and reports the same note number again; widening a 7.9 pitch to 7.25 keeps the pitch value and note number; the default pitch bend sensitivity is exactly two semitones. (Note numbers of 128 and more overflow the shift of the 7.25 pitch constructor; recorded as a refutation.)", "quantifier": "all 7-bit note numbers, all 16-bit pitches", "why_tests_cant": "Tests sample a few notes; the claim is about every note and every fractional pitch.", "anchors": ["inc/midi/types.h: pitch_7_9, pitch_7_25, pitch_bend_sensitivity"]}
{"id": "C57", "title": "Utility and jitter reduction messages keep their fields", "statement": "A utility message constructed with any status byte and 16-bit payload has type 0, no group bits, and returns status and payload; jitter reduction clock and timestamp messages carry the full 16-bit timestamp in the architected place.", "quantifier": "all status bytes and 16-bit payloads and timestamps", "why_tests_cant": "2^24 combinations; byte order or masking errors show only for particular values.", "anchors": ["inc/midi/utility_message.h: make_utility_message, utility_message_view", "inc/midi/jitter_reduction_timestamps.h: jr_message, jr_clock_message, jr_timestamp_message"]}
{"id": "C58", "title": "The clock follower follows the fastest clock", "statement": "After any history of clocks and messages, jitter() is the difference between the longest and the shortest transmission delay of all clocks received, the security offset is the maximum of 2 ms and 1.2 times that, and a message is scheduled at its sender time plus the shortest delay plus the offset, or later only if that would be before the last clock or an earlier message. (A message stamped before the last clock is scheduled about 2.1 s late; recorded as a refutation.)", "quantifier": "all histories of clocks with gaps below 2^16 ticks and messages, all reception times", "why_tests_cant": "The state summarises an unbounded history; a drift error can show after any number of clocks and wrap-arounds.", "anchors": ["src/jitter_reduction_timestamps.cpp: process_clock, schedule_message, update_stats, recalc_security_offset"]}
{"id": "C59", "title": "Clock follower arithmetic does not overflow", "statement": "No call overflows 64-bit nanosecond arithmetic as long as reception times do not go backwards and observed time span plus 2.1 s per clock stays below 1/12 of the range (about 24 years). (Beyond, the security offset computation overflows; recorded as a refutation.)", "quantifier": "all histories of clocks, messages, resets and offset settings", "why_tests_cant": "Jitter accumulates over the whole history; a test cannot run for years.", "anchors": ["src/jitter_reduction_timestamps.cpp: process_clock, update_stats, recalc_security_offset, schedule_message"]}
{"id": "C60", "title": "Universal SysEx classification is total and consistent", "statement": "Type, subtype and device id of any SysEx can be asked for without leaving the message; they are 0, 0 and 0xFF when the message is not a universal SysEx or too short, and otherwise are the bytes at the architected positions, the type combined with the realtime or non-realtime id. Changing the device id changes nothing else. The size a view reports is the total size without the id.", "quantifier": "all SysEx messages of any length, all device ids", "why_tests_cant": "Message length and contents are unbounded; an out of range read shows only for particular lengths.", "anchors": ["inc/midi/universal_sysex.h: is_universal_sysex_message, universal_sysex_type_of, universal_sysex_subtype_of, universal_sysex_device_id_of, message_view, message::set_device_id"]}
{"id": "C61", "title": "MIDI-CI process inquiry messages round trip", "statement": "Process inquiry capabilities and MIDI message report messages: construction from arguments in range succeeds, the bytes are the specified ones, exactly the views of the kind accept the message, and the accessors return the arguments.", "quantifier": "all arguments in range", "why_tests_cant": "Full argument ranges.", "anchors": ["inc/midi/capability_inquiry.h", "src/capability_inquiry.cpp"]}
{"id": "C62", "title": "What MIDI-CI constructors write and check", "statement": "Given arguments of the C++ parameter types, every MIDI-CI constructor of a release build writes the specified bytes, every field reduced to its width. A debug build writes the same bytes if every asserted condition holds and stops with an assertion failure otherwise. Documented arguments fulfil the asserted conditions.", "quantifier": "all constructors, all argument values of the parameter types, both build types", "why_tests_cant": "Full argument ranges, lists and texts of any length.", "anchors": ["inc/midi/capability_inquiry.h", "src/capability_inquiry.cpp"]}
{"id": "C63", "title": "Floating point values are scaled, clamped and ordered", "statement": "velocity and controller_value can be constructed from every float or double that is not NaN: numbers up to 0 and minus infinity give 0, numbers from 1 and plus infinity the maximum, numbers between are scaled to the maximum with an error of at most 1, and a greater number never gives a smaller value; pitch_bend likewise from -1 to 1 (error about 1 from double, at most 513 from float). In the other direction the results are finite, 0, centre and maximum give exactly 0, 1/2 and 1 (pitch_bend -1, 0 and 1), the halves below and above the centre are linear up to one rounding, and greater values give greater numbers. (NaN is refuted: the conversion is undefined.)", "quantifier": "every float and double, infinities included; all 16-bit and 32-bit values", "why_tests_cant": "2^64 doubles, and rounding at every step; monotonicity ranges over pairs.", "anchors": ["inc/midi/types.h: from_float_0_1, to_float_0_1, velocity, controller_value, pitch_bend"]}
{"id": "C64", "title": "Pitches are the nearest fixed point numbers", "statement": "pitch_7_9 and pitch_7_25 constructed from any finite float or double are the number rounded to the nearest multiple of 2^-9 or 2^-25, halves up, limited to 0 and the greatest value; plus infinity and NaN give the greatest value, minus infinity 0. as_double() is exact for both, as_float() for pitch_7_9; pitch_7_25::as_float() is within 128 steps. as_double() and pitch_7_9::as_float() are at least 0 and below 128, pitch_7_25::as_float() for values below 0xFFFFFF80 only (for those above it is 128: refuted).", "quantifier": "every float and double including infinities and NaN; all 16-bit and 32-bit values", "why_tests_cant": "2^64 doubles; rounding near halves and near the limits.", "anchors": ["inc/midi/types.h: pitch_7_9, pitch_7_25"]}
{"id": "C65", "title": "Pitch increments and detuning", "statement": "A pitch_increment constructed from any finite float, or any finite double but those just above -64, is the number rounded to the nearest multiple of 2^-25, halves away from zero, limited to 32 bits. Doubles above -64 by less than half a step overflow (exactly characterised and refuted). Adding a finite number of semitones to a pitch_7_25 yields the exact sum of the pitch and the rounded number, limited to what a pitch can be.", "quantifier": "every finite float and double, all pitches", "why_tests_cant": "2^64 doubles times 2^32 pitches; the overflow affects a handful of doubles.", "anchors": ["inc/midi/types.h: pitch_increment, pitch_7_25::operator+"]}
{"id": "C66", "title": "SysEx data packets are built byte by byte and read back", "statement": "The plain data messages consist of type and status only, and are recognised by their type. Exactly the packets of type 3 (5) with a format nibble of at most 3 and a byte count of 0 to 6 (1 to 14) are recognised as SysEx 7 (SysEx 8) packets and have a view. On these all accessors return the named fields. Adding a byte to a packet with room appends it to the payload (seven bits for SysEx 7), keeps type, group, format and stream id and all other bytes; a full packet asserts. Starting from any of the make functions, adding any sequence of up to 6 (13) bytes yields exactly the specified 16 bytes. The other setters change only their field. Positions outside of the packet are rejected by an assertion. (Groups above 15 assert for SysEx 7 but produce a packet of another type for SysEx 8: refuted.)", "quantifier": "all packets, all payloads that fit, all four formats, groups and stream ids", "why_tests_cant": "Payloads of up to 13 arbitrary bytes on top of arbitrary packet contents.", "anchors": ["inc/midi/data_message.h: sysex7_packet, sysex7_packet_view, make_sysex7_*", "inc/midi/extended_data_message.h: sysex8_packet, sysex8_packet_view, make_sysex8_*"]}
{"id": "C67", "title": "A MIDI 2 message that passes through MIDI 1 comes back rounded", "statement": "Every MIDI 2 message that translates to MIDI 1 translates back, to a message of the same kind, group, channel and note, controller or program whose value is less than one step of the MIDI 1 scale away from the original; the least, centre and greatest values come back unchanged (note-on velocities below the least of MIDI 1 become that one). A second pass changes nothing, for any packet that has a translation. Greater values are never translated to smaller ones.", "quantifier": "all MIDI 2 channel voice messages (second pass: all packets), groups and channels", "why_tests_cant": "32-bit values; 2^64 packets.", "anchors": ["inc/midi/channel_voice_message.h: as_midi1_channel_voice_message, as_midi2_channel_voice_message", "inc/midi/types.h: upsample_*, downsample_*"]}
{"id": "C68", "title": "A session survives the way through a MIDI 1 byte stream", "statement": "Take any sequence of system common and channel voice messages and SysEx messages with non-empty 7-bit payload, carried by packets, with real-time packets anywhere between the packets (also inside a SysEx). Converting every packet with to_midi1_byte_stream and feeding the bytes to a parser in any state gives back exactly the same packets in the same order if the packets are on the parser's group and every SysEx fills its packets; otherwise the packets of the same messages on the parser's group, every SysEx refilled to six bytes per packet, with the same real-time packets. A parser with a SysEx callback delivers every SysEx whole, in its place.", "quantifier": "all message sequences, payload lengths and divisions, groups, insertions of real-time messages, parser states", "why_tests_cant": "Unbounded sequences, payloads, divisions and interleavings.", "anchors": ["src/midi1_byte_stream.cpp: to_midi1_byte_stream, midi1_byte_stream_parser::feed", "inc/midi/midi1_byte_stream.h"]}
{"id": "C69", "title": "Messages of several senders are told apart", "statement": "On one connection any number of messages are sent with send_sysex7 on each of the 16 groups, their packets interleaved in any way with each other and with packets of other kinds. A sysex7_collector that is fed the packets of one group, whatever it was fed before, delivers exactly the messages sent on that group, in order. The same holds for SysEx8 with one collector for each pair of group and stream id. A single collector for several groups does not tell them apart.", "quantifier": "all message lists per group (and stream), all interleavings, all collector states", "why_tests_cant": "Unbounded numbers of messages, lengths and interleavings.", "anchors": ["inc/midi/sysex.h: send_sysex7, send_sysex8", "src/sysex_collector.cpp: sysex7_collector::feed, sysex8_collector::feed"]}
{"id": "C70", "title": "Callbacks may call the parser that invoked them", "statement": "Callbacks of midi1_byte_stream_parser may call enable_callbacks, set_group and reset, callbacks for real-time and channel voice messages and for a complete SysEx may also feed further bytes, to any depth, as long as a channel voice callback leaves no system common message and a SysEx callback no SysEx unfinished. Such calls never fault, and what is posted is what would be posted if the calls were made after feed() has returned; only while a SysEx arrives in packets does a new group apply to the next packet already and is reset() without effect. Feeding from the callback for a SysEx packet is not allowed (it can write outside of the packet).", "quantifier": "all call sequences, all trees of calls made by callbacks, all bytes and groups, with and without SysEx callback", "why_tests_cant": "The calls form trees of unbounded depth and breadth, interleaved with every parser state.", "anchors": ["src/midi1_byte_stream.cpp: midi1_byte_stream_parser::feed, system_realtime, system_common, channel_voice, sysex_continue, sysex_end", "inc/midi/midi1_byte_stream.h: enable_callbacks, set_group, reset"]}
{"id": "C71", "title": "Callbacks may call the collector that invoked them", "statement": "The callback of a sysex7_collector or sysex8_collector may call reset and feed, to any depth: after reset, or after a message of several packets if the next SysEx packet begins a message, it may feed any packets as long as it leaves no message unfinished; packets of other kinds can always be fed. The messages delivered are those that would be delivered if the calls were made after feed() has returned. Without reset, a message fed from the callback of a single packet message is appended to that message, and a message left unfinished is lost. Whatever else a callback does - feed anything, call reset, change the limit or set another callback, at any depth - nothing is accessed out of bounds, and the collector then works like a new one: after reset, or at once if the last feed invoked the callback, as far as the limit set then leaves room.", "quantifier": "all call sequences, all trees of calls made by callbacks, all packets, all size limits", "why_tests_cant": "The calls form trees of unbounded depth and breadth, interleaved with every collector state.", "anchors": ["src/sysex_collector.cpp: sysex7_collector::feed, sysex8_collector::feed, reset, set_max_sysex_data_size"]}
{"id": "C72", "title": "Callbacks may throw", "statement": "Callbacks of midi1_byte_stream_parser may throw any time except for packets of a SysEx: a client that catches the exception and goes on observes the same callbacks as if nothing had been thrown; feeding a buffer stops at the byte whose callback threw, and the parser goes on as if fed the bytes up to there. The callback of a SysEx collector may throw if the client calls reset() before the next SysEx packet, or if the message delivered had several packets and the next SysEx packet begins a message: the same messages are delivered as if nothing had been thrown. Outside of these conditions, later bytes are written after the end of the SysEx packet (and outside of it), a SysEx goes on after its end, and the data of a message are delivered again in front of the next one.", "quantifier": "all call sequences, all throwing behaviours of the callbacks (different for each call), all bytes, packets, groups and size limits", "why_tests_cant": "Exceptions can interrupt any call of an unbounded history, in any combination.", "anchors": ["src/midi1_byte_stream.cpp: midi1_byte_stream_parser::feed, system_realtime, system_common, channel_voice, sysex_continue, sysex_end", "src/sysex_collector.cpp: sysex7_collector::feed, sysex8_collector::feed"]}
{"id": "C73", "title": "A SysEx describes itself correctly", "statement": "operator== and != decide whether manufacturer id and data are the same; empty() holds exactly for default constructed and cleared messages; is_7bit() holds exactly if every byte is below 128 and is_8bit() exactly if some byte is not; is_valid() holds exactly if additionally the manufacturer id consists of three 7-bit bytes; total_data_size() of a message with non-zero valid manufacturer id is the number of bytes transmitted between 0xF0 and 0xF7, and the number of SysEx7 packets is this size divided by six, rounded up. (For SysEx8 it is never the number of bytes sent; recorded as refutation.)", "quantifier": "all messages: all 32-bit manufacturer ids and all byte sequences", "why_tests_cant": "Messages have unbounded length; the size agreement needs every id class and every length modulo the packet size.", "anchors": ["src/sysex.cpp: total_data_size, empty, is_7bit, is_8bit, clear", "inc/midi/sysex.h: operator==, operator!=, sysex7::is_valid, send_sysex7, send_sysex8"]}
{"id": "C74", "title": "Output is bounded by input", "statement": "Whatever is fed to midi1_byte_stream_parser, each byte accounts for at most one callback and for at most one byte of SysEx payload posted, and the parser never stores more data bytes than it was fed. Whatever is fed to a SysEx collector, each SysEx packet accounts for at most one message, and the data delivered together with the data stored never exceed the payload of the packets fed.", "quantifier": "all call sequences, all bytes, packets, groups and size limits", "why_tests_cant": "A bound over unbounded histories, including interrupted, oversized and reset messages.", "anchors": ["src/midi1_byte_stream.cpp: midi1_byte_stream_parser::feed", "src/sysex_collector.cpp: sysex7_collector::feed, sysex8_collector::feed"]}
{"id": "C75", "title": "Memory that is refused loses nothing if the call is repeated", "statement": "When the allocator of a SysEx vector refuses memory, feed() of midi1_byte_stream_parser, sysex7_collector and sysex8_collector, and set_max_sysex_data_size(), end with its exception. If the caller repeats such a call until it succeeds, then everything posted or delivered is the same as with memory always available. If instead the caller gives a packet up, and calls reset() or feeds no further packet of that message, everything else is delivered as if that packet had never been fed. An F0 refused while callbacks are enabled has begun the SysEx nevertheless. (Giving up a single byte or packet and going on delivers a message with a hole, and an F0 refused while callbacks are disabled may lead to a delivery that would not take place with memory; both are recorded as refutations.)", "quantifier": "all call sequences, all bytes and packets, all patterns of refused allocations, all growth strategies of the allocator that the standard permits, all size limits", "why_tests_cant": "Every allocation of every history may fail; tests with a failing allocator cover single points.", "anchors": ["inc/midi/sysex.h: sysex::data_allocator, NIMIDI2_CUSTOM_SYSEX_DATA_ALLOCATOR", "src/midi1_byte_stream.cpp: sysex_start, sysex_continue_callback, sysex_end_callback", "src/sysex_collector.cpp: sysex7_collector::feed, sysex8_collector::feed, set_max_sysex_data_size"]}
{"id": "C76", "title": "Memory is asked for only where expected", "statement": "A midi1_byte_stream_parser without SysEx callback never asks for memory. With a SysEx callback only feed() of F0, or of a data byte while the last status fed is F0, asks for memory, and at most one request is made in the life of the parser if no more than 1025 data bytes ever follow each other; at most k+1 if no more than 1024 * 2^k + 1 do (k <= 4). A SysEx collector whose limit is set to n, 0 < n <= 16384, asks for memory then and never again, whatever is fed, unless the limit is raised or removed. A collector without limit asks at most eight times in its life if no message has more than 16384 bytes. (Above 16384 every message asks again; recorded as refutation.)", "quantifier": "all call sequences, all bytes and packets, all groups, all limits within the bounds given", "why_tests_cant": "A real-time client relies on the absence of allocations in every history; tests count them for single messages.", "anchors": ["src/midi1_byte_stream.cpp: sysex_start, sysex_continue_callback, reset", "src/sysex_collector.cpp: feed, reset, set_max_sysex_data_size", "src/sysex.cpp: sysex::clear", "inc/midi/sysex.h: sysex::data_allocator"]}
{"id": "C77", "title": "The documented packet handler treats each message the same in both protocols", "statement": "The packet handler of the documentation (as_note_on_view and the other views tried in turn) calls for each MIDI 1 and MIDI 2 channel voice message exactly the handler meant for it, with the full contents; a MIDI 1 message and its MIDI 2 translation lead to the same call with the same arguments; a MIDI 1 note-on of velocity 0 is a note-off. For arbitrary packets at most one handler is called, with arguments in range, and other message types call none; only a MIDI 1 pitch bend with an eight-bit data byte is undefined (refuted). Fed with the packets of midi1_byte_stream_parser, every message of a legal MIDI 1 stream, with running status and interleaved real-time bytes, is handled once and in order, and no bytes whatever lead to undefined behaviour. A note-on made by make_midi1_note_on with velocity below 512 is handled as note-off (refutation of the expected). The filters recommended before collectors change nothing.", "quantifier": "all contents, groups and channels; all packets; all byte streams, parser states and call sequences", "why_tests_cant": "The documentation asserts this for every message of both protocols; combinations of status, contents and stream position are unlimited.", "anchors": ["docs/channel_voice_message.examples.cpp: processor", "docs/midi1_byte_stream.examples.cpp", "docs/sysex_collector.examples.cpp", "inc/midi/channel_voice_message.h: is_note_on_message, get_note_nr, get_note_velocity, get_note_pitch and the others"]}
{"id": "C78", "title": "Every received MIDI-CI message a view accepts reads as its bytes say", "statement": "For every message of seven-bit bytes, whoever made it, and every MIDI-CI view class: the view accepts the message exactly if its bytes are a universal SysEx header of one of the sub-ids of the class followed by the fields of the class (identity, status, length-prefixed data, profile lists, property header and chunk with consistent chunk numbers, ...) and possibly further bytes; then the accessors return these fields: device, version, MUIDs and each field with its value, lists in order with the stated number of elements, fields absent in version 1 with their defaults, and has_enabled_profiles and has_disabled_profiles agree with the numbers. Trailing bytes do not change what is returned, and no message can be read in two ways. With bytes above 0x7F a view may report 128 enabled profiles and at the same time that it has none (refuted).", "quantifier": "all 7-bit SysEx messages, all view classes, all field values, list lengths, data lengths and trailing bytes, both assertion modes", "why_tests_cant": "Messages come from other devices with any contents, lengths and trailing bytes; the layout of later fields depends on the values of earlier ones.", "anchors": ["inc/midi/capability_inquiry.h: discovery_inquiry_view, discovery_reply_view, endpoint_information_reply_view, nak_view, ack_view, invalidate_muid_view, profile_inquiry_reply_view, profile_details_reply_view, profile_specific_data_view, property_exchange::property_data_message_view, property_exchange_capabilities_view, process_inquiry_capabilities_reply_view, midi_message_report_inquiry_view, midi_message_report_reply_view", "src/capability_inquiry.cpp: validate functions and accessors"]}
{"id": "C79", "title": "Jitter reduction works from the sender's clock to the receiver's schedule", "statement": "Let a sender stamp clocks and messages with jr_clock::now(), less than 2.097 s after the last clock, and a receiver feed the timestamps of the packets to a jr_clock_follower, with arbitrary transmission delays and an arbitrary offset between the two system clocks. Stamps count ticks of 32 us modulo 65536 since the first use, so that the difference of two stamps is the time between them up to one tick (it can be less: the repository's own, skipped, test expects it not to be; refuted). The measured jitter is the range of the delays of the clocks so far up to one tick, and a message is scheduled one security offset after the time at which it would have arrived with a delay between the shortest and the longest delay of a clock so far, up to one tick; with the shortest unless that would be before an earlier message or the arrival of a clock. A message not slower than the slowest clock is never scheduled in the past.", "quantifier": "all clock readings, delays, numbers of packets, wrap-arounds of the timestamp and clock offsets", "why_tests_cant": "Depends on real time, delays and arbitrarily long histories; the tests of the repository for this are skipped because they fail on some machines.", "anchors": ["src/jitter_reduction_timestamps.cpp: jr_clock::now, jr_clock_follower::process_clock, schedule_message, update_stats", "inc/midi/jitter_reduction_timestamps.h: jr_clock, jr_clock_message, jr_timestamp_message, jr_timestamp_t"]}
{"id": "C80", "title": "The limit of a collector can be changed while the collector is in use", "statement": "After any calls of feed, reset, set_callback and set_max_sysex_data_size, in any order: (a) a limit L set after a reset makes the collector deliver exactly what a new collector with the limit max(L, memory held) delivers, unless more than 16 KiB and more than L bytes are held; if a limit was set before first use and never removed, raising it to L has exactly the effect of a new collector with limit L; (b) no message larger than max(L, memory held) is delivered, which is at most the largest limit if there always was one; (c) limits of n or more bytes, set, changed or removed at any time, even within a message, have no effect on messages of up to n bytes; (d) set_max_sysex_data_size called from the callback has the effect of calling it when feed has returned. Refuted: while more memory than the limit is held, a message may be delivered and the same message refused later.", "quantifier": "all call sequences, packets, limits, sizes; for (c) all standard libraries, otherwise all that allocate exactly what reserve asks for", "why_tests_cant": "Depends on the memory held after arbitrary histories and on every position in a message at which the limit may change.", "anchors": ["src/sysex_collector.cpp: set_max_sysex_data_size, feed, reset", "inc/midi/sysex_collector.h: sysex7_collector, sysex8_collector", "src/sysex.cpp: sysex::clear"]}
{"id": "C81", "title": "Two ways to receive SysEx from MIDI 1 bytes agree", "statement": "Feed the same bytes, with the same calls of set_group and reset anywhere between them, to a parser with SysEx callback and to a parser without one whose packets go to a sysex7_collector. Both report the same SysEx messages and the same other packets in the same order; only SysEx messages that end before their manufacturer id is complete may be missing from the first. This holds for new objects, and after any history from the first status byte (other than F7) on. It also holds for a new collector with a size limit, if no SysEx has more bytes than the limit. Refuted: with enable_callbacks(false) within a SysEx the first reports the whole message and the second one a message with a hole.", "quantifier": "all byte sequences (well-formed or not), all groups, all calls other than disabling callbacks, all histories of both parsers and of the collector, and every size limit not exceeded", "why_tests_cant": "Relates two implementations on every possible byte stream, including interrupted, nested and malformed ones.", "anchors": ["src/midi1_byte_stream.cpp: feed, sysex_start, sysex_continue_callback, sysex_end_callback, sysex_continue_packet, sysex_end_packet", "src/sysex_collector.cpp: sysex7_collector::feed", "inc/midi/midi1_byte_stream.h: midi1_byte_stream_parser"]}
{"id": "C82", "title": "The listed manufacturer ids can be used everywhere", "statement": "For every manufacturer constant the library lists: a SysEx with this id and any 7-bit data is valid and arrives unchanged through send_sysex7 and a collector and through MIDI 1 bytes and a parser; with any 8-bit data it arrives unchanged through send_sysex8 and a collector (outside the malformed lengths of C24); a device identity with this id survives an identity reply. Only the two universal ids make a universal SysEx, and two constants with different names have the same id exactly if they are those of focusrite and novation.", "quantifier": "all listed manufacturers, all data of any length, all collector and parser histories, all identities", "why_tests_cant": "Payloads and histories are unbounded.", "anchors": ["inc/midi/manufacturer.h: namespace manufacturer", "inc/midi/sysex.h: send_sysex7, send_sysex8", "inc/midi/universal_sysex.h: is_universal_sysex_message, identity_reply"]}
{"id": "C83", "title": "A bridge between two MIDI 1 connections is not noticed", "statement": "Feed any bytes to a parser and send its packets as MIDI 1 bytes again. A receiving parser, with or without SysEx callback, with any group and after any history, reports for the new bytes exactly what a new parser with its configuration reports for the original bytes. Doing it once more changes neither packets nor bytes. If the packets in between are translated to MIDI 2 where a translation exists and then back to MIDI 1, the receiver gets the same, except that notes on with velocity 0 have become notes off with velocity 64.", "quantifier": "all byte sequences (well-formed or not), all groups, with and without SysEx callback, all histories of the receiving parser", "why_tests_cant": "Byte streams are unbounded and interrupted SysEx, running status and real-time bytes combine freely.", "anchors": ["src/midi1_byte_stream.cpp: midi1_byte_stream_parser::feed, to_midi1_byte_stream", "src/midi1_byte_stream.cpp: sysex_continue_packet, sysex_end_packet", "inc/midi/channel_voice_message.h: as_midi1_channel_voice_message, as_midi2_channel_voice_message"]}
{"id": "C84", "title": "Packets survive a connection of 32-bit words", "statement": "Send the first size() words of each packet over a connection, and on the other side collect words until there are as many as size() of the packet collected. For any packets the receiver gets the same number of packets, each equal (operator==) to the one sent, and no word is left over. The words may arrive in pieces of any size. Whatever words arrive, the packets received followed by the words still waiting are exactly these words. A packet made by the constructors with arguments in range, by translation of any packet, by division of SysEx or text, by from_midi1_byte_stream, by a MIDI 1 parser or by set_group on any of these arrives identical in all four words: nothing is stored in words that size() leaves out.", "quantifier": "all packet sequences, all word sequences and divisions of them, all constructor arguments, all histories of a parser", "why_tests_cant": "Sequences are unbounded, a wrong size of one type shifts all later packets, and a stray bit in an unsent word needs a particular argument.", "anchors": ["inc/midi/universal_packet.h: size, operator==, set_group", "inc/midi/channel_voice_message.h", "inc/midi/midi1_channel_voice_message.h", "inc/midi/midi2_channel_voice_message.h", "inc/midi/data_message.h", "inc/midi/extended_data_message.h", "inc/midi/sysex.h", "inc/midi/stream_message.h", "inc/midi/flex_data_message.h", "src/midi1_byte_stream.cpp: midi1_byte_stream_parser", "inc/midi/midi1_byte_stream.h: from_midi1_byte_stream"]}
{"id": "C85", "title": "The group influences nothing but the group", "statement": "Rename the groups in all calls of a MIDI 1 parser (constructor and set_group, also in the middle of messages): its callbacks get the same packets and SysEx messages with the groups renamed. Setting the group of any packet and translating it to the other protocol, or the other way round, gives the same packet or in both cases none. MIDI 1 bytes, all predicates and all accessors other than the group are the same for a packet in every group. SysEx collectors, after any history and among any other calls, deliver the same when every packet fed is moved to some group. send_sysex7 and send_sysex8 for another group send the same packets moved to that group.", "quantifier": "all renamings of groups, all sequences of parser calls, all packets, all sequences of collector calls and any group for each packet, all SysEx messages", "why_tests_cant": "It compares two runs for all inputs; the group sits in the same word as the type, status and data, so a mask or shift that is wrong for one group shows only there.", "anchors": ["inc/midi/universal_packet.h: set_group", "src/midi1_byte_stream.cpp: midi1_byte_stream_parser, to_midi1_byte_stream", "inc/midi/channel_voice_message.h: as_midi1_channel_voice_message, as_midi2_channel_voice_message, is_..., get_...", "src/sysex_collector.cpp: sysex7_collector::feed, sysex8_collector::feed", "inc/midi/sysex.h: send_sysex7, send_sysex8"]}
{"id": "C86", "title": "Clock followers depend on time differences only", "statement": "Take any history of process_clock, schedule_message, set_security_offset and reset calls of a jr_clock_follower. If all times of the receiver are d later (construction included), every message is scheduled d later with the same security offset and measured jitter, unless 64-bit arithmetic overflows. If the sender's clock shows k ticks more, modulo 2^16, every call returns exactly the same. If the follower had been constructed at another time before the clocks were received, every call returns exactly the same. (A first clock received at the very time of construction is the exception; recorded as a refutation.)", "quantifier": "all histories of calls, all shifts of either clock, all times of construction", "why_tests_cant": "It compares two runs over unbounded histories; a wrap-around handled wrongly or an absolute time used by mistake shows only for some shifts.", "anchors": ["src/jitter_reduction_timestamps.cpp: process_clock, schedule_message, reset", "inc/midi/jitter_reduction_timestamps.h: jr_timestamp_t::operator-, jr_clock_follower"]}
{"id": "C87", "title": "The channel influences nothing but the channel", "statement": "Rename the channels in the status bytes fed to a MIDI 1 parser, by any map, even one that merges channels: its callbacks get the same packets and SysEx messages with the channels renamed. Changing the channel of any channel voice packet and translating it to the other protocol, or the other way round, gives the same packet or in both cases none; its MIDI 1 bytes differ in the low nibble of the first byte only. All predicates and all accessors other than the channel return the same for every channel.", "quantifier": "all maps of channels, all sequences of parser calls, all packets of types 2 and 4 including malformed ones", "why_tests_cant": "It compares two runs for all inputs; the channel shares a byte with the status, so a comparison that forgets the mask shows only for some channels.", "anchors": ["src/midi1_byte_stream.cpp: midi1_byte_stream_parser, to_midi1_byte_stream", "inc/midi/channel_voice_message.h: as_midi1_channel_voice_message, as_midi2_channel_voice_message, is_..., get_...", "inc/midi/midi1_channel_voice_message.h", "inc/midi/midi2_channel_voice_message.h"]}
{"id": "C88", "title": "Any traffic can be looked at", "statement": "A receiver feeds every packet that arrives to both SysEx collectors and looks at each packet and each completed message in every way the library offers: classification, channel voice handler of the documentation, translation, MIDI 1 bytes, stream, flex, utility and system views, printing, universal SysEx, identity and all MIDI-CI views with all their accessors. It never meets undefined behaviour or a failing assertion whatever arrives, if it skips MIDI 1 pitch bends with eight-bit data and universal non-realtime messages of less than four data bytes; without these two precautions it meets one exactly when such a packet arrives or such a message is completed, and otherwise sees the same. From a MIDI 1 byte parser only the second can arrive.", "quantifier": "all sequences of 128-bit packets mixed with resets, limits and callback changes, all allocators, debug and release; all sequences of calls of the MIDI 1 parser with any bytes", "why_tests_cant": "Robustness against every packet sequence; a test or a fuzzer samples a few of the 2^128 packets, and the exact set of exceptions is a claim about all others.", "anchors": ["inc/midi/sysex_collector.h", "inc/midi/capability_inquiry.h: as, *_view", "inc/midi/universal_sysex.h", "inc/midi/channel_voice_message.h: get_channel_pitch_bend_value", "inc/midi/stream_message.h", "inc/midi/flex_data_message.h", "src/midi1_byte_stream.cpp", "src/universal_packet.cpp: operator<<"]}
{"id": "C89", "title": "A property of any size is exchanged in chunks", "statement": "A client divides the body of a property into chunks and makes the messages with the constructors of the library (property data reply with a header, a status or a status and message, set property inquiry with or without options, subscription inquiry). A client that reads them with the property data view and puts together chunks of the same kind, source and request id obtains the header and the whole body exactly once, whatever it received before and whatever arrives between the chunks: chunks of other transfers, messages for others, messages that are no property data. What it receives for one transfer depends on the messages of that transfer only, and it never meets undefined behaviour, also for messages not made by the library. The same holds when the messages travel as SysEx7 packets among the traffic of sixteen groups, or as MIDI 1 bytes among short and real-time messages.", "quantifier": "all transfers with up to 16383 chunks of up to 16383 seven-bit bytes, all openings, all states of the receiver, all sequences of SysEx messages around the chunks, all interleavings of packets, all parser and collector histories", "why_tests_cant": "The number and sizes of chunks and the interleavings with other traffic are unbounded; a test covers a few of them.", "anchors": ["inc/midi/capability_inquiry.h: make_get_property_data_reply, make_set_property_data_inquiry, make_subscription_inquiry, property_data_message_view", "src/capability_inquiry.cpp: property_data_message_view::validate, make_property_data_message", "inc/midi/sysex.h: send_sysex7", "inc/midi/sysex_collector.h", "src/midi1_byte_stream.cpp"]}
{"id": "C90", "title": "What an endpoint says of itself is found out", "statement": "An endpoint answers discovery requests with the constructors and senders of stream messages: endpoint information, device identity, name, product instance id, stream configuration, and information and names of its function blocks. A browser that asks with any filter and reads the answers with the views obtains exactly what it asked for, field by field and text by text, whatever it received before and whatever packets of other types arrive between the answers. Names of any length are put together from their packets also when packets of other texts come between them; what is obtained for one text depends on the packets of that text only. Requests not made by the library are answered by their bits; neither side ever meets undefined behaviour.", "quantifier": "all endpoint descriptions with fields in range, texts of any length and any number of function blocks below 128, all filters and block numbers, all request packets, all states of the browser, all well-formed packets between the answers", "why_tests_cant": "Texts, blocks, filters and interleavings are unbounded; a test covers a few.", "anchors": ["inc/midi/stream_message.h: make_endpoint_discovery_message, endpoint_discovery_view, make_endpoint_info_message, send_endpoint_name, send_product_instance_id, make_function_block_discovery_message, function_block_discovery_view, make_function_block_info_message, send_function_block_name"]}
{"id": "C91", "title": "Flex data texts of any length are told apart and put together", "statement": "A client divides texts (titles, lyrics and the like) into pieces of 12 bytes and sends each with make_flex_data_text_message as start, continue, end or complete. A client that reads format and text with the flex data view and joins pieces with the same group, address, channel, bank and status receives every text unchanged and in order, whatever it received before and whatever arrives between the packets: texts about other keys, tempo and other flex data messages, other packets. What it receives about one key depends on the packets with that key only. The sender never violates an assertion and the receiver never meets undefined behaviour, also for packets not made by the library. Bytes of texts are 1 to 255, so UTF-8 passes; a zero ends the text of its packet.", "quantifier": "all sequences of texts of any length, all keys in range, all states of the receiver, all well-formed packets between", "why_tests_cant": "Lengths and interleavings are unbounded; a test covers a few.", "anchors": ["inc/midi/flex_data_message.h: make_flex_data_text_message, flex_data_message_view, as_flex_data_message_view, payload_as_string"]}
{"id": "C92", "title": "MIDI-CI devices find each other", "statement": "Devices send make_discovery_inquiry to everybody, answer inquiries of others with make_discovery_reply, say goodbye with make_invalidate_muid_message, and read what arrives with is_capability_inquiry_message, the two discovery views and the invalidate MUID view. After one inquiry the asked device knows the asker's MUID, identity, categories and maximum message size and keeps what it knew of others; the asker knows the answering device whatever else arrives before and after, as long as no other message is about that device. Any number of devices that answer in any order are all known afterwards and nobody else. A device that leaves is forgotten and only that one. What is known of a device depends on the messages about it only. Each inquiry from another device to this one or to everybody is answered exactly once, to its sender. Messages of any bytes and size lead to no violated assertion and no access out of bounds.", "quantifier": "all devices with fields in range and different MUIDs, all states of knowledge, all sequences of 7-bit messages before, between and after (8-bit for safety), all orders of answers", "why_tests_cant": "Numbers of devices, orders and messages between are unbounded.", "anchors": ["inc/midi/capability_inquiry.h: make_discovery_inquiry, make_discovery_reply, make_invalidate_muid_message, discovery_inquiry_view, discovery_reply_view, invalidate_muid_view, is_capability_inquiry_message"]}
{"id": "C93", "title": "A controller follows the profiles of a device", "statement": "A device answers profile inquiries with make_profile_inquiry_reply, obeys set profile on and off requests and reports each change with the enabled, disabled, added and removed notifications; a controller keeps a list of the device's profiles from the replies and notifications alone. Whatever 7-bit messages arrive at the device and whatever profiles it adds and removes, nothing fails. A controller that gets the device's messages in their order, with any messages of others between them, has the same list as the device for a channel, group or function block once the device has processed the controller's inquiry for it, or if the lists were the same before. A request sets exactly the profile it names and only if the device has it; an added profile is off, a removed one is gone, others are unchanged. Everything the device sends is 7-bit and carries its MUID. The controller survives messages of any bytes and sizes.", "quantifier": "all MUIDs, all lists of profiles (up to 16383 per channel, group or function block, the most a reply can count), all sequences of messages and changes, all interleavings with other senders, all states of the controller", "why_tests_cant": "Numbers of profiles, histories and interleavings are unbounded.", "anchors": ["inc/midi/capability_inquiry.h: make_profile_inquiry_message, make_profile_inquiry_reply, make_profile_on_request, make_profile_off_request, make_profile_enabled_notification, make_profile_disabled_notification, make_profile_added_notification, make_profile_removed_notification, profile_inquiry_view, profile_inquiry_reply_view, profile_id_view, profile_destination_view"]}
{"id": "C94", "title": "Copied and moved collectors and parsers carry on where the original was", "statement": "sysex7_collector, sysex8_collector and midi1_byte_stream_parser can be copied, assigned and moved at any time, even within a message: every object then delivers, call by call, what a single object delivers that received all calls of its ancestors, and objects do not affect each other. A collector that was moved from is usable again after reset, without callback and with its limit. Refuted: assigning a limited collector to one that holds more memory raises the limit; a collector that was moved from within a message and not reset delivers the rest of that message.", "quantifier": "all programs that call, copy, assign and move any number of objects in any order; collectors that were each given any limit, or none, before use, and are assigned to others without limit only if they have none and otherwise to those with the same or a smaller limit; without limits all standard libraries, with one those that allocate exactly what reserve asks for", "why_tests_cant": "Numbers of objects, orders of copies and calls, and the states in which copies are made are unbounded.", "anchors": ["inc/midi/sysex_collector.h: sysex7_collector, sysex8_collector", "inc/midi/midi1_byte_stream.h: midi1_byte_stream_parser", "inc/midi/sysex.h: sysex (copy and move)", "src/sysex_collector.cpp: feed, reset"]}
{"id": "C95", "title": "A view follows the message it refers to", "statement": "A MIDI-CI message may be edited while views of it exist: setting its device id, source or destination MUID, or appending data by any helper, keeps every view that accepts it valid. A view then returns the new device id or MUID and, in every other accessor, the same as before; views of other messages do not change. If the library made the message, the view tells the arguments of that call otherwise. In any program that receives, edits, views and reads messages nothing is undefined. Refuted: assigning another message to one a view refers to can make reading the view undefined.", "quantifier": "all messages and types of views, all edits with values in range, all programs that receive, edit, view and read any number of messages in any order", "why_tests_cant": "Messages, edits and orders of operations are unbounded, and every accessor of every type of view is affected.", "anchors": ["inc/midi/capability_inquiry.h: capability_inquiry_view and all views derived from it, message::set_source_muid, set_destination_muid", "inc/midi/universal_sysex.h: message_view, message::set_device_id", "inc/midi/sysex.h: sysex7::add_uint7, add_data, add_uint14, add_uint28, add_uint32, add_device_identity"]}
{"id": "C96", "title": "Every sounding note has the pitch its messages ask for", "statement": "A sound engine that starts and stops notes with the protocol independent predicates and getters and computes pitch + pitch_bend * sensitivity (channel and single note) sounds, after any messages of both protocols in any mixture, exactly the notes that were started and not stopped, each at the pitch given by its latest attribute or per-note controller, the latest bends and the latest sensitivities, limited to the range. Translating MIDI 1 messages to MIDI 2 changes nothing. A MIDI 2 performance that translates to MIDI 1 sounds there within 2^-12 of a semitone. The same holds for a stream of MIDI 1 bytes that goes through the byte stream parser, with running status, system messages and real-time bytes anywhere. Whatever packets arrive nothing is undefined but a MIDI 1 pitch bend with an eight-bit data byte. Whatever bytes arrive nothing is.", "quantifier": "all sequences of channel voice messages of both protocols on all groups and channels; all sequences of 128-bit packets; all byte streams and parser calls", "why_tests_cant": "Sequences of messages are unbounded and every pitch depends on the whole history.", "anchors": ["inc/midi/channel_voice_message.h: is_note_on_message, is_note_off_message, get_note_pitch, get_channel_pitch_bend_value, as_midi1, as_midi2", "inc/midi/midi2_channel_voice_message.h: is_pitch_bend_sensitivity_message, get_pitch_bend_sensitivity_value, get_per_note_pitch_bend_value", "inc/midi/types.h: pitch_7_25, pitch_bend, pitch_bend_sensitivity, pitch_increment", "docs/types.md", "src/midi1_byte_stream.cpp: midi1_byte_stream_parser::feed"]}
{"id": "C97", "title": "A MIDI message report arrives complete", "statement": "A device answers a MIDI message report inquiry with a reply, the messages of its current settings that were asked for and that it supports, and an end message. The inquirer obtains exactly these settings, once, in their order and with unchanged values, together with the device id and the message types of the reply, whatever arrived before, whichever other packets are on the connection and whichever whole messages of other devices come between. After the end message it records no more. The device answers inquiries of others to it or to everybody and nothing else. Without a message of the device there is no report, and neither side can be harmed by what it receives.", "quantifier": "all settings of all eleven types on all channels, all masks, device ids and MUIDs, all earlier packets, all interleavings with other traffic and with whole messages of others; all messages of seven-bit bytes; all sequences of 128-bit packets", "why_tests_cant": "The sets of settings, the earlier traffic and the interleavings are unbounded.", "anchors": ["inc/midi/capability_inquiry.h: make_midi_message_report_inquiry, make_midi_message_report_reply, make_midi_message_report_end, midi_message_report_inquiry_view, midi_message_report_reply_view", "inc/midi/midi2_channel_voice_message.h: make_midi2_*, midi2_channel_voice_message_view", "inc/midi/channel_voice_message.h: is_*_message, get_*", "inc/midi/sysex_collector.h: sysex7_collector", "src/sysex.cpp: send_sysex7"]}
{"id": "C98", "title": "Two sides agree on a protocol and keep to it", "statement": "A host asks an endpoint for a protocol and for jitter reduction timestamps with stream configuration requests; the endpoint answers each with a notification, speaks the protocol it has agreed to from then on, translating the messages of its application, and puts timestamps before them if agreed. The last request counts: a protocol the endpoint supports is granted, otherwise it stays with the one it has, and the extensions are those asked for that it supports. The host hears exactly the messages that have a meaning in the protocol of the time, once, in their order, and whenever it knows a configuration, it is the one the endpoint is in: every message comes in the protocol and with or without its own timestamp accordingly. Other packets on the line in either direction change nothing, requests for protocols that do not exist included.", "quantifier": "all histories of requests, valid MIDI 1 and MIDI 2 channel voice messages with their times and other packets, all sets of supported protocols and extensions and all configurations to start from, all interleavings with other packets; all sequences of 128-bit packets", "why_tests_cant": "The histories and interleavings are unbounded.", "anchors": ["inc/midi/stream_message.h: make_stream_configuration_request, make_stream_configuration_notification, as_stream_configuration_view, stream_configuration_view", "inc/midi/channel_voice_message.h: to_midi1, to_midi2", "inc/midi/jitter_reduction_timestamps.h: jr_timestamp_message"]}
{"id": "C99", "title": "Several MIDI 1 connections can be merged into one", "statement": "A merge box parses the bytes of several MIDI 1 connections, passes real-time messages on at once, and keeps the line with a connection from the first to the last packet of a SysEx while other packets wait; the packets go out as MIDI 1 bytes. Whatever the connections send, with running status, real-time bytes and SysEx anywhere and in whatever order their bytes arrive, the receiver gets every message of every connection once, whole and in the order of its connection, the real-time messages in the order of arrival, and nothing else; nothing is left waiting. Of any packets and bytes whatever nothing is lost, duplicated or reordered within a connection, and packets wait only while another connection is within a SysEx. (Sending packets as they arrive is refuted: the receiver misses the SysEx.)", "quantifier": "all numbers of connections, all message sequences and real-time messages on them, all renderings to bytes, all arrival orders, all parser states; all sequences of 128-bit packets and of bytes", "why_tests_cant": "The number of interleavings of the connections grows exponentially with the length of the traffic.", "anchors": ["inc/midi/midi1_byte_stream.h: midi1_byte_stream_parser, to_midi1_byte_stream", "inc/midi/data_message.h: sysex7_packet_view, is_sysex7_packet", "inc/midi/universal_packet.h: is_system_message, status"]}
{"id": "C100", "title": "Sixteen MIDI 1 ports travel over one connection", "statement": "An interface parses the bytes of each of its sixteen MIDI 1 ports with a parser set to the group of the port, and transmits the packets as 32-bit words over one connection; a second interface collects the words, converts every packet with to_midi1_byte_stream and sends the bytes out of the port with the number of the packet's group. Whatever bytes arrive at the ports, in whatever order and in whatever pieces the words arrive, and whatever packets of other types are transmitted between them, a receiver behind each port reports exactly what it would report if it were connected to the port of the first interface directly; a receiver that works with packets gets on each group exactly the packets of that port. Over a connection in the MIDI 2 protocol (packets translated where possible and back) the same holds, except that notes on with velocity 0 arrive as notes off with velocity 64. (One parser for all ports is refuted: it mixes their messages.)", "quantifier": "all byte sequences on all ports, all interleavings, all divisions of the words into pieces, all other packets in between, with and without SysEx callback, all histories of the receiving parsers", "why_tests_cant": "Bytes, interleavings and divisions are unbounded, and a message of one port may be interrupted by any traffic of the others at any byte.", "anchors": ["inc/midi/midi1_byte_stream.h: midi1_byte_stream_parser, to_midi1_byte_stream", "inc/midi/universal_packet.h: universal_packet::group, size", "inc/midi/channel_voice_message.h: as_midi1_channel_voice_message, as_midi2_channel_voice_message", "src/midi1_byte_stream.cpp: midi1_byte_stream_parser::feed"]}
{"id": "C101", "title": "Errors on a connection stay local", "statement": "If parts of a MIDI 1 byte stream are lost, changed or replaced by anything, everything in between that starts with a status byte (messages with running status, SysEx and real-time bytes) is reported by midi1_byte_stream_parser exactly as it was sent, in its place. The same holds for SysEx7 and SysEx8 messages received by the unlimited collectors between arbitrary packets. If of the packets sent by send_sysex7 (or send_sysex8) for a sequence of messages any are lost, every message of which all packets arrive is delivered exactly, a message whose last packet is lost delivers nothing, every delivered message carries the manufacturer id of one that was sent, and the bytes delivered are bytes that were sent: none is invented, repeated or put in another order. (That a loss is noticed is refuted: a message with a lost packet in its middle is delivered without those bytes, and the beginning of one message may be joined to the end of the next.)", "quantifier": "all sequences of intact and damaged stretches, all bytes and packets in the damaged ones, all subsets of lost packets, all messages with a valid id (for SysEx8 except the sizes send_sysex8 miscounts, C25), all prior histories of parser and collectors for damage", "why_tests_cant": "The damage can be any bytes at any position, and every combination of lost packets leaves the receiver in another state.", "anchors": ["inc/midi/midi1_byte_stream.h: midi1_byte_stream_parser::feed", "inc/midi/sysex_collector.h: sysex7_collector::feed, sysex8_collector::feed", "inc/midi/sysex.h: send_sysex7, send_sysex8"]}
{"id": "C102", "title": "A property is received whole or not at all", "statement": "The messages that the property exchange constructors make for a property divided into chunks may be sent any number of times, and any of them may be lost, repeated or arrive in another order, among any other messages. As long as all messages with this kind, sender and request id are messages of this property, a receiver that reads them with property_data_message_view and puts consecutive chunks together obtains under that key nothing but the complete property, with its header and its body as sent. It obtains it whenever the messages arrive once in sequence, also after failed attempts, and it does not if one of them never arrives. (Refuted: the same for two properties that use the same request id one after the other; and the same when SysEx7 packets are lost instead of messages, where the rest of two messages with different request ids may read as one property.)", "quantifier": "all properties with valid arguments and any number and sizes of pieces (up to the 14-bit limits), all sequences of received messages whose messages of this key are messages of the property, in any order and multiplicity, all states of the receiver without an incomplete transfer under the key", "why_tests_cant": "Losses, repetitions and reorderings can be combined in unboundedly many ways, and the receiver's state depends on all messages before.", "anchors": ["inc/midi/capability_inquiry.h: property_exchange::make_get_property_data_reply, make_set_property_data_inquiry, make_subscription_inquiry, property_data_message_view", "inc/midi/sysex_collector.h: sysex7_collector::feed", "inc/midi/sysex.h: send_sysex7"]}
{"id": "C103", "title": "A property divided to fit is received by a device with limited memory", "statement": "A sender makes the first property exchange message without data, takes its total_data_size to see how many bytes a message of the size that the receiver has declared (the receivable maximum SysEx message size of the discovery, including 0xF0 and 0xF7) has left, and divides the body into pieces of that size, at most 16383 bytes each. This never fails, except exactly when there is no room for one byte or when more than 16383 pieces are needed; the number of messages is the size of the body divided by the room, rounded up, and at least one; no message is larger than the declared maximum. A receiver whose sysex7_collector is limited to that maximum or more by set_max_sysex_data_size gets every message of the group, and from them header and body of the property as given, for any interleaving of sixteen groups and other packets, as long as the other messages of its group respect the limit. (Refuted: the same when another sender exceeds the limit before; the rest of the refused message stays in the collector and the first message of the property no longer fits.)", "quantifier": "all headers and options that the constructors accept, all 7-bit bodies of any size, all declared maxima, all collector limits not below, all traffic of sixteen groups with other packets in any interleaving, release and debug builds", "why_tests_cant": "The sizes of header, body, declared maximum and limit are unbounded, and a single message that is one byte too large loses the whole property.", "anchors": ["inc/midi/capability_inquiry.h: property_exchange::make_get_property_data_reply, make_set_property_data_inquiry, make_subscription_inquiry, property_data_message_view, discovery::message_view::maximum_message_size", "inc/midi/sysex.h: sysex::total_data_size", "inc/midi/sysex_collector.h: sysex7_collector::set_max_sysex_data_size, feed", "inc/midi/sysex.h: send_sysex7"]}
{"id": "C104", "title": "Subscribers follow a property", "statement": "A device publishes a property, others subscribe to it and end their subscriptions with make_subscription_inquiry, and the publisher sends each new value (and, to a new subscriber, the present value) as subscription inquiries with the command full, in any number of chunks. What the publisher sends reaches all devices, each connection keeps the order but may be late; other messages may arrive in between, among them commands for other resources, and the publisher may send a device anything about other resources, with other subscription ids or with other commands. Whatever happens in whatever order, no call has undefined behaviour, and at any time the values a device has received are values that the property has had, in this order. When nothing is on the way any more, which any pending messages allow, each device whose last command was start has the present value as its last one. A device that has ended its subscription receives no value until it subscribes again. (Refuted: a command made without chunk arguments is received like other property data; it is chunk 0 of 0, and a receiver that puts chunks together ignores it.)", "quantifier": "all sequences of changes, subscriptions, ends and deliveries, any number of devices, all resource names and subscription ids that are texts, all values in any number and sizes of chunks (up to the 14-bit limits), all other messages that are not about subscriptions with the publisher", "why_tests_cant": "Deliveries, changes and commands interleave in unboundedly many ways; a value lost or out of order shows only in some of them.", "anchors": ["inc/midi/capability_inquiry.h: make_subscription_inquiry, property_exchange::property_data_message_view, as", "src/capability_inquiry.cpp: property_exchange::make_rjson, property_data_message_view::validate"]}
{"id": "C105", "title": "Properties shared by several devices are atomic", "statement": "A device holds properties; any number of others read them with make_get_property_data_inquiry and write them with make_set_property_data_inquiry, each with up to 128 requests at a time, distinguished by their request ids. The device answers a read with the value and a write with status 200, inquiries and answers in any number of chunks. The messages of one request keep their order; otherwise messages may be late and overtake each other, any may be lost, and other messages may arrive in between. Whatever is asked, delivered and lost in whatever order, no call has undefined behaviour, and what the users see is what an atomic memory shows: each request takes effect at one instant between being made and being answered, or not at all if it is never answered. If nothing is lost, a request without messages on the way has been answered, and delivering the messages of a request answers it whether or not those of others are delivered. In particular, who asks for a value after a write has been answered obtains what was written, if there is no other write. A device that gives up waiting must not use the request id again: if it does, the chunks of two writes may together be a value nobody wrote.", "quantifier": "all sequences of requests, deliveries and losses, any number of devices, resources and simultaneous requests, all values and all ways to divide them into chunks (up to the 14-bit limits), all other messages that are not inquiries to or answers of this device", "why_tests_cant": "Atomicity is a claim about all interleavings of messages of several requests; a value composed of chunks of two requests or a stale answer shows only in some of them.", "anchors": ["inc/midi/capability_inquiry.h: make_get_property_data_inquiry, make_get_property_data_reply, make_set_property_data_inquiry, make_set_property_data_reply, property_exchange::property_data_message_view, as", "src/capability_inquiry.cpp: property_exchange::make_rjson, property_data_message_view::validate"]}
{"id": "C106", "title": "MIDI-CI devices that chose the same MUID come apart", "statement": "Devices choose MUIDs on their own and may choose the same. Each device asks with make_discovery_inquiry, answers inquiries with make_discovery_reply, and, when a message arrives whose source is its own MUID, sends make_invalidate_muid_message for it, chooses another MUID and asks again. Besides, devices send anything else at any time: other MIDI-CI messages with their MUID as source, and SysEx messages that are not MIDI-CI. Messages of one device to another keep their order; otherwise they may be late. Whatever devices ask and send when and whatever arrives in whatever order, no call has undefined behaviour and nothing but the MUID of a device changes. Once nothing is on the way, any two devices that have asked have different MUIDs, whatever was chosen. If the MUID a device takes next is chosen by nobody else, then in addition each device knows every device that has asked, by its present MUID and with its data, and knows nobody who is not there; a device changes its MUID at most once, and the exchange of messages comes to an end in whatever order they arrive. Otherwise a farewell that arrives late can be taken for one of the device that has the MUID now, which is then not known.", "quantifier": "all numbers of devices, all choices of MUIDs (of 28 bits, not broadcast), all data of the devices, all times at which they ask, all other messages they send, all orders of arrival between different pairs of devices", "why_tests_cant": "Two devices with the same MUID may notice it at the same time, with messages of both still on the way to others; whether all end up with different MUIDs and with a correct view of each other depends on all interleavings.", "anchors": ["inc/midi/capability_inquiry.h: make_discovery_inquiry, make_discovery_reply, make_invalidate_muid_message, discovery_inquiry_view, discovery_reply_view, invalidate_muid_view, as", "src/capability_inquiry.cpp: discovery_inquiry_view::validate, discovery_reply_view::validate, invalidate_muid_view::validate"]}
{"id": "C107", "title": "Browsers that keep what they have found out are up to date", "statement": "An endpoint answers discovery requests as in C90, and announces every change of its information, identity, name, product instance id, stream configuration, function blocks or their names with the message that carries it. Any number of browsers ask, read what arrives with the views and keep the latest finding for each topic. Packets keep their order on each connection but may take any time; packets of other types may arrive anywhere between them. Whatever changes and is asked at whatever time: no call has undefined behaviour; when nothing is on its way to a browser, everything it knows is what the endpoint says now; if none of its requests is on the way either, it knows everything it has ever asked for; and at any time all that a browser knows was true together at one moment, where these moments never go back (no older name is seen after a newer one).", "quantifier": "all endpoint descriptions in range, all sequences of changes, all request packets (also malformed ones), all numbers of browsers, all times at which packets arrive, all other packets anywhere between them", "why_tests_cant": "A change may happen at any moment while packets of names and answers are on their way; consistency of what is seen depends on all interleavings of changes, requests and arrivals.", "anchors": ["inc/midi/stream_message.h: make_endpoint_discovery_message, make_endpoint_info_message, make_device_identity_message, send_endpoint_name, send_product_instance_id, make_stream_configuration_notification, make_function_block_info_message, send_function_block_name and their views"]}
{"id": "C108", "title": "A merge box with limited memory leaves out only whole messages", "statement": "The merge box of C99 keeps at most n packets waiting, for any n (also none). If a packet has to wait and there is no room, the message it belongs to is left out whole: the packets of it that are waiting are taken back and the ones still to come are not sent. Whatever the connections send, with running status, real-time bytes and SysEx anywhere and in whatever order their bytes arrive, the receiver gets some of the messages, each whole and in the order of its connection, all real-time messages in the order of arrival, and nothing else; nothing is left waiting. Nothing is left out as long as the box of C99 keeps no more than n packets waiting, and a message that begins while no other connection is within a SysEx is sent at once however little memory there is. Of any packets and bytes whatever, never more than n packets are waiting, no connection gets between the packets of another's SysEx, what is sent are some of the packets of each connection in their order, and all real-time packets. (Leaving out just the packets for which there is no room is refuted: the receiver gets a SysEx that nobody sent.)", "quantifier": "all memory limits, all numbers of connections, all message sequences and real-time messages on them, all renderings to bytes, all arrival orders, all parser states; all sequences of 128-bit packets and of bytes", "why_tests_cant": "Memory may run out at any packet of any message in any of exponentially many interleavings, and a message has to be left out whole in every one of them.", "anchors": ["inc/midi/midi1_byte_stream.h: midi1_byte_stream_parser, to_midi1_byte_stream", "inc/midi/data_message.h: sysex7_packet_view, is_sysex7_packet", "inc/midi/universal_packet.h: is_system_message, status"]}
{"id": "C109", "title": "Translators that carry parameters, banks and programs between the protocols", "statement": "as_midi2_channel_voice_message and as_midi1_channel_voice_message leave out bank select and the controllers of registered and assignable parameters. A translator that keeps, for each group and channel, the latest of these controllers and the value of each parameter, builds the missing messages with the other constructors: data entry becomes make_registered_controller or make_assignable_controller with the parameter's 14 bits, and program changes get the bank. After any MIDI 1 messages on any channels, with other packets between them, every parameter has in MIDI 2 its MIDI 1 value scaled to 32 bits, the same program of the same bank plays, and all other messages and packets have come through in their order; also for any bytes from a MIDI 1 connection, and no packets whatever make it fail. In the other direction, which needs no memory, every parameter but 127/127 keeps its upper 14 bits, programs and banks stay, and the rest comes through in order. From MIDI 1 to MIDI 2 and back, parameters, banks and programs are the same as before, and other messages too but for notes on with velocity 0; between two MIDI 2 devices over a MIDI 1 cable and a parser in any state, parameters arrive with 14 bits and programs unchanged. A MIDI 2 sound engine behind the translator plays each key at the pitch that the MIDI 1 messages say, with the bend range they set as registered parameter 0. (A translator that remembers only the latest data entry is refuted, and parameter 127/127 of MIDI 2 is lost in MIDI 1.)", "quantifier": "all sequences of MIDI 1 and of MIDI 2 channel voice messages on all groups and channels (attribute types of 7 bits), with any packets of other types between them; all byte sequences and parser calls; all packets; all parameters and keys", "why_tests_cant": "The value of a parameter depends on the whole history of the channel: which parameter was selected last, whether it was registered or assignable, and what its upper bits were when only the lower ones are set.", "anchors": ["inc/midi/channel_voice_message.h: as_midi1_channel_voice_message, as_midi2_channel_voice_message", "inc/midi/midi2_channel_voice_message.h: make_registered_controller_message, make_assignable_controller_message, make_midi2_program_change_message", "inc/midi/midi1_channel_voice_message.h: make_midi1_control_change_message, make_midi1_program_change_message", "inc/midi/types.h: controller_value"]}
{"id": "C110", "title": "A sequencer follows another over a MIDI 1 connection", "statement": "A leading sequencer sends start, continue, stop, timing clock and song position with system_message and make_song_position_message, stopping while it sends a position; a following one behind a midi1_byte_stream_parser counts clocks and reads the position with get_song_position. Whatever the user of the leader does, in any order and any number of times, and whatever other messages are sent, with clocks also between the packets of a SysEx, the follower plays exactly while the leader plays and is at the same clock of the song. For any bytes whatever, the follower is where the real-time bytes and the complete song position messages among them say. After any bytes, as of a connection that was plugged in late, the follower is in step again once the leader has stopped and sent its position. Behind the merge box of C99 the follower stays in step as long as the leader sends no song positions. Packets of other groups change nothing. (With song positions it does not: they wait for the SysEx of another connection while continue, being real-time, overtakes them; refuted. A leader that sends its position without stopping is refuted too.)", "quantifier": "all sequences of moves of the leader, all sequences of packets with them among other packets, all groups, with and without SysEx callback; all byte sequences; all arrivals at the merge box", "why_tests_cant": "A lost or doubled clock shows only as an offset much later, and clocks may fall between any two bytes of any other message.", "anchors": ["inc/midi/system_message.h: system_message, make_song_position_message, get_song_position, as_system_message_view", "src/midi1_byte_stream.cpp: midi1_byte_stream_parser::feed, to_midi1_byte_stream"]}
{"id": "C111", "title": "A host finds the devices that are connected", "statement": "A host sends identity requests among any other messages. Every device reads the bytes with midi1_byte_stream_parser and answers requests for its own device id or for everyone with make_identity_reply; the replies, among any other messages of the devices, come back through the merge box of C99 to a parser of the host, which notes what as_identity_reply_view reads. Then every device sends its reply exactly as often as it was asked, in the bytes of the standard, and the host notes the device id and identity of every device exactly as often as the device was asked, with no other entries, whatever else is sent, whatever the order in which the bytes arrive and whatever the parsers did before. Through a merge box with limited room (C108) replies may be lost, but none is wrong or noted more often than asked for. For any calls of a parser with any bytes neither program fails, and a device sends nothing but its own identity. (With the connections joined to one wire without a merge box, the host may find none of the devices; refuted.)", "quantifier": "all identities with one-byte and three-byte manufacturers, all device ids, all messages of host and devices around requests and replies, all numbers of devices, all interleavings of their bytes, all states of the parsers, debug and release builds", "why_tests_cant": "Which replies cross, and where, depends on timing; and every identity must be told from every other.", "anchors": ["inc/midi/universal_sysex.h: is_identity_request, universal_sysex_device_id_of, identity_reply, identity_reply_view, as_identity_reply_view", "src/midi1_byte_stream.cpp: midi1_byte_stream_parser::feed, to_midi1_byte_stream", "inc/midi/sysex.h: sysex7"]}
{"id": "C112", "title": "A SysEx grows while memory may run out", "statement": "Append any values to a sysex7 with add_uint7, add_data, add_uint14, add_uint28, add_uint32 and add_device_identity, while the allocator of its data grants or refuses requests in any way. If none is refused, the bytes of all values follow the data. If one is refused the exception is passed on to the caller, the manufacturer id and all data are kept, they are followed by the bytes of the values before, and the value concerned was appended completely or not at all, device identities excepted, of which whole parts (manufacturer bytes, family, model) may remain. Values other than device identities can be tried again until there is memory, and nothing is lost or doubled. While there is room no memory is asked for: a sysex7 constructed with a capacity of up to 16384 bytes serves, with clear() between, for any number of messages up to that size without another request. However many values are appended to a new sysex7, a message of n bytes takes at most 2 log2(n + 1) + 1 requests. make_identity_reply and as_sysex7_packets ask for memory exactly once; as_sysex8_packets returns all packets unless one of its requests is refused. (A device identity that is tried again leaves bytes of the first attempt behind, and a capacity above 16384 is given up by clear(); as_sysex8_packets reserves too little and may ask a second time; all refuted.)", "quantifier": "all sequences of values, all initial contents and capacities, all answers of the allocator, all implementations of reserve and shrink_to_fit that the standard permits (exact reserve for the capacity theorem), debug and release builds", "why_tests_cant": "Any of the requests for memory may be the one that fails, and how many there are depends on the history of the vector.", "anchors": ["inc/midi/sysex.h: sysex7::add_uint7, sysex7::add_data, sysex7::add_uint14, sysex7::add_uint28, sysex7::add_uint32, sysex::sysex, data_allocator, as_sysex7_packets, as_sysex8_packets", "src/sysex.cpp: sysex7::add_device_identity, sysex::clear", "src/universal_sysex.cpp: identity_reply::identity_reply"]}
{"id": "C113", "title": "Time code is read as it was sent", "statement": "A machine sends its time (hours, minutes, seconds, frames, rate) as eight quarter frame messages 0xF1 made with make_system_message, with any other messages between, and a receiver reads a time when the eight pieces come in a row. After the packets have become MIDI 1 bytes with to_midi1_byte_stream and passed a midi1_byte_stream_parser the receiver has read exactly the times that were sent, in order. For any bytes whatever it reads a time exactly where the pieces 0 to 7 come in a row. After any bytes it reads all times that are sent from then on. If one to seven successive quarter frames are lost at most two times are missed and no wrong one is read. Behind a merge box that keeps SysEx messages whole, the first of the times are read, and all of them when no packet waits. Packets of other groups change nothing. (With eight quarter frames lost a time may be read that was never sent, and so with one lost if the receiver ignores the order; both refuted.)", "quantifier": "all sequences of times, all messages between them, all bytes before, all places and numbers of lost quarter frames below eight, all interleavings of connections, all groups, with and without SysEx callback", "why_tests_cant": "The pieces of a time may be interrupted by anything at any place, and may be cut off anywhere.", "anchors": ["inc/midi/system_message.h: make_system_message, system_message_view", "src/midi1_byte_stream.cpp: midi1_byte_stream_parser::feed, to_midi1_byte_stream"]}
{"id": "C114", "title": "A MIDI-CI message is made with a single request for memory", "statement": "Every function that makes a MIDI-CI message through message::make_with_payload_size (discovery in both versions, endpoint information, ACK and NAK, invalidate MUID, all profile messages but the inquiry, property exchange capabilities and data, process inquiry capabilities reply, message report inquiry and reply) asks the allocator exactly once, whatever the arguments and however long the data, as long as it makes a message at all. If memory is provided, the result is the same message as without regard to memory and exactly its size was reserved, except one byte more for discovery messages of version 2 and for report replies. If it is refused an exception is passed on, and calling again makes the message as soon as there is memory, with one request for each call. Arguments that no message can be made from fail in the same way. (That exactly the needed size is always reserved is refuted.)", "quantifier": "all of these functions and all arguments with which they make a message, all answers of the allocator, all implementations of reserve that the standard permits, debug and release builds", "why_tests_cant": "The size that is announced and the bytes that are appended are computed in different places, for messages of any length.", "anchors": ["inc/midi/capability_inquiry.h: make_discovery_message, make_endpoint_information_reply, make_ack_message, make_nak_message, make_invalidate_muid_message, make_profile_on_request, make_profile_details_reply, make_midi_message_report_inquiry", "src/capability_inquiry.cpp: message::make_with_payload_size, make_profile_inquiry_reply, make_profile_specific_data_message, property_exchange::make_property_data_message", "inc/midi/sysex.h: sysex::sysex"]}
