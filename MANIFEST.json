{
 "claims": [
  {
   "property": "C01",
   "status": "proved",
   "theorems": [
    "C01_get_byte_reads_the_byte_sequence",
    "C01_named_byte_accessors",
    "C01_set_byte_updates_the_byte_sequence",
    "C01_reset",
    "C01_set_then_get",
    "C01_last_write_wins",
    "C01_writes_commute",
    "C01_out_of_range_write_ignored",
    "C01_debug_build_agrees",
    "C01_7bit_accessors",
    "C01_bytes_determine_packet"
   ],
   "note": "All 128-bit packets, all indices, debug and release behaviour."
  },
  {
   "property": "C02",
   "status": "proved",
   "theorems": [
    "C02_equality_is_wire_equality",
    "C02_inequality_is_wire_inequality",
    "C02_equality_is_an_equivalence"
   ],
   "note": "All pairs of packets."
  },
  {
   "property": "C03",
   "status": "proved",
   "theorems": [
    "C03_header_fields",
    "C03_set_type_only_changes_type",
    "C03_set_group_only_changes_group",
    "C03_release_set_group_out_of_range_refuted",
    "C03_midi1_protocol_messages",
    "C03_kinds"
   ],
   "note": "All packets; the release build set_group with a value of 16 or more is refuted."
  },
  {
   "property": "C04",
   "status": "proved",
   "theorems": [
    "C04_printed_text",
    "C04_round_trip",
    "C04_read_one",
    "C04_no_input",
    "C04_only_space",
    "C04_garbage",
    "C04_left_adjusted_refuted",
    "C04_showbase_refuted",
    "C04_fill_kept_refuted",
    "C04_truncated_rejected_refuted",
    "C04_failure_keeps_packet_refuted"
   ],
   "note": "Streams follow the standard and libstdc++'s num_get with the classic locale. Findings: std::left and std::showbase spoil the text, the fill character of the caller's stream stays '0', a text ending after the first word of a longer packet is accepted without failure, a failed read clears the first word."
  },
  {
   "property": "C05",
   "status": "proved",
   "theorems": [
    "C05_velocity_7_bit_survives",
    "C05_controller_7_bit_survives",
    "C05_14_bit_survives",
    "C05_values",
    "C05_read_truncated",
    "C05_generic_survives",
    "C05_generic_refuses_other_widths"
   ],
   "note": "Generic upscaler for every pair of widths including termination of its loop; other widths hit the assertion."
  },
  {
   "property": "C06",
   "status": "proved",
   "theorems": [
    "C06_7_to_16",
    "C06_7_to_32",
    "C06_14_to_32",
    "C06_generic",
    "C06_generic_exact",
    "C06_dedicated_exact"
   ],
   "note": "Strictly increasing, minimum, centre and maximum kept, for all three dedicated upscalers and every width pair of the generic one."
  },
  {
   "property": "C07",
   "status": "proved",
   "theorems": [
    "C07_generic_is_7_to_16",
    "C07_generic_is_7_to_32",
    "C07_generic_is_14_to_32"
   ],
   "note": "Complete sweep of the 2^7 and 2^14 source values."
  },
  {
   "property": "C08",
   "status": "proved",
   "theorems": [
    "C08_pitch_plus_increment",
    "C08_pitch_plus_assign",
    "C08_increment_plus_increment",
    "C08_increment_plus_assign",
    "C08_pitch_monotone",
    "C08_increment_monotone"
   ],
   "note": "Both operators and both compound assignments; a Fault outcome (64 bit overflow) is excluded by the statement."
  },
  {
   "property": "C09",
   "status": "proved",
   "theorems": [
    "C09_controller_plus_increment",
    "C09_controller_plus_assign"
   ],
   "note": ""
  },
  {
   "property": "C10",
   "status": "proved",
   "theorems": [
    "C10_product_exact",
    "C10_product_bounded_by_sensitivity",
    "C10_product_monotone",
    "C10_product_mirrored",
    "C10_centre_is_zero"
   ],
   "note": "Includes the absence of 64 bit overflow."
  },
  {
   "property": "C11",
   "status": "proved",
   "theorems": [
    "C11_velocity",
    "C11_controller_value",
    "C11_pitch_7_9",
    "C11_pitch_7_25",
    "C11_pitch_bend",
    "C11_pitch_bend_refuted",
    "C11_float_32_refuted"
   ],
   "note": "Standard library axioms of the real numbers. Finding: pitch_bend 0x80000001 comes back from its double as the centre."
  },
  {
   "property": "C12",
   "status": "proved",
   "theorems": [
    "C12_legal_stream_decodes_to_its_messages",
    "C12_rendering_is_the_message_sequence",
    "C12_every_call_sequence"
   ],
   "note": "From every state reachable by any calls; the prefix parameter n fixes the position of each message in the output."
  },
  {
   "property": "C13",
   "status": "proved",
   "theorems": [
    "C13_realtime_byte_is_transparent",
    "C13_removing_realtime_bytes"
   ],
   "note": ""
  },
  {
   "property": "C14",
   "status": "proved",
   "theorems": [
    "C14_chunking_does_not_matter"
   ],
   "note": ""
  },
  {
   "property": "C15",
   "status": "proved",
   "theorems": [
    "C15_resynchronises_at_status_byte",
    "C15_data_without_status_is_ignored",
    "C15_data_after_system_common_is_ignored",
    "C15_undefined_status"
   ],
   "note": ""
  },
  {
   "property": "C16",
   "status": "proved",
   "theorems": [
    "C16_output_is_well_formed",
    "C16_current_group_refuted"
   ],
   "note": "Proved for every sequence of calls: output well-formed and on a configured group. Finding (C16_current_group_refuted): running-status messages fed after set_group() keep the group of their status byte."
  },
  {
   "property": "C17",
   "status": "proved",
   "theorems": [
    "C17_disabled_is_silent",
    "C17_reset_restores_initial_behaviour"
   ],
   "note": ""
  },
  {
   "property": "C18",
   "status": "proved",
   "theorems": [
    "C18_sysex_bytes_to_packets"
   ],
   "note": ""
  },
  {
   "property": "C19",
   "status": "proved",
   "theorems": [
    "C19_sysex_bytes_to_callback",
    "C19_callback_only_for_received_sysex"
   ],
   "note": ""
  },
  {
   "property": "C20",
   "status": "proved",
   "theorems": [
    "C20_at_most_8_bytes",
    "C20_system_and_channel_voice_bytes",
    "C20_sysex7_bytes",
    "C20_size_announces_bytes_written_refuted",
    "C20_other_types_write_nothing",
    "C20_parses_back",
    "C20_from_bytes",
    "C20_from_then_to_bytes"
   ],
   "note": "Finding (C20_size_announces_bytes_written_refuted): for SysEx7 packets midi1_byte_stream_size() counts the payload only, to_midi1_byte_stream() also writes F0/F7."
  },
  {
   "property": "C21",
   "status": "proved",
   "theorems": [
    "C21_parser_never_faults"
   ],
   "note": ""
  },
  {
   "property": "C22",
   "status": "proved",
   "theorems": [
    "C22_send_sysex7",
    "C22_other_ids_refuted"
   ],
   "note": "All messages with non-zero valid id. Finding: id 0 with 6 data bytes, or an id with both parts, gives a complete packet followed by an end packet."
  },
  {
   "property": "C23",
   "status": "proved",
   "theorems": [
    "C23_sysex7_round_trip",
    "C23_no_id_refuted"
   ],
   "note": "From every reachable state of an unlimited collector. Finding: id 0 is not transmitted; the first data bytes arrive as manufacturer id."
  },
  {
   "property": "C24",
   "status": "proved",
   "theorems": [
    "C24_send_sysex8",
    "C24_miscounted_refuted"
   ],
   "note": "Exact set of malformed lengths proved (miscounted8): well-formed outside, malformed inside."
  },
  {
   "property": "C25",
   "status": "proved",
   "theorems": [
    "C25_sysex8_round_trip",
    "C25_miscounted_refuted"
   ],
   "note": "Outside the malformed lengths of C24; inside, the delivered message is truncated or missing (proved)."
  },
  {
   "property": "C26",
   "status": "proved",
   "theorems": [
    "C26_sysex7_delivered_exactly",
    "C26_sysex8_delivered_exactly"
   ],
   "note": "If and only if characterisation of what is delivered at each packet."
  },
  {
   "property": "C27",
   "status": "proved",
   "theorems": [
    "C27_sysex7_limit",
    "C27_sysex8_limit",
    "C27_limit_after_use_refuted"
   ],
   "note": "Assumes vector::reserve allocates exactly what is asked (true of libstdc++, libc++, MSVC). Finding: a limit set after use is not enforced while already allocated capacity suffices."
  },
  {
   "property": "C28",
   "status": "proved",
   "theorems": [
    "C28_sysex7_limited",
    "C28_sysex8_limited",
    "C28_within_limit_fits",
    "C28_next_message_corrupted_refuted"
   ],
   "note": "Complete case distinction. Finding: a message refused at its end packet leaves its bytes behind and corrupts the next message."
  },
  {
   "property": "C29",
   "status": "proved",
   "theorems": [
    "C29_sysex7_feed_safe",
    "C29_sysex8_feed_safe"
   ],
   "note": "All packets, all states, any allocator."
  },
  {
   "property": "C30",
   "status": "proved",
   "theorems": [
    "C30_sysex7_next_message_delivered",
    "C30_sysex8_next_message_delivered",
    "C30_other_packets_ignored",
    "C30_sysex7_reset_like_new",
    "C30_sysex8_reset_like_new"
   ],
   "note": "From every reachable state; other packets may be interleaved."
  },
  {
   "property": "C31",
   "status": "proved",
   "theorems": [
    "C31_foreign_packets_have_no_effect",
    "C31_other_start_abandons"
   ],
   "note": "All interleavings."
  },
  {
   "property": "C32",
   "status": "proved",
   "theorems": [
    "C32_sysex7_through_midi1_bytes"
   ],
   "note": "From every reachable parser state with SysEx callback."
  },
  {
   "property": "C33",
   "status": "proved",
   "theorems": [
    "C33_translation_to_midi2",
    "C33_round_trip",
    "C33_only_reserved_controllers_do_not_translate",
    "C33_translation_is_total"
   ],
   "note": "Every message, group and channel; the translation is total on all packets and equal to an independent specification with a closed form of the value scaling."
  },
  {
   "property": "C34",
   "status": "proved",
   "theorems": [
    "C34_result_is_valid",
    "C34_translation_to_midi1",
    "C34_attribute_0x80_refuted"
   ],
   "note": "Arbitrary packets for validity, valid messages for the exact translation. Finding: a note with attribute type 0x80 is translated as if it had no attribute."
  },
  {
   "property": "C35",
   "status": "proved",
   "theorems": [
    "C35_predicates_agree",
    "C35_getters_agree",
    "C35_values"
   ],
   "note": "All seven agnostic predicates and every getter that applies to the message, with absolute values."
  },
  {
   "property": "C36",
   "status": "proved",
   "theorems": [
    "C36_at_most_one_kind",
    "C36_midi1_has_a_kind",
    "C36_note_on",
    "C36_note_off",
    "C36_other_kinds"
   ],
   "note": "All packets; exact bit-level characterisation of note-on, note-off and every other kind."
  },
  {
   "property": "C37",
   "status": "proved",
   "theorems": [
    "C37_midi1_constructors",
    "C37_midi2_note_constructors",
    "C37_midi2_controller_constructors",
    "C37_midi2_other_constructors",
    "C37_generic_constructors",
    "C37_midi1_view",
    "C37_midi2_view",
    "C37_midi2_getters"
   ],
   "note": "All 7 MIDI 1 and 18 MIDI 2 constructors, views, getters and predicates."
  },
  {
   "property": "C38",
   "status": "proved",
   "theorems": [
    "C38_pitch_bend_defined",
    "C38_getters_in_range",
    "C38_pitch_bend_refuted",
    "C38_views"
   ],
   "note": "Exact definedness condition. Finding: a MIDI 1 pitch bend packet with an 8-bit second data byte overflows a shift."
  },
  {
   "property": "C39",
   "status": "proved",
   "theorems": [
    "C39_layout",
    "C39_view",
    "C39_song_position",
    "C39_no_song_position"
   ],
   "note": "All arguments; groups above 15 are masked."
  },
  {
   "property": "C40",
   "status": "proved",
   "theorems": [
    "C40_difference",
    "C40_unwraps"
   ],
   "note": ""
  },
  {
   "property": "C41",
   "status": "proved",
   "theorems": [
    "C41_order",
    "C41_messages_in_a_row",
    "C41_not_before_the_clock",
    "C41_order_refuted"
   ],
   "note": "Provision stated on observable values (result at most reception time plus offset). Finding: without it a late clock moves the schedule backwards."
  },
  {
   "property": "C42",
   "status": "proved",
   "theorems": [
    "C42_never_negative",
    "C42_never_decreases",
    "C42_offset_covers_jitter",
    "C42_offset_set_refuted"
   ],
   "note": "All histories including reset and set_security_offset."
  },
  {
   "property": "C43",
   "status": "proved",
   "theorems": [
    "C43_exact",
    "C43_clock_at_construction_refuted"
   ],
   "note": "Finding: a first clock received at the time of construction is treated as no clock."
  },
  {
   "property": "C44",
   "status": "proved",
   "theorems": [
    "C44_bytes",
    "C44_rejected",
    "C44_views_accept",
    "C44_accessors",
    "C44_requested_block",
    "C44_round_trip",
    "C44_set_format",
    "C44_default_message",
    "C44_sixteen_groups_refuted",
    "C44_many_blocks_refuted",
    "C44_manufacturer_refuted",
    "C44_status_bits_refuted"
   ],
   "note": "Findings: 16 groups become 0, block counts above 127 set the static flag, manufacturer written unmasked, views ignore two status bits."
  },
  {
   "property": "C45",
   "status": "proved",
   "theorems": [
    "C45_packets",
    "C45_received",
    "C45_text_survives",
    "C45_long_product_id",
    "C45_utf8_refuted"
   ],
   "note": "Findings: texts are written with 8 bits but read with 7, so UTF-8 text beyond ASCII is altered and byte 0x80 ends the text."
  },
  {
   "property": "C46",
   "status": "proved",
   "theorems": [
    "C46_bytes",
    "C46_rejected",
    "C46_view_accepts",
    "C46_accessors",
    "C46_round_trip",
    "C46_default_message",
    "C46_channel_of_group_refuted"
   ],
   "note": "Without assertions a group-addressed message can carry a channel (refutation)."
  },
  {
   "property": "C47",
   "status": "proved",
   "theorems": [
    "C47_digits",
    "C47_round_trip",
    "C47_read_anywhere",
    "C47_device_identity",
    "C47_too_large_debug",
    "C47_too_large_release",
    "C47_reading"
   ],
   "note": "All values and preceding contents, both build types; reading at all positions of all 7-bit messages."
  },
  {
   "property": "C48",
   "status": "proved",
   "theorems": [
    "C48_one_byte_manufacturer",
    "C48_three_byte_manufacturer",
    "C48_reply_of_identity",
    "C48_validation_total",
    "C48_accepted_exactly",
    "C48_identity_request",
    "C48_request_accepted_exactly",
    "C48_reading_is_safe",
    "C48_read_then_write",
    "C48_oversized_reply_refuted",
    "C48_mixed_manufacturer_refuted",
    "C48_device_id_refuted"
   ],
   "note": "Findings: mixed manufacturer ids altered, device id unmasked, oversized one-byte reply accepted."
  },
  {
   "property": "C49",
   "status": "proved",
   "theorems": [
    "C49_management_messages",
    "C49_nak_reply",
    "C49_nak_reply_v1",
    "C49_set_muid",
    "C49_set_muid_limits",
    "C49_length_refuted"
   ],
   "note": "Findings: lengths are cast to 16 bits before they are checked; a version 1 NAK is not accepted by nak_view."
  },
  {
   "property": "C50",
   "status": "proved",
   "theorems": [
    "C50_profile_messages",
    "C50_specific_data_vector",
    "C50_specific_data_vector_refuted",
    "C50_too_many_profiles_refuted",
    "C50_equality"
   ],
   "note": "Findings: the vector overload casts the size to 16 bits; 65536 profiles become none."
  },
  {
   "property": "C51",
   "status": "proved",
   "theorems": [
    "C51_property_messages",
    "C51_late_header_not_accepted"
   ],
   "note": "Finding: a header in a later chunk can be constructed but is not accepted by any view."
  },
  {
   "property": "C52",
   "status": "proved",
   "theorems": [
    "C52_accepted_views_are_safe",
    "C52_profile_lists_are_checked",
    "C52_unvalidated_refuted"
   ],
   "note": "All 23 views and all accessors; holds for arbitrary message bytes, also 8-bit ones."
  },
  {
   "property": "C53",
   "status": "proved",
   "theorems": [
    "C53_validation_is_safe",
    "C53_discovery_faults_exactly",
    "C53_discovery_refuted",
    "C53_accepts_exactly_well_formed",
    "C53_as_view"
   ],
   "note": "Finding: discovery_inquiry_view and discovery_reply_view read the version before checking the size."
  },
  {
   "property": "C54",
   "status": "proved",
   "theorems": [
    "C54_seven_bit",
    "C54_transport",
    "C54_midi1_bytes",
    "C54_sysex8",
    "C54_sysex8_refuted",
    "C54_unchecked_refuted"
   ],
   "note": "End-to-end with send_sysex7 and sysex7_collector or MIDI 1 bytes and byte stream parser in any reachable state, and with send_sysex8 and sysex8_collector. Findings: copied bytes are unchecked; messages without payload arrive truncated over SysEx8 (C54_sysex8_refuted)."
  },
  {
   "property": "C55",
   "status": "proved",
   "theorems": [
    "C55_text",
    "C55_int",
    "C55_text_options",
    "C55_int_options",
    "C55_improper_numbers",
    "C55_empty_option",
    "C55_escaping_refuted",
    "C55_digits_as_text_refuted",
    "C55_constructors"
   ],
   "note": "Parser-based specification in JsonSpec.v. Findings: empty option value is an out-of-bounds read, improper numbers give malformed JSON, no escaping, digit-only texts become numbers."
  },
  {
   "property": "C56",
   "status": "proved",
   "theorems": [
    "C56_note_to_pitch_7_9_and_back",
    "C56_note_to_pitch_7_25_and_back",
    "C56_widening_keeps_the_pitch",
    "C56_larger_notes_refuted",
    "C56_default_sensitivity"
   ],
   "note": "Finding: note numbers >= 128 shift out of range in pitch_7_25(note_nr_t)."
  },
  {
   "property": "C57",
   "status": "proved",
   "theorems": [
    "C57_utility_messages",
    "C57_utility_layout",
    "C57_jitter_reduction_messages"
   ],
   "note": ""
  },
  {
   "property": "C58",
   "status": "proved",
   "theorems": [
    "C58_jitter_is_delay_range",
    "C58_follows_fastest_clock",
    "C58_older_message_refuted"
   ],
   "note": "Closed forms by an invariant over the history. Finding: a message stamped one tick before the last clock is scheduled 65535 ticks late."
  },
  {
   "property": "C59",
   "status": "proved",
   "theorems": [
    "C59_no_overflow",
    "C59_overflow_refuted"
   ],
   "note": "Times as 64-bit nanoseconds (libstdc++)."
  },
  {
   "property": "C60",
   "status": "proved",
   "theorems": [
    "C60_total",
    "C60_universal_messages",
    "C60_other_messages",
    "C60_set_device_id",
    "C60_view",
    "C60_data_size",
    "C60_short_messages",
    "C60_set_device_id_limits"
   ],
   "note": ""
  },
  {
   "property": "C61",
   "status": "proved",
   "theorems": [
    "C61_process_inquiry_messages"
   ],
   "note": ""
  },
  {
   "property": "C62",
   "status": "proved",
   "theorems": [
    "C62_release_builds",
    "C62_debug_builds",
    "C62_documented_arguments_are_checked"
   ],
   "note": "Covers out-of-range arguments: full description of construction."
  },
  {
   "property": "C63",
   "status": "proved",
   "theorems": [
    "C63_velocity_from",
    "C63_controller_from",
    "C63_pitch_bend_from",
    "C63_velocity_to",
    "C63_controller_to",
    "C63_pitch_bend_to",
    "C63_nan_refuted"
   ],
   "note": "Standard library axioms of the real numbers. Finding: NaN is converted to an unsigned integer, which is undefined."
  },
  {
   "property": "C64",
   "status": "proved",
   "theorems": [
    "C64_pitch_from_double",
    "C64_pitch_from_float",
    "C64_pitch_to",
    "C64_pitch_range",
    "C64_pitch_range_refuted"
   ],
   "note": "Standard library axioms of the real numbers."
  },
  {
   "property": "C65",
   "status": "proved",
   "theorems": [
    "C65_increment_from_float",
    "C65_increment_from_double",
    "C65_increment_overflow_refuted",
    "C65_increment_not_finite",
    "C65_detune"
   ],
   "note": "Standard library axioms of the real numbers. Finding: pitch_increment(double) just above -64 negates INT32_MIN."
  },
  {
   "property": "C66",
   "status": "proved",
   "theorems": [
    "C66_recognised",
    "C66_plain_messages",
    "C66_plain_recognised",
    "C66_read_sysex7",
    "C66_read_sysex8",
    "C66_add_sysex7",
    "C66_add_sysex8",
    "C66_full",
    "C66_build_sysex7",
    "C66_build_sysex8",
    "C66_default",
    "C66_set_payload_size",
    "C66_set_payload_byte",
    "C66_outside",
    "C66_set_stream_id",
    "C66_group_checked_refuted",
    "C66_group_asserted"
   ],
   "note": "Finding: sysex8_packet uses the group unmasked; a group of 32 makes a packet of type 7."
  },
  {
   "property": "C67",
   "status": "proved",
   "theorems": [
    "C67_there_and_back",
    "C67_second_pass",
    "C67_order_kept"
   ],
   "note": ""
  },
  {
   "property": "C68",
   "status": "proved",
   "theorems": [
    "C68_session_unchanged",
    "C68_session_refilled",
    "C68_filled_is_unique",
    "C68_division_kept_refuted",
    "C68_session_delivered"
   ],
   "note": "A SysEx of six bytes sent in one complete packet comes back as a start and an empty end packet (C68_division_kept_refuted)."
  },
  {
   "property": "C69",
   "status": "proved",
   "theorems": [
    "C69_group_delivered",
    "C69_stream_delivered",
    "C69_one_collector_refuted"
   ],
   "note": "Collectors ignore the group of a packet: fed the interleaved traffic of two groups, one delivers a message nobody sent (C69_one_collector_refuted)."
  },
  {
   "property": "C70",
   "status": "proved",
   "theorems": [
    "C70_nested_calls",
    "C70_like_afterwards",
    "C70_controls",
    "C70_no_calls",
    "C70_feed_in_sysex_refuted",
    "C70_reset_in_sysex_refuted",
    "C70_sysex_in_sysex_refuted",
    "C70_running_status_refuted"
   ],
   "note": "Outside of the allowed calls: bytes fed from the callback for a SysEx packet are written outside of the packet (C70_feed_in_sysex_refuted), reset() is ignored there (C70_reset_in_sysex_refuted), a SysEx begun in a SysEx callback is corrupted (C70_sysex_in_sysex_refuted), the callback of a system common message loses the running status it establishes (C70_running_status_refuted). Replacing the callback from itself is not modelled."
  },
  {
   "property": "C71",
   "status": "proved",
   "theorems": [
    "C71_sysex7_like_afterwards",
    "C71_sysex8_like_afterwards",
    "C71_no_calls",
    "C71_single_packet_refuted",
    "C71_single_packet8_refuted",
    "C71_begun_in_callback_refuted",
    "C71_anything7",
    "C71_anything8",
    "C71_anything_plain"
   ],
   "note": "A message fed from the callback of a single packet message without reset() is delivered with that message's data in front (C71_single_packet_refuted, C71_single_packet8_refuted); a message begun in a callback is lost (C71_begun_in_callback_refuted). Changing the limit from the callback is not modelled."
  },
  {
   "property": "C72",
   "status": "proved",
   "theorems": [
    "C72_parser",
    "C72_buffer",
    "C72_sysex7_collector",
    "C72_sysex8_collector",
    "C72_sysex_packet_refuted",
    "C72_sysex_end_refuted",
    "C72_no_reset_refuted",
    "C72_no_reset8_refuted"
   ],
   "note": "Outside of the conditions: C72_sysex_packet_refuted (bytes written outside of the packet after an exception for a SysEx packet), C72_sysex_end_refuted (the SysEx goes on after its end), C72_no_reset_refuted and C72_no_reset8_refuted (data delivered twice)."
  },
  {
   "property": "C73",
   "status": "proved",
   "theorems": [
    "C73_equality",
    "C73_seven_bits",
    "C73_total_size",
    "C73_total_size8_refuted"
   ],
   "note": "total_data_size() counts one or three bytes for the manufacturer id (none for id 0), SysEx8 always sends two (C73_total_size8_refuted, the cause of the wrong chunk lengths of C24)."
  },
  {
   "property": "C74",
   "status": "proved",
   "theorems": [
    "C74_parser",
    "C74_sysex7_collector",
    "C74_sysex8_collector"
   ],
   "note": "Data bytes of running status messages count once. The capacity of vectors is not bounded here."
  },
  {
   "property": "C75",
   "status": "proved",
   "theorems": [
    "C75_parser_retry",
    "C75_parser_start",
    "C75_disabled_start_refuted",
    "C75_parser_hole_refuted",
    "C75_sysex7_retry",
    "C75_sysex8_retry",
    "C75_sysex7_given_up",
    "C75_sysex8_given_up",
    "C75_sysex7_hole_refuted",
    "C75_sysex8_hole_refuted"
   ],
   "note": "Refutations: C75_parser_hole_refuted, C75_sysex7_hole_refuted, C75_sysex8_hole_refuted, C75_disabled_start_refuted. push_back() growth is modelled too (it is shown not to happen in the collectors)."
  },
  {
   "property": "C76",
   "status": "proved",
   "theorems": [
    "C76_parser_no_callback",
    "C76_parser_where",
    "C76_parser_once",
    "C76_parser_longer_refuted",
    "C76_parser_doubles",
    "C76_sysex7_limited",
    "C76_sysex8_limited",
    "C76_large_limit_refuted",
    "C76_sysex7_unlimited",
    "C76_sysex8_unlimited"
   ],
   "note": "Assumes that reserve(n) provides exactly n (as libstdc++, libc++ and MSVC do); with a generous allocator the capacity may exceed 16384 and be released by clear(). C76_large_limit_refuted, C76_parser_longer_refuted."
  },
  {
   "property": "C77",
   "status": "proved",
   "theorems": [
    "C77_midi1",
    "C77_midi2",
    "C77_protocols",
    "C77_any_packet",
    "C77_any_packet_refuted",
    "C77_other_packets",
    "C77_bytes",
    "C77_any_bytes",
    "C77_note_on_constructors",
    "C77_quiet_note_on_refuted",
    "C77_filters"
   ],
   "note": "Refutations: C77_any_packet_refuted, C77_quiet_note_on_refuted."
  },
  {
   "property": "C78",
   "status": "proved",
   "theorems": [
    "C78_accepted_iff_readable",
    "C78_read",
    "C78_unambiguous",
    "C78_eight_bits_refuted"
   ],
   "note": "Refutation for bytes above 0x7F: C78_eight_bits_refuted."
  },
  {
   "property": "C79",
   "status": "proved",
   "theorems": [
    "C79_stamp",
    "C79_first_stamp",
    "C79_elapsed",
    "C79_elapsed_at_least_refuted",
    "C79_jitter",
    "C79_schedule",
    "C79_in_time"
   ],
   "note": "Refutation: C79_elapsed_at_least_refuted."
  },
  {
   "property": "C80",
   "status": "proved",
   "theorems": [
    "C80_in_use7",
    "C80_in_use8",
    "C80_raised7",
    "C80_raised8",
    "C80_bound7",
    "C80_lowered7",
    "C80_bound8",
    "C80_lowered8",
    "C80_unnoticed7",
    "C80_unnoticed8",
    "C80_from_callback7",
    "C80_from_callback8",
    "C80_memory_given_up_refuted"
   ],
   "note": "Refutation: C80_memory_given_up_refuted."
  },
  {
   "property": "C81",
   "status": "proved",
   "theorems": [
    "C81_both_ways_agree",
    "C81_both_ways_equal",
    "C81_with_limit",
    "C81_after_any_history",
    "C81_disabled_within_sysex_refuted"
   ],
   "note": "Refutation: C81_disabled_within_sysex_refuted."
  },
  {
   "property": "C82",
   "status": "proved",
   "theorems": [
    "C82_sysex7",
    "C82_sysex8",
    "C82_midi1_bytes",
    "C82_identity",
    "C82_universal",
    "C82_distinct"
   ],
   "note": ""
  },
  {
   "property": "C83",
   "status": "proved",
   "theorems": [
    "C83_unnoticed",
    "C83_again",
    "C83_through_midi2"
   ],
   "note": ""
  },
  {
   "property": "C84",
   "status": "proved",
   "theorems": [
    "C84_received",
    "C84_pieces",
    "C84_any_words",
    "C84_unchanged",
    "C84_any_group_refuted"
   ],
   "note": "SysEx 8 constructors accept groups above 15 and then make a packet of another type whose data is not sent: C84_any_group_refuted."
  },
  {
   "property": "C85",
   "status": "proved",
   "theorems": [
    "C85_set_group",
    "C85_parser",
    "C85_to_midi1",
    "C85_to_midi2",
    "C85_bytes",
    "C85_collector7",
    "C85_collector8",
    "C85_send7",
    "C85_send8",
    "C85_yes_no",
    "C85_numbers",
    "C85_checked"
   ],
   "note": ""
  },
  {
   "property": "C86",
   "status": "proved",
   "theorems": [
    "C86_receiver_clock",
    "C86_sender_clock",
    "C86_construction",
    "C86_construction_refuted"
   ],
   "note": "Finding C43 again: the time of construction serves as the mark for 'no clock yet' (C86_construction_refuted)."
  },
  {
   "property": "C87",
   "status": "proved",
   "theorems": [
    "C87_parser",
    "C87_to_midi1",
    "C87_to_midi2",
    "C87_bytes",
    "C87_yes_no",
    "C87_numbers",
    "C87_pitch_bend",
    "C87_channel"
   ],
   "note": ""
  },
  {
   "property": "C88",
   "status": "proved",
   "theorems": [
    "C88_careful",
    "C88_faults_exactly",
    "C88_same",
    "C88_bytes",
    "C88_refuted"
   ],
   "note": "The intended statement without precautions is false: C88_refuted."
  },
  {
   "property": "C89",
   "status": "proved",
   "theorems": [
    "C89_received",
    "C89_apart",
    "C89_over_packets",
    "C89_over_bytes"
   ],
   "note": "The header must be shorter than 16384 bytes, as for C55."
  },
  {
   "property": "C90",
   "status": "proved",
   "theorems": [
    "C90_endpoint",
    "C90_blocks",
    "C90_any_request",
    "C90_text_among",
    "C90_apart"
   ],
   "note": "Texts consist of the characters 1 to 127 and the product instance id has at most 16, as for C45."
  },
  {
   "property": "C91",
   "status": "proved",
   "theorems": [
    "C91_received",
    "C91_apart",
    "C91_zero_refuted"
   ],
   "note": "Texts with a zero byte are excluded; C91_zero_refuted shows that they are not received as sent."
  },
  {
   "property": "C92",
   "status": "proved",
   "theorems": [
    "C92_discovery",
    "C92_everybody",
    "C92_left",
    "C92_apart",
    "C92_replies",
    "C92_safe"
   ],
   "note": ""
  },
  {
   "property": "C93",
   "status": "proved",
   "theorems": [
    "C93_follows",
    "C93_said",
    "C93_switch",
    "C93_changes",
    "C93_safe"
   ],
   "note": ""
  },
  {
   "property": "C94",
   "status": "proved",
   "theorems": [
    "C94_collectors7",
    "C94_assigned_limit_refuted",
    "C94_without_reset_refuted",
    "C94_collectors8",
    "C94_parsers"
   ],
   "note": "two refuted parts are stated as such: limits of collectors assigned to one with more memory, and moved-from collectors used without reset"
  },
  {
   "property": "C95",
   "status": "proved",
   "theorems": [
    "C95_edit",
    "C95_safe",
    "C95_views_follow",
    "C95_arguments",
    "C95_assigned_refuted"
   ],
   "note": "a part is refuted and stated as such: assigning another message to a viewed one"
  },
  {
   "property": "C96",
   "status": "proved",
   "theorems": [
    "C96_pitch",
    "C96_protocols",
    "C96_through_midi1",
    "C96_any_packets",
    "C96_from_bytes",
    "C96_any_bytes"
   ],
   "note": ""
  },
  {
   "property": "C97",
   "status": "proved",
   "theorems": [
    "C97_report",
    "C97_asked",
    "C97_safe",
    "C97_nothing"
   ],
   "note": ""
  },
  {
   "property": "C98",
   "status": "proved",
   "theorems": [
    "C98_endpoint",
    "C98_conversation",
    "C98_keeps_to_it",
    "C98_granted",
    "C98_refused",
    "C98_any_input",
    "C98_any_packets"
   ],
   "note": ""
  },
  {
   "property": "C99",
   "status": "proved",
   "theorems": [
    "C99_merged",
    "C99_bytes",
    "C99_any_packets",
    "C99_realtime_at_once",
    "C99_any_bytes",
    "C99_unmerged_refuted"
   ],
   "note": ""
  },
  {
   "property": "C100",
   "status": "proved",
   "theorems": [
    "C100_ports",
    "C100_midi2_connection",
    "C100_packets",
    "C100_one_parser_refuted"
   ],
   "note": ""
  },
  {
   "property": "C101",
   "status": "proved",
   "theorems": [
    "C101_bytes",
    "C101_packets7",
    "C101_packets8",
    "C101_lost7",
    "C101_lost8",
    "C101_hole_refuted",
    "C101_mixture_refuted"
   ],
   "note": "no limit set; with a limit see C27 and C28"
  },
  {
   "property": "C102",
   "status": "proved",
   "theorems": [
    "C102_whole_or_nothing",
    "C102_same_id_refuted",
    "C102_lost_packets_refuted"
   ],
   "note": "messages lost, not packets"
  },
  {
   "property": "C103",
   "status": "proved",
   "theorems": [
    "C103_divided",
    "C103_received",
    "C103_after_oversized_refuted"
   ],
   "note": "the sender is a client program composed of the modelled functions"
  },
  {
   "property": "C104",
   "status": "proved",
   "theorems": [
    "C104_copies",
    "C104_delivered",
    "C104_ended",
    "C104_command_as_property_refuted"
   ],
   "note": "publisher, subscribers and network are client programs composed of the modelled functions; the JSON parser is a specification"
  },
  {
   "property": "C105",
   "status": "proved",
   "theorems": [
    "C105_atomic",
    "C105_no_loss",
    "C105_answered",
    "C105_read_after_write",
    "C105_not_stale",
    "C105_reused_id_refuted"
   ],
   "note": "device, clients and network are client programs composed of the modelled functions; the JSON parser is a specification"
  },
  {
   "property": "C106",
   "status": "proved",
   "theorems": [
    "C106_safe",
    "C106_different",
    "C106_known",
    "C106_ends",
    "C106_unknown_refuted"
   ],
   "note": "the devices and the network are client programs composed of the modelled functions; C106_unknown_refuted shows why the second part needs unused MUIDs"
  },
  {
   "property": "C107",
   "status": "proved",
   "theorems": [
    "C107_runs",
    "C107_up_to_date",
    "C107_complete",
    "C107_snapshot"
   ],
   "note": "the endpoint and the browsers are client programs composed of the modelled functions"
  },
  {
   "property": "C108",
   "status": "proved",
   "theorems": [
    "C108_whole",
    "C108_bytes",
    "C108_bounded",
    "C108_any_bytes",
    "C108_enough",
    "C108_served",
    "C108_any_packets",
    "C108_careless_refuted"
   ],
   "note": "the merge box is a client program composed of the modelled functions"
  },
  {
   "property": "C109",
   "status": "proved",
   "theorems": [
    "C109_up",
    "C109_any_bytes",
    "C109_any_packets",
    "C109_down",
    "C109_there_and_back",
    "C109_cable",
    "C109_bend_range",
    "C109_null_parameter_refuted",
    "C109_hasty_refuted"
   ],
   "note": "the translators are client programs composed of the modelled functions"
  },
  {
   "property": "C110",
   "status": "proved",
   "theorems": [
    "C110_in_step",
    "C110_any_bytes",
    "C110_joins_late",
    "C110_merged",
    "C110_own_group",
    "C110_hasty_refuted",
    "C110_merged_refuted"
   ],
   "note": "the sequencers are client programs composed of the modelled functions"
  },
  {
   "property": "C111",
   "status": "proved",
   "theorems": [
    "C111_answers",
    "C111_sent",
    "C111_found",
    "C111_limited",
    "C111_any_calls",
    "C111_joined_refuted"
   ],
   "note": "host and devices are client programs composed of the modelled functions"
  },
  {
   "property": "C112",
   "status": "proved",
   "theorems": [
    "C112_any_answers",
    "C112_insist",
    "C112_room",
    "C112_reserved_once",
    "C112_amortised",
    "C112_identity_reply",
    "C112_packets",
    "C112_packets8",
    "C112_identity_refuted",
    "C112_large_refuted",
    "C112_packets8_refuted"
   ],
   "note": "growth of the vector by insert() as in libstdc++"
  },
  {
   "property": "C113",
   "status": "proved",
   "theorems": [
    "C113_sent",
    "C113_arrives",
    "C113_any_bytes",
    "C113_joins_late",
    "C113_lost",
    "C113_merged",
    "C113_own_group",
    "C113_lost_refuted",
    "C113_careless_refuted"
   ],
   "note": "sender and receiver are client programs, not code in /repo"
  },
  {
   "property": "C114",
   "status": "proved",
   "theorems": [
    "C114_once",
    "C114_faults",
    "C114_capacity",
    "C114_again",
    "C114_never",
    "C114_exact_refuted"
   ],
   "note": "message(subtype, ...) and the overloads that make a text for the header first are not included"
  }
 ]
}