{
 "claims": [
  {
   "property": "C01",
   "status": "proved",
   "theorems": [
    "C01_set_then_get",
    "C01_flats_zero_refuted",
    "C01_controller_spelling",
    "C01_refuted"
   ],
   "note": "All 51 fixed-size message types, both forms. Exceptions listed in the property are the refutations and C01_controller_spelling."
  },
  {
   "property": "C02",
   "status": "proved",
   "theorems": [
    "C02_other_fields_unchanged"
   ],
   "note": "All fixed-size message types."
  },
  {
   "property": "C03",
   "status": "proved",
   "theorems": [
    "C03_only_field_bits"
   ],
   "note": "All fixed-size message types."
  },
  {
   "property": "C04",
   "status": "proved",
   "theorems": [
    "C04_wire_layout",
    "C04_every_field",
    "C04_masks_words",
    "C04_masks_bytes",
    "C04_masks_octets"
   ],
   "note": "Getters equal decoding by the independent layout table SpecLayout.v; C04_every_field shows the table covers every field. C04_masks_words and C04_masks_bytes: for every mask that has a schema, used by a message or not, a field reads exactly the bits of its mask and a write changes no other bit."
  },
  {
   "property": "C05",
   "status": "proved",
   "theorems": [
    "C05_new",
    "C05_fixed_buffers",
    "C05_unconstructible_refuted",
    "C05_dirty_stream_refuted"
   ],
   "note": "All fixed-size message types and every constructor; exceptions refuted: SongPositionPointer bytes, FunctionBlockDiscovery, stream messages on a buffer whose tail looks like a stream packet."
  },
  {
   "property": "C06",
   "status": "proved",
   "theorems": [
    "C06_aggregates_total",
    "C06_ci_version_refuted",
    "C06_try_from_total",
    "C06_packet_total",
    "C06_text_total"
   ],
   "note": "Fixed-size message types. try_from of sysex is total in the model by its type (res, no Panic); text messages are total. Every aggregate enum and Packet::try_from."
  },
  {
   "property": "C07",
   "status": "proved",
   "theorems": [
    "C07_accepts_exactly",
    "C07_accepts_exactly_one_packet",
    "C07_flex_data",
    "C07_ump_stream",
    "C07_sizes",
    "C07_trailing_flex_refuted",
    "C07_stream_multi_packet_refuted",
    "C07_sizes_refuted",
    "C07_flex_text",
    "C07_stream_text"
   ],
   "note": "iff characterisation for every family; the four sizes that deviate and the packet-scanning families are stated exactly, with refutations of the plain statement."
  },
  {
   "property": "C08",
   "status": "proved",
   "theorems": [
    "C08_accepted_safe",
    "C08_song_position_refuted",
    "C08_flex_text",
    "C08_stream_text",
    "C08_partial_packet_refuted"
   ],
   "note": "All fixed-size message types and texts (whole packets); refuted for the 2-byte song position pointer and for a partial last packet. Sysex: C26."
  },
  {
   "property": "C09",
   "status": "proved",
   "theorems": [
    "C09_histories"
   ],
   "note": "Arbitrary histories of setters on every fixed-size message type."
  },
  {
   "property": "C10",
   "status": "proved",
   "theorems": [
    "C10_data_prefix",
    "C10_data_self_contained",
    "C10_trailing_units",
    "C10_stream_multi_packet_refuted",
    "C10_flex_text",
    "C10_text_tail_refuted"
   ],
   "note": "Hypothesis [complete] excludes multi-packet stream slices (refuted there); acceptance with trailing units is characterised in C07."
  },
  {
   "property": "C11",
   "status": "proved",
   "theorems": [
    "C11_aggregates",
    "C11_rebuffer"
   ],
   "note": "All message types and aggregates; getters after rebuffering for the fixed-size types."
  },
  {
   "property": "C12",
   "status": "proved",
   "theorems": [
    "C12_ump_message",
    "C12_families",
    "C12_unique",
    "C12_family_of_type",
    "C12_reserved",
    "C12_misrouted_refuted",
    "C12_truncated_refuted"
   ],
   "note": "iff for UmpMessage and every family enum, uniqueness, family by packet type; the exceptions are stated exactly and refuted (three misrouted metadata texts, truncated function block discoveries)."
  },
  {
   "property": "C13",
   "status": "proved",
   "theorems": [
    "C13_bytes_message",
    "C13_first_byte"
   ],
   "note": "Classification by first byte against an independent table; succeeds exactly when the type accepts and exactly when there are enough bytes."
  },
  {
   "property": "C14",
   "status": "proved",
   "theorems": [
    "C14_aggregate_from_bytes",
    "C14_aggregate_from_ump",
    "C14_from_bytes",
    "C14_from_ump",
    "C14_bytes_round_trip",
    "C14_ump_round_trip",
    "C14_song_position_refuted",
    "C14_reserved_refuted"
   ],
   "note": "Both directions, growable and fixed targets; refuted for song position pointer and for data bytes above 0x7F."
  },
  {
   "property": "C15",
   "status": "proved",
   "theorems": [
    "C15_group",
    "C15_channel",
    "C15_bank_status"
   ],
   "note": "System common, channel voice 1 and 2 and flex data enums; bit-level frame and re-parse; sysex groups are in C24."
  },
  {
   "property": "C16",
   "status": "proved",
   "theorems": [
    "C16_packets",
    "C16_calls",
    "C16_sysex",
    "C16_flex_histories",
    "C16_stream_histories",
    "C16_function_block_discovery_refuted"
   ],
   "note": "Every accepted message type but function block discovery, where it is refuted; histories of text messages; payloads of sysex packets."
  },
  {
   "property": "C17",
   "status": "proved",
   "theorems": [
    "C17_packet",
    "C17_family_packet",
    "C17_short",
    "C17_short_refuted",
    "C17_header",
    "C17_set_header",
    "C17_sysex8_size_refuted",
    "C17_sysex8_empty_end_refuted"
   ],
   "note": "Exact acceptance condition, total; short slices of three families and the missing sysex8 size check are refuted, as the property says."
  },
  {
   "property": "C18",
   "status": "proved",
   "theorems": [
    "C18_sysex7_round_trip"
   ],
   "note": "From any buffer contents, any iterator hint."
  },
  {
   "property": "C19",
   "status": "proved",
   "theorems": [
    "C19_bytes_round_trip"
   ],
   "note": "From any accepted byte stream."
  },
  {
   "property": "C20",
   "status": "proved",
   "theorems": [
    "C20_sysex8_round_trip"
   ],
   "note": "From any buffer contents; the result parses when the stream id was 0, as it is in every message built through the API (C35)."
  },
  {
   "property": "C21",
   "status": "proved",
   "theorems": [
    "C21_edit_is_list_edit",
    "C21_bytes_edit_is_list_edit",
    "C21_bytes_behind",
    "C21_bytes_two_messages_refuted"
   ],
   "note": "All edits, both UMP formats and the byte form, arbitrary size hints. Bytes behind a message in a growable buffer must not include 0xF7 (C21_bytes_two_messages_refuted)."
  },
  {
   "property": "C22",
   "status": "proved",
   "theorems": [
    "C22_fixed_edit",
    "C22_fixed_histories",
    "C22_bytes_splice",
    "C22_bytes_set_payload",
    "C22_bytes_histories",
    "C22_unannounced_refuted",
    "C22_stale_end_refuted",
    "C22_overannounced_refuted",
    "C22_unannounced_exact",
    "C22_unannounced_cases",
    "C22_unannounced_roomy",
    "C22_bytes_unannounced_exact",
    "C22_bytes_too_many",
    "C22_bytes_unannounced_refuted"
   ],
   "note": "UMP: single edits and histories. Bytes: single splices, set_payload in any accepted state, growing histories. Unannounced data replacing a range: refuted, and determined exactly for arrays of words (C22_unannounced_exact) and, if at least as many items were announced as bytes are replaced, for byte arrays (C22_bytes_unannounced_exact); otherwise the call on a byte array may panic (C22_bytes_unannounced_refuted). An edit that does not fit a byte array fails cleanly whatever was announced (C22_bytes_too_many). Refuted for stale end bytes and over-announced data, as the property says."
  },
  {
   "property": "C23",
   "status": "proved",
   "theorems": [
    "C23_framing"
   ],
   "note": "Header fields of every packet after any history from new(), both formats."
  },
  {
   "property": "C24",
   "status": "proved",
   "theorems": [
    "C24_set_group",
    "C24_accepted_uniform",
    "C24_flex_set_group"
   ],
   "note": "Sysex 7 and 8: set_group, every edit (C21, C34) and try_from. Flex data text: set_group here, histories in C42, parsing in C07_flex_text."
  },
  {
   "property": "C25",
   "status": "proved",
   "theorems": [
    "C25_from_bytes",
    "C25_from_ump",
    "C25_round_trips"
   ],
   "note": "From every accepted message, growable and fixed targets, with the exact failure condition."
  },
  {
   "property": "C26",
   "status": "proved",
   "theorems": [
    "C26_accepts_exactly",
    "C26_accepted_reads",
    "C26_bytes_accepts_exactly",
    "C26_bytes_accepted_reads",
    "C26_half_packet_refuted",
    "C26_high_byte_refuted"
   ],
   "note": "iff characterisation of acceptance for whole packets; refuted for half packets and 8-bit bytes, as the property says."
  },
  {
   "property": "C27",
   "status": "proved",
   "theorems": [
    "C27_packet_next",
    "C27_packet7_calls",
    "C27_packet7_nth_refuted",
    "C27_packet8_nth_refuted",
    "C27_packet8_end_refuted",
    "C27_calls",
    "C27_calls_sysex7",
    "C27_calls_bytes",
    "C27_sysex8_nth_refuted",
    "C27_trailing_nth_refuted",
    "C27_bytes_nth_refuted",
    "C27_bytes_size_hint_refuted"
   ],
   "note": "Arbitrary sequences of next and nth with len after each; nth beyond the end proved for sysex7 messages filling their buffer and refuted otherwise, as the property says. Packet payload iterators: next for both forms, any calls within the end for sysex7, refutations of nth."
  },
  {
   "property": "C28",
   "status": "proved",
   "theorems": [
    "C28_set_byte",
    "C28_out_of_range",
    "C28_bytes_set_byte",
    "C28_bytes_out_of_range_refuted"
   ],
   "note": "Any accepted message; panic beyond the end proved for UMP messages filling their buffer, refuted for bytes."
  },
  {
   "property": "C29",
   "status": "proved",
   "theorems": [
    "C29_flex_round_trip",
    "C29_flex_string",
    "C29_flex_fixed",
    "C29_full_packet_refuted",
    "C29_split_character_refuted"
   ],
   "note": "Any bytes, any previous buffer. The plain statement is refuted for lengths that are multiples of 12; kept says what is read back."
  },
  {
   "property": "C30",
   "status": "proved",
   "theorems": [
    "C30_flex_wire",
    "C30_flex_wire_fixed",
    "C30_packets_minimal",
    "C30_channel_refuted"
   ],
   "note": "Wire form after set_text from any buffer, growable and fixed; histories in C42. Uniform channel refuted after set_optional_channel on several packets."
  },
  {
   "property": "C31",
   "status": "proved",
   "theorems": [
    "C31_stream_round_trip",
    "C31_stream_string",
    "C31_stream_fixed"
   ],
   "note": "Any string without NUL, any previous buffer; overflow on fixed buffers."
  },
  {
   "property": "C32",
   "status": "proved",
   "theorems": [
    "C32_stream_wire",
    "C32_stream_wire_fixed",
    "C32_block_refuted"
   ],
   "note": "Wire form from any buffer; parsing in C42; refuted for function block names whose block was set before a longer name."
  },
  {
   "property": "C33",
   "status": "proved",
   "theorems": [
    "C33_built_clean",
    "C33_converted_clean",
    "C33_accepted_refuted",
    "C33_tune_request_refuted",
    "C33_sysex_clean"
   ],
   "note": "Fixed-size byte messages and sysex7 under every history."
  },
  {
   "property": "C34",
   "status": "proved",
   "theorems": [
    "C34_histories",
    "C34_histories_from",
    "C34_bytes_histories"
   ],
   "note": "Both UMP formats and the byte form; from new() and from any well-packed message."
  },
  {
   "property": "C35",
   "status": "proved",
   "theorems": [
    "C35_fixed_keeps_id",
    "C35_growable",
    "C35_set_stream_id_effect",
    "C35_set_stream_id_refuted",
    "C35_growing_refuted"
   ],
   "note": "Proved of what the code does: fixed-buffer edits keep the id on all packets, growable-buffer histories keep stream_id() and give added packets id 0, and the exact effect of set_stream_id. The intended reading of set_stream_id and of growing is refuted by witnesses."
  },
  {
   "property": "C36",
   "status": "proved",
   "theorems": [
    "C36_u14",
    "C36_u21",
    "C36_u28",
    "C36_decode"
   ],
   "note": "All values."
  },
  {
   "property": "C37",
   "status": "proved",
   "theorems": [
    "C37_histories",
    "C37_wire",
    "C37_reused",
    "C37_array",
    "C37_slice",
    "C37_slice_refuted",
    "C37_parse",
    "C37_set",
    "C37_getter_refuted",
    "C37_early_end_refuted",
    "C37_set_end_refuted",
    "C37_rebuffer"
   ],
   "note": "Arbitrary setter histories, growable, array and slice buffers, parsing iff, frame on any message; exceptions refuted as the property says."
  },
  {
   "property": "C38",
   "status": "proved",
   "theorems": [
    "C38_device_id",
    "C38_device_id_inverse",
    "C38_device_id_refuted",
    "C38_field_codes",
    "C38_tagged_codes",
    "C38_tables"
   ],
   "note": "Every enumerated field of every message; controllers with two spellings are C01_controller_spelling; device id codes proved exactly, channel 16 refuted as the property says."
  },
  {
   "property": "C39",
   "status": "proved",
   "theorems": [
    "C39_anything_behind",
    "C39_in_the_way",
    "C39_accepted",
    "C39_behind_refuted",
    "C39_fixed_behind_refuted",
    "C39_compaction",
    "C39_any_packets",
    "C39_edits",
    "C39_blocked_edits",
    "C39_fixed_edits",
    "C39_fixed_blocked_edits",
    "C39_sysex7_refuted",
    "C39_sysex8_removal_refuted"
   ],
   "note": "Every edit of a message with partly filled packets is either the list edit or panics, and exactly when it panics is stated (blocked, fixed_blocked); a 7-bit message must have a partly filled packet at an even position if it has one at all (C39_sysex7_refuted). C39_anything_behind and C39_in_the_way settle growable buffers for any content behind the message, C39_accepted gives the accepted buffers in which nothing is in the way. The refutations are witnesses of the exceptions."
  },
  {
   "property": "C40",
   "status": "proved",
   "theorems": [
    "C40_old_contents_ignored",
    "C40_stream_refuted",
    "C40_sysex_new",
    "C40_sysex_dirty",
    "C40_sysex_bytes",
    "C40_dirty_bytes_edit_refuted",
    "C40_text_growable",
    "C40_flex_dirty",
    "C40_stream_dirty",
    "C40_text_dirty_refuted"
   ],
   "note": "Fixed-size, sysex and text messages; refuted where old contents leak (multi-packet stream messages, text getters, sysex byte edits)."
  },
  {
   "property": "C41",
   "status": "proved",
   "theorems": [
    "C41_flex_iterator",
    "C41_stream_iterator",
    "C41_size_hint_refuted"
   ],
   "note": "Any number of next calls on any buffer of at least one packet; size_hint refuted."
  },
  {
   "property": "C42",
   "status": "proved",
   "theorems": [
    "C42_flex_histories",
    "C42_flex_fixed_histories",
    "C42_flex_new_too_small",
    "C42_stream_histories",
    "C42_stream_fixed_histories"
   ],
   "note": "Growable and fixed histories from fresh messages of every text type."
  },
  {
   "property": "C43",
   "status": "proved",
   "theorems": [
    "C43_bytes",
    "C43_bytes_total",
    "C43_bytes_refuted",
    "C43_ump",
    "C43_ump_last",
    "C43_ump_all",
    "C43_ump_refuted",
    "C43_ump_panic_refuted"
   ],
   "note": "Byte streams: for every sequence of accepted messages that occupy their declared size. UMP: every message but the last of a one-packet type; C43_ump_all says it for what try_from accepts. Refuted otherwise (C43_bytes_refuted, C43_ump_refuted, C43_ump_panic_refuted)."
  },
  {
   "property": "C44",
   "status": "proved",
   "theorems": [
    "C44_packets",
    "C44_any_slice",
    "C44_messages"
   ],
   "note": "Concatenations of well-formed packets, arbitrary slices, and concatenated messages."
  },
  {
   "property": "C45",
   "status": "proved",
   "theorems": [
    "C45_fixed",
    "C45_sysex",
    "C45_sysex_editable",
    "C45_sysex7_accepted",
    "C45_bytes",
    "C45_flex_text",
    "C45_stream_text",
    "C45_full_text_refuted",
    "C45_padding_refuted"
   ],
   "note": "Induction over chains of copies; all fixed-size types, sysex7/8 UMP and byte forms, all texts; the exceptions are refuted (C45_full_text_refuted, C45_padding_refuted)."
  },
  {
   "property": "C46",
   "status": "proved",
   "theorems": [
    "C46_receiver",
    "C46_interleaved",
    "C46_group_only_refuted"
   ],
   "note": "All interleavings of any number of senders (C46_interleaved), and any filing of messages of all types (C46_receiver). The receiver is a client written over the API. C46_group_only_refuted shows that the stream id is needed."
  },
  {
   "property": "C47",
   "status": "proved",
   "theorems": [
    "C47_ump_parser",
    "C47_packet_parser",
    "C47_ump_message",
    "C47_more_features",
    "C47_bytes_parser",
    "C47_bytes_message",
    "C47_total",
    "C47_packets"
   ],
   "note": "All sets of the eight message features and all inputs. The std and ci features change no parser."
  },
  {
   "property": "C48",
   "status": "proved",
   "theorems": [
    "C48_roundtrip",
    "C48_splice",
    "C48_handle_voice",
    "C48_handle_sysex",
    "C48_handle_total",
    "C48_handle_error",
    "C48_handle_panic_refuted"
   ],
   "note": "The three fuzz targets and the handling_messages example, for all inputs. C48_handle_panic_refuted: handle_message panics on sysex7 words with half a packet behind them (the defect of C26_half_packet_refuted)."
  },
  {
   "property": "C49",
   "status": "proved",
   "theorems": [
    "C49_unit",
    "C49_form",
    "C49_packet_form",
    "C49_ump_message",
    "C49_bytes_message",
    "C49_concrete",
    "C49_packet",
    "C49_equality",
    "C49_whole_equal",
    "C49_equal_data_refuted"
   ],
   "note": "All types and buffers, both for wrapped and for plain messages, and packets. C49_equal_data_refuted: words behind a message make messages with the same data() and fields differ. The alternate form of the enums is C69."
  },
  {
   "property": "C50",
   "status": "proved",
   "theorems": [
    "C50_sent",
    "C50_cables",
    "C50_there_and_back",
    "C50_midi1_streams_refuted"
   ],
   "note": "All streams of messages and all interleavings (C50_cables). Messages are those of SpecGateway.midi1; C50_midi1_streams_refuted shows what MIDI 1.0 streams may contain that is not carried."
  },
  {
   "property": "C51",
   "status": "proved",
   "theorems": [
    "C51_ump_message",
    "C51_bytes_message",
    "C51_any_slice_refuted"
   ],
   "note": "All slices and all reading methods. The conditions (whole packets; data bytes present and 7-bit) are those shown necessary by C51_any_slice_refuted."
  },
  {
   "property": "C52",
   "status": "proved",
   "theorems": [
    "C52_new",
    "C52_new_with_buffer",
    "C52_from_bytes_fixed_size",
    "C52_from_ump_fixed_size",
    "C52_flex_histories",
    "C52_stream_set",
    "C52_stream_histories",
    "C52_bytes_any",
    "C52_bytes_any_histories",
    "C52_bytes_lazy_refuted",
    "C52_stream_any",
    "C52_sysex_new",
    "C52_sysex_new_with_buffer",
    "C52_edit",
    "C52_histories",
    "C52_unannounced_refuted",
    "C52_over_announced_refuted",
    "C52_bytes_new",
    "C52_bytes_edit",
    "C52_bytes_histories",
    "C52_bytes_set_one_refuted",
    "C52_bytes_remove_one_refuted",
    "C52_bytes_small_refuted",
    "C52_from_ump",
    "C52_from_bytes",
    "C52_from_bytes_refuted"
   ],
   "note": "Every buffer type that grants requests up to its capacity, for words; the byte form for the arena, which always takes the length asked for, and for every buffer while the payload does not become shorter (C52_bytes_any, C52_bytes_any_histories; C52_bytes_lazy_refuted otherwise). The exact number on every packet of a function block name is stated for the arena (C52_stream_histories); for any buffer, the first number, and all of them if it was set last (C52_stream_any). The exceptions in the statement are the C52_..._refuted theorems."
  },
  {
   "property": "C53",
   "status": "proved",
   "theorems": [
    "C53_determined",
    "C53_built",
    "C53_equal",
    "C53_attribute_refuted",
    "C53_copy",
    "C53_effect_depth_refuted",
    "C53_arrays_long",
    "C53_arrays_growing",
    "C53_arrays_like_vectors",
    "C53_arrays_refused_refuted",
    "C53_sysex_long",
    "C53_sysex_growing",
    "C53_sysex_set",
    "C53_sysex_short_refuted"
   ],
   "note": "Fixed-size messages: C53_determined, C53_built, C53_equal, C53_copy. System exclusive: exactly the bytes of SpecSysexWire.v, for payloads of more than one packet after any history, and for all lengths when the payload was never shortened; the same on arrays, where edits may also have been refused for lack of room (C53_arrays_...). Text messages: the theorems of C42 already give all bytes. The exceptions in the statement are the C53_..._refuted theorems."
  },
  {
   "property": "C54",
   "status": "proved",
   "theorems": [
    "C54_all_delivered",
    "C54_stream",
    "C54_stops"
   ],
   "note": "The program is a Gallina function of the list of messages asked for; the pointers it keeps are positions in the array, read when the program ends. SongPositionPointer, which cannot be constructed in bytes (C07), is excluded by the hypothesis [constructible]."
  },
  {
   "property": "C55",
   "status": "proved",
   "theorems": [
    "C55_edits",
    "C55_bytes_edits",
    "C55_tries",
    "C55_bytes_tries",
    "C55_edit_is_list_edit",
    "C55_histories",
    "C55_bytes_histories",
    "C55_fixed_edit",
    "C55_fixed_histories",
    "C55_iterators",
    "C55_bytes_iterators",
    "C55_release_edits",
    "C55_release_fixed_edits",
    "C55_hint_refuted",
    "C55_nth_refuted",
    "C55_inverted_range_refuted",
    "C55_trailing_nth_refuted",
    "C55_payload",
    "C55_conversions",
    "C55_from_bytes",
    "C55_from_ump",
    "C55_conversion_round_trips"
   ],
   "note": "MachineSysex.v repeats the sysex functions with usize and u8 arithmetic modulo the machine word and with debug assertions that a build may omit. Refuted beyond the stated bound: an iterator that announces usize::MAX items, nth(usize::MAX), ranges that end before they begin, and nth past the end of a message in a longer array make a release build return wrong data where a debug build panics."
  },
  {
   "property": "C56",
   "status": "proved",
   "theorems": [
    "C56_flex_set_text",
    "C56_stream_set_text",
    "C56_flex_read",
    "C56_stream_read",
    "C56_flex_histories",
    "C56_flex_fixed_histories",
    "C56_stream_histories",
    "C56_stream_fixed_histories",
    "C56_packet_payload",
    "C56_packet_next",
    "C56_packet7_calls",
    "C56_packet8_size_refuted",
    "C56_packet7_nth_refuted"
   ],
   "note": "MachineText.v repeats the text and packet payload functions with usize and u8 arithmetic modulo the machine word. Refuted: the payload of a sysex8 packet with size code 0, and nth past the end of a packet payload, panic in a debug build and yield wrong data in a release build."
  },
  {
   "property": "C57",
   "status": "proved",
   "theorems": [
    "C57_iterators",
    "C57_bytes_iterators",
    "C57_fixed_iterators",
    "C57_fixed_bytes_iterators",
    "C57_edit",
    "C57_bytes_edit",
    "C57_endless_overflows",
    "C57_endless_bytes_overflows",
    "C57_endless_never_returns",
    "C57_endless_bytes_never_returns"
   ],
   "note": "Feed.v models the iterator as the sequence of its answers and Peekable explicitly; loops without bound take the number of rounds. Iterators that panic are treated in C59."
  },
  {
   "property": "C58",
   "status": "proved",
   "theorems": [
    "C58_journeys",
    "C58_from_packets",
    "C58_from_bytes",
    "C58_route_free",
    "C58_journeys8",
    "C58_from_packets8",
    "C58_route_free8"
   ],
   "note": "The view of SpecJourney.v tracks place, buffer length, payload and group; each leg refines it. Edits of byte arrays on the way do not shorten the payload and fit (C22_stale_end_refuted shows why), packet arrays hold whole packets, and edits of arrays announce their items (C22). For Sysex8 the stream id is 0: growing a message with another id gives packets with different ids (C35_growing_refuted)."
  },
  {
   "property": "C59",
   "status": "proved",
   "theorems": [
    "C59_no_panic",
    "C59_interrupted",
    "C59_goes_on",
    "C59_hint_panics",
    "C59_bytes_interrupted",
    "C59_bytes_hint_panics",
    "C59_fixed_interrupted",
    "C59_fixed_hint_panics",
    "C59_fixed_bytes_interrupted",
    "C59_fixed_bytes_refuted"
   ],
   "note": "Messages are well packed, as in C21 and C22; arrays need the announcements of C22. Byte arrays: bytes behind the message below 128 and not try_set_payload; C59_fixed_bytes_refuted shows the payload becoming unreadable otherwise. C59_no_panic ties the model to that of C57."
  },
  {
   "property": "C60",
   "status": "proved",
   "theorems": [
    "C60_sysex_arrays",
    "C60_any_order",
    "C60_commute",
    "C60_last_counts",
    "C60_repeated",
    "C60_put_back",
    "C60_withdrawn_refuted",
    "C60_sysex",
    "C60_flex",
    "C60_flex_channel_refuted"
   ],
   "note": "Values as in C01 (representable ones). C60_withdrawn_refuted and C60_flex_channel_refuted are the exceptions the statement names. For system exclusive messages the payload is longer than a packet or never became shorter, as in C53."
  },
  {
   "property": "C61",
   "status": "proved",
   "theorems": [
    "C61_answers",
    "C61_hint",
    "C61_edit",
    "C61_bytes_edit",
    "C61_fixed_edit",
    "C61_fixed_bytes_splice",
    "C61_split_join",
    "C61_join",
    "C61_skip_refuted",
    "C61_byte_payload_refuted"
   ],
   "note": "skip and take are applied to payloads and to one another; map and chain around these. skip stays below the length of what it skips, unless nothing lies behind the message in its buffer; C61_skip_refuted shows why. Replacing bytes of a message in an array takes payloads of messages in packets; C61_byte_payload_refuted shows why. The function mapped does not panic."
  },
  {
   "property": "C62",
   "status": "proved",
   "theorems": [
    "C62_written",
    "C62_correspondence",
    "C62_interleaved",
    "C62_written_in",
    "C62_arrays"
   ],
   "note": "composes C05, C09, C34, C42, C16, C44 and C46. C62_arrays is the same for messages built in arrays of any length. Left out of the letters, because they are refuted elsewhere: function block discovery (C07_sizes_refuted), three flex data types (C12), flex data texts that fill their last packet (C29), names with NUL, and function block names whose packets disagree on the block (C32)."
  },
  {
   "property": "C63",
   "status": "proved",
   "theorems": [
    "C63_truth",
    "C63_fixed",
    "C63_sysex",
    "C63_sysex_bytes",
    "C63_flex_text",
    "C63_stream_text",
    "C63_families",
    "C63_ump_message",
    "C63_bytes_message",
    "C63_packet",
    "C63_discovery",
    "C63_family_named_refuted",
    "C63_byte_families"
   ],
   "note": "one theorem per parser, over slices of any length, whole packets or not. The texts are compared as strings. C63_family_named_refuted: the complaint about an unknown status of a system common or UMP stream message names another family."
  },
  {
   "property": "C64",
   "status": "proved",
   "theorems": [
    "C64_sysex_packets",
    "C64_sysex",
    "C64_flex_text",
    "C64_stream_text",
    "C64_recovery",
    "C64_sysex_recovery",
    "C64_lost_packet_refuted",
    "C64_joined_refuted",
    "C64_flex_mixed",
    "C64_stream_mixed",
    "C64_texts_joined_refuted"
   ],
   "note": "the receiver is the client of C46. C64_lost_packet_refuted, C64_joined_refuted, C64_texts_joined_refuted: a packet lost from the middle is not noticed, and if the end of one message and the start of the next are lost, the rest is read as a message that nobody sent."
  },
  {
   "property": "C65",
   "status": "proved",
   "theorems": [
    "C65_reserved_bits",
    "C65_one_field",
    "C65_seen",
    "C65_ump_message",
    "C65_sysex_byte",
    "C65_sysex_contained",
    "C65_sysex_bytes",
    "C65_flex_text",
    "C65_stream_text"
   ],
   "note": "single-packet fixed-size messages (and multi-packet ones parsed alone), system exclusive in both forms, both kinds of text. A changed inner byte of a byte-form system exclusive message with the top bit set panics on reading (C26_high_byte_refuted)."
  },
  {
   "property": "C66",
   "status": "proved",
   "theorems": [
    "C66_heard",
    "C66_message",
    "C66_connection"
   ],
   "note": "C66_message and C66_connection compose C37 and C50; C66_heard is the exact condition for arriving messages and the meaning of their fields, given by SpecInquiry.v. A payload may be longer than the inquiry, as the code allows."
  },
  {
   "property": "C67",
   "status": "proved",
   "theorems": [
    "C67_resize_heads",
    "C67_packets",
    "C67_bytes",
    "C67_announced",
    "C67_hint_refuted",
    "C67_appending_refuted",
    "C67_array_resize_heads",
    "C67_arrays",
    "C67_arrays_announced",
    "C67_arrays_refused",
    "C67_byte_arrays_announced",
    "C67_byte_arrays_refused"
   ],
   "note": "The edits run over the operations of Splice.v wrapped with counters (Meter.v); C67_packets and C67_bytes say, for any history, that the counted run ends in the same buffer as the plain one and that the counters are within the limits of SpecCost.v. What is counted: calls of resize, packet headers written by them (C67_resize_heads: all of them), the largest size asked for, payload bytes moved, payload bytes written. Reading (finding the length of the payload) and iterator overhead are not counted. C67_hint_refuted, C67_appending_refuted: the exceptions in the statement. Arrays of words: C67_arrays (histories that ask for no more than the array holds), C67_arrays_announced, C67_arrays_refused (edits that do not fit and whose iterator yields no more than announced), C67_array_resize_heads. Arrays of bytes: C67_byte_arrays_announced, C67_byte_arrays_refused. Not covered: edits that shorten a payload in a byte array, and edits in arrays whose doubled estimate exceeds the array."
  },
  {
   "property": "C68",
   "status": "proved",
   "theorems": [
    "C68_bytes",
    "C68_receiver",
    "C68_sysex",
    "C68_lost_end_refuted",
    "C68_words_refuted"
   ],
   "note": "C68_bytes is the byte stream, C68_receiver the receiver of Receiver.v for every message type and every key, C68_sysex the same for system exclusive senders with sizes in words. In byte streams no status byte but 0xF7 may stand inside a message (real-time bytes inside system exclusive messages are not read as messages by the library, see C50). C68_lost_end_refuted: a lost 0xF7 is not noticed. C68_words_refuted: a stream of words must be joined where a packet begins."
  },
  {
   "property": "C69",
   "status": "proved",
   "theorems": [
    "C69_message_lines",
    "C69_packet_lines",
    "C69_same_text",
    "C69_same_packet_text",
    "C69_message",
    "C69_packet",
    "C69_error_form",
    "C69_error",
    "C69_display",
    "C69_own_words",
    "C69_keep"
   ],
   "note": "All message types, packets and errors. Error texts are ASCII in the model (how core prints characters of 128 and more depends on Unicode tables); C69_own_words shows that the texts of all parsers are, with no character that needs an escape."
  },
  {
   "property": "C70",
   "status": "proved",
   "theorems": [
    "C70_sysex_arrays",
    "C70_fixed_size",
    "C70_received",
    "C70_attribute_refuted",
    "C70_flex",
    "C70_flex_fixed",
    "C70_flex_channel_last_refuted",
    "C70_stream",
    "C70_stream_fixed",
    "C70_stream_block_first_refuted",
    "C70_sysex",
    "C70_sysex_bytes"
   ],
   "note": "C70_fixed_size and C70_received: fixed-size messages. C70_flex, C70_flex_fixed, C70_stream, C70_stream_fixed: texts. C70_sysex, C70_sysex_bytes: system exclusive. What does not hold is refuted: C70_attribute_refuted, C70_flex_channel_last_refuted, C70_stream_block_first_refuted, and for short payloads C53_sysex_short_refuted."
  },
  {
   "property": "C71",
   "status": "proved",
   "theorems": [
    "C71_flex",
    "C71_flex_route_free",
    "C71_stream",
    "C71_stream_name",
    "C71_stream_block_refuted"
   ],
   "note": "C71_flex and C71_stream: every journey; C71_flex_route_free and C71_stream_name: the way does not matter. Arrays hold whole packets. The last byte of a flex data text that fills its buffer is not read back (C29_full_packet_refuted); the statement says so, and a larger buffer brings it back. C71_stream_block_refuted: the way decides about block numbers."
  },
  {
   "property": "C72",
   "status": "proved",
   "theorems": [
    "C72_cable",
    "C72_sizes_refuted"
   ],
   "note": "C72_cable: w is all that was heard at some moment, so the messages are there exactly when their last byte is. Messages as the library has them (whole, one status byte). C72_sizes_refuted: three types do not have their size of the standard."
  },
  {
   "property": "C73",
   "status": "proved",
   "theorems": [
    "C73_prefix",
    "C73_packets",
    "C73_words_refuted"
   ],
   "note": "C73_prefix: no strict beginning is accepted, cut at any packet. C73_packets: the client has the messages that ended so far at every moment. sendable leaves out the types the parser never returns (C12). C73_words_refuted: cut inside the last packet a text is accepted."
  }
 ]
}