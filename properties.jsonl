{"id": "C01", "title": "Setter/getter round trip on fixed-size messages", "statement": "For every fixed-size message type (utility, system common, MIDI 1 and MIDI 2 channel voice, flex data setup messages, UMP stream configuration messages) and every settable field of it, calling the setter with any value of the field's type and then the getter returns that value, whatever the buffer held before. Exceptions in the code are proved as refutations: flats(0) in SetKeySignature, EffectDepth 5 and several aliases in the per-note Controller.", "quantifier": "every fixed-size message type, every settable field, every field value, every prior buffer content", "why_tests_cant": "the product of 32/64/128-bit buffers and field values is far beyond enumeration; tests try one or two literals per field", "anchors": ["midi2_proc/src/generate_message.rs (property setter / getter generation)", "midi2/src/detail/schema.rs", "midi2/src/detail/common_properties.rs", "midi2/src/channel_voice2/*.rs", "midi2/src/flex_data/set_*.rs", "midi2/src/ump_stream/*.rs"]}
{"id": "C02", "title": "Setters do not disturb other fields", "statement": "Calling the setter of one field of a fixed-size message leaves the value returned by every other getter of the message, and the message's validity, unchanged.", "quantifier": "every fixed-size message type, every ordered pair of distinct fields, every value, every buffer", "why_tests_cant": "needs all pairs of fields times all buffer contents", "anchors": ["midi2_proc/src/generate_message.rs", "midi2/src/detail/bit_ops.rs", "midi2/src/detail/schema.rs"]}
{"id": "C03", "title": "Setters touch only the bits of their field", "statement": "A setter changes no bit of the buffer outside the bit range the field occupies on the wire: reserved bits, other words and trailing units keep their values and the buffer length never changes.", "quantifier": "every fixed-size message type, field, value and buffer of any length at least the message size", "why_tests_cant": "a frame condition over all bit patterns", "anchors": ["midi2/src/detail/bit_ops.rs set_bit/set_crumb/set_nibble/set_septet/set_octet/set_word", "midi2/src/detail/schema.rs", "midi2/src/detail/common_properties.rs"]}
{"id": "C04", "title": "Fields live where the MIDI standard puts them", "statement": "Each getter returns exactly the number found in the bit positions the MIDI 1.0 / UMP standard assigns to that field (big-endian words, most significant nibble first; 14-bit values least significant 7 bits first).", "quantifier": "every fixed-size message type, every numeric field, every buffer", "why_tests_cant": "equality of two functions on 2^32..2^128 inputs", "anchors": ["midi2/src/detail/bit_ops.rs", "midi2/src/detail/schema.rs", "midi2/src/*/**.rs message declarations"]}
{"id": "C05", "title": "Fresh messages are valid and carry defaults", "statement": "A message built with new / try_new / try_new_with_buffer parses back with try_from(data()) and each field reads as its documented default, whatever the supplied buffer contained before. (False for SongPositionPointer and FunctionBlockDiscovery in some buffers, for which construction panics: proved as refutations.)", "quantifier": "every fixed-size message type, every buffer kind, length and prior content", "why_tests_cant": "depends on the unknown prior contents and length of a caller-supplied buffer", "anchors": ["midi2_proc/src/generate_message.rs new_impl, new_with_buffer_impl, try_new_with_buffer_impl, try_new_array_impl"]}
{"id": "C06", "title": "Parsing never panics", "statement": "try_from on an arbitrary slice of u32 (or u8) returns Ok or Err for every message type and every aggregate enum; it never panics, whatever the length or contents.", "quantifier": "every slice of any length, every message type and aggregate", "why_tests_cant": "the input space is all finite sequences of words or bytes", "anchors": ["midi2_proc/src/generate_message.rs try_from_slice_impl", "midi2/src/message.rs", "midi2/src/packet.rs", "midi2/src/flex_data.rs TryFrom", "midi2/src/ump_stream.rs TryFrom"]}
{"id": "C07", "title": "Parsing accepts exactly the well-formed slices", "statement": "try_from for a fixed-size message succeeds if and only if the slice has at least the message's length, carries the message's UMP type and status (and bank/format) codes, and every enumerated field holds a code with an assigned meaning; nothing else about the contents matters.", "quantifier": "every fixed-size message type, every slice", "why_tests_cant": "soundness and completeness over all slices", "anchors": ["midi2_proc/src/generate_message.rs try_from_slice_impl", "midi2/src/detail/common_properties.rs validate", "midi2/src/system_common.rs SystemCommonStatus", "midi2/src/flex_data.rs", "midi2/src/ump_stream.rs StatusProperty"]}
{"id": "C08", "title": "Getters of an accepted message never panic", "statement": "After try_from has accepted a slice, every getter, data(), packets() and group()/channel() terminates without panicking and returns a value in range of its type.", "quantifier": "every slice accepted by try_from, every message type, every getter", "why_tests_cant": "needs all accepted slices", "anchors": ["midi2_proc/src/generate_message.rs", "midi2/src/channel_voice2/controller.rs", "midi2/src/channel_voice2/attribute.rs", "midi2/src/ump_stream/function_block_info.rs", "midi2/src/flex_data/set_chord_name.rs"]}
{"id": "C09", "title": "Any history of setters keeps a message valid", "statement": "Starting from a fresh or accepted fixed-size message, after any finite sequence of setter calls with in-range values the message still parses, has the same size, and each getter returns the last value set for that field (or the initial one).", "quantifier": "every finite sequence of setter calls with any values", "why_tests_cant": "unbounded histories", "anchors": ["midi2_proc/src/generate_message.rs setters"]}
{"id": "C10", "title": "data() is a self-contained prefix", "statement": "data() of an accepted message is a prefix of the slice it was parsed from; parsing data() again succeeds and gives a message whose getters all agree with the original; units after the message never influence the result.", "quantifier": "every accepted slice with any trailing units", "why_tests_cant": "trailing contents of any length", "anchors": ["midi2_proc/src/generate_message.rs data_impl, packets_impl", "midi2/src/sysex7.rs Size", "midi2/src/sysex8.rs Size", "midi2/src/flex_data.rs flex_data_dyn_size", "midi2/src/ump_stream.rs message_size"]}
{"id": "C11", "title": "Rebuffering preserves the message", "statement": "rebuffer_into a Vec, try_rebuffer_into an array and array_rebuffer_into produce a message with the same data(); try_rebuffer_into fails exactly when the source buffer does not fit in the destination.", "quantifier": "every message, every destination size", "why_tests_cant": "sizes and contents unbounded", "anchors": ["midi2_proc/src/generate_message.rs rebuffer_from_impl, try_rebuffer_from_impl, rebuffer_from_array_impl", "midi2/src/buffer.rs FromBuffer, TryFromBuffer"]}
{"id": "C12", "title": "UMP dispatch picks the unique right type", "statement": "UmpMessage::try_from (and each family enum) succeeds with a variant exactly when the corresponding concrete try_from succeeds on the same slice; at most one concrete type of a family accepts a slice; the payload of the variant is that concrete message. (False for three flex-data metadata texts: proved as a refutation.)", "quantifier": "every slice of u32", "why_tests_cant": "needs all slices; a wrong status constant is invisible to tests that never use that status", "anchors": ["midi2/src/message.rs UmpMessage::try_from", "midi2/src/channel_voice1.rs", "midi2/src/channel_voice2.rs", "midi2/src/utility.rs", "midi2/src/system_common.rs", "midi2/src/flex_data.rs", "midi2/src/ump_stream.rs"]}
{"id": "C13", "title": "Byte-stream dispatch", "statement": "BytesMessage::try_from classifies a byte slice by its first byte as the MIDI 1.0 standard does, and succeeds exactly when the concrete type of that status accepts the slice.", "quantifier": "every slice of u8", "why_tests_cant": "all byte strings", "anchors": ["midi2/src/message.rs BytesMessage::try_from"]}
{"id": "C14", "title": "Bytes to UMP translation round trip", "statement": "For channel voice 1 and system common messages, converting bytes to UMP and back yields a message with the same data(), converting UMP to bytes and back restores everything but the group (which becomes 0), and each field getter gives the same value before and after conversion. (Fails by panic for SongPositionPointer: refutation.)", "quantifier": "every valid message of those families, both directions", "why_tests_cant": "all values of all fields", "anchors": ["midi2_proc/src/generate_message.rs from_bytes_impl, from_ump_impl", "midi2/src/detail/common_properties.rs HybridSchemaProperty"]}
{"id": "C15", "title": "Group and channel through aggregates", "statement": "group()/set_group()/channel()/set_channel() called on an aggregate enum have the same observable effect as on the wrapped message.", "quantifier": "every aggregate message and value", "why_tests_cant": "all messages", "anchors": ["midi2_proc/src/derives.rs", "midi2/src/message.rs", "midi2/src/flex_data.rs"]}
{"id": "C16", "title": "Packets partition the message", "statement": "The packets() of any message whose data() exists, concatenated, are exactly data(), each packet has the length and type of a UMP of the message's family, and every sequence of next and nth calls on the iterator answers like one over that list, with len() and size_hint() exact, without a panic. The packets of a sysex message carry its group, framing and payload; those of a text its framing. (Refuted for a function block discovery shorter than a packet.)", "quantifier": "every accepted message of any length", "why_tests_cant": "message length is unbounded", "anchors": ["midi2/src/packets.rs PacketsIterator", "midi2_proc/src/generate_message.rs packets_impl"]}
{"id": "C17", "title": "Packet parsing", "statement": "Packet::try_from never panics; it accepts every non-empty slice whose first word has an assigned message type (with sysex7 size and sysex7/sysex8 status codes valid), keeps at most the packet's words, zero-pads a short slice, and format()/status()/group()/channel()/stream_id() report the header bits; set_group and set_channel change only their bits. (Refuted for slices of fewer than two words for flex data and sysex7, four for sysex8, which are refused; sysex8 size codes are not checked.)", "quantifier": "every slice of u32", "why_tests_cant": "all slices", "anchors": ["midi2/src/packet.rs", "midi2/src/sysex7/packet.rs", "midi2/src/sysex8/packet.rs", "midi2/src/flex_data/packet.rs", "midi2/src/ump_stream/packet.rs"]}
{"id": "C18", "title": "Sysex7 UMP payload round trip", "statement": "For a Sysex7 message in a growable u32 buffer, set_payload(bytes) followed by payload() yields exactly those bytes for every byte sequence, and payload_size() is its length.", "quantifier": "every finite sequence of 7-bit values, every size-hint behaviour of the supplied iterator, every prior state reachable through the API", "why_tests_cant": "unbounded lengths; behaviour changes at multiples of 6 and with the iterator's size hint", "anchors": ["midi2/src/sysex7.rs set_payload, payload, try_resize_ump, write_datum", "midi2/src/detail/helpers.rs try_splice_sysex_data"]}
{"id": "C19", "title": "Sysex7 byte-stream payload round trip", "statement": "The same as C18 for Sysex7 in a growable u8 buffer; data() is 0xF0, the payload, 0xF7 and nothing else.", "quantifier": "every finite sequence of 7-bit values, every size-hint behaviour", "why_tests_cant": "unbounded lengths", "anchors": ["midi2/src/sysex7.rs", "midi2/src/detail/helpers.rs"]}
{"id": "C20", "title": "Sysex8 payload round trip", "statement": "The same as C18 for Sysex8 in a growable u32 buffer with 8-bit payload bytes (13 per packet).", "quantifier": "every finite sequence of bytes, every size-hint behaviour", "why_tests_cant": "unbounded lengths", "anchors": ["midi2/src/sysex8.rs", "midi2/src/detail/helpers.rs"]}
{"id": "C21", "title": "Splice is list splice on growable buffers", "statement": "splice_payload(data, begin..end), insert_payload, append_payload and append_byte on a growable buffer replace exactly the payload bytes in the range with the data: result = before ++ data ++ after, for every iterator whatever its size_hint claims.", "quantifier": "every well-formed message, every range inside the payload, every data sequence, every (possibly wrong) size hint", "why_tests_cant": "unbounded sizes; the estimate/regrow loop has many paths", "anchors": ["midi2/src/detail/helpers.rs try_splice_sysex_data", "midi2/src/sysex7.rs move_payload_tail", "midi2/src/sysex8.rs move_payload_tail", "midi2/src/traits.rs Sysex"]}
{"id": "C22", "title": "Fixed buffers: fit or fail cleanly", "statement": "On a fixed-size buffer try_set_payload / try_insert_payload / try_splice_payload succeed exactly when the resulting message fits, then have the same result as on a growable buffer; otherwise they return BufferOverflow and leave a valid message with an empty payload. (False for stale end bytes in byte buffers, and for iterators that yield more than they announced and replace a non-empty range: refutations. In the latter case the result is determined: the edit is right if room for the announced number of items, enlarged by 1, 2, 4, ... items, reaches the number of items without exceeding the buffer; BufferOverflow and an empty message if the items do not fit; otherwise success is reported with a payload in which what followed the range has been written over the items.)", "quantifier": "every capacity, payload, range, data and size hint", "why_tests_cant": "capacity and sizes unbounded; the failing paths need particular combinations", "anchors": ["midi2/src/detail/helpers.rs", "midi2/src/sysex7.rs try_resize", "midi2/src/sysex8.rs try_resize"]}
{"id": "C23", "title": "Sysex packet framing", "statement": "After any payload edit the packets of a sysex message are framed as the standard demands: one Complete packet, or Start, Continue*, End; every packet but the last is full; size nibbles match the payload; the number of packets is minimal.", "quantifier": "every payload length and every edit history", "why_tests_cant": "unbounded lengths and histories", "anchors": ["midi2/src/sysex7.rs try_resize_ump", "midi2/src/sysex8.rs try_resize"]}
{"id": "C24", "title": "Group is uniform across packets", "statement": "set_group on a sysex or flex-data text message makes every packet of the message carry that group, growing or shrinking the payload keeps it, and try_from rejects messages whose packets disagree.", "quantifier": "every message of any number of packets", "why_tests_cant": "unbounded packet count", "anchors": ["midi2/src/sysex7.rs GroupProperty", "midi2/src/sysex8.rs", "midi2/src/flex_data.rs GroupProperty", "midi2/src/detail/helpers.rs sysex_group_consistent_groups"]}
{"id": "C25", "title": "Sysex7 conversion preserves the payload", "statement": "Converting a Sysex7 message between UMP and byte form (growable target, or fixed target that is large enough) preserves the payload exactly; UMP to bytes to UMP also preserves it.", "quantifier": "every valid Sysex7 message of any length in either form", "why_tests_cant": "unbounded lengths", "anchors": ["midi2/src/sysex7.rs try_from_other, from_bytes, from_ump"]}
{"id": "C26", "title": "Accepted sysex messages are safe to read", "statement": "If Sysex7::try_from or Sysex8::try_from accepts a slice whose length is a whole number of packets, then data(), payload() and payload_size() do not panic and payload() is the concatenation of the packets' payload bytes. (False for slices with a partial trailing packet or 8-bit bytes in byte form: refutations.)", "quantifier": "every slice accepted", "why_tests_cant": "all slices", "anchors": ["midi2/src/sysex7.rs Size, payload, validate", "midi2/src/sysex8.rs", "midi2/src/detail/helpers.rs validate_sysex_group_statuses"]}
{"id": "C27", "title": "Payload iterators obey the iterator laws", "statement": "The payload iterator yields payload_size() items then None forever; len() always equals the number of items still to come; nth(k) equals k+1 calls of next(). (nth is refuted for sysex8 packets and exhausted iterators.)", "quantifier": "every message, every interleaving of next and nth calls", "why_tests_cant": "unbounded call sequences", "anchors": ["midi2/src/sysex7.rs PayloadIterator", "midi2/src/sysex8.rs PayloadIterator", "midi2/src/sysex7/packet.rs", "midi2/src/sysex8/packet.rs"]}
{"id": "C28", "title": "set_byte replaces one payload byte", "statement": "set_byte(b, i) with i < payload_size changes payload byte i to b and nothing else; with i >= payload_size it panics as documented. (The panic is refuted for byte buffers.)", "quantifier": "every message (compact or not), every index and byte", "why_tests_cant": "unbounded", "anchors": ["midi2/src/sysex7.rs set_byte", "midi2/src/sysex8.rs set_byte", "midi2/src/traits.rs Sysex::set_byte"]}
{"id": "C29", "title": "Flex data text round trip", "statement": "Setting the text of a flex data text message and reading the bytes back yields the text for every NUL-free text. (False when the length is a non-zero multiple of 12: the last byte is lost; refutation, and the true statement is proved.)", "quantifier": "every byte string", "why_tests_cant": "lengths unbounded; failure only at multiples of 12", "anchors": ["midi2/src/flex_data/text.rs"]}
{"id": "C30", "title": "Flex data text packet headers", "statement": "After setting a text, every packet of the message carries the message's type, group, bank, status and channel fields and the formats are Complete or Start, Continue*, End; data() is the minimal number of packets.", "quantifier": "every text, every prior state of the message", "why_tests_cant": "unbounded", "anchors": ["midi2/src/flex_data/text.rs grow_buffer", "midi2/src/flex_data.rs"]}
{"id": "C31", "title": "UMP stream name round trip", "statement": "Setting the name (EndpointName, FunctionBlockName) or id (ProductInstanceId) and reading it back gives the same string for every NUL-free text, on growable buffers and on fixed buffers that are large enough; on fixed buffers that are too small the setter returns BufferOverflow and changes nothing.", "quantifier": "every string, every buffer", "why_tests_cant": "unbounded", "anchors": ["midi2/src/ump_stream.rs TextWriteStrProperty, TextBytesIterator", "midi2/src/ump_stream/*.rs"]}
{"id": "C32", "title": "UMP stream text packet headers", "statement": "After setting a name every packet carries type 0xF and the message's status, formats are Complete or Start, Continue*, End, data() is the minimal number of packets, and the result parses. (Parsing is refuted for FunctionBlockName with a non-zero block set first.)", "quantifier": "every string, every prior state", "why_tests_cant": "unbounded", "anchors": ["midi2/src/ump_stream.rs set_format_fields, write_message_header_data, message_size"]}
{"id": "C33", "title": "Byte messages are clean MIDI 1.0", "statement": "In data() of any byte-form channel voice or system common message built through setters, and of any Sysex7 built through the API, every byte after the status byte is below 0x80 (and the sysex terminator is the only 0xF7).", "quantifier": "every setter history", "why_tests_cant": "unbounded histories", "anchors": ["midi2/src/detail/schema.rs Bytes schema", "midi2/src/sysex7.rs"]}
{"id": "C34", "title": "Edit histories refine list edits", "statement": "Any finite history of set_payload, splice_payload, insert_payload, append_payload, append_byte, set_byte and set_group on a growable Sysex7 (either form) or Sysex8 message behaves like the same edits on a plain list of bytes; after each step the message parses and the payload equals the list.", "quantifier": "every finite history of edits with arbitrary data and ranges", "why_tests_cant": "unbounded histories", "anchors": ["midi2/src/traits.rs Sysex", "midi2/src/sysex7.rs", "midi2/src/sysex8.rs", "midi2/src/detail/helpers.rs"]}
{"id": "C35", "title": "Sysex8 stream id", "statement": "Every edit keeps stream_id(): on a fixed-size buffer all packets keep the id; on a growable buffer packets that an edit adds get id 0 and the others keep theirs, so a message whose id is 0 stays uniform and one with another id stops being accepted once it grows (defect). set_stream_id(v) on any message keeps every packet's id and writes v over the first payload byte of every packet (defect: the intended reading, that stream_id() becomes v with the payload unchanged, is refuted).", "quantifier": "every message, value and finite history of edits", "why_tests_cant": "all messages", "anchors": ["midi2/src/sysex8.rs StreamIdProperty, try_resize"]}
{"id": "C36", "title": "Seven-bit encoding of 14/21/28-bit numbers", "statement": "The MIDI encoding of u14/u21/u28 numbers into 7-bit groups (observable through pitch bend, song position, bank, MUID, max sysex size) is injective and inverse to decoding; every emitted byte is below 0x80.", "quantifier": "every 14, 21 and 28 bit value", "why_tests_cant": "2^28 values", "anchors": ["midi2/src/detail/encode_7bit.rs"]}
{"id": "C37", "title": "CI discovery query fields", "statement": "For the MIDI-CI DiscoveryQuery message of version 1 or 2: fresh messages validate; after any sequence of setter calls the message is exactly the specified byte sequence with the last values set, every getter returns them, every byte between 0xF0 and 0xF7 is below 0x80 and the message parses. On any message of sufficient length a setter changes only its own bits and round-trips. Parsing never panics and accepts exactly the well-formed slices. Rebuffering keeps data and fields. (Refuted: caller-supplied slices leak old bits of the support byte; parsed messages may hold bytes >= 0x80 or an early 0xF7, whose getters panic or whose setters destroy the end; the parser of an unassigned version panics on short slices.)", "quantifier": "every field value, every sequence of setter calls, every buffer and slice", "why_tests_cant": "2^28 MUIDs and all buffers", "anchors": ["midi2/src/ci/discovery.rs", "midi2/src/ci/common_properties.rs", "midi2_proc/src/generate_ci.rs"]}
{"id": "C38", "title": "Enumerated fields are faithful codes", "statement": "Conversions between enumerated field values (tonic, sharps/flats, chord type, alteration, UI hint, direction, MIDI 1 port, note attribute, controller, device id) and their wire codes are inverse to each other on valid codes, and invalid codes are rejected at parse time. (Controller and DeviceId channel 16 are refuted.)", "quantifier": "every enum value and every wire code", "why_tests_cant": "exhaustive over values with arbitrary degree/number payloads", "anchors": ["midi2/src/flex_data/tonic.rs", "midi2/src/flex_data/set_key_signature.rs", "midi2/src/flex_data/set_chord_name.rs", "midi2/src/channel_voice2/controller.rs", "midi2/src/channel_voice2/attribute.rs", "midi2/src/ump_stream/function_block_info.rs", "midi2/src/ci/device_id.rs"]}
{"id": "C39", "title": "Compaction preserves the payload", "statement": "Editing a sysex message whose packets are not all full first compacts it; compaction preserves the payload, the group and validity, and the edit then acts on the payload as on a list, on growable and on fixed-size buffers. On growable buffers this holds whatever follows the message in the buffer. Exceptions, each stated exactly: a partly filled packet that compaction leaves behind the message, or that the editing code reaches behind it, makes the edit panic, unless the message is first lengthened over it (or, on a growable buffer, lengthened at all); and a 7-bit message whose only partly filled packets are at odd positions is not compacted.", "quantifier": "every valid message with arbitrarily sized packets, every buffer, whatever follows the message in it, and every edit", "why_tests_cant": "unbounded packet counts and sizes", "anchors": ["midi2/src/sysex7.rs is_compact, compact", "midi2/src/sysex8.rs is_compact, compact"]}
{"id": "C40", "title": "Constructing on a caller-supplied buffer ignores its old contents", "statement": "try_new_with_buffer on a dirty buffer gives a message whose data() and getters are those of a message created on a zeroed buffer. (Refuted for text messages, whose reader scans past the message.)", "quantifier": "every buffer content and length", "why_tests_cant": "unknown prior contents", "anchors": ["midi2_proc/src/generate_message.rs try_new_with_buffer_impl", "midi2/src/flex_data/text.rs TextBytesIterator", "midi2/src/ump_stream.rs set_format_fields"]}
{"id": "C41", "title": "Text byte iterators obey the iterator laws", "statement": "The byte iterators of flex data texts and UMP stream names yield the non-zero text bytes of the message in order and then None forever, for any number of calls, and never panic on a message of at least one packet. (size_hint is refuted: its lower bound exceeds the number of items.)", "quantifier": "every buffer of at least one packet, every number of next calls", "why_tests_cant": "The number of calls, the buffer length and the positions of the zero bytes are unbounded; tests exhaust a few fixed strings.", "anchors": ["midi2/src/flex_data/text.rs: TextBytesIterator", "midi2/src/ump_stream.rs: TextBytesIterator"]}
{"id": "C42", "title": "Histories of setter calls on text messages", "statement": "After any sequence of set_group / set_optional_channel / set_text calls on a flex data text, or set_function_block / set_name calls on a UMP stream text, on a growable buffer or with try_set_ on a fixed buffer, no call panics, each fallible call reports overflow exactly when the text needs more packets than the buffer holds and then changes nothing, the getters return the last values set, data() is the wire form of that state in the minimal number of packets, and data() parses again.", "quantifier": "every finite sequence of calls with arguments of the API's types, every buffer length", "why_tests_cant": "Histories are unbounded and the effect of a call depends on the number of packets earlier calls left behind.", "anchors": ["midi2/src/flex_data/text.rs", "midi2/src/flex_data.rs: GroupProperty, OptionalChannelProperty", "midi2/src/ump_stream.rs: TextWriteStrProperty", "midi2/src/ump_stream/function_block_name.rs"]}
{"id": "C43", "title": "A client can frame a buffer of messages with try_from and data()", "statement": "The loop 'parse the rest of the slice, note the message, skip as many bytes or words as its data() has' gives back exactly the messages that were written one after the other, for MIDI 1.0 byte streams and for UMP streams whose messages before the last are of a one-packet type. (Refuted for the standard's byte lengths of time code, tune request and song position pointer, and for streams in which anything follows a system exclusive, flex data or UMP stream message: the library refuses the slice, and the loop panics on a slice that ends inside a system exclusive message.)", "quantifier": "every finite sequence of messages of every type, every content", "why_tests_cant": "The number and mixture of messages is unbounded, and a message's acceptance may depend on what follows it; tests parse one message per buffer.", "anchors": ["midi2/src/message.rs: UmpMessage, BytesMessage, TryFrom<&[u32]>, TryFrom<&[u8]>", "midi2/src/detail/helpers.rs", "midi2_proc/src/generate_message.rs: data"]}
{"id": "C44", "title": "A buffer of packets is split by packet type alone", "statement": "The loop 'Packet::try_from on the rest, skip as many words as the packet has' recovers exactly the packets of any concatenation of well-formed packets; on any slice it ends without panic and the packets it yields, put together, are the front of the slice; and on the concatenated data() of any accepted messages it yields the packets of the messages, in order.", "quantifier": "every finite sequence of packets or messages, every slice of words", "why_tests_cant": "Sequences, lengths and packet contents are unbounded.", "anchors": ["midi2/src/packet.rs: Packet, TryFrom<&[u32]>", "midi2/src/packets.rs: PacketsIterator"]}
{"id": "C45", "title": "Copies of copies keep the message", "statement": "After any chain of to-owned, rebuffer and fallible rebuffer-into-array steps, over arrays of any lengths, a message of a fixed-size type has the same data() and the same value of every property; a system exclusive message has the same payload, group, stream id and data() and can still be edited; a MIDI 1.0 system exclusive byte message has the same bytes; a text message keeps its text, group, channel and data() (flex data texts: if the last text byte of the last packet is unused). (Refuted for flex data texts that fill their packets; and the array holding a copy is not itself accepted by try_from for 8-bit system exclusive, flex data and stream messages.)", "quantifier": "every accepted message, every chain of copies, every array length", "why_tests_cant": "The chains and the array lengths are unbounded, and the padding a copy leaves behind is read by the next operation; tests make one copy.", "anchors": ["midi2_proc/src/generate_message.rs: 390-468 rebuffer, RebufferInto, ArrayRebufferInto, TryRebufferInto", "midi2_proc/src/derives.rs: 177-304", "midi2/src/sysex7.rs", "midi2/src/sysex8.rs", "midi2/src/flex_data/text.rs"]}
{"id": "C46", "title": "Messages can be put together again from interleaved packets", "statement": "System exclusive messages of different groups, forms or (8-bit form) stream ids may be sent with their packets interleaved in any way: a receiver that files packets by type, Packet::group and stream_id, and calls UmpMessage::try_from on what it has when the packet's status or format says the message is over, gets from every sender all its messages, in order, with their payloads, and has nothing left over. More generally this holds for messages of all types and any way of filing that keeps apart the messages that are under way. (Filing by group alone mixes 8-bit messages up.)", "quantifier": "every number of senders, every list of messages of every length, every interleaving of their packets", "why_tests_cant": "There are unboundedly many schedules; the tests put packets of one message together, in order.", "anchors": ["midi2/src/packet.rs: Packet, group, TryFrom<&[u32]>", "midi2/src/sysex7.rs: Packet::status", "midi2/src/sysex8.rs: Packet::status, stream_id", "midi2/src/flex_data.rs", "midi2/src/ump_stream.rs", "midi2/src/message.rs: UmpMessage"]}
{"id": "C47", "title": "Cargo features only decide which messages are offered", "statement": "For every set of message features switched on, UmpMessage::try_from, BytesMessage::try_from and Packet::try_from give exactly what they give with all features on when the message or packet belongs to a family that is switched on, and an error otherwise; what a smaller set of features accepts, a larger one accepts with the same result; no parser panics on any input; and the packets of a message are the same.", "quantifier": "every subset of the message features, every word or byte slice of every length, every message type", "why_tests_cant": "The tests run with one or two feature sets, and there are 2^8 of them, each for every input.", "anchors": ["midi2/Cargo.toml: features", "midi2/src/message.rs: UmpMessage, BytesMessage", "midi2/src/packet.rs: Packet", "midi2/src/packets.rs"]}
{"id": "C48", "title": "The client programs of the repository never fail", "statement": "The assertions of the fuzz targets (writing a payload to a sysex message, reading it back, parsing it again; splicing a payload in a fixed-size buffer) hold for every input, and each program ends in the branch the sizes call for. The example program's handle_message prints the channel, and for notes the note number and velocity, of every MIDI 2.0 channel voice message, the payload of every 7-bit system exclusive message, and an error for everything else; it panics on no slice of an even number of words. (It does panic on some odd ones.)", "quantifier": "every fuzz input, every buffer size of at least one packet, every slice of words", "why_tests_cant": "Fuzzing samples inputs; it cannot show that the assertions hold for all of them.", "anchors": ["fuzz/fuzz_targets/sysex7_payload_roundtrip.rs", "fuzz/fuzz_targets/sysex8_payload_roundtrip.rs", "fuzz/fuzz_targets/generic_sysex_splicing_payloads.rs", "examples/handling_messages/src/main.rs"]}
{"id": "C49", "title": "Debug output shows the whole message, and equality agrees with it", "statement": "The Debug text of a message or packet is the list of the bytes or words of its whole buffer in the name of its type, each printed as 0x and two or eight upper-case hexadecimal digits; inside UmpMessage, BytesMessage or Packet it stands in the variant of the type and that of the family. Two messages (of any types and lengths) have the same text only if they are of the same family and type and have the same buffer contents; likewise for packets. Messages of one type are equal exactly when they print alike. Messages that occupy their whole buffer are equal exactly when their data() is. (In general equality is not equality of data().)", "quantifier": "every two messages of every type and every buffer contents, every two packets", "why_tests_cant": "The tests print one or two literals; injectivity is about all pairs of messages of every length.", "anchors": ["midi2_proc/src/derives.rs: debug", "midi2_proc/src/generate_message.rs: #[derive(PartialEq, Eq, Clone, Copy, midi2_proc::Debug)]", "midi2/src/message.rs: UmpMessage, BytesMessage", "midi2/src/packet.rs: Packet"]}
{"id": "C50", "title": "MIDI 1.0 byte streams survive a UMP connection", "statement": "A program that reads a stream of MIDI 1.0 byte messages with BytesMessage::try_from, converts each to UMP (from_bytes), puts it in a group and sends its packets, and one at the other end that reads packets with Packet::try_from, puts the messages of each group together, converts them to bytes (from_ump) and writes their data() out, together reproduce the byte stream exactly. Up to sixteen streams, one per group, may share the connection, their packets in any order: each comes out as it went in, nothing is left over, and nothing comes out for other groups. (Song position pointers, running status and real-time bytes inside system exclusive messages, which MIDI 1.0 allows, are not carried.)", "quantifier": "every list of channel voice, system and system exclusive byte messages (with 7-bit data and unused bits zero) of every length, every group, every number of streams and every interleaving of their packets", "why_tests_cant": "The tests convert single literal messages; this composes framing, conversion, packetisation, reassembly and conversion back for all streams and schedules.", "anchors": ["midi2/src/message.rs: BytesMessage, UmpMessage", "midi2_proc/src/derives.rs: from_bytes, from_ump, grouped", "midi2/src/sysex7.rs: FromBytes, FromUmp, set_group", "midi2/src/packet.rs: Packet", "midi2/src/packets.rs: Packets"]}
{"id": "C51", "title": "An accepted message answers every reading call", "statement": "If UmpMessage::try_from accepts a slice made of whole packets, then every reading call the resulting message has returns without panicking: data(), packets() run to its end, the payloads of system exclusive packets, group(), channel(), bank(), status(), every field getter of the concrete message, payload(), payload_size(), stream_id(), text and its bytes, the optional channel and the function block number. The same holds of BytesMessage::try_from when the song position pointer has its three bytes and system exclusive data bytes are below 0x80. Without these conditions some accepted slices panic when read (refuted).", "quantifier": "every slice of words or bytes of every length, every message type, every reading method", "why_tests_cant": "The tests read well formed literals; whether the validation done at parsing covers everything the getters later rely on is a statement about all slices and all getters.", "anchors": ["midi2/src/message.rs: UmpMessage, BytesMessage", "midi2_proc/src/generate_message.rs: try_from, getters", "midi2/src/packets.rs: Packets", "midi2/src/sysex7.rs, midi2/src/sysex8.rs: payload", "midi2/src/flex_data.rs: bank, status, text", "midi2/src/ump_stream.rs"]}
{"id": "C52", "title": "Messages over a client's own bounded buffer", "statement": "On a buffer type of the client's own that grows and shrinks on request up to a capacity (an arena, as the documentation suggests; whether it shrinks or keeps its length is its own choice), the fallible calls do what they do on an array of that capacity: try_new, try_new_with_buffer and the conversions of fixed-size messages succeed exactly if the message fits and give the same data; system exclusive edits succeed exactly if the new payload fits and otherwise report BufferOverflow and leave a valid empty message; text setters succeed exactly if the text fits and otherwise change nothing; the buffer never exceeds its capacity. This holds for UMP system exclusive edits whose iterator states its length. Iterators that do not are refused although they fit, unless there is room for twice the items; ones that announce too many when replacing payload damage it (refuted). In the byte form, shortening the payload by exactly one byte panics (refuted). Byte-stream messages: calls that do not shorten the payload do the same on every such buffer, whether it shrinks on request or not (refuted for calls that shorten it, on buffers that do not shrink: the old end byte stays behind).", "quantifier": "every capacity, every such buffer type, every message type, every history of edits", "why_tests_cant": "The project's tests and fuzz targets use arrays, vectors and a buffer whose length never changes; no test runs the code on a buffer that both resizes and can refuse, and the claim is for all capacities and histories.", "anchors": ["midi2/src/buffer.rs: BufferTryResize, BufferDefault", "midi2_proc/src/generate_message.rs: try_new, try_new_with_buffer, try_from_bytes, try_from_ump", "midi2/src/detail/helpers.rs: try_splice_sysex_data", "midi2/src/sysex7.rs, midi2/src/sysex8.rs: try_resize", "midi2/src/flex_data/text.rs, midi2/src/ump_stream.rs: try_set_text"]}
{"id": "C53", "title": "Messages are their fields", "statement": "A message holds nothing but its fields. Two fixed-size messages made with new() and any setter calls are equal (==) exactly if all their getters agree, so a message copied field by field, in any order, equals the original; an accepted message whose unused and reserved bits are zero can be copied the same way. What a system exclusive message sends is determined by its group and payload: full packets, then a last one padded with zeros, whatever edits were made before, on a growable buffer or on an array, where data() shows none of what else the array holds. (Exceptions, refuted: an attribute taken back leaves its data in a note message; a registered per-note controller that can be read but not written; a single-packet system exclusive message whose payload was shortened still sends the old bytes behind the new ones, as does one emptied by an edit that did not fit.)", "quantifier": "every fixed-size message type, every pair of setter histories, every order of copying; every edit history of system exclusive messages of every length, on vectors and on arrays of every size, including histories with refused edits", "why_tests_cant": "The tests compare messages with literals; the claim is about all pairs of histories, and the stale bytes only appear after particular ones.", "anchors": ["midi2_proc/src/generate_message.rs: PartialEq, new, setters", "midi2/src/channel_voice2/attribute.rs", "midi2/src/channel_voice2/controller.rs", "midi2/src/channel_voice2/program_change.rs", "midi2/src/flex_data.rs", "midi2/src/sysex7.rs: try_resize_ump", "midi2/src/sysex8.rs: try_resize"]}
{"id": "C54", "title": "Messages laid out side by side in one array", "statement": "A program that builds messages of types it chooses at run time in consecutive regions of one byte array, each with try_new_with_buffer and setters or try_set_payload (the crate's no_std_dynamic_message_generator example), ends with every message in its region: valid, of its type, with the fields and payload set and defaults elsewhere, whatever the array held before and whatever was built behind it; no byte outside the regions changes. Regions exactly as long as the messages make the array a byte stream that reads back as those messages. A region too short for its message gives BufferOverflow; an array or message list that is too short makes the program panic, not write elsewhere.", "quantifier": "every list of messages of the byte types with every legal setter history and system exclusive payload, every region size, every array content and size", "why_tests_cant": "The example is one list of four messages in a zeroed array; the claim is about every list and every previous content.", "anchors": ["examples/no_std_dynamic_message_generator/src/main.rs: MessageGenerator, generate, MessageIterator", "midi2_proc/src/generate_message.rs: try_new_with_buffer", "midi2/src/sysex7.rs: try_new_with_buffer, try_set_payload"]}
{"id": "C55", "title": "Debug and release builds edit and read system exclusive messages alike", "statement": "Whatever Cargo profile the library is compiled with (overflow checks on or off, debug assertions on or off) and whatever the width of usize, the editing methods of Sysex7 and Sysex8 (set, splice, insert, append, set_byte, set_group, and their try_ versions, on packets and on bytes) and the payload iterators give the results described by the other properties, as long as the buffer and the numbers the caller hands in are far below usize::MAX: no intermediate sum or product wraps, and no result depends on the profile. Without debug assertions, no edit of a message with partly filled packets is refused.", "quantifier": "every build (profile and usize width), every buffer content, every edit, edit history and sequence of iterator calls that fits the address space", "why_tests_cant": "Tests run in one profile on a 64-bit machine with small numbers; wrap-around of intermediate values depends on the caller's numbers, and cargo test never runs without debug assertions by default.", "anchors": ["midi2/src/detail/helpers.rs: try_splice_sysex_data", "midi2/src/sysex7.rs: try_resize, move_payload_tail, compact, PayloadIterator", "midi2/src/sysex8.rs: try_resize, move_payload_tail, compact, PayloadIterator", "midi2/Cargo.toml: no profile section"]}
{"id": "C56", "title": "Debug and release builds write and read texts and packet payloads alike", "statement": "Whatever Cargo profile the library is compiled with and whatever the width of usize, setting and reading the text of flex data and UMP stream messages (the panicking methods on growable buffers and the try_ methods on fixed ones), and the payload of single sysex packets read through next, give the results described by the other properties, as long as the texts and buffers are far smaller than the address space. Beyond that, for a sysex8 packet with size code 0 and for nth past the end of a packet payload, a debug build panics where a release build returns wrong data.", "quantifier": "every build (profile and usize width), every buffer content, every text, history of edits and sequence of iterator calls that fits the address space", "why_tests_cant": "Tests run in one profile on one machine; wrap-around depends on lengths and on the bytes of received packets, and agreement is needed for all of them.", "anchors": ["midi2/src/flex_data/text.rs: TextWriteStrProperty, TextReadStringProperty, TextBytesIterator", "midi2/src/ump_stream.rs: TextWriteStrProperty, TextBytesIterator", "midi2/src/sysex7/packet.rs: PayloadIterator", "midi2/src/sysex8/packet.rs: PayloadIterator"]}
{"id": "C57", "title": "Payload edits take their bytes from any iterator", "statement": "set_payload, splice_payload, insert_payload and append_payload, and their try_ versions, work with every iterator a caller may write: whatever size_hint says, whether or not the iterator goes on after its first None, and even if it never ends. The items before the first None are used and the iterator is never asked again after it. On an array or slice every call returns, after a number of items bounded by the size of the buffer; an iterator without end gives Err(BufferOverflow) and leaves an empty message. On a growable buffer a call returns exactly when the iterator ends.", "quantifier": "every iterator (any sequence of answers, any size_hint), every editing method, every message and buffer, packets and bytes", "why_tests_cant": "Tests hand in slices and a few adaptors; iterators that lie about their size, are not fused or never end form an infinite family, and termination cannot be observed by running.", "anchors": ["midi2/src/detail/helpers.rs: try_splice_sysex_data, splice_sysex_data", "midi2/src/traits.rs: Sysex::set_payload, splice_payload, insert_payload, append_payload and try_ versions", "midi2/src/sysex7.rs, midi2/src/sysex8.rs: set_payload, try_set_payload"]}
{"id": "C58", "title": "A system exclusive message keeps its payload through edits, conversions and copies in any order", "statement": "A client may edit a Sysex7 message, convert it between packets and bytes (from_ump, from_bytes, try_ versions) and move it between growable buffers and arrays (rebuffer_into, try_rebuffer_into, array_rebuffer_into) in any order and any number of times. Each step succeeds exactly when the message fits its target; a conversion or copy that fails changes nothing, an edit of an array that fails leaves an empty message. At every point payload, group, data and the length of the buffer are those of a plain list of bytes with a group (which a conversion to bytes resets to 0), and data is again an accepted message. If no edit fails, the payload is that of the edits alone, whatever the route. The same holds of a Sysex8 message with stream id 0, which has no byte form: edits and copies between growable buffers and arrays, after which stream_id is still 0 in every packet of data.", "quantifier": "every sequence of steps, starting from new() on each kind of buffer or from any received message; all sizes of arrays", "why_tests_cant": "The sequences are unbounded, and what a buffer holds behind its message depends on all earlier steps.", "anchors": ["midi2/src/sysex7.rs: Sysex, FromBytes, FromUmp, TryFromBytes, TryFromUmp for Sysex7", "midi2_proc/src/generate_message.rs: rebuffer_from_impl, try_rebuffer_from_impl, rebuffer_from_array_impl", "midi2/src/buffer.rs: FromBuffer, TryFromBuffer", "midi2/src/sysex8.rs: Sysex for Sysex8"]}
{"id": "C59", "title": "A payload edit whose iterator panics leaves a usable message", "statement": "If the iterator given to set_payload, splice_payload, insert_payload, append_payload or one of their try_ versions panics, in next or in size_hint, and the caller catches the panic, then the message is still a message: it is accepted, in the same group and stream, can be read and edited further. Its payload is what was not to be replaced, on both sides of the range, with the items taken so far in between, followed by a gap up to the number of items announced (if more items came than announced, the gap is shorter than the unannounced part); nothing outside the range is lost. If size_hint panics the payload is as it was (set_payload has emptied it). A byte array keeps this only if the bytes behind the message are below 128.", "quantifier": "every message, edit and range; every iterator, every number of items before the panic, every size_hint; packets and bytes, growable and fixed-size buffers", "why_tests_cant": "The panic can come at any of unboundedly many calls, between any two writes of the editing loop, after any number of enlargements of the buffer.", "anchors": ["midi2/src/detail/helpers.rs: try_splice_sysex_data, splice_sysex_data, detail::try_splice_sysex_data", "midi2/src/traits.rs: Sysex", "midi2/src/sysex7.rs: set_payload, try_set_payload", "midi2/src/sysex8.rs: set_payload, try_set_payload"]}
{"id": "C60", "title": "Setters of different fields can be called in any order", "statement": "On any buffer, the setters of different fields of a fixed-size message can be called in any order: the buffer is the same afterwards, bit for bit. Calling a setter again with the same value, or with the value the field holds already, changes nothing, and only the last call of each setter counts, unless an attribute is taken back by set_attribute(None), which leaves the data of the old attribute behind. Setting the group of a system exclusive message or of a flex data text can be exchanged with changes of its contents; channel and text of a flex data text can not be exchanged.", "quantifier": "every fixed-size message type, packets and bytes, every buffer it fits in with any contents, all histories of setter calls of any length; sysex7 and sysex8 edit histories, on vectors and on arrays of every size; all flex data text types", "why_tests_cant": "There are unboundedly many histories and orders, and the claim is about every bit of the buffer including those no getter shows.", "anchors": ["midi2_proc/src/generate_message.rs: setters", "midi2/src/detail/common_properties.rs: WriteProperty impls", "midi2/src/channel_voice2/attribute.rs: write_to_buffer", "midi2/src/flex_data.rs: OptionalChannelProperty"]}
{"id": "C61", "title": "Payloads can be cut, changed and joined with the standard iterator adaptors", "statement": "An expression built from payload() of any messages with skip, take, map and chain yields exactly the corresponding bytes and then None for ever, without panicking, and over messages in packets announces exactly how many will come. Used as the argument of any payload edit of another message it has the effect of the list edit with these bytes: always in a growable buffer, and in an array or slice exactly when the result fits. The first i bytes of a payload set and the rest appended give the payload again. Skipping beyond the end of a message that does not fill its array panics, and payloads of messages in bytes announce no bytes, which spoils replacing bytes of a message in an array.", "quantifier": "every expression over any number of messages in packets (7-bit and 8-bit) and in bytes, with adaptors nested to any depth; all target messages, edits and positions", "why_tests_cant": "Expressions, payloads and positions are unbounded; the adaptors use nth and size_hint of the iterators, whose state depends on where the cut falls in a packet.", "anchors": ["midi2/src/sysex7.rs: PayloadIterator", "midi2/src/sysex8.rs: PayloadIterator", "midi2/src/detail/helpers.rs: sysex_payload_splice, try_sysex_payload_splice"]}
{"id": "C62", "title": "What is written at one end of a connection is read at the other", "statement": "A program creates messages of any types with new(), calls any setters and payload or text edits on them, and sends their packets(), one message after the other. At the other end the words are cut into packets with Packet::try_from, put together and parsed with UmpMessage::try_from. Every message arrives, in order, with its type; every getter returns the value of the last call of its setter, or the default; payloads and texts are what the edits made of them. With several senders whose packets can be told apart, but arrive in any order, the same holds for each sender. It also holds when the sender writes each message in an array longer than the message with the fallible methods: texts the array has no room for change nothing, payloads it has no room for leave an empty payload.", "quantifier": "every list of messages of all UMP types, every history of calls on each, every interleaving of packets, every array length", "why_tests_cant": "Messages, histories of calls, their number and the order of arrival are unbounded, and the claim spans creation, setters, packets, packet parsing, dispatch and getters.", "anchors": ["midi2_proc/src/generate_message.rs: new, setters, getters, try_from", "midi2/src/packets.rs: PacketsIterator", "midi2/src/packet.rs: Packet::try_from", "midi2/src/message.rs: UmpMessage::try_from"]}
{"id": "C63", "title": "The error of a refused slice names its first defect", "statement": "Every parser has an ordered list of complaints, each standing for a defect that can be seen in the bits of the slice (too short, wrong type, status or bank, a field code without meaning, packets framed wrongly, sizes out of range, groups or stream ids that differ between packets, a missing 0xF7, bytes that are no UTF-8 text). The parser never panics, accepts exactly the slices without any of the defects, and for every other slice answers the complaint about the first defect that is there.", "quantifier": "every slice of any length, every message type over words and bytes, the enums of families, UmpMessage, BytesMessage, Packet and the discovery inquiries of both versions", "why_tests_cant": "Slices are unbounded in length and content, and the claim is about every combination of defects: which one is reported depends on the order of the checks.", "anchors": ["midi2_proc/src/generate_message.rs: TryFrom", "midi2/src/detail/helpers.rs: validate_sysex_group_statuses", "midi2/src/detail/common_properties.rs: validate", "midi2/src/message.rs: UmpMessage::try_from, BytesMessage::try_from", "midi2/src/packet.rs: Packet::try_from", "midi2_proc/src/generate_ci.rs: TryFrom"]}
{"id": "C64", "title": "Lost, repeated and reordered packets", "statement": "When packets of messages are lost, repeated or arrive in another order, a parser takes what arrived for a message exactly if the first packet comes first and the last one last, each once, with any packets of the middle between them (and, for packets of several messages, they agree in group and stream id, and texts also in type and in the function block named; for texts, what arrived is still UTF-8). What is then read is what the packets that arrived carry, in their order. A receiver that collects packets recovers: whatever it received before, every later message of a stream but at most the first arrives, and a system exclusive message that follows something unfinished is reported as an error, never read as something else.", "quantifier": "every message of any length, every sequence of its packets with any losses, repetitions and order; packets of any number of messages; every history of packets before a receiver is sent whole messages, in every interleaving of senders", "why_tests_cant": "The sequences of packets that can arrive are unbounded, and recovery is a claim about every history.", "anchors": ["midi2/src/detail/helpers.rs: validate_sysex_group_statuses", "midi2/src/sysex7.rs, sysex8.rs: TryFrom, payload", "midi2/src/flex_data/text.rs", "midi2/src/ump_stream.rs", "midi2/src/packet.rs: Packet", "midi2/src/message.rs: UmpMessage::try_from"]}
{"id": "C65", "title": "Changed bits stay where they are", "statement": "When bits of a message are changed on the way, the damage stays where it is. For fixed-size messages, bits that belong to no field make no difference to parsing or to any getter; damage inside one field leaves every other field as it was, the slice is refused exactly if that field's bits lose their meaning, and damage to a number, flag or array always shows while damage to the bits that identify the type is always refused by that type. For system exclusive messages and texts, one changed byte of the packets is accepted exactly if it keeps type, marks, number of bytes, and agreement with the other packets (and for texts leaves UTF-8), and what is then read differs only in what that packet, or that byte, carries.", "quantifier": "every message type, buffer and change of bits within a field or outside all fields; every system exclusive message and text of any number of packets, every packet and byte of it, every changed value", "why_tests_cant": "The buffers, the places and the values of the damage cannot be enumerated, and the claim is about all the fields at once.", "anchors": ["midi2/src/detail/common_properties.rs", "midi2/src/detail/property.rs", "midi2_proc/src/generate_message.rs: TryFrom, getters", "midi2/src/sysex7.rs, sysex8.rs: TryFrom, payload", "midi2/src/flex_data/text.rs", "midi2/src/ump_stream.rs", "midi2/src/message.rs: UmpMessage::try_from"]}
{"id": "C66", "title": "Discovery inquiries travel as system exclusive messages", "statement": "A MIDI-CI discovery inquiry, whatever calls of setters built it, is a MIDI 1.0 system exclusive message: the enum of byte messages recognises it, it can be converted to UMP packets, sent in any group among other messages whose packets are interleaved with its own, and converted back, and then it parses as an inquiry of its version and every field is what was set. Conversely, a system exclusive message that arrives in packets is accepted as an inquiry of version 1 or 2 exactly if its payload is one by the standard, and each field is what the payload says.", "quantifier": "both versions, every history of setter calls, every position among other messages on any number of cables, every interleaving of packets; every 7-bit payload of any length", "why_tests_cant": "Histories, payloads and interleavings cannot be enumerated.", "anchors": ["midi2/src/ci/discovery.rs: DiscoveryQuery", "midi2_proc/src/generate_ci.rs: TryFrom, getters, setters", "midi2/src/sysex7.rs: FromBytes, FromUmp", "midi2/src/message.rs: BytesMessage::try_from, UmpMessage::try_from", "midi2/src/packets.rs"]}
{"id": "C67", "title": "What payload edits cost", "statement": "set_payload, splice_payload, insert_payload, append_payload and append_byte on a system exclusive message in a growable buffer write each supplied byte once. If the iterator announces what it yields, the buffer is resized at most twice (three times by set_payload), is never asked to hold more than the resulting payload, and every old byte is moved at most twice. If it yields more than it announces, each doubling of the excess costs one more resize and one more move of the bytes behind the edit, and less than twice the room for the supplied bytes is asked for. A resize writes every packet header once. The costs of a history of edits add up. Packets in an array: the same, as long as no resize asks for more than the array holds; an edit that does not fit is refused only after three resizes (four by set_payload), after as many of the supplied bytes as fit were written and after the bytes behind it were moved up to twice. Byte arrays likewise, for edits that announce what they yield and do not shorten the payload. (Refuted: room in proportion to what is yielded, when the upper size hint is loose; work in proportion to the length, when a message is built byte by byte.)", "quantifier": "every message and every payload length, 7-bit and 8-bit packets and 7-bit byte streams, every edit and range and every history of edits, every iterator with any size_hint, truthful or not; growable buffers, and arrays of any length", "why_tests_cant": "A test sees the result of an edit, not its cost, and cannot range over lengths and hints.", "anchors": ["midi2/src/detail/helpers.rs: splice_sysex_data, detail::try_splice_sysex_data", "midi2/src/sysex7.rs: move_payload_tail, resize, set_payload", "midi2/src/sysex8.rs: move_payload_tail, resize, set_payload", "midi2/src/traits.rs: Sysex::insert_payload, append_payload, append_byte"]}
{"id": "C68", "title": "Listening can begin in the middle of a stream", "statement": "A client that begins to listen to a MIDI 1.0 byte stream at any byte, skips to the next status byte other than 0xF7 and reads on with BytesMessage::try_from gets exactly the messages that begin after that point. A client that puts messages together from packets and begins at any packet gets, under every key, exactly the messages that begin after that point, preceded by exactly one error if it began inside a message and by none otherwise; nothing unfinished is left. What is left of any message whose first packets are missing is refused by UmpMessage::try_from, whatever the message type.", "quantifier": "every list of messages, every joining point, every interleaving of the packets of different senders, every message type", "why_tests_cant": "A test joins a few streams at a few points; the claim ranges over all streams, points and orders of arrival.", "anchors": ["midi2/src/message.rs: BytesMessage::try_from, UmpMessage::try_from", "midi2/src/packet.rs: Packet::try_from, status, format", "midi2/src/sysex7.rs: ConsistentStatuses validation", "midi2/src/sysex8.rs: validation of statuses", "midi2/src/detail/property.rs, midi2/src/flex_data.rs, midi2/src/ump_stream.rs: format validation of texts"]}
{"id": "C69", "title": "Printed errors and pretty-printed messages tell what they are", "statement": "Debug and Display of the library's errors, plain and alternate ({:?}, {:#?}, {}, {:#}), tell two different errors apart, whatever ASCII texts they carry; an error from a parser is printed in its own words between quotes, with nothing altered. A client that parses words and keeps the message in an array, with ? into midi2::error::Error, is told BufferOverflow exactly if the slice is a message too large for the array, and the first defect of the slice exactly if it is none. The alternate Debug form of UmpMessage, BytesMessage and Packet has the parts of the plain one, each field on a line of its own, indented by four spaces per level and with a comma behind it; like the plain one it tells the family, the type and the whole contents of the buffer.", "quantifier": "every message type, buffer and packet; every ASCII error text, control characters, quotes and backslashes included; every refused slice; every array length", "why_tests_cant": "That no two of infinitely many texts are printed alike is a statement about all pairs.", "anchors": ["midi2/src/error.rs: Error, BufferOverflow, InvalidData, From, Display", "midi2_proc/src/derives.rs: debug", "midi2/src/message.rs: UmpMessage, BytesMessage (derived Debug), try_from", "midi2/src/packet.rs: Packet (derived Debug)", "midi2/src/traits.rs: TryRebufferInto"]}
{"id": "C70", "title": "Message objects can be used again", "statement": "A message object that was used before, or whose buffer was received, behaves like a new one once its fields are set anew: after any calls of setters, calls that set every field give the buffer they give without the earlier calls, and calls on a received message with zero reserved bits give the buffer they give on a new message, unless an attribute is taken back. In texts the channel must be set before the text and the block number after the name: then group, channel and text (or name and block number) give the bytes of exactly those values, in growable buffers and in arrays in which earlier calls may have been refused. A system exclusive payload longer than one packet replaces everything, in vectors and in arrays; as a byte stream any payload does. Refuted: an attribute that is taken back leaves its data; a channel set after the text leaves the old channel in the later packets; a block number set before the name reaches only the packets the old name had.", "quantifier": "every message type, text kind and system exclusive format, every buffer kind and contents at the beginning, every earlier history of calls, every values set anew", "why_tests_cant": "What is left over from an earlier use depends on the whole history of the object.", "anchors": ["midi2_proc/src/generate_message.rs: setters", "midi2/src/detail/common_properties.rs", "midi2/src/channel_voice2/attribute.rs: write_to_buffer", "midi2/src/flex_data.rs: OptionalChannelProperty, text setters", "midi2/src/ump_stream/function_block_name.rs: FunctionBlockProperty, name setters", "midi2/src/sysex7.rs, midi2/src/sysex8.rs: set_payload"]}
{"id": "C71", "title": "A text message keeps its text through setter calls, copies and parsers in any order", "statement": "A flex data or stream text message that is set, copied to a vector or an array of whole packets, copied by its data only, sent and parsed again, and changed wherever it is, in any order, reads as its values at every end: group, channel and text (or name and block number) are those the calls gave it, a text that does not fit an array is refused and a copy that does not fit fails, each leaving the message as it was, and data() is the wire form of the values. For flex data texts the way does not matter: if no call is refused, the words sent are those the setter calls alone make. For stream texts the name does not depend on the way. Refuted: the block numbers do, the same two calls in a vector and in an array send different messages.", "quantifier": "every text message type, every start in a vector or array, every sequence of calls, copies and parsers, every array size of whole packets, every texts", "why_tests_cant": "The ways through buffers of different kinds and sizes are unbounded, and what a step leaves behind may show only steps later.", "anchors": ["midi2/src/flex_data/text.rs: text properties", "midi2/src/ump_stream.rs: text properties", "midi2/src/ump_stream/function_block_name.rs: FunctionBlockProperty", "midi2_proc/src/generate_message.rs: rebuffer_from, try_rebuffer_from, rebuffer_from_array, try_from", "midi2/src/traits.rs: RebufferInto, TryRebufferInto, ArrayRebufferInto"]}
{"id": "C72", "title": "BytesMessage::try_from tells byte by byte when a MIDI 1.0 message is complete", "statement": "A client at the end of a MIDI 1.0 cable that collects bytes, puts the running status in front where the sender left it out, asks BytesMessage::try_from after each byte and takes the message when it is accepted, gets exactly the messages sent, each with its last byte: no beginning of a message is ever accepted as a message. Real-time bytes, which may come anywhere and even inside other messages, are parsed on their own and disturb nothing; the two unassigned ones give nothing. A client that comes in during a message gets all messages after it. The library never panics on what the client asks. Refuted for time codes, tune requests and song positions with their sizes of the standard, which the library does not have: the first two are lost and the third is read from its first byte alone.", "quantifier": "every list of channel voice, system common and system exclusive messages, every choice of omitted status bytes, every placement of real-time bytes, every moment, every remainder of a message in front", "why_tests_cant": "The prefixes of system exclusive messages, the ways to omit status bytes and the places for real-time bytes are unbounded; a test settles one stream.", "anchors": ["midi2/src/message.rs: TryFrom<&[u8]> for BytesMessage", "midi2/src/sysex7.rs: try_from of bytes", "midi2/src/system_common.rs, midi2/src/channel_voice1.rs: TryFrom<&[u8]>"]}
{"id": "C73", "title": "UmpMessage::try_from tells packet by packet when a Universal MIDI Packet message is complete", "statement": "A client that collects the packets of one sender, asks UmpMessage::try_from after each packet whether the words held are a message, and takes the message when they are, gets exactly the messages sent, each with its last packet, and holds nothing between two messages. No strict beginning of a message, cut between packets, is accepted as a message of any type, and none makes the parser panic. Refuted if the words come one at a time: a text cut inside its last packet is accepted and data() of it panics.", "quantifier": "every list of messages of all types the parser can return, every number of packets received so far", "why_tests_cant": "The number of packets of system exclusive messages and texts is unbounded, and a beginning may be taken for a message of any other type; a test settles one message and one cut.", "anchors": ["midi2/src/message.rs: TryFrom<&[u32]> for UmpMessage", "midi2/src/packets.rs: Packets", "midi2/src/sysex7.rs, midi2/src/sysex8.rs, midi2/src/flex_data/text.rs, midi2/src/ump_stream.rs: validation of packet positions"]}
