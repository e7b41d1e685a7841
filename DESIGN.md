# Formal model of midi2-dev/bl-midi2-rs in Rocq (Coq 8.16.1)

## 1. Approach

The Rust code is modelled function by function as total Gallina functions.

* `u32` words and `u8` bytes are `N`; a buffer is a `list N`; lengths and indices are `nat`.
* Panics (slice index out of range, `uN::new` out of range, `usize` subtraction underflow,
  `expect`/`unwrap`/`assert!`/`debug_assert!`, `unreachable!`) are the explicit outcome `Panic`
  of the monad `outcome A := Val a | Panic`. This is the semantics of a build with overflow checks and
  debug assertions on (`cargo test`, `cargo build`); other builds are the subject of C55 and C56. `Result`/`Option` stay data.
* `&mut self` functions return the new buffer.
* Properties of fixed-size messages are a deep embedding (`prop`): the code generated by the
  `generate_message` macro is modelled once, generically, over the list of declared properties, and
  the declarations of the message types are a table of data. Statements about "every fixed-size
  message" quantify over that table.
* The generic `SysexInternal` trait becomes a Gallina record of operations and the splice algorithm
  a function over that record, as in Rust. A law predicate on the record is proved for each of the
  implementations and used by one proof of the algorithm.
* Iterators passed by the caller are modelled as the list of items they yield plus the list of
  `size_hint().0` answers they give, which is unconstrained (it may be wrong).

Specifications live in separate files (`Spec*.v`) and are written in terms of arithmetic
(`(x / 2^lo) mod 2^width`), big-endian byte strings, and plain list operations (`firstn`, `skipn`,
`++`), not in terms of the model's shifts and masks.

Where the full English property is false of the code, the theorem `..._refuted` exhibits a concrete
counterexample computed by the model, and the strongest true statement we found is proved beside it.

## 2. Files

All under `rocq/theories/`, in dependency order within each group.

**Model** (definitions only, each citing the Rust lines it stands for)

| File | Models |
|------|--------|
| `Base.v` | `outcome`, `res`, slices, indexing, `chunks`, `chunks_exact`, `take_while`, `position` |
| `BitOps.v`, `Encode7.v` | detail/bit_ops.rs, detail/encode_7bit.rs |
| `Schema.v`, `OctetSchema.v`, `Values.v`, `Helpers.v`, `Props.v` | detail/schema.rs; field value types and enumerations (tonic, key signature, chord name, attribute, controller, function block info); validation half of detail/helpers.rs; every `Property` impl used by a fixed-size message |
| `Message.v`, `MessageTable.v` | the code generated by midi2_proc/src/generate_message.rs; the 51 fixed-size message declarations |
| `Sysex.v`, `Splice.v`, `SysexClient.v` | sysex7.rs, sysex8.rs; splice half of detail/helpers.rs, the provided methods of `Sysex` (traits.rs) and the sysex byte/UMP conversions; client programs |
| `Text.v`, `TextClient.v` | flex_data.rs, flex_data/text.rs, ump_stream.rs, endpoint_name.rs, product_instance_id.rs, function_block_name.rs; client programs |
| `Aggregate.v` | channel_voice1.rs, channel_voice2.rs, system_common.rs, utility.rs, flex_data.rs, ump_stream.rs, message.rs and the derives of midi2_proc/src/derives.rs |
| `Packet.v` | packet.rs, packets.rs and the packet.rs of every family |
| `StreamClient.v` | client loops that frame buffers of messages and packets |
| `Receiver.v` | a client that reassembles messages from interleaved packets |
| `Features.v` | the `cfg(feature)` arms of message.rs, packet.rs and packets.rs, for any set of features |
| `Clients.v` | fuzz/fuzz_targets/*.rs and examples/handling_messages |
| `Show.v` | `Debug` (midi2_proc/src/derives.rs) and equality of messages and packets |
| `Gateway.v` | clients that send MIDI 1.0 byte streams over UMP and back |
| `InquiryClient.v` | a client that looks for discovery inquiries among arriving messages |
| `Reader.v` | every reading call on a parsed message, as one function |
| `CustomBuffer.v` | the fallible functions on a client's own `BufferTryResize` (`Sysex.v`: `room`, `Custom answer`) |
| `Generator.v` | examples/no_std_dynamic_message_generator/src/main.rs, except its `Buffer::try_resize`, which no call reaches with a size that matters |
| `Unwind.v` | `detail/helpers.rs` 92-254 once more, with an iterator that may panic; unwinding leaves the buffer as it is |
| `Pipes.v` | payload iterators behind the adaptors of core::iter, as arguments of edits |
| `Letters.v`, `LettersFixed.v` | client programs that write, in growable buffers and in arrays, send, and receive messages of all types |
| `Meter.v` | no new code: the operations of `Splice.v` with counters for resizes, the largest size asked for, bytes moved and bytes written |
| `JoinClient.v` | a client that begins to listen to a byte stream at any byte; over `BytesMessage::try_from` (message.rs 108-140) |
| `Pretty.v` | error.rs 1-43; `DebugTuple` and `PadAdapter` of core::fmt, `Debug` of `str` (ASCII) as far as the derived `Debug` of the enums and errors uses them; a client that converts errors with `?` |
| `TextJourney.v` | clients that take one text message through setters, `rebuffer_into`, `try_rebuffer_into`, `array_rebuffer_into` and `try_from` |
| `CableClient.v` | a client that is given a byte stream one byte at a time and asks `BytesMessage::try_from` (message.rs 108-140) whether a message is complete; a client that is given packets and asks `UmpMessage::try_from` (message.rs 33-70) |
| `Journey.v`, `Journey8.v` | no new code: client programs over `Splice.v` and `Message.v` |
| `Feed.v` | detail/helpers.rs 92-254 and core's `Peekable`, for any iterator |
| `MachineText.v` | the text properties and packet payload iterators of `Text.v` and `Packet.v` in machine arithmetic |
| `MachineConvert.v` | the conversions between the two forms of `Sysex7` in machine arithmetic |
| `Machine.v`, `MachineSysex.v`, `MachineClient.v` | machine arithmetic and build profiles; the sysex part of `Sysex.v` and `Splice.v` (detail/helpers.rs, sysex7.rs, sysex8.rs) in machine arithmetic |
| `Ci.v` | ci/*.rs (what is compiled) and midi2_proc/src/generate_ci.rs |

**Specification** (independent of the model's helpers): `SpecLayout.v` (the wire layout of every
field), `SpecFixed.v`, `SpecSysex.v`, `SpecEdits.v`, `SpecText.v`, `SpecAggregate.v`, `SpecPacket.v`,
`SpecCi.v`, `SpecStream.v`, `SpecCopies.v`, `SpecReceiver.v`, `SpecFeatures.v`, `SpecShow.v`,
`SpecGateway.v`, `SpecReader.v`, `SpecCustom.v`,
`SpecRebuild.v`, `SpecSysexWire.v`, `SpecGenerator.v`,
`SpecMachine.v`, `SpecMachineText.v`, `SpecFeed.v`, `SpecJourney.v`, `SpecJourney8.v`, `SpecBehind.v`, `SpecUnwind.v`, `SpecUnannounced.v`, `SpecOrder.v`, `SpecPipes.v`, `SpecLetters.v`, `SpecLettersFixed.v`, `SpecErrors.v`, `SpecErrorsMore.v`, `SpecLoss.v`, `SpecDamage.v`, `SpecDamageText.v`, `SpecInquiry.v`, `SpecCost.v`, `SpecJoin.v`, `SpecPretty.v`, `SpecReuse.v`, `SpecTextJourney.v`, `SpecCable.v`.

**Properties** (theorems named after `properties.jsonl`, `Print Assumptions` and an `Example` beside
each): `PropertiesFixed.v` (C01-C11), `PropertiesMask.v`, `PropertiesMaskOctet.v` (C04), `PropertiesConvert.v` (C14, C33, C36, C38, C40),
`PropertiesSysex.v` (C18-C28, C34, C35, C39), `PropertiesText.v` (C29-C32, C41, C42),
`PropertiesAggregate.v` (C12, C13, C15), `PropertiesPacket.v` (C16, C17, C27), `PropertiesCi.v` (C37, C38),
`PropertiesStream.v` (C43, C44), `PropertiesCopies.v` (C45), `PropertiesReceiver.v` (C46),
`PropertiesFeatures.v` (C47), `PropertiesClients.v` (C48), `PropertiesShow.v` (C49), `PropertiesGateway.v` (C50), `PropertiesReader.v` (C51),
`PropertiesCustom.v`, `PropertiesCustomSysex.v`, `PropertiesCustomStream.v` (C52),
`PropertiesRebuild.v`, `PropertiesRebuildSysex.v`, `PropertiesRebuildArrays.v` (C53),
`PropertiesGenerator.v` (C54), `PropertiesMachine.v` and `PropertiesMachineConvert.v` (C55),
`PropertiesMachineText.v` (C56), `PropertiesFeed.v` (C57), `PropertiesJourney.v`, `PropertiesJourney8.v` (C58), `PropertiesBehind.v` (more of C39), `PropertiesUnwind.v` (C59), `PropertiesUnannounced.v` and `PropertiesUnannouncedBytes.v` (more of C22), `PropertiesOrder.v` and `PropertiesOrderMore.v` (C60), `PropertiesPipes.v` (C61), `PropertiesLetters.v`, `PropertiesLettersFixed.v` (C62), `PropertiesErrors.v`, `PropertiesErrorsMore.v` (C63), `PropertiesLoss.v` (C64), `PropertiesDamage.v`, `PropertiesDamageSysex.v`, `PropertiesDamageText.v` (C65), `PropertiesInquiry.v` (C66), `PropertiesCost.v` (C67), `PropertiesJoin.v` (C68), `PropertiesPretty.v` (C69), `PropertiesReuse.v`, `PropertiesReuseMore.v` (C70), `PropertiesTextJourney.v` (C71), `PropertiesCable.v` (C72), `PropertiesCablePackets.v` (C73), `PropertiesCustomBytes.v` (more of C52), `PropertiesArraysMore.v` (more of C60 and C70), `PropertiesLossMixed.v` (more of C64), `PropertiesCostArrays.v` (more of C67).

**Checks of the model**: `RepoTests.v` and the generated `RepoTests*.v`. They are the project's own unit
tests and documentation examples, read as statements about the model: see section 4.

**Lemmas**: every other file.

## 3. Plan per property

| Id | Model | Proof |
|----|-------|-------|
| C01 C02 C03 | `prop_read`/`prop_write` interpreters over the property table | each property refines a codec (bit fields + encode/decode); generic lemmas on bit-field get/put; disjointness of footprints per message by `vm_compute` over the table |
| C04 | getters vs an independently written layout table; declared masks vs the bits read and written | refinement of getters to arithmetic on the numbers |
| C05 | `new`, `try_new_with_buffer` | fold of writes then reads; uses disjointness |
| C06 C07 C08 | `try_from` for each message | case analysis on each property's validate; spec predicate on the slice |
| C09 | histories of setters | induction over the history |
| C10 C11 | `data`, `rebuffer` | list prefix lemmas |
| C12 C13 C15 | aggregate dispatch functions | case analysis over statuses |
| C14 | `from_bytes`, `from_ump` | codec equality between both forms |
| C16 C17 | packet iterator, `Packet::try_from` | list induction in steps of packet length |
| C18-C25, C28, C34, C39 | sysex 7/8 + splice | refinement to list splice via trait laws; induction on the data and on histories |
| C26 C27 | payload iterators | induction; invariant relating iterator state to remaining list |
| C29-C32, C40 | text properties | refinement to byte strings |
| C33 | setter histories on byte messages | invariant |
| C35 | stream id | laws of the splice with an added invariant on ids; exact effect of `set_stream_id`; refutations of the intended reading |
| C36 | `to_u7s`/`from_u7s` | arithmetic |
| C37 | CI discovery query | codecs on bytes |
| C38 | enum codecs | exhaustive on the finite part, generic on the numeric part |
| C43 C44 | client loops over `try_from`/`data` and `Packet::try_from` | induction over the list of messages or packets; acceptance of a prefix independent of what follows |
| C46 | a receiver with one unfinished message per key, fed any interleaving | invariant: per key, what is held and what is still to come make up the messages sent |
| C47 | the parsers with one switch per family | case analysis on the family of the first unit, which is that of the accepted message |
| C48 | the programs as Gallina functions over the API model, `assert!` as `Panic` | from the theorems on histories and fixed-size edits of sysex messages, and C12, C15, C26 |
| C49 | Debug text as a string | hexadecimal digits have a value; names contain no parentheses; distinct type names by `vm_compute` |
| C50 | sender and receiver programs over the API model | composition of C43, C14, C25, C24, C16, C44 and C46 |
| C51 | all reading calls as one function `ask` | case analysis over the calls, from C08, C12, C15, C16 and C26 |
| C52 | the answer of a client's buffer to `try_resize` as a function, constrained by a specification | the splice algorithm again, for operations that may refuse (`BoundedSplice.v`); fixed-size messages and texts by reduction to arrays and vectors |
| C53 | no new model code; a client that copies field by field (`SpecRebuild.v`) | fields and reserved bits cover every bit, each wire form is injective on tidy bits, setters keep messages tidy; system exclusive: what is behind the payload as an invariant of the splice algorithm (`RebuildSysex.v`, and on arrays `RebuildArrays.v`) |
| C54 | the second example program over a list of messages asked for, the array as a list, the kept messages as positions in it (`Generator.v`) | induction on the list: each region is built alone (C01, C19 machinery), writing one leaves the others; with C43 for the stream |
| C55 | the sysex functions again, with sums, differences and products on `usize` and `u8` modulo the word size and with optional checks and assertions, as a function of the build (`Machine.v`, `MachineSysex.v`) | refinement: whenever the unbounded function returns a value and the numbers are small against the word size, the machine version returns the same value, whatever the build; lifted to C21, C22, C27, C34. Without assertions: the laws of the splice algorithm hold with a weaker invariant |
| C56 | the text and packet payload functions in the machine arithmetic of C55 (`MachineText.v`) | refinement as in C55, lifted to single edits, to edit histories on growable and fixed buffers, and to sequences of iterator calls |
| C57 | the splice algorithm over an iterator given by its sequence of answers, through `Peekable`, with a count of loop rounds (`Feed.v`) | simulation: the run agrees with the run of `Splice.v` on the items heard, if these end with the iterator or are more than the buffer can take; an answer of a run depends on finitely many items, so an endless iterator gets none on a growable buffer |
| C58 | client programs of edits, conversions and rebufferings on one `Sysex7` message (`Journey.v`) or one `Sysex8` message (`Journey8.v`) | refinement of a view (place, buffer length, payload, group), leg by leg, from C21, C22, C25, C39 and C45; induction on the program |
| C59 | the editing algorithm with an iterator that may panic at any call (`Unwind.v`); the result is the buffer at that moment | the state at the panic is the one the loop reaches on the list of the items taken; the loop invariant of C21 and C22, strengthened for the packets of a growable buffer and for the bytes behind a message |
| C60 | no new code: histories of setter calls on the messages of C09, C42 and C53 | what a setter writes depends on the bits of its own field only, and these are disjoint; induction over histories |
| C61 | `next`, `nth` and `size_hint` of the payload iterators behind `Skip`, `Take`, `Map` and `Chain` of core::iter (Pipes.v) | invariant of the iterator inside, and which calls of `nth` it can answer; induction over the expression; then C57 and C22 |
| C62 | a sender that writes and sends messages of all types, and the receiver of C46 behind the reader of C44 (Letters.v) | each written message can be sent and answers as written (C05, C09, C34, C42; on arrays C22 and the fixed histories of C42); then C44 and C46 |
| C63 | the parsers of Message.v, Sysex.v, Text.v, Aggregate.v, Packet.v, Ci.v with their error texts | each check is the complaint about one defect; checks compose in order; the message table is compared with the layout by computation |
| C64 | the parsers on the packets that arrived; the receiver of C46 from any state | packets put one after the other keep their fields; marks of one message; induction over arriving packets with one account per key |
| C65 | parsers and getters of all message kinds on a changed buffer | readings depend only on the bits of their own field; fields of a packet in terms of its bytes; the parsers' exact acceptance conditions |
| C66 | the clients of C50 and one that looks for inquiries among arriving messages (`InquiryClient.v`) | the inquiry is a stream of septets; C37 and C50; the parser's conditions and the getters computed on the payload |
| C67 | the payload edits over operations that count (`Meter.v`) | the editing loop by induction on its rounds, with the invariant that the estimate has grown by one less than the next step; the plain and the counted run side by side; in arrays the same loop under the condition that every resize fits, and the two rounds of an edit that does not |
| C68 | a client that skips to a status byte (`JoinClient.v`), and the receiver of `Receiver.v`, from any point on | induction on the messages; what is left of a cut message has packet marks of no message, for each of the four families with several packets |
| C69 | `error.rs`, the texts of errors and the alternate form of Debug texts (`Pretty.v`) | a left inverse of the escapes; taking the layout out of the alternate text gives the plain one, so C49 applies; the texts of the parsers are those of the lists of C63 |
| C70 | no new model: histories of C60 and C42 followed by calls that set everything | by C60 the last call for each field counts, a received message is by C53 one that was built; for texts the state after the last calls does not depend on the state before |
| C71 | programs of setter calls, copies and parsers on one text message (`TextJourney.v`) | the invariants of C42 hold in buffers of any length of whole packets and survive zero words behind and cutting to `data()`; induction over the journey |
| C72 | a client that is given the bytes of a cable one by one (`CableClient.v`) | no beginning of an accepted message is accepted, because acceptance survives trailing bytes and `data()` does not depend on them; induction over the bytes and messages |
| C73 | a client that is given packets one by one (`CableClient.v`) | the marks of the first packets of a message do not end it; case analysis over the message types, induction over packets and messages |
| C45 | chains of `rebuffer` steps | induction over the chain; each step is padding by zeros of the buffer or of its data |

## 4. Trusted base

* The Coq 8.16.1 kernel, including its `vm_compute` reduction (used for table checks over the 51
  message declarations and for witnesses).
* Axioms: none. `Print Assumptions` under every theorem of the `Properties*.v` files prints
  "Closed under the global context". No `Variable`/`Hypothesis` outside a section, no functors, no
  module types, no plugins.
* The specification files `Spec*.v`, which say what the properties mean.
* The faithfulness of the hand-written model to the Rust text. Each definition cites file and lines;
  simplifications are named in the comment. The ones that matter:
  * words, bytes and small integers are `N`; that they stay in range is proved where a property needs
    it (`wf_buf`), not built into the type;
  * a message value is its buffer; borrowed (`&[U]`), array, `&mut [U]` and `Vec` buffers are the same
    list and differ in the operations that are available;
  * all cargo features are on (except in C47, which is about any set of them) and the profile has overflow
    checks and debug assertions (except in C55 and C56, which are about any profile). Outside system exclusive messages,
    texts and packet payloads, which C55 and C56 treat, all shift counts and indices in the sources are constants
    and the checks of `ux` are plain assertions, so nothing there depends on the profile;
  * an iterator argument is the finite list of its items and an arbitrary `size_hint`, except in C57, where it
    is any sequence of answers to `next`; iterators that panic are modelled in `Unwind.v`, for unwinding panics that the caller catches;
  * the macro code is modelled as what it expands to, once per message kind, not as token streams.
* That trust is checked against the only executable evidence the repository has. `tools/repo_tests`
  translates the Rust text of the unit tests and of the documentation examples into calls of the model,
  and the generated `RepoTests*.v` evaluate them: 622 of the 627 unit tests (the others are four tests in
  ump_stream_group.rs, which is not compiled, and one of a test helper) and 34 of the 35 examples in
  README.md and the doc comments (the other only prints). All 656 hold with the values the Rust
  assertions state. These are tests of the model, not proofs, and no claim rests on them. To
  regenerate: `python3 tools/repo_tests/go.py && python3 tools/repo_tests/emit.py rocq/theories`.
* `python3 tools/table_check/check.py` compares `MessageTable.v` with the 51 declarations of fixed-size messages
  in the Rust sources, field by field (303 fields: order, property types, masks, statuses, sizes, lines cited).
* Not modelled: how core prints non-ASCII error texts, `core`/`alloc` internals (`Vec`, `str::from_utf8` is
  modelled as the UTF-8 validity automaton), `ux` and `fixed` arithmetic beyond the range checks,
  allocation failure, and files that are not compiled
  (ci/old_mod.rs, ci/property.rs, ump_stream/ump_stream_group.rs). The crate has no threads, no I/O
  and no persistent state, so there are no schedules to quantify over: histories of
  calls are, and the points at which the caller's iterator may panic (C59).

## 5. Status and findings

`MANIFEST.json` lists, per property, the theorems and what is missing. Where the plain English
property is false of the code, a theorem `C.._refuted` computes a counterexample in the model; they
are, in order of property:

| Theorem | Behaviour of the code |
|---------|----------------------|
| C01_flats_zero_refuted | `SetKeySignature::set_sharps_flats(Flats(0))` panics |
| C01_refuted | a registered per-note controller set by its second name (`Timbre`) reads back under the other name |
| C05_unconstructible_refuted | `FunctionBlockDiscovery::new` and `SongPositionPointer::<Vec<u8>>::new` panic: the declared minimum size is too small for their own fields |
| C05_dirty_stream_refuted | a UMP stream message built on a caller's slice takes stale following words into its data |
| C06_ci_version_refuted | `DiscoveryQuery::<3, _>::try_from` compiles and panics on short slices |
| C07_trailing_flex_refuted, C10_text_tail_refuted | words after a flex data message decide whether it is accepted |
| C07_stream_multi_packet_refuted, C10_stream_multi_packet_refuted | fixed-size UMP stream types accept several packets |
| C07_sizes_refuted | one-byte tune requests and two-byte time codes, as the standard has them, are rejected; two-byte song position pointers and one-word function block discoveries are accepted |
| C08_song_position_refuted | two-byte song position pointers are accepted; `data`/getters panic |
| C08_partial_packet_refuted, C26_half_packet_refuted | validation iterates `chunks`, size `chunks_exact`: a trailing partial packet is accepted and `data()` panics |
| C12_misrouted_refuted | `FlexData::try_from` and `UmpMessage::try_from` reject three metadata texts that their own types accept |
| C12_truncated_refuted, C16_function_block_discovery_refuted | a one-word function block discovery is accepted by the type but not by the aggregate, and its packets are not its data |
| C14_song_position_refuted, C14_reserved_refuted | byte/UMP conversion of song position pointer and of data bytes above 0x7F |
| C17_short_refuted | `Packet::try_from` refuses short flex data, sysex7 and sysex8 slices although it zero-fills the others |
| C17_sysex8_size_refuted, C17_sysex8_empty_end_refuted | sysex8 packets with impossible sizes are accepted; their payload panics |
| C21_bytes_two_messages_refuted | `Vec<u8>` copies of a slice with a second message behind the first: `resize` keeps the old bytes, an insertion finds the second 0xF7 and loses payload |
| C22_unannounced_refuted, C22_stale_end_refuted, C22_overannounced_refuted | failing edits of fixed sysex buffers lose the old payload, resurrect an old 0xF7, or panic, depending on the iterator's hint. C22_unannounced_exact says for arrays of words what a splice with too small a hint does in every case; C22_unannounced_roomy says when it is right |
| C22_bytes_unannounced_refuted | in a byte array, replacing a range by items of which fewer were announced than bytes are replaced: `try_splice_payload` panics although the result fits, because an old 0xF7 stays behind when the payload is first shortened |
| C26_high_byte_refuted | sysex7 bytes >= 0x80 are accepted; `payload()` panics |
| C27_sysex8_nth_refuted, C27_trailing_nth_refuted, C27_bytes_nth_refuted | `nth` beyond the end panics (or leaves an iterator whose `len` panics) |
| C27_bytes_size_hint_refuted, C41_size_hint_refuted | wrong `size_hint` |
| C27_packet7_nth_refuted, C27_packet8_nth_refuted, C27_packet8_end_refuted | packet payload `nth` skips too few or too many |
| C28_bytes_out_of_range_refuted | `set_byte` one past the payload overwrites the end byte |
| C29_full_packet_refuted, C29_split_character_refuted | flex text of a length divisible by 12 loses its last byte; `text()` panics when that splits a character |
| C30_channel_refuted | `set_optional_channel` on a long text changes only the first packet |
| C32_block_refuted | function block number set before a longer name: packets disagree |
| C33_accepted_refuted, C33_tune_request_refuted | accepted byte messages may contain bytes >= 0x80; a tune request has a second byte 0 |
| C35_set_stream_id_refuted, C35_growing_refuted | `set_stream_id` writes the wrong byte; packets added later get id 0 |
| C37_slice_refuted, C37_getter_refuted, C37_early_end_refuted, C37_set_end_refuted | discovery inquiries: stale support bits, bytes >= 0x80, early end byte |
| C38_device_id_refuted | device id for channel 16 is written but not read |
| C39_sysex7_refuted, C39_sysex8_removal_refuted | compaction test looks at every other packet; removing from a non-compact sysex8 message panics (C39_blocked_edits and C39_fixed_blocked_edits say exactly when) |
| C39_behind_refuted, C39_fixed_behind_refuted | an accepted sysex7 message of an odd number of packets, then an unrelated packet, then the start of another sysex7 message: removing a byte from the first message panics, because the compaction test skips the packet between them; in an array a sysex8 message that grows up to a second message panics although there is room (C39_in_the_way says exactly when, for growable buffers) |
| C40_stream_refuted, C40_text_dirty_refuted, C40_dirty_bytes_edit_refuted | old contents of caller-supplied buffers show through |
| C43_bytes_refuted | a byte stream as the standard has it is mis-framed at a time code or tune request (they take one byte too many) and at a song position pointer (one too few) |
| C43_ump_refuted | a slice in which anything follows a system exclusive, flex data or stream message, even another one of its kind, is refused by `UmpMessage::try_from` |
| C43_ump_panic_refuted | on a slice that ends inside a system exclusive packet, parse-then-`data()` panics |
| C45_full_text_refuted | a flex data text that fills its packets gains its lost last byte when copied into a longer array |
| C45_padding_refuted | the array holding a copy of an 8-bit system exclusive, flex data or stream message is not accepted by `try_from` |
| C46_group_only_refuted | (not a defect) a receiver that ignores stream ids mixes interleaved 8-bit messages of one group up |
| C48_handle_panic_refuted | the example's `handle_message` panics on sysex7 words with half a packet behind them |
| C49_equal_data_refuted | messages with the same data and fields are unequal, and print differently, when different words follow them in the buffer |
| C50_midi1_streams_refuted | real-time bytes inside system exclusive messages, which MIDI 1.0 allows, make reading the payload panic; running status and song position pointers are refused |
| C51_any_slice_refuted | accepted slices that end inside a packet, song position pointers of two bytes and system exclusive bytes of 0x80 or more panic when read |
| C52_unannounced_refuted, C52_from_bytes_refuted | in an arena, a payload that fits is refused, and the message emptied, when the iterator does not state its length: the room asked for doubles and overshoots. `try_from_bytes` of `Sysex7` is such a caller |
| C52_over_announced_refuted | in an arena, replacing payload by an iterator that announces too many items returns `Ok` and damages the payload |
| C52_bytes_set_one_refuted, C52_bytes_remove_one_refuted, C52_bytes_small_refuted | `try_resize` of the byte form compares the new buffer length with the old payload length; in an arena, shortening the payload by exactly one byte panics |
| C53_attribute_refuted | `set_attribute(None)` after `set_attribute(Some(_))` leaves the attribute data in a MIDI 2.0 note message: all getters agree with a message that never had an attribute, `==` says they differ |
| C53_effect_depth_refuted | a registered per-note controller message can be accepted and read as `EffectDepth` 5 (index 95), which the setter cannot write (it panics), so it cannot be copied field by field |
| C53_sysex_short_refuted | `Sysex7` and `Sysex8`: replacing the payload of a single-packet message by a shorter one leaves the old bytes behind the new ones, they are part of `data()` and are sent; `try_resize` clears the end of the last packet only when there is more than one packet |
| C53_arrays_refused_refuted | `Sysex7` on an array: an edit refused for lack of room empties the message, but its old bytes stay in the packet and are sent behind the next short payload |
| C55_hint_refuted | an iterator that announces `usize::MAX` items: debug builds panic, release builds spoil the payload and report success |
| C55_nth_refuted, C55_trailing_nth_refuted | `nth` far beyond the end: debug builds panic, release builds yield bytes that are not next, or not in the message at all, and `len()` is near `usize::MAX` |
| C55_inverted_range_refuted | splicing a range that ends before it begins: debug builds panic, release builds repeat the bytes between |
| C56_packet8_size_refuted | a `Sysex8` packet with size code 0: a debug build panics when its payload is read, a release build yields a byte that is not payload and then reports a length of `usize::MAX - 1` |
| C56_packet7_nth_refuted | `nth` past the end of a packet payload and then `len`: a debug build panics, a release build reports a length near `usize::MAX` |
| C59_fixed_bytes_refuted | a byte array with bytes of 128 or more behind the message: an edit interrupted by a panic of the iterator leaves those bytes inside the payload, and reading the payload panics |
| C60_withdrawn_refuted, C60_flex_channel_refuted | `set_attribute(None)` leaves the data of the old attribute in the message; `set_optional_channel` before or after a long text gives different messages |
| C61_skip_refuted | `payload().skip(4)` of a 3-byte message in an array that held ten bytes before panics |
| C61_byte_payload_refuted | the payload of a message in bytes announces (0, Some(0)); replacing bytes of a message in an array by it panics or reports success with a wrong payload |
| C63_family_named_refuted | an unknown system common status is reported as an unknown MIDI 1 channel voice status, an unknown UMP stream status as one of flex data |
| C64_lost_packet_refuted, C64_joined_refuted | packets carry no numbers: losing a Continue packet, or the end of one message and the start of the next, goes unnoticed |
| C64_texts_joined_refuted | the same for texts: the start of one lyric and the end of another are accepted together and read as a text that nobody sent |
| C67_hint_refuted | room for the upper size hint is made before anything is read: appending a `filter` over n bytes that lets one through asks for n bytes of payload |
| C67_appending_refuted | every `append_byte` writes all packet headers again: building a message of n bytes with it writes at least n²/12 headers |
| C68_lost_end_refuted | when the 0xF7 of a system exclusive message is lost, the messages behind it up to the next 0xF7 are accepted as its payload, and reading that payload panics (`BytesMessage::try_from` does not look for status bytes in the payload) |
| C68_words_refuted | a stream of UMP words joined at a word that begins no packet can be read as other messages; nothing in the words tells |
| C70_attribute_refuted | an attribute that is taken back leaves its data in a message that is used again |
| C70_flex_channel_last_refuted | a channel set after the text leaves the channel of the earlier use in the packets after the first |
| C70_stream_block_first_refuted | a block number set before a longer name is missing in the packets the name adds, unless an earlier name was as long |
| C71_stream_block_refuted | which packets get the block number depends on the buffer the message is in when it is set |
| C72_sizes_refuted | because of the sizes in C07_sizes_refuted, time codes and tune requests on a cable are lost and song positions are read wrong |
| C73_words_refuted | a text message cut inside its last packet is accepted by `UmpMessage::try_from`, and `data()` of it panics (cause: C08_partial_packet_refuted) |
| C52_bytes_lazy_refuted | in a client's buffer that does not shrink on request, a byte-stream sysex payload that was shortened by two bytes or more and grows again loses bytes (cause: C22_stale_end_refuted) |

`seeded/LOG.jsonl` records the wrong programs tried against the theorems: each entry is an edit of a
model definition, the claim it breaks and the theorems that stopped proving.
