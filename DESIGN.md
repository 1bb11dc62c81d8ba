# Design

Formal model of midi2-dev/ni-midi2 in Rocq (Coq 8.16.1), written by reading `/repo` as text; the code is not
built or run. All sources are under `rocq/theories`.

## Conventions

* Machine integers are `Z` with explicit wrapping at each C++ conversion that can lose bits. Bit operators are
  `Z.land`, `Z.lor`, `Z.shiftl`, `Z.shiftr`.
* `res A` is `Ok a` or `Fault f`. Faults are: assertion failure, out-of-bounds access, undefined shift, signed
  overflow, or conversion of a floating point number to an integer type that does not have its value. A run without fault
  behaves identically in debug and release (`NDEBUG`) builds. Functions whose assertions guard against misuse but whose release behaviour matters say so in their comment.
* Callbacks are modelled as an output list of events, in call order. Callbacks that call back into the object
  that invoked them are modelled in Reentrant.v and ReentrantAny.v (C70, C71); everywhere else callbacks make no such calls.
* Each model definition cites file and lines in `/repo`.
* `*Spec.v` hold specifications that do not use model helpers; `*Proofs.v` the lemmas; `Props*.v` only theorems
  closed by `exact`, with `Print Assumptions` and a concrete example each.

## Plan per property

* **C01 Packet byte accessors obey the store laws.** Packet.v models get_byte/set_byte on a record of four words. Proved by bit extensionality.
* **C02 Packet equality is equality of the transmitted words.** packet_eqb modelled as the loop over size() words. Spec: equality of firstn size words.
* **C03 Packet header fields are independent.** Spec is arithmetic (div/mod of word 0), independent of the shifts and masks of the model.
* **C04 Packets survive being printed and parsed.** TextIO.v models the character level effect of the stream operators (base, fill, width, adjustment, showbase; integer extraction in the base of the stream with eof/fail bits as in libstdc++). Spec TextSpec.v: digits by division. Induction over the packet list.
* **C05 Upscaling loses nothing.** Types.v; generic case by induction on the repeat loop (loop invariant: high bits are the source value), dedicated cases by complete sweep against the generic one.
* **C06 Upscaling keeps minimum, centre, maximum and order.** as C05; the maximum by a complete sweep over all width pairs; the exact values by a loop invariant against the closed form (the low bits times 2^(y-x) divided by 2^(x-1)-1).
* **C07 The generic upscaler agrees with the specialised ones.** finite sweep over all 2^7 and 2^14 source values (complete, hence a proof).
* **C08 Pitch arithmetic saturates.** Types.v with explicit int64 overflow checks; spec is clamp of the Z sum; lia.
* **C09 Controller arithmetic saturates.** as C08.
* **C10 Pitch bend times sensitivity is exact, bounded and monotone.** as C08 with Z.quot; nonlinear arithmetic.
* **C11 Floating point conversions return the original value.** Floats.v on Flocq IEEE-754 binary32/binary64; refutation
  for pitch_bend by computation, round trips by error analysis on reals.
* **C12 Any legal MIDI 1 byte stream is decoded to exactly its messages.** ByteStream.v models feed() on every byte. Spec: messages, a rendering relation (running status, interleaving); induction over the rendering.
* **C13 Real-time bytes are transparent.** commutation lemma for one realtime byte from any state, then induction over the stream.
* **C14 Chunking does not matter.** feed of a concatenation; spec is any splitting whose concatenation is the stream.
* **C15 The parser resynchronises at the next status byte.** from any state satisfying the reachable-state invariant.
* **C16 Parser output is always well-formed and stamped with the group.** invariant over reachable states, predicate on emitted packets.
* **C17 Disabled parsers are silent and reset restores the initial behaviour.** silence by induction; reset by state equality up to dead fields (bisimulation).
* **C18 SysEx bytes to packets is lossless.** induction over the payload with the packet buffer as loop invariant; composition with to_midi1_byte_stream.
* **C19 SysEx bytes to SysEx callback is lossless.** induction over the payload for the callback mode.
* **C20 Serialising a packet to MIDI 1 bytes respects the buffer and parses back.** case analysis on the packet kind; composition with C12.
* **C21 The parser never faults.** model has explicit Fault outcomes; invariant shows they are unreachable.
* **C22 send_sysex7 produces one well-formed message.** Sysex.v models send_sysex7 as its loop; spec is chunking by 6 of id bytes ++ data.
* **C23 SysEx7 survives packetising and collecting.** composition of C22 with the collector on a chunked message.
* **C24 send_sysex8 produces one well-formed message.** as C22; refutation witnesses for lengths 11/12/13 and exact characterisation.
* **C25 SysEx8 survives packetising and collecting.** composition of C24 with the sysex8 collector.
* **C26 Delivered SysEx is what the packets received since the last start carry.** refinement: collector state against an abstract 'bytes since last start' machine, any packet list.
* **C27 The collector size limit is an upper bound.** invariant size <= capacity <= limit; assumption on std::vector growth listed; refutation for a lowered limit.
* **C28 Messages within the limit are accepted, oversized ones are dropped cleanly.** acceptance by invariant; refutation by computation; exact condition.
* **C29 Collectors never read outside a packet.** Fault outcomes unreachable for any four words.
* **C30 Collectors recover after any history.** from any reachable state.
* **C31 SysEx8 streams do not mix.** step lemma then induction over interleavings.
* **C32 SysEx7 survives the MIDI 1 byte stream.** composition of C22, C18 (to bytes) and C19.
* **C33 MIDI 1 to MIDI 2 and back is the identity.** ChannelVoice.v; symbolic case analysis with the scaling lemmas of C05.
* **C34 MIDI 2 to MIDI 1 translation yields valid messages.** case analysis on status; bit bounds.
* **C35 Protocol-agnostic getters agree across translation.** case analysis on status.
* **C36 Message classification is unambiguous.** case analysis.
* **C37 Channel voice constructors and accessors are inverse.** spec: arithmetic field layout of each message.
* **C38 Protocol-agnostic getters have defined behaviour.** getters with fault outcomes for oversized shifts; refutation for 8-bit data.
* **C39 System messages keep their fields.** spec: arithmetic field layout.
* **C40 Jitter reduction timestamps are modular.** mod arithmetic.
* **C41 Scheduled messages keep their order.** Jitter.v models the follower over Z nanoseconds; invariant over event lists; refutation by computation.
* **C42 The security offset only grows and covers the jitter.** invariant over event lists.
* **C43 A jitter free clock schedules exactly.** induction over clock lists with the wrap-around lemma of C40.
* **C44 Stream messages keep their fields.** `EndpointSpec.v`: a type of calls, the bytes each stands for, what a view
  reports for given bytes. Constructors by byte list lemmas, accessors by arithmetic on the words.
* **C45 Names survive being split into packets.** induction over the rest of the text; pieces of 13 or 14 characters.
* **C46 Flex data messages keep their fields.** `FlexSpec.v` in the same style.
* **C47 SysEx7 integer fields round trip.** bit lemmas plus list append lemmas; reading at any position of any 7-bit message as base 128 digits (SysexReading.v).
* **C48 Identity replies round trip.** symbolic execution of the constructor and the view.
* **C49 MIDI-CI management messages round trip.** CapInq.v; spec CapSpec.v and CapCalls.v (inductive type of constructor calls with the bytes and results expected of each); symbolic execution of constructor, validate and accessors.
* **C50 MIDI-CI profile messages round trip.** as C49 plus induction over profile lists.
* **C51 MIDI-CI property exchange messages round trip.** as C49 with variable offsets.
* **C52 Validated MIDI-CI views are memory safe.** accessors return Fault on out of bounds; shown unreachable under validate.
* **C53 MIDI-CI validation itself is memory safe.** validate returns Fault on out of bounds; exact characterisation.
* **C54 MIDI-CI messages are transported unchanged.** predicate over all constructor calls; composition with C23, with the byte stream round trip of C20 and with C25 (header-only messages are miscounted).
* **C55 Property exchange headers are well-formed JSON.** PropEx.v; spec JsonSpec.v: a strict parser of a subset of JSON; induction over strings and options; constructors by composition with C51.
* **C56 Note numbers and pitches convert exactly.** Types.v, arithmetic.
* **C57 Utility and jitter reduction messages keep their fields.** Utility.v, arithmetic field layout.
* **C58 The clock follower follows the fastest clock.** Jitter.v; closed form of the state as an invariant over the history.
* **C59 Clock follower arithmetic does not overflow.** bounds as an invariant over the history; refutation by computation.
* **C60 Universal SysEx classification is total and consistent.** UniversalSysex.v; case analysis on the message length.
* **C61 MIDI-CI process inquiry messages round trip.** as C49.
* **C62 What MIDI-CI constructors write and check.** symbolic execution of each constructor with and without assertions.
* **C63 Floating point values are scaled, clamped and ordered.** `FloatSpec.v`: predicates over real numbers. Every float,
  the infinities included; monotonicity of rounding; NaN by computation.
* **C64 Pitches are the nearest fixed point numbers.** exactness of the products, rounding lemma, both directions.
* **C65 Pitch increments and detuning.** as C64 with sign; exact characterisation of the overflow.
* **C66 SysEx data packets are built byte by byte and read back.** DataPackets.v on top of Messages.v; spec DataSpec.v gives packets as 16 bytes; induction over the payload.
* **C67 A MIDI 2 message that passes through MIDI 1 comes back rounded.** composition of C33 and C34 on message contents; spec VoiceReturnSpec.v; the rounding bound for all widths at once.
* **C68 A session survives the way through a MIDI 1 byte stream.** composition of the single packet conversion (C20) with the parser refinement (C12, C18, C19): every filled packet is emitted at its own last byte, so real-time packets keep their place; spec SessionSpec.v.
* **C69 Messages of several senders are told apart.** the packets a collector sees are those of its sender up to ignored ones; induction over the messages with C30; spec ManySpec.v.
* **C70 Callbacks may call the parser that invoked them.** Reentrant.v models the functions once more with the calls of the callback at the place where it is invoked; the calls are a tree. Spec ReentrantSpec.v: as if called afterwards; induction over the tree with the invariant of StreamCalls.v.
* **C71 Callbacks may call the collector that invoked them.** as C70 for the collectors; spec ReentrantCollectSpec.v; the state during a callback differs from idle by data that the first permitted call discards. Any calls (ReentrantAny.v): the state stays one that reset() makes idle, and feed() resets after the callback.
* **C72 Callbacks may throw.** Throwing.v models the functions once more, with an exception leaving the object as it is when the callback is invoked; spec ThrowingSpec.v: as if nothing had been thrown; the state left behind by an exception is equivalent to the invariant of C21, or differs from idle by data the next permitted call discards (collectors).
* **C73 A SysEx describes itself correctly.** Sysex.v; boolean reflection by induction over the data, masks as fields of the id; sizes via the chunks of C22 and C24.
* **C74 Output is bounded by input.** potential argument on the reference semantics of C16 and C26: bytes received but not yet posted; the refinements transfer it to the model.
* **C75 Memory that is refused loses nothing if the call is repeated.** Memory.v models the functions once more, with the calls of the allocator, which may throw; a refused call leaves a state from which the same call does what it would have done (`restartable`), by induction over calls; giving up: the state left is told apart from the one before only by packets that continue the message.
* **C76 Memory is asked for only where expected.** Memory.v; invariants over calls: which capacities are possible (0 or 1024 times a power of two; n; 128 times a power of two) and how many data bytes the vector holds, the parser's by the invariant of C21.
* **C77 The documented packet handler treats each message the same in both protocols.** Docs.v models the handler; case analysis on the laid-out message of both protocols; streams by C12's theorem on legal streams and the invariant that the parser emits well-formed data bytes.
* **C78 Every received MIDI-CI message a view accepts reads as its bytes say.** CapReport.v states, apart from the model, the contents of each kind and their bytes; both directions by decomposing the accepted body (C52's characterisation) and by reading a laid-out body at symbolic offsets.
* **C79 Jitter reduction works from the sender's clock to the receiver's schedule.** JrClock.v models jr_clock::now on given readings of the system clock, a sender and a receiver; packets are shown to arrive as unwrapped ticks, then C58's invariant plus an upper bound of the message time gives the window.
* **C80 The limit of a collector can be changed while the collector is in use.** the invariant of C26 without the bound of the capacity by the limit; each feed() is a step of the reference collector with the limit max(limit, capacity), and that maximum does not change unless memory beyond 16 KiB is given up.
* **C81 Two ways to receive SysEx from MIDI 1 bytes agree.** simulation: both parsers follow the reference semantics of C14/C16 in the same context; the collector has received the first 6*(n/6) of the n bytes of an open SysEx; with a limit, the run of data bytes since F0 (`short_calls`) bounds what the collector holds. Longer runs are excluded: see C28_next_message_corrupted_refuted.
* **C82 The listed manufacturer ids can be used everywhere.** a computed check that every constant has one of the two valid forms, then C23, C25, C32, C48, C60.
* **C83 A bridge between two MIDI 1 connections is not noticed.** simulation over the reference semantics of C14/C16: of an open SysEx with n bytes the receiver has the first 6*(n/6); all other packets restore their context; C33 for the translation.
* **C84 Packets survive a connection of 32-bit words.** a receiver of words by size(); induction over the words with an incomplete packet as state; an inductive predicate of the packets the library makes, each shown to have zeros beyond its size.
* **C85 The group influences nothing but the group.** a relation of packets that differ only in bits 24 to 27 of the first word; equivariance of the reference semantics of the parser (C12); congruence of all other functions.
* **C86 Clock followers depend on time differences only.** three simulations between runs: states shifted by d; stamps shifted modulo 2^16; states that differ in the time of construction only.
* **C87 The channel influences nothing but the channel.** as C85, with packets that differ in bits 16 to 19 of the first word.
* **C88 Any traffic can be looked at.** the receiver is a program over the modelled functions; induction over the traffic with the invariant that collected messages consist of bytes; the two exceptions are given by bits of what arrives and are proved to be exact.
* **C89 A property of any size is exchanged in chunks.** both clients are programs over the modelled functions; the receiver's run projected to one key is the run of the messages of that key; induction over the chunks; the transports by C69 and C68.
* **C90 What an endpoint says of itself is found out.** both sides are programs over the modelled functions; every answer is read back by C44; the browser's run projected to one text is the run of the packets that carry it; induction over the formats of the packets.
* **C91 Flex data texts of any length are told apart and put together.** both clients are programs over the modelled functions; each packet is read back by C46; the receiver's run projected to one key is the run of the packets with that key; induction over pieces and texts.
* **C92 MIDI-CI devices find each other.** the device is a program over the modelled functions; its own messages are read back by C50; for any other message the change of knowledge is a function of the message and affects the device it is about only; induction over messages and devices.
* **C93 A controller follows the profiles of a device.** device and controller are programs over the modelled functions; the device's messages are read back by C50; one step of the device keeps any agreement of the lists, and the reply to an inquiry brings it about; induction over the history, messages of others are skipped.
* **C94 Copied and moved collectors and parsers carry on where the original was.** Copies.v models the special members (copies of vectors have other capacities) and programs over numbered objects; the specification gives each object the history of its ancestors and a new object, with its own limit, to run it on; invariant per object, induction over the program.
* **C95 A view follows the message it refers to.** Views.v reads a view completely and models a program that keeps messages and views of them; specification: the reading with device and ids replaced; every validate and accessor is stable under appending and under changes of bytes 0 and 4 to 11; induction over the program; what views tell at first from C49 to C51 and C61.
* **C96 Every sounding note has the pitch its messages ask for.** Engine.v is a client; the specification looks back through the history of messages for the latest ones that concern a note; invariant between engine and history, induction over the messages; the bound for MIDI 1 from C67; bytes by the refinement of the parser (C12, C16), packets of other kinds being without effect.
* **C97 A MIDI message report arrives complete.** Snapshot.v is a client of both sides; the device's answer is computed from the round trip of the inquiry (C12), the recorder is run with the collector's invariant (C10, C71), induction over the interleaved messages.
* **C98 Two sides agree on a protocol and keep to it.** Negotiate.v is a client of both sides; induction over the history with the configuration and the host's knowledge as invariant, the translations by C33 and C34; the specification (NegotiateSpec.v) has messages, not packets.
* **C99 Several MIDI 1 connections can be merged into one.** Merge.v is a client. The packets sent apart from real-time ones are a path of the line's owner; a free line at the end divides them into blocks, which are the carried messages because the division of a packet list into messages is unique; then C68. Bytes by induction over a rendering with running status (cable) and over the schedule.
* **C100 Sixteen MIDI 1 ports travel over one connection.** Ports.v is a client. By induction over the schedule the packets sent are a shuffle of what sixteen separate parsers send; each packet carries the group of its port (well-formed output), survives the words (C84), packets of other types have no bytes; then C83 for every port.
* **C101 Errors on a connection stay local.** From C15 for every intact stretch (reached states are closed under feeding); for packets by the reference semantics of CollectSpec.v, where an opening packet forgets what was collected. Losses: invariant that delivered and pending bytes are a sublist of the bytes sent and that pending bytes start with the complete id of a sent message.
* **C102 A property is received whole or not at all.** On C89's sender and receiver (Transfer.v). Chunks are numbered; invariant: the incomplete transfer is the concatenation of the first n pieces, whose chunks have all been seen. Messages correspond to chunks one to one. Refutations by computed witnesses.
* **C103 A property divided to fit is received by a device with limited memory.** A sender (Fit.v) on the modelled constructors and total_data_size, composed with Transfer.v and the limited collector. The size of a message is 24 bytes plus header plus piece, the pieces come from induction over the body, messages within the limit fit the collector packet by packet (C28). Refutation by computed witness.
* **C104 Subscribers follow a property.** Publisher, subscribers and network (Subscribe.v) on the modelled constructors and views and C89's receiver. Invariant: what a subscriber would receive from the messages on its way completes its values to a list that follows the history and, while subscribed, ends with the present value; the commands on the way lead to what the device wants. A transfer yields exactly one value from any state of the receiver and nothing to other destinations; two states of the receiver that agree about the publisher's subscription messages yield the same values, so other messages make no difference. What else the publisher sends (other resources, ids or commands) yields no value.
* **C105 Properties shared by several devices are atomic.** Device, clients and network (Atomic.v) on the modelled constructors and views and C89's receiver. The specification is an automaton with a value per resource in which each request takes effect once (AtomicSpec.v). Invariant: a request is idle, on its way (its remaining messages complete exactly the inquiry at the device) or effected (its remaining messages complete exactly the answer at the client); the instant of effect is the arrival of the last chunk. If messages are lost, a transfer may also be dead: no remaining message continues it. A witness shows what happens when a request id is used again after giving up (finding: the receiver of a transfer cannot tell its chunks from those of an abandoned one with the same id, as the protocol gives it no means to). Read after write is proved from the specification.
* **C106 MIDI-CI devices that chose the same MUID come apart.** Devices of C92 with a rule for collisions, and a FIFO link for each pair (Muids.v). A refinement leads from the messages to what they say (ask, answer, leave, another MIDI-CI message, none); on it, an invariant relates for each pair what is on the way and what the receiver knows: if both have asked, a message with the present MUID of the one is on its way to the other, or it has arrived and the MUIDs differ. With fresh choices a second invariant says that what is known after all on the way has arrived is exactly the others; a measure of turns and messages decreases with each arrival. A witness shows a late farewell without fresh choices.
* **C107 Browsers that keep what they have found out are up to date.** Endpoint and browsers of C90 with FIFO connections, changes and directories (Directory.v). Invariant: the packets heard by a browser followed by those on the way lead to all findings said so far; findings carry the time at which they were said, and for every prefix of them what is learnt from it is what the description said at the time of its last. A change is announced by a single finding, so no prefix mixes two descriptions.
* **C108 A merge box with limited memory leaves out only whole messages.** LimitBox.v is a client. Invariant per connection (stage): what is sent and waiting are blocks of some of the connection's whole messages followed by the beginning of the present one, or the present one is being left out and no packet of it is there. So the packets sent by each connection are a session of a subsequence of its messages, and the division into blocks on the line is as in C99. The limit, the case of enough memory and service by invariants of the run; bytes as in C99.
* **C109 Translators that carry parameters, banks and programs between the protocols.** Translate.v is a client around the modelled functions. Up: one invariant per channel relates the translator's state and the history of its output to the history of its input (selected parameter, value of every parameter, bank, program), shown for every message and lifted to all channels by induction. Down: the value of a parameter after the four controllers of one message, by induction over the history. Bytes by C68 and the parser's output shapes, the engine by C96.
* **C110 A sequencer follows another over a MIDI 1 connection.** Follow.v is a client around the modelled functions. FollowSpec.v reads the song position off the user's moves, and off raw bytes with a scanner of its own. The parser is related to the scanner through its reference semantics (C12), by induction over the bytes; the bytes of each packet are scanned by cases; the leader by induction over its moves. Merge box: by C99, real-time packets keep their order.
* **C111 A host finds the devices that are connected.** Identify.v is a client around the modelled functions. IdentifySpec.v reads requests and writes replies as bytes. What a device answers is related to the messages on the cable message by message through C99's reading of cables; the round trip of identities is C48's, for the view after the parser; the merge is C99's and C108's. Any calls: by the invariant of the parser that the SysEx it reports have valid ids and 7-bit data.
* **C112 A SysEx grows while memory may run out.** Growing.v repeats the functions with the vector's capacity and the allocator's answers, an exception being a distinct outcome. Every function is shown to be a sequence of insertions (GrowingSpec.v: portions), whose effect is proved by induction over the portions, then over the values, the attempts and the messages. The number of requests is bounded by an invariant: after k requests 2^(k/2) <= size + 1 and 2^((k+1)/2) <= capacity + 2.
* **C113 Time code is read as it was sent.** TimeCode.v is the sender and the receiver (no code in /repo). The quarter frames among any bytes are shown, by induction over the bytes with the parser's outputs of C01, to be those of a scanner (TimeCodeSpec.v: quarters), and the receiver's times those wherever the pieces come in a row (times_in). The rest is about lists of pieces.
* **C114 A MIDI-CI message is made with a single request for memory.** CapGrow.v repeats the functions with the allocator's answers as in Growing.v. Each step of a function of CapInq.v is simulated by the step with memory as long as the announced size is not exceeded, which is counted (CapGrowProofs.v).

## Findings in the modelled code

Theorems named `..._refuted` prove that the intended statement fails; the property was then restated to what holds.

* A SysEx of six bytes in one complete packet becomes two packets on its way through MIDI 1 bytes (C68).
* `send_sysex8` computes the chunk lengths wrongly for some sizes (C24); `send_sysex7` with manufacturer id 0 or with both
  a high and a low part makes a malformed sequence although `is_valid()` accepts the id (C22).
* Callbacks that call back: bytes fed from the callback for a SysEx packet are written after the end of the packet, the
  ninth outside of it; `reset()` is ignored there; a SysEx begun in a SysEx callback is corrupted; a message fed to a collector
  from the callback of a single packet message is appended to that message (C70, C71). `reset()` from a SysEx callback
  also empties the message the callback was given by reference.
* Callbacks that throw: `feed()` gives no guarantee for SysEx packets. After an exception from the callback for a SysEx
  packet, later bytes are written after the end of the packet (the ninth outside of it), or the SysEx goes on after its end.
  A collector is not reset, so that a single packet message is delivered again in front of the next one (C72).
* `total_data_size()` never is the number of bytes `send_sysex8` sends (C73).
* A caller that goes on after an exception of the allocator, without repeating the call, receives a message with a hole;
  the collector does not notice. F0 refused while callbacks are disabled leaves `m_packet_byte` 2 instead of 0, so that
  the SysEx is collected, and delivered once callbacks are enabled (C75).
* A limit above 16384 makes every message allocate: `clear()` releases what `set_max_sysex_data_size()` reserved (C76).
* The documented handler cannot tell a MIDI 1 note-on made with a velocity below 512 (7 bits: 0) from a note-off: the
  factory does not raise it to 1 (C77). `pitch_7_25::as_float()` is documented as below 128 but gives 128 for values from
  0xFFFFFF80 (C64).
* With count bytes above 0x7F `profile_inquiry_reply_view::num_enabled_profiles()` and `has_enabled_profiles()` disagree:
  one masks the bytes with 0x7F, the other does not (C78).
* The skipped test `jr_timestamps.jr_clock` expects that stamps differ by at least the time slept between them; truncation
  to ticks allows up to one tick less (C79).
* A parser without SysEx callback that is disabled for a while within a SysEx emits packets that lack a part, which a
  collector does not notice; with SysEx callback the message is delivered whole (C81).
* SysEx collectors ignore the group: two groups interleaved can become a message nobody sent (C69).
* SysEx collectors keep the data of a message refused for its size, and a limit set during use is not enforced (C27, C28).
* `set_group` with a group above 15 changes the message type (C03); so does the constructor of `sysex8_packet` (C66).
* `jr_clock_follower`: a late clock can move the schedule backwards (C41), a first clock at the time of construction
  counts as none (C43), a message stamped just before the last clock is scheduled late (C58).
* `get_channel_pitch_bend_value` overflows a shift for 8-bit data (C38); `pitch_7_25(note >= 128)` does (C56).
* `identity_reply` alters mixed manufacturer ids and does not mask the device id; an oversized reply is accepted (C48).
* Discovery views read the version byte before checking the size (C53).
* MIDI-CI constructors cast sizes to 16 bits before they check them; 65536 bytes or profiles become none (C49, C50).
* MIDI-CI messages without payload have 12 data bytes, one of the sizes `send_sysex8` miscounts: sent as SysEx8 they arrive
  without the last byte of the destination MUID (C54).
* MIDI-CI constructors copy device id, profile ids, status bytes, texts and payloads unchecked (C54).
* A property exchange header in a chunk other than the first can be constructed but not be read (C51).
* Stream names are written with 8 bits and read with 7; 16 groups read as none, 128 function blocks as none but static;
  the views ignore two bits of the status (C44, C45).
* `make_rjson` does not escape, reads the first character of an empty option value, writes '-' or '007' as numbers, and
  sends message texts made of digits as numbers (C55).
* When memory runs out within `add_device_identity` part of the identity stays in the message, so that a second attempt spoils
  it; `as_sysex8_packets` reserves memory for packets of 14 bytes although they hold 13, and has to ask again from 25 bytes on (C112).
* `make_discovery_message` and `make_midi_message_report_reply` reserve one byte more than they use (C114).
* Assigning a `sysex7_collector` with a limit to one that holds more memory makes it accept more than the limit; a collector
  that was moved from within a message continues that message (C94).
* Assigning another message to a `sysex7` while a view of it exists makes the view read out of bounds (C95).
* `operator<<` leaves its fill character in the caller's stream and its text is spoilt by `std::left` and `std::showbase`;
  `operator>>` accepts a text that ends after the first word of a longer packet (C04).
* `pitch_bend` constructed from its own `as_double()` can be one lower: the smallest bend above the centre becomes the
  centre (C11). NaN reaches a conversion to an integer in `velocity`, `controller_value` and `pitch_bend` (C63).
  `pitch_increment(double)` just above -64 negates the most negative integer (C65).

## Build variants

Functions with an argument `dbg` are modelled for builds with (`true`) and without (`false`) assertions; a name ending
in `_nd` is the variant without. Without either, an assertion that fails is the outcome `Fault AssertFail`.

## Trusted base

* The Coq 8.16.1 kernel, including its virtual machine (`vm_compute`).
* `Print Assumptions` beneath each theorem. All theorems but those of `PropsFloat.v` are closed under the global context.
  The theorems of `PropsFloat.v` use real numbers (Flocq 4.1.0 on the standard library's reals) and depend on these
  standard library axioms, and no others: `ClassicalDedekindReals.sig_not_dec`, `ClassicalDedekindReals.sig_forall_dec`,
  `FunctionalExtensionality.functional_extensionality_dep`, `Classical_Prop.classic`. (A listing of the whole context, as
  `coqchk -o` prints it, also has the constants of standard library modules that are sealed by a signature: the definitions
  of the reals in `Rdefinitions` and `ssr.ssrunder`. No theorem depends on others than the four named.)
* The faithfulness of the model to the source text. Every definition of a model file names the lines it stands for.
* The platform: `int` has 32 bits, `size_t` 64, two's complement; converting an out of range value to a signed type wraps.
* `std::vector` growth as in libstdc++ (only for C27/C28, C112 and C114): `reserve(n)` yields capacity `max(cap,n)`; C112 and C114 also that
  `insert()` and `push_back()` ask for memory only when the capacity does not suffice and then make room for size + max(size, number of new bytes) or more (this is what the
  bound on the number of requests rests on).
* `std::chrono` durations count nanoseconds in 64 bits (C40-C43, C58, C59).
* Stream operators as the standard and libstdc++'s `num_get` and `num_put` do, with the classic locale (C04).
* `float` and `double` are IEEE 754 binary32 and binary64, operations round to nearest even in the type of their operands
  (`FLT_EVAL_METHOD` 0, no fast-math); `std::round` rounds halves away from zero (C11, C63-C65).

## How the model is checked against the code

The code itself is not run. Three things tie the model to it:

* Every definition cites the lines it follows, and all code lines of inc/ and src/ are covered.
* The repository's own unit tests are evaluated on the model (`Tests*.v`): the inputs and expected results are translated
  mechanically from tests/*.cpp, one `Example` per test. They show that the model computes what the authors of the code
  expect of it. They are tests of the model, not proofs, and no claim rests on them. `TestsHand.v` holds the tests
  written by hand, among them
  the clock follower tests the repository skips, with made-up times. All of tests/*.cpp is covered except allocation
  counts, vector capacities, compile time checks and the deprecated aliases. One expectation fails on the model:
  channel_voice_message_tests.cpp:840 passes 0xAFED as a 14 bit value, and `v << 18` overflows the promoted int, which is
  undefined before C++20 (the model reports `ShiftOverflow`; C05 shows that it does not happen for 14 bit values).
* Wrong versions of the model are rejected by the theorems (seeded/LOG.jsonl).

## What is modelled

| Model file | Code |
| --- | --- |
| Packet.v, TextIO.v | universal_packet.h, universal_packet.cpp |
| Messages.v, DataPackets.v | data_message.h, extended_data_message.h, system_message.h |
| Types.v, Floats.v | types.h |
| ChannelVoice.v | channel_voice_message.h, midi1_channel_voice_message.h, midi2_channel_voice_message.h |
| Utility.v, Jitter.v | utility_message.h, jitter_reduction_timestamps.h, jitter_reduction_timestamps.cpp |
| ByteStream.v | midi1_byte_stream.h, midi1_byte_stream.cpp |
| Sysex.v, Collector.v | sysex.h, sysex.cpp, sysex_collector.h, sysex_collector.cpp |
| UniversalSysex.v | universal_sysex.h, universal_sysex.cpp |
| Manufacturer.v | manufacturer.h |
| CapInq.v, PropEx.v | capability_inquiry.h, capability_inquiry.cpp |
| Reentrant.v, ReentrantAny.v | midi1_byte_stream.cpp, sysex_collector.cpp once more, with callbacks that make calls |
| Throwing.v | the same two files, with callbacks that throw |
| Memory.v | the same two files, with the calls of the vector's allocator |
| Growing.v | sysex.h, sysex.cpp, universal_sysex.cpp: the functions that append data, with the calls of the vector's allocator |
| CapGrow.v | capability_inquiry.h, capability_inquiry.cpp: the functions that make messages through make_with_payload_size, with the calls of the vector's allocator |
| Docs.v | the clients in docs/: channel_voice_message.examples.cpp, midi1_byte_stream.examples.cpp, sysex_collector.examples.cpp |
| Receiver.v, Transfer.v, Browse.v, Lyrics.v, CiNet.v, Profiles.v, Engine.v, Snapshot.v, Negotiate.v, Merge.v, Ports.v, Fit.v, Subscribe.v, Atomic.v, Muids.v, Directory.v, LimitBox.v, Translate.v, Follow.v, Identify.v, TimeCode.v | no code: clients that use the library, for C88 to C93 and C96 to C100, C102 to C111, C113 |
| Copies.v | the generated special members of sysex_collector.h and midi1_byte_stream.h, as libstdc++ copies and moves vectors and functions |
| Views.v | all views and accessors of capability_inquiry.h, the edits of sysex.h, universal_sysex.h and capability_inquiry.h; the program is a client |
| JrClock.v | jitter_reduction_timestamps.cpp: jr_clock::now; sender and receiver are clients |
| Endpoint.v | stream_message.h |
| Flex.v | flex_data_message.h |

Not modelled: the system clock read by `jr_clock::now()` (its readings are arguments in JrClock.v), the deprecated aliases of
predicates, default member initialisers, copying and moving other than in Copies.v, memory allocation failure other than in collectors and the parser (Memory.v) and where data are appended to a SysEx (Growing.v) or a MIDI-CI message is made (CapGrow.v),
lifetime of the packets and messages views refer to (edits of viewed MIDI-CI messages are modelled in Views.v) and of a callback that replaces itself,
`constexpr` evaluation, concurrency (the code has no shared state).
