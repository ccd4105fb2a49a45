# Formal model of knx-ip-client

A machine-checked model (Coq 8.16.1, sources in `rocq/theories`, logical name
`Verif`) of the Rust crate in `/repo`, and proofs of the properties listed in
`properties.jsonl`. `MANIFEST.json` maps each property to its theorems.

## Trusted base

- Coq's kernel (and `vm_compute`, which is part of it).
- What `Print Assumptions` prints: every theorem of the manifest is "Closed
  under the global context" (`Assumptions.v` prints them all). No axiom, neither
  of our own nor of a library, is used. (Tactics such as `lia` load library
  modules that declare axioms; none of them occurs in a proof.)
- The reading of the Rust code: the model was written function by function from
  the text, every definition cites file and lines. The code was not run.
- Behaviour of dependencies as stated in the model comments: `std` integer
  parsing/formatting, `Cursor`/`Read`, `byteorder`, the `encoding` crate's
  ISO 8859-1 codec, `bitflags` truncation, tokio (mutex, bounded mpsc,
  `select!` drops the losing future, `timeout`, `Interval` with
  `MissedTickBehavior::Delay`), UDP sockets (a receive truncates to the buffer).

## What is modelled

| Rust file | Model | Not modelled |
|---|---|---|
| `src/packets/addresses.rs` | `Addresses.v`, error texts in `Messages2.v` | |
| `src/packets/core.rs` | `Core.v`, error texts in `Messages.v` and `Messages2.v` | getters |
| `src/packets/tunneling.rs` | `Tunneling.v`, error texts in `Messages.v` | – |
| `src/packets/apdu.rs`, `tpdu.rs` | `Apdu.v` | |
| `src/packets/emi.rs` | `Emi.v`, error texts in `Messages2.v` | logging; message codes nothing reads |
| `src/dp_types.rs` | `DpTypes.v`, `DpOld.v` (`_float_to_bytes`, dead code) | NaN payloads |
| `src/transport/udp.rs` | `Transport.v`, `Search.v`, `Connect.v`, error texts in `Messages3.v` | `set_feature` (private, never called), `flush` (does nothing), DNS |
| `src/transport/udp_monitor.rs` | `Transport.v`, `Connect.v`, error texts in `Messages3.v` | same |
| `src/main.rs`, `examples/discover.rs` | `Demo.v` | logging set-up, log lines |

Representation: unsigned integers are `N`, signed `Z`, byte sequences `list N`;
a function that can fail or panic returns `Ok | Err | Panic`. Overflow follows
the build profile (`Debug` panics, `Release` wraps); theorems quantify over
both. `f32` is the standard library's `spec_float` at precision 24, emax 128.

The transport is a labelled transition system `step`: every `.await` of the
background task and of each API call is a point where others may run; labels
choose who moves and how the environment answers (datagram arrives, send or
receive fails, timer fires, future dropped). `exec` collects all executions of
any number of concurrent calls with a time-stamped trace of observable events.
Where the transport functions are:

| Rust (udp.rs; udp_monitor.rs) | Transport.v |
|---|---|
| `UdpTransport::connect`: spawned task; `UdpMonitorTransport::connect` | `bg_step`, `bg_tick`, `bg_pc` |
| `connect` (free function: request, 30 s timeout, 10 s sleep) | `BConnSend`, `BConnWait`, `BConnSleep`, `bg_timeout` |
| `parse_response`, `handle_recv_from_knx_device` | `parse_response`, `dispatch`, `after_ack` |
| `get_next_sequence_nr`, `get_communication_channel_id`, `get_control_endpoint` and the monitor's | `cl_step` at `CSeq`, `CChan`, `CChan2`, `CEp` |
| `tunnel_req`, `get_connectionstate`, `disconnect` | `cl_step` at `CSend`, `CWaitSock`, `CWaitQ` |
| `read_group_address_value`, `write_group_address_value`, `next_msg`, … | `op`, `cl_step`, `on_message`, `cl_timeout` |
| dropping a future, the handle or a receiver | `LCancel`, `LDropHandle`, `LListenerDrop` |

Simplifications of the transport model:

- A socket send is one step (it either succeeds or fails at once).
- The `connection_data` mutex is held across an await only during listener
  notification; elsewhere its critical sections are single steps.
- Fairness of tokio mutexes is not part of the model (any waiter may acquire); where a theorem needs it, it is a hypothesis (LiveSpec.v: queue_for_mutex, FifoSpec.v: next_in_line).
- A timeout may fire whenever its deadline has passed, even if a message is
  ready (a superset of tokio's behaviour).
- Dropping the handle freezes calls still suspended.
- Threads are interleaved at await points only; the code shares state only
  through mutexes, channels and the socket, so this loses nothing.

Simplifications of `Search.v`: handling a datagram takes no time; the operating
system's answers (bind, local address, send) are arbitrary.

## Layout

- `Base, Addresses, Tunneling, Apdu, Emi, Core, DpTypes, DpOld, Transport, Search, Demo`: the model, no proofs.
  `Messages, Messages2, Messages3`: the same decoders and calls with the texts of their errors.
  `Connect`: the `connect` calls, with what the operating system answers as an argument.
- Specification, written without the model's functions: `Wire.v` (octet layouts
  of the standard, address grammar, 2-byte float), `Spec.v` (the same lifted to
  the model's records), `TraceSpec.v` and `TraceSpec2.v` (vocabulary over traces:
  who sent, received, queued, took and returned what; datagrams of each
  service), `SearchSpec.v` (device replies), `TypedSpec.v` (typed values,
  transport control information, bus frames), `DemoSpec.v` (printed lines),
  `SessionSpec.v` (sessions of many calls),
  `MonitorSpec.v` (what the monitor shows of the bus), `ReactSpec.v` (the task's
  reaction to a datagram), `DibSpec.v` (octets of blocks and search responses),
  `LiveSpec.v` (endless executions and fairness), `CommandSpec.v` (commands on the bus),
  `PromptSpec.v` (machines that are fast enough), `FifoSpec.v` (a first-come-first-served
  mutex), `AnswerSpec.v` (answers, outages and silence), `AckSpec.v` (what is to be acknowledged),
  `OldSpec.v` (the unused first float encoder), `MsgSpec.v` and `MsgSpec2.v` (what error texts should say).
- `RepoTests.v`: the project's own unit tests, evaluated on the model.
- `*Proofs.v`, `*More.v`, `Float*.v`, `Transport<Name>.v`: lemmas.
  `TransportRuns*.v`, `TransportLost.v`, `LiveRuns*.v`: concrete executions.
- `Props*.v`: the property theorems only, each closed by a lemma, with a concrete
  instance beside it. `Assumptions.v`: `Print Assumptions` for every theorem.
- `seeded/LOG.jsonl`: wrong versions of the model and the theorems they break.
  `lemmas_broken` are the proofs Coq rejected; `failed` are the theorems that
  need one of them, so a theorem there is unproved, not necessarily false.

A property that the code violates has a theorem `..._refuted` (a concrete
counterexample, or the negation for all values) and, where possible, the
strongest true part, named `..._partial`; its manifest status is `partial`.

## Properties

- **C01** HPAI codec is exact: round trip and exact acceptance by computation on the reader.
- **C02** KNXnet/IP header codec is exact: as C01.
- **C03** Emitted frames are well formed: frame predicate of Wire.v checked against every encoder.
- **C04** Connection response decoding is exact: iff with the frame description of Wire.v.
- **C05** Connection response survives encode/decode: false: refuted for every response without hypotheses; proved complement: with a UDP/TCP endpoint the library's own bytes are always rejected.
- **C06** Connection-state frames codec: as C01.
- **C07** Disconnect response codec: as C01.
- **C08** A device's disconnect request is understood: false: refuted for every request; proved: no octet sequence at all is understood as one; the decoder alone reads what the encoder writes from its 6th octet on (PropsRest.v).
- **C09** Search request codec: as C01.
- **C10** Search response decoding of well-formed frames: induction over the family list.
- **C11** Search response survives encode/decode: false: refuted for every response without hypotheses; proved: rejected whenever programming mode is off.
- **C12** Description blocks survive encode/decode: per-variant round trips (partial); refuted for KNX-addresses and manufacturer blocks.
- **C13** Tunnelling request codec: reader computation plus list lemmas.
- **C14** Tunnelling ack codec: as C01.
- **C15** Feature response codec: case analysis on the feature code.
- **C16** Decoders panic only on identified inputs: exact panic conditions, induction over the additional-info loop.
- **C17** Dispatch follows the service identifier: case analysis on the code.
- **C18** Receive buffering does not alter complete frames: padding lemma per decoder.
- **C19** Truncated or oversized datagrams are rejected: false: refuted; proved: what is delivered instead, and that the declared length is always that of what is delivered and at least the header arrived.
- **C20** cEMI decoding is exact on well-formed frames: induction over the info list.
- **C21** cEMI decoding result is a factorisation of its input: induction over the loop fuel.
- **C22** Indication decoding: reader computation.
- **C23** Indication decoding rejects short service information: reader computation.
- **C24** Confirmation decoding: reader computation.
- **C25** L_Data request encoding: computation, bit lemmas by finite sweep lifted with forallb_forall.
- **C26** Individual destinations are flagged as individual: false: refuted for every individual address; proved: group destinations are flagged.
- **C27** Oversized requests fail cleanly: false: refuted; exact condition proved.
- **C28** Group write survives the wire: composition of C13, C18, C20, C22, C29.
- **C29** APDU encoding: computation, finite sweep.
- **C30** Group write with an empty small value does not crash: false: refuted; exact condition proved.
- **C31** Addresses map to 16-bit values bijectively: bit arithmetic.
- **C32** Distinct addresses stay distinct on the wire: false outside the KNX ranges; proved inside.
- **C33** Two-level group addresses use the KNX 5/11 layout: false: refuted; the actual 8/8 layout is proved.
- **C34** Address text parsing accepts exactly the grammar: grammar of Wire.v, induction over strings.
- **C35** Address text round trip: induction over digits.
- **C36** Integer data points survive encode/decode: be16/be32 lemmas.
- **C37** Dimming and blinds control codec: finite sweep.
- **C38** Percentage counter never wraps: case analysis.
- **C39** Scaled value round trip: finite sweep of 255 bytes plus saturation lemma.
- **C40** Scaling zero percent gives the zero byte: false: refuted.
- **C41** 2-byte float decoding matches KNX for exponents below 8: finite sweep over all codes with exact rationals.
- **C42** 2-byte float decoding is correct for every code: false: refuted; exact set of wrong codes proved.
- **C43** 2-byte float encoding terminates: exponent measure on spec_float.
- **C44** 2-byte float encoding always returns: false: refuted (Debug panic after 32768 steps, Release never returns for any fuel).
- **C45** 2-byte float encoding is accurate: integer arithmetic in units of 2^-149 on spec_float.
- **C46** 2-byte float encoding is accurate on the whole range: false: refuted; proved: within 0.501 steps away from the gaps, and the gaps cover only 20.474..20.482 times 2^k (either sign) and -0.006..0 (PropsRest.v).
- **C47** 2-byte float codes round trip: finite sweep over codes.
- **C48** Friendly name: computation.
- **C49** Calls are serialised: invariant: lock holder = only call past the lock.
- **C50** Received messages are queued in order, bounded, and never invented: trace invariant.
- **C51** Every delivered message was acknowledged first: trace invariant.
- **C52** An acknowledged message is delivered: false: refuted by a schedule; proved: lost only through a heartbeat cancelling a blocked hand-over.
- **C53** Sequence numbers are consecutive: trace invariant.
- **C54** A request carries the sequence number of its own connection: false: refuted by a schedule; proved when no reconnection intervenes.
- **C55** Tunnelling requests use the channel granted by the device: trace invariant.
- **C56** A lost connection is re-established before further use: trace invariant.
- **C57** Connection errors trigger reconnection: step analysis.
- **C58** A silent device is detected: false: refuted for every time bound.
- **C59** Read returns the value of the addressed group: trace invariant on the call's own events.
- **C60** Read returns a value received after the request: false: refuted by a schedule.
- **C61** Write succeeds only on a confirmation: trace invariant.
- **C62** Write success means the bus confirmed this write: false: refuted by schedules.
- **C63** Each call sends at most one datagram: trace invariant.
- **C64** Disconnect reports success when the device answered: false: refuted.
- **C65** After a disconnect response the client is silent: stability of the stopped state.
- **C66** Connection state reflects disconnection: false: refuted.
- **C67** Status queries always complete: false: refuted.
- **C68** A status query never consumes bus traffic: false: refuted; proved: at most one datagram per call.
- **C69** Heartbeats are spaced: trace invariant on times.
- **C70** Connection attempts are spaced: trace invariant on times.
- **C71** Timeouts are not premature: invariant on deadlines.
- **C72** A read completes within 10 seconds: false: refuted for every bound; proved on a fast machine for a read that is handed no message (PropsRest.v).
- **C73** No datagram can disable the client: false: refuted.
- **C74** The background task stops only for identified reasons: trace invariant.
- **C75** Duplicate tunnelling requests are delivered once: false: refuted.
- **C76** Foreign-channel requests are not delivered: false: refuted.
- **C77** Cancelling a call is safe: step analysis.
- **C78** Waiting calls are not stuck behind finished ones: invariant plus enabledness.
- **C79** Dropping the client stops its background task: false: refuted; proved: no continuation after the drop terminates except by a disconnect response or crash (C74); the next telegram makes it reconnect.
- **C80** Monitor delivers indications in order: trace invariant.
- **C81** Monitor connection listeners are notified: invariant on the notification loop.
- **C82** A slow listener does not block the monitor: false: refuted; proved: only a full channel of a registered listener that was not dropped blocks, with room every call goes on (PropsRest.v).
- **C83** The client answers a device's disconnect request: false: refuted for every execution (no disconnect response is ever sent).
- **C84** Search returns the decoded responses in order: induction over the datagrams.
- **C85** One malformed datagram does not spoil a search: false: refuted; proved: nothing but search responses is taken for one.
- **C86** Search does not mix datagrams: false: refuted; proved for complete frames.
- **C87** A search ends after its timeout: false: refuted for every number of repeated replies; the exact end time by induction over the timeline.
- **C88** A confirmed write reports success: false: refuted by a schedule; proved when the confirmation is the next message, up to a complete session from the first datagram.
- **C89** An answered read returns the answer: enabledness: the schedule that returns the answer is constructed from any reachable state.
- **C90** Read returns only answers: false: refuted by a schedule, and in every execution a question that comes first is returned as 0; proved when every queued indication for the address is an answer (PropsRest.v).
- **C91** is_connected tells whether there is a connection: trace invariant.
- **C92** Responses for other channels are ignored: false: refuted by schedules; proved for positive connection-state responses.
- **C93** Missing or negative acknowledgements are reported: false: refuted by schedules; acknowledgements change nothing.
- **C94** Transmitted sequence numbers have no gaps: false: refuted; the sequence sent is a subsequence of the one issued.
- **C95** Messages are delivered in the order of their datagrams: invariant relating the queue to a subsequence of the datagrams received.
- **C96** An unanswered connection request is repeated after 40 seconds: trace invariant on times plus enabledness.
- **C97** The client can always reconnect: enabledness from every reachable state with a running task.
- **C98** A refused feature request is reported: false: refuted by a schedule; a feature response changes nothing.
- **C99** The monitor's connection attempts are spaced: false: refuted for any number of attempts; proved when the feature request can be sent.
- **C100** A repeated connect response is harmless: false: refuted; every granting response is an error to the receive loop.
- **C101** An abandoned channel is freed: false: refuted; the task never sends a disconnect request.
- **C102** Other datagrams do not use up a connection attempt: false: refuted; the first datagram decides.
- **C103** Heart beats continue: enabledness from every reachable state.
- **C104** A connection is given up only for a reason: trace invariant on the task's last events.
- **C105** A search asks once, at the discovery address: computation with the frame lemma of C03.
- **C106** A search that cannot ask reports an error: false: refuted in every environment.
- **C107** A search names an address devices can reply to: false: refuted in every environment with a wildcard-bound socket; proved: the address named is the client's exactly if the one the socket reports is (PropsRest.v).
- **C108** Every data point can be written: false for two types: refuted; per-type computation for the rest.
- **C109** Typed values survive the bus: composition of C28, C36, C37.
- **C110** Decoding keeps the data point type: false: refuted for every value of three types.
- **C111** Decoders reject octet strings of the wrong length: false: refuted; exact acceptance.
- **C112** Percentages follow the standard: false: refuted for every octet but two; error bound by finite sweep of all 256 octets and all 101 whole percentages, and by rounding-error bounds for every f32 from 0 to 100.
- **C113** The transport service is sent: false: refuted; exact set of services that are right.
- **C114** Bus-monitor frames report their addresses: false: refuted; right only if source = destination = 257 times the next octet.
- **C115** A larger percentage never gives a smaller octet: rounding as a monotone function on integers (FloatScale.v).
- **C116** A percentage comes back: error bounds of the three roundings and a sweep of the 256 octets.
- **C117** The friendly name of a found device is its name: false: refuted for every padded name; the 30 octets are returned.
- **C118** A well-behaved device keeps its connection: from the reasons of C104 and an invariant on the connection.
- **C119** Sessions of any length get the right answers: induction over the calls, one step lemma per call.
- **C120** The dimming demo ends successfully: false: refuted by a run; with at most one bus message always an error (counting taken messages).
- **C121** Devices with many service families are found: false: refuted for 16 families and more; cut-off lemma for parsers.
- **C122** The discovery demo lists every device that answers: decimal notation lemmas; injectivity of the listing.
- **C123** A temperature comes back: false just below 20.48*2^k (0 comes back), at the negatives of these and just below 0 (debug panic), each refuted for the whole interval; proved outside these gaps for exponents 0..7.
- **C124** A higher temperature is never encoded as a lower one: false (20.47 and 20.48); proved for every pair outside the gaps.
- **C125** The monitor loses and repeats no indication: every step relates the messages it takes to the results it returns; summed over executions, combined with C95 for datagrams.
- **C126** The monitor's backlog can be fetched: induction over the queue; over batches for sessions.
- **C127** Each datagram gets its reaction: case analysis on the task's state after the datagram, from the history invariant.
- **C128** Octets of description blocks: parser inversion per variant; induction over the entry lists.
- **C129** Octets of search responses: from C128.
- **C130** Requests about a granted connection: from C04 and the frames of C03.
- **C131** A description block is as long as it says: false; the exact condition per variant from C128.
- **C132** Disconnecting on a quiet bus succeeds: false for every execution, from C64 and C50; the rest of the project's test by a run.
- **C133** Writes end: the holder of the mutex moves through finitely many stages, each continuously enabled or enabled by the 10 s deadline; then induction on the number of overtakings.
- **C134** Calls end: false; three periodic executions (a schedule repeated for ever after a start, justified by C135's translation lemma); positive halves as C133.  A monitor that loses its connection without end is covered with `served` (LiveSpec.v), the fairness of tokio's queueing mutexes: weak fairness alone would let the notification take the lock each time the call is polled (C134_unserved_example); example LiveRuns3.v.
- **C135** Only elapsed time matters: a relation between states with all instants shifted is a bisimulation.
- **C136** A client without connection keeps asking for one: rank of the connecting states, lowered by every move of the task.
- **C137** Heart beats never cease: the deadline stays put inside the receive loop, all of whose states have the timer branch open.
- **C138** Named constructors carry the code and unit of their type and the value given; PropsTyped.v.
- **C139** a willing gateway gets its client connected: liveness of the connect loop under the hypotheses `willing` (LiveSpec.v), proof TransportFair3.v.
- **C140** next_msg returns while telegrams keep coming: progress by the position of the first bus message in the queue (TransportFair4.v), examples LiveRuns2.v, LiveRuns3.v.
- **C141** different calls are sent differently: refuted for small values above 63 and the empty value; equal datagrams mean equal commands (`CommandSpec.v`), from C63 and the octet layout.
- **C142** no datagram is left lying: from every state the task gets back to its socket (TransportFair5.v), then induction on the datagrams ahead.
- **C143** reads and writes end in time: in prompt executions (PromptSpec.v: no time passes while the program has something to do) the timer of a waiting call is never overdue (TransportPrompt.v), and the timer is bounded by the messages taken. The hypothesis of promptness is about scheduler and machine; nothing in the repository guarantees it.
- **C144** heart beats are not late: same for the interval (TransportPrompt2.v); at most 60 s ahead at any time; the datagram is sent in the instant of the tick (TransportBeat.v, PropsBeat.v). On-connect channels: `attended` (PromptSpec.v) asks for room in them whenever time passes; C146, C162 and C163 do the same.
- **C145** connection requests are not late: same for the 30 s timeout and the 10 s pause.
- **C146** datagrams are not kept waiting: where the task can be when nothing is enabled.
- **C147** the library sends little by itself: counting invariants (TransportCount.v); connection requests are paid for by 10 s pauses or answers taken.
- **C148** at most one message is lost per heart beat: the task holds at most one message, and only a tick or a failed acknowledgement makes it let go of it.
- **C149** From every reachable state of a live client every pending call can still come back (existential continuation); the connection can be had again unless the task is over.
- **C150** With a first-come-first-served mutex and prompt scheduling the n-th waiting read or write is over after at most n times ten seconds plus ten per message taken; first come first served implies the fairness assumed by C133.
- **C151** In prompt executions a call returns its answer in the instant the answer arrives.
- **C152** In prompt executions the connection stands in the instant the gateway's answer arrives.
- **C153** In prompt executions connection requests go out in an exact cadence of 40 s (10 s after a failed send) while nobody answers.
- **C154** In debug builds a search panics exactly on blocks whose length octet is too small; in release builds never.
- **C155** The unused first encoder of the 2-byte float is right only from 10.245 to 327.675; what it computes elsewhere.
- **C156**, **C157** Error texts (Messages.v: the decoders again, with their texts; proved equal to Core.v and Tunneling.v when the texts are dropped). Numbers in a text are read back by MsgSpec.v; each decoder is shown to be a scan of a table of fields (MessageProofs.v).
- **C158**, **C159**, **C160** Error texts of description blocks, search datagrams, L_Data messages and address texts (Messages2.v, proved equal to Core.v, Emi.v and Addresses.v when the texts are dropped; the `Debug` of a block and of a string are arbitrary functions). MsgSpec2.v lists fields with sizes, and the reasons why a text is no number.
- **C161** Error texts of the cEMI decoder (Messages2.v, proved equal to Emi.v when the texts are dropped).
- **C162** A telegram ends a waiting next_msg at once (AnswerSpec2.v, TransportAnswer2.v; monitor counterpart of C151).
- **C163** The other calls of the monitor never outlast an instant.
- **C164**, **C165** Texts of the errors of the transport calls (Messages3.v gives the text for every step of Transport.v that ends a call with an error, and none for others). CauseSpec.v says what the beginning of a text means and when that is true of a trace. The operating system's texts, the `Debug` of an error and the channel in the monitor's disconnect error are arbitrary. False of solecitate_group_read, which says "Unable to send connection state request" whatever happened.
- **C166** Texts of the errors of a search (Messages3.v, proved equal to Search.v when the texts are dropped).
- **C167** A tunnelling request is acknowledged within a second: false: refuted with a full queue (PropsAck.v; the task does nothing until a call takes a message or the heart beat is due); proved: in the instant of its arrival, on a fast machine with fewer than 100 unread messages. The second is the standard's TUNNELING_REQUEST_TIMEOUT; it appears nowhere in /repo.
- **C168** A status query tells a state received after it was asked: false: refuted with a full queue (PropsFresh.v); proved on a fast machine if before the request there was a connection and fewer than 100 messages were unread.
- **C169** connect returns a connected client: false: refuted by a read right after connect (PropsConnect.v); proved: when and with which text connect fails, that each connection was granted by a datagram that arrived before, and that until then every call that returns fails as disconnected, having sent nothing.
- **C170** A status query gets the answer to its own request: false: refuted by a query while a heart beat is under way (PropsOwn.v); proved on a fast machine if before the request everything was answered and no heart beat is sent until the query returns. OwnSpec.v counts requests and answers.
- **C171** An error of the gateway renews the connection at once: false: refuted by a status query that takes the bad state (PropsDrop.v); proved on a fast machine if no call takes the datagram and fewer than 100 messages are unread.
- **C172** A disconnected monitor is silent: false: refuted by a heart beat and an is_connected after a successful disconnect (PropsQuit.v); proved that both happen in every execution in which nothing else ends the connection.
