# Formal model of fakeyanss/jt808-server-go in Rocq (Coq 8.16.1)

## Approach

The repository is read as text; nothing is built or run. Each Go function of the
modelled core is a Gallina function with a comment naming the file and lines.

* **Results.** `res A = Ok a | Err e | Panic`. `Panic` is a Go runtime panic (index out of
  range, nil dereference, failed type assertion). Wrapped errors are identified with their
  cause, because the code only inspects them through `errors.Is`.
* **Slices.** A `[]byte` that is read is `data` plus `spare` (the bytes between `len` and
  `cap`), because Go checks `pkt[i:j]` against `cap`, not `len`. Indexing is checked
  against `len`. The Go runtime's growth policy is an oracle (`growcap`), arbitrary in the
  theorems; concrete in the examples (go1.19 size classes).
* **Bytes/words** are `N`; well-formedness (`< 256`, `< 65536`, ...) is a boolean predicate.
  Wrap-around is written explicitly wherever the code narrows (`uint16(len)`, `uint8(..)`,
  serial numbers, FNV).
* **Oracles** (fields of a record passed to the functions that need them, never axioms):
  GBK<->UTF-8 transcoding (golang.org/x/text), GB2260 region lookup, slice growth,
  out-of-range float conversion. The theorems quantify over all oracles; where a round trip of
  the GBK transcoder is needed it is a hypothesis of the theorem.
* **State.** Devices, sessions and ring buffers live in heaps (`gmap loc _`) because the code
  shares and mutates them through pointers; caches map keys to locations.
* **Goroutines.** A handler is a `prog`: a tree of atomic actions on the global state (one action
  per mutex-protected cache method, per field write through a pointer, per atomic operation).
  `run` executes it alone (sequential semantics); `psteps` interleaves any number of
  programs under an arbitrary schedule (concurrent semantics). Handlers are written once.
  Every action lists the memory it accesses, whether it writes, and which mutex is held, so that
  data races are expressible (`RaceP.v`).
* **Server.** Events (accept, frame, peer close, keepalive tick, API call, clock advance)
  act on the global state; "every history" is induction over the event list.

How the properties are proved: codec properties (C01-C35, C73) are algebraic laws proved by
induction and case analysis with `lia`; bit fields by arithmetic characterisation or by a finite
sweep lifted with `forallb_forall`; C34 uses Flocq. Stores and handlers are invariants by
induction over event histories, or pre/post conditions of `run`; schedule properties (C39, C43,
C58, C59, C63, C71, C72) are invariants over `psteps` or refutations with an explicit
schedule; C110 is a simulation between the common run and the run of each group, related by a
growing correspondence of heap locations. Where the code violates the property, a `_refuted` theorem proves the negation (usually for
every state or every input of a class, not for one witness) and a second theorem, marked
`_partial`, proves the exact part that does hold.

## Files (rocq/theories)

| file | content |
| --- | --- |
| `Base.v` | results, slices, byte helpers, the oracle record |
| `HexM.v`, `TimeM.v`, `HashM.v` | internal/codec/hex, internal/codec/hash |
| `HeaderM.v`, `ParamsM.v`, `MsgM.v`, `GeoM.v`, `FloatM.v` | internal/protocol/model: codecs |
| `PacketM.v`, `FrameM.v` | packet codec, frame handler |
| `ProgM.v` | goroutines as trees of atomic actions; schedules; accesses |
| `RingM.v` | pkg/container ring buffer, session serial numbers |
| `StateM.v` | internal/storage, the shared state, connections, gron's job list |
| `ProcM.v` | message processor, keepalive checks, segment handling |
| `ServerM.v`, `ClientM.v`, `ConcM.v` | pipeline, server, client, HTTP API, log level; histories; goroutines (`GClock` stands for the passing of time) |
| `StreamM.v` | connections of the server fed from byte streams |
| `ParamHeapM.v` | the parameter cache with objects that are changed in place |
| `LockM.v` | the same goroutines with blocking mutexes and critical sections that take time |
| `MainM.v` | logger, configuration loading, the accept loop |
| `DatagenM.v` | the simulated terminal (test/datagen, test/client) |
| `SimConcM.v` | the simulator's goroutines and their schedules |
| `SimGeoM.v` | the simulator's base locations (buildDeviceGeo, the looks of reportLocation), all terminals in one process |
| `HttpM.v` | the answers to HTTP requests |
| `ListM.v` | the device list with the records it shows |
| `JsonM.v` | the JSON body of a setting and what is bound from it |
| `RenderM.v` | the JSON values of the answers |
| `StopM.v` | the accept loop and Stop |
| `StartM.v`, `AssetM.v`, `RestoreM.v`, `RestoreFailM.v`, `LogFileM.v` | the server's main and the end of its process; the embedded files and their restoring; the log file and path.Clean |
| `SimM.v` | the simulator's main: dialling with retries, waiting for the terminals, the end of the process |
| `NetM.v` | a server process and a client process with any number of simulated terminals |
| `WireM.v` | the same with connections that carry bytes, read by Recv |
| `RestartM.v` | the simulator ends and is started again: ended connections, keepalive checks in between, new connections |
| `SpecCodec.v`, `SpecRing.v`, `SpecState.v`, `SpecConc.v` | the independent vocabulary of the statements |
| `SpecStart.v`, `SpecAsset.v` | the start and the end of the server's process (C121, C122), the embedded files (C123) |
| `SpecSim.v` | the simulated terminal's headers, draws and dialogues |
| `SpecNet.v` | the fleet of simulated terminals (C107-C109) |
| `SpecSplit.v` | groups of terminals that share nothing (C110), terminals entering at the same time (C111) |
| `SpecParamHeap.v` | parameter objects (C112) |
| `SpecWrite.v` | writes to connections (C113) |
| `SpecRelease.v` | silent devices, retained data (C56, C114) |
| `SpecSize.v` | lengths of frames (C115, C116) |
| `SpecStream.v` | the frames in a byte stream, connections fed from bytes (C117) |
| `SpecTimely.v` | messages and clock readings that do not endanger a device (C118) |
| `SpecOpen.v` | open connections, goroutines that have to do with other connections (C82) |
| `SpecAbsent.v` | goroutines that register no given phone (C58, C84) |
| `SpecProcess.v` | results of Dial and ends of connections (C119) |
| `SpecEnd.v` | executions with mutexes, rest (C120) |
| `SpecHttp.v` | answers to HTTP requests (C124) |
| `SpecTimed.v`, `SpecStop.v` | checks that come regularly (C126); what goes on after Stop (C128) |
| `SpecPace.v` | when messages arrive and are handled, pauses, failing messages (C130, C131) |
| `SpecOnTime.v` | what is read, looked at and sent in time in a run of a fleet (C132, C133) |
| `SpecWire.v` | when a frame has arrived whole, fair arrivals (C134) |
| `SpecRestart.v` | terminals the server knows nothing of or still has a device for, restarts, late checks (C135) |
| `SpecCmd.v` | parameter requests for one device and the frames they write (C136) |
| `SpecParLoop.v` | parameter requests through both processes (C138) |
| `SpecJson.v` | JSON bodies that ask for parameters, that can be bound, that make the handler panic (C140) |
| `SpecRender.v` | UTF-8, RFC 3339 times, and what it means for a JSON value to show a device or a location (C141) |
| `SpecHonest.v` | what a step touches, as opposed to what its list of accesses says (C139) |
| `SpecNumeral.v` | numbers written in decimal; the fields of the status word (C137) |
| `SpecCanon.v` | the bodies that a decoded message is encoded to again (C129) |
| `SpecGen.v` | the header a version 2019 device reads (C14), the number a phone field spells (C20) |
| `SpecTrunc.v` | which bodies have the lengths a decoder needs (C15) |
| `SpecAnswer.v` | the built-in parameter table, partial writes, accepted connections (C98-C103) |
| `SpecReg.v` | the abstract platform (three tables) the server refines (C74) |
| `SpecRetry.v` | messages that come twice (C145) |
| `*P.v` | proofs |
| `ExampleData.v`, `ExampleState.v` | concrete values for the examples |
| `RepoTests.v` | the unit tests of the repository, run on the model (tests, not proofs) |
| `Properties_*.v` | the property theorems, each `exact lemma`, with `Print Assumptions` and an `Example` |

## Trusted base

1. Coq 8.16.1's kernel, including its `vm_compute` conversion (used in examples and finite
   sweeps). No plugin, no `native_compute`, no kernel check is switched off. There is no axiom,
   `Parameter`, section-less `Variable`/`Hypothesis`, `Admitted` or functor in the development.
2. `Print Assumptions` after every property theorem reports "Closed under the global context",
   except for `C34_location`, `C34_speed`, `C34_injective` and those that mention the simulated
   terminal's floating point report (`C87_headers_partial`, `C88_reports`, `C89_near_partial`,
   `C89_refuted`, `C91_refuted`, `C93_report`, `C107_fleet`, `C108_live`, `C109_fair`, all theorems of C132 to C134, all of C135 but `C135_first_partial`,
   `C137_status_partial`, `C137_refuted`, `C139_simulator` and all theorems of C142), which list exactly the standard library's
   `ClassicalDedekindReals.sig_not_dec`, `ClassicalDedekindReals.sig_forall_dec`,
   `FunctionalExtensionality.functional_extensionality_dep` and `Classical_Prop.classic`
   (through the standard real numbers that Flocq builds on).
3. The hand transcription of the Go code into `*M.v`, which the comments make
   checkable function by function, and the statement of each theorem with the `Spec*.v`
   definitions it uses.
4. The assumptions about code outside the repository listed below.

## What is modelled, file by file

| /repo file | model | left out |
| --- | --- | --- |
| internal/codec/hex/hex.go | `HexM.v`, `TimeM.v` | time zones (a time is its civil reading) |
| internal/codec/hash/hash.go | `HashM.v` | - |
| internal/codec/gbk/gbk.go | oracle (two partial functions) | the transcoding itself |
| internal/codec/region | oracle (a lookup) | the table |
| internal/protocol/frame_handler.go | `FrameM.v` | - |
| internal/protocol/packet_codec.go | `PacketM.v`, `ProcM.v` (segments) | logging |
| internal/protocol/pipeline.go | `ServerM.v` | the reflection-free context plumbing (values passed as arguments) |
| internal/protocol/msg_processor.go | `ProcM.v` | JSON encodings for the debug log |
| internal/protocol/keepalive.go | `ProcM.v`, `StateM.v` | gron's timing: a job may fire at any time (C126: at regular times) |
| internal/protocol/model/header.go, msg.go, msg_*.go, device_media.go, device_params.go | `HeaderM.v`, `MsgM.v`, `ParamsM.v` | JSON tags other than those of DeviceParams and ParamData (`JsonM.v`) and of Device, DeviceGeo, GeoMeta, Location, Drive (`RenderM.v`) |
| internal/protocol/model/device.go, segment.go, session.go | `GeoM.v`, `FloatM.v`, `StateM.v`, `RingM.v` | TransProto (always TCP) |
| internal/protocol/model/device_args.go | `ArgsM.v` (no code uses it) | the log line |
| internal/storage/*.go | `StateM.v`, `LockM.v` (mutexes), `ParamHeapM.v` (the objects of the parameter cache) | the debug log of the session count (`GCount` is one round of that loop) |
| internal/server/tcp_server.go | `ServerM.v`, `ConcM.v`, `LockM.v` (mutex), `MainM.v` (the accept loop), `StopM.v` (Stop), `PaceM.v` (the pause after failing messages, in real time) | time taken by handling itself |
| internal/client/tcp_client.go | `ClientM.v`, `ClientPaceM.v` (the pause after failing messages, in real time) | time taken by handling itself, Dial's resolver |
| internal/api/api.go | `ServerM.v`, `HttpM.v` (the answers), `JsonM.v` (the binding of JSON bodies), `RenderM.v` (the values of the answers), `ListM.v` (the reading of the listed records) | gin's routing, the binding of other content types (the bound value is an argument), JSON text |
| internal/config | `ServerM.v`: the log level; `MainM.v`: Load; `StartM.v`, `LogFileM.v`: the rest of ParseLogConf, banner; `AssetM.v`: the lookups of embedded files; `RestoreM.v`, `RestoreFailM.v` (operations that fail): RestoreAsset(s) | viper (an argument of `load`), the contents of the embedded files |
| pkg/container/ring_buffer.go | `RingM.v` | - |
| pkg/routines/safe.go | how panics end goroutines in `ServerM.v`, `ConcM.v`; `StartM.v` (the log line that Recover writes) | - |
| pkg/logger/logger.go | `MainM.v`; `LogFileM.v`: newRollingFile, FormatLevel | lumberjack's rolling, the text of a line beyond the caller and the level |
| main.go | `StartM.v` | the texts printed besides the banner |
| test/datagen/datagen.go, test/client/main.go | `DatagenM.v` (GenDevice, GenMsg0002/0100/0200, genGeoMeta, buildDevice, register, keepalive, reportLocation, the status checker's look); `NetM.v` (dialAndSend's goroutines, once per terminal); `SimConcM.v` (their schedules, all terminals in one process); `SimGeoM.v` (the buffers of base locations); `SimM.v` (main's loop with its retries and its waiting) | regen (the generated strings are arguments), math/rand (the draws are arguments), the timing of the goroutines, flags |

## Assumptions about code outside the repository

* A mutex gives mutual exclusion. In `ConcM.v` a method body between `Lock` and `Unlock` of one mutex is
  one atomic action, which C96 justifies for the locked maps. An `atomic` operation is one action. A plain field read or write through a pointer
  is one action (what the race theorems say about such accesses does not depend on this).
  Three places of `ProcM.v`/`ServerM.v` take several fields of one record together in one action: the three strings
  an authentication stores, the two strings put into a 0x0102, and the copy of a device for an HTTP response.
* gron's `Cancel(id)` removes every entry with that job id; `Add` appends one; both go through
  gron's own goroutine one at a time. A fired job runs in a goroutine without recovery.
* `net.Conn.Write` writes everything or fails and serialises writers, so one `Send` of a frame is one action (C113).
* `bufio.Reader.ReadByte`, `net.Conn.Write` and `Close` behave as documented; on a closed
  connection every call fails with `net.ErrClosed`.
* `mapstructure.Decode` succeeds in the geo request; `ShouldBind` either binds the value or
  reports an error. gin recovers the panics of request handlers.
  The status of the first `c.JSON` is sent, later values are appended to the body; a handler that renders nothing is
  answered with 200, one that panics before it renders anything with 500 (`HttpM.v`).
* A JSON body is bound as encoding/json documents it for the two structs: names match up to case (ASCII here), unknown
  members are skipped, the last of repeated members counts (a repeated `params` would be merged element by element and is
  outside the model), a member of the wrong type is skipped and reported at the end, a null item is a nil pointer (`JsonM.v`).
* encoding/json writes structs by their tags, replaces each byte that begins no UTF-8 sequence by U+FFFD, a `time.Duration` as
  its nanoseconds and a `time.Time` in RFC 3339; mapstructure makes a map with the Go field names of a struct, in which a
  `time.Time` becomes an empty map; a `*net.TCPConn` has no exported field (`RenderM.v`).
* In `StateM.v` and everything built on it cached `DeviceParams` are stored by value. The code updates
  the cached object in place. `ParamHeapM.v` models the objects; C112 proves that the two agree as long as
  the messages of one phone are handled one at a time, and what differs when they are not.
* `time.Now` is an arbitrary clock (`EClock` may set any value), also backwards.
* `NetM.v`: a TCP connection delivers every frame written to it, in order, at any later time; each of
  the two processes handles one frame or goroutine step at a time, in any order; writes succeed;
  log.Fatal in getDevice ends the terminal's goroutine (C107 shows that it is not reached).
  `WireM.v` lets bytes arrive in pieces instead; C134 proves that the programs do the same.
  `RestartM.v`: the server reads io.EOF on any of the old connections; all of them are closed before the new process connects.
* The coordinates kept in the location buffers are the transmitted integers; the float64 values
  stored by the code determine them (C34).
* Pointers in the caches are never nil; objects are never reused after being dropped.

## Wrong programs

`seeded/LOG.jsonl` lists the edits of the model that were tried against the theorems (one object
per edit: definition, edit, claim it breaks, theorems that failed, theorems tightened). For each edit the
affected files are rebuilt in a scratch copy, proofs that no longer go through are replaced by
`Admitted`, and `Print Assumptions` tells which property theorems depend on one of them.

## Properties and theorems

| id | property | status | theorems | remarks |
| --- | --- | --- | --- | --- |
| C01 | Escaping round trip | proved | `C01_unescape_escape` |  |
| C02 | Delimiters are unambiguous | proved | `C02_frame_shape`, `C02_injective`, `C02_onto` |  |
| C03 | Frame extraction from a stream | proved | `C03_recv_frame` | For reads of at least one byte each; a Read returning 0 bytes without error would make the loop handle its last byte again (modelled). |
| C04 | In-order lossless delivery of encoded packets | proved | `C04_lossless` |  |
| C05 | Incomplete frames are never delivered | proved | `C05_frame_complete`, `C05_error_iff` |  |
| C06 | Resynchronisation after a stray delimiter | partial | `C06_refuted`, `C06_partial` | False of the code: after a prefix with an odd number of delimiters no later packet is delivered (C06_refuted, for every packet sequence). C06_partial covers even numbers. |
| C07 | Send writes everything once | proved | `C07_send`, `C07_progress` |  |
| C08 | Checksum | proved | `C08_accept_iff`, `C08_generated`, `C08_encoded_accepted`, `C08_corruption` |  |
| C09 | Reported verify code | partial | `C09_refuted` | False of the code: PacketData.VerifyCode is always the closing delimiter 0x7e (C09_refuted). |
| C10 | Packet encode/decode round trip | proved | `C10_packet`, `C10_message` |  |
| C11 | Header wire layout and round trip | proved | `C11_header` |  |
| C12 | Body attribute bit fields | proved | `C12_attr` |  |
| C13 | Body length never corrupts other flags | partial | `C13_refuted`, `C13_partial` | False from 1024 bytes on (C13_refuted: every such length); proved up to 1023 bytes (C13_partial). |
| C14 | Platform-initiated headers reach the device intact | partial | `C14_refuted_empty`, `C14_refuted`, `C14_partial`, `C14_refuted_exact` | False for version 2019 devices: C14_refuted_exact gives the header and body such a device reads, for every phone and serial and every message with a body (the phone shifted by two digits, the serial number by a byte, the body without its first byte; C14_refuted says the same in other words for serials below 2560); with an empty body it panics (C14_refuted_empty). Proved for version 2013 (C14_partial). |
| C15 | Truncated packets are not filled with foreign bytes | partial | `C15_refuted`, `C15_partial`, `C15_partial_within`, `C15_partial_8103`, `C15_partial_0104`, `C15_partial_1205`, `C15_accepted`, `C15_accepted_wire` | False: a 27-byte location report is accepted with the checksum as its last byte (C15_refuted). C15_partial: a decoder that does not run past the body depends on the body only; general replies and media queries never run past it; C15_partial_8103/_0104/_1205 say the same of the lists in those three messages. C15_accepted and C15_accepted_wire give, for every message type, version, body and buffer, exactly the bodies that are decoded. |
| C16 | No frame makes the decoder panic | partial | `C16_refuted`, `C16_partial` | False: exactly the frames with correct checksum and truncated header panic (C16_refuted); all others are decoded or rejected (C16_partial). |
| C17 | Failure containment between connections | partial | `C17_contained_partial`, `C17_refuted` | False when two connections have the same remote address (session id): the end of one unregisters the other (C17_refuted). C17_contained_partial: all other connections and all sessions with another id are untouched, whatever the inputs, panics included. |
| C18 | Hex strings | proved | `C18_hex`, `C18_decode`, `C18_roundtrip` |  |
| C19 | BCD digit strings | proved | `C19_bcd`, `C19_layout` |  |
| C20 | Distinct phone fields identify distinct devices | partial | `C20_refuted`, `C20_partial`, `C20_number_partial` | False for phone fields with a hexadecimal F nibble (C20_refuted); proved for decimal fields, also across versions (C20_partial). C20_number_partial: the phone of an accepted packet is exactly the number number_of gives for its field, so two fields are attributed to the same device exactly when they have the same number. |
| C21 | Timestamps | proved | `C21_roundtrip`, `C21_read` |  |
| C22 | General replies (0x0001/0x8001) round trip | proved | `C22_general_reply` |  |
| C23 | Registration message (0x0100) round trip | partial | `C23_registration_2019`, `C23_registration_2013`, `C23_refuted` | Proved for version 2019 and for version 2013 with a non-empty plate. C23_refuted: with an empty plate a version 2013 registration is decoded with a part of the model as terminal id. |
| C24 | Authentication message (0x0102) round trip | proved | `C24_auth_2019`, `C24_auth_2013` |  |
| C25 | Registration reply (0x8100) round trip | proved | `C25_reg_reply` |  |
| C26 | Location report (0x0200) round trip | proved | `C26_location`, `C26_extra_items` |  |
| C27 | Media query/list (0x9205/0x1205) round trip | proved | `C27_media` |  |
| C28 | Server time reply (0x8004) round trip | proved | `C28_time` |  |
| C29 | Terminal parameter lists round trip | proved | `C29_params`, `C29_messages` |  |
| C30 | Unknown parameter ids are skipped | partial | `C30_refuted`, `C30_partial` | False: an unknown id makes the decoder panic (C30_refuted); the encoder skips it (C30_partial). |
| C31 | Un-encodable text does not destroy the message | partial | `C31_refuted`, `C31_partial` | False for the plate of a registration, whose body becomes empty without error (C31_refuted); a parameter text only loses its own value (C31_partial). |
| C32 | Status bits decode | proved | `C32_status` |  |
| C33 | Status bits round trip | partial | `C33_refuted`, `C33_partial` | False: bits 2 and 3 are exchanged (C33_refuted, exact for every word); holds when they agree (C33_partial). |
| C34 | Coordinates keep their precision | proved | `C34_location`, `C34_speed`, `C34_injective` | Flocq binary64; assumptions are the standard library's classical reals (listed in DESIGN.md). |
| C35 | Parameter update | proved | `C35_update` |  |
| C36 | Set then query terminal parameters | partial | `C36_set_query_partial`, `C36_sets_query_partial`, `C36_refuted` | False for a parameter that the stored table does not have: it is acknowledged and dropped (C36_refuted). The partial theorems give the exact answer of a query after any series of sets. |
| C37 | Latest location | partial | `C37_latest_partial`, `C37_refuted` | False whenever the number of writes is a positive multiple of the size: Latest is nil (C37_refuted, every size and contents). C37_latest_partial gives the exact result of Latest in every reachable state. |
| C38 | Ring buffer window | proved | `C38_window` |  |
| C39 | Ring buffer never goes out of bounds | partial | `C39_bounds_partial`, `C39_latest_partial`, `C39_refuted` | False for Latest: it checks Writer and loads it again, a concurrent Write wrapping to 0 in between makes it index Container[-1] (C39_refuted, every size >= 2). C39_bounds_partial: any number of goroutines calling Write, Read, Oldest and Overwrite never go out of bounds. C39_latest_partial: nor does Latest, in any execution in which Writer does not come back to 0. |
| C40 | Overwrite replaces the latest value | partial | `C40_refuted` | False in every state: Overwrite never changes what Latest returns, it replaces what Oldest returns (C40_refuted). |
| C41 | Device indexes agree | proved | `C41_indexes_agree`, `C41_invariant` |  |
| C42 | Registration decision | proved | `C42_registration` |  |
| C43 | Registration uniqueness under concurrency | partial | `C43_refuted`, `C43_one_at_a_time_partial`, `C43_held_partial` | False: from every consistent state there is a schedule in which both are accepted (C43_refuted). C43_one_at_a_time_partial: handled one after the other the second is refused. C43_held_partial: while a device heard less than a keepalive interval ago has the plate, a registration of it is refused under every schedule of goroutines that do not endanger that device. |
| C44 | Authentication decision | proved | `C44_authentication` |  |
| C45 | Register-authenticate handshake | proved | `C45_handshake_2019`, `C45_handshake_2013` |  |
| C46 | Auth codes separate devices | partial | `C46_codes_partial`, `C46_refuted`, `C46_refuted_separator`, `C46_both_registered_partial` | False: two devices with the same code exist (C46_refuted: FNV-1a collision; C46_refuted_separator: ids and plates with '_') and both can be registered. C46_codes_partial: the codes are equal exactly when the hashes are. |
| C47 | Only authenticated devices become online | partial | `C47_status_change_partial`, `C47_refuted` | False: a successful general reply 0x8001 sent by the device, and a location with ACC off, also take it out of Offline without authentication (C47_refuted). C47_status_change_partial: nothing else does. |
| C48 | Heartbeat | proved | `C48_heartbeat`, `C48_unknown` |  |
| C49 | Logout | proved | `C49_logout`, `C49_register_again` |  |
| C50 | Location report effect | proved | `C50_location` |  |
| C51 | Reply correlation | proved | `C51_reply`, `C51_fragment_reply` |  |
| C52 | At most one reply, on the same connection | proved | `C52_one_reply`, `C52_replies` |  |
| C53 | Unsupported message ids are ignored | proved | `C53_ignored` |  |
| C54 | Device isolation | proved | `C54_isolation` |  |
| C55 | Keepalive never evicts a fresh device | proved | `C55_fresh_kept`, `C55_fresh_nothing` |  |
| C56 | Silent devices are cleaned up | proved | `C56_history`, `C56_eventually`, `C56_silent` |  |
| C57 | Keepalive jobs match devices | proved | `C57_jobs` |  |
| C58 | No ghost devices | partial | `C58_refuted`, `C58_history_partial`, `C58_schedule_partial` | False under concurrency: a heartbeat in flight stores the device again after the logout (C58_refuted, from every consistent state). C58_history_partial: when messages are handled one at a time, only a registration makes a phone known. C58_schedule_partial: under every schedule, a phone that is not registered stays so whatever it sends except registrations (no other goroutine is in flight for it at the start). |
| C59 | Keepalive check of a vanished device is harmless | partial | `C59_refuted_schedule`, `C59_held_partial`, `C59_refuted`, `C59_alive_partial` | False: such a check panics in a goroutine nobody recovers (C59_refuted, every state); C59_refuted_schedule: reachable from every consistent state. C59_alive_partial: when things happen one at a time this never comes up. C59_held_partial: under every schedule the checks of a device heard less than a keepalive interval ago come to their end. |
| C60 | Fragment reassembly | partial | `C60_refuted`, `C60_refuted_last`, `C60_cache_partial`, `C60_refuted_mixed` | False: the first fragment of a message panics in the cache and closes the connection (C60_refuted); the last one is processed with its own body, not the merged one (C60_refuted_last); ids in the surrogate range share one cache entry (C60_refuted_mixed). C60_cache_partial: otherwise the cache itself concatenates each message's own fragments in order of arrival, under any interleaving of messages. |
| C61 | Session registry | partial | `C61_registry_partial`, `C61_looked_up_partial`, `C61_accepted_partial`, `C61_gone_partial`, `C61_refuted` | False when a remote address is accepted again while the earlier connection is still served (C61_refuted). The partial theorems cover histories in which addresses in use are distinct, and the effects of accept and close in any history. |
| C62 | Serial numbers cycle | proved | `C62_serials` |  |
| C63 | Serial numbers under concurrency | partial | `C63_distinct_partial`, `C63_refuted`, `C63_wrap_partial`, `C63_refuted_each` | False around the wrap: two concurrent callers can both get 0 (C63_refuted). C63_distinct_partial: distinct as long as the counter does not pass 65535. C63_wrap_partial: when k numbers are taken past it, only numbers below k can be given twice, under every schedule; C63_refuted_each: each of them from 1 on is, in some schedule. |
| C64 | Commands follow a reconnect | partial | `C64_refuted`, `C64_get_params_partial`, `C64_history_partial` | False: no command reaches the new connection unless it has the address the device registered from (C64_refuted, every state). C64_get_params_partial: it goes to the session registered under that address. C64_history_partial: in every history, while the connection a device registered on is open, commands are written to it. |
| C65 | Parameter commands over HTTP | partial | `C65_unknown_partial`, `C65_get_partial`, `C65_put_partial`, `C65_refuted`, `C65_refuted_session` | Refused and sent as stated when the session is registered and the parameters can be encoded; otherwise the request panics (C65_refuted: value of another type than the id's; C65_refuted_session: session gone), after which gin sends what C124 says. C64_history_partial says when the session is registered. |
| C66 | Server time query is answered | partial | `C66_refuted` | False: there is no table entry for 0x0004; the query is dropped (C66_refuted, every state and query). |
| C67 | Error policy | proved | `C67_server`, `C67_client` | A panic in a handler also ends the connection (server) or the loop (client). |
| C68 | Replies are decodable and keep the device's identity | proved | `C68_decodable`, `C68_short` |  |
| C69 | Location history is private to a registration | partial | `C69_refuted`, `C69_cleared_partial` | False: logout keeps the location buffer and the next registration of the phone reports it (C69_refuted, every state). C69_cleared_partial: the keepalive check that clears a device removes it. |
| C70 | Log level configuration | partial | `C70_levels_partial`, `C70_others_partial`, `C70_refuted` | False for FATAL, which the code spells 'FATAl': it selects debug (C70_refuted). All other names as stated; every other string selects debug. |
| C71 | Data-race freedom of the device index | partial | `C71_refuted`, `C71_refuted_count`, `C71_guarded_partial`, `C71_refuted_records`, `C71_records_partial`, `C71_requests_partial`, `C71_lookups_partial`, `C71_refuted_requests` | False: ListDevice reads the map without the mutex (C71_refuted, from every state), and so does countSession against a new connection (C71_refuted_count); C71_refuted_records: device records are written and read without any. C71_guarded_partial: without these two readers, no schedule has a race on anything a mutex protects. C71_records_partial: two goroutines that act for different phones (a connection acts for the phones of the frames it receives) have no race on device records or location buffers, in any schedule from a state in which index entries lead to objects with that key and buffers are not shared, which all histories give (C94_histories). Missing: goroutines of the same phone, for which it is false. C71_requests_partial: HTTP requests of all four kinds race with each other on nothing but serial numbers, in any state and schedule, and on those two queries do race when the counter is at its end (C71_refuted_requests); C71_lookups_partial: list and location requests and the session counter do not race with each other at all. C139 shows that the accounts of the steps, which races are defined by, say all that the steps touch. |
| C72 | Well-keyed indexes under every interleaving | proved | `C72_all_schedules`, `C72_histories` | Goroutines excluded from the no-panic part: keepalive checks (C59), parameter commands (C65), fragments (C60) and messages whose decoding panics. |
| C73 | Documented wire layout | proved | `C73_layout` |  |
| C74 | The server refines a plain data machine | proved | `C74_data`, `C74_answer` |  |
| C75 | Device list request | proved | `C75_list` |  |
| C76 | Latest location request | partial | `C76_geo_partial`, `C76_refuted` | False whenever the number of reports is a positive multiple of 100: the answer is empty (C76_refuted). C76_geo_partial: the exact answer after every history. |
| C77 | A registration is immutable | proved | `C77_identity` |  |
| C78 | Every message keeps a device alive | partial | `C78_refreshed_partial`, `C78_refuted` | False: a location report with ACC on refreshes nothing, and the next check due turns the reporting device offline (C78_refuted). C78_refreshed_partial: exactly which messages refresh the time. |
| C79 | Turning offline closes the connection | partial | `C79_partial`, `C79_refuted` | False: the check that turns a device offline leaves every connection as it is (C79_refuted, every state). A check closes a connection exactly when it removes the device (C79_partial, every state). |
| C80 | Offline devices are kept three keepalive times | partial | `C80_partial`, `C80_refuted` | False: the next check removes the device and its locations, however soon it comes (C80_refuted). A check removes only a device it finds offline and silent for longer than one interval; otherwise record, locations and job stay (C80_partial). How long it stays if the checks come once per interval: C126. |
| C81 | A connection acts for its own device only | partial | `C81_refuted`, `C81_refuted_any` | False: any connection can log out any device (C81_refuted); apart from registrations the connection plays no role at all (C81_refuted_any). |
| C82 | Clearing a device leaves the others connected | partial | `C82_partial`, `C82_refuted` | False: the connection of the cleared device is closed although another device is on it (C82_refuted). Its record is untouched (C54, C56). Under every schedule a connection stays open while no goroutine serves it, no check is of a device registered over it and no Send reports it closed (C82_partial). |
| C83 | Stored records are well formed | proved | `C83_records` |  |
| C84 | Only authenticated devices report locations | partial | `C84_schedule_partial`, `C84_partial`, `C84_refuted` | False: registration suffices (C84_refuted, every history). Nothing is stored for a phone that is not registered (C84_partial, every history). C84_schedule_partial: the same under every schedule, registrations of the phone excluded. |
| C85 | A device heard again comes back online | partial | `C85_refuted`, `C85_partial` | False: heartbeats and location reports with ACC on leave the status as it is (C85_refuted); a device becomes online only by a successful authentication or, when offline, by a 0x8001 success (C85_partial). |
| C86 | A device that keeps beating stays registered | proved | `C86_stays`, `C86_removed` |  |
| C87 | Simulated terminals send well-formed headers | partial | `C87_headers_partial`, `C87_refuted` | Proved for the versions 2019, 2013 and 2011 and phones that fit. False for other version strings: an unpadded phone of 11 digits is sent in 5 bytes and read as another phone (C87_refuted). |
| C88 | Simulated reports are in range and arrive unchanged | proved | `C88_reports` |  |
| C89 | Simulated reports are near the configured position | partial | `C89_near_partial`, `C89_refuted` | Proved for positions away from the ends of the ranges (latitude and longitude at least 1 degree, altitude 5..4995, speed 10..290). False near zero: where conversions of negative numbers wrap around the report is at 90 degrees, 180 degrees, 1000 m, 100 km/h (C89_refuted). |
| C90 | A simulated terminal comes online | proved | `C90_online_2019`, `C90_online_2013` |  |
| C91 | Simulated messages have distinct serial numbers | partial | `C91_refuted` | False: the serial number is the constant 1 (C91_refuted). |
| C92 | A refused registration does no harm | partial | `C92_refuted_2019`, `C92_refuted_2013`, `C92_refusal_partial` | False: the client ignores the result of 0x8100 and authenticates with the text of the refusal, and the server removes the registered device (C92_refuted_2019, C92_refuted_2013). The refusal itself changes nothing (C92_refusal_partial). |
| C93 | Traffic of simulated terminals is recorded | proved | `C93_heartbeat`, `C93_report`, `C93_heartbeats` |  |
| C94 | Devices are isolated under every interleaving | proved | `C94_isolation`, `C94_buffers`, `C94_histories` |  |
| C95 | Handlers of different devices do not interfere | proved | `C95_messages`, `C95_checks`, `C95_locations`, `C95_registrations`, `C95_spare` |  |
| C96 | Critical sections are atomic | proved | `C96_atomic_sections`, `C96_between_sections` | For every goroutine except the two that read a map without its mutex (ListDevice, countSession; see C71). |
| C97 | No deadlock | proved | `C97_no_deadlock` |  |
| C98 | Media queries are answered | partial | `C98_answer_partial`, `C98_refuted` | Proved for queries with valid times. False for a query without time range (zeros): it is answered with the current time of the answering side (C98_refuted). |
| C99 | A terminal without parameters reports the built-in ones | partial | `C99_defaults_partial`, `C99_refuted` | Proved for 38 of the 39 entries. False for 0x76: it announces 35 bytes where 15 are left, and 20 characters of the hexadecimal program text become part of the value (C99_refuted). |
| C100 | Sending to a session | proved | `C100_send`, `C100_nobody`, `C100_unencodable` |  |
| C101 | A logout invalidates the auth code | partial | `C101_partial`, `C101_refuted` | False: the code is a function of id, plate and phone, so the old code is given again (C101_refuted). C101_partial: an old code is accepted exactly if its 32-bit hash is that of the present registration, and while the phone is not registered it is not accepted. |
| C102 | A successful authentication protects the device | partial | `C102_refuted`, `C102_partial` | False: a check that has read the offline status before the authentication removes the device and closes its connection after it (C102_refuted). Checks and other goroutines that begin after the authentication, within the keepalive interval, do not remove it under any schedule (C102_partial). |
| C103 | Every accepted connection is served | proved | `C103_accept_loop` |  |
| C104 | Log lines reach each enabled output once | partial | `C104_lines_partial`, `C104_refuted` | Proved when the log directory can be created. Otherwise the file writer is nil and the first line at the level panics, already in Configure at level Info or below (C104_refuted). |
| C105 | The caller in a log line is the bare file name | partial | `C105_caller_partial`, `C105_refuted` | Proved except for a file directly under the root, which keeps its slash (C105_refuted). |
| C106 | Load returns the configuration of its path | partial | `C106_first_partial`, `C106_refuted` | Proved for the first call. Later calls ignore their path, and after a first call that panicked they return the empty configuration without any error (C106_refuted). |
| C107 | A fleet comes online and reports | proved | `C107_fleet` | For configurations whose strings fit the fields of their protocol version, frames read one at a time by each process, and successful writes. |
| C108 | A terminal of a fleet can always come online | proved | `C108_live` | Under the assumptions of C107. |
| C109 | Fair runs bring a fleet online | proved | `C109_fair` | Under the assumptions of C107. |
| C110 | Terminals that share nothing do not influence each other | proved | `C110_groups`, `C110_parted`, `C110_one`, `C110_schedules`, `C110_connection`, `C110_in_turn` | C110_groups compares with the run of the group's goroutines in the same order (time passes for both); C110_one, C110_schedules, C110_connection and C110_in_turn are for a goroutine whose group contains nothing else, while no time passes. Shared phones, plates, addresses or connections are where interference is possible (C43, C58, C59). |
| C111 | Terminals that come at the same time all come online | proved | `C111_entrants` | No time passes while the terminals enter (frames handled later are the business of C42 and C44); every write succeeds. |
| C112 | Parameter settings at the same time | partial | `C112_refuted_lost`, `C112_refuted_first`, `C112_refuted_count`, `C112_refuted_races`, `C112_races_partial`, `C112_set_alone_partial`, `C112_query_alone_partial`, `C112_provenance_partial`, `C112_counts_partial` | False: the cached object is changed in place without a lock. Of two settings at the same time one can be lost (C112_refuted_lost, C112_refuted_first), a query during a setting can announce more parameters than it lists when the stored list has one twice (C112_refuted_count), and both fields race (C112_refuted_races). Proved instead: one message at a time the objects behave like the values of the other files (C112_set_alone_partial, C112_query_alone_partial); under every schedule no handler fails and answers contain only parameters stored or set for that phone (C112_provenance_partial); without repeated parameters the counts are right (C112_counts_partial). |
| C113 | What connections receive | proved | `C113_log`, `C113_whole`, `C113_read` | C113_log: the writes under every schedule; C113_whole and C113_read: whole frames and what the other side reads, when no write fails (C113_cut_ex shows what a write that fails half way does). One Send of a frame is one atomic write on the connection: net.Conn serialises writers and writes everything or fails. |
| C114 | Stored data is released | partial | `C114_refuted`, `C114_refuted_history`, `C114_bounded_partial` | False: stored parameters and the segments of an incomplete transfer are never removed, by no event and under no schedule (C114_refuted, C114_refuted_history; DelDeviceParamsByPhone is never called). C114_bounded_partial: after every history there are as many plate entries and keepalive jobs as devices, at most as many session ids as connections being served, and 100 location slots for a phone; together with C56_history and C50 devices themselves are released. |
| C115 | Frames fit MaxFrameLen | partial | `C115_length`, `C115_fits_partial`, `C115_refuted`, `C115_refuted_received` | False for fragments of version 2019 headers, whose escaped header may need 8 bytes more (C115_refuted), and for received frames, which Recv collects without limit (C115_refuted_received). C115_length is the exact length of an encoded frame; C115_fits_partial: frames of unfragmented messages fit, for ids without 0x7e and 0x7d bytes (all ids of the protocol). |
| C116 | The announced body length is the body's length | partial | `C116_refuted`, `C116_partial` | False: the announced length is never compared with the body (C116_refuted holds for any header, whatever length it announces). C116_partial: what the program sends announces its length. |
| C117 | How the bytes are split does not matter | proved | `C117_split`, `C117_frames`, `C117_unique`, `C117_packets` |  |
| C118 | A recently heard device survives | proved | `C118_survives` |  |
| C119 | A terminal that cannot connect leaves the others running | partial | `C119_refuted`, `C119_exit_partial`, `C119_done_partial`, `C119_status_partial`, `C119_negative_partial` | False: seven failed calls of Dial in a row for one terminal end the whole process with status 1, whatever the other terminals do (C119_refuted). That is the only way to end with an error (C119_exit_partial); otherwise the process ends, with status 0, exactly when every terminal has connected and stopped (C119_done_partial, C119_status_partial). |
| C120 | Every goroutine comes to its end | proved | `C120_no_endless`, `C120_rest_iff` |  |
| C121 | The server comes up or ends cleanly | proved | `C121_up_iff`, `C121_up_state`, `C121_over` |  |
| C122 | A serving process goes on | partial | `C122_up_iff_partial`, `C122_over`, `C122_refuted` | False: a panicking keepalive check (C59) and an HTTP port that cannot be bound end the process (statuses 2 and 1), although TCP connections are being served; when the log directory cannot be made and the level is WARN or ERROR, the process starts and its first logged error or recovered panic ends it, because Recover itself logs (C122_refuted). C122_up_iff_partial: these are exactly the events that end it; C122_over gives the status. |
| C123 | Embedded files are found under their paths | proved | `C123_found`, `C123_dir`, `C123_nodir`, `C123_file_nodir`, `C123_names` |  |
| C124 | HTTP requests get one answer | partial | `C124_answers_partial`, `C124_one_value_partial`, `C124_refuted` | False: a setting whose body could not be bound is answered with 400 and sent all the same, commands that are sent are answered without a value, and a setting that is wrong in two ways gets two values (C124_refuted). C124_answers_partial: the exact answer to every request; C124_one_value_partial: exactly which requests get one value. What gin sends for several calls of c.JSON and for a panic is an assumption (DESIGN.md). |
| C125 | The device list gives away no codes | partial | `C125_refuted`, `C125_refuted_shown` | False: id, plate and phone, which the list shows, determine the code, and it is accepted on any connection (C125_refuted); of an authenticated device the list shows the code itself (C125_refuted_shown). |
| C126 | How long silent devices stay | proved | `C126_timed`, `C126_minute` | C126_minute; C126_timed for checks that come between lo and hi apart. That gron fires the job once per interval is the hypothesis `spaced`. The example shows that the bounds are reached. |
| C127 | A terminal that stops closes its connection | partial | `C127_refuted`, `C127_stop_partial` | False: the connection is open however the reading has ended and the other goroutines of the terminal go on sending (C127_refuted). C127_stop_partial: Stop, which nothing calls in these cases, does what is claimed. |
| C128 | Stop shuts the server down | partial | `C128_accepts_partial`, `C128_refuted` | No connection is accepted any more (C128_accepts_partial). The connections stay and are served as if Stop had not been called, and the loop goes on and logs an error in every round (C128_refuted). Nothing in the repository calls Stop. |
| C129 | Decoded messages are encoded again to the bytes they came in | partial | `C129_refuted`, `C129_partial`, `C129_8103_partial`, `C129_0104_partial` | False, e.g. for every location report with additional items (C129_refuted). C129_partial, C129_8103_partial, C129_0104_partial: the frame comes out again exactly when its body is canonical (nothing behind the fields, times that are times, BCD without half bytes of 15, texts that GBK gives back, no short 2013 registration, length bytes that are those of the values). They assume of the GBK library that twelve zero bytes survive (registrations) and that a text of under 256 bytes is not read and written to one of 256 or more (parameters). |
| C130 | Heartbeats that arrive in time keep a device online | partial | `C130_refuted`, `C130_partial` | False: messages with ids the server does not know (such as 0x0704, which many terminals send) are answered with an error and a pause of one second each (tcp_server.go:106), so heartbeats behind a backlog of them are handled too late and the device is removed although its heartbeats arrive every second (C130_refuted, for every continuation; C130_ex). C130_partial: if the pauses never let a message wait longer than K and for every check a heartbeat arrived in the minute before it and more than K before it, the device stays online. Handling a message is taken to need no time. |
| C131 | Failing messages slow down their own connection only | proved | `C131_same`, `C131_history`, `C131_pause`, `C131_order`, `C131_rate`, `C131_prompt` |  |
| C132 | A fleet whose messages are read in time stays online | proved | `C132_punctual`, `C132_online`, `C132_sharp` | Time is the server's clock; on_time (SpecOnTime.v) says what is read, looked at and sent in time. With the simulator's defaults (a look every second, a heartbeat every 20 s) frames may take 19.5 s. C132_sharp: the bound is exact, for D up to S and P. |
| C133 | How soon a fleet comes online and its reports arrive | proved | `C133_soon`, `C133_reports` |  |
| C134 | A fleet over connections that cut up the bytes | proved | `C134_frames`, `C134_fleet`, `C134_fair` | C134_frames needs nothing of the fleet but that nothing was written or read before. Writes succeed and a connection that is closed delivers no end of stream (it never happens in the runs of C134_fleet and C134_fair). |
| C135 | A simulator that is started again comes online again | partial | `C135_refuted`, `C135_run_partial`, `C135_live_partial`, `C135_restart_partial`, `C135_first_partial` | False: C135_refuted. The server keeps the device of an ended connection, so a terminal that was online when the simulator ended is refused (result 1 or 3), authenticates with the code field of the refusal, and the failed authentication removes the device: it never gets past its status check in that process, and the next restart works. With the number and plate of test/client/configs/default.yaml every second run of the simulator fails like this. Only two keepalive checks after the device's time is up, before the simulator is started again, avoid it. C135_run_partial and C135_live_partial say what happens to each terminal in every run, C135_restart_partial that they apply again after every restart. All ended connections are closed before the new ones are accepted; keepalive checks of a device that is already late, while the new process runs, are excluded (all_punctual). |
| C136 | Commands carry serial numbers in the order they are sent | partial | `C136_turn_partial`, `C136_any_partial`, `C136_every_partial`, `C136_refuted` | The order is false for requests at the same time (C136_refuted): GetNextSerialNum and Send are separate steps, and C136_every_partial shows that every assignment of the next numbers and every order of the frames comes about under some schedule. True: one frame per request with a number of its own (C136_any_partial, every schedule, while the numbers do not pass 65535), and the order for requests one after another, also past 65535 (C136_turn_partial). Writes succeed and the parameters can be encoded; see C65 for the others. |
| C137 | The simulator sends the numbers it is configured with | partial | `C137_atoi_partial`, `C137_registration_partial`, `C137_status_partial`, `C137_refuted`, `C137_refuted_large` | False: GeoMeta.Encode exchanges the kinds of latitude and longitude (C137_refuted, see C33), and numbers beyond the field are cut to its bits (C137_refuted_large). True: what strconv.Atoi makes of every string (C137_atoi_partial), and every number that fits its field is sent as it is (C137_registration_partial, C137_status_partial). The strings regen generates are arguments. Position and speed are C88 and C89. |
| C138 | A parameter request over HTTP reaches the terminal and its answer the requester | partial | `C138_partial`, `C138_refuted`, `C138_refuted_query`, `C138_refuted_set` | False for the requester: the server decodes the table the terminal sends and drops it, so it ends in the same state whatever the terminal has (C138_refuted). False for terminals of version 2019, where the header is written wrongly (C14): a query makes the terminal panic (C138_refuted_query) and a setting is acknowledged without any effect (C138_refuted_set). True for the others, for every series of requests (C138_partial): one frame each with the next serial number, the terminal ends with the table the settings give it (a setting changes only parameters already in the table unless the table is empty, C36) and answers with that table. The tables fit a message, writes succeed, and one request is over before the next; for requests at the same time see C136. |
| C139 | Steps use only the shared memory they are accounted for | proved | `C139_steps`, `C139_apart`, `C139_params`, `C139_params_apart`, `C139_records`, `C139_simulator` | C139_steps: for every schedule of all goroutines of the server, including the two readers of C71 that take no lock; the connections (net.Conn), which synchronise themselves, and the clock are not counted as memory. C139_apart: without those two readers, on everything a mutex guards. C139_params, C139_params_apart: the same for the parameter objects of C112. C139_ex_wrong shows steps with a wrong account that the definition rejects. Which lock a call takes is read off the Go code. C139_records: by C71_records_partial, on the device records and location buffers too, for goroutines acting for different phones. C139_simulator: the steps of the simulator's goroutines. |
| C140 | A setting sent as JSON is what the terminal is told | partial | `C140_partial`, `C140_refuted`, `C140_kills_refuted`, `C140_lost_refuted`, `C140_answers_partial` | Proved for bodies whose paramCnt is the number of their items and whose items have known ids and values of the right kind, for devices that are not of version 2019 (cf. C138); whatever the order and case of the members and whatever other members there are. Refuted otherwise: the number in the body is believed, so a body without paramCnt is answered with 200 and sets nothing, and one with a greater paramCnt than it has known parameters (an unknown one is left out but counted) is answered with 200 and makes the terminal panic, which ends the simulator (C140_kills_refuted); one null item or value of the wrong kind makes the handler panic (500); a body that is not JSON is answered with 400 but a setting of no parameters is sent. The binding is encoding/json's for these two types, transcribed in JsonM.v; JSON text, other content types, non-ASCII case folding and a repeated 'params' member are not modelled, and integers below 2^53 are assumed to be read exactly (a hypothesis of the theorems). |
| C141 | The HTTP answers show what is stored | partial | `C141_list_partial`, `C141_geo_partial`, `C141_text_partial`, `C141_refuted`, `C141_times_refuted` | Proved: the list has every device once with each field under its name (texts that are UTF-8 as stored, numbers in decimal); the location request shows the device and its last location. Refuted: a text that is not UTF-8 (a device id may be any bytes, e.g. GBK) is shown with U+FFFD in the place of its bytes; mapstructure turns the time of the last message into an empty object under the Go field name; a location's time, which terminals report in GMT+8 (msg_0200.go:17), is parsed without a zone and shown as UTC, so it is off by eight hours. The values are what encoding/json and mapstructure 1.5 make of these types, transcribed in RenderM.v from their documented behaviour; the text of a float and of the last communication time are arguments; a report time that could not be parsed (time.Now in the code) is shown with the local zone, which is not modelled. |
| C142 | The simulator's goroutines share memory without data races | partial | `C142_refuted`, `C142_guarded_partial`, `C142_terminals_partial`, `C142_pairs_partial`, `C142_sane_partial`, `C142_begins` | False: C142_refuted: from every state with a terminal that is still offline, the status checker's read of the status races with the receiving goroutine's write when the platform's first general reply with result 0 arrives. C142_guarded_partial: no schedule has a race on the maps of the caches, the connections or the timer. C142_terminals_partial: goroutines of different phones do not race on records. C142_pairs_partial: the goroutines that build and register the terminal, send heartbeats and report locations take part in no race on a record, and two status checkers do not race. C142_sane_partial: index entries lead to objects with that key in every schedule. buildDeviceGeo, whose buffer is written before the goroutines that read it start, is not among the steps; the waiting of the two sending goroutines for the status checker is left out, so more schedules are covered than occur. The serial numbers of the sessions are not counted, as in C71. C139_simulator: the accounts of the steps say all that they touch. |
| C143 | A simulated terminal reports around its own location | partial | `C143_own_partial`, `C143_refuted`, `C143_refuted_panics` | False for terminals that share a phone, as with the phoneReg of the default configuration and a concurrency above 1: C143_refuted: in some schedule all report the location of the one that started last, and none when their number is a multiple of 100; C143_refuted_panics: with that number, in some schedule the goroutine that reports panics. C143_own_partial: with different phones, in every schedule of a new process, every round reports, from the terminal's own base location. The location is any value; DatagenM.v's reportLocation takes it as an argument, which this justifies. Left out: messages from the platform that would touch the buffers (a 0x0200, which a platform does not send). |
| C144 | A reply is generated only for the message it answers | partial | `C144_wrong_partial`, `C144_refuted`, `C144_right`, `C144_content`, `C144_none`, `C144_reached` | False for 0x8004: C144_refuted: it panics for every message other than a 0x0004 (unchecked type assertion). C144_wrong_partial: the others return the error. The rest holds: C144_right, C144_content (what the reply acknowledges and carries), C144_none, and C144_reached (no entry of the processor's table reaches the error or the panic; 0x8004 is in no entry). |
| C145 | A message that is received twice counts once | partial | `C145_data_partial`, `C145_answer_partial`, `C145_refuted_registration`, `C145_refuted_logout`, `C145_refuted_location`, `C145_refuted_setting`, `C145_serials_partial` | False: an accepted registration is refused when it comes again, with result 1 and a text that is not the code (C145_refuted_registration; C92 shows what terminals that believe it do); a repeated logout is not acknowledged and closes the connection (C145_refuted_logout); a repeated location is stored again (C145_refuted_location); the first setting for a phone is stored as sent and sorted when it is repeated (C145_refuted_setting). C145_serials_partial: the serial number plays no role for what a message does, so repetitions cannot be recognised. True: all other messages change nothing the second time, on whatever connection (C145_data_partial), and get the same answer when the first copy did not change whether the phone is registered (C145_answer_partial). Messages in one frame; the second copy comes next, at the same time. |
| C146 | The log file lies where the configuration says | proved | `C146_clean`, `C146_place`, `C146_limits`, `C146_in`, `C146_below`, `C146_outside`, `C146_column`, `C146_levels` |  |
| C147 | Restoring writes exactly the embedded files asked for | partial | `C147_restored_partial`, `C147_unknown`, `C147_refuted`, `C147_directories`, `C147_files_partial`, `C147_unknown_any`, `C147_faults_partial`, `C147_faults_any`, `C147_faults_unknown`, `C147_no_faults` | C147_restored_partial: true for names written with slashes. False for names with a backslash, which Asset and AssetInfo accept: RestoreAsset takes filepath.Dir of the name as given, so on systems whose separator is the slash it does not make the directory and the write fails where there is none yet (C147_refuted). C147_directories: directories may be named with either kind of slash. C147_files_partial: a file is restored exactly when the last slash of its name is no backslash or its directory is already there. C147_faults_partial: when operations of the system fail, whichever and whatever they leave, it succeeds exactly when none does, and stops at the first that does, with all files but one copied or as before; C147_faults_any: for names with any slashes, nothing else is changed, and without an error all is copied; C147_no_faults: without them it is the same model. The functions are generated and not called by the server. |
| C148 | The time of last communication is never in the future and never goes back | partial | `C148_never_later`, `C148_never_back`, `C148_together_partial`, `C148_one_partial`, `C148_since_partial`, `C148_phone_partial`, `C148_refuted` | C148_never_later and C148_never_back: true for one event at a time, over all histories. C148_together_partial: never in the future under every schedule. C148_one_partial: a device record's time does not go back under any schedule in which at most one goroutine handles the messages of its phone, whatever else runs. C148_refuted: otherwise it can: the handler of a heartbeat reads the clock, a later heartbeat of the same phone is handled completely by another goroutine, then the first handler writes its earlier time. C148_since_partial: how far: under every schedule, never before the time the record had when the goroutines began. C148_phone_partial: the same of the device the phone leads to, which may be another record. |
| C149 | A location request is answered with a location reported for that phone | partial | `C149_reported_partial`, `C149_refuted`, `C149_answered_partial` | Proved in every schedule: an answer carries a location that was in the phone's buffer at the beginning or the values of a report of this phone by one of the goroutines. When none of the goroutines beside it handles a report of this phone, the request is answered with no device, no location or the location reported last (C149_answered_partial). Refuted that there always is an answer: Latest (ring_buffer.go:53-58) compares Writer with 0 and then loads it again, and if the 100th, 200th, ... report is stored in between, the second load gives 0 and the index is -1 % 100 = -1, so the request panics (gin's Recovery then answers 500); C149_refuted gives such a schedule for every history after which 99, 199, ... reports are stored. The empty answer after 100, 200, ... reports is C76. |
| C150 | The device list is that of one moment | partial | `C150_moment_partial`, `C150_refuted` | Proved in every schedule: the request is answered, and its entries are those of the devices registered at one moment of the request, each once, with their ids, plates, phones, sessions, connections, keepalive times and versions. Refuted for the rest of the record: the list holds pointers, so statuses and times are those of when each record is read, and a list can show a combination that there never was (C150_refuted). In the model the unlocked copying of the map's values is one step and so is the reading of one record; that the copying races with the handlers is C71_refuted. |
| C151 | Every registered device has one keepalive job, however its messages interleave | partial | `C151_messages_partial`, `C151_registrations_partial`, `C151_checks_partial`, `C151_consistent`, `C151_refuted_orphan`, `C151_refuted_twice`, `C151_refuted_forgotten`, `C151_round` | Proved in every consistent state, and in every schedule of a message, a registration or a check of the phone among goroutines acting for other phones, while no time passes. Refuted among goroutines acting for the same phone, i.e. two connections using one phone number: a logout between the look-up and the adding of the job in Register leaves a job without a device, whose next check panics outside any recover (C151_refuted_orphan); two registrations leave two jobs (C151_refuted_twice), and then one round of checks takes the device offline and clears it (C151_round); a heartbeat and a logout leave a device without a job (C58_refuted), which then stays registered, however much time passes, until it sends a message (C151_refuted_forgotten). |
| C152 | The argument list of a device round trips | partial | `C152_refuted`, `C152_decode_refuted`, `C152_count_partial` | False of the code, which is unused and unfinished: Encode builds the packet and returns nil (C152_refuted, for every list); Decode reads nothing of the packet and appends empty items to the object's list (C152_decode_refuted, for every packet). C152_count_partial: a new object gets the phone, the count and as many items. |
| C153 | A terminal pauses for a second after each message that fails | proved | `C153_same`, `C153_order`, `C153_pause`, `C153_step`, `C153_none_skipped`, `C153_rate`, `C153_backlog` |  |
