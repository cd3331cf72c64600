# A formal model of odin-data in Rocq

The C++ source is in `/repo/cpp` (read as text, never built).  The model and its
theorems are in `rocq/theories` (logical name `Verif`).

## Layout

For every component `X` there are up to four files:

| file | content |
|------|---------|
| `XModel.v` | total, executable Gallina functions; each definition cites the file and lines it models |
| `XSpec.v`  | the property in its own words: small definitions that do not use the model's helpers |
| `XProofs.v` | lemmas |
| `XProps.v` | the property theorems, cases that meet their hypotheses (`Example`), and `Print Assumptions` for each |

## Conventions of the model

* Unsigned C++ integers are `N`/`nat` values; wrap-around is written explicitly (`mod 2^k`) wherever a property
  depends on it.  Signed integers are `Z`, with explicit truncation where the code truncates.
* A C++ exception is an explicit result.  Undefined behaviour (division by zero, out-of-bounds access, null
  dereference) is an explicit distinct result, never a default value.
* HDF5, ZeroMQ, boost, Blosc and librdkafka are outside the model.  Where a component calls them, the model has either an
  abstract effect (e.g. a map from file name to content for HDF5) or a quantified oracle; the trusted base below lists each.
* A property which is false of the code is kept in view: the theorem that holds is given with its extra hypothesis,
  and the failure is a `..._refuted` theorem with a concrete run.  These are listed under "Findings".

## Per property: model and proof

"Refuted" means a theorem `..._refuted` with a concrete run on which the English claim fails; the claim is then proved
with an extra hypothesis under a name ending in `_partial`.

| id | model | proof |
|----|-------|-------|
| C01 | `PlaceModel`: rank test of `Acquisition::process_frame` | arithmetic |
| C02, C03 | `PlaceModel`: `get_file_index`, `get_frame_offset_in_file` on N, division by zero explicit | explicit inverse, both compositions; order by arithmetic |
| C04 | `PlaceModel`: `calc_num_frames` | counting lemma by induction on blocks |
| C05 | `NameModel`: `generate_filename` incl. `snprintf("%06zu", 7 bytes)` on decimal strings | injectivity of decimal printing; the parts of a name, the number read by a separate reader of numerals (`NameSpec`); refuted from 10^6 and without file numbers |
| C06 | `PlaceModel`: `adjust_frame_offset` with `int` truncation | case analysis; refuted at 2^31 |
| C07 - C13 | `AcqModel`: `Acquisition`, `HDF5File` over an abstract file system; every HDF5 call may fail by an oracle | one invariant over all frame sequences (`AcqInv`): refinement to a last-writer-wins map, event log of created and closed files, counters, extents; refuted: failed creation, duplicates, chunks of several frames, several datasets |
| C14 - C17 | `FwModel`: `FileWriterPlugin` configure, process_frame, start/stop over all message sequences | invariants and one-step characterisations; C16 refuted in three ways |
| C18 | `TimeoutModel`: threads, two mutexes, timed wait with spurious wake-ups | invariant over all interleavings; refuted: late frame does not prevent the stop, two deadlocks |
| C19, C20 | `PoolModel`: `DataBlockPool`, `DataBlockFrame`, memory of blocks | permutation invariant; frames as values by refinement; refuted: double release, copy constructor, assignment of sizes |
| C21, C22 | `QueueModel`: `WorkQueue` as threads with one mutex and one condition variable, any wake-up order | invariants over traces; liveness by a decreasing measure; refuted for 16 blocking producers |
| C23, C43, C51 | `PluginModel`: callback maps, `push`, errors, `CallDuration` | refinement to a set, list without duplicates, folds; refuted: throwing callback, uninitialised members, wrap |
| C24 | `WorkerModel`: `IFrameCallback` threads over the queue | trace invariants; refuted: stop discards, hangs on a full queue, restart |
| C25 - C27, C29 | `DecModel`: `DummyUDPFrameDecoder` with buffers as byte maps | invariant over packet histories; refuted: duplicates, packet numbers out of range, frame 2^32-1, drop counts |
| C28 | `LoopModel`: decoder, receiver thread, controller, processor and channels as one transition system | buffers as tokens, permutation invariant; refuted: late packets, restart, ready before configuration |
| C30 | `SimModel` + `DecModel` + `LoopModel` (`process_lost_packets`) | composition: simulator, any loss and order, decoder, processor; refuted: duplicates, one packet per frame |
| C31 | `ShmModel`: all histories of `SharedBufferManager` objects over named memory | arithmetic and invariant; refuted: name in use, stale header, overflow |
| C32 | `ReactorModel`: timers, `calculate_timeout`, `run` | invariant over turns of the loop; refuted: timer registered while asleep, huge delay, callback deadlock |
| C33, C34 | `JsonModel`: `set_param`, `get_param`, `has_param`, `update` on rapidjson trees | structural induction on trees and paths; many refuted corner cases |
| C35 | `JsonModel`: name tables, constructor from a document, `encode` | finite tables lifted to all strings; round trip; messages made by the constructors; boost's time text is an oracle; refuted: lenient message id |
| C36 | `GapModel`: `GapFillPlugin` | index arithmetic; refuted: negative grids and gaps, unset grid, short frames, planes |
| C37 | `LiveModel`: `LiveViewPlugin` frames, filters, header, socket | history semantics by induction over frames; refuted: shared counter, wrap, negative rate |
| C38, C39 | `AdjModel`: Sum, OffsetAdjustment, ParameterAdjustment | induction; refuted: 2^31 bytes, order of adjustments, signed overflow |
| C40 | `BloscModel`: settings and frames | history semantics; library compression an oracle; refuted: no id, interleaving, 0 threads, two plugins, unsupported |
| C41, C42 | `KafkaModel` + `JsonTextModel`: message bytes, counters, configuration | text grammar with unique reading; histories; refuted at 65535 bytes, after Blosc, without topic, race, reset |
| C44, C45, C53 | `RcvModel`: `FrameReceiverController` as a state machine over all requests, notifications and timer ticks, decoder and receiver thread as environment | Hoare-style rules per statement, invariants over all runs; refuted: exceptions that escape, acknowledged failures, stale parts (see Findings) |
| C46 | `FrameModel`: tables of `FrameProcessorDefinitions.h` | finite tables lifted to all strings |
| C47 | `CtrlModel`: load, connect, disconnect | graph as a set refined by command history; refuted in four ways |
| C48 | `PrcModel`: `FrameProcessorController` requests, `configure` with depth of the stack, stored texts through `emit` and `parse` (C55) | two runs related up to the reply; execution simulated by messages sent; ranks for ending, depth monotone; refuted: self reference, rest after a failure, infinities |
| C49 | `ParModel`: `ParamContainer` bind, update, encode with `rapidjson::Pointer` get/set | induction over bindings; JSON pointers with escapes and numbers (`PtrProps`): texts against RFC 6901's grammar, numbers without leading zeros are unique; refuted: 16 bits, failed updates, leading slash, numeric names, nested paths |
| C50 | `PortModel`: `tokenize_port_list`, printing, receiver types | decimal round trip; refuted: out of range, octal, garbage, empty list, dangling text; signs, hexadecimal and large numbers (`PortSignProps`) |
| C52 | `EqualModel`: `operator==` of messages, rapidjson comparison | permutation of members; refuted: duplicate names, non-objects, transitivity |
| C54 | `JsonReadModel`: the vendored rapidjson reader (default flags) down to characters and IEEE doubles (`SpecFloat`) | soundness and completeness against the grammar of `JsonReadSpec` by mutual induction; sizes of the double operations; nearest doubles (`JsonNearProps`): one rounding, by Flocq's theorems on multiplication and division, bits of doubles by cases; refuted: 1e309, infinities, 3e23 |
| C55 | `JsonDoubleModel`: writer with Grisu2 (tables included), `encode`, constructor from text | digits of Grisu2 bounded by a check of its table over all exponents, the rest for all doubles; document induction; refuted: doubles that change, NaN and infinities |
| C56 | `PrcModel`: all requests; replies as documents | each request run as a loop over the plugins where every plugin owns a part of the reply; reply head kept; for liveness every `set_param` finds its way clear; refuted: no reply after failures, short names, rebinding, named plugins |
| C57 | `handle_meta`, through `emit` and `parse` (C54, C55) | round trip of C55; refuted: infinity in a header |
| C58 | `configure` step by step | every step returns exactly one change; composed; plugins present = plugins that can be connected, an invariant of all requests |
| C59 | `callback` over any list of frames | induction on frames, counts; refuted: limit passed, too large, not initialised |
| C60 | `fwx_configure`, `fwx_request` on messages (`FwcModel` on top of `FwModel`; settings common to plugins in `CfgModel`) | each `setting` by its reader; independent record `applied`; totality for `well_formed` messages; refinement to calls of `FwModel.configure`; invariant `sane` of all reachable states; round trip of the report |
| C61 | `fwx_status`, `fwx_execute`, `fwx_reset` | the reply as a list of items grown under the name of the plugin; `stop_run`, `start_run` of C14-C17 |
| C62 | the controller of C56-C58 with file writers of C60, C61 among its plugins (`hosts`: the plugin functions are those of `FwcModel`) | C56, C58 for the controller joined with C60, C61 for the plugin; liveness of `configure` for messages with sections only; an invariant of all requests over plugins (`kept`) carried through `handle_ctrl` (`HostKeep`) |
| C63 | the read loop of the TCP thread, buffers and sizes of the decoder; connections as lists of arrivals (bytes, end, error), any order of service (`TcpModel`) | the loop reads exactly the missing bytes (induction on arrivals); invariant over service: buffers, streams left, untouched memory; runs for what fails |
| C64 | `PipeModel`: worker threads, blocking and queued callbacks, frame objects that plugins may change, plugins as arbitrary functions; the expected calls by composing plugins (`expects`) | invariant: calls made plus frames on the way = what the predecessor made; each frame object that is on its way to a plugin that changes frames is on its way to no other; deadlock freedom by depth; a counter bounds all executions; runs for what fails |
| C65 | `ReplayModel`: option texts, `replay_frames` with drops, counters and ports, packets read from a capture | one frame's packets go to one port (induction over packets, then frames); rotation as an invariant; a bound for the counters; decimal texts; concrete and symbolic runs for what fails |
| C66 | `EndModel` joins `SimModel`, `ReplayModel`, `LoopModel` (receiver, shared buffers, process plugin) and `FwModel` (file writer) by what passes from one to the next | packets of a port counted frame by frame; every frame handed over exactly once from the receiver's invariant; image = simulated pixels (C30); induction over the frames offered to the writer with the invariants of C08 and C12; runs for what fails |
| C67 | `PcfModel`: `configure`, `requestConfiguration`, `status`, `reset_statistics`, `execute` of the plugins Offset, ParameterAdjustment, LiveView, GapFill, Blosc, Kafka, DummyUDPProcess, Sum on messages, over the plugin states of C36-C42 | each setting by its reader; independent lists `members`, `status_members` of what is reported, built by the functions of replies (C60's `CfgReply`); invariant `fit` of all lives of a plugin (`lived`: constructed, configured with anything, frames, status, reset); round trip of the report; refinement to C40's `blosc_configure` |
| C68 | no new model: C56/C58's controller with an environment whose plugins are exactly the file writers of C60 (`hosts`) and the plugins of C67 (`ships`: `ShipSpec`) | every function of a shipped plugin shown to stay in its part of the reply, to keep its head and to succeed (`willing`, `obliging`, `takes`, `separate` of C56/C62), so that requests are answered without hypotheses on plugins; round trip of the whole report between two frame processors |
| C69 | `AppModel`: `run` of FrameProcessorApp and `configure_controller`, stringparse.h; `RappModel`: `run` of FrameReceiverApp; on the controllers of C48 and C44 and the JSON reader of C54 | simulation between the file's messages and a client that sends them (`submits`, `hands`), where states may differ in replies only; responses of the receiver's `configure` independent of the reply it fills (`resp`); counting of line ends by induction |
| C70 | `SmcModel`: `SharedMemoryController` and `SharedBufferFrame` of the frame processor with the reactor's deferred request, poll array and messages as texts; shared memory of C31, messages of C55, the receiver of C44 for the other side | classification of steps and invariants of runs (status and history, registrations, timers, frames made / in use / given back); invariant of careful runs for safety; the texts by the round trip of C55; the receiver's answers by execution; careless runs refuted |
| C71 | `DogModel`: `WatchdogTimer` on the reactor of C32 (ids shared with other reactors), clock in ns, `elapsed_us` in doubles, messages of the plugin; the start of the thread against the constructor | invariant of all runs (timers, log); invariant of runs with a worker at most e ms late, with the time of the next round; error bounds of the rounding; refuted: start of the thread, timeout 0, signals, 71 minutes. Missing in in_time, alive, ends: timer_id_ must not start as the heartbeat's id, no signal; in constructor: the thread must start after the members are made |
| C72 | `LifeModel`: constructor of `FrameProcessorController` against `runIpcService`; `run`, `waitForShutdown`, `shutdown`, `callback`, requests, worker threads of all plugins with any connections, the reactor's thread, as one transition system | invariant of all runs (log, working flags, reactor); rank of the main thread for the number of steps; invariant of workers without frames, path to the end from every state; refuted: lost request, spurious wake-up, full queue, plugin loaded late, plugins_ used while cleared, plugin destroyed before its thread ends, thread before reactor_. Missing in order, finished, bounded, ends: requests that use plugins_ while they are dropped; in ends: frames under way; in safe: a main thread quicker than the workers; in start: the thread quicker than the constructor |
| C73 | `MetaModel`: `JsonDict`, `publish_meta`, the messages of an acquisition with the headers, PUSH channels of a bounded length per publisher, the controller's handler that publishes and deletes | parsing what was written (C52's reader on C54's writer); invariant of the channels: ids distinct, objects alive, first in first out; counting of live objects; logs of the file writer's monad for the frames told. Missing in complete and story: full channels, more than one acquisition |
| C74 | `RxlModel`: `start`, `run_service`, `stop` of the receiver thread against the main thread (a transition system): descriptors and bound ports of the process, other programs' ports, the sockets of the UDP, TCP and ZMQ threads, the channel to the main thread of bounded length, the identity the main thread knows and the releases it passes on. Simplified: a round of waiting and each system call is one step; a decoder of the wrong type is the null pointer of the cast; the ROUTER socket may take any waiting message; the shift by 1000 is a function `late` of the round | invariant over all interleavings (table of the kernel, phase of the thread, what was announced, what the main thread waits for); descriptors by comparing with what the rest of the program opened; measure for the end of the thread; releases by conservation. Missing in clean: failed starts; in stopped: full channel, unfinished TCP message, ZMQ exceptions; in defined: decoders of another type, ZMQ |
| C75 | `PollModel`: channels and sockets of `IpcReactor`, the pollitems, one time around the loop of `run` with the poll's result, what each callback does to the reactor (register, remove, stop) and how it ends (normally, interrupted, other exceptions). Simplified: the map of channels is keyed by the order of the socket pointers; timers are counted only (C32 has them); an item is ready or not (errors of single items are not looked at, as in the code) | the state represents the history of registrations (last one counts), kept by every operation; the calls are the ready part of the sorted map at the beginning of the round. Missing in removed: the same round (refuted) |
| C76 | `IpcModel`: `IpcChannel`: the map of bound endpoints against the addresses the ZeroMQ socket listens on; parts of messages between one ROUTER and DEALER channels (`send`, `router_send_identity`, `recv` that may wait half way); the identity of a DEALER (`within` in float arithmetic, `sprintf` into ten bytes). Simplified: ZeroMQ as documented (whole messages arrive, in order of each sender; unroutable or surplus messages to a peer are dropped); peers stay connected and have different identities | endpoints: the state represents the history; messages: invariant over all interleavings (what waits is the rest of what was sent); identities: rounding to 24 bits proved nearest, arithmetic. Missing in listens/unbind: endpoints bound twice, addresses of 256 characters; in requests and replies: messages of several parts (all refuted) |
| C77 | `OptModel`: `parse_arguments` and `main` of both applications. boost::program_options is not part of /repo: its parser (default style), `store` and `lexical_cast` are modelled after its documentation and releases 1.59 and later, as functions on argument lists. Simplified: printed texts left out; log4cxx is an oracle that takes or refuses a file | command lines as lists of items with their spellings; induction over the items (every item is parsed to its option whatever follows), the stored map is exactly the items'. Missing in starts: values of their own that are short options or end in their first =, grouped requests, the word `--` |
| C78 | `SappModel`: `parse_arguments`, `main` of the simulator with both passes of boost::program_options (as in C77), `get_requested_plugin` (loading is an oracle), `populate_options` and `setup` of the Dummy plugin and its bases. Simplified: float values are kept as text and always accepted; a capture file can be opened; printed texts left out | both passes computed on lists of options by induction (what the first pass leaves over is exactly the plugin's part); the stored map is exactly what is told. Missing: options before the detector (refuted), abbreviations, values that begin with two dashes |
| C79 | `AcqModel`: `low_high`, `create_dataset`, `create_file` (already there); `TagSpec` says which images a file holds. Simplified: the `int` arithmetic of the attributes is taken exactly | an invariant of every method of an acquisition, with any failures of HDF5: each dataset of each file created carries the numbers of its file. Missing: the numbers name the images only with one block per file, more than one frame per block and a known number of frames (the rest refuted) |
| C80 | `HdsModel`: `create_dataset` of HDF5File up to H5Dcreate2: element type, dimensions, chunks, filter and its values. Simplified: fill value and access properties left out; the rules of HDF5 are stated in `HdsSpec` | case analysis over definitions joined with C07 (what is written matches its definition) and with `AcqModel.create_dataset`; the product of the dimensions modulo 2^32 by induction. Missing: chunks larger than a frame, frames of 4 GiB (refuted), ranks over 32 |
| C81 | `ZrxModel`: `handle_receive_socket` of the ZMQ receiver thread with `recv_raw` and `eom` of the channel, memory as bytes by address, the decoder any state machine. Simplified: ZeroMQ delivers messages whole; what the decoder itself writes to memory is left out | induction over the parts that arrive; copying is read back byte for byte. Missing: parts longer than the decoder's buffer (refuted) |
| C82 | `PaceModel`: the clock of `replay_frames`: pauses between packets, the time measured in whole seconds, the pause after a frame; how long sending and sleeping take is an oracle. Simplified: the float arithmetic of the interval is taken exactly | induction over the frames; seconds and nanoseconds by division. Missing: exact intervals (refuted: up to a second short, or longer by the time of sending) |
| C83 | `SwmrModel`: `write_frame`, `write_parameter`, `close_file` and the times of `last_flushed`; what the HDF5 library and the local clock answer is an oracle; a write is visible to a reader after a successful H5Dflush of its dataset or H5Fclose. Simplified: library 1.9.178 or later; a second attempt to close is left out | the time kept for a dataset is a reading of the clock and moves only with a flush (induction over the calls). Missing: a bound without a further value, with a clock set back or after a failed flush (refuted) |
| C84 | `ClsModel`: `ClassLoader` (`load_class`, registration, `factory_map`) for one base class; libraries are an oracle: what dlopen of a path finds and registers. Simplified: two paths are the same file only if they are the same string | the map is the registrations of the open libraries in order (induction over the requests). Missing: stability when two libraries register the same name (refuted) |

## Wrong programs (`seeded/LOG.jsonl`)

Each line is one edit of the model, made in a scratch copy.  Every proof the edit breaks is replaced there by
`Admitted` and the build goes on.  `proofs_broken` lists these.  `theorems_failed` lists the property theorems whose own
proof broke or whose `Print Assumptions` shows a broken lemma.  A theorem in that list no longer has a proof; it is not
thereby shown false, and several are listed only because they share a step lemma with the claim that the edit breaks.
Edits that do not compile are not counted.  `outcome` is `survived` when nothing broke.

## Trusted base

* Coq 8.16.1's kernel, including `vm_compute`, by which concrete witnesses are evaluated.
* Axioms: none, except for the two theorems of `JsonNearProps.v`.  `Print Assumptions` stands below every theorem in the `*Props.v` files and in
  `RcvCases.v` and reports "Closed under the global context" for each of them, among them every other theorem in MANIFEST.json.
  The two are about real numbers and use Flocq's proofs about rounding.  They depend on axioms of the standard library:
  - `c54_nearest_partial`: `ClassicalDedekindReals.sig_not_dec`, `ClassicalDedekindReals.sig_forall_dec`,
    `FunctionalExtensionality.functional_extensionality_dep`, `Classical_Prop.classic`;
  - `c54_nearest_refuted`: `ClassicalDedekindReals.sig_forall_dec`, `FunctionalExtensionality.functional_extensionality_dep`.

  (Loading the standard library's
  `ssr` files brings module-type parameters `Coq.ssr.ssrunder.*` into the environment; no theorem uses them.)
* The reading of the C++ code into the `*Model.v` files, definition by definition, with the simplifications named in the comments.
* The behaviour of the libraries as written in the models:
  - HDF5: a file is a map from dataset and offset to content; each call may fail (oracle); nothing is known of a file after a crash.
  - boost::thread, mutexes, condition variables: interleaving semantics, sequential consistency, spurious wake-ups allowed.  Data races are not
    undefined behaviour in the models; where a race was found it is listed under Findings.
  - ZeroMQ: ordered channels without loss (`LoopModel`) or a list of outgoing messages (`RcvModel`); binding may fail (oracle).
  - rapidjson (the version vendored in `/repo/cpp/common/include/rapidjson`): values as trees (`JsonModel`), the writer
    (`JsonTextModel`, with the texts of doubles in `JsonDoubleModel`), the reader (`JsonReadModel`), pointers (`ParModel`), comparison
    (`EqualModel`).  In `JsonTextModel` alone the text of a double is an oracle.
  - Blosc, librdkafka, class loading (`dlopen`), `boost::posix_time` text: oracles quantified in the theorems.
* Memory allocation never fails except where a model says so.

## Modelled and not modelled

| source (under `/repo/cpp`) | modelled | not modelled |
|---|---|---|
| common/src/IpcMessage.cpp, include/IpcMessage.h | all functions on values: construction, parameters, update, encode, equality, names; text in and out through the vendored rapidjson reader and writer (C54, C55) | `operator<<`, microsecond clock |
| common/src/IpcReactor.cpp | timers, timeout computation, `run`, `stop`, channels and sockets, rebuild of the pollitems, exceptions of callbacks | errors zmq reports for single items |
| common/src/ParamContainer.cpp, .h | all | text parsing, life time of encoded strings |
| common/src/SharedBufferManager.cpp | all | boost exceptions' texts |
| common/src/IpcChannel.cpp | bind, unbind, has_bound_endpoint; send and recv between ROUTER and DEALER, parts of messages; identities; elsewhere as ordered channels | polling, options, close, curve security, monitors |
| common/include/stringparse.h | all (`AppModel`) | - |
| common Json.h, Json.cpp | `JsonDict` (`MetaModel`) | arrays of values (`add` for vectors) |
| common logging, ClassLoader, SegFaultHandler, gettime | `elapsed_us` (`DogModel`), `ClassLoader` (`ClsModel`; an oracle in C45, C47) | everything else |
| frameReceiver/src/FrameReceiverController.cpp | all but the following column | logging, static text of versions (oracle) |
| frameReceiver/src/FrameReceiverRxThread.cpp, UDPRxThread | loop, buffer and release handling, ticks (`DecModel`, `LoopModel`); start, stop, sockets (`RxlModel`); messages of the ZMQ thread (`ZrxModel`) | socket buffer sizes |
| frameReceiver/src/DummyUDPFrameDecoder.cpp, FrameDecoder.cpp | packets, buffers, time-outs, statistics | packet logging |
| frameReceiver/src/FrameReceiverTCPRxThread.cpp, DummyTCPFrameDecoder.cpp | `handle_receive_socket`, message buffers and sizes, `process_message` (`TcpModel`); connecting (`RxlModel`) | `reset_statistics`, status |
| frameReceiver/src/FrameReceiverApp.cpp | `parse_arguments`, `main` (`OptModel`); `run` up to the controller's (`RappModel`) | signals, logging, printed texts |
| frameReceiver/include/FrameReceiverConfig.h | port lists, receiver types, `as_string` where used by C44 | - |
| frameProcessor/src/Acquisition.cpp, HDF5File.cpp | files, datasets, frames, counters, names, meta messages as events; chunk and compression properties (`HdsModel`); flushing (`SwmrModel`) | timings, error texts |
| frameProcessor/src/FileWriterPlugin.cpp | all: frames, acquisitions, time-out, stop (`FwModel`); configuration messages, reported configuration, status, commands (`FwcModel`) | effect of the HDF5 settings (alignment, version, error durations: stored only), logging |
| frameProcessor/src/FrameProcessorPlugin.cpp, CallDuration.cpp, IFrameCallback.cpp, WorkQueue.h | callbacks, push, messages, timings, worker threads, queue | version reporting |
| frameProcessor/src/FrameProcessorController.cpp | all requests and meta messages (`PrcModel`), connections also alone (C47); constructor, `run`, `waitForShutdown`, `shutdown`, `callback` (`LifeModel`) | reactor channels, logging, the destructor without `run` |
| frameProcessor/src/SharedMemoryController.cpp, SharedBufferFrame.cpp | all (`SmcModel`; ready, release and configuration notifications also in `LoopModel`) | logging; sends on the release channel from several threads at once |
| frameProcessor DataBlock, DataBlockPool, DataBlockFrame, Frame, FrameMetaData | all used by C19, C20 and the plugins | templates for other parameter types |
| frameProcessor plugins GapFill, Sum, OffsetAdjustment, ParameterAdjustment, LiveView, Blosc, KafkaProducer | frames, configuration, reported configuration, status, reset, commands (`PcfModel`) | version reporting, log messages, lists of errors |
| frameProcessor/src/DummyUDPProcessPlugin.cpp | `process_lost_packets`, image copy, configuration, status, commands | what `print` logs |
| frameProcessor/src/FrameProcessorApp.cpp | `parse_arguments`, `main` (`OptModel`); `run` up to the controller's (`AppModel`) | logging, printed texts |
| frameProcessor/src/WatchdogTimer.cpp | all (`DogModel`) | logging, the warning at a tenth of the timeout |
| frameProcessor MetaMessage(Publisher) | all: messages, their bytes, the channel with its bound (`MetaModel`) | connect: always succeeds; what a subscriber of the PUB socket misses |
| frameSimulator DummyUDPFrameSimulatorPlugin | `create_frames`, packet sizes and order; of FrameSimulatorPluginUDP: options, drops, ports, counters, captured packets (`ReplayModel`), pace (`PaceModel`) | the pcap file format, socket errors |
| frameSimulator/FrameSimulatorApp.cpp, FrameSimulatorOption.h | all (`SappModel`) | printed texts, logging |

## Findings

Claims of a user that are false of the code.  The first column names the theorem with the run; "-" means read in the code but outside
the model.

| theorem | finding |
|---|---|
| c05_names_distinct_refuted, c05_no_numbers_refuted | from file 10^6 on, and with file numbers switched off, two files of one acquisition have one name |
| c06_adjust_exact_refuted | frame numbers from 2^31 on are mishandled by the `int` in `adjust_frame_offset` |
| c07_invalid_but_stored_refuted, c07_bound_cut_refuted | a frame with a parameter error is reported invalid although its image is stored; a numeric bound is cut |
| c08_create_failure_refuted | after a failed file creation a finished file is truncated |
| c09_no_frames_refuted | an acquisition that expects no frame creates no file but counts one |
| c12_*_refuted | completion is wrong with duplicated frames, several datasets without master, chunks of several frames |
| c14_zero_processes_refuted | 0 processes are accepted (division by zero later) |
| c16_*_refuted | stopping truncates finished files: id used as file name, empty path, postfix |
| c18_*_refuted | a frame processed after the wait ran out does not prevent the stop; two deadlocks between frames or control messages and the timeout thread |
| c19_double_release_refuted, c20_*_refuted | releasing twice corrupts the pool; the copy constructor of `DataBlockFrame` shares the block; assignment between sizes keeps the old size |
| c22_deadlock_refuted | one condition variable for both directions: 16 producers and `notify_one` can put everybody to sleep |
| c23_throw_refuted | a callback that throws cuts off the plugins after it |
| c24_*_refuted | stopping a worker discards its queue; stopping with a full queue hangs; stop and start leaves two threads |
| c25_*_refuted, c26_duplicates_refuted, c27_out_of_range_refuted | frame number 2^32-1; dropped frames; duplicated packets count as received; a packet number out of range is written outside the buffer |
| c28_*_refuted, c29_*_refuted | packets right after the time-out of their frame write into a buffer already handed over; restart loses buffers; drop statistics miss consecutive frames and underflow |
| c30_single_packet_refuted | images of one packet are undefined in the simulator |
| c31_*_refuted | shared memory: name in use, header not initialised, product overflows |
| c32_*_refuted | a timer registered while the reactor sleeps is not seen; delays from 2^63 ms; removing a timer in a callback deadlocks |
| c33_*_refuted, c34_*_refuted | one-character names throw, trailing slash is lost, `has_param` throws, default `get_param` does not split paths, zero characters cut; update by message is shallow |
| c35_lenient_id_refuted | a lenient message without a valid id has an indeterminate id |
| c54_nearest_refuted | a number such as 3e23 does not become the nearest double: digits and power of ten are rounded apart |
| c54_large_refuted | numbers from 1e309 on are refused; just above the largest double the reader makes an infinity, which cannot be sent on |
| c55_doubles_refuted | a double sent as text can arrive as its neighbour (1/11, 1.602176634e-19): the reader's fast path does not round correctly |
| c55_no_number_refuted, c55_message_lost_refuted | a NaN or infinity in a message cuts its text off there (the result of `Accept` is ignored); the peer refuses it, for a reply without telling anybody |
| c63_announced_refuted, c63_kept_refuted, c63_buffers_refuted | the TCP dummy decoder never announces a frame and ignores releases: the sixth frame overwrites the first; it uses five buffers although fewer may exist (exception) |
| c63_closed_refuted, c63_failed_refuted, c63_interrupted_refuted | the TCP thread ignores the result 0 or -1 of `read`: a closed connection makes it loop for ever, an error between frames is a thrown string, within a frame it corrupts the frame |
| c64_shared_refuted | a plugin pushes one frame object to all its callbacks: offset, parameter and sum plugins change it in place, so a parallel branch (for example a second file writer) sees changed or unchanged values depending on the threads |
| c64_at_once_refuted | the controller is a blocking callback of every file writer: with two of them its count of frames is changed by two threads at once without lock |
| c64_two_inputs_refuted, c64_circle_refuted | a plugin connected to two others gets the frames in any order; plugins in a circle can stop for ever with full queues (the controller accepts both) |
| c65_all_refuted | `--frames -1`, documented as "sends all frames", sends none |
| c65_single_refuted, c65_dropped_frame_refuted | the simulator changes the port when the number of the stored frame changes: one stored frame is always sent to the first port, and a frame whose packets are all dropped shifts those after it |
| c65_bytes_refuted | with the default options (1000 frames of 1400x1024 pixels) the counter of bytes sent overflows an `int` |
| c65_gap_refuted, c65_text_refuted, c65_no_port_refuted | `--packet-gap 0` divides by zero; `--drop-packets` compares texts ("07" drops nothing); what is not a port number is taken for one |
| c65_snap_refuted | a packet capture with shortened packets is read beyond its end (`len` is used instead of `caplen`) |
| c66_order_refuted | one frame per file and a frame that comes two files late: it is refused ("Frame invalid") and lost, and the acquisition does not end by itself |
| c66_master_refuted | with a master data set, a frame of another data set that comes after the master's last frame is neither written nor passed on, without error |
| - | the simulator binds its sending socket to the destination address (`FrameSimulatorPluginUDP.cpp:247`); on the receiver's own host it would take packets meant for the receiver; `sizeof udph` is the size of a pointer, by luck that of the header |
| c36_*_refuted, c38_large_refuted, c39_*_refuted | gap fill with negative grid or gaps, unset grid, short frames; 2^31 bytes; adjustments depend on map order, signed overflow |
| c37_*_refuted | all live views share one frame counter; it wraps; a negative rate sends everything |
| c40_*_refuted | without acquisition id the settings change mid-way; interleaved acquisitions; 0 threads; process-wide compressor |
| c41_boundary_refuted, c41_after_blosc_refuted, c42_*_refuted | header of 65535 bytes has length field 0; bytes behind the image are sent after Blosc; frames without topic or with larger headers are counted nowhere; topic tested without lock; reset gives more acknowledged than sent; topic before servers is forgotten |
| c44_*_refuted, c45_*_refuted | exceptions of shared memory, ports and names leave the handler and end the receiver; unknown receiver type is acknowledged; release channel never required; every configure rebuilds everything; a failed rebind leaves no control channel; new decoder path with the same class keeps the old library |
| c47_*_refuted | null connection, connection to itself or unloaded names, disconnect of all, endpoint change |
| c48_*_refuted | a configuration that executes itself overruns the stack; execution stops at the first failing message without a reply; a value with a number read as infinity is stored as cut text, acknowledged, and never executes |
| c56_refused_refuted, c56_silent_refuted | a configuration that fails with an exception other than of a message: the refusal is sent without the identity of the client, who gets nothing; with a parameter of the wrong type there is no reply at all although earlier parameters were applied |
| c56_short_refuted | a plugin with a name of one character makes status and request_commands throw `std::out_of_range` out of the handler |
| c56_bound_refuted, c56_receiver_refuted | after a new control endpoint the old one stays bound and cannot be chosen again; unusable receiver endpoints leave no receiver interface while the old endpoints are reported |
| c56_named_refuted | reset_statistics names only the last plugin that refuses |
| c57_infinity_refuted | a header with a number above the doubles: the published text is cut off |
| c58_master_refuted, c58_nowhere_refuted | the master data set is only seen in a section named hdf; connecting to a plugin that is not loaded is acknowledged |
| c60_named_refuted | a data set that is only named, or has no dimensions given, is accepted; starting then reads `chunks[0]` of an empty vector |
| c60_order_refuted | frames expected by a process are only calculated with `frames`: process settings that come in a later message leave it stale, and `start_writing` may silently not start |
| c60_atomic_refuted, c60_nack_refuted | a refused message is applied up to the error; a refused path does not stop the rest of the message |
| c60_path_refuted, c60_indexes_refuted, c60_first_refuted, c60_dims_refuted, c60_slash_refuted, c60_started_refuted | the reported configuration cannot be given back: empty path refused, `indexes` missing, first number negative, dimensions from 2^31 negative, names with a slash split, nothing of a running acquisition |
| c60_unknown_refuted | data types and compressions that do not exist are acknowledged |
| c67_kafka_refuted, c67_partition_refuted | KafkaProducerPlugin reports partition -1 and refuses it when sent back; a partition from 2^31 on is accepted and becomes negative |
| c67_live_refuted, c67_adjust_refuted, c67_gap_refuted | `dataset_name` and `filter_tagged` of the live view, an empty set of adjustments and empty lists of gaps are not reported: sent back they leave what the other plugin had |
| c67_gap_short_refuted | with debug level 1 a `grid_size` of less than two numbers is read beyond its end by a log message |
| c67_gap_atomic_refuted, c67_atomic_refuted | a refused configuration is applied in part; the refused list of GapFillPlugin is left with zeros |
| c67_blosc_stuck_refuted | after a compressor that is not built in, every message with a level, a shuffle or threads is refused, also one with a good compressor: the settings before it are tried with the old one |
| c67_slash_refuted | a parameter with a slash in its name cannot be adjusted |
| c68_atomic_refuted | a message with sections for several plugins, one of which is refused: no reply, but the plugins before it (in the order of their names) are configured |
| c68_command_refuted | likewise for commands: the file writer has started although the client got no reply |
| c68_warning_refuted | the warnings of `BloscPlugin` are put at the top of the reply, not under its name: those of two such plugins overwrite each other |
| c69_object_refuted, c69_object_ignored | a configuration file of the frame processor that holds a single object is ignored: line 237 submits the empty message of line 223 instead of the one just made |
| c69_wrong_type_refuted, c69_receiver_wrong_type_refuted | a value of the wrong type in the file ends the program with code 1; sent by a client it is only refused |
| c69_receiver_refused | a message of the file that the receiver refuses is not reported: the replies are thrown away, it runs on without decoder |
| c69_receiver_deaf | the control endpoint cannot be bound (address in use): the frame receiver runs all the same, and nobody can reach it; the frame processor ends with code 1 |
| c69_excerpt_refuted, c69_excerpt_lost, c69_excerpt_rest | the excerpt shown with a syntax error: lost (std::out_of_range) for errors within the first 14 characters; all the rest of the file when no line end follows; parts of the line before (minimum instead of maximum) |
| c61_counters_refuted | frame counters from 2^31 are negative in the status |
| c59_*_refuted | `shutdownFrameCount` is not initialised (0 with a master: a frame not counted ends the process); a limit below the count, or of 2^31 and more, is acknowledged and never reached; 0 does not take a limit back |
| c70_deferred_refuted, c70_ghost_refuted, c70_stale_refuted | `SharedMemoryController` defers a timer bound to `this`: replaced within a second it is used after it was freed; a failed connect of its transmit channel leaves the receive channel registered with the reactor; a message on the old channel in the round of the reactor in which it is replaced calls the freed object |
| c70_remapped_refuted | a configuration notification while frames are in use unmaps the memory they point to |
| c70_replaced_refuted | replacing or closing the connection while frames are in use: their releases are sent over a channel that is gone |
| c70_ends_refuted | a notification with the name of no shared memory, or with a buffer there is not, throws `SharedBufferManagerException`, which nobody catches: the process ends |
| c70_lost_refuted, c70_ignored | a frame notified before the configuration is dropped without release: the receiver never gets the buffer back |
| c71_constructor_refuted | `WatchdogTimer` starts its thread before `worker_thread_running_` and `reactor_` are constructed: the flag may be overwritten, and the constructor spins for ever, or the reactor is used before it exists |
| c71_zero_timeout_refuted | a first call with timeout 0: `finish_timer` removes the timer of an uninitialised id, possibly the heartbeat's, and the thread ends; later calls are not watched |
| c71_signal_refuted | a signal during the watchdog's sleep ends its thread silently |
| c71_duration_refuted | a call of more than 71 minutes: its duration does not fit into `unsigned int`, the conversion is undefined |
| c71_report | a report may come up to 1 ms before the timeout (the clock is cut to ms) |
| - | a new controller has no callbacks: plugins registered with the one before get no frames until they are connected again |
| - | the receiver, at debug level 2 and above, reads the frame number of a release as int: above 2^31 the release is lost in the logging |
| - | the file writer thread spins on `pluginShutdownSent_` (not atomic) until shutdown |
| c49_*_refuted | see C49 |
| c50_*_refuted, c52_*_refuted | octal, wrapped and garbage ports; empty list cannot be printed; equality is not symmetric or transitive |
| c53_limit_refuted | the frame limit is not initialised and cannot be taken back |
| - | the reader has no depth limit: a text of many `[` exhausts the stack |
| - | `SharedBufferFrame` copies do not set `shared_channel_`; the release socket is used by whichever thread drops the last pointer |
| c72_*_refuted | `FrameProcessorController`: `waitForShutdown` has no predicate: a shutdown request or the frame limit before the wait is lost although acknowledged, a spurious wake-up ends the program; the frame limit with eight more frames queued deadlocks (`stop()` waits for room, the worker for `pluginShutdownSent_`); `shutdown` waits for `isWorking()`, which is false at once after `stop()`, so plugins are destroyed under their threads; requests use `plugins_` while it is cleared; a plugin loaded meanwhile hangs the end; `ctrlThread_` assigns `reactor_` possibly before it is constructed |
| c73_*_refuted | `MetaMessagePublisher::publish_meta` sends the address of a new object with ZMQ_DONTWAIT and ignores the result: with a full channel the message is lost and the object never deleted; each acquisition has a channel of its own, so the start of one may be published before the end of the one before |
| - | `execute` and end-of-acquisition run without the plugin lock; the meta rx channel is never closed |
| c74_*_refuted | `FrameReceiverRxThread::start`: `++thread_retry_count >> thread_retry_max` shifts (undefined; on x86 it gives up after 256 ms) instead of comparing, although the thread comes up; a thread that fails to initialise does not close the sockets it has made, so the ports stay taken until the program ends; `stop` waits in join() while the thread may wait in send() on a full channel, or in recv() for the rest of a TCP message; releases before the identity message, or queued when the thread is stopped, are dropped with their buffers; a decoder of another type is a null pointer; zmq::error_t of connect ends the program |
| c75_removed_refuted | `IpcReactor::run`: a channel removed by a callback is still called in the same round. `SharedMemoryController`'s destructor removes its channel during a control request (`setupFrameReceiverInterface`); if a frame notification is ready in that round, its callback is called on the destroyed object |
| c75_stop_refuted | callbacks that are ready in the round of `stop()` are still called |
| - | `needs_rebuild_` is never reset: the pollitems are built anew each time around (harmless) |
| - | only ZMQ_POLLIN is looked at: a descriptor in error makes poll return at once each time, no callback is called |
| c76_waits_refuted, c76_shift_refuted | `IpcChannel::recv` on a ROUTER takes one payload part and does not look at the rest: a request of two parts (or a REQ client's empty delimiter) makes the next call take a payload for an identity and wait in `recv` for more: the main thread of the receiver or processor stands still (no timers, no frames) until another message comes; from then on identities and payloads are exchanged and nobody gets replies |
| c76_parts_refuted | `send` with ZMQ_SNDMORE on a ROUTER sends the identity again before each part |
| c76_twice_refuted | `bind` of the same wildcard endpoint twice forgets the first resolved address; it can never be unbound |
| c76_long_refuted | a resolved address of 256 or more characters (inproc): `bind` throws but the socket stays bound, unrecorded |
| c76_identity_refuted | `within(0x10000)` rounds `random()` to a float: the 64 largest values give 0x10000, five digits, and `sprintf` writes 11 bytes into `identity[10]`; probability 6e-8 for each DEALER. `random()` is never seeded, so every process gives its first DEALER the identity d716-64f6 |
| c77_strays_refuted | `frameReceiver config.json` (no `--config`) starts with defaults: no positional options are declared, and boost skips arguments without name silently |
| c77_swallowed_refuted | `--config --ctrl tcp://*:6000` takes `--ctrl` as the file and ignores the endpoint |
| c77_negative_refuted | `--io-threads -1` starts with 4294967295 threads (`lexical_cast<unsigned int>`) |
| c78_unreadable_refuted, c78_dies_refuted | `main` of the simulator ignores the result of `parse_arguments`: after an exception (`--frames ten`) the plugin is set up with the variables stored so far; if the ports are not among them `vm["ports"].as` throws outside every try and the program aborts (`FrameSimulatorPluginUDP::setup` ignores that its base's setup returned false) |
| c78_order_refuted | `frameSimulator --frames 10 DummyUDP ...` takes `10` for the detector |
| c78_code_refuted | the exit code is 0 after every error of parsing or loading, and 1 after `--help` and `--version` |
| - | reactor: `timers_.size()` read without lock, `last_timer_id_` static and unprotected; `DataBlockPool::instance_map_` unprotected |
| - | `ParamContainer::pointer_path("")` dereferences `begin()` of an empty string; encoded strings refer to the parameters and dangle if the document outlives them |
| - | datagrams below 8 bytes leave stale header bytes; TCP read results -1 and 0 mishandled |
| c79_blocks_refuted, c79_single_refuted, c79_unlimited_refuted | `image_nr_low`/`image_nr_high` are computed from one block per file: with more blocks per file they name other images than the file holds, with one frame per block they are -1, without a number of frames the highest is 0 (Acquisition.cpp:248-256) |
| c80_chunks_refuted | a chunk larger than a frame passes `validate_dataset_definition`; HDF5 then refuses the dataset and no file can be written |
| c80_blosc_refuted | `frame_num_pixels` is an unsigned int: the blosc filter is told 0 bytes for 65536 x 65536 pixels |
| c81_long_refuted | `recv_raw` copies a part of any length into the decoder's buffer: a sender can write beyond it |
| c81_kind_refuted | with `rx_type` ZMQ and a decoder of another kind, the first message dereferences a null pointer (the cast is not checked) |
| c82_short_refuted, c82_long_refuted | `replay_frames` measures the time of a frame with `time()` in whole seconds: with `--interval 1` the next frame may follow at once, and normally the time of sending comes on top of the interval |
| c83_stale_refuted | parameter values are flushed only with a later value: the last values of an acquisition stay invisible to SWMR readers until the file is closed; `last_flushed` uses local time, so for an hour after the end of summer time nothing is flushed |
| c83_failed_refuted | `last_flushed` is set before H5Dflush: after a failed flush the values of the next second are not flushed and no error is reported for them |
| c84_path_refuted, c84_stable_refuted | a name registered already is served whatever the library asked for; a library loaded for another name may silently replace the class of a name |
| c34_no_params_refuted | `get_param_names` (and `update`) of a message without `params` dereferences the end of the members; such a message is accepted when not strict |
| c50_large_refuted | a port of 2^63 or more in a port list is taken for port 65535 |
