# A formal model of modbus-tk in Rocq (Coq 8.16.1)

## 1. How the code is modelled

The Python 3 code of /repo/modbus_tk is transcribed function by function into total Gallina functions; each definition in a
`*Model.v` file cites the lines it models and says where it simplifies.

* bytes / bytearray are `list Z` (predicate `bytes`: every element in 0..255); Python ints are `Z`; dicts are association lists in
  insertion order; text is Coq's `string` (characters below 256).
* Exceptions are values, `res A := Ok a | Err exn`.  A function that mutates and may raise half-way returns the (possibly
  half-updated) state *and* the result, so that "it failed, but wrote something" can be said.
* Loops are structural recursion.  Loops whose termination is in question take fuel, and running out of fuel (`None`) is
  visible in the statement; `_refuted` theorems about endless loops quantify over all fuel.
* A socket is the list of segments in which bytes arrive and what happens after the last; a serial line is a list of bursts, silences
  and faults.  There is no clock: a timeout is an event.
* Threads are cut into single accesses to shared data and interleaved by an arbitrary schedule (a list of thread numbers); a theorem
  about threads quantifies over all schedules.

### Layout of rocq/theories

| files | contents |
|---|---|
| `Base`, `PyStruct`, `Defines` | Python lists, slices, `struct`, exceptions, constants |
| `SlaveModel`, `DatabankModel`, `QueryModel`, `MasterModel`, `UtilsModel` | ModbusBlock/Slave; Databank and Server._handle; RtuQuery/TcpQuery/TcpMbap; Master.execute; CRC, inter-character delay |
| `TransportModel` | flush_socket, TcpMaster._send/_recv, RtuOverTcpMaster._recv, RtuMaster._recv, TcpServer._do_run, RtuServer._do_run |
| `HooksModel` | hooks.py; Slave, Databank and Server with the hooks they call |
| `ConcModel`, `SharedModel`, `LockModel` | interleaving machine; slave operations access by access; a shared master, a shared databank; the locks |
| `LifecycleModel`, `OpenModel` | Server.start/stop/_run_server, the listening socket; Master.open/close |
| `TextModel`, `SimulatorModel`, `QueueModel` | str/int/split/strip; simulator commands and RPC client; the two queues |
| `*Spec.v` | small specifications, independent of the model's helpers |
| `*Proofs.v`, `*Facts.v`, `*More.v`, `SlaveInv`, `ConcSlave` | lemmas |
| `Prop*.v` | the property theorems, each with an `Example` that meets its hypotheses, and `Print Assumptions` for every theorem |

### Names

`Cnn_...` states (a part of) property Cnn.  `_partial`: true of the code only under the stated restriction; what is missing is in
MANIFEST.json.  `_refuted`: the property is *false of the code*; the theorem exhibits (or characterises) the failing executions.  In
that case the claim is "partial": the refutation and the largest positive part that could be proved stand side by side.

## 2. Trusted base

* Coq's kernel (`vm_compute` is used in proofs of closed computations).
* `Print Assumptions` prints "Closed under the global context" for every property theorem but those of C89 and C103 (the commands are at the end of each `Prop*.v`):
  no axioms, not even of the standard library.  The theorems of C89 (floats) and C103 (native formats) speak of real numbers through Flocq and depend on four axioms of the
  standard library's reals: `ClassicalDedekindReals.sig_forall_dec`, `ClassicalDedekindReals.sig_not_dec`,
  `FunctionalExtensionality.functional_extensionality_dep`, `Classical_Prop.classic`.  The names vcheck lists under `library_axioms` are fields of the module
  `Coq.ssr.ssrunder.Under_rel`, loaded with ssreflect by a standard library file; no theorem depends on them.
* The reading of the code: that the model says what the Python says.  This is the part a reader should check; citations are beside the
  definitions.  It includes `PyStruct.v` (struct.pack/unpack/calcsize), `Base.v` (slices, list operations), `TextModel.v`.
* The specifications (`*Spec.v`) and the statements in `Prop*.v`.
* The assumptions about the environment, stated in the models: TCP delivers the bytes sent in order (in any segmentation) or ends;
  `threading.RLock`, `Event`, `Thread`, `queue.Queue` behave as documented; an access to a dict or list is not interrupted (the GIL).

## 3. What is modelled and what is not

| source | modelled | not modelled |
|---|---|---|
| defines.py, exceptions.py | all | texts of exceptions |
| utils.py | threadsafe_function, flush_socket (lim > 0), swap_bytes, calculate_crc, calculate_rtu_inter_char, get_log_buffer, WorkerThread, the log handlers and create_logger (LoggingModel, C100: the log calls of the TCP server; RtuLoggingModel, C118: of the RTU server; MasterLoggingModel, C119: of the masters) | the log calls of the constructors (modbus_rtu.py 92 and 196, modbus_tcp.py 279) and of simulator.py |
| hooks.py | all | |
| modbus.py Query, Master | execute (all function codes, all keyword arguments; `threadsafe=False` in UnsafeModel, C99), open, close | the `struct` codes e p P (result `NotModelled`; theorems exclude it); c ? s only in BytesModel (C104), float codes f and d only in FloatModel (C89), native formats only in NativeModel (C103); set_timeout of a running call |
| modbus.py ModbusBlock, Slave, Databank, Server | all public calls; memory given by the user, lists shared between block types and between slaves (SharedMemModel, C96), slave objects kept by the application (HandleModel, C126), values that are not integers (ValueModel, C95) | - |
| modbus_rtu.py | RtuQuery, RtuMaster, RtuServer | real time outside RtuTimeModel (C101) and TcpTimeModel (C102); `__del__` |
| modbus_tcp.py | TcpMbap, TcpQuery, TcpMaster, TcpServer | partial `send` outside TornModel (C88); IPv6; the backlog of listen; select errors |
| modbus_rtu_over_tcp.py | all | |
| simulator.py | commands, _handle, queues, CompositeServer, RpcHandler, set_verbose | console I/O, Windows |
| simulator_rpc_client.py | all calls, as in Python 2 (in Python 3 `sock.send(str)` raises; C56 shows what a Python 3 client sending bytes does) | socket timeouts |
| pymodbusclient.py | all calls | |
| hmi/master_webhmi.py and its templates | pages, data base, ports (HmiModel, C97, C98) | the web framework, sqlite's SQL (rows as lists), HTML |
| examples | mysimu.py (MySimuModel, C106), tcpslave_example.py and rtuslave_example.py (ConsoleModel, C107), modbus_system_monitor.py (MonitorModel, C112), tcpmaster_example.py and rtumaster_example.py (MasterExampleModel, C116) | the hooks installed by tcpmaster_example.py (they only log) |
| modbus_tk/__init__.py | - | version |

Further simplifications (each also noted at its definition): hook functions in the request path are functions of their arguments and do
not modify slaves (the registry itself, HooksModel first part, allows anything); hooks in the transports do not raise unless stated; stop()
called from within the server thread only in SelfCallModel (C91); bind() follows Linux with SO_REUSEADDR; text is limited to characters below
256; custom simulator commands are functions.

## 4. Properties: model and method

| id | modelled in | method | outcome |
|----|-------------|--------|---------|
| C01, C02 | SlaveModel (add_block loop with `break`) | counterexample history; invariants over upward/downward histories | refuted + partial |
| C03-C07 | SlaveModel | functional specification per call, invariant by induction over all histories (`reachable`) | proved; C04 negative sizes refuted |
| C08-C15, C61 | SlaveModel handlers | each response characterised against a byte/bit level specification, for all PDUs | proved; C15 order refuted; PropAnswered.v gives C16, C26, C28, C29, C61 as equivalences |
| C16-C23 | handle_request | case analysis over all PDUs, invariants over histories | proved; C16, C18, C21 partly refuted |
| C24-C29 | DatabankModel over QueryModel | case analysis over all byte strings; both protocols | proved; C26, C28, C29 partly refuted |
| C30-C33 | UtilsModel, QueryModel | table-driven CRC = bit-serial polynomial division; GF(2) linearity for error detection (bursts, double bits by order of x) | proved |
| C34-C36 | QueryModel | round trips, iff-characterisation, counter invariant, schedules | proved |
| C37-C44, C62, C63 | MasterModel | encoding/decoding against a specification of the wire; composition with the databank | proved; C42-C44 partly refuted |
| C45-C49, C66, C67 | TransportModel | induction over segments/bursts; fuel-free statements | proved; C47, C49, C67 partly refuted |
| C64, C65 | master + transport + databank | composition; induction over select rounds | proved |
| C50, C51, C68, C69 | HooksModel | functional specification; parametric over hook behaviour | proved; parts refuted |
| C52 | LifecycleModel | invariant over all interleavings of callers and threads, access by access | proved; parts refuted |
| C53 | OpenModel | invariant over all histories of calls and failures | TcpMaster proved; RtuMaster partly refuted |
| C54, C70, C71 | ConcModel, SharedModel | simulation: any interleaving under the lock = some sequential order with the same results | proved; C71 partly refuted |
| C55 | LockModel | lock-order argument over all schedules | partial; refuted for hooks calling slaves |
| C56, C57, C72-C74 | TextModel, SimulatorModel | string lemmas (decimal round trip, split/strip), induction over commands | proved for whole messages; parts refuted |
| C58 | QueueModel | invariant over all schedules of interfaces and simulator | partial; refuted for two interfaces |
| C59 | UtilsModel | exact rationals | proved |
| C60 | SlaveModel (aliasing map) | functional specification | partial; remove_all_blocks un-shares |
| C75- | see section 6 | | |

## 5. Defects of the code found by trying to prove the properties

Each is a theorem `_refuted` (in the file of its property).

* C01/C02: add_block's early exit compares with the first block whose start is above, but blocks are not kept sorted (a block above
  all others is inserted at index 0): overlapping blocks are accepted, and a name can start to denote another block.
* C04: get_values with a negative size returns data.  C15: FC23 reads before it writes.
* C16/C29: function codes 128..255 make the slave, and then the databank, raise struct.error.  C18: a truncated FC15/16/23 request
  writes a prefix and fails.  C21: mask write on a signed slave stores a value that can no longer be read.
* C25: error_on_missing_slave has no effect.  C26/C28: malformed requests are answered with two unframed bytes, broadcasts too.
* C42: the master never compares the function code of the response.  C43: user formats can make READ_FILE_RECORD loop for ever.
  C44: DIAGNOSTIC's default format never fits the echo.
* C47: RtuMaster without timeout raises TypeError.  C49: RtuOverTcpMaster spins for ever when the peer closes.  C67: it turns exception
  responses into timeouts.
* C50/C51/C68: KeyError in a hook is swallowed; a hook that uninstalls itself makes the next be skipped; empty replacements are ignored; a
  ModbusError from modbus.Slave.handle_request becomes UnboundLocalError.
* C52: races between start, stop and the end of the server thread; a failing _do_run leaks the listening socket and no start works again.
* C53: RtuMaster is unusable after the port was closed behind its back.  C55: hooks run under a global lock: deadlocks.
* C56-C58, C74: any line starting with "quit" quits; partial reads truncate numbers; answers cross between interfaces; uninstall_hook ignores
  the function.  C60: remove_all_blocks un-shares memory.  C71: a broadcast can miss slaves when another thread adds one.

## 6. Extensions

Listed with the same columns as they are added.

| id | modelled in | method | outcome |
|----|-------------|--------|---------|
| C75 | RtuStopModel (start/stop/thread of RtuServer, port) | invariant over all interleavings, ranking function | partial; one failed reopen makes stop() hang |
| C76 | SessionModel (calls one after the other on one master, leftovers in the receive buffer) | induction over the session; transaction counter arithmetic | partial; split late reply, wrap-around and serial lines refuted |
| C77 | LinkSpec, DatabankModel, MasterModel | C26 under the transports | partial; "returns" refuted |
| C78 | CompositeModel | projection of each server of the composite to C52; invariant for the first start() | partial, two refutations |
| C79 | SharedModel, ConcModel | linearisation (one_at_a_time) and invariant of the databank object | partial; removal refuted |
| C80 | WorkerModel | invariant over all schedules; termination measure | proved for one caller; stop() with two callers refuted |
| C81 | LogModel | induction; digits and dashes parse uniquely | proved; empty frame refuted |
| C82 | TimeoutModel | invariant over all histories; rational arithmetic | proved for positive timeouts; None and refused values refuted |
| C83 | ClientModel, MasterModel, DatabankModel | composition with the round trips C39, C40 | writes proved; reads refuted |
| C84 | EchoModel, TransportModel, MasterModel | equality of the calls; decoding of the echo | proved for an echo in one piece; rest refuted |
| C85 | NetModel.v, NetSpec.v | invariant over schedules: bytes on the way, transaction counters, the history so far; rank for progress | proved |
| C86 | AvailModel.v | induction over turns: each turn reaches the client or removes one before it | proved except listening (refuted) |
| C87 | BusModel.v | composition of C48 and C24-C26 over stations; induction over conversations | proved; malformed broadcasts and echo refuted |
| C88 | TornModel | C65_partial_request, C45_stalled and C46_one_request applied to the accepted prefix | partial (two calls on one connection merge: refuted) |
| C89 | FloatModel, FloatSpec | struct with float codes over Flocq binary32/binary64; binary_normalize_correct for the rounding; the registers by C62 | proved (axioms of the reals from the standard library) |
| C90 | HookedTcpModel | induction over the ready sockets and over the turns, as C86; C90_as_without ties it to the server of C86 | partial (on_connect and on_error that raise: refuted) |
| C91 | SelfCallModel.v on top of LifecycleModel.v | invariants of all schedules; a measure for termination | partial: stop() raises in the server thread, and kills the server when called in on_exception |
| C92 | GatewayModel.v | invariant (lock order, who holds what while waiting, where every awaited response is) and a decreasing measure; refuted by executions in which only a timeout changes anything | partial |
| C93 | GatewayModel.v | the same invariant; what can stop a thread that does not take the lock of execute | partial |
| C94 | HookedCallModel.v | the exchange as a function of the stream after the request (C66, C45 segmentation lemmas), induction over sessions | proved except for late replies without transaction ids (refuted) |
| C95 | ValueModel.v | simulation of the slave of objects by the slave of integers, for every choice of stand-in integers; direct proof for set_values/get_values | proved; answering masters after such a set_values refuted |
| C96 | SharedMemModel.v | simulation by one slave with relabelled names (for every injective labelling); requests do not depend on names | proved without remove_all_blocks; refuted with it |
| C97 | HmiModel.v | dictionary updates characterised by look-up, induction over the rows; composition with C39 for real devices | proved for successful readings; refuted for refusals in JSON and for malformed rows |
| C98 | HmiModel.v | invariant over all histories of visits | proved; serial masters and stale lists refuted |
| C99 | UnsafeModel.v | invariant over all schedules; a call does not depend on the number its request gets | proved |
| C100 | LoggingModel.v | simulation: the server with its log calls against the server without | partial: a UDP log call can raise |
| C101 | RtuTimeModel.v | timed model: invariants on a clock corrected by the delays | partial: frames between T and 2 T apart are merged; the default timeouts do not fit |
| C102 | TcpTimeModel.v | timed model refined to the untimed one; time counted per operation | partial: the timeout is per byte, not per call; a slow client holds the server |
| C103 | NativeModel.v over FloatModel.v | translation of native formats to explicit ones, then C89; induction over format strings | partial: stored numbers depend on the machine; no overflow check |
| C104 | BytesModel.v | parse of every format of such fields, induction over the fields, then C62_format_round_trip and C13 | partial: texts are padded and cut silently |
| C105 | SlaveModel.v, EndSpec.v | C03, C39, C40 joined by the uniqueness of the serving block in a table without overlaps | partial: blocks that do not overlap, register values |
| C106 | MySimuModel (on SimulatorModel, NativeModel) | the command line is parsed as in C72; the rule is characterised by nth_error; set_pi by computation of struct.pack on both byte orders, read back through C105_read_native_format | proved, with the two misreadings refuted |
| C107 | ConsoleModel | parsing of the typed words (split, int) with the line end on the last word; induction on the session | proved, with the three misbehaviours refuted |
| C108 | WatchModel.v: ModbusBlock.__setitem__ with call_hooks, the six write handlers, handle_request, set_values with a function at the hook | inductive description of the announcements of one call, composed over histories; refinement of the unwatched slave | C108_mirror, C108_before, C108_silent, C108_veto, C108_veto_set, C108_request, C108_set; C108_address_refuted, C108_unchanged_refuted, C108_undone_refuted |
| C109 | SlaveModel.v: handle_request and every handler | every slice a handler reads is the same when bytes are appended, induction over the write loops | C109_tail; C109_refuted |
| C110 | SlaveModel.v: handle_request and the handlers; DatabankModel.v: Databank.handle_request | the write loops are idempotent (induction: what they write is what they would write again), the serving block stays the same | C110_again, C110_frame; C110_refuted, C110_late_refuted |
| C111 | SlaveModel.v: handle_request, the handlers, set_values, get_values | non-interference: two slaves that agree on a set of cells answer alike and still agree (relation preserved by every loop), an act elsewhere preserves the agreement; induction over the history | C111_alone, C111_rest, C111_order; C111_negative_refuted |
| C112 | MonitorModel.v: SystemDataCollector.collect, main (with SimulatorModel.v, DatabankModel.v) | induction over the history with an invariant on the counter and on the registers; each RPC call by C72_set_values; requests by the frame property of the handlers | C112_published, C112_requests; C112_stale_refuted, C112_eleventh_refuted |
| C113 | DatabankModel.v: db_handle_request, broadcast_loop; SlaveModel.v (C111) | non-interference lifted row by row from C111 to the databank, through parsing, dispatch, broadcast loop and response building; induction over the history | C113_alone, C113_units, C113_order |
| C114 | NetModel.v, LinkSpec.v over_tcp, DatabankModel.v | C85 gives a one-by-one history; induction over it with the agreement relation of C113; ranges of calls computed from the prescribed PDUs | C114_alone, C114_all |
| C115 | FdModel.v on AvailModel.v | pigeonhole for the lowest free descriptor, invariant of the descriptors along the run, C86 for serving; explicit crowds for the refutations | C115_capacity_partial, C115_accepted, C115_served; C115_deaf_refuted, C115_ends_refuted |
| C116 | MasterModel.v execute, QueryModel.v parse_response, MasterExampleModel.v | decision table `verdict` in the statement; unpack decided by length for the formats of the calls; parse_response decided by C32/C35 | C116_verdict, C116_not_a_frame, C116_outcomes_partial, C116_example_programs; C116_struct_error_refuted |
| C117 | TransportModel.v, QueryModel.v | C48/C65 histories, filtering of replays by C32; CRC step with the low byte of the register; one-request lemma of C46 for the announced length | C117_rtu, C117_tcp_dropped_partial; C117_zero_bytes_refuted, C117_tcp_swallowed_refuted |
| C118 | RtuLoggingModel.v | the TCP lemmas of C100 for Server._handle; induction on the turns | C118_neutral, C118_log_shows_traffic_partial, C118_log_shows_computed, C118_withheld, C118_levels; C118_unsent_response_refuted, C118_long_request_lost, C118_ends_refuted |
| C119 | MasterLoggingModel.v | one lemma on execute with a logged exchange; induction on the calls of the session; C45, C76, C81 | C119_neutral, C119_neutral_rtu, C119_log_shows_talk, C119_log_tells, C119_reconnect_reported; C119_long_response_refuted |
| C120 | DeviceSpec.v (reference device), EndSpec.v | one simulation step per function code from C08-C16, C39-C41; induction on the calls | C120_session_partial, C120_from_databank_partial; C120_overlap_refuted, C120_limit_refuted, C120_signed_refuted |
| C121 | DeviceSpec.v (reference device), PropPlant.v (plant), SlaveModel.v, EndSpec.v | simulation step per event from C120, C26, C04; induction on the events | C121_plant_partial, C121_from_databank_partial; C121_any_value_refuted |
| C122 | NetModel.v, DeviceSpec.v, PropPlant.v (plant), PropPlantNet.v | C85_one_by_one gives the order; C64_tcp and call_as make each call a round trip; C121 step lemmas | C122_linear_partial |
| C123 | SlaveModel.v, PropMaint.v (histories) | simulation between the slave and the slave without the blocks out of the region (list indices shift), composed with C111; induction on the history | C123_undisturbed; C123_accepted_refuted |
| C124 | SlaveModel.v, MasterModel.v, DatabankModel.v | the storing loop depends on its payload only (induction); case analysis of the two handlers; C39/C40 and the round trip lemmas for the master | C124_one_exchange, C124_two_calls |
| C125 | DatabankModel.v, PropUnits.v | projection of the databank on a set of units; induction on the history | C125_undisturbed |
| C126 | HandleModel.v (objects and the map of unit ids), DatabankModel.v through the view of the objects | invariant (every object registered at most once), refinement to DatabankModel, simulation of two runs that differ in one object | C126_live, C126_detached; C126_tells_refuted |
| C127 | NetModel.v, DatabankModel.v, PropNetUnits.v | C85 (every run is a history of whole calls) with the projection of C125, induction on the history | C127_alone, C127_all |
| C128 | SlaveModel.v, DatabankModel.v, MasterModel.v, BuiltSpec.v, PropBuilt.v | simulation: each call keeps the relation between slave and device; induction on the session | C128_session, C128_from_databank, C128_standard |
| C129 | SlaveModel.v, DatabankModel.v, MasterModel.v, BuiltSpec.v, PropBuiltPlant.v | simulation as in C128, induction on the history | C129_site, C129_from_databank |
| C130 | NetModel.v, BuiltSpec.v, PropBuiltNet.v | linearisation of C85; each call of the order simulated as in C129; the two bytes of a failed call are no frame, so the call times out | C130_linear, C130_from_databank |
| C131 | TransportModel.v, LinkSpec.v, BuiltSpec.v, PropBuiltSerial.v | each exchange over the line simulated as in C129; at most two bytes are no frame | C131_serial, C131_from_databank |
| C132 | BusModel.v, BuiltSpec.v, PropBusSite.v | each exchange on the bus reduced to the exchange with the one station that has the unit (C131), the others unchanged and mute | C132_bus, C132_from_databanks |
| C133 | SimLifeModel.v | invariants over all sequences of turns; a measure of the turns the RPC thread has left | C133_started, C133_closed_partial, C133_ends, C133_raises and five refutations |
| C134 | SimulatorModel.v, BuiltSpec.v, PropRpcSite.v | each RPC call reduced to the call of the API (C72), then C129 | C134_remote, C134_from_simulator |
| C135 | LinkSpec.v, BuiltSpec.v, PropBothSite.v | each event simulated as in C130 or C131 | C135_both, C135_from_databank |
| C136 | BuiltSpec.v, PropBuiltPlant.v, PropConfigSite.v | the databank shows the site up to the order of the areas, kept by every move; events by C129, configuration by the block lemmas | C136_configured, C136_from_nothing |
| C137 | LinkSpec.v, BuiltSpec.v, PropConfigBoth.v | calls as in C135, configuration as in C136 | C137_configured, C137_from_nothing |
| C138 | SimulatorModel.v, BuiltSpec.v, PropRpcConfig.v | each RPC call by C72, its effect on the site by C136; calls of masters as in C134 | C138_remote, C138_from_nothing |
