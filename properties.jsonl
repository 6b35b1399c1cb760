{"id": "C01", "title": "add_block never lets two blocks of one type share an address", "statement": "After any sequence of Slave.add_block / remove_block / remove_all_blocks / set_values / get_values / handle_request calls on a fresh slave, no address of a given block type belongs to two blocks; equivalently add_block raises OverlapModbusBlockError whenever the requested range meets an existing block of that type.", "quantifier": "all histories of slave API calls, all addresses and sizes", "why_tests_cant": "Whether an overlap is noticed depends on the order in which blocks were added; tests try one or two orders out of unboundedly many.", "anchors": ["modbus_tk/modbus.py:Slave.add_block", "modbus_tk/modbus.py:ModbusBlock.is_in"]}
{"id": "C02", "title": "A block name keeps denoting the block it was created for", "statement": "A successful add_block(name, type, start, size) makes get_values(name, start, size) return size zeros, and until remove_block(name)/remove_all_blocks, adding or removing blocks under other names changes neither what get_values(name, ..) returns nor which ranges it accepts.", "quantifier": "all histories of block additions and removals", "why_tests_cant": "Names are resolved through (type, start); aliasing needs a particular history.", "anchors": ["modbus_tk/modbus.py:Slave.add_block", "modbus_tk/modbus.py:Slave._get_block", "modbus_tk/modbus.py:Slave.remove_block"]}
{"id": "C03", "title": "set_values then get_values reads back exactly, and nothing else moves", "statement": "If set_values(name, a, vs) succeeds then get_values(name, a, len vs) returns vs, every other address of that block and every other block of the slave keeps its value, and no block changes range.", "quantifier": "all slave states, names, addresses and value lists (or a scalar)", "why_tests_cant": "Frame conditions quantify over all addresses that were not written.", "anchors": ["modbus_tk/modbus.py:Slave.set_values", "modbus_tk/modbus.py:Slave.get_values", "modbus_tk/modbus.py:ModbusBlock.__setitem__"]}
{"id": "C04", "title": "set_values / get_values accept exactly the ranges inside the named block", "statement": "set_values raises OutOfModbusBlockError iff the addressed range is not inside the named block and then changes nothing; get_values(name, a, n) raises it iff the range is not inside the block, and otherwise returns exactly n values; an unknown name raises MissingKeyError.", "quantifier": "all states, names, addresses, lengths (including zero and negative)", "why_tests_cant": "Boundary behaviour over all integers, including negative sizes and Python's negative slice bounds.", "anchors": ["modbus_tk/modbus.py:Slave.set_values", "modbus_tk/modbus.py:Slave.get_values"]}
{"id": "C05", "title": "add_block validates its arguments and is all-or-nothing", "statement": "add_block raises InvalidArgumentError for size<=0 or start<0, DuplicatedKeyError for a used name, InvalidModbusBlockError for an unknown type, in that order of precedence, and whenever it raises, no later API call can tell that it was attempted.", "quantifier": "all states and arguments", "why_tests_cant": "No finite set of arguments covers the precedence and the no-effect guarantee.", "anchors": ["modbus_tk/modbus.py:Slave.add_block"]}
{"id": "C06", "title": "remove_block and remove_all_blocks remove exactly what they name", "statement": "remove_block(name) raises MissingKeyError iff the name is unknown; otherwise afterwards the name is unknown, all other names and the contents of the other blocks are untouched, and the freed range can be added again; remove_all_blocks leaves no name and no readable address.", "quantifier": "all reachable slave states", "why_tests_cant": "Depends on histories that created the state.", "anchors": ["modbus_tk/modbus.py:Slave.remove_block", "modbus_tk/modbus.py:Slave.remove_all_blocks"]}
{"id": "C07", "title": "Every block keeps as many cells as its declared size", "statement": "In every reachable state each block holds exactly `size` values, size>0, start>=0, and every registered name resolves to a block of the registered type and start (the 'Bug?' exception is unreachable).", "quantifier": "all reachable slave states, through API calls and remote requests", "why_tests_cant": "An invariant over all histories.", "anchors": ["modbus_tk/modbus.py:ModbusBlock", "modbus_tk/modbus.py:Slave._get_block"]}
{"id": "C08", "title": "Read registers (FC3/FC4) returns exactly the stored registers", "statement": "For 1<=n<=125 registers lying in one block of the right type whose values fit a register, the response is fc, 2n, then the n big-endian register values in address order, and nothing changes; n=0 or n>125 yields exception 3; a range not inside a single block yields exception 2 (3 taking precedence); bytes after the first five of the request are ignored.", "quantifier": "all states, addresses, counts and trailing bytes", "why_tests_cant": "65536x65536 (address,count) pairs times all memory contents.", "anchors": ["modbus_tk/modbus.py:Slave._read_registers", "modbus_tk/modbus.py:Slave._get_block_and_offset"]}
{"id": "C09", "title": "Read bits (FC1/FC2) packs bits LSB first and pads with zeros", "statement": "For 1<=n<=2000 bits lying in one block, the response is fc, ceil(n/8), then bytes whose bit k mod 8 of byte k/8 is 1 iff the k-th stored value is nonzero, unused high bits being 0, identically for signed and unsigned slaves; other counts yield exception 3 and uncovered ranges exception 2; nothing changes.", "quantifier": "all states, addresses, counts", "why_tests_cant": "All lengths modulo 8 and all contents.", "anchors": ["modbus_tk/modbus.py:Slave._read_digital"]}
{"id": "C10", "title": "Write single coil (FC5)", "statement": "Value 0xFF00 sets and 0x0000 clears exactly the addressed coil and the response echoes the request; any other value yields exception 3, an address in no coil block exception 2, and in both cases nothing changes.", "quantifier": "all states and requests", "why_tests_cant": "All addresses and values and the frame condition.", "anchors": ["modbus_tk/modbus.py:Slave._write_single_coil"]}
{"id": "C11", "title": "Write single register (FC6)", "statement": "The addressed holding register takes the 16-bit value (two's complement reading on a signed slave), nothing else changes, the response echoes the request; an uncovered address yields exception 2 and changes nothing.", "quantifier": "all states and requests", "why_tests_cant": "All addresses and values and the frame condition.", "anchors": ["modbus_tk/modbus.py:Slave._write_single_register"]}
{"id": "C12", "title": "Write multiple coils (FC15)", "statement": "With 1<=n<=1968, matching byte count, a range inside one coil block and enough data bytes, coil a+k becomes bit k (LSB first) for k<n and nothing else changes (padding bits ignored); the response is fc, address, n; a bad count or byte count yields exception 3, an uncovered range exception 2, changing nothing.", "quantifier": "all states, counts, data", "why_tests_cant": "All lengths modulo 8, contents, signed and unsigned slaves.", "anchors": ["modbus_tk/modbus.py:Slave._write_multiple_coils"]}
{"id": "C13", "title": "Write multiple registers (FC16)", "statement": "With 1<=n<=123, byte count 2n, a range inside one block and at least 2n data bytes, register a+k takes the k-th big-endian word and nothing else changes; the response is fc, address, n; otherwise exception 3 or 2 and nothing changes.", "quantifier": "all states, counts, data", "why_tests_cant": "All lengths and contents.", "anchors": ["modbus_tk/modbus.py:Slave._write_multiple_registers"]}
{"id": "C14", "title": "Mask write register (FC22)", "statement": "The addressed register takes (old AND and_mask) OR (or_mask AND NOT and_mask) bit by bit, nothing else changes, the response echoes the request; uncovered address: exception 2, nothing changes.", "quantifier": "all register values and masks", "why_tests_cant": "2^48 combinations.", "anchors": ["modbus_tk/modbus.py:Slave._mask_write_register"]}
{"id": "C15", "title": "Read/write multiple registers (FC23)", "statement": "With valid counts and covered ranges the write range takes the given words, nothing else changes, and the returned words are the values the read range held; the Modbus specification requires the write to be performed before the read.", "quantifier": "all states, overlapping and disjoint ranges", "why_tests_cant": "Only overlapping read/write ranges tell the two orders apart.", "anchors": ["modbus_tk/modbus.py:Slave._read_write_multiple_registers"]}
{"id": "C16", "title": "Every request with a function code gets an answer, unsupported ones exception 1", "statement": "Slave.handle_request on a non-empty PDU whose function code is not supported returns fc+128, 1 and changes nothing, for every function code 0..255.", "quantifier": "all function codes and payloads", "why_tests_cant": "Needs every function code, including those >= 128.", "anchors": ["modbus_tk/modbus.py:Slave.handle_request"]}
{"id": "C17", "title": "An exception response means nothing was written", "statement": "Whenever Slave.handle_request returns an exception PDU (fc+128, code), all memory is as before; and in that case code is 1, 2 or 3.", "quantifier": "all states and PDUs", "why_tests_cant": "All PDUs, including malformed ones.", "anchors": ["modbus_tk/modbus.py:Slave.handle_request"]}
{"id": "C18", "title": "A request that fails writes nothing (atomicity)", "statement": "Whenever a request is not answered positively - including truncated requests answered with 'slave device failure' - no register or coil has changed.", "quantifier": "all states and PDUs, including truncated ones", "why_tests_cant": "Requires every truncation point of every request.", "anchors": ["modbus_tk/modbus.py:Slave._write_multiple_registers", "modbus_tk/modbus.py:Slave._write_multiple_coils", "modbus_tk/modbus.py:Slave._read_write_multiple_registers"]}
{"id": "C19", "title": "Read requests never modify the slave", "statement": "FC1, 2, 3, 4, 7 and all unsupported codes leave the slave unchanged whatever the payload.", "quantifier": "all states and PDUs", "why_tests_cant": "All PDUs.", "anchors": ["modbus_tk/modbus.py:Slave.handle_request"]}
{"id": "C20", "title": "A request touches only addresses it names, and never the block structure", "statement": "For every PDU, cells outside the table and the address range named in the request keep their values and no block appears, disappears, moves or changes size, even when the request fails halfway.", "quantifier": "all states and PDUs", "why_tests_cant": "Frame condition over all PDUs.", "anchors": ["modbus_tk/modbus.py:Slave.handle_request", "modbus_tk/modbus.py:Slave._get_block_and_offset"]}
{"id": "C21", "title": "Registers written over the wire can always be read back", "statement": "If all stored registers fit the slave's signedness then after any remote request they still do, so no read request fails with a packing error.", "quantifier": "all request histories, signed and unsigned slaves", "why_tests_cant": "Invariant over histories; fails only for special masks on signed slaves.", "anchors": ["modbus_tk/modbus.py:Slave._mask_write_register", "modbus_tk/modbus.py:Slave._read_registers"]}
{"id": "C22", "title": "A register request is served iff it lies inside one block", "statement": "In a slave whose blocks do not overlap, the block used to serve a request is the unique block containing the whole range, independent of the order in which blocks were added; a range spanning two adjacent blocks is refused.", "quantifier": "all block layouts and insertion orders", "why_tests_cant": "All layouts.", "anchors": ["modbus_tk/modbus.py:Slave._get_block_and_offset"]}
{"id": "C23", "title": "Response PDUs are well-formed byte strings of bounded size", "statement": "Every PDU returned for a request PDU consists of bytes, starts with fc or fc+128, and is at most max(252, length of the request) bytes long.", "quantifier": "all states and PDUs", "why_tests_cant": "All PDUs.", "anchors": ["modbus_tk/modbus.py:Slave.handle_request"]}
{"id": "C24", "title": "Requests are routed to the addressed slave only", "statement": "A non-broadcast request for unit u changes at most slave u, and the response is slave u's response framed for u.", "quantifier": "all databanks, requests, protocols", "why_tests_cant": "All ids and payloads.", "anchors": ["modbus_tk/modbus.py:Databank.handle_request"]}
{"id": "C25", "title": "Requests for an absent slave get no response and change nothing", "statement": "With no slave of that id the server sends nothing and no slave changes; error_on_missing_slave makes no difference to this.", "quantifier": "all databanks and requests", "why_tests_cant": "All ids.", "anchors": ["modbus_tk/modbus.py:Databank.handle_request"]}
{"id": "C26", "title": "Broadcast writes reach every slave and are never answered", "statement": "A request for unit 0 is executed on every slave of the databank and produces no response bytes, whatever its payload.", "quantifier": "all databanks, payloads", "why_tests_cant": "Malformed payloads matter.", "anchors": ["modbus_tk/modbus.py:Databank.handle_request", "modbus_tk/modbus.py:Slave.handle_request"]}
{"id": "C27", "title": "Slave registry behaves like a map with ids 1..255", "statement": "add_slave succeeds iff 1<=id<=255 and the id is free; get_slave returns the slave last added under the id until removed; other ids are unaffected; failures change nothing.", "quantifier": "all operation histories", "why_tests_cant": "Histories.", "anchors": ["modbus_tk/modbus.py:Databank.add_slave", "modbus_tk/modbus.py:Databank.get_slave", "modbus_tk/modbus.py:Databank.remove_slave", "modbus_tk/modbus.py:Databank.remove_all_slaves"]}
{"id": "C28", "title": "Every response the server sends is a frame the master can parse", "statement": "Whenever handle_request returns a non-empty response to a request built by a master, that master's parse_response accepts it.", "quantifier": "all requests and states", "why_tests_cant": "Rare failure paths.", "anchors": ["modbus_tk/modbus.py:Databank.handle_request", "modbus_tk/modbus_rtu.py:RtuQuery", "modbus_tk/modbus_tcp.py:TcpQuery"]}
{"id": "C29", "title": "Databank.handle_request never raises", "statement": "Whatever bytes arrive, Databank.handle_request returns (a response or nothing) instead of raising.", "quantifier": "all byte strings, both protocols", "why_tests_cant": "All byte strings.", "anchors": ["modbus_tk/modbus.py:Databank.handle_request"]}
{"id": "C30", "title": "calculate_crc is CRC-16/MODBUS", "statement": "For every byte string calculate_crc equals the bit-serial CRC with reflected polynomial 0xA001 and initial value 0xFFFF, with its two bytes swapped so that packing it big-endian puts the low byte first.", "quantifier": "all byte strings of any length", "why_tests_cant": "Unbounded inputs.", "anchors": ["modbus_tk/utils.py:calculate_crc", "modbus_tk/utils.py:swap_bytes"]}
{"id": "C31", "title": "RTU framing round-trips", "statement": "parse_request(build_request(pdu, slave)) = (slave, pdu) and parse_response(build_response(pdu)) = pdu for the same address, for every byte string and address 0..255; other addresses raise InvalidArgumentError; a response from another address is rejected.", "quantifier": "all PDUs and addresses", "why_tests_cant": "Unbounded inputs.", "anchors": ["modbus_tk/modbus_rtu.py:RtuQuery"]}
{"id": "C32", "title": "RTU accepts a frame iff it has three bytes and the right CRC", "statement": "parse_request succeeds iff length >= 3 and the last two bytes are the CRC (low byte first) of the others; otherwise ModbusInvalidRequestError, nothing is executed and nothing is answered.", "quantifier": "all byte strings", "why_tests_cant": "Unbounded inputs.", "anchors": ["modbus_tk/modbus_rtu.py:RtuQuery.parse_request", "modbus_tk/modbus_rtu.py:RtuQuery.parse_response"]}
{"id": "C33", "title": "RTU detects line errors", "statement": "Flipping any odd number of bits, any burst of at most 16 bits, or any two bits of a valid frame of at most 4095 bytes makes the receiver reject it.", "quantifier": "all frames and all error patterns in those classes", "why_tests_cant": "Astronomically many patterns.", "anchors": ["modbus_tk/utils.py:calculate_crc", "modbus_tk/modbus_rtu.py:RtuQuery"]}
{"id": "C34", "title": "TCP framing round-trips", "statement": "parse_request(build_request(pdu, unit)) = (unit, pdu); build_response carries the request's transaction, protocol and unit ids and the length, and the requesting query's parse_response returns the pdu.", "quantifier": "all PDUs up to 65534 bytes, units, transaction ids", "why_tests_cant": "Unbounded inputs.", "anchors": ["modbus_tk/modbus_tcp.py:TcpQuery", "modbus_tk/modbus_tcp.py:TcpMbap"]}
{"id": "C35", "title": "A TCP response is accepted iff its header matches the request", "statement": "parse_response succeeds iff the response is longer than six bytes and its transaction id, protocol id, unit id equal those of the request and its length field equals the number of following bytes.", "quantifier": "all byte strings", "why_tests_cant": "Unbounded inputs.", "anchors": ["modbus_tk/modbus_tcp.py:TcpMbap.check_response", "modbus_tk/modbus_tcp.py:TcpQuery.parse_response"]}
{"id": "C36", "title": "Transaction ids do not repeat within 65536 requests", "statement": "Any 65536 consecutive requests, issued from any threads in any interleaving, carry pairwise different ids in 0..65535; hence a late response to any of the previous 65535 requests is rejected.", "quantifier": "all histories and interleavings", "why_tests_cant": "Needs 65536 steps and all schedules.", "anchors": ["modbus_tk/modbus_tcp.py:TcpQuery._get_transaction_id", "modbus_tk/utils.py:threadsafe_function"]}
{"id": "C37", "title": "Master request encoding", "statement": "For every supported function code and valid arguments, execute sends the PDU prescribed by the Modbus specification (including negative values in two's complement and LSB-first bit packing); arguments outside the encodable range raise and nothing is sent.", "quantifier": "all function codes and arguments", "why_tests_cant": "All arguments.", "anchors": ["modbus_tk/modbus.py:Master.execute"]}
{"id": "C38", "title": "Master read decoding", "statement": "execute(READ_*) returns exactly the registers (or the requested number of bits) contained in the response, and raises ModbusInvalidResponseError when the byte count differs from the data present.", "quantifier": "all responses", "why_tests_cant": "All byte strings.", "anchors": ["modbus_tk/modbus.py:Master.execute"]}
{"id": "C39", "title": "End to end: what the master reads is what the slave stores", "statement": "Against a databank in which unit u holds the range, execute(u, READ_x, a, n) over RTU or TCP returns the n stored values (bits as 0/1, registers modulo 2^16) and changes nothing.", "quantifier": "all databanks, ranges, contents, protocols", "why_tests_cant": "Composition over all inputs.", "anchors": ["modbus_tk/modbus.py:Master.execute", "modbus_tk/modbus.py:Databank.handle_request"]}
{"id": "C40", "title": "End to end: a write is visible to the next read", "statement": "After execute(u, WRITE_x, a, values) over RTU or TCP returns, execute(u, READ_x, a, len) returns those values (modulo 2^16, bits as 0/1) and every other cell is unchanged.", "quantifier": "all databanks, ranges, values, protocols", "why_tests_cant": "Composition over all inputs.", "anchors": ["modbus_tk/modbus.py:Master.execute", "modbus_tk/modbus.py:Slave.handle_request"]}
{"id": "C41", "title": "Slave exceptions surface as ModbusError with the same code", "statement": "If the slave answers with exception code c, execute raises ModbusError whose get_exception_code() is c; if execute returns normally the slave's response was not an exception.", "quantifier": "all requests", "why_tests_cant": "All requests.", "anchors": ["modbus_tk/modbus.py:Master.execute"]}
{"id": "C42", "title": "Master accepts only a response to the function it requested", "statement": "execute returns data only if the response's function code equals the requested one.", "quantifier": "all responses", "why_tests_cant": "All byte strings.", "anchors": ["modbus_tk/modbus.py:Master.execute"]}
{"id": "C43", "title": "Read file record (FC20) decoding", "statement": "For every list of records, execute(READ_FILE_RECORD) given the response prescribed by the specification returns the records, one tuple per sub-request; the decoding loop terminates on every response.", "quantifier": "all record lists and responses", "why_tests_cant": "Unbounded.", "anchors": ["modbus_tk/modbus.py:Master.execute"]}
{"id": "C44", "title": "Diagnostic (FC8) with default arguments decodes the echo", "statement": "execute(DIAGNOSTIC, sub, output_value=data) given the echo prescribed by the specification returns the data.", "quantifier": "all sub-functions and data", "why_tests_cant": "No slave-side implementation exists to test against.", "anchors": ["modbus_tk/modbus.py:Master.execute"]}
{"id": "C45", "title": "TCP master reads exactly one frame", "statement": "Whatever the split of the byte stream, TcpMaster receives exactly 6+length bytes and leaves the rest for later; on early end of stream the partial frame is rejected by parse_response.", "quantifier": "all streams", "why_tests_cant": "All splits.", "anchors": ["modbus_tk/modbus_tcp.py:TcpMaster._recv"]}
{"id": "C46", "title": "TCP server extracts the same requests however the stream is split", "statement": "From a connection carrying concatenated frames, successive server iterations hand exactly those frames to the databank in order.", "quantifier": "all frame sequences", "why_tests_cant": "All sequences.", "anchors": ["modbus_tk/modbus_tcp.py:TcpServer._do_run"]}
{"id": "C47", "title": "RTU master reassembles a response from any fragmentation", "statement": "If the serial port delivers the expected_length-byte response in any non-empty pieces, RtuMaster receives exactly that response; a shorter response (e.g. an exception) followed by silence is delivered intact.", "quantifier": "all fragmentations", "why_tests_cant": "All splits.", "anchors": ["modbus_tk/modbus_rtu.py:RtuMaster._recv"]}
{"id": "C48", "title": "RTU server reassembles a request from any fragmentation and answers at most once", "statement": "The bytes received between two silences are handed to the databank as one request; the response is written iff non-empty and no new byte is waiting.", "quantifier": "all fragmentations", "why_tests_cant": "All splits.", "anchors": ["modbus_tk/modbus_rtu.py:RtuServer._do_run"]}
{"id": "C49", "title": "RTU-over-TCP master terminates when the peer closes the connection", "statement": "RtuOverTcpMaster's receive returns or raises when the peer closes the connection before the response is complete.", "quantifier": "all prefixes of a response", "why_tests_cant": "Non-termination cannot be observed by a finite test.", "anchors": ["modbus_tk/modbus_rtu_over_tcp.py:RtuOverTcpMaster._recv"]}
{"id": "C50", "title": "Hooks: first non-None result wins, in installation order", "statement": "call_hooks(name, args) calls the functions installed under that name, in order, until one returns a non-None value, which it returns; install/uninstall of other names has no influence; exceptions raised by a hook propagate.", "quantifier": "all registries and hook behaviours", "why_tests_cant": "All histories and hook behaviours.", "anchors": ["modbus_tk/hooks.py:install_hook", "modbus_tk/hooks.py:uninstall_hook", "modbus_tk/hooks.py:call_hooks"]}
{"id": "C51", "title": "A request/response hook can replace or suppress what is sent", "statement": "If before/after_handle_request, handle_request or before_write hooks return a value other than None, that value is used in place of the original; with no hooks installed they have no effect.", "quantifier": "all hook results, including empty ones", "why_tests_cant": "Empty replacement values.", "anchors": ["modbus_tk/modbus.py:Server._handle", "modbus_tk/modbus.py:Slave.handle_request", "modbus_tk/modbus_rtu.py:RtuServer._do_run"]}
{"id": "C52", "title": "Server start/stop can be repeated", "statement": "From any reachable state, after stop() returns the server thread is not running and start() works again; stop() on a stopped server has no effect and never raises.", "quantifier": "all interleavings of user calls and server-thread failures", "why_tests_cant": "Races.", "anchors": ["modbus_tk/modbus.py:Server.start", "modbus_tk/modbus.py:Server.stop", "modbus_tk/modbus.py:Server._run_server"]}
{"id": "C53", "title": "Master open/close discipline", "statement": "execute opens the link when needed; after close() the link is closed and the next execute reopens it, also when the port was closed behind the master's back.", "quantifier": "all histories of open/close/execute and external closes", "why_tests_cant": "Histories.", "anchors": ["modbus_tk/modbus.py:Master.open", "modbus_tk/modbus.py:Master.close", "modbus_tk/modbus_rtu.py:RtuMaster._do_close", "modbus_tk/modbus_tcp.py:TcpMaster._do_close"]}
{"id": "C54", "title": "Slave operations are atomic under any thread schedule", "statement": "set_values, get_values, add_block, remove_block and handle_request called from any number of threads give results equal to executing them one at a time in some order; no torn multi-register reads or writes.", "quantifier": "all programs of all threads and all schedules", "why_tests_cant": "Schedules.", "anchors": ["modbus_tk/modbus.py:Slave._data_lock users"]}
{"id": "C55", "title": "No deadlock between slave locks and the hook lock", "statement": "Threads calling slave operations and the server never deadlock, whatever the installed hooks do.", "quantifier": "all schedules and hook behaviours", "why_tests_cant": "Schedules.", "anchors": ["modbus_tk/hooks.py:call_hooks", "modbus_tk/modbus.py:Slave"]}
{"id": "C56", "title": "Simulator answers every command exactly once, in order", "statement": "Each command line other than quit produces exactly one answer, 'X done: ..', 'X error: ..' or 'error: unknown command X', and a failing command does not stop the simulator.", "quantifier": "all command sequences, from console or RPC", "why_tests_cant": "All sequences.", "anchors": ["modbus_tk/simulator.py:Simulator._handle", "modbus_tk/simulator.py:RpcHandler.handle"]}
{"id": "C57", "title": "Simulator set_values/get_values commands round-trip through text", "statement": "SimulatorRpcClient.set_values followed by get_values returns the same integers for every list of integers, slave, block name without spaces, and address in range.", "quantifier": "all integers, names, addresses", "why_tests_cant": "Unbounded.", "anchors": ["modbus_tk/simulator.py:Simulator._do_set_values", "modbus_tk/simulator.py:Simulator._tuple_to_str", "modbus_tk/simulator_rpc_client.py:SimulatorRpcClient.get_values"]}
{"id": "C58", "title": "Simulator answers go to whoever asked", "statement": "An answer produced for one interface (console or RPC client) is delivered to that interface.", "quantifier": "all interleavings of console, RPC and simulator", "why_tests_cant": "Schedules.", "anchors": ["modbus_tk/simulator.py:RpcHandler.handle", "modbus_tk/simulator.py:ConsoleInterface.run"]}
{"id": "C59", "title": "Inter-character delay is at least half a millisecond", "statement": "calculate_rtu_inter_char(b) is 11/b seconds up to 19200 baud and 0.5 ms above, hence at least 0.5 ms for every positive baud rate and non-increasing in b.", "quantifier": "all baud rates", "why_tests_cant": "All rates.", "anchors": ["modbus_tk/utils.py:calculate_rtu_inter_char"]}
{"id": "C60", "title": "Shared memory: block types given the same list share blocks", "statement": "A slave built with a memory map in which several types refer to one list serves the same cells under all these types, and add_block refuses overlaps across them.", "quantifier": "all alias maps and histories", "why_tests_cant": "All alias maps.", "anchors": ["modbus_tk/modbus.py:Slave.__init__", "modbus_tk/modbus.py:Slave.remove_all_blocks"]}
{"id": "C61", "title": "A slave answers every well-formed request", "statement": "On a slave whose tables all exist and whose registers are storable, every well-formed request PDU (supported or not, function code below 128) is answered: with a positive response or with fc+128 and code 1, 2 or 3; Slave.handle_request never raises on it.", "quantifier": "all reachable slaves, all well-formed PDUs", "why_tests_cant": "All payloads and memory states.", "anchors": ["modbus_tk/modbus.py:Slave.handle_request"]}
{"id": "C62", "title": "Formatted values round-trip through registers", "statement": "For every struct format f and values that pack into whole registers, execute(WRITE_MULTIPLE_REGISTERS, a, output_value=vals, data_format=f) followed by execute(READ_HOLDING_REGISTERS, a, n, data_format=f) returns vals (or, with returns_raw, the packed bytes).", "quantifier": "all integer struct formats, values, databanks, addresses, protocols", "why_tests_cant": "The formats and the values are unbounded.", "anchors": ["modbus_tk/modbus.py:Master.execute"]}
{"id": "C63", "title": "The expected response length is that of the normal response", "statement": "For every call whose normal response has a length fixed by the request, the expected_length that execute hands to the receiver is the length of that response on a serial line (address, PDU, checksum).", "quantifier": "all calls and arguments", "why_tests_cant": "All quantities and addresses.", "anchors": ["modbus_tk/modbus.py:Master.execute", "modbus_tk/modbus_rtu.py:RtuMaster._recv"]}
{"id": "C64", "title": "A call over a socket or serial line behaves as a direct call", "statement": "For every call the master can send, and however the TCP connection or the serial line cuts request and response into pieces, execute returns what it would return if the server handled the request directly, and the server's databank ends in the same state.", "quantifier": "all calls, databanks, unit ids and all fragmentations of both directions", "why_tests_cant": "All fragmentations and calls.", "anchors": ["modbus_tk/modbus.py:Master.execute", "modbus_tk/modbus_tcp.py:TcpMaster._recv", "modbus_tk/modbus_tcp.py:TcpServer._do_run", "modbus_tk/modbus_rtu.py:RtuMaster._recv", "modbus_tk/modbus_rtu.py:RtuServer._do_run"]}
{"id": "C65", "title": "The TCP server's databank sees a serial history of complete requests", "statement": "For every sequence of accepts, segments, disconnects and errors of any number of clients, the databank goes through exactly the successive handling of the complete requests that were received, one at a time; partial requests and disconnections leave it unchanged.", "quantifier": "all schedules of all clients", "why_tests_cant": "All schedules.", "anchors": ["modbus_tk/modbus_tcp.py:TcpServer._do_run"]}
{"id": "C66", "title": "Stale bytes never reach the next TCP call", "statement": "When TcpMaster sends a request, no byte that was waiting in the connection before the send can be taken for its response: waiting bytes are discarded, and the connection is reopened exactly when the peer closed it or too many bytes are waiting.", "quantifier": "all connection contents", "why_tests_cant": "All leftovers of earlier exchanges.", "anchors": ["modbus_tk/modbus_tcp.py:TcpMaster._send", "modbus_tk/utils.py:flush_socket"]}
{"id": "C67", "title": "RtuOverTcpMaster delivers exception responses", "statement": "An exception response sent by the peer instead of the normal response is returned by RtuOverTcpMaster's receive (and so raised as ModbusError by execute).", "quantifier": "all calls", "why_tests_cant": "All calls and fragmentations.", "anchors": ["modbus_tk/modbus_rtu_over_tcp.py:RtuOverTcpMaster._recv"]}
{"id": "C68", "title": "A hook can refuse a request with a Modbus exception", "statement": "If a hook installed on a slave's request handling raises ModbusError(code), the client receives the exception response with that code and no cell is changed.", "quantifier": "all hooks, requests and slave states", "why_tests_cant": "All hook behaviours and points where they are called.", "anchors": ["modbus_tk/modbus.py:Slave.handle_request", "modbus_tk/modbus.py:ModbusBlock.__setitem__", "modbus_tk/hooks.py:call_hooks"]}
{"id": "C69", "title": "Hooks cannot make a request write elsewhere", "statement": "Whatever hooks return or raise while a request is handled, no cell outside the table and address range named by the request changes and the blocks keep their shape.", "quantifier": "all hook outcomes at every call, all requests, all reachable slaves", "why_tests_cant": "All hook behaviours.", "anchors": ["modbus_tk/modbus.py:Slave.handle_request", "modbus_tk/modbus.py:ModbusBlock.__setitem__"]}
{"id": "C70", "title": "Threads sharing a master each get their own answer", "statement": "When several threads call execute on one master (default threadsafe=True), every call returns what it would return if the calls were made one after the other; no call ever receives the response to another call.", "quantifier": "all programs of all threads, all schedules, both protocols", "why_tests_cant": "Schedules.", "anchors": ["modbus_tk/modbus.py:Master.execute", "modbus_tk/utils.py:threadsafe_function"]}
{"id": "C71", "title": "A broadcast reaches every slave while other threads use the databank", "statement": "Databank.handle_request for unit 0 hands the request to every slave that is in the databank during the whole call exactly once, whatever other threads do with the databank and the slaves.", "quantifier": "all schedules and programs of other threads, including adding and removing slaves", "why_tests_cant": "Schedules.", "anchors": ["modbus_tk/modbus.py:Databank.handle_request", "modbus_tk/modbus.py:Databank.add_slave", "modbus_tk/modbus.py:Databank.remove_slave"]}
{"id": "C72", "title": "Every RPC client call does what the direct call does", "statement": "Each SimulatorRpcClient method (add_slave, remove_slave, remove_all_slaves, has_slave, add_block, remove_block, remove_all_blocks, set_values, get_values, install_hook) makes exactly the change the corresponding direct API call makes on the server's databank or hooks and returns its result, or raises exactly when the direct call raises.", "quantifier": "all simulator states, ids, names without spaces, addresses, values; all custom commands under other names; messages that arrive whole", "why_tests_cant": "Unbounded integers, names and states; passes through text encoding and two protocols.", "anchors": ["modbus_tk/simulator_rpc_client.py:SimulatorRpcClient", "modbus_tk/simulator.py:Simulator._handle"]}
{"id": "C73", "title": "A failed simulator command changes nothing", "statement": "When a builtin simulator command answers 'error', the server's slaves, blocks, values, hooks and verbosity are as before; whatever it answers, the databank stays one that API calls could have produced.", "quantifier": "all commands, argument lists (also malformed), reachable databanks", "why_tests_cant": "All argument lists and states.", "anchors": ["modbus_tk/simulator.py:Simulator._do_set_values", "modbus_tk/simulator.py:Simulator._do_add_block", "modbus_tk/simulator.py:Simulator._handle"]}
{"id": "C74", "title": "RPC uninstall_hook removes what it is asked to remove", "statement": "SimulatorRpcClient.uninstall_hook(hook_name) removes every function installed under the name and nothing else; with a function name it removes that function only.", "quantifier": "all simulator states, hook and function names without spaces", "why_tests_cant": "All registries.", "anchors": ["modbus_tk/simulator_rpc_client.py:SimulatorRpcClient.uninstall_hook", "modbus_tk/simulator.py:Simulator._do_uninstall_hook"]}
{"id": "C75", "title": "RtuServer.stop() returns on a silent line", "statement": "After RtuServer.start(), a call of RtuServer.stop() returns and the server thread has ended, however the thread and the caller interleave, even if nothing is ever received again (the thread may be in a read without timeout) and whatever reads have failed before.", "quantifier": "every interleaving of start(), stop() and the server thread, every sequence of receptions, read failures and reopen failures", "why_tests_cant": "A test exercises a few timings; the thread can be at any line when stop() is called, and stop() must neither miss the blocked read nor hang.", "anchors": ["modbus_tk/modbus_rtu.py:RtuServer.start", "modbus_tk/modbus_rtu.py:RtuServer.stop", "modbus_tk/modbus_rtu.py:RtuServer._do_run", "modbus_tk/modbus.py:Server.stop"]}
{"id": "C76", "title": "A response is never taken for the answer to another call", "statement": "In any session of calls on one TcpMaster, whatever timed out or failed before and in whatever order late responses arrive, a call returns (or raises the ModbusError of) the response to its own request, or raises a transport exception; and a call whose response is the first thing to arrive after its request gets it, whatever happened in earlier calls.", "quantifier": "all sessions (any number of calls, any arguments), all arrival orders, losses, repetitions, segmentations and reconnections", "why_tests_cant": "Late responses depend on timing across calls; tests see a few timings and never 65536 calls.", "anchors": ["modbus_tk/modbus_tcp.py:TcpMaster._send", "modbus_tk/modbus_tcp.py:TcpMaster._recv", "modbus_tk/modbus_tcp.py:TcpQuery.parse_response", "modbus_tk/modbus_tcp.py:TcpQuery._get_transaction_id", "modbus_tk/modbus_rtu.py:RtuMaster._send", "modbus_tk/modbus.py:Master.execute"]}
{"id": "C77", "title": "A broadcast sent by a master is carried out by every slave and the call returns", "statement": "execute(0, write...) makes every slave of the server carry out the write exactly as if it had been addressed itself, and returns without an exception although no slave answers.", "quantifier": "all write calls, databanks, both transports, all ways the bytes are cut", "why_tests_cant": "Every combination of call, databank and cutting of the stream; the effect on all slaves at once.", "anchors": ["modbus_tk/modbus.py:Master.execute", "modbus_tk/modbus.py:Databank.handle_request", "modbus_tk/modbus_tcp.py:TcpMaster._recv", "modbus_tk/modbus_rtu.py:RtuMaster._recv"]}
{"id": "C78", "title": "CompositeServer starts and stops all its servers and gives them one databank", "statement": "Every server of a CompositeServer serves the composite databank; the first start() starts all of them and never raises; when a stop() is over none of them serves any more; after a failure of one server start() runs it again.", "quantifier": "all numbers of servers, sequences of start() and stop() of one caller, schedules of the server threads, failures of any server at any point", "why_tests_cant": "Interleavings of the caller with the threads of several servers, and failures at every point.", "anchors": ["modbus_tk/simulator.py:CompositeServer", "modbus_tk/modbus.py:Server.start", "modbus_tk/modbus.py:Server.stop"]}
{"id": "C79", "title": "A request reaches the slave registered under its id, once, while slaves are added and removed", "statement": "Databank.handle_request for unit u hands the request to at most one slave, once, namely the one registered under u when it is looked up; a slave that stays registered gets it exactly once; when none is registered meanwhile nobody gets it; after remove_slave(u) has returned the removed slave is not changed any more.", "quantifier": "all schedules, all programs of other threads including adding and removing slaves", "why_tests_cant": "All interleavings of the lookup, the execution and changes of the databank.", "anchors": ["modbus_tk/modbus.py:Databank.handle_request", "modbus_tk/modbus.py:Databank.get_slave", "modbus_tk/modbus.py:Databank.remove_slave"]}
{"id": "C80", "title": "A WorkerThread calls its functions in order, cleans up and can be stopped", "statement": "start() runs the init function once, then the main function again and again, never after one of them has raised, and the exit function exactly once at the end, also after an exception; start() succeeds once and else raises RuntimeError; when stop() has returned nothing is called any more; stop() returns once the function being called returns.", "quantifier": "all schedules of callers and thread, all numbers of callers, every function raising at any call", "why_tests_cant": "Every interleaving of start() and stop() callers with the thread and every point where a function raises.", "anchors": ["modbus_tk/utils.py:WorkerThread"]}
{"id": "C81", "title": "The debug log of a frame shows exactly its bytes", "statement": "The text get_log_buffer(prefix, frame) logs is the prefix followed by the decimal values of the bytes separated by dashes; two different frames never give the same text.", "quantifier": "all prefixes, all frames of any length", "why_tests_cant": "Injectivity over all frames of all lengths.", "anchors": ["modbus_tk/utils.py:get_log_buffer"]}
{"id": "C82", "title": "The timeout a user sets is the one every later exchange uses", "statement": "After set_timeout(t), and after reconnections, get_timeout() is t and the socket or port waits for at most t; a timeout that is refused leaves things as they were; a master or server made for a serial port waits for the silences of the Modbus specification.", "quantifier": "all histories of set_timeout, open, close and execute, all failures of the network, all timeouts and baud rates", "why_tests_cant": "Histories of reconnections and failures of any length.", "anchors": ["modbus_tk/modbus.py:Master.set_timeout", "modbus_tk/modbus_tcp.py:TcpMaster.set_timeout", "modbus_tk/modbus_tcp.py:TcpMaster._do_open", "modbus_tk/modbus_rtu.py:RtuMaster.__init__", "modbus_tk/modbus_rtu.py:RtuMaster.set_timeout", "modbus_tk/modbus_rtu.py:RtuServer.__init__"]}
{"id": "C83", "title": "PyModbusClientTCP is a drop-in client for slave 1", "statement": "write_single_register and write_single_coil write the given cell of slave 1 and nothing else; read_input_registers, read_discrete_inputs and read_coils return the values the slave holds; exceptions of the exchange reach the caller.", "quantifier": "all addresses, values, databanks", "why_tests_cant": "All databanks and values, composed with the server.", "anchors": ["modbus_tk/pymodbusclient.py:PyModbusClientTCP"]}
{"id": "C84", "title": "An RtuMaster tells an echo of its request from the response", "statement": "With handle_local_echo a line that gives the request back behaves like one that does not; without it an echo is never taken for the response of the slave.", "quantifier": "all calls, responses, ways the bytes arrive", "why_tests_cant": "All calls and all ways echo and response are cut.", "anchors": ["modbus_tk/modbus_rtu.py:RtuMaster._send", "modbus_tk/modbus_rtu.py:RtuMaster._recv"]}
{"id": "C85", "title": "Calls of several masters over the network happen one at a time", "statement": "When any number of TcpMasters, each with its own connection, call one TcpServer while the application works on the databank directly, there is an order of all calls and direct operations, each taken alone from beginning to end, that explains every result every master got and the databank of the server; the order respects the program of each master and real time (a call that returned comes before a call that had not begun), and only grows. A master that keeps being scheduled finishes its program whatever the others do.", "quantifier": "every databank, any number of masters and calls (also failing ones, absent units, broadcasts), every interleaving of requests, server turns, answers and direct operations, every way of cutting frames into pieces", "why_tests_cant": "unbounded number of masters, calls and interleavings; a test sees one schedule", "anchors": ["modbus_tk/modbus_tcp.py:TcpMaster._send", "modbus_tk/modbus_tcp.py:TcpMaster._recv", "modbus_tk/modbus_tcp.py:TcpServer._do_run", "modbus_tk/modbus.py:Master.execute", "modbus_tk/modbus.py:Databank.handle_request"]}
{"id": "C86", "title": "No client can keep the TCP server from serving the others", "statement": "Whatever bytes the clients of a TcpServer send, whenever they connect, stall or hang up, a complete request waiting on a connection is handled as the next request of that connection within as many turns of the server loop as there are clients accepted before it, plus one; a client that connects is accepted; and the server goes on listening as long as it runs.", "quantifier": "every server state, every number of clients, every sequence of arrivals, hang-ups, connections and turns", "why_tests_cant": "unbounded histories of other clients; starvation shows only in long adversarial schedules", "anchors": ["modbus_tk/modbus_tcp.py:TcpServer._do_run"]}
{"id": "C87", "title": "Several RTU servers on one serial line act as one", "statement": "When several RtuServers with different units share a serial line and each hears everything said on it, a request for a unit is handled by the station that has it exactly as if it were alone; no other station changes anything or speaks; nobody takes the answer for a request; a whole conversation gives the answers and slaves of one server with all the slaves; a broadcast reaches every slave of every station and nobody answers.", "quantifier": "any number of stations with separate units, every request PDU (also malformed), every unit, every cutting of the bytes, conversations of any length", "why_tests_cant": "unbounded number of stations and requests; every station sees every byte of the others", "anchors": ["modbus_tk/modbus_rtu.py:RtuServer._do_run", "modbus_tk/modbus.py:Databank.handle_request", "modbus_tk/modbus_rtu.py:RtuQuery.parse_request"]}
{"id": "C88", "title": "A frame of which the operating system accepts only a part never yields a value", "statement": "TcpMaster sends its request, and TcpServer its response, with one call of send() whose return value is thrown away, so the operating system may take only a prefix. A call whose request is cut short anywhere changes nothing on the server and raises socket.timeout or ModbusInvalidResponseError (the server answers nothing, or closes the connection after its own timeout); a call whose response is cut short anywhere has had its full effect on the server and raises socket.timeout: no value is ever made of a part of a frame. When both frames are taken whole the call is the ordinary one. (Fails across calls: a second request sent on the same connection completes the cut one, and a register gets a value nobody asked for.)", "quantifier": "every call, every number of bytes accepted of request and of response, every segmentation of what was accepted, every database, both orders of the two timeouts", "why_tests_cant": "a loopback socket with an empty buffer accepts small frames whole: the short writes the property speaks of do not happen in tests", "anchors": ["modbus_tk/modbus_tcp.py: TcpMaster._send, TcpMaster._recv, TcpServer._do_run", "modbus_tk/modbus.py: Master.execute"]}
{"id": "C89", "title": "Floats written with a float data_format come back as the nearest representable numbers", "statement": "execute(WRITE_MULTIPLE_REGISTERS, a, output_value=vals, data_format=f) followed by execute(READ_HOLDING_REGISTERS, a, n, data_format=f), for a format f with the codes f and d beside integer codes, in either byte order: integers come back unchanged from integer codes; every float comes back unchanged from d (a NaN as a NaN); a finite float comes back from f as the float nearest to it that has 24 significant bits, with its sign, hence unchanged if it is such a number; infinities unchanged. Floats that round to no C float make the write raise OverflowError and nothing is sent; a float without data_format or for an integer code makes it raise struct.error and nothing is sent.", "quantifier": "every list of ints and floats, every format with f, d and integer codes in both byte orders, every address, unit, database and protocol", "why_tests_cant": "there are 2^64 floats: tests try a few decimal constants and compare within a tolerance", "anchors": ["modbus_tk/modbus.py: Master.execute (WRITE_MULTIPLE_REGISTERS, READ_HOLDING_REGISTERS, data_format)", "modbus_tk/modbus.py: Slave._read_registers, Slave._write_multiple_registers"]}
{"id": "C90", "title": "A function installed at a hook of the TCP server that raises harms only the client it was called for", "statement": "Functions installed at modbus_tcp.TcpServer.on_connect, on_disconnect, after_recv, before_send, after_send and on_error may raise. Whatever they raise, the server goes on running and listening, and a client for which after_recv returns None has its waiting request carried out within as many turns of the loop as clients were accepted before it plus one; a raising before_send loses only this response, a raising after_send nothing. (Fails for on_connect, whose exception makes the server close its listening socket and accept nobody any more, and for on_error, whose exception ends the server thread with every socket left open, so that no later start() can bind the port.)", "quantifier": "every behaviour of the six hooks as functions of their arguments, every sequence of arrivals, hang-ups and connections, every number of turns", "why_tests_cant": "a test can make one hook raise for one client; the property is about every combination of hooks, clients and arrivals", "anchors": ["modbus_tk/modbus_tcp.py: TcpServer._do_run, TcpServer._do_init", "modbus_tk/modbus.py: Server._run_server", "modbus_tk/hooks.py: call_hooks"]}
{"id": "C91", "title": "A hook can stop the server", "statement": "A function installed as a hook of a server (it runs in the server thread) may call stop(): the call does not deadlock, the server stops serving after the current turn and its thread ends, and the server can be started again later, whoever else calls stop() at the same time", "quantifier": "every program of callers of start() and stop(), every schedule of callers and server threads, every point of _do_init, _do_run, _do_exit and on_exception at which a hook calls stop() or start(), every choice of what raises", "why_tests_cant": "self-joins and races between the server thread and callers depend on the schedule; tests stop servers from the outside", "anchors": ["modbus_tk/modbus.py:Server.start", "modbus_tk/modbus.py:Server.stop", "modbus_tk/modbus.py:Server._run_server", "modbus_tk/hooks.py:call_hooks"]}
{"id": "C92", "title": "Masters, servers and slaves in one process never wait for each other in a circle", "statement": "When masters, servers, databanks and slaves live in one process and are used by any number of threads, with functions installed on them that themselves use the library (a gateway: a server whose hook forwards the request with a master), no combination of calls leaves everybody waiting: every call ends without having to wait for a timeout as long as the devices it needs answer.", "quantifier": "all numbers of server and user threads, all programs of calls, all installed functions, all interleavings and all timeouts along the way", "why_tests_cant": "a deadlock needs one particular interleaving among unboundedly many; a test that passes says nothing about the others", "anchors": ["modbus_tk/utils.py: threadsafe_function", "modbus_tk/modbus.py: Master.execute, Server._handle, Slave.handle_request, Databank.handle_request", "modbus_tk/hooks.py: call_hooks", "modbus_tk/modbus_tcp.py: TcpServer._do_run"]}
{"id": "C93", "title": "A device that does not answer delays only the calls made to it", "statement": "While some threads wait for devices that never answer, a call made by another thread with another master to a device that answers ends without waiting for the timeouts of the others.", "quantifier": "all numbers of threads and masters, all programs, all silent devices, all interleavings", "why_tests_cant": "the claim is about every schedule in which some calls never end; no finite set of runs covers it", "anchors": ["modbus_tk/utils.py: threadsafe_function", "modbus_tk/modbus.py: Master.execute"]}
{"id": "C94", "title": "A call that failed leaves nothing behind", "statement": "After any sequence of calls on one master - whatever functions are installed at its hooks, whatever they replace, whichever of them raise, and however the link fails - a call writes the request it would have written on a fresh link and returns what it would have returned there: a call whose reply is the first thing to arrive after its request gets exactly that reply. A function that raises before the request is sent makes execute raise that exception and nothing is written; one that raises after the request was sent or the response received makes execute raise it although the request has been sent.", "quantifier": "every sequence of calls of a TcpMaster, RtuOverTcpMaster or RtuMaster, every behaviour of the hook functions in each call (replace, raise, nothing), every content of the receive buffer and every behaviour of the network or the line before, between and after the calls", "why_tests_cant": "histories of failures and hook behaviours are unbounded; a test installs one hook and fails one call", "anchors": ["modbus_tk/modbus.py:Master.execute", "modbus_tk/modbus_tcp.py:TcpMaster._send,_recv", "modbus_tk/modbus_rtu_over_tcp.py:RtuOverTcpMaster._recv", "modbus_tk/modbus_rtu.py:RtuMaster._send,_recv", "modbus_tk/hooks.py:call_hooks", "modbus_tk/utils.py:flush_socket"]}
{"id": "C95", "title": "Slaves holding objects that are not integers", "statement": "set_values accepts any Python object. After any history of calls and requests, get_values returns exactly the objects that were stored, a list or tuple filling one cell per item and any other object (a range, an array, a string) one cell, and no other cell changes; masters read the truth value of a coil or discrete input; every request behaves as on a slave of integers, whatever integers are put in place of the objects that are not integers, except a request that reads or masks a register holding such an object.", "quantifier": "every history of add_block, remove_block, remove_all_blocks, set_values (any objects) and requests; every request PDU, broadcast or not; every object", "why_tests_cant": "the histories and the objects are unbounded; the behaviour with objects that are not integers is a simulation between two slaves over all requests", "anchors": ["modbus_tk/modbus.py:Slave.set_values,get_values,handle_request,_read_digital,_read_registers,_mask_write_register,_read_write_multiple_registers", "modbus_tk/modbus.py:ModbusBlock"]}
{"id": "C96", "title": "Slaves created with the same memory", "statement": "Slaves that were given the same memory dictionary behave together as one slave: whatever calls and requests are made on them, in whatever order, each has the result it would have on a single slave whose blocks are called (slave, name). Every slave with the same unsigned flag gives a master the same answer and the same effect at any moment. A name that a slave has registered stays usable whatever the other slaves do.", "quantifier": "every memory, any number of slaves, every interleaving of add_block, remove_block, set_values, get_values and requests on them (each call executed as a whole)", "why_tests_cant": "histories over several slaves are unbounded; the claim compares two executions for all histories", "anchors": ["modbus_tk/modbus.py:Slave.__init__ (memory)", "modbus_tk/modbus.py:Slave.add_block,remove_block,remove_all_blocks,set_values,get_values,_get_block,handle_request"]}
{"id": "C97", "title": "The web pages of the HMI show what the devices answered", "statement": "The page of one reading (hmi/master_webhmi.py) shows every value the device returned, in order, sixteen in a line, each line labelled with the address of its first value. The page of all holding registers of a slave performs exactly the function-3 requests configured for that master and slave, in order, and shows for each address what the last reading covering it returned, and no other address; with a slave of this library behind it, that is the register the slave stores. The JSON data that refresh these pages give the same values for the same cells. When the slave refuses, page and data say so; a request that cannot be carried out does not hide the others.", "quantifier": "every data base content, every device (any answers, of any length), every URL text", "why_tests_cant": "device answers, addresses, overlaps of requests and their number are unbounded", "anchors": ["hmi/master_webhmi.py:show_results,show_results_all_hr,get_json_data,get_all_json_data", "hmi/templates/master_results.tpl", "hmi/templates/master_results_all_hr.tpl"]}
{"id": "C98", "title": "The HMI keeps masters and requests", "statement": "In every history of page visits and restarts the masters offered are those of the data base, under unique ids that are never given twice; adding or deleting a master or a request changes that row and no other; a new master starts without requests, even though requests of deleted masters are not removed; the page of a master lists its requests; a restart changes nothing; a master added as \"host:port\" talks to that host and port; a master on a serial line can be added.", "quantifier": "every sequence of visits and restarts, all texts", "why_tests_cant": "histories are unbounded", "anchors": ["hmi/master_webhmi.py:Master,Persistence,App", "hmi/master_webhmi.py:add_master,delete_master,add_request,delete_request"]}
{"id": "C99", "title": "Calls made with threadsafe=False", "statement": "A call of execute with threadsafe=False does not wait for any other call: it returns after a bounded number of steps of its own thread, whoever is inside execute and whatever the other threads do. If every master is either used by one thread only, or used with the lock by all threads that use it, then - although all masters share one lock and all TcpMasters one counter of transaction ids - the calls on each master return, and do to the server, exactly what they would when made one after the other with no other master in the process. (Two threads on one master, one of them without the lock, can get each other's values.)", "quantifier": "every number of threads and masters, all programs (next call chosen from the earlier answers), every schedule, every start of the counter", "why_tests_cant": "all interleavings of all programs", "anchors": ["modbus_tk/utils.py:threadsafe_function", "modbus_tk/modbus.py:Master.execute", "modbus_tk/modbus_tcp.py:TcpQuery._get_transaction_id"]}
{"id": "C100", "title": "Switching logging on changes nothing", "statement": "Creating a logger (create_logger with any name, any level, any number of times) and making the server verbose (set_verbose) does not change what a TCP server does: the requests it carries out, the responses it sends, the databank, the connections and its being alive are what they are without a logger. In verbose mode at level DEBUG the log holds one line for every request and one for every response sent, in order, and the lines tell the traffic: two histories with the same lines are the same traffic.", "quantifier": "all handlers, levels and verbosity, all texts of errors and addresses, all arrivals of bytes over all turns of the server, every databank", "why_tests_cant": "the logger is off in the tests, or on for a few short frames; whether a log call can raise depends on every frame and every text logged", "anchors": ["modbus_tk/utils.py:create_logger", "modbus_tk/utils.py:LogitHandler", "modbus_tk/utils.py:ConsoleHandler", "modbus_tk/utils.py:DummyHandler", "modbus_tk/modbus.py:Server._handle", "modbus_tk/modbus.py:Server._run_server", "modbus_tk/modbus_tcp.py:TcpServer._do_run"]}
{"id": "C101", "title": "RTU frames are told apart by silence, in time", "statement": "For every arrival of bytes at the serial port and every delay of the program: the requests an RtuServer handles are the bytes of the line in order, none lost or used twice; two bytes arriving at most its timeout T (3.5 characters by default) apart are never torn apart, bytes more than T apart are never taken together; every request gets its answer, not earlier than T after its last byte. A master whose response begins within its timeout receives it - at once when it has the expected length, after a silence when it is a shorter exception response - and a master left with its default timeout can talk to a server left with its default timeout.", "quantifier": "every line (bytes with arrival times), every delay before every operation of the program, every T, with and without an inter-byte timeout, every databank", "why_tests_cant": "all timings of all bytes and all scheduling delays", "anchors": ["modbus_tk/modbus_rtu.py:RtuServer._do_run", "modbus_tk/modbus_rtu.py:RtuServer.__init__", "modbus_tk/modbus_rtu.py:RtuMaster._recv", "modbus_tk/modbus_rtu.py:RtuMaster.__init__"]}
{"id": "C102", "title": "How long a TCP call and a turn of the TCP server can take", "statement": "For every arrival of bytes and every delay of the program: reading a response ends, and does with the bytes that came what it would do if they came at once; a response whose bytes come on time is returned as soon as its last byte is there; a silent or stalling server gives the timeout exception one timeout after the last byte; a call returns or raises within its timeout. A turn of the TcpServer ends whatever its clients do; a request whose bytes come on time is handled as soon as its last byte is there; a client holds the server for a second at most.", "quantifier": "every sequence of bytes with arrival times, every time of a close, every delay before every operation, every timeout, every set of ready clients, every databank", "why_tests_cant": "all timings of all bytes of all peers, and all scheduling delays", "anchors": ["modbus_tk/modbus_tcp.py:TcpMaster._recv", "modbus_tk/modbus_tcp.py:TcpServer._do_run", "modbus_tk/modbus_rtu_over_tcp.py:RtuOverTcpMaster._recv", "modbus_tk/modbus.py:Server._run_server"]}
{"id": "C103", "title": "data_format in the byte order of the machine", "statement": "For every data_format without prefix or with \"=\" or \"@\": it does exactly what the explicit format does that spells out the byte order, the sizes and the pad bytes of the machine, with every number at the next multiple of its alignment; a repeat count means that many letters; a format that cannot be used makes a write fail before anything is sent; numbers written and read back with the same format are the numbers written; the numbers are stored in the registers as they would be without a data_format; any other machine reads the same numbers; numbers that are too large are refused.", "quantifier": "every machine (byte order, size of long, alignment), every format string, every list of ints and floats, every databank and response", "why_tests_cant": "all format strings and values on all machines; a test runs on one machine", "anchors": ["modbus_tk/modbus.py:Master.execute"]}
{"id": "C104", "title": "Texts, characters and booleans in registers", "statement": "For every data_format made of texts (\"ns\"), characters (\"c\"), booleans (\"?\"), integers and pad bytes: a write sends the address, the number of registers, the number of bytes and the bytes of the values, and a read of the same registers with the same format gives the characters and the numbers back, booleans as truth values and each text as it fits in its field; the registers hold the bytes two by two, the first one high; values that the format does not take, and more than 255 bytes, raise struct.error before anything is sent; a size that is not that of 1 to 123 registers is refused with ModbusError 3 and changes nothing; a bytes object without data_format raises TypeError and nothing is sent; a text comes back as it was written, or is refused when it is longer than its field.", "quantifier": "every format of these fields, every list of ints, bytes objects and booleans, both protocols, every databank", "why_tests_cant": "all formats and values; a test tries a few", "anchors": ["modbus_tk/modbus.py:Master.execute"]}
{"id": "C105", "title": "The application and a master see the same registers", "statement": "On a server, for every slave and every named block: what Slave.get_values gives for a range is at every moment what a master reads there with the function code of the table (registers as 16-bit words, coils as 0 or 1), so what Slave.set_values has stored is what the master reads; what a master has written with function code 5, 6, 15 or 16 is what get_values gives (registers in the signedness of the slave), and every other range of every block, and every other slave, is as before.", "quantifier": "every history of the databank, every slave, block, range, list of values, both protocols", "why_tests_cant": "all histories and layouts: a test tries a few ranges; overlapping blocks and values that are no register values break it", "anchors": ["modbus_tk/modbus.py:Slave.set_values", "modbus_tk/modbus.py:Slave.get_values", "modbus_tk/modbus.py:Databank.handle_request", "modbus_tk/modbus.py:Master.execute"]}
{"id": "C106", "title": "The custom simulator of the examples: cv applies its rule and sets registers, set_pi stores 3.14 as a float", "statement": "MySimulator(server) adds slave 1 with a block \"foo\" of a hundred holding registers at 0, unless the server has a slave 1 already, in which case it raises and nothing is changed; the simulator commands keep working as before. The command \"cv a v1 v2 ...\" sets the values at address a of that block, except that a value above 30 given for register 0 makes the value of register 1 a 1 (whether or not one was given); it answers with the values it has set, masters read exactly those, and the other slaves are untouched. A cv that cannot be carried out answers with an error and changes nothing. \"set_pi a\" stores 3.14 in two registers so that a master that reads them with data_format \"f\" on a machine of the same byte order (or with the byte order of the simulator named) gets the C float nearest to 3.14. It is not an invariant that register 1 is 1 whenever register 0 is over 30, and a master that reads \">f\" does not get 3.14 from a little-endian machine.", "quantifier": "every state of the server and of the simulator, every address and list of values, every machine, every master protocol", "why_tests_cant": "the address, the values and the state of the server range over unbounded sets, and the byte order of struct.pack(\"f\") depends on the machine the test runs on", "anchors": ["examples/mysimu.py: MySimulator.__init__, change_value, set_pi", "modbus_tk/simulator.py: Simulator._handle, _tuple_to_str, add_command"]}
{"id": "C107", "title": "The consoles of the slave examples carry out what is typed", "statement": "In the consoles of tcpslave_example.py and rtuslave_example.py, a line add_slave, add_block, set_values or get_values that can be carried out makes exactly the calls of the API it names, prints the result (the values written or read as a tuple) and the next line is read; a session of such lines carries them out in order. Any other line is answered with \"unknown command\" and changes nothing; a line that begins with \"quit\" ends the program. A command that cannot be carried out changes nothing, but it is not reported: its exception ends the program and the server. At the end of the input the program does not end: it prints \"unknown command\" for ever.", "quantifier": "every state of the server, every list of typed lines, every name without spaces, every list of values", "why_tests_cant": "the lines typed and the states they meet are unbounded, and \"for ever\" cannot be observed by a test", "anchors": ["examples/tcpslave_example.py: main", "examples/rtuslave_example.py: main"]}
{"id": "C108", "title": "The setitem hook is a faithful change log of a slave", "statement": "A function installed at the hook \"modbus.ModbusBlock.setitem\" is told of every write into the memory of a slave before it is made. Whatever requests masters send and whatever set_values the application makes, and whatever the function raises, applying to the initial cells of a block the announced changes that were not refused gives exactly the contents of the block; at each call the block still contains what the earlier announcements say; the index and values announced lie inside the block. A function that never raises leaves every answer and every cell as without it. An accepted write request announces its cells one by one in ascending order with the values they get, set_values announces one item or one slice, a request that writes nothing announces nothing. A function that raises ends the request there: the master gets the code of a ModbusError, other exceptions leave handle_request, nothing more is announced or changed.", "quantifier": "all functions at the hook (any dependence on the earlier calls, on the contents of the block and on what they are told; raising anything), all reachable slaves, all histories of PDUs (broadcast or not) and set_values calls", "why_tests_cant": "a test with a few writes cannot show that no write escapes the hook, or that the log and the memory agree after every history and every refusal", "anchors": ["modbus_tk/modbus.py ModbusBlock.__setitem__", "modbus_tk/modbus.py Slave._write_multiple_registers", "modbus_tk/modbus.py Slave.set_values", "modbus_tk/hooks.py call_hooks"]}
{"id": "C109", "title": "Bytes after the end of a request", "statement": "If handle_request processes a PDU without a struct.error, then it processes the PDU followed by any further bytes with the same effect on the memory and the same outcome: same exception or same exception response, and the same response, except that the successful responses of write single coil, write single register and mask write register repeat the further bytes. The length of such a response is therefore as long as the request and not limited to the 253 bytes of a Modbus PDU.", "quantifier": "all slaves (reachable or not), all PDUs, all trailing bytes, broadcast or not", "why_tests_cant": "the statement is about every request with every tail; a test tries a few tails", "anchors": ["modbus_tk/modbus.py Slave.handle_request", "modbus_tk/modbus.py Slave._write_single_register", "modbus_tk/modbus.py Slave._mask_write_register"]}
{"id": "C110", "title": "A request can be repeated safely", "statement": "When a slave gets the same request a second time directly after the first one (a master that repeats a request because the answer was lost), nothing changes any more and the answer is the same as the first time, whatever the request is: read, write, mask write, malformed or refused, unicast or broadcast. The answer to read/write multiple registers has the same length but contains the registers as the first request left them. The same holds for a whole frame that reaches the databank twice.", "quantifier": "all reachable slaves and databanks, all byte strings as PDUs and as RTU or TCP frames", "why_tests_cant": "idempotence is a statement about every request in every state; a test repeats a few writes", "anchors": ["modbus_tk/modbus.py Slave.handle_request", "modbus_tk/modbus.py Databank.handle_request", "modbus_tk/modbus.py Slave._mask_write_register", "modbus_tk/modbus.py Slave._read_write_multiple_registers"]}
{"id": "C111", "title": "Users of different cells do not notice each other", "statement": "Several masters and application threads use one slave. If each one asks only for cells of its own set of cells (addresses of tables) and these sets have no cell in common, then each one gets, request by request and call by call, exactly the answers it would get if it were alone, and its cells end up as if it were alone, however the acts of the others are mixed in between. Cells of nobody do not change, and the order in which the acts of different users are mixed has no influence on any answer or on the final memory.", "quantifier": "all reachable slaves, any number of users, all histories of PDUs (valid or not, broadcast or not), set_values and get_values calls, all assignments of cells to users, also with several blocks and tables that share one list", "why_tests_cant": "there are exponentially many interleavings of every history; a test runs a few of them", "anchors": ["modbus_tk/modbus.py Slave.handle_request", "modbus_tk/modbus.py Slave.set_values", "modbus_tk/modbus.py Slave.get_values", "modbus_tk/modbus.py Slave._get_block_and_offset"]}
{"id": "C112", "title": "The system monitor publishes the load of the processors", "statement": "In examples/modbus_system_monitor.py, a master that reads input registers 0..9 of slave 1 gets, for each register k, the load of processor k in the latest sample that gave it (0 before the first one); one call of collect out of 10 * refresh_rate takes a sample, the first one included; a reading that fails ends its sample but nothing else; and no Modbus request changes the registers. Registers that no recent sample has confirmed can be told from fresh ones, and every processor is shown.", "quantifier": "all refresh rates (also <= 0), all histories of calls of collect (with all answers of WMI: failing, partly failing, any number of processors) mixed with all Modbus requests over TCP or RTU, all ranges read", "why_tests_cant": "the value read depends on the whole history of samples and failures and on the phase of the counter", "anchors": ["examples/modbus_system_monitor.py SystemDataCollector", "examples/modbus_system_monitor.py main", "modbus_tk/simulator_rpc_client.py SimulatorRpcClient.set_values", "modbus_tk/simulator.py Simulator._do_set_values"]}
{"id": "C113", "title": "Users of different units, or of different cells, of one server do not notice each other", "statement": "Masters (serial and TCP) and applications use the slaves of one server. If everybody asks only for cells of its own set of cells (unit, table, address; a broadcast asks for the cells of all units) and these sets have no cell in common, then everybody gets frame by frame and call by call exactly the answers it would get if it were the only user of the server, its cells end up as if it were alone, and the order in which the requests of different users are mixed influences no answer and no cell. In particular, users that talk to different units do not notice each other, whatever they send.", "quantifier": "all reachable databanks with any number of slaves, any number of users, all histories of frames (valid, malformed, unknown units, broadcasts) over both protocols and of set_values/get_values calls, all assignments of cells to users", "why_tests_cant": "there are exponentially many interleavings of every history of frames; a test runs a few of them", "anchors": ["modbus_tk/modbus.py Databank.handle_request", "modbus_tk/modbus.py Slave.handle_request", "modbus_tk/modbus.py Slave.set_values", "modbus_tk/modbus.py Slave.get_values"]}
{"id": "C114", "title": "Masters with different cells get over the network the results they would get alone", "statement": "Any number of TcpMasters, each with its own connection, execute their programs against one TcpServer, each asking only for cells of its own (unit, table, address), while the application sets other cells. Whatever the schedule and however the network cuts the frames, the results a master has got so far are exactly the first results it would have got if it had made its calls alone; given enough turns it gets all of them.", "quantifier": "all reachable databanks, all programs of execute calls (all function codes, absent units, arguments that cannot be encoded, raw PDUs), all schedules of requests, turns of the server, replies and set_values calls, all segmentations", "why_tests_cant": "the number of schedules and segmentations is unbounded; a test observes single ones", "anchors": ["modbus_tk/modbus.py Master.execute", "modbus_tk/modbus_tcp.py TcpMaster", "modbus_tk/modbus_tcp.py TcpServer._do_run", "modbus_tk/modbus.py Databank.handle_request"]}
{"id": "C115", "title": "The number of clients a TcpServer can have", "statement": "A TcpServer goes on listening, accepts every client in the turn in which it knocks, on a descriptor of its own, and serves its first request within as many turns as it has clients, whatever the clients do and however many have come and gone.", "quantifier": "all limits of descriptors, all descriptors used by the rest of the process, all histories of arrivals, hang-ups and new clients, all clients and requests", "why_tests_cant": "the number of clients and histories is unbounded; exhaustion of descriptors depends on the whole history and on the rest of the process", "anchors": ["modbus_tk/modbus_tcp.py TcpServer._do_run", "modbus_tk/modbus.py Server._run_server"]}
{"id": "C116", "title": "An answer that is not as it should be raises an error of the library", "statement": "Whatever bytes a device answers, master.execute ends: it returns values only if the answer is a frame for this request with a PDU of the right length and byte count, raises ModbusError with the code for an exception answer, and otherwise one of the library's own exceptions (ModbusInvalidResponseError, ModbusInvalidMbapError), so that a program catching the library's exceptions, like the example masters, survives.", "quantifier": "all calls, units, transaction counters, both framings, all byte strings as answers", "why_tests_cant": "the answers are all byte strings; a device may send anything", "anchors": ["modbus_tk/modbus.py Master.execute", "modbus_tk/modbus_rtu.py RtuQuery.parse_response", "modbus_tk/modbus_tcp.py TcpQuery.parse_response", "examples/tcpmaster_example.py", "examples/rtumaster_example.py"]}
{"id": "C117", "title": "A bad frame harms only itself", "statement": "Whatever garbage, damaged or incomplete frames a server receives among good requests, it answers each good request exactly as if the bad ones had not been there, does not answer the bad ones, and its slaves end in the same state; a frame that is not what was sent is not taken for a request.", "quantifier": "all sequences of intact and damaged frames on a serial line in all fragmentations, with reading errors; all headers and following bytes on a TCP connection; all databanks", "why_tests_cant": "the garbage and its position are arbitrary; a test tries a few", "anchors": ["modbus_tk/modbus_rtu.py RtuServer._do_run", "modbus_tk/modbus_rtu.py RtuQuery.parse_request", "modbus_tk/modbus_tcp.py TcpServer._do_run", "modbus_tk/utils.py calculate_crc"]}
{"id": "C118", "title": "Logging does not change what an RTU server does, and its verbose log shows the traffic", "statement": "Whatever loggers are installed, at whatever level, verbose or not, an RTU server reads, carries out and writes the same as without a logger and keeps running; in verbose mode the log shows, in order, exactly the requests carried out and the responses put on the line.", "quantifier": "all loggers, error texts, lines with their bursts, silences and faults, all databanks, all moments at which a new request is already pending", "why_tests_cant": "depends on every combination of handlers, traffic and timing; a test sees one log of one exchange", "anchors": ["modbus_tk/modbus_rtu.py RtuServer._do_run", "modbus_tk/modbus.py Server._handle", "modbus_tk/modbus.py Server._run_server", "modbus_tk/utils.py LogitHandler"]}
{"id": "C119", "title": "Logging does not change what a master returns, and its verbose log is its frames", "statement": "Whatever loggers are installed, at whatever level, verbose or not, every call of every session of a master writes the same frames on the same connections and returns the same or raises the same as without a logger; in verbose mode the log shows exactly the frames written and read, in order, from which they can be read back; a reconnection is reported.", "quantifier": "all loggers and error texts, all sequences of calls, all networks (bytes arriving before and after, closings, failed reconnections), TCP and RTU masters", "why_tests_cant": "a statement about every session with every logger; a test compares one", "anchors": ["modbus_tk/modbus.py Master.execute", "modbus_tk/modbus_tcp.py TcpMaster._send", "modbus_tk/utils.py get_log_buffer, LogitHandler"]}
{"id": "C120", "title": "To a master, a slave is the Modbus data model", "statement": "In every sequence of calls of a master to any units of a server, each call returns what a reference device of the protocol document (four tables of cells, some areas of which exist; quantity checked first, then address; writes before reads) returns, or raises ModbusError with the exception code of that device, or times out when the unit does not exist; and after the sequence every register and coil of every slave shows what the reference device holds.", "quantifier": "all sequences of calls (any functions, any arguments that fit their fields, any units 1..255), all databanks a program can reach whose slaves have four tables of their own, without overlapping blocks and with values that fit; TCP and RTU, signed and unsigned slaves", "why_tests_cant": "a refinement statement over every history of calls; tests compare single exchanges", "anchors": ["modbus_tk/modbus.py Slave.handle_request", "modbus_tk/modbus.py Master.execute", "modbus_tk/modbus.py Databank.handle_request"]}
{"id": "C121", "title": "Masters, broadcasts and the application work on one data model", "statement": "In every sequence of calls of masters, broadcasts of masters, and set_values and get_values of the application (by slave and block name), each has the result it has on a plant of reference devices of the Modbus protocol whose areas carry the names of the blocks: what the application stores a master reads, what a master writes or broadcasts the application gets, refused requests and rejected calls change nothing, and afterwards the slaves show the cells of the devices.", "quantifier": "all sequences of such events in any order, on all databanks a program can reach whose slaves have four tables of their own, without overlapping blocks and with values that fit; TCP and RTU; signed and unsigned slaves", "why_tests_cant": "a refinement statement over every interleaving of two interfaces to the same memory; tests follow single paths", "anchors": ["modbus_tk/modbus.py Slave.set_values, get_values, handle_request", "modbus_tk/modbus.py Databank.handle_request", "modbus_tk/modbus.py Master.execute"]}
{"id": "C122", "title": "Any number of TCP masters and the application see one consistent data model", "statement": "Any number of masters, each with its own TCP connection and program of calls, work with one server while the application calls set_values on its slaves: there is one order of all calls and stores - each call taking effect at one instant between its start and its return, the calls of a master in its order, nothing that happened earlier reordered by what comes later - in which every call has the result it has on a plant of reference devices of the Modbus protocol, and at every moment the slaves show the cells of these devices.", "quantifier": "all numbers of masters, programs, schedules of sending, serving, receiving and application calls, and all ways to cut the frames in TCP segments; all databanks a program can reach whose slaves have four tables of their own", "why_tests_cant": "linearizability to a protocol specification over all schedules; tests sample a few", "anchors": ["modbus_tk/modbus_tcp.py TcpServer._do_run", "modbus_tk/modbus_tcp.py TcpMaster", "modbus_tk/modbus.py Master.execute", "modbus_tk/modbus.py Databank.handle_request", "modbus_tk/modbus.py Slave.set_values"]}
{"id": "C123", "title": "Blocks can be added and removed while masters and the application use others", "statement": "While a server runs, blocks are added to and removed from a slave. A user (master or application) who asks only for cells of his own and uses only names of his own gets, act by act, exactly what he would get if he were alone with the slave as it was at the beginning, as long as the blocks added and removed contain none of his cells and have none of his names, and the other users ask for other cells - whatever they do and in whatever order all this happens.", "quantifier": "all reachable slaves (also with tables that share a list and with overlapping blocks), all histories of requests (any PDU), set_values, get_values, add_block and remove_block with any arguments, successful or not, any number of users", "why_tests_cant": "all histories of two kinds of changes to one data structure, and all layouts; the position of a block in the list of its table changes with every insertion", "anchors": ["modbus_tk/modbus.py Slave.add_block", "modbus_tk/modbus.py Slave.remove_block", "modbus_tk/modbus.py Slave._get_block_and_offset", "modbus_tk/modbus.py Slave._get_block", "modbus_tk/modbus.py Slave.handle_request"]}
{"id": "C124", "title": "A combined read/write is the read followed by the write", "statement": "READ_WRITE_MULTIPLE_REGISTERS does in one exchange what READ_HOLDING_REGISTERS followed by WRITE_MULTIPLE_REGISTERS does in two. If the read would be refused, the combined request is refused with the same code and nothing is written; if the read answers and the write would be refused, it is refused with the write's code and nothing changes; otherwise the caller gets the values the read gives (those from before the write, also where the two ranges overlap) and the server ends as after the write. At the level of one slave this holds for every request of the three kinds, also with a truncated or overlong payload, a wrong byte count and registers that cannot be read, including which exception is raised and what has been written until then.", "quantifier": "all slaves (any state, signed or not), all addresses, counts, byte counts and payloads; for a master all reachable databanks, both protocols, all argument values that fit the request, all transaction counters", "why_tests_cant": "all pairs of ranges (equal, overlapping, disjoint, in other blocks), counts, payloads and states; a test compares a few", "anchors": ["modbus_tk/modbus.py Slave._read_write_multiple_registers", "modbus_tk/modbus.py Slave._read_registers", "modbus_tk/modbus.py Slave._write_multiple_registers", "modbus_tk/modbus.py Slave.handle_request", "modbus_tk/modbus.py Master.execute"]}
{"id": "C125", "title": "Slaves can be added to and removed from a running server without disturbing the users of the others", "statement": "Masters and applications use the slaves of one server while slaves are added, removed and reconfigured (blocks added and removed, all blocks removed). Whoever uses units that nobody else touches gets, act by act, exactly what he would get if he were alone with the server, whatever the others do with the other units and however everything is mixed, and finds his units afterwards as if he had been alone. A frame with a unit id is about that unit only; broadcasts and remove_all_slaves are about all units; frames that cannot be parsed are about none.", "quantifier": "all databanks, all histories of frames (any bytes, serial and TCP), add_slave, remove_slave, remove_all_slaves and slave calls with any arguments, successful or not, any number of users", "why_tests_cant": "all mixtures of administration and use", "anchors": ["modbus_tk/modbus.py Databank.add_slave", "modbus_tk/modbus.py Databank.remove_slave", "modbus_tk/modbus.py Databank.remove_all_slaves", "modbus_tk/modbus.py Databank.get_slave", "modbus_tk/modbus.py Databank.handle_request"]}
{"id": "C126", "title": "A slave object obtained from the server is the unit's slave until the unit is removed, and on its own afterwards", "statement": "The object returned by add_slave or get_slave is the slave of that unit as long as the unit is not removed: get_slave returns the same object again, its values are those the masters of the unit read and write, and a call made on it is the call made through the server. Once the unit is removed, the object is on its own, also when a unit with the same id is added again: no master and no other call can change it or tell what is done with it, and the calls made on it return what they would return on a slave without a server.", "quantifier": "all reachable servers, all units, all later histories of frames, add_slave, get_slave, remove_slave, remove_all_slaves and calls on any slave object, in any order", "why_tests_cant": "all histories; the identity of objects over removals and additions", "anchors": ["modbus_tk/modbus.py Databank.add_slave", "modbus_tk/modbus.py Databank.get_slave", "modbus_tk/modbus.py Databank.remove_slave", "modbus_tk/modbus.py Databank.remove_all_slaves", "modbus_tk/modbus.py Databank.handle_request"]}
{"id": "C127", "title": "Masters on the network get the results they would get alone while other units are added, removed and reconfigured", "statement": "Any number of TcpMasters, each with its own connection, execute their programs against one TcpServer, each calling units that nobody else uses, while the application adds, removes and reconfigures other units, sets their values and handles frames for them. Whatever the schedule and however the network cuts the frames, the results a master has got so far are exactly the first results it would have got if it had made its calls alone on the server as it was at the beginning; given enough turns it gets all of them. In particular no call of a master fails because some other unit is just being removed.", "quantifier": "all databanks, programs, schedules (of sends, servings, receipts and acts of the application), all ways of cutting frames, any number of masters, all acts of the application on other units", "why_tests_cant": "all interleavings of network traffic and administration", "anchors": ["modbus_tk/modbus.py Databank.add_slave", "modbus_tk/modbus.py Databank.remove_slave", "modbus_tk/modbus.py Databank.handle_request", "modbus_tk/modbus_tcp.py TcpServer._do_run", "modbus_tk/modbus_tcp.py TcpMaster._send", "modbus_tk/modbus_tcp.py TcpMaster._recv"]}
{"id": "C128", "title": "A server is, for every call of a master, one small device - signed registers, unreadable numbers and function 23 included", "statement": "A master that makes any sequence of calls of the named functions (all but raw frames) to any units of a server of this library, over TCP or on a serial line, gets exactly the answers of the following devices, and the server holds afterwards what they hold. Each unit has four tables of cells in areas. A request is checked for its number of items (exception 3), then for its addresses (exception 2), then carried out; functions 8, 20 and 43 give exception 1; a unit that is not there does not answer. In a combined read and write (function 23) the read is checked and done first, and up to 123 values may be written. A register may hold a number that does not fit its format (stored by set_values, or by a mask write that gives 32768 or more on a signed slave): as long as it does, requests that read it end in ModbusInvalidResponseError and change nothing; writes and mask writes mend it, and a mask write works on it as on any other. These are the only differences from the device of the protocol (C128_standard).", "quantifier": "all databanks whose slaves have tables of their own and blocks that do not overlap (any stored numbers, signed or not), all sequences of calls of named functions with any arguments that can be sent, TCP and RTU, all transaction counters", "why_tests_cant": "all histories of calls, all register contents", "anchors": ["modbus_tk/modbus.py Slave.handle_request", "modbus_tk/modbus.py Slave._read_write_multiple_registers", "modbus_tk/modbus.py Slave._mask_write_register", "modbus_tk/modbus.py Slave._read_registers", "modbus_tk/modbus.py Databank.handle_request", "modbus_tk/modbus.py Master.execute", "modbus_tk/modbus_tcp.py TcpQuery.parse_response", "modbus_tk/modbus_rtu.py RtuQuery.parse_response"]}
{"id": "C129", "title": "Masters, broadcasts and the application all work on the device of C128, whatever numbers the application stores", "statement": "A history of calls of masters (named functions, any unit), broadcasts of the writing functions 5, 6, 15, 16 and 22, set_values with any numbers and get_values on a server of this library gives, event by event, exactly what a site of the devices of C128 gives whose areas have the names of the blocks: set_values puts the words of the numbers into the area of the name or raises OutOfModbusBlockError or MissingKeyError and changes nothing; get_values returns numbers that show as the cells; a register with a number that does not fit makes the requests that read it fail until it is overwritten; a broadcast is carried out by every unit and answered by none. Afterwards the databank shows the site again.", "quantifier": "all databanks whose slaves have tables of their own and blocks that do not overlap, all histories, all numbers stored by the application, signed and unsigned slaves, TCP and RTU", "why_tests_cant": "all histories mixing calls, broadcasts and the application", "anchors": ["modbus_tk/modbus.py Slave.handle_request", "modbus_tk/modbus.py Slave.set_values", "modbus_tk/modbus.py Slave.get_values", "modbus_tk/modbus.py Databank.handle_request", "modbus_tk/modbus.py Master.execute"]}
{"id": "C130", "title": "Any number of masters over TCP and the application work, as if one after the other, on the devices of C128", "statement": "Masters with their own TCP connections call named functions of any units and broadcast the writing functions while the application stores any numbers with set_values; the frames are cut in any way and sent, served and received in any order. Then there is one order of all calls and stores, each at one instant within its duration, the calls of each master in its order, the past before the future, such that every call has the result the site of devices (C129) gives in that order; a call that reads a register whose number does not fit ends with a timeout, and the calls after it, of that master and of the others, are not disturbed. At every moment the databank shows the site.", "quantifier": "all databanks whose slaves have tables of their own and blocks that do not overlap, all numbers of masters, all programs of calls, all schedules, all cuttings, all stores", "why_tests_cant": "all interleavings and all cuttings of the streams", "anchors": ["modbus_tk/modbus_tcp.py TcpServer._do_run", "modbus_tk/modbus_tcp.py TcpMaster._recv", "modbus_tk/modbus.py Databank.handle_request", "modbus_tk/modbus.py Slave.handle_request", "modbus_tk/modbus.py Slave.set_values", "modbus_tk/modbus.py Master.execute"]}
{"id": "C131", "title": "A master on a serial line and the application work on the devices of C128", "statement": "An RTU master calls named functions of any units of an RTU server and broadcasts the writing functions while the application stores any numbers and reads; the line cuts every frame in any way. Event by event the results are those the site of devices (C129) gives; a call that gets no answer - no such unit, a broadcast - and a call that reads a register whose number does not fit end with the same exception, ModbusInvalidResponseError, so that a caller cannot tell them apart. Afterwards the databank shows the site.", "quantifier": "all databanks whose slaves have tables of their own and blocks that do not overlap, all histories, all numbers stored, all cuttings of every frame", "why_tests_cant": "all histories and all cuttings", "anchors": ["modbus_tk/modbus_rtu.py RtuServer._do_run", "modbus_tk/modbus_rtu.py RtuMaster._recv", "modbus_tk/modbus.py Databank.handle_request", "modbus_tk/modbus.py Slave.handle_request", "modbus_tk/modbus.py Slave.set_values", "modbus_tk/modbus.py Master.execute"]}
{"id": "C132", "title": "Several RTU servers on one line, their master and the application: together the site of devices of C128", "statement": "Several RTU servers hang on one line and hear everything that is said on it; no unit is at two of them. A master calls named functions of any units and broadcasts the writing functions while the applications at the stations store any numbers and read; every station and the master receive every frame cut in any way. Event by event the results are those of the one site of devices (C129) that has all units of all stations, and afterwards every unit of the site is shown by the databank of its own station: with several stations on the line a user sees what one station with all units would give.", "quantifier": "all numbers of stations and their reachable databanks whose slaves have tables of their own and blocks that do not overlap, all histories, all numbers stored, all cuttings of every frame at every station", "why_tests_cant": "all numbers of stations, histories and cuttings", "anchors": ["modbus_tk/modbus_rtu.py RtuServer._do_run", "modbus_tk/modbus_rtu.py RtuMaster._recv", "modbus_tk/modbus.py Databank.handle_request", "modbus_tk/modbus.py Slave.handle_request", "modbus_tk/modbus.py Slave.set_values", "modbus_tk/modbus.py Slave.get_values", "modbus_tk/modbus.py Master.execute"]}
{"id": "C133", "title": "Closing a Simulator ends its interfaces and stops its server", "statement": "Once Simulator.start() has reached its handler, its server and the threads of the console and of the RPC interface are started; close() then comes to its end whatever these threads are doing - while it waits, the RPC thread has two turns left at most and can always take them - and raises nothing but what the server raises. When it has returned, the server is stopped, no RPC command is taken any more and one line of the console at most. Whatever start() came to, close() stops the server; a closed Simulator can be started again or replaced by another one.", "quantifier": "all orders of the turns of the caller, the console thread and the RPC thread, all calls of start() and close() in any order, all outcomes of starting threads and servers", "why_tests_cant": "all schedules of three threads and all points at which starting can fail", "anchors": ["modbus_tk/simulator.py Simulator.start", "modbus_tk/simulator.py Simulator.close", "modbus_tk/simulator.py ConsoleInterface.run", "modbus_tk/simulator.py ConsoleInterface.close", "modbus_tk/simulator.py RpcInterface.run", "modbus_tk/simulator.py RpcInterface.close", "modbus_tk/simulator.py run_simulator"]}
{"id": "C134", "title": "Masters and a remote program working by RPC on one simulator: together the site of devices", "statement": "Masters call named functions of any units of a simulator and broadcast while a remote program stores lists of numbers and reads by SimulatorRpcClient.set_values and get_values. Event by event the masters get what the site of devices (C129) gives; a set_values the device takes returns the numbers as text, a get_values returns the numbers that are in the cells - also those masters have written -, and what the device refuses raises the Exception of the client. Afterwards the databank of the simulator shows the site.", "quantifier": "all simulators whose slaves have tables of their own and blocks that do not overlap, with any further commands; all histories; all numbers; all messages that arrive in one piece and have at most 1024 bytes", "why_tests_cant": "all histories of two kinds of clients and all numbers", "anchors": ["modbus_tk/simulator_rpc_client.py SimulatorRpcClient.set_values", "modbus_tk/simulator_rpc_client.py SimulatorRpcClient.get_values", "modbus_tk/simulator.py Simulator._do_set_values", "modbus_tk/simulator.py Simulator._do_get_values", "modbus_tk/simulator.py Simulator._handle", "modbus_tk/modbus.py Slave.handle_request", "modbus_tk/modbus.py Master.execute"]}
{"id": "C135", "title": "Masters over TCP, a master on a serial line and the application on one composite server: one site of devices", "statement": "A CompositeServer serves one databank over TCP and on a serial line. Any number of TcpMasters and a serial master call named functions of any units and broadcast the writing functions while the application stores any numbers and reads, call after call in any order; the line cuts every frame in any way. Event by event the results are those the one site of devices (C129) gives - what one transport writes the other reads -, except that a call without answer ends with socket.timeout over TCP and with ModbusInvalidResponseError on the line. Afterwards the databank shows the site.", "quantifier": "all databanks whose slaves have tables of their own and blocks that do not overlap, all histories, all numbers of TcpMasters and their transaction numbers, all cuttings of the frames on the line", "why_tests_cant": "all histories over two transports", "anchors": ["modbus_tk/simulator.py CompositeServer", "modbus_tk/modbus_tcp.py TcpServer._do_run", "modbus_tk/modbus_tcp.py TcpMaster._recv", "modbus_tk/modbus_rtu.py RtuServer._do_run", "modbus_tk/modbus_rtu.py RtuMaster._recv", "modbus_tk/modbus.py Databank.handle_request", "modbus_tk/modbus.py Master.execute"]}
{"id": "C136", "title": "A server configured while it works is a site of devices that is built, changed and taken down", "statement": "Starting from a server without units, an application adds and removes slaves (add_slave, remove_slave, remove_all_slaves), adds and removes blocks (add_block, remove_block, remove_all_blocks), stores any numbers and reads, while masters call named functions of any unit and broadcast, in any order. Every call of the application and of a master ends as the site of devices says: configuration calls succeed or raise the exception the site gives (a unit number outside 1..255, a unit or name that exists, a unit or name that does not, a size or address that is no size or address, an unknown block type) and then change nothing; a new unit refuses every address with exception code 2; a new block is there for the next request, full of zeros whatever was stored at these addresses before; a removed block, or a removed unit, is gone for the next request; all other areas and units keep their values.", "quantifier": "all histories of configuration, calls, broadcasts, set_values and get_values in which an added block has no address in common with the blocks of its table, signed and unsigned slaves, TCP and RTU framing, all transaction numbers", "why_tests_cant": "all histories of configuration and requests", "anchors": ["modbus_tk/modbus.py Databank.add_slave", "modbus_tk/modbus.py Databank.remove_slave", "modbus_tk/modbus.py Databank.remove_all_slaves", "modbus_tk/modbus.py Databank.get_slave", "modbus_tk/modbus.py Databank.handle_request", "modbus_tk/modbus.py Slave.add_block", "modbus_tk/modbus.py Slave.remove_block", "modbus_tk/modbus.py Slave.remove_all_blocks", "modbus_tk/modbus.py Slave._get_block", "modbus_tk/modbus.py Slave.set_values", "modbus_tk/modbus.py Slave.get_values", "modbus_tk/modbus.py Slave.handle_request", "modbus_tk/modbus.py Master.execute"]}
{"id": "C137", "title": "A CompositeServer configured while masters on TCP and on a serial line work: one site of devices, from the start", "statement": "A CompositeServer starts without slaves. The application adds and removes slaves and blocks, stores any numbers and reads, while TcpMasters and a serial master call named functions and broadcast, in any order; the line cuts every frame in any way. Every call ends as the one site of devices says (C136), whichever transport it comes over, except that a call without answer ends with socket.timeout over TCP and with ModbusInvalidResponseError on the line: what the application adds is there for the next request of every master, what it removes is gone for every master, and what one transport writes the other and the application read.", "quantifier": "all histories of configuration and use over both transports in which an added block has no address in common with the blocks of its table, all numbers of TcpMasters and their transaction numbers, all cuttings of the frames on the line", "why_tests_cant": "all histories of configuration over two transports", "anchors": ["modbus_tk/simulator.py CompositeServer", "modbus_tk/modbus_tcp.py TcpServer._do_run", "modbus_tk/modbus_tcp.py TcpMaster._recv", "modbus_tk/modbus_rtu.py RtuServer._do_run", "modbus_tk/modbus_rtu.py RtuMaster._recv", "modbus_tk/modbus.py Databank.add_slave", "modbus_tk/modbus.py Databank.remove_slave", "modbus_tk/modbus.py Slave.add_block", "modbus_tk/modbus.py Slave.remove_block", "modbus_tk/modbus.py Databank.handle_request", "modbus_tk/modbus.py Master.execute"]}
{"id": "C138", "title": "A simulator set up, changed and taken down through SimulatorRpcClient while masters work is a site of devices", "statement": "Starting from a simulator without slaves, a remote program calls has_slave, add_slave, remove_slave, remove_all_slaves, add_block, remove_block, remove_all_blocks, set_values and get_values of SimulatorRpcClient while masters call named functions of any unit and broadcast, in any order. Every call ends as the site of devices says (C136): has_slave tells whether the unit is there; a command the site refuses (a unit or name that exists or does not, a number out of range, an unknown block type) raises the client's Exception and changes nothing; what the remote program adds serves the next request of a master, what it removes is gone, and each reads what the other wrote.", "quantifier": "all histories of RPC calls and calls of masters in which an added block has no address in common with the blocks of its table and each RPC message arrives in one piece of at most 1024 bytes, names that are words, TCP and RTU framing, all transaction numbers, all sets of commands that keep the standard ones", "why_tests_cant": "all histories of remote configuration and requests", "anchors": ["modbus_tk/simulator_rpc_client.py SimulatorRpcClient", "modbus_tk/simulator.py Simulator._handle", "modbus_tk/simulator.py Simulator._do_add_slave", "modbus_tk/simulator.py Simulator._do_has_slave", "modbus_tk/simulator.py Simulator._do_remove_slave", "modbus_tk/simulator.py Simulator._do_add_block", "modbus_tk/simulator.py Simulator._do_remove_block", "modbus_tk/simulator.py Simulator._do_set_values", "modbus_tk/simulator.py Simulator._do_get_values", "modbus_tk/simulator.py RpcHandler.handle", "modbus_tk/modbus.py Databank", "modbus_tk/modbus.py Slave.add_block", "modbus_tk/modbus.py Slave.remove_block", "modbus_tk/modbus.py Master.execute"]}
