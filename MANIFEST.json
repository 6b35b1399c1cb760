{
 "claims": [
  {
   "property": "C01",
   "status": "partial",
   "theorems": [
    "C01_refuted",
    "C01_partial",
    "C01_check_exact_partial",
    "C01_no_false_alarm",
    "C01_outcome"
   ],
   "note": "False as stated (C01_refuted: add_block inserts at index 0 when no block lies above, so its early exit skips overlap checks). C01_outcome gives the exact outcome of every call: which block decides and where the new block is put. Proved for histories adding each type upwards or downwards; one-call exactness above all starts; the error is never raised without a real overlap."
  },
  {
   "property": "C02",
   "status": "partial",
   "theorems": [
    "C02_refuted",
    "C02_new_block_zero",
    "C02_partial"
   ],
   "note": "False as stated (a second block with the same start hijacks the name). Fresh blocks read as zeros unconditionally; stability proved for upwards/downwards histories."
  },
  {
   "property": "C03",
   "status": "proved",
   "theorems": [
    "C03_set_get"
   ],
   "note": ""
  },
  {
   "property": "C04",
   "status": "partial",
   "theorems": [
    "C04_set_values_range",
    "C04_get_values_range_partial",
    "C04_negative_size_refuted"
   ],
   "note": "set_values: full. get_values: for sizes >= 0; a negative size may return data (refuted)."
  },
  {
   "property": "C05",
   "status": "proved",
   "theorems": [
    "C05_add_block_arguments",
    "C05_add_block_all_or_nothing"
   ],
   "note": ""
  },
  {
   "property": "C06",
   "status": "proved",
   "theorems": [
    "C06_remove_block",
    "C06_remove_all_blocks"
   ],
   "note": "Re-adding the freed range is stated for tables without overlaps (C01)."
  },
  {
   "property": "C07",
   "status": "proved",
   "theorems": [
    "C07_blocks_have_their_cells",
    "C07_no_bug_exception"
   ],
   "note": ""
  },
  {
   "property": "C08",
   "status": "proved",
   "theorems": [
    "C08_read_registers"
   ],
   "note": ""
  },
  {
   "property": "C09",
   "status": "proved",
   "theorems": [
    "C09_read_bits"
   ],
   "note": ""
  },
  {
   "property": "C10",
   "status": "proved",
   "theorems": [
    "C10_write_coil"
   ],
   "note": ""
  },
  {
   "property": "C11",
   "status": "proved",
   "theorems": [
    "C11_write_register"
   ],
   "note": ""
  },
  {
   "property": "C12",
   "status": "proved",
   "theorems": [
    "C12_write_coils"
   ],
   "note": ""
  },
  {
   "property": "C13",
   "status": "proved",
   "theorems": [
    "C13_write_registers"
   ],
   "note": ""
  },
  {
   "property": "C14",
   "status": "proved",
   "theorems": [
    "C14_mask_write"
   ],
   "note": ""
  },
  {
   "property": "C15",
   "status": "partial",
   "theorems": [
    "C15_read_write_partial",
    "C15_write_before_read_refuted"
   ],
   "note": "Everything except the order: the code reads before it writes, the specification demands the opposite (refuted)."
  },
  {
   "property": "C16",
   "status": "partial",
   "theorems": [
    "C16_unsupported_partial",
    "C16_refuted",
    "C61_exact",
    "C16_named"
   ],
   "note": "Codes 0..127 proved; codes 128..255 raise struct.error (refuted)."
  },
  {
   "property": "C17",
   "status": "proved",
   "theorems": [
    "C17_exception_means_unchanged"
   ],
   "note": ""
  },
  {
   "property": "C18",
   "status": "partial",
   "theorems": [
    "C18_refuted",
    "C18_complete_requests_partial",
    "C18_truncated_registers",
    "C18_truncated_read_write",
    "C18_truncated_coils"
   ],
   "note": "A truncated FC15/16/23 writes some cells and then fails (refuted); requests carrying the bytes they announce are atomic. C18_truncated_* say exactly which cells a truncated request leaves changed: those whose values it carries, in order, and no other."
  },
  {
   "property": "C19",
   "status": "proved",
   "theorems": [
    "C19_reads_do_not_write"
   ],
   "note": ""
  },
  {
   "property": "C20",
   "status": "proved",
   "theorems": [
    "C20_only_named_cells"
   ],
   "note": ""
  },
  {
   "property": "C21",
   "status": "partial",
   "theorems": [
    "C21_registers_stay_storable_partial",
    "C21_storable_reads_answered",
    "C21_mask_exact",
    "C21_refuted"
   ],
   "note": "Unsigned slaves: all requests. Signed slaves: all but mask write, which stores unreadable values (refuted); C21_mask_exact: the word it stores is always the unsigned one, so on a signed slave the register stays readable iff bit 15 of it is clear."
  },
  {
   "property": "C22",
   "status": "proved",
   "theorems": [
    "C22_unique_block",
    "C22_order_independent",
    "C22_spanning_refused"
   ],
   "note": ""
  },
  {
   "property": "C23",
   "status": "proved",
   "theorems": [
    "C23_response_shape"
   ],
   "note": ""
  },
  {
   "property": "C60",
   "status": "partial",
   "theorems": [
    "C60_shared_blocks",
    "C60_shared_reads",
    "C60_shared_writes",
    "C60_shared_add_block",
    "C60_sharing_lost_by_remove_all_refuted"
   ],
   "note": "Sharing holds until remove_all_blocks, which un-shares the lists (refuted)."
  },
  {
   "property": "C30",
   "status": "proved",
   "theorems": [
    "C30_crc",
    "C30_low_byte_first"
   ],
   "note": ""
  },
  {
   "property": "C31",
   "status": "proved",
   "theorems": [
    "C31_request_round_trip",
    "C31_response_round_trip",
    "C31_bad_address",
    "C31_other_address"
   ],
   "note": ""
  },
  {
   "property": "C32",
   "status": "proved",
   "theorems": [
    "C32_accept_iff",
    "C32_response_accept_iff",
    "C32_otherwise"
   ],
   "note": ""
  },
  {
   "property": "C33",
   "status": "proved",
   "theorems": [
    "C33_request_errors_detected",
    "C33_response_errors_detected"
   ],
   "note": ""
  },
  {
   "property": "C34",
   "status": "proved",
   "theorems": [
    "C34_request_round_trip",
    "C34_server_accept_iff",
    "C34_bad_unit",
    "C34_too_long",
    "C34_server_accepts",
    "C34_server_otherwise"
   ],
   "note": "PDUs longer than 65534 bytes do not fit the length field and raise."
  },
  {
   "property": "C35",
   "status": "proved",
   "theorems": [
    "C35_accept_iff",
    "C35_otherwise"
   ],
   "note": ""
  },
  {
   "property": "C36",
   "status": "proved",
   "theorems": [
    "C36_ids_distinct",
    "C36_late_response_rejected",
    "C36_threads",
    "C36_calls",
    "C36_advances"
   ],
   "note": ""
  },
  {
   "property": "C59",
   "status": "proved",
   "theorems": [
    "C59_inter_char",
    "C59_non_increasing",
    "C59_zero_baudrate"
   ],
   "note": "Exact rationals instead of floats."
  },
  {
   "property": "C24",
   "status": "proved",
   "theorems": [
    "C24_routed",
    "C24_nobody_else"
   ],
   "note": ""
  },
  {
   "property": "C25",
   "status": "proved",
   "theorems": [
    "C25_absent",
    "C25_flag_irrelevant"
   ],
   "note": ""
  },
  {
   "property": "C26",
   "status": "partial",
   "theorems": [
    "C26_broadcast_partial",
    "C26_broadcast_reads",
    "C26_exact",
    "C26_refuted",
    "C26_every_slave_refuted"
   ],
   "note": "Well-formed requests on slaves with all tables; malformed writes are answered with two raw bytes and a raising slave stops the loop (both refuted)."
  },
  {
   "property": "C27",
   "status": "proved",
   "theorems": [
    "C27_add",
    "C27_remove",
    "C27_remove_all",
    "C27_ids",
    "C27_requests_keep_slaves",
    "C27_new_slave",
    "C27_signedness"
   ],
   "note": ""
  },
  {
   "property": "C28",
   "status": "partial",
   "theorems": [
    "C28_response_parsable_partial",
    "C28_exact",
    "C28_refuted"
   ],
   "note": "Well-formed requests; malformed ones get an unframed failure response (refuted). C28_exact says for every request of a present slave which of the two it is."
  },
  {
   "property": "C29",
   "status": "partial",
   "theorems": [
    "C29_never_raises_partial",
    "C29_exact",
    "C29_refuted"
   ],
   "note": "Exact characterisation in C29_exact. Frames with function code >= 128 make it raise struct.error (refuted); everything else proved."
  },
  {
   "property": "C61",
   "status": "proved",
   "theorems": [
    "C61_always_answered",
    "C61_exact"
   ],
   "note": "C61_exact: the slave raises exactly on the bad requests spelled out in PropAnswered.v (empty, code >= 128, shorter than the fixed part, a valid write with missing data)."
  },
  {
   "property": "C37",
   "status": "proved",
   "theorems": [
    "C37_request",
    "C37_not_encodable",
    "C37_bad_unit",
    "C37_unsupported"
   ],
   "note": "Coil values count as on when positive in WRITE_MULTIPLE_COILS and when non-zero in WRITE_SINGLE_COIL, as in the code."
  },
  {
   "property": "C38",
   "status": "proved",
   "theorems": [
    "C38_registers",
    "C38_read_write_registers",
    "C38_bits",
    "C38_byte_count",
    "C38_only_matching_frames"
   ],
   "note": ""
  },
  {
   "property": "C39",
   "status": "proved",
   "theorems": [
    "C39_read_registers",
    "C39_read_bits"
   ],
   "note": ""
  },
  {
   "property": "C40",
   "status": "proved",
   "theorems": [
    "C40_registers",
    "C40_register",
    "C40_coils",
    "C40_coil",
    "C40_mask_write",
    "C40_read_write"
   ],
   "note": ""
  },
  {
   "property": "C41",
   "status": "proved",
   "theorems": [
    "C41_exception",
    "C41_normal",
    "C41_end_to_end",
    "C41_illegal_address"
   ],
   "note": ""
  },
  {
   "property": "C42",
   "status": "partial",
   "theorems": [
    "C42_same_function_partial",
    "C42_refuted",
    "C42_writes_exact",
    "C42_status_exact",
    "C42_echo_refuted"
   ],
   "note": "Holds against a server of this library; in general the response function code is not checked (refuted). C42_writes_exact and C42_status_exact (with C38 for reads) say exactly which responses are taken: only the size and a first byte below 129 count; that the response repeats the address and value that were sent is not checked either (C42_echo_refuted)."
  },
  {
   "property": "C43",
   "status": "partial",
   "theorems": [
    "C43_records",
    "C43_terminates",
    "C43_terminates_refuted"
   ],
   "note": "Proved for the default data_format; a user format with signed codes can loop for ever (refuted)."
  },
  {
   "property": "C44",
   "status": "partial",
   "theorems": [
    "C44_refuted",
    "C44_other_formats_partial"
   ],
   "note": "The default format never matches the echo (refuted for every input); returns_raw and formats that count the sub-function work."
  },
  {
   "property": "C62",
   "status": "proved",
   "theorems": [
    "C62_format_round_trip",
    "C62_pack_exact",
    "C62_unpack_exact",
    "C62_spaces",
    "C62_unknown_letter"
   ],
   "note": "Integer formats with an explicit byte order (floats: C89; native formats: C103). What the formats mean is characterised exactly (letters, sizes, byte order, pad bytes)."
  },
  {
   "property": "C63",
   "status": "proved",
   "theorems": [
    "C63_expected_length",
    "C63_server_agrees"
   ],
   "note": ""
  },
  {
   "property": "C45",
   "status": "proved",
   "theorems": [
    "C45_one_frame",
    "C45_segmentation",
    "C45_closed_early",
    "C45_stalled",
    "C45_terminates"
   ],
   "note": ""
  },
  {
   "property": "C46",
   "status": "proved",
   "theorems": [
    "C46_one_request",
    "C46_requests_in_order",
    "C46_response"
   ],
   "note": ""
  },
  {
   "property": "C47",
   "status": "partial",
   "theorems": [
    "C47_exact",
    "C47_shorter",
    "C47_fault",
    "C47_terminates",
    "C47_no_timeout_refuted",
    "C47_late_bytes_dropped",
    "C47_bytes_in_order",
    "C47_late_lost"
   ],
   "note": "Positive timeouts; a master whose serial port has timeout None raises TypeError (refuted)."
  },
  {
   "property": "C48",
   "status": "proved",
   "theorems": [
    "C48_one_request",
    "C48_all_requests",
    "C48_answers",
    "C48_response"
   ],
   "note": "Silence is an event of the line; real time is not modelled."
  },
  {
   "property": "C49",
   "status": "partial",
   "theorems": [
    "C49_refuted",
    "C49_complete_partial",
    "C49_timeout_partial",
    "C49_call_partial"
   ],
   "note": "The receive loop never ends when the peer closes early (refuted); complete responses and timeouts are fine."
  },
  {
   "property": "C64",
   "status": "proved",
   "theorems": [
    "C64_tcp",
    "C64_serial"
   ],
   "note": ""
  },
  {
   "property": "C65",
   "status": "proved",
   "theorems": [
    "C65_serial_history",
    "C65_partial_request"
   ],
   "note": ""
  },
  {
   "property": "C66",
   "status": "proved",
   "theorems": [
    "C66_no_stale_bytes",
    "C66_reconnects_iff"
   ],
   "note": ""
  },
  {
   "property": "C67",
   "status": "partial",
   "theorems": [
    "C67_refuted",
    "C67_five_bytes_partial",
    "C67_exact"
   ],
   "note": "The receive waits for the length of the normal response, so a shorter exception response ends in a timeout (refuted); it is delivered when the normal response is not longer than it. C67_exact decides it for every call: delivered exactly when the normal response PDU has two bytes."
  },
  {
   "property": "C50",
   "status": "partial",
   "theorems": [
    "C50_history",
    "C50_uninstall_errors",
    "C50_first_answer_partial",
    "C50_nobody",
    "C50_keyerror_refuted",
    "C50_self_uninstall_refuted",
    "C50_self_install_refuted"
   ],
   "note": "Proved for functions that leave the registry alone and do not raise KeyError; KeyError is swallowed, self-uninstalling hooks make the next one be skipped, self-installing hooks loop (refuted)."
  },
  {
   "property": "C51",
   "status": "partial",
   "theorems": [
    "C51_observers",
    "C51_slave_answer",
    "C51_before_partial",
    "C51_after_partial",
    "C51_empty_refuted",
    "C51_tcp_before_send",
    "C51_rtu_before_write",
    "C51_master_after_recv",
    "C51_tcp_master_before_send",
    "C51_rtu_after_read",
    "C51_tcp_after_recv",
    "C51_after_stored"
   ],
   "note": "Server-level before/after hooks ignore empty replacements (refuted); all others proved."
  },
  {
   "property": "C68",
   "status": "partial",
   "theorems": [
    "C68_handler_refuses",
    "C68_setitem_refuses_partial",
    "C68_setitem_refuses_refuted",
    "C68_request_hook_refuted"
   ],
   "note": "Handler hooks: proved. setitem hooks: single writes proved, multiple writes are left half done (refuted). The modbus.Slave.handle_request hook: UnboundLocalError (refuted)."
  },
  {
   "property": "C69",
   "status": "proved",
   "theorems": [
    "C69_only_named_cells",
    "C69_routed"
   ],
   "note": "Hooks that themselves modify slaves are not modelled."
  },
  {
   "property": "C54",
   "status": "proved",
   "theorems": [
    "C54_one_at_a_time",
    "C54_no_deadlock",
    "C54_no_torn_reads"
   ],
   "note": "Operations cut into single accesses to the shared data, interleaved by an arbitrary schedule; without hooks."
  },
  {
   "property": "C70",
   "status": "proved",
   "theorems": [
    "C70_own_answer",
    "C70_reads"
   ],
   "note": "A response is there as soon as the request has been sent, or never comes."
  },
  {
   "property": "C71",
   "status": "partial",
   "theorems": [
    "C71_broadcast_partial",
    "C71_broadcast_refuted",
    "C71_same_databank"
   ],
   "note": "Proved when nobody adds or removes slaves meanwhile; the loop over the dict takes no lock, so adding a slave meanwhile makes it raise RuntimeError and later slaves are missed (refuted)."
  },
  {
   "property": "C55",
   "status": "partial",
   "theorems": [
    "C55_in_order",
    "C55_partial",
    "C55_refuted",
    "C55_execute_refuted"
   ],
   "note": "Locks and the order in which the library takes them; proved for installed functions that use at most databanks and the hook registry. Installed functions run while the hook lock is held, so one that calls a slave or a master can deadlock with another thread (refuted)."
  },
  {
   "property": "C52",
   "status": "partial",
   "theorems": [
    "C52_one_server",
    "C52_stop_stops",
    "C52_stop_ends",
    "C52_stop_idle",
    "C52_restart_partial",
    "C52_stop_returns_partial",
    "C52_tcp_restart_partial",
    "C52_stop_raises_refuted",
    "C52_lost_start_refuted",
    "C52_killed_refuted",
    "C52_hung_stop_refuted",
    "C52_tcp_leak_refuted",
    "C52_tcp_accept_failed"
   ],
   "note": "start/stop/server thread interleaved access by access. Proved: one server thread at a time, nothing serves after stop(), stop() ends, idle stop() harmless, restart when quiet. Refuted: stop() may raise RuntimeError when the thread ends meanwhile; a start() can be lost; a raising on_exception hook makes start() impossible for ever; start() during stop() makes stop() hang; after an exception out of TcpServer._do_run the listening socket leaks and no start() works."
  },
  {
   "property": "C53",
   "status": "partial",
   "theorems": [
    "C53_rtu_execute_partial",
    "C53_rtu_close_partial",
    "C53_tcp_execute",
    "C53_tcp_close_partial",
    "C53_rtu_refuted",
    "C53_rtu_hook_refuted",
    "C53_rtu_unused_refuted",
    "C53_tcp_hook_refuted",
    "C53_tcp_opened",
    "C53_tcp_closed",
    "C53_tcp_second_chance",
    "C53_tcp_close_raises"
   ],
   "note": "TcpMaster recovers from everything (proved). RtuMaster: proved while the port is not closed behind its back; otherwise it never works again (refuted). Raising hooks: refuted."
  },
  {
   "property": "C56",
   "status": "partial",
   "theorems": [
    "C56_one_answer_each_partial",
    "C56_tells",
    "C56_in_sequence",
    "C56_quit",
    "C56_quit_prefix_refuted",
    "C56_rpc_python3_refuted",
    "C56_set_verbose"
   ],
   "note": "Proved for text lines that do not begin with \"quit\", for all custom commands. Refuted: every line that begins with \"quit\" (e.g. a custom command quit_alarm) ends the simulator; in Python 3 any RPC command (bytes) ends it without an answer."
  },
  {
   "property": "C57",
   "status": "partial",
   "theorems": [
    "C57_round_trip_partial",
    "C57_numbers",
    "C57_numbers_distinct",
    "C57_split_query_refuted",
    "C57_long_answer_refuted",
    "C57_empty_refuted",
    "C57_int_exact",
    "C57_int_error",
    "C57_str_exact"
   ],
   "note": "Proved when messages arrive whole and fit in 1024 bytes. Refuted: a query in two pieces writes a truncated number and reports success; a long answer is cut and a wrong tuple is returned; reading no value raises. The texts int() reads and str() writes are characterised exactly."
  },
  {
   "property": "C58",
   "status": "partial",
   "theorems": [
    "C58_fifo_partial",
    "C58_turns_partial",
    "C58_progress_partial",
    "C58_single_partial",
    "C58_timeout_shift",
    "C58_two_interfaces_refuted",
    "C58_timeout_refuted"
   ],
   "note": "All schedules, any number of interfaces: answers are never lost or reordered; each goes to its asker when interfaces take turns and no timeout expires. Refuted for two interfaces at once, and after a timeout (all later answers are shifted, C58_timeout_shift)."
  },
  {
   "property": "C72",
   "status": "proved",
   "theorems": [
    "C72_add_slave",
    "C72_remove_slave",
    "C72_remove_all_slaves",
    "C72_has_slave",
    "C72_add_block",
    "C72_remove_block",
    "C72_remove_all_blocks",
    "C72_set_values",
    "C72_get_values",
    "C72_install_hook"
   ],
   "note": "For messages that arrive whole and fit in 1024 bytes (Python 2)."
  },
  {
   "property": "C74",
   "status": "partial",
   "theorems": [
    "C74_all_partial",
    "C74_one_refuted"
   ],
   "note": "The call removes all functions of the name (proved equal to the direct call without function); refuted: a named function is ignored and the other functions are removed too."
  },
  {
   "property": "C73",
   "status": "proved",
   "theorems": [
    "C73_failed_command_changes_nothing",
    "C73_reachable"
   ],
   "note": ""
  },
  {
   "property": "C75",
   "status": "partial",
   "theorems": [
    "C75_stop_returns_partial",
    "C75_refuted",
    "C75_babble"
   ],
   "note": "Proved for all interleavings and receptions as long as reopening the port after a failed read works. Refuted: one failed reopen leaves the port without timeout and stop() can hang for ever. stop() also waits while bytes keep arriving (C75_babble)."
  },
  {
   "property": "C76",
   "status": "partial",
   "theorems": [
    "C76_own_reply_partial",
    "C76_recovers",
    "C76_split_refuted",
    "C76_wrap_refuted",
    "C76_serial_refuted",
    "C76_new_connection",
    "C76_stays_down"
   ],
   "note": "Proved for TCP when what arrives after a request was written are whole replies, less than 65536 calls late. Refuted otherwise: a reply split by the flush, a reply 65536 calls late; and on serial lines, which have no transaction ids, any late response of the right length. C76_new_connection says exactly when a call makes a new connection, and that its failure is what the caller gets."
  },
  {
   "property": "C77",
   "status": "partial",
   "theorems": [
    "C77_tcp_partial",
    "C77_serial_partial",
    "C77_reads",
    "C77_returns_refuted"
   ],
   "note": "Every slave does the write, but execute waits for an answer also for unit 0 (only slave=None would skip it, and None cannot be packed) and always raises: socket.timeout over TCP, ModbusInvalidResponseError over a serial line. Reads: nothing happens."
  },
  {
   "property": "C78",
   "status": "partial",
   "theorems": [
    "C78_one_databank",
    "C78_start",
    "C78_stop_stops_partial",
    "C78_stop_stops_refuted",
    "C78_restart_refuted"
   ],
   "note": "A stop() that returns has stopped all servers; but it can raise RuntimeError at one server (C52) and then the servers behind it go on serving; start() raises at the first server that still runs and does not reach a failed one behind it. C135 says what the servers of a composite do together."
  },
  {
   "property": "C79",
   "status": "partial",
   "theorems": [
    "C79_at_most_one",
    "C79_present",
    "C79_absent",
    "C79_removed_refuted"
   ],
   "note": "The last sentence is refuted: a request that has looked the slave up still executes on it after remove_slave has returned."
  },
  {
   "property": "C80",
   "status": "partial",
   "theorems": [
    "C80_order",
    "C80_exit",
    "C80_over",
    "C80_started_once",
    "C80_stop_stops_partial",
    "C80_stop_ends_partial",
    "C80_two_callers_refuted",
    "C80_restart_refuted"
   ],
   "note": "Order, clean-up and single start for any number of callers. stop() stops and returns for a caller that has the worker to itself; with a second caller the claim is false: a start() that raises RuntimeError sets the flag again and stop() then waits for ever. A worker that ended cannot be started again."
  },
  {
   "property": "C81",
   "status": "partial",
   "theorems": [
    "C81_line",
    "C81_readable",
    "C81_empty_refuted"
   ],
   "note": "The form of the text is proved for non-empty frames and injectivity for all frames; for an empty frame the last character of the prefix is lost."
  },
  {
   "property": "C82",
   "status": "partial",
   "theorems": [
    "C82_tcp",
    "C82_zero",
    "C82_none_refuted",
    "C82_refused_refuted",
    "C82_serial_defaults",
    "C82_t0",
    "C82_serial_set",
    "C82_open_close",
    "C82_reconnect"
   ],
   "note": "Proved for positive timeouts. A TcpMaster with timeout None can never connect; a refused (negative) timeout is kept all the same and spoils the connection. Time itself is not modelled: the claim is about the setting of the socket and the port."
  },
  {
   "property": "C83",
   "status": "partial",
   "theorems": [
    "C83_write_register",
    "C83_write_coil",
    "C83_same_request",
    "C83_read_refuted",
    "C83_read_coils_refuted"
   ],
   "note": "Writes are proved end to end. Reads are refuted: the values are fetched but wrapped in map(None, ...), which raises TypeError when read (Python 3); read_coils always raises AttributeError."
  },
  {
   "property": "C84",
   "status": "partial",
   "theorems": [
    "C84_echo_partial",
    "C84_echo_cut_refuted",
    "C84_no_echo_refuted",
    "C84_echo_taken_refuted"
   ],
   "note": "With handle_local_echo and an echo that arrives in one run of bytes the call is exactly the call without echo. Refuted: an echo that arrives in two runs; handle_local_echo on a line without echo loses the response; without it every write of a single coil or register and every mask write succeeds on its own echo, slave or no slave."
  },
  {
   "property": "C85",
   "status": "proved",
   "theorems": [
    "C85_one_by_one",
    "C85_no_reordering",
    "C85_returns"
   ],
   "note": "linearizability end to end; the server answers (or decides not to) before the master gives up - late answers are C76"
  },
  {
   "property": "C86",
   "status": "partial",
   "theorems": [
    "C86_served",
    "C86_newcomer",
    "C86_listens_partial",
    "C86_deaf_refuted"
   ],
   "note": "Served within the bound, newcomers accepted: proved. Listening: proved while accept() does not raise; one failing accept() makes the server close its listening socket for ever while it goes on running (refuted). Turns, not time: a client that sends byte after byte can make one turn long."
  },
  {
   "property": "C87",
   "status": "partial",
   "theorems": [
    "C87_owner",
    "C87_nobody",
    "C87_as_one",
    "C87_conversation",
    "C87_broadcast_partial",
    "C87_collision_refuted",
    "C87_same_unit_refuted",
    "C87_own_echo_refuted"
   ],
   "note": "Requests to units 1-255: proved for all PDUs. Broadcasts: proved for well-formed writes; a malformed broadcast is answered by all stations at once (refuted). A station that hears its own transmissions answers its own answers for ever (refuted). C132 puts several stations, their applications and the master together."
  },
  {
   "property": "C88",
   "status": "partial",
   "theorems": [
    "C88_torn_request",
    "C88_torn_response",
    "C88_whole",
    "C88_merged_refuted"
   ],
   "note": "Proved for one call on a fresh connection, any prefix of either frame. What fails, C88_merged_refuted: send() return value is ignored, so after a short write a second call on the same connection supplies the missing byte and the server stores 512 where 513 was asked for."
  },
  {
   "property": "C89",
   "status": "proved",
   "theorems": [
    "C89_floats_come_back",
    "C89_doubles_sent",
    "C89_floats_sent",
    "C89_exact",
    "C89_too_large",
    "C89_needs_format",
    "C89_integer_code",
    "C89_pad"
   ],
   "note": "IEEE 754 floats and rounding are those of Flocq (real-number semantics), so these theorems rest on the standard library axioms of the reals: classic, functional_extensionality_dep, sig_forall_dec, sig_not_dec. NaN payloads are not modelled; half precision (e) and native byte order stay outside."
  },
  {
   "property": "C90",
   "status": "partial",
   "theorems": [
    "C90_alive",
    "C90_served",
    "C90_response",
    "C90_after_recv_raises",
    "C90_as_without",
    "C90_listens_partial",
    "C90_connect_refuted",
    "C90_error_refuted",
    "C90_start_again"
   ],
   "note": "Proved when on_error does not raise (alive, served) and on_connect does not (listening). Refuted: an on_connect that raises makes the server deaf for ever; an on_error that raises ends the thread and leaves the port bound, so start() fails for ever after."
  },
  {
   "property": "C91",
   "status": "partial",
   "theorems": [
    "C91_raises",
    "C91_does_not_wait",
    "C91_stops",
    "C91_ends",
    "C91_restart_partial",
    "C91_restart_refuted"
   ],
   "note": "start() and stop() called by a hook always end within six steps, with RuntimeError (C91_raises, C91_does_not_wait); when nobody starts the server meanwhile, after a stop() from a hook no further turn begins (C91_stops) and the thread ends within 16 of its own steps (C91_ends); the server can be started again unless the on_exception function let an exception out (C91_restart_partial) - and one that calls stop() does just that, after which start() raises for ever (C91_restart_refuted). Missing: stop() never returns normally to a hook, and restart after stop() in on_exception."
  },
  {
   "property": "C92",
   "status": "partial",
   "theorems": [
    "C92_in_order",
    "C92_partial",
    "C92_gateway_refuted",
    "C92_hook_lock_refuted",
    "C92_master_hook_refuted"
   ],
   "note": "Proved for code that takes the locks in order, and from it for all programs of library calls whose installed functions use databanks, the hook registry and forward to other processes with threadsafe=False; for every schedule, with timeouts. False in general: the lock of execute is shared by all masters and held while waiting (C92_gateway_refuted), and the hook lock is held while an installed function waits (C92_hook_lock_refuted, C92_master_hook_refuted)."
  },
  {
   "property": "C93",
   "status": "partial",
   "theorems": [
    "C93_partial",
    "C93_refuted"
   ],
   "note": "Proved for calls made with threadsafe=False; false with the default, since one lock is shared by all masters (C93_refuted)."
  },
  {
   "property": "C94",
   "status": "partial",
   "theorems": [
    "C94_recovers_tcp",
    "C94_recovers_rtu_over_tcp_partial",
    "C94_recovers_serial",
    "C94_no_memory",
    "C94_no_memory_tcp",
    "C94_no_memory_serial",
    "C94_raises_before",
    "C94_raises_after_send",
    "C94_raises_after_recv",
    "C94_raises_before_serial",
    "C94_raises_after_serial",
    "C94_replaced_request",
    "C94_replaced_response",
    "C94_replaced_serial",
    "C94_without_hooks",
    "C94_late_refuted"
   ],
   "note": "Proved: what a call does depends on its arguments, its hooks and what arrives after its request only (and, over TCP, on the transaction number). Refuted as \"leaves nothing behind\": over RTU over TCP and on a serial line a reply that comes after the next request was written - for instance the reply to a call whose after_send hook raised - is returned as the result of the next call. RTU over TCP: responses of more than 255 bytes are excluded (C49)."
  },
  {
   "property": "C95",
   "status": "partial",
   "theorems": [
    "C95_requests",
    "C95_unreadable",
    "C95_calls",
    "C95_history",
    "C95_kept",
    "C95_coils",
    "C95_refuted"
   ],
   "note": "Proved as stated, with the exact exception (C95_unreadable: struct.error, or TypeError for a mask write, out of Slave.handle_request, nothing changed). Refuted: \"a slave that accepted the values of set_values answers the requests of masters\" - a float in a register is accepted and every later read of it raises instead of giving an exception response. bool(object) is assumed not to raise."
  },
  {
   "property": "C96",
   "status": "partial",
   "theorems": [
    "C96_one_slave",
    "C96_same_answers",
    "C96_names_partial",
    "C96_remove_all",
    "C96_steps",
    "C96_refuted",
    "C96_torn_refuted"
   ],
   "note": "Proved for histories without remove_all_blocks (C96_same_answers: for all). Refuted with it: remove_all_blocks of one slave empties the memory of all but drops only its own names; the names of the others stay taken and raise the generic Exception, and if a block is added at the same place later they denote it, and removing them removes it from its owner. And refuted for calls running at the same time (C96_torn_refuted): slaves sharing a memory do not share a lock, so a master reading through one slave can see half of a write made through another. Dictionaries that are different but contain the same lists are not modelled."
  },
  {
   "property": "C97",
   "status": "partial",
   "theorems": [
    "C97_all_registers",
    "C97_which_requests",
    "C97_shows_the_registers",
    "C97_grid",
    "C97_one_reading",
    "C97_refuted",
    "C97_all_refused_refuted",
    "C97_bad_request_refuted"
   ],
   "note": "Proved for readings that succeed. Refuted: when the slave refuses, the JSON functions raise NameError (name, url, friendly_name are not defined in them); a request entered with a text that is not a number is stored, and from then on the page of all holding registers of that slave shows nothing, whatever the devices answer."
  },
  {
   "property": "C98",
   "status": "partial",
   "theorems": [
    "C98_masters",
    "C98_effects",
    "C98_new_master",
    "C98_page_up_to_date_partial",
    "C98_target",
    "C98_refuted",
    "C98_serial_refuted",
    "C98_listing"
   ],
   "note": "Refuted: a serial master can never be used - SERIAL_PORTS is a dictionary and the handler is for IndexError, so opening a port that is not open yet raises KeyError, for every address text, in every history; and the page of a master goes on listing a request that was deleted through the page of another master (C98_page_up_to_date_partial excludes such deletions)."
  },
  {
   "property": "C99",
   "status": "proved",
   "theorems": [
    "C99_own_answer",
    "C99_never_waits",
    "C99_others_wait",
    "C99_lock_given_back",
    "C99_numbers_do_not_matter",
    "C99_shared_swaps",
    "C99_mixed_swaps"
   ],
   "note": "C99_shared_swaps and C99_mixed_swaps show that the condition on sharing is needed. Each master has its own server in this model (two masters for one server: C70). Numbering a request is one step (it is protected by a lock of its own: C36)."
  },
  {
   "property": "C100",
   "status": "partial",
   "theorems": [
    "C100_neutral",
    "C100_log_shows_traffic",
    "C100_log_tells",
    "C100_create_twice",
    "C100_unknown_logger",
    "C100_long_request_lost",
    "C100_long_refuted",
    "C100_broadcast_refuted",
    "C100_ends_refuted",
    "C100_raises_iff",
    "C100_levels",
    "C100_ended",
    "C100_ended_for_good"
   ],
   "note": "Proved for the console and dummy handlers without condition, and for the UDP handler while requests have at most 15000 bytes and the texts are ASCII (C100_neutral). False beyond that: LogitHandler.emit lets its exceptions out of the LOGGER call, so with the UDP handler in verbose mode a request of 33000 bytes or more is never carried out (C100_long_request_lost, C100_long_refuted), a long broadcast reaches the first slave only, even when not verbose (C100_broadcast_refuted), and an error text that is not ASCII ends the server thread without a successor (C100_ends_refuted). Calling create_logger twice writes every line twice (C100_create_twice)."
  },
  {
   "property": "C101",
   "status": "partial",
   "theorems": [
    "C101_cut",
    "C101_conversation",
    "C101_master_receives",
    "C101_master_short",
    "C101_master_silent",
    "C101_exchange",
    "C101_default_timeouts",
    "C101_same_timeout_refuted",
    "C101_gap_refuted",
    "C101_busy_refuted",
    "C101_no_timeout"
   ],
   "note": "Never torn apart, nothing lost, serial handling, answer not before T: without condition (C101_cut). Frames more than 3 T apart (plus the time the program needs) are handled one by one and each is answered between T and 2 T after its last byte (C101_conversation), and a master with a timeout above 2 T receives it (C101_exchange). False otherwise: frames with a silence between T and 2 T can be taken together and are then both lost (C101_gap_refuted), so can frames that wait for a busy server (C101_busy_refuted), and with equal timeouts - the default (C101_default_timeouts) - the master always gives up before the server answers (C101_same_timeout_refuted)."
  },
  {
   "property": "C102",
   "status": "partial",
   "theorems": [
    "C102_master_bound",
    "C102_master_prompt",
    "C102_master_silent",
    "C102_master_stalled",
    "C102_rtu_over_tcp_bound",
    "C102_visit_bound",
    "C102_visit_prompt",
    "C102_turn",
    "C102_call_timeout_refuted",
    "C102_other_clients_refuted"
   ],
   "note": "All but the last clause of each sentence. Proved bounds: 65541 reads of one timeout each for a TcpMaster, 255 for an RtuOverTcpMaster whose peer does not close (closing: C49), 65543 operations for a visit of the server to a client, one second of select plus that for each ready client in a turn - which is also how long stop() can take to be seen. The bounds are reached: a peer that sends one byte per timeout keeps a call for 65541 timeouts without an exception (C102_call_timeout_refuted) and keeps all other clients of a server waiting for 65540 seconds (C102_other_clients_refuted)."
  },
  {
   "property": "C103",
   "status": "partial",
   "theorems": [
    "C103_as_explicit",
    "C103_prefix",
    "C103_layout",
    "C103_counts",
    "C103_unusable",
    "C103_comes_back",
    "C103_registers_sent",
    "C103_overflow",
    "C103_prefix_needed_refuted",
    "C103_other_machine_refuted",
    "C103_overflow_refuted",
    "C103_accepted"
   ],
   "note": "All but the last three clauses. Without a prefix the bytes go out in the order of the machine (C103_registers_sent), so on usual machines the bytes of every register are exchanged (C103_prefix_needed_refuted), another machine may read other numbers (C103_other_machine_refuted), and \"f\" sends an infinity for a number that is too large, where \">f\" raises OverflowError (C103_overflow, C103_overflow_refuted). Codes c ? e s p P are not modelled."
  },
  {
   "property": "C104",
   "status": "partial",
   "theorems": [
    "C104_comes_back",
    "C104_registers",
    "C104_sent",
    "C104_refused",
    "C104_odd",
    "C104_needs_format",
    "C104_text_partial",
    "C104_short_refuted",
    "C104_long_refuted",
    "C104_counts"
   ],
   "note": "All but the last clause. A text shorter than its field comes back with zero bytes (C104_short_refuted), a longer one is cut and no exception tells so (C104_long_refuted); with the length of its field it comes back (C104_text_partial). Formats with an explicit byte order; the codes e p P are not modelled."
  },
  {
   "property": "C105",
   "status": "partial",
   "theorems": [
    "C105_registers",
    "C105_bits",
    "C105_set_then_read_registers",
    "C105_set_then_read_bits",
    "C105_write_then_get",
    "C105_refuted",
    "C105_any_value_refuted",
    "C105_coil_refuted",
    "C105_read_format",
    "C105_read_native_format"
   ],
   "note": "Proved for the tables whose blocks do not overlap and values that are register values. Overlapping blocks, which add_block lets through (C01), make the two work on different registers (C105_refuted); set_values takes numbers that are no register values, and the master then gets no valid answer for the range (C105_any_value_refuted); a coil set to 2 is 2 for one and 1 for the other (C105_coil_refuted). A data_format reads struct.unpack of the bytes of the registers the application sees (PropMySimu.v)."
  },
  {
   "property": "C106",
   "status": "partial",
   "theorems": [
    "C106_init",
    "C106_standard",
    "C106_cv",
    "C106_cv_read",
    "C106_literal",
    "C106_set_pi",
    "C106_pi_read",
    "C106_rule_refuted",
    "C106_master_refuted",
    "C106_pi_refuted"
   ],
   "note": "Refuted: the comment \"if the value of reg0 is greater than 30 then reg1 is set to 1\" as an invariant (a second cv, or a write by a master, breaks it), and reading the stored 3.14 in the byte order of Modbus from a little-endian machine."
  },
  {
   "property": "C107",
   "status": "partial",
   "theorems": [
    "C107_command",
    "C107_session",
    "C107_quit",
    "C107_unknown",
    "C107_error_refuted",
    "C107_spaces_refuted",
    "C107_end_of_input_refuted"
   ],
   "note": "Refuted: a mistyped command is reported and the server goes on (it ends both; two spaces between values are enough), and the program ends at the end of its input."
  },
  {
   "property": "C108",
   "status": "partial",
   "theorems": [
    "C108_mirror",
    "C108_before",
    "C108_silent",
    "C108_veto",
    "C108_veto_set",
    "C108_request",
    "C108_set",
    "C108_address_refuted",
    "C108_unchanged_refuted",
    "C108_undone_refuted"
   ],
   "note": "Proved for any function. Not true and refuted: that the item announced is the Modbus address (it is the index in the block), that only changes are announced (a write of the same value is announced too), and that a refused request changes nothing (the cells before the refused one stay written although the master is told that the request failed). The function is assumed not to change slaves itself; adding and removing blocks are not announced and are not part of the histories."
  },
  {
   "property": "C109",
   "status": "partial",
   "theorems": [
    "C109_tail",
    "C109_refuted"
   ],
   "note": "C109_tail is proved in full. That the response to such a request stays a legal Modbus PDU of at most 253 bytes is refuted (C109_refuted: 305 bytes)."
  },
  {
   "property": "C110",
   "status": "partial",
   "theorems": [
    "C110_again",
    "C110_frame",
    "C110_refuted",
    "C110_late_refuted"
   ],
   "note": "Proved for every request. Not true and refuted: that the answer to a repeated read/write multiple registers is the first one, and that a duplicate that arrives after another write is harmless."
  },
  {
   "property": "C111",
   "status": "partial",
   "theorems": [
    "C111_alone",
    "C111_rest",
    "C111_order",
    "C111_negative_refuted"
   ],
   "note": "Proved for histories of atomic acts (C54 shows that the locks make them atomic). get_values with a negative size is excluded because it returns cells that were not asked for (C111_negative_refuted). Adding and removing blocks during the history: C123."
  },
  {
   "property": "C112",
   "status": "partial",
   "theorems": [
    "C112_published",
    "C112_requests",
    "C112_stale_refuted",
    "C112_eleventh_refuted"
   ],
   "note": "Proved for loads that are percentages and RPC messages that are not cut (64 bytes at least; see C57 for cut messages). Refuted: after WMI starts to fail the old loads are shown for ever (C112_stale_refuted), and processors after the tenth are not shown (C112_eleventh_refuted). The sleep, the thread and other users of the console are not modelled."
  },
  {
   "property": "C113",
   "status": "proved",
   "theorems": [
    "C113_alone",
    "C113_units",
    "C113_order"
   ],
   "note": "Histories of atomic acts (C54 shows that the locks make them atomic). The user does not call get_values with a negative size (see C111_negative_refuted). Slaves have their own memory (shared memory: C96)."
  },
  {
   "property": "C114",
   "status": "proved",
   "theorems": [
    "C114_alone",
    "C114_all"
   ],
   "note": "Composition of C85 (every execution is explained by an order of whole calls) with the non-interference of C113. Transport without failures, as in C85; the application uses set_values only (adding and removing slaves and blocks during the run is not covered)."
  },
  {
   "property": "C115",
   "status": "partial",
   "theorems": [
    "C115_capacity_partial",
    "C115_accepted",
    "C115_served",
    "C115_deaf_refuted",
    "C115_ends_refuted"
   ],
   "note": "Proved as long as fewer than min(RLIMIT_NOFILE, 1024) descriptors are in use whenever a client knocks (room_for_all). Without that the claim is false: for every limit from 4 to 1024, limit-4 silent clients and one more make the server deaf for ever (accept() raises, the handler closes and removes the listening socket), and with a higher limit 1021 silent clients make select.select raise, which ends the server thread (no hook, no restart)."
  },
  {
   "property": "C116",
   "status": "partial",
   "theorems": [
    "C116_verdict",
    "C116_not_a_frame",
    "C116_outcomes_partial",
    "C116_struct_error_refuted",
    "C116_example_programs",
    "C116_any_arguments_partial"
   ],
   "note": "C116_verdict gives the exact outcome for every framed answer, C116_not_a_frame for all other bytes. Missing, because false: struct.error, which is no exception of the library, is raised for an answer of one byte and for an answer of consistent but wrong length (C116_struct_error_refuted); the example masters end in a traceback then. FC 8, 20, 43 and RAW are treated in C43, C44, C63 and not here."
  },
  {
   "property": "C117",
   "status": "partial",
   "theorems": [
    "C117_rtu",
    "C117_tcp_dropped_partial",
    "C117_zero_bytes_refuted",
    "C117_tcp_swallowed_refuted"
   ],
   "note": "Proved on the serial line (C117_rtu: a line and the same line without its damaged frames are indistinguishable afterwards). False in two respects: zero bytes appended to an intact frame give a frame with a correct CRC again, for every frame and every number of zeros (a property of CRC-16/MODBUS the code inherits); on TCP a header announcing more than its sender sends makes the server take the complete requests that follow it for its body. If less follows than announced, nothing is handled and only this connection is closed (C117_tcp_dropped_partial)."
  },
  {
   "property": "C118",
   "status": "partial",
   "theorems": [
    "C118_neutral",
    "C118_log_shows_traffic_partial",
    "C118_log_shows_computed",
    "C118_withheld",
    "C118_levels",
    "C118_unsent_response_refuted",
    "C118_long_request_lost",
    "C118_ends_refuted",
    "C118_ended"
   ],
   "note": "Neutral without a UDP handler or with ASCII texts and requests up to 15000 bytes (C118_neutral). The log shows the traffic if the master waits for each response. If a new request is pending the response is withheld, and the log shows it all the same (C118_unsent_response_refuted); only the warning after it tells (C118_withheld). With a UDP handler a port that cannot be reopened, reported by a non-ASCII text, ends the server thread for good (C118_ends_refuted)."
  },
  {
   "property": "C119",
   "status": "partial",
   "theorems": [
    "C119_neutral",
    "C119_neutral_rtu",
    "C119_log_shows_talk",
    "C119_log_tells",
    "C119_reconnect_reported",
    "C119_long_response_refuted"
   ],
   "note": "Holds without a UDP handler, or with ASCII error texts and frames up to 15000 bytes. False with a UDP handler in verbose mode: a response of 33000 bytes or more, which the log message cannot carry, makes the call raise the exception of the log call instead of what it would return or raise (C119_long_ex: ModbusError 2)."
  },
  {
   "property": "C120",
   "status": "partial",
   "theorems": [
    "C120_session_partial",
    "C120_from_databank_partial",
    "C120_overlap_refuted",
    "C120_limit_refuted",
    "C120_signed_refuted"
   ],
   "note": "Proved for every sequence of calls that are neither raw frames, nor combined reads and writes (function 23) whose ranges overlap or that write 122 values or more, nor mask writes to a signed slave. For each of the last three the claim is false: function 23 answers with the values from before its write (C120_overlap_refuted), its limit is 123 and not 121 (C120_limit_refuted), and a mask write can store a value a signed slave cannot send (C120_signed_refuted). C128 has no such conditions: it gives the outcome of every named call on every device."
  },
  {
   "property": "C121",
   "status": "partial",
   "theorems": [
    "C121_plant_partial",
    "C121_from_databank_partial",
    "C121_any_value_refuted"
   ],
   "note": "Proved for the calls of C120 (no raw frames, function 23 without overlap and with at most 121 values, mask writes only to unsigned slaves), for broadcast writes (execute then raises socket.timeout), for values set_values is given that fit a register of the slave, and sizes that are not negative. A value that does not fit is stored and makes every read of it fail (C121_any_value_refuted). C129 has no such conditions."
  },
  {
   "property": "C122",
   "status": "partial",
   "theorems": [
    "C122_linear_partial",
    "C121_any_value_refuted"
   ],
   "note": "Proved for the calls, broadcasts and stores of C121, on TCP without server restarts or send failures. C121_any_value_refuted shows the limit on the stored values. C130 and C135 have no such conditions."
  },
  {
   "property": "C123",
   "status": "proved",
   "theorems": [
    "C123_undisturbed",
    "C123_accepted_refuted"
   ],
   "note": "Proved as stated, for histories of atomic acts (C54: the locks make them so) without remove_all_blocks. C123_accepted_refuted shows that the condition on the blocks is needed: add_block lets a block through that lies on another (C01), and a master then reads another register at the same address."
  },
  {
   "property": "C124",
   "status": "proved",
   "theorems": [
    "C124_one_exchange",
    "C124_two_calls"
   ],
   "note": "C124_one_exchange: one slave, every request. C124_two_calls: what a master gets from the call compared with the two calls, where the registers read hold values of the slave's 16-bit format (otherwise the server raises, C28). The MODBUS protocol has the write done before the read; this library reads first: C120_overlap_refuted. The combined request takes up to 123 registers where the protocol allows 121: C120_limit_refuted."
  },
  {
   "property": "C125",
   "status": "proved",
   "theorems": [
    "C125_undisturbed"
   ],
   "note": "For histories of atomic acts (C54) and memories that are not shared between slaves (C96). C123 is the same for the blocks of one slave."
  },
  {
   "property": "C126",
   "status": "proved",
   "theorems": [
    "C126_live",
    "C126_detached",
    "C126_tells_refuted"
   ],
   "note": "C126_tells_refuted shows the other side of it: set_values on an object whose unit has been removed and added again raises nothing and reaches nobody. For histories of atomic acts and memories that are not shared between slaves (C96)."
  },
  {
   "property": "C127",
   "status": "proved",
   "theorems": [
    "C127_alone",
    "C127_all"
   ],
   "note": "C114 is the same for users of different cells of the same units; there the application only sets values. A master that broadcasts (unit 0) counts as a user of all units."
  },
  {
   "property": "C128",
   "status": "proved",
   "theorems": [
    "C128_session",
    "C128_from_databank",
    "C128_standard"
   ],
   "note": "C120 compares with the device of the protocol document and has to except three kinds of calls; here the device is the one the library is, and nothing is excepted but raw frames. Byte-level exchange as in C39: over a real TCP connection the two bytes answered for an unreadable register are followed by silence, see C28, C67."
  },
  {
   "property": "C129",
   "status": "proved",
   "theorems": [
    "C129_site",
    "C129_from_databank"
   ],
   "note": "C121 without its conditions on values, functions and signed slaves, for the device the library is instead of that of the protocol document. The broadcast of a read and write (function 23) is not among the events: a slave with an unreadable register stops it, see C26, C77; get_values with a negative size: C04."
  },
  {
   "property": "C130",
   "status": "proved",
   "theorems": [
    "C130_linear",
    "C130_from_databank"
   ],
   "note": "C122 without its conditions on values, functions and signed slaves, for the device the library is."
  },
  {
   "property": "C131",
   "status": "proved",
   "theorems": [
    "C131_serial",
    "C131_from_databank"
   ],
   "note": "The line is quiet between two calls: what a late answer does is C76, C101 and C110."
  },
  {
   "property": "C132",
   "status": "proved",
   "theorems": [
    "C132_bus",
    "C132_from_databanks"
   ],
   "note": "What happens with a unit at two stations, a malformed broadcast or an adapter that echoes is C87. The line is quiet between two calls."
  },
  {
   "property": "C133",
   "status": "partial",
   "theorems": [
    "C133_started",
    "C133_closed_partial",
    "C133_ends",
    "C133_raises",
    "C133_never_started_refuted",
    "C133_server_left_refuted",
    "C133_stuck_refuted",
    "C133_restart_refuted",
    "C133_port_refuted"
   ],
   "note": "Refuted for the last sentence: close() of a Simulator that was not started raises RuntimeError before anything else is closed, so that a server whose start() was followed by an exception keeps running; if the RPC thread could not be started, close() waits for ever; a second start() starts the server and raises; the RPC port stays bound after close() (rpc_server.server_close is never called), so no second Simulator can be made while the first is referenced. join(1.0) returns at any time in the model, so that the end of the console thread within a time is not claimed."
  },
  {
   "property": "C134",
   "status": "proved",
   "theorems": [
    "C134_remote",
    "C134_from_simulator"
   ],
   "note": "Messages that are cut are C57; who gets which answer when several remote programs ask at once is C58; that in Python 3 bytes instead of text reach the simulator is C56. No hooks are installed."
  },
  {
   "property": "C135",
   "status": "proved",
   "theorems": [
    "C135_both",
    "C135_from_databank"
   ],
   "note": "Calls follow one another; calls at the same time are atomic for each slave (C54). Over TCP each frame arrives in one piece (C48 for other cuttings of answered calls). That a CompositeServer gives its servers one databank is C78."
  },
  {
   "property": "C136",
   "status": "proved",
   "theorems": [
    "C136_configured",
    "C136_from_nothing"
   ],
   "note": "Moves follow one another; moves at the same time are the subject of C54 and C123. Blocks that overlap others of their table are outside the quantifier: add_block does not refuse all of them (C01). Slaves with a memory of their own given to add_slave are the subject of C60 and C96; here the default memory. The link is round_trip of EndSpec.v (each frame arrives whole); C130 and C131 carry the site over links that cut frames."
  },
  {
   "property": "C137",
   "status": "proved",
   "theorems": [
    "C137_configured",
    "C137_from_nothing"
   ],
   "note": "Calls and configuration follow one another; at the same time: C54. Over TCP each frame arrives in one piece (C48 for other cuttings of answered calls). That a CompositeServer gives its servers one databank is C78. Overlapping blocks: C01."
  },
  {
   "property": "C138",
   "status": "proved",
   "theorems": [
    "C138_remote",
    "C138_from_nothing"
   ],
   "note": "Messages that are cut are C57; who gets which answer when several remote programs ask at once is C58; that in Python 3 bytes instead of text reach the simulator is C56. No hooks are installed. Overlapping blocks: C01."
  }
 ]
}