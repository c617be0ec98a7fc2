{
 "claims": [
  {
   "property": "C01",
   "status": "proved",
   "theorems": [
    "C01_cyclic_buffer_is_fifo",
    "C01_large_storage_refuted"
   ],
   "note": "All element types, storages and operation sequences; storage below 256 bytes (needed: size parameter is an uint8_t, see the refutation)."
  },
  {
   "property": "C02",
   "status": "partial",
   "theorems": [
    "C02_block_transfer_refuted",
    "C02_block_transfer_partial",
    "C02_block_boundary_partial"
   ],
   "note": "False in general: a block that passes the end of the storage leaves it. Proved for blocks that do not pass the end."
  },
  {
   "property": "C03",
   "status": "proved",
   "theorems": [
    "C03_zone_index"
   ],
   "note": "All classes and types, against the table in Spec_Zone.v."
  },
  {
   "property": "C04",
   "status": "partial",
   "theorems": [
    "C04_roundtrip_refuted",
    "C04_roundtrip_partial"
   ],
   "note": "False for most negative values and exponent -128. Proved for all other (value, exponent) pairs."
  },
  {
   "property": "C05",
   "status": "proved",
   "theorems": [
    "C05_encoder_bounds",
    "C05_int_min_refuted"
   ],
   "note": "All values but INT32_MIN (negation overflows there, see the refutation)."
  },
  {
   "property": "C06",
   "status": "proved",
   "theorems": [
    "C06_format_byte",
    "C06_format_byte_injective"
   ],
   "note": "All byte arguments."
  },
  {
   "property": "C07",
   "status": "proved",
   "theorems": [
    "C07_fields_disjoint",
    "C07_index_checked"
   ],
   "note": "All configurations, fields and indices (accessors of vscp_ps.c)."
  },
  {
   "property": "C08",
   "status": "proved",
   "theorems": [
    "C08_application_memory_untouched"
   ],
   "note": "All histories including power losses."
  },
  {
   "property": "C09",
   "status": "proved",
   "theorems": [
    "C09_nickname_is_persistent"
   ],
   "note": "All histories. The originating address of frames is treated in C33."
  },
  {
   "property": "C10",
   "status": "proved",
   "theorems": [
    "C10_power_loss",
    "C10_power_up"
   ],
   "note": "All histories, all operations, all crash points between two effects; needs as many timers as the framework creates."
  },
  {
   "property": "C11",
   "status": "partial",
   "theorems": [
    "C11_factory_defaults_partial",
    "C11_matrix_refuted",
    "C11_family_code_refuted"
   ],
   "note": "Proved for all bytes the restore really reaches; false for the rest of the matrix and for the upper bytes of family code and device type."
  },
  {
   "property": "C12",
   "status": "proved",
   "theorems": [
    "C12_guid_registers"
   ],
   "note": "All GUID storages; persistent storage after a factory restore."
  },
  {
   "property": "C13",
   "status": "partial",
   "theorems": [
    "C13_family_code_refuted",
    "C13_family_code_partial"
   ],
   "note": "False: the code is shifted by bits instead of bytes. Proved: what the registers return instead, and the least significant byte."
  },
  {
   "property": "C14",
   "status": "proved",
   "theorems": [
    "C14_mdf_registers"
   ],
   "note": "All URLs, both storages."
  },
  {
   "property": "C15",
   "status": "partial",
   "theorems": [
    "C15_any_application",
    "C15_matrix_actions",
    "C15_event_actions_partial",
    "C15_whole_call",
    "C15_wire",
    "C15_short_event_refuted"
   ],
   "note": "All matrix contents, all events, all applications, also for the whole process call: rows are evaluated in the memory of that moment (C15_whole_call). False for events without the zone bytes their class and type promise: stale bytes of the receive buffer are compared (refuted); the other events act by their wire contents (C15_wire)."
  },
  {
   "property": "C16",
   "status": "proved",
   "theorems": [
    "C16_extension"
   ],
   "note": "All contents, all events, all applications."
  },
  {
   "property": "C17",
   "status": "partial",
   "theorems": [
    "C17_matrix_window_partial",
    "C17_first_page_partial",
    "C17_following_pages_partial",
    "C17_offset_refuted",
    "C17_pages_refuted",
    "C17_extension_refuted"
   ],
   "note": "Complete for matrices from register 0 on that fit into one page. For every other configuration: the first page is a faithful window as far as it is claimed, the following pages show other bytes than they should (the theorem says which). The full claim is false with a register offset, for 32 or more rows and for the extension rows (refuted)."
  },
  {
   "property": "C18",
   "status": "proved",
   "theorems": [
    "C18_paged_access"
   ],
   "note": "All reachable states, all row counts above 0."
  },
  {
   "property": "C19",
   "status": "partial",
   "theorems": [
    "C19_rule_set_safety_partial",
    "C19_decision_reads_rule_only",
    "C19_uninitialised_read_refuted"
   ],
   "note": "All contents whose first rule has not size 0; false for a first rule of size 0 (the rule buffer is read uninitialised)."
  },
  {
   "property": "C20",
   "status": "partial",
   "theorems": [
    "C20_rule_meaning",
    "C20_wire",
    "C20_short_event_refuted"
   ],
   "note": "All rules of the grammar, all events, all applications. False for events without the zone bytes their class and type promise: stale bytes of the receive buffer are compared (refuted); for the other events the expression depends on the wire contents only (C20_wire)."
  },
  {
   "property": "C21",
   "status": "partial",
   "theorems": [
    "C21_rule_set_actions_partial",
    "C21_whole_call",
    "C21_restore_refuted"
   ],
   "note": "All rule sets, all events, whole process call, together with the decision matrix. For every application: rules are evaluated one after the other in the memory of that moment (C21_whole_call). The claim is false for applications that restore the factory defaults in an action: the cleared rules execute the first one again (C21_restore_refuted)."
  },
  {
   "property": "C22",
   "status": "partial",
   "theorems": [
    "C22_any_contents_partial",
    "C22_no_phantom_rule_partial",
    "C22_phantom_rule_refuted",
    "C21_whole_call"
   ],
   "note": "All contents whose first rule has not size 0 (that case is undefined behaviour, C19), applications that do not restore factory defaults from actions; for all applications see C21_whole_call. A rule of size 0 executes the previous rule again (refuted)."
  },
  {
   "property": "C23",
   "status": "partial",
   "theorems": [
    "C23_rule_window_partial",
    "C23_last_page_refuted",
    "C23_alias_refuted"
   ],
   "note": "Proved for rule sets below 256 bytes; false from 256 bytes on (8 bit index, one page too many is claimed)."
  },
  {
   "property": "C24",
   "status": "proved",
   "theorems": [
    "C24_loop_back_is_fifo",
    "C24_without_loop_back",
    "C24_queue_bounded"
   ],
   "note": "All histories with power losses, all capacities; the expected queue is Spec_Transport.pendingRun."
  },
  {
   "property": "C25",
   "status": "proved",
   "theorems": [
    "C25_transmit_errors",
    "C25_query_reports"
   ],
   "note": "All histories; refused over-long messages count as failures (vscp_transport.c)."
  },
  {
   "property": "C26",
   "status": "proved",
   "theorems": [
    "C26_log_frames",
    "C26_message_recovered"
   ],
   "note": "All messages of at most 255 bytes (the length parameter is an uint8_t), all failure patterns; vscp_logger_log. "
  },
  {
   "property": "C27",
   "status": "proved",
   "theorems": [
    "C27_log_filter",
    "C27_received_events"
   ],
   "note": "All states and events."
  },
  {
   "property": "C28",
   "status": "partial",
   "theorems": [
    "C28_setting_persists_refuted",
    "C28_setting_persists_partial"
   ],
   "note": "False: a LOG event received earlier is evaluated again in every process call. Proved for all other operations."
  },
  {
   "property": "C29",
   "status": "proved",
   "theorems": [
    "C29_timer_runs_for_its_duration",
    "C29_timer_stop",
    "C29_timer_ids_distinct",
    "C29_not_started"
   ],
   "note": "Reference timer module, all histories of create/start/stop/process."
  },
  {
   "property": "C32",
   "status": "proved",
   "theorems": [
    "C32_other_nodes",
    "C32_claimed"
   ],
   "note": "All protocol events addressed to another nickname and all that the application claims, all reachable active states."
  },
  {
   "property": "C35",
   "status": "proved",
   "theorems": [
    "C35_vscp_register",
    "C35_window_register",
    "C35_application_register"
   ],
   "note": "All addresses, pages and reachable active states."
  },
  {
   "property": "C36",
   "status": "partial",
   "theorems": [
    "C36_write_register",
    "C36_read_only",
    "C36_application_register",
    "C36_paged_index_refuted"
   ],
   "note": "All writable and read-only registers except the row index of a paged matrix, whose stored value is not the written one (refuted)."
  },
  {
   "property": "C43",
   "status": "proved",
   "theorems": [
    "C43_increment_decrement",
    "C43_application_register",
    "C43_read_only"
   ],
   "note": "All addresses, values and reachable active states."
  },
  {
   "property": "C46",
   "status": "proved",
   "theorems": [
    "C46_probe_answered",
    "C46_conflict_restarts_discovery"
   ],
   "note": "All probes with the own nickname, all reachable active states; events for other nicknames: C32_other_nodes."
  },
  {
   "property": "C47",
   "status": "partial",
   "theorems": [
    "C47_set_nickname_partial",
    "C47_size_checked",
    "C47_unassigned_refuted"
   ],
   "note": "All nicknames but 0xFF, which is accepted as a new nickname by an active node (refuted)."
  },
  {
   "property": "C52",
   "status": "proved",
   "theorems": [
    "C52_boot_loader",
    "C52_rejected"
   ],
   "note": "All requests, all reachable active states."
  },
  {
   "property": "C53",
   "status": "proved",
   "theorems": [
    "C53_who_is_there"
   ],
   "note": "All requests and all contents of the identity registers."
  },
  {
   "property": "C54",
   "status": "proved",
   "theorems": [
    "C54_matrix_info"
   ],
   "note": "All configurations and reachable active states."
  },
  {
   "property": "C57",
   "status": "partial",
   "theorems": [
    "C57_same_segment",
    "C57_segment_change_partial",
    "C57_crc_stored",
    "C57_assigned_nickname_refuted"
   ],
   "note": "False for a node whose nickname was assigned by the segment controller: it stores the CRC but does not restart discovery. Proved for all others."
  },
  {
   "property": "C48",
   "status": "proved",
   "theorems": [
    "C48_drop_nickname",
    "C48_nickname_afterwards",
    "C48_size_checked"
   ],
   "note": "All flags, wait times and reachable active states; more than three bytes: nothing happens."
  },
  {
   "property": "C30",
   "status": "proved",
   "theorems": [
    "C30_transitions",
    "C30_other_operations"
   ],
   "note": "Every state, received message and operation."
  },
  {
   "property": "C31",
   "status": "proved",
   "theorems": [
    "C31_passive",
    "C31_nothing_delivered"
   ],
   "note": "Every state other than ACTIVE and every received message."
  },
  {
   "property": "C34",
   "status": "proved",
   "theorems": [
    "C34_memory_safe"
   ],
   "note": "All reachable states; the rule buffer of the next generation matrix is covered by C19."
  },
  {
   "property": "C44",
   "status": "proved",
   "theorems": [
    "C44_adoption",
    "C44_exhausted",
    "C44_candidates",
    "C44_waiting",
    "C44_probing"
   ],
   "note": "All histories. The time bounds assume enough timers (otherwise vscp_core_init fails); that an idle node has no nickname assumes that protocol events are not handed to the application."
  },
  {
   "property": "C45",
   "status": "partial",
   "theorems": [
    "C45_assignment_partial",
    "C45_waiting",
    "C45_invalid_nickname_refuted",
    "C45_short_refuted"
   ],
   "note": "Origin, addressee and timeout proved; the nicknames 0 and 0xFF and events that are too short are accepted (refuted)."
  },
  {
   "property": "C59",
   "status": "partial",
   "theorems": [
    "C59_isActive",
    "C59_nickname_partial",
    "C59_nickname_refuted",
    "C59_sendEvent"
   ],
   "note": "An active node loses its nickname by a factory restore (refuted); proved which operations can do so."
  },
  {
   "property": "C49",
   "status": "partial",
   "theorems": [
    "C49_reset_partial",
    "C49_wait_time",
    "C49_not_before",
    "C49_when_passed",
    "C49_reset_refuted"
   ],
   "note": "All histories after the drop while the node is neither initialised again nor told to start a discovery. A second reset request without initialisation in between is swallowed (refuted)."
  },
  {
   "property": "C55",
   "status": "partial",
   "theorems": [
    "C55_heartbeat_partial",
    "C55_other_operations",
    "C55_not_configured",
    "C55_not_early",
    "C55_frame",
    "C55_rate",
    "C55_alive",
    "C55_enable_partial",
    "C55_enable_refuted",
    "C55_not_active_refuted"
   ],
   "note": "The heartbeat period (per call and over whole histories: never more often, and never missing), the frame and the silence of all other operations are proved for every reachable node; the English claim that vscp_core_enableHeartbeat(b) sets the state to b is refuted (it toggles) and proved for histories in which every call asks for a change."
  },
  {
   "property": "C56",
   "status": "proved",
   "theorems": [
    "C56_process",
    "C56_other_operations",
    "C56_second"
   ],
   "note": "For every reachable node whose timer pool holds the timers the configuration needs."
  },
  {
   "property": "C33",
   "status": "partial",
   "theorems": [
    "C33_frames_partial",
    "C33_nickname_refuted"
   ],
   "note": "Every frame of every operation in every reachable state. The response to a page write that restores the factory settings carries the nickname from before (refuted)."
  },
  {
   "property": "C60",
   "status": "proved",
   "theorems": [
    "C60_process_bounded",
    "C60_other_operations",
    "C60_sharp"
   ],
   "note": "Frames caused by API calls of the application are counted separately; the bound of 39 frames is reached."
  },
  {
   "property": "C37",
   "status": "proved",
   "theorems": [
    "C37_guarded",
    "C37_unchanged",
    "C37_index"
   ],
   "note": "Over the whole history of a node including power losses: application registers are written and decision logic bytes change only at moments when bit 5 of the control flags is set. Factory restore sets that bit before it clears the decision logic, so no exception is needed."
  },
  {
   "property": "C38",
   "status": "partial",
   "theorems": [
    "C38_kept_partial",
    "C38_run_partial",
    "C38_no_invention",
    "C38_failure_refuted",
    "C38_increment_refuted"
   ],
   "note": "A raised bit stays until a transmitted frame reports it, for all histories of operations. The full claim is false: the reporting frame may be rejected by the transport, and an increment or decrement of register 0x80 drops the bits without any frame (both refuted)."
  },
  {
   "property": "C50",
   "status": "partial",
   "theorems": [
    "C50_active_partial",
    "C50_never_otherwise_partial",
    "C50_malformed",
    "C50_startup_partial",
    "C50_last_refuted"
   ],
   "note": "Over every history since power up (crashes, restarts, API calls, time steps and frames in any order) the drop happens exactly when a frame of the last quarter completes a sequence in which all four quarters have matched in time. Refuted: the frame that triggers it need not itself match, if a matching last quarter came earlier in the same sequence."
  },
  {
   "property": "C39",
   "status": "partial",
   "theorems": [
    "C39_page_read_partial",
    "C39_stored_partial",
    "C39_end_refuted"
   ],
   "note": "The values delivered are what reading the registers one by one returns, in order, in frames of seven with consecutive sequence numbers. Register 0xFF of a page is never delivered (refuted by C39_end_refuted), so the positive theorems stop at 0xFE."
  },
  {
   "property": "C40",
   "status": "partial",
   "theorems": [
    "C40_page_write_partial",
    "C40_stored_partial",
    "C40_end_refuted",
    "C40_selection_refuted",
    "C40_protected_refuted"
   ],
   "note": "The registers are written one by one and answered in one frame, for applications that make no API calls in their write callout. Refuted: register 0xFF, the page selection among the registers, write protected registers."
  },
  {
   "property": "C42",
   "status": "partial",
   "theorems": [
    "C42_ext_page_write_partial",
    "C42_stored",
    "C42_restore_refuted"
   ],
   "note": "The registers of the addressed page are written one by one up to 0xFF, for applications that make no API calls in their write callout. The page selection stays except when its registers are written or a factory restore is triggered through 0xA2 (C42_restore_refuted)."
  },
  {
   "property": "C41",
   "status": "partial",
   "theorems": [
    "C41_transfer",
    "C41_complete",
    "C41_progress",
    "C41_first",
    "C41_next",
    "C41_restore_refuted"
   ],
   "note": "Any history without a further request: the frames that went out carry the requested registers in order with consecutive sequence numbers, and the rest is what the node has yet to send; idle cycles make progress. A factory restore or a power loss ends the transfer (C41_restore_refuted), which the English statement does not except."
  },
  {
   "property": "C51",
   "status": "partial",
   "theorems": [
    "C51_exact",
    "C51_window",
    "C51_elsewhere",
    "C51_write",
    "C51_intervening_refuted",
    "C51_extend_refuted"
   ],
   "note": "Over every history since power up: a process call restores the factory settings through the register iff 0xAA is written to it (by a register write, page write, extended page write, increment or decrement request) while the window that 0x55 opens is still open. The part of the property that says that another write in between cancels the sequence is refuted: only 0xAA, the timer and a restart close the window."
  },
  {
   "property": "C58",
   "status": "partial",
   "theorems": [
    "C58_duplicate_disputed_partial",
    "C58_unique_when_read_partial",
    "C58_conflict_ends_partial",
    "C58_probe_answered_partial",
    "C58_always_unique_refuted",
    "C58_set_nickname_refuted"
   ],
   "note": "Any number of nodes with any configurations, every interleaving of process calls, time, API calls, restarts, power losses and foreign frames, reliable delivery, no loop-back, protocol events left to the framework, no SET_NICKNAME to active nodes. A duplicate always has a disputing frame under way and ends after two rounds of reading. Refuted: duplicates never exist (simultaneous probing), and SET_NICKNAME may create a lasting one."
  },
  {
   "property": "C61",
   "status": "partial",
   "theorems": [
    "C61_one_frame_partial",
    "C61_defined_refuted",
    "C61_too_long_refuted",
    "C61_int32_min_refuted"
   ],
   "note": "All functions but seven, all arguments except INT32_MIN as value of a measurement, every state. The seven exceptions send bytes that were never written, exceed the array or send too much (refuted), and INT32_MIN is undefined (refuted)."
  },
  {
   "property": "C62",
   "status": "partial",
   "theorems": [
    "C62_payload_partial",
    "C62_big_endian_refuted",
    "C62_payload_refuted"
   ],
   "note": "All functions but the seven of C61; floating point parameters on little endian hosts only (big endian refuted). vscp_evt_control_sendBigChangeLevel drops its level (refuted)."
  },
  {
   "property": "C63",
   "status": "partial",
   "theorems": [
    "C63_measurement_partial",
    "C63_roundtrip_partial"
   ],
   "note": "All measurement functions, all values but INT32_MIN (C61_int32_min_refuted). The receiver recovers the value except for -32767 .. -1 and exponent -128, see C04."
  },
  {
   "property": "C64",
   "status": "partial",
   "theorems": [
    "C64_zone_partial",
    "C64_zone_refuted"
   ],
   "note": "All functions with a zone except classes MULTIMEDIA and CONFIGURATION, vscp_evt_error_sendSuccess and vscp_evt_ir_sendVscpAbstractRemoteFormat, for which it is false (refuted)."
  },
  {
   "property": "C65",
   "status": "proved",
   "theorems": [
    "C65_distinct",
    "C65_class"
   ],
   "note": "Over the generated table of all 889 functions."
  },
  {
   "property": "C66",
   "status": "proved",
   "theorems": [
    "C66_numbers",
    "C66_unambiguous"
   ],
   "note": "Over the constants of the model; the numbers on the right-hand side are literals in Prop_Constants.v."
  },
  {
   "property": "C67",
   "status": "partial",
   "theorems": [
    "C67_adapter_partial",
    "C67_roundtrip",
    "C67_class_refuted"
   ],
   "note": "All histories from can_Open, length code at most 8, classes below 512. Class 512 is sent as class 0 with the hard coded bit (refuted). The controller is modelled after the AT90CAN data sheet."
  },
  {
   "property": "C68",
   "status": "partial",
   "theorems": [
    "C68_conserves",
    "C68_refused",
    "C68_order_refuted"
   ],
   "note": "Nothing is lost, duplicated or made up, and messages are refused only if all 14 message objects are busy. The order of the calls is not kept (refuted)."
  },
  {
   "property": "C69",
   "status": "partial",
   "theorems": [
    "C69_delivers",
    "C69_nothing_made_up",
    "C69_lost_refuted",
    "C69_foreign_refuted",
    "C69_length_refuted"
   ],
   "note": "If the adapter is read between any two frames, all are delivered in order, and nothing is made up. Refuted: two frames between two readings, standard and remote frames, length codes above 8 (written out of bounds)."
  },
  {
   "property": "C70",
   "status": "partial",
   "theorems": [
    "C70_sends_empty_partial",
    "C70_refuses_long",
    "C70_data_refuted"
   ],
   "note": "Messages without data are sent, too long ones refused. No message with 1 to 8 data bytes can be sent (refuted). The controller is modelled after the FlexCAN chapter of the K64 reference manual."
  },
  {
   "property": "C71",
   "status": "partial",
   "theorems": [
    "C71_read_within_15_partial",
    "C71_decode_partial",
    "C71_filter_refuted",
    "C71_one_call_refuted",
    "C71_data_refuted"
   ],
   "note": "A frame without data in one mailbox is returned within 15 calls. Refuted: frames with an identifier other than 0 are not received at all, one call does not suffice, frames with data cannot be read."
  },
  {
   "property": "C72",
   "status": "partial",
   "theorems": [
    "C72_manual",
    "C72_automatic",
    "C72_never_fast",
    "C72_exact_when_polled",
    "C72_invalid_id",
    "C72_never_started",
    "C72_stop_manual",
    "C72_stop_refuted",
    "C72_late_poll_refuted"
   ],
   "note": "All numbers of timers and all histories. Refuted: swTimer_stop does not stop automatic timers, and late polls lose time."
  },
  {
   "property": "C73",
   "status": "partial",
   "theorems": [
    "C73_counts_partial",
    "C73_set_partial",
    "C73_never_fast",
    "C73_counts_refuted",
    "C73_difference_partial",
    "C73_difference_refuted"
   ],
   "note": "Exact for periods that divide 1000, otherwise never fast (and refuted). The difference is characterised for all pairs of readings and is wrong for many (refuted)."
  },
  {
   "property": "C74",
   "status": "partial",
   "theorems": [
    "C74_port_partial",
    "C74_conserves",
    "C74_print",
    "C74_print_twice",
    "C74_count_refuted",
    "C74_race_refuted"
   ],
   "note": "The port equals two queues as long as no transmit interrupt falls inside serialDrv_write. Refuted: the number returned (main_print sends the first character twice), and the order with an interrupt inside serialDrv_write."
  },
  {
   "property": "C75",
   "status": "partial",
   "theorems": [
    "C75_memory_partial",
    "C75_read_multiple",
    "C75_multiple_refuted",
    "C75_read_now_refuted"
   ],
   "note": "Ideal memory if every write cycle ends before the next access. The driver does not wait for it: of several bytes only the first is written, and a read right after a write fails (refuted). The device is modelled after the 25AA02E48 data sheet."
  },
  {
   "property": "C76",
   "status": "partial",
   "theorems": [
    "C76_debounce",
    "C76_once_per_press_partial",
    "C76_held",
    "C76_race_refuted",
    "C76_arm_refuted"
   ],
   "note": "AVR board: exact if no interrupt falls between the two reads of the flag (otherwise refuted). ARM board: the test of the button is inverted (refuted)."
  },
  {
   "property": "C77",
   "status": "proved",
   "theorems": [
    "C77_steady",
    "C77_slow",
    "C77_fast"
   ],
   "note": "Any number of calls."
  },
  {
   "property": "C78",
   "status": "proved",
   "theorems": [
    "C78_lamp",
    "C78_active"
   ],
   "note": "All applications, configurations and histories."
  },
  {
   "property": "C79",
   "status": "proved",
   "theorems": [
    "C79_read",
    "C79_write"
   ],
   "note": "The example's configuration; requests to an active node."
  },
  {
   "property": "C80",
   "status": "partial",
   "theorems": [
    "C80_led",
    "C80_rule",
    "C80_sender",
    "C80_lamp_refuted"
   ],
   "note": "The LED as vscp_action.c drives it. The status lamp drives the same LED and overwrites it within 250 ms (refuted)."
  },
  {
   "property": "C81",
   "status": "partial",
   "theorems": [
    "C81_ticks",
    "C81_regular",
    "C81_sleep_partial",
    "C81_sleep_refuted"
   ],
   "note": "Ticks and callbacks: complete. Sleep: for n > 0 and reads that are faster than the ticks (no two ticks within three successive reads); refuted for n = 0."
  },
  {
   "property": "C82",
   "status": "partial",
   "theorems": [
    "C82_starts",
    "C82_node",
    "C82_time",
    "C82_lag",
    "C82_exact",
    "C82_drift_refuted",
    "C82_button",
    "C82_lamp",
    "C82_led",
    "C82_heartbeat_rate",
    "C82_heartbeat_alive"
   ],
   "note": "Complete but for the long-term accuracy: the clock falls behind without bound if turns take 3 ms (refuted), it is exact if every ms has a turn. The once-per-press statement assumes that no tick falls between the two reads of the flag (C76_race_refuted). The serial port is left out."
  },
  {
   "property": "C83",
   "status": "partial",
   "theorems": [
    "C83_starts",
    "C83_node",
    "C83_time",
    "C83_lamp",
    "C83_button",
    "C83_nickname_refuted",
    "C83_heartbeat_rate",
    "C83_heartbeat_alive"
   ],
   "note": "Complete but for the last sentence, which is refuted: the test of the button is inverted, so that a button nobody touches starts the segment initialisation once, 101 ms after power up (C83_button, if no tick falls between the two reads of the flag). The debug console is left out."
  }
 ]
}
