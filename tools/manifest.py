# Writes MANIFEST.json. status: proved / partial / not_applicable
import json
C = []
def c(prop, status, theorems, note):
    C.append({"property": prop, "status": status, "theorems": theorems.split(), "note": note})

c("C01", "proved", "C01_cyclic_buffer_is_fifo C01_large_storage_refuted",
  "All element types, storages and operation sequences; storage below 256 bytes (needed: size parameter is an uint8_t, see the refutation).")
c("C02", "partial", "C02_block_transfer_refuted C02_block_transfer_partial C02_block_boundary_partial",
  "False in general: a block that passes the end of the storage leaves it. Proved for blocks that do not pass the end.")
c("C03", "proved", "C03_zone_index", "All classes and types, against the table in Spec_Zone.v.")
c("C04", "partial", "C04_roundtrip_refuted C04_roundtrip_partial",
  "False for most negative values and exponent -128. Proved for all other (value, exponent) pairs.")
c("C05", "proved", "C05_encoder_bounds C05_int_min_refuted", "All values but INT32_MIN (negation overflows there, see the refutation).")
c("C06", "proved", "C06_format_byte C06_format_byte_injective", "All byte arguments.")
c("C07", "proved", "C07_fields_disjoint C07_index_checked", "All configurations, fields and indices (accessors of vscp_ps.c).")
c("C08", "proved", "C08_application_memory_untouched", "All histories including power losses.")
c("C09", "proved", "C09_nickname_is_persistent", "All histories. The originating address of frames is treated in C33.")
c("C10", "proved", "C10_power_loss C10_power_up", "All histories, all operations, all crash points between two effects; needs as many timers as the framework creates.")
c("C11", "partial", "C11_factory_defaults_partial C11_matrix_refuted C11_family_code_refuted",
  "Proved for all bytes the restore really reaches; false for the rest of the matrix and for the upper bytes of family code and device type.")
c("C12", "proved", "C12_guid_registers", "All GUID storages; persistent storage after a factory restore.")
c("C13", "partial", "C13_family_code_refuted C13_family_code_partial",
  "False: the code is shifted by bits instead of bytes. Proved: what the registers return instead, and the least significant byte.")
c("C14", "proved", "C14_mdf_registers", "All URLs, both storages.")
c("C15", "partial", "C15_any_application C15_matrix_actions C15_event_actions_partial C15_whole_call C15_wire C15_short_event_refuted",
  "All matrix contents, all events, all applications, also for the whole process call: rows are evaluated in the memory of that moment (C15_whole_call). False for events without the zone bytes their class and type promise: stale bytes of the receive buffer are compared (refuted); the other events act by their wire contents (C15_wire).")
c("C16", "proved", "C16_extension", "All contents, all events, all applications.")
c("C17", "partial", "C17_matrix_window_partial C17_first_page_partial C17_following_pages_partial C17_offset_refuted C17_pages_refuted C17_extension_refuted",
  "Complete for matrices from register 0 on that fit into one page. For every other configuration: the first page is a faithful window as far as it is claimed, the following pages show other bytes than they should (the theorem says which). The full claim is false with a register offset, for 32 or more rows and for the extension rows (refuted).")
c("C18", "proved", "C18_paged_access", "All reachable states, all row counts above 0.")
c("C19", "partial", "C19_rule_set_safety_partial C19_decision_reads_rule_only C19_uninitialised_read_refuted",
  "All contents whose first rule has not size 0; false for a first rule of size 0 (the rule buffer is read uninitialised).")
c("C20", "partial", "C20_rule_meaning C20_wire C20_short_event_refuted",
  "All rules of the grammar, all events, all applications. False for events without the zone bytes their class and type promise: stale bytes of the receive buffer are compared (refuted); for the other events the expression depends on the wire contents only (C20_wire).")
c("C21", "partial", "C21_rule_set_actions_partial C21_whole_call C21_restore_refuted",
  "All rule sets, all events, whole process call, together with the decision matrix. For every application: rules are evaluated one after the other in the memory of that moment (C21_whole_call). The claim is false for applications that restore the factory defaults in an action: the cleared rules execute the first one again (C21_restore_refuted).")
c("C22", "partial", "C22_any_contents_partial C22_no_phantom_rule_partial C22_phantom_rule_refuted C21_whole_call",
  "All contents whose first rule has not size 0 (that case is undefined behaviour, C19), applications that do not restore factory defaults from actions; for all applications see C21_whole_call. A rule of size 0 executes the previous rule again (refuted).")
c("C23", "partial", "C23_rule_window_partial C23_last_page_refuted C23_alias_refuted",
  "Proved for rule sets below 256 bytes; false from 256 bytes on (8 bit index, one page too many is claimed).")
c("C24", "proved", "C24_loop_back_is_fifo C24_without_loop_back C24_queue_bounded", "All histories with power losses, all capacities; the expected queue is Spec_Transport.pendingRun.")
c("C25", "proved", "C25_transmit_errors C25_query_reports", "All histories; refused over-long messages count as failures (vscp_transport.c).")
c("C26", "proved", "C26_log_frames C26_message_recovered", "All messages of at most 255 bytes (the length parameter is an uint8_t), all failure patterns; vscp_logger_log. ")
c("C27", "proved", "C27_log_filter C27_received_events", "All states and events.")
c("C28", "partial", "C28_setting_persists_refuted C28_setting_persists_partial",
  "False: a LOG event received earlier is evaluated again in every process call. Proved for all other operations.")
c("C29", "proved", "C29_timer_runs_for_its_duration C29_timer_stop C29_timer_ids_distinct C29_not_started",
  "Reference timer module, all histories of create/start/stop/process.")
c("C32", "proved", "C32_other_nodes C32_claimed", "All protocol events addressed to another nickname and all that the application claims, all reachable active states.")
c("C35", "proved", "C35_vscp_register C35_window_register C35_application_register", "All addresses, pages and reachable active states.")
c("C36", "partial", "C36_write_register C36_read_only C36_application_register C36_paged_index_refuted",
  "All writable and read-only registers except the row index of a paged matrix, whose stored value is not the written one (refuted).")
c("C43", "proved", "C43_increment_decrement C43_application_register C43_read_only", "All addresses, values and reachable active states.")
c("C46", "proved", "C46_probe_answered C46_conflict_restarts_discovery", "All probes with the own nickname, all reachable active states; events for other nicknames: C32_other_nodes.")
c("C47", "partial", "C47_set_nickname_partial C47_size_checked C47_unassigned_refuted",
  "All nicknames but 0xFF, which is accepted as a new nickname by an active node (refuted).")
c("C52", "proved", "C52_boot_loader C52_rejected", "All requests, all reachable active states.")
c("C53", "proved", "C53_who_is_there", "All requests and all contents of the identity registers.")
c("C54", "proved", "C54_matrix_info", "All configurations and reachable active states.")
c("C57", "partial", "C57_same_segment C57_segment_change_partial C57_crc_stored C57_assigned_nickname_refuted",
  "False for a node whose nickname was assigned by the segment controller: it stores the CRC but does not restart discovery. Proved for all others.")
c("C48", "proved", "C48_drop_nickname C48_nickname_afterwards C48_size_checked", "All flags, wait times and reachable active states; more than three bytes: nothing happens.")

c("C30", "proved", "C30_transitions C30_other_operations", "Every state, received message and operation.")
c("C31", "proved", "C31_passive C31_nothing_delivered", "Every state other than ACTIVE and every received message.")
c("C34", "proved", "C34_memory_safe", "All reachable states; the rule buffer of the next generation matrix is covered by C19.")
c("C44", "proved", "C44_adoption C44_exhausted C44_candidates C44_waiting C44_probing",
  "All histories. The time bounds assume enough timers (otherwise vscp_core_init fails); that an idle node has no nickname assumes that protocol events are not handed to the application.")
c("C45", "partial", "C45_assignment_partial C45_waiting C45_invalid_nickname_refuted C45_short_refuted",
  "Origin, addressee and timeout proved; the nicknames 0 and 0xFF and events that are too short are accepted (refuted).")
c("C59", "partial", "C59_isActive C59_nickname_partial C59_nickname_refuted C59_sendEvent",
  "An active node loses its nickname by a factory restore (refuted); proved which operations can do so.")
c("C49", "partial", "C49_reset_partial C49_wait_time C49_not_before C49_when_passed C49_reset_refuted",
  "All histories after the drop while the node is neither initialised again nor told to start a discovery. A second reset request without initialisation in between is swallowed (refuted).")

c("C55","partial","C55_heartbeat_partial C55_other_operations C55_not_configured C55_not_early C55_frame C55_rate C55_alive C55_enable_partial C55_enable_refuted C55_not_active_refuted","The heartbeat period (per call and over whole histories: never more often, and never missing), the frame and the silence of all other operations are proved for every reachable node; the English claim that vscp_core_enableHeartbeat(b) sets the state to b is refuted (it toggles) and proved for histories in which every call asks for a change.")

c("C56","proved","C56_process C56_other_operations C56_second","For every reachable node whose timer pool holds the timers the configuration needs.")
c("C33","partial","C33_frames_partial C33_nickname_refuted","Every frame of every operation in every reachable state. The response to a page write that restores the factory settings carries the nickname from before (refuted).")
c("C60","proved","C60_process_bounded C60_other_operations C60_sharp","Frames caused by API calls of the application are counted separately; the bound of 39 frames is reached.")

c("C37","proved","C37_guarded C37_unchanged C37_index",
  "Over the whole history of a node including power losses: application registers are written and decision logic bytes change only at moments when bit 5 of the control flags is set. Factory restore sets that bit before it clears the decision logic, so no exception is needed.")
c("C38","partial","C38_kept_partial C38_run_partial C38_no_invention C38_failure_refuted C38_increment_refuted",
  "A raised bit stays until a transmitted frame reports it, for all histories of operations. The full claim is false: the reporting frame may be rejected by the transport, and an increment or decrement of register 0x80 drops the bits without any frame (both refuted).")
c("C50","partial","C50_active_partial C50_never_otherwise_partial C50_malformed C50_startup_partial C50_last_refuted",
  "Over every history since power up (crashes, restarts, API calls, time steps and frames in any order) the drop happens exactly when a frame of the last quarter completes a sequence in which all four quarters have matched in time. Refuted: the frame that triggers it need not itself match, if a matching last quarter came earlier in the same sequence.")

c("C39","partial","C39_page_read_partial C39_stored_partial C39_end_refuted","The values delivered are what reading the registers one by one returns, in order, in frames of seven with consecutive sequence numbers. Register 0xFF of a page is never delivered (refuted by C39_end_refuted), so the positive theorems stop at 0xFE.")
c("C40","partial","C40_page_write_partial C40_stored_partial C40_end_refuted C40_selection_refuted C40_protected_refuted","The registers are written one by one and answered in one frame, for applications that make no API calls in their write callout. Refuted: register 0xFF, the page selection among the registers, write protected registers.")
c("C42","partial","C42_ext_page_write_partial C42_stored C42_restore_refuted","The registers of the addressed page are written one by one up to 0xFF, for applications that make no API calls in their write callout. The page selection stays except when its registers are written or a factory restore is triggered through 0xA2 (C42_restore_refuted).")
c("C41","partial","C41_transfer C41_complete C41_progress C41_first C41_next C41_restore_refuted","Any history without a further request: the frames that went out carry the requested registers in order with consecutive sequence numbers, and the rest is what the node has yet to send; idle cycles make progress. A factory restore or a power loss ends the transfer (C41_restore_refuted), which the English statement does not except.")

c("C51","partial","C51_exact C51_window C51_elsewhere C51_write C51_intervening_refuted C51_extend_refuted","Over every history since power up: a process call restores the factory settings through the register iff 0xAA is written to it (by a register write, page write, extended page write, increment or decrement request) while the window that 0x55 opens is still open. The part of the property that says that another write in between cancels the sequence is refuted: only 0xAA, the timer and a restart close the window.")

c("C58","partial","C58_duplicate_disputed_partial C58_unique_when_read_partial C58_conflict_ends_partial C58_probe_answered_partial C58_always_unique_refuted C58_set_nickname_refuted","Any number of nodes with any configurations, every interleaving of process calls, time, API calls, restarts, power losses and foreign frames, reliable delivery, no loop-back, protocol events left to the framework, no SET_NICKNAME to active nodes. A duplicate always has a disputing frame under way and ends after two rounds of reading. Refuted: duplicates never exist (simultaneous probing), and SET_NICKNAME may create a lasting one.")

c("C61","partial","C61_one_frame_partial C61_defined_refuted C61_too_long_refuted C61_int32_min_refuted","All functions but seven, all arguments except INT32_MIN as value of a measurement, every state. The seven exceptions send bytes that were never written, exceed the array or send too much (refuted), and INT32_MIN is undefined (refuted).")
c("C62","partial","C62_payload_partial C62_big_endian_refuted C62_payload_refuted","All functions but the seven of C61; floating point parameters on little endian hosts only (big endian refuted). vscp_evt_control_sendBigChangeLevel drops its level (refuted).")
c("C63","partial","C63_measurement_partial C63_roundtrip_partial","All measurement functions, all values but INT32_MIN (C61_int32_min_refuted). The receiver recovers the value except for -32767 .. -1 and exponent -128, see C04.")
c("C64","partial","C64_zone_partial C64_zone_refuted","All functions with a zone except classes MULTIMEDIA and CONFIGURATION, vscp_evt_error_sendSuccess and vscp_evt_ir_sendVscpAbstractRemoteFormat, for which it is false (refuted).")
c("C65","proved","C65_distinct C65_class","Over the generated table of all 889 functions.")

c("C66","proved","C66_numbers C66_unambiguous","Over the constants of the model; the numbers on the right-hand side are literals in Prop_Constants.v.")
c("C67","partial","C67_adapter_partial C67_roundtrip C67_class_refuted","All histories from can_Open, length code at most 8, classes below 512. Class 512 is sent as class 0 with the hard coded bit (refuted). The controller is modelled after the AT90CAN data sheet.")
c("C68","partial","C68_conserves C68_refused C68_order_refuted","Nothing is lost, duplicated or made up, and messages are refused only if all 14 message objects are busy. The order of the calls is not kept (refuted).")
c("C69","partial","C69_delivers C69_nothing_made_up C69_lost_refuted C69_foreign_refuted C69_length_refuted","If the adapter is read between any two frames, all are delivered in order, and nothing is made up. Refuted: two frames between two readings, standard and remote frames, length codes above 8 (written out of bounds).")
c("C70","partial","C70_sends_empty_partial C70_refuses_long C70_data_refuted","Messages without data are sent, too long ones refused. No message with 1 to 8 data bytes can be sent (refuted). The controller is modelled after the FlexCAN chapter of the K64 reference manual.")
c("C71","partial","C71_read_within_15_partial C71_decode_partial C71_filter_refuted C71_one_call_refuted C71_data_refuted","A frame without data in one mailbox is returned within 15 calls. Refuted: frames with an identifier other than 0 are not received at all, one call does not suffice, frames with data cannot be read.")
c("C72","partial","C72_manual C72_automatic C72_never_fast C72_exact_when_polled C72_invalid_id C72_never_started C72_stop_manual C72_stop_refuted C72_late_poll_refuted","All numbers of timers and all histories. Refuted: swTimer_stop does not stop automatic timers, and late polls lose time.")
c("C73","partial","C73_counts_partial C73_set_partial C73_never_fast C73_counts_refuted C73_difference_partial C73_difference_refuted","Exact for periods that divide 1000, otherwise never fast (and refuted). The difference is characterised for all pairs of readings and is wrong for many (refuted).")
c("C74","partial","C74_port_partial C74_conserves C74_print C74_print_twice C74_count_refuted C74_race_refuted","The port equals two queues as long as no transmit interrupt falls inside serialDrv_write. Refuted: the number returned (main_print sends the first character twice), and the order with an interrupt inside serialDrv_write.")
c("C75","partial","C75_memory_partial C75_read_multiple C75_multiple_refuted C75_read_now_refuted","Ideal memory if every write cycle ends before the next access. The driver does not wait for it: of several bytes only the first is written, and a read right after a write fails (refuted). The device is modelled after the 25AA02E48 data sheet.")
c("C76","partial","C76_debounce C76_once_per_press_partial C76_held C76_race_refuted C76_arm_refuted","AVR board: exact if no interrupt falls between the two reads of the flag (otherwise refuted). ARM board: the test of the button is inverted (refuted).")
c("C77","proved","C77_steady C77_slow C77_fast","Any number of calls.")
c("C78","proved","C78_lamp C78_active","All applications, configurations and histories.")
c("C79","proved","C79_read C79_write","The example's configuration; requests to an active node.")
c("C80","partial","C80_led C80_rule C80_sender C80_lamp_refuted","The LED as vscp_action.c drives it. The status lamp drives the same LED and overwrites it within 250 ms (refuted).")
c("C81","partial","C81_ticks C81_regular C81_sleep_partial C81_sleep_refuted","Ticks and callbacks: complete. Sleep: for n > 0 and reads that are faster than the ticks (no two ticks within three successive reads); refuted for n = 0.")
c("C82","partial","C82_starts C82_node C82_time C82_lag C82_exact C82_drift_refuted C82_button C82_lamp C82_led C82_heartbeat_rate C82_heartbeat_alive","Complete but for the long-term accuracy: the clock falls behind without bound if turns take 3 ms (refuted), it is exact if every ms has a turn. The once-per-press statement assumes that no tick falls between the two reads of the flag (C76_race_refuted). The serial port is left out.")
c("C83","partial","C83_starts C83_node C83_time C83_lamp C83_button C83_nickname_refuted C83_heartbeat_rate C83_heartbeat_alive","Complete but for the last sentence, which is refuted: the test of the button is inverted, so that a button nobody touches starts the segment initialisation once, 101 ms after power up (C83_button, if no tick falls between the two reads of the flag). The debug console is left out.")

print(json.dumps({"claims": C}, indent=1))
