# Formal model of the VSCP framework (Rocq / Coq 8.16.1)

The code is only read as text. Everything below is about a hand-written Gallina
model of `/repo/src` (non generated part) whose definitions cite the C lines
they follow.

## Architecture

* `Base.v`      bytes, 8/16/32 bit wraps, byte/bit lemmas.
* `Types.v`     messages, constants, observable effects (`Obs`).
* `Config.v`    one record with every compile-time switch and value; a class `Env`
                that bundles it with the application callouts (application registers,
                boot loader algorithm, external GUID, "protocol event handled" verdict).
* `Util.v`, `DataCoding.v`, `PS.v`, `DevData.v`, `Timer.v`, `Transport.v`,
  `Logger.v`, `DM.v`, `DMNG.v`, `Core.v`   the model, function by function.
* `Spec_*.v`    small independent specifications (abstract queue, matching relation,
                rule expression semantics, register map, discovery protocol, ...).
* `Proof_*.v`   lemmas.
* `Prop_*.v`    property theorems only, closed by `exact`, each followed by
                `Print Assumptions` and accompanied by an `Example`.

World state: all static variables of the C modules, persistent memory as a total
function address -> byte, timers as remaining milliseconds, the future results of
the transport adapter's write function as an arbitrary list of booleans, the
application state of an arbitrary type, a log of observable effects (frames handed
to the adapter with their result, persistent writes, callouts) and an
undefined-behaviour flag that is raised by every out-of-bounds or uninitialised
access the C code could make.

One step of the system is an `op`: a `vscp_core_process` call together with what the
adapter returns for the read, a timer tick, or one of the public API calls. A
history is a list of ops, a reachable state is `run ops (init ...)`. Property
theorems quantify over all configurations (`valid` ones where stated), all
applications, all initial persistent memories, all histories and all adapter
behaviours.

## Properties: what is modelled, how it is proved

| id | model | proof |
|----|-------|-------|
| C01 | Util cyclic buffer as array + indices | refinement to a list queue, induction over operations |
| C02 | same, block transfers with UB flag | guarded theorem for non-wrapping blocks, refutation for wrapping ones and for truncated storage sizes |
| C03 | zone index function | case analysis over classes, equality with a table spec |
| C04 | DataCoding encode/decode with 32 bit wrap | arithmetic; refutation for short negative values |
| C05 | same | arithmetic |
| C06 | same | finite sweep lifted |
| C07 | PS layout as function of configuration | arithmetic over symbolic configuration |
| C08 | whole world | invariant over histories |
| C09 | whole world | invariant over histories |
| C10 | effect log contains persistent writes; crash = prefix | invariant over every prefix |
| C11 | restore function | direct; refutation for the decision matrix |
| C12-C14 | DevData | direct; refutation for C13 |
| C15, C16 | DM executeActions loop | equality with filtered row list, induction over rows |
| C17, C18 | DM register window | direct for one-page windows; refutations for other configurations |
| C19-C22 | DMNG byte code interpreter with checked buffer | induction over conditions and rules; refutation for size-0 rules |
| C23 | DMNG window | direct for sizes below 256; refutation otherwise |
| C24, C25 | Transport | refinement to queue / counter over op lists |
| C26-C28 | Logger | induction over message; refutation for C28 |
| C29 | Timer (example implementation) | induction over op lists |
| C30-C33, C37 | Core | invariants over one step and over histories |
| C34 | UB flag | invariant over histories |
| C35-C43 | register protocols | functional correctness per request, induction for multi-cycle transfers; refutations for the off-by-one of C39/C40 and alarm loss in C38 |
| C44-C46 | discovery | ghost history invariant over op lists |
| C47-C54 | protocol handlers | functional correctness per request, history invariants |
| C55-C57 | heartbeat, time, CRC | history invariants; refutations for enableHeartbeat |
| C58 | any number of node models, one inbox each, every interleaving | invariant: a duplicate nickname has a disputing frame under way; refutations for simultaneous discovery and SET_NICKNAME |
| C59, C60 | core | invariant / bound |
| C61-C65 | the 889 event functions as programs of a small statement language (`EventTable.v`, generated by `tools/events.py` which stops on any statement it does not know), interpreter in `Events.v` | every body equals the canonical body of its parameter list (computed), canonical bodies are right for all arguments (induction over the parameters); refutations for seven functions |
| C66 | constants of `Types.v`, `Core.v`, `DM.v`, `DMNG.v` | computed |
| C67-C69 | adapter and driver of the AT90CAN example with the 15 message objects of the controller, every interleaving | refinement to an abstract adapter (14 send slots, one receive slot), induction over histories; refutations for order, lost frames, foreign frames, length codes |
| C70, C71 | adapter of the FRDM-K64F example with the FlexCAN mailboxes | invariant over histories; refutations for data, acceptance filter, polling |
| C72 | software timers, any number | induction over histories; refutations for stop and late polls |
| C73 | clock and difference of times | induction over calls, case analysis; refutations |
| C74 | serial driver with its interrupts | refinement to two queues; refutations for the count and a race |
| C75 | EEPROM access with the device | refinement to an ideal memory; refutations for missing waits |
| C76, C77 | button debouncing, main loop, status lamp | induction over interrupts and passes; refutations for a race and the ARM board |

## Trusted base

* Coq 8.16.1: kernel including `vm_compute`. The standard library is the only library used.
* `Print Assumptions` is printed after every property theorem and says "Closed under the global context" for each of them: no
  axiom is used by any property theorem. (Loading the standard library's `ssreflect` support file makes the seven abstract
  constants `Coq.ssr.ssrunder.Under_rel.*` appear in a list of all constants without a body. No theorem depends on them.)
* No `Axiom`, `Parameter`, section-less `Variable` or `Hypothesis`, no `Admitted`, no functor, no module type, no plugin, no
  kernel check switched off.
* The reading of the C code, that is, the definitions in the model files. Every definition cites the lines it follows.
  `EventTable.v` is generated by `tools/events.py`; the generator is trusted as a reader of C text in the same way.

### Modelled

| C code | model | remarks |
|--------|-------|---------|
| `vscp_util.c` | `Util.v` | cyclic buffer as array and indices with undefined-behaviour outcome, zone index |
| `vscp_data_coding.c` | `DataCoding.v` | all functions; int32 overflow is undefined |
| `vscp_ps.c/.h` | `PS.v` | address layout as function of the configuration (`VSCP_PS_ADDR_BASE` 0, addresses are not truncated to 16 bits), all accessors |
| `vscp_dev_data.c` | `DevData.v` | all getters and setters, all storage options, little and big endian hosts |
| `vscp_transport.c` | `Transport.v` | loop-back buffer, error counters |
| `vscp_logger.c` | `Logger.v` | log stream, events, counters |
| `vscp_dm.c` | `DM.v` | registers, execution, extension, paged access; at most 255 rows |
| `vscp_dm_ng.c` | `DMNG.v` | interpreter with checked rule buffer |
| `vscp_core.c` | `Core.v` | all states, all protocol handlers, all configuration switches |
| `src/events/*.c` | `Events.v`, `EventTable.v` | all 889 functions |
| `templates/vscp_timer.c` and the example timers | `Timer.v` | counters in milliseconds, 16 bit, decremented by the elapsed time |
| `examples/avr/at90can`: `vscp_tp_adapter.c`, `canDrv.c` | `CanAvr.v` | adapter and driver; controller after the AT90CAN data sheet, see below |
| `examples/arm/frdm-k64f`: `vscp_tp_adapter.c` | `CanArm.v` | adapter with mailboxes after the K64 reference manual, see below |
| `examples/arm/frdm-k64f`: `vscp_ps_access.c` | `EepromArm.v` | with a model of the device |
| `swTimer.c` (both), `time.c`, `serialDrv.c` (AVR) | `SwTimer.v`, `SysTime.v`, `SerialDrv.v` | calls and interrupts in any order |
| `main.c` (AVR), `vscp_frdm_k64f.c` (ARM) | `MainLoop.v`, `SerialDrv.v` | button, lamp, `main_print` |
| `timerDrv.c` (AVR) | `TimerDrv.v` | ticks, callback, `timerDrv_sleep` as a machine with one step per read of the counter; no timer registers |
| `main.c` (AVR) as a whole | `AvrMain.v` | initialisation and main loop with the framework, the application, `timerDrv.c`, `swTimer.c`, `time.c`; interrupts anywhere; without the serial port |
| `vscp_frdm_k64f.c` (ARM) as a whole, with `vscp_user` | `ArmMain.v` | initialisation and main loop with the framework, the (empty) application, `swTimer.c`; interrupts anywhere; without the debug console |
| `examples/avr/at90can/vscp_user`: `vscp_action.c`, `vscp_app_reg.c`, configuration | `ExampleAvr.v` | as an instance of `Env` |

The application is an arbitrary value of the class `Env`: register read and write (with arbitrary state changes and API calls
where the theorem does not restrict it), boot loader entry, GUID provider, "event handled" verdicts.
Register, event, action and heartbeat callouts may read the persistent memory. The transport adapter is an
arbitrary sequence of received messages and transmission verdicts. Power loss may happen after any single persistent write.

Hardware of the examples is modelled as the data sheets describe it; these descriptions are assumptions and not part of /repo:

* AT90CAN controller: a message object with CONMOB 1 sends once and then sets TXOK; one with CONMOB 2 and mask 0 takes the next
  frame of any kind and sets RXOK; a message object whose flag is set or that is disabled does nothing.
* FlexCAN of the K64: an arriving frame is stored in the first matching empty mailbox, with the filters and masks the adapter
  sets; blocking transmissions end; the work-around for errata 5641 is switched off.
* USART: the transmit interrupt comes after each byte, if enabled.
* 25AA02E48: 256 bytes, write enable latch, no command but RDSR is taken during a write cycle.
* `vscp_tp_adapter_readMessage` leaves `*msg` unchanged when it returns FALSE.

### Not modelled

* Concurrency: the framework is single threaded; interrupts that decrement timers act between operations.
* `vscp_logger_logStr` wrappers that only compute a string length, log macros, version strings.
* Memory layout beyond what is listed: `float_t`/`double_t` are taken as 4 and 8 byte IEEE values (the event functions index their
  bytes 3..0 and 7..0), structures are overlaid without padding as their definitions say.
* Level 2 (`vscp_class_l1_l2.h`) contains constants only. Of `examples/` only what is listed above: register set-up of ports, clocks and timers is not modelled.
* Uninitialised bytes behind the payload of a frame are modelled as zero; no theorem speaks about them, reading one raises the
  undefined-behaviour flag or is excluded by `payload`.

## What is not true of the code

Theorems `..._refuted` exhibit a concrete reachable state or argument for which the property of that number is false.

* `C01_large_storage_refuted`: The hypothesis on the size in bytes is needed: the size parameter is an uint8_t.
* `C02_block_transfer_refuted`: C02, the full statement: every block operation on every reachable buffer is defined. It is false: a block that reaches the end of the storage runs out of it.
* `C04_roundtrip_refuted`: C04, the full statement ("for every value and exponent, decode (encode v e) = (v, e)") is false of the code: -1 comes back as 255, exponent -128 as 0, and INT32_MIN is undefined.
* `C05_int_min_refuted`: the excluded value: -1 * INT32_MIN overflows
* `C11_family_code_refuted`: the family code 0x11223344 is stored as 44 A2 D1 68 instead of 44 33 22 11
* `C11_matrix_refuted`: the decision matrix keeps old rows
* `C13_family_code_refuted`: C13 is false: the code 0x11223344 reads as 68 D1 A2 44
* `C15_short_event_refuted`: C15 is false for events without the zone bytes their class and type promise: events that are equal on the wire execute different actions, because bytes behind the payload are compared.
* `C17_extension_refuted`: the rows of the extension cannot be reached through their registers
* `C17_offset_refuted`: with a register offset the last bytes of the matrix are not reachable at their register
* `C17_pages_refuted`: bytes behind the first page of the matrix are found at wrong registers
* `C19_uninitialised_read_refuted`: a first rule of size 0 makes the node read the uninitialised rule buffer
* `C20_short_event_refuted`: the zone of an event without zone bytes is taken from behind its payload
* `C21_restore_refuted`: C21 is false for applications that restore the factory defaults in an action: the rule set is cleared while it is evaluated, and the bytes of the cleared rules, being rules of size 0, execute the first rule again.
* `C22_phantom_rule_refuted`: a rule set that announces two rules but holds one executes this rule twice
* `C23_alias_refuted`: the bytes of a larger rule set from 256 on are not reachable: their registers show byte k - 256
* `C23_last_page_refuted`: a rule set of exactly one page also claims the following page: its registers are taken away from the application and show the rule set a second time
* `C28_setting_persists_refuted`: C28 is false: the last received event stays in the receive buffer and the logger evaluates it in every process call, so an old LOG STOP undoes a later vscp_logger_enable(TRUE).
* `C33_nickname_refuted`: C33: a page write may change the nickname, by restoring the factory settings through register 0xA2, and its response then carries the old one
* `C36_paged_index_refuted`: C36 is false for the index register 0x7E of a paged decision matrix: a write of an index that does not exist is answered with this index, but not stored
* `C38_failure_refuted`: C38: a frame that reports the alarm may be rejected by the transport: the alarm is lost
* `C38_increment_refuted`: C38: an increment of register 0x80 loses the alarm without any frame
* `C39_end_refuted`: C39 is false for register 0xFF: it is part of the page, but never delivered
* `C40_end_refuted`: C40 is false for register 0xFF: it belongs to the page, but is never written
* `C40_protected_refuted`: C40: the answer for a write protected register is 0, and not the value stored
* `C40_selection_refuted`: C40 is false when the page selection register is among the registers: the next register is written on the new page
* `C41_restore_refuted`: not in general: a factory restore ends the transfer
* `C42_restore_refuted`: C42 is false when the write completes the factory reset sequence of register 0xA2: the page selection becomes 0
* `C45_invalid_nickname_refuted`: the unassigned nickname 0xFF and the nickname 0 of the segment controller are taken
* `C45_short_refuted`: the data size is not checked: an event without payload, whose unused bytes are 0xFF and 9, assigns nickname 9
* `C47_unassigned_refuted`: C47 is false for the unassigned address 0xFF: the node accepts it and remains active without a nickname
* `C49_reset_refuted`: a reset request is remembered until the next initialisation: a second RESET never ends
* `C50_last_refuted`: C50, refuted as stated: the frame that triggers the drop need not match, if a matching last quarter came earlier
* `C51_extend_refuted`: Writing 0x55 again while the window is open does not extend it.
* `C51_intervening_refuted`: C51 as stated is refuted: another value written to the register in between does not stop the sequence.
* `C55_enable_refuted`: its argument has no effect: asked twice to disable the heartbeats, the node sends them
* `C55_not_active_refuted`: a node dropped from the segment sends one more heartbeat
* `C57_assigned_nickname_refuted`: C57 is false for a node whose nickname was assigned by a segment controller: it stays active with its nickname on the new segment
* `C58_always_unique_refuted`: C58, what is not true: two nodes can hold the same nickname for some time, for example if they probed it at the same time
* `C58_set_nickname_refuted`: C58, what is not true: if the segment controller assigns by SET_NICKNAME to an active node a nickname that is in use, no frame is sent that would reveal it. Both nodes have read everything and hold the nickname.
* `C59_nickname_refuted`: after restoring the factory defaults an active node goes on as active, without nickname
* `C61_defined_refuted`: C61, what is not true: with these arguments a byte that was never written is sent or an array bound is exceeded
* `C61_int32_min_refuted`: C61, what is not true: the value of a measurement cannot be INT32_MIN
* `C61_too_long_refuted`: C61, what is not true: with these arguments the frame that is handed to the adapter claims to have more than 8 bytes
* `C62_big_endian_refuted`: C62, what is not true: on a big endian host a floating point value is sent least significant byte first
* `C62_payload_refuted`: C62, what is not true: these functions send something else than their arguments
* `C64_zone_refuted`: C64, what is not true: for these functions a receiving node looks for the zone elsewhere or nowhere; a row that matches the zone is not triggered by the event
* `C67_class_refuted`: C67, what is not true: a class of 512 or more does not fit; the frame of class 512 has the hard coded bit set and is class 0 for the receiver
* `C68_order_refuted`: C68, what is not true: frames do not get onto the bus in the order of the calls although the controller always sends the waiting message object with the lowest number first: the third message takes the message object of the first one and overtakes the second
* `C69_foreign_refuted`: C69, what is not true: not only frames of VSCP are delivered: a frame with an identifier of 11 bits is taken for the protocol event SET NICKNAME (class 0, type 6), and so is a remote frame
* `C69_length_refuted`: C69, what is not true: CAN allows a length code of 9 to 15 (for 8 data bytes); such a frame makes the driver write behind the 8 data bytes of its buffer
* `C69_lost_refuted`: C69, what is not true: a frame that arrives before the last one was read is lost
* `C70_data_refuted`: C70, what is not true: no message with 1 to 8 data bytes can be sent: the test "4 < index" is the wrong way round, the first byte is shifted by 48 bits, which is undefined
* `C71_data_refuted`: C71, what is not true: a received frame with data cannot be read, the shift is undefined
* `C71_filter_refuted`: C71, what is not true: the mailboxes take no frames but those with the identifier 0, because the filter is 0 and all bits of the mask are set: any other frame leaves the controller as it is
* `C71_one_call_refuted`: C71, what is not true: one call does not find the message that is there, because it looks at one mailbox only
* `C72_late_poll_refuted`: C72, what is not true: the time base is not kept when the loop polls late: 500 interrupts of a timer of 250 with one late poll give one expiration only
* `C72_stop_refuted`: C72, what is not true: swTimer_stop does not stop an automatic timer; the next poll starts it again, and it expires 5 interrupts later although nobody has started it
* `C73_counts_refuted`: C73, what is not true: other periods lose time, called every 300 ms the clock shows 1 s after 1.2 s
* `C73_difference_refuted`: C73, what is not true: from 00:00:30 to 00:01:00 it computes 59:59:30
* `C74_count_refuted`: C74, what is not true: the value returned is not the number of bytes written: the first byte on an idle port is sent and 0 is returned; main_print therefore sends the first character twice
* `C74_race_refuted`: C74, what is not true: if the last byte gets out between the test and the rest of serialDrv_write, the new byte waits although the transmitter is idle, and the next byte overtakes it
* `C75_multiple_refuted`: C75, what is not true: the driver does not wait for the end of the write cycle: of several bytes written at once only the first one gets into the memory
* `C75_read_now_refuted`: C75, what is not true: a read right after a write does not return the value written
* `C76_arm_refuted`: C76, what is not true on the ARM board: the test of the button is inverted. A button that nobody touches starts the segment initialisation 101 ms after start up; a pressed one never does.
* `C76_race_refuted`: C76, what is not true: a press is lost if the interrupt that sets the flag comes between the two reads
* `C80_lamp_refuted`: C80, what is not true: that the LED stays as the actions leave it. The status lamp drives the same LED, and as only active nodes execute actions for events, the next call of main_processStatusLamp (every 250 ms) switches it on again.
* `C81_sleep_refuted`: It is not true of timerDrv_sleep(0): a tick between the first two reads makes it wait for 256 ticks, however fast the processor is; nor of a tick before each of the first reads: sleep(1) called at the counter value 254 then waits for 257 ticks.
* `C82_drift_refuted`: C82, what is not true: that the framework's time stays near the real time. The period is restarted when the main loop notices its end, and turns of 3 ms are enough to let the clock fall behind without bound.
* `C83_nickname_refuted`: C83, what is not true: that a node keeps the nickname it was given. A node with a stored nickname that nobody touches, on a bus without traffic, starts up, becomes active, and after 101 ms drops its nickname from the persistent memory.
