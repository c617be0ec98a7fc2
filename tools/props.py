#!/usr/bin/env python3
# Source of properties.jsonl: run `python3 tools/props.py > properties.jsonl`.
import json
P = []
def p(i, title, statement, quant, why, anchors):
    P.append(dict(id=i, title=title, statement=statement, quantifier=quant,
                  why_tests_cant=why, anchors=anchors))

# ---------------------------------------------------------------- util / codec
p("C01", "Cyclic buffer is a bounded FIFO",
  "Used one element at a time (the way the transport layer uses it), a cyclic buffer initialised with storage for num elements behaves exactly like a FIFO queue of capacity num-1: a write succeeds iff fewer than num-1 elements are stored, a read succeeds iff at least one is stored and returns the oldest, nothing is lost, duplicated, reordered or written outside the storage.",
  "every storage size, element content and sequence of interleaved reads and writes",
  "The wrap-around positions and fill levels depend on the whole history; tests only sample a few interleavings.",
  ["src/vscp_util.c:vscp_util_cyclicBufferInit", "src/vscp_util.c:vscp_util_cyclicBufferRead", "src/vscp_util.c:vscp_util_cyclicBufferWrite"])
p("C02", "Cyclic buffer block transfers stay inside the storage",
  "A block read or write of several elements transfers min(requested, available) elements in FIFO order and never accesses memory outside the storage handed to cyclicBufferInit, for every read/write position.",
  "every buffer state, block length and storage size (also sizes above 255 bytes)",
  "An out-of-bounds access appears only at particular index/length combinations and is not visible as a failed assertion.",
  ["src/vscp_util.c:vscp_util_cyclicBufferInit", "src/vscp_util.c:vscp_util_cyclicBufferRead", "src/vscp_util.c:vscp_util_cyclicBufferWrite"])
p("C03", "Zone index classification is total and memory safe",
  "For every class and type, the zone index is exactly 0, exactly 1 or 'no zone' as the VSCP event tables say for the framework's classes, and type 0 (GENERAL) never carries a zone; hence zone and sub-zone are always read from inside the 8 data bytes.",
  "all 2^16 classes times 2^8 types",
  "The table has 16.7 million entries, tests touch a handful.",
  ["src/vscp_util.c:vscp_util_getZoneIndex"])
p("C04", "Normalised integer coding round-trips",
  "Encoding a signed 32 bit integer together with a decimal exponent and decoding the bytes again yields the same value and the same exponent, for every value and every exponent.",
  "all 2^32 values and 2^8 exponents",
  "The interesting values are sign/size boundaries over a 2^40 input space.",
  ["src/vscp_data_coding.c:vscp_data_coding_int32ToNormalizedInteger", "src/vscp_data_coding.c:vscp_data_coding_normalizedIntegerToInt32"])
p("C05", "Normalised integer encoder respects the output buffer and is shortest",
  "The encoder returns 0 and writes nothing if the coded value does not fit; otherwise it writes exactly the number of bytes it reports, at most 5 and at most the given size, and the number of payload bytes is the smallest the format admits.",
  "all values, exponents and buffer sizes",
  "Buffer overrun freedom quantifies over all inputs.",
  ["src/vscp_data_coding.c:vscp_data_coding_int32ToNormalizedInteger"])
p("C06", "Format byte packs its three fields without interference",
  "The measurement format byte contains representation, unit and sensor index in disjoint bit fields; every in-range triple is recoverable and different triples give different bytes; out-of-range arguments never corrupt a neighbouring field.",
  "all 2^24 argument triples",
  "A masking error shows only for specific argument combinations.",
  ["src/vscp_data_coding.c:vscp_data_coding_getFormatByte", "src/vscp_data_coding.c:vscp_data_coding_getNormalizerByte"])
# ---------------------------------------------------------------- persistency
p("C07", "Persistent memory fields are disjoint and in range",
  "For every configuration the persistent memory fields (boot flag, nickname, segment CRC, node control flags, user id, GUID, zone, sub-zone, manufacturer ids, MDF URL, family code, type, log id, decision matrix, its extension and the rule set) occupy pairwise disjoint address ranges between the configured base address and the first application address; writing one field changes no other field, and reading back returns the value written.",
  "every combination of compile-time features and every field index",
  "There are 2^13 feature combinations times sizes; overlap corrupts data only for particular combinations.",
  ["src/vscp_ps.h", "src/vscp_ps.c"])
p("C08", "The framework never touches application persistent memory",
  "No sequence of received messages, time steps and API calls makes the framework write a persistent memory address outside its own area, whatever index or data the messages carry.",
  "every configuration, message history, timing and transport behaviour",
  "Safety over every history; a test covers one history.",
  ["src/vscp_ps.c", "src/vscp_core.c", "src/vscp_dm.c", "src/vscp_dm_ng.c"])
p("C09", "Nickname in RAM always equals the stored nickname",
  "After initialisation, at every point between API calls, the nickname the node uses and reports (readNicknameId, register 0x91, originating address of sent events) equals the nickname in persistent memory, so a power cycle at any such point keeps the address.",
  "every configuration and every history of messages, timer ticks and API calls",
  "Requires an invariant over all histories.",
  ["src/vscp_core.c:vscp_core_writeNicknameId", "src/vscp_core.c:vscp_core_init", "src/vscp_core.c:vscp_core_readNicknameId"])
p("C10", "Power loss at any persistent write leaves a node that restarts consistently",
  "If power is lost after any prefix of the persistent writes of any execution, re-initialisation succeeds and the node comes up with exactly the nickname that was last completely stored, or, if the node control flags are then invalid, with factory defaults and the uninitialised nickname 0xFF.",
  "every execution and every crash point between two byte writes",
  "Crash points multiply with histories; unit tests have no crash injection.",
  ["src/vscp_core.c:vscp_core_init", "src/vscp_core.c:vscp_core_checkPersistentMemory", "src/vscp_core.c:vscp_core_restoreFactoryDefaultSettings"])
p("C11", "Restoring factory defaults yields the configured defaults",
  "After vscp_core_restoreFactoryDefaultSettings every persistent field has its configured default: nickname 0xFF, segment CRC 0xFF, control flags 0xA0, user id 0, GUID, zones, ids, MDF URL, family code and type as configured, decision matrix and rule set empty.",
  "every configuration and every prior persistent memory content",
  "Depends on arbitrary prior content and configuration.",
  ["src/vscp_core.c:vscp_core_restoreFactoryDefaultSettings", "src/vscp_dev_data.c:vscp_dev_data_restoreFactoryDefaultSettings", "src/vscp_dm.c:vscp_dm_restoreFactoryDefaultSettings", "src/vscp_dm_ng.c:vscp_dm_ng_restoreFactoryDefaultSettings"])
# ---------------------------------------------------------------- device data
p("C12", "GUID read-out is independent of where the GUID is stored",
  "The GUID registers 0xD0..0xDF and the who-is-there response return the configured GUID MSB first, whether it lives in flash or (after factory restore) in persistent memory, and in the byte order of the external provider otherwise.",
  "every GUID and each storage option, every byte index",
  "2^128 GUIDs; index reversal errors can cancel for symmetric test data.",
  ["src/vscp_dev_data.c:vscp_dev_data_getGUID", "src/vscp_core.c:vscp_core_readRegister"])
p("C13", "Standard device family code and type registers return the configured code",
  "Registers 0x9A..0x9D and 0x9E..0xA1 return the configured 32 bit family code and device type MSB first.",
  "all 2^32 codes",
  "All-zero or symmetric test values hide shift errors.",
  ["src/vscp_dev_data.c:vscp_dev_data_getStdDevFamilyCode", "src/vscp_dev_data.c:vscp_dev_data_getStdDevType"])
p("C14", "MDF URL read-out terminates and is zero padded",
  "The MDF registers 0xE0..0xFF return the characters of the configured URL in order followed by zeros, never bytes behind the terminator.",
  "every URL of any length and every index",
  "Needs all lengths including 0, 31, 32 and longer.",
  ["src/vscp_dev_data.c:vscp_dev_data_getMdfUrl"])
# ---------------------------------------------------------------- decision matrix
p("C15", "Decision matrix fires exactly the matching rows",
  "For every event and every decision matrix content, the actions executed are exactly those of the enabled rows whose originating address, class mask/filter, type mask/filter, hard coded flag, zone and sub-zone conditions match, each once, in ascending row order, with the row's action parameter; nothing is executed for disabled rows or for action 0.",
  "every matrix content and every event",
  "The matching rule has 9 independent criteria over 2^64 rows and events.",
  ["src/vscp_dm.c:vscp_dm_executeActions", "src/vscp_dm.c:vscp_dm_isDecisionMatrixRowEnabled"])
p("C16", "Decision matrix extension adds conditions only to extended rows",
  "With the extension enabled, a row whose action is 0xFF uses the extension row: each enabled parameter condition must hold for the corresponding data byte, which must be present, and then the extension's action runs; rows with other actions ignore the extension row.",
  "every matrix content, extension content and event",
  "Combinatorial space of flags, data sizes and values.",
  ["src/vscp_dm.c:vscp_dm_executeActions", "src/vscp_dm.c:vscp_dm_readDecisionMatrixExt"])
p("C17", "Decision matrix registers are a faithful window on the stored matrix",
  "Reading register k of the matrix window returns byte k of the stored matrix and writing it changes exactly this byte; all bytes of all rows are reachable and no register outside the window is claimed.",
  "every page, offset, row count, register address and content",
  "Configuration arithmetic has corner cases at page boundaries.",
  ["src/vscp_dm.c:vscp_dm_isDecisionMatrix", "src/vscp_dm.c:vscp_dm_calculateMatrixIndex", "src/vscp_dm.c:vscp_dm_readRegister", "src/vscp_dm.c:vscp_dm_writeRegister"])
p("C18", "Paged decision matrix access is an index/data register pair",
  "With the paged feature, the index register (page 0, register 126) selects which byte of the matrix appears in the value register (page 0, register 127), an index outside of the matrix is never stored, and reads/writes of the value register access exactly the selected byte.",
  "every index, row count and history of register accesses",
  "History dependent register semantics.",
  ["src/vscp_dm.c:vscp_dm_readRegister", "src/vscp_dm.c:vscp_dm_writeRegister"])
# ---------------------------------------------------------------- dm next generation
p("C19", "Rule evaluation terminates and never reads outside the rule",
  "For every rule-set content (also malformed, random bytes written through registers) evaluating an event terminates after at most 'rule count' rules, and evaluation of a rule never reads bytes beyond the rule's size or uninitialised bytes.",
  "all 256^size rule-set contents, all events",
  "Memory safety on adversarial byte code over a huge space.",
  ["src/vscp_dm_ng.c:vscp_dm_ng_executeActions", "src/vscp_dm_ng.c:vscp_dm_ng_getDecisionResult", "src/vscp_dm_ng.c:vscp_dm_ng_getFirstRule", "src/vscp_dm_ng.c:vscp_dm_ng_getNextRule"])
p("C20", "Rule evaluation implements the documented logic",
  "For every well-formed rule the action is executed iff the boolean expression given by its conditions holds, where a condition compares the selected event parameter with the stored value and conditions are combined from right to left (c1 op1 (c2 op2 (...))).",
  "every well-formed rule and every event",
  "Infinite family of expressions and events.",
  ["src/vscp_dm_ng.c:vscp_dm_ng_getDecisionResult", "src/vscp_dm_ng.c:vscp_dm_ng_getEventParValue", "src/vscp_dm_ng.c:vscp_dm_ng_compare"])
p("C21", "Rule set execution runs every matching rule once in order",
  "For every well-formed rule-set (count followed by that many rules), processing an event executes the actions of exactly the matching rules, once each, in order, with the rule's parameter.",
  "every well-formed rule set and event",
  "Unbounded family of rule sets.",
  ["src/vscp_dm_ng.c:vscp_dm_ng_executeActions"])
p("C22", "A rule set that announces more rules than it holds executes no phantom rule",
  "If the stored rule count exceeds the rules present, or a rule has size 0, no action is executed that is not a rule of the rule set.",
  "every rule-set content",
  "Needs adversarial content.",
  ["src/vscp_dm_ng.c:vscp_dm_ng_getFirstRule", "src/vscp_dm_ng.c:vscp_dm_ng_getNextRule"])
p("C23", "Rule-set registers are a faithful window on the stored rule set",
  "Every byte of the rule set is readable and writable through exactly one page/register pair and no register outside the window is claimed.",
  "every rule-set size, page and register address",
  "Page-boundary arithmetic.",
  ["src/vscp_dm_ng.c:vscp_dm_ng_isDecisionMatrix", "src/vscp_dm_ng.c:vscp_dm_ng_readRegister", "src/vscp_dm_ng.c:vscp_dm_ng_writeRegister"])
# ---------------------------------------------------------------- transport
p("C24", "Loop-back never loses, reorders or duplicates a received event",
  "With loop-back enabled, messages are delivered to the node in FIFO order of arrival: looped-back events in the order they were sent, received events in the order they were received; no received event is dropped because of the loop-back buffer; a sent event is looped back iff it is neither PROTOCOL nor LOG class and the buffer is not full.",
  "every sequence of sends and receives and every buffer size",
  "Depends on the interleaving of sends and receives.",
  ["src/vscp_transport.c:vscp_transport_readMessage", "src/vscp_transport.c:vscp_transport_writeMessage"])
p("C25", "Transmit error counter counts failures exactly",
  "vscp_transport_getTransmitErrors returns min(255, number of failed transmissions since the previous call) and resets the count.",
  "every sequence of transmissions with arbitrary success/failure and counter reads",
  "Saturation appears after 255 failures in particular histories.",
  ["src/vscp_transport.c:vscp_transport_writeMessage", "src/vscp_transport.c:vscp_transport_getTransmitErrors"])
# ---------------------------------------------------------------- logger
p("C26", "Log messages are segmented losslessly",
  "A log message of n bytes is sent as ceil(n/5) (at least one) frames with consecutive indices starting at 0, each carrying log id, level and 5 message bytes, zero padded; concatenating the payloads gives the message back; transmission stops at the first frame that could not be sent.",
  "every message length and content, every transmit failure pattern",
  "Unbounded lengths and failure patterns.",
  ["src/vscp_logger.c:vscp_logger_sendLogEvent", "src/vscp_logger.c:vscp_logger_log", "src/vscp_logger.c:vscp_logger_logUInt32"])
p("C27", "Logger obeys its enable flag and level filter",
  "A log call sends frames iff logging is enabled and the level bit is set; LOG START/STOP events addressed to the node's log id switch logging on/off, LOG LEVEL sets the filter, all other events leave the logger unchanged.",
  "every event and every prior state",
  "Quantifies over all events.",
  ["src/vscp_logger.c:vscp_logger_handleEvent", "src/vscp_logger.c:vscp_logger_log"])
p("C28", "A local logger setting stays in force until changed",
  "A call of vscp_logger_enable or vscp_logger_setLogLevel takes effect until the next such call or the next received LOG event.",
  "every history",
  "A one-cycle test does not see the setting being overwritten later.",
  ["src/vscp_core.c:vscp_core_process", "src/vscp_logger.c:vscp_logger_handleEvent"])
# ---------------------------------------------------------------- timers
p("C29", "Software timer runs exactly for its duration",
  "A timer started with value v reports running until the sum of the processed periods since the start reaches v, and stopped from then on; starting or stopping one timer never affects another; identifiers handed out are distinct.",
  "every sequence of timer operations and periods",
  "Timing histories are unbounded.",
  ["examples/avr/at90can/vscp_user/vscp_timer.c"])
# ---------------------------------------------------------------- core state machine
p("C30", "Node state machine only takes documented transitions",
  "One call of vscp_core_process moves the node only along documented edges: STARTUP->INIT/ACTIVE/IDLE..., INIT->PREACTIVE/ACTIVE/IDLE, PREACTIVE->INIT/ACTIVE, ACTIVE->INIT/IDLE/RESET, and IDLE, RESET and ERROR are left only by vscp_core_startNodeSegmentInit or vscp_core_init.",
  "every configuration, history and received message",
  "Requires considering every message in every state.",
  ["src/vscp_core.c:vscp_core_process", "src/vscp_core.c:vscp_core_stateStartup", "src/vscp_core.c:vscp_core_stateInit", "src/vscp_core.c:vscp_core_statePreActive", "src/vscp_core.c:vscp_core_stateActive", "src/vscp_core.c:vscp_core_stateReset"])
p("C31", "Only an active node serves registers, runs actions and delivers events",
  "In any state other than ACTIVE no register is read or written by a message, no decision matrix action is executed and no event is delivered to the application; in INIT, PREACTIVE, IDLE, RESET and ERROR the only frames sent by process are discovery frames.",
  "every history and message",
  "All states times all messages.",
  ["src/vscp_core.c:vscp_core_process", "src/vscp_core.c:vscp_core_stateActive"])
p("C32", "Messages addressed to other nodes have no effect",
  "An active node that receives a protocol event addressed to another nickname sends nothing in reply and changes neither its nickname, registers, persistent memory nor state. The same holds for every protocol event that the application claims, if it is given the protocol events first.",
  "every protocol event type, payload, and nickname",
  "2^72 payloads per type.",
  ["src/vscp_core.c:vscp_core_handleProtocolClassType"])
p("C33", "Every transmitted frame is well formed",
  "Every frame handed to the transport by the framework has at most 8 data bytes, carries the node's current nickname as originating address (0xFF before assignment), the configured hard coded flag, and a PROTOCOL, INFORMATION or LOG class with the documented priority.",
  "every configuration, history and transport behaviour",
  "Safety over all histories.",
  ["src/vscp_core.c:vscp_core_prepareTxMessage", "src/vscp_core.c:vscp_core_sendEvent"])
p("C34", "Protocol handling is memory safe for every received frame",
  "For every received frame with at most 8 data bytes, in every state, no array of the framework (message data, rule buffer, user id, GUID) is accessed out of bounds.",
  "every history of frames with arbitrary class, type, data size up to 8 and data",
  "Adversarial inputs.",
  ["src/vscp_core.c", "src/vscp_dm.c", "src/vscp_dm_ng.c", "src/vscp_logger.c"])
p("C35", "Register read returns the documented register and has no side effect",
  "A READ_REGISTER request to the node is answered by exactly one response carrying the requested address and the register's value as defined by the VSCP register map; nothing but the alarm register (cleared on read) changes.",
  "every page selection, register address and node state",
  "2^24 page/address pairs times states.",
  ["src/vscp_core.c:vscp_core_handleProtocolReadRegister", "src/vscp_core.c:vscp_core_readRegister"])
p("C36", "Register write affects exactly the addressed register; read-only registers are immutable",
  "A WRITE_REGISTER request to a writable register stores the value there, is answered by one response with the stored value and changes no other register; a request to a read-only or reserved VSCP register changes nothing and is not answered.",
  "every page selection, address, value and state",
  "All addresses and values.",
  ["src/vscp_core.c:vscp_core_handleProtocolWriteRegister", "src/vscp_core.c:vscp_core_writeRegister"])
p("C37", "Write protection protects application registers and decision logic",
  "While the write-protect flag in the node control flags is active, no received message can change an application register, the decision matrix or the rule set by register access, for any sequence of messages that does not first rewrite the control flags or restore factory defaults.",
  "every sequence of received frames",
  "Seven different register-writing protocol events and arbitrary sequences.",
  ["src/vscp_core.c:vscp_core_writeRegister", "src/vscp_core.c:vscp_core_getRegAppWriteProtect"])
p("C38", "Alarm bits accumulate and are never lost before being reported",
  "Every alarm bit set by vscp_core_setAlarm is returned by the next successful report of register 0x80, and is cleared by it.",
  "every sequence of alarms, reads and transmit failures",
  "Depends on interleavings of setAlarm with several read protocols and on transmit failures.",
  ["src/vscp_core.c:vscp_core_setAlarm", "src/vscp_core.c:vscp_core_readRegister", "src/vscp_core.c:vscp_core_extendedPageReadRegister"])
p("C39", "Page read returns the requested registers completely and in order",
  "A PAGE_READ request (offset, count) is answered by frames whose payloads, concatenated in sequence-number order, are the values of the count registers starting at offset up to the end of the page.",
  "every offset, count, page and register content",
  "65536 requests times contents; boundary at 0xFF.",
  ["src/vscp_core.c:vscp_core_handleProtocolPageRead"])
p("C40", "Page write writes the transmitted bytes to consecutive registers",
  "A PAGE_WRITE request writes its data bytes to consecutive registers of the selected page up to its end and responds with the values now stored.",
  "every offset, payload and node state",
  "Registers that change the page selection or trigger actions are inside the range.",
  ["src/vscp_core.c:vscp_core_handleProtocolPageWrite"])
p("C41", "Extended page read delivers every requested register exactly once",
  "An EXTENDED_PAGE_READ request is answered, over as many process cycles and transmit failures as necessary, by frames with consecutive sequence numbers which together carry exactly the requested number of registers in order starting at (page, register), continuing on the next page after register 0xFF.",
  "every request, every transmit failure pattern and cycle schedule without an intervening page read request",
  "The transfer spans many cycles with arbitrary failures.",
  ["src/vscp_core.c:vscp_core_handleProtocolExtendedPageReadRegister", "src/vscp_core.c:vscp_core_extendedPageReadRegister"])
p("C42", "Extended page write writes the addressed page and restores the page selection",
  "An EXTENDED_PAGE_WRITE request writes its data bytes to consecutive registers of the given page, answers with the stored values, and leaves the page selection unchanged unless the page selection registers themselves are written.",
  "every request",
  "All payloads and boundary positions.",
  ["src/vscp_core.c:vscp_core_handleProtocolExtendedPageWriteRegister"])
p("C43", "Increment and decrement change a register by exactly one modulo 256",
  "INCREMENT/DECREMENT of a writable register stores the old value plus/minus one modulo 256 and reports the stored value.",
  "every register and value",
  "Wrap-around and register-specific behaviour.",
  ["src/vscp_core.c:vscp_core_handleProtocolIncrementRegister", "src/vscp_core.c:vscp_core_handleProtocolDecrementRegister"])
p("C44", "Nickname discovery never adopts an acknowledged nickname",
  "A node that is discovering adopts nickname n only after sending a probe for n and not processing any probe acknowledge from n before the probe timeout; it probes candidates in ascending order from the configured start, and goes IDLE without a nickname when all are taken.",
  "every sequence of received frames, timings and transmit failures",
  "Timing dependent protocol over arbitrary traffic.",
  ["src/vscp_core.c:vscp_core_stateInit"])
p("C45", "Segment controller assignment is only accepted from the segment controller",
  "In PREACTIVE the node adopts a nickname only from a SET_NICKNAME event originating from address 0 and addressed to 0xFF; without it the node returns to discovery after the timeout; adopted nicknames are valid (neither 0 nor 0xFF).",
  "every received frame and timing",
  "All frames.",
  ["src/vscp_core.c:vscp_core_statePreActive", "src/vscp_core.c:vscp_core_stateInit"])
p("C46", "An active node defends its nickname",
  "An active node answers every NEW_NODE_ONLINE probe for its own nickname with a PROBE_ACK, answers no probe for another nickname, and restarts discovery when another node acknowledges its nickname.",
  "every received frame and state",
  "All frames and states.",
  ["src/vscp_core.c:vscp_core_handleProtocolNewNodeOnline", "src/vscp_core.c:vscp_core_handleProtocolProbeAck"])
p("C47", "Set nickname changes the address of exactly the addressed node to a valid address",
  "SET_NICKNAME(old,new) makes the node with nickname old use new, persistently, and confirm with NICKNAME_ACCEPTED from the new address; nodes with other nicknames ignore it; the segment controller address 0 and the unassigned address 0xFF are never assigned.",
  "every old/new pair",
  "All pairs and states.",
  ["src/vscp_core.c:vscp_core_handleProtocolSetNickname"])
p("C48", "Drop nickname performs exactly the requested variant",
  "DROP_NICKNAME performs the variant selected by its optional flags: plain drop and restart, keep nickname, restore factory defaults (with or without keeping the nickname), go idle, with the requested wait time; the nickname is 0xFF afterwards unless keeping was requested.",
  "every flags byte, wait time and node state",
  "256 flag combinations times wait times.",
  ["src/vscp_core.c:vscp_core_handleProtocolDropNickname"])
p("C49", "A reset is requested exactly once after the requested wait time",
  "After entering RESET with wait time t the application's reset request is called exactly once, not before t one-second periods elapsed, and as soon as they have.",
  "every wait time, timing and traffic",
  "Timed liveness/safety over arbitrary schedules.",
  ["src/vscp_core.c:vscp_core_changeToStateReset", "src/vscp_core.c:vscp_core_stateReset"])
p("C50", "GUID drop requires the complete matching GUID in time",
  "The GUID drop-nickname sequence takes effect only if, since the last first frame and while the multi message timer has been running, matching frames for all four GUID quarters were received, the last quarter last; other or late frames never trigger it.",
  "every sequence of frames and timings, every GUID",
  "Multi-frame protocol with interleavings and timeouts.",
  ["src/vscp_core.c:vscp_core_handleProtocolGuidDropNickname"])
p("C51", "Register 162 factory restore requires the 0x55/0xAA sequence in time",
  "Factory defaults are restored through register 0xA2 iff 0x55 and then 0xAA is written to it while the multi message timer is running with no other intervening write to it.",
  "every sequence of register writes and timings",
  "Sequence and time dependent.",
  ["src/vscp_core.c:vscp_core_writeRegister"])
p("C52", "Boot loader entry requires algorithm, GUID and device selection to match",
  "The boot flag is written and the boot loader requested only on an ENTER_BOOT_LOADER event addressed to the node whose algorithm, GUID bytes and page-select bytes all match; otherwise the node answers NACK and keeps running unchanged.",
  "every payload and node state",
  "2^64 payloads.",
  ["src/vscp_core.c:vscp_core_handleProtocolEnterBootLoader"])
p("C53", "Who-is-there response carries the complete GUID and MDF URL",
  "A WHO_IS_THERE request to the node (or broadcast) is answered by seven frames, indices 0..6, whose payloads concatenated are the 16 GUID bytes MSB first, the 32 MDF bytes and a zero byte.",
  "every GUID, MDF URL and storage option",
  "Segmentation across three sources.",
  ["src/vscp_core.c:vscp_core_handleProtocolWhoIsThere"])
p("C54", "Matrix info response describes the matrix",
  "GET_MATRIX_INFO addressed to the node is answered with the number of rows, the register offset and the start page (and level 2 size when present) of the decision matrix of the node.",
  "every configuration",
  "Configuration space.",
  ["src/vscp_core.c:vscp_core_handleProtocolGetMatrixInfo"])
p("C55", "Heartbeats are sent with the configured period while active and enabled",
  "An active node with heartbeats enabled sends a node heartbeat whenever the heartbeat period elapsed and at no other time; when disabled or not active it sends none; vscp_core_enableHeartbeat(TRUE/FALSE) enables/disables it.",
  "every timing and history",
  "Timing histories.",
  ["src/vscp_core.c:vscp_core_enableHeartbeat", "src/vscp_core.c:vscp_core_stateActive"])
p("C56", "Time since epoch advances with the second timer and follows the segment controller",
  "The time since epoch is incremented by one whenever the one second timer elapsed at a process call, set by segment controller heartbeats carrying a time and by the API, and otherwise never changes; it wraps modulo 2^32.",
  "every history",
  "History dependent.",
  ["src/vscp_core.c:vscp_core_process", "src/vscp_core.c:vscp_core_handleProtocolHeartbeat"])
p("C57", "Segment change detection",
  "When a segment controller heartbeat carries a CRC different from the stored one, the stored CRC is updated and the node re-runs its discovery; with an equal CRC nothing is restarted.",
  "every CRC history",
  "History dependent.",
  ["src/vscp_core.c:vscp_core_handleProtocolHeartbeat"])
p("C58", "Nicknames on a segment stay unique",
  "On a segment with reliable delivery, two nodes never stay active with the same nickname: a discovering node never takes a nickname that an active node, processing in time, holds.",
  "every interleaving of the nodes' process calls and timers",
  "Distributed interleavings.",
  ["src/vscp_core.c:vscp_core_stateInit", "src/vscp_core.c:vscp_core_handleProtocolNewNodeOnline", "src/vscp_core.c:vscp_core_handleProtocolProbeAck"])
p("C59", "The API reports activity truthfully",
  "vscp_core_isActive returns TRUE iff the node is in the ACTIVE state, in which it holds a nickname; vscp_core_sendEvent sends in every state exactly the given message and returns the transport's verdict.",
  "every history",
  "History dependent.",
  ["src/vscp_core.c:vscp_core_isActive", "src/vscp_core.c:vscp_core_sendEvent", "src/vscp_core.c:vscp_core_prepareTxMessage"])
p("C60", "A process call does bounded work",
  "One call of vscp_core_process terminates and sends at most a fixed number of frames, whatever was received.",
  "every state and message",
  "Worst case over all messages and rule sets.",
  ["src/vscp_core.c:vscp_core_process"])
p("C61", "An event function sends exactly one well-formed frame or nothing",
  "Every function vscp_evt_*_send* called with valid arguments either returns FALSE without effect because a mandatory buffer is NULL or empty, or hands exactly one frame to the transport with the class and type of the event, normal priority, the nickname as origin and at most 8 bytes, every one of which was written; it never exceeds an array and returns the transport's verdict.",
  "all 889 event functions, all argument values, buffers and sizes, every state of the node",
  "The arguments range over 32 and 64 bit values, NULL pointers and buffers of every length.",
  ["src/events/*.c", "src/vscp_core.c:vscp_core_prepareTxMessage", "src/vscp_core.c:vscp_core_sendEvent"])
p("C62", "The payload of an event is its arguments",
  "The payload of the frame sent by an event function is the concatenation of its arguments in the order of the declaration, most significant byte first, NULL optional arguments left out, cut off after 8 bytes, independent of the byte order of the host.",
  "all event functions without normalised integers, all argument values",
  "The argument values cannot be enumerated.",
  ["src/events/*.c"])
p("C63", "Measurements are sent as normalised integers",
  "The functions of the measurement and measurement zone classes send the format byte (or index, zone, sub-zone) followed by the exponent and the value in the least number of bytes, and a receiver using the data coding functions recovers value and exponent.",
  "all 132 measurement functions, all values, exponents, units and sensor indices",
  "2^32 values and 256 exponents.",
  ["src/events/vscp_evt_measurement.c", "src/events/vscp_evt_measurezone.c", "src/vscp_data_coding.c:vscp_data_coding_int32ToNormalizedInteger", "src/vscp_data_coding.c:vscp_data_coding_getFormatByte"])
p("C64", "Zone and sub-zone arguments arrive where receivers look for them",
  "For every event function with a zone parameter the byte at vscp_util_getZoneIndex of the sent frame is the zone argument and the next one the sub-zone argument.",
  "all 597 event functions with a zone, all arguments",
  "All functions and argument values together.",
  ["src/events/*.c", "src/vscp_util.c:vscp_util_getZoneIndex", "src/vscp_dm.c:vscp_dm_executeActions"])
p("C65", "An event identifies the function that sent it",
  "No two event functions send the same class and type; all functions of one file send the same class, which no other file uses; classes are below 512 and types below 256.",
  "all pairs of event functions",
  "About 395000 pairs of functions; tests compare each function with its own expectation only.",
  ["src/events/*.c", "src/vscp_class_l1.h", "src/vscp_type_*.h"])
p("C66", "The numbers of VSCP Level I",
  "Classes, types, register addresses, matrix flags, special nicknames and default values are the numbers the VSCP Level I specification fixes; no two classes, protocol types or register addresses coincide, classes fit into 9 bits and types and addresses into 8.",
  "all classes, types and registers the framework looks at",
  "Tests use the same symbolic constants as the code and do not notice a wrong one.",
  ["src/vscp_types.h", "src/vscp_class_l1.h", "src/vscp_type_protocol.h", "src/vscp_dm.h", "src/vscp_dm_ng.h"])
p("C67", "CAN adapter (AT90CAN): message and frame correspond",
  "vscp_tp_adapter_writeMessage puts exactly the frame with the VSCP identifier (priority, hard coded, class, type, nickname) and the payload on the bus, and vscp_tp_adapter_readMessage on another node gives the same message.",
  "all messages, all sequences of calls, arriving frames and completed transmissions in any order",
  "2^29 identifiers and every interleaving of 15 message objects with the controller.",
  ["examples/avr/at90can/vscp_user/vscp_tp_adapter.c", "examples/avr/at90can/driver/canDrv.c"])
p("C68", "CAN adapter (AT90CAN): every accepted message is sent once, in order",
  "The frames on the bus are the frames of the messages for which TRUE was returned, each once and in the order of the calls; FALSE is returned only if all message objects are busy at each attempt.",
  "all sequences of calls and controller events",
  "Loss or duplication depends on the interleaving of calls with the controller.",
  ["examples/avr/at90can/vscp_user/vscp_tp_adapter.c:vscp_tp_adapter_writeMessage", "examples/avr/at90can/driver/canDrv.c:can_SendFrame"])
p("C69", "CAN adapter (AT90CAN): every VSCP frame on the bus is delivered once",
  "Every extended data frame that arrives is returned by one call of vscp_tp_adapter_readMessage, in order of arrival; nothing else is returned, and no memory outside the buffers is written.",
  "all frames and all timings",
  "All timings of arriving frames against calls, and frames no VSCP node would send.",
  ["examples/avr/at90can/vscp_user/vscp_tp_adapter.c:vscp_tp_adapter_readMessage", "examples/avr/at90can/driver/canDrv.c:can_readFrame"])
p("C70", "CAN adapter (FRDM-K64F): messages are sent",
  "vscp_tp_adapter_writeMessage sends the frame of every message with at most 8 data bytes and refuses longer ones.",
  "all messages, all histories",
  "The identifier and the data words are computed by shifts over all values.",
  ["examples/arm/frdm-k64f/vscp_frdm_k64f/vscp_user/vscp_tp_adapter.c:vscp_tp_adapter_writeMessage"])
p("C71", "CAN adapter (FRDM-K64F): frames are received",
  "Every VSCP frame on the bus is taken into a mailbox and returned by the next call of vscp_tp_adapter_readMessage.",
  "all frames, all histories",
  "The outcome depends on the mailbox polled next and on the acceptance filter.",
  ["examples/arm/frdm-k64f/vscp_frdm_k64f/vscp_user/vscp_tp_adapter.c:vscp_tp_adapter_readMessage"])
p("C72", "Software timers of the examples",
  "A timer started with v expires after exactly v interrupts; an automatic one again after each further v; a stopped one not at all; identifiers out of range have no effect.",
  "all histories of starts, stops, polls and interrupts, all numbers of timers",
  "Every interleaving of interrupts, polls and other timers.",
  ["examples/avr/at90can/common/swTimer.c", "examples/arm/frdm-k64f/vscp_frdm_k64f/common/swTimer.c"])
p("C73", "System time of the AVR example",
  "Called every p milliseconds, time_process keeps the time of day; time_calculateDiff gives the distance of two readings.",
  "all periods, all numbers of calls, all pairs of readings",
  "About 7.5 * 10^15 pairs of readings; overflow only after days.",
  ["examples/avr/at90can/common/time.c"])
p("C74", "Serial port of the AVR example",
  "Bytes given to serialDrv_write are sent once and in order, the number of bytes taken is returned, received bytes are read in order and none is lost without the overflow flag; main_print prints its string.",
  "all sequences of calls and interrupts",
  "Races between the interrupts and the calls.",
  ["examples/avr/at90can/driver/serialDrv.c", "examples/avr/at90can/main.c:main_print"])
p("C75", "Persistent memory of the ARM example",
  "vscp_ps_access_read8 and readMultiple return the values written last to their addresses.",
  "all sequences of reads and writes, all addresses",
  "All sequences of accesses against the write cycles of the device.",
  ["examples/arm/frdm-k64f/vscp_frdm_k64f/vscp_user/vscp_ps_access.c"])
p("C76", "Segment initialisation button of the examples",
  "Each press of the button for more than 100 ms starts the node segment initialisation exactly once; shorter presses and an untouched button never do.",
  "all sequences of button samples and all interleavings of the timer interrupt with the main loop",
  "Every bounce pattern and every position of the interrupt.",
  ["examples/avr/at90can/main.c", "examples/arm/frdm-k64f/vscp_frdm_k64f/source/vscp_frdm_k64f.c"])
p("C77", "Status lamp of the examples",
  "The LED is off, on, changes every fourth call or at every call, as the lamp state says, for any number of calls.",
  "all sequences of calls of any length",
  "The 8 bit counter overflows only after 256 calls.",
  ["examples/avr/at90can/main.c:main_processStatusLamp", "examples/arm/frdm-k64f/vscp_frdm_k64f/source/vscp_frdm_k64f.c:main_processStatusLamp"])
p("C78", "Status lamp shows the node's state",
  "The last order given to the status lamp is: slow blinking before the first process call, fast blinking while the node looks for a nickname or waits for one, on while it is active, off in the idle, reset and error states.",
  "all applications, all configurations, all histories of calls, received frames and power losses",
  "Every path through the state machine, including initialisation failures and factory resets, must give the right order.",
  ["src/vscp_core.c:vscp_core_changeToStateInit", "src/vscp_core.c:vscp_core_changeToStateActive", "src/vscp_core.c:vscp_core_init"])
p("C79", "Zone registers of the AVR example",
  "Reading register 0 or 1 of page 0 returns the node's stored zone or sub-zone, other application registers 0; writing register 0 or 1 stores the zone or sub-zone and nothing else, and is answered with the new value.",
  "all reachable states, all requests, all values",
  "All memory contents and histories.",
  ["examples/avr/at90can/vscp_user/vscp_app_reg.c"])
p("C80", "Actions of the AVR example",
  "The status LED is as the last executed action 1 (on) or 2 (off) left it; each of these actions is reported with one ON or OFF event from the node's nickname; which actions are executed is decided by the decision matrix.",
  "all states, all operations, all received events, all matrices",
  "All matrices and events.",
  ["examples/avr/at90can/vscp_user/vscp_action.c", "src/events/vscp_evt_information.c:vscp_evt_information_sendOn"])
p("C81", "Timer driver of the AVR example",
  "Every tenth overflow interrupt is a tick: the tick counter is the number of ticks modulo 256 and the callback is called exactly once per tick. timerDrv_sleep(n) returns when the n-th tick after its call is seen, also if the counter wraps around.",
  "any number of interrupts, all counter values, all n, all interleavings of reads and ticks",
  "The counter changes behind the back of the waiting loop; tests see few of the interleavings.",
  ["examples/avr/at90can/driver/timerDrv.c:timerDrv_sleep", "examples/avr/at90can/driver/timerDrv.c:ISR(TIMER0_OVF_vect)"])
p("C82", "Whole program of the AVR example",
  "Whatever the interrupts and the bus do, the main loop uses the framework as intended: one process call per turn, otherwise only 250 ms steps and starts of the segment initialisation, the latter once per debounced press of the button. The framework is never told more time than has passed; the clock agrees with it; its error is bounded by the length of the turns. After each 250 ms step the LED shows the state of the node; in between it follows the actions of the node. In real time, heartbeats come no more often than every 30 s, and an active node sends one every 30 s prolonged by that error.",
  "all persistent memory contents, all adapter behaviours, all numbers of turns, all placements of timer interrupts",
  "Interrupts at any point of an endless loop.",
  ["examples/avr/at90can/main.c:main", "examples/avr/at90can/main.c:main_timerCb", "examples/avr/at90can/main.c:main_initRunLevel1"])
p("C83", "Whole program of the ARM example",
  "Whatever the interrupts and the bus do, the main loop uses the framework as intended: one process call per turn, otherwise only 250 ms steps and starts of the segment initialisation. The framework is never told more time than has passed, and its error is bounded by the length of the turns. After each 250 ms step the LED shows the state of the node; in between it does not change. In real time, heartbeats come no more often than every 30 s, and an active node sends one every 30 s prolonged by that error. A node keeps its stored nickname as long as the button is not pressed and the bus does not demand otherwise.",
  "all persistent memory contents, all adapter behaviours, all numbers of turns, all placements of timer interrupts",
  "Interrupts at any point of an endless loop.",
  ["examples/arm/frdm-k64f/vscp_frdm_k64f/source/vscp_frdm_k64f.c:main", "examples/arm/frdm-k64f/vscp_frdm_k64f/source/vscp_frdm_k64f.c:PIT0_IRQHandler", "examples/arm/frdm-k64f/vscp_frdm_k64f/source/vscp_frdm_k64f.c:main_initRunLevel1"])
for x in P:
    print(json.dumps(x))
