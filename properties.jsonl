{"id": "C01", "title": "Cyclic buffer is a bounded FIFO", "statement": "Used one element at a time (the way the transport layer uses it), a cyclic buffer initialised with storage for num elements behaves exactly like a FIFO queue of capacity num-1: a write succeeds iff fewer than num-1 elements are stored, a read succeeds iff at least one is stored and returns the oldest, nothing is lost, duplicated, reordered or written outside the storage.", "quantifier": "every storage size, element content and sequence of interleaved reads and writes", "why_tests_cant": "The wrap-around positions and fill levels depend on the whole history; tests only sample a few interleavings.", "anchors": ["src/vscp_util.c:vscp_util_cyclicBufferInit", "src/vscp_util.c:vscp_util_cyclicBufferRead", "src/vscp_util.c:vscp_util_cyclicBufferWrite"]}
{"id": "C02", "title": "Cyclic buffer block transfers stay inside the storage", "statement": "A block read or write of several elements transfers min(requested, available) elements in FIFO order and never accesses memory outside the storage handed to cyclicBufferInit, for every read/write position.", "quantifier": "every buffer state, block length and storage size (also sizes above 255 bytes)", "why_tests_cant": "An out-of-bounds access appears only at particular index/length combinations and is not visible as a failed assertion.", "anchors": ["src/vscp_util.c:vscp_util_cyclicBufferInit", "src/vscp_util.c:vscp_util_cyclicBufferRead", "src/vscp_util.c:vscp_util_cyclicBufferWrite"]}
{"id": "C03", "title": "Zone index classification is total and memory safe", "statement": "For every class and type, the zone index is exactly 0, exactly 1 or 'no zone' as the VSCP event tables say for the framework's classes, and type 0 (GENERAL) never carries a zone; hence zone and sub-zone are always read from inside the 8 data bytes.", "quantifier": "all 2^16 classes times 2^8 types", "why_tests_cant": "The table has 16.7 million entries, tests touch a handful.", "anchors": ["src/vscp_util.c:vscp_util_getZoneIndex"]}
{"id": "C04", "title": "Normalised integer coding round-trips", "statement": "Encoding a signed 32 bit integer together with a decimal exponent and decoding the bytes again yields the same value and the same exponent, for every value and every exponent.", "quantifier": "all 2^32 values and 2^8 exponents", "why_tests_cant": "The interesting values are sign/size boundaries over a 2^40 input space.", "anchors": ["src/vscp_data_coding.c:vscp_data_coding_int32ToNormalizedInteger", "src/vscp_data_coding.c:vscp_data_coding_normalizedIntegerToInt32"]}
{"id": "C05", "title": "Normalised integer encoder respects the output buffer and is shortest", "statement": "The encoder returns 0 and writes nothing if the coded value does not fit; otherwise it writes exactly the number of bytes it reports, at most 5 and at most the given size, and the number of payload bytes is the smallest the format admits.", "quantifier": "all values, exponents and buffer sizes", "why_tests_cant": "Buffer overrun freedom quantifies over all inputs.", "anchors": ["src/vscp_data_coding.c:vscp_data_coding_int32ToNormalizedInteger"]}
{"id": "C06", "title": "Format byte packs its three fields without interference", "statement": "The measurement format byte contains representation, unit and sensor index in disjoint bit fields; every in-range triple is recoverable and different triples give different bytes; out-of-range arguments never corrupt a neighbouring field.", "quantifier": "all 2^24 argument triples", "why_tests_cant": "A masking error shows only for specific argument combinations.", "anchors": ["src/vscp_data_coding.c:vscp_data_coding_getFormatByte", "src/vscp_data_coding.c:vscp_data_coding_getNormalizerByte"]}
{"id": "C07", "title": "Persistent memory fields are disjoint and in range", "statement": "For every configuration the persistent memory fields (boot flag, nickname, segment CRC, node control flags, user id, GUID, zone, sub-zone, manufacturer ids, MDF URL, family code, type, log id, decision matrix, its extension and the rule set) occupy pairwise disjoint address ranges between the configured base address and the first application address; writing one field changes no other field, and reading back returns the value written.", "quantifier": "every combination of compile-time features and every field index", "why_tests_cant": "There are 2^13 feature combinations times sizes; overlap corrupts data only for particular combinations.", "anchors": ["src/vscp_ps.h", "src/vscp_ps.c"]}
{"id": "C08", "title": "The framework never touches application persistent memory", "statement": "No sequence of received messages, time steps and API calls makes the framework write a persistent memory address outside its own area, whatever index or data the messages carry.", "quantifier": "every configuration, message history, timing and transport behaviour", "why_tests_cant": "Safety over every history; a test covers one history.", "anchors": ["src/vscp_ps.c", "src/vscp_core.c", "src/vscp_dm.c", "src/vscp_dm_ng.c"]}
{"id": "C09", "title": "Nickname in RAM always equals the stored nickname", "statement": "After initialisation, at every point between API calls, the nickname the node uses and reports (readNicknameId, register 0x91, originating address of sent events) equals the nickname in persistent memory, so a power cycle at any such point keeps the address.", "quantifier": "every configuration and every history of messages, timer ticks and API calls", "why_tests_cant": "Requires an invariant over all histories.", "anchors": ["src/vscp_core.c:vscp_core_writeNicknameId", "src/vscp_core.c:vscp_core_init", "src/vscp_core.c:vscp_core_readNicknameId"]}
{"id": "C10", "title": "Power loss at any persistent write leaves a node that restarts consistently", "statement": "If power is lost after any prefix of the persistent writes of any execution, re-initialisation succeeds and the node comes up with exactly the nickname that was last completely stored, or, if the node control flags are then invalid, with factory defaults and the uninitialised nickname 0xFF.", "quantifier": "every execution and every crash point between two byte writes", "why_tests_cant": "Crash points multiply with histories; unit tests have no crash injection.", "anchors": ["src/vscp_core.c:vscp_core_init", "src/vscp_core.c:vscp_core_checkPersistentMemory", "src/vscp_core.c:vscp_core_restoreFactoryDefaultSettings"]}
{"id": "C11", "title": "Restoring factory defaults yields the configured defaults", "statement": "After vscp_core_restoreFactoryDefaultSettings every persistent field has its configured default: nickname 0xFF, segment CRC 0xFF, control flags 0xA0, user id 0, GUID, zones, ids, MDF URL, family code and type as configured, decision matrix and rule set empty.", "quantifier": "every configuration and every prior persistent memory content", "why_tests_cant": "Depends on arbitrary prior content and configuration.", "anchors": ["src/vscp_core.c:vscp_core_restoreFactoryDefaultSettings", "src/vscp_dev_data.c:vscp_dev_data_restoreFactoryDefaultSettings", "src/vscp_dm.c:vscp_dm_restoreFactoryDefaultSettings", "src/vscp_dm_ng.c:vscp_dm_ng_restoreFactoryDefaultSettings"]}
{"id": "C12", "title": "GUID read-out is independent of where the GUID is stored", "statement": "The GUID registers 0xD0..0xDF and the who-is-there response return the configured GUID MSB first, whether it lives in flash or (after factory restore) in persistent memory, and in the byte order of the external provider otherwise.", "quantifier": "every GUID and each storage option, every byte index", "why_tests_cant": "2^128 GUIDs; index reversal errors can cancel for symmetric test data.", "anchors": ["src/vscp_dev_data.c:vscp_dev_data_getGUID", "src/vscp_core.c:vscp_core_readRegister"]}
{"id": "C13", "title": "Standard device family code and type registers return the configured code", "statement": "Registers 0x9A..0x9D and 0x9E..0xA1 return the configured 32 bit family code and device type MSB first.", "quantifier": "all 2^32 codes", "why_tests_cant": "All-zero or symmetric test values hide shift errors.", "anchors": ["src/vscp_dev_data.c:vscp_dev_data_getStdDevFamilyCode", "src/vscp_dev_data.c:vscp_dev_data_getStdDevType"]}
{"id": "C14", "title": "MDF URL read-out terminates and is zero padded", "statement": "The MDF registers 0xE0..0xFF return the characters of the configured URL in order followed by zeros, never bytes behind the terminator.", "quantifier": "every URL of any length and every index", "why_tests_cant": "Needs all lengths including 0, 31, 32 and longer.", "anchors": ["src/vscp_dev_data.c:vscp_dev_data_getMdfUrl"]}
{"id": "C15", "title": "Decision matrix fires exactly the matching rows", "statement": "For every event and every decision matrix content, the actions executed are exactly those of the enabled rows whose originating address, class mask/filter, type mask/filter, hard coded flag, zone and sub-zone conditions match, each once, in ascending row order, with the row's action parameter; nothing is executed for disabled rows or for action 0.", "quantifier": "every matrix content and every event", "why_tests_cant": "The matching rule has 9 independent criteria over 2^64 rows and events.", "anchors": ["src/vscp_dm.c:vscp_dm_executeActions", "src/vscp_dm.c:vscp_dm_isDecisionMatrixRowEnabled"]}
{"id": "C16", "title": "Decision matrix extension adds conditions only to extended rows", "statement": "With the extension enabled, a row whose action is 0xFF uses the extension row: each enabled parameter condition must hold for the corresponding data byte, which must be present, and then the extension's action runs; rows with other actions ignore the extension row.", "quantifier": "every matrix content, extension content and event", "why_tests_cant": "Combinatorial space of flags, data sizes and values.", "anchors": ["src/vscp_dm.c:vscp_dm_executeActions", "src/vscp_dm.c:vscp_dm_readDecisionMatrixExt"]}
{"id": "C17", "title": "Decision matrix registers are a faithful window on the stored matrix", "statement": "Reading register k of the matrix window returns byte k of the stored matrix and writing it changes exactly this byte; all bytes of all rows are reachable and no register outside the window is claimed.", "quantifier": "every page, offset, row count, register address and content", "why_tests_cant": "Configuration arithmetic has corner cases at page boundaries.", "anchors": ["src/vscp_dm.c:vscp_dm_isDecisionMatrix", "src/vscp_dm.c:vscp_dm_calculateMatrixIndex", "src/vscp_dm.c:vscp_dm_readRegister", "src/vscp_dm.c:vscp_dm_writeRegister"]}
{"id": "C18", "title": "Paged decision matrix access is an index/data register pair", "statement": "With the paged feature, the index register (page 0, register 126) selects which byte of the matrix appears in the value register (page 0, register 127), an index outside of the matrix is never stored, and reads/writes of the value register access exactly the selected byte.", "quantifier": "every index, row count and history of register accesses", "why_tests_cant": "History dependent register semantics.", "anchors": ["src/vscp_dm.c:vscp_dm_readRegister", "src/vscp_dm.c:vscp_dm_writeRegister"]}
{"id": "C19", "title": "Rule evaluation terminates and never reads outside the rule", "statement": "For every rule-set content (also malformed, random bytes written through registers) evaluating an event terminates after at most 'rule count' rules, and evaluation of a rule never reads bytes beyond the rule's size or uninitialised bytes.", "quantifier": "all 256^size rule-set contents, all events", "why_tests_cant": "Memory safety on adversarial byte code over a huge space.", "anchors": ["src/vscp_dm_ng.c:vscp_dm_ng_executeActions", "src/vscp_dm_ng.c:vscp_dm_ng_getDecisionResult", "src/vscp_dm_ng.c:vscp_dm_ng_getFirstRule", "src/vscp_dm_ng.c:vscp_dm_ng_getNextRule"]}
{"id": "C20", "title": "Rule evaluation implements the documented logic", "statement": "For every well-formed rule the action is executed iff the boolean expression given by its conditions holds, where a condition compares the selected event parameter with the stored value and conditions are combined from right to left (c1 op1 (c2 op2 (...))).", "quantifier": "every well-formed rule and every event", "why_tests_cant": "Infinite family of expressions and events.", "anchors": ["src/vscp_dm_ng.c:vscp_dm_ng_getDecisionResult", "src/vscp_dm_ng.c:vscp_dm_ng_getEventParValue", "src/vscp_dm_ng.c:vscp_dm_ng_compare"]}
{"id": "C21", "title": "Rule set execution runs every matching rule once in order", "statement": "For every well-formed rule-set (count followed by that many rules), processing an event executes the actions of exactly the matching rules, once each, in order, with the rule's parameter.", "quantifier": "every well-formed rule set and event", "why_tests_cant": "Unbounded family of rule sets.", "anchors": ["src/vscp_dm_ng.c:vscp_dm_ng_executeActions"]}
{"id": "C22", "title": "A rule set that announces more rules than it holds executes no phantom rule", "statement": "If the stored rule count exceeds the rules present, or a rule has size 0, no action is executed that is not a rule of the rule set.", "quantifier": "every rule-set content", "why_tests_cant": "Needs adversarial content.", "anchors": ["src/vscp_dm_ng.c:vscp_dm_ng_getFirstRule", "src/vscp_dm_ng.c:vscp_dm_ng_getNextRule"]}
{"id": "C23", "title": "Rule-set registers are a faithful window on the stored rule set", "statement": "Every byte of the rule set is readable and writable through exactly one page/register pair and no register outside the window is claimed.", "quantifier": "every rule-set size, page and register address", "why_tests_cant": "Page-boundary arithmetic.", "anchors": ["src/vscp_dm_ng.c:vscp_dm_ng_isDecisionMatrix", "src/vscp_dm_ng.c:vscp_dm_ng_readRegister", "src/vscp_dm_ng.c:vscp_dm_ng_writeRegister"]}
{"id": "C24", "title": "Loop-back never loses, reorders or duplicates a received event", "statement": "With loop-back enabled, messages are delivered to the node in FIFO order of arrival: looped-back events in the order they were sent, received events in the order they were received; no received event is dropped because of the loop-back buffer; a sent event is looped back iff it is neither PROTOCOL nor LOG class and the buffer is not full.", "quantifier": "every sequence of sends and receives and every buffer size", "why_tests_cant": "Depends on the interleaving of sends and receives.", "anchors": ["src/vscp_transport.c:vscp_transport_readMessage", "src/vscp_transport.c:vscp_transport_writeMessage"]}
{"id": "C25", "title": "Transmit error counter counts failures exactly", "statement": "vscp_transport_getTransmitErrors returns min(255, number of failed transmissions since the previous call) and resets the count.", "quantifier": "every sequence of transmissions with arbitrary success/failure and counter reads", "why_tests_cant": "Saturation appears after 255 failures in particular histories.", "anchors": ["src/vscp_transport.c:vscp_transport_writeMessage", "src/vscp_transport.c:vscp_transport_getTransmitErrors"]}
{"id": "C26", "title": "Log messages are segmented losslessly", "statement": "A log message of n bytes is sent as ceil(n/5) (at least one) frames with consecutive indices starting at 0, each carrying log id, level and 5 message bytes, zero padded; concatenating the payloads gives the message back; transmission stops at the first frame that could not be sent.", "quantifier": "every message length and content, every transmit failure pattern", "why_tests_cant": "Unbounded lengths and failure patterns.", "anchors": ["src/vscp_logger.c:vscp_logger_sendLogEvent", "src/vscp_logger.c:vscp_logger_log", "src/vscp_logger.c:vscp_logger_logUInt32"]}
{"id": "C27", "title": "Logger obeys its enable flag and level filter", "statement": "A log call sends frames iff logging is enabled and the level bit is set; LOG START/STOP events addressed to the node's log id switch logging on/off, LOG LEVEL sets the filter, all other events leave the logger unchanged.", "quantifier": "every event and every prior state", "why_tests_cant": "Quantifies over all events.", "anchors": ["src/vscp_logger.c:vscp_logger_handleEvent", "src/vscp_logger.c:vscp_logger_log"]}
{"id": "C28", "title": "A local logger setting stays in force until changed", "statement": "A call of vscp_logger_enable or vscp_logger_setLogLevel takes effect until the next such call or the next received LOG event.", "quantifier": "every history", "why_tests_cant": "A one-cycle test does not see the setting being overwritten later.", "anchors": ["src/vscp_core.c:vscp_core_process", "src/vscp_logger.c:vscp_logger_handleEvent"]}
{"id": "C29", "title": "Software timer runs exactly for its duration", "statement": "A timer started with value v reports running until the sum of the processed periods since the start reaches v, and stopped from then on; starting or stopping one timer never affects another; identifiers handed out are distinct.", "quantifier": "every sequence of timer operations and periods", "why_tests_cant": "Timing histories are unbounded.", "anchors": ["examples/avr/at90can/vscp_user/vscp_timer.c"]}
{"id": "C30", "title": "Node state machine only takes documented transitions", "statement": "One call of vscp_core_process moves the node only along documented edges: STARTUP->INIT/ACTIVE/IDLE..., INIT->PREACTIVE/ACTIVE/IDLE, PREACTIVE->INIT/ACTIVE, ACTIVE->INIT/IDLE/RESET, and IDLE, RESET and ERROR are left only by vscp_core_startNodeSegmentInit or vscp_core_init.", "quantifier": "every configuration, history and received message", "why_tests_cant": "Requires considering every message in every state.", "anchors": ["src/vscp_core.c:vscp_core_process", "src/vscp_core.c:vscp_core_stateStartup", "src/vscp_core.c:vscp_core_stateInit", "src/vscp_core.c:vscp_core_statePreActive", "src/vscp_core.c:vscp_core_stateActive", "src/vscp_core.c:vscp_core_stateReset"]}
{"id": "C31", "title": "Only an active node serves registers, runs actions and delivers events", "statement": "In any state other than ACTIVE no register is read or written by a message, no decision matrix action is executed and no event is delivered to the application; in INIT, PREACTIVE, IDLE, RESET and ERROR the only frames sent by process are discovery frames.", "quantifier": "every history and message", "why_tests_cant": "All states times all messages.", "anchors": ["src/vscp_core.c:vscp_core_process", "src/vscp_core.c:vscp_core_stateActive"]}
{"id": "C32", "title": "Messages addressed to other nodes have no effect", "statement": "An active node that receives a protocol event addressed to another nickname sends nothing in reply and changes neither its nickname, registers, persistent memory nor state. The same holds for every protocol event that the application claims, if it is given the protocol events first.", "quantifier": "every protocol event type, payload, and nickname", "why_tests_cant": "2^72 payloads per type.", "anchors": ["src/vscp_core.c:vscp_core_handleProtocolClassType"]}
{"id": "C33", "title": "Every transmitted frame is well formed", "statement": "Every frame handed to the transport by the framework has at most 8 data bytes, carries the node's current nickname as originating address (0xFF before assignment), the configured hard coded flag, and a PROTOCOL, INFORMATION or LOG class with the documented priority.", "quantifier": "every configuration, history and transport behaviour", "why_tests_cant": "Safety over all histories.", "anchors": ["src/vscp_core.c:vscp_core_prepareTxMessage", "src/vscp_core.c:vscp_core_sendEvent"]}
{"id": "C34", "title": "Protocol handling is memory safe for every received frame", "statement": "For every received frame with at most 8 data bytes, in every state, no array of the framework (message data, rule buffer, user id, GUID) is accessed out of bounds.", "quantifier": "every history of frames with arbitrary class, type, data size up to 8 and data", "why_tests_cant": "Adversarial inputs.", "anchors": ["src/vscp_core.c", "src/vscp_dm.c", "src/vscp_dm_ng.c", "src/vscp_logger.c"]}
{"id": "C35", "title": "Register read returns the documented register and has no side effect", "statement": "A READ_REGISTER request to the node is answered by exactly one response carrying the requested address and the register's value as defined by the VSCP register map; nothing but the alarm register (cleared on read) changes.", "quantifier": "every page selection, register address and node state", "why_tests_cant": "2^24 page/address pairs times states.", "anchors": ["src/vscp_core.c:vscp_core_handleProtocolReadRegister", "src/vscp_core.c:vscp_core_readRegister"]}
{"id": "C36", "title": "Register write affects exactly the addressed register; read-only registers are immutable", "statement": "A WRITE_REGISTER request to a writable register stores the value there, is answered by one response with the stored value and changes no other register; a request to a read-only or reserved VSCP register changes nothing and is not answered.", "quantifier": "every page selection, address, value and state", "why_tests_cant": "All addresses and values.", "anchors": ["src/vscp_core.c:vscp_core_handleProtocolWriteRegister", "src/vscp_core.c:vscp_core_writeRegister"]}
{"id": "C37", "title": "Write protection protects application registers and decision logic", "statement": "While the write-protect flag in the node control flags is active, no received message can change an application register, the decision matrix or the rule set by register access, for any sequence of messages that does not first rewrite the control flags or restore factory defaults.", "quantifier": "every sequence of received frames", "why_tests_cant": "Seven different register-writing protocol events and arbitrary sequences.", "anchors": ["src/vscp_core.c:vscp_core_writeRegister", "src/vscp_core.c:vscp_core_getRegAppWriteProtect"]}
{"id": "C38", "title": "Alarm bits accumulate and are never lost before being reported", "statement": "Every alarm bit set by vscp_core_setAlarm is returned by the next successful report of register 0x80, and is cleared by it.", "quantifier": "every sequence of alarms, reads and transmit failures", "why_tests_cant": "Depends on interleavings of setAlarm with several read protocols and on transmit failures.", "anchors": ["src/vscp_core.c:vscp_core_setAlarm", "src/vscp_core.c:vscp_core_readRegister", "src/vscp_core.c:vscp_core_extendedPageReadRegister"]}
{"id": "C39", "title": "Page read returns the requested registers completely and in order", "statement": "A PAGE_READ request (offset, count) is answered by frames whose payloads, concatenated in sequence-number order, are the values of the count registers starting at offset up to the end of the page.", "quantifier": "every offset, count, page and register content", "why_tests_cant": "65536 requests times contents; boundary at 0xFF.", "anchors": ["src/vscp_core.c:vscp_core_handleProtocolPageRead"]}
{"id": "C40", "title": "Page write writes the transmitted bytes to consecutive registers", "statement": "A PAGE_WRITE request writes its data bytes to consecutive registers of the selected page up to its end and responds with the values now stored.", "quantifier": "every offset, payload and node state", "why_tests_cant": "Registers that change the page selection or trigger actions are inside the range.", "anchors": ["src/vscp_core.c:vscp_core_handleProtocolPageWrite"]}
{"id": "C41", "title": "Extended page read delivers every requested register exactly once", "statement": "An EXTENDED_PAGE_READ request is answered, over as many process cycles and transmit failures as necessary, by frames with consecutive sequence numbers which together carry exactly the requested number of registers in order starting at (page, register), continuing on the next page after register 0xFF.", "quantifier": "every request, every transmit failure pattern and cycle schedule without an intervening page read request", "why_tests_cant": "The transfer spans many cycles with arbitrary failures.", "anchors": ["src/vscp_core.c:vscp_core_handleProtocolExtendedPageReadRegister", "src/vscp_core.c:vscp_core_extendedPageReadRegister"]}
{"id": "C42", "title": "Extended page write writes the addressed page and restores the page selection", "statement": "An EXTENDED_PAGE_WRITE request writes its data bytes to consecutive registers of the given page, answers with the stored values, and leaves the page selection unchanged unless the page selection registers themselves are written.", "quantifier": "every request", "why_tests_cant": "All payloads and boundary positions.", "anchors": ["src/vscp_core.c:vscp_core_handleProtocolExtendedPageWriteRegister"]}
{"id": "C43", "title": "Increment and decrement change a register by exactly one modulo 256", "statement": "INCREMENT/DECREMENT of a writable register stores the old value plus/minus one modulo 256 and reports the stored value.", "quantifier": "every register and value", "why_tests_cant": "Wrap-around and register-specific behaviour.", "anchors": ["src/vscp_core.c:vscp_core_handleProtocolIncrementRegister", "src/vscp_core.c:vscp_core_handleProtocolDecrementRegister"]}
{"id": "C44", "title": "Nickname discovery never adopts an acknowledged nickname", "statement": "A node that is discovering adopts nickname n only after sending a probe for n and not processing any probe acknowledge from n before the probe timeout; it probes candidates in ascending order from the configured start, and goes IDLE without a nickname when all are taken.", "quantifier": "every sequence of received frames, timings and transmit failures", "why_tests_cant": "Timing dependent protocol over arbitrary traffic.", "anchors": ["src/vscp_core.c:vscp_core_stateInit"]}
{"id": "C45", "title": "Segment controller assignment is only accepted from the segment controller", "statement": "In PREACTIVE the node adopts a nickname only from a SET_NICKNAME event originating from address 0 and addressed to 0xFF; without it the node returns to discovery after the timeout; adopted nicknames are valid (neither 0 nor 0xFF).", "quantifier": "every received frame and timing", "why_tests_cant": "All frames.", "anchors": ["src/vscp_core.c:vscp_core_statePreActive", "src/vscp_core.c:vscp_core_stateInit"]}
{"id": "C46", "title": "An active node defends its nickname", "statement": "An active node answers every NEW_NODE_ONLINE probe for its own nickname with a PROBE_ACK, answers no probe for another nickname, and restarts discovery when another node acknowledges its nickname.", "quantifier": "every received frame and state", "why_tests_cant": "All frames and states.", "anchors": ["src/vscp_core.c:vscp_core_handleProtocolNewNodeOnline", "src/vscp_core.c:vscp_core_handleProtocolProbeAck"]}
{"id": "C47", "title": "Set nickname changes the address of exactly the addressed node to a valid address", "statement": "SET_NICKNAME(old,new) makes the node with nickname old use new, persistently, and confirm with NICKNAME_ACCEPTED from the new address; nodes with other nicknames ignore it; the segment controller address 0 and the unassigned address 0xFF are never assigned.", "quantifier": "every old/new pair", "why_tests_cant": "All pairs and states.", "anchors": ["src/vscp_core.c:vscp_core_handleProtocolSetNickname"]}
{"id": "C48", "title": "Drop nickname performs exactly the requested variant", "statement": "DROP_NICKNAME performs the variant selected by its optional flags: plain drop and restart, keep nickname, restore factory defaults (with or without keeping the nickname), go idle, with the requested wait time; the nickname is 0xFF afterwards unless keeping was requested.", "quantifier": "every flags byte, wait time and node state", "why_tests_cant": "256 flag combinations times wait times.", "anchors": ["src/vscp_core.c:vscp_core_handleProtocolDropNickname"]}
{"id": "C49", "title": "A reset is requested exactly once after the requested wait time", "statement": "After entering RESET with wait time t the application's reset request is called exactly once, not before t one-second periods elapsed, and as soon as they have.", "quantifier": "every wait time, timing and traffic", "why_tests_cant": "Timed liveness/safety over arbitrary schedules.", "anchors": ["src/vscp_core.c:vscp_core_changeToStateReset", "src/vscp_core.c:vscp_core_stateReset"]}
{"id": "C50", "title": "GUID drop requires the complete matching GUID in time", "statement": "The GUID drop-nickname sequence takes effect only if, since the last first frame and while the multi message timer has been running, matching frames for all four GUID quarters were received, the last quarter last; other or late frames never trigger it.", "quantifier": "every sequence of frames and timings, every GUID", "why_tests_cant": "Multi-frame protocol with interleavings and timeouts.", "anchors": ["src/vscp_core.c:vscp_core_handleProtocolGuidDropNickname"]}
{"id": "C51", "title": "Register 162 factory restore requires the 0x55/0xAA sequence in time", "statement": "Factory defaults are restored through register 0xA2 iff 0x55 and then 0xAA is written to it while the multi message timer is running with no other intervening write to it.", "quantifier": "every sequence of register writes and timings", "why_tests_cant": "Sequence and time dependent.", "anchors": ["src/vscp_core.c:vscp_core_writeRegister"]}
{"id": "C52", "title": "Boot loader entry requires algorithm, GUID and device selection to match", "statement": "The boot flag is written and the boot loader requested only on an ENTER_BOOT_LOADER event addressed to the node whose algorithm, GUID bytes and page-select bytes all match; otherwise the node answers NACK and keeps running unchanged.", "quantifier": "every payload and node state", "why_tests_cant": "2^64 payloads.", "anchors": ["src/vscp_core.c:vscp_core_handleProtocolEnterBootLoader"]}
{"id": "C53", "title": "Who-is-there response carries the complete GUID and MDF URL", "statement": "A WHO_IS_THERE request to the node (or broadcast) is answered by seven frames, indices 0..6, whose payloads concatenated are the 16 GUID bytes MSB first, the 32 MDF bytes and a zero byte.", "quantifier": "every GUID, MDF URL and storage option", "why_tests_cant": "Segmentation across three sources.", "anchors": ["src/vscp_core.c:vscp_core_handleProtocolWhoIsThere"]}
{"id": "C54", "title": "Matrix info response describes the matrix", "statement": "GET_MATRIX_INFO addressed to the node is answered with the number of rows, the register offset and the start page (and level 2 size when present) of the decision matrix of the node.", "quantifier": "every configuration", "why_tests_cant": "Configuration space.", "anchors": ["src/vscp_core.c:vscp_core_handleProtocolGetMatrixInfo"]}
{"id": "C55", "title": "Heartbeats are sent with the configured period while active and enabled", "statement": "An active node with heartbeats enabled sends a node heartbeat whenever the heartbeat period elapsed and at no other time; when disabled or not active it sends none; vscp_core_enableHeartbeat(TRUE/FALSE) enables/disables it.", "quantifier": "every timing and history", "why_tests_cant": "Timing histories.", "anchors": ["src/vscp_core.c:vscp_core_enableHeartbeat", "src/vscp_core.c:vscp_core_stateActive"]}
{"id": "C56", "title": "Time since epoch advances with the second timer and follows the segment controller", "statement": "The time since epoch is incremented by one whenever the one second timer elapsed at a process call, set by segment controller heartbeats carrying a time and by the API, and otherwise never changes; it wraps modulo 2^32.", "quantifier": "every history", "why_tests_cant": "History dependent.", "anchors": ["src/vscp_core.c:vscp_core_process", "src/vscp_core.c:vscp_core_handleProtocolHeartbeat"]}
{"id": "C57", "title": "Segment change detection", "statement": "When a segment controller heartbeat carries a CRC different from the stored one, the stored CRC is updated and the node re-runs its discovery; with an equal CRC nothing is restarted.", "quantifier": "every CRC history", "why_tests_cant": "History dependent.", "anchors": ["src/vscp_core.c:vscp_core_handleProtocolHeartbeat"]}
{"id": "C58", "title": "Nicknames on a segment stay unique", "statement": "On a segment with reliable delivery, two nodes never stay active with the same nickname: a discovering node never takes a nickname that an active node, processing in time, holds.", "quantifier": "every interleaving of the nodes' process calls and timers", "why_tests_cant": "Distributed interleavings.", "anchors": ["src/vscp_core.c:vscp_core_stateInit", "src/vscp_core.c:vscp_core_handleProtocolNewNodeOnline", "src/vscp_core.c:vscp_core_handleProtocolProbeAck"]}
{"id": "C59", "title": "The API reports activity truthfully", "statement": "vscp_core_isActive returns TRUE iff the node is in the ACTIVE state, in which it holds a nickname; vscp_core_sendEvent sends in every state exactly the given message and returns the transport's verdict.", "quantifier": "every history", "why_tests_cant": "History dependent.", "anchors": ["src/vscp_core.c:vscp_core_isActive", "src/vscp_core.c:vscp_core_sendEvent", "src/vscp_core.c:vscp_core_prepareTxMessage"]}
{"id": "C60", "title": "A process call does bounded work", "statement": "One call of vscp_core_process terminates and sends at most a fixed number of frames, whatever was received.", "quantifier": "every state and message", "why_tests_cant": "Worst case over all messages and rule sets.", "anchors": ["src/vscp_core.c:vscp_core_process"]}
{"id": "C61", "title": "An event function sends exactly one well-formed frame or nothing", "statement": "Every function vscp_evt_*_send* called with valid arguments either returns FALSE without effect because a mandatory buffer is NULL or empty, or hands exactly one frame to the transport with the class and type of the event, normal priority, the nickname as origin and at most 8 bytes, every one of which was written; it never exceeds an array and returns the transport's verdict.", "quantifier": "all 889 event functions, all argument values, buffers and sizes, every state of the node", "why_tests_cant": "The arguments range over 32 and 64 bit values, NULL pointers and buffers of every length.", "anchors": ["src/events/*.c", "src/vscp_core.c:vscp_core_prepareTxMessage", "src/vscp_core.c:vscp_core_sendEvent"]}
{"id": "C62", "title": "The payload of an event is its arguments", "statement": "The payload of the frame sent by an event function is the concatenation of its arguments in the order of the declaration, most significant byte first, NULL optional arguments left out, cut off after 8 bytes, independent of the byte order of the host.", "quantifier": "all event functions without normalised integers, all argument values", "why_tests_cant": "The argument values cannot be enumerated.", "anchors": ["src/events/*.c"]}
{"id": "C63", "title": "Measurements are sent as normalised integers", "statement": "The functions of the measurement and measurement zone classes send the format byte (or index, zone, sub-zone) followed by the exponent and the value in the least number of bytes, and a receiver using the data coding functions recovers value and exponent.", "quantifier": "all 132 measurement functions, all values, exponents, units and sensor indices", "why_tests_cant": "2^32 values and 256 exponents.", "anchors": ["src/events/vscp_evt_measurement.c", "src/events/vscp_evt_measurezone.c", "src/vscp_data_coding.c:vscp_data_coding_int32ToNormalizedInteger", "src/vscp_data_coding.c:vscp_data_coding_getFormatByte"]}
{"id": "C64", "title": "Zone and sub-zone arguments arrive where receivers look for them", "statement": "For every event function with a zone parameter the byte at vscp_util_getZoneIndex of the sent frame is the zone argument and the next one the sub-zone argument.", "quantifier": "all 597 event functions with a zone, all arguments", "why_tests_cant": "All functions and argument values together.", "anchors": ["src/events/*.c", "src/vscp_util.c:vscp_util_getZoneIndex", "src/vscp_dm.c:vscp_dm_executeActions"]}
{"id": "C65", "title": "An event identifies the function that sent it", "statement": "No two event functions send the same class and type; all functions of one file send the same class, which no other file uses; classes are below 512 and types below 256.", "quantifier": "all pairs of event functions", "why_tests_cant": "About 395000 pairs of functions; tests compare each function with its own expectation only.", "anchors": ["src/events/*.c", "src/vscp_class_l1.h", "src/vscp_type_*.h"]}
{"id": "C66", "title": "The numbers of VSCP Level I", "statement": "Classes, types, register addresses, matrix flags, special nicknames and default values are the numbers the VSCP Level I specification fixes; no two classes, protocol types or register addresses coincide, classes fit into 9 bits and types and addresses into 8.", "quantifier": "all classes, types and registers the framework looks at", "why_tests_cant": "Tests use the same symbolic constants as the code and do not notice a wrong one.", "anchors": ["src/vscp_types.h", "src/vscp_class_l1.h", "src/vscp_type_protocol.h", "src/vscp_dm.h", "src/vscp_dm_ng.h"]}
{"id": "C67", "title": "CAN adapter (AT90CAN): message and frame correspond", "statement": "vscp_tp_adapter_writeMessage puts exactly the frame with the VSCP identifier (priority, hard coded, class, type, nickname) and the payload on the bus, and vscp_tp_adapter_readMessage on another node gives the same message.", "quantifier": "all messages, all sequences of calls, arriving frames and completed transmissions in any order", "why_tests_cant": "2^29 identifiers and every interleaving of 15 message objects with the controller.", "anchors": ["examples/avr/at90can/vscp_user/vscp_tp_adapter.c", "examples/avr/at90can/driver/canDrv.c"]}
{"id": "C68", "title": "CAN adapter (AT90CAN): every accepted message is sent once, in order", "statement": "The frames on the bus are the frames of the messages for which TRUE was returned, each once and in the order of the calls; FALSE is returned only if all message objects are busy at each attempt.", "quantifier": "all sequences of calls and controller events", "why_tests_cant": "Loss or duplication depends on the interleaving of calls with the controller.", "anchors": ["examples/avr/at90can/vscp_user/vscp_tp_adapter.c:vscp_tp_adapter_writeMessage", "examples/avr/at90can/driver/canDrv.c:can_SendFrame"]}
{"id": "C69", "title": "CAN adapter (AT90CAN): every VSCP frame on the bus is delivered once", "statement": "Every extended data frame that arrives is returned by one call of vscp_tp_adapter_readMessage, in order of arrival; nothing else is returned, and no memory outside the buffers is written.", "quantifier": "all frames and all timings", "why_tests_cant": "All timings of arriving frames against calls, and frames no VSCP node would send.", "anchors": ["examples/avr/at90can/vscp_user/vscp_tp_adapter.c:vscp_tp_adapter_readMessage", "examples/avr/at90can/driver/canDrv.c:can_readFrame"]}
{"id": "C70", "title": "CAN adapter (FRDM-K64F): messages are sent", "statement": "vscp_tp_adapter_writeMessage sends the frame of every message with at most 8 data bytes and refuses longer ones.", "quantifier": "all messages, all histories", "why_tests_cant": "The identifier and the data words are computed by shifts over all values.", "anchors": ["examples/arm/frdm-k64f/vscp_frdm_k64f/vscp_user/vscp_tp_adapter.c:vscp_tp_adapter_writeMessage"]}
{"id": "C71", "title": "CAN adapter (FRDM-K64F): frames are received", "statement": "Every VSCP frame on the bus is taken into a mailbox and returned by the next call of vscp_tp_adapter_readMessage.", "quantifier": "all frames, all histories", "why_tests_cant": "The outcome depends on the mailbox polled next and on the acceptance filter.", "anchors": ["examples/arm/frdm-k64f/vscp_frdm_k64f/vscp_user/vscp_tp_adapter.c:vscp_tp_adapter_readMessage"]}
{"id": "C72", "title": "Software timers of the examples", "statement": "A timer started with v expires after exactly v interrupts; an automatic one again after each further v; a stopped one not at all; identifiers out of range have no effect.", "quantifier": "all histories of starts, stops, polls and interrupts, all numbers of timers", "why_tests_cant": "Every interleaving of interrupts, polls and other timers.", "anchors": ["examples/avr/at90can/common/swTimer.c", "examples/arm/frdm-k64f/vscp_frdm_k64f/common/swTimer.c"]}
{"id": "C73", "title": "System time of the AVR example", "statement": "Called every p milliseconds, time_process keeps the time of day; time_calculateDiff gives the distance of two readings.", "quantifier": "all periods, all numbers of calls, all pairs of readings", "why_tests_cant": "About 7.5 * 10^15 pairs of readings; overflow only after days.", "anchors": ["examples/avr/at90can/common/time.c"]}
{"id": "C74", "title": "Serial port of the AVR example", "statement": "Bytes given to serialDrv_write are sent once and in order, the number of bytes taken is returned, received bytes are read in order and none is lost without the overflow flag; main_print prints its string.", "quantifier": "all sequences of calls and interrupts", "why_tests_cant": "Races between the interrupts and the calls.", "anchors": ["examples/avr/at90can/driver/serialDrv.c", "examples/avr/at90can/main.c:main_print"]}
{"id": "C75", "title": "Persistent memory of the ARM example", "statement": "vscp_ps_access_read8 and readMultiple return the values written last to their addresses.", "quantifier": "all sequences of reads and writes, all addresses", "why_tests_cant": "All sequences of accesses against the write cycles of the device.", "anchors": ["examples/arm/frdm-k64f/vscp_frdm_k64f/vscp_user/vscp_ps_access.c"]}
{"id": "C76", "title": "Segment initialisation button of the examples", "statement": "Each press of the button for more than 100 ms starts the node segment initialisation exactly once; shorter presses and an untouched button never do.", "quantifier": "all sequences of button samples and all interleavings of the timer interrupt with the main loop", "why_tests_cant": "Every bounce pattern and every position of the interrupt.", "anchors": ["examples/avr/at90can/main.c", "examples/arm/frdm-k64f/vscp_frdm_k64f/source/vscp_frdm_k64f.c"]}
{"id": "C77", "title": "Status lamp of the examples", "statement": "The LED is off, on, changes every fourth call or at every call, as the lamp state says, for any number of calls.", "quantifier": "all sequences of calls of any length", "why_tests_cant": "The 8 bit counter overflows only after 256 calls.", "anchors": ["examples/avr/at90can/main.c:main_processStatusLamp", "examples/arm/frdm-k64f/vscp_frdm_k64f/source/vscp_frdm_k64f.c:main_processStatusLamp"]}
{"id": "C78", "title": "Status lamp shows the node's state", "statement": "The last order given to the status lamp is: slow blinking before the first process call, fast blinking while the node looks for a nickname or waits for one, on while it is active, off in the idle, reset and error states.", "quantifier": "all applications, all configurations, all histories of calls, received frames and power losses", "why_tests_cant": "Every path through the state machine, including initialisation failures and factory resets, must give the right order.", "anchors": ["src/vscp_core.c:vscp_core_changeToStateInit", "src/vscp_core.c:vscp_core_changeToStateActive", "src/vscp_core.c:vscp_core_init"]}
{"id": "C79", "title": "Zone registers of the AVR example", "statement": "Reading register 0 or 1 of page 0 returns the node's stored zone or sub-zone, other application registers 0; writing register 0 or 1 stores the zone or sub-zone and nothing else, and is answered with the new value.", "quantifier": "all reachable states, all requests, all values", "why_tests_cant": "All memory contents and histories.", "anchors": ["examples/avr/at90can/vscp_user/vscp_app_reg.c"]}
{"id": "C80", "title": "Actions of the AVR example", "statement": "The status LED is as the last executed action 1 (on) or 2 (off) left it; each of these actions is reported with one ON or OFF event from the node's nickname; which actions are executed is decided by the decision matrix.", "quantifier": "all states, all operations, all received events, all matrices", "why_tests_cant": "All matrices and events.", "anchors": ["examples/avr/at90can/vscp_user/vscp_action.c", "src/events/vscp_evt_information.c:vscp_evt_information_sendOn"]}
{"id": "C81", "title": "Timer driver of the AVR example", "statement": "Every tenth overflow interrupt is a tick: the tick counter is the number of ticks modulo 256 and the callback is called exactly once per tick. timerDrv_sleep(n) returns when the n-th tick after its call is seen, also if the counter wraps around.", "quantifier": "any number of interrupts, all counter values, all n, all interleavings of reads and ticks", "why_tests_cant": "The counter changes behind the back of the waiting loop; tests see few of the interleavings.", "anchors": ["examples/avr/at90can/driver/timerDrv.c:timerDrv_sleep", "examples/avr/at90can/driver/timerDrv.c:ISR(TIMER0_OVF_vect)"]}
{"id": "C82", "title": "Whole program of the AVR example", "statement": "Whatever the interrupts and the bus do, the main loop uses the framework as intended: one process call per turn, otherwise only 250 ms steps and starts of the segment initialisation, the latter once per debounced press of the button. The framework is never told more time than has passed; the clock agrees with it; its error is bounded by the length of the turns. After each 250 ms step the LED shows the state of the node; in between it follows the actions of the node. In real time, heartbeats come no more often than every 30 s, and an active node sends one every 30 s prolonged by that error.", "quantifier": "all persistent memory contents, all adapter behaviours, all numbers of turns, all placements of timer interrupts", "why_tests_cant": "Interrupts at any point of an endless loop.", "anchors": ["examples/avr/at90can/main.c:main", "examples/avr/at90can/main.c:main_timerCb", "examples/avr/at90can/main.c:main_initRunLevel1"]}
{"id": "C83", "title": "Whole program of the ARM example", "statement": "Whatever the interrupts and the bus do, the main loop uses the framework as intended: one process call per turn, otherwise only 250 ms steps and starts of the segment initialisation. The framework is never told more time than has passed, and its error is bounded by the length of the turns. After each 250 ms step the LED shows the state of the node; in between it does not change. In real time, heartbeats come no more often than every 30 s, and an active node sends one every 30 s prolonged by that error. A node keeps its stored nickname as long as the button is not pressed and the bus does not demand otherwise.", "quantifier": "all persistent memory contents, all adapter behaviours, all numbers of turns, all placements of timer interrupts", "why_tests_cant": "Interrupts at any point of an endless loop.", "anchors": ["examples/arm/frdm-k64f/vscp_frdm_k64f/source/vscp_frdm_k64f.c:main", "examples/arm/frdm-k64f/vscp_frdm_k64f/source/vscp_frdm_k64f.c:PIT0_IRQHandler", "examples/arm/frdm-k64f/vscp_frdm_k64f/source/vscp_frdm_k64f.c:main_initRunLevel1"]}
