{"id": "C01", "title": "Numbered requests are processed exactly once and in order", "statement": "Within one transport connection the requests handed to the application layer are exactly those whose sequence numbers run 0,1,2,... modulo 16 without gap or repetition; a request that the partner repeats because it missed the acknowledge is acknowledged again but is never executed a second time.", "quantifier": "every history of received telegrams (any bytes, any senders), main-loop passes, clock values and send completions after power-up", "why_tests_cant": "a test replays a handful of telegram orders; duplicates, interleaved strangers, reconnects and sequence wrap can be combined without bound", "anchors": ["sblib/src/eib/knx_tlayer4.cpp:processDirectTelegram", "sblib/src/eib/knx_tlayer4.cpp:actionA02sendAckPduAndProcessApci", "sblib/src/eib/knx_tlayer4.cpp:actionA03sendAckPduAgain"]}
{"id": "C02", "title": "A stranger can neither use nor disturb an open connection", "statement": "While a connection with a partner is open, no telegram sent by any other individual address changes the connection (partner, both sequence counters, pending responses, open/closed), none of its numbered data is executed, and its connect attempt is answered by a T_Disconnect addressed to that stranger.", "quantifier": "every reachable connection state, every telegram whose sender differs from the partner", "why_tests_cant": "the property speaks about all states and all foreign telegrams, including malformed control codes", "anchors": ["sblib/src/eib/knx_tlayer4.cpp:processConControlConnectPDU", "sblib/src/eib/knx_tlayer4.cpp:processConControlDisconnectPDU", "sblib/src/eib/knx_tlayer4.cpp:processConControlAcknowledgmentPDU", "sblib/src/eib/knx_tlayer4.cpp:processDirectTelegram"]}
{"id": "C03", "title": "Every numbered request gets the right acknowledge", "statement": "For a numbered data telegram from the partner of an open connection exactly one acknowledge telegram is sent, to the partner and carrying the request's own sequence number: T_ACK if the number is the expected one or the one just before it, T_NACK otherwise; a T_NACKed request is not executed and does not move the expected number. In the closed state, or from a stranger, nothing is acknowledged.", "quantifier": "every reachable state, every numbered data telegram addressed to the device", "why_tests_cant": "16 sequence numbers x all counter values x all connection states x all senders", "anchors": ["sblib/src/eib/knx_tlayer4.cpp:processDirectTelegram", "sblib/src/eib/knx_tlayer4.cpp:sendConControlTelegram", "sblib/inc/sblib/eib/knx_tpdu.h:setSequenceNumber"]}
{"id": "C04", "title": "Responses are retransmitted a bounded number of times, then the connection closes", "statement": "A connection-oriented response is put on the bus at most four times (first transmission and three repetitions), every copy is byte-identical, and if no valid T_ACK arrives the device ends the connection with a T_Disconnect.", "quantifier": "every history of telegrams, timeouts, NACKs and clock values", "why_tests_cant": "the bound must hold for every interleaving of NACKs and timeouts, not for one schedule", "anchors": ["sblib/src/eib/knx_tlayer4.cpp:loop", "sblib/src/eib/knx_tlayer4.cpp:actionA07SendDirectTelegram", "sblib/src/eib/knx_tlayer4.cpp:actionA09RepeatMessage", "sblib/src/eib/knx_tlayer4.cpp:processConControlAcknowledgmentPDU"]}
{"id": "C05", "title": "Outgoing responses are numbered consecutively and one at a time", "statement": "Within one connection, distinct responses leave the device with sequence numbers 0,1,2,... modulo 16; a new response is first transmitted only after the previous one has been acknowledged by the partner with the matching sequence number.", "quantifier": "every history of telegrams, loop passes, clock values and send completions", "why_tests_cant": "depends on the interplay of two response buffers, acknowledges and repetitions over unbounded histories", "anchors": ["sblib/src/eib/knx_tlayer4.cpp:actionA02sendAckPduAndProcessApci", "sblib/src/eib/knx_tlayer4.cpp:actionA08IncrementSequenceNumber", "sblib/src/eib/knx_tlayer4.cpp:actionA07SendDirectTelegram"]}
{"id": "C06", "title": "The connection times out after 6 seconds of silence, never earlier", "statement": "If at a main-loop pass with the send buffer free 6000 ms or more have passed since the last accepted activity of the open connection, the connection is closed and a T_Disconnect goes to the partner; a pass earlier than 6000 ms never closes an idle connection. Holds across the wrap of the millisecond counter.", "quantifier": "every open state, every pair of 32-bit clock readings less than 2^32 ms apart", "why_tests_cant": "the clock wraps after 49.7 days; tests do not run that long", "anchors": ["sblib/src/eib/knx_tlayer4.cpp:loop", "sblib/src/timer.cpp:elapsed"]}
{"id": "C07", "title": "No response of an accepted request is lost while the connection lives", "statement": "Every response produced for an accepted request is eventually offered to the bus or the connection is closed; it is never silently replaced by the response of a later request.", "quantifier": "every history of requests, acknowledges and loop passes", "why_tests_cant": "loss needs three requests outstanding, a schedule tests do not try", "anchors": ["sblib/src/eib/knx_tlayer4.cpp:actionA02sendAckPduAndProcessApci", "sblib/src/eib/knx_tlayer4.cpp:actionA08IncrementSequenceNumber"]}
{"id": "C08", "title": "No state leaks from one connection into the next", "statement": "After a successful connect both sequence counters restart at 0, no response prepared for an earlier partner is pending, and every response later sent in the new connection is addressed to the new partner and was produced by a request of the new connection.", "quantifier": "every history that ends with a connect in the closed state, and every continuation", "why_tests_cant": "needs to hold for every way the previous connection ended", "anchors": ["sblib/src/eib/knx_tlayer4.cpp:actionA01Connect", "sblib/src/eib/knx_tlayer4.cpp:resetConnection", "sblib/src/eib/knx_tlayer4.cpp:actionA06DisconnectAndClose"]}
{"id": "C09", "title": "Failed control telegrams are retried a bounded number of times", "statement": "A transport control telegram that the bus layer reports as not acknowledged is offered to the bus again at once, at most three more times, after which the send buffer becomes free; so waiting for the send buffer always ends after at most four send completions.", "quantifier": "every sequence of send results", "why_tests_cant": "termination of a busy wait over all result sequences", "anchors": ["sblib/src/eib/knx_tlayer4.cpp:finishedSendingTelegram", "sblib/src/eib/knx_tlayer4.cpp:acquireSendBuffer"]}
{"id": "C10", "title": "Telegram header fields can be written and read independently", "statement": "Setting priority, repeat flag, frame type, sender, destination or sequence number of a telegram makes exactly that field read back as written and leaves every other field and byte unchanged.", "quantifier": "every telegram buffer, every field value in range", "why_tests_cant": "2^8 header bytes x all values x all field pairs; a law, not an example", "anchors": ["sblib/inc/sblib/eib/knx_lpdu.h", "sblib/inc/sblib/eib/knx_tpdu.h", "sblib/inc/sblib/bits.h"]}
{"id": "C11", "title": "Every transmitted frame carries a correct checksum, also when repeated", "statement": "For any telegram handed to the bus the frame put on the wire has the own address as sender and a final byte that makes the exclusive-or of all bytes 0xFF, and stays so after the repeat flag has been cleared for a retransmission.", "quantifier": "every telegram of length 8..22, every own address, every number of retransmissions", "why_tests_cant": "universal over frame contents", "anchors": ["sblib/src/eib/bus.cpp:prepareTelegram", "sblib/src/eib/bus.cpp:timerInterruptHandler WAIT_50BT_FOR_NEXT_RX_OR_PENDING_TX_OR_IDLE"]}
{"id": "C12", "title": "A corrupted frame is never acknowledged nor delivered", "statement": "A received frame is acknowledged with ACK and delivered to the upper layer only if parity of all bytes, the checksum, the control byte pattern and the length are right; in particular a frame that differs from a valid one in any single byte is rejected.", "quantifier": "every received byte sequence, every single-byte corruption", "why_tests_cant": "all error patterns", "anchors": ["sblib/src/eib/bus.cpp:handleTelegram"]}
{"id": "C13", "title": "A link-layer repetition is delivered once", "statement": "If the last delivered telegram is received again with only the repeat flag changed, it is acknowledged but not delivered a second time; a telegram that differs in any other bit is delivered.", "quantifier": "every pair of telegrams", "why_tests_cant": "quantifies over all telegram contents", "anchors": ["sblib/src/eib/bus.cpp:handleTelegram"]}
{"id": "C14", "title": "A received telegram is never overwritten before the application has taken it", "statement": "From the moment a telegram is delivered until the application discards it, its bytes do not change and every further telegram for this device is not acknowledged as received.", "quantifier": "every sequence of received frames and application discards", "why_tests_cant": "interrupt-driven: all interleavings of reception and main loop", "anchors": ["sblib/src/eib/bus.cpp:handleTelegram", "sblib/inc/sblib/eib/bus.h:discardReceivedTelegram"]}
{"id": "C15", "title": "Sending a telegram ends after a bounded number of attempts with exactly one completion report", "statement": "A telegram handed to the bus is transmitted at most 1+NACK-limit+BUSY-limit times and the upper layer is told exactly once that sending has finished: successful if and only if the final answer was a link-layer ACK.", "quantifier": "every sequence of link-layer answers (ACK, NACK, BUSY, none) and collisions", "why_tests_cant": "unbounded answer sequences", "anchors": ["sblib/src/eib/bus.cpp:handleTelegram", "sblib/src/eib/bus.cpp:finishSendingTelegram", "sblib/src/eib/bus.cpp:timerInterruptHandler"]}
{"id": "C16", "title": "Communication object flags are independent", "statement": "Setting or adding flags of one group object never changes the flags of another group object, and reading the flags of the changed object returns the value set (or the union with the old ones).", "quantifier": "every flag table, every pair of objects, every flag value", "why_tests_cant": "flags share bytes in nibbles; all pairs and contents", "anchors": ["sblib/src/eib/com_objects.cpp:addObjectFlags", "sblib/src/eib/com_objects.cpp:setObjectFlags"]}
{"id": "C17", "title": "Updated objects are reported exactly once, none is forgotten", "statement": "Repeatedly asking for the next updated object returns every object whose update flag is set, each exactly once, in increasing order, and then -1; other flags stay untouched.", "quantifier": "every flag table and every number of objects", "why_tests_cant": "completeness over all flag patterns", "anchors": ["sblib/src/eib/com_objects.cpp:nextUpdatedObject"]}
{"id": "C18", "title": "A group value write changes exactly the associated, write-enabled objects", "statement": "When a group telegram with a value write (or response) arrives for a group address, every object associated with that address whose configuration has communication and write enabled takes the telegram's value and becomes 'updated'; every other object keeps its value and flags.", "quantifier": "every association table, object configuration, telegram and memory content", "why_tests_cant": "table contents are data loaded by the commissioning tool; all must work", "anchors": ["sblib/src/eib/com_objectsBCU1.cpp:processGroupTelegram", "sblib/src/eib/com_objects.cpp:processGroupWriteTelegram"]}
{"id": "C19", "title": "Object values are stored and read back", "statement": "Writing a number to a group object and reading the object returns the number modulo 256^size; writing does not change any byte outside the object's own storage.", "quantifier": "every object size 1..4, every 32-bit value, every memory content", "why_tests_cant": "universal over values and sizes", "anchors": ["sblib/src/eib/com_objects.cpp:objectRead", "sblib/src/eib/com_objects.cpp:_objectWrite", "sblib/src/eib/com_objects.cpp:objectSize"]}
{"id": "C20", "title": "No group object is starved of transmission", "statement": "If an object has a pending transmission or read request then after at most as many send opportunities as there are objects it has been sent, whatever other objects are requested meanwhile; each send opportunity transmits at most one telegram and clears exactly that object's request.", "quantifier": "every number of objects, every pending pattern, every sequence of new requests between opportunities", "why_tests_cant": "fairness over unbounded schedules", "anchors": ["sblib/src/eib/com_objects.cpp:sendNextGroupTelegram"]}
{"id": "C21", "title": "A value sent by one device is received by another", "statement": "Encoding an object's value into a group write telegram and decoding this telegram at a receiver of the same object type yields the same value: for objects of 1 to 6 bits the value in the short payload, for longer objects the byte string.", "quantifier": "every object type, every value", "why_tests_cant": "universal round trip", "anchors": ["sblib/src/eib/com_objects.cpp:sendGroupWriteTelegram", "sblib/src/eib/com_objects.cpp:processGroupWriteTelegram"]}
{"id": "C22", "title": "Group address lookup is exact", "statement": "Looking up a group address in the address table returns an index whose entry is that address if the table contains it, and 'not found' otherwise.", "quantifier": "every table content and size, every address", "why_tests_cant": "all table contents", "anchors": ["sblib/src/eib/addr_tablesBCU1.cpp:indexOfAddr", "sblib/src/eib/addr_tablesSYSTEMB.cpp:indexOfAddr"]}
{"id": "C23", "title": "The group telegram rate limit is respected", "statement": "With a rate limit of L telegrams per second the device lets at least 1000/L ms (integer division) pass between two group telegrams, across wrap of the millisecond counter.", "quantifier": "every sequence of main-loop times less than 2^31 ms apart, every limit", "why_tests_cant": "all schedules and clock wraps", "anchors": ["sblib/src/eib/bcu_default.cpp:loop", "sblib/src/eib/bcu_default.cpp:setGroupTelRateLimit"]}
{"id": "C24", "title": "Memory written over the bus reads back and nothing else changes", "statement": "A memory write of n bytes to an address range lying wholly in user RAM, EEPROM or mapped memory stores the n bytes, a following memory read of the range returns them, and no byte outside the range changes; a range that leaves the known areas is reported as failed.", "quantifier": "every address, length 1..12, data and memory content", "why_tests_cant": "ranges may straddle regions; universal over contents", "anchors": ["sblib/src/eib/bcu_default.cpp:processApciMemoryOperation", "sblib/src/eib/bcu_default.cpp:processApciMemoryWritePDU"]}
{"id": "C25", "title": "A memory request never reads or writes outside the telegram buffers", "statement": "Whatever count a memory read or write request carries, the device only accesses bytes inside the received and the response telegram buffer.", "quantifier": "every request telegram", "why_tests_cant": "all counts and addresses", "anchors": ["sblib/src/eib/bcu_default.cpp:processApci"]}
{"id": "C26", "title": "EEPROM content survives restart", "statement": "After the user EEPROM has been written to flash and the device restarts, the EEPROM reads back what it contained (the last byte, reserved as page marker, excepted), for any number of write cycles before.", "quantifier": "every sequence of modifications, saves and restarts", "why_tests_cant": "wear levelling rotates through pages and erases; only induction covers all histories", "anchors": ["sblib/src/eib/userEeprom.cpp:readUserEeprom", "sblib/src/eib/userEeprom.cpp:writeUserEeprom"]}
{"id": "C27", "title": "Power loss while saving the EEPROM loses at most the save in progress", "statement": "If power fails at any point while the EEPROM is being saved, after restart it contains either the old or the new content.", "quantifier": "every crash point of every save in every history", "why_tests_cant": "crash points are not testable on the host", "anchors": ["sblib/src/eib/userEeprom.cpp:writeUserEeprom"]}
{"id": "C28", "title": "Flash is only programmed where it is erased", "statement": "In crash-free operation every flash programming of the EEPROM area targets bytes that are all 0xFF, so programming never fails its comparison.", "quantifier": "every history of modifications, saves and restarts", "why_tests_cant": "induction over histories", "anchors": ["sblib/src/eib/userEeprom.cpp:writeUserEeprom"]}
{"id": "C29", "title": "Mapped memory behaves like an array", "statement": "With the virtual address space of the memory mapper, reading an address returns the byte most recently written to this address, for any interleaving of writes, reads and flushes over any mapped pages; distinct virtual pages never share a flash page.", "quantifier": "every history of addRange, writeMem, readMem and doFlash", "why_tests_cant": "refinement over unbounded histories", "anchors": ["sblib/src/mem_mapper.cpp:writeMem", "sblib/src/mem_mapper.cpp:readMem", "sblib/src/mem_mapper.cpp:allocatePage"]}
{"id": "C30", "title": "Mapped memory survives restart after a flush", "statement": "After doFlash a newly constructed mapper over the same flash area reads the same content for every address.", "quantifier": "every history ending in a flush", "why_tests_cant": "universal over histories", "anchors": ["sblib/src/mem_mapper.cpp:doFlash", "sblib/src/mem_mapper.cpp:MemMapper"]}
{"id": "C31", "title": "A failed or unmapped write has no effect on stored data", "statement": "Writing to an address that is not mapped reports an error and changes no stored byte.", "quantifier": "every state and address", "why_tests_cant": "all states", "anchors": ["sblib/src/mem_mapper.cpp:writeMem"]}
{"id": "C32", "title": "The individual address only changes when it should", "statement": "The device's own individual address changes through received telegrams only by an address-write broadcast while in programming mode or by a serial-number write carrying the device's own serial number, and then becomes exactly the address in the telegram.", "quantifier": "every telegram, every device state", "why_tests_cant": "all telegrams", "anchors": ["sblib/src/eib/bcu_default.cpp:processBroadCastTelegram", "sblib/src/eib/bcu2.cpp:processBroadCastTelegram"]}
{"id": "C33", "title": "The status byte keeps even parity under programming-mode changes", "statement": "Switching programming mode on or off, by button or by request, changes exactly the programming bit and the parity bit of the status byte; a byte of even parity stays of even parity.", "quantifier": "every status byte, every sequence of switches", "why_tests_cant": "all histories", "anchors": ["sblib/src/eib/bcu_base.cpp:setProgrammingMode", "sblib/src/eib/bcu_base.cpp:loop"]}
{"id": "C34", "title": "The application runs only when completely loaded", "statement": "For BCU2-type devices the application is reported running only if it is enabled, the run state is set and address table, association table and application are all in state Loaded; a load-control event sets the load state prescribed by the protocol.", "quantifier": "every sequence of load-control events and every state", "why_tests_cant": "all event sequences", "anchors": ["sblib/src/eib/bcu2.cpp:applicationRunning", "sblib/src/eib/propertiesBCU2.cpp:handleLoadStateMachine"]}
{"id": "C35", "title": "Reading a property never leaves the response telegram and returns the stored bytes", "statement": "A property value read that is answered with data returns count*size bytes of the property, high byte first for numeric types, and never exceeds the response telegram.", "quantifier": "every property table, object index, property id, count and start", "why_tests_cant": "universal over requests", "anchors": ["sblib/src/eib/propertiesBCU2.cpp:propertyValueReadTelegram"]}
{"id": "C36", "title": "The bootloader never erases or programs itself", "statement": "No sequence of update commands, with any parameters, erases or programs a byte of the flash area occupied by the bootloader.", "quantifier": "every sequence of update protocol messages of any content", "why_tests_cant": "safety over all message histories and address parameters incl. wrap-around", "anchors": ["firmware_updater/bootloader/src/flash.cpp", "firmware_updater/bootloader/src/update.cpp"]}
{"id": "C37", "title": "A locked device does not change its flash", "statement": "Until an unlock command with the correct 12-byte UID (in either byte order) has been received, no update command changes flash or the RAM buffer, and all commands but unlock, UID request and version request are answered 'device locked'.", "quantifier": "every sequence of messages without a correct unlock", "why_tests_cant": "all message sequences", "anchors": ["firmware_updater/bootloader/src/update.cpp:handleApciUsermsgManufacturerInternal", "firmware_updater/bootloader/src/update.cpp:updUnlockDevice"]}
{"id": "C38", "title": "Erasing an address range erases exactly the pages it touches", "statement": "An accepted erase of [start,end] with start <= end sets every byte of every 256-byte page touched by the range to 0xFF and leaves all other flash unchanged.", "quantifier": "every address range and flash content", "why_tests_cant": "page/sector split has many boundary cases; universal over ranges", "anchors": ["firmware_updater/bootloader/src/flash.cpp:eraseAddressRange"]}
{"id": "C39", "title": "Only an application with matching checksum is started", "statement": "At startup control is given to the application only if the descriptor's range lies in application flash and the CRC-32 of the flash content of this range equals the descriptor's CRC; power loss at any point of an update never leads to starting anything else.", "quantifier": "every flash content, every crash point of every update history", "why_tests_cant": "all flash contents", "anchors": ["firmware_updater/bootloader/src/boot_descriptor_block.cpp:checkApplication", "firmware_updater/bootloader/src/bootloader.cpp:startup"]}
{"id": "C40", "title": "Programming writes exactly the downloaded bytes", "statement": "A successful program command leaves in flash at the given address exactly the bytes received by the preceding send-data commands, after their CRC-32 matched, and changes nothing outside the pages they occupy; the RAM buffer never overflows.", "quantifier": "every sequence of send-data commands, every flash content, address, count", "why_tests_cant": "block splitting, all sizes", "anchors": ["firmware_updater/bootloader/src/update.cpp:updSendData", "firmware_updater/bootloader/src/update.cpp:updProgram"]}
{"id": "C41", "title": "The firmware CRC is the standard CRC-32", "statement": "The checksum routine computes the reflected CRC-32 (polynomial 0xEDB88320, initial value and final inversion as given) of any byte string, and detects every error burst of at most 32 bits.", "quantifier": "every byte string, every burst", "why_tests_cant": "universal over strings", "anchors": ["firmware_updater/bootloader/src/crc.cpp:crc32"]}
{"id": "C42", "title": "Applying a difference stream yields the encoded page", "statement": "Feeding a well-formed difference stream (raw and copy commands) to the decompressor fills the page buffer with the concatenation of the raw bytes and the copied old bytes, independent of how the stream is split into telegrams.", "quantifier": "every command list whose output fits a page, every split into telegrams", "why_tests_cant": "universal over streams and splits", "anchors": ["firmware_updater/bootloader/src/decompressor.cpp:putByte", "firmware_updater/bootloader/src/decompressor.cpp:pageCompletedDoFlash"]}
{"id": "C43", "title": "No download stream makes the decompressor write outside its page buffer", "statement": "Whatever bytes are sent as difference data, the decompressor never writes or reads outside its buffers.", "quantifier": "every byte stream", "why_tests_cant": "all byte streams", "anchors": ["firmware_updater/bootloader/src/decompressor.cpp:putByte"]}
{"id": "C44", "title": "An Intel-HEX dump decodes to the dumped memory", "statement": "Each data record printed by the flash dump has a correct length, address and checksum (all bytes sum to 0 modulo 256), and the records' data concatenate to the dumped bytes.", "quantifier": "every memory content, start address below 64K, count and line length 1..255", "why_tests_cant": "universal over contents", "anchors": ["firmware_updater/bootloader/src/intelhex.cpp:dumpToSerialinIntelHex"]}
{"id": "C45", "title": "A timeout never fires early and fires once", "statement": "A started timeout reports expiry at the first query at or after its deadline, not before, exactly once, also across the wrap of the millisecond counter.", "quantifier": "every duration below 2^31 ms, every query schedule", "why_tests_cant": "49-day wrap", "anchors": ["sblib/inc/sblib/timeout.h"]}
{"id": "C46", "title": "The debouncer reports a value only after it was stable", "statement": "The debounced value changes only to a level that has been observed unchanged at all queries during at least the debounce time.", "quantifier": "every sequence of samples with non-decreasing times within 2^31 ms", "why_tests_cant": "all sample sequences", "anchors": ["sblib/src/debounce.cpp:debounce"]}
{"id": "C47", "title": "Serial reception is a lossless FIFO until full", "statement": "Bytes read from the buffered stream are, in order, the bytes received, excluding only those that arrived while 127 bytes were waiting.", "quantifier": "every interleaving of received bytes and reads", "why_tests_cant": "interrupt/main interleavings without bound", "anchors": ["sblib/src/buffered_stream.cpp", "sblib/src/serial.cpp:interruptHandler"]}
{"id": "C48", "title": "Printed numbers denote the number", "statement": "Printing an integer in base 2..36 writes its digits, most significant first, padded with zeros to the requested width, so that reading the text in that base gives the number back.", "quantifier": "every 32-bit value, base and width", "why_tests_cant": "universal round trip", "anchors": ["sblib/src/print.cpp:print"]}
{"id": "C49", "title": "parseInt reads back printed decimal numbers", "statement": "Reading an integer from a stream that contains non-digit garbage followed by a printed decimal integer and a delimiter returns that integer and leaves the delimiter unread.", "quantifier": "every garbage prefix without digit or minus, every int", "why_tests_cant": "universal", "anchors": ["sblib/src/stream.cpp:parseInt"]}
{"id": "C50", "title": "find() finds the target wherever it first occurs", "statement": "find(target) on a stream returns true if and only if the stream contains the target, and then has consumed exactly up to the end of its first occurrence.", "quantifier": "every stream content and target", "why_tests_cant": "all overlaps", "anchors": ["sblib/src/stream.cpp:findUntil"]}
{"id": "C51", "title": "DPT 9 values survive encoding with bounded error", "statement": "Encoding a value (in 1/100 units) as 2-byte KNX float and decoding it gives a value within one step of the mantissa resolution, decoding any code but 'invalid' and encoding it again gives a code of the same value, and the encoding is monotone.", "quantifier": "all representable values and all 65536 codes", "why_tests_cant": "67 million x2 values; ordering laws over pairs", "anchors": ["sblib/src/eib/datapoint_types.cpp:floatToDpt9", "sblib/src/eib/datapoint_types.cpp:dpt9ToFloat"]}
{"id": "C52", "title": "One-wire search finds every device exactly once", "statement": "Repeated search calls on a bus with any set of devices return each device's 64-bit ROM code exactly once and then report the end; codes whose family byte is 0 (never assigned to a device) are excluded, because the library discards them.", "quantifier": "every finite set of distinct 64-bit codes with a non-zero family byte", "why_tests_cant": "unbounded device sets", "anchors": ["sblib/src/onewire.cpp:OneWireSearch"]}
{"id": "C53", "title": "One-wire CRC routines implement the Dallas CRCs", "statement": "The bitwise CRC-8 and the parity-trick CRC-16 equal polynomial division by x^8+x^5+x^4+1 and x^16+x^15+x^2+1 (reflected) for every message; appending the CRC-8 gives remainder zero; every single-bit error and every burst of at most 8 (16) bits is detected.", "quantifier": "every message of any length", "why_tests_cant": "universal over messages", "anchors": ["sblib/src/onewire.cpp:OneWireCRC8", "sblib/src/onewire.cpp:OneWireCRC16", "sblib/src/onewire.cpp:OneWireCheckCRC16"]}
{"id": "C54", "title": "Real-time-clock values survive the register encoding", "statement": "Setting a valid time or calendar date and reading it back gives the same values; invalid values are refused without touching the clock.", "quantifier": "all field values", "why_tests_cant": "all combinations", "anchors": ["sblib/src/i2c/ds3231.cpp:SetTime", "sblib/src/i2c/ds3231.cpp:GetTime", "sblib/src/i2c/ds3231.cpp:uchar_2_bcd"]}
{"id": "C55", "title": "Shift-register output read back by shift-register input is the identity", "statement": "Shifting a byte out and sampling the same bit sequence in with the same bit order gives the byte.", "quantifier": "all bytes and both bit orders", "why_tests_cant": "law over all bytes, both orders", "anchors": ["sblib/src/digital_pin_shift.cpp"]}
{"id": "C56", "title": "Byte-reversing copy is exact", "statement": "Copying n bytes with reversal writes exactly the n destination bytes, in reversed order; doing it twice restores the order.", "quantifier": "every length, content", "why_tests_cant": "universal", "anchors": ["sblib/src/utils.cpp:reverseCopy"]}
{"id": "C57", "title": "Driver and table checksums are the documented CRCs", "statement": "The table-driven CRC-8 of the DS2482 driver equals the one-wire CRC-8 on every byte string; the CRC-8 of the SHT2x/SHT4x/SGP4x drivers is the remainder modulo x^8+x^5+x^4+1 with the documented start value; the CRC-16 that a System B device reports for a loaded table is the CCITT remainder with start value 0x1D0F. Each detects every corruption confined to as many consecutive bits as the checksum has.", "quantifier": "all byte strings of any length, all start values, all error bursts", "why_tests_cant": "A test compares a few messages; the claim is about every message length and every error pattern within the burst length, infinitely many cases.", "anchors": ["sblib/src/i2c/ds2482.cpp", "sblib/src/i2c/SHT2x.cpp", "sblib/src/i2c/SHT4x.cpp", "sblib/src/i2c/SGP4x.cpp", "sblib/src/eib/propertiesSYSTEMB.cpp"]}
{"id": "C58", "title": "The serial number derived from the chip's UID depends only on the UID", "statement": "hashUID on a 16-byte UID returns a hash of the requested length that is determined by the UID alone: the bytes of the xor of both halves modulo a fixed prime.", "quantifier": "every 16-byte UID, every requested length 1..16, every content of uninitialised memory", "why_tests_cant": "uninitialised variables happen to be equal from run to run in a test; 2^128 UIDs", "anchors": ["sblib/src/utils.cpp:hashUID"]}
{"id": "C59", "title": "Array search returns the first occurrence", "statement": "indexOf returns the smallest index below count whose element equals the value, or -1 if there is none.", "quantifier": "every array, count and value", "why_tests_cant": "universal over arrays of any length", "anchors": ["sblib/src/arrays.cpp:indexOf"]}
{"id": "C60", "title": "Reading up to a terminator returns exactly the bytes before it", "statement": "readBytesUntil stores the bytes before the first terminator (at most length), consumes the terminator if it stopped there and nothing behind it.", "quantifier": "every stream, terminator and length", "why_tests_cant": "universal over streams and lengths, boundary at length", "anchors": ["sblib/src/stream.cpp:_readBytesUntil"]}
{"id": "C61", "title": "Serial transmission is a lossless FIFO that never stalls", "statement": "The bytes put into the UART's transmitter are, in order, the bytes accepted by write(), each put there while it is empty; while bytes wait the transmitter-empty interrupt is enabled and sends the oldest.", "quantifier": "every interleaving of write calls (step by step), transmitter events and interrupts", "why_tests_cant": "interrupt/main interleavings at the granularity of single accesses", "anchors": ["sblib/src/serial.cpp:write", "sblib/src/serial.cpp:interruptHandler"]}
{"id": "C62", "title": "Family search finds a device of the family", "statement": "After a family code was selected, the next search call reports a device of that family whenever one is connected, whatever other devices are on the bus.", "quantifier": "every finite set of distinct 64-bit codes and every family code", "why_tests_cant": "unbounded device sets", "anchors": ["sblib/src/onewire.cpp:OneWireTargetSearch", "sblib/src/onewire.cpp:OneWireSearch"]}
{"id": "C63", "title": "A clock alarm read back is the alarm that was set", "statement": "If setting alarm 1 or 2 reports success, reading that alarm returns the same minutes, hours, mode, mask bits and day or date; out-of-range values are refused without any write; the time and the other alarm are unchanged.", "quantifier": "all alarm structures, all previous register contents, all lengths of interrupted transfers", "why_tests_cant": "all combinations of 12 fields", "anchors": ["sblib/src/i2c/ds3231.cpp:SetAlarm", "sblib/src/i2c/ds3231.cpp:GetAlarm"]}
{"id": "C64", "title": "Resetting a clock alarm affects only that alarm", "statement": "ResetAlarm clears the alarm's flag and interrupt-enable bits; every other bit of the chip keeps its value and the other alarm's state is unchanged.", "quantifier": "all register contents", "why_tests_cant": "all bit patterns", "anchors": ["sblib/src/i2c/ds3231.cpp:ResetAlarm", "sblib/src/i2c/ds3231.cpp:SetCtrlStatReg"]}
{"id": "C65", "title": "Epoch time uses the hour of day shown by the clock", "statement": "For every time the clock can show, in 12 and 24 hour mode, the hour from which the epoch is computed is the hour of the day (12 AM is hour 0).", "quantifier": "all times", "why_tests_cant": "all combinations", "anchors": ["sblib/src/i2c/ds3231.cpp:GetEpoch"]}
{"id": "C66", "title": "A group read request is answered by exactly the read-enabled associated objects", "statement": "A group value read for an address of the table produces one response telegram per association of a read-enabled object with that address, in table order; the first response, and every response of an object that is not itself write-enabled, carries the object's value; a read for an unknown address has no effect.", "quantifier": "every table, object configuration and memory content", "why_tests_cant": "tables are data loaded by the commissioning tool; all must work", "anchors": ["sblib/src/eib/com_objectsBCU1.cpp:processGroupTelegram", "sblib/src/eib/com_objects.cpp:sendGroupWriteTelegram"]}
{"id": "C67", "title": "isMapped tells which mapper addresses can be accessed", "statement": "MemMapper::isMapped(a) is true exactly for the addresses whose reading succeeds, and isMappedRange(a,b) only if every address between a and b can be read.", "quantifier": "every history of mapper calls, every address", "why_tests_cant": "depends on the allocation table after arbitrary histories", "anchors": ["sblib/src/mem_mapper.cpp:isMapped", "sblib/src/mem_mapper.cpp:isMappedRange"]}
{"id": "C68", "title": "Multi-byte values in mapped memory round-trip", "statement": "A 16- or 32-bit value written with setUInt16/setUInt32 to mapped addresses is returned by getUInt16/getUInt32, in either byte order and also across page boundaries.", "quantifier": "every history, address, value and byte order", "why_tests_cant": "2^32 values, every page constellation (write buffer swap inside the value)", "anchors": ["sblib/src/mem_mapper.cpp:setUIntX", "sblib/src/mem_mapper.cpp:getUIntX"]}
{"id": "C69", "title": "EEPROM changes by property requests are saved", "statement": "Whenever a property request changes a byte of the user EEPROM, the EEPROM is marked as modified, so that the change is written to flash and survives a restart.", "quantifier": "every property table, request and device state", "why_tests_cant": "all requests and states; a missing mark only shows after a power cycle", "anchors": ["sblib/src/eib/propertiesBCU2.cpp:propertyValueWriteTelegram", "sblib/src/eib/propertiesBCU2.cpp:loadProperty"]}
{"id": "C70", "title": "Property descriptions agree with the enforced access", "statement": "A property description, read by id or by index, shows the id, type, number of elements and write access of the property; a value write to a property shown as not writable is refused and changes nothing, one to a writable property is not refused; unknown objects and indices are answered without touching memory outside the tables.", "quantifier": "every property table, object, id, index and device state", "why_tests_cant": "universal over property tables and requests", "anchors": ["sblib/src/eib/propertiesBCU2.cpp:propertyDescReadTelegram", "sblib/src/eib/propertiesBCU2.cpp:propertyValueWriteTelegram"]}
{"id": "C71", "title": "Allocations by load control are visible in the properties", "statement": "After an additional load control event (allocate absolute code/data/task segment, task control 1 and 2) for the address table, association table or application program, the corresponding properties (table reference, program version, PEI type, ...) read back the allocated values.", "quantifier": "every device state and every event content", "why_tests_cant": "all events in all states; the values pass through two different byte orders", "anchors": ["sblib/src/eib/propertiesBCU2.cpp:handleAllocAbsTaskSegment", "sblib/src/eib/propertiesBCU2.cpp:handleTaskCtrl1", "sblib/src/eib/propertiesBCU2.cpp:handleTaskCtrl2"]}
{"id": "C72", "title": "A written property value is read back", "statement": "A value write to a writable property that is confirmed stores the value in exactly the memory of that property and a following read of the same elements returns the value written.", "quantifier": "every property table, writable property, elements and data", "why_tests_cant": "universal over tables, elements and values", "anchors": ["sblib/src/eib/propertiesBCU2.cpp:propertyValueWriteTelegram", "sblib/src/eib/propertiesBCU2.cpp:propertyValueReadTelegram"]}
{"id": "C73", "title": "Bytes survive the bit coding on the wire", "statement": "Whenever the link layer sends a byte, the low pulses it puts on the line begin exactly at 104 us times (k+1) after the begin of the start bit for exactly those of the nine bits (eight data bits, least significant first, and even parity) that are 0; if another device began its start bit just before, the byte is timed from that edge. Whenever nine bits are on the line with each low pulse at most 35 us early and 68 us late, the receiver takes exactly these eight data bits and judges the parity rightly, so what one device sends another hears for every such jitter, and any single wrong bit makes the frame unacceptable. A valid frame for the device that arrives this way while it listens is delivered byte for byte and acknowledged.", "quantifier": "for all bytes and nine-bit words, all edge times within the tolerances, all frames, all states of the link layer reached by any history, all upper layers", "why_tests_cant": "256 bytes times arbitrary jitter of every edge times all protocol states; tests use a handful of recorded telegrams with nominal timing.", "anchors": ["sblib/src/bus.cpp:677-816", "sblib/src/bus.cpp:960-1246"]}
{"id": "C74", "title": "Restarts are ordered, delayed and carried out", "statement": "The device resets only if an executed request ordered a restart (restart request, or master reset with an erase code from 1 to 7) that was not yet carried out. It then goes into the bootloader if and only if the last such request asked for that, not earlier than 250 ms after it, and if the request came over a connection, not before the device has sent a T_DISCONNECT. Every order is carried out once two passes of the main loop find neither a telegram nor a transmission, the second more than 250 ms after the order. A master reset request that the device answers with an error code does not restart it (refuted).", "quantifier": "for all devices (BCU1 and BCU2), all histories of telegrams, send completions, button and application actions, power losses, all clock values including wraps of the millisecond counter", "why_tests_cant": "The order, the disconnect and the reset happen in different passes of the main loop, with arbitrary other telegrams in between; no finite set of histories covers all interleavings and clock wraps.", "anchors": ["sblib/src/eib/bcu_base.cpp:80-113", "sblib/src/eib/bcu_base.cpp:125-202", "sblib/src/eib/bcu_default.cpp:541-583"]}
{"id": "C75", "title": "The whole device executes each request of a client exactly once", "statement": "Seen from the bus, a whole device (main loop, transport layer, memory and property services, programming button, restarts, power losses) treats connections as the transport layer alone does: after a client has connected, as long as the connection lasts, the device executes exactly those of the client's numbered requests that come in the order of their numbers; if the client numbers its requests from 0 and repeats each as often as it likes, each is executed exactly once and in order. Every history of the device is a history of its transport layer with the same telegrams received, frames sent and telegrams handed over, so C01 to C09 hold of the device.", "quantifier": "for all devices (BCU1 and BCU2), all histories between power-ups, all telegrams of all other partners in between, all contents of the memories", "why_tests_cant": "Unit tests drive the transport layer or single services; that no service, broadcast, button press or restart disturbs the connection state is a statement about all interleavings.", "anchors": ["sblib/src/eib/bcu_base.cpp:46-113", "sblib/src/eib/knx_tlayer4.cpp:240-350", "sblib/src/eib/bcu_default.cpp:118-155"]}
{"id": "C76", "title": "Stored data changes only by orders and survives loss of power", "statement": "The content of the user EEPROM changes while the device runs only through an executed memory write (which stores exactly the bytes of its telegram at their addresses), a property write (BCU2), an order to take another individual address, a group telegram or the application. A byte stored by a memory write is there at once and, unless something else overwrites it, is back after power is lost at any time after a main loop pass that ended without a connection and without a transmission under way. Excepted are the bytes that begin() sets, the individual address (C32), the last byte (page mark), and devices whose address table was being loaded.", "quantifier": "every BCU1/BCU2 device configuration, every reachable state, every history of passes, telegrams, completions and application calls", "why_tests_cant": "frame condition over all telegrams and histories; loss of power at any point after saving", "anchors": ["sblib/src/eib/bcu_default.cpp:loop", "sblib/src/eib/bcu_default.cpp:flushUserMemory", "sblib/src/eib/userEeprom.cpp:writeUserEeprom", "sblib/src/eib/bcu_default.cpp:processApciMemoryOperation"]}
{"id": "C77", "title": "Connectionless requests are answered once, with the specified content", "statement": "A connectionless request that the device takes from the bus is answered in the same main loop pass by exactly one frame, to the sender and with the priority of the request, or by none: the A/D converter value, device descriptor 0 with the mask version, the result of a master reset and the authorization level are answered with their specified service code and data, every other service except memory and (on BCU2) properties is not answered; none of these changes RAM, EEPROM or the individual address. Memory requests for up to 12 bytes are answered with exactly the bytes the memory specification of C24 gives for the current content, or with a count of 0 when an address is unknown.", "quantifier": "every BCU1/BCU2 configuration, every reachable device state, every connectionless telegram of bytes, every pass inputs (transmission states, button, time)", "why_tests_cant": "the answer is required for all telegrams, states and buffer contents left by earlier telegrams; absence of further frames and of side effects is a frame condition", "anchors": ["sblib/src/eib/bcu_default.cpp:processApci", "sblib/src/eib/bcu_default.cpp:processApciMasterResetPDU", "sblib/src/eib/knx_tlayer4.cpp:processDirectTelegram", "sblib/src/eib/bcu_base.cpp:loop"]}
{"id": "C78", "title": "Broadcasts are answered exactly by the devices meant", "statement": "A broadcast is answered only by: the individual address response (system priority, destination 0) exactly if the device is in programming mode and was asked for its individual address; and on BCU2 the serial number response, carrying the device's serial number, exactly if the serial number asked for is its own. All other broadcasts are not answered.", "quantifier": "every BCU1/BCU2 configuration, every reachable device state, every broadcast telegram of bytes, every pass inputs", "why_tests_cant": "over all telegrams, states and serial numbers; absence of answers", "anchors": ["sblib/src/eib/bcu_default.cpp:processBroadCastTelegram", "sblib/src/eib/bcu2.cpp:processBroadCastTelegram", "sblib/src/eib/bcu2.cpp:sendApciIndividualAddressSerialNumberReadResponse", "sblib/src/eib/bcu_base.cpp:sendApciIndividualAddressReadResponse"]}
{"id": "C79", "title": "A main loop pass handles the group telegram that came in, then serves at most one object", "statement": "On a BCU1 or BCU2 device with valid tables, one pass of the main loop has exactly these effects on the communication objects: a group write or response stores its value in exactly the associated writable objects and marks them updated, a group read is answered by one response per association with a readable object, anything else changes nothing; afterwards, exactly if no frame is being sent, group sending is enabled, the application runs and the rate limit allows it, the first object (from the round robin position on) with a pending request is served by one telegram to its sending address, and otherwise nothing is sent. The pass leaves individual address, EEPROM and tables as they are.", "quantifier": "every BCU1/BCU2 configuration, every valid set of tables in the EEPROM, every state reachable by power-up and any history, every pass input (group telegram or none, transmission states, button, times)", "why_tests_cant": "combines the whole loop (transport layer, button, restart, rate limit, flush) for all telegrams, table contents and states; includes frame conditions on all objects", "anchors": ["sblib/src/eib/bcu_default.cpp:loop", "sblib/src/eib/bcu_base.cpp:loop", "sblib/src/eib/com_objects.cpp:sendNextGroupTelegram", "sblib/src/eib/com_objectsBCU1.cpp:processGroupTelegram"]}
{"id": "C80", "title": "No communication object is forgotten", "statement": "An object whose transmission or read request is pending is served by one of the next main loop passes that may send, at the latest by the N-th such pass (N objects), whatever group telegrams come in between, whatever the application does with objects (other than storing a value without sending it in that very object), and whenever rate limit or group sending are changed.", "quantifier": "every BCU1/BCU2 configuration, valid tables, reachable state, every history of passes, send completions, application calls and settings", "why_tests_cant": "liveness over unbounded histories with arbitrary interleavings", "anchors": ["sblib/src/eib/bcu_default.cpp:loop", "sblib/src/eib/com_objects.cpp:sendNextGroupTelegram", "sblib/src/eib/com_objects.cpp:_objectWrite", "sblib/src/eib/com_objects.cpp:nextUpdatedObject"]}
{"id": "C81", "title": "The group telegram rate limit holds for the whole device", "statement": "From power-up on, two main loop passes that send a group telegram of their own accord (no read request came in) are at least 1000/L ms apart, L the limit in force at the second (28 if never set or out of range); the first one comes at least that long after power-up, and one pass sends at most one. This holds whatever the device contains and whatever else happens.", "quantifier": "every configuration, every device content (tables valid or not), every history with a clock that does not run backwards, including across wraps of the 32-bit millisecond counter", "why_tests_cant": "unbounded histories and timer wrap; arbitrary table contents", "anchors": ["sblib/src/eib/bcu_default.cpp:loop", "sblib/src/eib/bcu_default.cpp:setGroupTelRateLimit", "sblib/src/eib/com_objects.cpp:sendNextGroupTelegram"]}
{"id": "C82", "title": "What one device sends is what the other gets", "statement": "When a main loop pass of device A sends the value of a communication object, the telegram becomes, in the first transmission and in every repetition, a valid frame for all devices that know the group address. A device B whose link layer is at rest delivers and acknowledges it, and B's next pass gives exactly the objects that listen to that group and may be written the value (same object type), marks them as updated and changes no other object. In particular a value written by A's application is what B's application reads.", "quantifier": "every two BCU1/BCU2 configurations and valid tables, reachable states, values, object types, sender addresses, first transmissions and repetitions, bit timings within tolerance", "why_tests_cant": "two independent devices with arbitrary tables and states; the encoders and decoders of every layer have to agree for all values", "anchors": ["sblib/src/eib/com_objects.cpp:sendGroupWriteTelegram", "sblib/src/eib/com_objectsBCU1.cpp:processGroupTelegram", "sblib/src/eib/bcu_default.cpp:loop", "sblib/src/eib/bus.cpp:prepareTelegram", "sblib/src/eib/bus.cpp:handleTelegram"]}
{"id": "C83", "title": "A read request brings back the other device's value", "statement": "When a main loop pass of device A sends a read request for an object, a device B that takes it and has one readable object for the group answers with one telegram, a valid frame for the group; when A takes the answer, its object holds B's value and is marked as updated, and the request is no longer pending.", "quantifier": "every two BCU1/BCU2 configurations and valid tables, reachable states, values, object types, sender addresses, first transmissions and repetitions", "why_tests_cant": "request and answer pass through two devices with arbitrary tables and states", "anchors": ["sblib/src/eib/com_objects.cpp:sendGroupReadTelegram", "sblib/src/eib/com_objects.cpp:sendGroupWriteTelegram", "sblib/src/eib/com_objectsBCU1.cpp:processGroupTelegram", "sblib/src/eib/com_objects.cpp:requestObjectRead"]}
{"id": "C84", "title": "System B: relative allocation gives tables memory of their own", "statement": "A load event 'relative data allocation' gives the table the number of bytes asked for in the memory for tables; after any history of load events no two tables share a byte, none reaches outside the memory for tables, and allocating for one table changes neither the other tables nor their content.", "quantifier": "every device state, every history of load events and reads, all sizes", "why_tests_cant": "the sequences of allocations, unloads and reallocations of five tables with all sizes cannot be enumerated", "anchors": ["sblib/src/eib/propertiesSYSTEMB.cpp:handleDataRelativeAllocation", "sblib/src/eib/propertiesSYSTEMB.cpp:loadProperty", "sblib/inc/sblib/eib/userEepromSYSTEMB.h"]}
{"id": "C85", "title": "System B: the table reference shows the allocated address", "statement": "After a relative allocation the property 'table reference' of the object reads as the four-byte address of the memory allocated.", "quantifier": "every table, size and device state", "why_tests_cant": "all addresses and states; the address passes through two address layouts (BCU 2 and System B)", "anchors": ["sblib/src/eib/propertiesSYSTEMB.cpp:propertyValueReadTelegram", "sblib/src/eib/propertiesSYSTEMB.cpp:handleDataRelativeAllocation", "sblib/inc/sblib/eib/propertiesBCU2.h"]}
{"id": "C86", "title": "System B: load completed stores the CRC of the table", "statement": "'Load completed' for a table stores the CRC-16-CCITT (start value 0x1d0f) of the table's memory in its memory control block, is answered with 'loaded' and changes nothing else but the load state; every load event is answered.", "quantifier": "every table, table content and device state", "why_tests_cant": "all memory contents and sizes; the checksum is specified as the remainder of a polynomial division", "anchors": ["sblib/src/eib/propertiesSYSTEMB.cpp:loadProperty", "sblib/src/eib/propertiesSYSTEMB.cpp:crc16"]}
{"id": "C87", "title": "System B: property values are read and written as they are", "statement": "A property value read is answered with the value, in a telegram that fits the send buffer, whatever the number of elements asked for; a memory control block that is written is stored byte for byte, marked for saving and read back unchanged.", "quantifier": "every property table, property, number of elements, data and device state", "why_tests_cant": "universal over tables, element counts and values", "anchors": ["sblib/src/eib/propertiesSYSTEMB.cpp:propertyValueReadTelegram", "sblib/src/eib/propertiesSYSTEMB.cpp:propertyValueWriteTelegram"]}
{"id": "C88", "title": "System B: group writes reach exactly the associated objects", "statement": "A group value write or response received by a System B device stores the telegram's value in exactly the write-enabled objects associated with the address (whatever their type and number, up to 65535) and changes no other object's value and no other memory.", "quantifier": "every object, address and association table, memory content, telegram and address", "why_tests_cant": "universal over tables with 16 bit counts, object types, telegrams and memory contents", "anchors": ["sblib/src/eib/com_objectsSYSTEMB.cpp:processGroupTelegram", "sblib/src/eib/com_objectsSYSTEMB.cpp:objectValuePtr", "sblib/src/eib/com_objectsSYSTEMB.cpp:objectFlagsTable"]}
{"id": "C89", "title": "System B: stored values are read back", "statement": "On a System B device a value the application stores in an object of up to four bytes is read back (modulo the size), and no other object's value changes.", "quantifier": "every object table, object, value and memory content", "why_tests_cant": "universal over tables, values and memory contents", "anchors": ["sblib/src/eib/com_objectsSYSTEMB.cpp:objectValuePtr", "sblib/src/eib/com_objectsSYSTEMB.cpp:objectSize", "sblib/src/eib/com_objects.cpp:_objectWrite"]}
{"id": "C90", "title": "System B: read requests are answered", "statement": "A group value read received by a System B device is answered once per association of the address with a read-enabled object, in table order, with a frame that carries the object's value; requests for unknown addresses change nothing.", "quantifier": "every object, address and association table, memory content and address", "why_tests_cant": "universal over tables, types and memory contents", "anchors": ["sblib/src/eib/com_objectsSYSTEMB.cpp:processGroupTelegram", "sblib/src/eib/com_objects.cpp:sendGroupWriteTelegram"]}
{"id": "C91", "title": "System B: written values are sent and received ones reported", "statement": "On a System B device an object the application has written is eventually sent, and a received value is eventually reported by nextUpdatedObject.", "quantifier": "every device with fewer than 256 objects, every state", "why_tests_cant": "a test on one table cannot show that no state whatsoever makes the device send or report", "anchors": ["sblib/src/eib/com_objects.cpp:objectCount", "sblib/src/eib/com_objects.cpp:sendNextGroupTelegram", "sblib/src/eib/com_objects.cpp:nextUpdatedObject"]}
{"id": "C92", "title": "Bus arbitration", "statement": "When two devices send at the same time and their bytes first differ in a bit, the one with the low pulse sends its byte as if it were alone, and the other, although already sending, hears the whole telegram of the winner correctly (bytes already out included), keeps its own telegram for later, delivers the winner's telegram if addressed, and acknowledges it; for any deviation of the winner's pulses the constants call tolerable (up to 33 us late).", "quantifier": "every telegram, every byte and bit at which they differ, every deviation of the pulses within the tolerances, every history", "why_tests_cant": "all pairs of telegrams, all bit positions and all timings", "anchors": ["sblib/src/eib/bus.cpp:timerInterruptHandler SEND_BITS_OF_BYTE", "sblib/inc/sblib/eib/bus_const.h:BIT_OFFSET_MAX"]}
{"id": "C93", "title": "A telegram from call to report", "statement": "sendTelegram() on an idle undisturbed bus puts exactly the bytes of the frame on the wire, once if it is acknowledged and then reports success; if nobody answers it is repeated exactly as often as the retry limit says, each time with the repeat flag cleared and the checksum adapted, then failure is reported. A listening addressee gets the telegram delivered once and answers with the acknowledge that makes the sender report success.", "quantifier": "every telegram, own address, retry limit, history before the call, timing of the edges within the tolerance", "why_tests_cant": "the run length depends on every bit of the telegram and on the retry limit", "anchors": ["sblib/src/eib/bus.cpp:timerInterruptHandler", "sblib/src/eib/bus.cpp:sendTelegram"]}
{"id": "C94", "title": "BIM112: loading through memory requests", "statement": "For every history of memory reads and writes of up to 12 bytes, a BIM112 device (masks 0x701 and 0x705) answers and ends up like a memory that has a load control port at 0x104 and a window on the eight load states at 0xb6e9: a load control sets the load state and the system variables of the addressed object only, its outcome is read back in the window while the other states stay, the EEPROM is marked for saving, a control for an unknown object changes nothing, and the property service does the same to memory and load state.", "quantifier": "every device state and memory content, every history of requests, all objects, events, segment types and parameters", "why_tests_cant": "two special addresses overlay the ordinary memory; the combinations of object, event, segment type, parameters, memory content and preceding requests cannot be enumerated", "anchors": ["sblib/src/eib/mask0701.cpp:processApciMemoryReadPDU", "sblib/src/eib/mask0701.cpp:processApciMemoryWritePDU", "sblib/src/eib/propertiesMASK0701.cpp:handleAllocAbsDataSegment", "sblib/src/eib/propertiesMASK0701.cpp:handleAllocAbsTaskSegment", "sblib/src/eib/propertiesBCU2.cpp:loadProperty"]}
{"id": "C95", "title": "Answers within a connection", "statement": "A client that connects to a BCU1 or BCU2 and never lets more than two answers wait gets, for every history of telegrams, transmissions and passes of the main loop during the connection, exactly the specified answers to the executed requests: in the order of execution, none left out or added, the k-th with sequence number k mod 16, addressed to the client, with the priority of its request and the content demanded for the memory at the time of execution; repetitions carry the same content, and when all earlier ones are acknowledged the next pass sends the next.", "quantifier": "every device state reached by any history, every opening telegram, every later history of the connection (any length, any interleaving of requests, repetitions, acknowledges, foreign telegrams, transmissions and times)", "why_tests_cant": "interleavings of requests, buffered answers, repetitions, acknowledges and timeouts over an unbounded connection, times all memory contents", "anchors": ["sblib/src/eib/knx_tlayer4.cpp:processDirectTelegram", "sblib/src/eib/knx_tlayer4.cpp:loop", "sblib/src/eib/bcu_default.cpp:processApci", "sblib/src/eib/bcu2.cpp:processApci"]}
{"id": "C96", "title": "Readings of DHT11 and DHT22 sensors", "statement": "For every signal on the pin: if the sensor sends a frame of 40 pulses within the limits, the frame is decoded bit by bit, its checksum decides, and humidity and temperature are those the frame means (sign and scale of both sensor types); whatever else the line does, a failed reading returns false with a reason and keeps the last values, and a successful one has values of a frame with correct checksum. The start signal has the length the sensor type needs, and without force the sensor is used at most every two seconds.", "quantifier": "every line signal (any level at every reading), all pulse lengths, all 2^40 frames, every state and history of calls", "why_tests_cant": "the line is an unbounded sequence of levels and the 2^40 frames with their pulse lengths cannot be enumerated", "anchors": ["sblib/src/sensors/dht.cpp:DHTInit", "sblib/src/sensors/dht.cpp:readData", "sblib/src/sensors/dht.cpp:expectPulse"]}
{"id": "C97", "title": "DS18x20 temperature sensors", "statement": "The search enters every sensor on the bus once into the device list and counts them; an address with a wrong checksum or of another family is never entered. A result that is read is the temperature the scratchpad of exactly that sensor means (signed sixteenths at the sensor's resolution, count remaining for the DS18S20), is reported only if a sensor can measure it, and leaves the other devices alone; it is read only when a conversion of the same sensor was started at least 800 ms before and not read yet. Starting all conversions addresses every counted sensor once.", "quantifier": "every set of devices on the bus (any number, any addresses), every limit up to the table size, all scratchpad contents, every history of starts and reads at any times", "why_tests_cant": "the devices, their 64-bit addresses, the scratchpad contents and the interleavings of starts and reads are unbounded", "anchors": ["sblib/src/sensors/ds18x20.cpp:Search", "sblib/src/sensors/ds18x20.cpp:startConversion", "sblib/src/sensors/ds18x20.cpp:readResult", "sblib/src/sensors/ds18x20.cpp:startConversionAll"]}
{"id": "C98", "title": "Transfers on the I2C bus", "statement": "Whatever the other participants of the bus do, every transfer of at least one byte ends; the lines show a transfer as the I2C bus prescribes it: START, address, the caller's bytes in order until one is refused, repeated START and the bytes read with all but the last acknowledged, STOP. The status tells how it ended, the stored bytes are exactly those supplied, no memory outside the buffers is used, and the peripheral is ready for the next transfer. If another master wins the bus at the address, the whole transfer is repeated. A device with registers is read and written as its register number says.", "quantifier": "every behaviour of the other participants (any state space; acknowledge, refusal, lost arbitration or bus error at any byte), all addresses, buffers of any length, every number of lost attempts", "why_tests_cant": "behaviours of the bus and buffer lengths are unbounded; lost arbitration and bus errors at each byte cannot be produced exhaustively", "anchors": ["sblib/src/i2c.cpp:handleMasterXferState", "sblib/src/i2c.cpp:Chip_I2C_MasterTransfer", "sblib/src/i2c.cpp:Chip_I2C_MasterSend", "sblib/src/i2c.cpp:Chip_I2C_MasterCmdRead", "sblib/src/i2c.cpp:Chip_I2C_MasterRead"]}
{"id": "C99", "title": "Delays and the system time", "statement": "delay() and delayMicroseconds() never return early: whatever interrupts do to the program, at least the requested time has passed (less 2 us per busy wait for the call, less one period of the SysTick for delay()). They return, with a bounded excess, as long as the program gets to read the clock within each period, and stop in fatalError when they cannot work. elapsed() gives the number of milliseconds since a moment less than 49.7 days ago, across the wrap of the system time.", "quantifier": "all delays, all moments at which the reads of the counter happen, all phases and reload values of the SysTick, all interleavings of interrupts", "why_tests_cant": "the moments of the reads depend on interrupts and are unbounded in number; wraps of the counters happen once in 2^32 ms", "anchors": ["sblib/src/timer.cpp:delay", "sblib/src/timer.cpp:delayMicroseconds", "sblib/src/timer.cpp:elapsed"]}
{"id": "C100", "title": "Timer modes", "statement": "Setting the match, capture or counter mode of a timer programs exactly the channel and the actions asked for, in the bits where the hardware reads them; other channels, output levels and registers keep their values, and the query functions give back what was set. begin() and end() switch the clock of their own timer only.", "quantifier": "all modes, channels and previous register contents", "why_tests_cant": "2^32 register contents times all modes; the emulation has no timers", "anchors": ["sblib/src/timer.cpp:Timer::matchMode", "sblib/src/timer.cpp:Timer::captureMode", "sblib/src/timer.cpp:Timer::counterMode", "sblib/inc/sblib/timer.h:matchModePinConfig"]}
{"id": "C101", "title": "Pulse measurement", "statement": "pulseIn() returns the length of the first complete pulse of the requested level on the pin, in microseconds, and 0 if there is none within the time limit; a non-zero result always belongs to a pulse that was there.", "quantifier": "all courses of the pin level, all lengths, all time limits, all clocks", "why_tests_cant": "courses of a pin are infinite in number, long pulses last minutes", "anchors": ["sblib/src/lpc11xx/digital_pin_pulse.cpp:pulseIn"]}
{"id": "C102", "title": "Temperature and humidity sensors SHT2x, SHT4x", "statement": "A measurement returned by the SHT2x and SHT4x drivers comes from the bytes of one complete transfer with the sensor, requested with the right command, with fitting checksum (and, SHT2x, with the status of the quantity asked for), converted as the data sheet says; everything else is reported as an error. A sensor that answers in time is heard. The checksum detects every alteration of up to three bits. The calls come back.", "quantifier": "all behaviours of the bus and all answers of the sensor, all times, all initial states", "why_tests_cant": "behaviours of a bus are infinite in number; the drivers are not part of the unit tests", "anchors": ["sblib/src/i2c/SHT2x.cpp:SHT2xClass::readSensor", "sblib/src/i2c/SHT2x.cpp:SHT2xClass::GetTemperature", "sblib/src/i2c/SHT2x.cpp:SHT2xClass::GetHumidity", "sblib/src/i2c/SHT4x.cpp:SHT4xClass::readSensor"]}
{"id": "C103", "title": "Gas sensor SGP4x", "statement": "With success as result, raw values, self test, serial number and feature set of the SGP4x driver are those of a complete answer with fitting checksums that followed the command; otherwise the stored values stay as they were and the result names the failure. The parameters of a measurement carry the given humidity and temperature with their checksums.", "quantifier": "all behaviours of the bus, all answers, all parameters", "why_tests_cant": "behaviours of a bus are infinite in number; the driver is not part of the unit tests", "anchors": ["sblib/src/i2c/SGP4x.cpp:SGP4xClass::readSensor", "sblib/src/i2c/SGP4x.cpp:SGP4xClass::measureRawSignal", "sblib/src/i2c/SGP4x.cpp:SGP4xClass::executeSelfTest", "sblib/src/i2c/SGP4x.cpp:SGP4xClass::getSerialnumber"]}
{"id": "C104", "title": "The 1-Wire bridge DS2482 is driven correctly", "statement": "Through a bridge that keeps to its data sheet and answers within a thousand status readings, whatever hangs on the 1-Wire line: writing a byte (bit) performs exactly its time slots, least significant bit first, with the strong pull-up afterwards if and only if it was asked for, and a pull-up from before ended first; reading a byte (bit) returns exactly the levels sampled; a reset reports presence and notes a short; selecting sends the command and the eight code bytes; configuration bits arrive, the others are kept; a bridge that stays busy is noted as time-out. Not true: deviceReset resets the bridge (it writes 0xF0 to the line); a missing bridge is noticed (its absence leaves the status uninitialised).", "quantifier": "every 1-Wire line, bridge state, configuration, address and duration of the commands", "why_tests_cant": "arbitrary attached devices and timing", "anchors": ["sblib/src/i2c/ds2482.cpp:wireWriteByte", "sblib/src/i2c/ds2482.cpp:wireReadByte", "sblib/src/i2c/ds2482.cpp:wireReset", "sblib/src/i2c/ds2482.cpp:writeConfig", "sblib/src/i2c/ds2482.cpp:deviceReset", "sblib/src/i2c/ds2482.cpp:setReadPointerAndRead"]}
{"id": "C105", "title": "The search through the DS2482 finds every device exactly once", "statement": "Repeated search calls through the bridge return each device's code exactly once and then report the end. Holds for every set of devices whose codes agree in the lowest bit; otherwise exactly the devices with an odd family code are found (a discrepancy at bit 0 is stored as 0, which means none).", "quantifier": "every finite set of distinct 64-bit codes", "why_tests_cant": "unbounded device sets", "anchors": ["sblib/src/i2c/ds2482.cpp:wireSearch", "sblib/src/i2c/ds2482.cpp:wireResetSearch"]}
{"id": "C106", "title": "Calls on digital pins configure exactly the pin named", "statement": "pinMode gives the pin the function, resistor, hysteresis, open drain and direction asked for, switches pins with an A/D converter to digital use unless analog input is asked for, leads the peripheral's signal to the pin, touches no other pin, and ends in fatalError exactly if the pin has no such function. digitalWrite and digitalRead set and read the level of that pin only; pinDirection, pinInterruptMode, pinEnableInterrupt and pinDisableInterrupt change that pin only. portMode does the same for every pin of the mask. (Fails: SSEL1 at PIO2_0 and DSR, DCD, RI are not led to the pin; portMode leaves ten pins in analog mode or outside GPIO, and a bit of a missing pin of port 3 reconfigures PIO2_6.)", "quantifier": "every pin, every request, every register content, every behaviour outside the chip", "why_tests_cant": "the emulation in the tests has no pins; 42 pins times thousands of modes times any register content", "anchors": ["sblib/src/lpc11xx/digital_pin.cpp:pinMode", "sblib/src/lpc11xx/digital_pin.cpp:pinInterruptMode", "sblib/src/lpc11xx/digital_pin_port.cpp:portMode", "sblib/inc/sblib/digital_pin.h:digitalWrite", "sblib/src/ioports.cpp:getPinFunctionNumber", "sblib/src/lpc11xx/platform.cpp:ioconPointer"]}
{"id": "C107", "title": "analogRead returns a fresh conversion of the channel asked for", "statement": "analogRead and analogValidRead return the value of a conversion of the channel asked for that began after the call, whatever older results the data registers hold; a sequence of readings of any channels gives values of increasing moments; the converter is left ready and its clock setting unchanged. With the converter switched off the call never returns. analogBegin and analogEnd switch power and bus clock of the converter only, and analogBegin divides its clock to 2.4..4.8 MHz.", "quantifier": "every course of the inputs, every conversion time, every content of the data registers, every sequence of readings", "why_tests_cant": "the function is replaced by a constant in the test build; unbounded times and histories", "anchors": ["sblib/src/analog_pin.cpp:analogRead", "sblib/src/analog_pin.cpp:analogPoll", "sblib/src/analog_pin.cpp:analogBegin"]}
{"id": "C108", "title": "SPI transfers send every word and return what the slave sends with it", "statement": "transfer() on an idle, enabled port sends the word cut to the data size and returns the slave's answer to it, whatever is left in the receive FIFO, and returns however slow the bus is; without begin() it never returns. transferBlock() sends the words in their order and stores the slave's answers in order at the beginning of the array, and returns. In the background it does the same by the interrupt handler, and `finished` tells when. The constructor, setClockDivider, setDataSize, begin and end change the settings they name, of their port only. (False of the code for block transfers on port 1, for longer blocks with a delay of nine frames, for background transfers of at most 8 words, for SPI_CONTINUE and the formats TI and Microwire.)", "quantifier": "every slave (any function of the words received so far), every timing of the frames and of the interrupt, every block length, every content of the FIFOs", "why_tests_cant": "the SSP hardware is not in the test build; interleavings of handler and program and frame timings are unbounded", "anchors": ["sblib/src/spi.cpp:transfer", "sblib/src/spi.cpp:transferBlock", "sblib/src/spi.cpp:continueBlockTransfer", "sblib/src/spi.cpp:finalizeBlockTransfer", "sblib/src/spi.cpp:SPI"]}
{"id": "C109", "title": "Erasing and programming the flash: success means done, and nothing else is touched", "statement": "iapProgram, iapEraseSector(Range) and iapErasePage(Range) change no byte outside the range named; if they report success the range is in the flash and holds exactly the RAM's bytes (or 0xff), even if cells are worn out, the controller is busy or interrupt handlers use the boot ROM too; every call of the ROM is made with interrupts disabled; on a sound chip every legal request succeeds. iapFlashSize gives the size of the flash. (False of the code: page erase with worn cells is not checked; interrupts are enabled afterwards even if they were disabled before.)", "quantifier": "every chip size, flash and RAM content, every range, every pattern of busy answers, worn cells and other users of the ROM", "why_tests_cant": "the boot ROM is emulated in the test build; wear and concurrent users cannot be provoked", "anchors": ["sblib/src/iap.cpp:iapProgram", "sblib/src/iap.cpp:iapEraseSectorRange", "sblib/src/iap.cpp:iapErasePageRange", "sblib/src/iap.cpp:iapFlashSize", "sblib/src/iap.cpp:IAP_Call_InterruptSafe"]}
{"id": "C110", "title": "1-Wire at the pin: slots, bytes, reset and search reach the devices on the line", "statement": "On a line with any 1-Wire devices (any hold times and presence pulses the data sheet allows), with an operation overhead of at most 2 us per six operations: OneWireWriteBit is received as the bit, OneWireReadBit returns the wired AND of what the devices send, OneWireReset returns whether a device answers (also from a disturbed line, and false on a shorted one), bytes go least significant bit first in both directions, Select, Skip and the ROM search do on the wire what C52 and C62 say; no call violates a slot or recovery time, and each leaves the line ready for the next and the pin's interrupt enabled. (False of the code: after a reset on a shorted line the pin's interrupt stays disabled; after each written byte the internal pull-up is off, so a resistor is needed; other interrupts are not disabled and may spoil a slot.)", "quantifier": "every device behaviour, every legal timing of devices and operations, every line state at rest, every byte, any number of bytes and searches, with and without parasite power", "why_tests_cant": "the tests do not run the pin functions; hold times, presence pulses and instruction times are continuous quantities", "anchors": ["sblib/src/onewire.cpp:OneWireReset", "sblib/src/onewire.cpp:OneWireWriteBit", "sblib/src/onewire.cpp:OneWireReadBit", "sblib/src/onewire.cpp:OneWireWrite", "sblib/src/onewire.cpp:OneWireRead", "sblib/src/onewire.cpp:OneWireSearch", "sblib/inc/sblib/onewire.h:ONEWIRE_INTERNAL_PULLUP"]}
{"id": "C111", "title": "A measurement with DS18x20 sensors, from the pin up", "statement": "On a line with any DS18x20 sensors with different addresses and any legal timing, DS18x20::Search, startConversionAll and, 800 ms later, readResultAll find every sensor (up to the limit of ten), make each of them convert exactly once, read its scratchpad and report the temperature it means, whatever the timing of the pulses; search, startConversion and readResult do at the pin exactly what C97 says of them on an abstract bus, start conversions only in the addressed sensor and leave the line ready for the next call.", "quantifier": "every set of sensors and scratchpads, every legal timing of sensors and operations, every driver state, with and without parasite power, every time before the 32 bit wrap", "why_tests_cant": "no test runs the driver with a bus; the property joins pulse timing, bit order, addressing, search and conversion of values", "anchors": ["sblib/src/sensors/ds18x20.cpp:DS18x20::Search", "sblib/src/sensors/ds18x20.cpp:DS18x20::startConversion", "sblib/src/sensors/ds18x20.cpp:DS18x20::readResult", "sblib/src/sensors/ds18x20.cpp:DS18x20::startConversionAll", "sblib/src/sensors/ds18x20.cpp:DS18x20::readResultAll", "sblib/src/onewire.cpp:OneWireSelect"]}
{"id": "C112", "title": "Picture loop of u8glib", "statement": "With u8g_FirstPage(); do draw(); while (u8g_NextPage()); on a display with a page buffer of eight rows, the loop ends after ceil(height/8) passes; every page is sent once, in order and completely; every dot of the display then has the colour of the last pixel or row of eight pixels drawn there (coordinates modulo 256), whatever the buffer held before and also if draw() only draws what lies in the current page; nothing is written behind the buffer. For more than 248 rows the loop never ends (refutation).", "quantifier": "all widths 1..255 and heights 1..128, all lists of coloured pixels and 8-pixel rows in all directions, all buffer contents, all ways to draw per page", "why_tests_cant": "there are no tests of u8glib; the claim is about all pictures and display sizes", "anchors": ["u8glib/src/u8g_page.c:u8g_page_Next", "u8glib/src/u8g_pb8v1.c:u8g_pb8v1_SetPixel", "u8glib/src/u8g_pb8v1.c:u8g_pb8v1_Set8PixelOpt2", "u8glib/src/u8g_pb.c:u8g_pb_Is8PixelVisible", "u8glib/src/u8g_dev_uc1701_dogs102.c:u8g_dev_uc1701_dogs102_fn", "u8glib/src/u8g_ll_api.c:u8g_NextPageLL"]}
{"id": "C113", "title": "Clipping, rectangles and bitmaps of u8glib", "statement": "u8g_IsBBXIntersection says exactly whether a rectangle (whose coordinates go round at 256) has a dot in the current page; u8g_DrawHLine, DrawVLine, DrawBox, DrawFrame, DrawBitmap and DrawXBM set in every page exactly the dots of the shape: clipping loses none and none is drawn outside. A box of height 0 fills its columns over the whole height; an X bitmap of more than 248 columns takes all rows from the same bytes (refutations).", "quantifier": "all pages, positions, sizes (height at least 1 for boxes; at most 31 bytes a row for bitmaps) and bitmap contents", "why_tests_cant": "there are no tests of u8glib; the claim is about all positions and sizes in all pages with 8 bit wraparound", "anchors": ["u8glib/src/u8g_clip.c:u8g_IsBBXIntersection", "u8glib/src/u8g_rect.c:u8g_DrawBox", "u8glib/src/u8g_rect.c:u8g_DrawFrame", "u8glib/src/u8g_rect.c:u8g_draw_hline", "u8glib/src/u8g_bitmap.c:u8g_DrawBitmap", "u8glib/src/u8g_bitmap.c:u8g_DrawXBM"]}
{"id": "C114", "title": "Lines of u8glib", "statement": "u8g_DrawLine draws in each column (steep lines: in each row) between its ends exactly the dot nearest to the straight line, both ends included, and ends; this holds for all lines on displays of up to 129 columns and rows. A line that ends in column 255 (steep: row 255) never ends; a longer, nearly level line leaves its course as the error is an 8 bit number (refutations).", "quantifier": "all pairs of end points within the stated ranges", "why_tests_cant": "there are no tests of u8glib; the claim is about all pairs of end points and about termination", "anchors": ["u8glib/src/u8g_line.c:u8g_DrawLine"]}
{"id": "C115", "title": "Circles, discs and rounded boxes of u8glib", "statement": "Up to radius 76 u8g_DrawCircle draws in every page exactly the dots nearest to the circle in the quarters that the option asks for, u8g_DrawDisc all dots between them and the middle row, among them each dot of the round plate; u8g_DrawRFrame and u8g_DrawRBox with room for their corners draw exactly the straight parts and the quarters at the corners. Radius 77 gives wrong dots; a rounded frame narrower than two corners draws a row over the whole width; a rounded box of just two corners' height fills its columns (refutations).", "quantifier": "all pages, centres, radii up to 76, options and sizes within the stated ranges", "why_tests_cant": "there are no tests of u8glib; the claim is about all centres, radii and pages with 8 bit wraparound", "anchors": ["u8glib/src/u8g_circle.c:u8g_draw_circle", "u8glib/src/u8g_circle.c:u8g_draw_disc", "u8glib/src/u8g_rect.c:u8g_DrawRFrame", "u8glib/src/u8g_rect.c:u8g_DrawRBox"]}
{"id": "C116", "title": "Turned and doubled pictures of u8glib", "statement": "u8g_SetRot90/180/270, u8g_UndoRotation, u8g_SetScale2x2 and u8g_UndoScale lead to the picture turned and doubled as asked; width and height are those of the turned and doubled picture; the picture loop then shows at each dot of the display the dot of the picture that lies there, every dot of the picture is to be seen, and clipping against the page that the library reports loses nothing. To turn what was doubled after being turned (or double what was turned after being doubled) makes the chain of devices lead back to itself, and the call never returns. Doubled rows of eight pixels to the left, as X bitmaps have them, lie one column too far left; columns from 128 on come back at the left edge; a display of odd width, doubled and turned, loses shapes (refutations).", "quantifier": "all sequences of the calls, display sizes, pictures, buffer contents and ways to draw per page", "why_tests_cant": "there are no tests of u8glib; the claim is about all pictures, sizes and sequences of calls", "anchors": ["u8glib/src/u8g_rot.c:u8g_SetRot90", "u8glib/src/u8g_rot.c:u8g_dev_rot90_fn", "u8glib/src/u8g_rot.c:u8g_dev_rot180_fn", "u8glib/src/u8g_rot.c:u8g_dev_rot270_fn", "u8glib/src/u8g_scale.c:u8g_SetScale2x2", "u8glib/src/u8g_scale.c:u8g_dev_scale_2x2_fn", "u8glib/src/u8g_ll_api.c:u8g_UpdateDimension"]}
{"id": "C117", "title": "Painted pictures on the display", "statement": "An application that draws, in the picture loop, a list of coloured shapes (dots, lines, boxes, frames, bitmaps, X bitmaps, circles, discs, rounded frames and boxes) one after the other sees on the display, as it is or turned by 90, 180 or 270 degrees, at each dot the colour of the last shape that has the dot of the picture shown there, and nothing where no shape is; this does not depend on the pages, the clipping or what the buffer held.", "quantifier": "all lists of coloured shapes within the ranges of C113 to C115, all display sizes with 8 to 128 rows, all four orientations, all buffer contents", "why_tests_cant": "there are no tests of u8glib; the claim is about all pictures, from the drawing calls to the bytes sent to the display", "anchors": ["u8glib/src/u8g_ll_api.c:u8g_FirstPage", "u8glib/src/u8g_ll_api.c:u8g_NextPage", "u8glib/src/u8g_rect.c:u8g_DrawBox", "u8glib/src/u8g_line.c:u8g_DrawLine", "u8glib/src/u8g_circle.c:u8g_DrawDisc", "u8glib/src/u8g_rot.c:u8g_SetRot270"]}
{"id": "C118", "title": "Replacing the bootloader", "statement": "The bootloader updater, started on a chip without defects, leaves in the flash from address 0 exactly the bootloader it carries, padded with 0xff to the end of its last sector, with the eighth vector set so that the boot ROM starts it, and nothing else changed; whatever the chip does and whenever power fails, nothing outside the sectors of the new bootloader is changed and no boot ROM call is made with interrupts enabled; the device is only reset with a working bootloader.", "quantifier": "all images of any length that fit the flash, all flash contents, all behaviours of the boot ROM, all moments of a power failure", "why_tests_cant": "the program erases the bootloader of the device it runs on; there is no test of it, and a test could only cover one image on one chip", "anchors": ["firmware_updater/bootloaderupdater/src/app_main.cpp:main"]}
{"id": "C119", "title": "Light sensor BH1750", "statement": "configure() returns true exactly if the mode is valid and the sensor acknowledged it, and then the sensor measures in that mode; setMTreg() accepts 32 to 254 and returns true only if the sensor has the new measurement time; after any sequence of calls readLightLevel() returns the lux of the data sheet for the sensor's result, for the mode and measurement time of its latest measurement, -1 if it does not answer and -2 before configure(); measurementReady() is true only if the latest measurement is finished.", "quantifier": "all addresses, modes, measurement times and results, all sequences of calls, all patterns of acknowledgement, all times", "why_tests_cant": "needs the sensor's state machine and a bus with failures; the claim is about all sequences of calls", "anchors": ["sblib/src/i2c/bh1750.cpp:BH1750::begin", "sblib/src/i2c/bh1750.cpp:BH1750::configure", "sblib/src/i2c/bh1750.cpp:BH1750::setMTreg", "sblib/src/i2c/bh1750.cpp:BH1750::measurementReady", "sblib/src/i2c/bh1750.cpp:BH1750::readLightLevel"]}
{"id": "C120", "title": "Gas sensor CCS811", "statement": "Every function of the driver ends with the sensor asleep (wake pin high) and never addresses it while it sleeps, whatever it answers; begin() returns true exactly if a CCS811 with an application is there, and then the application runs in mode 2; getData() returns true exactly if the sensor answered, and then CO2 and TVOC are its values, otherwise the old values stay; what setBaseline() stored getBaseline() returns; setMode() and sleep() change the mode and nothing else; compensate() tells the sensor the nearest whole temperature and humidity.", "quantifier": "all addresses, register contents, temperatures and humidities, all patterns of acknowledgement, all contents of uninitialised memory", "why_tests_cant": "needs the sensor with its wake pin and a bus with failures; the result depends on uninitialised memory if the sensor does not answer", "anchors": ["sblib/src/i2c/CCS811.cpp:CCS811Class::begin", "sblib/src/i2c/CCS811.cpp:CCS811Class::readStatus", "sblib/src/i2c/CCS811.cpp:CCS811Class::getData", "sblib/src/i2c/CCS811.cpp:CCS811Class::getBaseline", "sblib/src/i2c/CCS811.cpp:CCS811Class::setBaseline", "sblib/src/i2c/CCS811.cpp:CCS811Class::setMode", "sblib/src/i2c/CCS811.cpp:CCS811Class::compensate"]}
{"id": "C121", "title": "Temperature and humidity sensor SHT1x", "statement": "With a sensor that is ready within 340 ms, any number of readTemperatureC(), GetTemperature(), readHumidity() and GetHumidity() calls return the sensor's measurement (in degrees, percent, and hundredths of them) and leave both lines at rest; a late or missing sensor is reported as a failure; setStatusRegister() and softReset() set the sensor's status register, getStatusRegister() reads it; readTemperatureF() is the same temperature in degrees Fahrenheit.", "quantifier": "all measurements, conversion times, rise times of the line, register contents and states of the pins", "why_tests_cant": "the driver is bit banging against a device with its own timing; all results and all times cannot be tried", "anchors": ["sblib/src/i2c/SHT1x.cpp:SHT1x::readTemperatureC", "sblib/src/i2c/SHT1x.cpp:SHT1x::readTemperatureF", "sblib/src/i2c/SHT1x.cpp:SHT1x::readHumidity", "sblib/src/i2c/SHT1x.cpp:SHT1x::sendByteToSHT", "sblib/src/i2c/SHT1x.cpp:SHT1x::waitForResultSHT", "sblib/src/i2c/SHT1x.cpp:SHT1x::getData16SHT", "sblib/src/i2c/SHT1x.cpp:SHT1x::getStatusRegister", "sblib/src/i2c/SHT1x.cpp:SHT1x::setStatusRegister", "sblib/src/digital_pin_shift.cpp:shiftIn", "sblib/src/digital_pin_shift.cpp:shiftOut"]}
{"id": "C122", "title": "Graphical display EA-DOGS", "statement": "After begin() the display shows its memory; pos(x, y) selects where the next character goes; a text written there appears as the pictures of its characters side by side, characters without a picture are skipped and not counted, and nothing else on the display changes; clear() blanks the 102 by 64 pixels and returns to (0, 0); inverse() changes only the inversion; font_5x7 has a distinct picture for each character from 32 to 127; println() ends the line.", "quantifier": "all positions, texts, complete fonts, memory contents and states of the controller, whatever it does behind its last column", "why_tests_cant": "there is no test for the display; the effect is in the memory of an external controller and depends on each earlier command", "anchors": ["sblib/src/lcd/graphical_eadogs.cpp:106-187", "sblib/src/lcd/font_5x7.cpp:13-113", "sblib/src/print.cpp:97-111"]}
{"id": "C123", "title": "I2C driver as a slave", "statement": "After Chip_I2C_SlaveSetup the device answers exactly the addresses that agree with slaveAddr outside addrMask. A master that writes has its bytes acknowledged and put into rxBuff in order, one that reads gets the bytes of txBuff in order and then 0xff; the handler of the slave addressed, and no other, is told each byte and then, once, the end. A write followed by a repeated START and a read returns what the handler prepared at the end of the write. Transfers with other devices change nothing. Whatever masters do, no access goes outside a buffer and each later address byte of a slave is acknowledged.", "quantifier": "all addresses and masks, sequences of actions of other masters, transfer structures and event handlers", "why_tests_cant": "no test uses the I2C peripheral as a slave; the behaviour depends on unbounded interleavings of bus events and handler calls", "anchors": ["sblib/src/i2c.cpp:70-79", "sblib/src/i2c.cpp:212-282", "sblib/src/i2c.cpp:352-432", "sblib/src/i2c.cpp:620-667", "sblib/inc/sblib/i2c.h:484-545"]}
{"id": "C124", "title": "Commands and answers of the bootloader as telegrams", "statement": "A user message sent to the bootloader is executed on exactly the bytes of its message, whatever the receive buffer holds behind them, and the telegram sent back contains the reply: the updating program reads from it the command and all data bytes, the head of the telegram is untouched, in debug and release builds. A telegram too short for a command executes nothing and is answered by an error. Memory writes of older programs change nothing and get the fixed answer of the old protocol; no other service but the restart has an effect. The identity answer holds the first address of an application, least significant byte first, for every updating program from version 1.0 on.", "quantifier": "all messages of up to 14 bytes, telegram and send buffer contents, bootloader states, flash layouts and builds", "why_tests_cant": "the bootloader has no unit tests of its bus interface; an answer depends on the state of the update and the stale contents of two buffers", "anchors": ["firmware_updater/bootloader/src/bcu_updater.cpp:59-87", "firmware_updater/bootloader/src/update.cpp:142-197", "firmware_updater/bootloader/src/update.cpp:258-262", "firmware_updater/bootloader/src/update.cpp:564-631", "firmware_updater/bootloader/src/update.cpp:690-709", "firmware_updater/bootloader/src/update.cpp:915-1039"]}
{"id": "C125", "title": "Floats as text", "statement": "print(float, precision) writes every float between -2^31 and 2^31 as its whole part, a point and exactly the places asked for (at most 7). The absolute value shown differs from that of the number by less than 5/4 of the last place up to six places and less than four with seven; the digits behind the point never overflow. Numbers with no more binary than decimal places are shown exactly; without places the whole part is shown. A minus sign stands before negative numbers.", "quantifier": "all floats (binary32), all precisions", "why_tests_cant": "four billion floats and eight precisions; an error shows only for single bit patterns near a power of ten", "anchors": ["sblib/src/print.cpp:68-95", "sblib/src/print.cpp:134-146", "sblib/inc/sblib/math.h:52-62"]}
{"id": "C126", "title": "Conversions of the sensors in floats", "statement": "Calculated in floats with their rounding, the temperature and humidity of an SHT4x differ from the formulas of the data sheet by at most 2^-16, keep the order of the readings and stay in the documented range. Humidity 0..100 and temperature -45..130 are told to an SGP4x in ticks off by less than 1.01; the temperature of an SHT4x arrives there as the same ticks or one less. The light level of a BH1750 is right up to the fraction 2^-21 for every measurement time. The temperature of an SHT1x is right up to 2^-15, its hundredths up to one. Fahrenheit and Kelvin of DS18x20 and DHT are right up to 2^-13 and keep the order.", "quantifier": "all readings of the sensors, all floats in the ranges given, all measurement times", "why_tests_cant": "rounding errors depend on single bit patterns; a test of a few readings shows neither the worst error nor a conversion that is undefined", "anchors": ["sblib/src/i2c/SHT4x.cpp:93-101", "sblib/src/i2c/SGP4x.cpp:146-175", "sblib/src/i2c/bh1750.cpp:212-258", "sblib/src/i2c/SHT1x.cpp:61-92", "sblib/src/sensors/ds18x20.cpp:265-270", "sblib/src/sensors/dht.cpp:165-170"]}
{"id": "C127", "title": "Gas index", "statement": "GasIndexAlgorithm_process gives 0 during the initial blackout and a value from 1 to 500 ever after, as its header says, for VOC and NOx; at an interval of a second the blackout takes exactly 46 calls. Readings outside the range of the gas count as its ends, errors repeat the last valid reading. After GasIndexAlgorithm_reset the instance shows what a new one would show. States set after the initialisation are read back unchanged, nothing is learnt before an index is shown.", "quantifier": "all sequences of readings of any length, all sampling intervals from a second to an hour, all contents of the memory before, every exponential and root function with the stated bounds", "why_tests_cant": "the index is the end of a chain of recursive float operations over days; a test of a few hundred readings cannot show that rounding errors never add up past 500", "anchors": ["sblib/src/i2c/sensirion_gas_index_algorithm.cpp:72-582", "sblib/inc/sblib/i2c/sensirion_gas_index_algorithm.h:58-159", "sblib/src/i2c/SGP4x.cpp:87-99", "sblib/src/i2c/SGP4x.cpp:178-190"]}
{"id": "C128", "title": "Clocks of the serial port and the I2C bus, begin and end of the serial port", "statement": "Serial::begin sets the baud rate asked for: the lowest rate the divisor allows that is not below it, exact where the clock permits, within 0.17 percent for the usual rates at 48 MHz, also after other rates were used; the format on the line is the one the SerialConfig constant names, nothing received or waiting before is read or sent. Bytes written go to the line in order and completely; end(), flush() and a change of pins lose none. I2C::setClockRate sets the lowest clock not below the one asked for, with phases of equal length, and getClockRate reports it.", "quantifier": "all clocks and rates in the range of the divisors, all configurations, all states of the port before, all bytes written, all clock rates", "why_tests_cant": "the rate is what the UART makes of three registers, one of which begin sets only for two rates; which bytes are still in the UART when the clock goes off depends on the moment", "anchors": ["sblib/src/serial.cpp:44-217", "sblib/inc/sblib/serial.h:47-187", "sblib/src/i2c.cpp:495-508"]}
{"id": "C129", "title": "Pointers into the memory of the mapper", "statement": "MemMapper::memoryPtr is NULL exactly for addresses which are not mapped and otherwise points to the byte readMem reads; asking for it changes no byte. operator[] reads that byte and writes to it, getUInt8 gives the byte last written, 0 where nothing is mapped. A pointer keeps showing the byte at its address whatever is written afterwards, and what is stored through it is kept by doFlash.", "quantifier": "all histories of writes, reads, added ranges, flashes and restarts, all addresses, all bytes, both values of forceFlash", "why_tests_cant": "whether a pointer still shows its byte depends on which page is in the write buffer after everything that happened since", "anchors": ["sblib/src/mem_mapper.cpp:283-315", "sblib/inc/sblib/mem_mapper.h:119-120", "sblib/inc/sblib/mem_mapper.h:173"]}
{"id": "C130", "title": "From reset to the application", "statement": "When the bootloader starts an application, the processor has the application's stack pointer and reset vector, the RAM at 0x10000000 holds its vector table of 192 bytes and is mapped to address 0, all RAM behind is as it was, the SysTick is off. A request for the bootloader by the application (restart with the magic word) leads to the bootloader, for that start only; every other start leads to the application if there is a valid one and the button is not pressed. No start of a valid application fails.", "quantifier": "all contents of flash and RAM, all sequences of power cycles, restarts and requests of any length with any updates between", "why_tests_cant": "the vector table, the magic word and whatever the RAM held before share one address; a test sees one content of the RAM and one application", "anchors": ["firmware_updater/bootloader/src/bootloader.cpp:178-258", "sblib/src/eib/bcu_base.cpp:188-205", "sblib/inc/sblib/eib/apci.h:134-136"]}
{"id": "C131", "title": "Text", "statement": "For every font file a character is found exactly if the font has it, with the numbers of its glyph, with or without the shortcuts of the header, and nothing outside the file is read. A text drawn in the picture loop shows on the display the dots of its glyphs, each where the characters before have moved the pen, and no others; characters the font does not have are skipped. The width reported before is the one drawn, the pixel width is from the left edge of the first glyph to the right edge of the last, all modulo 256. The vertical positions baseline, bottom, top and center and the line spacing place the lines as they say.", "quantifier": "all fonts of the formats 0 to 2, all texts of any length, all positions, all pages and displays", "why_tests_cant": "a test has one of many font files and a few texts; a wrong shortcut, a gap or a glyph across the edge of a page shows for single characters only", "anchors": ["u8glib/src/u8g_font.c:88-125", "u8glib/src/u8g_font.c:278-432", "u8glib/src/u8g_font.c:564-606", "u8glib/src/u8g_font.c:793-811", "u8glib/src/u8g_font.c:972-1084", "u8glib/src/u8g_font.c:1107-1217"]}
{"id": "C132", "title": "Text in four directions", "statement": "A text drawn downwards, on its head or upwards (u8g_DrawStrDir, u8g_DrawStr90, 180 and 270) shows exactly the dots of the text drawn to the right, turned round the pen by quarters, also where glyphs cross the edges of pages; the vertical position is turned with it and the width returned is the same. Other directions draw nothing.", "quantifier": "all fonts of the formats 0 to 2, all texts of any length, all positions, vertical positions, pages and displays", "why_tests_cant": "the four functions are written out separately and each has its own clipping; an offset by one shows only for some glyphs at some page edges", "anchors": ["u8glib/src/u8g_font.c:616-772", "u8glib/src/u8g_font.c:813-878"]}
{"id": "C133", "title": "Ellipses", "statement": "For radii from 1 on that are not too large for its 16 bit numbers u8g_DrawEllipse ends and sets in every page exactly these dots, in the quarters asked for: where the ellipse is steep, in each row the column nearest to it, where it is flat, in each column the nearest row. u8g_DrawFilledEllipse sets the columns from the middle row to these dots. They lie within the radii and include the four ends.", "quantifier": "all centres, all radii with 3 ry^2 rx + 2 rx^2 and 3 rx^2 ry + 2 ry^2 up to 32767, all options and all parts of the screen", "why_tests_cant": "the dots come from running differences without any reference to the ellipse; that they are the nearest ones for all pairs of radii, that the loops end and that no 16 bit number overflows needs an invariant", "anchors": ["u8glib/src/u8g_ellipse.c:113-252", "u8glib/src/u8g_ellipse.c:254-393"]}
{"id": "C134", "title": "Numbers in the user memories", "statement": "getUInt8 and getUInt16 of the user EEPROM and the user RAM give the byte, or the word with its most significant byte first, that was stored at an address, and 0 where there is no memory, without reading outside of the array. Storing through operator[] changes this byte only, inRange says where the memory is, setUserRamStart moves the RAM with its contents, and its shadow stays hidden.", "quantifier": "all memories of any start, size, shadow and contents, all addresses", "why_tests_cant": "the offsets wrap modulo 2^32; that no address makes a check pass and the array be read elsewhere is about all addresses", "anchors": ["sblib/src/eib/memory.cpp:24-55", "sblib/src/eib/userEeprom.cpp:115-148", "sblib/src/eib/userRam.cpp:25-34", "sblib/src/eib/userRam.cpp:109-139"]}
{"id": "C135", "title": "Numbers as texts on the graphical display", "statement": "u8g_u8toa and u8g_u16toa give the text of the last d decimal digits of a number with leading zeros, so a number of no more than d digits is shown as it is. u8g_u8toap and u8g_u16toap store all digits and the zero in the caller's array and change nothing behind.", "quantifier": "all 8 and 16 bit numbers, all numbers of digits that the type has, all arrays", "why_tests_cant": "digits come from repeated subtraction; a wrong step shows for some numbers only", "anchors": ["u8glib/src/u8g_u8toa.c:40-67", "u8glib/src/u8g_u16toa.c:40-67"]}
{"id": "C136", "title": "Cursor of the graphical display", "statement": "With the cursor enabled the display shows the application's picture with the cursor over it: the glyph of the cursor style in the foreground colour, over the glyph of the next code in the background colour, everything else as drawn. Drawing the cursor leaves font and colour of the application as they were. A disabled cursor draws nothing.", "quantifier": "all fonts, styles, colours, places, pages, pictures and displays", "why_tests_cant": "the cursor crosses page borders and is drawn again in every page over any picture", "anchors": ["u8glib/src/u8g_cursor.c:39-98", "u8glib/src/u8g_ll_api.c:388-395"]}
{"id": "C137", "title": "Several displays as one screen", "statement": "A picture drawn on a virtual screen appears on its displays: every display shows the part of the picture at its place, so that shapes go on from one display to the next, and the picture loop ends after the pages of all displays. Displays are added up to four; a fifth is refused and changes nothing.", "quantifier": "all pictures, sizes, places and numbers of displays", "why_tests_cant": "pages of several displays, each with its own coordinates, follow each other in one loop", "anchors": ["u8glib/src/u8g_virtual_screen.c:46-119", "u8glib/src/u8g_virtual_screen.c:125-144"]}
{"id": "C138", "title": "Pages of grey levels", "statement": "On a display with four grey levels every dot of a page has the colour, modulo 4, of the last shape drawn over it, and level 0 where none was. Drawing changes no other dot and no memory behind the page buffer. The pages start empty, follow each other in steps of four rows and end with the last row of the display.", "quantifier": "all pages, widths, colours and sequences of shapes, whatever the buffer held", "why_tests_cant": "four dots share a byte, shapes cross page borders and each other in any order", "anchors": ["u8glib/src/u8g_pb8v2.c:50-99", "u8glib/src/u8g_pb8v2.c:103-129"]}
{"id": "C139", "title": "Pages with eight dots of a row in each byte", "statement": "On a display whose bytes hold eight dots of a row every dot of a page is as the last shape drawn over it says, and off where none was. Drawing changes no other dot, and no memory behind the page buffer for any width.", "quantifier": "all pages, widths, colours and sequences of shapes, whatever the buffer held", "why_tests_cant": "eight dots share a byte, shapes cross bytes, rows and page borders in any order", "anchors": ["u8glib/src/u8g_pb8h1.c:180-274", "u8glib/src/u8g_pb8h1.c:336-352"]}
{"id": "C140", "title": "Pages of sixteen rows", "statement": "On a display with pages of sixteen rows every dot of a page is as the last shape drawn over it says, and off where none was, also for shapes across the middle of the page. Drawing changes no other dot and no memory behind the page buffer. The pages start empty, follow each other in steps of sixteen rows and end with the last row of the display.", "quantifier": "all pages, widths, colours and sequences of shapes, whatever the buffer held", "why_tests_cant": "shapes cross the two rows of bytes and the page borders in any order", "anchors": ["u8glib/src/u8g_pb16v1.c:50-104", "u8glib/src/u8g_pb16v1.c:127-176"]}
