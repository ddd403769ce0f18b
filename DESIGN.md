# Formal model of selfbus/software-arm-lib

Source read: `/repo` (pinned commit), C++ library `sblib` and the KNX bootloader
`firmware_updater/bootloader`.  Nothing of it is built or run; it is modelled by hand in
Rocq (Coq 8.16.1).

## How to read the development

Every subject has these files in `rocq/theories` (larger subjects split proofs and properties further,
e.g. `Device_Steps.v`, `Device_Props3.v`, `Bus_BitProps.v`):

| file          | content                                                              |
|---------------|----------------------------------------------------------------------|
| `X_Model.v`   | definitions only; each cites file and lines of `/repo` it models     |
| `X_Spec.v`    | the small independent specification used in the theorem statements   |
| `X_Proofs.v`  | lemmas, invariants                                                   |
| `X_Props.v`   | the property theorems, each followed by `Print Assumptions` and an `Example` showing that its hypotheses are met by a concrete non-trivial case |

Modelling conventions

* Bytes, words and addresses are `Z` (or `N`) in their C range; every wrap-around is written
  explicitly (`mod 2^32`, `Z.land _ 255`).  Buffers are lists.
* An access outside a C array, an oversized shift etc. is undefined behaviour in C; in the model
  it is a distinct outcome (`None` / `UB`), never a silently chosen value.  Theorems either show
  this outcome unreachable or exhibit the input that reaches it (`..._refuted`).
* Time is an input: each operation carries the value of `millis()` it observes.
* Interrupt handler and main loop are modelled as separate atomic operations whose order is
  arbitrary; the theorems quantify over all orders.
* A property that the code does not satisfy is kept in full as a Spec definition, refuted with a
  concrete witness (`..._refuted`), and the strongest true part is proved (`..._partial`).

## Plan per property

| id  | model | proof |
|-----|-------|-------|
| C01 | TL4: transport layer state machine as a transition system over telegrams/loops/send completions | invariant + ghost trace, induction over histories |
| C02 | TL4 | case analysis over step from any state with partner, foreign sender |
| C03 | TL4 | step theorem for every reachable state |
| C04 | TL4 | invariant: transmissions of current response = repCount+1 <= 4, induction |
| C05 | TL4 | invariant linking buffers to seqNoSend, induction over histories |
| C06 | TL4 with 32-bit clock | modular arithmetic |
| C07 | TL4 | refuted by witness (three outstanding requests); partial: holds when at most two outstanding |
| C08 | TL4 | invariant |
| C09 | TL4 send buffer automaton | bound on completions by induction |
| C10 | Telegram field accessors | bit-level laws |
| C11 | Bus frames: prepareTelegram, repeat-flag update | xor algebra |
| C12 | Bus reception | xor algebra, error pattern |
| C13 | Bus reception | step theorem |
| C14 | Bus reception | invariant over interleavings |
| C15 | Bus sender automaton | measure/invariant |
| C16 | ComObjects flags | nibble laws |
| C17 | ComObjects nextUpdatedObject | induction over number of objects |
| C18 | ComObjects processGroupTelegram | loop invariant over association table |
| C19 | ComObjects value storage | little-endian lemmas |
| C20 | ComObjects sendNextGroupTelegram | ranking argument over arbitrary request schedules |
| C21 | ComObjects send/receive | round trip; refuted for oversized values of short objects |
| C22 | address tables | list search |
| C23 | rate limiter in main loop | invariant, modular time |
| C24 | memory operations | loop invariant with regions |
| C25 | memory request buffers | refuted for counts 13..15; partial bound otherwise |
| C26 | user EEPROM over flash pages | refinement, induction over histories |
| C27 | user EEPROM with crash points | refuted (sector erase; chunked programming); partial for saves without erase |
| C28 | user EEPROM | invariant |
| C29 | memory mapper | refinement to a map |
| C30 | memory mapper | refinement |
| C31 | memory mapper | refuted (unmapped write without auto-add); partial |
| C32 | address assignment | step theorem over telegrams |
| C33 | status byte | parity algebra |
| C34 | load state machine | event folding |
| C35 | property read | bounds + content |
| C36 | bootloader flash guard + update commands | invariant over command histories |
| C37 | update protocol | invariant |
| C38 | eraseAddressRange | interval arithmetic |
| C39 | checkApplication/startup | theorem over every flash content |
| C40 | send data / program | loop invariant over block sizes |
| C41 | crc32 | equivalence to bitwise CRC; burst detection by linearity |
| C42 | decompressor | parsing lemma by induction |
| C43 | decompressor | refuted by witness; partial: well-formed streams |
| C44 | Intel HEX dump | induction over lines |
| C45 | Timeout | modular arithmetic |
| C46 | Debounce | invariant over sample histories |
| C47 | ring buffer | refinement to a queue |
| C48 | print | digit expansion by strong induction |
| C49 | parseInt | induction over stream |
| C50 | findUntil | refuted ("AAB" / "AB"); partial for targets whose first character does not recur |
| C51 | DPT9 | arithmetic over Z |
| C52 | one-wire search | trie traversal, induction over bit depth and device set |
| C53 | one-wire CRCs | linearity, induction |
| C54 | DS3231 registers | BCD laws |
| C55 | shift register | bit laws |
| C56 | reverseCopy | list reversal |
| C57 | CRC | polynomial remainder, linearity |
| C58 | utilities | unfolding; refuted for UIDs shorter than 16 bytes (uninitialised bytes) |
| C59 | utilities | induction over the array |
| C60 | text | induction over the stream |
| C61 | serial port with interrupts | refinement to a queue, measure for progress |
| C62 | one-wire target search | corollary of the trie traversal |
| C63 | DS3231 alarms | BCD laws; refuted for a stale selector |
| C64 | DS3231 alarms | register frame |
| C65 | DS3231 epoch | case analysis; refuted for 12 AM |
| C66 | ComObjects read requests | loop invariant over association table; refuted for several objects |
| C67 | memory mapper | invariant; refuted for ranges and auto-added pages |
| C68 | memory mapper | little/big endian lemmas on the array refinement |
| C69 | properties | step theorem; refuted for load control |
| C70 | properties | table lookup; refuted outside the tables |
| C71 | properties | event folding |
| C72 | properties | read after write; refuted for generic types and start 0 |
| C73 | bus, bit level: timer captures and matches | symbolic execution of the bit loop, word/byte induction |
| C74 | whole device | ghost order, invariant over histories |
| C75 | whole device refines TL4 | simulation, then C01 |
| C76 | whole device with flash | frame lemmas for every operation, save invariant, power-up |
| C77 | whole device | pass = telegram + answer + control frames; memory answers from C24 |
| C78 | whole device | as C77 |
| C79 | node = whole device + com objects + rate limit | decomposition of the pass, ComObj step theorems on the device memory |
| C80 | node, histories | measure: distance from the round robin position |
| C81 | node, histories | invariant: true time of the last telegram |
| C82 | two nodes and the link layer | composition of C79, C11/C73; the decoder inverts the encoder |
| C83 | two nodes | composition of three passes |
| C84 | property requests of a System B device | invariant over request histories: tables tidy, lowest address bounded by what was asked for |
| C85 | property requests of a System B device | evaluation of the read against the table's address |
| C86 | property requests of a System B device | the stored CRC is the polynomial remainder (C57) of the memory named by the properties |
| C87 | property requests of a System B device | as C35/C72, with the System B variants |
| C88 | group telegrams to a System B device | as C18; values follow each other, so disjointness is proved, only the flags need a hypothesis |
| C89 | application's accesses, System B | as C19 |
| C90 | group reads to a System B device | as C66 |
| C91 | sending and reporting, System B | refuted for every device with fewer than 256 objects |
| C92 | bus, bit level: two senders (`Bus_ArbSpec`) | the loser's state after the collision is the state of a receiver that has heard the bits so far; edges shifted in time; partial: winner's pulse at most 32 us late, refuted at 33 us |
| C93 | bus, a telegram from the call to the report (`Bus_OutSpec`) | induction over bytes and over repetitions along an undisturbed run; composition with C73 for the receiver |
| C94 | memory with load control port and load state window (`Bim_Spec`) | refinement by case distinction over events and segments, EEPROM stores as a fold; C24's lemmas for ordinary addresses |
| C95 | talk of a connection as its observer notes it (`Device_Spec6`), answers of C77 and C24 | simulation as for C75, then C07: the observer's notes agree with the notes of C07's observer step by step |
| C96 | frame and signal of a DHT sensor (`Dht_Spec`) | run lengths of the line by induction, bits in chunks of eight, arithmetic of the parts; refuted: long pulses, interrupt left disabled, time difference |
| C97 | addresses, scratchpad and histories of DS18x20 sensors (`Ds18_Spec`) | enumeration of C52 carried through the search loop, bits against arithmetic, invariant over histories; refuted: other devices on the bus, return code, missing checksum, time wrap |
| C98 | conversations on the lines (`I2c_Spec`: grammar of transfers, replay against an arbitrary bus) | step lemmas per status code, induction over bytes sent and read, over attempts; a register device by replay; refuted: repetition after a loss within the data or at the repeated START, count of refused bytes, empty transfers |
| C99 | moments of reads, the down counter as a function of time (`Timer_Spec`) | per-round lemma relating counted and real cycles (reloads telescope), induction over rounds; interrupt counter likewise; refuted: starvation, `delay(1)` of a whole ms, missing interrupt detected |
| C100 | bits of the registers as the hardware reads them | bitwise; refuted: the clearing side of counterMode |
| C101 | sampled courses of a pin (`pulse`) | induction over rounds, both directions; refuted: unit of the time limit, pulses of more than 89 s |
| C102 | conversations on the bus (`plays`, `transfer`), polynomial remainder (`fits`), data sheet formulas | C98 plus determinism of transfers (`I2c_Det`); linearity of the checksum and weights of all 2^16 differences; refuted: retries of SHT2x, overflow of the clock, refused command |
| C103 | `asked`: command, then words with checksums (`protected`) | as C102, generic in command and length |
| C104 | `wire` (anything on the 1-Wire line), `bridge` (the DS2482 by its data sheet, as a bus of `I2c_Model`), `linked` | the transfers are determined (`I2c_Det`); each operation leads from `linked` to `linked` |
| C105 | `attached` (devices in a search), `finds`, `reached` | the loop follows the abstract search of C52 with the discrepancy shifted by one; a choice at bit 0 always goes to 1 |
| C106 | pins, roles and register bits as the manual lists them (`Pin_Spec`) | pinMode reduced to a plan independent of the registers, plans of all pins and requests checked by computation, effect on arbitrary registers by bit lemmas; portMode by induction over the mask; refuted: places of signals, pins portMode cannot configure |
| C107 | the converter by its manual (`lpc`, with arbitrary inputs and conversion times) | step by step, induction over the polls and over the list of readings |
| C108 | the SSP by its manual (`lpc`, FIFOs of 8, arbitrary slave, frame times and interrupt times) | invariant of FIFOs, counters and stored answers over every access; measure for termination; witnesses by computation |
| C109 | the boot ROM by its manual (`lpc`, with busy answers, worn cells and other users) | each ROM call characterised, then case analysis; induction for the size |
| C110 | the line in nanoseconds by the data sheet (`gpio` over abstract `devices`), slots as functions on the devices, devices of the search as automata | edge lemmas, chained; induction over bits, bytes and the passes of the search |
| C111 | sensors as automata on the line of C110, with address, scratchpad and number of conversions (`Ds18Wire_Spec`) | lockstep of the driver at the pin with the one of C97, then the theorems of C97 composed |
| C112 | the dot at (x, y): as the last message that has it says; what pages sent to a display show (`U8g_Spec`) | one bit at a time through SetPixel and the row of eight; the page loop by induction |
| C113 | shapes as sets of dots on a picture that goes round at 256 (`U8gShape_Spec`) | the messages of each loop cover a rectangle; the decision tree of the clipping by cases |
| C114 | the nearest row to the straight line, by integers (`U8gDraw_Spec.line`) | the error is the distance to the straight line; induction over the columns |
| C115 | the nearest row to the circle, by squares (`U8gDraw_Spec.near`) | one eighth computed for each of the radii 0..76, the rest by symmetry; clipping by C113 |
| C116 | which dot of the picture is seen at a dot of the display (`U8gRot_Spec.seen`) | the five possible chains; one message turned or doubled has exactly the turned or doubled dots; then C112 |
| C117 | the colour of the last shape that has the dot (`U8gPaint_Spec.painted`) | C113 to C115 for each shape, then C116 |
| C118 | `Blu_Spec.holds`: image, padding, sum of the eight vectors; the boot ROM of C109 | invariant over the sectors on top of C109; refuted: reset after a failed call, power failure, empty image |
| C119 | the sensor by its data sheet as a participant of the bus (`Bh_Spec.light`), `lux` | C98 with determinism of transfers, invariant over sequences of calls; refuted: bytes not acknowledged, time after setMTreg, lost arbitration |
| C120 | the sensor by its data sheet, with its wake pin and an oracle for acknowledgements (`Ccs_Spec.nose`) | C98 with determinism of transfers; invariant of the pin over any conversation; refuted: answers not looked at, uninitialised status and baseline, rounding, cold |
| C121 | the sensor by its data sheet as an automaton on the two lines, with conversion and rise times (`Sht1_Spec.sensor`), `celsius`, `humidity` | step lemmas per bit, induction over the waiting loops; refuted: negative temperature, dry air, Fahrenheit, status register, reset after a late result |
| C122 | the controller UC1701 by its data sheet (`Dogs_Spec.uc1701`): memory, place, pending operand; `painted`, `settings`, `at_place` | lemma on a run of data bytes, induction over texts and rows; refuted: begin leaves a test pattern and the place at the right edge, println does nothing |
| C123 | `meant`/`foreign` by the bits that agree, `taken`, `given`, `reported` (events and the structure shown at DONE); the peripheral's status codes are environment | one lemma per status, induction over the bytes; an invariant (waiting, listening, offering a byte) over all sequences of actions; refuted: last byte of the buffer, event before the byte is sent, empty txBuff, bus error, general call not set up |
| C124 | `request`, `read_answer` (what the client reads: service 0x2FE, length nibble, command, data), `same_head`, `value` | every reply of `handle` has the length its telegram is prepared with (case analysis of all commands), then reading back what was written |
| C125 | `is_float` (24 bits and an exponent, in units of 2^-149), `shows` (denotation of the text), `within` | rounding as integer arithmetic; float next below 10^k times ten rounds below 10^(k+1); drift of up to seven multiplications; refuted: sign between -1 and 0, numbers from 2^31 on, seven places |
| C126 | `near`, `near_rel`, `near_to`, `off_by_less`: distances from the fractions of the data sheets | rounding errors by half the distance of the floats; rounding is monotone; refuted: humidities below 0 and above 100 for the SGP4x, hundredths of the SHT1x |
| C127 | `index_value`, `exponential`, `usual_interval`, `valid_reading`: the header's words | each low pass maps [0, 500.4] into itself although it rounds (its share is at least 1/503); logistic function between 0 and 500; simulation between a reset and a new instance; the estimate itself (mean, deviation) is modelled, that it stays finite is assumed (result `Some`) |
| C128 | `uart_rate`, `line_format` by the user manual UM10398 | division with remainder; queues: bytes sent and pending together stay the same with every byte time and grow with every write |
| C129 | `tells`: what `readMem` answers | the invariant of C29; an entry of the allocation table never changes once it is set (induction over histories without a restart) |
| C130 | `startable` of C39, `as_told`: where a start should lead | the copy loop by induction; invariant: the first word of the RAM is not the magic word after any start |
| C131 | a face as a list of glyphs and gaps and its file (`is_font`), the dots of a text with a moving pen (`text_dots`) | the lookup by induction over the entries; the rows of C113; the picture loop of C112 |
| C132 | `turned_text`: the dots of C131 in the coordinates of the unturned text | each loop is the image of the loop of C131 under a quarter turn of the messages; the clipping boxes by arithmetic modulo 256 |
| C133 | `ellarc`: the column (row) of smallest distance to the equation of the ellipse, of two the outer one | invariant of the running differences; the dot set is nearest because the sum of the equation at neighbouring columns changes its sign there; the second loop is the first with the axes exchanged |
| C134 | `holds`: a memory is a range of addresses with bytes; `byte_or_0`, `word_or_0` | arithmetic modulo 2^32 |
| C135 | `value`: the number a text of digits stands for | the inner loop is division with remainder |
| C136 | `overlaid`: shape over mask over picture | the glyphs as in C131, the pages as in C112 |
| C137 | `shows`: a display shows the dots of the picture at its place | the loop is the displays' loops one after the other; each as in C112 with coordinates moved |
| C138 | `level`: the colour of the last message that has the dot | the change of two bits by cases over all bytes; the loop as for C112 |
| C139 | `hbit`: rows one behind the other, left dot in the most significant bit; `dot` as for C112 | the byte of a dot is its own; the loop as for C112 |
| C140 | `dbit`: two rows of bytes; `dot` as for C112 | the loop as for C112 |

## Trusted base

* Coq 8.16.1: its kernel, including the virtual machine (`vm_compute` is used for closed computations:
  tables, finite case splits over bytes, examples).
* Axioms: none. `Print Assumptions` stands beneath every property theorem and prints "Closed under the
  global context" for each of them; there is no `Axiom`, `Parameter`, section-less `Variable`, `Admitted`
  or disabled check. (The library list of the checker shows seven constants `Coq.ssr.ssrunder.Under_rel.*`:
  these are the opaque module type of the standard library that `lia`'s `ZifyBool` pulls in; no theorem
  depends on them.)
* The specifications `*_Spec.v` and the statements in `*_Props.v`.
* The fidelity of the hand-written models. Nothing of the C++ code is parsed mechanically; every
  definition cites the lines it models and names its simplifications.

### What is modelled

| model | code | not modelled of it |
|-------|------|--------------------|
| `Telegram_Model` | `knx_lpdu.h`, `knx_npdu.h`, `knx_tpdu.h`, `bits.h`, `apci.cpp` | extended frames |
| `TL4_Model` | `knx_tlayer4.cpp/.h` complete state machine, send buffers, retries, timeouts | statistics, debug output; `millis()` read once per call |
| `Bus_Model` | `bus.cpp` `timerInterruptHandler` and all functions it calls, `sendTelegram`, `loop`, `pause`, `resume`, `bus_const.h` | the timer hardware (interrupt flags, capture value, spike filter are inputs), `begin`/`end`, `BUSMONITOR`, debug |
| `ComObj_Model` | `com_objects.cpp`, `com_objectsBCU1/BCU2.cpp`, `addr_tables*.cpp` | devices without com-object table; values overlapping the tables |
| `Rate_Model` | rate limiting in `bcu_default.cpp` | |
| `MemReq_Model` | memory services of `bcu_default.cpp`, `userRam.cpp`, `memory.cpp` | (`mask0701.cpp`: see `Bim_Model`) |
| `Mapper_Model` | `mem_mapper.cpp` | IAP failures other than "not erased" |
| `Eeprom_Model` | `userEeprom.cpp` on a flash sector, with loss of power at every IAP call and inside programming | IAP errors |
| `Prop_Model` | `propertiesBCU2.cpp`, `property_types.cpp`, property services of `bcu2.cpp` | |
| `SysB_Model` | `propertiesSYSTEMB.cpp`, `handleAllocAbsTaskSegment` of `propertiesMASK0701.cpp`, table places of `userEepromSYSTEMB.h` | debug output |
| `Bim_Model` | `mask0701.cpp`, `propertiesMASK0701.cpp` with `loadProperty` of `propertiesBCU2.cpp` (used by `mask0705.cpp` unchanged) | debug output; the reply buffer of the property service (see `Prop_Model`) |
| `SysBObj_Model` | `com_objectsSYSTEMB.cpp`, the functions of `com_objects.cpp` it inherits | |
| `Device_Model` | `bcu_base.cpp`, `bcu_default.cpp`, `bcu1.cpp`, `bcu2.cpp`: `begin`, `loop`, broadcast, `processApci`, restart, EEPROM saving, on top of the models above | com objects and application are an environment that may rewrite user memory; the bus is an environment; classes derived from BCU2 |
| `Node_Model` | `BcuDefault::loop` as a whole: `Device_Model`, `ComObj_Model` and `Rate_Model` put together on the device's memory; application calls, `enableGroupTelSend`, `setGroupTelRateLimit` | `transmitting_object_no`; tables that a value stored in the same call overlaps |
| `Boot_Model` | bootloader: `update.cpp`, `upd_protocol.cpp`, `flash.cpp`, `boot_descriptor_block.cpp`, `decompressor.cpp`, `startup()` | `bcu_updater.cpp`, debug builds; IAP calls may fail arbitrarily but only inside the requested range |
| `CRC_Model` | all checksum routines (`crc.cpp`, `onewire.cpp`, `ds2482.cpp`, `SHT2x/SHT4x/SGP4x.cpp`, `propertiesSYSTEMB.cpp`) | |
| `Text_Model` | `print.cpp` (integers), `stream.cpp`, `intelhex.cpp` | floats, timeouts of `Stream` (bytes are there or not) |
| `Serial_Model` | `serial.cpp`, `buffered_stream.cpp`, every access to shared variables a step | baud rate (`Baud_Model`), line errors, hardware FIFO overflow |
| `OneWire_Model` | ROM search of `onewire.cpp` on a bus of devices | timing of the slots (see `Wire_Model`) |
| `Wire_Model` | `onewire.cpp` at the pin: reset, slots, bytes, select, skip, depower, search | `OneWireInit`; the functions of the pin and the timer are environment |
| `Ds18Wire_Model` | `sensors/ds18x20.cpp` (65-232) on `Wire_Model` | as `Ds18_Model`, which has an abstract bus; `millis()` is a parameter of each call |
| `U8g_Model` | `u8glib/src`: `u8g_page.c`, `u8g_pb.c` (41-183 in part), `u8g_pb8v1.c` (57-160), page output of `u8g_dev_uc1701_dogs102.c`, `u8g_clip.c`, `u8g_rect.c` (lines, frame, box), `u8g_bitmap.c` | sending always succeeds; initialisation, contrast and sleep commands left out; no cursor; `u8g_state` switching left out |
| `U8gDraw_Model` | `u8glib/src`: `u8g_line.c`, `u8g_circle.c` (circle, disc), rounded frame and box of `u8g_rect.c` | the line loop by fuel, running out is a distinct outcome |
| `U8gRot_Model` | `u8glib/src`: `u8g_rot.c`, `u8g_scale.c`, `u8g_UpdateDimension` | devices by name instead of by address, following them by fuel; the mode left out |
| `Blu_Model` | `firmware_updater/bootloaderupdater/src/app_main.cpp` | without the lamp and the debug output; the boot ROM is that of `Iap_Spec` |
| `Bh_Model` | `i2c/bh1750.cpp` | `float` taken as exact rational numbers; `delay` only lets time pass; debug output left out |
| `Ccs_Model` | `i2c/CCS811.cpp` | `float` taken as exact rational numbers; delays only let time pass; uninitialised local bytes are an arbitrary function; pinMode, the pin number and the getters readTVOC/readCO2 left out |
| `Sht1_Model` | `i2c/SHT1x.cpp`, `digital_pin_shift.cpp` on the two pins | `float` taken as exact rational numbers; conversions outside the target range are undefined (None); `__NOP` left out; GetDewPoint (logf) not modelled |
| `Dogs_Model` | `lcd/graphical_eadogs.cpp`, `font.cpp`, `font_5x7.cpp` (the whole table), `Print::write`, `Print::println` for it | SPI::transfer is one byte that arrives (C108), never returns while the SPI is off; the clock divider and pin modes left out; the controller is environment |
| `Slv_Model` | `i2c.cpp`: `setSlaveAddr`, `isSlaveAddrMatching`, `lookupSlaveIndex`, `getSlaveIndex`, `handleSlaveXferState`, `Chip_I2C_SlaveSetup`, `Chip_I2C_SlaveStateHandler`, dispatch of `i2c_state_handling` | no transfer as master meanwhile, hence no lost arbitration; the peripheral and the other masters are environment; each slave has its own structure |
| `BootTel_Model` | `bcu_updater.cpp`: `processApci`; `update.cpp`: `uInt32ToStream`, `prepareReturnTelegram`, the answers' telegrams, `handleDeprecatedApciMemoryWrite`, `handleApciUsermsgManufacturer(Internal)` | commands themselves in `Boot_Model`; restart in `Device_Model`; `fatalError` of a debug build is None |
| `Flt_Model` | `print.cpp`: `print(float, int)`, `print(const char*, float, int)`, `println` of both; `math.h`: `abs`, `min`; binary32 arithmetic as integers in units of 2^-149 | IEEE 754 rounding to nearest even assumed; sign of zero, infinities, NaN not represented |
| `Sfc_Model` | `SHT4x.cpp`: `convertTicksToCelsius`, `convertTicksToPercentRH`; `SGP4x.cpp`: ticks of `measureRawSignal`; `bh1750.cpp`: level of `readLightLevel`; `SHT1x.cpp`: `convertRawTemperature`, hundredths; `ds18x20.cpp`, `dht.cpp`: `ConvertTemperature` | binary32 as in `Flt_Model`; humidity of the SHT1x, dew points and gas index not modelled in floats |
| `Gas_Model` | `sensirion_gas_index_algorithm.cpp` except the tuning parameters; use in `SGP4x.cpp` | binary32 as in `Flt_Model`; a result that is not finite ends the calculation (`None`); `expf` and `sqrtf` arbitrary |
| `Baud_Model` | `serial.cpp` begin, end, flush, setRxPin/setTxPin as clock and queues; `i2c.cpp` setClockRate, getClockRate | UART as holding register and shift register of a byte each; a byte time is a step; buffers with room (`Serial_Model` has the rings) |
| `Ptr_Model` | `mem_mapper.cpp` memoryPtr, getUInt8, operator[] | pointers as page and offset; a store to the flash is a fault |
| `Jump_Model` | `bootloader.cpp` startup, finalize, jumpToApplication as effects on RAM and registers; `bcu_base.cpp` softSystemReset | RAM as words; the 250 ms of the LED and the blinking of loop() left out |
| `Font_Model` | `u8g_font.c` lookup of glyphs, u8g_draw_glyph, u8g_DrawStr, widths, reference height and vertical positions | reading behind the file: None; the directions 90 to 270 are in `FontDir_Model`, boxes of strings and anti-aliased fonts left out |
| `FontDir_Model` | `u8g_font.c` u8g_draw_glyph90, 180, 270, u8g_DrawStr90, 180, 270, u8g_DrawStrDir | the three pairs of loops are one function with steps |
| `Ell_Model` | `u8g_ellipse.c` u8g_draw_ellipse, u8g_DrawEllipse, u8g_draw_filled_ellipse, u8g_DrawFilledEllipse | the two loops are one function with the axes exchanged, by fuel, running out is a distinct outcome |
| `MemArea_Model` | `memory.cpp`, `userEeprom.cpp` 115-148, `userRam.cpp` 25-34 and 109-139 | EEPROM and RAM, whose code is the same, as one record; status and run state left out; an element that the array does not have: None |
| `Toa_Model` | `u8g_u8toa.c`, `u8g_u16toa.c` | writing or reading outside of the array: None |
| `Cursor_Model` | `u8g_cursor.c`, `u8g_NextPage`'s call of it, the cursor's part of `u8g_init_data` | cursor_fn is null or u8g_DrawCursor; the glyph cache, that the cursor overwrites too, is not among the fields |
| `Vscreen_Model` | `u8g_virtual_screen.c` | children are displays as in `U8g_Model`; the messages that are passed to all children (default, 58-66) are not modelled |
| `Gray_Model` | `u8g_pb8v2.c` | no device that sends the pages; `pb_Clear` and pages from `U8g_Model` |
| `Horiz_Model` | `u8g_pb8h1.c` without `NEW_CODE` | messages SET_PIXEL and SET_8PIXEL; no device that sends the pages; `pb_Clear` from `U8g_Model` |
| `Double_Model` | `u8g_pb16v1.c` | no device that sends the pages; pages from `U8g_Model` |
| `RTC_Model` | `ds3231.cpp` register access | running of the clock between transfers |
| `Dht_Model` | `dht.cpp` `DHTInit`, `readData`, `expectPulse` | real time (the pin is a sequence of readings); the rounding of the float division by 100; `ConvertTemperature`, dew point |
| `Ds18_Model` | `ds18x20.cpp` `Search`, `startConversion`, `readResult`, `lastReadOk`, `temperature`, `startConversionAll`, `readResultAll` | transfer of bits on the bus (a select with its command is one event, the answer a function of the address); parasite power; names of the types; temperatures as sixteenths instead of floats |
| `I2c_Model` | `i2c.cpp`: `startMasterXfer`, `handleMasterXferState`, polling handler, `Chip_I2C_MasterTransfer`, `MasterSend`, `MasterCmdRead`, `MasterWriteRead`, `MasterRead` | the peripheral itself is modelled after the status tables of the LPC11xx manual (`advance`), the others on the bus are an arbitrary automaton; slave mode, interrupt mode, clock rate and initialisation not modelled; bus errors only at bytes |
| `Timer_Model` | `timer.cpp`: `delay`, `delayMicroseconds`, `millis`, `elapsed`, `SysTick_Handler`, the mode functions of `Timer`; `timer.h`: inline functions on TCR, EMR and the clock; `digital_pin_pulse.cpp` | registers that change by themselves are sequences of values read; a timer is its five mode registers, counting itself is not modelled; NVIC, PWM, match and capture values, flags not modelled; a hardware change of EMR between its read and write not modelled |
| `Sht_Model` | `SHT2x.cpp` (except `GetDewPoint`), `SHT4x.cpp` (except the float conversions and `getDewPoint`), `SGP4x.cpp` (the gas index: `Gas_Model`) | transfers of `I2c_Model`; `millis()` an arbitrary sequence of values; `delay` only lets time pass; ticks of the compensation are given as integers |
| `Ds_Model` | `ds2482.cpp` (except `crc8`, in `CRC_Model`) | transfers of `I2c_Model`; a variable never written is `Fault`; delays only let time pass; the bridge and the line (`Ds_Spec`) are environment |
| `Pin_Model` | `ioports.h/.cpp`, `digital_pin.h`, `lpc11xx/digital_pin.cpp`, `digital_pin_port.cpp`, `platform.cpp` | register offsets from `test/sblib/cpu-emu/LPC11xx.h`; pulses and shift registers are elsewhere; interrupts between reading and writing a register |
| `Adc_Model` | `analog_pin.cpp` | the converter (`Adc_Spec`) is environment |
| `Spi_Model` | `spi.cpp` | the SSP (`Spi_Spec`) is environment; an interrupt can come at every register access of the program |
| `Iap_Model` | `iap.cpp` | the boot ROM (`Iap_Spec`) is environment; the remapping of the first bytes of sector 0 is not |
| `DPT9_Model` | `datapoint_types.cpp` | |
| `Util_Model` | `timeout.h`, `debounce.cpp`, `utils.cpp`, `arrays.cpp`, `digital_pin_shift.cpp` | |

Not modelled at all: dew points (floating point), the tuning parameters of the gas index, the rest of u8glib
(other displays and page buffers, polygons), timers as hardware, start-up code, vector tables, test code, `bus_debug.cpp`,
`hardware_descriptor.cpp`.

Arithmetic: `int` is 32 bits (signed overflow is undefined behaviour: a distinct outcome), `unsigned`
wraps; `char` signedness never matters. Concurrency: an interrupt handler runs atomically with respect to
the main program; the main program is cut at every shared access where it matters (`Serial_Model`), at calls
otherwise.

## Tests of the theorems against wrong programs

`seeded/LOG.jsonl` has one line per edit of a model in a scratch copy. The edit is applied, everything that
depends on it is recompiled, a proof that fails is replaced by `Admitted`, and the property theorems whose
`Print Assumptions` is no longer "closed" are listed as failed. So a listed theorem is one that could not be
re-proved with the same script (itself or a lemma beneath it); it is not separately shown false. An edit with
an empty list is a survivor: the theorems were then tightened (field `theorems_tightened`) or the edit was
found not to change the claim. Until the log of the bit-level edits the script looked only at files named
`*_Props.v`, so earlier lines omit failures in `Device_Props2.v`.

## Findings: where the code does not do what one would expect

Each is either a `..._refuted` theorem or a behaviour recorded while modelling (marked *).

Link layer (`bus.cpp`)
* C12: the length nibble is not compared with the number of bytes; frames longer than 23 bytes are accepted if their first 23 bytes check.
* C13: a valid shorter frame is swallowed as a repetition of a longer one. *A new identical telegram whose first transmission was missed and which then is repeated is swallowed as well.
* C92: a foreign low pulse exactly 33 us late is counted as a collision one bit too late: the loser then hears its own bit instead of the winner's, so the frame it assembles fails the checksum. *`pause()` can be undone by a pending match interrupt, then `resume()` aborts whatever is going on; a retry with the repeat flag already cleared stays marked repeated; `busy_wait` persists, so an ack timeout after BUSY counts as busy retry; the number of full transmissions is at most max(1, N+B).

Transport layer (`knx_tlayer4.cpp`)
* C03: sequence number 15 is acknowledged right after connecting although never executed. C05: unassigned control PDUs 0x82/0xC0 count as T_ACK, *0x83/0xC1 as T_NACK. A NACK with number 15 is ignored (C10).
* C07: a third pipelined request replaces a pending response.
* C10: a T_NACK with sequence number 15 (byte 0xFF) is read as "no sequence number".

Group objects
* C21: values of 64 and more in 6-bit objects corrupt the service code. C22: the lookup reads one entry past the table. C66: several objects answering one read request send the first one's value. C23: read responses are not rate limited; *after a pause of 2^32 ms a send may be delayed.
* *After every send the flags read "idle/error"; the type byte is not masked; BCU2 `addrCount` mixes in the own address' high byte; SystemB inherits BCU1-format tables; association object numbers are not range checked; `objectWrite` replaces all flags, a pending update mark is lost.

EEPROM, memory mapper, memory services
* C27: power loss after the sector erase loses all content (always with the one-page layouts of mask 0701/0705/SystemB). C28: a half-written page after power loss makes every later save end in `fatalError`. *`writeDelayElapsed` is ineffective (no 50 ms delay); the last byte is forced to 0; the `getUInt16` bound wraps.
* C29/C30/C31/C67: `addRange` with a pending write loses it; `addRange` out of memory leaves the RAM table ahead of flash; an unmapped write without auto-add reports success and the next flush overwrites flash page 0; `isMappedRange` checks only its ends; `isMapped` is always true with auto-add. *`addRange` beyond page 255 overruns the table; the page count is truncated to a byte; one flash page allocates outside the area; `endianess` is uninitialised.
* C24/C25: counts 13-15 corrupt the length nibble, 14-15 overrun the 23-byte buffers; the status byte is overlaid at two addresses on masks 0701+; an auto-adding mapper hides RAM and EEPROM. *Failed writes store the known prefix.

Properties
* C34: event "no operation" sets the error state. C35: numeric arrays with count >= 2 come in reversed element order; the start index is computed with `<< 4` instead of `<< 8`. C69: load-state writes do not mark the EEPROM modified (C76: lost with power). C70: unknown objects/indices read outside the tables. C72: generic values are stored reversed; start index 0 writes a neighbouring read-only property (the serial number).
* *A value write has no bounds checks (up to 150 bytes); the association table property reads 4 bytes from a 2-byte member; LOAD_COMPLETED is accepted in any state; PID_RUN_STATE_CONTROL reads RAM 0x61, not the run state.

System B (`propertiesSYSTEMB.cpp`)
* C84: fill overwrites the table above instead of the new one; there is no check that memory is left, a table may cover the load states or start below the EEPROM. C85: the table references of the address and association table are kept at other places (0x378, 0x37A, from the BCU 2) than the allocation uses (0x21, 0x23). C86: the allocation stores the size at 0x4D.., the CRC is computed with the size of the BCU 2's memory control block (0x3A4..), so over no byte unless the property is written; "load completed" for objects 0 and 5, "unload" and allocation for object 0 use a null pointer or index -1. C87: reads of 11 bytes overflow the length nibble, of 12 bytes (or 5 table references) the send buffer.
* C88/C89: `objectFlagsTable` takes the flags' address from bytes 1 and 2 of the object table, which in the System B format are the low byte of the count and the first object's configuration. Usually there is no memory at that address and no flag is ever set; with 6 to 8 objects it lies in the RAM, where it can overlap values, with 51 to 62 objects in the EEPROM. C91: `objectCount` reads the high byte of the count, so a device with fewer than 256 objects sends nothing and reports nothing; `firstObjectAddr` expects the BCU 1/2 table formats, too. Objects of more than 14 bytes do not fit the telegram buffers.
* *`modified(true)` at `propertiesMASK0701.cpp:212` is unreachable.

BIM112 (`mask0701.cpp`)
* C94: only the first and last address of a data segment are checked for memory; a memory write of no bytes at 0x104 puts an object, chosen by a stale byte, in the error state; the load state window has no end, a read past the eighth state returns table addresses; in verify mode a successful load control is answered with no bytes, like a failed write; a load control by property does not mark the EEPROM as changed.

Whole device
* C74: master reset codes 2-7 are answered "unsupported" but the device restarts anyway. *Repeated restart requests postpone the reset, a later type overrides an earlier one; a pending restart's disconnect may hit a newly connected partner; broadcasts are recognised by destination 0 only, without checking the telegram length; clearing the transport bit of the status by a memory write makes the device deaf until restart; a memory write to the address table changes the own address only at restart; BCU2 `setOwnAddress` while the address table is loading writes through a null pointer if its address is outside user memory.

Bootloader
* C37: the UID request works on a locked device and returns the key. C38: an inverted range is accepted by wrap-around. C43: the decompressor has no bounds checks. *Address+count wrapping 2^32 passes the range check; an image ending at 1 mod 256 leaves the application area unaligned; an invalid descriptor request stores into memory-mapped flash; the page number is truncated to 8 bits; up to 15 bytes beyond the RAM buffer are programmed.

Utilities and drivers
* C44: a dump reaching 64K ends in a malformed record. C45: a timeout not polled for 2^31 ms is missed. C46: the debouncer's time 0 is a sentinel, `init()` does not set `last`. C47: an interrupt at `readHead == 128` with a full buffer loses 127 bytes. C48: INT_MIN and widths above 33 overflow. C49: overflow for the last 48 ints. C50: `findUntil` resets naively ("AAB" in search of "AB"). C51: the documented maximum 67076096 encodes to the invalid marker; the marker 32767 encodes as a value. C52: a device with family code 0 is never reported and the search does not end. C56: in-place use is wrong. C58: UIDs shorter than 16 bytes hash uninitialised bytes. C63: stale `dy_dt`. C64: `TurnOnAlarm` masks instead of sets; `EnableOscillator` zeroes the status register. C65: 12 AM. *`SetCtrlStatReg` may write the status into the control register; 12-hour mode accepts hour 0, and February 31 is accepted; `GetTemperature` reads 4 bytes into 2.
* C96: the DHT driver keeps pulse counts in 8 bits, so a level read more than 256 times is misjudged; the pin interrupt stays disabled after a missing answer; the last reading's age is a signed difference, undefined (in practice negative, so readings are refused) from 2^31 ms on.
* C97: with a device of another family on the bus, DS18x20::Search leaves a gap in the device list (entry index = number of the device on the bus, count = number of sensors), so the last sensors cannot be reached; its return code is that of the last device, not "at least one" as documented; a scratchpad is accepted without checksum (a missing sensor reads -0.0625 degrees); a conversion started in the last 800 ms before millis() wraps counts as ready at once; a negative index or a search limit above 10 leaves the array.
* C98: after arbitration is lost within the data, the I2C calls repeat the transfer from the next byte on (pointer and count are not reset), so a device gets a data byte as its register number while the full count is returned; after a loss at the repeated START a register read continues without the register number. MasterSend counts a refused byte as transferred. MasterSend with length 0 addresses the device for reading and stores a byte through a null pointer; a read of 0 bytes stores one byte.
* C99: delayMicroseconds adds LOAD instead of LOAD + 1 at a reload (a cycle too long per millisecond, never short). An interrupt that lasts a period or more hides whole periods from it; if the reads are a period apart it never ends. delay(1) may return at once (the next interrupt counts). delay() stops in fatalError only if the SysTick and its interrupt are both off; with the interrupt off alone it waits for ever.
* C100: the clearing side of Timer::counterMode is right for one of four requests: the flags are combined with `|` and tested with `&`, so everything but the rising edge of CAP0 becomes the falling edge of CAP1, and that becomes the rising edge of CAP1.
* C101: the time limit of pulseIn limits loop rounds (21 cycles by the code's own figure) to the cycles of the time given, so it is about 21 times as long as documented; pulses from 89.5 s on are returned modulo 2^32 cycles (documented: up to 3 minutes).
* C102: SHT2x `readSensor` compares `(millis() - timeout) > 0` unsigned: the first failed transfer ends the call instead of being repeated for 300 ms (`C102_retry_refuted`). SHT4x `readSensor` compares `millis() > timeout`: during the 300 ms before the millisecond counter overflows every measurement fails without a request (`C102_overflow_refuted`). As a refused last byte counts as sent (C98), a command that the SHT4x refuses goes unnoticed (`C102_refused_refuted`). A humidity of exactly 0 and a signal of 0 cannot be told from errors. SHT2x `GetDewPoint` uses hundredths where the formula needs units (not modelled).
* C104: `deviceReset` (ds2482.cpp:69-76) calls `write(DS2482_COMMAND_RESET)`, which writes the byte 0xF0 to the 1-Wire line instead of sending the command to the bridge. `setReadPointerAndRead` returns an uninitialised variable if the bridge does not answer, so a missing bridge is not noticed. `mError` is never cleared, and a later error overwrites an earlier one.
* C105: `wireSearch` (ds2482.cpp:282-338) counts bits from 0 and stores a discrepancy at bit 0 as 0, which also means none; the first pass goes to 1 at bit 0. Beside a device with an odd family code one with an even code is never found (e.g. a DS18B20 beside a DS1825).
* C106: `pinMode` writes SSEL1_LOC for PIO2_2 instead of PIO2_0 (digital_pin.cpp:109-116): `pinMode(PIO2_0, OUTPUT | SPI_SSEL)` leaves SSEL1 where it was. The places of DSR, DCD and RI are never written. `portMode` (digital_pin_port.cpp:17-40) computes the function and does not use it and never sets the digital bit: PIO1_4, PIO1_10, PIO1_11 become analog inputs, PIO0_0, PIO0_10, PIO0_11, PIO1_0..3 get RESET, SWCLK, SWDIO or the reserved function. Bits 6..11 of the mask of port 3 overwrite the configuration of PIO2_6 (the table has zeros there); bits above 11 read outside the table. `pinInterruptMode` resets the pull-up of the pin (it calls `pinMode(pin, INPUT)`).
* C107: `analogRead` without `analogBegin` waits for ever.
* C108: `continueBlockTransfer` writes `LPC_SSP0->DR` also for port 1 (spi.cpp:195): a block transfer on port 1 sends on port 0 and never returns. Up to nine words are outstanding with a receive FIFO of eight: a delay of nine frames loses an answer and the call never returns (errors are recorded, never looked at). A background transfer of at most 8 words sets `finished` before the interrupt is enabled (spi.cpp:160-178), so `finalizeBlockTransfer` can race with the handler: a word that was never received is stored, an answer is missing. `finished` is not volatile. `transfer` without `begin` never returns. `SPI_CONTINUE` has no effect. `SPI_FORMAT_TI` and `SPI_FORMAT_MICROWIRE` are 0, the same as SPI.
* C109: `iapErasePageRange` does not check that the pages are blank (the sector version does): with a worn cell it reports success for a page that is not erased. All functions enable interrupts at their end even if they were disabled at their begin (`interrupts()` in iap.cpp:95, 181, 195, 205), so calling them inside a section protected by `noInterrupts()` ends the protection. `iapFlashSize` counts in steps of two sectors: an odd number of sectors would be rounded up.
* C110: `OneWireReset` returns early on a shorted line and leaves the pin's interrupt disabled (`C110_shorted_refuted`). With ONEWIRE_INTERNAL_PULLUP (the default, "instead of regular 4.7KOhms") `OneWireWrite` ends with `pinMode(INPUT)`,
  which switches the pull-up off: without a resistor nothing holds the line high between the bytes (`C110_no_resistor_refuted`; the model takes a floating line as disturbing the devices). Only the interrupt of the pin itself is disabled, so any other
  interrupt routine of some 20 us falsifies a slot (`C110_interrupted_refuted`).
* C112: a display of 249 to 255 rows makes the picture loop endless, as the first row of the page is an 8 bit number (`C112_height_refuted`); no display of /repo has so many.
* C113: `u8g_DrawBox` with height 0 fills its columns over all rows (`C113_box0_refuted`); `u8g_DrawXBM` with more than 248 columns computes 0 bytes a row in 8 bits and so shows the first row everywhere (`C113_xbm_refuted`).
* C114: `u8g_DrawLine` to column (steep: row) 255 never ends, as its counter goes from 255 to 0 (`C114_endless_refuted`); from (0,0) to (130,1) it ends in row 33 (`C114_long_refuted`).
* C115: from radius 77 on the 8 bit numbers of `u8g_draw_circle` overflow (`C115_radius_refuted`); `u8g_DrawRFrame` and `u8g_DrawRBox` with sizes smaller than their corners draw over the whole width or height (`C115_rframe_refuted`, `C115_rbox_refuted`).
* C116: calling `u8g_SetRot90` after `u8g_SetRot90` and `u8g_SetScale2x2` (or the other way round) makes `u8g_dev_rot` and `u8g_dev_scale` point at each other, the call never returns (`C116_calls`); doubled X bitmaps are shifted by one column (`C116_left_refuted`), columns from 128 on come back on the left (`C116_wrap_refuted`), odd widths lose shapes (`C116_odd_refuted`).
* C118: the bootloader updater drops the statuses of erasing and programming and resets the device anyway: a boot ROM that is busy once leaves it without a bootloader. After the first sector the boot ROM accepts a bootloader whose rest is missing. An empty image erases sector 0.
* C119: `setMTreg` checks the acknowledge of the last of its three bytes only; before `configure` it switches the sensor off; it restarts the measurement without noting the time, so `measurementReady` may be true at once. If arbitration is lost in the data byte, the repeated transfer becomes a reading into a null pointer (`configure`, `setMTreg`).
* C120: `readStatus`, `readErrorID` and `getBaseline` return uninitialised memory if the sensor does not answer, so `begin` may return true for a sensor without application; `begin` does not look at the answer to the mode. `compensate` truncates instead of rounding (`(int) t + 0.5f`), and temperatures of -26 degrees and below wrap (-30 becomes 98).
* C121: `GetTemperature` converts a negative temperature to `uint16_t` (undefined below 0 degrees); `readHumidity` does the same in dry air. `readTemperatureF` is 0.24 degrees too low (the offset is that of degrees Celsius). `getStatusRegister` cannot succeed: it waits for the line to be high and then low without a clock between. After a late measurement `softReset` fails, as the sensor holds the line.
* C122: `LcdGraphicalEADOGS::begin` still contains test code (graphical_eadogs.cpp:127-136): the first row shows a pattern and the next character goes to the right edge. `println` sends nothing, as the font has neither CR nor LF: the next text stands in the same row.
* C123: a slave never uses the last byte of its receive buffer (`rxSz > 1` instead of `> 0`, i2c.cpp:381-396): it is refused and lost. I2C_EVENT_SLAVE_TX is told when a byte is loaded, before it is sent. A slave without data to send sends the byte behind its buffer. A bus error (status 0x00) is taken for one of the master (`< 0x60`, i2c.cpp:235-238), whose structure is NULL; so is a general call if bit 0 of an address is set and I2C_SLAVE_GENERAL was not set up.
* C124: a telegram of the user message service without a command byte gets a computed length of 2^32 - 1 (`telLength - offset - 1` unsigned, bcu_updater.cpp:62); the table of commands happens to refuse it. The bootloader answers every A_IndividualAddress_Read broadcast (bcu_updater.cpp:96-103), not only in programming mode.
* C125: `print(float)` loses the sign of every number between -1 and 0 (-0.5 is printed as 0.50): the sign is printed by `print(int)` of the whole part, print.cpp:70-72 (`C125_sign_refuted`). From 2^31 on (and for -2^31) the behaviour is undefined. With seven places the last digit may be wrong by more than two.
* C126: the humidity of an SHT4x ranges from -6 to 119 percent (the driver does not clip it as the data sheet advises); handed to `SGP4xClass::measureRawSignal` a value below 0 or above 100 makes the conversion to `uint16_t` undefined, SGP4x.cpp:161 (`C126_sgp_refuted`). The hundredths of degrees an SHT1x keeps are truncated after rounding errors: 0.30 degrees become 0.29 (`C126_sht1_refuted`).
* C127: `SGP4xClass::init(0)` is accepted and the gas index then stays 0 for ever, since the time of the blackout never advances, SGP4x.cpp:87-99, sensirion_gas_index_algorithm.cpp:195-196 (`C127_interval_refuted`).
* C128: the fractional divider is set for 460800 and 576000 only and never set back, so a port used at 460800 and then at 115200 runs at 88757 baud, serial.cpp:74-84 (`C128_again_refuted`); 921600 gives 1000000 (`C128_fast_refuted`). `end()` and the pin setters switch the clock of the UART off while up to two bytes are still in it, since `flush()` waits for the buffer only; they never get out, serial.cpp:108-114, 159-172 (`C128_end_refuted`).
* C129: `MemMapper::operator[]` returns a reference, but always into the flash (or NULL, for an unmapped address), so assigning through it faults, mem_mapper.cpp:283-315 (`C129_store_refuted`); a pointer got earlier shows the old byte after a write until the next `doFlash`, and one got without `forceFlash` shows a byte of another page once that page is written (`C129_stale_refuted`); a byte stored through a pointer into the write buffer is not written by `doFlash` (`C129_buffer_refuted`).
* C130: `checkApplication` accepts any range with a matching checksum, also one not at a word boundary or nearer than 192 bytes to the end of the flash; starting it is a hard fault, boot_descriptor_block.cpp:74-99, bootloader.cpp:196-213 (`C130_placed_refuted`).
* C131: the width of a text is a byte: 32 characters of 8 columns have the width 0, u8g_font.c:1194-1217 (`C131_width_refuted`); a font of 128 rows or more is not centered, the difference overflows int8_t, u8g_font.c:1075-1084 (`C131_center_refuted`).
* C133: `u8g_DrawEllipse` with both radii 0 never returns, u8g_ellipse.c:176-189 (`C133_endless_refuted`); with both radii 26 nothing is drawn, 2*26*26*26 is negative as int16_t (`C133_radius_refuted`); narrow ellipses have gaps, with the radii 8 and 1 column 6 stays empty even in the filled one (`C133_gap_refuted`).
* C134: `getUInt16` of the address before the first byte reads the array at 0xffffffff, as address + 1 wraps to 0 and passes the check, userEeprom.cpp:143, userRam.cpp:134 (`C134_word_before_refuted`).
* C135: `u8g_u8toa` with more than 3 digits (`u8g_u16toa`: 5) returns a pointer far behind its array, u8g_u8toa.c:65-66 (`C135_digits_refuted`); all calls share one array, so an earlier text changes with the next call (`C135_shared_refuted`).
* C136: `u8g_EnableCursor` without `u8g_SetCursorFont` makes the next `u8g_NextPage` read a font at address 0, u8g_ll_api.c:160 (`C136_no_font_refuted`).
* C137: `u8g_NextPage` of a virtual screen after the last page uses a list entry that was never filled as a display, u8g_virtual_screen.c:75-76 (`C137_after_end_refuted`); a display that goes beyond column 255 has an empty page box (`C137_outside_refuted`).
* C139: with a width that is not a multiple of 8 the last columns of a row are the first ones of the next row, u8g_pb8h1.c:197-201 (`C139_width_refuted`).
