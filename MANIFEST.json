{"claims": [
 {"property": "C01", "status": "proved", "theorems": ["C01_executed_in_order", "C01_client_exactly_once", "C01_only_in_connection"], "note": ""},
 {"property": "C02", "status": "proved", "theorems": ["C02_stranger", "C02_not_for_us"], "note": ""},
 {"property": "C03", "status": "proved", "theorems": ["C03_acknowledge", "C03_closed_silent", "C03_ack_only_executed_refuted"], "note": "The accepted number-just-before right after connect is 15: see the refuted variant."},
 {"property": "C04", "status": "proved", "theorems": ["C04_at_most_four_identical", "C04_retransmit_or_close", "C04_gives_up"], "note": ""},
 {"property": "C05", "status": "proved", "theorems": ["C05_numbered_one_at_a_time", "C05_only_T_ACK_acknowledges_refuted"], "note": "An acknowledge is what the code accepts as one; unassigned control values also count, see the refuted variant."},
 {"property": "C06", "status": "proved", "theorems": ["C06_timeout", "C06_not_earlier", "C06_busy"], "note": ""},
 {"property": "C07", "status": "partial", "theorems": ["C07_no_response_lost_partial", "C07_no_response_lost_refuted"], "note": "False in general (third request while two responses are outstanding); proved when at most two are outstanding."},
 {"property": "C08", "status": "proved", "theorems": ["C08_opens_fresh", "C08_no_leak"], "note": ""},
 {"property": "C09", "status": "proved", "theorems": ["C09_bounded_retries", "C09_retries_at_once", "C09_wait_ends"], "note": ""},
 {"property": "C10", "status": "partial", "theorems": ["C10_priority", "C10_repeated", "C10_frame_type", "C10_sender", "C10_destination", "C10_init", "C10_sequence_number_partial", "C10_sequence_number_refuted"], "note": "sequence number of byte 0xFF is refuted"},
 {"property": "C100", "status": "partial", "theorems": ["C100_match", "C100_capture", "C100_counter_partial", "C100_counter_clear_refuted", "C100_power", "C100_run"], "note": "match and capture modes, power, run control proved; counterMode: counting side and one of the clearing modes; the other three refuted"},
 {"property": "C101", "status": "partial", "theorems": ["C101_pulse_partial", "C101_sound", "C101_timeout_refuted", "C101_long_refuted"], "note": "lengths below 2^32 cycles and time limits below 2^32 cycles; refuted: unit of the time limit, longer pulses"},
 {"property": "C102", "status": "partial", "theorems": ["C102_distance", "C102_temperature", "C102_humidity", "C102_temperature_read", "C102_humidity_read", "C102_setup", "C102_retry_refuted", "C102_measurement", "C102_serial", "C102_measurement_read_partial", "C102_ends", "C102_overflow_refuted", "C102_refused_refuted"], "note": "float conversions of SHT4x and dew points not modelled; completeness of SHT4x only while the clock does not overflow (refuted otherwise)"},
 {"property": "C103", "status": "proved", "theorems": ["C103_raw", "C103_raw_outcome", "C103_selftest", "C103_serial", "C103_features", "C103_heater", "C103_init"], "note": ""},
 {"property": "C104", "status": "partial", "theorems": ["C104_write_byte", "C104_read_byte", "C104_write_bit", "C104_read_bit", "C104_reset", "C104_select", "C104_config", "C104_active_pullup", "C104_timeout", "C104_device_reset_refuted", "C104_absent_refuted"], "note": "Holds for every 1-Wire line behind a bridge that is alone on the I2C bus; the bridge is modelled after its data sheet. Not true as stated: deviceReset, a bridge that does not answer."},
 {"property": "C105", "status": "partial", "theorems": ["C105_search_partial", "C105_search_all", "C105_search_empty", "C105_even_missed_refuted"], "note": "All devices are found if their codes agree in the lowest bit; otherwise only those with odd family code (refuted in general)."},
 {"property": "C106", "status": "partial", "theorems": ["C106_pin_mode_partial", "C106_pin_mode_fatal", "C106_routing_refuted", "C106_write_read", "C106_open_drain", "C106_read_input", "C106_direction", "C106_interrupt", "C106_interrupt_switch", "C106_port_mode_partial", "C106_port_mode_refuted", "C106_port_mask_refuted"], "note": "pinMode: routing of SSEL1 at PIO2_0, DSR, DCD, RI missing (refuted); portMode: only pins whose function 0 is PIO and that have no A/D bit (refuted for the other ten)"},
 {"property": "C107", "status": "proved", "theorems": ["C107_read", "C107_readings", "C107_off", "C107_begin", "C107_end"], "note": ""},
 {"property": "C108", "status": "partial", "theorems": ["C108_transfer", "C108_transfer_off", "C108_block_partial", "C108_block_returns_partial", "C108_overrun_refuted", "C108_port1_refuted", "C108_port1_words_refuted", "C108_background_partial", "C108_background_short_refuted", "C108_clock", "C108_data_size", "C108_begin_end", "C108_construct", "C108_construct_chip", "C108_format_refuted", "C108_continue_refuted"], "note": "transfer() and the settings are proved in full; block transfers are proved for port 0 (what they do when they return, and that they return for at most 8 words or a fast enough processor); background transfers for more than 8 words; the rest is refuted"},
 {"property": "C109", "status": "partial", "theorems": ["C109_program", "C109_program_succeeds", "C109_erase_sectors", "C109_erase_sector", "C109_erase_pages_partial", "C109_erase_page_partial", "C109_erase_page_worn_refuted", "C109_interrupts_refuted", "C109_flash_size", "C109_addresses", "C109_addresses_back", "C109_ids"], "note": "Programming and sector erase proved in full; page erase: success means erased only without worn cells (refuted otherwise); the interrupt state is not restored (refuted)"},
 {"property": "C11", "status": "proved", "theorems": ["C11_C15_histories", "C11_frame_on_wire", "C11_every_byte"], "note": "All legal histories of the interrupt handler and the interface, any limits, any junk in uninitialised members."},
 {"property": "C110", "status": "partial", "theorems": ["C110_write_bit", "C110_read_bit", "C110_interrupted_refuted", "C110_reset", "C110_reset_recovers", "C110_shorted_partial", "C110_shorted_refuted", "C110_write_partial", "C110_no_resistor_refuted", "C110_write_bytes_partial", "C110_select_partial", "C110_skip_partial", "C110_read", "C110_read_bytes", "C110_depower_partial", "C110_search_partial", "C110_search_complete_partial", "C110_target_search_partial"], "note": "all of it with a resistor at the line (or parasite power) and no other interrupt; false of the code: shorted reset leaves the pin interrupt off, internal pull-up alone, interrupts during slots"},
 {"property": "C111", "status": "partial", "theorems": ["C111_start_partial", "C111_read_partial", "C111_search_partial", "C111_measure_partial"], "note": "with a resistor at the line, no other interrupts (C110), only sensors on the bus and no wrap of the time (C97, refuted there)"},
 {"property": "C112", "status": "proved", "theorems": ["C112_picture", "C112_dot", "C112_message", "C112_height_refuted"], "note": "Displays of up to 128 rows (the page number has four bits in the driver modelled)."},
 {"property": "C113", "status": "partial", "theorems": ["C113_clipping", "C113_hline", "C113_vline", "C113_box_partial", "C113_frame_partial", "C113_bitmap_partial", "C113_xbm_partial", "C113_box0_refuted", "C113_xbm_refuted"], "note": "box and frame of height 0 refuted; bitmap rows of more than 31 bytes not covered"},
 {"property": "C114", "status": "partial", "theorems": ["C114_line_partial", "C114_display_partial", "C114_ends", "C114_one_per_column", "C114_one_per_row", "C114_endless_refuted", "C114_long_refuted"], "note": "lines to column or row 255 and long lines refuted; the rest for all lines"},
 {"property": "C115", "status": "partial", "theorems": ["C115_circle_partial", "C115_disc_partial", "C115_rframe_partial", "C115_rbox_partial", "C115_arc", "C115_disc_solid", "C115_radius_refuted", "C115_rframe_refuted", "C115_rbox_refuted"], "note": "radius above 76 and too small rounded frames and boxes refuted"},
 {"property": "C116", "status": "partial", "theorems": ["C116_calls", "C116_size", "C116_seen", "C116_picture_partial", "C116_left_refuted", "C116_wrap_refuted", "C116_odd_refuted"], "note": "doubled left-going rows, columns from 128 on and doubled odd sizes refuted; the rest for all pictures"},
 {"property": "C117", "status": "partial", "theorems": ["C117_painted_partial", "C117_unique"], "note": "doubled pictures and the shapes that C113 to C115 refute are not covered"},
 {"property": "C118", "status": "partial", "theorems": ["C118_installed_partial", "C118_confined", "C118_power", "C118_power_refuted", "C118_failure_refuted", "C118_empty_refuted"], "note": "installing refuted when the boot ROM fails once (statuses dropped), for a power failure in the first pass or later passes, and for an empty image"},
 {"property": "C119", "status": "partial", "theorems": ["C119_configure", "C119_mtreg_partial", "C119_mtreg_refuted", "C119_mtreg_unconfigured_refuted", "C119_begin", "C119_level", "C119_level_unconfigured", "C119_history", "C119_ready", "C119_ready_refuted", "C119_lost_refuted"], "note": "setMTreg refuted when a byte is not acknowledged or before configure; measurementReady refuted after setMTreg; lost arbitration refuted (null pointer); float rounding not modelled"},
 {"property": "C12", "status": "partial", "theorems": ["C12_only_valid_partial", "C12_single_byte", "C12_accepts", "C12_length_refuted", "C12_long_refuted"], "note": "Parity, checksum, control byte pattern and minimum length proved for all histories, and every single-byte error in a frame of at most 23 bytes is rejected; valid frames are delivered and acknowledged with 0xCC. Refuted: the length field is not compared with the number of bytes; of frames longer than 23 bytes the rest is not checked."},
 {"property": "C120", "status": "partial", "theorems": ["C120_quiet", "C120_reads", "C120_data", "C120_begin_partial", "C120_begin_refuted", "C120_begin_status_refuted", "C120_baseline_partial", "C120_baseline_refuted", "C120_mode", "C120_compensate_partial", "C120_nearest_refuted", "C120_cold_refuted"], "note": "Whole functions over the I2C layer of C98 with an explicit sensor. Refuted: begin true without mode set or without application, baseline of a silent sensor, rounding, temperatures from -26 down."},
 {"property": "C121", "status": "partial", "theorems": ["C121_construct", "C121_temperature", "C121_absent", "C121_GetTemperature_partial", "C121_GetTemperature_refuted", "C121_fahrenheit_refuted", "C121_humidity_partial", "C121_humidity_refuted", "C121_set", "C121_status_refuted", "C121_late_refuted"], "note": "Bit-level: pins, lines and sensor automaton. Refuted: GetTemperature below zero, humidity in dry air, Fahrenheit offset, reading the status register, reset after a late result. GetDewPoint (logf) not modelled."},
 {"property": "C122", "status": "partial", "theorems": ["C122_pos", "C122_text", "C122_write", "C122_unknown", "C122_font", "C122_clear", "C122_inverse", "C122_begin_partial", "C122_begin_bytes", "C122_begin_refuted", "C122_println_refuted", "C122_early"], "note": "begin leaves a test pattern in the first row and the place behind it, and println does nothing (both refuted); the rest proved"},
 {"property": "C123", "status": "partial", "theorems": ["C123_setup", "C123_write_partial", "C123_read", "C123_write_read", "C123_foreign", "C123_safe_partial", "C123_full_refuted", "C123_sent_refuted", "C123_empty_refuted", "C123_buserr_refuted", "C123_general_refuted"], "note": "rxBuff takes only rxSz-1 bytes (refuted), TX event before the byte is sent (refuted), empty txBuff, bus errors and an unprepared general call access memory they must not (refuted); everything else proved for all sequences of actions"},
 {"property": "C124", "status": "proved", "theorems": ["C124_command", "C124_short", "C124_others", "C124_identity"], "note": "Replies of the commands themselves are those of Boot_Model (C33-C37)."},
 {"property": "C125", "status": "partial", "theorems": ["C125_print_partial", "C125_exact", "C125_whole", "C125_lines", "C125_sign_refuted", "C125_large_refuted", "C125_seven_refuted"], "note": "All floats between -2^31 and 2^31; the sign of numbers between -1 and 0 and seven exact places are refuted."},
 {"property": "C126", "status": "partial", "theorems": ["C126_sht4_celsius", "C126_sht4_humidity", "C126_sgp_humidity_partial", "C126_sgp_temperature_partial", "C126_chain", "C126_sgp_refuted", "C126_light", "C126_sht1_partial", "C126_sht1_refuted", "C126_scales"], "note": "All ranges documented; humidities outside 0..100 for the SGP4x and exact hundredths of the SHT1x are refuted."},
 {"property": "C127", "status": "partial", "theorems": ["C127_init", "C127_range_partial", "C127_fails_only_there", "C127_clipped", "C127_errors", "C127_reset", "C127_states", "C127_states_used", "C127_no_reading", "C127_interval_refuted"], "note": "that mean and deviation stay finite for all time is not proved (C127_range_partial speaks about runs in which they do); interval 0 refuted; the rest proved"},
 {"property": "C128", "status": "partial", "theorems": ["C128_rate_partial", "C128_fractional", "C128_usual", "C128_again_refuted", "C128_fast_refuted", "C128_format", "C128_8N1", "C128_sent", "C128_end_partial", "C128_end_refuted", "C128_i2c"], "note": "rates right only while the fractional divider is as after a reset (C128_again_refuted), end() loses the last bytes (C128_end_refuted)"},
 {"property": "C129", "status": "partial", "theorems": ["C129_pointer", "C129_index", "C129_getUInt8", "C129_lasting_partial", "C129_stale_refuted", "C129_store_refuted", "C129_buffer_refuted"], "note": "pointers hold only after a doFlash (C129_stale_refuted), stores through them fault or are lost (C129_store_refuted, C129_buffer_refuted)"},
 {"property": "C13", "status": "partial", "theorems": ["C13_repetition", "C13_no_duplicate", "C12_accepts", "C13_malformed_refuted"], "note": "Repetitions are acknowledged and never delivered; any other frame is delivered if it and the last one are as long as their length field says (C12_accepts). Refuted without that: a valid shorter frame is swallowed as a repetition."},
 {"property": "C130", "status": "partial", "theorems": ["C130_start", "C130_life", "C130_no_fault", "C130_placed_refuted"], "note": "applications placed where their vector table can be read; others fault at start (C130_placed_refuted)"},
 {"property": "C131", "status": "partial", "theorems": ["C131_glyph", "C131_text", "C131_shown", "C131_pixel_width", "C131_position_partial", "C131_center_refuted", "C131_lines", "C131_width_refuted"], "note": "Vertical centring for at most 127 rows, refuted beyond; widths modulo 256, refuted as plain numbers."},
 {"property": "C132", "status": "proved", "theorems": ["C132_turned", "C132_shown"], "note": ""},
 {"property": "C133", "status": "partial", "theorems": ["C133_ellipse_partial", "C133_filled_partial", "C133_arc", "C133_endless_refuted", "C133_gap_refuted", "C133_radius_refuted"], "note": "all radii that fit; radii 0 never return, larger ones overflow, narrow ones have gaps: refuted"},
 {"property": "C134", "status": "partial", "theorems": ["C134_byte", "C134_word_partial", "C134_word_before_refuted", "C134_range", "C134_store", "C134_eeprom", "C134_ram", "C134_move"], "note": "all but words at the address before the first: refuted"},
 {"property": "C135", "status": "partial", "theorems": ["C135_u8_partial", "C135_u16_partial", "C135_whole", "C135_array8", "C135_array16", "C135_digits_refuted", "C135_shared_refuted"], "note": "all numbers of digits that the type has; more: refuted"},
 {"property": "C136", "status": "partial", "theorems": ["C136_page", "C136_shown", "C136_off", "C136_set", "C136_default", "C136_no_font_refuted"], "note": "proved for a cursor with a font; refuted for one enabled without font; the glyph cache fields are not among those shown to be kept"},
 {"property": "C137", "status": "partial", "theorems": ["C137_shown", "C137_add", "C137_size", "C137_empty", "C137_after_end_refuted", "C137_outside_refuted"], "note": "proved for one to four displays that lie in 256 by 256 dots, and for the loop up to its end; refuted for a call after the end and for displays beyond column 255"},
 {"property": "C138", "status": "proved", "theorems": ["C138_page", "C138_draw", "C138_first", "C138_next"], "note": "displays of up to 252 rows"},
 {"property": "C139", "status": "partial", "theorems": ["C139_page_partial", "C139_draw_partial", "C139_behind", "C139_width_refuted"], "note": "dots proved for widths that are multiples of 8 and refuted for others; memory behind the buffer for all widths"},
 {"property": "C14", "status": "proved", "theorems": ["C14_buffer_kept", "C14_no_overwrite"], "note": ""},
 {"property": "C140", "status": "proved", "theorems": ["C140_page", "C140_draw", "C140_first", "C140_next"], "note": "displays of up to 240 rows"},
 {"property": "C15", "status": "proved", "theorems": ["C15_transmissions", "C15_report", "C15_acknowledged", "C15_one_report", "C15_finishes"], "note": "Complete transmissions at most max(1, N+B), begun ones at most 4 more (collisions); at most one report per telegram in any history, and on a silent bus it always comes."},
 {"property": "C16", "status": "proved", "theorems": ["C16_add_flags", "C16_set_flags"], "note": "Flag values 0..15; tables and flags inside the user memory."},
 {"property": "C17", "status": "proved", "theorems": ["C17_each_update_reported_once"], "note": ""},
 {"property": "C18", "status": "proved", "theorems": ["C18_group_write"], "note": "BCU1 and BCU2 tables; addresses for which the lookup is exact (C22)."},
 {"property": "C19", "status": "proved", "theorems": ["C19_store_and_read", "C19_store_bytes"], "note": "objectWrite also replaces all flags of the object, so a pending update mark is lost."},
 {"property": "C20", "status": "proved", "theorems": ["C20_one_opportunity", "C20_no_starvation"], "note": "Objects with a sending address other than 0/0/0; association entries inside the address table."},
 {"property": "C21", "status": "proved", "theorems": ["C21_value_received", "C21_unbounded_short_values_refuted"], "note": "Short objects must hold values below 64; the refuted companion shows that larger ones corrupt the command."},
 {"property": "C22", "status": "partial", "theorems": ["C22_lookup_partial", "C22_lookup_one_past", "C22_lookup_refuted", "C22_lookup_systemb"], "note": "BCU1/BCU2: exact unless the two bytes behind the table equal the address (C22_lookup_refuted); SystemB: exact."},
 {"property": "C23", "status": "partial", "theorems": ["C23_rate_limit_partial", "C23_first_telegram", "C23_responses_limited_refuted", "C23_no_longer_than_needed", "C23_long_pause_refuted"], "note": "Telegrams the device sends on its own: proved for every history, even without a bound on loop times; responses to read requests are not limited (refuted). Companion: not delayed longer than needed if the loop runs every second."},
 {"property": "C24", "status": "partial", "theorems": ["C24_like_an_array_partial", "C24_write_read_back", "C24_auto_map_read_back", "C24_status_alias_refuted", "C24_auto_map_hides_ram_refuted"], "note": "Any history of read/write requests up to 12 bytes behaves like a partial array (without autoAddPage mapper); read back for auto mapper too. Refuted as stated: status byte alias at RAM+0x60 on masks with RAM not at 0; autoAddPage mapper hides RAM/EEPROM."},
 {"property": "C25", "status": "partial", "theorems": ["C25_inside_buffers_partial", "C25_long_counts_refuted"], "note": "Holds for counts up to 13; counts 14 and 15 leave the 23-byte buffers (refuted)."},
 {"property": "C26", "status": "proved", "theorems": ["C26_content_survives", "C26_save_restart"], "note": "all histories of stores, marks, saves and restarts; programmed and erased flash as modelled (hardware does not fail)"},
 {"property": "C27", "status": "partial", "theorems": ["C27_power_loss_partial", "C27_erasing_save_refuted", "C27_one_page_always_erases"], "note": "holds for saves that need not erase the sector (flash programmed in address order); refuted for saves that erase it, which with the one-page layouts are all saves"},
 {"property": "C28", "status": "proved", "theorems": ["C28_programs_erased_only", "C28_after_power_loss_refuted"], "note": "crash-free operation as stated; C28_after_power_loss_refuted shows that it does not extend beyond a power loss"},
 {"property": "C29", "status": "partial", "theorems": ["C29_like_an_array_partial", "C29_pages_never_shared", "C29_pending_write_refuted"], "note": "no sharing of flash pages holds for all histories; array behaviour for histories where addRange and restart happen with no write pending and no restart follows an addRange that ran out of memory; refuted otherwise"},
 {"property": "C30", "status": "partial", "theorems": ["C30_restart_reads_the_same", "C30_failed_addRange_refuted"], "note": "for orderly histories; refuted after an addRange that ran out of memory"},
 {"property": "C31", "status": "partial", "theorems": ["C31_unmapped_write_partial", "C31_unmapped_write_refuted"], "note": "nothing readable changes; but an unmapped write is reported as success and the next doFlash overwrites flash page 0 (refuted)"},
 {"property": "C32", "status": "proved", "theorems": ["C32_only_by_order", "C32_history", "C32_exactly", "C32_power_up"], "note": "BCU1 and BCU2 devices with the whole transport layer, memory and property requests, button, restart and power-up. A broadcast is any telegram with destination address 0; the code looks at neither the group flag nor the length. Persistence over power loss: C32_power_up, when no connection or transmission puts off the save"},
 {"property": "C33", "status": "proved", "theorems": ["C33_switch", "C33_button", "C33_step", "C33_parity_history", "C33_power_up"], "note": "setProgrammingMode, the button and every other operation of the device; memory writes to address 0x60 may store any byte, the parity claim over histories assumes these are even"},
 {"property": "C34", "status": "partial", "theorems": ["C34_load_event_partial", "C34_load_states_partial", "C34_running", "C34_no_operation_refuted"], "note": "Event 'no operation' leads to the error state instead of keeping the state (refuted); everything else proved for every history of property requests."},
 {"property": "C35", "status": "partial", "theorems": ["C35_never_exceeds", "C35_value_read_partial", "C35_bcu2_values", "C35_reversed_elements_refuted", "C35_start_refuted"], "note": "Content proved for elements inside the property, start below 256; numeric arrays read with count >= 2 come in reversed element order and the start index is computed with a wrong shift (refuted). Never leaving the response telegram is proved."},
 {"property": "C36", "status": "partial", "theorems": ["C36_bootloader_untouched_partial", "C36_bootloader_untouched_without_difference_data"], "note": "Proved for every history in which the decompressor stays in its buffers (in particular every history without difference data); missing: histories in which the unchecked decompressor has already run out of bounds (C43)."},
 {"property": "C37", "status": "proved", "theorems": ["C37_locked_device_unchanged", "C37_unlock_accepted", "C37_unlock_key_is_secret_refuted"], "note": "Also: the key itself is readable on a locked device (refuted theorem)."},
 {"property": "C38", "status": "proved", "theorems": ["C38_erase_range", "C38_other_ranges_refused", "C38_full_erase", "C38_inverted_ranges_refused_refuted"], "note": "Ranges with end < start are accepted by the code (refuted theorem); outside the claim."},
 {"property": "C39", "status": "proved", "theorems": ["C39_startup", "C39_damaged_application_not_started", "C39_descriptor_update"], "note": "For every flash content, hence at every crash point."},
 {"property": "C40", "status": "proved", "theorems": ["C40_program_writes_downloaded_bytes", "C40_downloaded_bytes_unique", "C40_program_succeeds", "C40_program_frame", "C40_send_data"], "note": ""},
 {"property": "C41", "status": "proved", "theorems": ["C41_crc32_is_remainder", "C41_crc32_detects_bursts", "C41_crc32_incremental"], "note": "crc32 of the bootloader equals the CRC-32 remainder by long division for every message and start value; burst detection; incremental use"},
 {"property": "C42", "status": "proved", "theorems": ["C42_difference_download"], "note": "Devices up to 64 KiB flash (page numbers are truncated to 8 bits in the code)."},
 {"property": "C43", "status": "partial", "theorems": ["C43_decompressor_stays_in_bounds_refuted", "C43_well_formed_streams_stay_in_bounds_partial"], "note": "The claim is false of the code (witness); proved for well-formed streams."},
 {"property": "C44", "status": "partial", "theorems": ["C44_dump_decodes_partial", "C44_data_records", "C44_dump_to_64K_refuted"], "note": "Whole file for dumps that end below 64K; data records also up to 64K; refuted for dumps that reach 64K (malformed last record)."},
 {"property": "C45", "status": "proved", "theorems": ["C45_timeout_is_exact", "C45_late_query_refuted"], "note": "All schedules that query within 2^31 ms; the refuted companion shows that this bound is needed."},
 {"property": "C46", "status": "proved", "theorems": ["C46_change_only_after_stable_time", "C46_stable_level_reported", "C46_every_stable_level_reported_refuted", "C46_level_at_counter_zero_reported_refuted"], "note": "The statement (safety) for all sample sequences with times not after the last sample. Companions: a level that stays is reported, except in the two situations of the refuted theorems."},
 {"property": "C47", "status": "partial", "theorems": ["C47_reception_fifo_partial", "C47_available_and_peek", "C47_reception_fifo_refuted"], "note": "Proved for all interleavings in which no interrupt falls between the increment and the masking of readHead at 128; refuted otherwise (127 waiting bytes are lost)."},
 {"property": "C48", "status": "partial", "theorems": ["C48_print_unsigned", "C48_print_signed_partial", "C48_text_unique", "C48_every_int_refuted", "C48_every_width_refuted"], "note": "Proved for unsigned numbers with width up to 33 and for ints other than the smallest; refuted for INT_MIN (overflow) and for widths above 33 (buffer overrun)."},
 {"property": "C49", "status": "partial", "theorems": ["C49_parse_printed_partial", "C49_parse_with_separators", "C49_every_int_refuted"], "note": "Value right for every int but INT_MIN (which cannot be printed); free of signed overflow below 2^31 - 48, refuted above."},
 {"property": "C50", "status": "partial", "theorems": ["C50_find_sound", "C50_find_complete_partial", "C50_find_complete_refuted"], "note": "Soundness proved; completeness proved if the first byte of the target does not occur before it, refuted in general."},
 {"property": "C51", "status": "proved", "theorems": ["C51_decode", "C51_encode_rounds_down", "C51_reencode", "C51_monotone", "C51_out_of_range", "C51_documented_maximum_refuted", "C51_invalid_marker_refuted"], "note": "For all values that have a representation; the two refuted companions concern the documented maximum and the documented invalid marker."},
 {"property": "C52", "status": "proved", "theorems": ["C52_search_complete", "C52_search_empty", "C52_family_zero_refuted"], "note": "Codes with family byte 0 excluded; C52_family_zero_refuted shows the search never ends with such a code."},
 {"property": "C53", "status": "proved", "theorems": ["C53_crc8_is_remainder", "C53_crc8_check", "C53_crc8_detects_bursts", "C53_crc16_is_remainder", "C53_crc16_detects_bursts", "C53_check_crc16"], "note": "CRC-8 and CRC-16 by long division, burst detection, check functions"},
 {"property": "C54", "status": "proved", "theorems": ["C54_time_round_trip", "C54_time_accepted", "C54_calendar_round_trip", "C54_calendar_accepted"], "note": "Assumes the clock does not tick between writing and reading. In 24-hour mode the am_pm field is meaningless on read (C54_example_am_pm)."},
 {"property": "C55", "status": "proved", "theorems": ["C55_shift_out", "C55_shift_in", "C55_shift_round_trip"], "note": ""},
 {"property": "C56", "status": "proved", "theorems": ["C56_reverse_copy", "C56_reverse_twice", "C56_reverse_in_place_refuted"], "note": "For buffers that do not overlap; in place it is not a reversal (refuted companion)."},
 {"property": "C57", "status": "proved", "theorems": ["C57_ds2482_table", "C57_sensirion_is_remainder", "C57_sensirion_detects_bursts", "C57_systemb_is_remainder", "C57_systemb_detects_bursts"], "note": ""},
 {"property": "C58", "status": "proved", "theorems": ["C58_hash_of_16_bytes", "C58_hash_is_deterministic_refuted"], "note": "16-byte UIDs, the only size the library uses; for shorter ones the claim is refuted."},
 {"property": "C59", "status": "proved", "theorems": ["C59_index_of_first"], "note": ""},
 {"property": "C60", "status": "proved", "theorems": ["C60_read_bytes_until"], "note": ""},
 {"property": "C61", "status": "proved", "theorems": ["C61_transmission_fifo", "C61_transmission_progress"], "note": "Executions as for C47 (the restriction concerns the receive side only)."},
 {"property": "C62", "status": "proved", "theorems": ["C62_target_search"], "note": ""},
 {"property": "C63", "status": "partial", "theorems": ["C63_alarm_round_trip_partial", "C63_alarm_accepted", "C63_stale_selector_refuted"], "note": "The caller's structure must have dy_dt cleared, otherwise a date alarm reads as a day alarm (C63_stale_selector_refuted)."},
 {"property": "C64", "status": "proved", "theorems": ["C64_reset_alarm", "C64_turn_on_never_sets_refuted", "C64_oscillator_clears_status_refuted"], "note": "Also shows that TurnOnAlarm never sets the enable bit and that EnableOscillator clears the status register."},
 {"property": "C65", "status": "partial", "theorems": ["C65_epoch_hour_partial", "C65_epoch_midnight_refuted"], "note": "False for 12:xx AM in 12-hour mode (C65_epoch_midnight_refuted)."},
 {"property": "C66", "status": "proved", "theorems": ["C66_read_answered", "C66_unknown_address_ignored", "C66_every_response_has_own_value_refuted"], "note": "Companion: later responses of write-enabled objects may carry an earlier response's value."},
 {"property": "C67", "status": "partial", "theorems": ["C67_isMapped_partial", "C67_isMappedRange_partial", "C67_isMappedRange_refuted"], "note": "Single addresses and ranges of at most 257 addresses without autoAddPage; longer ranges and autoAddPage refuted"},
 {"property": "C68", "status": "proved", "theorems": ["C68_round_trip"], "note": ""},
 {"property": "C69", "status": "partial", "theorems": ["C69_changes_are_saved_partial", "C69_load_state_refuted"], "note": "All property requests but load-control events; those change the EEPROM without marking it (refuted)."},
 {"property": "C70", "status": "partial", "theorems": ["C70_description", "C70_access", "C70_outside_refuted"], "note": "Known properties proved; unknown objects or indices are read from outside the tables (refuted)."},
 {"property": "C71", "status": "proved", "theorems": ["C71_allocations_readable"], "note": ""},
 {"property": "C72", "status": "partial", "theorems": ["C72_written_value_partial", "C72_generic_refuted", "C72_read_only_refuted"], "note": "Numeric types or single bytes, elements inside the property, start below 256. Generic types are stored reversed, a start index of 0 writes to a neighbouring read-only property (refuted)."},
 {"property": "C73", "status": "proved", "theorems": ["C73_sends", "C73_sends_synchronised", "C73_receives", "C73_single_error", "C73_frame_heard", "C73_round_trip", "C73_delivered"], "note": "the timer hardware is modelled by the comment in Bus_BitSpec (a pulse begins when the timer reaches the PWM match register); tolerance -35..+68 us"},
 {"property": "C74", "status": "proved", "theorems": ["C74_only_on_order", "C74_happens", "C74_error_restarts_refuted"], "note": "restart only on order, carried out; that an error answer prevents the restart is refuted"},
 {"property": "C75", "status": "proved", "theorems": ["C75_transport_state", "C75_transport", "C75_exactly_once"], "note": "BCU1 and BCU2 devices; group telegrams as an arbitrary effect on the memories"},
 {"property": "C76", "status": "proved", "theorems": ["C76_only_writes", "C76_written", "C76_survives", "C76_property_write_survives_refuted"], "note": "C76_property_write_survives_refuted: load state changes by property writes are lost (see C69)."},
 {"property": "C77", "status": "proved", "theorems": ["C77_answer", "C77_memory"], "note": "Whole device (BCU1/BCU2). Memory requests need pages of a memory mapper apart from EEPROM and RAM (as C24) and a count of at most 12 (C25: counts 13-15 corrupt the answer); connectionless property requests on BCU2 are not covered here (C35, C69-C72)."},
 {"property": "C78", "status": "proved", "theorems": ["C78_broadcast"], "note": "Whole device (BCU1/BCU2)."},
 {"property": "C79", "status": "proved", "theorems": ["C79_pass", "C79_tables_stay"], "note": "Node_Model composes Device_Model, ComObj_Model and Rate_Model. The three tables and the RAM values must be valid (settled); group telegrams to addresses covered by no_stray (see C20 finding)."},
 {"property": "C80", "status": "proved", "theorems": ["C80_served"], "note": "No bound on the history. Requires that no EEPROM save is pending at the start (a save rewrites one byte of the EEPROM)."},
 {"property": "C81", "status": "proved", "theorems": ["C81_distance", "C81_first", "C81_one"], "note": "No assumption on the device content; read responses are not limited (C23_responses_limited_refuted)."},
 {"property": "C82", "status": "proved", "theorems": ["C82_same_value", "C82_written", "C82_buffer", "C82_delivered"], "note": ""},
 {"property": "C83", "status": "proved", "theorems": ["C83_value_read"], "note": ""},
 {"property": "C84", "status": "partial", "theorems": ["C84_allocate", "C84_tables_disjoint_partial", "C84_fill_refuted", "C84_exhausted_refuted"], "note": "Proved without fill and absolute addresses while the room suffices; with fill the neighbouring table is overwritten (C84_fill_refuted), and an allocation beyond the free memory is accepted (C84_exhausted_refuted)"},
 {"property": "C85", "status": "partial", "theorems": ["C85_reference_partial", "C85_reference_refuted"], "note": "Proved for objects 3, 4 and 5; for the address and association table the property shows another place than the one allocation uses (C85_reference_refuted)"},
 {"property": "C86", "status": "partial", "theorems": ["C86_crc_partial", "C86_allocated_refuted", "C86_unanswered_refuted"], "note": "Proved for the memory named by the properties table reference and memory control block; refuted for the memory allocated (C86_allocated_refuted) and for events of objects without these properties, which use a null pointer (C86_unanswered_refuted)"},
 {"property": "C87", "status": "partial", "theorems": ["C87_read_partial", "C87_long_refuted", "C87_block_written"], "note": "Reads of at most ten bytes; longer ones overflow the length or the buffer (C87_long_refuted). Memory control blocks: complete"},
 {"property": "C88", "status": "partial", "theorems": ["C88_group_write_partial", "C88_values_disjoint", "C88_other_object_refuted"], "note": "proved for devices whose flags do not overlap the values; other case refuted (C88_other_object_refuted)"},
 {"property": "C89", "status": "partial", "theorems": ["C89_store_and_read_partial", "C89_other_object_refuted"], "note": "proved for devices whose flags do not overlap the values; other case refuted"},
 {"property": "C90", "status": "partial", "theorems": ["C90_read_answered_partial", "C90_unknown_address_ignored"], "note": "proved for devices whose flags do not overlap the values"},
 {"property": "C91", "status": "partial", "theorems": ["C91_never_sent_refuted", "C91_never_reported_refuted"], "note": "refuted: never sent, never reported on any device with fewer than 256 objects"},
 {"property": "C92", "status": "partial", "theorems": ["C92_winner", "C92_loser_hears_partial", "C92_loser_delivers_partial", "C92_late_refuted"], "note": "The winner is undisturbed by pulses of others from 7 us before to 34 us after its own; the loser hears and delivers the winner's frame if the deciding pulse is 7 us early to 32 us late. At 33 us, still in tolerance according to bus_const.h, the collision is counted one bit too late and the loser hears its own byte (C92_late_refuted)."},
 {"property": "C93", "status": "proved", "theorems": ["C93_unanswered", "C93_acknowledged", "C93_exchange"], "note": "Number of timer interrupts is determined by the frame; the exchange is joined at the byte level (C73 joins pulses and edges)."},
 {"property": "C94", "status": "partial", "theorems": ["C94_requests_partial", "C94_state_read_back", "C94_saved", "C94_services_agree", "C94_segment_memory_refuted", "C94_empty_write_refuted", "C94_window_end_refuted", "C94_verify_mode_refuted", "C94_property_saved_refuted"], "note": "Refinement for all request histories with counts up to 12 and no mapper with autoAddPage. Refuted: all addresses of an accepted data segment have memory; an empty write at 0x104 is ignored; the window ends after the eighth state; verify mode reports a successful load control; a load control by property is saved."},
 {"property": "C95", "status": "partial", "theorems": ["C95_answers_partial", "C95_next"], "note": "Property services of BCU2 and accesses to more than 12 bytes are excluded (C84 and C24 treat their contents); the client must not let more than two answers wait (as in C07; refuted otherwise by C07's counterexample)."},
 {"property": "C96", "status": "partial", "theorems": ["C96_reading_partial", "C96_any_signal", "C96_start_signal", "C96_pace", "C96_long_pulse_refuted", "C96_interrupt_refuted", "C96_time_refuted", "C96_edges"], "note": "Pulse counts are cut to 8 bits: pulses read more than 256 times are excluded (refuted otherwise); the interrupt of the pin stays disabled if the sensor does not answer; time differences from 2^31 ms on are undefined."},
 {"property": "C97", "status": "partial", "theorems": ["C97_search", "C97_search_sensors_partial", "C97_search_empty", "C97_search_gap_refuted", "C97_search_code_refuted", "C97_temperature", "C97_absent_sensor_refuted", "C97_wait_partial", "C97_wrap_refuted", "C97_all"], "note": "Search, temperatures, waiting and start of all conversions for all buses, scratchpads and histories (at the pin: C111). Not provable: complete list with other devices on the bus (gap refuted), documented return code (refuted), waiting time across the 32 bit wrap (refuted), rejection of a scratchpad with wrong checksum (refuted)."},
 {"property": "C98", "status": "partial", "theorems": ["C98_transfer", "C98_send_partial", "C98_read_partial", "C98_registers_read", "C98_registers_write", "C98_lost_data_refuted", "C98_lost_command_refuted", "C98_refused_byte_refuted", "C98_empty_refuted"], "note": "All transfers against every bus behaviour. Not provable: repetition after a loss of the bus within a transfer (refuted), the documented count of bytes sent (refuted), empty transfers (refuted)."},
 {"property": "C99", "status": "partial", "theorems": ["C99_microseconds_at_least", "C99_microseconds_end", "C99_microseconds_starved_refuted", "C99_interrupt_at_least", "C99_delay_at_least", "C99_delay_periods", "C99_delay_ends", "C99_delay_short_refuted", "C99_delay_no_interrupt_refuted", "C99_fatal", "C99_elapsed"], "note": "proved: never early, bounded end, elapsed; refuted: starvation by interrupts of a period, delay(1) of a full ms, detection of a missing interrupt"}
]}
