# Formal model of microsim360 in Rocq (Coq 8.16.1)

## Approach

The C code in /repo is modelled function by function as total computable Gallina functions.

* C integers are `Z`; every place where the C type matters (uint8_t/uint16_t truncation) has an explicit
  `mod`/`land`. Where signed overflow would be needed to reach a behaviour it is excluded by a stated bound.
* Undefined behaviour is a distinct outcome (`UB`), never a default value: out-of-range table or buffer index,
  use of a freed node, null dereference, `free` of a non-heap object.
* Loops of the C code that are not structurally bounded take fuel; running out of fuel is the distinct outcome
  `NoFuel`, and statements that claim termination say "for some fuel" or give the fuel explicitly.
* A property that is false of the code is kept in full, and its negation is proved as `..._refuted` with a witness;
  next to it the strongest part that does hold is proved (name suffix `_partial`).
* Layout: `X/Model.v` definitions with file:line citations, `X/Spec.v` small independent specification,
  `X/Proofs.v` lemmas, `X/Props.v` only the property theorems, their examples and `Print Assumptions`.

## Trusted base

* Coq's kernel (and the VM conversion used by `vm_compute`).
* `Print Assumptions` for each property theorem is printed by the build; see the end of this file for the list.
* The hand translation from C to Gallina. Each definition cites the lines it models; simplifications are stated there.

### What is modelled, and what is not

| component | code | left out |
|-----------|------|----------|
| Event | src/event.c, all functions | nothing; callbacks are arbitrary scripts of scheduler calls |
| Xlat | tables of src/device/xlat.c | - |
| Card | src/device/card.c: tables, reading, punching, hopper, stacker, deck files | failing malloc/fopen, log messages |
| Tape | src/device/tape.c: buffer window, SIMH/E11/P7B records, marks, rewind, attach/detach | failing system calls, log messages |
| Dasd | src/device/dasd.c: read, write, step, update, tags, seek callback, format, attach, detach, volume id | failing system calls, log messages, the 50 tick delay of a seek (the callback may come at any time) |
| Device | src/device/device.c: device lists, disk list, init and shutdown | print_tags, failing calloc |
| Conf | src/conf.c: get_model, get_addr, get_string, get_option, get_integer, get_index; load_line and load_config over any device list and create functions; model2030_create, model2050_create (src/model2030/model2030.c, src/model2050/cpu2050.c), logLEVEL/ENABLE/DISABLE_create (src/logger.c) | the walk of dev_list over the linker section, the other create functions as part of a load, opening the console port |
| Chan | the channel tags of src/device/device.h and the parity table | bits of the tag word no device looks at |
| R1442 | src/model1442/model1442.c, keys of panel1442.c | log messages, drawing, when a callback comes (it may come at any time), stk_cnt, model1442_create |
| T2415 | src/model2415/model2415.c, keys of panel2415.c | log messages, drawing, when a callback comes (it may come at any time), model2415_create and the configuration |
| M2030 | src/model2030/cpu2030.c: one microinstruction (1039-2408), selector storage cycles (760-868), traps (724-758), display and store keys (442-660) | log messages, the console, the scan of the channels (2440-2790), the other keys (256-440), the contents of the control store (any contents) |
| P1443 | src/model1443/model1443.c, keys of panel1443.c | log messages, drawing, when a callback comes (it may come at any time), other carriage tapes than the built-in one, stop/single/form flags nothing reads, the configuration |
| K1052 | src/model1052/model1052.c | log messages, threads and locks (a pass of the thread is one step that may come at any time), sockets (bytes received and sent are lists; sending never fails or blocks), addresses other than by value, the configuration |
| Disasm | src/device/disassem.c | the logger |
| D2841 | src/model2841/model2841.c: step_2841, model2841_dev, what model2841_create leaves, model2302_create | log messages, the disassembly of microinstructions, the panel, the contents of the control store (any), creation of other drives, options |

## Plan per property

| id | model | method |
|----|-------|--------|
| C01-C05 | heap of doubly linked delta nodes, callbacks as arbitrary scripts of scheduler calls, UAF = UB | representation invariant (well-formed list), refinement to absolute-deadline list |
| C06-C08 | tables of xlat.c as lists | exhaustive computation lifted to forall |
| C10-C11 | tables of card.c and the construction of the inverse tables | exhaustive computation over 256/4096 |
| C12-C15 | `_punch_card`, `_parse_card` over a buffer model, `read_deck` refill loop | per-card lemmas, induction over the deck |
| C16-C17 | card context as array + position | induction over operation histories |
| C18 | same model with UB/fuel outcome | witnesses for the failures, proof for the safe modes |
| C20-C28 | tape buffer record + file as byte list | refinement of the window to a flat file with a cursor, then induction over records |
| C30-C39 | drive record + image file, cylinder cache | invariants over operation histories, witnesses |
| C40-C42 | array of device lists | induction over lists |
| C44-C47 | scanner over a NUL terminated line | structural induction / witnesses |
| C50-C54, C58, C59 | 1442 context + bus state machine step function | case analysis over the whole transition function, induction over histories |
| C112-C116 | 1442 with a channel and callbacks (dialogues) | one rule per cycle, chained symbolically; induction over columns, texts and decks |
| C120-C129 | 2841 registers, latches, eight drives of Dasd, any control store | one lemma per part of a microinstruction, combined; relation preserved by each part of the channel call; witnesses |
| C130-C135 | a file as bytes, fgets, the line buffer, the device list, any create function | induction over lines and options; witnesses |
| C136 | 2415 control, tape as bytes, callbacks | induction over frames and blocks |
| C117-C119 | print_inst over six bytes, two bounded buffers | exhaustive computation over bytes, separation of the fields of the text |
| C55-C57 | 2415 write path and 7-track converters | arithmetic lemmas, exhaustive computation, witnesses |
| C65-C75 | 2415 control: bus state machine, callbacks, keys, six drives of the Tape model | state invariant over all histories, symbolic execution of whole commands, witnesses |
| C60-C64, C76-C86 | ALU, storage, selector and trap cycles of cycle_2030 | frame lemmas for the pieces of a cycle, exhaustive computation over bytes, induction over runs, witnesses |
| C87-C98 | 1443 context + bus state machine, print_line, keys | state invariant over all histories, symbolic execution of whole commands, witnesses |
| C99-C111 | 1052 context + bus state machine, callbacks, keyboard ring, telnet input | ring and state invariants over all histories, induction over texts and lines, whole dialogues, never-ending runs by invariants, witnesses |

Not expressible / not modelled: rendering (src/panel), thread interleavings inside a pass and sockets of the 1052 console, wall-clock timing,
the contents of the control-store ROMs beyond what is cited.

## Print Assumptions

For each of the following theorems `Print Assumptions` answers "Closed under the global context": no axiom at all.

* `Verif.Card.Props`: C10_ebcdic_card_code_invertible, C11_ascii_card_code_invertible_partial, C11_seven_characters_refuted, C12_binary_decks_round_trip, C13_text_decks_round_trip_partial, C13_control_text_refuted, C14_octal_decks_round_trip_partial, C14_only_column_one_refuted, C15_ebcdic_decks_round_trip, C16_hopper_is_a_queue, C16_hopper_is_a_queue_everywhere, C17_save_writes_the_unread_cards, C17_empty_cards_refuted, C17_empty_cards_without_file_partial, C09_stacked_cards_are_written_in_order, C18_loading_terminates_safely_partial, C18_short_binary_file_loops_refuted, C18_out_of_bounds_refuted, C19_auto_decks_round_trip_partial, C19_blank_deck_refuted
* `Verif.Conf.LoadProps`: C130_line, C130_nothing, C131_file_partial, C131_long_line_refuted, C132_errors_partial, C132_unknown_refuted, C133_own_partial, C133_letter_refuted, C133_no_letter_refuted, C134_model30_partial, C134_model50_partial, C134_second, C134_letter_refuted, C135_level, C135_comma_refuted, C47_not_a_number, C47_no_number
* `Verif.Conf.Props`: C45_options_partial, C45_long_word_refuted, C45_long_address_refuted, C45_second_minus_refuted, C45_open_quote_refuted, C45_not_ascii_refuted, C45_big_number_refuted, C46_ends_partial, C46_comma_refuted, C47_options, C47_address, C47_unit, C47_number, C47_doubled_quote_refuted, C44_index_partial, C44_no_value_refuted
* `Verif.D2841.Props`: C120_arithmetic, C121_registers, C122_next_address, C122_executions, C123_drives, C123_bytes, C123_selection, C124_bus, C125_others_partial, C125_others_refuted, C126_addressed_partial, C126_busy, C126_digit_refuted, C127_reset_partial, C127_reset_refuted, C128_service_refuted, C129_drive_refuted
* `Verif.Dasd.Props`: C30_formatted_pack_attaches_partial, C30_other_type_refuted, C31_volume_id_survives, C31_high_character_refuted, C32_data_persists_partial, C32_unread_writes_refuted, C33_only_visited_cylinders, C33_only_the_track, C34_buffer_accesses_partial, C34_head_refuted, C34_update_refuted, C35_update_finds_place_refuted, C36_track_reads_back, C37_update_in_place, C38_new_record_partial, C38_new_record_refuted, C39_any_image_partial, C39_any_image_refuted
* `Verif.Device.Props`: C40_registry_partial, C40_found_iff, C40_channels_6_and_7_refuted, C40_twice_refuted, C41_disks, C41_removed, C41_null_and_self_refuted, C42_every_device_once
* `Verif.Disasm.Props`: C117, C118_partial, C118_refuted, C119_partial, C119_refuted
* `Verif.Event.Props`: C05_contract_runs_are_defined_and_refine_partial, C01_fires_exactly_once_exactly_on_time, C01_clock_progress, C02_add_keeps_the_others, C03_zero_delay_runs_at_once, C04_cancel_next_or_absent_partial, C04_cancel_of_any_other_event_refuted, C05_use_after_free_refuted, C05_no_cancel_no_use_after_free_partial
* `Verif.K1052.Props`: C99, C100_refuted, C100_partial, C101_refuted, C101_partial, C102_refuted, C102_partial, C103, C104_refuted, C105_refuted, C105_partial, C106, C107, C108, C109_refuted, C109_partial, C110_refuted, C111_refuted, C111_partial
* `Verif.M2030.Props`: C60, C60_operands, C60_logical, C61, C62_refuted, C62_parity_refuted, C62_partial, C62_registers_partial, C63_refuted, C63_partial, C63_access_partial, C64_count_refuted, C64_address_refuted, C64_direction_refuted, C64_partial, C76_refuted, C76_partial, C77, C77_none, C78, C79, C80_refuted, C80_partial, C81, C82_decimal_refuted, C82_storage_refuted, C82_partial, C83_refuted, C84_refuted, C85, C86_refuted
* `Verif.P1443.Props`: C87, C88_refuted, C88_last_refuted, C88_partial, C89_refuted, C89_undefined_refuted, C89_partial, C90, C91_refuted, C91_partial, C92_refuted, C92_partial, C93_refuted, C93_partial, C94_refuted, C94_reset_refuted, C94_partial, C95_restore_refuted, C95_space_refuted, C95_data_refuted, C95_partial, C96_refuted, C96_partial, C97_refuted, C98_refuted, C98_partial, C98_moves_partial
* `Verif.R1442.Props`: C50, C51_partial, C51_defined_partial, C51_refuted, C52_partial, C52_quiet_partial, C52_stacked_refuted, C52_pending_refuted, C52_busy_refuted, C53, C53_feed, C54_partial, C54_refuted, C58
* `Verif.R1442.Props2`: C112_partial, C112_refuted, C113, C113_one, C114_partial, C114_refuted, C115, C116_stay_partial, C116_feed_partial, C116_refuted, C116_again_refuted
* `Verif.R1442.Props3`: C59_empty, C59_empty_any, C59_blank, C59_load, C59_save_partial, C59_save_again_refuted, C59_save2_refuted, C59_switches, C59_start
* `Verif.T2415.Props`: C55_refuted, C55_partial, C55_mark_partial, C56_partial, C56_fourth_byte_refuted, C56_order_refuted, C56_no_frames_refuted, C56_parity_refuted, C57_partial, C57_refuted, C65, C66, C67_partial, C67_refuted, C67_read_goes_on_refuted, C68_partial, C68_refuted, C68_command_refuted, C69, C70_refuted, C71_refuted, C71_command_refuted, C71_partial, C72, C72_unit_6_refuted, C72_no_drive_refuted, C73, C73_unload, C74, C75_refuted
* `Verif.T2415.Props2`: C136_file, C136_block
* `Verif.Tape.Props`: C20_write_protect_partial, C20_frame_refuted, C21_reading_is_transparent, C22_writing_is_transparent_partial, C22_after_reading_a_window_refuted, C23_records_read_back, C24_walking_a_tape_partial, C25_p7b_records_read_back_partial, C25_last_record_refuted, C26_finish_ends_partial, C26_p7b_end_of_file_refuted, C27_reading_changes_nothing, C28_rewind_partial, C28_after_end_of_tape_refuted, C29_buffer_never_left, C48_finish_goes_to_the_end_of_the_record, C49_erase_gap_refuted
* `Verif.Xlat.Props`: C06_odd_parity_table, C07_tape_parity_table, C07_bcd_to_ebcdic_injective, C08_ascii_ebcdic_round_trip_partial, C08_brackets_and_bar_refuted
