{
 "claims": [
  {
   "property": "C01",
   "status": "proved",
   "theorems": [
    "C01_fires_exactly_once_exactly_on_time",
    "C01_clock_progress",
    "C05_contract_runs_are_defined_and_refine_partial"
   ],
   "note": "All add/advance histories and all callback behaviours; with cancels only inside the contract (see C04)."
  },
  {
   "property": "C02",
   "status": "proved",
   "theorems": [
    "C02_add_keeps_the_others"
   ],
   "note": "Every reachable state."
  },
  {
   "property": "C03",
   "status": "proved",
   "theorems": [
    "C03_zero_delay_runs_at_once"
   ],
   "note": ""
  },
  {
   "property": "C04",
   "status": "partial",
   "theorems": [
    "C04_cancel_next_or_absent_partial",
    "C04_cancel_of_any_other_event_refuted"
   ],
   "note": "Holds for the next event due and for absent events; false for every other pending event (event.c:125 never updates the predecessor)."
  },
  {
   "property": "C05",
   "status": "partial",
   "theorems": [
    "C05_contract_runs_are_defined_and_refine_partial",
    "C05_no_cancel_no_use_after_free_partial",
    "C05_use_after_free_refuted"
   ],
   "note": "False in general (refuted with witnesses); proved for all clients inside the contract."
  },
  {
   "property": "C06",
   "status": "proved",
   "theorems": [
    "C06_odd_parity_table"
   ],
   "note": ""
  },
  {
   "property": "C07",
   "status": "proved",
   "theorems": [
    "C07_tape_parity_table",
    "C07_bcd_to_ebcdic_injective"
   ],
   "note": ""
  },
  {
   "property": "C08",
   "status": "partial",
   "theorems": [
    "C08_ascii_ebcdic_round_trip_partial",
    "C08_brackets_and_bar_refuted"
   ],
   "note": "[ ] and | do not come back; all other printable characters do."
  },
  {
   "property": "C09",
   "status": "proved",
   "theorems": [
    "C09_stacked_cards_are_written_in_order"
   ],
   "note": ""
  },
  {
   "property": "C10",
   "status": "proved",
   "theorems": [
    "C10_ebcdic_card_code_invertible"
   ],
   "note": ""
  },
  {
   "property": "C100",
   "status": "partial",
   "theorems": [
    "C100_refuted",
    "C100_partial"
   ],
   "note": "Refuted: the data of a subnegotiation is taken for typed and IAC NOP swallows a character. Proved for characters, doubled IAC, break and options, for every cut."
  },
  {
   "property": "C101",
   "status": "partial",
   "theorems": [
    "C101_refuted",
    "C101_partial"
   ],
   "note": "Refuted: a typed character from 128 on, or a written byte with parity bit 1. Proved: these are the only cases, over all histories."
  },
  {
   "property": "C102",
   "status": "partial",
   "theorems": [
    "C102_refuted",
    "C102_partial"
   ],
   "note": "Refuted for every text with a byte of even parity (the byte is kept with its parity bit and indexes the parity table). Proved for all other texts, whole dialogue."
  },
  {
   "property": "C103",
   "status": "proved",
   "theorems": [
    "C103"
   ],
   "note": ""
  },
  {
   "property": "C104",
   "status": "partial",
   "theorems": [
    "C104_refuted"
   ],
   "note": "Refuted for every idle state: the console stays busy under every history without a reset."
  },
  {
   "property": "C105",
   "status": "partial",
   "theorems": [
    "C105_refuted",
    "C105_partial"
   ],
   "note": "Refuted when two characters are typed before the first is taken. Proved when each is taken before the next."
  },
  {
   "property": "C106",
   "status": "proved",
   "theorems": [
    "C106"
   ],
   "note": ""
  },
  {
   "property": "C107",
   "status": "proved",
   "theorems": [
    "C107"
   ],
   "note": "Invariant over all histories."
  },
  {
   "property": "C108",
   "status": "proved",
   "theorems": [
    "C108"
   ],
   "note": ""
  },
  {
   "property": "C109",
   "status": "partial",
   "theorems": [
    "C109_refuted",
    "C109_partial"
   ],
   "note": "Refuted: an ending status not yet taken survives. Proved: what the reset clears, in every state."
  },
  {
   "property": "C11",
   "status": "partial",
   "theorems": [
    "C11_ascii_card_code_invertible_partial",
    "C11_seven_characters_refuted"
   ],
   "note": "Fails for exactly + [ \\ ] ^ { }: ascii_to_hol uses the EBCDIC table, hol_to_ascii the 029 table."
  },
  {
   "property": "C110",
   "status": "partial",
   "theorems": [
    "C110_refuted"
   ],
   "note": "Refuted: a halted read stays busy without a request under every history in which nobody types."
  },
  {
   "property": "C111",
   "status": "partial",
   "theorems": [
    "C111_refuted",
    "C111_partial"
   ],
   "note": "Refuted: after a read the end-of-block flag stays set and every poll asks for service. Proved when it is not set."
  },
  {
   "property": "C112",
   "status": "partial",
   "theorems": [
    "C112_refuted",
    "C112_partial"
   ],
   "note": "Refuted: a non-zero multiple of 8 is taken as test I/O. Proved for every other byte in every resting state."
  },
  {
   "property": "C113",
   "status": "proved",
   "theorems": [
    "C113",
    "C113_one"
   ],
   "note": "Induction over the deck; whole dialogue with the channel."
  },
  {
   "property": "C114",
   "status": "partial",
   "theorems": [
    "C114_refuted",
    "C114_partial"
   ],
   "note": "Refuted for every last card: the check is never shown. Proved for all other cards."
  },
  {
   "property": "C115",
   "status": "proved",
   "theorems": [
    "C115"
   ],
   "note": ""
  },
  {
   "property": "C116",
   "status": "partial",
   "theorems": [
    "C116_refuted",
    "C116_again_refuted",
    "C116_stay_partial",
    "C116_feed_partial"
   ],
   "note": "Refuted for every byte sent with its parity bit set, and for the write after one ended with a zero byte: the parity bit is kept and indexes the parity table. Proved for texts of other bytes, all four commands."
  },
  {
   "property": "C117",
   "status": "proved",
   "theorems": [
    "C117"
   ],
   "note": ""
  },
  {
   "property": "C118",
   "status": "partial",
   "theorems": [
    "C118_partial",
    "C118_refuted"
   ],
   "note": "Refuted for WRD and RDD (84, 85), which the table does not have. Proved for all other operation codes."
  },
  {
   "property": "C119",
   "status": "partial",
   "theorems": [
    "C119_partial",
    "C119_refuted"
   ],
   "note": "Refuted for WRD and RDD (84, 85), shown as ?84? and ?85?. Proved for all other operation codes."
  },
  {
   "property": "C12",
   "status": "proved",
   "theorems": [
    "C12_binary_decks_round_trip"
   ],
   "note": "Non-empty decks (an empty file loads as one card); binary and auto load."
  },
  {
   "property": "C120",
   "status": "proved",
   "theorems": [
    "C120_arithmetic"
   ],
   "note": ""
  },
  {
   "property": "C121",
   "status": "proved",
   "theorems": [
    "C121_registers"
   ],
   "note": ""
  },
  {
   "property": "C122",
   "status": "proved",
   "theorems": [
    "C122_next_address",
    "C122_executions"
   ],
   "note": ""
  },
  {
   "property": "C123",
   "status": "proved",
   "theorems": [
    "C123_drives",
    "C123_bytes",
    "C123_selection"
   ],
   "note": ""
  },
  {
   "property": "C124",
   "status": "proved",
   "theorems": [
    "C124_bus"
   ],
   "note": ""
  },
  {
   "property": "C125",
   "status": "partial",
   "theorems": [
    "C125_others_partial",
    "C125_others_refuted"
   ],
   "note": "Refuted for ADDRESS IN, which is taken away from another unit. Proved for all other lines and the bus."
  },
  {
   "property": "C126",
   "status": "partial",
   "theorems": [
    "C126_addressed_partial",
    "C126_busy",
    "C126_digit_refuted"
   ],
   "note": "Refuted for an address whose second digit is not 0: the control never answers. Proved for all others, for latches that are off."
  },
  {
   "property": "C127",
   "status": "partial",
   "theorems": [
    "C127_reset_partial",
    "C127_reset_refuted"
   ],
   "note": "Refuted: OPERATIONAL IN and ADDRESS IN stay up if SELECT OUT is down at the time, and come back afterwards. Proved: the microprogram starts anew, not selected, not addressed; lines are taken back if selected."
  },
  {
   "property": "C128",
   "status": "partial",
   "theorems": [
    "C128_service_refuted"
   ],
   "note": "Refuted by an execution of a write. That SERVICE IN always comes with the byte of the write register is in C124."
  },
  {
   "property": "C129",
   "status": "partial",
   "theorems": [
    "C129_drive_refuted"
   ],
   "note": "Refuted: adding a 2302 always fails (calloc's result is tested the wrong way round) and leaves a drive of type 2303 in the place."
  },
  {
   "property": "C13",
   "status": "partial",
   "theorems": [
    "C13_text_decks_round_trip_partial",
    "C13_control_text_refuted"
   ],
   "note": "Cards whose text is a control line (~, ~raw, ~eor, ~eof, ~eoi) do not come back."
  },
  {
   "property": "C130",
   "status": "proved",
   "theorems": [
    "C130_line",
    "C130_nothing"
   ],
   "note": "For all create functions and device lists; the first word and the address fit the buffers (C45)."
  },
  {
   "property": "C131",
   "status": "partial",
   "theorems": [
    "C131_file_partial",
    "C131_long_line_refuted"
   ],
   "note": "Refuted for lines of 1023 characters and more: the rest of a long comment is obeyed as a line. Proved for all files of shorter lines."
  },
  {
   "property": "C132",
   "status": "partial",
   "theorems": [
    "C132_errors_partial",
    "C132_unknown_refuted"
   ],
   "note": "Refuted: a device that is not known is reported but the load succeeds. Proved for missing addresses and create functions that fail."
  },
  {
   "property": "C133",
   "status": "partial",
   "theorems": [
    "C133_own_partial",
    "C133_letter_refuted",
    "C133_no_letter_refuted"
   ],
   "note": "Refuted: the letter of an earlier line is still there for a line without one (a second 2415 controller is taken for a unit), and without any earlier line it is read uninitialized. Proved for lines that say everything."
  },
  {
   "property": "C134",
   "status": "partial",
   "theorems": [
    "C134_model30_partial",
    "C134_model50_partial",
    "C134_second",
    "C134_letter_refuted",
    "C133_no_letter_refuted"
   ],
   "note": "Refuted for the letters U to Z (signed shift out of range) and for no letter (uninitialized). Proved for A to T."
  },
  {
   "property": "C135",
   "status": "partial",
   "theorems": [
    "C135_level",
    "C135_comma_refuted"
   ],
   "note": "Refuted for words separated by commas, as conf.c describes them: the loop never ends. Proved for words separated by blanks."
  },
  {
   "property": "C136",
   "status": "proved",
   "theorems": [
    "C136_file",
    "C136_block"
   ],
   "note": "For the formats TAP and E11, in which the mark or block spaced over is complete on the tape. Callbacks of other devices do not come in between."
  },
  {
   "property": "C14",
   "status": "partial",
   "theorems": [
    "C14_octal_decks_round_trip_partial",
    "C14_only_column_one_refuted"
   ],
   "note": "Cards punched in column one only, other than codes 7, 13 and 15, do not come back."
  },
  {
   "property": "C15",
   "status": "proved",
   "theorems": [
    "C15_ebcdic_decks_round_trip"
   ],
   "note": ""
  },
  {
   "property": "C16",
   "status": "proved",
   "theorems": [
    "C16_hopper_is_a_queue",
    "C16_hopper_is_a_queue_everywhere"
   ],
   "note": "Every history; memory allocation assumed to succeed."
  },
  {
   "property": "C17",
   "status": "partial",
   "theorems": [
    "C17_save_writes_the_unread_cards",
    "C17_empty_cards_without_file_partial",
    "C17_empty_cards_refuted"
   ],
   "note": "save_deck is right; empty_cards punches the slot behind the last card."
  },
  {
   "property": "C18",
   "status": "partial",
   "theorems": [
    "C18_loading_terminates_safely_partial",
    "C18_short_binary_file_loops_refuted",
    "C18_out_of_bounds_refuted"
   ],
   "note": "Proved for ASCII text/octal, EBCDIC, and binary files of 0 or at least 160 bytes; false for short binary files, bytes above 127 in text, and ~raw lines. Auto mode not covered."
  },
  {
   "property": "C19",
   "status": "partial",
   "theorems": [
    "C19_auto_decks_round_trip_partial",
    "C19_blank_deck_refuted"
   ],
   "note": "Auto load mistakes e.g. 80 blank cards for one binary card."
  },
  {
   "property": "C20",
   "status": "partial",
   "theorems": [
    "C20_write_protect_partial",
    "C20_frame_refuted"
   ],
   "note": "File and status part proved for every state and call sequence; tape_write_frame does not look at the ring, so the buffered bytes and the position do change (refuted)."
  },
  {
   "property": "C21",
   "status": "proved",
   "theorems": [
    "C21_reading_is_transparent"
   ],
   "note": "Every window state, file and sequence of forward, backward and peek reads up to an end of the tape."
  },
  {
   "property": "C22",
   "status": "partial",
   "theorems": [
    "C22_writing_is_transparent_partial",
    "C22_after_reading_a_window_refuted"
   ],
   "note": "Proved from every window state but one; after reading exactly to the end of a full window a write goes 32768 bytes too early (refuted for every file of at least that size)."
  },
  {
   "property": "C23",
   "status": "proved",
   "theorems": [
    "C23_records_read_back"
   ],
   "note": "Records of less than 2^32-1 bytes, the largest a length word can hold; drive parity flag clear at the start, as calloc leaves it."
  },
  {
   "property": "C24",
   "status": "partial",
   "theorems": [
    "C24_walking_a_tape_partial"
   ],
   "note": "Every up-and-down walk over every SIMH and E11 image; P7B images must not end with a record (C25)."
  },
  {
   "property": "C25",
   "status": "partial",
   "theorems": [
    "C25_p7b_records_read_back_partial",
    "C25_last_record_refuted"
   ],
   "note": "False for a record at the end of the tape: tape_finish_rec never returns. Proved for lists that end with a tape mark."
  },
  {
   "property": "C26",
   "status": "partial",
   "theorems": [
    "C26_finish_ends_partial",
    "C26_p7b_end_of_file_refuted"
   ],
   "note": "Proved for SIMH and E11 in every state; refuted for P7B at the end of the file."
  },
  {
   "property": "C27",
   "status": "proved",
   "theorems": [
    "C27_reading_changes_nothing"
   ],
   "note": "Every file, format and sequence of calls without a write."
  },
  {
   "property": "C28",
   "status": "partial",
   "theorems": [
    "C28_rewind_partial",
    "C28_after_end_of_tape_refuted"
   ],
   "note": "Load point is always reached; the end-of-tape indication survives the rewind, so after it the tape cannot be read again (refuted)."
  },
  {
   "property": "C29",
   "status": "proved",
   "theorems": [
    "C29_buffer_never_left"
   ],
   "note": "Calls that do not return (C26) are excluded by the fuel outcome, before which nothing undefined happens either."
  },
  {
   "property": "C30",
   "status": "partial",
   "theorems": [
    "C30_formatted_pack_attaches_partial",
    "C30_other_type_refuted"
   ],
   "note": "Proved for drives of the same type; the type is never found from the pack (size computation off by one cylinder), so a drive of another type keeps its own type with the track size of the pack."
  },
  {
   "property": "C31",
   "status": "proved",
   "theorems": [
    "C31_volume_id_survives",
    "C31_high_character_refuted"
   ],
   "note": "Ids of up to eight characters that EBCDIC has. For characters of 128 and up setting the label is undefined (refuted variant)."
  },
  {
   "property": "C32",
   "status": "partial",
   "theorems": [
    "C32_data_persists_partial",
    "C32_unread_writes_refuted"
   ],
   "note": "Writing never marks the buffer dirty; only reading does. Proved once the cylinder was read from; refuted for every history without a read."
  },
  {
   "property": "C33",
   "status": "proved",
   "theorems": [
    "C33_only_visited_cylinders",
    "C33_only_the_track"
   ],
   "note": "Every history. The second theorem is for histories inside the bounds of C34."
  },
  {
   "property": "C34",
   "status": "partial",
   "theorems": [
    "C34_buffer_accesses_partial",
    "C34_head_refuted",
    "C34_update_refuted"
   ],
   "note": "False: heads 10-15 of a 2311 are not checked, and dasd_update adds the position twice. Proved for histories with existing heads and no dasd_update on the last head."
  },
  {
   "property": "C35",
   "status": "partial",
   "theorems": [
    "C35_update_finds_place_refuted"
   ],
   "note": "False."
  },
  {
   "property": "C36",
   "status": "proved",
   "theorems": [
    "C36_track_reads_back"
   ],
   "note": ""
  },
  {
   "property": "C37",
   "status": "proved",
   "theorems": [
    "C37_update_in_place"
   ],
   "note": ""
  },
  {
   "property": "C38",
   "status": "partial",
   "theorems": [
    "C38_new_record_partial",
    "C38_new_record_refuted"
   ],
   "note": "Proved for records without a key and a second check byte that is neither 0xff nor the sync byte; with 0xff R0 is erased (refuted). Records with a key are not covered."
  },
  {
   "property": "C39",
   "status": "partial",
   "theorems": [
    "C39_any_image_partial",
    "C39_any_image_refuted"
   ],
   "note": "False for images whose first records leave the cylinder; proved otherwise, same drive type."
  },
  {
   "property": "C40",
   "status": "partial",
   "theorems": [
    "C40_registry_partial",
    "C40_found_iff",
    "C40_channels_6_and_7_refuted",
    "C40_twice_refuted"
   ],
   "note": "Full for channels 0..5 and devices registered once. Refuted: channel 6 or 7 (accepted by the range check) writes behind the array; registering a device twice loses others or makes the search endless."
  },
  {
   "property": "C41",
   "status": "proved",
   "theorems": [
    "C41_disks",
    "C41_removed",
    "C41_null_and_self_refuted"
   ],
   "note": "For drives registered once. Removing from an empty list, or a drive removing itself while it is stepped, is undefined (refutation theorem)."
  },
  {
   "property": "C42",
   "status": "proved",
   "theorems": [
    "C42_every_device_once"
   ],
   "note": ""
  },
  {
   "property": "C44",
   "status": "partial",
   "theorems": [
    "C44_index_partial",
    "C44_no_value_refuted"
   ],
   "note": "Holds for every value that is not empty; a missing value gives 0 instead of -1."
  },
  {
   "property": "C45",
   "status": "partial",
   "theorems": [
    "C45_options_partial",
    "C45_long_word_refuted",
    "C45_long_address_refuted",
    "C45_second_minus_refuted",
    "C45_open_quote_refuted",
    "C45_not_ascii_refuted",
    "C45_big_number_refuted"
   ],
   "note": "Safe for ASCII lines below 1024 characters without quotes and without words of 20 characters; refuted for each other kind of line."
  },
  {
   "property": "C46",
   "status": "partial",
   "theorems": [
    "C46_ends_partial",
    "C46_comma_refuted"
   ],
   "note": "Ends on every safe line of words, blanks, = and comments; a comma makes the loop endless."
  },
  {
   "property": "C47",
   "status": "partial",
   "theorems": [
    "C47_options",
    "C47_address",
    "C47_unit",
    "C47_number",
    "C47_doubled_quote_refuted",
    "C47_not_a_number",
    "C47_no_number"
   ],
   "note": "All of it except doubled quotes, which lose the quote."
  },
  {
   "property": "C48",
   "status": "proved",
   "theorems": [
    "C48_finish_goes_to_the_end_of_the_record"
   ],
   "note": ""
  },
  {
   "property": "C49",
   "status": "partial",
   "theorems": [
    "C49_erase_gap_refuted"
   ],
   "note": "False: tape_erase_gap is a copy of tape_write_mark."
  },
  {
   "property": "C50",
   "status": "proved",
   "theorems": [
    "Verif.R1442.Props.C50"
   ],
   "note": "For every address, history of channel cycles, callbacks and keys from an idle device; the tags and bytes of the channel are arbitrary."
  },
  {
   "property": "C51",
   "status": "partial",
   "theorems": [
    "Verif.R1442.Props.C51_partial",
    "Verif.R1442.Props.C51_defined_partial",
    "Verif.R1442.Props.C51_refuted"
   ],
   "note": "Every cycle with a defined result keeps bus-in or puts an odd-parity byte there; all cycles are defined while no write or control command is sent. With writes the parity table is read out of bounds (counterexample proved), so the full claim is false."
  },
  {
   "property": "C52",
   "status": "partial",
   "theorems": [
    "Verif.R1442.Props.C52_partial",
    "Verif.R1442.Props.C52_quiet_partial",
    "Verif.R1442.Props.C52_stacked_refuted",
    "Verif.R1442.Props.C52_pending_refuted",
    "Verif.R1442.Props.C52_busy_refuted"
   ],
   "note": "What a reset clears, and silence afterwards when nothing was stacked or pending; the full claim is false in three ways, each with a proved counterexample."
  },
  {
   "property": "C53",
   "status": "proved",
   "theorems": [
    "Verif.R1442.Props.C53",
    "Verif.R1442.Props.C53_feed"
   ],
   "note": "All histories of channel cycles, callbacks and keys other than the ones that put cards in or take them out; punching only adds holes."
  },
  {
   "property": "C54",
   "status": "partial",
   "theorems": [
    "Verif.R1442.Props.C54_partial",
    "Verif.R1442.Props.C54_refuted"
   ],
   "note": "Holds with hold-out down and no reset during a busy sequence; false on a selector channel (counterexample proved)."
  },
  {
   "property": "C55",
   "status": "partial",
   "theorems": [
    "C55_refuted",
    "C55_partial",
    "C55_mark_partial"
   ],
   "note": "False for every ready drive with a ring: tape_write_start's result is compared with the wrong constant, so the write is refused with unit check after a tape mark has been written over the tape. Proved: without a ring the command is rejected and the tape is untouched."
  },
  {
   "property": "C56",
   "status": "partial",
   "theorems": [
    "C56_partial",
    "C56_fourth_byte_refuted",
    "C56_order_refuted",
    "C56_no_frames_refuted",
    "C56_parity_refuted"
   ],
   "note": "False: the fourth byte is lost, reading takes the characters in the other order, no frame reaches the tape, and the frames have even parity, which reading always flags. Proved: the characters made of three bytes."
  },
  {
   "property": "C57",
   "status": "partial",
   "theorems": [
    "C57_partial",
    "C57_refuted"
   ],
   "note": "False for the 8 characters with low digit 0 or 10 (blank, zero, ...). Proved exactly for the other 56."
  },
  {
   "property": "C58",
   "status": "proved",
   "theorems": [
    "Verif.R1442.Props.C58"
   ],
   "note": "For every card, address and ready device, under the schedule in which the channel takes each byte before the next column."
  },
  {
   "property": "C59",
   "status": "partial",
   "theorems": [
    "C59_empty",
    "C59_empty_any",
    "C59_blank",
    "C59_load",
    "C59_save_partial",
    "C59_save_again_refuted",
    "C59_save2_refuted",
    "C59_switches",
    "C59_start"
   ],
   "note": "Refuted for saving: the key of stacker 2 saves stacker 1, and a second save writes only the cards that have come since the first. Proved for the other keys, and for saving the cards of stacker 1 that have not been saved before."
  },
  {
   "property": "C60",
   "status": "proved",
   "theorems": [
    "C60",
    "C60_operands",
    "C60_logical"
   ],
   "note": "Sum, parity, carries and zero test for every operand, gate, true/complement and carry setting; the operands are the registers the word names and only the named register changes; logical functions likewise. Without the micro-orders CK=20/29 that change registers themselves, and without the even-parity diagnostic order."
  },
  {
   "property": "C61",
   "status": "proved",
   "theorems": [
    "C61"
   ],
   "note": "All pairs of two-digit decimal operands, both signs and carries."
  },
  {
   "property": "C62",
   "status": "partial",
   "theorems": [
    "C62_refuted",
    "C62_parity_refuted",
    "C62_partial",
    "C62_registers_partial"
   ],
   "note": "Refuted: both assignments of the address go to M, so switches A and B do nothing and N keeps an old value; with a parity bit in N the parity table is read out of bounds. Proved: store then display shows the byte at the address C,D,N and no other byte changes; registers store and display."
  },
  {
   "property": "C63",
   "status": "partial",
   "theorems": [
    "C63_refuted",
    "C63_partial",
    "C63_access_partial"
   ],
   "note": "Refuted: with bad parity in M or N the key is not tested but the store is made. Proved for addresses of good parity, for the store order itself and for read/modify/write accesses."
  },
  {
   "property": "C64",
   "status": "partial",
   "theorems": [
    "C64_count_refuted",
    "C64_address_refuted",
    "C64_direction_refuted",
    "C64_partial"
   ],
   "note": "Refuted: count zero and address wrap read the parity table out of bounds; the direction is taken from the channel selected by the microprogram and ignores modifier bits of read backward. Proved otherwise for all counts and addresses."
  },
  {
   "property": "C65",
   "status": "proved",
   "theorems": [
    "C65"
   ],
   "note": ""
  },
  {
   "property": "C66",
   "status": "proved",
   "theorems": [
    "C66"
   ],
   "note": "For a control with six drives of which only these are addressed (see C72)."
  },
  {
   "property": "C67",
   "status": "partial",
   "theorems": [
    "C67_partial",
    "C67_refuted",
    "C67_read_goes_on_refuted"
   ],
   "note": "False: a pending status survives the reset, and the callback of a read goes on and delivers its byte to the next command. Proved: what the reset itself clears."
  },
  {
   "property": "C68",
   "status": "partial",
   "theorems": [
    "C68_partial",
    "C68_refuted",
    "C68_command_refuted"
   ],
   "note": "False after a reset in the busy sequence, and for commands with bit 3 when the channel disconnects. Proved for all other executions."
  },
  {
   "property": "C69",
   "status": "proved",
   "theorems": [
    "C69"
   ],
   "note": "For channels that take every byte in time; the drive is in high density mode."
  },
  {
   "property": "C70",
   "status": "partial",
   "theorems": [
    "C70_refuted",
    "C69"
   ],
   "note": "False: a read command after a tape mark written at the end of the tape waits forever. C69 shows that read commands before the end do end."
  },
  {
   "property": "C71",
   "status": "partial",
   "theorems": [
    "C71_refuted",
    "C71_command_refuted",
    "C71_partial"
   ],
   "note": "False: when polled, the control shows the drive used last; and the address of drive 0 while it waits for the command. Proved: the first cycle of an initial selection."
  },
  {
   "property": "C72",
   "status": "partial",
   "theorems": [
    "C72",
    "C72_unit_6_refuted",
    "C72_no_drive_refuted"
   ],
   "note": "False for drives 6 and 7 and for drives that are not configured. Proved for controls with six drives and addresses of these."
  },
  {
   "property": "C73",
   "status": "proved",
   "theorems": [
    "C73",
    "C73_unload"
   ],
   "note": ""
  },
  {
   "property": "C74",
   "status": "proved",
   "theorems": [
    "C74"
   ],
   "note": "For controls with six drives and addresses of these (see C72)."
  },
  {
   "property": "C75",
   "status": "partial",
   "theorems": [
    "C75_refuted"
   ],
   "note": "False: the read ends with channel end and device end and no data, and so does the next."
  },
  {
   "property": "C76",
   "status": "partial",
   "theorems": [
    "C76_refuted",
    "C76_partial"
   ],
   "note": "Refuted: a branch to UV with U over 15. Proved for every other word and every state."
  },
  {
   "property": "C77",
   "status": "proved",
   "theorems": [
    "C77",
    "C77_none"
   ],
   "note": "For the state in which no channel is resting (sel_ros_rest, mpx_ros_rest) and no share pulse is under way."
  },
  {
   "property": "C78",
   "status": "proved",
   "theorems": [
    "C78"
   ],
   "note": "By induction over the run."
  },
  {
   "property": "C79",
   "status": "proved",
   "theorems": [
    "C79"
   ],
   "note": ""
  },
  {
   "property": "C80",
   "status": "partial",
   "theorems": [
    "C80_refuted",
    "C80_partial"
   ],
   "note": "Refuted: the check looks at the address of the order before. Proved: at an address not installed nothing is read."
  },
  {
   "property": "C81",
   "status": "proved",
   "theorems": [
    "C81"
   ],
   "note": "For words whose CK does not itself change the address and which do not load R."
  },
  {
   "property": "C82",
   "status": "partial",
   "theorems": [
    "C82_decimal_refuted",
    "C82_storage_refuted",
    "C82_partial"
   ],
   "note": "Refuted by decimal words with other digits and by writes behind a small storage. Proved for 64K bytes, silent channels and control stores without decimal words and UV branches, with any traps."
  },
  {
   "property": "C83",
   "status": "partial",
   "theorems": [
    "C83_refuted"
   ],
   "note": "Refuted: allow_write stays on after the stopped store, so the next write order stores R."
  },
  {
   "property": "C84",
   "status": "partial",
   "theorems": [
    "C84_refuted"
   ],
   "note": "Refuted for every byte and address: the parity bit is inverted (the display key inverts it again)."
  },
  {
   "property": "C85",
   "status": "proved",
   "theorems": [
    "C85"
   ],
   "note": ""
  },
  {
   "property": "C86",
   "status": "partial",
   "theorems": [
    "C86_refuted"
   ],
   "note": "Refuted: the latch of channel 1 is used for channel 2."
  },
  {
   "property": "C87",
   "status": "proved",
   "theorems": [
    "C87"
   ],
   "note": "Whole dialogue with the channel by symbolic execution and induction over the bytes. The conditions on the end of the form and channels 9 and 12 are part of the statement (see C88)."
  },
  {
   "property": "C88",
   "status": "partial",
   "theorems": [
    "C88_refuted",
    "C88_last_refuted",
    "C88_partial"
   ],
   "note": "Refuted: the carriage gets to line 67 of 66 and the next spacing reads fcb[66]. Proved as long as it does not go over line 67, with channel 9 and 12 indications."
  },
  {
   "property": "C89",
   "status": "partial",
   "theorems": [
    "C89_refuted",
    "C89_undefined_refuted",
    "C89_partial"
   ],
   "note": "Refuted: a skip always stops one line before the hole, and reads behind the carriage tape when the hole is not below (always for channel 1). Proved: text, file and everything else."
  },
  {
   "property": "C90",
   "status": "proved",
   "theorems": [
    "C90"
   ],
   "note": "Invariant over all histories."
  },
  {
   "property": "C91",
   "status": "partial",
   "theorems": [
    "C91_refuted",
    "C91_partial"
   ],
   "note": "Refuted: after answering busy in the middle of a write it comes up unpolled. Proved when it does not take itself for selected or addressed."
  },
  {
   "property": "C92",
   "status": "partial",
   "theorems": [
    "C92_refuted",
    "C92_partial"
   ],
   "note": "Refuted when not ready. Proved, with the whole dialogue, when ready."
  },
  {
   "property": "C93",
   "status": "partial",
   "theorems": [
    "C93_refuted",
    "C93_partial"
   ],
   "note": "Refuted for immediate spacing. Proved for all other commands."
  },
  {
   "property": "C94",
   "status": "partial",
   "theorems": [
    "C94_refuted",
    "C94_reset_refuted",
    "C94_partial"
   ],
   "note": "Refuted with a movement left over from a refused command or a reset. Proved: no device end before a movement has ended."
  },
  {
   "property": "C95",
   "status": "partial",
   "theorems": [
    "C95_restore_refuted",
    "C95_space_refuted",
    "C95_data_refuted",
    "C95_partial"
   ],
   "note": "Refuted: carriage keys, and carriage space during a write. Proved: only the cases listed in undefined_act."
  },
  {
   "property": "C96",
   "status": "partial",
   "theorems": [
    "C96_refuted",
    "C96_partial"
   ],
   "note": "Refuted when sense is not 0. Proved otherwise."
  },
  {
   "property": "C97",
   "status": "partial",
   "theorems": [
    "C97_refuted"
   ],
   "note": "Refuted for every idle printer."
  },
  {
   "property": "C98",
   "status": "partial",
   "theorems": [
    "C98_refuted",
    "C98_partial",
    "C98_moves_partial"
   ],
   "note": "Refuted: commands with low bits 000 other than 0 never end. Proved: the first answer to every other command."
  },
  {
   "property": "C99",
   "status": "proved",
   "theorems": [
    "C99"
   ],
   "note": "Invariant over all histories, and induction over interleavings of typing and taking."
  }
 ]
}
