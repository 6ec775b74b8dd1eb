{"id": "C01", "title": "A scheduled event fires exactly once, exactly on time", "statement": "After add_event(dev,func,n,arg,iarg) with n>0 that is never cancelled, the callback func(dev,arg,iarg) is invoked during the n-th following advance() and at no other advance(), whatever other events are pending or added later, including by callbacks running inside advance().", "quantifier": "every n>0, every content of the queue, every later interleaving of add_event/advance calls and every behaviour of the callbacks restricted to adding events", "why_tests_cant": "the delta list couples every pending event to all the others; a test sees a handful of queue shapes and no arbitrary callback behaviour", "anchors": ["src/event.c:add_event", "src/event.c:advance"]}
{"id": "C02", "title": "Adding an event does not disturb the others", "statement": "add_event leaves the remaining delay and the mutual order of all events already pending unchanged, and inserts the new event before every pending event that is due at the same or a later tick and after every one that is due earlier (so ties fire last-in first-out).", "quantifier": "every queue reachable by add_event/advance and every positive delay", "why_tests_cant": "the insertion rewrites the delta of a neighbour; only a proof over all list shapes shows that sums are preserved", "anchors": ["src/event.c:add_event"]}
{"id": "C03", "title": "An event with zero delay runs at once and leaves the queue alone", "statement": "add_event with time 0 invokes the callback before returning and changes nothing else in the queue.", "quantifier": "every queue and every callback", "why_tests_cant": "quantifies over all queue states and callbacks", "anchors": ["src/event.c:add_event"]}
{"id": "C04", "title": "Cancelling removes exactly one event and disturbs no other", "statement": "cancel_event(dev,func) removes the earliest pending event of that device and callback, leaves the firing time of all the others unchanged, keeps the queue usable, and does nothing if there is no such event.", "quantifier": "every reachable queue and every (dev,func)", "why_tests_cant": "whether the list is corrupted depends on where in the queue the event happens to sit, i.e. on the whole history", "anchors": ["src/event.c:cancel_event"]}
{"id": "C05", "title": "The scheduler never touches freed memory", "statement": "No sequence of add_event, cancel_event and advance calls, also made from callbacks, reads, writes or frees a queue node that has been freed.", "quantifier": "every finite sequence of scheduler calls, every callback behaviour", "why_tests_cant": "use after free is silent on most runs and depends on allocator state", "anchors": ["src/event.c:add_event", "src/event.c:cancel_event", "src/event.c:advance"]}
{"id": "C06", "title": "Bus parity table", "statement": "odd_parity[b] | b has an odd number of one bits among its nine bits, for every byte b, and odd_parity only ever contributes bit 8.", "quantifier": "all byte values", "why_tests_cant": "needs the full table, and a definition of parity independent of the table", "anchors": ["src/device/xlat.c:odd_parity"]}
{"id": "C07", "title": "Tape parity and BCD tables", "statement": "parity_table[c] | c has an even number of one bits among seven for every 6-bit character c, and bcd_to_ebcdic maps distinct BCD codes to distinct EBCDIC codes.", "quantifier": "all 6-bit characters (pairs of them for injectivity)", "why_tests_cant": "needs the full table and all pairs", "anchors": ["src/device/xlat.c:parity_table", "src/device/xlat.c:bcd_to_ebcdic"]}
{"id": "C08", "title": "ASCII and EBCDIC tables are inverse on the text characters", "statement": "ebcdic_to_ascii[ascii_to_ebcdic[c]] = c for every printable ASCII character c, so volume labels and listings survive a translation there and back.", "quantifier": "all printable ASCII characters", "why_tests_cant": "whole-table property", "anchors": ["src/device/xlat.c:ascii_to_ebcdic", "src/device/xlat.c:ebcdic_to_ascii"]}
{"id": "C09", "title": "Stacked cards reach the punch file in order", "statement": "With a punch file open and nothing pending, every card given to stack_card is appended to the file at once, in the deck's file format, in the order stacked, and counted by stack_size.", "quantifier": "all decks, modes and stacker states", "why_tests_cant": "all card sequences", "anchors": ["src/device/card.c:stack_card", "src/device/card.c:_punch_card", "src/device/card.c:stack_size"]}
{"id": "C10", "title": "EBCDIC to card code is invertible", "statement": "hol_to_ebcdic(ebcdic_to_hol(b)) = b for every byte b; a card column that is no EBCDIC character is reported as 0x100.", "quantifier": "all 256 bytes and all 4096 hole patterns", "why_tests_cant": "whole-table property involving the table built at start-up", "anchors": ["src/device/card.c:ebcdic_to_hol", "src/device/card.c:hol_to_ebcdic", "src/device/card.c:init_card_context"]}
{"id": "C11", "title": "ASCII to card code is invertible", "statement": "hol_to_ascii(ascii_to_hol(c)) = c for every printable ASCII character of the 029 code.", "quantifier": "all printable ASCII characters", "why_tests_cant": "whole-table property", "anchors": ["src/device/card.c:ascii_to_hol", "src/device/card.c:hol_to_ascii"]}
{"id": "C12", "title": "Column-binary decks survive save and load", "statement": "Saving any deck of cards in binary mode and loading the file in binary (or, if the deck cannot be mistaken, auto) mode gives the same cards in the same order.", "quantifier": "every number of cards and every 12-bit pattern in every column", "why_tests_cant": "infinitely many decks; the loader reads through a sliding buffer whose refill points depend on the deck", "anchors": ["src/device/card.c:save_deck", "src/device/card.c:read_deck", "src/device/card.c:_punch_card", "src/device/card.c:_parse_card"]}
{"id": "C13", "title": "Text decks survive save and load", "statement": "Saving a deck of printable cards in text mode and loading the file in text mode gives the same cards.", "quantifier": "every deck whose columns are printable characters with a unique card code", "why_tests_cant": "trailing-blank trimming, line ends and buffer refills interact", "anchors": ["src/device/card.c:save_deck", "src/device/card.c:read_deck", "src/device/card.c:_punch_card", "src/device/card.c:_parse_card"]}
{"id": "C14", "title": "Octal decks survive save and load", "statement": "Saving any deck in octal mode and loading it gives the same cards.", "quantifier": "every deck, every 12-bit pattern in every column", "why_tests_cant": "special-card abbreviations collide with ordinary cards only on particular column patterns", "anchors": ["src/device/card.c:_punch_card", "src/device/card.c:_parse_card"]}
{"id": "C15", "title": "EBCDIC decks survive save and load", "statement": "Saving a deck of EBCDIC-representable cards in EBCDIC mode and loading it in EBCDIC mode gives the same cards.", "quantifier": "every deck of cards whose 80 columns are EBCDIC characters", "why_tests_cant": "all decks", "anchors": ["src/device/card.c:_punch_card", "src/device/card.c:_parse_card"]}
{"id": "C16", "title": "The hopper is a queue", "statement": "Cards come out of the hopper in the order the decks were loaded; loading a further deck puts its cards behind those still in the hopper; hopper_size counts the cards not yet read; an empty hopper reports empty and changes nothing.", "quantifier": "every sequence of load, blank and read operations", "why_tests_cant": "quantifies over operation histories and growth of the card array", "anchors": ["src/device/card.c:read_card", "src/device/card.c:read_deck", "src/device/card.c:blank_deck", "src/device/card.c:hopper_size"]}
{"id": "C17", "title": "Removing unread cards writes exactly those cards", "statement": "When cards still in the hopper are taken out into a punch file, the file receives exactly the unread cards, in order, and no memory outside the hopper is read.", "quantifier": "every hopper content and position", "why_tests_cant": "depends on the position reached", "anchors": ["src/device/card.c:empty_cards", "src/device/card.c:stack_card", "src/device/card.c:save_deck"]}
{"id": "C18", "title": "Loading any file terminates safely", "statement": "read_deck terminates and stays inside its buffer and tables for every file content and every mode.", "quantifier": "every byte string and every mode", "why_tests_cant": "needs all inputs, in particular malformed and truncated ones", "anchors": ["src/device/card.c:read_deck", "src/device/card.c:_parse_card"]}
{"id": "C19", "title": "Automatic-mode decks survive save and load", "statement": "A deck saved in automatic mode (text where printable, octal otherwise) and loaded in text, octal or automatic mode gives the same cards.", "quantifier": "all decks", "why_tests_cant": "all decks and the guess of the format from the first 160 bytes", "anchors": ["src/device/card.c:_punch_card", "src/device/card.c:_parse_card", "src/device/card.c:read_deck"]}
{"id": "C20", "title": "Write protection", "statement": "Without a write ring no tape_write_start, tape_write_mark, tape_erase_gap or following frame changes the tape file, the position or any byte that will later be read; the caller gets the write-protect status.", "quantifier": "every tape state and format", "why_tests_cant": "all tape states", "anchors": ["src/device/tape.c:tape_write_start", "src/device/tape.c:tape_write_mark", "src/device/tape.c:tape_erase_gap"]}
{"id": "C21", "title": "The 32K window is transparent when reading", "statement": "Reading bytes forward or backward through the tape buffer delivers the bytes of the file at successive (preceding) positions, wherever the window boundaries fall.", "quantifier": "every file, every position, every read sequence", "why_tests_cant": "the window boundary falls in a different place for every history", "anchors": ["src/device/tape.c:tape_read_byte", "src/device/tape.c:tape_peek_byte", "src/device/tape.c:tape_readbk_byte"]}
{"id": "C22", "title": "The 32K window is transparent when writing", "statement": "Writing bytes through the buffer and then flushing leaves the file equal to the old file overwritten at the starting position, for any length and position.", "quantifier": "every file, position and byte string", "why_tests_cant": "as C21, plus the not-yet-flushed part", "anchors": ["src/device/tape.c:tape_write_byte", "src/device/tape.c:tape_start_rewind", "src/device/tape.c:tape_detach"]}
{"id": "C23", "title": "Records written can be read back", "statement": "Any sequence of records and tape marks written from load point on a SIMH (.tap) or E11 tape is, after rewinding, read back as the same sequence with the same contents, then end of tape.", "quantifier": "every list of records of any length and content, odd and even", "why_tests_cant": "unbounded sequences crossing buffer boundaries; padding of odd records differs per format", "anchors": ["src/device/tape.c:tape_write_start", "src/device/tape.c:tape_write_frame", "src/device/tape.c:tape_finish_rec", "src/device/tape.c:tape_write_mark", "src/device/tape.c:tape_read_start", "src/device/tape.c:tape_read_frame"]}
{"id": "C24", "title": "Reading backwards mirrors reading forwards", "statement": "After reading a record forwards, reading backwards delivers the bytes of that record in reverse and leaves the tape in front of the record.", "quantifier": "every well-formed tape image and record", "why_tests_cant": "all images", "anchors": ["src/device/tape.c:tape_read_back", "src/device/tape.c:tape_read_frame", "src/device/tape.c:tape_finish_rec"]}
{"id": "C25", "title": "P7B records can be read back", "statement": "Records of 7-track characters written on a P7B tape are read back unchanged, provided no record starts with the tape-mark character.", "quantifier": "every list of records of 7-bit characters", "why_tests_cant": "as C23, record marks live in the data bits", "anchors": ["src/device/tape.c:tape_write_frame", "src/device/tape.c:tape_read_frame"]}
{"id": "C26", "title": "Finishing a record always terminates", "statement": "tape_finish_rec returns for every tape file, format, operation and number of frames transferred.", "quantifier": "every file and tape state", "why_tests_cant": "non-termination occurs only for particular files (e.g. last record on tape)", "anchors": ["src/device/tape.c:tape_finish_rec"]}
{"id": "C27", "title": "Reading never changes the file", "statement": "No sequence of read, read-backward, space and rewind operations on a tape changes the file.", "quantifier": "every file and operation sequence", "why_tests_cant": "all operation histories", "anchors": ["src/device/tape.c:tape_read_start", "src/device/tape.c:tape_read_back", "src/device/tape.c:tape_start_rewind"]}
{"id": "C28", "title": "Rewinding reaches load point", "statement": "Repeating tape_rewind_frames after tape_start_rewind reaches load point after finitely many steps, with the beginning-of-tape indication set, and a following read starts with the first record.", "quantifier": "every tape position and step size", "why_tests_cant": "all positions", "anchors": ["src/device/tape.c:tape_start_rewind", "src/device/tape.c:tape_rewind_frames"]}
{"id": "C30", "title": "A formatted pack attaches as itself", "statement": "A pack created by dasd_format for a drive type is accepted by dasd_attach as that same type and geometry.", "quantifier": "all drive types", "why_tests_cant": "all types; refutation needs the exact size computation", "anchors": ["src/device/dasd.c:dasd_format", "src/device/dasd.c:dasd_attach"]}
{"id": "C31", "title": "The volume label survives formatting", "statement": "After formatting a pack with a volume id of up to six characters of the label alphabet, attaching it reports the same volume id.", "quantifier": "every volume id", "why_tests_cant": "all ids", "anchors": ["src/device/dasd.c:dasd_setvolid", "src/device/dasd.c:dasd_format", "src/device/dasd.c:dasd_attach"]}
{"id": "C32", "title": "Data written to a cylinder persists", "statement": "Bytes written on a track are on the disk image after the arm has moved away or the pack was detached, and reading them after coming back returns the same bytes.", "quantifier": "every write pattern and every seek", "why_tests_cant": "history dependent (dirty flag, cylinder cache)", "anchors": ["src/device/dasd.c:dasd_write_byte", "src/device/dasd.c:seek_callback", "src/device/dasd.c:dasd_detach"]}
{"id": "C33", "title": "Seeking and writing touch only the addressed cylinder", "statement": "Whatever is read, written or sought, the bytes of the image outside the cylinders under the arm when written are unchanged.", "quantifier": "every operation history", "why_tests_cant": "all histories", "anchors": ["src/device/dasd.c:seek_callback", "src/device/dasd.c:dasd_write_byte"]}
{"id": "C34", "title": "Head selection stays inside the cylinder buffer", "statement": "Whatever head value the control unit sends, reading and writing stay inside the cylinder buffer.", "quantifier": "every tag/bus sequence", "why_tests_cant": "memory safety for all inputs", "anchors": ["src/device/dasd.c:dasd_settags", "src/device/dasd.c:dasd_read_byte", "src/device/dasd.c:dasd_write_byte"]}
{"id": "C40", "title": "The channel device list is a faithful registry", "statement": "find_chan returns a device registered on that channel whose address matches under its mask, if and only if there is one; del_chan removes exactly that device; registering a device never loses another.", "quantifier": "every sequence of registrations and removals and all addresses", "why_tests_cant": "all histories and addresses; out-of-range channels corrupt memory silently", "anchors": ["src/device/device.c:add_chan", "src/device/device.c:del_chan", "src/device/device.c:find_chan"]}
{"id": "C41", "title": "Removing a disk drive unregisters it", "statement": "After del_disk(d) the stepping loop no longer steps d and steps all the others exactly once per cycle.", "quantifier": "every set of registered drives", "why_tests_cant": "all lists", "anchors": ["src/device/device.c:add_disk", "src/device/device.c:del_disk", "src/device/device.c:step_disk"]}
{"id": "C45", "title": "The configuration scanner stays inside its buffers", "statement": "Parsing any configuration line writes only inside the option structure and the caller's buffers, and reads only the line.", "quantifier": "every input line", "why_tests_cant": "memory safety for all inputs", "anchors": ["src/conf.c:get_model", "src/conf.c:get_addr", "src/conf.c:get_string", "src/conf.c:get_option"]}
{"id": "C46", "title": "The configuration scanner terminates", "statement": "Collecting the options of any line terminates.", "quantifier": "every input line", "why_tests_cant": "all inputs", "anchors": ["src/conf.c:get_option", "src/conf.c:load_line"]}
{"id": "C47", "title": "Option values are scanned as written", "statement": "For name=value options and plain names the scanner delivers, in order, the upper-cased name and the value text (upper-cased unless quoted); quoted strings deliver the text between the quotes with doubled quotes standing for one quote; hexadecimal addresses, decimal numbers and the unit/model/number parts of the first word deliver their value.", "quantifier": "every well-formed line", "why_tests_cant": "all strings", "anchors": ["src/conf.c:get_option", "src/conf.c:get_string", "src/conf.c:get_integer", "src/conf.c:get_addr", "src/conf.c:get_model"]}
{"id": "C50", "title": "Only the addressed device answers a selection", "statement": "A card reader/punch raises operational-in, address-in, status-in or service-in, or changes the bus-in byte, only if it has been selected with its own address (or is presenting its own interrupt), and passes select-out on otherwise.", "quantifier": "every device state and every sequence of tag and bus values", "why_tests_cant": "all channel schedules", "anchors": ["src/model1442/model1442.c:model1442_dev"]}
{"id": "C51", "title": "Every byte a device puts on bus-in has odd parity", "statement": "Whenever the card reader/punch drives bus-in, the nine bits have odd parity.", "quantifier": "every device state and every sequence of tag and bus values", "why_tests_cant": "all channel schedules", "anchors": ["src/model1442/model1442.c:model1442_dev"]}
{"id": "C52", "title": "System reset silences a device", "statement": "Dropping operational-out (without suppress-out) returns the device to idle with no tags raised, no pending status and no operation in progress, from any state.", "quantifier": "every device state", "why_tests_cant": "all states", "anchors": ["src/model1442/model1442.c:model1442_dev"]}
{"id": "C53", "title": "The card path conserves cards", "statement": "Feed operations move each card from the hopper through reader and punch station to a stacker; no card is duplicated or lost.", "quantifier": "every sequence of commands and feeds", "why_tests_cant": "all histories", "anchors": ["src/model1442/model1442.c:read_callback", "src/model1442/model1442.c:feed_callback", "src/model1442/model1442.c:model1442_feed"]}
{"id": "C55", "title": "A tape write command writes", "statement": "A write command to a ready 2415 drive with a write ring transfers the channel data to the tape without raising unit check.", "quantifier": "every drive state with a mounted, ring-equipped tape", "why_tests_cant": "all states; the failure is a comparison with the wrong status constant", "anchors": ["src/model2415/model2415.c:model2415_dev", "src/model2415/model2415.c:tape_callback", "src/device/tape.c:tape_write_start"]}
{"id": "C56", "title": "Seven-track data conversion is reversible", "statement": "Bytes written with the data converter and read with the data converter are the same bytes.", "quantifier": "all byte triples", "why_tests_cant": "all bytes", "anchors": ["src/model2415/model2415.c:tape_callback"]}
{"id": "C57", "title": "Seven-track translation is reversible", "statement": "EBCDIC characters of the BCD set written in translate mode and read in translate mode are the same characters.", "quantifier": "all 64 BCD characters", "why_tests_cant": "all characters", "anchors": ["src/model2415/model2415.c:tape_callback", "src/device/xlat.c:bcd_to_ebcdic"]}
{"id": "C60", "title": "2030 ALU: binary arithmetic", "statement": "In binary true/complement mode the ALU result is A plus B (or the complement of B) plus carry-in modulo 256 with the correct odd parity bit, the carry latch is the carry out of bit 0 and the carry-1 status the carry out of bit 1.", "quantifier": "all operands, gate settings and carry settings", "why_tests_cant": "2^17 cases and all gating modes", "anchors": ["src/model2030/cpu2030.c:cycle_2030"]}
{"id": "C61", "title": "2030 ALU: decimal arithmetic", "statement": "In decimal mode with valid decimal digits the result is the two-digit decimal sum or ten's-complement difference and the carry is the decimal carry.", "quantifier": "all pairs of two-digit packed decimal bytes, both signs, both carries", "why_tests_cant": "all operand pairs", "anchors": ["src/model2030/cpu2030.c:cycle_2030"]}
{"id": "C62", "title": "2030 operator store and display", "statement": "Setting address switches A-D and storing a byte from switches H,J in main storage and then displaying that address shows the byte, and no other location changes.", "quantifier": "all switch settings and storage contents", "why_tests_cant": "all addresses and contents", "anchors": ["src/model2030/cpu2030.c:cycle_2030"]}
{"id": "C63", "title": "2030 storage protection", "statement": "A store micro-order to a main-storage location whose key differs from a nonzero protection key leaves storage unchanged.", "quantifier": "all register and storage contents", "why_tests_cant": "all states", "anchors": ["src/model2030/cpu2030.c:cycle_2030"]}
{"id": "C64", "title": "2030 selector-channel address and count arithmetic", "statement": "Each selector data cycle decrements the 16-bit byte count and increments (for read backward decrements) the 16-bit data address, with borrow and carry between the halves and correct parity.", "quantifier": "all counts and addresses", "why_tests_cant": "2^32 combinations", "anchors": ["src/model2030/cpu2030.c:cycle_2030"]}
{"id": "C29", "title": "The tape buffer is never left", "statement": "No sequence of tape calls on any image file, well-formed or not, in any format, reads or writes outside the 32K buffer.", "quantifier": "every file, format, ring setting and call sequence", "why_tests_cant": "depends on the file and on the whole history of window moves", "anchors": ["src/device/tape.c:tape_read_byte", "src/device/tape.c:tape_readbk_byte", "src/device/tape.c:tape_write_byte", "src/device/tape.c:tape_write_prev", "src/device/tape.c:tape_finish_rec"]}
{"id": "C48", "title": "Finishing a record ignores how much of it was read", "statement": "However many frames of a record were transferred, forward or backward, tape_finish_rec leaves the tape at the far end of that record, and the frames transferred are its first (last, reversed) bytes.", "quantifier": "every SIMH or E11 image, record, frame count and window state", "why_tests_cant": "all images and frame counts", "anchors": ["src/device/tape.c:tape_finish_rec", "src/device/tape.c:tape_read_frame"]}
{"id": "C49", "title": "Erasing a gap leaves no tape mark", "statement": "After tape_erase_gap and a rewind, reading does not report a tape mark where the gap was erased.", "quantifier": "every tape", "why_tests_cant": "the result is only visible on a later read", "anchors": ["src/device/tape.c:tape_erase_gap"]}
{"id": "C35", "title": "A drive finds its place on the track again", "statement": "When a drive was only rotating for a while, dasd_update leaves it at the position where a drive that was reading all the time would be.", "quantifier": "every track and rotation", "why_tests_cant": "two position machines that must agree at every one of thousands of positions", "anchors": ["src/device/dasd.c:dasd_update", "src/device/dasd.c:dasd_read_byte", "src/device/dasd.c:dasd_step"]}
{"id": "C36", "title": "A revolution reads the whole track", "statement": "From the index, one revolution of dasd_read_byte calls delivers home address, R0 and every further record of the track with sync bytes and correct check bytes, nothing else, and leaves the drive ready to deliver the same again.", "quantifier": "every drive type and every well-formed track that fits between two index points", "why_tests_cant": "all record layouts", "anchors": ["src/device/dasd.c:dasd_read_byte"]}
{"id": "C37", "title": "Updating a record in place", "statement": "Writing gap, sync byte, data and check bytes at the gap before a data field replaces exactly the data of that record; every other byte of the cylinder stays.", "quantifier": "every track, record and data", "why_tests_cant": "all layouts and data", "anchors": ["src/device/dasd.c:dasd_write_byte"]}
{"id": "C38", "title": "Writing a new record keeps the others", "statement": "Writing a new count and data field behind a record puts exactly the count, data bytes behind it and changes no other record.", "quantifier": "every record and check bytes", "why_tests_cant": "depends on the value of the check byte", "anchors": ["src/device/dasd.c:dasd_write_byte"]}
{"id": "C39", "title": "Attaching any image is memory safe", "statement": "dasd_attach of any file of the right size stays inside the cylinder buffer.", "quantifier": "every file", "why_tests_cant": "all files", "anchors": ["src/device/dasd.c:dasd_attach"]}
{"id": "C42", "title": "Every device is initialised and shut down exactly once", "statement": "system_init and system_shutdown call the init (shutdown) function of each registered device that has one exactly once, in the order of channels and registrations.", "quantifier": "every registry", "why_tests_cant": "all registries", "anchors": ["src/device/device.c:system_init", "src/device/device.c:system_shutdown"]}
{"id": "C44", "title": "Keyword values are looked up exactly", "statement": "get_index returns the position of the value in the list of keywords, or -1 when it is not in the list.", "quantifier": "every value and keyword list", "why_tests_cant": "all values; a missing value is taken for the first keyword", "anchors": ["src/conf.c:get_index"]}
{"id": "C54", "title": "One in-tag at a time, under operational-in", "statement": "The card reader/punch raises at most one of address-in, status-in and service-in, and only while it holds operational-in (except for the status-in of the busy sequence).", "quantifier": "every sequence of channel cycles, callbacks and keys, with the device alone on the interface", "why_tests_cant": "all channel schedules", "anchors": ["src/model1442/model1442.c:model1442_dev"]}
{"id": "C58", "title": "A read command delivers the card", "statement": "When the channel gives a ready card reader a read command and takes each byte in time, it gets the EBCDIC bytes of the 80 columns of the card in the reader in order (zero for invalid punches), then channel end.", "quantifier": "every card image, device address and ready device state", "why_tests_cant": "4096^80 card images", "anchors": ["src/model1442/model1442.c:read_callback", "src/model1442/model1442.c:model1442_dev"]}
{"id": "C65", "title": "The tape control acts only when selected", "statement": "The 2415 control changes bus-in or a tag to the channel only if it is selected in that cycle or was selected before and has since been neither reset nor idle.", "quantifier": "every sequence of channel cycles, callbacks and keys", "why_tests_cant": "all channel schedules", "anchors": ["src/model2415/model2415.c:model2415_dev"]}
{"id": "C66", "title": "Tape control bus-in has odd parity", "statement": "Whatever the 2415 control puts on bus-in has odd parity.", "quantifier": "every execution of a control with six drives", "why_tests_cant": "all states", "anchors": ["src/model2415/model2415.c:model2415_dev"]}
{"id": "C67", "title": "Reset leaves nothing of the tape operation", "statement": "After a reset the 2415 control is idle, holds no tag, and nothing of the operation before it is seen by the channel.", "quantifier": "every state", "why_tests_cant": "the reset may come in any state, and with callbacks pending", "anchors": ["src/model2415/model2415.c:model2415_dev"]}
{"id": "C68", "title": "One in-tag at a time, under operational-in (tape)", "statement": "The 2415 control raises at most one of address-in, status-in and service-in, and only while it holds operational-in (except for the status-in of the busy sequence).", "quantifier": "every sequence of channel cycles, callbacks and keys, with the device alone on the interface", "why_tests_cant": "all channel schedules", "anchors": ["src/model2415/model2415.c:model2415_dev"]}
{"id": "C69", "title": "Read commands deliver the tape", "statement": "Read commands to a ready nine-track drive deliver the bytes of the blocks on the tape in order, each with channel end and device end, and a tape mark with unit exception.", "quantifier": "every tape image, list of blocks, drive, device address, and timing of frames", "why_tests_cant": "all images and timings", "anchors": ["src/model2415/model2415.c:model2415_dev", "src/model2415/model2415.c:tape_callback", "src/model2415/model2415.c:tape_done_callback", "src/device/tape.c:tape_read_forw"]}
{"id": "C70", "title": "Every tape command ends", "statement": "A command accepted by the 2415 control ends with channel end and device end.", "quantifier": "every state", "why_tests_cant": "needs a particular history", "anchors": ["src/model2415/model2415.c:model2415_dev"]}
{"id": "C71", "title": "The tape control shows the address of its drive", "statement": "On address-in, bus-in is the address of the drive selected, or of the drive that asks for service.", "quantifier": "every state", "why_tests_cant": "depends on the scanner and the drive used before", "anchors": ["src/model2415/model2415.c:model2415_dev"]}
{"id": "C72", "title": "The tape control is memory safe", "statement": "No sequence of channel cycles, callbacks and keys leads outside the table of drives, or to a drive that is not there.", "quantifier": "every sequence", "why_tests_cant": "all sequences and addresses", "anchors": ["src/model2415/model2415.c:model2415_dev"]}
{"id": "C73", "title": "Rewind", "statement": "A rewind command is accepted with channel end; then the drive comes to the load point, its file holds everything written, and the drive reports ready.", "quantifier": "every ready drive, tape and position", "why_tests_cant": "all positions", "anchors": ["src/model2415/model2415.c:model2415_dev", "src/model2415/model2415.c:rew_callback"]}
{"id": "C74", "title": "A write-protected tape file is never changed", "statement": "Whatever the channel and the operator do, the file of a tape mounted without a ring stays as it is.", "quantifier": "every execution", "why_tests_cant": "all executions", "anchors": ["src/model2415/model2415.c:model2415_dev", "src/model2415/model2415.c:tape_callback", "src/device/tape.c:tape_write_start", "src/device/tape.c:tape_detach"]}
{"id": "C75", "title": "Reading behind the last block is reported", "statement": "A read command at the end of the tape does not end as if a block had been read.", "quantifier": "every tape", "why_tests_cant": "only behind the last block", "anchors": ["src/model2415/model2415.c:tape_callback", "src/device/tape.c:tape_read_forw"]}
{"id": "C76", "title": "2030 control store addresses", "statement": "Every microinstruction leaves the address of the next one inside the 4096 words of control store, and so do the addresses saved by channel traps.", "quantifier": "every word, state and switch setting", "why_tests_cant": "all words and states", "anchors": ["src/model2030/cpu2030.c:cycle_2030"]}
{"id": "C77", "title": "2030 microprogram traps", "statement": "When a trap waits, is not held off and no storage access is under way, the next cycle takes the one of highest priority: it goes to the address of the trap, takes off its request only, keeps storage, and a channel trap saves the address of the program. Otherwise the microinstruction is executed.", "quantifier": "all sets of requests, masks and states", "why_tests_cant": "256 request patterns times all states", "anchors": ["src/model2030/cpu2030.c:cycle_2030"]}
{"id": "C78", "title": "2030 registers keep odd parity", "statement": "In a run without the order that makes parity even, the registers fed by the adder keep odd parity.", "quantifier": "every sequence of microinstructions and inputs", "why_tests_cant": "all executions", "anchors": ["src/model2030/cpu2030.c:cycle_2030"]}
{"id": "C79", "title": "2030 read and regenerate", "statement": "A byte of storage read and then written back, with any microinstructions between that do not change R or the key, is unchanged, and so is every other byte and key.", "quantifier": "every storage size, address, contents and sequence", "why_tests_cant": "all sequences", "anchors": ["src/model2030/cpu2030.c:cycle_2030"]}
{"id": "C80", "title": "2030 address check", "statement": "A read order for an address that is not installed requests the wrap trap and reads nothing, and an order for an installed address does not.", "quantifier": "every storage size and address", "why_tests_cant": "only on machines with less than 64K", "anchors": ["src/model2030/cpu2030.c:cycle_2030"]}
{"id": "C81", "title": "2030 branch on valid digits", "statement": "The branch on decimal digits is taken exactly when both digits of R are decimal.", "quantifier": "every word with that branch, every R", "why_tests_cant": "all states", "anchors": ["src/model2030/cpu2030.c:cycle_2030"]}
{"id": "C82", "title": "2030 memory safety", "statement": "No microinstruction reads or writes outside of main, local or protection storage, the tables or the control store.", "quantifier": "every run", "why_tests_cant": "all executions", "anchors": ["src/model2030/cpu2030.c:cycle_2030"]}
{"id": "C83", "title": "2030 a stopped store stays stopped", "statement": "After a store to a protected byte was stopped, no later write order changes that byte before the next read order.", "quantifier": "every state", "why_tests_cant": "needs a write order directly behind the store", "anchors": ["src/model2030/cpu2030.c:cycle_2030"]}
{"id": "C84", "title": "2030 store key parity", "statement": "A byte stored by the operator has odd parity in storage.", "quantifier": "every switch setting", "why_tests_cant": "the display key hides it", "anchors": ["src/model2030/cpu2030.c:cycle_2030"]}
{"id": "C85", "title": "2030 selector channel input", "statement": "The write half of a selector data cycle changes at most the byte at the data address: with input and no skip it becomes the data byte, or stays when the channel's key does not fit.", "quantifier": "every state of the channel", "why_tests_cant": "all contents and keys", "anchors": ["src/model2030/cpu2030.c:cycle_2030"]}
{"id": "C86", "title": "2030 branch on channel interrupts", "statement": "The branch on interrupts goes to the entry of selector channel 2 exactly when channel 2 has an interrupt its mask lets through and channel 1 has not.", "quantifier": "all masks and latches", "why_tests_cant": "needs two selector channels", "anchors": ["src/model2030/cpu2030.c:cycle_2030"]}
{"id": "C87", "title": "1443 written line", "statement": "A write command with spacing n and up to 120 bytes, from selection to device end, appends to the printer file exactly the characters of the bytes without the blanks at the end and n line ends, moves the carriage n lines, shows the statuses 0, channel end, device end, and leaves the printer ready for the next command (while the carriage stays on the form and does not pass channel 9 or 12).", "quantifier": "every line of 0 to 120 bytes, spacing, address, prior contents and state of an idle printer", "why_tests_cant": "all lines and states; the printer lets go of the interface after every third byte", "anchors": ["src/model1443/model1443.c:model1443_dev", "src/model1443/model1443.c:print_line"]}
{"id": "C88", "title": "1443 spacing", "statement": "Spacing n lines moves the carriage n lines; behind the last line of the form it goes to the first with a form feed.", "quantifier": "every line and spacing", "why_tests_cant": "needs the end of the form", "anchors": ["src/model1443/model1443.c:print_line"]}
{"id": "C89", "title": "1443 skip to channel", "statement": "A skip to channel c moves the carriage to the line with the hole of channel c, on the next form if it is not below the current line.", "quantifier": "every line and channel", "why_tests_cant": "all lines and channels", "anchors": ["src/model1443/model1443.c:print_line"]}
{"id": "C90", "title": "1443 bus-in parity", "statement": "Every byte the printer puts on bus-in has odd parity.", "quantifier": "every history", "why_tests_cant": "all histories", "anchors": ["src/model1443/model1443.c:model1443_dev"]}
{"id": "C91", "title": "1443 drives only when selected", "statement": "The printer raises tags (other than request-in), changes bus-in or holds back select-out only when it is addressed, polled while it asks for service, or in an exchange so begun.", "quantifier": "every history and every cycle", "why_tests_cant": "all histories", "anchors": ["src/model1443/model1443.c:model1443_dev"]}
{"id": "C92", "title": "1443 sense", "statement": "A sense command gives status 0, the sense byte, and channel end and device end.", "quantifier": "every state of the idle printer", "why_tests_cant": "all states", "anchors": ["src/model1443/model1443.c:model1443_dev"]}
{"id": "C93", "title": "1443 command with bad parity", "statement": "A command that comes with bad parity is refused with unit check and bus-out check, and has no effect on the paper.", "quantifier": "every command byte", "why_tests_cant": "needs an error on the bus", "anchors": ["src/model1443/model1443.c:model1443_dev"]}
{"id": "C94", "title": "1443 device end after the movement", "statement": "Device end is shown only when the paper has stopped.", "quantifier": "every history", "why_tests_cant": "needs a movement left over", "anchors": ["src/model1443/model1443.c:model1443_dev"]}
{"id": "C95", "title": "1443 definedness", "statement": "No cycle of the interface, end of a movement or key runs into behaviour C does not define.", "quantifier": "every history", "why_tests_cant": "all histories", "anchors": ["src/model1443/model1443.c:model1443_dev", "src/model1443/model1443.c:print_line", "src/model1443/panel1443.c:model1443_update"]}
{"id": "C96", "title": "1443 ending status is stable", "statement": "The ending status does not change while status-in is up.", "quantifier": "every state", "why_tests_cant": "a change after one cycle", "anchors": ["src/model1443/model1443.c:model1443_dev"]}
{"id": "C97", "title": "1443 start key", "statement": "The device end made by the start key is presented to the channel.", "quantifier": "every state", "why_tests_cant": "nothing happens", "anchors": ["src/model1443/model1443.c:model1443_dev", "src/model1443/panel1443.c:model1443_update"]}
{"id": "C98", "title": "1443 command table", "statement": "Every command byte is either obeyed and comes to an end or refused with command reject.", "quantifier": "every byte", "why_tests_cant": "all bytes", "anchors": ["src/model1443/model1443.c:model1443_dev"]}
{"id": "C99", "title": "1052 keyboard queue", "statement": "The characters typed are given out once each and in the order they were typed; nothing that happens to the console adds one in between or changes the order, and the ring of 256 characters stays consistent.", "quantifier": "every history; every interleaving of typing and taking below 256 characters", "why_tests_cant": "all interleavings and wraps of the ring", "anchors": ["src/model1052/model1052.c:push_char", "src/model1052/model1052.c:model1052_in"]}
{"id": "C100", "title": "1052 telnet stream", "statement": "Of a telnet stream (RFC 854) exactly the characters are taken for typed, however the stream is cut into pieces; commands, options and subnegotiations are not.", "quantifier": "every stream and every cut", "why_tests_cant": "all streams", "anchors": ["src/model1052/model1052.c:model1052_thrd"]}
{"id": "C101", "title": "1052 definedness", "statement": "No cycle of the interface, callback, key or call from the 2030 runs into behaviour C does not define.", "quantifier": "every history", "why_tests_cant": "all histories", "anchors": ["src/model1052/model1052.c:model1052_dev", "src/model1052/model1052.c:model1052_in"]}
{"id": "C102", "title": "1052 written text", "statement": "A write command with any bytes, from selection to device end, sends exactly the characters of the bytes to the terminal (and a new line for the second form), with statuses 0 and channel end + device end.", "quantifier": "every idle state and every text", "why_tests_cant": "all texts", "anchors": ["src/model1052/model1052.c:model1052_dev", "src/model1052/model1052.c:send_callback", "src/model1052/model1052.c:model1052_out"]}
{"id": "C103", "title": "1052 command table", "statement": "The first status is 0 for test I/O, write, write with new line, read and sense, channel end + device end for no-operation, and unit check with command reject for every other byte.", "quantifier": "every idle state and every byte", "why_tests_cant": "all bytes and states", "anchors": ["src/model1052/model1052.c:device_cmd", "src/model1052/model1052.c:model1052_dev"]}
{"id": "C104", "title": "1052 sense", "statement": "A sense command gives its sense byte and ends with channel end and device end.", "quantifier": "every idle state", "why_tests_cant": "a command that never ends", "anchors": ["src/model1052/model1052.c:device_cmd", "src/model1052/model1052.c:model1052_dev"]}
{"id": "C105", "title": "1052 read line", "statement": "A read command gives the codes of the characters typed, in order, and ends with channel end and device end at the return key.", "quantifier": "every idle state, line and timing", "why_tests_cant": "timing of keys and channel", "anchors": ["src/model1052/model1052.c:poll_callback", "src/model1052/model1052.c:model1052_dev"]}
{"id": "C106", "title": "1052 attention", "statement": "When the attention key is pressed on an idle console it asks for service, shows attention when polled, and is idle again.", "quantifier": "every idle state with nothing to report", "why_tests_cant": "all states", "anchors": ["src/model1052/model1052.c:poll_callback", "src/model1052/model1052.c:model1052_dev"]}
{"id": "C107", "title": "1052 bus-in parity", "statement": "Every byte the console puts on bus-in has odd parity.", "quantifier": "every history", "why_tests_cant": "all histories", "anchors": ["src/model1052/model1052.c:model1052_dev"]}
{"id": "C108", "title": "1052 idle console is silent", "statement": "An idle console that is neither addressed nor polled while it has a request raises no tag (other than request-in), does not change bus-in or its state, and passes select-out on.", "quantifier": "every state and cycle", "why_tests_cant": "all states", "anchors": ["src/model1052/model1052.c:model1052_dev"]}
{"id": "C109", "title": "1052 reset", "statement": "A system reset leaves nothing of the command before: the next command is taken as by a fresh console.", "quantifier": "every state", "why_tests_cant": "needs a reset at the right cycle", "anchors": ["src/model1052/model1052.c:model1052_dev"]}
{"id": "C110", "title": "1052 halted command", "statement": "A command halted by the channel comes to an end: device end is presented.", "quantifier": "every state and continuation", "why_tests_cant": "something that never happens", "anchors": ["src/model1052/model1052.c:model1052_dev", "src/model1052/model1052.c:poll_callback"]}
{"id": "C111", "title": "1052 request only with cause", "statement": "An idle console asks for service only when it has a status to report.", "quantifier": "every state", "why_tests_cant": "a request for nothing", "anchors": ["src/model1052/model1052.c:poll_callback"]}
{"id": "C112", "title": "1442 command table", "statement": "A card reader and punch at rest answers test I/O, write (01 21 81 A1), read (02 22), control (03 23 83 A3) and sense (04) with the first status of the command table, and every other byte with unit check and command reject in the sense byte.", "quantifier": "every resting state and every byte", "why_tests_cant": "all bytes and states", "anchors": ["src/model1442/model1442.c:device_cmd", "src/model1442/model1442.c:model1442_dev"]}
{"id": "C113", "title": "1442 deck read", "statement": "Reading a deck of any length with the end-of-file key pressed delivers the bytes of all cards in order; each read ends with channel end, then device end (with unit check if the card had an invalid column), the last with unit exception.", "quantifier": "every deck, every starting state", "why_tests_cant": "decks of every length and content", "anchors": ["src/model1442/model1442.c:read_callback", "src/model1442/model1442.c:feed_callback", "src/model1442/model1442.c:model1442_feed", "src/model1442/model1442.c:model1442_dev"]}
{"id": "C114", "title": "1442 data check", "statement": "A read of a card with an invalid column shows unit check with its device end and data check in the sense byte; a read of any other card shows neither.", "quantifier": "every card and deck", "why_tests_cant": "every card; the last card behaves differently", "anchors": ["src/model1442/model1442.c:read_callback", "src/model1442/model1442.c:feed_callback"]}
{"id": "C115", "title": "1442 sense", "statement": "A sense command delivers the sense byte, ends with channel end and device end, and leaves the sense byte as it is.", "quantifier": "every resting state", "why_tests_cant": "all states", "anchors": ["src/model1442/model1442.c:device_cmd", "src/model1442/model1442.c:model1442_dev"]}
{"id": "C116", "title": "1442 punching", "statement": "A write command punches the bytes sent over the card in the punch, from column 1 to at most column 80; with a feed the card goes to the selected stacker, the other is left alone, and the next card comes.", "quantifier": "every text, card and deck", "why_tests_cant": "all texts; the failing ones corrupt memory reads", "anchors": ["src/model1442/model1442.c:write_callback", "src/model1442/model1442.c:device_stop", "src/model1442/model1442.c:feed_callback", "src/model1442/model1442.c:model1442_dev"]}
{"id": "C117", "title": "Trace text is safe", "statement": "For every six bytes print_inst writes inside its buffers, and the text it hands to the logger as a format string has no percent sign.", "quantifier": "all 2^48 instructions", "why_tests_cant": "2^48 inputs", "anchors": ["src/device/disassem.c:print_inst"]}
{"id": "C118", "title": "Trace text is faithful", "statement": "Two instructions have the same trace text just when their operation codes and all fields that mean something agree.", "quantifier": "all pairs of instructions", "why_tests_cant": "2^96 pairs", "anchors": ["src/device/disassem.c:print_inst", "src/device/disassem.c:optab"]}
{"id": "C119", "title": "Trace text is the assembler notation", "statement": "For every instruction the trace text is the mnemonic of the Principles of Operation and the operands in the notation of the assembler.", "quantifier": "all 2^48 instructions", "why_tests_cant": "2^48 inputs", "anchors": ["src/device/disassem.c:print_inst", "src/device/disassem.c:optab"]}
{"id": "C120", "title": "2841 arithmetic", "statement": "Every microinstruction of the storage control computes the sum, difference or logical function of the operands it names, the carry out of it and the indication that it is not zero.", "quantifier": "all states and microinstructions", "why_tests_cant": "the state and the 44 bits of a microinstruction are far too many to try", "anchors": ["src/model2841/model2841.c:step_2841"]}
{"id": "C121", "title": "2841 registers", "statement": "A microinstruction changes only the register and the status bits it names; in the tag registers it sets or resets just the bits of the result; lines and latches of the channel stay but for the ones the microinstruction acts on.", "quantifier": "all states and microinstructions", "why_tests_cant": "a frame property over the whole state", "anchors": ["src/model2841/model2841.c:step_2841"]}
{"id": "C122", "title": "2841 next address", "statement": "The next address is the one named, with its low bits from the named conditions or the A bus; in every execution the address stays within the control store, registers stay bytes, and only an operation of a drive can be undefined.", "quantifier": "all control stores, all histories of steps, channel calls, seeks and packs", "why_tests_cant": "unbounded histories, all microprograms", "anchors": ["src/model2841/model2841.c:step_2841", "src/model2841/model2841.c:model2841_dev"]}
{"id": "C123", "title": "2841 drives", "statement": "In a step every drive moves on exactly once: the connected ones read or write a byte as the control register says, the others turn; only the selected drive gets tags; the attention register shows the drives' attention; writing the unit register selects the first drive whose bit is on.", "quantifier": "all states, control stores and drives", "why_tests_cant": "all combinations of eight drives and registers", "anchors": ["src/model2841/model2841.c:step_2841"]}
{"id": "C124", "title": "2841 bus", "statement": "The channel connection is defined for any tags; what it puts on the bus has odd parity and is the write register or the busy status; tags with a byte rise only with a byte; no line of the channel but SELECT OUT, no drive, and no register but the error register and the latch for dropping OPERATIONAL IN changes.", "quantifier": "all states, tags and bus values", "why_tests_cant": "all combinations of tags, latches and registers", "anchors": ["src/model2841/model2841.c:model2841_dev"]}
{"id": "C125", "title": "2841 leaves others alone", "statement": "A control that has nothing to do and is not addressed changes neither the tags nor the bus.", "quantifier": "all idle states, tags and bus values", "why_tests_cant": "needs other units at the same time", "anchors": ["src/model2841/model2841.c:model2841_dev"]}
{"id": "C126", "title": "2841 selection", "statement": "A control answers when its address is sent: free, it takes SELECT OUT and is addressed; with status pending, it answers busy.", "quantifier": "all states, all addresses a control can be given", "why_tests_cant": "all addresses and tags", "anchors": ["src/model2841/model2841.c:model2841_dev", "src/model2841/model2841.c:model2841_create"]}
{"id": "C127", "title": "2841 reset", "statement": "When OPERATIONAL OUT and SUPPRESS OUT are down the control starts its microprogram anew, is neither selected nor addressed and takes back its lines.", "quantifier": "all states", "why_tests_cant": "all states of latches", "anchors": ["src/model2841/model2841.c:model2841_dev"]}
{"id": "C128", "title": "2841 service interlock", "statement": "SERVICE IN rises only while SERVICE OUT is down.", "quantifier": "all histories", "why_tests_cant": "depends on the order of steps and channel calls", "anchors": ["src/model2841/model2841.c:model2841_dev"]}
{"id": "C129", "title": "2302 drives", "statement": "A 2302 drive can be added to a control that has a free place.", "quantifier": "all controls and addresses", "why_tests_cant": "needs the configuration of every place", "anchors": ["src/model2841/model2841.c:model2302_create"]}
{"id": "C130", "title": "A configuration line creates what it names", "statement": "A line calls the create function of the first device of that name exactly once, with the unit, letter, numbers and address written on it, and returns its answer; a line without its address or with an unknown name calls nothing; blank lines and comments do nothing.", "quantifier": "every device list, create function and well-formed line", "why_tests_cant": "all lines and device lists", "anchors": ["src/conf.c:load_line", "src/conf.c:load_config"]}
{"id": "C131", "title": "A configuration file is its lines", "statement": "Loading a file obeys its lines one after the other up to the first one that fails, and then closes the file once.", "quantifier": "every file", "why_tests_cant": "all files; the line buffer has 1024 characters", "anchors": ["src/conf.c:load_config"]}
{"id": "C132", "title": "Errors in a configuration file are returned", "statement": "load_config returns 0 if any line could not be obeyed and 1 otherwise, and what made it fail is the last message.", "quantifier": "every file, device list and create function", "why_tests_cant": "all files", "anchors": ["src/conf.c:load_config"]}
{"id": "C133", "title": "A configuration line speaks for itself", "statement": "What a create function is given depends only on its own line.", "quantifier": "every line and every line before it", "why_tests_cant": "any sequence of lines", "anchors": ["src/conf.c:load_config", "src/conf.c:get_model"]}
{"id": "C134", "title": "The letter of a CPU gives its memory", "statement": "The letter behind 2030 or 2050 gives a memory of 2K, 4K, 8K and so on within the limits of the machine, other letters are refused; without a letter there are 64K; a second CPU is refused.", "quantifier": "every letter, options and state", "why_tests_cant": "all options and letters", "anchors": ["src/model2030/model2030.c:model2030_create", "src/model2050/cpu2050.c:model2050_create"]}
{"id": "C135", "title": "LOGLEVEL adds the levels it names", "statement": "LOGLEVEL adds exactly the levels named on the line to the log level, in any number and order, and fails if a word is not a level.", "quantifier": "every line", "why_tests_cant": "all lists of words", "anchors": ["src/logger.c:logLEVEL_create"]}
{"id": "C59", "title": "The keys of the card reader act on what they name", "statement": "Each key of the 1442 panel acts on the hopper, stacker or switch it names and on nothing else: empty takes all cards out of it, save writes all cards of the stacker to the file and leaves them there, the blank-card key adds that many blank cards behind the others, start and stop and end-of-file change the status they stand for.", "quantifier": "every key in every state the channel, the callbacks and the operator can bring about", "why_tests_cant": "all states of the device and decks of any size", "anchors": ["src/model1442/panel1442.c:model1442_update", "src/device/card.c:empty_cards", "src/device/card.c:save_deck", "src/device/card.c:blank_deck"]}
{"id": "C136", "title": "Forward spacing stops where it should", "statement": "A forward space file command to a ready 2415 drive goes past all blocks to behind the next tape mark and reports device end; a forward space block command goes behind the next block, or behind the next tape mark with unit exception; neither changes the tape.", "quantifier": "every tape image, number and length of blocks, position, drive and control address", "why_tests_cant": "all tapes and positions", "anchors": ["src/model2415/model2415.c:tape_callback", "src/model2415/model2415.c:device_cmd", "src/device/tape.c:tape_read_forw", "src/device/tape.c:tape_finish_rec"]}
