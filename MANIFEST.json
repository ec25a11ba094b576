{
 "claims": [
  {
   "property": "C01",
   "status": "proved",
   "theorems": [
    "C01_buffer_fifo"
   ],
   "note": ""
  },
  {
   "property": "C02",
   "status": "partial",
   "theorems": [
    "C02_buffer_output_count_refuted",
    "C02_buffer_output_count_partial",
    "C02_buffer_output_count_wrap_refuted"
   ],
   "note": "False of the code: the count is short when the stored block wraps; exact error and the correct cases are proved."
  },
  {
   "property": "C03",
   "status": "proved",
   "theorems": [
    "C03_circbuf_fifo"
   ],
   "note": ""
  },
  {
   "property": "C04",
   "status": "proved",
   "theorems": [
    "C04_telnet_transparent",
    "C04_telnet_flush"
   ],
   "note": "Commands fit the command buffer (otherwise see C39); write buffer of at least 2 bytes."
  },
  {
   "property": "C05",
   "status": "proved",
   "theorems": [
    "C05_telnet_decoder_safe",
    "C05_telnet_filter_safe"
   ],
   "note": ""
  },
  {
   "property": "C06",
   "status": "proved",
   "theorems": [
    "C06_telnet_suboption",
    "C06_telnet_suboption_atomic",
    "C06_telnet_suboption_long_refuted"
   ],
   "note": "Fits means at most 28 payload bytes after the option byte; longer ones are shown damaged."
  },
  {
   "property": "C07",
   "status": "proved",
   "theorems": [
    "C07_telnet_negotiation_terminates"
   ],
   "note": ""
  },
  {
   "property": "C38",
   "status": "partial",
   "theorems": [
    "C38_telnet_winsize_refuted",
    "C38_telnet_winsize_partial"
   ],
   "note": "False of the code when a size byte is 255."
  },
  {
   "property": "C39",
   "status": "partial",
   "theorems": [
    "C39_telnet_command_overflow_refuted"
   ],
   "note": "False of the code: partial commands are stored when the buffer is full; C04 proves the property when they fit."
  },
  {
   "property": "C08",
   "status": "proved",
   "theorems": [
    "C08_crc16_is_remainder",
    "C08_crc16_residue",
    "C08_crc16_detects",
    "C08_msgdelim_corrupt_rejected"
   ],
   "note": "Errors are counted in the message and CRC bytes before escaping; for errors on the wire see C42."
  },
  {
   "property": "C09",
   "status": "proved",
   "theorems": [
    "C09_msgdelim_round_trip",
    "C09_msgdelim_progress",
    "C09_msgdelim_sender_safe"
   ],
   "note": "No lower layer error (C44) and no refused write before the first message (C41)."
  },
  {
   "property": "C10",
   "status": "partial",
   "theorems": [
    "C10_msgdelim_overrun_refuted",
    "C10_msgdelim_within_limit_partial"
   ],
   "note": "False of the code: the buffer is two bytes shorter than the limit checked, for every configured size."
  },
  {
   "property": "C11",
   "status": "partial",
   "theorems": [
    "C11_msgdelim_no_recovery_refuted",
    "C11_msgdelim_resync_partial"
   ],
   "note": "False of the code: the bad bytes stay in the buffer and spoil every later CRC."
  },
  {
   "property": "C40",
   "status": "proved",
   "theorems": [
    "C40_ccitt_detects"
   ],
   "note": ""
  },
  {
   "property": "C41",
   "status": "partial",
   "theorems": [
    "C41_msgdelim_refusal_refuted",
    "C41_msgdelim_refused_iff_partial"
   ],
   "note": "False of the code when the refused write comes first; otherwise proved (with C09)."
  },
  {
   "property": "C42",
   "status": "partial",
   "theorems": [
    "C42_msgdelim_wire_bit_refuted"
   ],
   "note": "False of the code: 254 0 becomes 254 1."
  },
  {
   "property": "C43",
   "status": "partial",
   "theorems": [
    "C43_msgdelim_reopen_refuted"
   ],
   "note": "False of the code: the leading separator is not sent again."
  },
  {
   "property": "C44",
   "status": "partial",
   "theorems": [
    "C44_msgdelim_error_overrun_refuted"
   ],
   "note": "False of the code after lower layer errors; C09_msgdelim_sender_safe proves it when there is none."
  },
  {
   "property": "C12",
   "status": "proved",
   "theorems": [
    "C12_kiss_round_trip",
    "C12_kiss_receiver"
   ],
   "note": "Non-empty writes (empty ones: C13) within the size (C47), no lower layer error.  A client may put one bogus port 12 packet in front (C46)."
  },
  {
   "property": "C13",
   "status": "partial",
   "theorems": [
    "C13_kiss_receiver_safe_partial",
    "C13_kiss_sender_safe_partial",
    "C13_kiss_empty_writes_refuted",
    "C13_kiss_lower_error_refuted"
   ],
   "note": "Receiver proved for all streams.  False for the sender with empty writes or after lower layer errors; proved otherwise."
  },
  {
   "property": "C45",
   "status": "partial",
   "theorems": [
    "C45_kiss_parameters_refuted"
   ],
   "note": "False of the code for every configuration."
  },
  {
   "property": "C46",
   "status": "partial",
   "theorems": [
    "C46_kiss_spurious_packet_refuted"
   ],
   "note": "False of the code when the receiver enables port 12; C12_kiss_round_trip proves it otherwise (extra = [])."
  },
  {
   "property": "C47",
   "status": "partial",
   "theorems": [
    "C47_kiss_oversize_refuted"
   ],
   "note": "False of the code for writes longer than writebuf; C12 covers the others."
  },
  {
   "property": "C48",
   "status": "partial",
   "theorems": [
    "C48_kiss_tncs_refuted"
   ],
   "note": "False of the code."
  },
  {
   "property": "C49",
   "status": "partial",
   "theorems": [
    "C49_kiss_disabled_port_refuted"
   ],
   "note": "False of the code when output is pending."
  },
  {
   "property": "C14",
   "status": "partial",
   "theorems": [
    "C14_hdlc_sender",
    "C14_hdlc_stuffing",
    "C14_hdlc_round_trip_partial"
   ],
   "note": "Proved for up to eight packets per connection (C15) whose frame fits the write buffer (C50); sender part unbounded."
  },
  {
   "property": "C15",
   "status": "partial",
   "theorems": [
    "C15_hdlc_ninth_packet_refuted",
    "C15_hdlc_dropped_refuted",
    "C15_hdlc_eight_partial"
   ],
   "note": "False of the code from the ninth packet on; proved for up to eight."
  },
  {
   "property": "C50",
   "status": "partial",
   "theorems": [
    "C50_hdlc_write_overflow_refuted",
    "C50_hdlc_write_bounds_partial",
    "C50_hdlc_no_flags_partial"
   ],
   "note": "False of the code with default options; exact bound proved."
  },
  {
   "property": "C51",
   "status": "partial",
   "theorems": [
    "C51_hdlc_empty_write_refuted"
   ],
   "note": "False of the code."
  },
  {
   "property": "C52",
   "status": "partial",
   "theorems": [
    "C52_hdlc_short_packets_refuted"
   ],
   "note": "False of the code with crc=no for 1 and 2 byte packets; C14/C15 cover the others."
  },
  {
   "property": "C53",
   "status": "partial",
   "theorems": [
    "C53_hdlc_reopen_refuted"
   ],
   "note": "False of the code."
  },
  {
   "property": "C54",
   "status": "partial",
   "theorems": [
    "C54_hdlc_resync_partial"
   ],
   "note": "Proved while at most eight packets are recognised (C15)."
  },
  {
   "property": "C55",
   "status": "partial",
   "theorems": [
    "C55_hdlc_sound_partial"
   ],
   "note": "Proved while at most eight packets are recognised (C15); up to one bit at the end of the frame."
  },
  {
   "property": "C16",
   "status": "proved",
   "theorems": [
    "C16_relpkt_exactly_once_in_order",
    "C16_relpkt_reordering"
   ],
   "note": "Two full endpoints and a network; windows up to 127 packets, packet size up to 65532."
  },
  {
   "property": "C17",
   "status": "partial",
   "theorems": [
    "C17_relpkt_any_window_refuted",
    "C17_relpkt_window_255_refuted",
    "C17_relpkt_windows_partial"
   ],
   "note": "False of the code for max_packets 128 (duplicate) and 255 (stall); proved up to 127."
  },
  {
   "property": "C18",
   "status": "partial",
   "theorems": [
    "C18_relpkt_marks_partial",
    "C18_relpkt_stale_mark_refuted",
    "C18_relpkt_early_mark_refuted"
   ],
   "note": "Requested marks are delivered in the right place; the code also delivers marks that were not requested."
  },
  {
   "property": "C56",
   "status": "partial",
   "theorems": [
    "C56_relpkt_any_peer_partial",
    "C56_relpkt_any_peer_refuted"
   ],
   "note": "False of the code for a resend request with a reversed range; proved for all other packets, max_packets up to 128."
  },
  {
   "property": "C57",
   "status": "partial",
   "theorems": [
    "C57_relpkt_window_room_refuted",
    "C57_relpkt_write_when_clear_partial"
   ],
   "note": "False of the code at the wrap of the sequence number."
  },
  {
   "property": "C58",
   "status": "partial",
   "theorems": [
    "C58_relpkt_loss_protocol_error_refuted"
   ],
   "note": "False of the code."
  },
  {
   "property": "C59",
   "status": "partial",
   "theorems": [
    "C59_relpkt_open_times_out_partial",
    "C59_relpkt_open_refused_forever_refuted"
   ],
   "note": "False of the code if the peer refuses; with a silent peer the open fails after six timeouts."
  },
  {
   "property": "C60",
   "status": "partial",
   "theorems": [
    "C60_relpkt_zero_window_refuted"
   ],
   "note": "False of the code."
  },
  {
   "property": "C19",
   "status": "proved",
   "theorems": [
    "C19_quoted_strings_parse_back",
    "C19_quoted_gensio_arguments",
    "C19_every_string_is_quoted"
   ],
   "note": ""
  },
  {
   "property": "C20",
   "status": "partial",
   "theorems": [
    "C20_hex_escape_refuted",
    "C20_escapes_partial",
    "C20_exact_meaning_partial"
   ],
   "note": "False of the code: ten is not added for the letters of hexadecimal escapes. Proved for escapes without letters; the exact meaning implemented is characterised."
  },
  {
   "property": "C21",
   "status": "proved",
   "theorems": [
    "C21_append",
    "C21_copy",
    "C21_scan"
   ],
   "note": ""
  },
  {
   "property": "C22",
   "status": "partial",
   "theorems": [
    "C22_u32_strict_refuted",
    "C22_u32_round_trip_partial",
    "C22_u16_round_trip"
   ],
   "note": "Undefined by the C standard for 32-bit values of 2^31 or more; proved for these with a wrapping shift, and strictly for all others."
  },
  {
   "property": "C61",
   "status": "partial",
   "theorems": [
    "C61_bufv_null_write_refuted",
    "C61_bufv_copy_leak_refuted",
    "C61_cstr_to_bufv_partial",
    "C61_bufv_copy_partial"
   ],
   "note": "False of the code; proved without failing allocations or for at most eight tokens."
  },
  {
   "property": "C62",
   "status": "proved",
   "theorems": [
    "C62_print_arguments",
    "C62_print_parse"
   ],
   "note": ""
  },
  {
   "property": "C63",
   "status": "partial",
   "theorems": [
    "C63_scan_args_leak_refuted",
    "C63_scan_args_partial"
   ],
   "note": "False of the code for a missing parenthesis; everything else proved."
  },
  {
   "property": "C23",
   "status": "proved",
   "theorems": [
    "C23_time_add",
    "C23_time_cmp",
    "C23_time_diff"
   ],
   "note": "For results that fit in 64 bits."
  },
  {
   "property": "C24",
   "status": "partial",
   "theorems": [
    "C24_add_nsecs_refuted",
    "C24_to_nsecs_refuted",
    "C24_negative_refuted",
    "C24_add_nsecs_partial",
    "C24_to_msecs",
    "C24_to_usecs",
    "C24_from_counts_partial",
    "C24_round_trip_partial"
   ],
   "note": "False of the code in three ways; proved otherwise."
  },
  {
   "property": "C64",
   "status": "partial",
   "theorems": [
    "C64_documented_time_refuted",
    "C64_error_code_refuted",
    "C64_negative_and_large_refuted",
    "C64_str_to_time_partial",
    "C64_plain_number"
   ],
   "note": "False of the code for several units below a second, negative and very large numbers; proved otherwise."
  },
  {
   "property": "C25",
   "status": "partial",
   "theorems": [
    "C25_count_refuted",
    "C25_count_exceeds_refuted",
    "C25_user_loses_data_refuted",
    "C25_translation",
    "C25_call_partial",
    "C25_user_partial"
   ],
   "note": "The translation claim is proved; the count claim is false of the code whenever bytes were held from an earlier call."
  },
  {
   "property": "C65",
   "status": "partial",
   "theorems": [
    "C65_range_refuted",
    "C65_false_refuted",
    "C65_options_partial"
   ],
   "note": "False of the code for a second number above 255 and for booleans set to false; proved otherwise."
  },
  {
   "property": "C26",
   "status": "proved",
   "theorems": [
    "C26_wire_round_trip",
    "C26_decode_safe",
    "C26_reencode"
   ],
   "note": "The reserved bits are not carried over."
  },
  {
   "property": "C66",
   "status": "partial",
   "theorems": [
    "C66_port_refuted",
    "C66_h_bit_refuted",
    "C66_text_round_trip_partial"
   ],
   "note": "False of the code for ports other than 0 and for the h bit with ssid 0; proved otherwise."
  },
  {
   "property": "C67",
   "status": "partial",
   "theorems": [
    "C67_command_refuted",
    "C67_number_refuted",
    "C67_empty_refuted",
    "C67_stale_refuted",
    "C67_callsign_partial",
    "C67_ssid_partial",
    "C67_accepted"
   ],
   "note": "False of the code in four ways; the documented forms without :c and :r proved for a cleared structure."
  },
  {
   "property": "C27",
   "status": "proved",
   "theorems": [
    "C27_rate",
    "C27_in_order",
    "C27_progress"
   ],
   "note": ""
  },
  {
   "property": "C28",
   "status": "partial",
   "theorems": [
    "C28_overread_refuted",
    "C28_reopen_refuted",
    "C28_data_partial",
    "C28_progress_partial"
   ],
   "note": "False of the code with sendon strings (reads beyond the caller's data) and after reopening; proved otherwise."
  },
  {
   "property": "C68",
   "status": "partial",
   "theorems": [
    "C68_negative_delay_refuted",
    "C68_deadline_partial",
    "C68_not_early"
   ],
   "note": "The deadline is proved; the delay becomes negative when the lower layer blocks for longer than max_delay."
  },
  {
   "property": "C69",
   "status": "partial",
   "theorems": [
    "C69_missed_refuted",
    "C69_phantom_refuted",
    "C69_one_byte_partial"
   ],
   "note": "False of the code for strings of several bytes and because memory behind the data is scanned; strings of one byte are proved not to be missed."
  },
  {
   "property": "C29",
   "status": "proved",
   "theorems": [
    "C29_priority_queue",
    "C29_drain"
   ],
   "note": "Proved at the level of the linked nodes: no pointer outside the allocated nodes is followed and all loops end."
  },
  {
   "property": "C30",
   "status": "proved",
   "theorems": [
    "C30_lists_are_sequences",
    "C30_contents"
   ],
   "note": ""
  },
  {
   "property": "C31",
   "status": "proved",
   "theorems": [
    "C31_freed_exactly_once",
    "C31_count_wraps_refuted",
    "C31_long_string_refuted"
   ],
   "note": "Proved within the limits of the statement; the two refuted theorems show that the code needs them."
  },
  {
   "property": "C35",
   "status": "partial",
   "theorems": [
    "C35_roundtrip_partial",
    "C35_recursive_refuted"
   ],
   "note": "hard and soft decision, any division; needs full width trellis and, for recursive codes, feedback of the current bit: without it error-free data is decoded wrongly"
  },
  {
   "property": "C36",
   "status": "partial",
   "theorems": [
    "C36_nearest_partial",
    "C36_tail_refuted"
   ],
   "note": "maximum likelihood without tail; with a tail the decoder does not use that it is zero"
  },
  {
   "property": "C37",
   "status": "proved",
   "theorems": [
    "C37_sizes",
    "C37_bits_from_bytes",
    "C37_punctured_sizes",
    "C37_punctured_refuted"
   ],
   "note": "also proved for puncture arrays keeping a bit of every symbol; sizes with other puncture arrays are not inverted (C37_punctured_refuted)"
  },
  {
   "property": "C70",
   "status": "proved",
   "theorems": [
    "C70_encoder_is_convolution"
   ],
   "note": ""
  },
  {
   "property": "C71",
   "status": "partial",
   "theorems": [
    "C71_block_encoder_partial",
    "C71_no_span_refuted"
   ],
   "note": "set_convcode_output_byte_span(false) with 3 polynomials loses bits"
  },
  {
   "property": "C72",
   "status": "proved",
   "theorems": [
    "C72_corrects_errors"
   ],
   "note": "full width trellis, feedback of the current bit for recursive codes, no puncturing"
  },
  {
   "property": "C73",
   "status": "partial",
   "theorems": [
    "C73_capacity_refuted",
    "C36_nearest_partial"
   ],
   "note": "no access outside the trellis as long as the data fit; otherwise memory is overwritten"
  },
  {
   "property": "C74",
   "status": "partial",
   "theorems": [
    "C74_output_error_refuted",
    "C70_encoder_is_convolution"
   ],
   "note": "errors for the last partial byte are ignored"
  },
  {
   "property": "C75",
   "status": "partial",
   "theorems": [
    "C75_reinit_partial",
    "C75_stray_bit_refuted"
   ],
   "note": "bits of an incomplete symbol survive reinit_convdecode"
  },
  {
   "property": "C76",
   "status": "partial",
   "theorems": [
    "C76_hard_refuted",
    "C76_first_dropped_refuted",
    "C70_encoder_is_convolution"
   ],
   "note": "encoder side proved; hard decision decoding and arrays dropping the first bit fail; soft decoding of other arrays not proved"
  },
  {
   "property": "C77",
   "status": "partial",
   "theorems": [
    "C77_block_partial",
    "C77_last_bits",
    "C77_soft_uncertainty_refuted"
   ],
   "note": "output uncertainties proved for hard decision, wrong for soft decision"
  },
  {
   "property": "C78",
   "status": "partial",
   "theorems": [
    "C78_narrow_refuted"
   ],
   "note": "refuted"
  },
  {
   "property": "C34",
   "status": "partial",
   "theorems": [
    "C34_exclusion_partial",
    "C34_file_there",
    "C34_flock_excludes",
    "C34_stale_refuted",
    "C34_exit_refuted",
    "C34_alias_refuted",
    "C34_flock_removes_refuted",
    "C34_cut_write_refuted"
   ],
   "note": "false in general: clearing a stale lock races, two names of a device race, failing flock removes others' locks; proved for executions where no process ends while another looks at a lock file, and for flock always"
  },
  {
   "property": "C79",
   "status": "proved",
   "theorems": [
    "C79_free_taken",
    "C79_held_refused",
    "C79_stale_taken",
    "C79_release_removes",
    "C79_pid_read_back"
   ],
   "note": ""
  },
  {
   "property": "C80",
   "status": "partial",
   "theorems": [
    "C80_busy_refuted",
    "C79_held_refused"
   ],
   "note": "refuted: GE_NOTFOUND while the file is not written yet; GE_INUSE proved once the file is complete"
  },
  {
   "property": "C32",
   "status": "partial",
   "theorems": [
    "C32_close_done",
    "C32_open_done_once",
    "C32_no_read_after_close_partial",
    "C32_read_race_refuted",
    "C32_read_error_refuted"
   ],
   "note": "close_done and open_done counts proved; READ after close is refuted in two ways and proved absent for the other cases; filters and lower layers restricted as in `usual` (C84)"
  },
  {
   "property": "C33",
   "status": "partial",
   "theorems": [
    "C33_freed_partial",
    "C33_freed_at_rest_partial",
    "C33_freed_early_refuted"
   ],
   "note": "proved for environments as in `usual`; refuted when a filter reports an error from disconnecting after a failed write"
  },
  {
   "property": "C81",
   "status": "partial",
   "theorems": [
    "C81_open_done_partial",
    "C81_open_done_refuted"
   ],
   "note": "refuted: a close during opening drops open_done; every missing open_done is shown to have a close or free"
  },
  {
   "property": "C82",
   "status": "partial",
   "theorems": [
    "C82_no_data_after_close_done"
   ],
   "note": "proved for environments as in `usual` (Basen_Spec.v)"
  },
  {
   "property": "C83",
   "status": "partial",
   "theorems": [
    "C83_one_read",
    "C83_two_writes_refuted"
   ],
   "note": "READ proved; two WRITE_READY callbacks at once refuted"
  },
  {
   "property": "C84",
   "status": "partial",
   "theorems": [
    "C84_no_crash_partial",
    "C84_double_close_refuted",
    "C84_late_timeout_refuted",
    "C84_open_at_once_refuted",
    "C84_slow_drain_stop_refuted"
   ],
   "note": "refuted in four ways, proved when these are excluded"
  },
  {
   "property": "C85",
   "status": "partial",
   "theorems": [
    "C85_close_after_open_nochild_refuted"
   ],
   "note": "refuted"
  },
  {
   "property": "C86",
   "status": "partial",
   "theorems": [
    "C86_fires_when_started",
    "C86_fires_partial",
    "C86_fires_refuted"
   ],
   "note": "never early or unasked proved; lost for timers stopped while a done handler is outstanding"
  },
  {
   "property": "C87",
   "status": "partial",
   "theorems": [
    "C87_stop",
    "C87_start_partial",
    "C87_start_refuted",
    "C87_stop_done_partial",
    "C87_stop_done_refuted"
   ],
   "note": "stop proved; start and stop_with_done are wrong inside the timer's own handler"
  },
  {
   "property": "C88",
   "status": "partial",
   "theorems": [
    "C88_done_once",
    "C88_done_called_partial",
    "C88_done_called_refuted"
   ],
   "note": "never twice proved; lost if the timer is stopped meanwhile"
  },
  {
   "property": "C89",
   "status": "partial",
   "theorems": [
    "C89_safe",
    "C89_freed_once",
    "C89_freed_partial",
    "C89_leak_refuted"
   ],
   "note": "safety proved; leak if freed with a done handler outstanding"
  },
  {
   "property": "C90",
   "status": "partial",
   "theorems": [
    "C90_wakes_partial",
    "C90_wakes_handler_refuted",
    "C90_wakes_done_refuted"
   ],
   "note": "refuted for timers started in their handler and for done handlers"
  },
  {
   "property": "C91",
   "status": "proved",
   "theorems": [
    "C91_called_once",
    "C91_all_called",
    "C91_somebody_awake",
    "C91_in_order",
    "C91_safe"
   ],
   "note": "every waiting thread is assumed to be able to get a signal"
  },
  {
   "property": "C92",
   "status": "partial",
   "theorems": [
    "C92_seen_partial",
    "C92_called_partial",
    "C92_done_partial",
    "C92_safe_partial",
    "C92_freed_partial",
    "C92_called_refuted",
    "C92_done_refuted",
    "C92_seen_refuted",
    "C92_safe_refuted"
   ],
   "note": "proved if handlers are set only for a descriptor that has none and is in no handler; refuted without"
  },
  {
   "property": "C93",
   "status": "partial",
   "theorems": [
    "C93_table_partial",
    "C93_table_refuted"
   ],
   "note": "proved below FD_SETSIZE; with epoll larger ones read outside the table"
  },
  {
   "property": "C94",
   "status": "partial",
   "theorems": [
    "C94_stream_partial",
    "C94_oob_ignored_refuted",
    "C94_long_write_refuted",
    "C94_long_service_refuted"
   ],
   "note": "proved for one open channel with buffers below 64k, service within the window, out of band data only if enabled; refuted without"
  },
  {
   "property": "C95",
   "status": "partial",
   "theorems": [
    "C95_drains_partial",
    "C94_long_service_refuted"
   ],
   "note": "same conditions"
  },
  {
   "property": "C96",
   "status": "partial",
   "theorems": [
    "C96_ids_partial",
    "C96_ids_refuted"
   ],
   "note": "proved while the first channel is there; refuted after it is freed"
  },
  {
   "property": "C97",
   "status": "proved",
   "theorems": [
    "C97_callbacks"
   ],
   "note": "user calls inside callbacks are taken to come after them"
  },
  {
   "property": "C98",
   "status": "partial",
   "theorems": [
    "C98_close_done_refuted",
    "C98_unread_refuted"
   ],
   "note": "refuted"
  },
  {
   "property": "C99",
   "status": "partial",
   "theorems": [
    "C99_limit_refuted",
    "C99_refused_refuted",
    "C99_refused_close_refuted",
    "C99_partial_write_refuted"
   ],
   "note": "refuted"
  },
  {
   "property": "C100",
   "status": "partial",
   "theorems": [
    "C100_close_refuted",
    "C100_open_refuted",
    "C100_service_refuted"
   ],
   "note": "refuted; for one open channel see C94"
  },
  {
   "property": "C101",
   "status": "partial",
   "theorems": [
    "C101_stored_partial"
   ],
   "note": "bounds proved; that the channel is still allocated is not"
  },
  {
   "property": "C102",
   "status": "partial",
   "theorems": [
    "C102_safe",
    "C102_reads_partial",
    "C102_two_readers_refuted",
    "C102_empty_read_refuted",
    "C102_interrupted_refuted"
   ],
   "note": "proved for one read at a time (bounds for any number); with two readers bytes are duplicated and lost; GE_INTERRUPTED may come with data"
  },
  {
   "property": "C103",
   "status": "proved",
   "theorems": [
    "C103_writes"
   ],
   "note": ""
  },
  {
   "property": "C104",
   "status": "partial",
   "theorems": [
    "C104_count_refuted"
   ],
   "note": "refuted"
  },
  {
   "property": "C105",
   "status": "proved",
   "theorems": [
    "C105_waits",
    "C105_error_wakes"
   ],
   "note": ""
  },
  {
   "property": "C106",
   "status": "partial",
   "theorems": [
    "C106_reopen_refuted"
   ],
   "note": "refuted for every execution"
  },
  {
   "property": "C107",
   "status": "proved",
   "theorems": [
    "C107_once",
    "C107_order",
    "C107_result"
   ],
   "note": ""
  },
  {
   "property": "C108",
   "status": "partial",
   "theorems": [
    "C108_closed_partial",
    "C108_closed_refuted"
   ],
   "note": "proved for one accepting thread, refuted for two"
  },
  {
   "property": "C109",
   "status": "partial",
   "theorems": [
    "C109_wakes_partial",
    "C109_wakes_refuted",
    "C109_shutdown_refuted"
   ],
   "note": "proved without signals; refuted with; accept after shutdown hangs"
  },
  {
   "property": "C110",
   "status": "partial",
   "theorems": [
    "C110_credential_partial",
    "C110_credential_refuted"
   ],
   "note": "refuted by a RESULT element from the client; proved without"
  },
  {
   "property": "C111",
   "status": "partial",
   "theorems": [
    "C111_password_partial",
    "C111_password_refuted"
   ],
   "note": "refuted: wrong or empty password after a good certificate; proved that one was sent"
  },
  {
   "property": "C112",
   "status": "partial",
   "theorems": [
    "C112_second_partial",
    "C112_second_refuted",
    "C112_skipped_refuted"
   ],
   "note": "refuted; proved that the second factor or a password was accepted (no require_password, no use_child_auth)"
  },
  {
   "property": "C113",
   "status": "partial",
   "theorems": [
    "C113_reject_partial",
    "C113_reject_refuted"
   ],
   "note": "proved without require_password, refuted with"
  },
  {
   "property": "C114",
   "status": "partial",
   "theorems": [
    "C114_fresh_partial",
    "C114_fresh_refuted"
   ],
   "note": "refuted when the response comes with the first message; proved after the challenge was drawn"
  },
  {
   "property": "C115",
   "status": "proved",
   "theorems": [
    "C115_agree"
   ],
   "note": ""
  },
  {
   "property": "C116",
   "status": "partial",
   "theorems": [
    "C116_buffer",
    "C116_message",
    "C116_pieces",
    "C116_overread_refuted"
   ],
   "note": "proved, except that a piece that ends after an element is read past its end"
  },
  {
   "property": "C117",
   "status": "partial",
   "theorems": [
    "C117_output_partial",
    "C117_output_refuted"
   ],
   "note": "proved for one message, refuted if the next one comes before it is written"
  },
  {
   "property": "C118",
   "status": "partial",
   "theorems": [
    "C118_buffer_refuted"
   ],
   "note": "refuted"
  },
  {
   "property": "C119",
   "status": "partial",
   "theorems": [
    "C119_reopen_refuted",
    "C119_overflow_refuted"
   ],
   "note": "refuted"
  },
  {
   "property": "C120",
   "status": "proved",
   "theorems": [
    "C120_echo"
   ],
   "note": ""
  },
  {
   "property": "C121",
   "status": "proved",
   "theorems": [
    "C121_once",
    "C121_answered"
   ],
   "note": ""
  },
  {
   "property": "C122",
   "status": "partial",
   "theorems": [
    "C122_result_partial",
    "C122_result_refuted"
   ],
   "note": "refuted for an open inside the close callback, proved otherwise"
  },
  {
   "property": "C123",
   "status": "partial",
   "theorems": [
    "C123_session_refuted"
   ],
   "note": "refuted"
  },
  {
   "property": "C124",
   "status": "partial",
   "theorems": [
    "C124_waits_partial",
    "C124_comes",
    "C124_end",
    "C124_end_refuted",
    "C124_error_refuted"
   ],
   "note": "proved for data if callbacks return no errors; refuted for the end of the text and with errors"
  },
  {
   "property": "C125",
   "status": "proved",
   "theorems": [
    "C125_free"
   ],
   "note": ""
  },
  {
   "property": "C126",
   "status": "partial",
   "theorems": [
    "C126_taken",
    "C126_only_partial",
    "C126_size_refuted",
    "C126_unsigned_refuted",
    "C126_int_refuted",
    "C126_perm_refuted",
    "C126_float_refuted"
   ],
   "note": "proved except for numbers out of range; those are taken"
  },
  {
   "property": "C127",
   "status": "proved",
   "theorems": [
    "C127_taken",
    "C127_only"
   ],
   "note": "up to numbers out of range, see C126"
  },
  {
   "property": "C128",
   "status": "proved",
   "theorems": [
    "C128_errors"
   ],
   "note": ""
  },
  {
   "property": "C129",
   "status": "partial",
   "theorems": [
    "C129_memory_partial",
    "C129_port_refuted"
   ],
   "note": "refuted if a required port is missing, proved otherwise"
  },
  {
   "property": "C130",
   "status": "proved",
   "theorems": [
    "C130_defaults"
   ],
   "note": "for numbers out of the range of an int see C132"
  },
  {
   "property": "C131",
   "status": "partial",
   "theorems": [
    "C131_memory",
    "C131_leak_refuted"
   ],
   "note": "no double free or use after free; leaks are refuted"
  },
  {
   "property": "C132",
   "status": "partial",
   "theorems": [
    "C132_limits_partial",
    "C132_limits_refuted",
    "C132_wrap_refuted",
    "C132_bool_refuted"
   ],
   "note": "limits proved for values set from text; refuted otherwise"
  },
  {
   "property": "C133",
   "status": "partial",
   "theorems": [
    "C133_data_refuted"
   ],
   "note": "refuted for every execution"
  },
  {
   "property": "C134",
   "status": "partial",
   "theorems": [
    "C134_address_partial",
    "C134_base_refuted",
    "C134_twice_refuted",
    "C134_default_refuted"
   ],
   "note": "proved for one laddr followed only by TCP parameters; refuted for others and for a default"
  },
  {
   "property": "C135",
   "status": "partial",
   "theorems": [
    "C135_channel_never_breaks_partial",
    "C135_xid_refuted",
    "C135_write_refuted",
    "C135_read_error_refuted",
    "C135_window_one_refuted",
    "C135_embedded_ua_refuted"
   ],
   "note": "proved for all frames but foreign XIDs, for read events without errors, writes that fit, a window of two or more; each exception is refuted"
  },
  {
   "property": "C137",
   "status": "partial",
   "theorems": [
    "C137_acknowledged_data_refuted"
   ],
   "note": "refuted"
  },
  {
   "property": "C139",
   "status": "partial",
   "theorems": [
    "C139_extended_2_refuted"
   ],
   "note": "refuted for every configuration"
  },
  {
   "property": "C141",
   "status": "partial",
   "theorems": [
    "C141_peer_not_told_refuted",
    "C141_disconnect_not_answered_refuted"
   ],
   "note": "refuted"
  },
  {
   "property": "C142",
   "status": "partial",
   "theorems": [
    "C142_close_loses_data_refuted"
   ],
   "note": "refuted"
  },
  {
   "property": "C136",
   "status": "proved",
   "theorems": [
    "C136_in_order"
   ],
   "note": "the configurations and calls left out are those refuted in C135"
  },
  {
   "property": "C143",
   "status": "partial",
   "theorems": [
    "C143_safe_partial",
    "C143_close_opening_refuted",
    "C143_close_log_refuted",
    "C143_free_refuted"
   ],
   "note": "proved except for the moments of the predicate calm; at those it is refuted"
  },
  {
   "property": "C144",
   "status": "partial",
   "theorems": [
    "C144_once_partial",
    "C144_comes_partial",
    "C144_forgotten_refuted",
    "C144_error_refuted"
   ],
   "note": "proved except for the moments of the predicate calm; at those it is refuted"
  },
  {
   "property": "C145",
   "status": "proved",
   "theorems": [
    "C145_never_stuck",
    "C145_recovers",
    "C145_error_closes"
   ],
   "note": "with the assumption in the statement; an error during the log call of a restored child is left out"
  },
  {
   "property": "C146",
   "status": "proved",
   "theorems": [
    "C146_enables"
   ],
   "note": ""
  },
  {
   "property": "C147",
   "status": "proved",
   "theorems": [
    "C147_writes",
    "C147_discard"
   ],
   "note": ""
  },
  {
   "property": "C148",
   "status": "partial",
   "theorems": [
    "C148_free_partial",
    "C148_free_refuted"
   ],
   "note": "refuted for a free in the open callback after a failed first open"
  },
  {
   "property": "C149",
   "status": "partial",
   "theorems": [
    "C149_data_partial",
    "C149_threads_refuted",
    "C149_reopen_refuted"
   ],
   "note": "proved with one thread, over all opens together, if callbacks do not return GE_REMCLOSE; refuted with two threads, and for what is left at a close"
  },
  {
   "property": "C150",
   "status": "partial",
   "theorems": [
    "C150_errors",
    "C150_reopen_refuted",
    "C150_once_refuted"
   ],
   "note": "errors are true ones; refuted: nothing is ever read again after the end, and the end is told without limit after reading is enabled again"
  },
  {
   "property": "C151",
   "status": "partial",
   "theorems": [
    "C151_written",
    "C151_dropped_partial",
    "C151_dropped_refuted",
    "C151_empty_refuted"
   ],
   "note": "proved with an output file; without one only for writes in one piece, refuted for others; writing nothing is an error"
  },
  {
   "property": "C152",
   "status": "partial",
   "theorems": [
    "C152_closed_partial",
    "C152_refused_refuted",
    "C152_free_refuted"
   ],
   "note": "proved if no open fails at the output file and nothing is disabled; refuted for failing opens and for a free while open"
  },
  {
   "property": "C153",
   "status": "partial",
   "theorems": [
    "C153_once",
    "C153_open_comes",
    "C153_close_comes",
    "C153_free_refuted"
   ],
   "note": "proved but for events after the free, which is refuted"
  },
  {
   "property": "C154",
   "status": "partial",
   "theorems": [
    "C154_safe_partial",
    "C154_overlap_refuted",
    "C154_gone"
   ],
   "note": "the one undefined thing is a memcpy of overlapping areas, when less than half of the data is taken"
  },
  {
   "property": "C155",
   "status": "partial",
   "theorems": [
    "C155_reads",
    "C155_writes_refuted"
   ],
   "note": "proved for reading; refuted for errors of the write ready callback"
  },
  {
   "property": "C156",
   "status": "proved",
   "theorems": [
    "C156_once",
    "C156_comes"
   ],
   "note": ""
  },
  {
   "property": "C157",
   "status": "partial",
   "theorems": [
    "C157_once",
    "C157_shutdown_partial",
    "C157_startup_refuted",
    "C157_free_refuted"
   ],
   "note": "once is proved; that the answer comes is proved if no startup is refused and refuted otherwise; refuted after free"
  },
  {
   "property": "C158",
   "status": "proved",
   "theorems": [
    "C158_safe"
   ],
   "note": ""
  },
  {
   "property": "C159",
   "status": "partial",
   "theorems": [
    "C159_lock_partial",
    "C159_unlock_refuted",
    "C159_held_refuted"
   ],
   "note": "proved without errors; every error releases the lock twice, and one branch keeps it"
  },
  {
   "property": "C160",
   "status": "partial",
   "theorems": [
    "C160_order",
    "C160_all_partial",
    "C160_lost_refuted"
   ],
   "note": "order is proved; completeness if the end of the script is seen by reading, refuted if it is seen by writing"
  },
  {
   "property": "C161",
   "status": "partial",
   "theorems": [
    "C161_order",
    "C161_lost_refuted"
   ],
   "note": "order is proved; what the script did not take is lost"
  },
  {
   "property": "C162",
   "status": "proved",
   "theorems": [
    "C162_result"
   ],
   "note": "for every run without undefined behaviour; see C159 for errors"
  },
  {
   "property": "C163",
   "status": "proved",
   "theorems": [
    "C163_moves"
   ],
   "note": ""
  },
  {
   "property": "C164",
   "status": "partial",
   "theorems": [
    "C164_pass",
    "C164_block_partial",
    "C164_count_refuted"
   ],
   "note": "proved but for writes that are blocked and traced before, which are counted twice"
  },
  {
   "property": "C165",
   "status": "proved",
   "theorems": [
    "C165_raw",
    "C165_reopen"
   ],
   "note": ""
  },
  {
   "property": "C166",
   "status": "proved",
   "theorems": [
    "C166_text"
   ],
   "note": "the text itself (times, hex dump) is not modelled"
  },
  {
   "property": "C167",
   "status": "proved",
   "theorems": [
    "C167_total"
   ],
   "note": "times and rates are not modelled"
  },
  {
   "property": "C168",
   "status": "proved",
   "theorems": [
    "C168_text",
    "C167_total"
   ],
   "note": "the text itself is a parameter"
  },
  {
   "property": "C169",
   "status": "partial",
   "theorems": [
    "C169_error_partial",
    "C169_error_refuted"
   ],
   "note": "false when a timed report is still unread; proved otherwise"
  }
 ]
}