{
 "claims": [
  {
   "property": "C01",
   "status": "proved",
   "theorems": [
    "crc16_append_then_check",
    "crc16_check_only_if_appended"
   ],
   "note": "all octet buffers; buffer memory bounds-checked"
  },
  {
   "property": "C02",
   "status": "proved",
   "theorems": [
    "crc32_append_then_check",
    "crc32_check_only_if_appended"
   ],
   "note": "all octet buffers"
  },
  {
   "property": "C03",
   "status": "proved",
   "theorems": [
    "crc16_detects_bursts",
    "crc16_detects_odd_errors"
   ],
   "note": "all buffers, all bursts up to 16 bits, all odd-weight error patterns"
  },
  {
   "property": "C04",
   "status": "proved",
   "theorems": [
    "crc32_detects_bursts"
   ],
   "note": "all buffers, all bursts up to 32 bits"
  },
  {
   "property": "C05",
   "status": "proved",
   "theorems": [
    "crc16_is_bit_serial",
    "crc32_is_bit_serial",
    "crc16_chains",
    "crc32_chains",
    "crc16_bits_is_octet"
   ],
   "note": "all buffers, all start values"
  },
  {
   "property": "C06",
   "status": "proved",
   "theorems": [
    "bit_reverse8_mirrors",
    "bit_reverse16_mirrors",
    "bit_reverse32_mirrors",
    "bit_reverse_4bytes_mirrors",
    "bit_reverse_8bytes_mirrors",
    "bit_reverse_buffer",
    "bit_reverse_negative_len_refuted"
   ],
   "note": "buffers of any length >= 0; source and destination buffers are distinct in the model; a negative len is shown to overrun"
  },
  {
   "property": "C07",
   "status": "partial",
   "theorems": [
    "top_bit_is_highest",
    "top_bit_zero",
    "bottom_bit_is_lowest",
    "bottom_bit_zero",
    "top_bit_total",
    "bottom_bit_total",
    "one_bits32_counts",
    "parity8_is_parity",
    "parity16_is_parity",
    "parity32_is_parity",
    "make_mask32_fills",
    "make_mask16_fills",
    "make_mask_zero",
    "most_significant_one32_isolates_partial",
    "most_significant_one32_slow_isolates",
    "least_significant_one32_isolates_partial",
    "significant_one32_refuted"
   ],
   "note": "portable C branches (inline assembler not modelled); most_significant_one32 (x86 branch) is undefined for 0 and >= 2^31, least_significant_one32 for 2^31: refuted there, proved elsewhere"
  },
  {
   "property": "C08",
   "status": "proved",
   "theorems": [
    "ulaw_decode_encode",
    "ulaw_monotone",
    "ulaw_symmetric",
    "ulaw_error_half_step",
    "ulaw_saturates"
   ],
   "note": "all 256 codes and all 65536 linear values (complete sweep of the finite domain)"
  },
  {
   "property": "C09",
   "status": "proved",
   "theorems": [
    "alaw_decode_encode",
    "alaw_monotone",
    "alaw_symmetric",
    "alaw_error_half_step",
    "alaw_saturates"
   ],
   "note": "all 256 codes and all 65536 linear values (complete sweep of the finite domain)"
  },
  {
   "property": "C10",
   "status": "proved",
   "theorems": [
    "g711_decode_buffer",
    "g711_encode_buffer",
    "g711_transcode_buffer",
    "g711_alaw_buffer_round_trip",
    "g711_transcode_error",
    "g711_transcode_monotone",
    "g711_transcode_stable",
    "g711_transcode_one_level"
   ],
   "note": "buffers of any length; both transcoding tables"
  },
  {
   "property": "C11",
   "status": "proved",
   "theorems": [
    "bitstream_write_is_packed_bits",
    "bitstream_write_length",
    "bitstream_read_back",
    "bitstream_wide_field_refuted",
    "bitstream_width_32_refuted"
   ],
   "note": "all field sequences with widths 0..25 in both bit orders; wider fields are shown to be lost or undefined"
  },
  {
   "property": "C12",
   "status": "proved",
   "theorems": [
    "async_link_delivers_everything",
    "async_link_never_wrong",
    "async_many_stop_bits_refuted"
   ],
   "note": "all configurations whose character and stop bits fit the 16 bit frame register; more stop bits than that are shown to corrupt data"
  },
  {
   "property": "C13",
   "status": "partial",
   "theorems": [
    "async_rx_any_stream_partial",
    "async_rx_delivers_in_range",
    "async_rx_status",
    "async_rx_v14_stop_bit_deletion",
    "async_nine_bit_parity_refuted"
   ],
   "note": "exact for all bit streams except 9+ data bits with odd/even parity, where the code is shown to miss an error in the ninth bit"
  },
  {
   "property": "C14",
   "status": "proved",
   "theorems": [
    "hdlc_end_to_end",
    "hdlc_everything_delivered",
    "hdlc_tx_never_fails_runs",
    "hdlc_corrupt_too_late_refuted"
   ],
   "note": "Hypothesis: the first framing_ok_threshold octets fetched are flags (needed, see hdlc_no_opening_flag); no abort or deliberate corruption by the application. The refuted theorem records that hdlc_tx_corrupt_frame can report success too late."
  },
  {
   "property": "C15",
   "status": "proved",
   "theorems": [
    "hdlc_rx_safe_and_counted",
    "hdlc_rx_max_length",
    "hdlc_good_frame_was_on_the_line"
   ],
   "note": "Frames longer than the maximum are dropped silently (neither counted nor reported); valid CRC is part of hdlc_good_frame_was_on_the_line."
  },
  {
   "property": "C16",
   "status": "proved",
   "theorems": [
    "hdlc_rx_byte_is_eight_bits",
    "hdlc_tx_byte_is_eight_bits",
    "hdlc_tx_byte_ignores_bit_position"
   ],
   "note": ""
  },
  {
   "property": "C17",
   "status": "proved",
   "theorems": [
    "hdlc_tx_frame_contract",
    "hdlc_end_to_end"
   ],
   "note": "That progressive appends travel as one frame is frames_of in hdlc_end_to_end."
  },
  {
   "property": "C18",
   "status": "proved",
   "theorems": [
    "queue_is_fifo"
   ],
   "note": "The source buffer is at least as long as the given length and lengths are not negative (otherwise the C memcpy is undefined)."
  },
  {
   "property": "C19",
   "status": "proved",
   "theorems": [
    "queue_is_message_fifo",
    "queue_long_message_refuted"
   ],
   "note": "Messages shorter than 65536 octets; the refuted theorem shows longer ones are accepted but lose their length."
  },
  {
   "property": "C20",
   "status": "proved",
   "theorems": [
    "queue_two_threads_octets",
    "queue_two_threads_messages"
   ],
   "note": "Sequentially consistent memory, octet-wise memcpy in ascending order; the C code has no memory barriers, which is outside the model."
  },
  {
   "property": "C21",
   "status": "proved",
   "theorems": [
    "sched_history_correct",
    "sched_updates_end",
    "sched_event_fires",
    "sched_event_fires_once",
    "sched_time_order_refuted",
    "sched_due_at_once_refuted"
   ],
   "note": "all histories of adds, deletes, next queries and updates, with arbitrary callbacks; 64 bit clock must not wrap"
  },
  {
   "property": "C22",
   "status": "proved",
   "theorems": [
    "v42bis_lossless",
    "v42bis_lossless_exact",
    "v42bis_plain",
    "v42bis_close_flushes_refuted"
   ],
   "note": "Any session of data, mode changes and flushes at least N7 octets apart; flushes closer than that corrupt data (witness proved)."
  },
  {
   "property": "C23",
   "status": "partial",
   "theorems": [
    "v42bis_flush_emits_partial",
    "v42bis_lossless_exact",
    "v42bis_flush_refuted"
   ],
   "note": "False as stated: with a dictionary update pending the flush returns without emitting (witness proved). Holds when no update is pending; C43 gives the exact statement."
  },
  {
   "property": "C24",
   "status": "partial",
   "theorems": [
    "v42bis_decompress_safe_partial",
    "v42bis_decompress_safe_refuted"
   ],
   "note": "False as stated: STEPUP is accepted beyond 12 bits and a codeword of 4096 or more reads outside the dictionary (witness proved). Proved for every input until that happens, see C44."
  },
  {
   "property": "C25",
   "status": "proved",
   "theorems": [
    "ima_dvi4_round_trip",
    "ima_ima4_round_trip",
    "ima_ima4_packet_round_trip",
    "ima_encode_calls",
    "ima_decode_calls",
    "ima_dvi4_odd_packet_refuted"
   ],
   "note": "The refuted theorem shows that a DVI4 packet with an odd number of samples loses a sample and desynchronises the next packet."
  },
  {
   "property": "C26",
   "status": "proved",
   "theorems": [
    "ima_vdvi_round_trip",
    "ima_vdvi_words"
   ],
   "note": ""
  },
  {
   "property": "C27",
   "status": "proved",
   "theorems": [
    "ima_decode_safe_exactly",
    "ima_decode_any_data",
    "ima_decode_safe_refuted"
   ],
   "note": "Exact characterisation; the unrestricted safety claim is false, with a five octet witness."
  },
  {
   "property": "C28",
   "status": "proved",
   "theorems": [
    "oki_round_trip_ok",
    "oki_encode_calls",
    "oki_decode_calls",
    "oki_decode_any_data"
   ],
   "note": "32 kbps only; the 24 kbps resampling is floating point and not modelled."
  },
  {
   "property": "C29",
   "status": "proved",
   "theorems": [
    "playout_session_exactly_once",
    "playout_put_places",
    "playout_put_sorted_iff",
    "playout_put_order_refuted",
    "playout_restart_frees_refuted"
   ],
   "note": "heap level model of the lists; the first wording (always in time stamp order) is refuted by the code, the exact condition is proved"
  },
  {
   "property": "C30",
   "status": "proved",
   "theorems": [
    "t38_indicator_octets",
    "t38_data_octets",
    "t38_packet_decoded",
    "t38_packet_cut",
    "t38_v34rate",
    "t38_old_empty_fields_refuted",
    "t38_many_fields_refuted",
    "t38_tpkt_fragment_refuted"
   ],
   "note": "Packets of up to 127 fields and 1000 octets. Refuted and excluded by hypotheses: in version 0, a field without data before the last one; 128 or more fields; TPKT fragments of 1 to 3 octets."
  },
  {
   "property": "C31",
   "status": "proved",
   "theorems": [
    "t38_receiver_safe",
    "t38_refused_packet_delivers_refuted"
   ],
   "note": "t38_core_rx_ifp_packet, unlike t38_core_rx_ifp_stream, does deliver fields of a packet it then refuses for trailing octets: refuted."
  },
  {
   "property": "C32",
   "status": "proved",
   "theorems": [
    "t38_sequence_judged",
    "t38_sequence_run",
    "t38_sequence_start",
    "t38_records_in_order",
    "t38_missing_count_refuted"
   ],
   "note": "Runs stay within 2000 of the expected number; the statistics count of missing packets is wrong across the wrap: refuted."
  },
  {
   "property": "C33",
   "status": "proved",
   "theorems": [
    "fax_lossless",
    "fax_lossless_bits"
   ],
   "note": "row write handler assumed to return 0; allocation failures and logging not modelled"
  },
  {
   "property": "C34",
   "status": "proved",
   "theorems": [
    "arith_lossless",
    "arith_lossless_init"
   ],
   "note": "contexts 0..4095 and pixels 0/1; the count of held back 0xFF octets is unbounded"
  },
  {
   "property": "C35",
   "status": "proved",
   "theorems": [
    "v17_scrambler_roundtrip",
    "v29_scrambler_roundtrip",
    "v27ter_scrambler_roundtrip",
    "v22bis_scrambler_roundtrip",
    "v34_scrambler_roundtrip",
    "v17_scrambler_selfsync",
    "v29_scrambler_selfsync",
    "v27ter_scrambler_selfsync",
    "v22bis_scrambler_selfsync",
    "v17_scrambler_polynomial",
    "v17_training_matches",
    "v29_training_matches",
    "v27ter_session_delivers",
    "v22bis_guard_works",
    "v29_link_delivers",
    "v29_link_recovers",
    "v27ter_link_delivers",
    "v22bis_link_delivers"
   ],
   "note": "all data streams, all register states; the analogue part is an ideal symbol channel with a constant rotation"
  },
  {
   "property": "C36",
   "status": "proved",
   "theorems": [
    "nonecm_intact"
   ],
   "note": "Assumes the buffer never holds 16384 octets (see C56). Logging and counter overflow not modelled."
  },
  {
   "property": "C37",
   "status": "proved",
   "theorems": [
    "crc16_detects_two_errors"
   ],
   "note": "bound 4095 octets is part of the claim (generator order 32767)"
  },
  {
   "property": "C38",
   "status": "proved",
   "theorems": [
    "hdlc_good_frame_was_on_the_line",
    "hdlc_misaligned_frame_refuted"
   ],
   "note": "The refuted theorem shows the extra 1 bit really is accepted."
  },
  {
   "property": "C39",
   "status": "proved",
   "theorems": [
    "hdlc_resynchronises"
   ],
   "note": ""
  },
  {
   "property": "C40",
   "status": "proved",
   "theorems": [
    "playout_steady_speech",
    "playout_dynamic_overflow_refuted"
   ],
   "note": "dynamic buffers: only safety and exactly-once are claimed; their step counter overflows int at the first frame (refuted theorem)"
  },
  {
   "property": "C41",
   "status": "proved",
   "theorems": [
    "playout_session_safe"
   ],
   "note": ""
  },
  {
   "property": "C42",
   "status": "proved",
   "theorems": [
    "t38_sends_numbered",
    "t38_end_to_end",
    "t38_lossless"
   ],
   "note": "Packets of at most 1000 octets (the sender's buffer); see C30 for the excluded messages."
  },
  {
   "property": "C43",
   "status": "proved",
   "theorems": [
    "v42bis_flush_complete",
    "v42bis_lossless_exact"
   ],
   "note": ""
  },
  {
   "property": "C44",
   "status": "proved",
   "theorems": [
    "v42bis_decompress_safe_12bit"
   ],
   "note": ""
  },
  {
   "property": "C45",
   "status": "proved",
   "theorems": [
    "v42bis_compress_messages",
    "v42bis_decompress_messages"
   ],
   "note": ""
  },
  {
   "property": "C46",
   "status": "proved",
   "theorems": [
    "hdlc_tx_inter_frame_flags",
    "hdlc_tx_abort_sent"
   ],
   "note": ""
  },
  {
   "property": "C47",
   "status": "proved",
   "theorems": [
    "t38_send_repeats"
   ],
   "note": ""
  },
  {
   "property": "C48",
   "status": "proved",
   "theorems": [
    "arith_no_marker"
   ],
   "note": ""
  },
  {
   "property": "C49",
   "status": "proved",
   "theorems": [
    "arith_decode_safe",
    "arith_decode_restart_safe"
   ],
   "note": ""
  },
  {
   "property": "C50",
   "status": "proved",
   "theorems": [
    "arith_decode_resume",
    "arith_decode_lookahead"
   ],
   "note": ""
  },
  {
   "property": "C51",
   "status": "proved",
   "theorems": [
    "fax_runs_exact"
   ],
   "note": ""
  },
  {
   "property": "C52",
   "status": "partial",
   "theorems": [
    "fax_encode_safe_partial",
    "fax_encode_safe_refuted"
   ],
   "note": "Proved for widths of 8 or more and a minimum row length of at most 7*width-4 bits; beyond that the fill bits overrun the buffer (witness proved)."
  },
  {
   "property": "C53",
   "status": "partial",
   "theorems": [
    "fax_lossless",
    "fax_decode_safe_zero_runs_refuted",
    "fax_decode_safe_pass_refuted",
    "fax_decode_safe_after_end_refuted"
   ],
   "note": "False as stated (three witnesses proved). Safety on every stream the compressor can produce is part of fax_lossless."
  },
  {
   "property": "C54",
   "status": "partial",
   "theorems": [
    "fax_odd_width_refuted",
    "fax_lossless"
   ],
   "note": "False as stated (witness proved): pixels left over at the end of a row spill into the next. Widths that are a multiple of 8 are C33."
  },
  {
   "property": "C55",
   "status": "partial",
   "theorems": [
    "nonecm_row_length_partial",
    "nonecm_row_length_refuted",
    "nonecm_eol_stretched_refuted"
   ],
   "note": "Proved for every row but the first of an image; the first row is measured 8 bits short because row_bits is not advanced for the octet holding the first end of line. The refuted theorems give a 20 bit first row left short and an end of line stretched."
  },
  {
   "property": "C56",
   "status": "partial",
   "theorems": [
    "nonecm_overfill_refuted"
   ],
   "note": "The code violates this: exactly 16384 queued octets make in_ptr equal out_ptr and all are lost."
  },
  {
   "property": "C57",
   "status": "proved",
   "theorems": [
    "nonecm_safe"
   ],
   "note": "Counters are unbounded integers in the model."
  },
  {
   "property": "C58",
   "status": "proved",
   "theorems": [
    "t85_lossless"
   ],
   "note": "Encoder and decoder in full, with the arithmetic coder; comments and a length set by the application in mid image are modelled but not part of the statement. Row read callbacks return whole rows."
  },
  {
   "property": "C59",
   "status": "partial",
   "theorems": [
    "t85_decode_safe_partial",
    "t85_decode_safe_refuted"
   ],
   "note": "Proved whenever a width limit of at most 2^32-8 is set; false without one (witness proved: a width of 2^32-7 wraps the row size to 0)."
  },
  {
   "property": "C60",
   "status": "partial",
   "theorems": [
    "t85_decode_rejected_refuted"
   ],
   "note": "False as stated (witness proved)."
  },
  {
   "property": "C61",
   "status": "partial",
   "theorems": [
    "t85_analyse_width_refuted"
   ],
   "note": "False as stated, for every image of a usual size: the fields are read two octets too far on."
  },
  {
   "property": "C62",
   "status": "partial",
   "theorems": [
    "t85_analyse_ends_partial",
    "t85_analyse_ends_refuted"
   ],
   "note": "Ends inside the data whenever octets 2-5 are below 2^32-6; otherwise it can loop for ever (witness proved)."
  },
  {
   "property": "C63",
   "status": "partial",
   "theorems": [
    "adsi_delivery",
    "adsi_jclip_delivery_partial",
    "adsi_jclip_eighteen_refuted"
   ],
   "note": "Full for CLASS/CLIP/A-CLIP. For J-CLIP all messages except those of 18 octets, which the code loses (length octet 16 is sent twice, the receiver does not expect it): refuted with a witness."
  },
  {
   "property": "C64",
   "status": "proved",
   "theorems": [
    "adsi_receiver_sound"
   ],
   "note": "Fewer than 2^30 bits, so that the int counters cannot overflow."
  },
  {
   "property": "C65",
   "status": "partial",
   "theorems": [
    "adsi_fields_partial",
    "adsi_fields_refuted"
   ],
   "note": "Refuted for field bodies of 16 octets (CLASS/CLIP/A-CLIP: the length is inserted twice, removed once) and J-CLIP bodies containing 0x10 (doubled, never undoubled); proved for all other messages."
  },
  {
   "property": "C66",
   "status": "proved",
   "theorems": [
    "adsi_dtmf_fields"
   ],
   "note": "From freshly started ends; the DTMF tone generator and detector and the message timeout (in samples) are not modelled."
  },
  {
   "property": "C67",
   "status": "partial",
   "theorems": [
    "adsi_next_field_safe_partial",
    "adsi_next_field_safe_refuted"
   ],
   "note": "Refuted: one octet beyond the message is read (five for short J-CLIP messages; the octet before for an empty DTMF message). Proved given that memory."
  },
  {
   "property": "C68",
   "status": "partial",
   "theorems": [
    "adsi_tdd_text_partial",
    "adsi_tdd_text_refuted",
    "adsi_tdd_receiver_safe"
   ],
   "note": "Refuted: a second text following a first that ends in figures is decoded with the wrong shift; characters from 128 up index outside the table. Proved for a first text ending in a letter (or a single text), 7 bit characters."
  },
  {
   "property": "C69",
   "status": "proved",
   "theorems": [
    "lapm_link_delivers",
    "lapm_set_up_and_deliver"
   ],
   "note": "Both hold from the moment both sides are connected; lapm_set_up_and_deliver gives a run from v42_init to there for any application data. See C70 for data sent before that."
  },
  {
   "property": "C70",
   "status": "partial",
   "theorems": [
    "lapm_delivery_from_start_refuted",
    "lapm_set_up_and_deliver"
   ],
   "note": "Refuted: a SABME sent again because the UA was late resets the answerer after it has delivered data; a message is lost without notice. Proved for the set-up without retransmission (lapm_set_up_and_deliver)."
  },
  {
   "property": "C71",
   "status": "partial",
   "theorems": [
    "lapm_stays_up_refuted",
    "lapm_link_delivers"
   ],
   "note": "Refuted: after a T.403 poll V(S) is set back while frames are in flight; their acknowledgement is then outside the window and the link is released. Delivery safety holds all the same."
  },
  {
   "property": "C72",
   "status": "partial",
   "theorems": [
    "lapm_window_moves_refuted",
    "lapm_link_delivers"
   ],
   "note": "Refuted: an RR response with the F bit is ignored unless a timer poll is outstanding, but I frames are answered with F set; the window stays closed until the timer polls."
  },
  {
   "property": "C73",
   "status": "partial",
   "theorems": [
    "lapm_xid_heeded_refuted",
    "lapm_xid_readable_refuted"
   ],
   "note": "Refuted: set_param() gives back the configured value whenever the limit in force equals it, so no offer ever changes a limit; in the frame sent the HDLC optional functions parameter is written over by what follows it, so it cannot be parsed."
  },
  {
   "property": "C74",
   "status": "partial",
   "theorems": [
    "lapm_any_peer_safe",
    "lapm_no_negative_length_refuted"
   ],
   "note": "Safety is proved for every input sequence; that iframe_put gets data only is proved if no good frame of fewer than 3 octets is reported, and refuted without that."
  },
  {
   "property": "C75",
   "status": "partial",
   "theorems": [
    "v42_odp_sound",
    "v42_odp_complete_partial",
    "v42_odp_sixteen_ones_refuted",
    "v42_adp_sound",
    "v42_adp_complete_partial",
    "v42_detection_works"
   ],
   "note": "The receivers count the zero that ends the run of ones: 7 to 15 ones are accepted instead of 8 to 16. All is proved for that range; 16 ones are refuted."
  },
  {
   "property": "C76",
   "status": "partial",
   "theorems": [
    "v42_refusal_understood_refuted",
    "v42_adp_sound"
   ],
   "note": "Refuted: the caller treats E, NUL as E, C. v42_adp_sound says exactly what it goes on after."
  },
  {
   "property": "C77",
   "status": "proved",
   "theorems": [
    "g726_encode_codes"
   ],
   "note": "From g726_init; C79 extends it to any sequence of calls."
  },
  {
   "property": "C78",
   "status": "proved",
   "theorems": [
    "g726_decode_any"
   ],
   "note": ""
  },
  {
   "property": "C79",
   "status": "proved",
   "theorems": [
    "g726_encode_calls",
    "g726_decode_calls"
   ],
   "note": "Encoding from any context, decoding from g726_init."
  },
  {
   "property": "C80",
   "status": "proved",
   "theorems": [
    "g726_decoder_tracks",
    "g726_decoder_tracks_packed",
    "g726_unpack_pack"
   ],
   "note": ""
  },
  {
   "property": "C81",
   "status": "proved",
   "theorems": [
    "g726_tandem_codes",
    "g726_tandem"
   ],
   "note": "For the encoder and decoder both starting from g726_init."
  },
  {
   "property": "C82",
   "status": "partial",
   "theorems": [
    "g726_linear_limited_refuted"
   ],
   "note": "Refuted: sr is scaled by 4 into an int16 without limiting (e.g. src/g726.c: return (sr << 2)); witness at every bit rate."
  },
  {
   "property": "C83",
   "status": "partial",
   "theorems": [
    "g726_zeros_wrap_refuted"
   ],
   "note": "Refuted: b[i] is an int16_t and its update is not limited (nor is it in the 16 bit modular arithmetic of the recommendation, so this is the algorithm rather than a slip); at 40 kbps a quiet rising signal of 353 samples takes all six from above 32700 to below -32700."
  },
  {
   "property": "C84",
   "status": "partial",
   "theorems": [
    "g726_all_sent_refuted",
    "g726_decoder_tracks"
   ],
   "note": "Refuted: there is no flush; up to 7 bits stay in the bit stream state. All that fills octets is sent (g726_decoder_tracks)."
  },
  {
   "property": "C85",
   "status": "proved",
   "theorems": [
    "g726_same_interval"
   ],
   "note": "The reconstructed value is the decoder's output before it is wrapped to 16 bits (see C82)."
  },
  {
   "property": "C86",
   "status": "proved",
   "theorems": [
    "sprt_reliable_in_order"
   ],
   "note": "Until an end reports excessive retries."
  },
  {
   "property": "C87",
   "status": "proved",
   "theorems": [
    "sprt_acknowledged_delivered"
   ],
   "note": ""
  },
  {
   "property": "C88",
   "status": "proved",
   "theorems": [
    "sprt_nothing_invented"
   ],
   "note": ""
  },
  {
   "property": "C89",
   "status": "partial",
   "theorems": [
    "sprt_end_safe_partial",
    "sprt_link_safe_partial",
    "sprt_end_safe_refuted",
    "sprt_link_safe_refuted"
   ],
   "note": "Holds up to the first report of excessive retries. Refuted after it: a slot out of tries leaves the timer queue but stays occupied, and a late acknowledgement takes it out of the queue again, writing next_in_time[255] (src/sprt.c:225-255, 417-425)."
  },
  {
   "property": "C90",
   "status": "proved",
   "theorems": [
    "sprt_window"
   ],
   "note": ""
  },
  {
   "property": "C91",
   "status": "partial",
   "theorems": [
    "sprt_parms_refuted"
   ],
   "note": "Refuted: sprt_init checks the parameters and then uses the defaults."
  },
  {
   "property": "C92",
   "status": "partial",
   "theorems": [
    "sprt_retries_spaced_refuted"
   ],
   "note": "Refuted: a late sprt_timer_expired makes all retransmissions at once, as each new timeout is reckoned from the last one (src/sprt.c:429)."
  },
  {
   "property": "C93",
   "status": "partial",
   "theorems": [
    "sprt_given_up_blocks_refuted"
   ],
   "note": "Refuted: the slot of a message given up is never freed and blocks the window."
  },
  {
   "property": "C94",
   "status": "partial",
   "theorems": [
    "sprt_last_try_refuted"
   ],
   "note": "Refuted: the report is made at once when the last copy is sent."
  },
  {
   "property": "C95",
   "status": "proved",
   "theorems": [
    "g722_encode_codes"
   ],
   "note": "Audio in whole pairs at 16 kHz; see C103 for odd lengths."
  },
  {
   "property": "C96",
   "status": "proved",
   "theorems": [
    "g722_decode_any"
   ],
   "note": "Which code may wait is C102."
  },
  {
   "property": "C97",
   "status": "proved",
   "theorems": [
    "g722_encode_calls",
    "g722_decode_calls"
   ],
   "note": ""
  },
  {
   "property": "C98",
   "status": "proved",
   "theorems": [
    "g722_decoder_tracks"
   ],
   "note": ""
  },
  {
   "property": "C99",
   "status": "proved",
   "theorems": [
    "g722_same_interval"
   ],
   "note": "8 kHz mode, where no filter lies between sample and quantiser."
  },
  {
   "property": "C100",
   "status": "proved",
   "theorems": [
    "g722_auxiliary_data"
   ],
   "note": ""
  },
  {
   "property": "C101",
   "status": "proved",
   "theorems": [
    "g722_narrow_to_wide"
   ],
   "note": ""
  },
  {
   "property": "C102",
   "status": "partial",
   "theorems": [
    "g722_decode_all_refuted"
   ],
   "note": "Refuted: the loop ends with the last octet though a whole code is left in in_buffer; three octets at 48 kbit/s give three of four samples. C96 states what holds."
  },
  {
   "property": "C103",
   "status": "partial",
   "theorems": [
    "g722_encode_reads_refuted"
   ],
   "note": "Refuted: with an odd len at 16 kHz amp[len] is read. C95 shows it holds for even lengths and at 8 kHz."
  },
  {
   "property": "C104",
   "status": "partial",
   "theorems": [
    "g722_all_sent_refuted"
   ],
   "note": "Refuted: bits that do not fill an octet stay in out_buffer and nothing flushes them. C98 states what holds."
  },
  {
   "property": "C105",
   "status": "proved",
   "theorems": [
    "v8_delivers",
    "v8_says_offer"
   ],
   "note": ""
  },
  {
   "property": "C106",
   "status": "proved",
   "theorems": [
    "v8_hears_twice"
   ],
   "note": ""
  },
  {
   "property": "C107",
   "status": "partial",
   "theorems": [
    "v8_safe_partial",
    "v8_safe_refuted"
   ],
   "note": "Refuted: process_non_standard_facilities returns p as it is, so a CM with a non-standard facilities octet hangs the receiver. It holds when ten bits received are never the frame of such an octet."
  },
  {
   "property": "C108",
   "status": "proved",
   "theorems": [
    "v8_agreement"
   ],
   "note": ""
  },
  {
   "property": "C109",
   "status": "proved",
   "theorems": [
    "v8_no_false_cj"
   ],
   "note": ""
  },
  {
   "property": "C110",
   "status": "partial",
   "theorems": [
    "v8_continue_refuted"
   ],
   "note": "Refuted: memcpy copies from the start of v8_parms_t, not from its jm_cm."
  },
  {
   "property": "C111",
   "status": "proved",
   "theorems": [
    "v8_no_break"
   ],
   "note": ""
  },
  {
   "property": "C112",
   "status": "proved",
   "theorems": [
    "v8_patience"
   ],
   "note": ""
  },
  {
   "property": "C113",
   "status": "partial",
   "theorems": [
    "v8_one_end_refuted"
   ],
   "note": "Refuted: after a calling tone or CNG the same call of v8_rx goes on to time out or to send JM."
  },
  {
   "property": "C114",
   "status": "proved",
   "theorems": [
    "gsm_pack_fields",
    "gsm_pack_round",
    "gsm_unpack_fields"
   ],
   "note": ""
  },
  {
   "property": "C115",
   "status": "proved",
   "theorems": [
    "gsm_decode_any"
   ],
   "note": ""
  },
  {
   "property": "C116",
   "status": "partial",
   "theorems": [
    "gsm_decode_none_partial",
    "gsm_decode_none_refuted"
   ],
   "note": "Refuted: gsm0610_unpack_none does not check its octets, and a gain of 255 indexes beyond the table of four. It holds when each octet fits its field."
  },
  {
   "property": "C117",
   "status": "proved",
   "theorems": [
    "gsm_encode_any",
    "gsm_encode_frame_any"
   ],
   "note": ""
  },
  {
   "property": "C118",
   "status": "proved",
   "theorems": [
    "gsm_decoder_tracks"
   ],
   "note": ""
  },
  {
   "property": "C119",
   "status": "proved",
   "theorems": [
    "gsm_short_term_exact"
   ],
   "note": ""
  },
  {
   "property": "C120",
   "status": "proved",
   "theorems": [
    "gsm_quantiser_error",
    "gsm_max_abs"
   ],
   "note": ""
  },
  {
   "property": "C121",
   "status": "proved",
   "theorems": [
    "gsm_ltp_best",
    "gsm_grid_best",
    "gsm_division"
   ],
   "note": ""
  },
  {
   "property": "C122",
   "status": "partial",
   "theorems": [
    "gsm_lpc_keeps_partial",
    "gsm_lpc_keeps_refuted"
   ],
   "note": "Refuted: a sample of 32760 or more is rounded up to 32768 and comes back as -32768, as full scale audio brings about. It holds for samples up to 32759."
  },
  {
   "property": "C123",
   "status": "partial",
   "theorems": [
    "gsm_whole_blocks_refuted"
   ],
   "note": "Refuted: a last block that is not whole is read beyond its end, also a single frame with WAV49. C115 and C117 show that it holds for whole blocks."
  },
  {
   "property": "C124",
   "status": "proved",
   "theorems": [
    "ademco_encodes",
    "ademco_decodes"
   ],
   "note": ""
  },
  {
   "property": "C125",
   "status": "partial",
   "theorems": [
    "ademco_out_of_range_partial",
    "ademco_out_of_range_refuted"
   ],
   "note": "Refuted: encode_msg prints an account beyond 16 bits with more digits than the buffer has. For reports in range no sequence of calls fails."
  },
  {
   "property": "C126",
   "status": "partial",
   "theorems": [
    "ademco_wrong_digit_partial",
    "ademco_wrong_digit_refuted"
   ],
   "note": "Refuted: 0 and D both count as 10 in the sum, so 0 taken for D is not found out. All others are."
  },
  {
   "property": "C127",
   "status": "proved",
   "theorems": [
    "ademco_receives",
    "ademco_accepts",
    "ademco_all_received"
   ],
   "note": ""
  },
  {
   "property": "C128",
   "status": "proved",
   "theorems": [
    "ademco_success"
   ],
   "note": "The two Goertzel filters are taken as any decisions of which tone is heard in a block."
  },
  {
   "property": "C129",
   "status": "partial",
   "theorems": [
    "ademco_sent_again_refuted"
   ],
   "note": "Refuted: the digits are queued again but clear_to_send is not set, so ademco_contactid_sender_tx sends nothing; only the first message goes out."
  },
  {
   "property": "C130",
   "status": "proved",
   "theorems": [
    "ademco_gives_up"
   ],
   "note": ""
  },
  {
   "property": "C131",
   "status": "partial",
   "theorems": [
    "ademco_after_failure_refuted"
   ],
   "note": "Refuted: on a silent line it stays busy and refuses every message; after four bad tones it takes messages but, whatever is heard, tells of nothing more."
  },
  {
   "property": "C132",
   "status": "partial",
   "theorems": [
    "ademco_late_message_refuted"
   ],
   "note": "Refuted: a message that comes more than 250ms after the handshake is never sent on a silent line, and nothing is told, for all calls that follow."
  },
  {
   "property": "C133",
   "status": "partial",
   "theorems": [
    "ademco_refused_refuted"
   ],
   "note": "Refuted: the refusal leaves a length of -1, which starts the timer at the handshake, and failure is told."
  },
  {
   "property": "C134",
   "status": "proved",
   "theorems": [
    "bert_generates"
   ],
   "note": ""
  },
  {
   "property": "C135",
   "status": "proved",
   "theorems": [
    "bert_zeros_suppressed"
   ],
   "note": ""
  },
  {
   "property": "C136",
   "status": "proved",
   "theorems": [
    "bert_limit"
   ],
   "note": ""
  },
  {
   "property": "C137",
   "status": "proved",
   "theorems": [
    "bert_receives",
    "bert_fresh",
    "bert_any_start"
   ],
   "note": ""
  },
  {
   "property": "C138",
   "status": "partial",
   "theorems": [
    "bert_dead_line_refuted"
   ],
   "note": "Refuted: an idle line is taken for the pattern with no errors, as the register full of zeros follows the recurrence."
  },
  {
   "property": "C139",
   "status": "partial",
   "theorems": [
    "bert_clean_20_refuted"
   ],
   "note": "Refuted: zeros are counted only once there is sync, so a one that was put in soon after is taken for an error."
  },
  {
   "property": "C140",
   "status": "partial",
   "theorems": [
    "bert_keeps_sync_partial",
    "bert_keeps_sync_refuted"
   ],
   "note": "Proved when resync_len * resync_percent is at least 100. Refuted below, as the limit is 0 and every window is bad."
  },
  {
   "property": "C141",
   "status": "partial",
   "theorems": [
    "bert_for_ever_refuted"
   ],
   "note": "Refuted: tx.bits, rx.bits and total_bits are ints that are counted up; 2^31 bits are undefined behaviour."
  },
  {
   "property": "C142",
   "status": "proved",
   "theorems": [
    "bert_fixed_sends",
    "bert_fixed_receives"
   ],
   "note": ""
  },
  {
   "property": "C143",
   "status": "partial",
   "theorems": [
    "bert_fixed_lost_refuted"
   ],
   "note": "Refuted: for the fixed patterns it is told for no line whatever."
  },
  {
   "property": "C144",
   "status": "partial",
   "theorems": [
    "bert_text_bits_refuted",
    "bert_receives",
    "bert_fixed_receives"
   ],
   "note": "Refuted for the text, where a character with seven wrong bits counts once. Proved for the fixed and pseudo-random patterns."
  },
  {
   "property": "C145",
   "status": "proved",
   "theorems": [
    "bert_error_rate"
   ],
   "note": ""
  },
  {
   "property": "C146",
   "status": "proved",
   "theorems": [
    "bert_text_sends",
    "bert_text_receives",
    "bert_text_clean"
   ],
   "note": ""
  },
  {
   "property": "C147",
   "status": "proved",
   "theorems": [
    "bert_window"
   ],
   "note": ""
  }
 ]
}
