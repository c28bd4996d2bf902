{"id": "C01", "title": "CRC-16 append/check round trip", "statement": "For every octet buffer, appending the ITU-16 CRC with crc_itu16_append adds exactly two octets, leaves the message octets unchanged, and the resulting buffer passes crc_itu16_check; conversely a buffer of two or more octets passes the check only if its last two octets are the ones crc_itu16_append would have produced for the rest.", "quantifier": "all octet sequences of any length", "why_tests_cant": "2^(8n) buffers for every n; tests sample a few thousand", "anchors": ["src/crc.c: crc_itu16_calc, crc_itu16_append, crc_itu16_check"]}
{"id": "C02", "title": "CRC-32 append/check round trip", "statement": "Same as C01 for crc_itu32_append / crc_itu32_check with four octets.", "quantifier": "all octet sequences of any length", "why_tests_cant": "unbounded message length", "anchors": ["src/crc.c: crc_itu32_calc, crc_itu32_append, crc_itu32_check"]}
{"id": "C03", "title": "CRC-16 detects every short error burst and every odd number of bit errors", "statement": "If a buffer passes crc_itu16_check, then any different buffer of the same length whose differences are confined to a window of at most 16 consecutive bits (in transmission order) fails it; so does any buffer differing in an odd number of bits.", "quantifier": "all valid buffers, all error patterns of those shapes", "why_tests_cant": "all messages times all positions times all burst patterns", "anchors": ["src/crc.c: crc_itu16_check"]}
{"id": "C04", "title": "CRC-32 detects every error burst of up to 32 bits", "statement": "If a buffer passes crc_itu32_check, any different buffer of the same length whose differences are confined to a window of at most 32 consecutive bits fails it.", "quantifier": "all valid buffers, all bursts", "why_tests_cant": "all messages times all positions times 2^32 patterns", "anchors": ["src/crc.c: crc_itu32_check"]}
{"id": "C05", "title": "CRC calculation is the standard bitwise CRC and can be computed in pieces", "statement": "The table driven calculators return the reflected-polynomial bit-serial CRC (0x8408, 0xEDB88320) of the buffer from the given start value; computing over a concatenation equals chaining; crc_itu16_bits over 8 bits agrees with one octet of crc_itu16_calc.", "quantifier": "all buffers and all 16/32 bit start values", "why_tests_cant": "unbounded buffers and start values", "anchors": ["src/crc.c: crc_itu16_calc, crc_itu16_bits, crc_itu32_calc"]}
{"id": "C06", "title": "Bit reversal", "statement": "bit_reverse8/16/32/4bytes/8bytes return exactly the bit-mirrored value (within each octet for the *bytes variants) of their argument, and bit_reverse applies the octet reversal to every octet of a buffer of any length, touching nothing else.", "quantifier": "all words, all buffers of any length", "why_tests_cant": "2^32/2^64 words and unbounded buffers", "anchors": ["src/bit_operations.c", "src/spandsp/bit_operations.h: bit_reverse8"]}
{"id": "C07", "title": "Bit counting, masking and searching", "statement": "top_bit/bottom_bit return the index of the highest/lowest set bit or -1; one_bits32 returns the number of set bits; parity8/16/32 its parity; make_mask16/32 the all-ones mask up to the top bit; least/most_significant_one32 isolate that bit.", "quantifier": "all 8/16/32 bit words", "why_tests_cant": "2^32 words", "anchors": ["src/bit_operations.c", "src/spandsp/bit_operations.h"]}
{"id": "C08", "title": "u-law coding", "statement": "Every u-law octet decodes to a value that encodes back to the same octet (except negative zero, which becomes positive zero); encoding then decoding any 16 bit sample is monotone, odd-symmetric up to the sign of zero, and is off by at most half a quantisation step of the segment (clipping only beyond the top code).", "quantifier": "all 256 octets, all int16 samples (and larger ints: saturate)", "why_tests_cant": "exhaustive relational checks over all pairs are 2^32", "anchors": ["src/spandsp/g711.h: linear_to_ulaw, ulaw_to_linear"]}
{"id": "C09", "title": "A-law coding", "statement": "Every A-law octet decodes to a value that encodes back to the same octet; encode-then-decode is monotone over all samples and off by at most half the segment step.", "quantifier": "all 256 octets, all int16 samples", "why_tests_cant": "pairs of samples", "anchors": ["src/spandsp/g711.h: linear_to_alaw, alaw_to_linear"]}
{"id": "C10", "title": "G.711 buffers and transcoding", "statement": "g711_encode/g711_decode/g711_transcode process buffers of any length sample by sample, return the sample count, and the CCITT transcoding tables lose at most one quantisation level and are stable after one pass.", "quantifier": "all buffers, both modes", "why_tests_cant": "unbounded buffers", "anchors": ["src/g711.c"]}
{"id": "C11", "title": "Bit stream packing round trip", "statement": "Any sequence of (value,width) fields with width 1..25 written with bitstream_put and flushed is read back identically by bitstream_get with the same widths, in either bit order, using exactly ceil(total/8) octets.", "quantifier": "all field sequences of any length", "why_tests_cant": "unbounded sequences", "anchors": ["src/bitstream.c"]}
{"id": "C12", "title": "Async serial round trip", "statement": "For every legal configuration (any number of data bits, any parity, >=1 stop bits, together fitting the 16 bit frame register, with or without V.14 receive mode), whatever characters the transmitter's source supplies come out of a receiver with the same configuration, in order, with no parity or framing errors.", "quantifier": "all configurations, all character sequences, any interleaved idle/presend periods", "why_tests_cant": "unbounded streams, all configurations", "anchors": ["src/async.c: async_tx_get_bit, async_rx_put_bit"]}
{"id": "C13", "title": "Async receiver error detection", "statement": "A received character whose parity does not match is never delivered and increments the parity error count; a zero stop bit (non V.14) is never delivered and increments the framing error count; any bit stream whatsoever only delivers characters within range.", "quantifier": "all bit streams", "why_tests_cant": "unbounded hostile streams", "anchors": ["src/async.c: async_rx_put_bit"]}
{"id": "C14", "title": "HDLC end-to-end transparency", "statement": "Every sequence of frames (1..max octets each, arbitrary contents) loaded into the HDLC transmitter, with any inter-frame flag count and preamble, is delivered by an HDLC receiver fed with the transmitter's octets exactly once, in order, unmodified and marked good; nothing else is delivered as a frame.", "quantifier": "all frame sequences, CRC-16 and CRC-32, all inter-frame settings", "why_tests_cant": "bit stuffing alignment depends on all earlier frames", "anchors": ["src/hdlc.c: hdlc_tx_get_byte, hdlc_tx_frame, hdlc_rx_put_byte"]}
{"id": "C15", "title": "HDLC receiver is safe on any input and delivers only frames with a valid CRC", "statement": "For any bit/byte/status input sequence the receiver never stores outside its frame buffer, every frame reported good has a valid CRC in the received octets and at most the configured maximum length, and counters equal the reported events.", "quantifier": "all input sequences, all configurations", "why_tests_cant": "hostile line noise is unbounded", "anchors": ["src/hdlc.c: hdlc_rx_put_bit_core, rx_flag_or_abort"]}
{"id": "C16", "title": "HDLC bit and octet interfaces agree", "statement": "Feeding an octet with hdlc_rx_put_byte has exactly the effect of feeding its eight bits MSB first with hdlc_rx_put_bit; drawing eight bits with hdlc_tx_get_bit yields the octet hdlc_tx_get_byte would have produced.", "quantifier": "all states, all octets", "why_tests_cant": "all reachable states", "anchors": ["src/hdlc.c: hdlc_rx_put_bit, hdlc_rx_put_byte, hdlc_tx_get_bit"]}
{"id": "C17", "title": "HDLC transmitter queueing contract", "statement": "hdlc_tx_frame refuses oversize frames and, in non-progressive mode, a second frame while one is in progress, leaving the accepted data untouched; progressive appends are sent as one frame.", "quantifier": "all call sequences", "why_tests_cant": "all histories", "anchors": ["src/hdlc.c: hdlc_tx_frame"]}
{"id": "C18", "title": "Byte queue is a bounded FIFO", "statement": "For any sequence of queue_write/queue_read/queue_view/queue_*_byte/queue_flush calls the queue behaves exactly as a FIFO of capacity len: octets come out in order, none lost, duplicated or altered, atomic modes are all-or-nothing, and no access leaves the data buffer.", "quantifier": "all call sequences, all capacities, all flag settings", "why_tests_cant": "unbounded histories and wrap positions", "anchors": ["src/queue.c"]}
{"id": "C19", "title": "Message queue keeps message boundaries", "statement": "Messages written with queue_write_msg are read whole and in order by queue_read_msg, a message that does not fit is refused entirely, a short read buffer truncates only that message, and queue_state_test_msg tells the length of the next one.", "quantifier": "all message sequences (lengths 0..65535), all capacities", "why_tests_cant": "unbounded histories; all wrap positions of the length header", "anchors": ["src/queue.c: queue_write_msg, queue_read_msg, queue_state_test_msg"]}
{"id": "C20", "title": "Queue is safe with one writer and one reader thread", "statement": "With one thread writing and one reading, for every interleaving of their individual memory accesses, what the reader has read is always a prefix of what the writer has completed writing, free space and contents are never over-reported, and nothing is overwritten before being read.", "quantifier": "all interleavings of memory accesses (sequentially consistent), all call sequences", "why_tests_cant": "schedules are unbounded and racy", "anchors": ["src/queue.c: queue_write, queue_read"]}
{"id": "C21", "title": "Scheduler fires each event once, not early", "statement": "Every event added with span_schedule_event fires exactly once, during the first span_schedule_update after which the clock has reached its time (never earlier), unless deleted first; deleted events never fire; span_schedule_next is the minimum pending time.", "quantifier": "all call sequences including callbacks that schedule more events", "why_tests_cant": "unbounded histories", "anchors": ["src/schedule.c"]}
{"id": "C22", "title": "V.42bis lossless", "statement": "Whatever octets are passed to v42bis_compress, in any chunking, feeding the compressor's output in any chunking to v42bis_decompress reproduces exactly those octets.", "quantifier": "all data, all chunkings on both sides, all negotiated parameters with at most 4096 codewords, all compression modes and changes of mode, flushes at least N7 octets apart", "why_tests_cant": "dictionary state space is astronomically large", "anchors": ["src/v42bis.c"]}
{"id": "C23", "title": "V.42bis flush delivers everything", "statement": "After v42bis_compress_flush everything accepted so far can be recovered by the decompressor from the octets emitted so far.", "quantifier": "all histories", "why_tests_cant": "depends on history", "anchors": ["src/v42bis.c: v42bis_compress_flush"]}
{"id": "C24", "title": "V.42bis decompressor is memory safe on hostile input", "statement": "No octet sequence fed to v42bis_decompress causes an access outside the dictionary, string or output buffers, an undefined shift or a non-terminating dictionary walk.", "quantifier": "all octet sequences, all negotiated parameters accepted by v42bis_init", "why_tests_cant": "hostile inputs", "anchors": ["src/v42bis.c: v42bis_decompress, expand_codeword_to_string, add_octet_to_dictionary"]}
{"id": "C25", "title": "IMA ADPCM decoder tracks the encoder", "statement": "For IMA4 and DVI4, with and without packet headers, for every signal encoded in calls of an even number of samples (IMA4 with headers: odd), decoding gives exactly the samples the encoder predicted, both ends finish in the same state, every code is within one unit of the best of the 16 and within half a quantising step plus two of the signal when that is within reach, and samples and step index stay in range. An odd length DVI4 packet breaks this.", "quantifier": "all signals of any length, all reachable states", "why_tests_cant": "unbounded signals", "anchors": ["src/ima_adpcm.c: encode, decode"]}
{"id": "C26", "title": "VDVI variable length packing round trip", "statement": "For every signal, in packets of any number of samples, with and without headers, the VDVI decoder recovers exactly the samples the encoder predicted and no others, whatever the alignment of the codewords.", "quantifier": "all code sequences", "why_tests_cant": "all alignments", "anchors": ["src/ima_adpcm.c: ima_adpcm_encode, ima_adpcm_decode (IMA_ADPCM_VDVI)"]}
{"id": "C27", "title": "Exactly which packets the IMA ADPCM decoder is safe on", "statement": "Without packet headers ima_adpcm_decode never indexes outside its tables or data, whatever the data. With headers it does so exactly for packets shorter than the three header octets it reads, and packets with a step index above 88 followed by data.", "quantifier": "all packets", "why_tests_cant": "hostile inputs", "anchors": ["src/ima_adpcm.c: ima_adpcm_decode"]}
{"id": "C28", "title": "Oki ADPCM decoder tracks the encoder", "statement": "At 32 kbps, for every signal in calls of even length, the decoder gives sixteen times the encoder's 12 bit predictions, each within one unit of the best code for the top 12 bits of the sample; values stay in -2048..2047 and the step index in 0..48; the decoder is safe on any data.", "quantifier": "all signals", "why_tests_cant": "unbounded signals", "anchors": ["src/oki_adpcm.c: encode, decode"]}
{"id": "C29", "title": "Play-out buffer loses, duplicates and alters no frame, and keeps in-order arrivals in order", "statement": "For every sequence of playout_put/playout_get/playout_get_unconditional calls after playout_init, each accepted frame is returned exactly once, unchanged, or is still queued (and then comes out of playout_get_unconditional); frames put in non-decreasing sender timestamp order come out in that order; a new frame's position in the queue is exactly determined, and the queue stays in timestamp order unless the frame falls strictly between the first two of the queue (where the code misplaces it); playout_release then frees every record exactly once. A playout_restart with frames queued leaks them.", "quantifier": "all arrival orders", "why_tests_cant": "all permutations of arrivals", "anchors": ["src/playout.c: playout_put, queue_get"]}
{"id": "C30", "title": "T.38 IFP packets survive encoding and decoding", "statement": "Any indicator or any data packet built by the T.38 transmit side is decoded by the receive side into the same indicator, or the same data type and field list (types and contents), consuming the whole packet.", "quantifier": "all indicators, data types, field lists, versions, transports", "why_tests_cant": "unbounded field contents", "anchors": ["src/t38_core.c: t38_encode_indicator, t38_encode_data, t38_core_rx_ifp_stream"]}
{"id": "C31", "title": "T.38 receiver never reads beyond a packet and delivers nothing from a malformed one", "statement": "For every octet string t38_core_rx_ifp_stream reads only octets inside it; if it returns an error no data field has been delivered; its return value is negative, 0 or a position within the packet.", "quantifier": "all octet strings, versions, transports", "why_tests_cant": "hostile inputs", "anchors": ["src/t38_core.c: t38_core_rx_ifp_stream"]}
{"id": "C32", "title": "T.38 sequence number handling", "statement": "With checking on, each sequence number's payload is accepted at most once in order: repeats and late packets (within 2000) are dropped, gaps are reported to the missing handler with the exact range, and the expected number wraps modulo 65536.", "quantifier": "all sequences of sequence numbers", "why_tests_cant": "unbounded histories with wrap-around", "anchors": ["src/t38_core.c: t38_core_rx_ifp_packet, classify_seq_no_offset"]}
{"id": "C33", "title": "Fax image coding is lossless (T.4 1D, T.4 2D, T.6)", "statement": "A page of bi-level rows compressed by the T.4 1D, T.4 2D or T.6 encoder is a fixed octet string however it is read (t4_t6_encode_get in any sizes, or get_bit); fed to the decoder in any pieces, or bit by bit, and then told the page has ended, it makes the decoder hand exactly those rows to its row handler, with no bad rows.", "quantifier": "all row contents and counts, all widths that are a multiple of 8, all max-2D settings, all minimum row bits up to 7*width-4, all readings and feedings", "why_tests_cant": "2^width rows", "anchors": ["src/t4_t6_encode.c", "src/t4_t6_decode.c"]}
{"id": "C34", "title": "QM arithmetic coder is lossless", "statement": "Any sequence of (context,pixel) decisions encoded by t81_t82_arith_encode and flushed is decoded to the same pixels by t81_t82_arith_decode with the same contexts, with zero padding after the end marker.", "quantifier": "all decision sequences of any length", "why_tests_cant": "adaptive state; carry propagation depends on unbounded history", "anchors": ["src/t81_t82_arith_coding.c"]}
{"id": "C35", "title": "Modem scramblers are inverted by the descramblers and self-synchronise", "statement": "Descrambling the scrambled bit stream returns the original data for every data stream when the states start equal; from any other receiver state it does so after 23 bits (V.17, V.29, V.34), or once 12 (17) bits and a restart of the guard's count have been seen on the line (V.27ter, V.22bis). The same holds through the differential symbol mappings under any constant rotation.", "quantifier": "all bit streams, all register states", "why_tests_cant": "unbounded streams", "anchors": ["src/v17tx.c: scramble", "src/v17rx.c: descramble", "src/v29tx.c", "src/v29rx.c", "src/v27ter_tx.c", "src/v27ter_rx.c", "src/v22bis_tx.c", "src/v22bis_rx.c", "src/v34tx.c: scramble", "src/v34rx.c: descramble"]}
{"id": "C36", "title": "T.38 non-ECM image buffer forwards data intact", "statement": "A block of image data put into the non-ECM buffer comes out as ones, then a first end of line, then every row of the image in order and the bits after the last row, changed only by whole octets of zeros in front of the one that ends a row; a block of training data comes out as ones followed by the data from its first octet that is not all ones, with octets of zeros added. Further blocks, in either mode, can follow.", "quantifier": "all data, all minimum row lengths, all interleavings of inject and get_bit that do not overfill the buffer, all sequences of blocks", "why_tests_cant": "unbounded interleavings", "anchors": ["src/t38_non_ecm_buffer.c"]}
{"id": "C37", "title": "CRC-16 detects any two bit errors", "statement": "If a buffer of at most 4095 octets passes crc_itu16_check, any buffer of the same length differing in exactly two bits fails it (so with C03 the minimum distance is at least 4).", "quantifier": "all valid buffers up to 4095 octets, all pairs of bit positions", "why_tests_cant": "about 2^30 position pairs times all messages", "anchors": ["src/crc.c: crc_itu16_check"]}
{"id": "C38", "title": "A good HDLC frame was really on the line", "statement": "If the receiver, fed any bit stream after initialisation, reports a frame as good, then the bit stream contained that frame's stuffed octets and FCS between an opening and a closing flag (with at most one extra 1 bit before the closing flag).", "quantifier": "all bit streams, both FCS sizes, all thresholds and maximum lengths", "why_tests_cant": "needs an argument over every possible bit history, including shared flags, aborts and stuffing at the frame end", "anchors": ["src/hdlc.c:117-243", "src/hdlc.c:246-299"]}
{"id": "C39", "title": "HDLC receiver resynchronises", "statement": "Whatever was fed to the receiver before, once the configured number of flags has passed, every well formed frame that follows (with arbitrary flags between) is delivered once, in order, good, and nothing else is.", "quantifier": "all earlier inputs, all later frame sequences", "why_tests_cant": "the earlier input can leave the receiver in any state", "anchors": ["src/hdlc.c:117-243", "src/hdlc.c:246-340"]}
{"id": "C40", "title": "A fixed length play-out buffer plays regular speech at its time", "statement": "With playout_init(m*L, m*L) and speech frames of length L stamped t0, t0+L, ..., put in order, each no later than m frame times after its due time: the first m playout_get calls return PLAYOUT_FILLIN and call m+1+k returns PLAYOUT_OK with frame k; no arithmetic overflows while the time stamps stay within int range.", "quantifier": "all m, L, t0, frame contents, and all interleavings of arrivals and play-out meeting the lateness bound", "why_tests_cant": "unbounded interleavings and parameters", "anchors": ["src/playout.c: playout_put, playout_get, playout_restart"]}
{"id": "C41", "title": "Play-out buffer list pointers stay good", "statement": "No sequence of playout_put (with malloc succeeding or failing), playout_get, playout_get_unconditional, playout_restart and playout_release dereferences a null, freed or foreign frame pointer or frees one twice.", "quantifier": "all call sequences and time stamps", "why_tests_cant": "pointer surgery in a doubly linked list with a free list; only some sequences show a fault", "anchors": ["src/playout.c: queue_get, playout_put, playout_restart, playout_release"]}
{"id": "C42", "title": "T.38 session from sender to receiver", "statement": "For any sequence of indicators and data sent through the T.38 core, and any loss, repetition or reordering of the packets within the 2000 packet window, the receiving core hands over exactly the messages of the accepted packets, each at most once and in order, and reports exactly the gaps; with nothing lost, what was told is what is heard.", "quantifier": "all send sequences, all arrival orders within the window, across sequence number wrap, all transports and versions", "why_tests_cant": "unbounded histories and packet contents", "anchors": ["src/t38_core.c: t38_core_send_indicator, t38_core_send_data_multi_field, t38_core_rx_ifp_packet"]}
{"id": "C43", "title": "V.42bis output is complete after a flush", "statement": "After v42bis_compress_flush the octets given to the handler followed by those held in the composition buffer decode to exactly everything accepted so far, and unless a dictionary update is pending (the last octet caused a change of mode) nothing is held.", "quantifier": "all histories of calls, flushes at least N7 octets apart", "why_tests_cant": "depends on history", "anchors": ["src/v42bis.c: v42bis_compress_flush"]}
{"id": "C44", "title": "V.42bis decompressor safe until the codeword size is raised too far", "statement": "Fed any octets, the decompressor never reads or writes outside its dictionary, string and output buffers, never loops without end and never shifts out of range, as long as no STEPUP has raised the codeword size beyond 12 bits; calls after the first error return are excluded.", "quantifier": "all octet sequences, all chunkings", "why_tests_cant": "hostile inputs", "anchors": ["src/v42bis.c: v42bis_decompress"]}
{"id": "C45", "title": "V.42bis message sizes", "statement": "Every message given to a V.42bis handler is non-empty and no longer than the maximum length asked for and than 1024 octets.", "quantifier": "all histories", "why_tests_cant": "depends on history", "anchors": ["src/v42bis.c: push_octet, push_octets, flush_octets"]}
{"id": "C46", "title": "HDLC flags between frames and aborts", "statement": "The octet closing a frame is followed by at least the number of flags asked for at initialisation less one before any further frame, whatever frames the underflow handler queues; hdlc_tx_abort makes the next octet an abort.", "quantifier": "all transmitter states, all handlers", "why_tests_cant": "depends on history and bit position", "anchors": ["src/hdlc.c: hdlc_tx_get_byte, hdlc_tx_abort"]}
{"id": "C47", "title": "T.38 repeat counts", "statement": "Each call of a T.38 send function passes at most one packet to the transport, with the repeat count configured for its category, and a forced indicator is sent exactly once.", "quantifier": "all states, all calls", "why_tests_cant": "configuration space", "anchors": ["src/t38_core.c: t38_core_send_indicator, t38_core_send_data"]}
{"id": "C48", "title": "Arithmetic coded data contain no markers", "statement": "The octets the arithmetic encoder delivers for a stripe, flush included, contain 0xFF only when followed by the stuffing octet 0x00, so no marker code can be mistaken in them.", "quantifier": "all decision sequences, all starting probability states", "why_tests_cant": "needs carries through arbitrarily long runs of 0xFF", "anchors": ["src/t81_t82_arith_coding.c: output_stuffed_byte, byteout, t81_t82_arith_encode_flush"]}
{"id": "C49", "title": "Arithmetic decoder is safe on any input", "statement": "t81_t82_arith_decode terminates and stays within its tables for any octets, returning a pixel, -1 with at most a lone escape octet left, or -2 once at the marker when asked to.", "quantifier": "all octet strings, all contexts, all reachable states", "why_tests_cant": "hostile input", "anchors": ["src/t81_t82_arith_coding.c: t81_t82_arith_decode"]}
{"id": "C50", "title": "Arithmetic decoder can be fed in pieces", "statement": "After returning -1 the decoder, called again with the unused octets and more data, behaves exactly as if it had had all the data at once; pixels do not depend on data not yet used.", "quantifier": "all states, all splits of the input", "why_tests_cant": "split points times states", "anchors": ["src/t81_t82_arith_coding.c: t81_t82_arith_decode"]}
{"id": "C51", "title": "Run length extraction finds exactly the colour changes of a row", "statement": "row_to_run_lengths returns the positions at which the colour changes, starting from white, closed by the width, ignoring the bits beyond the width, and writes nowhere else.", "quantifier": "all rows, all widths", "why_tests_cant": "2^width rows", "anchors": ["src/t4_t6_encode.c:453-584"]}
{"id": "C52", "title": "The fax compressor stays inside its buffers", "statement": "Whatever the rows, t4_t6_encode_get and _get_bit never write outside the run buffers or the row buffer.", "quantifier": "all rows, widths, settings", "why_tests_cant": "overrun depends on the row contents and settings together", "anchors": ["src/t4_t6_encode.c"]}
{"id": "C53", "title": "The fax decompressor is safe on arbitrary input", "statement": "Whatever octets are received, the decoder stays inside its run and row buffers and shifts by less than the word size.", "quantifier": "all input streams", "why_tests_cant": "adversarial streams", "anchors": ["src/t4_t6_decode.c"]}
{"id": "C54", "title": "Fax image coding is lossless for every width", "statement": "As C33, for widths that are not a multiple of 8.", "quantifier": "all widths", "why_tests_cant": "rare widths", "anchors": ["src/t4_t6_decode.c:190-330"]}
{"id": "C55", "title": "Non-ECM buffer honours the minimum row length", "statement": "Every image row handed to the modem has at least min_bits_per_row bits, except an end of line on its own (12 or 13 bits), which is passed on unstretched.", "quantifier": "all data, all minimum row lengths, all interleavings", "why_tests_cant": "row boundaries at every bit alignment and fill length", "anchors": ["src/t38_non_ecm_buffer.c:255-310"]}
{"id": "C56", "title": "An overfilled non-ECM buffer does not lose its content", "statement": "Octets put into the buffer faster than they are taken are never silently lost.", "quantifier": "all data", "why_tests_cant": "needs 16384 octets queued", "anchors": ["src/t38_non_ecm_buffer.c:183-319"]}
{"id": "C57", "title": "Non-ECM buffer is memory safe under any use", "statement": "No sequence of inject, get_bit and push calls, overfilling or not, accesses data[] outside its bounds, and get_bit returns only 0, 1 or end of data.", "quantifier": "all call sequences, all data", "why_tests_cant": "unbounded sequences", "anchors": ["src/t38_non_ecm_buffer.c"]}
{"id": "C58", "title": "T.85 image coding is lossless", "statement": "For any page, width, stripe length, template limit and option word, the octets obtained from t85_encode_get() in pieces of any size are consecutive parts of one stream, and t85_decode_put() given that stream in any pieces followed by an end of data reports success and hands on exactly the page's rows, cut at the width; a page that ends early is shortened (variable length) or filled with white.", "quantifier": "all widths up to 2^32-8, all lengths, all options, all rows, all ways of cutting the stream", "why_tests_cant": "unbounded images, adaptive arithmetic coder and template moves, every split of the stream", "anchors": ["src/t85_encode.c:222-669", "src/t85_decode.c:100-700", "src/t81_t82_arith_coding.c"]}
{"id": "C59", "title": "T.85 decoder is memory safe on any input", "statement": "Whatever octets t85_decode_put() is given, in whatever pieces, it accesses nothing outside its buffers.", "quantifier": "all octet strings, all splits, with and without a comment handler", "why_tests_cant": "hostile input", "anchors": ["src/t85_decode.c:417-700"]}
{"id": "C60", "title": "A T.85 decoder that has turned down a header stays harmless", "statement": "After t85_decode_put() has returned invalid data for a header, further calls touch no memory they should not.", "quantifier": "all headers, all further data", "why_tests_cant": "needs a particular kind of bad header and then more data", "anchors": ["src/t85_decode.c:315-411", "src/t85_decode.c:437-513"]}
{"id": "C61", "title": "T.85 header analysis reports the image's size", "statement": "t85_analyse_header() on the stream of an encoded image returns that image's width and length.", "quantifier": "all images", "why_tests_cant": "only noticed when the reported size is compared with the image", "anchors": ["src/t85_decode.c:260-303", "src/t4_rx.c:430"]}
{"id": "C62", "title": "T.85 header analysis always comes to an end", "statement": "t85_analyse_header() returns for any data, reading only inside it.", "quantifier": "all data", "why_tests_cant": "needs one particular value in four header octets", "anchors": ["src/t85_decode.c:260-303"]}
{"id": "C63", "title": "Caller ID messages are delivered", "statement": "Messages handed to adsi_tx_put_message() one after another (CLASS, CLIP, A-CLIP: 2 to 255 octets; J-CLIP: 7 bit, up to 119 octets), taken as line bits by the FSK modulator and given as bits to a receiver of the same standard, are passed to its put_msg one for one and unchanged, the length octet filled in (J-CLIP: as the whole frame).", "quantifier": "all messages, all numbers of messages, all preamble, mark, postamble and stop bit settings a receiver can follow", "why_tests_cant": "one message length, and marks too short after a preamble, lose the message", "anchors": ["src/adsi.c:94-171", "src/adsi.c:192-329", "src/adsi.c:626-724"]}
{"id": "C64", "title": "Caller ID receiver delivers only checked messages that were on the line", "statement": "Whatever bits and status reports adsi_rx_put_bit() is given, it stays inside its 256 octet buffer, and every message passed to put_msg was on the line as consecutive framed characters with its length octet matching and its sum check (J-CLIP: CRC) right.", "quantifier": "all bit sequences of less than 2^30 bits", "why_tests_cant": "the space of line noise cannot be tried out", "anchors": ["src/adsi.c:192-329"]}
{"id": "C65", "title": "Caller ID fields survive the trip", "statement": "A message built with adsi_add_field(), sent, received, and taken apart with adsi_next_field() gives back the message type and the same fields in the same order (CLASS, CLIP, A-CLIP single and multiple data messages, J-CLIP).", "quantifier": "all message types, field types and bodies that fit a message", "why_tests_cant": "a single field length goes wrong", "anchors": ["src/adsi.c:961-1098", "src/adsi.c:1100-1215"]}
{"id": "C66", "title": "DTMF caller ID survives the trip", "statement": "DTMF caller ID messages built with adsi_add_field(), passed on as digits in pieces of any size to adsi_rx_dtmf(), are delivered one for one, and adsi_next_field() gives back the type and the fields.", "quantifier": "all lists of messages, all ways of splitting the digits", "why_tests_cant": "splits and field mixes are unbounded", "anchors": ["src/adsi.c:379-407", "src/adsi.c:1052-1084", "src/adsi.c:1165-1192"]}
{"id": "C67", "title": "adsi_next_field() stays inside the message and moves on", "statement": "adsi_next_field() reads only the message it is given, gives bodies inside it, and returns a position beyond the one it was given, so that taking a message apart ends.", "quantifier": "all messages, positions and standards", "why_tests_cant": "needs messages ending in the middle of a field", "anchors": ["src/adsi.c:961-1098"]}
{"id": "C68", "title": "TDD text is delivered", "statement": "Texts encoded by adsi_add_field() and sent one after another to a TDD receiver come out one for one, in capitals and without the characters Baudot code cannot express; the receiver is safe on any characters.", "quantifier": "all texts, all numbers of texts, all received character sequences", "why_tests_cant": "depends on the shift left behind by the message before", "anchors": ["src/adsi.c:173-190", "src/adsi.c:331-377", "src/adsi.c:773-959"]}
{"id": "C69", "title": "LAP.M delivers in order, without loss or repetition", "statement": "Over two connected V.42 contexts whose frames arrive in order but may be lost or damaged, each application's iframe_put sees exactly a prefix of what the other's iframe_get supplied, and all of it once everything has been acknowledged; no context ever misbehaves.", "quantifier": "all interleavings of frames sent, delivered, lost and damaged, timer ticks, busy and stop calls at both ends, all data", "why_tests_cant": "the number of interleavings with losses and timeouts is unbounded; sequence numbers wrap at 128", "anchors": ["src/v42.c:616-866", "src/v42.c:1019-1131", "src/v42.c:1151-1185"]}
{"id": "C70", "title": "LAP.M delivers from the moment of connection", "statement": "From v42_restart() at both ends on, with no frame lost, what the application at either end receives is a prefix of what the other supplied.", "quantifier": "all schedules of two fresh contexts without loss", "why_tests_cant": "needs an answer arriving after the timer has run out", "anchors": ["src/v42.c:523-567", "src/v42.c:869-920", "src/v42.c:1101-1119"]}
{"id": "C71", "title": "A V.42 link on a perfect line stays up", "statement": "When no frame is lost or damaged and neither side calls v42_stop(), a connection is never dropped.", "quantifier": "all schedules without loss, all timer ticks", "why_tests_cant": "needs particular frames in flight at the moment a timer runs out", "anchors": ["src/v42.c:585-604", "src/v42.c:665-709", "src/v42.c:821-866"]}
{"id": "C72", "title": "Acknowledged frames open the window", "statement": "Once a frame has been received, answered, and the answer received, the sender counts it as acknowledged and may send another.", "quantifier": "all schedules without loss", "why_tests_cant": "demo programs transfer both ways and have timers running", "anchors": ["src/v42.c:653-662", "src/v42.c:821-866"]}
{"id": "C73", "title": "XID negotiation", "statement": "The limits (window, frame size) in a received XID frame are taken over where smaller; the XID frame sent can be parsed as ISO 8885 groups and parameters and says what was configured.", "quantifier": "all received XID frames; all contexts that send one", "why_tests_cant": "both ends of a test are the same code with the same limits", "anchors": ["src/v42.c:265-492"]}
{"id": "C74", "title": "A V.42 context is safe against any peer", "statement": "Whatever frames, bits, timer ticks and calls reach a context, in any order, it makes no access outside its buffers, and iframe_put is called with data only.", "quantifier": "all sequences of inputs of any content and length", "why_tests_cant": "hostile frames in every protocol state", "anchors": ["src/v42.c:200-1550"]}
{"id": "C75", "title": "Detection of a V.42 peer", "statement": "An answerer recognises two ODPs in a row (8 to 16 ones after each character), and nothing else; a caller two ADPs; and two contexts find each other whenever they start.", "quantifier": "all bit sequences; all starting points", "why_tests_cant": "tests start both ends aligned with 8 ones", "anchors": ["src/v42.c:1204-1403"]}
{"id": "C76", "title": "A refusal of V.42 is understood", "statement": "A caller that is answered with the pattern for 'no error correcting protocol' (E, NUL) does not go on as if V.42 were supported.", "quantifier": "all numbers of ones in the pattern", "why_tests_cant": "spandsp never sends this pattern itself", "anchors": ["src/v42.c:1204-1342"]}
{"id": "C77", "title": "G.726 encoding of any audio", "statement": "g726_encode accepts any audio at any bit rate, coding and packing without an access outside a table or a bad shift, sends one code per sample, never the reserved all-zero code at 24, 32 and 40 kbps; packed output is the bit stream of those codes cut into octets; the predictor poles and scale factors stay within the limits of the recommendation.", "quantifier": "all bit rates, codings and packings; all sample sequences", "why_tests_cant": "the adaptive state depends on the whole history; tests use the ITU vectors and one recording", "anchors": ["src/g726.c:221-622", "src/g726.c:730-1042", "src/g726.c:1109-1173"]}
{"id": "C78", "title": "G.726 decoding of any octets", "statement": "g726_decode accepts any octets; packed octets decode to what the codes in them decode to, one sample in range per whole code; the state stays within the limits of the recommendation.", "quantifier": "all bit rates, codings, packings and octet sequences", "why_tests_cant": "corrupt or random codes drive the state where no encoder would", "anchors": ["src/g726.c:221-728", "src/g726.c:767-1107"]}
{"id": "C79", "title": "G.726 calls may be cut anywhere", "statement": "Splitting the audio given to g726_encode, or the octets given to g726_decode, over any number of calls gives the same output and state.", "quantifier": "all splits, including empty calls and splits inside a code", "why_tests_cant": "tests use fixed block sizes, which are multiples of 8 samples", "anchors": ["src/g726.c:1044-1173"]}
{"id": "C80", "title": "A G.726 decoder follows its encoder", "statement": "After any audio the state of the decoder equals that of the encoder, whatever the coding of the output; with packing the decoder gives the samples of all whole codes in the octets sent, which is all samples if their number is a multiple of 8.", "quantifier": "all bit rates, codings of either end, packings, audio", "why_tests_cant": "a divergence builds up only with particular histories", "anchors": ["src/g726.c:389-622", "src/g726.c:730-1173"]}
{"id": "C81", "title": "G.726 synchronous tandeming", "statement": "For A-law and mu-law, decoding and encoding again gives exactly the codes of the first encoding, so any number of further encoder and decoder pairs leaves the output unchanged.", "quantifier": "both laws, all bit rates, all audio, any number of pairs", "why_tests_cant": "the correction must be right for each step size, code and predicted value; tests do not tandem", "anchors": ["src/g726.c:624-1042"]}
{"id": "C82", "title": "G.726 linear output does not wrap", "statement": "When linear audio is encoded and decoded, a full scale positive sample does not come out strongly negative.", "quantifier": "all bit rates and audio", "why_tests_cant": "test material is not that loud", "anchors": ["src/g726.c:767-1042"]}
{"id": "C83", "title": "G.726 zero coefficients do not wrap", "statement": "One more sample changes the coefficients of the predictor's zeros a little, not from one end of their range to the other.", "quantifier": "all states reachable from g726_init", "why_tests_cant": "needs hundreds of samples with the same small prediction error", "anchors": ["src/g726.c:389-622"]}
{"id": "C84", "title": "All audio given to the G.726 encoder is sent", "statement": "With packing, the codes of all samples given to g726_encode get sent.", "quantifier": "all lengths", "why_tests_cant": "tests use multiples of 8 samples", "anchors": ["src/g726.c:1109-1173"]}
{"id": "C85", "title": "G.726 quantising is sound", "statement": "After any audio, the value the decoder reconstructs for a sample lies in the same quantising interval as the sample: any other sample in between (14 bit resolution) would have given the same codes and states.", "quantifier": "all bit rates, all audio histories, all samples", "why_tests_cant": "depends on every table entry at every step size", "anchors": ["src/g726.c:88-215", "src/g726.c:298-383"]}
{"id": "C86", "title": "SPRT reliable channels deliver in order, each once", "statement": "The messages delivered on channels 1 and 2 are always the first of those sprt_tx accepted at the other end, in order and each once, whatever the network loses, delays, repeats or reorders, as long as no end has reported SPRT_STATUS_EXCESS_RETRIES.", "quantifier": "all settings of the two ends, all sequences of calls at both ends, all networks that deliver no packet older than 4096 messages", "why_tests_cant": "the interleavings of loss, reordering, timers and busy indications with 14 bit sequence numbers wrapping are unbounded", "anchors": ["src/sprt.c:276-570", "src/sprt.c:649-977"]}
{"id": "C87", "title": "SPRT acknowledged messages are not lost", "statement": "When nothing waits for acknowledgement on a reliable channel and the receiver is not busy, all messages accepted have been delivered.", "quantifier": "all executions of two ends without SPRT_STATUS_EXCESS_RETRIES", "why_tests_cant": "a false acknowledgement needs a particular history of loss and wrapping", "anchors": ["src/sprt.c:276-570", "src/sprt.c:649-977"]}
{"id": "C88", "title": "SPRT invents nothing", "statement": "On all channels, what is delivered was accepted on the same channel at the other end.", "quantifier": "all executions of two ends without SPRT_STATUS_EXCESS_RETRIES", "why_tests_cant": "all interleavings", "anchors": ["src/sprt.c:649-977"]}
{"id": "C89", "title": "SPRT makes no access outside its arrays", "statement": "No sequence of calls and of arriving packets, well formed or not, makes an end read or write outside its arrays.", "quantifier": "all packets, all call sequences", "why_tests_cant": "depends on timer expiry against late acknowledgements", "anchors": ["src/sprt.c:161-470", "src/sprt.c:649-902"]}
{"id": "C90", "title": "SPRT window", "statement": "A reliable channel with nothing acknowledged accepts one message less than its window and refuses further ones with -1.", "quantifier": "all windows, all messages", "why_tests_cant": "all windows", "anchors": ["src/sprt.c:903-977"]}
{"id": "C91", "title": "SPRT uses the parameters given", "statement": "A context made by sprt_init with channel parameters uses them.", "quantifier": "all parameters", "why_tests_cant": "tests use the defaults", "anchors": ["src/sprt.c:1205-1329"]}
{"id": "C92", "title": "SPRT retransmissions are spaced", "statement": "Retransmissions of a message are at least TR03 apart.", "quantifier": "all call times", "why_tests_cant": "needs a late timer call", "anchors": ["src/sprt.c:382-440"]}
{"id": "C93", "title": "SPRT goes on after giving up", "statement": "When a message has been given up the channel goes on accepting messages as others are acknowledged.", "quantifier": "all executions", "why_tests_cant": "needs a lost message among acknowledged ones", "anchors": ["src/sprt.c:382-440", "src/sprt.c:903-977"]}
{"id": "C94", "title": "SPRT waits for the last try", "statement": "A message is given up only when its last copy has had the time TR03 to be acknowledged.", "quantifier": "all executions", "why_tests_cant": "timing of the last retry", "anchors": ["src/sprt.c:382-440"]}
{"id": "C95", "title": "G.722 encoder codes", "statement": "g722_encode turns any audio into one code of 6, 7 or 8 bits per sample (8 kHz) or pair of samples (16 kHz); with G722_PACKED the octets hold the bits of these codes in order, lowest first. The pole coefficients, scale factors and step sizes stay within the limits of the recommendation.", "quantifier": "all configurations, all audio (whole pairs at 16 kHz)", "why_tests_cant": "adaptive state after arbitrary audio", "anchors": ["src/g722.c:457-619", "src/g722.c:184-258"]}
{"id": "C96", "title": "G.722 decoder accepts any octets", "statement": "g722_decode of any octets gives the output of the codes they hold, one or two samples for each, within 16 bits, and the state stays within the limits of the recommendation; packed, at most the last code waits for the next call.", "quantifier": "all configurations, all octet strings", "why_tests_cant": "arbitrary corrupt input, overflow in the predictor sums", "anchors": ["src/g722.c:261-411", "src/g722.c:184-258"]}
{"id": "C97", "title": "G.722 call boundaries", "statement": "Dividing the audio or the octets into several calls gives the same output and state as one call.", "quantifier": "all divisions into calls (whole pairs at 16 kHz for the encoder)", "why_tests_cant": "all divisions", "anchors": ["src/g722.c:261-411", "src/g722.c:457-619"]}
{"id": "C98", "title": "G.722 decoder tracks encoder", "statement": "After decoding what the encoder made, the decoder has the lower band predictor and step size the encoder had after the same codes (and those of the higher band if both use the same sample rate): all codes when not packed, all but two at most when packed.", "quantifier": "all audio, all bit rates, encoder and decoder configurations with the same bit rate and packing", "why_tests_cant": "drift only shows after long adaptation", "anchors": ["src/g722.c:261-411", "src/g722.c:457-619"]}
{"id": "C99", "title": "G.722 quantising is consistent", "statement": "At 8 kHz, replacing the last sample by any value between it and the decoder's output for it gives the same octets and encoder state: sample and output lie in the same quantising interval.", "quantifier": "all histories and samples, all bit rates", "why_tests_cant": "state and sample dependent intervals", "anchors": ["src/g722.c:517-554", "src/g722.c:300-347"]}
{"id": "C100", "title": "G.722 auxiliary data bits", "statement": "Octets that agree in the upper six bits of each code leave the decoder's predictors and step sizes in the same state, so that the lowest bits may carry other data.", "quantifier": "all octet strings, all bit rates", "why_tests_cant": "all replacements of the bits", "anchors": ["src/g722.c:298-411"]}
{"id": "C101", "title": "G.722 narrow band audio at a wide band decoder", "statement": "Of what an 8 kHz encoder makes, a 16 kHz decoder gets the lower band an 8 kHz decoder outputs, and a higher band that is zero throughout.", "quantifier": "all audio, all bit rates", "why_tests_cant": "all audio", "anchors": ["src/g722.c:556-561", "src/g722.c:349-411"]}
{"id": "C102", "title": "G.722 packed decoder decodes all it has", "statement": "A packed decoder outputs the samples of all the codes that the octets given to it hold.", "quantifier": "all octet strings", "why_tests_cant": "depends on the number of octets modulo 3 or 7", "anchors": ["src/g722.c:277-296"]}
{"id": "C103", "title": "G.722 encoder reads its input only", "statement": "g722_encode reads no sample beyond the len given.", "quantifier": "all lengths", "why_tests_cant": "reads of one sample beyond go unnoticed", "anchors": ["src/g722.c:484-512"]}
{"id": "C104", "title": "G.722 sends all audio", "statement": "All the audio given to a packed encoder can be decoded from its output.", "quantifier": "all audio", "why_tests_cant": "only at the end of a stream", "anchors": ["src/g722.c:595-617"]}
{"id": "C105", "title": "V.8 messages are delivered", "statement": "When a CM or JM message that begins at a sync octet is followed by the same message and by the start of a third, put_bit accepts it and the result has the capabilities the message says; the message send_cm_jm sends says the capabilities of the sender.", "quantifier": "all bits before the message, all messages of up to 63 octets without an NSF octet", "why_tests_cant": "depends on the alignment of the bits and on all octet values", "anchors": ["src/v8.c:346-463", "src/v8.c:480-684", "src/v8.c:755-842"]}
{"id": "C106", "title": "V.8 accepts only what is heard twice", "statement": "put_bit sets got_cm_jm only when the bits received hold two CM or JM messages with the same octets with no other such message between, and the result is what these octets say.", "quantifier": "all bit streams from the start", "why_tests_cant": "noise on the line; all bit streams", "anchors": ["src/v8.c:480-684"]}
{"id": "C107", "title": "V.8 receives anything safely", "statement": "Whatever bits and tones are received, in whatever calls of v8_tx and v8_rx, no read or write is out of bounds and every call returns.", "quantifier": "all sequences of calls, bits and tones", "why_tests_cant": "needs a hostile far end", "anchors": ["src/v8.c:441-447", "src/v8.c:480-684", "src/v8.c:1035-1304"]}
{"id": "C108", "title": "Both ends of V.8 agree", "statement": "With two ends joined by a line, in any order of calls, what the calling end is told is what the answering end's handler made of the offer, the offer is the capabilities of the calling end, and the answering end is told the same.", "quantifier": "all schedules of calls, all capabilities, all tones, all answers", "why_tests_cant": "depends on the interleaving of two machines", "anchors": ["src/v8.c:755-842", "src/v8.c:845-906", "src/v8.c:1035-1304"]}
{"id": "C109", "title": "V.8 knows no false CJ", "statement": "With two ends joined by a line the answering end reports a V.8 call only after the calling end has accepted its JM.", "quantifier": "all schedules of calls", "why_tests_cant": "zero octets within CM messages must not count as CJ, in any state", "anchors": ["src/v8.c:664-674", "src/v8.c:1247-1275"]}
{"id": "C110", "title": "v8_continue uses its parameters", "statement": "After v8_continue the capabilities sent are those in the parameters given.", "quantifier": "all states and parameters", "why_tests_cant": "needs gateway mode", "anchors": ["src/v8.c:1307-1312"]}
{"id": "C111", "title": "CM and JM are repeated without a break", "statement": "When each call of v8_tx takes no more than ten bits and is followed by v8_rx, an end that sends CM or JM never runs out of bits.", "quantifier": "all such sequences, all that is received", "why_tests_cant": "depends on the length of the message and the blocks", "anchors": ["src/v8.c:845-906", "src/v8.c:1154-1158", "src/v8.c:1270-1274"]}
{"id": "C112", "title": "V.8 is not endless", "statement": "An end does not send CM, send JM or wait for CM for more samples than its timer had.", "quantifier": "all states and sequences of calls", "why_tests_cant": "all sequences of calls", "anchors": ["src/v8.c:1146-1153", "src/v8.c:1219-1229", "src/v8.c:1258-1268"]}
{"id": "C113", "title": "V.8 ends once", "statement": "After the report of how the negotiation ended there are no more reports.", "quantifier": "all sequences of calls", "why_tests_cant": "needs a tone and a message or a timeout in one block", "anchors": ["src/v8.c:1183-1232"]}
{"id": "C114", "title": "GSM 06.10 frames are packed as laid down", "statement": "gsm0610_pack_voip gives the signature 1101 and the 76 fields in order from the highest bit, gsm0610_pack_wav49 two frames of fields from the lowest bit, gsm0610_pack_none an octet a field; the unpackers read any octets by the same layout and give the frame back whatever follows.", "quantifier": "all frames, all octets", "why_tests_cant": "2^260 frames", "anchors": ["src/gsm0610_encode.c:115-278", "src/gsm0610_decode.c:103-308"]}
{"id": "C115", "title": "GSM 06.10 decodes any octets", "statement": "For VOIP and WAV49 packing gsm0610_decode makes 160 samples a frame, all 16 bit multiples of 8, with no overflow or index out of bounds, from any whole blocks of octets and any decoder context.", "quantifier": "all octets, all numbers of blocks, all contexts that satisfy dec_ok, which gsm0610_init gives and each call keeps", "why_tests_cant": "a hostile far end; history of the filters", "anchors": ["src/gsm0610_decode.c:77-99", "src/gsm0610_decode.c:312-352"]}
{"id": "C116", "title": "GSM 06.10 decodes any unpacked octets", "statement": "For NONE packing gsm0610_decode makes 160 samples a frame from any 76 octets a frame.", "quantifier": "all octets", "why_tests_cant": "values beyond the field sizes", "anchors": ["src/gsm0610_decode.c:103-124", "src/gsm0610_decode.c:312-352"]}
{"id": "C117", "title": "GSM 06.10 encodes any audio", "statement": "gsm0610_encode makes 33, 65 or 76 octets a block with no overflow or index out of bounds, and each parameter fits its field, with lags from 40 to 120.", "quantifier": "all samples, all numbers of blocks, all contexts that satisfy enc_ok, which gsm0610_init gives and each call keeps", "why_tests_cant": "history of the filters; rare overflows", "anchors": ["src/gsm0610_encode.c:70-111", "src/gsm0610_encode.c:282-310"]}
{"id": "C118", "title": "The GSM 06.10 decoder follows the encoder", "statement": "From contexts in step, after gsm0610_encode and gsm0610_decode of what it made, encoder and decoder have the same reconstructed residual and the same log area ratios, and there are as many samples out as in.", "quantifier": "all samples, packings and contexts in step", "why_tests_cant": "drift shows only after many frames", "anchors": ["src/gsm0610_encode.c:70-111", "src/gsm0610_decode.c:77-99"]}
{"id": "C119", "title": "GSM 06.10 short term synthesis undoes the analysis", "statement": "When no sum of the analysis lattice is clipped, the synthesis lattice gives the samples back exactly.", "quantifier": "all coefficients, filter memories and samples of a frame", "why_tests_cant": "all values of the coefficients and the filter memory", "anchors": ["src/gsm0610_short_term.c:206-296"]}
{"id": "C120", "title": "The GSM 06.10 pulse quantiser is accurate", "statement": "The pulses come back from their 3 bit codes with an error of at most 9/64 of the largest magnitude, and 4.", "quantifier": "all pulses of 16 bits", "why_tests_cant": "65536^13 blocks", "anchors": ["src/gsm0610_rpe.c:380-516"]}
{"id": "C121", "title": "GSM 06.10 searches find the best", "statement": "The lag is one of those from 40 to 120 with the largest correlation, the gain counts the thresholds passed, the grid is one with the largest energy, and gsm0610 division is exact.", "quantifier": "all residuals and histories", "why_tests_cant": "65536^160 inputs", "anchors": ["src/gsm0610_long_term.c:251-346", "src/gsm0610_rpe.c:234-337"]}
{"id": "C122", "title": "GSM 06.10 LPC analysis keeps its samples", "statement": "gsm0610_lpc_analysis gives the samples of the frame back with no more than their rounding.", "quantifier": "all samples", "why_tests_cant": "needs a sample of 32760 or more after the offset filter", "anchors": ["src/gsm0610_lpc.c:276-421", "src/gsm0610_lpc.c:586-596"]}
{"id": "C123", "title": "GSM 06.10 takes any length", "statement": "gsm0610_encode and gsm0610_decode stay within the samples and octets given, whatever their number.", "quantifier": "all lengths", "why_tests_cant": "needs memory checks", "anchors": ["src/gsm0610_encode.c:282-310", "src/gsm0610_decode.c:312-352"]}
{"id": "C124", "title": "Contact ID messages are encoded and decoded", "statement": "encode_msg gives the 15 digits of a report and a check digit that brings the sum to a multiple of 15, or -1 just when a digit is 10, and decode_msg gives the report back.", "quantifier": "all reports whose fields fit their digits", "why_tests_cant": "2^52 reports", "anchors": ["src/ademco_contactid.c:470-510", "src/ademco_contactid.c:513-577"]}
{"id": "C125", "title": "A Contact ID report is sent or refused", "statement": "ademco_contactid_sender_put accepts or refuses any report, and no later call fails.", "quantifier": "all reports, all sequences of calls", "why_tests_cant": "values beyond the digits", "anchors": ["src/ademco_contactid.c:470-510", "src/ademco_contactid.c:1134-1144"]}
{"id": "C126", "title": "A wrong digit of a Contact ID message is found out", "statement": "decode_msg refuses a message that was right but for one digit.", "quantifier": "all messages, all digits", "why_tests_cant": "15 * 16^16 cases", "anchors": ["src/ademco_contactid.c:513-577"]}
{"id": "C127", "title": "The Contact ID receiver reports what arrives", "statement": "Whatever DTMF digits arrive the receiver stays within its buffer and reports just the groups of 16 digits whose sum is a multiple of 15; what it reports is in range; messages sent one after the other are all reported in order.", "quantifier": "all streams of DTMF digits, all lists of messages", "why_tests_cant": "endless streams", "anchors": ["src/ademco_contactid.c:513-577", "src/ademco_contactid.c:754-777"]}
{"id": "C128", "title": "Contact ID success means that the receiver said so", "statement": "The sender tells of success only at the end of a tone of 1400Hz of 400ms to 1500ms, and after the handshake.", "quantifier": "all sequences of calls and of tone decisions", "why_tests_cant": "all timings of tones and of calls", "anchors": ["src/ademco_contactid.c:875-1112"]}
{"id": "C129", "title": "A Contact ID message is sent again", "statement": "A message that is not acknowledged is sent again, up to three times.", "quantifier": "all sequences of calls", "why_tests_cant": "needs a silent line", "anchors": ["src/ademco_contactid.c:829-872", "src/ademco_contactid.c:875-1112"]}
{"id": "C130", "title": "The Contact ID sender gives up in time", "statement": "On a silent line, once it waits for an answer, failure is told within the time left and 437 blocks for each try left, however calls to transmit come in between.", "quantifier": "all states that wait, all sequences of silent blocks and transmit calls", "why_tests_cant": "all interleavings", "anchors": ["src/ademco_contactid.c:875-1112"]}
{"id": "C131", "title": "The Contact ID sender can be used again after failure", "statement": "After it has told of failure the sender takes another message and can tell of success.", "quantifier": "all sequences of calls", "why_tests_cant": "needs a failure first", "anchors": ["src/ademco_contactid.c:875-1112", "src/ademco_contactid.c:1134-1144"]}
{"id": "C132", "title": "A Contact ID message that is accepted is sent", "statement": "A message accepted by ademco_contactid_sender_put is sent, and its success or failure told.", "quantifier": "all times of the call", "why_tests_cant": "needs a late message and endless waiting", "anchors": ["src/ademco_contactid.c:829-872", "src/ademco_contactid.c:1134-1144"]}
{"id": "C133", "title": "Nothing is told of a refused Contact ID message", "statement": "When ademco_contactid_sender_put has refused a message no failure is told of it.", "quantifier": "all sequences of calls", "why_tests_cant": "needs a refusal, a handshake and a silent line", "anchors": ["src/ademco_contactid.c:1134-1144", "src/ademco_contactid.c:875-1112"]}
{"id": "C134", "title": "The pseudo-random BERT patterns are those of the ITU", "statement": "bert_get_bit gives a pattern that starts with ones, follows the recurrence of O.151, O.152 or O.153, repeats after 2^length - 1 bits and not before.", "quantifier": "the four patterns without zero suppression, all numbers of bits", "why_tests_cant": "a period is up to 8388607 bits", "anchors": ["src/bert.c:86-145", "src/bert.c:458-509"]}
{"id": "C135", "title": "The 20 stage O.151 pattern has no more than 14 zeros together", "statement": "bert_get_bit gives the recurrence of O.151 with a one after each 14 zeros, so no more than 14 zeros come together.", "quantifier": "all numbers of bits", "why_tests_cant": "2^20 bits in a period", "anchors": ["src/bert.c:86-145", "src/bert.c:468-477"]}
{"id": "C136", "title": "A limited BERT test ends", "statement": "With a limit bert_get_bit gives that many bits and SIG_STATUS_END_OF_DATA for ever after.", "quantifier": "all patterns, all limits, all numbers of calls", "why_tests_cant": "up to 2^31 bits", "anchors": ["src/bert.c:86-145"]}
{"id": "C137", "title": "The BERT receiver finds the pattern and counts the errors", "statement": "A receiver without sync, whatever its register, has sync once length + tap + resync_time bits of a pseudo-random pattern have come right, from any place in it; it then counts the wrong bits exactly and keeps sync while every window of resync_len bits has fewer wrong bits than the limit.", "quantifier": "the four patterns without zero suppression, all registers, all places in the pattern, all places of errors", "why_tests_cant": "all error patterns and phases", "anchors": ["src/bert.c:210-373"]}
{"id": "C138", "title": "BERT sync means that the pattern is there", "statement": "BERT_REPORT_SYNCED is told only when the pattern comes.", "quantifier": "all lines", "why_tests_cant": "one would have to think of the line", "anchors": ["src/bert.c:256-281"]}
{"id": "C139", "title": "A clean line has no bit errors with the 20 stage pattern", "statement": "On a line without errors the receiver of the 20 stage O.151 pattern counts none.", "quantifier": "all places to start", "why_tests_cant": "needs the place in 2^20 where a one is put in soon after sync", "anchors": ["src/bert.c:256-337"]}
{"id": "C140", "title": "A clean line keeps BERT sync", "statement": "On a line without errors the receiver keeps its sync.", "quantifier": "all settings of resync_len and resync_percent, all lengths", "why_tests_cant": "all settings", "anchors": ["src/bert.c:318-333"]}
{"id": "C141", "title": "A BERT test without limit may run for ever", "statement": "With no limit bits may be sent and received for ever.", "quantifier": "all lengths", "why_tests_cant": "2^31 bits", "anchors": ["src/bert.c:86-145", "src/bert.c:210-373"]}
{"id": "C142", "title": "The fixed BERT patterns", "statement": "bert_get_bit repeats the eight bits of a fixed pattern; a receiver that starts with any of these bits has sync after at most 112 right bits, and counts the wrong bits exactly from then on.", "quantifier": "seven patterns, eight starts, all lengths, all places of errors", "why_tests_cant": "all error patterns", "anchors": ["src/bert.c:86-145", "src/bert.c:223-255", "src/bert.c:418-457"]}
{"id": "C143", "title": "The loss of a fixed BERT pattern is told", "statement": "When a fixed pattern is lost BERT_REPORT_UNSYNCED is told.", "quantifier": "all lines", "why_tests_cant": "needs all that can come", "anchors": ["src/bert.c:223-255"]}
{"id": "C144", "title": "bad_bits counts bits", "statement": "bad_bits of bert_result is the number of bits that were wrong.", "quantifier": "all patterns", "why_tests_cant": "the text is seldom used with errors", "anchors": ["src/bert.c:338-357"]}
{"id": "C145", "title": "The BERT error rate reports", "statement": "A change of the error rate to i is told at a bit just when the number of counted bits is a multiple of 10^(i+1), the last 10^(i+1) have more than 10 errors and no shorter span that ends there has, or all have been looked at for 8, and the rate was another one.", "quantifier": "all pseudo-random patterns, all lines, all lengths", "why_tests_cant": "spans of 10^8 bits", "anchors": ["src/bert.c:148-207", "src/bert.c:304-317"]}
{"id": "C146", "title": "The BERT text", "statement": "bert_get_bit sends the text again and again, seven bits to a character, the lowest first; a receiver that starts with it adds one to bad_bits for each character that is not the one sent, so none on a clean line.", "quantifier": "all numbers of characters, all bits received", "why_tests_cant": "all error patterns, endless text", "anchors": ["src/bert.c:52-53", "src/bert.c:124-140", "src/bert.c:338-357"]}
{"id": "C147", "title": "The loss of a pseudo-random BERT pattern is told", "statement": "Whatever comes, a window of resync_len bits with at least resync_len * resync_percent / 100 wrong bits ends with BERT_REPORT_UNSYNCED and one more resync, and the receiver looks for the pattern again; a window with fewer does not.", "quantifier": "the four patterns without zero suppression, all states that begin a window, all bits", "why_tests_cant": "all lines", "anchors": ["src/bert.c:256-337"]}
