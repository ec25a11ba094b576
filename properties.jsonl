{"id": "C01", "title": "gensio_buffer is a bounded FIFO", "statement": "Whatever sequence of gensio_buffer_output, gensio_buffer_outchar and gensio_buffer_write calls is made, the bytes handed to and accepted by the write handlers, followed by the bytes still in the buffer, are exactly the bytes stored so far, in order; bytes are stored up to the remaining room and never beyond; no byte outside the buffer array is touched; and a handler that accepts everything empties the buffer.", "quantifier": "every buffer size, every sequence of operations, every data block and every lawful (possibly partial or failing) behaviour of the write handler", "why_tests_cant": "wrap-around positions and partial writes combine into unboundedly many states; a test samples a few of them", "anchors": ["lib/buffer.c:gensio_buffer_write", "lib/buffer.c:gensio_buffer_output", "lib/buffer.c:gensio_buffer_outchar", "lib/buffer.c:gensio_buffer_init", "include/gensio/gensio_buffer.h"]}
{"id": "C02", "title": "gensio_buffer_output reports the number of bytes it added", "statement": "gensio_buffer_output returns the number of bytes that were added to the buffer, as its header documents.", "quantifier": "every reachable buffer state and every data block", "why_tests_cant": "only states whose free space wraps around the end of the array are interesting; tests rarely hit them", "anchors": ["lib/buffer.c:gensio_buffer_output", "include/gensio/gensio_buffer.h", "lib/telnet.c:telnet_cmd_send"]}
{"id": "C03", "title": "gensio_circbuf is a bounded FIFO", "statement": "For every sequence of scatter-gather writes, reads, direct next_write_area/data_added and next_read_area/data_removed uses and resets, the circular buffer behaves as a FIFO queue bounded by its size: reads return the oldest bytes, the counts returned are exact, datalen and room_left are exact, the asserts never fire when the documented protocol is followed and nothing outside the array is touched.", "quantifier": "every buffer size > 0, every operation sequence, every data", "why_tests_cant": "the state space (position x fill x data) is unbounded", "anchors": ["lib/circbuf.c", "include/gensio/gensio_circbuf.h"]}
{"id": "C04", "title": "Telnet data transparency", "statement": "Bytes sent through the telnet encoder and received through the telnet decoder come out unchanged and in order, for every way the sender's output space and the receiver's input and output space cut the stream into pieces, with any commands that fit the sender's command buffer interleaved; the sender never gets stuck.", "quantifier": "every byte sequence (including 255), every chunking on both sides", "why_tests_cant": "all splittings of escape pairs over buffer boundaries cannot be enumerated", "anchors": ["lib/telnet.c:process_telnet_xmit", "lib/telnet.c:process_telnet_data"]}
{"id": "C05", "title": "Telnet decoder memory safety and progress", "statement": "For every incoming byte stream, in every chunking, the telnet decoder never indexes outside its fixed command buffer, never delivers more bytes than the output room it was given, and always either consumes input or is stopped by a full output or a completed command.", "quantifier": "every byte stream and chunking, including malicious ones, from every reachable decoder state", "why_tests_cant": "adversarial inputs of any length", "anchors": ["lib/telnet.c:process_telnet_data", "lib/telnet.h"]}
{"id": "C06", "title": "Telnet sub-negotiation round trip", "statement": "A sub-option sent by telnet_send_option is delivered to the peer's option handler with exactly the bytes sent, whenever it fits the receiver's command buffer, and the surrounding data stream is not disturbed.", "quantifier": "every option payload that fits (including bytes 255), every surrounding data", "why_tests_cant": "escaping inside sub-options depends on all payloads", "anchors": ["lib/telnet.c:telnet_send_option", "lib/telnet.c:process_telnet_data", "lib/telnet.c:handle_telnet_cmd"]}
{"id": "C07", "title": "Telnet option negotiation terminates", "statement": "Two telnet endpoints built on this code never get into an endless negotiation: the total number of WILL/WONT/DO/DONT messages exchanged is bounded, from every pair of option-table states, every order of delivery and every answer the users give.", "quantifier": "every pair of option tables and every interleaving of message delivery", "why_tests_cant": "negotiation loops need all interleavings", "anchors": ["lib/telnet.c:handle_telnet_cmd", "lib/telnet.h"]}
{"id": "C08", "title": "CRC of msgdelim detects errors", "statement": "The CRC msgdelim appends is the remainder of the message polynomial; a message followed by its CRC bytes checks to zero; and a message (with its CRC) corrupted by any burst of at most 16 bits, any odd number of bit errors, or two bit errors less than 32767 bits apart is never delivered.", "quantifier": "every message length and content, every burst position and pattern of at most 16 bits, every odd set of bit errors, every such pair", "why_tests_cant": "all message lengths and error patterns", "anchors": ["lib/gensio_msgdelim.c:crc16", "lib/gensio_msgdelim.c:msgdelim_ll_write"]}
{"id": "C09", "title": "msgdelim message round trip", "statement": "A sequence of messages written through msgdelim with end-of-message marks is delivered on the other side as the same sequence of messages, for every way the lower layer splits the byte stream and every read-handler that takes data partially.", "quantifier": "every sequence of messages that, with their CRC, fit the sender's and receiver's configured sizes, every chunking of the wire stream and of the delivery, every partial acceptance by the lower layer", "why_tests_cant": "chunkings and message contents are unbounded", "anchors": ["lib/gensio_msgdelim.c:msgdelim_ul_write", "lib/gensio_msgdelim.c:msgdelim_add_wrbyte", "lib/gensio_msgdelim.c:msgdelim_ll_write"]}
{"id": "C10", "title": "msgdelim receive buffer is never overrun", "statement": "No incoming byte stream makes the msgdelim receiver write outside the receive buffer it allocated.", "quantifier": "every byte stream, chunking and configured maximum read size", "why_tests_cant": "adversarial streams of all lengths", "anchors": ["lib/gensio_msgdelim.c:msgdelim_ll_write", "lib/gensio_msgdelim.c:gensio_msgdelim_filter_raw_alloc"]}
{"id": "C11", "title": "msgdelim recovers after a bad message", "statement": "After a message that fails its CRC or is too long, the receiver discards it and delivers the next correctly framed message.", "quantifier": "every corrupted or oversized message followed by every good message", "why_tests_cant": "needs all histories", "anchors": ["lib/gensio_msgdelim.c:msgdelim_ll_write"]}
{"id": "C12", "title": "KISS frame round trip", "statement": "A frame written through the kiss filter is received on the other side with the same contents and port, for every chunking of the wire stream.", "quantifier": "every frame contents within the configured size, every port 0-15, every chunking", "why_tests_cant": "all contents and chunkings", "anchors": ["lib/gensio_kiss.c:kiss_ul_write", "lib/gensio_kiss.c:kiss_ll_write", "lib/gensio_kiss.c:kiss_add_wrbyte"]}
{"id": "C13", "title": "KISS buffers are never overrun", "statement": "No sequence of user writes and no incoming byte stream makes the kiss filter write outside its transmit or receive buffers.", "quantifier": "every sequence of writes (including empty ones) and every incoming stream", "why_tests_cant": "adversarial histories", "anchors": ["lib/gensio_kiss.c:kiss_ul_write", "lib/gensio_kiss.c:kiss_ll_write", "lib/gensio_kiss.c:gensio_kiss_filter_raw_alloc"]}
{"id": "C14", "title": "HDLC bit-stuffing round trip", "statement": "Every frame encoded by the HDLC filter, with any number of flag preambles and postambles, decodes to the same frame, and the encoded payload never contains a flag pattern.", "quantifier": "every frame contents within the configured size", "why_tests_cant": "all bit patterns and lengths", "anchors": ["lib/gensio_hdlc.c:hdlc_add_out_bit", "lib/gensio_hdlc.c:hdlc_add_out_byte", "lib/gensio_hdlc.c:hdlc_ul_write", "lib/gensio_hdlc.c:hdlc_process_bit"]}
{"id": "C15", "title": "HDLC delivery of any number of frames", "statement": "The HDLC receiver delivers every correctly received frame, one after another, however many frames arrive.", "quantifier": "every number of frames", "why_tests_cant": "a test stops after a few frames", "anchors": ["lib/gensio_hdlc.c:hdlc_ll_write", "lib/gensio_hdlc.c:hdlc_deliver_data"]}
{"id": "C16", "title": "relpkt delivers in order, exactly once", "statement": "With two relpkt endpoints over a packet layer that may lose and duplicate packets, the data delivered to the receiver is always a prefix of the data the sender's writes accepted: nothing is reordered, duplicated, invented or skipped.", "quantifier": "every schedule of writes, losses, timeouts, acknowledgements and resend requests, with window sizes up to 127 packets", "why_tests_cant": "the 8-bit sequence numbers wrap and the schedules are unbounded", "anchors": ["lib/gensio_relpkt.c:relpkt_ul_write", "lib/gensio_relpkt.c:relpkt_ll_write", "lib/gensio_relpkt.c:handle_ack", "lib/gensio_relpkt.c:seq_inside"]}
{"id": "C17", "title": "relpkt accepts every configurable window size", "statement": "The in-order exactly-once guarantee holds for every max_packets value the configuration accepts.", "quantifier": "every max_packets value from 1 to 255", "why_tests_cant": "needs wrap-around histories", "anchors": ["lib/gensio_relpkt.c:gensio_relpkt_config", "lib/gensio_relpkt.c:seq_inside"]}
{"id": "C18", "title": "relpkt preserves message boundaries", "statement": "Each end-of-message mark given with a write is delivered exactly with the data that ended that message.", "quantifier": "every history of writes with and without end-of-message", "why_tests_cant": "a stale flag only appears after window slots are reused", "anchors": ["lib/gensio_relpkt.c:relpkt_ul_write"]}
{"id": "C19", "title": "Quoting and parsing of strings round-trip", "statement": "A string quoted with gensio_quote_string, used as an argument in a gensio string, parses back to exactly the original string as one argument.", "quantifier": "every string without NUL, every number of arguments", "why_tests_cant": "all strings", "anchors": ["lib/utils.c:gensio_quote_string", "lib/utils.c:gensio_cstr_gettok", "lib/utils.c:str_to_argv"]}
{"id": "C20", "title": "Escapes in quoted strings denote the documented byte", "statement": "Inside a string argument, \\xHH denotes the byte with hexadecimal value HH and \\OOO the byte with that octal value.", "quantifier": "every pair of hexadecimal digits", "why_tests_cant": "the digits a-f are simply not tried", "anchors": ["lib/utils.c:gettok", "lib/utils.c:cstr_gettok"]}
{"id": "C21", "title": "Argument vectors", "statement": "An argument vector built by any sequence of appends, copies and scans holds exactly the appended strings in order, followed by a NULL, and never writes outside its allocation.", "quantifier": "every sequence of append operations, every failing allocation", "why_tests_cant": "growth steps and failures at every point", "anchors": ["lib/utils.c:gensio_argv_append", "lib/utils.c:gensio_argv_nappend", "lib/utils.c:gensio_argv_copy"]}
{"id": "C22", "title": "Network-order integers", "statement": "Writing a 16- or 32-bit value to a buffer in network order and reading it back gives the same value, and the byte layout is most significant first.", "quantifier": "every 16- and 32-bit value", "why_tests_cant": "2^32 values", "anchors": ["lib/utils.c:gensio_u32_to_buf", "lib/utils.c:gensio_buf_to_u32", "lib/utils.c:gensio_u16_to_buf", "lib/utils.c:gensio_buf_to_u16"]}
{"id": "C23", "title": "Time arithmetic is exact", "statement": "gensio_time_add, gensio_time_cmp and the difference functions agree with arithmetic on nanosecond counts and keep times normalised.", "quantifier": "every pair of normalised times", "why_tests_cant": "all 64-bit values", "anchors": ["lib/gensio.c:gensio_time_add", "include/gensio/gensio_time.h"]}
{"id": "C24", "title": "Time conversions are exact and normalised", "statement": "Converting nanoseconds, microseconds, milliseconds or seconds to a gensio_time and back gives the same value, and every function that returns a time leaves nsecs in 0..999999999.", "quantifier": "every 64-bit count, positive and negative", "why_tests_cant": "boundary values only", "anchors": ["lib/gensio.c:gensio_time_add_nsecs", "lib/gensio.c:gensio_time_to_nsecs", "lib/gensio.c:gensio_msecs_to_time"]}
{"id": "C25", "title": "xlt translates every byte exactly once", "statement": "Data passing through the xlt filter is the byte-by-byte translation of the input, and the count reported as consumed is exactly the number of input bytes whose translation has been taken over.", "quantifier": "every translation table, every chunking by the lower layer", "why_tests_cant": "partial acceptance at every position", "anchors": ["lib/gensio_xlt.c:xlt_ul_write", "lib/gensio_xlt.c:xlt_ll_write"]}
{"id": "C26", "title": "AX.25 address wire format round trip", "statement": "Encoding an AX.25 address to its wire form and decoding it gives the same address, for all legal callsigns, SSIDs, repeaters and flags.", "quantifier": "every legal address with 0 to 8 repeaters", "why_tests_cant": "all combinations", "anchors": ["lib/net_ax25_addr.c:ax25_addr_encode", "lib/net_ax25_addr.c:decode_ax25_addr"]}
{"id": "C27", "title": "ratelimit never exceeds its rate", "statement": "In any execution the ratelimit filter passes at most xmit_len bytes to the lower layer between two timer expiries, and every accepted byte is passed on in order.", "quantifier": "every interleaving of writes, lower-layer acceptance and timer expiries", "why_tests_cant": "all schedules", "anchors": ["lib/gensio_ratelimit.c"]}
{"id": "C28", "title": "chardelay loses and reorders nothing", "statement": "The chardelay filter passes on exactly the bytes it accepted, in order, without reading beyond the caller's data.", "quantifier": "every interleaving of writes and timer expiries and every partial acceptance", "why_tests_cant": "all schedules", "anchors": ["lib/gensio_chardelay.c"]}
{"id": "C29", "title": "Timer heap is a priority queue", "statement": "After any sequence of insertions and removals the heap returns an element with the smallest key, and holds exactly the elements inserted and not removed; removing an element never disturbs another.", "quantifier": "every history of insertions and removals on pointer-linked nodes", "why_tests_cant": "tree shapes grow without bound", "anchors": ["lib/heap.h"]}
{"id": "C30", "title": "Linked lists", "statement": "gensio_list operations on linked nodes keep a circular doubly linked list representing exactly the expected sequence of elements.", "quantifier": "every sequence of operations on any number of lists sharing one memory", "why_tests_cant": "aliasing over all shapes", "anchors": ["lib/utils.c:gensio_list_rm", "lib/utils.c:gensio_list_add_head", "lib/utils.c:gensio_list_add_tail", "lib/utils.c:gensio_list_add_next", "lib/utils.c:gensio_list_add_prev"]}
{"id": "C31", "title": "Counted strings are freed exactly once", "statement": "A gensio_cntstr is freed exactly when its last reference is dropped, never before and never twice, and its contents are never changed while referenced.", "quantifier": "every interleaving of single memory accesses of reference, free and read calls of any number of threads, while fewer than 2^32 references exist and for strings shorter than 4 GiB", "why_tests_cant": "all interleavings", "anchors": ["lib/utils.c:gensio_cntstr_make", "lib/utils.c:gensio_cntstr_ref", "lib/utils.c:gensio_cntstr_free", "include/gensio/gensio_refcount.h"]}
{"id": "C32", "title": "Open and close completion callbacks", "statement": "For a gensio built on the base layer, every successful close request is followed by exactly one close_done callback, open_done is called at most once per open, and no read callback is made after close is requested.", "quantifier": "every interleaving of user calls, lower-layer completions, filter results and timers", "why_tests_cant": "state machine with nine states and many event orders", "anchors": ["lib/gensio_base.c"]}
{"id": "C33", "title": "Reference counting of the base layer", "statement": "The base layer object is freed exactly once, only after the user freed it and no open, close, timer, deferred operation or lower-layer operation still holds it.", "quantifier": "every interleaving of user calls, completions, timers and deferred operations", "why_tests_cant": "use-after-free needs exact interleavings", "anchors": ["lib/gensio_base.c"]}
{"id": "C34", "title": "Serial port lock files exclude", "statement": "Two processes using the UUCP lock protocol never both hold the lock of the same device.", "quantifier": "every interleaving of the file-system steps of any number of processes", "why_tests_cant": "races", "anchors": ["lib/seriallock.c"]}
{"id": "C35", "title": "Convolutional coder round trip", "statement": "Data encoded by the convolutional encoder and decoded without channel errors comes back unchanged with a reported error count of zero.", "quantifier": "every data, every legal constraint length and polynomial set whose code distinguishes data, with and without tail", "why_tests_cant": "all data and codes", "anchors": ["lib/convcode.c:convencode_data", "lib/convcode.c:convdecode_data", "lib/convcode.c:convdecode_finish"]}
{"id": "C36", "title": "Viterbi decoder is maximum likelihood", "statement": "For every received bit sequence the decoder's output is a data sequence whose encoding has the smallest distance to the received sequence, and the error count it reports is that distance.", "quantifier": "every received sequence", "why_tests_cant": "exponentially many candidate data sequences", "anchors": ["lib/convcode.c:convdecode_symbol_i", "lib/convcode.c:decode_one_state", "lib/convcode.c:convdecode_finish"]}
{"id": "C37", "title": "Convolutional code size arithmetic", "statement": "convcode_decoded_size inverts convcode_encoded_size, and the number of encoded bits is recovered exactly from the number of encoded bytes of a byte-aligned message.", "quantifier": "every size, polynomial count, constraint length and tail setting without overflow", "why_tests_cant": "all sizes", "anchors": ["lib/convcode.c:convcode_encoded_size", "lib/convcode.c:convcode_decoded_size", "lib/convcode.c:convcode_encoded_bits_from_encoded_bytes"]}
{"id": "C38", "title": "Telnet window size arrives", "statement": "A window size set with the window-size control is received by the peer as exactly that height and width.", "quantifier": "every height and width below 65536", "why_tests_cant": "only sizes with a byte of value 255 fail", "anchors": ["lib/sergensio_telnet.c:telnet_filter_control"]}
{"id": "C39", "title": "Negotiation floods do not damage user data", "statement": "Whatever option requests the peer sends, and however long the output is blocked meanwhile, the user data the telnet gensio accepted arrives unchanged.", "quantifier": "every number of pending commands", "why_tests_cant": "needs the command buffer to be filled to an exact level", "anchors": ["lib/telnet.c:telnet_cmd_send", "lib/sergensio_telnet.c:telnet_ul_write"]}
{"id": "C40", "title": "CRC of HDLC/AX.25 packets detects errors", "statement": "The trailer used by the HDLC, AX.25 and axfec filters (complemented CRC-CCITT, low byte first) detects any burst of at most 16 bits, any odd number of bit errors and any two bit errors less than 32767 bits apart in packet and trailer.", "quantifier": "every packet, every such error pattern", "why_tests_cant": "all lengths and error patterns", "anchors": ["lib/crc.h:crc16_ccitt"]}
{"id": "C41", "title": "msgdelim refuses oversized messages cleanly", "statement": "A message longer than the configured maximum write size, and only such a message, is refused with an error, and the refusal has no effect on other messages.", "quantifier": "every history of writes and every size", "why_tests_cant": "needs all histories", "anchors": ["lib/gensio_msgdelim.c:msgdelim_ul_write"]}
{"id": "C42", "title": "msgdelim rejects single bit errors on the wire", "statement": "If a single bit of the byte stream between two msgdelim endpoints is flipped, the receiver never delivers a message that was not sent.", "quantifier": "every message sequence and every position of the flipped bit", "why_tests_cant": "all contents and positions", "anchors": ["lib/gensio_msgdelim.c:msgdelim_ll_write"]}
{"id": "C43", "title": "msgdelim works after close and reopen", "statement": "After a msgdelim connection is closed and opened again on both sides, the messages then written are delivered as in C09.", "quantifier": "every message sequence", "why_tests_cant": "needs all histories", "anchors": ["lib/gensio_msgdelim.c:msgdelim_filter_cleanup", "lib/gensio_msgdelim.c:gensio_msgdelim_filter_raw_alloc"]}
{"id": "C44", "title": "msgdelim transmit buffer survives lower layer errors", "statement": "No sequence of writes, including writes after the lower layer reported an error, makes the msgdelim sender write outside its transmit buffer.", "quantifier": "every sequence of writes and lower layer results", "why_tests_cant": "adversarial histories", "anchors": ["lib/gensio_msgdelim.c:msgdelim_ul_write"]}
{"id": "C45", "title": "KISS client sets the TNC parameters", "statement": "When a kiss gensio is opened as a client, the byte stream to the TNC contains, for every enabled port, the command frames that set TXDELAY, persistence, slot time and duplex.", "quantifier": "every parameter setting and set of ports", "why_tests_cant": "the existing tests connect to peers that ignore commands", "anchors": ["lib/gensio_kiss.c:kiss_try_connect", "lib/gensio_kiss.c:gensio_kiss_filter_raw_alloc"]}
{"id": "C46", "title": "KISS delivers only packets that were written", "statement": "Between two kiss gensios over a reliable stream, every packet delivered was written on the other side to the same port.", "quantifier": "every configuration and history", "why_tests_cant": "only shows with particular ports enabled", "anchors": ["lib/gensio_kiss.c:kiss_try_connect", "lib/gensio_kiss.c:kiss_ll_write"]}
{"id": "C47", "title": "KISS write count is the number of bytes sent", "statement": "The count a kiss write reports as accepted is the number of bytes of it that the peer receives.", "quantifier": "every write size", "why_tests_cant": "needs all sizes", "anchors": ["lib/gensio_kiss.c:kiss_ul_write"]}
{"id": "C48", "title": "KISS tncs option enables the ports it names", "statement": "The tncs option enables the documented ports: tncs=n enables n ports, and a range includes both ends.", "quantifier": "every option value", "why_tests_cant": "all values", "anchors": ["lib/gensio_kiss.c:handle_get_ranges"]}
{"id": "C49", "title": "KISS refuses writes to ports that are not enabled", "statement": "A write to a port that is not enabled always returns an error and sends nothing of it.", "quantifier": "every state of pending output", "why_tests_cant": "depends on output being pending at the time of the call", "anchors": ["lib/gensio_kiss.c:kiss_ul_write"]}
{"id": "C50", "title": "HDLC writes stay inside the write buffer", "statement": "Writing any packet of at most the configured size through an hdlc gensio never writes outside its buffers, for every setting of preamble, postamble and crc.", "quantifier": "every packet contents and configuration", "why_tests_cant": "only particular bit patterns expand enough", "anchors": ["lib/gensio_hdlc.c:hdlc_ul_write", "lib/gensio_hdlc.c:gensio_hdlc_filter_raw_alloc"]}
{"id": "C51", "title": "HDLC empty write is harmless", "statement": "A write of zero bytes to an hdlc gensio does not affect later writes.", "quantifier": "every state", "why_tests_cant": "tests do not write nothing", "anchors": ["lib/gensio_hdlc.c:hdlc_ul_write", "lib/gensio_hdlc.c:hdlc_handle_send"]}
{"id": "C52", "title": "HDLC delivers every accepted packet size", "statement": "Every packet length that a write accepts is delivered by the receiver, with and without crc.", "quantifier": "every length from 1 to the maximum", "why_tests_cant": "all lengths and both crc settings", "anchors": ["lib/gensio_hdlc.c:hdlc_handle_new_message"]}
{"id": "C53", "title": "HDLC can be reopened after an error", "statement": "After an error from the layer below, closing the gensio and opening it again gives a working gensio.", "quantifier": "every history", "why_tests_cant": "needs an error at a chosen moment", "anchors": ["lib/gensio_hdlc.c:hdlc_cleanup", "lib/gensio_hdlc.c:hdlc_handle_send"]}
{"id": "C54", "title": "HDLC receiver resynchronises", "statement": "After any garbage on the line, the next frame that is preceded by at least two flags is delivered, and so are those after it.", "quantifier": "every garbage and every frame", "why_tests_cant": "the set of bit streams is infinite", "anchors": ["lib/gensio_hdlc.c:hdlc_process_bit_w"]}
{"id": "C55", "title": "HDLC receiver invents nothing", "statement": "Every packet an hdlc gensio delivers was on the line between two flags with a correct CRC.", "quantifier": "every bit stream", "why_tests_cant": "the set of bit streams is infinite", "anchors": ["lib/gensio_hdlc.c:hdlc_process_bit_w", "lib/gensio_hdlc.c:hdlc_handle_new_message"]}
{"id": "C56", "title": "relpkt survives any peer", "statement": "Whatever packets a remote peer sends to a relpkt endpoint, the endpoint never hits an assertion, never touches memory outside its packet slots and never divides by zero.", "quantifier": "every sequence of user calls, timeouts and received packets with arbitrary contents", "why_tests_cant": "a hostile packet sequence is needed; the set is infinite", "anchors": ["lib/gensio_relpkt.c:relpkt_ll_write", "lib/gensio_relpkt.c:resend_packets", "lib/gensio_relpkt.c:first_xmitpkt_to_send"]}
{"id": "C57", "title": "relpkt accepts writes while the window has room", "statement": "A write is accepted, and the endpoint reports that it can be written, whenever fewer packets than the window size are unacknowledged.", "quantifier": "every number of packets sent before, in particular across the wrap of the sequence number", "why_tests_cant": "only visible for a moment every 256 packets", "anchors": ["lib/gensio_relpkt.c:relpkt_ul_write", "lib/gensio_relpkt.c:relpkt_ul_can_write"]}
{"id": "C58", "title": "relpkt tolerates packet loss", "statement": "If packets are only lost or repeated, and never changed, neither endpoint reports a protocol error.", "quantifier": "every schedule of losses, writes and busy periods of the lower layer", "why_tests_cant": "needs a particular interleaving of a resend request, a retransmission and a write", "anchors": ["lib/gensio_relpkt.c:relpkt_ll_write", "lib/gensio_relpkt.c:relpkt_ul_write"]}
{"id": "C59", "title": "relpkt client open terminates", "statement": "The open of a relpkt client either succeeds or reports an error after a bounded number of attempts, whatever the peer answers.", "quantifier": "every sequence of answers of the peer", "why_tests_cant": "a test cannot show that something goes on for ever", "anchors": ["lib/gensio_relpkt.c:relpkt_try_connect", "lib/gensio_relpkt.c:relpkt_ll_write"]}
{"id": "C60", "title": "relpkt open connection can carry data", "statement": "When the open of a relpkt client succeeds, the connection has a window that lets data be written.", "quantifier": "every initialisation packet of the peer", "why_tests_cant": "needs a peer announcing a zero window", "anchors": ["lib/gensio_relpkt.c:relpkt_ll_write"]}
{"id": "C61", "title": "Buffer vectors survive failing allocations", "statement": "gensio_cstr_to_bufv and gensio_bufv_copy give a vector with exactly the buffers and lengths asked for, or report an error without leaving memory allocated and without touching memory they do not own.", "quantifier": "every string or vector and every pattern of failing allocations", "why_tests_cant": "which allocation fails is not under the control of a test, and the patterns are infinitely many", "anchors": ["lib/utils.c:gensio_bufv_nappend", "lib/utils.c:gensio_cstr_to_bufv_endchar", "lib/utils.c:gensio_bufv_copy"]}
{"id": "C62", "title": "Printed argument vectors", "statement": "gensio_argv_snprintf prints the quoted arguments separated by blanks, cut and terminated like snprintf, changes nothing outside the given memory, and what was printed in full parses back to the same arguments.", "quantifier": "every vector, every buffer size and position", "why_tests_cant": "infinitely many vectors and truncation points", "anchors": ["lib/utils.c:gensio_argv_snprintf", "lib/utils.c:gensio_quote_str", "lib/utils.c:gensio_pos_snprintf"]}
{"id": "C63", "title": "Argument lists of gensio strings", "statement": "gensio_scan_args returns the arguments between the parentheses and the text after them; if it returns an error, no memory stays allocated.", "quantifier": "every string and every pattern of failing allocations", "why_tests_cant": "infinitely many strings and failure patterns", "anchors": ["lib/utils.c:gensio_scan_args", "lib/acc_gensio.c:120-122", "lib/os_osops.c:288-290"]}
{"id": "C64", "title": "Times in strings", "statement": "gensio_str_to_time converts every time written as documented (numbers followed by unit letters, or a plain number with a default unit) to exactly that time, well formed, and reports a gensio error code for anything else.", "quantifier": "every string", "why_tests_cant": "infinitely many strings; carries and overflows only for particular values", "anchors": ["lib/gensio.c:gensio_str_to_time"]}
{"id": "C65", "title": "xlt options", "statement": "The in, out, crlf, lfcr, crnl and nlcr options give exactly the translation tables they describe, the last option mentioning a byte deciding; numbers that are not bytes are refused and a boolean option set to false has no effect.", "quantifier": "every list of options", "why_tests_cant": "2^16 pairs per option and any number of options", "anchors": ["lib/gensio_xlt.c:process_xlt", "lib/gensio_xlt.c:gensio_xlt_config"]}
{"id": "C66", "title": "Texts of AX.25 addresses can be read back", "statement": "Printing a legal AX.25 address with gensio_addr_to_str and reading the text with gensio_ax25_str_to_addr gives an address equal to the first, ports included.", "quantifier": "every legal address with 0 to 8 extra addresses", "why_tests_cant": "all combinations of callsigns, numbers, flags and ports", "anchors": ["lib/net_ax25_addr.c:ax25_addr_to_str", "lib/net_ax25_addr.c:gensio_ax25_str_to_addr"]}
{"id": "C67", "title": "Reading AX.25 subaddresses", "statement": "ax25_str_to_subaddr accepts exactly the documented form callsign[-n][:c|r|h] with n from 0 to 15, and stores the callsign in capitals, the number and the flag, whatever the structure held before.", "quantifier": "every string and every previous content of the structure", "why_tests_cant": "infinitely many strings", "anchors": ["lib/net_ax25_addr.c:ax25_str_to_subaddr", "include/gensio/gensio_ax25_addr.h:67-74"]}
{"id": "C68", "title": "chardelay delays as configured", "statement": "While the chardelay filter holds bytes its timer runs and ends min_delay after the last write, or max_delay after the first one since it was empty if that is earlier; nothing is passed on before that unless the buffer is full or a sendon string was written. The delay given to the timer is always a proper, non-negative time.", "quantifier": "every history of writes and expiries, every clock that does not go back, every behaviour of the lower layer", "why_tests_cant": "depends on the timing of all calls", "anchors": ["lib/gensio_chardelay.c:chardelay_filter_start_timer", "lib/gensio_chardelay.c:chardelay_ul_write"]}
{"id": "C69", "title": "chardelay sendon strings", "statement": "As soon as the accepted data contain one of the configured sendon strings all held data are offered to the lower layer, and only bytes accepted from the user are considered.", "quantifier": "every set of sendon strings and all data, however divided", "why_tests_cant": "strings, overlaps and divisions are unbounded; the test data happens to be followed by readable memory", "anchors": ["lib/gensio_chardelay.c:chardelay_ul_write"]}
{"id": "C70", "title": "Convolutional encoder computes the convolution", "statement": "However data is divided into calls, the bits given to the output function are the GF(2) convolution of data and tail with the polynomials (systematic with feedback for recursive codes), interleaved per input bit, punctured as configured, packed low bit first; nothing is lost or added.", "quantifier": "every legal constraint length and polynomial set, every puncture array, all data in any division", "why_tests_cant": "all data, codes and divisions", "anchors": ["lib/convcode.c:convencode_data", "lib/convcode.c:convencode_finish", "lib/convcode.c:output_bits"]}
{"id": "C71", "title": "Encoding a block equals encoding a stream", "statement": "The block functions put the same bits into memory as the stream functions give to the output function, report their number and write only within the bytes needed.", "quantifier": "every code, puncture array and byte span setting, all data in any division", "why_tests_cant": "all data, codes and divisions", "anchors": ["lib/convcode.c:convencode_block_partial", "lib/convcode.c:convencode_block_final", "lib/convcode.c:convencode_block", "lib/convcode.c:set_convcode_output_per_symbol"]}
{"id": "C72", "title": "Convolutional decoder corrects errors", "statement": "If the number of wrong bits is less than half the distance of the sent code word to every other one then the data come back unchanged and the number of wrong bits is reported.", "quantifier": "every code, all data, all error patterns", "why_tests_cant": "exponentially many error patterns and code words", "anchors": ["lib/convcode.c:convdecode_data", "lib/convcode.c:convdecode_finish"]}
{"id": "C73", "title": "Convolutional decoder stays within its trellis", "statement": "Feeding more data than the decoder was allocated for is reported, and no memory outside the trellis is accessed.", "quantifier": "all data of any length", "why_tests_cant": "out of bounds writes usually go unnoticed", "anchors": ["lib/convcode.c:convdecode_data", "lib/convcode.c:decode_symbol", "lib/convcode.h"]}
{"id": "C74", "title": "Output errors of the coder are reported", "statement": "If the output function returns an error then so does the encode or decode function that called it.", "quantifier": "every code, all data, every behaviour of the output function", "why_tests_cant": "the failing call can be any", "anchors": ["lib/convcode.c:convencode_finish", "lib/convcode.c:convdecode_finish"]}
{"id": "C75", "title": "Re-initialised coder equals a new one", "statement": "After reinit_convdecode or reinit_convencode a coder gives the same results as a newly allocated one, whatever was done before.", "quantifier": "every history of calls", "why_tests_cant": "state left over from any earlier use", "anchors": ["lib/convcode.c:reinit_convdecode", "lib/convcode.c:reinit_convencode"]}
{"id": "C76", "title": "Punctured codes can be decoded", "statement": "Data encoded with a puncture array and decoded with the same one without channel errors come back unchanged.", "quantifier": "every code, puncture array and all data", "why_tests_cant": "all data and arrays", "anchors": ["lib/convcode.c:set_convcode_puncture", "lib/convcode.c:extract_sym", "lib/convcode.c:convdecode_finish"]}
{"id": "C77", "title": "Decoding a block and the last bits", "statement": "convdecode_block writes the data of the nearest code word and for each bit the distance of the code word so far; convdecode_last_n_block gives the last bits of the nearest code word of what was fed so far.", "quantifier": "every code, received sequence and uncertainties", "why_tests_cant": "exponentially many candidates", "anchors": ["lib/convcode.c:convdecode_block", "lib/convcode.c:convdecode_last_n_block"]}
{"id": "C78", "title": "Narrow trellis error count", "statement": "With a trellis narrower than the number of states, error-free code words are decoded with an error count of zero.", "quantifier": "every code, width and all data", "why_tests_cant": "all data and codes", "anchors": ["lib/convcode.c:decode_symbol"]}
{"id": "C79", "title": "Serial port lock of a single user", "statement": "With no other process active, locking a serial port whose lock files are absent creates both lock files with the caller's process id and succeeds; if either lock file names a live process it fails with GE_INUSE and changes nothing; lock files of a dead process are replaced; unlocking removes exactly both files.", "quantifier": "every device name and number, process id and directory contents", "why_tests_cant": "names, ids and directory states are unbounded", "anchors": ["lib/seriallock.c:uucp_mk_lock", "lib/seriallock.c:check_lock_file", "lib/seriallock.c:uucp_rm_lock"]}
{"id": "C80", "title": "A serial port being locked is reported as in use", "statement": "If opening a serial port is refused because another live process holds or is just taking the lock, the error is GE_INUSE.", "quantifier": "every interleaving of the file-system steps of any number of processes", "why_tests_cant": "the window is a few system calls wide", "anchors": ["lib/seriallock.c:uucp_mk_lock", "lib/seriallock.c:check_lock_file"]}
{"id": "C81", "title": "open_done is always called", "statement": "For a gensio built on the base layer, after gensio_open succeeded the open_done callback is called, even if the gensio is closed before it happens or an error occurs (as gensio_open.3 guarantees).", "quantifier": "every interleaving of user calls, lower-layer completions, filter results and timers", "why_tests_cant": "a missing callback is only noticed for particular event orders", "anchors": ["lib/gensio_base.c", "man/gensio_open.3"]}
{"id": "C82", "title": "A closed gensio makes no data callbacks", "statement": "For a gensio built on the base layer, after the close_done callback no read or write-ready callback is made until the gensio is opened again.", "quantifier": "every interleaving of user calls, lower-layer completions, filter results and timers", "why_tests_cant": "races between the deferred operation, the lower layer and timers", "anchors": ["lib/gensio_base.c"]}
{"id": "C83", "title": "Data callbacks do not overlap", "statement": "For a gensio built on the base layer, at no time are two threads in the read callback of a gensio, nor two threads in its write-ready callback.", "quantifier": "every interleaving of user calls, lower-layer completions, filter results and timers", "why_tests_cant": "needs two threads at exact points", "anchors": ["lib/gensio_base.c"]}
{"id": "C84", "title": "The base layer does not abort", "statement": "Whatever order user calls, lower-layer events, filter results and timers come in, no assertion of the base layer fails and no freed object is used.", "quantifier": "every interleaving and every result of filters and lower layers", "why_tests_cant": "the failing orders are long and rare", "anchors": ["lib/gensio_base.c"]}
{"id": "C85", "title": "A gensio opened without its child can be closed", "statement": "After gensio_open_nochild on a gensio that was open before succeeds, gensio_close succeeds and close_done is called.", "quantifier": "every state a gensio can be reopened in", "why_tests_cant": "depends on the history of the object", "anchors": ["lib/gensio_base.c:basen_open_nochild", "lib/gensio_base.c:gensio_base_close"]}
{"id": "C86", "title": "Timers fire when asked", "statement": "The handler of a selector timer is called exactly for a timer that was started and since then neither fired nor was stopped or freed, not before its time, and whenever the selector has nothing left to do no timer is overdue.", "quantifier": "every interleaving of timer calls, callbacks and clock steps of any number of threads", "why_tests_cant": "needs all orders of stop, start, free and expiry over threads", "anchors": ["lib/os_unix_selector.c:process_timers", "lib/os_unix_selector.c:sel_start_timer"]}
{"id": "C87", "title": "Timer calls say whether the timer runs", "statement": "sel_start_timer reports EBUSY exactly for a timer that runs or has a done handler outstanding; sel_stop_timer succeeds exactly for a running timer; sel_stop_timer_with_done succeeds only for a running timer, and reports ETIMEDOUT only for one that will not fire.", "quantifier": "every history of timer calls, also from inside handlers", "why_tests_cant": "depends on histories across threads and handlers", "anchors": ["lib/os_unix_selector.c:sel_start_timer", "lib/os_unix_selector.c:sel_stop_timer", "lib/os_unix_selector.c:sel_stop_timer_with_done"]}
{"id": "C88", "title": "Done handlers of timers", "statement": "A done handler accepted by sel_stop_timer_with_done is called exactly once, while no handler of the timer runs.", "quantifier": "every interleaving of timer calls, callbacks and clock steps of any number of threads", "why_tests_cant": "a lost callback shows only for particular orders", "anchors": ["lib/os_unix_selector.c:sel_stop_timer_with_done", "lib/os_unix_selector.c:process_timers"]}
{"id": "C89", "title": "Freeing timers", "statement": "Whatever the order of calls and callbacks, the memory of a timer is given back exactly once after sel_free_timer, not while a handler of it runs, and nothing touches it after that.", "quantifier": "every interleaving of timer calls, callbacks and clock steps of any number of threads", "why_tests_cant": "use after free needs exact orders", "anchors": ["lib/os_unix_selector.c:sel_free_timer", "lib/os_unix_selector.c:process_timers"]}
{"id": "C90", "title": "Waiting threads wake up for timers", "statement": "A thread that waits in the selector wakes up no later than the first timer or done handler is due, or has been sent the wakeup signal.", "quantifier": "every interleaving of timer calls, callbacks and waits of any number of threads", "why_tests_cant": "a missed wakeup is a rare race", "anchors": ["lib/os_unix_selector.c:setup_my_timeout", "lib/os_unix_selector.c:wake_timer_sel_thread"]}
{"id": "C91", "title": "Runners run exactly once", "statement": "Every sel_run that returned 0 has its function called exactly once with its data, in order of acceptance for a single thread; sel_run and sel_free_runner return EBUSY exactly while a call is outstanding; while runs are queued some waiting thread has been woken; no runner is used after it is freed.", "quantifier": "every interleaving of run, free, callbacks and waits of any number of threads", "why_tests_cant": "orders over threads are unbounded", "anchors": ["lib/os_unix_selector.c:sel_run", "lib/os_unix_selector.c:process_runners"]}
{"id": "C92", "title": "Handlers of file descriptors", "statement": "Only handlers that were set last for a descriptor and enabled since are called, and those are; the done handler of each registration is called exactly once, when no handler of it runs and it is no more current, unless cleared with the call that does not want it; no freed memory is used and none is lost.", "quantifier": "every interleaving of setting, clearing, enabling, events and returns of handlers of any number of threads", "why_tests_cant": "needs exact orders of threads", "anchors": ["lib/os_unix_selector.c:sel_set_fd_handlers", "lib/os_unix_selector.c:i_sel_clear_fd_handler", "lib/os_unix_selector.c:handle_selector_call"]}
{"id": "C93", "title": "Numbers of file descriptors", "statement": "Whatever file descriptors the selector accepts, every descriptor with handlers is among those looked at, and no access outside the table is made.", "quantifier": "every sequence of set and clear for any descriptor numbers", "why_tests_cant": "needs more than FD_SETSIZE descriptors", "anchors": ["lib/os_unix_selector.c:sel_set_fd_handlers", "lib/os_unix_selector.c:i_sel_clear_fd_handler"]}
{"id": "C94", "title": "Data of a mux channel", "statement": "On an open mux channel the reader gets exactly the accepted writes, byte for byte, in order, with the writer's message ends and out of band flags, both ways; no buffer is overrun and no protocol error arises.", "quantifier": "all buffer sizes, any writes, partial sends and receives, enables and partial reads by handlers", "why_tests_cant": "interleavings of windows, acknowledgements and partial transfers are unbounded", "anchors": ["lib/gensio_mux.c:muxc_write", "lib/gensio_mux.c:chan_setup_send_data", "lib/gensio_mux.c:chan_check_read", "lib/gensio_mux.c:mux_child_read"]}
{"id": "C95", "title": "A mux channel does not get stuck", "statement": "If both ends of an open mux channel read and nothing more happens by itself, everything written has been delivered.", "quantifier": "all buffer sizes, any sequence of transfers", "why_tests_cant": "a lost acknowledgement or window update needs exact sizes and orders", "anchors": ["lib/gensio_mux.c:chan_setup_send_data", "lib/gensio_mux.c:chan_check_read"]}
{"id": "C96", "title": "Numbers of mux channels", "statement": "No two channels of a mux have the same number at the same time, numbers are below max_channels, and allocating a channel fails only when max_channels exist.", "quantifier": "every sequence of user calls and received bytes", "why_tests_cant": "needs long sequences of allocating and freeing", "anchors": ["lib/gensio_mux.c:mux_new_channel"]}
{"id": "C97", "title": "Callbacks of mux channels", "statement": "Whatever the user does and the other end sends, no callback is made for a channel after its memory is given back, open_done is called at most once for each accepted open and close_done at most once for each accepted close.", "quantifier": "every sequence of user calls, lower layer events, and received bytes", "why_tests_cant": "needs a hostile peer and arbitrary orders", "anchors": ["lib/gensio_mux.c:mux_call_open_done", "lib/gensio_mux.c:finish_close", "lib/gensio_mux.c:chan_deferred_op", "lib/gensio_mux.c:mux_child_read"]}
{"id": "C98", "title": "Closing a mux channel ends", "statement": "If both ends close a channel and everything sent is delivered, close_done is called at both ends.", "quantifier": "every sequence of user calls and transfers of two ends", "why_tests_cant": "needs data crossing with the close", "anchors": ["lib/gensio_mux.c:muxc_close", "lib/gensio_mux.c:chan_deferred_op"]}
{"id": "C99", "title": "Opening a mux channel ends with a result", "statement": "Opening a channel ends with open_done, with an error if the other end has no room for it or does not want it; other channels are not affected, and nothing of a refused channel is left.", "quantifier": "every sequence of user calls and transfers of two ends, any amounts taken by the lower layer", "why_tests_cant": "needs refusals, limits and short writes together", "anchors": ["lib/gensio_mux.c:muxc_open", "lib/gensio_mux.c:mux_child_read", "lib/gensio_mux.c:mux_child_write_ready"]}
{"id": "C100", "title": "Mux messages stay whole", "statement": "However little the lower layer takes at a time, messages of a mux are sent whole one after the other, and accepted data arrives.", "quantifier": "any amounts taken by the lower layer, any sequence of user calls and transfers", "why_tests_cant": "needs a lower layer that takes part of a message just when another one arrives", "anchors": ["lib/gensio_mux.c:mux_child_write_ready", "lib/gensio_mux.c:mux_child_read"]}
{"id": "C101", "title": "Hostile mux messages stay in their buffers", "statement": "Whatever bytes the other end of a mux sends, in whatever pieces, they are stored only inside the header, the receive buffer of an existing channel or a service string of the announced length.", "quantifier": "every sequence of user calls and received bytes", "why_tests_cant": "needs hostile input", "anchors": ["lib/gensio_mux.c:mux_child_read", "lib/gensio_mux.c:chan_addrdbuf"]}
{"id": "C102", "title": "Synchronous reads", "statement": "The data returned by gensio_read_s calls is exactly the data taken from the gensio, in order, each byte once, never more than the buffer holds; a read that does not end by time, signal or error returns at least one byte, and a failed read takes none.", "quantifier": "every interleaving of any number of reading threads, data of any size, time outs and signals", "why_tests_cant": "needs particular orders of threads and events", "anchors": ["lib/gensio.c:gensio_syncio_event", "lib/gensio.c:i_gensio_read_s"]}
{"id": "C103", "title": "Synchronous writes", "statement": "The gensio gets the data of gensio_write_s calls one after the other in the order of the calls, each cut at the number of bytes the call reports; a call that ends neither by time, signal nor error has written everything.", "quantifier": "every interleaving of any number of writing threads, any amounts taken at a time, time outs and signals", "why_tests_cant": "needs particular orders of threads and partial writes", "anchors": ["lib/gensio.c:gensio_syncio_event", "lib/gensio.c:i_gensio_write_s"]}
{"id": "C104", "title": "Count of a failed synchronous write", "statement": "gensio_write_s reports the number of bytes written, also when it fails part way.", "quantifier": "every sequence of partial writes and errors", "why_tests_cant": "needs an error after a partial write", "anchors": ["lib/gensio.c:i_gensio_write_s"]}
{"id": "C105", "title": "Synchronous calls do not hang", "statement": "A waiting gensio_read_s or gensio_write_s has been woken, or there was no error and the callback it needs is enabled; an error of the gensio or a close wakes every waiting call.", "quantifier": "every interleaving of any number of threads", "why_tests_cant": "lost wakeups need exact orders", "anchors": ["lib/gensio.c:gensio_syncio_event", "lib/gensio.c:gensio_sync_flush_waiters", "lib/gensio.c:check_flush_sync_io"]}
{"id": "C106", "title": "Synchronous I/O after opening again", "statement": "When a gensio in synchronous mode is closed and opened again, reads and writes work again.", "quantifier": "every sequence of calls before and after", "why_tests_cant": "-", "anchors": ["lib/gensio.c:check_flush_sync_io"]}
{"id": "C107", "title": "Synchronous accept returns each connection once", "statement": "Every new connection of a synchronous accepter is returned by exactly one gensio_acc_accept_s call, in order of arrival, or is still waiting, or was freed at shutdown; a call succeeds exactly if it returns a connection.", "quantifier": "every interleaving of any number of accepting threads, connections, time outs, shutdowns and startups", "why_tests_cant": "needs races of threads with shutdown", "anchors": ["lib/gensio.c:gensio_acc_cb", "lib/gensio.c:i_gensio_acc_accept_s", "lib/gensio.c:gensio_acc_shutdown"]}
{"id": "C108", "title": "Error of synchronous accept", "statement": "gensio_acc_accept_s returns GE_LOCALCLOSED only if the accepter was shut down.", "quantifier": "every interleaving of any number of accepting threads", "why_tests_cant": "needs a race of two threads", "anchors": ["lib/gensio.c:i_gensio_acc_accept_s"]}
{"id": "C109", "title": "Synchronous accept does not hang", "statement": "While a connection waits no accepting thread waits without some thread having been woken for it; an accept does not wait on an accepter that is shut down.", "quantifier": "every interleaving of any number of accepting threads and signals", "why_tests_cant": "needs a signal between two steps of another thread", "anchors": ["lib/gensio.c:gensio_acc_cb", "lib/gensio.c:i_gensio_acc_accept_s"]}
{"id": "C110", "title": "Authentication needs a credential", "statement": "After a certauth server's open has succeeded, gensio_is_authenticated() is true only if the application or the authenticated child said so, or the peer's certificate was found good and its signature checked, or the application accepted its password or second factor.", "quantifier": "every peer (any bytes in any pieces), every setting, every answer of the application and of OpenSSL", "why_tests_cant": "attackers do not keep to the protocol", "anchors": ["lib/gensio_certauth.c:certauth_try_connect", "lib/gensio_certauth.c:certauth_handle_new_element"]}
{"id": "C111", "title": "require_password", "statement": "With require_password no connection is authenticated unless a password was accepted.", "quantifier": "every peer and every answer of the application", "why_tests_cant": "needs peers that mix credentials", "anchors": ["lib/gensio_certauth.c:certauth_try_connect"]}
{"id": "C112", "title": "Second factor", "statement": "With a second factor configured no connection is authenticated unless the second factor was accepted, nor by the second factor alone when the password was refused.", "quantifier": "every peer, every setting and every answer of the application", "why_tests_cant": "needs combinations of answers", "anchors": ["lib/gensio_certauth.c:certauth_try_connect"]}
{"id": "C113", "title": "A refusal is final", "statement": "If the application refuses a peer with GE_AUTHREJECT at the beginning or for its certificate, the open fails whatever follows.", "quantifier": "every peer, every setting", "why_tests_cant": "needs later credentials that are good", "anchors": ["lib/gensio_certauth.c:certauth_try_connect"]}
{"id": "C114", "title": "The signature is of this connection", "statement": "A signature accepted by a certauth server covers the random challenge of this connection, so that recorded ones are useless.", "quantifier": "every peer", "why_tests_cant": "replay with messages out of order", "anchors": ["lib/gensio_certauth.c:certauth_check_challenge", "lib/gensio_certauth.c:certauth_handle_new_element"]}
{"id": "C115", "title": "Both ends agree about the login", "statement": "The result a certauth server tells its client is success exactly if the server's open succeeds.", "quantifier": "every peer, every setting", "why_tests_cant": "needs all ends of the login", "anchors": ["lib/gensio_certauth.c:certauth_send_server_done", "lib/gensio_certauth.c:certauth_check_open_done"]}
{"id": "C116", "title": "certauth reads messages correctly", "statement": "Whatever bytes a certauth filter receives in whatever pieces, it reads and writes only inside its buffers, a message is read as its elements in order, and how it is cut into pieces does not matter.", "quantifier": "every sequence of bytes and pieces", "why_tests_cant": "needs every way to cut a stream", "anchors": ["lib/gensio_certauth.c:certauth_ll_write"]}
{"id": "C117", "title": "certauth writes messages completely", "statement": "The bytes a certauth filter gives to the lower layer are its messages one after the other, however little the lower layer takes at a time.", "quantifier": "every way of the lower layer to take bytes, every timing of the peer", "why_tests_cant": "needs a peer that answers before it reads", "anchors": ["lib/gensio_certauth.c:certauth_ul_write", "lib/gensio_certauth.c:certauth_try_connect"]}
{"id": "C118", "title": "Large certificates", "statement": "A certauth client with a certificate too large for its buffer fails with GE_TOOBIG and writes nothing outside of it.", "quantifier": "every certificate and signature size", "why_tests_cant": "only few sizes matter", "anchors": ["lib/gensio_certauth.c:certauth_add_cert", "lib/gensio_certauth.c:certauth_add_challenge_rsp"]}
{"id": "C119", "title": "Opening a certauth client again", "statement": "A certauth client that was closed can be opened again and starts from a clean state.", "quantifier": "every earlier open, successful or not", "why_tests_cant": "needs a failed open at a chosen place", "anchors": ["lib/gensio_certauth.c:certauth_cleanup"]}
{"id": "C120", "title": "An echo gensio gives back what was written", "statement": "The bytes read from an echo gensio are its data= text followed by the bytes that writes accepted, in order, none lost or doubled; a write accepts all that there is room for; nothing fails whatever is called and from where.", "quantifier": "every sequence of calls, from callbacks and other threads, every buffer size, every amount taken", "why_tests_cant": "needs every interleaving and every wrap of the ring", "anchors": ["lib/gensio_echo.c:echon_write", "lib/gensio_echo.c:echon_deferred_op"]}
{"id": "C121", "title": "Open and close of an echo gensio are answered once", "statement": "The callback of an accepted open or close is called exactly once unless the gensio is freed or disabled first, and data comes only between them.", "quantifier": "every sequence of calls", "why_tests_cant": "needs calls inside each callback", "anchors": ["lib/gensio_echo.c:echon_deferred_op"]}
{"id": "C122", "title": "The open callback of an echo gensio tells the truth", "statement": "The open callback is given success exactly if the gensio was not closed in the meantime.", "quantifier": "every sequence of calls", "why_tests_cant": "needs an open inside a close callback", "anchors": ["lib/gensio_echo.c:echon_deferred_op"]}
{"id": "C123", "title": "Sessions of an echo gensio are separate", "statement": "Data written before a close is not read after the next open.", "quantifier": "every sequence of calls", "why_tests_cant": "needs unread data at a close", "anchors": ["lib/gensio_echo.c:echon_open"]}
{"id": "C124", "title": "Nobody waits for nothing on an echo gensio", "statement": "A reader that is enabled is given waiting data or the end of the text, a writer that is enabled is told of room.", "quantifier": "every sequence of calls and returned errors", "why_tests_cant": "needs enabling inside callbacks", "anchors": ["lib/gensio_echo.c:echon_deferred_op"]}
{"id": "C125", "title": "Freeing an echo gensio", "statement": "After gensio_free no callback begins, and the memory is given back exactly when no operation needs it.", "quantifier": "every sequence of calls", "why_tests_cant": "needs a free inside each callback", "anchors": ["lib/gensio_echo.c:echon_free"]}
{"id": "C126", "title": "Values of parameters", "statement": "A parameter in a gensio string is given the value its text denotes (number in C notation with blanks and sign, bool, enumeration, file mode, octal permissions), and text that denotes no value of the type is refused.", "quantifier": "every text and type of parameter", "why_tests_cant": "infinitely many texts; the limits are far apart", "anchors": ["lib/gensio.c:gensio_pparm_ds", "lib/gensio.c:gensio_pparm_uint", "lib/gensio.c:gensio_pparm_int", "lib/gensio.c:gensio_pparm_perm", "lib/gensio.c:gensio_pparm_float"]}
{"id": "C127", "title": "Lists of arguments", "statement": "An argument list is accepted only if each argument is for a parameter the gensio knows with a text of its type, and then each parameter has the value of the last argument for it.", "quantifier": "every set of distinct parameter names and every list of arguments", "why_tests_cant": "needs all lists", "anchors": ["lib/gensio.c:gensio_check_keyvalue", "lib/gensio_echo.c:echo_ndata_setup"]}
{"id": "C128", "title": "Errors in parameters", "statement": "Asking for a parameter does nothing exactly if the argument is not about it; else it gives a value or an error and no value; after an error nothing more is taken.", "quantifier": "every argument, name and type", "why_tests_cant": "needs all texts", "anchors": ["lib/gensio.c:gensio_pparm_value", "lib/gensio.c:gensio_pparm_bool"]}
{"id": "C129", "title": "Addresses given as parameters", "statement": "Asking for an address parameter frees the address it replaces, or the new one if it is refused, and nothing else; the caller is never left with a freed address.", "quantifier": "every argument and every answer of the address scanner", "why_tests_cant": "use after free does not always show", "anchors": ["lib/gensio.c:gensio_pparm_addrs"]}
{"id": "C130", "title": "Defaults", "statement": "gensio_get_default returns the value last set for its class, else the one last set for all classes, else the first value; it and the other calls return the documented error in the other cases.", "quantifier": "every set of built-in defaults and every sequence of calls", "why_tests_cant": "needs all sequences of calls", "anchors": ["lib/gensio.c:gensio_get_default", "lib/gensio.c:gensio_set_default", "lib/gensio.c:gensio_del_default", "lib/gensio.c:gensio_add_default", "lib/gensio.c:gensio_reset_defaults"]}
{"id": "C131", "title": "Memory of defaults", "statement": "No sequence of calls on defaults frees a value twice, uses a freed one or loses one.", "quantifier": "every sequence of calls", "why_tests_cant": "a leak does not show in results", "anchors": ["lib/gensio.c:gensio_reset_default", "lib/gensio.c:gensio_del_default"]}
{"id": "C132", "title": "Limits of defaults", "statement": "A numeric default is always within its limits and is the number it was set to; a bool is 0 or 1.", "quantifier": "every sequence of calls", "why_tests_cant": "needs numbers far out of range", "anchors": ["lib/gensio.c:l_gensio_set_default"]}
{"id": "C133", "title": "Data defaults", "statement": "Getting a data default returns a copy of the data without writing outside of the block allocated for it.", "quantifier": "every sequence of calls", "why_tests_cant": "a write of one byte past a block is mostly harmless in tests", "anchors": ["lib/gensio.c:gensio_get_default"]}
{"id": "C134", "title": "Local address of a TCP gensio", "statement": "A TCP gensio has the local address given by the last laddr argument or else the default one, and every address is freed exactly once.", "quantifier": "every list of arguments", "why_tests_cant": "use after free does not always show; needs several arguments", "anchors": ["lib/gensio_net.c:net_gensio_alloc", "lib/gensio.c:gensio_get_defaultaddr"]}
{"id": "C135", "title": "AX.25 connections survive any frame", "statement": "Whatever bytes arrive as frames on an AX.25 connection, and whatever the users, timers and the lower layer do meanwhile, the gensio fails no assertion and uses no memory outside its packets.", "quantifier": "every configuration, every sequence of frames, calls, timeouts and failures", "why_tests_cant": "the state space of sequence numbers, windows and states is far too large to sample; the failures need hostile or rare frames", "anchors": ["lib/gensio_ax25.c:ax25_child_read", "lib/gensio_ax25.c:ax25_chan_handle_xid", "lib/gensio_ax25.c:ax25_chan_write", "lib/gensio_ax25.c:ax25_chan_rewind_seq"]}
{"id": "C137", "title": "Acknowledged AX.25 data reaches the user", "statement": "Data that the AX.25 gensio has acknowledged to its peer is given to its user, also when the peer then disconnects.", "quantifier": "every execution of two connected channels", "why_tests_cant": "depends on when the user enables reading", "anchors": ["lib/gensio_ax25.c:ax25_chan_deliver_read", "lib/gensio_ax25.c:ax25_chan_handle_disc"]}
{"id": "C139", "title": "AX.25 extended=2 negotiates parameters", "statement": "With extended=2 the request to connect carries the parameters of the gensio.", "quantifier": "every configuration with extended=2", "why_tests_cant": "no test looks at the frame", "anchors": ["lib/gensio_ax25.c:ax25_chan_set_extended", "lib/gensio_ax25.c:ax25_chan_send_sabm"]}
{"id": "C141", "title": "An AX.25 peer is told of the end", "statement": "When an AX.25 channel gives up or is disconnected, the frame that says so (DM or UA) is sent.", "quantifier": "every execution", "why_tests_cant": "needs timeouts, or a response queued at that moment", "anchors": ["lib/gensio_ax25.c:ax25_chan_t1_timeout", "lib/gensio_ax25.c:ax25_child_write_ready"]}
{"id": "C142", "title": "Closing an AX.25 channel after writing", "statement": "A close of an AX.25 channel that is done without an error was done after the peer acknowledged everything written.", "quantifier": "every execution of two channels over a link that loses nothing", "why_tests_cant": "needs a slow link on which the request to connect was sent twice", "anchors": ["lib/gensio_ax25.c:ax25_chan_handle_ua", "lib/gensio_ax25.c:i_ax25_chan_close"]}
{"id": "C136", "title": "AX.25 delivers in order and once", "statement": "Over a link that keeps the order of frames but may lose any of them, what the user of one side of an AX.25 connection reads is what the other side wrote: every packet once, in order, with its pid and contents, up to packets still under way. This holds in both directions, also when the two sides have different configurations and fall back from the extended mode.", "quantifier": "every pair of configurations with a write window of at least two and the default treatment of unasked UA frames; every interleaving of calls, timeouts, losses and failures, with writes that fit a packet and read events that return no error", "why_tests_cant": "needs all interleavings of losses, retransmissions, window wraps and connection setup", "anchors": ["lib/gensio_ax25.c:ax25_child_read", "lib/gensio_ax25.c:ax25_chan_handle_data", "lib/gensio_ax25.c:ax25_chan_rewind_seq", "lib/gensio_ax25.c:ax25_chan_write", "lib/gensio_ax25.c:ax25_chan_handle_sabm"]}
{"id": "C143", "title": "A keepopen gensio does not abort or lock up", "statement": "Calls a user may make on a keepopen gensio (open, close, free, enables, writes, from any thread and inside callbacks) never fail an internal check, never take a lock twice and never touch freed memory, whatever the child and the retry timer do.", "quantifier": "every interleaving of user calls, child events, timer and callbacks", "why_tests_cant": "needs calls at the moment the child is being opened again or the log handler runs", "anchors": ["lib/gensio_keepopen.c:keepn_open_done", "lib/gensio_keepopen.c:keepn_close_done", "lib/gensio_keepopen.c:keepn_free", "man/gensio_close.3"]}
{"id": "C144", "title": "Open and close of a keepopen gensio are answered once", "statement": "Every accepted open gets exactly one open callback, which says success; every accepted close gets exactly one close callback, after the open callback; a refused call gets none and has no effect.", "quantifier": "every interleaving of user calls, child events, timer and callbacks", "why_tests_cant": "needs calls inside callbacks and failures of the child at all moments", "anchors": ["lib/gensio_keepopen.c:keepn_check_open_done", "lib/gensio_keepopen.c:keepn_check_close_done", "lib/gensio_keepopen.c:keepn_retry_timeout", "lib/gensio_keepopen.c:keepn_close"]}
{"id": "C145", "title": "A keepopen gensio does not give up", "statement": "If the user makes no call at the moments refuted in C143 and C144: while the user has it open, the child is open, or being opened or closed, or the retry timer will go off; from there it can always come to be open again; and a child that reports an error or refuses a write is closed and opened again.", "quantifier": "every interleaving of user calls, child events, timer and callbacks", "why_tests_cant": "a lost wakeup needs one particular interleaving of failures", "anchors": ["lib/gensio_keepopen.c:keepn_handle_io_err", "lib/gensio_keepopen.c:keepn_retry_timeout", "lib/gensio_keepopen.c:keepn_open_done"]}
{"id": "C146", "title": "Enables survive a reopened child", "statement": "While the child of a keepopen gensio is open, what it was last told about read and write callbacks since it was opened is what the user last asked for, also if the user asked while it was closed.", "quantifier": "every interleaving without the calls of C143", "why_tests_cant": "needs enables set at all moments of many reopens", "anchors": ["lib/gensio_keepopen.c:keepn_open_done", "lib/gensio_keepopen.c:keepn_gensio_func"]}
{"id": "C147", "title": "Writes to a keepopen gensio", "statement": "A write always returns success and a count no larger than it was given. Without discard-badwrites the bytes counted as written are exactly those the child took, in order; with it a write the child refuses is counted in full.", "quantifier": "every run, with no assumption on calls", "why_tests_cant": "needs failing children at all moments", "anchors": ["lib/gensio_keepopen.c:keepn_gensio_func"]}
{"id": "C148", "title": "Freeing a keepopen gensio", "statement": "After the free the child is not opened any more; the memory is given back after the free, and is given back once nothing is on its way.", "quantifier": "every interleaving of user calls, child events, timer and callbacks", "why_tests_cant": "needs a free inside the open callback with a failing child", "anchors": ["lib/gensio_keepopen.c:keepn_free", "lib/gensio_keepopen.c:keepn_retry_timeout"]}
{"id": "C149", "title": "What is read from a file gensio", "statement": "The reader of a file gensio is given the bytes of its input file in order, each once, from the start of the file after every open; bytes it does not take are given again.", "quantifier": "every interleaving of user calls, callbacks and runner threads, every size of reads and takes", "why_tests_cant": "needs two threads in the os handler, or closing with data left and opening again", "anchors": ["lib/gensio_file.c:filen_deferred_op", "lib/gensio_file.c:filen_open"]}
{"id": "C150", "title": "The end of the input file and errors", "statement": "An error told to the reader of a file gensio is one that reading gave; the end of the file is told once for each time reading is enabled, and an open starts reading again.", "quantifier": "every interleaving of user calls, callbacks and runner threads, every answer of the system", "why_tests_cant": "tests stop at the first end of the file", "anchors": ["lib/gensio_file.c:filen_deferred_op", "lib/gensio_file.c:filen_set_read_callback_enable"]}
{"id": "C151", "title": "What is written to a file gensio", "statement": "The bytes counted by the writes to a file gensio are exactly those that went into its output file, in order; without an output file all bytes are counted and dropped; writing nothing is no error.", "quantifier": "every list of writes in any number of pieces, every answer of the system", "why_tests_cant": "needs partial writes, failing writes and writes in several pieces", "anchors": ["lib/gensio_file.c:filen_write", "lib/gensio_file.c:f_writev"]}
{"id": "C152", "title": "A file gensio closes its files", "statement": "After a close, a refused open, or a free, no file that a file gensio opened is open.", "quantifier": "every interleaving of user calls, callbacks and runner threads, every answer of the system", "why_tests_cant": "descriptors that are lost are not seen by tests", "anchors": ["lib/gensio_file.c:filen_open", "lib/gensio_file.c:filen_close", "lib/gensio_file.c:filen_free"]}
{"id": "C153", "title": "Open and close of a file gensio", "statement": "Each accepted open and close of a file gensio is answered once, the open with success exactly if no close came first; data, write ready events and accepted writes come only between the answer to the open and the close, and none after the free.", "quantifier": "every interleaving of user calls, callbacks and runner threads", "why_tests_cant": "needs closes and frees at every point of the deferred operation", "anchors": ["lib/gensio_file.c:filen_deferred_op", "lib/gensio_file.c:filen_close", "lib/gensio_file.c:filen_free"]}
{"id": "C154", "title": "Memory of a file gensio", "statement": "A file gensio does nothing undefined whatever is called and whatever readers take, uses its memory only while it is there, and gives it back once it was freed and no callback is running or waiting.", "quantifier": "every interleaving of user calls, callbacks and runner threads", "why_tests_cant": "an overlapping memcpy usually works; needs a free at every point", "anchors": ["lib/gensio_file.c:filen_deferred_op", "lib/gensio_file.c:filen_unlock_and_deref"]}
{"id": "C155", "title": "A file gensio does not stop", "statement": "While reading is enabled the file is read or data is offered; while write ready events are enabled they come; an error from one of the two callbacks does not stop the other.", "quantifier": "every interleaving of user calls, callbacks and runner threads", "why_tests_cant": "a missed wake up depends on the interleaving", "anchors": ["lib/gensio_file.c:filen_start_deferred_op", "lib/gensio_file.c:filen_deferred_op"]}
{"id": "C156", "title": "Each enable of accept callbacks on a dummy accepter is answered exactly once", "statement": "On a dummy accepter, gensio_acc_set_accept_callback_enable_cb is refused with GE_INUSE exactly while the answer to an earlier accepted one is still to come; an accepted one with a callback has it called exactly once, and without a further call of the user.", "quantifier": "every sequence of calls from any number of threads and from callbacks, every interleaving with the runner", "why_tests_cant": "a lost or doubled answer depends on the interleaving of callbacks, runner and calls", "anchors": ["lib/gensio_dummy.c:dummyna_set_accept_callback_enable", "lib/gensio_dummy.c:dummyna_do_deferred"]}
{"id": "C157", "title": "A shutdown of a dummy accepter that was accepted is answered once", "statement": "gensio_acc_shutdown of a dummy accepter is accepted exactly while it is started; shutdown_done of an accepted one is called exactly once, whatever other calls are made and refused meanwhile, and is not called after gensio_acc_free.", "quantifier": "every sequence of startup, shutdown, enable and free from any number of threads and from callbacks, every interleaving with the runner", "why_tests_cant": "needs a refused call or a free between the shutdown and its answer", "anchors": ["lib/gensio_dummy.c:dummyna_startup", "lib/gensio_dummy.c:dummyna_shutdown", "lib/gensio_dummy.c:dummyna_do_deferred"]}
{"id": "C158", "title": "A dummy accepter is given back once, and only when nothing uses it", "statement": "The memory of a dummy accepter is given back exactly when it was freed and no callback or deferred operation is under way or queued; no call, callback or operation uses it after that, and its reference count never underflows.", "quantifier": "every sequence of calls from any number of threads and from callbacks, every interleaving with the runner", "why_tests_cant": "the point of the free among queued and running operations is a matter of timing", "anchors": ["lib/gensio_dummy.c:dummyna_free", "lib/gensio_dummy.c:dummyna_deref_and_unlock", "lib/gensio_dummy.c:dummyna_deferred_op"]}
{"id": "C159", "title": "The script filter releases its lock exactly once per call", "statement": "Every call of the base into the script filter and every event of the script's gensio, also one that reports an error, takes the filter's lock, releases it exactly once and returns with it free.", "quantifier": "every sequence of calls, data, results of the lower gensio and of the script's gensio, errors and exit codes", "why_tests_cant": "the error paths need failures of the script's gensio or of the lower one at a given point", "anchors": ["lib/gensio_script.c:script_handle_err_unlock", "lib/gensio_script.c:script_ul_write", "lib/gensio_script.c:script_sub_event"]}
{"id": "C160", "title": "All output of the script goes to the remote end, in order and once", "statement": "While a script gensio is opened, what the script writes is sent to the remote end in order and without repetition, and all of it has been sent when the open is reported as done.", "quantifier": "every data, every size of read and partial write, every interleaving, every way the script ends", "why_tests_cant": "depends on partial writes and on the moment the script ends", "anchors": ["lib/gensio_script.c:script_sub_event", "lib/gensio_script.c:script_ul_write", "lib/gensio_script.c:script_finish_close"]}
{"id": "C161", "title": "What the remote end sends while the script runs is not lost", "statement": "While a script gensio is opened, data from the remote end goes to the script in order and without repetition; data the script did not take goes to the user after the open.", "quantifier": "every data, every size of read and partial write, every interleaving, every way the script ends", "why_tests_cant": "depends on what is buffered at the moment the script ends", "anchors": ["lib/gensio_script.c:script_ll_write", "lib/gensio_script.c:script_sub_event", "lib/gensio_script.c:script_finish_close"]}
{"id": "C162", "title": "The open of a script gensio is good only if the script ended well", "statement": "The filter reports the open as done at most once, and only after the script's gensio was opened, ended, was closed and gave its exit code; the open is good exactly if the code is zero or there is none; user data passes the filter only after a good open.", "quantifier": "every sequence of calls, events and exit codes in which no undefined behaviour (C159) happened before", "why_tests_cant": "needs all orders of end, close and data", "anchors": ["lib/gensio_script.c:script_finish_close", "lib/gensio_script.c:script_check_open_done", "lib/gensio_script.c:script_try_connect"]}
{"id": "C163", "title": "Data to and from a running script never stalls in the filter", "statement": "While the script runs, in each direction either new data is taken when it comes, or there is data kept back which goes on as soon as the other side can take any; the events for that are enabled.", "quantifier": "every sequence of calls, events, sizes and partial writes", "why_tests_cant": "a missed enable shows only after a given sequence of partial writes", "anchors": ["lib/gensio_script.c:script_ul_write", "lib/gensio_script.c:script_ll_write", "lib/gensio_script.c:script_sub_event"]}
{"id": "C164", "title": "A trace gensio passes data unchanged and counts it right", "statement": "Data written to or read through a trace gensio is handed on unchanged and once, and the result and count are those of the layer it is handed to; data of a blocked direction is handed to nobody and reported as taken, with exactly the number of bytes given.", "quantifier": "every setting of dir, b4dir, block and raw, every data in any number of pieces, every result of the other layer", "why_tests_cant": "only one combination of settings counts wrong, and callers seldom check a count that is too large", "anchors": ["lib/gensio_trace.c:trace_ul_write", "lib/gensio_trace.c:trace_ll_write"]}
{"id": "C165", "title": "A raw trace holds exactly the traced bytes", "statement": "While a trace gensio is open, its raw trace grows by exactly the bytes offered (b4dir) and the bytes accepted without error (dir) of the traced directions, in the order of the calls; nothing is added while it is closed, and a new open keeps what is there unless delold is given.", "quantifier": "every sequence of calls, every division of data into pieces, every accepted count", "why_tests_cant": "partial writes over several pieces in every combination", "anchors": ["lib/gensio_trace.c:trace_data", "lib/gensio_trace.c:trace_try_connect", "lib/gensio_trace.c:trace_filter_cleanup"]}
{"id": "C166", "title": "A text trace notes every error once and shows as many bytes as it counts", "statement": "In a text trace each error returned in a direction traced by dir is noted once and in order; each entry of data shows as many bytes as it counts, and none is empty.", "quantifier": "every sequence of calls, every division of data into pieces, every accepted count not above what was given", "why_tests_cant": "partial writes over several pieces in every combination", "anchors": ["lib/gensio_trace.c:trace_data"]}
{"id": "C167", "title": "The perf gensio writes what was asked for and its total is right", "statement": "A perf gensio never writes more than write_len bytes; its TOTAL report holds the bytes written and read so far, is made at most once and, unless an error was told, only when all write_len bytes were accepted and at least expect_len bytes came; the remote-close error is given to writes only after all was written and the user has read every report.", "quantifier": "every write_len, expect_len and buffer size, every order of writes, reads, timeouts and errors, every accepted count", "why_tests_cant": "partial writes, partial reads of reports and timeouts in every order", "anchors": ["lib/gensio_perf.c:perf_ul_write", "lib/gensio_perf.c:perf_handle_end_check"]}
{"id": "C168", "title": "Perf reports reach the user whole, in order and add up", "statement": "What the user reads from a perf gensio is the text of its reports, one after the other, whole and unmixed; each timed report holds the bytes written and read and the seconds passed since the one before, and these counts with those since the last one add up to all bytes written and read.", "quantifier": "every order of writes, reads, timeouts and errors, every accepted count", "why_tests_cant": "a timeout or error while a report is partly read", "anchors": ["lib/gensio_perf.c:perf_ll_write", "lib/gensio_perf.c:perf_filter_timeout"]}
{"id": "C169", "title": "The perf total is reported on an I/O error", "statement": "When the gensio below a perf gensio fails, the TOTAL report is made available to the user.", "quantifier": "every state in which the error can come", "why_tests_cant": "depends on whether a timed report is still unread at that moment", "anchors": ["lib/gensio_perf.c:perf_filter_io_err", "lib/gensio_perf.c:perf_handle_end_check"]}
