# Formal model of gensio: design

The code under study is the C source of gensio in /repo, read as text; it was never built or
run.  The model is in `rocq/theories`.  Each part of the library has

* `X_Model.v` – executable Gallina functions, each with a comment citing the file and lines it
  models and what was simplified;
* `X_Spec.v` – where the statement needs definitions of its own (an abstract queue, a parser, a
  polynomial remainder, what a trace may contain), written without using the functions of the
  model they judge;
* `X_Proofs*.v` – lemmas;
* `Properties_X.v` – the property theorems, each followed by `Print Assumptions`, with `Example`s
  that show a concrete case meeting the hypotheses.

`properties.jsonl` has the properties, `MANIFEST.json` the theorems and status for each,
`seeded/LOG.jsonl` the wrong programs tried.

## Trusted base

* Coq 8.16.1: its kernel, and `vm_compute` (used in some proofs by computation, which is part of
  the kernel).  No plugin is used.
* `Print Assumptions` says `Closed under the global context` for every theorem in the
  `Properties_*.v` files: no axiom is used, neither from the standard library nor our own.
* The checker lists seven constants `Coq.ssr.ssrunder.Under_rel.*`.  They are in a module type
  of the standard library that is loaded with `Lia`/`ssreflect` support files; nothing here uses
  them, as `Print Assumptions` shows.
* That the Gallina functions say what the C code says.  This is by reading; nothing is extracted
  from or linked to the C code.  The next sections say what was left out.
* C is taken as on Linux with gcc or clang on a 64-bit little-endian machine: `char` and `int` of
  8 and 32 bits, conversions to a smaller integer wrap, allocated memory is zeroed by `zalloc`.
  What the C standard leaves undefined (access outside an object, signed overflow, division by
  zero, shift too far) and failing assertions are a separate outcome, see below.

## Conventions

* Bytes and other C integers are `Z` (with an explicit range predicate when the theorem depends
  on it); lengths and indices are `nat`.  Where wrap-around matters it is written explicitly.
* Undefined behaviour and failed `assert`s are a distinct outcome (`None`, or `Bad`) of the
  modelled function.  A theorem `… = Some …` therefore also says that neither happens.
* Callbacks, lower layers, allocation failures, clocks and thread schedules are oracles: function
  arguments or lists of answers over which the theorem quantifies.
* Recursion that the C code bounds only indirectly has fuel whose exhaustion is undefined
  behaviour, never a normal result, and it is proved that it suffices.
* If a property is false of the code, there is a theorem `…_refuted` with a concrete witness, the
  strongest part that does hold is `…_partial`, and the manifest says `partial`.

## Wrong programs

`seeded/LOG.jsonl` has one line per edit of a definition in a scratch copy, rebuilt from there. `failed_lemmas` is what coqc rejected; `theorems_failed` is computed from it, by identifiers along the imports, and may name a theorem too many. Up to commit b99be02 it was computed by name alone, and named theorems of unrelated modules that have a lemma of the same name; all lines have been computed anew.
`failed_lemmas` is what coqc rejected first; `theorems_failed` are the property theorems whose
proofs depend on these lemmas and so could not be rebuilt; `tightened` names theorems that were
made stronger because an edit was not noticed.

## Properties

| id | property | model | how | status |
|----|----------|-------|-----|--------|
| C01 | gensio_buffer is a bounded FIFO | include/gensio/gensio_buffer.h, lib/buffer.c | refinement to a bounded queue | proved |
| C02 | gensio_buffer_output reports the number of bytes it added | include/gensio/gensio_buffer.h, lib/buffer.c, lib/telnet.c | arithmetic of the wrap case | partial. False of the code: the count is short when the stored block wraps; exact error and the correct cases are proved. |
| C03 | gensio_circbuf is a bounded FIFO | include/gensio/gensio_circbuf.h, lib/circbuf.c | refinement to a bounded queue | proved |
| C04 | Telnet data transparency | lib/telnet.c | state machine, induction over all divisions of the data | proved. Commands fit the command buffer (otherwise see C39); write buffer of at least 2 bytes. |
| C05 | Telnet decoder memory safety and progress | lib/telnet.c, lib/telnet.h | invariant of decoder and filter | proved |
| C06 | Telnet sub-negotiation round trip | lib/telnet.c | encoder and decoder composed | proved. Fits means at most 28 payload bytes after the option byte; longer ones are shown damaged. |
| C07 | Telnet option negotiation terminates | lib/telnet.c, lib/telnet.h | measure over the negotiation of two endpoints | proved |
| C08 | CRC of msgdelim detects errors | lib/gensio_msgdelim.c | CRC as remainder of a polynomial over GF(2); table checked against it for all 256 entries | proved. Errors are counted in the message and CRC bytes before escaping; for errors on the wire see C42. |
| C09 | msgdelim message round trip | lib/gensio_msgdelim.c | encoder and decoder state machines, any division of the data | proved. No lower layer error (C44) and no refused write before the first message (C41). |
| C10 | msgdelim receive buffer is never overrun | lib/gensio_msgdelim.c | bound on the position, witness beyond | partial. False of the code: the buffer is two bytes shorter than the limit checked, for every configured size. |
| C11 | msgdelim recovers after a bad message | lib/gensio_msgdelim.c | witness, and resynchronisation without a preceding bad message | partial. False of the code: the bad bytes stay in the buffer and spoil every later CRC. |
| C12 | KISS frame round trip | lib/gensio_kiss.c | encoder and decoder, any division | proved. Non-empty writes (empty ones: C13) within the size (C47), no lower layer error.  A client may put one bogus port 12 packet in front (C46). |
| C13 | KISS buffers are never overrun | lib/gensio_kiss.c | invariants on positions | partial. Receiver proved for all streams.  False for the sender with empty writes or after lower layer errors; proved otherwise. |
| C14 | HDLC bit-stuffing round trip | lib/gensio_hdlc.c | bit-level spec of stuffing; decoder follows it | partial. Proved for up to eight packets per connection (C15) whose frame fits the write buffer (C50); sender part unbounded. |
| C15 | HDLC delivery of any number of frames | lib/gensio_hdlc.c | counter invariant; witness at the ninth packet | partial. False of the code from the ninth packet on; proved for up to eight. |
| C16 | relpkt delivers in order, exactly once | lib/gensio_relpkt.c | invariant of two endpoints and network with unbounded ghost numbers | proved. Two full endpoints and a network; windows up to 127 packets, packet size up to 65532. |
| C17 | relpkt accepts every configurable window size | lib/gensio_relpkt.c | witnesses at 128 and 255 | partial. False of the code for max_packets 128 (duplicate) and 255 (stall); proved up to 127. |
| C18 | relpkt preserves message boundaries | lib/gensio_relpkt.c | mark positions in the invariant | partial. Requested marks are delivered in the right place; the code also delivers marks that were not requested. |
| C19 | Quoting and parsing of strings round-trip | lib/utils.c | parser of quoted strings composed with quoting | proved |
| C20 | Escapes in quoted strings denote the documented byte | lib/utils.c | exact meaning of escapes characterised | partial. False of the code: ten is not added for the letters of hexadecimal escapes. Proved for escapes without letters; the exact meaning implemented is characterised. |
| C21 | Argument vectors | lib/utils.c | memory of blocks, any allocation may fail | proved |
| C22 | Network-order integers | lib/utils.c | arithmetic | partial. Undefined by the C standard for 32-bit values of 2^31 or more; proved for these with a wrapping shift, and strictly for all others. |
| C23 | Time arithmetic is exact | include/gensio/gensio_time.h, lib/gensio.c | integer arithmetic against exact nanoseconds | proved. For results that fit in 64 bits. |
| C24 | Time conversions are exact and normalised | lib/gensio.c | same | partial. False of the code in three ways; proved otherwise. |
| C25 | xlt translates every byte exactly once | lib/gensio_xlt.c | list translation, counts | partial. The translation claim is proved; the count claim is false of the code whenever bytes were held from an earlier call. |
| C26 | AX.25 address wire format round trip | lib/net_ax25_addr.c | codec | proved. The reserved bits are not carried over. |
| C27 | ratelimit never exceeds its rate | lib/gensio_ratelimit.c | transition system with clock | proved |
| C28 | chardelay loses and reorders nothing | lib/gensio_chardelay.c | transition system with clock and buffer | partial. False of the code with sendon strings (reads beyond the caller's data) and after reopening; proved otherwise. |
| C29 | Timer heap is a priority queue | lib/heap.h | pointer memory refined to a complete binary tree | proved. Proved at the level of the linked nodes: no pointer outside the allocated nodes is followed and all loops end. |
| C30 | Linked lists | lib/utils.c | pointer memory refined to lists | proved |
| C31 | Counted strings are freed exactly once | include/gensio/gensio_refcount.h, lib/utils.c | invariant over interleavings: count = holders | proved. Proved within the limits of the statement; the two refuted theorems show that the code needs them. |
| C32 | Open and close completion callbacks | lib/gensio_base.c | invariant over interleavings | partial. close_done and open_done counts proved; READ after close is refuted in two ways and proved absent for the other cases; filters and lower layers restricted as in `usual` (C84) |
| C33 | Reference counting of the base layer | lib/gensio_base.c | reference count = sum of holders, invariant over interleavings | partial. proved for environments as in `usual`; refuted when a filter reports an error from disconnecting after a failed write |
| C34 | Serial port lock files exclude | lib/seriallock.c | invariant over interleavings of processes; witnesses | partial. false in general: clearing a stale lock races, two names of a device race, failing flock removes others' locks; proved for executions where no process ends while another looks at a lock file, and for flock always |
| C35 | Convolutional coder round trip | lib/convcode.c | Viterbi invariant | partial. hard and soft decision, any division; needs full width trellis and, for recursive codes, feedback of the current bit: without it error-free data is decoded wrongly |
| C36 | Viterbi decoder is maximum likelihood | lib/convcode.c | path metrics are minima over all inputs | partial. maximum likelihood without tail; with a tail the decoder does not use that it is zero |
| C37 | Convolutional code size arithmetic | lib/convcode.c | arithmetic | proved. also proved for puncture arrays keeping a bit of every symbol; sizes with other puncture arrays are not inverted (C37_punctured_refuted) |
| C38 | Telnet window size arrives | lib/sergensio_telnet.c | bytes of the option | partial. False of the code when a size byte is 255. |
| C39 | Negotiation floods do not damage user data | lib/sergensio_telnet.c, lib/telnet.c | witness | partial. False of the code: partial commands are stored when the buffer is full; C04 proves the property when they fit. |
| C40 | CRC of HDLC/AX.25 packets detects errors | lib/crc.h | same | proved |
| C41 | msgdelim refuses oversized messages cleanly | lib/gensio_msgdelim.c | case analysis | partial. False of the code when the refused write comes first; otherwise proved (with C09). |
| C42 | msgdelim rejects single bit errors on the wire | lib/gensio_msgdelim.c | witness | partial. False of the code: 254 0 becomes 254 1. |
| C43 | msgdelim works after close and reopen | lib/gensio_msgdelim.c | witness | partial. False of the code: the leading separator is not sent again. |
| C44 | msgdelim transmit buffer survives lower layer errors | lib/gensio_msgdelim.c | witness | partial. False of the code after lower layer errors; C09_msgdelim_sender_safe proves it when there is none. |
| C45 | KISS client sets the TNC parameters | lib/gensio_kiss.c | first bytes for every configuration | partial. False of the code for every configuration. |
| C46 | KISS delivers only packets that were written | lib/gensio_kiss.c | witness | partial. False of the code when the receiver enables port 12; C12_kiss_round_trip proves it otherwise (extra = []). |
| C47 | KISS write count is the number of bytes sent | lib/gensio_kiss.c | witness | partial. False of the code for writes longer than writebuf; C12 covers the others. |
| C48 | KISS tncs option enables the ports it names | lib/gensio_kiss.c | witness | partial. False of the code. |
| C49 | KISS refuses writes to ports that are not enabled | lib/gensio_kiss.c | witness | partial. False of the code when output is pending. |
| C50 | HDLC writes stay inside the write buffer | lib/gensio_hdlc.c | exact bound on the encoded length | partial. False of the code with default options; exact bound proved. |
| C51 | HDLC empty write is harmless | lib/gensio_hdlc.c | witness | partial. False of the code. |
| C52 | HDLC delivers every accepted packet size | lib/gensio_hdlc.c | witness | partial. False of the code with crc=no for 1 and 2 byte packets; C14/C15 cover the others. |
| C53 | HDLC can be reopened after an error | lib/gensio_hdlc.c | witness | partial. False of the code. |
| C54 | HDLC receiver resynchronises | lib/gensio_hdlc.c | decoder state after a flag does not depend on the past | partial. Proved while at most eight packets are recognised (C15). |
| C55 | HDLC receiver invents nothing | lib/gensio_hdlc.c | decoder output is a destuffed frame of the input | partial. Proved while at most eight packets are recognised (C15); up to one bit at the end of the frame. |
| C56 | relpkt survives any peer | lib/gensio_relpkt.c | invariant for one endpoint and any packets | partial. False of the code for a resend request with a reversed range; proved for all other packets, max_packets up to 128. |
| C57 | relpkt accepts writes while the window has room | lib/gensio_relpkt.c | witness | partial. False of the code at the wrap of the sequence number. |
| C58 | relpkt tolerates packet loss | lib/gensio_relpkt.c | witness | partial. False of the code. |
| C59 | relpkt client open terminates | lib/gensio_relpkt.c | count of timeouts | partial. False of the code if the peer refuses; with a silent peer the open fails after six timeouts. |
| C60 | relpkt open connection can carry data | lib/gensio_relpkt.c | witness | partial. False of the code. |
| C61 | Buffer vectors survive failing allocations | lib/utils.c | memory of blocks | partial. False of the code; proved without failing allocations or for at most eight tokens. |
| C62 | Printed argument vectors | lib/utils.c | printing composed with parsing | proved |
| C63 | Argument lists of gensio strings | lib/acc_gensio.c, lib/os_osops.c, lib/utils.c | memory of blocks | partial. False of the code for a missing parenthesis; everything else proved. |
| C64 | Times in strings | lib/gensio.c | parser against a spec of the format | partial. False of the code for several units below a second, negative and very large numbers; proved otherwise. |
| C65 | xlt options | lib/gensio_xlt.c | option parser | partial. False of the code for a second number above 255 and for booleans set to false; proved otherwise. |
| C66 | Texts of AX.25 addresses can be read back | lib/net_ax25_addr.c | printing composed with parsing | partial. False of the code for ports other than 0 and for the h bit with ssid 0; proved otherwise. |
| C67 | Reading AX.25 subaddresses | include/gensio/gensio_ax25_addr.h, lib/net_ax25_addr.c | parser | partial. False of the code in four ways; the documented forms without :c and :r proved for a cleared structure. |
| C68 | chardelay delays as configured | lib/gensio_chardelay.c | same | partial. The deadline is proved; the delay becomes negative when the lower layer blocks for longer than max_delay. |
| C69 | chardelay sendon strings | lib/gensio_chardelay.c | same | partial. False of the code for strings of several bytes and because memory behind the data is scanned; strings of one byte are proved not to be missed. |
| C70 | Convolutional encoder computes the convolution | lib/convcode.c | encoder against a polynomial spec | proved |
| C71 | Encoding a block equals encoding a stream | lib/convcode.c | block against stream encoder | partial. set_convcode_output_byte_span(false) with 3 polynomials loses bits |
| C72 | Convolutional decoder corrects errors | lib/convcode.c | minimum distance argument | proved. full width trellis, feedback of the current bit for recursive codes, no puncturing |
| C73 | Convolutional decoder stays within its trellis | lib/convcode.c, lib/convcode.h | bounds in the invariant; witness | partial. no access outside the trellis as long as the data fit; otherwise memory is overwritten |
| C74 | Output errors of the coder are reported | lib/convcode.c | witness | partial. errors for the last partial byte are ignored |
| C75 | Re-initialised coder equals a new one | lib/convcode.c | state equality; witness | partial. bits of an incomplete symbol survive reinit_convdecode |
| C76 | Punctured codes can be decoded | lib/convcode.c | witnesses | partial. encoder side proved; hard decision decoding and arrays dropping the first bit fail; soft decoding of other arrays not proved |
| C77 | Decoding a block and the last bits | lib/convcode.c | block against stream decoder | partial. output uncertainties proved for hard decision, wrong for soft decision |
| C78 | Narrow trellis error count | lib/convcode.c | witness | partial. refuted |
| C79 | Serial port lock of a single user | lib/seriallock.c | run of one process | proved |
| C80 | A serial port being locked is reported as in use | lib/seriallock.c | witness | partial. refuted: GE_NOTFOUND while the file is not written yet; GE_INUSE proved once the file is complete |
| C81 | open_done is always called | lib/gensio_base.c, man/gensio_open.3 | count in the invariant; witness | partial. refuted: a close during opening drops open_done; every missing open_done is shown to have a close or free |
| C82 | A closed gensio makes no data callbacks | lib/gensio_base.c | invariant and trace | partial. proved for environments as in `usual` (Basen_Spec.v) |
| C83 | Data callbacks do not overlap | lib/gensio_base.c | count of frames; witness | partial. READ proved; two WRITE_READY callbacks at once refuted |
| C84 | The base layer does not abort | lib/gensio_base.c | invariant excludes every assertion; witnesses | partial. refuted in four ways, proved when these are excluded |
| C85 | A gensio opened without its child can be closed | lib/gensio_base.c | witness | partial. refuted |
| C86 | Timers fire when asked | lib/os_unix_selector.c | view of each timer with phases, invariant over interleavings; witness | partial. never early or unasked proved; lost for timers stopped while a done handler is outstanding |
| C87 | Timer calls say whether the timer runs | lib/os_unix_selector.c | same | partial. stop proved; start and stop_with_done are wrong inside the timer's own handler |
| C88 | Done handlers of timers | lib/os_unix_selector.c | same | partial. never twice proved; lost if the timer is stopped meanwhile |
| C89 | Freeing timers | lib/os_unix_selector.c | same | partial. safety proved; leak if freed with a done handler outstanding |
| C90 | Waiting threads wake up for timers | lib/os_unix_selector.c | invariant relating waiters and the heap; witnesses | partial. refuted for timers started in their handler and for done handlers |
| C91 | Runners run exactly once | lib/os_unix_selector.c | pointer list refined to a queue, invariant over interleavings | proved. every waiting thread is assumed to be able to get a signal |
| C92 | Handlers of file descriptors | lib/os_unix_selector.c | view of each registration with phases, invariant over interleavings; witnesses | partial. proved if handlers are set only for a descriptor that has none and is in no handler; refuted without |
| C93 | Numbers of file descriptors | lib/os_unix_selector.c | invariant of the table; witness | partial. proved below FD_SETSIZE; with epoll larger ones read outside the table |
| C94 | Data of a mux channel | lib/gensio_mux.c | invariant of two ends and two byte streams with ghost queues | partial. proved for one open channel with buffers below 64k, service within the window, out of band data only if enabled; refuted without |
| C95 | A mux channel does not get stuck | lib/gensio_mux.c | same invariant at rest | partial. same conditions |
| C96 | Numbers of mux channels | lib/gensio_mux.c | invariant of the sorted channel list; witness | partial. proved while the first channel is there; refuted after it is freed |
| C97 | Callbacks of mux channels | lib/gensio_mux.c | frame relation proved for every operation | proved. user calls inside callbacks are taken to come after them |
| C98 | Closing a mux channel ends | lib/gensio_mux.c | witnesses | partial. refuted |
| C99 | Opening a mux channel ends with a result | lib/gensio_mux.c | witnesses | partial. refuted |
| C100 | Mux messages stay whole | lib/gensio_mux.c | witnesses | partial. refuted; for one open channel see C94 |
| C101 | Hostile mux messages stay in their buffers | lib/gensio_mux.c | invariant of the receiver, any bytes | partial. bounds proved; that the channel is still allocated is not |
| C102 | Synchronous reads | lib/gensio.c | invariant over interleavings; witnesses | partial. proved for one read at a time (bounds for any number); with two readers bytes are duplicated and lost; GE_INTERRUPTED may come with data |
| C103 | Synchronous writes | lib/gensio.c | invariant over interleavings, calls ordered by number | proved |
| C104 | Count of a failed synchronous write | lib/gensio.c | witness | partial. refuted |
| C105 | Synchronous calls do not hang | lib/gensio.c | invariant over interleavings | proved |
| C106 | Synchronous I/O after opening again | lib/gensio.c | error is never cleared, induction over what follows | partial. refuted for every execution |
| C107 | Synchronous accept returns each connection once | lib/gensio.c | invariant over interleavings: permutation of arrivals | proved |
| C108 | Error of synchronous accept | lib/gensio.c | invariant; witness | partial. proved for one accepting thread, refuted for two |
| C109 | Synchronous accept does not hang | lib/gensio.c | count of woken threads in the invariant; witnesses | partial. proved without signals; refuted with; accept after shutdown hangs |
| C110 | Authentication needs a credential | lib/gensio_certauth.c | invariant of the server over all events; witness | partial. refuted by a RESULT element from the client; proved without |
| C111 | require_password | lib/gensio_certauth.c | same | partial. refuted: wrong or empty password after a good certificate; proved that one was sent |
| C112 | Second factor | lib/gensio_certauth.c | same | partial. refuted; proved that the second factor or a password was accepted (no require_password, no use_child_auth) |
| C113 | A refusal is final | lib/gensio_certauth.c | same | partial. proved without require_password, refuted with |
| C114 | The signature is of this connection | lib/gensio_certauth.c | same | partial. refuted when the response comes with the first message; proved after the challenge was drawn |
| C115 | Both ends agree about the login | lib/gensio_certauth.c | same | proved |
| C116 | certauth reads messages correctly | lib/gensio_certauth.c | parser invariant; message and segmentation lemmas; witness | partial. proved, except that a piece that ends after an element is read past its end |
| C117 | certauth writes messages completely | lib/gensio_certauth.c | induction over writes; witness | partial. proved for one message, refuted if the next one comes before it is written |
| C118 | Large certificates | lib/gensio_certauth.c | witness | partial. refuted |
| C119 | Opening a certauth client again | lib/gensio_certauth.c | witnesses | partial. refuted |
| C120 | An echo gensio gives back what was written | lib/gensio_echo.c | invariant over interleavings, ring buffer refinement | proved |
| C121 | Open and close of an echo gensio are answered once | lib/gensio_echo.c | same; next step lemma | proved |
| C122 | The open callback of an echo gensio tells the truth | lib/gensio_echo.c | invariant; witness | partial. refuted for an open inside the close callback, proved otherwise |
| C123 | Sessions of an echo gensio are separate | lib/gensio_echo.c | witness | partial. refuted |
| C124 | Nobody waits for nothing on an echo gensio | lib/gensio_echo.c | condition proved at the end of the operation; witnesses | partial. proved for data if callbacks return no errors; refuted for the end of the text and with errors |
| C125 | Freeing an echo gensio | lib/gensio_echo.c | invariant | proved |
| C126 | Values of parameters | lib/gensio.c | grammar of numbers shown equal to the scanner; witnesses | partial. proved except for numbers out of range; those are taken |
| C127 | Lists of arguments | lib/gensio.c, lib/gensio_echo.c | induction over the arguments | proved. up to numbers out of range, see C126 |
| C128 | Errors in parameters | lib/gensio.c | cases | proved |
| C129 | Addresses given as parameters | lib/gensio.c | cases; witness | partial. refuted if a required port is missing, proved otherwise |
| C130 | Defaults | lib/gensio.c | refinement: the tables against the list of calls | proved. for numbers out of the range of an int see C132 |
| C131 | Memory of defaults | lib/gensio.c | invariant of allocations; witnesses | partial. no double free or use after free; leaks are refuted |
| C132 | Limits of defaults | lib/gensio.c | from C130; witnesses | partial. limits proved for values set from text; refuted otherwise |
| C133 | Data defaults | lib/gensio.c | from the invariant of C130 | partial. refuted for every execution |
| C134 | Local address of a TCP gensio | lib/gensio.c, lib/gensio_net.c | induction over arguments; witnesses | partial. proved for one laddr followed only by TCP parameters; refuted for others and for a default |
| C135 | AX.25 connections survive any frame | lib/gensio_ax25.c | invariant over all event lists; witnesses | partial. proved for all frames but foreign XIDs, for read events without errors, writes that fit, a window of two or more; each exception is refuted |
| C137 | Acknowledged AX.25 data reaches the user | lib/gensio_ax25.c | witness and an invariant of ended channels | partial. refuted |
| C139 | AX.25 extended=2 negotiates parameters | lib/gensio_ax25.c | computation for every configuration | partial. refuted for every configuration |
| C141 | An AX.25 peer is told of the end | lib/gensio_ax25.c | witness and an invariant of ended channels | partial. refuted |
| C142 | Closing an AX.25 channel after writing | lib/gensio_ax25.c | witness | partial. refuted |
| C136 | AX.25 delivers in order and once | lib/gensio_ax25.c | invariant of two channels and the frames under way, in two phases (before and after the called side has a channel), unbounded numbers behind the modular ones | proved. the configurations and calls left out are those refuted in C135 |
| C143 | A keepopen gensio does not abort or lock up | lib/gensio_keepopen.c, man/gensio_close.3 | invariant over event lists; witnesses | partial. proved except for the moments of the predicate calm; at those it is refuted |
| C144 | Open and close of a keepopen gensio are answered once | lib/gensio_keepopen.c | refinement to an automaton of what the user sees; witnesses | partial. proved except for the moments of the predicate calm; at those it is refuted |
| C145 | A keepopen gensio does not give up | lib/gensio_keepopen.c | from the invariant; a way back to open from every state | proved. with the assumption in the statement; an error during the log call of a restored child is left out |
| C146 | Enables survive a reopened child | lib/gensio_keepopen.c | invariant over event lists | proved |
| C147 | Writes to a keepopen gensio | lib/gensio_keepopen.c | invariant over event lists | proved |
| C148 | Freeing a keepopen gensio | lib/gensio_keepopen.c | counting of references; witness with any number of opens | partial. refuted for a free in the open callback after a failed first open |
| C149 | What is read from a file gensio | lib/gensio_file.c | invariant over event lists; witnesses | partial. proved with one thread, over all opens together, if callbacks do not return GE_REMCLOSE; refuted with two threads, and for what is left at a close |
| C150 | The end of the input file and errors | lib/gensio_file.c | invariant over traces; a loop of any length as witness | partial. errors are true ones; refuted: nothing is ever read again after the end, and the end is told without limit after reading is enabled again |
| C151 | What is written to a file gensio | lib/gensio_file.c | invariant over event lists; witnesses | partial. proved with an output file; without one only for writes in one piece, refuted for others; writing nothing is an error |
| C152 | A file gensio closes its files | lib/gensio_file.c | invariant of descriptors; witness with any number of opens | partial. proved if no open fails at the output file and nothing is disabled; refuted for failing opens and for a free while open |
| C153 | Open and close of a file gensio | lib/gensio_file.c | invariant over event lists, any number of running operations; witness | partial. proved but for events after the free, which is refuted |
| C154 | Memory of a file gensio | lib/gensio_file.c | counting of references over any number of running operations; witness | partial. the one undefined thing is a memcpy of overlapping areas, when less than half of the data is taken |
| C155 | A file gensio does not stop | lib/gensio_file.c | from the invariant of C153; witness | partial. proved for reading; refuted for errors of the write ready callback |
| C156 | Each enable of accept callbacks on a dummy accepter is answered exactly once | lib/gensio_dummy.c | invariant over event lists; a measure for what is left to do | proved |
| C157 | A shutdown of a dummy accepter that was accepted is answered once | lib/gensio_dummy.c | invariant over event lists; a measure; witnesses, one with every further run | partial. once is proved; that the answer comes is proved if no startup is refused and refuted otherwise; refuted after free |
| C158 | A dummy accepter is given back once, and only when nothing uses it | lib/gensio_dummy.c | counting of references over any number of running operations | proved |
| C159 | The script filter releases its lock exactly once per call | lib/gensio_script.c | case analysis of every call with an invariant; each error shown to be undefined from every reachable state; witness | partial. proved without errors; every error releases the lock twice, and one branch keeps it |
| C160 | All output of the script goes to the remote end, in order and once | lib/gensio_script.c | invariant over event lists; witness with every further run | partial. order is proved; completeness if the end of the script is seen by reading, refuted if it is seen by writing |
| C161 | What the remote end sends while the script runs is not lost | lib/gensio_script.c | invariant over event lists; witness with every further run | partial. order is proved; what the script did not take is lost |
| C162 | The open of a script gensio is good only if the script ended well | lib/gensio_script.c | invariant over event lists | proved. for every run without undefined behaviour; see C159 for errors |
| C163 | Data to and from a running script never stalls in the filter | lib/gensio_script.c | from the invariant | proved |
| C164 | A trace gensio passes data unchanged and counts it right | lib/gensio_trace.c | case analysis of the settings; the wrong count is proved for all data | partial. proved but for writes that are blocked and traced before, which are counted twice |
| C165 | A raw trace holds exactly the traced bytes | lib/gensio_trace.c | induction over calls and pieces | proved |
| C166 | A text trace notes every error once and shows as many bytes as it counts | lib/gensio_trace.c | induction over calls and pieces | proved. the text itself (times, hex dump) is not modelled |
| C167 | The perf gensio writes what was asked for and its total is right | lib/gensio_perf.c | invariant over event lists, for any text | proved. times and rates are not modelled |
| C168 | Perf reports reach the user whole, in order and add up | lib/gensio_perf.c | invariant over event lists, for any text | proved. the text itself is a parameter |
| C169 | The perf total is reported on an I/O error | lib/gensio_perf.c | from the invariant; witness with every further reading and timeout | partial. false when a timed report is still unread; proved otherwise |

## What is modelled

| model | code | left out |
|-------|------|----------|
| Buffer_Model | lib/buffer.c, gensio_buffer.h | allocation failure |
| Circbuf_Model | lib/circbuf.c | allocation failure |
| Telnet_Model | lib/telnet.c; data path, window size and setup of lib/sergensio_telnet.c | RFC 2217 command bodies, modem state |
| Crc_Model | crc16 of gensio_msgdelim.c, lib/crc.h | – |
| Msgdelim_Model | lib/gensio_msgdelim.c filter | options parsing, locks |
| Kiss_Model | lib/gensio_kiss.c filter | setup strings, digits of ranges, locks |
| Hdlc_Model | lib/gensio_hdlc.c filter | uncertainty data (never reaches it, see findings), checkax25, debug output |
| Relpkt_Model | lib/gensio_relpkt.c, two endpoints and a network that loses, repeats and reorders | options parsing; timers may fire at any time |
| Cstr_Model, Mem_Model, Argv_Model | lib/utils.c: strings, tokens, quoting, argument and buffer vectors, scan_args, integers in network order | – |
| Time_Model | time functions of lib/gensio.c | – |
| Xlt_Model, Ratelimit_Model, Chardelay_Model | the filters of these names | option parsing except xlt |
| Ax25a_Model | lib/net_ax25_addr.c | – |
| Heap_Model, List_Model | lib/heap.h; lists of lib/utils.c, with memory and pointers | – |
| Cntstr_Model | counted strings of lib/utils.c, gensio_refcount.h, gensio_atomics.h, threads interleaved at each atomic access | weak memory order |
| Convcode_Model | lib/convcode.c | SIMD variant, tables given by the caller |
| Seriallock_Model | lib/seriallock.c with file system and processes, interleaved at each system call | umask, close |
| Basen_Model | lib/gensio_base.c: open, close, errors, timers, deferred operation, reference count; threads interleaved at each unlock | data and counts, which lower callbacks are enabled, GENSIO_FUNC_DISABLE, controls, servers |
| Seltimer_Model, Selrunner_Model, Selfd_Model, Selmax_Model | lib/os_unix_selector.c: timers, runners, handlers of descriptors, table of descriptors; threads interleaved at each unlock | system calls (any enabled handler may be called at any time), forking, signals of threads that have none, allocation failures |
| Muxchan_Model, Muxpair_Model | lib/gensio_mux.c: data of one open channel, two ends | opening and closing |
| Mux_Model | lib/gensio_mux.c: one end with all channels: open, close, free, every message, deferred operations, errors of the child | user calls inside callbacks, in_newchannel, failing allocations, controls, GENSIO_FUNC_DISABLE |
| Syncio_Model | lib/gensio.c: gensio_read_s, gensio_write_s and their event handler; threads interleaved at each unlock | failing allocation, gensio_set_sync and gensio_clear_sync while calls wait |
| Accept_Model | lib/gensio.c: gensio_acc_accept_s, gensio_acc_cb, startup and shutdown; threads interleaved at each unlock | failing allocation, gensio_acc_disable |
| Certauth_Model | lib/gensio_certauth.c: the filter of client and server (state machine, parser, buffers); OpenSSL and the application as oracles | failing allocations, controls, user calls inside events |
| Echo_Model | lib/gensio_echo.c; threads interleaved at each unlock | failing allocations, controls, calls other than free after gensio_disable |
| Pparm_Model | lib/gensio.c:1881-2339: gensio_pparm_* and the argument loop of the allocators | times and data rates (gensio_pparm_time), backlog and sockets; strtod is an oracle |
| Defaults_Model | lib/gensio.c:2440-3207: defaults; the address handling of net_gensio_alloc in lib/gensio_net.c:426-551 | failing allocations, memory of names and structures, gensio_get_default_uint and _time |
| Ax25c_Model | lib/gensio_ax25.c: connected mode of one channel (sequence numbers, rings, acknowledgement, retransmission, open, close, frames to and from bytes), and two channels over a lossy link in order | addresses (Ax25a_Model), checksum, UI and raw frames, durations of timers, reference counts, several channels, write-ready events |
| Keepopen_Model | lib/gensio_keepopen.c; threads interleaved at each unlock, the child as an oracle | gensio_disable, failing allocations, NULL callbacks, the log after keepn_handle_io_err; a child whose close fails is taken to be closed; storing an enable and passing it on is one step |
| File_Model | lib/gensio_file.c without USE_FILE_STDIO; read, writev and open as oracles; any number of threads, interleaved at each unlock | filen_control, the parsing of parameters (see Pparm_Model), the modes and flags of open, failing allocations, what is in the output file before; enabling is not noted in traces |
| Dummy_Model | lib/gensio_dummy.c; any number of threads, interleaved at each unlock | failing allocations, str_to_dummy_gensio_accepter; the layer of lib/gensio.c above it |
| Script_Model | the filter of lib/gensio_script.c, one life from script_setup on; the lock, its double release and its being kept are outcomes; the script's gensio, its exit code and the lower gensio are oracles | more than one call at a time (but for a flush that comes late), a second open, allocation and parsing, the base above the filter |
| Trace_Model | the filter of lib/gensio_trace.c: what is handed on, counted and written to the file | the text of lines and the hex dump, times, failing fopen and writes, allocation and parsing, calls with a NULL count |
| Perf_Model | the filter of lib/gensio_perf.c: what is written, counted, reported and when it ends; the text of reports is a parameter | times and rates, starting the timer, the pending and needed tests, calls that come while a handler runs unlocked, allocation and parsing |

Not modelled: the rest of /repo.

## Findings

Defects of the code that the proofs brought up.  Those with a property number have a
`…_refuted` theorem; the others were noticed while reading and are not proved.

* **buffer.c** – the count returned by gensio_buffer_output is short when the block wraps (C02).
* **telnet** – partial commands are stored when the 256-byte command buffer is full (C39); a window
  size byte 255 is not doubled (C38); sub-options longer than 28 bytes are damaged (C06).  Not
  proved: an error flag that is never read; only the first non-empty buffer of a write is taken; a
  write buffer of one byte cannot send 255.
* **msgdelim** – receive buffer two bytes too small (C10); no recovery after a bad message (C11);
  refused write leaves the buffer wrong (C41); single bit errors on the wire accepted (C42); no leading
  separator after reopening (C43); overrun after lower layer errors (C44).
* **kiss** – C13, C45 to C49.  Not proved: 8-bit length of the start data wraps; the d710 setup string
  has no length set; in_bad_packet survives close.
* **hdlc** – at most eight packets per connection (C15), write buffer too small with default options
  (C50), empty write (C51), one and two byte packets lost without CRC (C52), error survives reopening
  (C53).  Auxiliary data never reaches the receiver (NULL is passed); the same in other filters.
* **relpkt** – C17, C18, C56 to C60.  Not proved: mode default swapped; lengths wrap for packets above
  65532; the receiver accepts one sequence number too many.
* **utils.c** – hexadecimal escapes with letters (C20); NULL write and leak on failing allocations (C61);
  leak in callers of gensio_scan_args (C63); shift of 255 by 24 as int (C22); counted strings of 2^32-1
  bytes overflow (C31).
* **time** – C24, C64.  **xlt** – C25, C65.  **AX.25 addresses** – C66, C67.
* **chardelay** – C28, C68, C69.  **ratelimit** – with xmit_len 0 nothing is ever sent (not proved).
* **convcode.c** – C35, C36, C71, C73 to C78.
* **seriallock.c** – clearing a stale lock races; ending processes race; two names of one device race;
  a failing flock removes the lock files of others, even without UUCP locking; a lock file cut after
  four bytes is read as a binary number (all C34); GE_NOTFOUND instead of GE_INUSE while the file is
  still empty (C80).  Not proved: "/dev/a/b" and "/dev/a_b" share a lock file.
* **gensio_base.c** – READ after close (C32); open_done lost when closed while opening, against the
  manual (C81); two WRITE_READY callbacks at once (C83); second close of the lower layer when writing
  the filter's last data fails, with an assertion failing or the object freed while the lower layer
  still closes (C33, C84) – gensio_ssl.c can report such errors; late timeout error, immediate lower
  open with a failing filter and a drain timer whose stop was not yet reported fail assertions (C84);
  close refused after gensio_open_nochild (C85).  Not proved: timers are stopped after close_done is
  called, so a reopen from it loses its new timer; open_done and close_done may come after
  gensio_free.
* **os_unix_selector.c, timers** – started twice inside its handler (C87); sel_stop_timer_with_done in the
  handler of a timer started again there says ETIMEDOUT, yet it fires (C87); stop or free while a done
  handler is outstanding loses the done handler, leaves the timer stuck or leaks it (C86, C88, C89);
  starting in the handler does not wake other threads, sel_stop_timer_with_done wakes nobody (C90).
  Not proved: add_timeval and sel_get_monotonic_time can leave 1000000 microseconds.
* **os_unix_selector.c, descriptors** – setting handlers while an old handler runs forgets the new
  registration when it returns; replaced handlers keep what was enabled; use after free when handlers are
  replaced while the last old one returns (all C92); descriptors from FD_SETSIZE on with epoll read
  outside the table (C93).  Not proved: a descriptor with only writing enabled is not armed again after
  EPOLLHUP or EPOLLERR.
* **gensio_mux.c** – out of band data to an end that did not enable it gives an empty read with end of
  message; writes of 65536 bytes fail an assertion; a service string counts as unacknowledged data of
  the first channel and wraps the window or leaves none (C94, C100); equal channel numbers after the first
  channel is freed (C96); close_done never called when data crosses the close (C98); a refused channel
  stays counted, or takes the mux down, as does the channel limit (C99); a partial write of the mux's own
  message is never completed (C99); close or open answers that come while a message is partly written
  corrupt the stream or read outside the buffer (C100).  Not proved: the header size check compares words
  with bytes; muxc_alloc_channel keeps the lock on bad arguments; opencount underflows if the child
  of a server fails to open; a failing close still marks the channel as closed.
* **gensio.c, synchronous I/O** – two threads in gensio_read_s get the same bytes while others are lost, or an empty
  success (the loop neither advances the buffer nor stops at its end); GE_INTERRUPTED may be returned with data
  taken (C102); a failing gensio_write_s does not set count (C104); after a close the error stays for ever, also
  when opened again (C106).  Not proved: calling gensio_set_sync twice leaves an event handler that calls itself.
* **gensio.c, synchronous accept** – GE_LOCALCLOSED from an accepter that is up, when another thread
  took the connection (C108); a signal to a woken accept leaves the connection while others wait; an accept
  after shutdown waits for ever (C109).  Not proved: a signal to an accept that was not woken is reported as
  GE_TIMEDOUT.
* **gensio_certauth.c** – a client that puts a RESULT element into its first message is authenticated without
  any credential (C110); require_password is satisfied by a wrong or empty password (C111); a refused second
  factor after an accepted password, or the second factor alone after a refused password, authenticates, and an
  empty password skips it with require_password (C112); a password overrides GE_AUTHREJECT with require_password
  (C113); a certificate and a response to the all zero challenge in the first message can be replayed (C114); a
  read past the end of the data if a piece ends with an element (C116); a message composed while the last one is
  partly written starts at a position past its end (C117); a certificate of 2044 bytes overruns the write buffer
  (C118); opening a client again fails an assertion, and after a failed open received bytes overrun the read
  buffer (C119).  Not proved: an error of an element is forgotten if a certificate or response follows it in the
  same piece; limited_strlen does not advance its pointer.
* **gensio_echo.c** – an open made inside the close callback of an open that was closed early is told
  GE_LOCALCLOSED although it succeeds (C122); the next session reads what the last one left (C123); with noecho
  and data= the end is not reported to a reader enabled in the write ready callback, and an error from the write
  ready callback leaves an enabled reader without data (C124).
- Parameters: sizes take "-1" (2^64-1) and saturate; unsigned ones take "-18446744073709551615" as 1; an int out of
  range is reported but taken modulo 2^32; permissions are cut to 32 bits; anything may follow the factor letter
  of a floating point number (C126).  An address without the required port is freed and then given to the caller
  as a success (C129).
- Defaults: gensio_reset_defaults loses data values of classes and gensio_del_default the first value (C131); an int
  given as a number is not checked against the limits, 4294967297 given as text is 1, the bool "2" is 2 (C132);
  getting a data default writes one byte past its copy (C133).
- TCP: with a default laddr no TCP gensio can be allocated, as gensio_get_defaultaddr returns 1 for success and
  that is GE_NOMEM; laddr= twice is a double free; another parameter after laddr= frees the address that is then
  used (C134).
- AX.25: the XID item with the size of the information field sets the number of packets under way (lib/gensio_ax25.c:3160-3170);
  a peer can so make an assertion fail, or stop all writing (C135).
- AX.25: a write of several buffers, one but the last of them beyond the packet, overruns the heap (4544-4553) (C135).
- AX.25: writewindow=1 becomes 2 by the fall back to the plain mode, which overruns the ring (2931) (C135).
- AX.25: a read event that returns an error after the close is complete fails an assertion of the list (C135).
- AX.25: with ignore_embedded_ua=false a UA during a read event makes the count of waiting packets 255: old packets again (C135).
- AX.25: data that was acknowledged is not given to the user once the peer has disconnected (C137).
- AX.25: extended=2 is never used: the bool argument of ax25_chan_set_extended cannot be two (C139).
- AX.25: a DM or UA queued on a channel that ends is not sent (C141).
- AX.25: a second UA while draining makes the close send the disconnect before the data (C142).
- keepopen: closing while the child is being opened aborts (assert in keepn_open_done) if the child reports the aborted open, as most do; closing while the log handler is told of a failed open aborts too (C143).
- keepopen: gensio_free of an open or opening keepopen calls keepn_close with its lock held, and gensio_free of a closing one aborts in keepn_close_done (C143).
- keepopen: a close (or free) in the open callback after a failed first open is overwritten; the child is opened again and the close never answered (C144, C148).
- keepopen: gensio_close returns the error of the child's close although the close goes on and is answered (C144).
- file: with more than one thread in the os handler the same data is given to two read callbacks at once; enabling reading in the open callback is enough (C149).
- file: what the reader left, and the end or error, survive a close: the next open delivers old data, or never reads its file (C149, C150).
- file: enabling reading again after the end calls the read callback with GE_REMCLOSE in an endless loop unless it disables reading (C150).
- file: without outfile= the length of the first piece is counted once for every piece, `sg->buflen` (C151); a write of no bytes fails with GE_REMCLOSE (C151).
- file: an open that fails at the output file loses the descriptor of the input file, and a free while open closes neither file although gensio_free(3) says it does (C152).
- file: gensio_free with the deferred operation queued leaves the state as it is, so read events come after the free (C153).
- file: memcpy moves data inside one buffer; the areas overlap if the reader takes less than half (C154).
- file: an error of the write ready callback disables reading instead of write ready events, and the latter never come again (C155).
- dummy: a startup during a shutdown returns GE_INUSE but sets the state to enabled all the same, so the shutdown is undone and shutdown_done is never called (C157).
- dummy: gensio_acc_free during a shutdown leaves the queued operation, which calls shutdown_done after the free; the manual says it is not called (C157).
- script: script_handle_err_unlock releases the lock before script_finish_close and again at its end, so every error of the script or of the lower gensio unlocks a lock that is not held; the variant without threads has an assert there (C159).
- script: script_ul_write returns GE_NOTREADY with the lock held in the states closed and failed; the base calls it only after script_ll_write_pending, so another thread has to end the script in between (C159).
- script: if the script is seen to have ended by a write to it, its last output is dropped although the open is good (C160).
- script: data from the remote end that was taken for the script but not yet written when it ends goes neither to the script nor to the user (C161).
- trace: with block and b4dir both including write, the length is added to the count twice, and a write of n bytes is reported as 2n (C164).
- perf: perf_filter_io_err makes no TOTAL while a timed report is unread, and as the base makes no further write after the error, the TOTAL is lost (C169).
