ST["C01"]=("partial","False of the code for every read spanning five bytes whose lost bits are not all zero (C01_read_bits_refuted; e.g. five 0xFF bytes, ReadBits(4) then ReadBits(32)). Proved for every read with n + (Available() after) mod 8 <= 32, in particular every n <= 25; exact value of the lossy reads in C01_read_bits_exact.")
ST["C02"]=("partial","Proved for every non-empty buffer and every history, including equality with the abstract bit-list machine. On the empty buffer a zero-width ReadBits panics (C02_zero_width_refuted); positive widths fail cleanly (C02_empty).")
ST["C03"]=("partial","False for large codeNum at unlucky alignments (C03_ue_refuted). Proved for every v < 2^26-1 at every position and for larger v whenever the suffix fits the 32-bit accumulator; exact value otherwise in C03_ue_exact.")
ST["C04"]=("partial","As C03 (C04_se_refuted). Proved for |v| < 2^25 at every position; exact value otherwise in C04_se_exact.")
ST["C05"]=("partial","Proved on every non-empty buffer; on the empty buffer zero-width skip succeeds where read panics (C05_empty_refuted).")
ST["C06"]=("proved","Deltas in the range the standard allows. Outside it the truncated remainder can give negative entries (C06_out_of_range_refuted).")
ST["C07"]=("partial","Code checks only the current byte: exact characterisation C07_trailing_exact, full claim when at most eight bits are unread, counterexample C07_trailing_refuted.")
ST["C08"]=("proved","")
ST["C09"]=("partial","False: the encoder panics on some payloads (C11) and loses a byte on others (C09_roundtrip_refuted). Exact: when it returns, the round trip holds iff no byte 03 follows a maximal run of 4, 7, 10, ... zeros. Without four zeros in a row the output is the standard encapsulation.")
ST["C10"]=("partial","False (C10_no_start_code_refuted: 00 00 00 00 01 encodes to a string containing 00 00 01). Exact condition proved: the payload has no four zeros followed by a byte <= 2.")
ST["C11"]=("partial","False (C11_total_refuted). Exact: panics iff the number of trailing zero bytes is 2 mod 3.")
ST["C12"]=("proved","")
ST["C13"]=("proved","")
ST["C14"]=("proved","")
ST["C15"] = ("proved", "For every legal encapsulated NAL unit of a single-unit type and every sink state; also for any payload without a start code.")
ST["C16"] = ("partial", "False as stated: emulation bytes are removed from the whole packet before the size fields are read, so a STAP-A with an emulation byte in a unit is misparsed, and sizes 65534/65535 panic. Proved for every list of units needing no emulation bytes, sizes 1..65533; C16_stap_a_exact says what any packet yields, by its decoded form, whole or cut.")
ST["C17"] = ("partial", "False as stated: DON and size fields are themselves taken for start codes or emulation sequences (e.g. DON 256 with a first unit of 3 bytes). Proved whenever the packet shows no such pattern, in particular when DON is not a multiple of 256 and no unit needs emulation bytes; C17_stap_b_exact says what any packet yields, by its decoded form, whole or cut.")
ST["C18"] = ("partial", "False as stated: DON of unit i is DONB+i+DOND, and 24-bit offsets are computed from the packet timestamp. Exact results proved for MTAP16 and MTAP24, for any packet by its decoded form (C18_mtap_exact); both violations refuted with witnesses.")
ST["C19"] = ("partial", "Proved in full for FU-A from any sink state. FU-B: proved unless the DON bytes and the payload form a start code or emulation sequence (refuted in that case); without a start code exact (C19_fu_b_exact).")
ST["C20"] = ("partial", "Exact: the unit comes out decoded if and only if no emulation sequence is cut (C20_fragmentation_exact).")
ST["C21"] = ("partial", "False: only the last NAL unit of a payload is exposed. Exact result proved for any number of NAL units.")
ST["C22"] = ("partial", "False: size 0, 65534, 65535 (STAP) and 0 or >= 65536-off (MTAP) panic. What every payload leads to (success, error, panic) is characterised exactly.")
ST["C23"] = ("proved", "All 16-bit pairs.")
ST["C24"] = ("partial", "False for cuts leaving less than a size field (STAP) or less than a unit header (MTAP), which are silently accepted; proved for all other cuts and for all packets ending inside the fixed header; exact for every cut (C24_stap_cut_exact, C24_mtap_cut_exact).")
ST["C25"] = ("proved", "Every byte string below 2^60 bytes, every store; the only error is io.ErrUnexpectedEOF.")
ST["C26"] = ("partial", "Proved for every legal progressive SPS with pic_order_cnt_type 0 or 1 (POC offsets below 2^25 in size, profiles other than 134, 135, 139, 183), any scaling matrices, any bits following. The FrameMbsOnly stored is never frame_mbs_only_flag (C26_flag_refuted, its exact value for every legal set). Sets with macroblock-adaptive coding, no cropping and no VUI are all refused; those of profiles 134, 135 and 139 are all misread; no progressive set with pic_order_cnt_type 2 is ever stored with its values (C26_poc2_all_refuted, universally quantified). The reserved bits of the constraint byte are ignored except with profiles 77, 88 and 100 (exact).")
ST["C27"] = ("partial", "Width proved. Height of progressive streams characterised exactly: 4:2:0 loses 2(top+bottom) rows more than the standard crop, other chroma formats give twice the height. 1080p is stored as 1072 (refuted). Correct for 4:2:0 without vertical crop. Every set with macroblock-adaptive coding that is stored has height 0 (C27_mbaff_refuted).")
ST["C28"] = ("partial", "False: a PPS declaring more than eight slice groups panics (refuted). The crashing inputs are characterised exactly; on all others it returns and is atomic.")
ST["C29"] = ("partial", "Proved for every legal PPS with the optional tail (slice group types 3 and 4 excepted: their direction and rate are always lost, C29_change_lost_refuted). Every legal PPS without the tail is rejected with EOF (C29_pps_trailing_refuted, universally quantified).")
ST["C30"] = ("proved", "")
ST["C31"]=("proved","Also the converse: every accepted byte string is such a layout.")
ST["C32"]=("partial","False as stated: panics on exactly the empty string and the version-2 strings that are not whole packets (exact characterisation proved, witness refuted).")
ST["C33"]=("partial","False as stated: SSRC, CSRC and extension come back as zero, and Pack panics when the header size wraps 16 bits; what survives is proved exactly.")
ST["C34"]=("partial","False as stated for every padded packet: the payload returned always includes the padding (proved).")
ST["C35"]=("proved","")
ST["C36"]=("partial","False as stated: panics on exactly the strings shorter than 4 bytes; the error part is proved as stated.")
ST["C37"]=("partial","False as stated: the report list is always empty (proved for every sender report).")
ST["C38"]=("proved","")
ST["C39"]=("partial","True for 1 <= n < 2*nseg (proved); for every n >= 2*nseg String panics (proved for all histories).")
ST["C40"]=("partial","False as stated: String panics exactly from the 2*nseg-th addition on; AddSegment panics with nseg = 0.")
ST["C49"]=("proved","Necessity of non-negativity is proved too, and what a single number and a bad second one give.")
ST["C50"]=("partial","Exact result of parsing proved for all transports; the interleaved flag is never set by Parse (refuted for every interleaved transport), and an interleaved multicast text comes back as unicast. Reading a transport's own header back is the identity (proved); into a fresh one it is, if the transport is not interleaved and has nothing set that its text leaves out (C50_fresh_partial).")
ST["C51"]=("proved","As integers; they are representable channel bytes for the first 128 feeds and ports for the first 7768 (proved).")
ST["C41"]=("proved","")
ST["C42"]=("partial","Parse crashes exactly on documents with a line that trims to m=video (proved both ways, refuted witness).")
ST["C43"]=("partial","Control and rtpmap proved for all values; fmtp proved for two or more parameters, with everything else the line changes (C43_fmtp_exact). Refuted: a single-parameter fmtp line is ignored; a number between slashes (in a control URI or in base64 text) overwrites the clock rate.")
ST["C44"]=("proved","")
ST["C45"]=("partial","Proved for every history under plain MD5 (fewer than 2^32 renewals) and for the first request under any algorithm with qop; refuted for the second request of an MD5-sess session (the session key is rehashed on every call). C45_exact says what every header is for every algorithm and history: under MD5-sess the k-th request carries the key hashed k times; without qop the key is not hashed with the nonces at all.")
ST["C46"]=("partial","Refuted for every qop challenge: requests repeat the count 00000001. Only Next, which nothing calls after Authenticate, increases it (proved).")
ST["C47"]=("proved","")
ST["C48"]=("proved","")
ST["C52"]=("proved","")
ST["C53"]=("proved","For components without CR or LF (no escaping exists in RTSP); the once-only part also needs given headers that avoid the library's own names.")
ST["C54"]=("proved","Bodies up to 2048 bytes (see C56 for the limit).")
ST["C68"]=("partial","Request text and acceptance of every well-formed response proved; a status such as +20 is accepted too (refuted); exactly: three digits, a plus sign and two digits, or -00 (C68_exact).")
ST["C55"]=("proved","For frames up to 2048 bytes (see C56), under any interleaving of application commands and loop turns.")
ST["C56"]=("partial","False for lengths above the 2048-byte read buffer: such a frame ends the loop undelivered (proved for every such frame). Frames of 0..2048 bytes are delivered (proved).")
ST["C57"]=("partial","Proved for silences between frames and responses; false inside them: every cut inside a frame loses its header and the next read starts in the middle (proved for all cuts), and likewise for a response line.")
ST["C58"]=("proved","Up to 2^63 requests, for every history of commands and loop turns taken one at a time (see C59 for concurrent ones).")
ST["C60"]=("proved","Also the converse: every 200 response to such a request announces the stage. Ready is treated in C61.")
ST["C61"]=("partial","Proved for every k >= 1, every order and every mix of statuses other than 401, for the first description of a session, when each response is taken without error. False otherwise: no feeds means no Ready, and after a second DESCRIBE Ready comes at the first answer (refuted); exact for every later description in C61_exact; after a 401 see C62.")
ST["C62"]=("partial","Proved when the refused request is the latest one sent. Otherwise always false: the number changes and another outstanding request is forgotten (proved for all such states).")
ST["C63"]=("proved","")
ST["C64"]=("proved","Until a response brings another identifier. OPTIONS and SETUP requests do not carry it, by design of the library; keep-alive OPTIONS do (C65).")
ST["C65"]=("proved","Also exact: what KeepAlive does when one is due, and when not.")
ST["C67"]=("partial","False for every unicast response without a port parameter (the usual form): both listeners are opened on port 0 (proved). Multicast is right (proved).")
ST["C69"]=("partial","False: the POST connection is never opened; every command crashes and nothing is sent in any history (both proved).")
ST["C72"]=("partial","False: every command but Setup panics (proved); Setup does nothing and returns nil.")
ST["C73"]=("partial","False with credentials: n refusals lead to n retransmissions, for every n (proved). Without credentials or with an unusable challenge an error is reported (proved).")
ST["C74"]=("partial","False: the channels are 2n, 2n+1 for the n-th answered SETUP counted from one, whichever feed it is (proved exactly), whatever the order of the answers, so channel 0 is never used and the mapping follows the order of the answers (refuted for every session with two streams).")
ST["C75"]=("partial","False in every case: without a body, and with a body that has no video stream, nothing is reported and the session stalls, whatever the status; a bare video line crashes the program (all proved). Exact: the only errors that can come of an answer to DESCRIBE are those of writing the SETUP requests for the streams of a usable description.")
ST["C76"]=("partial","False for SETUP: the uri is always the session's base URI, in every request of every history, so it is the request's own exactly when the request goes there (C76_exact).")
ST["C59"]=("partial","False: two goroutines can load the same number, or both increment before either uses it; then one request is no longer found under its number (two refuted witnesses, and for any two commands in any session). Proved for any number of goroutines under schedules where numbering does not overlap.")
ST["C66"]=("partial","False in every execution: each goroutine waits for the stop signal before it reads, so nothing is delivered until Stop is called, then one packet per listener; Stop closes nothing, and hangs before Start. Proved for all interleavings; conservation of packets is proved too.")
ST["C70"]=("partial","False: empty and incomplete packets crash the client, four bytes from the server suffice; exact conditions proved for all control packets and all whole media packets, whatever the start codes in them.")
ST["C71"]=("partial","Order, acknowledgement and progress of the commands proved for every execution of client and session together; false for the exit: every packet of another version, on any channel and at any stage, ends the client with nothing sent (C71_version_refuted).")
ST["C77"]=("partial","False: the turn that ends the loop announces nothing (proved for all), and the client then waits for ever (proved). An error of writing any of its own commands ends the client (proved).")
ST["C78"]=("partial","False: a description with a bare m=video line, or with a picture parameter set of more than eight slice groups, crashes the session (both witnessed; the first for every such description). Proved: there is no other cause, over all histories. HTTP mode crashes on every command (C69).")
ST["C79"]=("proved","Writes and listeners succeed; the clock is arbitrary. Servers that ask for credentials are C91, other descriptions C75 and C80.")
ST["C80"]=("partial","Proved for the parameter sets of C26 and C29. False for every plain picture parameter set with its trailing bits: reading it fails and the session's loop ends at the answer to SETUP, before Ready (proved for all of them).")
ST["C81"]=("partial","Proved for one feed, for all executions, with fragments not cut inside an emulation prevention sequence (else false, C20) and aggregated units without one (else false, C16). Of several feeds all units are shown if no packet of one comes between the fragments of another. Otherwise false: their fragments mix in the client's only sink (proved for all such pairs).")
ST["C82"]=("partial","False: of the RTP header only the timestamp is used, so whatever comes between a first and a last fragment is shown as a unit; a unit without a middle fragment is shown shorter, one without its first fragment with the content of the unit before it (each proved for all). Proved for a lost last fragment.")
ST["C83"]=("partial","Proved for runs without a challenge and for runs whose challenges are not Basic. False when a challenge is Basic: the password is sent, in a form that decodes to it, at any time and after Digest too (proved for all states).")
ST["C84"]=("partial","Proved for URLs with a host and without a port or with a non-empty one. False for an empty port (port 0 is connected to) and for URLs without a host, such as host/path or host:port/path (this machine is connected to): each for all such URLs. The model of net/url and net.SplitHostPort follows Go 1.19 to 1.24.")
ST["C85"]=("partial","Control characters: proved for all strings. Credentials: proved for all URLs with // before the authority, false for every one without it. Blanks: there is one just if the query has one.")
ST["C86"]=("partial","Proved for every base URI with a host and no fragment, for those that name no host (file:///p, file:/p) or no scheme (//host/p), for every absolute path, for every relative path (C86_relpath_partial), and without a base (a name with a colon is then preceded by ./), with dots in the path resolved after RFC 3986. False for every path with an encoded slash, which becomes one between names, and for every URI whose scheme no slash follows.")
ST["C87"]=("partial","Proved (with lines ended by line feeds) when the decoded user name has no line feed; passwords, the rest of the URL and everything from the server are arbitrary. False with a user name such as a%0D%0AX%3A%20b and a Digest challenge, shown by a witness.")
ST["C88"]=("partial","The read-back is proved for fewer than 2k additions (afterwards String panics, C39) by a reader that does not insist on the missing parts. False as to conformity: no text has a target duration or the comma after a duration.")
ST["C89"]=("partial","A player that ignores the end mark plays just the first k segments (exact, below 2k additions). False beyond k, and false from the second segment on for a player that heeds EXT-X-ENDLIST, which every text has.")
ST["C90"]=("partial","Proved up to k additions. False for every history of more than k (non-empty) segments: the text has no EXT-X-MEDIA-SEQUENCE.")
ST["C91"]=("partial","Proved for Basic and for Digest with MD5 (any qop), challenges at OPTIONS, DESCRIBE, PLAY, PAUSE and TEARDOWN, over TCP, writes succeeding. False with MD5-sess (a witness run; see C45). Challenges for one of several outstanding SETUPs are C62, the uri of SETUP is C76, the count of uses C46.")
ST["C92"]=("proved","The buffered reader is modelled with its array, indices and sliding (M_bufio), after the Go standard library; M_session on a stream of bytes is proved to be the same.")
ST["C93"]=("partial","Proved as long as the later reads need no byte that was not already in the buffer. False otherwise: the body is a slice of the reader's buffer, and whenever the answer was the last thing fetched, looking at one byte of the next piece turns the body into the bytes of that piece at the same place. The session itself uses the body at once (C92).")
ST["C94"]=("proved","")
ST["C95"]=("partial","False: the list is reused, so every later packet writes its units over it (for every history; exact for a packet without start codes). Proved for packets that finish no unit. Copying the units out is safe (C94).")
ST["C96"]=("partial","Proved for up to three bytes, and for any number if the packet has one unit. False for more: the units of an aggregate are slices of one array with the capacity of all the rest, and the fourth byte appended to one overwrites the next (witness).")
ST["C97"]=("proved","Without a video stream the program waits for ever after DESCRIBE (C97_no_video), which is why the statement asks for one.")
ST["C98"]=("proved","URLs that are not well formed are not all refused: see C84 and C85.")
ST["C99"]=("partial","Proved for units of STAP-B packets (without emulation bytes, see C17). False for FU-B: its number is lost, the unit gets the sink's own count (proved for every series). False for MTAP: the i-th unit is taken for one i places later (proved for every packet).")
ST["C100"]=("partial","True up to 2048 bytes. False for every longer content, the size of the read buffer: the session's loop ends, the log says only that the buffer is full, and the application is not told (C77).")
ST["C101"]=("partial","Exact: the last offer is the one taken (C101_last). So it is true when Digest comes last, and false in every other order: Basic last sends the password as it is, an unknown scheme last ends the session.")
ST["C102"]=("partial","False for every request: its first line is no status line, and the session's loop ends.")
ST["C103"]=("partial","False for every refusal: it is logged and that is all. The program waits for ever, proved for every continuation in which the server sends nothing more, or hangs up.")
ST["C104"]=("proved","")
ST["C105"]=("partial","False: what is listed has no effect (this follows from C104 too); DESCRIBE and SETUP follow in every conversation of C79.")
ST["C106"]=("partial","Exact condition proved (C106_target_exact): true for full URIs, and for relative ones when the directory of the base is the URI of the session with a slash. False for other bases, since Content-Base is not heeded, and for *.")
ST["C107"]=("partial","True for one feed sent as in C81, for the program's whole output at packets. False for a unit in fragments whose forbidden bit is set, and wherever C81 fails.")
ST["C108"]=("partial","True without a challenge, and with Digest up to a hash. False after a Basic challenge: the request is printed with its Authorization field.")
ST["C109"]=("partial","The response is always the same, for every text read. False as to what is left: after a body two bytes too many are written, and the next message cannot be read.")
ST["C110"]=("partial","False for every URL with a non-empty fragment: all requests name it, as it was written (and the control attribute of a stream is appended to it). True when the fragment is empty.")
ST["C111"]=("partial","Exact: true of the queue, the table of methods, the reader and the count of streams (C111_tables_partial, for all orders of steps), and the lock is always given back (C111_lock). False of every other part that changes: the request (if it is refused before it has been written), the number, the identifier, the authentication and its digest, the stage, the streams, the time of the last keep-alive and the listeners, each with a witness.")
ST["C112"]=("partial","False: of any two requests made at the same time the one can get the other's authorization (for every digest without MD5-sess). True when the calls do not overlap, and each text is always right for some method asked for.")
ST["C113"]=("partial","Exact: a stream waits for the number of its request plus the number of commands issued before Setup looks. So with a single one Ready never comes, proved for all answers that grant the streams.")
ST["C114"]=("partial","Exact (C114_exact): the sink holds the fragments since the last that starts a unit, in order, with their marks. So true while a unit is under way; false afterwards: they are kept when the unit is complete, and fragments without a start pile up without bound.")
ST["C115"]=("partial","Proved for control characters, bad percent encodings in paths, bad ports, bad brackets, bad zones and encoded ASCII bytes in hosts. False for a single asterisk, which is connected to at no host. False for other schemes: all of them, rtsps too, are connected to in the clear at port 554. (Also false for URLs without a host, see C84.)")
ST["C116"]=("partial","Proved when the server asks for credentials only while no other request is under way: agenda, credentials, progress and end. False otherwise: with two streams, asked at both SETUPs, the first is repeated under the number of the second, the second never, and the program waits for ever.")
ST["C117"]=("partial","Proved in band always, and out of band when no escape is needed up to the byte of the last bit read. False otherwise: escapes are not removed from sprop-parameter-sets; legal sets are stored with wrong values (176x144 as 16x2147483600) or refused.")
ST["C118"]=("partial","Order and completeness proved for all applications; the loop wants at most one take at any time. False without it: behind 21 packets not taken nothing is read and no stage is announced; from a stage not taken on nothing is read.")
ST["C119"]=("partial","Proved between calls, and until the ring comes round for all entries but the newest; String returns for fewer than twice as many segments as the ring holds. False otherwise: there is no lock; a text can have an entry nobody added, a new position with an old length, or the newest segment listed first.")
ST["C120"]=("partial","All requests but SETUP go to the URI that was opened (C120_kinds), so right exactly when the description gives that one (C120_exact). False when Content-Base (even with just a slash added) or a session-level control attribute says otherwise: both are ignored.")
ST["C121"]=("partial","Proved after attempts that failed. False for every session that has been Ready (the stage is kept: nothing follows OPTIONS); every one that was lost earlier announces Ready too soon, by as many answers as it had counted; and the session identifier and the credentials for the first server are sent to the second, whatever happened before.")
ST["C122"]=("partial","Exact: after any history the listeners are all those ever opened (C122_kept_refuted); right only for sessions that never listened (C122_none_partial). Nobody calls Stop; the TCP connection has no Close at all (not in the model).")
ST["C123"]=("partial","Proved over UDP for every timeout of two seconds and the longest turn. False over TCP for every timeout (no request is made while media arrive or nothing does), and for shorter timeouts: the timeout parameter is not looked at.")
ST["C124"]=("partial","Proved with and without quotes, with blanks, names in any case. False, each for all such challenges: another case of the scheme, any parameter besides the seven, two challenges in one field are refused (the session ends, C73); a value with a comma is cut short. Escapes in quoted strings are not considered.")
ST["C125"]=("partial","Proved for every sequence of well-formed packets and every rest. What is returned depends on the packet's own bytes except, exactly, for a sender report whose length field is too small for its blocks: alone it is refused, with packets behind it their bytes are returned as the sender's (for all such reports).")
ST["C126"]=("partial","Stages and requests: proved when everything sent has been answered. False otherwise: the answer to a PLAY or PAUSE still under way is announced after Done, for every such history. False of packets and of the loop, always: packets are passed on as before and the loop goes on for as long as packets or silences come.")
ST["C127"]=("partial","Proved for every order, with each of control, rtpmap and fmtp at most once, any other lines, more than one fmtp parameter, and no number between the first two slashes of the control URI or of the parameters. False with such a number (live/1/video), for every such URI: the clock rate depends on the order.")
ST["C128"]=("partial","Exact: the payload type is that of the first format, mapping and clock rate are those of the last rtpmap line, the codec that of the last known name, the parameter sets those of all fmtp lines. Right when everything said is about that payload type; false for every two formats with an rtpmap line each.")
ST["C129"]=("partial","False for every two sessions over UDP whose descriptions have a stream: stream number i is asked for on 50000 + 2 i, always (exact, for every session and description, also when a write fails). The ports of one session differ (C51).")
ST["C130"]=("partial","Every listener of every session is bound to 127.0.0.1: proved for a datagram to that address, false for a datagram to any other address and for every multicast group. That no listener is read before Stop is C66.")
ST["C131"]=("partial","False: whether an answer is accepted does not depend on what was asked for; a stream asked for on the connection and granted over UDP with any ports, or granted with no transport at all, is set up without a listener and Ready is announced. Refused are texts that cannot be read.")
ST["C132"]=("partial","True of the application's own requests. False of keep-alives: for every error the turn of the loop and the state it leaves are those of one that was sent. False of the SETUP requests that follow a description, when the write runs into its deadline: the loop goes on, and Ready is never announced whatever answers come; with another error the loop ends.")
ST["C133"]=("partial","Proved: parameters left out keep the value they had, for every field, readable or not. False for a fresh Transport: it stays unicast and without a mode, where the defaults are multicast and PLAY.")
ST["C134"]=("partial","False for every session and every location: whatever redirects it, no request but a SETUP whose URI a description gave goes anywhere but to the URI that was opened; a redirected DESCRIBE without content is followed by nothing, and nothing is told.")
ST["C135"]=("partial","Exact for OPTIONS and DESCRIBE: the status has no effect, 401 aside. So false there: after any answer to OPTIONS the description is asked for, after any answer to DESCRIBE what its content describes is set up. Proved for PLAY, PAUSE and TEARDOWN. For SETUP see C61 and C131.")
ST["C136"]=("partial","False: a response with one line that continues a field and has no colon is not read, and the loop ends, always; a continuing line with a colon is read as a field of its own; of several fields of one name the last counts (so the value is right exactly if there is at most one). Proved for fields on one line each.")
ST["C137"]=("partial","Exact: a session keeps the requests that have not been answered, and nothing when all have been. So false over UDP while the server is silent: each keep-alive leaves one request more, even one that could not be written, and none is ever dropped.")
ST["C138"]=("partial","Any channels are accepted, and a stream moved to channels of the same parity is shown the same (proved). False otherwise: nothing of a stream on an odd channel is shown, and a sender report on an even channel is shown as a NAL unit nobody sent.")
ST["C139"]=("partial","False: only channel, timestamp and payload of a packet count (for all sequences of packets and all headers), so a packet that comes twice is shown twice, and units are shown in the order of arrival. For packets in order see C81, for lost fragments C82.")
ST["C140"]=("partial","False for everything but sender reports: what is returned is the first word of the packet, whatever it contains, and the program takes no notice of a goodbye. The first word is returned right (proved). For sender reports see C35 and C37.")
ST["C141"]=("partial","False: every set that can be written is stored under its number and with its values, whatever the ranges (for all values; the shapes of the parameter sets that are misread at all are those of C26 and C28).")
ST["C142"]=("partial","Proved for every name, address and challenge without quotes and backslashes (C142_digest_partial). False for every name with a quote or a backslash, whatever the rest (C142_name_refuted): nothing is escaped, so DOMAIN\\ann is read as DOMAINann and a quote lets the name set other parameters. Basic: read as given exactly when the name has no colon (C142_basic_partial).")
ST["C143"]=("partial","False for every digest response (C143_refuted): algorithm, and qop if there is one, are written in quotes where the grammar has tokens. All the other parameters have their form (C143_partial).")
ST["C144"]=("partial","What is returned is determined for every such stream (C144_exact): it is the list of units exactly when no start code has more than one zero byte before it and there is none at the end (C144_partial). The other zero bytes are returned at the end of units, or as a unit of their own in front.")
ST["C145"]=("partial","False: no SETUP request of any history names a session (C145_unnamed_refuted, C145_field_refuted), so with a server that begins one for each, PLAY names the session of the answer that came last and no other, in every conversation (C145_play_refuted). Proved for servers that put all streams into one session nevertheless (C145_partial).")
ST["C146"]=("partial","With Timeout positive proved in full (C146_partial). With Timeout zero it holds only if no earlier read had a positive one (C146_zero_partial): the old deadline is never withdrawn, so that after it every read fails at once and takes nothing from the connection, for ever (C146_refuted). C146_stream_partial: the stream of bytes and pauses on which the other properties of reading are stated covers every timed history with Timeout positive.")
ST["C147"]=("partial","Proved as long as no write but the last fails (C147_partial; user names without a line feed, as in C87). False otherwise: a command whose write fails leaves the connection open to the next (C147_open_refuted), and then, for any two requests of any history and any cut, the server reads both as one message that is neither (C147_refuted).")
ST["C148"]=("proved","The value is that of session_calls, whose contents are C45 (the digest), C142 (how it is read) and C47 (Basic); C148_read puts them together for the wire. The uri in it is the session's, see C76.")

ST["C149"]=("proved","The text is that of strconv.FormatFloat as modelled in M_float (after the library's roundShortest). String gives out no text from the 2k-th addition on (C40).")

ST["C150"]=("proved","Reading one byte after another; a pause is a read that runs into the deadline (C146).")

ST["C151"]=("partial","Holds for CR LF and LF in any mixture (C151_ends_partial). A CR alone is not taken as the end of a line: no response with such lines is read, all of it is dropped (C151_cr_refuted).")

ST["C152"]=("proved","A CR alone is no line end for a description (RFC 4566 does not ask for it).")

ST["C153"]=("proved","For a session opened once; a session that is opened again starts with the feeds of the one before (C121).")

ST["C154"]=("partial","Never the case: the feed's sets come from its section of the description only (C153_sets), so that a feed whose section gives none has none whatever is received (C154_in_band_refuted), and frames change no feed (C154_frames_refuted). The application can parse the units itself (C117_in_band_partial).")

ST["C155"]=("proved","After Open (whose OPTIONS is printed too). The entries of stages and ticks are told from errors by their first words: the texts of errors are taken not to begin like a notice. A panic is reported by the runtime, outside the model.")

ST["C156"]=("partial","Start prints \"Reading from UDP sink n\" past package log and without a newline. A server that answers SETUP with UDP makes the client open listeners although it asked for TCP; the entry after the announcement is then on its line (C156_lines_refuted, for every order of the texts, and C156_case). Without listeners the output is exactly the entries of the log, each on its own line (C156_lines_partial).")

ST["C157"]=("partial","The comment of NewPlaylist says it verifies that the file exists and can be read; it never looks (C157_file_refuted). With no segments it makes a playlist that crashes at the first AddSegment, with fewer it crashes itself (C157_room_refuted). Errors are exactly those of net/url (C157_error, C157_control); with room, from the arguments to the text all is as it should be until the ring has come round twice (C157_made_partial).")

ST["C158"]=("partial","Every Session field that is not empty was given by the server, in a response before the request (C158_given_partial). With a server that has given none, keep-alives over UDP have an empty Session field, which RFC 2326 does not allow (C158_empty_refuted, in every history).")

ST["C159"]=("partial","A server of HTTP/1.0 that answers 200 has the session opened, however its lines end (C159_agreed_partial), and none is opened without a whole head of HTTP/1.0, of which exactly the head is taken (C159_whole_partial). Any other status opens the session as well (C159_status_refuted), and HTTP/1.1 200 does not (C159_version_refuted), in every case.")

ST["C160"]=("partial","False: on every channel no stream was granted, and in every stage but Play (before anything is described, and when paused), each packet is passed on and its unit shown (C160_unasked_refuted). Nothing is passed on that the server did not send as a packet (C160_sent_partial).")

ST["C161"]=("proved","Writes and listeners succeed, packets and contents fit into the buffer (C56, C100). That the parameter sets of C26 and C29 can be read whatever is known already is C161_sets; responses outside the hypotheses are C63, C73, C75, C80 and C131.")

ST["C162"]=("partial","False: a text broken off by any character that is no letter, behind a multiple of four letters, gives the set the letters before stand for, whatever follows (C162_damaged_refuted). Exactly: each text gives what its beginning stands for as far as it goes (C162_exact, C162_one; C162_config for hexadecimal), and so the right bytes where it stands for something (C162_whole_partial). The error of the decoder is dropped.")

ST["C163"]=("proved","C163_digits with C163_decimals and C163_nearest, which say what no_longer means for a number with decimals.")

ST["C164"]=("partial","False. Two descriptions that differ in codecs, clock rates and payload types only have the same requests sent (C164_described_refuted), the sessions do the same in every history (C164_session_refuted) and so does the program, with the same units taken (C164_program_refuted); such descriptions exist for any two codec names (C164_rtpmap). A packet of every H.265 unit type in use is shown as an H.264 unit (C164_h265_refuted). What holds: the H.264 of one that names it is read right, C81 and C43.")

ST["C165"]=("partial","False exactly where it can be: C165_order_refuted, every well formed picture parameter set with a scaling matrix for the 8x8 transform of a stream that is not 4:4:4, given before its sequence parameter set, is refused or read wrongly, and read rightly after it. True, for any bytes, of the others: C165_plain_partial, C165_same_partial, and C165_any_partial for lists of any length.")

ST["C166"]=("proved","The description's size is bounded because the streams are counted in 64 bits; no memory holds so many.")

ST["C167"]=("proved","A Go timer expires at any time from when it is due, and never before; C167_case shows that it cannot a nanosecond earlier. There is no upper bound: the runtime gives none.")

ST["C168"]=("proved","Over HTTP no command can be sent (C69).")

ST["C169"]=("proved","Equality while the process has not crashed, at most otherwise. Over HTTP no command can be sent (C69).")

ST["C170"]=("partial","True when no fragment comes between the last of a unit and the first of another (C170_partial). False otherwise: the fragments of a complete unit are kept, so that each further last fragment of two bytes shows the unit once more (C170_refuted), and no factor bounds what comes out (C170_factor_refuted). For any payloads each Push shows no more than all payloads so far (C170_bound).")

ST["C171"]=("partial","True of contents, times and results when no fragment of another stream comes between two of a unit and none of its payloads crashes the client (C171_partial; payloads without start codes or emulation prevention sequences). False otherwise: a unit is then made of pieces of both (C171_refuted), a crash takes all streams along (C171_crash_refuted), and decoding order numbers count the units of all streams (C171_number_refuted).")

ST["C172"]=("partial","True for packets of up to 2048 bytes (C172_media_partial). A longer one, which the frame header allows, ends the loop, and no answer after it is taken (C172_long_refuted; see C56).")

ST["C173"]=("partial","True for lines of other types, and for attributes without a slash, a semicolon or a word that begins with control: or rtpmap: (C173_partial). False otherwise: in an attribute of any name a number after a slash becomes the clock rate (C173_slash_refuted), and a second word control:x the URI of the stream (C173_word_refuted).")

ST["C174"]=("partial","The order does not matter unless two parameters tell the same thing or contradict each other (C174_order), and unknown parameters are passed over unless they have two slashes (C174_unknown_partial). False otherwise: the last piece of any parameter with two slashes is taken for the lower transport, so url=rtsp://camera takes an interleaved stream off the connection (C174_slash_refuted).")

ST["C175"]=("partial","Holds for sequence parameter sets (C175_sps) and for picture parameter sets that have the optional last part (C175_pps_partial). False for the others: whether the optional part is there is decided by whether any bit is left, so a byte after the set becomes part of it (C175_pps_refuted).")

ST["C176"]=("partial","Holds if the first ends in neither a zero byte nor a start code (C176_partial). False otherwise: a zero byte or a start code at the very end is kept as part of the last unit, and is not once something follows (C176_zero_refuted, C176_code_refuted).")

ST["C177"]=("partial","Holds for all payloads without MTAP24 (C177_partial). False for those: the time of the packet is taken for the upper part of the offset, so that units move 257 times as far as the packet (C177_mtap24_refuted).")

ST["C178"]=("partial","True of RTP (C178_rtp). False of RTCP: the report blocks of sender reports (C178_reports_refuted) and everything but the header of the other packets (C178_others_refuted) are not in what is returned. C178_rtcp_partial says exactly which packets are read alike.")

ST["C179"]=("partial","Holds of every element but two for the parameter sets C26 reads (frame pictures, picture order count types 0 and 1): C179_partial. The offsets of reference frames are read and thrown away (C179_offsets_refuted), and VUI parameters are not read (C179_vui_refuted). Parameter sets of field pictures are misread, and different ones may be kept alike (C179_interlaced_refuted).")

ST["C180"]=("partial","Holds for the parameter sets C29 reads, whatever sequence parameter sets are known (C180_partial). False with slice groups of type 3, whose elements are read from the wrong places (C180_change_refuted). Without the optional last part a parameter set is refused (C29).")

ST["C181"]=("proved","")

ST["C182"]=("proved","")

ST["C183"]=("partial","Holds for up to 25 bits together (C183_partial). False from 26 bits on, where one call loses the first bits if the number touches five bytes (C183_refuted); pieces of up to 25 bits each come out right in every case, also where one call does not (C183_pieces).")

ST["C184"]=("partial","Holds if the first piece does not end in a zero byte (C184_partial). False otherwise: a start code can appear where the escaped pieces meet (C184_escape_refuted), and an escape there is not removed (C184_unescape_refuted).")
