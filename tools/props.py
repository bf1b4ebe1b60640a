# prop(id, title, statement, quantifier, why, anchors, status, theorems, note)
B="net/h264/bits.go"; A="net/h264/annexb.go"; K="net/h264/packet.go"; S="net/h264/spspps.go"
WIP="partial"

# ---------------------------------------------------------------- bit reader
prop("C01","ReadBits returns the next n bits, most significant first",
 "After any sequence of reads and skips on a BitReader over any buffer, a successful ReadBits(n) returns the integer whose n-bit big-endian representation is the next n unread bits of the buffer, and exactly those n bits become read.",
 "every byte buffer, every reachable reader position, every n in 0..32",
 "value depends on buffer contents, bit alignment and n jointly; the unit test tries three alignments on one two-byte buffer",
 [B+": ReadBits", B+": NewBitReader"], WIP, [])
prop("C02","Bit reader bounds and failure atomicity",
 "A read or skip of more than 32 bits, or of more bits than Available() reports, fails with io.ErrUnexpectedEOF and leaves the reader unchanged; any other read succeeds without an out-of-range access; Available() always equals total bits minus bits read.",
 "every buffer, every sequence of reader operations",
 "must hold in every reachable position; an out-of-range access is a crash on attacker-controlled input",
 [B+": Available", B+": ReadBits", B+": SkipBits"], WIP, [])
prop("C03","ReadUnsignedGolomb inverts the ue(v) code",
 "Reading a ue(v) codeword (H.264 9.1) for any codeNum v in 0..2^32-2 at any bit position yields v and consumes exactly the codeword.",
 "every v in range, every bit alignment, every following content",
 "2^32 values times 8 alignments",
 [B+": ReadUnsignedGolomb"], WIP, [])
prop("C04","ReadSignedGolomb inverts the se(v) code",
 "Reading an se(v) codeword (H.264 9.1.1) for any value in the se(v) range at any bit position yields that value and consumes exactly the codeword.",
 "every signed value in range, every alignment",
 "as C03",
 [B+": ReadSignedGolomb"], WIP, [])
prop("C05","Skipping equals reading and discarding",
 "SkipBits(n) fails exactly when ReadBits(n) fails and otherwise leaves the reader in exactly the state ReadBits(n) would; SkipGolomb likewise against ReadUnsignedGolomb.",
 "every buffer, reader position and n",
 "equality of two state transformers over all states",
 [B+": SkipBits", B+": SkipGolomb"], WIP, [])
prop("C06","ReadScalingList implements scaling_list()",
 "For every sequence of delta_scale values the list filled in and the use-default flag equal those of the scaling_list syntax of H.264 7.3.2.1.1.1.",
 "every list length, every sequence of delta values in -128..127",
 "unbounded sequences of deltas with an early-termination mode",
 [B+": ReadScalingList"], WIP, [])
prop("C07","SkipTrailingBits accepts exactly rbsp_trailing_bits",
 "SkipTrailingBits succeeds iff the unread bits of the buffer are a 1 followed only by alignment zeros.",
 "every buffer and reader position",
 "all positions and contents",
 [B+": SkipTrailingBits"], WIP, [])
prop("C08","ReadPayloadParam decodes SEI ff-coded numbers",
 "Reading a run of k bytes 0xFF followed by a byte b<255 yields 255*k+b (as a uint32) and consumes k+1 bytes; a stream that ends first is an error.",
 "every k, b, alignment",
 "unbounded run length",
 [B+": ReadPayloadParam"], WIP, [])
# ---------------------------------------------------------------- annex b
prop("C09","RBSPToEncapsulated followed by EBSPToRaw is the identity",
 "For every payload, EBSPToRaw(RBSPToEncapsulated(p)) == p.",
 "every byte string",
 "round trip over all byte strings; failures need runs of four or more zeros",
 [A+": EBSPToRaw", A+": RBSPToEncapsulated"], WIP, [])
prop("C10","RBSPToEncapsulated output contains no forbidden three-byte pattern",
 "The output never contains 00 00 00, 00 00 01 or 00 00 02 at any position, so it can never be mistaken for a start code.",
 "every byte string",
 "absence of a pattern at every position of every output",
 [A+": RBSPToEncapsulated"], WIP, [])
prop("C11","RBSPToEncapsulated is total",
 "RBSPToEncapsulated returns normally for every payload.",
 "every byte string",
 "crash freedom over all inputs",
 [A+": RBSPToEncapsulated"], WIP, [])
prop("C12","EBSPToRaw undoes standard-conforming encapsulation",
 "For every RBSP, EBSPToRaw applied to its H.264 7.4.1 encapsulation (insert 03 whenever two zeros precede a byte <= 3, and after a trailing zero) returns the RBSP.",
 "every byte string",
 "all byte strings, including every pattern of zero runs",
 [A+": EBSPToRaw"], WIP, [])
prop("C13","SplitAnnexB recovers the NAL units of an Annex B stream",
 "For every sequence of NAL units encapsulated per H.264 7.4.1 and each preceded by a 3- or 4-byte start code, SplitAnnexB returns exactly the raw units in order.",
 "every list of non-empty units, every choice of start-code lengths",
 "unbounded number and contents of units; the scanning loop skips bytes",
 [A+": SplitAnnexB"], WIP, [])
prop("C14","SplitAnnexB is total and invents nothing",
 "For every buffer SplitAnnexB returns normally, returns at least one unit, every unit is non-empty when the buffer is non-empty, and a buffer containing no start code yields exactly one unit, EBSPToRaw of the whole buffer.",
 "every byte string",
 "index arithmetic with lookahead and lookbehind over all buffers",
 [A+": SplitAnnexB"], WIP, [])
# ---------------------------------------------------------------- NAL sink
prop("C15","Single NAL unit packets",
 "Pushing a payload that is one NAL unit of a non-aggregate, non-fragment type exposes exactly one unit with the payload's header, its raw bytes, the packet's timestamp and the current decoding order number, and advances that number by one modulo 2^16.",
 "every NAL of types other than 24..29, every sink state, every timestamp",
 "all contents and histories",
 [K+": Push", K+": parseNAL"], WIP, [])
prop("C16","STAP-A de-aggregation",
 "Pushing a STAP-A packet exposes exactly the aggregated NAL units, in order, with the packet's timestamp.",
 "every list of NAL units of size 1..65535, every sink state",
 "unbounded lists; interplay of emulation removal and size fields",
 [K+": parseSTAP", K+": Push"], WIP, [])
prop("C17","STAP-B decoding order numbers",
 "The i-th unit (from 0) of a STAP-B packet carries DON d+i mod 2^16 where d is the packet's DON field, and the sink's next DON is d+count mod 2^16.",
 "every list of units, every DON including wrap-around",
 "wrap-around and unbounded counts",
 [K+": parseSTAP"], WIP, [])
prop("C18","MTAP de-aggregation",
 "The i-th unit of an MTAP16/MTAP24 packet carries DON = DONB+DOND_i mod 2^16 and timestamp = packet timestamp + its own offset mod 2^32 (RFC 6184 5.7.2).",
 "every list of (unit, DOND, offset), every DONB and timestamp",
 "unbounded lists, modular arithmetic",
 [K+": parseMTAP"], WIP, [])
prop("C19","FU-A/FU-B reassembly",
 "After pushing a start fragment, any number of middle fragments and an end fragment, exactly one unit is exposed whose header carries the NRI and type of the original NAL and whose data is the concatenation of the fragment payloads, whatever state the sink was in before.",
 "every sink state, every number and contents of fragments",
 "unbounded number of fragments, arbitrary prior history",
 [K+": AddFragment", K+": parseNAL"], WIP, [])
prop("C20","Reassembly is independent of fragmentation",
 "Splitting the same encapsulated NAL unit at different points yields the same reassembled data.",
 "every NAL unit, every two fragmentations",
 "all split points",
 [K+": Push", K+": AddFragment"], WIP, [])
prop("C21","Push exposes every NAL unit of the payload",
 "After Push(buf) the sink's unit queue contains the units of all NALs in the payload.",
 "every payload",
 "all multi-NAL payloads",
 [K+": Push", K+": parseNAL"], WIP, [])
prop("C22","Push is total",
 "Push returns (with or without an error) for every payload, in every sink state.",
 "every byte string, timestamp and sink state",
 "crash freedom on network input; uint16 wrap-around in size checks",
 [K+": Push", K+": parseSTAP", K+": parseMTAP"], WIP, [])
prop("C23","DonDiff is the RFC 6184 don_diff",
 "DonDiff(m,n) equals don_diff(m,n) of RFC 6184 5.5 for all 16-bit m,n; it is antisymmetric, lies in [-32768,32768], is congruent to n-m mod 2^16 and is 0 only for equal arguments.",
 "all 2^32 pairs of 16-bit numbers",
 "2^32 pairs",
 [K+": DonDiff"], WIP, [])
prop("C24","Truncated packets are reported",
 "A STAP/MTAP whose last unit is cut short, a FU-A shorter than 2 bytes and a FU-B shorter than 4 bytes yield a 'packet too short' error.",
 "every list of preceding units and every truncation point",
 "all truncation points of unbounded packets",
 [K+": parseSTAP", K+": parseMTAP", K+": parseNAL"], WIP, [])
# ---------------------------------------------------------------- SPS / PPS
prop("C25","ParseSPS is total and atomic",
 "ParseSPS returns normally on every input; on error the stored parameter sets are unchanged; on success exactly the entry of the parsed id changes.",
 "every byte string, every store",
 "crash freedom and atomicity over all inputs and error points",
 [S+": ParseSPS"], WIP, [])
prop("C26","ParseSPS decodes the SPS syntax",
 "For every sequence parameter set written with the syntax of H.264 7.3.2.1.1, ParseSPS stores its field values under its id.",
 "every legal SPS",
 "dozens of fields with conditional syntax",
 [S+": ParseSPS"], WIP, [])
prop("C27","SPS picture dimensions",
 "The Width and Height stored for an SPS are those of H.264 7.4.2.1.1 after cropping.",
 "every legal SPS",
 "all chroma formats, crop offsets, frame/field coding",
 [S+": ParseSPS", S+": SPSInfo"], WIP, [])
prop("C28","ParsePPS is total and atomic",
 "ParsePPS returns normally on every input; on error the stored sets are unchanged; on success exactly the entry of the parsed id changes.",
 "every byte string, every store",
 "crash freedom on fixed-size arrays indexed by stream values",
 [S+": ParsePPS"], WIP, [])
prop("C29","ParsePPS decodes the PPS syntax",
 "For every picture parameter set written with the syntax of H.264 7.3.2.2, including rbsp_trailing_bits, ParsePPS stores its field values under its id.",
 "every legal PPS",
 "conditional syntax, optional tail detection",
 [S+": ParsePPS"], WIP, [])
prop("C30","Parameter-set store is a last-writer map",
 "After any history of ParseSprop calls, GetSPS(id)/GetPPS(id) return the set most recently stored successfully with that id, or report absence; buffers that are empty or of another NAL type change nothing.",
 "every history of calls, every id",
 "histories are unbounded",
 [S+": ParseSprop", S+": GetSPS", S+": GetPPS"], WIP, [])
# ---------------------------------------------------------------- RTP / RTCP
R="net/rtp/packet.go"; C="net/rtcp/packet.go"
prop("C31","rtp.Unpack decodes RFC 3550 packets",
 "For every RTP packet laid out per RFC 3550 5.1 (any CSRC list up to 15, optional extension, any payload), Unpack returns exactly the header fields, CSRC list, extension data and the remaining bytes as payload.",
 "every header, CSRC list, extension and payload",
 "unbounded payloads, all flag combinations",
 [R+": Unpack"], WIP, [])
prop("C32","rtp.Unpack is total",
 "Unpack returns normally (possibly with an error) for every byte string.",
 "every byte string",
 "crash freedom on network input",
 [R+": Unpack"], WIP, [])
prop("C33","rtp Pack/Unpack round trip",
 "Unpack(p.Pack()) reproduces packet p's header.",
 "every packet",
 "all packets including extension lengths near the 16-bit limit",
 [R+": Pack"], WIP, [])
prop("C34","rtp payload excludes padding",
 "When the padding bit is set, the payload returned by Unpack excludes the padding octets.",
 "every padded packet",
 "all padding lengths",
 [R+": Unpack", R+": P"], WIP, [])
prop("C35","rtcp.Unpack decodes sender reports",
 "For every RTCP sender report laid out per RFC 3550 6.4.1, Unpack returns the header and the sender info; other packet types return the header alone.",
 "every header and sender info, every report count, every trailing content",
 "all field values",
 [C+": Unpack"], WIP, [])
prop("C36","rtcp.Unpack is total",
 "Unpack returns normally (possibly with an error) for every byte string; with at least 4 bytes it fails only for a wrong version or a sender report shorter than its report count requires.",
 "every byte string",
 "crash freedom on network input",
 [C+": Unpack"], WIP, [])
prop("C37","rtcp.Unpack returns the report blocks",
 "The report blocks of a sender report are returned in order.",
 "every sender report with at least one report block",
 "all report counts",
 [C+": Unpack", C+": DataSR"], WIP, [])
# ---------------------------------------------------------------- HLS
H="net/hls/playlist.go"
prop("C38","HLS byte ranges are contiguous",
 "After any sequence of AddSegment calls every segment still held starts exactly where the previous one ended, the first at 0.",
 "every ring size >= 1, every sequence of segments",
 "unbounded histories with ring wrap-around",
 [H+": AddSegment"], WIP, [])
prop("C39","HLS playlist shows the last segments in order",
 "After any number n>=1 of AddSegment calls the rendered playlist lists exactly the last min(n,nseg) segments, oldest first, each with its duration, length, offset and URI.",
 "every ring size >= 1, every history",
 "wrap-around happens only after many calls",
 [H+": String", H+": AddSegment"], WIP, [])
prop("C40","HLS rendering is total",
 "String() returns for every playlist state reachable by AddSegment.",
 "every ring size, every history",
 "crash only after 2*nseg additions",
 [H+": String"], WIP, [])
# ---------------------------------------------------------------- SDP
D="net/sdp/packet.go"
prop("C41","sdp.Parse returns the video sections in order",
 "Parse returns one feed per m=video section, in order, with the payload type its media line gives first; sections of other kinds and their attributes contribute nothing to any feed.",
 "every SDP body (any list of lines)",
 "all documents",
 [D+": Parse"], WIP, [])
prop("C42","sdp.Parse is total",
 "Parse returns normally for every body.",
 "every byte string",
 "crash freedom on network input",
 [D+": Parse"], WIP, [])
prop("C43","sdp.Parse attribute extraction",
 "The control, rtpmap and fmtp attributes of a video section set the feed's control URI, payload mapping, codec, clock rate and decoded sprop parameter sets.",
 "every attribute value in the documented syntax",
 "all values, including base64 text containing '/' and single-parameter fmtp lines",
 [D+": Parse"], WIP, [])
# ---------------------------------------------------------------- digest
G="net/rtsp/digest.go"
prop("C44","NewDigest parses challenges",
 "For every challenge listing known attributes with quoted values free of commas and quotes, NewDigest recovers the scheme and each attribute value.",
 "every list of attributes in any order and case",
 "all attribute values and orders",
 [G+": NewDigest"], WIP, [])
prop("C45","Digest responses follow RFC 2617",
 "Every value produced for (verb, body) contains response = the RFC 2617 digest for the configured user, password, realm, nonce, uri, qop, nc and cnonce.",
 "every input, every number of previous calls",
 "must hold for every call in every history",
 [G+": Authenticate", G+": response"], WIP, [])
prop("C46","Digest nonce count increases",
 "With qop, successive requests carry strictly increasing nc values.",
 "every sequence of requests",
 "history property",
 [G+": Next", G+": Authenticate"], WIP, [])
prop("C47","Basic authentication",
 "For a Basic challenge the header is 'Basic ' followed by base64(user:password), for every verb, body and call, and decoding it gives back user:password.",
 "every username and password, every history",
 "all strings",
 [G+": Authenticate"], WIP, [])
prop("C48","Unknown schemes and algorithms are refused",
 "Challenges that are neither Basic nor Digest, or that carry unknown attributes, give ErrAuthMalformedChallenge; a nonce with an algorithm other than md5/md5-sess gives ErrAuthNotImpemented.",
 "every challenge string",
 "all strings",
 [G+": NewDigest"], WIP, [])
# ---------------------------------------------------------------- transport
T="net/rtsp/transport.go"
prop("C49","Channel/port pair text round trip",
 "ParsePair(p.String()) == p without error for every pair of non-negative ints.",
 "every pair of ints",
 "all pairs",
 [T+": ParsePair", T+": Pair.String"], WIP, [])
prop("C50","Transport header round trip",
 "Parsing a Transport's String() into a fresh Transport reproduces every parameter the header can carry.",
 "every transport value whose text parameters are free of separators",
 "all combinations of optional parameters",
 [T+": Transport.String", T+": Transport.Parse"], WIP, [])
prop("C51","Feeds get disjoint channels and ports",
 "The transports offered for the feeds of one session use pairwise disjoint interleave channels (TCP/HTTP) or ports (UDP), data even, control odd and adjacent.",
 "every number of feeds, every protocol",
 "unbounded number of feeds",
 [T+": NewTransport", "net/rtsp/feed.go: ParseFeeds"], WIP, [])
# ---------------------------------------------------------------- message
M="net/rtsp/message.go"; N="net/rtsp/connection.go"; Q="net/rtsp/session.go"
prop("C52","Message headers form a case-insensitive map",
 "Over names that are HTTP tokens, Set/Get/Del on headers behave as a map keyed by the case-folded name, with one entry per name; a name that is not a token is compared as written.",
 "every history of operations, every pair of names",
 "all histories",
 [M+": Set", M+": Get", M+": Del"], WIP, [])
prop("C53","Requests are well-formed RTSP",
 "Pack renders a request whose parts hold no line break as a request line, CSeq first, each header once (if the given headers use none of the library's own names), Session and Authorization when applicable, and ends with one blank line, whatever order the header map is iterated in.",
 "every request, every map iteration order",
 "map iteration order is nondeterministic",
 [M+": Request.Pack"], WIP, [])
prop("C54","Responses are parsed exactly",
 "For every well-formed response on the stream, Unpack returns its status code, headers, CSeq and body and consumes exactly the response.",
 "every status, header list, body up to the reader's buffer size, every following content",
 "all messages and all following stream contents",
 [M+": Unpack"], WIP, [])
prop("C55","Interleaved framing",
 "For every sequence of $-frames and responses on the connection, the frames and contents being at most 2048 bytes long, each frame's channel and payload are delivered in order and byte-exact, and responses are handled in between.",
 "every sequence of frames and responses",
 "unbounded sequences",
 [Q+": receive", N+": ReadBytes"], WIP, [])
prop("C56","Frames of any legal length are received",
 "An interleaved frame of any length 0..65535 is delivered.",
 "every frame length",
 "buffer-size limit reached only above 2048",
 [N+": ReadBytes", N+": Dial", Q+": receive"], WIP, [])
prop("C57","Read timeouts do not lose framing",
 "A read timeout at any point of the stream leaves the session able to resume at the same frame boundary.",
 "every timeout position",
 "all interruption points",
 [Q+": receive", Q+": process", N+": ReadLine"], WIP, [])
# ---------------------------------------------------------------- session
prop("C58","CSeq numbers are unique and increasing",
 "Each new request sent carries a CSeq one larger than the previous new request.",
 "every history of commands, responses and keep-alives",
 "histories",
 [Q+": command", Q+": enqueue"], WIP, [])
prop("C59","CSeq numbers stay unique under concurrency",
 "When the application goroutine and the session goroutine issue commands concurrently, no two outstanding requests carry the same CSeq.",
 "every interleaving of two goroutines",
 "schedule dependent",
 [Q+": command", Q+": enqueue"], WIP, [])
prop("C60","Stage notifications match acknowledged requests",
 "The session announces Play/Pause/Done only on a 200 response to a PLAY/PAUSE/TEARDOWN request that was sent with that CSeq and not yet answered, and the announced stage equals the current stage.",
 "every history",
 "histories",
 [Q+": handleRtsp", Q+": notify"], WIP, [])
prop("C61","Ready is announced when all SETUPs are answered",
 "With k>=1 feeds, Ready is announced exactly when the k-th SETUP response has arrived, in whatever order the responses come.",
 "every k, every response order, any mix of success and failure",
 "unbounded k, all orders",
 [Q+": handleSetup", Q+": Setup"], WIP, [])
prop("C62","A 401 leads to an authorized retransmission",
 "On a 401 response the same request is sent again with the same CSeq and an Authorization value, and other outstanding requests are unaffected.",
 "every session state with outstanding requests",
 "interaction of several outstanding requests",
 [Q+": handleRtsp", Q+": enqueue", Q+": authorize"], WIP, [])
prop("C63","Unsolicited responses are rejected",
 "A response whose CSeq matches no outstanding request is an error that changes no session state, and each request is matched by at most one response.",
 "every history",
 "histories",
 [Q+": dequeue", Q+": handleRtsp"], WIP, [])
prop("C64","Session identifier propagation",
 "After a response carrying Session: id;params, every later PLAY/PAUSE/TEARDOWN/DESCRIBE request carries exactly id.",
 "every history",
 "histories",
 [Q+": handleRtsp", Q+": enqueue", M+": Request.Pack"], WIP, [])
prop("C65","Keep-alive policy",
 "Keep-alives are sent only over UDP transports, only between Ready and Done, never closer together than the keep-alive interval.",
 "every history with any monotone clock",
 "histories with clocks",
 [Q+": KeepAlive"], WIP, [])
prop("C66","UDP packets are delivered",
 "After Start, a packet received on a UDP listener is delivered on Data; Stop closes the listener.",
 "every schedule of the listener goroutine",
 "schedule dependent",
 [N+": Start", N+": Stop"], WIP, [])
prop("C67","Unicast UDP listens on the advertised port",
 "After SETUP over unicast UDP the listeners are opened on the client ports offered in the Transport header.",
 "every feed index and response",
 "all responses",
 [Q+": handleSetup", N+": AddSink"], WIP, [])
# ---------------------------------------------------------------- http + main
X="net/rtsp/http.go"; Z="cmd/ouro/main.go"
prop("C68","HTTP tunnel requests",
 "ConnectHTTP renders a request whose line, cookie and fixed headers are as documented, with Content-Length only for POST; ReceiveHTTP accepts exactly HTTP/1.0 responses with a three-digit status and consumes exactly the header block.",
 "every verb, uri, cookie; every response",
 "all strings",
 [X+": ConnectHTTP", X+": ReceiveHTTP"], WIP, [])
prop("C69","RTSP over HTTP commands can be sent",
 "In HTTP mode a command is written to the POST connection.",
 "every command",
 "needs a live tunnel; in the model a null-pointer path",
 [N+": Write", N+": Dial"], WIP, [])
prop("C70","The client's media loop never crashes on network data",
 "Whatever bytes arrive on the media channels, the command-line client either processes or reports them.",
 "every sequence of packets",
 "crash freedom over all inputs",
 [Z+": handleStates"], WIP, [])
prop("C71","Client lifecycle",
 "The command-line client issues PLAY on Ready, PAUSE after playing, TEARDOWN after pausing and exits after Done.",
 "every sequence of stage, timer and data events",
 "event histories",
 [Z+": handleStates"], WIP, [])
# ---------------------------------------------------------------- more about sessions
prop("C72","Commands before Open are reported as errors",
 "Issuing a command on a session that has not been opened returns an error and sends nothing.",
 "every command, every unopened session",
 "the error branch exists but is not reachable through the public commands",
 [Q+": command", Q+": Options", Q+": Play", Q+": KeepAlive"], WIP, [])
prop("C73","Refused credentials end in an error",
 "When the server answers 401 again to a request that carried credentials, or no credentials are known, the session reports an error instead of repeating the request.",
 "every number of refusals",
 "unbounded repetition",
 [Q+": handleRtsp", Q+": authorize"], WIP, [])
prop("C74","UDP channels identify feeds",
 "The data and control listeners of the i-th feed (from 0) carry channel numbers 2i and 2i+1, in whatever order the SETUP responses arrive.",
 "every number of feeds up to 127, every response order",
 "all orders",
 [Q+": handleSetup", N+": AddSink"], WIP, [])
prop("C75","A failed DESCRIBE is reported",
 "When DESCRIBE yields no usable description, the session reports an error.",
 "every status and body",
 "all responses",
 [Q+": handleRtsp"], WIP, [])
prop("C76","The digest covers the URI of the request",
 "The uri parameter of a digest Authorization value is the request's URI.",
 "every request, challenge and credentials",
 "all requests",
 [Q+": authorize", Q+": Setup", "net/rtsp/digest.go: Authenticate"], WIP, [])
prop("C77","The application learns that the session has ended",
 "When the session's loop ends because of an error or the end of the connection, the application receives a stage, and the command-line client terminates.",
 "every state and input at which the loop ends",
 "all ways to end, and schedules",
 [Q+": process", Z+": handleStates"], WIP, [])
prop("C78","The session survives whatever the server sends",
 "No history of commands and received bytes makes the session crash: every response, frame, silence and end of the connection is either processed or ends the loop with an error.",
 "every byte stream with silences anywhere, every history of commands and loop turns, every protocol except HTTP tunnelling",
 "crash freedom over all inputs and histories",
 [Q+": process", Q+": receive", Q+": handleRtsp", Q+": handleSetup", "net/rtsp/message.go: Unpack", "net/sdp/packet.go: Parse"], WIP, [])
prop("C79","A cooperating server brings the session through",
 "Over TCP, with a server that grants every request and describes at least one video section with readable parameter sets, Options leads to OPTIONS, DESCRIBE and one SETUP per section, numbered 1, 2, 3 and up, with the section's URI, channels 2i and 2i+1 and the session identifier learned so far; Ready is announced once, every later PLAY, PAUSE and TEARDOWN is sent with the next number and announced when granted, and every frame in between is delivered in order.",
 "every description, number of sections, order of the SETUP answers, placement of frames and silences, sequence of later commands, session identifiers, accepted transport texts",
 "whole conversations of any length",
 [Q+": Options", Q+": Setup", Q+": handleRtsp", Q+": handleSetup", Q+": process", "net/rtsp/feed.go: TransportSetup"], WIP, [])
prop("C80","The description's parameter sets reach the feed",
 "When the session is ready, each feed holds the sequence and picture parameter sets that the sprop-parameter-sets attribute of its section carries, under their identifiers.",
 "every legal pair of parameter sets, every description and conversation as in C79",
 "all parameter sets and conversations",
 ["net/rtsp/feed.go: TransportSetup", "net/sdp/packet.go: Parse", "net/h264/spspps.go: ParseSprop", Q+": handleSetup"], WIP, [])
prop("C81","Video reaches the application as it was sent",
 "NAL units sent as RTP packets in single, aggregated (STAP-A) or fragmented (FU-A) form over the connection are shown by the command-line client in order, each once, with header, content and timestamp as sent, whatever responses, silences and control packets come in between.",
 "every list of NAL units, every fragmentation and aggregation, every RTP header, every placement of other traffic, every schedule of client and session",
 "all streams, fragmentations and schedules",
 [Z+": handleStates", "net/rtp/packet.go: Unpack", "net/h264/packet.go: Push", Q+": receive"], WIP, [])
prop("C82","Damaged units are not shown",
 "If a fragment of a NAL unit is lost, repeated or out of order, the client does not show the damaged unit, and shows the units after it.",
 "every fragmented unit, every missing fragment, every RTP header",
 "all losses at all positions",
 [Z+": handleStates", "net/h264/packet.go: AddFragment"], WIP, [])
prop("C83","The password is not disclosed",
 "What a session sends does not disclose the password: without a challenge nothing depends on the credentials, and a challenge for Digest is answered so that only the digests of user, realm and password for the realms asked for matter. A server, or whoever answers in its place, cannot make a client that has used Digest send the password.",
 "every credentials, every server behaviour and every history of commands and loop turns, compared between two runs",
 "a statement about pairs of executions: all server behaviours, all passwords",
 [Q+": authorize", G+": NewDigest, Authenticate"], WIP, [])
prop("C84","Opening a URL connects to the server it names",
 "Opening scheme://[user[:password]@]host[:port][path][?query] connects to that host at that port, 554 if none is given, with the decoded user and password as credentials and scheme://host:port path?query as the URI of the requests; over HTTP the tunnel is asked for first. A URL without a host or with an impossible port is refused.",
 "every URL of RFC 3986 with a name, IPv4 or IPv6 address, every percent-encoding, every reachability of hosts",
 "all URLs",
 ["net/rtsp/connection.go: Dial"], WIP, [])
prop("C85","Request URIs carry neither credentials nor blanks nor control characters",
 "Whatever text is given as URL, the URI put into requests contains no control character (so that it cannot end the request line), no blank, and none of the credentials.",
 "every byte string given as URL",
 "all strings",
 ["net/rtsp/connection.go: Dial"], WIP, [])
prop("C86","Segments of a playlist are addressed by file name",
 "The URI of a playlist's segments is the base URI with the file's own name as the last path segment, percent-encoded as needed, whatever directory the file is in.",
 "every base URI with a host, every path, every file name and directory",
 "all names and paths",
 ["net/hls/playlist.go: NewPlaylist"], WIP, [])
prop("C87","One request is one request",
 "Every request sent is, line by line, a request line with one of the six methods followed by the known header fields, each at most once and each on one line, and an empty line: neither the URL nor anything a server has sent (challenge, session id, transport, description) can add a line to a request.",
 "every URL, every stream of bytes from the server, every history of commands and turns of the loop, every protocol, every random source",
 "all URLs and all server behaviours",
 [Q+": command, handleRtsp, authorize", "net/rtsp/message.go: Pack", G+": Authenticate", "net/rtsp/connection.go: Dial"], WIP, [])
prop("C88","The playlist is a valid media playlist",
 "The rendered text is a media playlist as RFC 8216 requires (target duration, comma after each duration), from which a player reads the last segments added with their durations, byte ranges and URI.",
 "every ring size, every history of additions, every URI of one line, every formatter of durations",
 "all histories and all URIs",
 ["net/hls/playlist.go: String, AddSegment"], WIP, [])
prop("C89","A player that follows the playlist plays every segment",
 "A player that loads the playlist after every addition plays every segment added once, in the order of the additions.",
 "every ring size, every history of additions, players that heed the end mark and players that do not",
 "all histories, over repeated loads",
 ["net/hls/playlist.go: String, AddSegment"], WIP, [])
prop("C90","A segment keeps its media sequence number",
 "In all texts rendered over time in which a segment is listed, it has the same media sequence number.",
 "every ring size, every pair of moments in every history of additions",
 "relates texts rendered at different times",
 ["net/hls/playlist.go: String, AddSegment"], WIP, [])
prop("C91","A server that asks for credentials is given them and the session goes on",
 "When a server answers requests with challenges (401, Basic or Digest) and grants them otherwise, each challenged request is sent again under its number with the credentials RFC 2617 prescribes for that challenge and the URI of the session, every later request carries the credentials for the latest challenge, and the session gets ready, follows the commands and delivers all packets as without challenges.",
 "every user and password, every sequence of challenges for OPTIONS, DESCRIBE and each later command, every order of the answers to SETUP, every interleaving with packets and silences, every sequence of commands",
 "whole conversations with any number of challenges",
 [Q+": handleRtsp, authorize, command, enqueue", G+": NewDigest, Authenticate, response"], WIP, [])
prop("C92","How the network cuts the bytes cannot be seen",
 "What a session does (requests sent, stages announced, packets delivered, errors, end of the loop) depends only on the bytes received and on where silences longer than the timeout fall, not on how the bytes are cut into pieces by the network; the same holds for reading a single response and for the answer to an HTTP GET.",
 "every cutting of every byte stream with silences, every history of commands and turns of the loop, every state of the session, through the buffered reader of 2048 bytes",
 "all segmentations of all streams",
 ["net/rtsp/connection.go: Peek, ReadLine, ReadUint16, ReadByte, ReadBytes, Discard", Q+": receive, handleRtsp", "net/rtsp/message.go: Unpack", "net/rtsp/http.go: ReceiveHTTP"], WIP, [])
prop("C93","A response that is kept keeps its body",
 "The body of a response returned by Unpack stays what it was while further data is read from the connection.",
 "every connection, every sequence of reads before and after",
 "needs a model of memory shared between the reader and the response",
 ["net/rtsp/message.go: Unpack", "net/rtsp/connection.go: ReadBytes, Peek"], WIP, [])
prop("C94","Units do not depend on the buffer they came from",
 "What the sink holds (units, fragments, decoding order number) and the outcome of every call depend only on the bytes packets had when they were pushed, whatever the caller does with its buffers before and after; and a unit taken from the list of units stays what it was through everything that is pushed or written into those buffers later.",
 "every history of buffers made, bytes stored into them and parts of them pushed; every amount of spare capacity of every allocation",
 "needs a model of memory shared between the caller's buffers, the units and the fragments, over whole histories",
 ["net/h264/packet.go: Push, AddFragment, parseNAL, parseSTAP, parseMTAP", "net/h264/annexb.go: SplitAnnexB, EBSPToRaw"], WIP, [])
prop("C95","A list of units that is kept stays",
 "A list of units obtained from the sink after one packet is unchanged by the packets pushed after it.",
 "every history, every packet, every amount of spare capacity",
 "needs a model of memory shared between the sink and its caller",
 ["net/h264/packet.go: NewNALSink, Push, parseNAL"], WIP, [])
prop("C96","Units do not overlap",
 "A caller may append to the data of one of the units of a packet (for instance padding for a decoder) without changing another unit, a fragment waiting for its end, a unit kept from an earlier packet or a buffer of its own.",
 "every history, every unit, all bytes appended, every amount of spare capacity",
 "needs a model of slices with capacity into shared arrays",
 ["net/h264/packet.go: parseSTAP, parseMTAP, AddFragment"], WIP, [])
prop("C97","The program gets through its session",
 "Run over TCP against a server that grants every request after it has received it (in any order, with media packets, control packets and silences at any time), the program sends OPTIONS, DESCRIBE, a SETUP for every video stream, PLAY, PAUSE and TEARDOWN, in this order and numbered from 1; each SETUP goes to the URI of its stream and offers the next pair of channels, the others go to the base URI. While it has not finished, either it has something to do or the server owes it an answer, so it never gets stuck. It takes a number of steps bounded by the number of streams, of packets and of silences, and it ends only by itself, when all requests are answered.",
 "every description with a video stream, every order of answers, every interleaving of the server, the session's loop and the client",
 "a liveness statement about all interleavings of three parties; a test sees one schedule",
 [Z+": main, stage, data and ticker handling", Q+": Open, options, describe, setup, play, pause, teardown, processing"], WIP, [])
prop("C98","The program does what its command line says",
 "Started with one RTSP URL, the program makes one connection, to the host and port the URL names (554 if it names none), and against a server that grants its requests it goes through OPTIONS, DESCRIBE, SETUP, PLAY, PAUSE and TEARDOWN of the presentation named by the URL, without its credentials. Started with anything but one argument, or with an option, or with a port above 65535, it ends without making a connection.",
 "every list of arguments, every RTSP URL (scheme, credentials, host name or address, port, path, query), every set of reachable addresses, every granting server",
 "ranges over all URLs and over all executions of the whole program",
 [Z+": main, handleStates", Q+": Open", "net/rtsp/connection.go: Dial"], WIP, [])
prop("C99","Decoding order can be restored",
 "In the interleaved mode of RFC 6184 (STAP-B, MTAP, FU-B), DonDiff of the numbers of two units that were exposed is their distance in decoding order, if that is below 32768; so an application that sorts by it decodes in the right order.",
 "every pair of units less than 32768 apart, every position in the 16-bit cycle, whatever was received before and in between",
 "ranges over all pairs of packets and all histories between them",
 [K+": parseSTAP", K+": parseMTAP", K+": parseNAL", K+": DonDiff"], WIP, [])
prop("C100","A response is received whatever the length of its content",
 "A well-formed response to an outstanding request is received and acted upon, however long its content (a session description, for one) is.",
 "every response, every content length, every state of the session",
 "the limit is a buffer size that appears nowhere in the interface",
 [Q+": handleRtsp, process", "net/rtsp/message.go: Unpack", "net/rtsp/connection.go: ReadBytes, Dial"], WIP, [])
prop("C101","Of the schemes a server offers, Digest is taken",
 "When a 401 response offers several authentication schemes, one field each, and a usable Digest challenge is among them, the retransmission answers that one: the password does not go out as Basic credentials, and the session does not end, whatever the order of the offers.",
 "every list of offers in every order, every request, every user and password",
 "ranges over orders and combinations of header fields",
 [Q+": handleRtsp, authorize", "net/rtsp/message.go: MessageHeader.Set, Unpack", G+": NewDigest"], WIP, [])
prop("C102","A request from the server does not end the session",
 "RTSP servers may send requests of their own on the connection (ANNOUNCE, GET_PARAMETER, SET_PARAMETER, REDIRECT). The session goes on when one arrives.",
 "every method, URI, header and content, every state of the session",
 "ranges over all requests and all states",
 [Q+": handleRtsp, process", "net/rtsp/message.go: Unpack"], WIP, [])
prop("C103","A refused command is reported",
 "When the server answers PLAY, PAUSE or TEARDOWN with a status other than 200 (and 401), the application is told, so that it can go on; in particular the command-line program ends.",
 "every refused command, status, state of the session, every continuation",
 "says what happens after every continuation, including no further input at all",
 [Q+": handleRtsp", Z+": handleStates"], WIP, [])
prop("C104","Nothing else in a response has an effect",
 "What a session sends, announces and delivers depends on a response through its status code, its content and its fields CSeq, Session, Transport and WWW-Authenticate alone: two histories whose responses agree in these are the same to the server and to the application, whatever the reasons and all other fields say.",
 "every two histories of commands, frames, silences and responses over any transport, from every state",
 "a relation between two executions, over all pairs of responses",
 [Q+": handleRtsp, handleSetup, authorize, KeepAlive, process", "net/rtsp/message.go: Unpack"], WIP, [])
prop("C105","Only methods the server lists are used",
 "A session does not use a method that the server's answer to OPTIONS does not list in its Public field.",
 "every list, every granting server",
 "ranges over all lists of methods",
 [Q+": handleRtsp, Describe, Setup"], WIP, [])
prop("C106","A stream is set up at the URI the description gives",
 "The URI of a SETUP request is the control attribute of the stream, resolved as RFC 2326 C.1.1 says against Content-Base, Content-Location or the URI of the DESCRIBE request: full URIs as they are, * as the base itself, others relative to the base.",
 "every description, control attribute and base, every granting server",
 "ranges over all combinations of base and control URIs",
 [Q+": Setup, handleRtsp"], WIP, [])
prop("C107","The output tells what was received",
 "For each media packet the client takes it prints its channel, payload type, number of sources, marker and sequence number; for each control packet its channel, type, length and count; and for each NAL unit its forbidden bit, reference indication, type and size, in the order of the units.",
 "every execution of the program, every conversation, every way to carry the units in packets",
 "the lines depend on the state of the sink and on all headers, over unbounded conversations",
 [Z+": handleStates", "net/h264/packet.go: ZeroBit, RefIdc, Type", "net/rtp/packet.go: PT, CC, M", "net/rtcp/packet.go: C"], WIP, [])
prop("C108","The output does not give the password away",
 "What the client prints does not allow to recover the password of the URI.",
 "every history of commands, responses and challenges",
 "what is printed for one password has to be compared with what is printed for all others",
 [Q+": command, handleRtsp"], WIP, [])
prop("C109","A response packed again is the same response",
 "Response.Pack gives a text that, read by Unpack, is the response again, and of which nothing is left over.",
 "every response read from any bytes, every order of the fields",
 "ranges over all responses and all iteration orders of the header map",
 ["net/rtsp/message.go: Response.Pack, Unpack"], WIP, [])
prop("C110","The fragment of a URL stays with the client",
 "The fragment of the URL a session is opened with (what follows #) is not sent to the server: requests name the URL without it.",
 "every RTSP URL with a fragment",
 "ranges over all URLs and fragments, with all encodings",
 [N+": Dial"], WIP, [])
prop("C111","A session may be used by several goroutines",
 "Goroutines that call methods of one session, beside the session's own loop, never touch the same part of it at the same time, one of them changing it.",
 "every number of goroutines, every sequence of calls, every order of their steps",
 "a race shows only in some orders of steps, and the race detector only sees the order that happened",
 [Q+": Session, command, enqueue, dequeue, Setup, KeepAlive, process, handleRtsp, handleSetup", N+": AddSink, Start, Stop", G+": response"], WIP, [])
prop("C112","Each request carries its own authorization",
 "Requests made at the same time by several goroutines each carry the authorization for their own method.",
 "every digest, all requests, every order of steps",
 "the failure needs one order of steps among many",
 [G+": response, Authenticate", Q+": command"], WIP, [])
prop("C113","Streams are set up whatever else is asked meanwhile",
 "When the server grants all SETUP requests the session becomes ready, whatever commands other goroutines issue while the streams are being set up.",
 "every description, all commands at every moment of Setup, all orders of the answers",
 "the failure needs a command at one moment of another goroutine's call",
 [Q+": Setup, handleSetup"], WIP, [])
prop("C114","The fragments of a sink are those of the unit being received",
 "Between packets a sink holds the fragments of the unit being received, in order, marked as their packets marked them, and none when no unit is under way.",
 "every sequence of payloads",
 "ranges over all sequences of payloads; the leftovers show only in the state after the unit",
 [K+": Push, NALFragment, IsStart, IsEnd"], WIP, [])
prop("C115","A text that is not an RTSP URL is refused",
 "Opening a text that is not an RTSP URL fails, and connects to nothing.",
 "every text, every state",
 "ranges over all texts; what is accepted by mistake is found only by knowing where to look",
 [N+": Dial"], WIP, [])
prop("C116","The program gets through its session with a server that asks for credentials",
 "Whatever requests the server asks credentials for, as often as it likes, the program repeats each with the credentials of its challenge, uses them from then on, asks for everything planned in order, and ends when all is done; until then it can go on or waits for the server.",
 "every set of streams, user, password, every sequence of challenges (Basic or Digest), answers and packets, every scheduling",
 "ranges over all interleavings of challenges with packets, answers and the program's own events; the failure needs two requests under way",
 [Q+": authorize, command, enqueue, dequeue, handleRtsp, handleSetup", G+": NewDigest, Authenticate", Z+": handleStates"], WIP, [])
prop("C117","Parameter sets are understood in the form they are sent in",
 "A sequence or picture parameter set that arrives as a NAL unit, in band or in sprop-parameter-sets, is stored with its values, wherever the standard has escape bytes inserted.",
 "every legal parameter set, every state of the store",
 "escape bytes depend on the alignment of long runs of zero bits; sets with one before the last field read are rare among samples",
 [S+": ParseSprop, ParseSPS, ParsePPS", K+": Push"], WIP, [])
prop("C118","An application takes from the channels what it cares for",
 "Stages and packets reach the application in order and complete; the session goes on reading whichever of the two channels the application listens to.",
 "every application (commands and takes in any order), every stream from the server, every scheduling",
 "ranges over all applications and all interleavings; the session stands still only after the 21st packet not taken or a stage not taken",
 [Q+": receive, process, notify, Open", N+": Dial"], WIP, [])
prop("C119","A playlist can be served while segments are added to it",
 "String, called by one goroutine while another one is in AddSegment, gives the text before or after the segment: only segments that were added, in order, with their durations and byte ranges.",
 "every ring size, every sequence of segments, every interleaving of the loads of String with the stores of AddSegment",
 "ranges over all interleavings of two goroutines; a test that does not happen on the few bad ones passes",
 [H+": String, AddSegment"], WIP, [])
prop("C120","Requests about the whole presentation go where the description says",
 "PLAY, PAUSE, TEARDOWN and keep-alives go to the URI that the description gives for the whole presentation: its session-level control attribute, else Content-Base, Content-Location or the URI asked for.",
 "every session, every stream from the server, every sequence of commands",
 "ranges over all histories of a session; servers that accept the opened URI as well hide the mistake",
 [Q+": Options, Describe, Setup, Play, Pause, Teardown, KeepAlive, command, handleRtsp"], WIP, [])
prop("C121","A session can be opened again",
 "Open on a session that is over goes on as on a new session: the description is asked for, the streams are set up and Ready is announced when they are; the new server is told nothing of the old session.",
 "every session state, every URL, every stream from the new server",
 "ranges over everything a former session can leave behind; tests use a new session each",
 [Q+": NewSession, Open, authorize, handleRtsp, handleSetup", N+": Dial"], WIP, [])
prop("C122","The ports are free again when the session is over",
 "When the server has acknowledged TEARDOWN, or the connection is lost, the UDP ports the session listened on are closed.",
 "every session, every stream from the server, every sequence of commands",
 "ranges over all histories; a leak of two ports per stream shows only in programs that open many sessions",
 [Q+": handleSetup, Teardown, process", N+": AddSink, Start, Stop"], WIP, [])
prop("C123","The session does not time out at the server while it is used",
 "While a session plays, the server gets a request at least once in the time it has set in the Session field (60 seconds unless given).",
 "every session, every stream from the server, every clock, every timeout",
 "needs minutes of real time per case and ranges over all clocks and timeouts",
 [Q+": process, KeepAlive, handleSetup"], WIP, [])
prop("C124","A challenge is understood in every form the standard allows",
 "A WWW-Authenticate field written in any form of RFC 2617 is understood: values with or without quotes and with commas in the quotes, blanks between the parts, scheme and names in any case, parameters that are not known, several challenges in one field.",
 "every challenge of the grammar",
 "ranges over the whole grammar; each server uses one form, and those at hand the simplest",
 [G+": NewDigest"], WIP, [])
prop("C125","The packets of a compound RTCP packet can be read one after the other",
 "A program that calls Unpack, goes on behind the packet by its length field and calls Unpack again gets every packet of a compound RTCP packet in order, whatever comes behind; and what it gets of a packet depends on the bytes of that packet alone.",
 "every sequence of packets, every content, every rest behind them",
 "ranges over all sequences of packets with all contents; tests unpack single packets",
 [C+": Unpack, Packet"], WIP, [])
prop("C126","Done is the end",
 "After Done has been announced no other stage is announced, no packet is passed on, the session sends nothing of its own accord, and its loop ends.",
 "every history up to Done, every stream from the server after it",
 "ranges over all histories and all answers that are still under way; tests end at Done",
 [Q+": process, receive, handleRtsp, notify, KeepAlive, Teardown"], WIP, [])
prop("C127","The order of the attributes of a stream does not matter",
 "Two descriptions that differ only in the order of the attribute lines of a stream give the same stream.",
 "every description, every set of attribute lines, every two orders of them",
 "ranges over all permutations of all sets of lines; tests have one order",
 [D+": Parse"], WIP, [])
prop("C128","A stream with several formats is described by one of them",
 "When a media line offers several formats, the mapping, the codec, the clock rate and the parameter sets reported for the stream are those of the payload type reported.",
 "every list of formats, every sequence of attribute lines about them",
 "ranges over all lists of formats and lines; the test has one format per stream",
 [D+": Parse, Media"], WIP, [])
prop("C129","Two sessions do not ask for the same ports",
 "Two sessions that receive over UDP on one machine ask their servers for different ports, so each gets its own packets.",
 "every two sessions, every two descriptions",
 "ranges over all pairs of sessions and descriptions, and needs two servers at a time",
 [T+": NewTransport", "net/rtsp/feed.go: ParseFeeds, TransportHeader", Q+": Setup"], WIP, [])
prop("C130","What a server sends over UDP can be received",
 "A datagram that the server sends to this machine, or to the multicast group, on the port of a stream reaches the listener of the stream.",
 "every session, every address of the machine or the group, every port",
 "ranges over the addresses of all networks; a test runs on one machine, where the loopback address works",
 [N+": AddSink", Q+": handleSetup"], WIP, [])
prop("C131","A transport that was not asked for is not accepted in silence",
 "If the server answers SETUP with another transport than was asked for, or with none, the caller is told instead of being told that all is ready.",
 "every session, every stream, every transport in the answer",
 "ranges over all answers to all requests; the servers at hand grant what is asked",
 [T+": Parse", "net/rtsp/feed.go: TransportSetup", Q+": handleSetup"], WIP, [])
prop("C132","A request that cannot be sent does not go unnoticed",
 "If a request cannot be written, be it the application's or one that the session sends of its own accord, the application is told or the session ends.",
 "every session, every request, every error of the connection",
 "needs a connection that fails at each of the writes in turn, with each kind of error",
 [Q+": command, Setup, KeepAlive, process", N+": Write, isTimeoutOrTemp"], WIP, [])
prop("C133","Transport parameters left out have their default values",
 "Reading a Transport field into a fresh Transport gives every parameter that the field leaves out the default that RFC 2326 12.39 names (multicast, mode PLAY); reading it into one that is set up already leaves those parameters as they are.",
 "every Transport field, every Transport read into, every parameter",
 "ranges over all combinations of parameters and all values",
 [T+": Parse"], WIP, [])
prop("C134","A redirected session goes to the new location",
 "After an answer of the class 3xx that gives a Location, the request is made again there, and the session goes on with that server.",
 "every session, every stream from the server, every location",
 "ranges over all servers that redirect, at every point of the handshake",
 [Q+": handleRtsp, Describe, command"], WIP, [])
prop("C135","The session goes on only when the server has agreed",
 "An answer whose status is not of the class 2xx, 401 aside, does not take the session a step further: DESCRIBE is sent only after OPTIONS succeeded, SETUP only after DESCRIBE did.",
 "every session state, every answer",
 "ranges over all statuses of all answers; the servers at hand send no content with an error",
 [Q+": handleRtsp, Describe, Setup"], WIP, [])
prop("C136","A header field may stand on several lines",
 "A field that is continued on further lines (each beginning with a blank or a tab) has the value it would have on one line; several fields of one name have the value of one field with the list of their values.",
 "every response, every field, every number of lines",
 "ranges over all ways to write a header; the servers at hand write one line per field",
 [M+": Response.Unpack, MessageHeader.Set", Q+": process"], WIP, [])
prop("C137","Requests nobody answers are not kept for ever",
 "What a session keeps about the requests it has sent does not grow without bound while the session lives, even if the server leaves requests unanswered.",
 "every session, every server, every number of keep-alives",
 "ranges over sessions of any length; a test sees a few requests, all of which are answered",
 [Q+": enqueue, dequeue, KeepAlive, process"], WIP, [])
prop("C138","Whichever channels the server grants",
 "A server may grant a stream other channels of the connection than were asked for. Whichever it grants, the packets of the stream are shown as they would be on the channels asked for.",
 "every stream, every choice of channels, every sequence of packets",
 "ranges over all choices of a server; servers at hand grant what was asked for",
 [Z+": handleStates", Q+": receive, handleSetup", T+": Parse"], WIP, [])
prop("C139","Every unit is shown once, in the order it was sent",
 "Packets may come twice or out of order, and packets of other sources or payload types may come on the same channel. The units of the stream are shown once each, in the order of the sequence numbers, and nothing is shown of the other packets.",
 "every sequence of packets, every order of arrival, every header",
 "ranges over all that a network does to the order of packets; a test replays a recording",
 [R+": Unpack", K+": Push", Z+": handleStates"], WIP, [])
prop("C140","What a control packet says can be had",
 "Of every legal RTCP packet Unpack returns the contents: the sources and the reason of a goodbye, the blocks of a receiver report, the items of a source description. A program that is told goodbye takes notice.",
 "every legal packet, every contents, every compound packet",
 "ranges over all contents of packets; a test has a few",
 [C+": Unpack", Z+": handleStates"], WIP, [])
prop("C141","A parameter set the standard does not allow is refused",
 "A sequence or picture parameter set that is well formed but has a value out of the range of the standard (number, colour format, bit depth, picture size less than the cropping, number of reference pictures, quantiser, or a picture parameter set for a sequence parameter set that is not there) is refused with an error and not stored.",
 "every set that can be written, every value out of range",
 "ranges over all values of all fields; a test has a few wrong sets",
 [S+": ParseSPS, ParsePPS"], WIP, [])
prop("C142","The server reads the user's name from the Authorization field as it was given",
"For every challenge accepted, every user name and password and every history of requests: reading the value returned for a request as RFC 2617 writes it (parameters separated by commas, quoted strings ending at the first quote that is not escaped, a backslash standing for the next character; for Basic, the name ending at the first colon of the decoded text) gives the user name, and for digests the address and the realm, nonce, opaque, algorithm and qop of the challenge.",
"for all challenges, addresses, user names, passwords, random values and histories of requests and renewals",
"User names in tests are plain words; names with a backslash (DOMAIN\\user), a quote or a colon are endlessly many, and the claim that nothing in the value changes how the rest is read is about all of them.",
[G+": Authenticate", G+": response", G+": NewDigest"], WIP, [])
prop("C143","The parameters of the Authorization field have the form of the standard",
"Every digest response is written as RFC 2617 3.2.2 says: user name, realm, nonce, uri, opaque, cnonce and response as quoted strings, algorithm, qop and nc as tokens.",
"for all challenges, addresses, user names, passwords, random values and histories of requests and renewals",
"A test compares one header with one expected text, usually copied from the output; the form has to hold of every header.",
[G+": Authenticate", G+": response"], WIP, [])
prop("C144","Zero bytes around the units of a byte stream belong to none of them",
"For every list of NAL units and every number of zero bytes before each start code and at the end (leading_zero_8bits, zero_byte and trailing_zero_8bits of H.264 Annex B), SplitAnnexB returns exactly the units.",
"every non-empty list of units, every number of zero bytes before each start code and behind the last unit",
"The zero bytes may be any number at every place; a test has streams with three- and four-byte start codes.",
[A+": SplitAnnexB"], WIP, [])
prop("C145","All the streams that were set up are played",
"The session that PLAY names is the session of every stream that was set up, also with a server that begins a session for each SETUP request that names none (RFC 2326 10.4 and 12.37).",
"every description, number of streams, order of the answers to SETUP, placement of frames and silences, session identifiers, later commands",
"A test server hands out one identifier; with one per SETUP request the outcome depends on which answer comes last, over all orders and numbers of streams.",
[M+": Request.Pack", Q+": Setup", Q+": handleResponse"], WIP, [])
prop("C146","Timeout bounds every read",
"With the exported field Timeout positive, a read of a connection returns what it asks for if and only if it comes within Timeout from the start of the call, and otherwise fails with a timeout at that moment, unless the connection ended; with Timeout zero a read waits for as long as it takes.",
"every sequence of reads and of assignments to Timeout, at any times, every division of the incoming bytes into arrivals at any times, with the connection ending or not",
"A test runs on one clock with one spacing of the arrivals; a deadline that outlives the setting it came from shows only in a history with a change of Timeout and a pause behind it.",
[N+": ReadLine", N+": Peek", N+": ReadByte", N+": ReadUint16", N+": ReadBytes"], WIP, [])
prop("C147","The server receives whole requests",
"What a server reads from the connection is a sequence of whole requests, those that were sent; after one that could be written only in part no other follows on the same connection.",
"every URL, every stream of bytes from the server, every history of commands and turns of the loop, every point at which a write is cut",
"A write is cut by a full buffer and a deadline, which a test on the loopback does not see; where it is cut and what comes behind it is left to the network.",
[N+": Write", Q+": command"], WIP, [])
prop("C148","Requests carry the credentials for the latest challenge",
"Whatever the server sends and the application asks for: no request carries an Authorization value before one has been repeated after a 401; from then on every request carries the value that the challenge of the latest such answer, the user's name and password and the request's own method give, so that the server reads its own challenge and the user's name from it.",
"every user and address, every stream of bytes from the server, every history of commands and turns of the loop, every protocol but HTTP tunnelling, every moment of the history",
"A test has one challenge and a few requests; that no history of challenges, commands, failed writes and errors ever leaves a request with the credentials for an older challenge, or with another method's, is a statement about all of them.",
[Q+": command", Q+": handleRtsp", G+": Authenticate"], WIP, [])
prop("C149","A segment's duration is read from the playlist as it was given",
"In whatever text the playlist gives out, the duration of every segment listed is a decimal number that rounds to exactly the number given to AddSegment and to no other, for every finite number that is not negative; for any other value (an infinity, NaN, a negative sign) the text is no number, so that a player never takes it for another duration.",
"every size of the playlist, every file name, every history of additions, every float64",
"There are 2^64 durations; that none of their shortest texts rounds to a neighbour, in particular next to a power of two and among the smallest numbers, and that no later addition changes a duration already listed, cannot be settled by examples.",
[H+": String", H+": AddSegment"], WIP, [])
prop("C150","The loop of a session does not spin",
"While the loop of a session goes on, each of its turns has used up at least one byte the server sent or one pause as long as the read timeout; so whatever the server sends, whatever the application asks for in between and whichever writes fail, the loop takes at most one turn for each byte and pause, and it is over at the latest one turn after the end of the connection has been reached.",
"every session in any state, every stream of bytes, pauses and end, every history of commands and turns, every pattern of failed writes and listeners",
"Endless loops show only for the inputs that cause them; that no response, frame, error or failed write leaves the loop going without having read anything is a statement about all of them.",
[Q+": process", Q+": receive", Q+": handleRtsp", M+": Unpack"], WIP, [])
prop("C151","A response reads the same whatever ends its lines",
"Unpack takes CR LF, LF and CR alike as the end of a line (RFC 2326 4): the same response with other line ends, mixed in any way, gives the same result, an error included, and leaves the same bytes to be read after it.",
"every status line and list of header lines, well-formed or not, every choice of the end of each line, every content and whatever follows",
"There are as many ways to end the lines as there are combinations of ends, and a wrong one moves the border between the head and the content; a test has a few.",
[M+": Unpack", N+": ReadLine"], WIP, [])
prop("C152","A description reads the same whatever ends its lines",
"Parse takes CR LF and LF alike as the end of a line (RFC 4566 5) and does not need the end of the last one: the same description with other line ends, mixed in any way, gives the same feeds.",
"every list of lines, well-formed or not, every choice of the end of each line, with or without the last one",
"A stray CR would only show in the last value of some line of some description; a test has a few descriptions with one kind of line end.",
[D+": Parse"], WIP, [])
prop("C153","A feed says of its stream what the description says",
"The feeds of a session are, at any time, the video sections in order of one description the server sent in this session, and every sequence or picture parameter set a feed can be asked for was read from one of the units its own section gives: nothing the server sends besides, and no section of another stream, ever changes them.",
"every stream of bytes, pauses and end, every history of commands and turns, every pattern of failed writes and listeners",
"A test looks at the feeds after one exchange; that no other response, frame or error, in any order, mixes up the sections or their parameter sets is a statement about all histories.",
[Q+": handleRtsp", "net/rtsp/feed.go: ParseFeeds", "net/rtsp/feed.go: TransportSetup", S+": ParseSprop"], WIP, [])
prop("C154","Parameter sets sent in the stream become known",
"A parameter set that is sent in the stream (RFC 6184 8.4; SPSInfo: parsed from out-of-band or in-band data in the stream) can be had from the feed once its packet has been delivered.",
"every session, every history, every packet",
"In which of all histories the feed learns a set cannot be told by examples.",
[Q+": receive", "net/rtsp/feed.go: TransportSetup", S+": ParseSPS"], WIP, [])
prop("C155","The log is a record of the session",
"Every message the client sends or receives is in the log it prints, once and in the order of exchange, next to nothing but notices and errors; every stage it is told of is named there in order, and every tick of its timer with the stage it finds, with a notice if it closes the session; and when the client ends by itself, the last entry is the error that ended it, or the tick after the end of the session.",
"every execution of the program: every order of turns, stages, packets, ticks and expiries, whatever the server sends and whichever writes fail",
"A test sees the output of a few conversations; that nothing exchanged is ever missing or out of order, and that no way to end is silent, is a statement about all executions.",
[Z+": handleStates", Q+": command", Q+": handleRtsp"], WIP, [])

prop("C156","Every entry of the output begins a line",
"The client prints its log to standard output; whatever the server does, every entry of it begins a line of its own, so that the output can be read line by line.",
"every execution of the program and every order in which the texts printed by its goroutines reach standard output",
"Whether two goroutines' texts ever share a line depends on the server's answers and on the schedule; a test sees one of each.",
[N+": Start", Z+": handleStates", Q+": handleSetup"], WIP, [])

prop("C157","A playlist that was made can be used",
"NewPlaylist returns an error unless the base is a URL, the file exists and can be read, and there is room for at least one segment; the playlist it returns otherwise takes segments and shows them.",
"every base, file name, number of segments and state of the file system, and every history of segments",
"A test makes a playlist of one file with one size; the sizes and files that break it, and the histories that follow, are without end.",
[H+": NewPlaylist", H+": AddSegment", H+": String"], WIP, [])

prop("C158","A request names only a session the server has given",
"Every Session field of a request is an identifier that the server gave in a response of this session before the request was sent.",
"every stream of bytes from the server, every history of commands and turns of the loop, every protocol",
"Where an identifier comes from depends on the whole history; a test looks at one request of one conversation.",
[Q+": handleRtsp", Q+": KeepAlive", M+": Pack"], WIP, [])

prop("C159","The tunnel through HTTP is opened only when the server agrees",
"A session over HTTP is opened exactly when the server answers the GET with status 200 in a version of HTTP a client of HTTP/1.0 has to accept; the whole head of the answer is taken and what follows it is left for RTSP.",
"every URL, every answer of the server, every way its lines end, whatever follows",
"The answers of servers have no bound; a test tries a few, and against a server that says yes.",
[X+": ReceiveHTTP", N+": Dial"], WIP, [])

prop("C160","Only the streams asked for are shown",
"What is passed to the application and shown are packets of the streams that were set up, on the channels the server granted for them, while they are played.",
"every state of a session, every channel, every sequence of packets, every history",
"A test sees the packets its own server sends, which are those that were asked for.",
[Q+": receive", Z+": handleStates"], WIP, [])

prop("C161","A session goes on while the server answers what it is asked",
"Over the connection or over UDP, as long as every response that arrives answers a request that has not been answered, its content is a description that can be read, its transport can be read, and it asks for credentials only if there are some and in a form that can be read, the session's loop goes on: it takes everything that arrives, in order, and announces or delivers it. This holds whatever commands the application gives and whenever, whichever requests the server refuses, in whatever order it answers, and however the clock goes, so also with keep-alives in between.",
"every protocol but HTTP, every history of commands, turns and clock readings, every sequence of responses (any status), packets and silences",
"Unit tests can try a few conversations; commands, keep-alives and answers interleave in unboundedly many ways, and one error anywhere in the handling of a response ends the loop for good.",
[Q+": process", Q+": receive", Q+": handleRtsp", Q+": handleSetup", Q+": KeepAlive"], WIP, [])

prop("C162","A parameter set damaged in the description is not taken for another",
"Of each parameter set in the description (sprop-parameter-sets, in base64) the feed has the bytes that its text stands for, and none of a text that stands for nothing; likewise the configuration in hexadecimal.",
"every description, every video section, every fmtp attribute of two or more parameters, whatever their texts",
"A test describes with sets that are well formed; damaged ones differ in where and how, and what is made of each is a matter of every text there is.",
[D+": Parse"], WIP, [])

prop("C163","A duration is written with no digit too many",
"In every playlist, the text of a segment's duration has no more digits than tell it from every other float64: no decimal number with fewer stands for it, and of those with as many none that does is nearer.",
"every playlist, every history of segments, every finite duration that is not negative",
"There are 2^63 durations; a test prints a few, most of them round, where the digits are few anyway.",
[H+": String"], WIP, [])

prop("C164","A stream in another format is not taken for H.264",
"A video stream whose description names a format other than H.264 is not set up, or what is received of it is not shown as H.264 units.",
"every session and execution of the client, every description, every H.265 packet",
"A test uses the one format the client reads; that another makes no difference at all is a claim about two sessions and all their histories.",
[Q+": handleRtsp", D+": Parse", Z+": handleStates"], WIP, [])

prop("C165","Parameter sets may come in either order",
"What is known after a sequence parameter set and a picture parameter set that names it does not depend on which of them was given first; nor does what is known after any number of sets with numbers of their own depend on their order.",
"every two sets, as any bytes, every list of sets and every order of it, and every state of what is known before",
"The order matters for a few picture parameter sets only, those with scaling lists for the 8x8 transform; that it matters for no others, and for each of these, takes all of them.",
[S+": ParseSPS", S+": ParsePPS"], WIP, [])

prop("C166","The program takes each of its steps once, whatever the server does",
"Whatever the server sends and whatever fails, the program at any moment has asked for the beginning of: OPTIONS, DESCRIBE, some SETUPs, PLAY, PAUSE, TEARDOWN, each once (not counting requests repeated with credentials); it has taken a beginning of the stages ready, playing, paused, done; and when its timer ends it, all of them.",
"every conversation over TCP, every order of events, every outcome of every read and write, as long as no description has 2^62 streams",
"A test replays a few servers; that no answer given twice, late, out of order or for another request makes the program play, pause or tear down twice is a statement about all conversations.",
[Z+": handleStates", Q+": handleRtsp", Q+": handleSetup", Q+": dequeue"], WIP, [])

prop("C167","The program plays for five seconds and pauses for five seconds",
"PAUSE is sent at least five seconds after the program heard that the stream plays, TEARDOWN at least five seconds after it heard that the stream is paused, and the program ends (by its timer) at least five seconds after it heard that the session is done.",
"every conversation over TCP and all times of all events",
"The timer is shared by three waits; that no tick left over from one wait ends the next takes all interleavings of expiry, stages and packets.",
[Z+": handleStates"], WIP, [])

prop("C168","A stage is announced no more often than it was asked for",
"At every moment a session has announced Ready, Play, Pause and Done no more often than SETUP, PLAY, PAUSE and TEARDOWN have been requested; and for each announcement of the last three the server has sent an answer of its own with status 200.",
"every history of commands and receiver turns over TCP or UDP, every server, every outcome of every read, write and listen",
"An answer repeated by the server, or for a request repeated with credentials under another number, must not count twice; a test sees single conversations.",
[Q+": handleRtsp", Q+": handleSetup", Q+": enqueue", Q+": dequeue", Q+": notify"], WIP, [])

prop("C169","The client asks for nothing its application has not asked for",
"Whatever the server sends, in whatever order, and whatever the application does: PLAY, PAUSE and TEARDOWN are sent exactly as often as the application calls Play, Pause and Teardown; OPTIONS exactly as often as it calls Options or the session is due to be kept alive; DESCRIBE no more often than OPTIONS has been sent plus Describe called; SETUP, when the application leaves it to the session, once at most for every m=video in the responses received; and a request is sent again no more often than credentials have been asked for (status 401). So no server can make the client send requests without end of its own accord.",
"all sessions over TCP or UDP, all sequences of calls and turns of the loop, all bytes the server may send, all failures of writes and listeners",
"A test can show that one hostile conversation does not multiply requests; that none does is a statement about all conversations.",
[Q+": handleRtsp", Q+": command", Q+": KeepAlive", Q+": Setup", D+": Parse"], WIP, [])

prop("C170","No more comes out of a sink than was put in",
"Whatever payloads are pushed, the units an application is shown (headers and contents together, after each Push) have no more bytes than the payloads pushed so far: a sender cannot make the client handle more than it sends.",
"all sequences of payloads, of any bytes and any lengths",
"Amplification comes from odd sequences of packets, not from single ones; a test tries a few sequences.",
[K+": Push", K+": AddFragment", K+": parseSTAP", K+": parseMTAP", A+": SplitAnnexB"], WIP, [])

prop("C171","What is made of a stream does not depend on the streams that share its sink",
"When the payloads of several streams are pushed into one sink, as the command-line client does, the units that come of one of them, their contents, times and numbers, and what Push returns for it are the same as if its payloads were pushed alone.",
"all sequences of payloads of any number of streams, in any order, and all states of the sink",
"Interference is a statement about pairs of executions: every interleaving with the other streams against the stream alone.",
[K+": Push", K+": AddFragment", K+": parseNAL", K+": parseSTAP", K+": parseMTAP", Z+": handleStates"], WIP, [])

prop("C172","Media packets and silences do not disturb the session",
"Over TCP the media packets and the pauses between the responses make no difference to the session: the requests sent, the stages announced, the ports listened on and the end of the loop are the same as if the responses came alone.",
"all histories of commands and turns of the loop, all sequences of responses, packets and silences, all states of the session",
"It compares every execution with another one in which the packets are missing; tests look at single executions.",
[Q+": receive", Q+": process", Q+": handleRtsp", N+": ReadBytes"], WIP, [])

prop("C173","Lines of a description that are of no use are passed over",
"Lines of a session description that are neither media lines nor one of the attributes the library looks for (control, rtpmap, fmtp) may be added or left out anywhere without a change to the streams Parse returns.",
"all descriptions, all such lines, at all places",
"It compares the results for every description with and without every such line; a test has some lines some vendor sends.",
[D+": Parse"], WIP, [])

prop("C174","Unknown transport parameters and the order of the others",
"Parameters of a Transport field that the library does not know may be added or left out anywhere, and the parameters it does know may stand in any order, without a change to what Transport.Parse reads from the field.",
"all Transport values read into, all lists of parameters, all their permutations, all unknown parameters at all places",
"It compares the results for every field with those for every reordering of it and every addition to it; a test has a few fields some server sent.",
[T+": Parse"], WIP, [])

prop("C175","What comes after a parameter set does not change it",
"A parameter set that ParseSPS or ParsePPS can read from a buffer is read the same, and leaves the same sets known, when any other bytes come after it in the buffer.",
"all stores of parameter sets, all buffers, legal or not, all bytes after them",
"It compares every buffer with every longer one; tests have single buffers.",
[S+": ParseSPS", S+": ParsePPS"], WIP, [])

prop("C176","Byte streams one after the other give their units one after the other",
"SplitAnnexB applied to two byte streams with a start code between them returns the units it returns for the first followed by the units it returns for the second, so that a stream may be cut at its start codes and split piece by piece.",
"all byte sequences on both sides, legal streams or not, both forms of the start code",
"It relates the results for all pairs of streams and their concatenation; tests have single streams.",
[A+": SplitAnnexB"], WIP, [])

prop("C177","The clock of a stream may start anywhere",
"If the times given to Push with the payloads of a stream are all moved by the same amount, modulo 2^32, then so are the times of the units that come out of the sink, and nothing else about the units or the errors changes.",
"all sequences of payloads of any bytes with any times, all amounts",
"A sender starts its clock at a random value; the property compares all sequences with all their shifts, wrap-around included.",
[K+": Push", K+": parseSTAP", K+": parseMTAP", K+": AddFragment"], WIP, [])

prop("C178","Packets that differ are not read alike",
"If Unpack returns the same packet for two RTP packets, or for two RTCP packets, then the two are the same bytes: what an application, a recorder or a relay gets from Unpack is all there was in the packet.",
"all pairs of byte strings that Unpack accepts",
"It is a statement about every pair of packets; tests compare the fields of one packet with what was put there.",
[R+": Unpack", C+": Unpack"], WIP, [])

prop("C179","A change of the sequence parameter set can be seen",
"If two legal sequence parameter sets differ in a value of their syntax, VUI parameters included, then what ParseSPS keeps of them differs: an application that compares it sees that the stream has changed.",
"all pairs of legal sequence parameter sets and all stores",
"It is about every pair of parameter sets; tests parse a few and look at some fields.",
[S+": ParseSPS", S+": SPSInfo"], WIP, [])

prop("C180","A change of the picture parameter set can be seen",
"If two legal picture parameter sets differ in a value of their syntax, then what ParsePPS keeps of them differs.",
"all pairs of legal picture parameter sets and all stores of sequence parameter sets",
"It is about every pair of parameter sets; tests parse a few and look at some fields.",
[S+": ParsePPS", S+": PPSInfo"], WIP, [])

prop("C181","A byte stream can be split as it comes",
"Of the part of a byte stream that has come so far, all units that SplitAnnexB returns but the last are final: whatever comes later, they are the first units of the whole. The bytes of all units but the last can be dropped: SplitAnnexB applied to the bytes that made the last unit, with what comes later behind them, returns the remaining units of the whole, even if the cut is within a start code or an emulation prevention sequence.",
"all byte sequences, legal streams or not, cut anywhere, and all continuations of them",
"It relates the results for all beginnings of a stream to those for all continuations; tests have single streams.",
[A+": SplitAnnexB, EBSPToRaw"], WIP, [])

prop("C182","Escaping makes a unit little longer and never makes two units alike",
"Where RBSPToEncapsulated returns, what it returns is at least as long as its argument and at most a third longer, so that a buffer can be sized beforehand; EBSPToRaw returns at most as many bytes as it is given and at least two thirds of them. RBSPToEncapsulated returns exactly its argument if and only if nothing in it is to be escaped (two zero bytes followed by a byte up to 3 or by the end). It returns different bytes for different units.",
"all byte sequences of all lengths, all pairs of them",
"Bounds over all lengths and a comparison of the results for all pairs of units; tests have single units.",
[A+": RBSPToEncapsulated, EBSPToRaw"], WIP, [])

prop("C183","A number may be read in pieces",
"Calling ReadBits for n bits and then for m bits returns the upper and the lower part of the number that one call for n + m bits returns from the same place, and leaves the same number of bits available.",
"all buffers, all states of the reader that calls can lead to, all widths of both pieces",
"It relates three calls in all states of the reader, at all positions within a byte and all widths; tests have single sequences of calls.",
[B+": ReadBits, Available"], WIP, [])

prop("C184","A unit may be escaped and unescaped piece by piece",
"What RBSPToEncapsulated returns for a unit is what it returns for the pieces of the unit, one after the other, and likewise for EBSPToRaw, so that a long unit need not be held in one piece.",
"all byte sequences, cut in two anywhere",
"It relates the results for all units and all places to cut them; tests have single units.",
[A+": RBSPToEncapsulated, EBSPToRaw"], WIP, [])
