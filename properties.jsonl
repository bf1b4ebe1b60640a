{"id": "C01", "title": "ReadBits returns the next n bits, most significant first", "statement": "After any sequence of reads and skips on a BitReader over any buffer, a successful ReadBits(n) returns the integer whose n-bit big-endian representation is the next n unread bits of the buffer, and exactly those n bits become read.", "quantifier": "every byte buffer, every reachable reader position, every n in 0..32", "why_tests_cant": "value depends on buffer contents, bit alignment and n jointly; the unit test tries three alignments on one two-byte buffer", "anchors": ["net/h264/bits.go: ReadBits", "net/h264/bits.go: NewBitReader"]}
{"id": "C02", "title": "Bit reader bounds and failure atomicity", "statement": "A read or skip of more than 32 bits, or of more bits than Available() reports, fails with io.ErrUnexpectedEOF and leaves the reader unchanged; any other read succeeds without an out-of-range access; Available() always equals total bits minus bits read.", "quantifier": "every buffer, every sequence of reader operations", "why_tests_cant": "must hold in every reachable position; an out-of-range access is a crash on attacker-controlled input", "anchors": ["net/h264/bits.go: Available", "net/h264/bits.go: ReadBits", "net/h264/bits.go: SkipBits"]}
{"id": "C03", "title": "ReadUnsignedGolomb inverts the ue(v) code", "statement": "Reading a ue(v) codeword (H.264 9.1) for any codeNum v in 0..2^32-2 at any bit position yields v and consumes exactly the codeword.", "quantifier": "every v in range, every bit alignment, every following content", "why_tests_cant": "2^32 values times 8 alignments", "anchors": ["net/h264/bits.go: ReadUnsignedGolomb"]}
{"id": "C04", "title": "ReadSignedGolomb inverts the se(v) code", "statement": "Reading an se(v) codeword (H.264 9.1.1) for any value in the se(v) range at any bit position yields that value and consumes exactly the codeword.", "quantifier": "every signed value in range, every alignment", "why_tests_cant": "as C03", "anchors": ["net/h264/bits.go: ReadSignedGolomb"]}
{"id": "C05", "title": "Skipping equals reading and discarding", "statement": "SkipBits(n) fails exactly when ReadBits(n) fails and otherwise leaves the reader in exactly the state ReadBits(n) would; SkipGolomb likewise against ReadUnsignedGolomb.", "quantifier": "every buffer, reader position and n", "why_tests_cant": "equality of two state transformers over all states", "anchors": ["net/h264/bits.go: SkipBits", "net/h264/bits.go: SkipGolomb"]}
{"id": "C06", "title": "ReadScalingList implements scaling_list()", "statement": "For every sequence of delta_scale values the list filled in and the use-default flag equal those of the scaling_list syntax of H.264 7.3.2.1.1.1.", "quantifier": "every list length, every sequence of delta values in -128..127", "why_tests_cant": "unbounded sequences of deltas with an early-termination mode", "anchors": ["net/h264/bits.go: ReadScalingList"]}
{"id": "C07", "title": "SkipTrailingBits accepts exactly rbsp_trailing_bits", "statement": "SkipTrailingBits succeeds iff the unread bits of the buffer are a 1 followed only by alignment zeros.", "quantifier": "every buffer and reader position", "why_tests_cant": "all positions and contents", "anchors": ["net/h264/bits.go: SkipTrailingBits"]}
{"id": "C08", "title": "ReadPayloadParam decodes SEI ff-coded numbers", "statement": "Reading a run of k bytes 0xFF followed by a byte b<255 yields 255*k+b (as a uint32) and consumes k+1 bytes; a stream that ends first is an error.", "quantifier": "every k, b, alignment", "why_tests_cant": "unbounded run length", "anchors": ["net/h264/bits.go: ReadPayloadParam"]}
{"id": "C09", "title": "RBSPToEncapsulated followed by EBSPToRaw is the identity", "statement": "For every payload, EBSPToRaw(RBSPToEncapsulated(p)) == p.", "quantifier": "every byte string", "why_tests_cant": "round trip over all byte strings; failures need runs of four or more zeros", "anchors": ["net/h264/annexb.go: EBSPToRaw", "net/h264/annexb.go: RBSPToEncapsulated"]}
{"id": "C10", "title": "RBSPToEncapsulated output contains no forbidden three-byte pattern", "statement": "The output never contains 00 00 00, 00 00 01 or 00 00 02 at any position, so it can never be mistaken for a start code.", "quantifier": "every byte string", "why_tests_cant": "absence of a pattern at every position of every output", "anchors": ["net/h264/annexb.go: RBSPToEncapsulated"]}
{"id": "C11", "title": "RBSPToEncapsulated is total", "statement": "RBSPToEncapsulated returns normally for every payload.", "quantifier": "every byte string", "why_tests_cant": "crash freedom over all inputs", "anchors": ["net/h264/annexb.go: RBSPToEncapsulated"]}
{"id": "C12", "title": "EBSPToRaw undoes standard-conforming encapsulation", "statement": "For every RBSP, EBSPToRaw applied to its H.264 7.4.1 encapsulation (insert 03 whenever two zeros precede a byte <= 3, and after a trailing zero) returns the RBSP.", "quantifier": "every byte string", "why_tests_cant": "all byte strings, including every pattern of zero runs", "anchors": ["net/h264/annexb.go: EBSPToRaw"]}
{"id": "C13", "title": "SplitAnnexB recovers the NAL units of an Annex B stream", "statement": "For every sequence of NAL units encapsulated per H.264 7.4.1 and each preceded by a 3- or 4-byte start code, SplitAnnexB returns exactly the raw units in order.", "quantifier": "every list of non-empty units, every choice of start-code lengths", "why_tests_cant": "unbounded number and contents of units; the scanning loop skips bytes", "anchors": ["net/h264/annexb.go: SplitAnnexB"]}
{"id": "C14", "title": "SplitAnnexB is total and invents nothing", "statement": "For every buffer SplitAnnexB returns normally, returns at least one unit, every unit is non-empty when the buffer is non-empty, and a buffer containing no start code yields exactly one unit, EBSPToRaw of the whole buffer.", "quantifier": "every byte string", "why_tests_cant": "index arithmetic with lookahead and lookbehind over all buffers", "anchors": ["net/h264/annexb.go: SplitAnnexB"]}
{"id": "C15", "title": "Single NAL unit packets", "statement": "Pushing a payload that is one NAL unit of a non-aggregate, non-fragment type exposes exactly one unit with the payload's header, its raw bytes, the packet's timestamp and the current decoding order number, and advances that number by one modulo 2^16.", "quantifier": "every NAL of types other than 24..29, every sink state, every timestamp", "why_tests_cant": "all contents and histories", "anchors": ["net/h264/packet.go: Push", "net/h264/packet.go: parseNAL"]}
{"id": "C16", "title": "STAP-A de-aggregation", "statement": "Pushing a STAP-A packet exposes exactly the aggregated NAL units, in order, with the packet's timestamp.", "quantifier": "every list of NAL units of size 1..65535, every sink state", "why_tests_cant": "unbounded lists; interplay of emulation removal and size fields", "anchors": ["net/h264/packet.go: parseSTAP", "net/h264/packet.go: Push"]}
{"id": "C17", "title": "STAP-B decoding order numbers", "statement": "The i-th unit (from 0) of a STAP-B packet carries DON d+i mod 2^16 where d is the packet's DON field, and the sink's next DON is d+count mod 2^16.", "quantifier": "every list of units, every DON including wrap-around", "why_tests_cant": "wrap-around and unbounded counts", "anchors": ["net/h264/packet.go: parseSTAP"]}
{"id": "C18", "title": "MTAP de-aggregation", "statement": "The i-th unit of an MTAP16/MTAP24 packet carries DON = DONB+DOND_i mod 2^16 and timestamp = packet timestamp + its own offset mod 2^32 (RFC 6184 5.7.2).", "quantifier": "every list of (unit, DOND, offset), every DONB and timestamp", "why_tests_cant": "unbounded lists, modular arithmetic", "anchors": ["net/h264/packet.go: parseMTAP"]}
{"id": "C19", "title": "FU-A/FU-B reassembly", "statement": "After pushing a start fragment, any number of middle fragments and an end fragment, exactly one unit is exposed whose header carries the NRI and type of the original NAL and whose data is the concatenation of the fragment payloads, whatever state the sink was in before.", "quantifier": "every sink state, every number and contents of fragments", "why_tests_cant": "unbounded number of fragments, arbitrary prior history", "anchors": ["net/h264/packet.go: AddFragment", "net/h264/packet.go: parseNAL"]}
{"id": "C20", "title": "Reassembly is independent of fragmentation", "statement": "Splitting the same encapsulated NAL unit at different points yields the same reassembled data.", "quantifier": "every NAL unit, every two fragmentations", "why_tests_cant": "all split points", "anchors": ["net/h264/packet.go: Push", "net/h264/packet.go: AddFragment"]}
{"id": "C21", "title": "Push exposes every NAL unit of the payload", "statement": "After Push(buf) the sink's unit queue contains the units of all NALs in the payload.", "quantifier": "every payload", "why_tests_cant": "all multi-NAL payloads", "anchors": ["net/h264/packet.go: Push", "net/h264/packet.go: parseNAL"]}
{"id": "C22", "title": "Push is total", "statement": "Push returns (with or without an error) for every payload, in every sink state.", "quantifier": "every byte string, timestamp and sink state", "why_tests_cant": "crash freedom on network input; uint16 wrap-around in size checks", "anchors": ["net/h264/packet.go: Push", "net/h264/packet.go: parseSTAP", "net/h264/packet.go: parseMTAP"]}
{"id": "C23", "title": "DonDiff is the RFC 6184 don_diff", "statement": "DonDiff(m,n) equals don_diff(m,n) of RFC 6184 5.5 for all 16-bit m,n; it is antisymmetric, lies in [-32768,32768], is congruent to n-m mod 2^16 and is 0 only for equal arguments.", "quantifier": "all 2^32 pairs of 16-bit numbers", "why_tests_cant": "2^32 pairs", "anchors": ["net/h264/packet.go: DonDiff"]}
{"id": "C24", "title": "Truncated packets are reported", "statement": "A STAP/MTAP whose last unit is cut short, a FU-A shorter than 2 bytes and a FU-B shorter than 4 bytes yield a 'packet too short' error.", "quantifier": "every list of preceding units and every truncation point", "why_tests_cant": "all truncation points of unbounded packets", "anchors": ["net/h264/packet.go: parseSTAP", "net/h264/packet.go: parseMTAP", "net/h264/packet.go: parseNAL"]}
{"id": "C25", "title": "ParseSPS is total and atomic", "statement": "ParseSPS returns normally on every input; on error the stored parameter sets are unchanged; on success exactly the entry of the parsed id changes.", "quantifier": "every byte string, every store", "why_tests_cant": "crash freedom and atomicity over all inputs and error points", "anchors": ["net/h264/spspps.go: ParseSPS"]}
{"id": "C26", "title": "ParseSPS decodes the SPS syntax", "statement": "For every sequence parameter set written with the syntax of H.264 7.3.2.1.1, ParseSPS stores its field values under its id.", "quantifier": "every legal SPS", "why_tests_cant": "dozens of fields with conditional syntax", "anchors": ["net/h264/spspps.go: ParseSPS"]}
{"id": "C27", "title": "SPS picture dimensions", "statement": "The Width and Height stored for an SPS are those of H.264 7.4.2.1.1 after cropping.", "quantifier": "every legal SPS", "why_tests_cant": "all chroma formats, crop offsets, frame/field coding", "anchors": ["net/h264/spspps.go: ParseSPS", "net/h264/spspps.go: SPSInfo"]}
{"id": "C28", "title": "ParsePPS is total and atomic", "statement": "ParsePPS returns normally on every input; on error the stored sets are unchanged; on success exactly the entry of the parsed id changes.", "quantifier": "every byte string, every store", "why_tests_cant": "crash freedom on fixed-size arrays indexed by stream values", "anchors": ["net/h264/spspps.go: ParsePPS"]}
{"id": "C29", "title": "ParsePPS decodes the PPS syntax", "statement": "For every picture parameter set written with the syntax of H.264 7.3.2.2, including rbsp_trailing_bits, ParsePPS stores its field values under its id.", "quantifier": "every legal PPS", "why_tests_cant": "conditional syntax, optional tail detection", "anchors": ["net/h264/spspps.go: ParsePPS"]}
{"id": "C30", "title": "Parameter-set store is a last-writer map", "statement": "After any history of ParseSprop calls, GetSPS(id)/GetPPS(id) return the set most recently stored successfully with that id, or report absence; buffers that are empty or of another NAL type change nothing.", "quantifier": "every history of calls, every id", "why_tests_cant": "histories are unbounded", "anchors": ["net/h264/spspps.go: ParseSprop", "net/h264/spspps.go: GetSPS", "net/h264/spspps.go: GetPPS"]}
{"id": "C31", "title": "rtp.Unpack decodes RFC 3550 packets", "statement": "For every RTP packet laid out per RFC 3550 5.1 (any CSRC list up to 15, optional extension, any payload), Unpack returns exactly the header fields, CSRC list, extension data and the remaining bytes as payload.", "quantifier": "every header, CSRC list, extension and payload", "why_tests_cant": "unbounded payloads, all flag combinations", "anchors": ["net/rtp/packet.go: Unpack"]}
{"id": "C32", "title": "rtp.Unpack is total", "statement": "Unpack returns normally (possibly with an error) for every byte string.", "quantifier": "every byte string", "why_tests_cant": "crash freedom on network input", "anchors": ["net/rtp/packet.go: Unpack"]}
{"id": "C33", "title": "rtp Pack/Unpack round trip", "statement": "Unpack(p.Pack()) reproduces packet p's header.", "quantifier": "every packet", "why_tests_cant": "all packets including extension lengths near the 16-bit limit", "anchors": ["net/rtp/packet.go: Pack"]}
{"id": "C34", "title": "rtp payload excludes padding", "statement": "When the padding bit is set, the payload returned by Unpack excludes the padding octets.", "quantifier": "every padded packet", "why_tests_cant": "all padding lengths", "anchors": ["net/rtp/packet.go: Unpack", "net/rtp/packet.go: P"]}
{"id": "C35", "title": "rtcp.Unpack decodes sender reports", "statement": "For every RTCP sender report laid out per RFC 3550 6.4.1, Unpack returns the header and the sender info; other packet types return the header alone.", "quantifier": "every header and sender info, every report count, every trailing content", "why_tests_cant": "all field values", "anchors": ["net/rtcp/packet.go: Unpack"]}
{"id": "C36", "title": "rtcp.Unpack is total", "statement": "Unpack returns normally (possibly with an error) for every byte string; with at least 4 bytes it fails only for a wrong version or a sender report shorter than its report count requires.", "quantifier": "every byte string", "why_tests_cant": "crash freedom on network input", "anchors": ["net/rtcp/packet.go: Unpack"]}
{"id": "C37", "title": "rtcp.Unpack returns the report blocks", "statement": "The report blocks of a sender report are returned in order.", "quantifier": "every sender report with at least one report block", "why_tests_cant": "all report counts", "anchors": ["net/rtcp/packet.go: Unpack", "net/rtcp/packet.go: DataSR"]}
{"id": "C38", "title": "HLS byte ranges are contiguous", "statement": "After any sequence of AddSegment calls every segment still held starts exactly where the previous one ended, the first at 0.", "quantifier": "every ring size >= 1, every sequence of segments", "why_tests_cant": "unbounded histories with ring wrap-around", "anchors": ["net/hls/playlist.go: AddSegment"]}
{"id": "C39", "title": "HLS playlist shows the last segments in order", "statement": "After any number n>=1 of AddSegment calls the rendered playlist lists exactly the last min(n,nseg) segments, oldest first, each with its duration, length, offset and URI.", "quantifier": "every ring size >= 1, every history", "why_tests_cant": "wrap-around happens only after many calls", "anchors": ["net/hls/playlist.go: String", "net/hls/playlist.go: AddSegment"]}
{"id": "C40", "title": "HLS rendering is total", "statement": "String() returns for every playlist state reachable by AddSegment.", "quantifier": "every ring size, every history", "why_tests_cant": "crash only after 2*nseg additions", "anchors": ["net/hls/playlist.go: String"]}
{"id": "C41", "title": "sdp.Parse returns the video sections in order", "statement": "Parse returns one feed per m=video section, in order, with the payload type its media line gives first; sections of other kinds and their attributes contribute nothing to any feed.", "quantifier": "every SDP body (any list of lines)", "why_tests_cant": "all documents", "anchors": ["net/sdp/packet.go: Parse"]}
{"id": "C42", "title": "sdp.Parse is total", "statement": "Parse returns normally for every body.", "quantifier": "every byte string", "why_tests_cant": "crash freedom on network input", "anchors": ["net/sdp/packet.go: Parse"]}
{"id": "C43", "title": "sdp.Parse attribute extraction", "statement": "The control, rtpmap and fmtp attributes of a video section set the feed's control URI, payload mapping, codec, clock rate and decoded sprop parameter sets.", "quantifier": "every attribute value in the documented syntax", "why_tests_cant": "all values, including base64 text containing '/' and single-parameter fmtp lines", "anchors": ["net/sdp/packet.go: Parse"]}
{"id": "C44", "title": "NewDigest parses challenges", "statement": "For every challenge listing known attributes with quoted values free of commas and quotes, NewDigest recovers the scheme and each attribute value.", "quantifier": "every list of attributes in any order and case", "why_tests_cant": "all attribute values and orders", "anchors": ["net/rtsp/digest.go: NewDigest"]}
{"id": "C45", "title": "Digest responses follow RFC 2617", "statement": "Every value produced for (verb, body) contains response = the RFC 2617 digest for the configured user, password, realm, nonce, uri, qop, nc and cnonce.", "quantifier": "every input, every number of previous calls", "why_tests_cant": "must hold for every call in every history", "anchors": ["net/rtsp/digest.go: Authenticate", "net/rtsp/digest.go: response"]}
{"id": "C46", "title": "Digest nonce count increases", "statement": "With qop, successive requests carry strictly increasing nc values.", "quantifier": "every sequence of requests", "why_tests_cant": "history property", "anchors": ["net/rtsp/digest.go: Next", "net/rtsp/digest.go: Authenticate"]}
{"id": "C47", "title": "Basic authentication", "statement": "For a Basic challenge the header is 'Basic ' followed by base64(user:password), for every verb, body and call, and decoding it gives back user:password.", "quantifier": "every username and password, every history", "why_tests_cant": "all strings", "anchors": ["net/rtsp/digest.go: Authenticate"]}
{"id": "C48", "title": "Unknown schemes and algorithms are refused", "statement": "Challenges that are neither Basic nor Digest, or that carry unknown attributes, give ErrAuthMalformedChallenge; a nonce with an algorithm other than md5/md5-sess gives ErrAuthNotImpemented.", "quantifier": "every challenge string", "why_tests_cant": "all strings", "anchors": ["net/rtsp/digest.go: NewDigest"]}
{"id": "C49", "title": "Channel/port pair text round trip", "statement": "ParsePair(p.String()) == p without error for every pair of non-negative ints.", "quantifier": "every pair of ints", "why_tests_cant": "all pairs", "anchors": ["net/rtsp/transport.go: ParsePair", "net/rtsp/transport.go: Pair.String"]}
{"id": "C50", "title": "Transport header round trip", "statement": "Parsing a Transport's String() into a fresh Transport reproduces every parameter the header can carry.", "quantifier": "every transport value whose text parameters are free of separators", "why_tests_cant": "all combinations of optional parameters", "anchors": ["net/rtsp/transport.go: Transport.String", "net/rtsp/transport.go: Transport.Parse"]}
{"id": "C51", "title": "Feeds get disjoint channels and ports", "statement": "The transports offered for the feeds of one session use pairwise disjoint interleave channels (TCP/HTTP) or ports (UDP), data even, control odd and adjacent.", "quantifier": "every number of feeds, every protocol", "why_tests_cant": "unbounded number of feeds", "anchors": ["net/rtsp/transport.go: NewTransport", "net/rtsp/feed.go: ParseFeeds"]}
{"id": "C52", "title": "Message headers form a case-insensitive map", "statement": "Over names that are HTTP tokens, Set/Get/Del on headers behave as a map keyed by the case-folded name, with one entry per name; a name that is not a token is compared as written.", "quantifier": "every history of operations, every pair of names", "why_tests_cant": "all histories", "anchors": ["net/rtsp/message.go: Set", "net/rtsp/message.go: Get", "net/rtsp/message.go: Del"]}
{"id": "C53", "title": "Requests are well-formed RTSP", "statement": "Pack renders a request whose parts hold no line break as a request line, CSeq first, each header once (if the given headers use none of the library's own names), Session and Authorization when applicable, and ends with one blank line, whatever order the header map is iterated in.", "quantifier": "every request, every map iteration order", "why_tests_cant": "map iteration order is nondeterministic", "anchors": ["net/rtsp/message.go: Request.Pack"]}
{"id": "C54", "title": "Responses are parsed exactly", "statement": "For every well-formed response on the stream, Unpack returns its status code, headers, CSeq and body and consumes exactly the response.", "quantifier": "every status, header list, body up to the reader's buffer size, every following content", "why_tests_cant": "all messages and all following stream contents", "anchors": ["net/rtsp/message.go: Unpack"]}
{"id": "C55", "title": "Interleaved framing", "statement": "For every sequence of $-frames and responses on the connection, the frames and contents being at most 2048 bytes long, each frame's channel and payload are delivered in order and byte-exact, and responses are handled in between.", "quantifier": "every sequence of frames and responses", "why_tests_cant": "unbounded sequences", "anchors": ["net/rtsp/session.go: receive", "net/rtsp/connection.go: ReadBytes"]}
{"id": "C56", "title": "Frames of any legal length are received", "statement": "An interleaved frame of any length 0..65535 is delivered.", "quantifier": "every frame length", "why_tests_cant": "buffer-size limit reached only above 2048", "anchors": ["net/rtsp/connection.go: ReadBytes", "net/rtsp/connection.go: Dial", "net/rtsp/session.go: receive"]}
{"id": "C57", "title": "Read timeouts do not lose framing", "statement": "A read timeout at any point of the stream leaves the session able to resume at the same frame boundary.", "quantifier": "every timeout position", "why_tests_cant": "all interruption points", "anchors": ["net/rtsp/session.go: receive", "net/rtsp/session.go: process", "net/rtsp/connection.go: ReadLine"]}
{"id": "C58", "title": "CSeq numbers are unique and increasing", "statement": "Each new request sent carries a CSeq one larger than the previous new request.", "quantifier": "every history of commands, responses and keep-alives", "why_tests_cant": "histories", "anchors": ["net/rtsp/session.go: command", "net/rtsp/session.go: enqueue"]}
{"id": "C59", "title": "CSeq numbers stay unique under concurrency", "statement": "When the application goroutine and the session goroutine issue commands concurrently, no two outstanding requests carry the same CSeq.", "quantifier": "every interleaving of two goroutines", "why_tests_cant": "schedule dependent", "anchors": ["net/rtsp/session.go: command", "net/rtsp/session.go: enqueue"]}
{"id": "C60", "title": "Stage notifications match acknowledged requests", "statement": "The session announces Play/Pause/Done only on a 200 response to a PLAY/PAUSE/TEARDOWN request that was sent with that CSeq and not yet answered, and the announced stage equals the current stage.", "quantifier": "every history", "why_tests_cant": "histories", "anchors": ["net/rtsp/session.go: handleRtsp", "net/rtsp/session.go: notify"]}
{"id": "C61", "title": "Ready is announced when all SETUPs are answered", "statement": "With k>=1 feeds, Ready is announced exactly when the k-th SETUP response has arrived, in whatever order the responses come.", "quantifier": "every k, every response order, any mix of success and failure", "why_tests_cant": "unbounded k, all orders", "anchors": ["net/rtsp/session.go: handleSetup", "net/rtsp/session.go: Setup"]}
{"id": "C62", "title": "A 401 leads to an authorized retransmission", "statement": "On a 401 response the same request is sent again with the same CSeq and an Authorization value, and other outstanding requests are unaffected.", "quantifier": "every session state with outstanding requests", "why_tests_cant": "interaction of several outstanding requests", "anchors": ["net/rtsp/session.go: handleRtsp", "net/rtsp/session.go: enqueue", "net/rtsp/session.go: authorize"]}
{"id": "C63", "title": "Unsolicited responses are rejected", "statement": "A response whose CSeq matches no outstanding request is an error that changes no session state, and each request is matched by at most one response.", "quantifier": "every history", "why_tests_cant": "histories", "anchors": ["net/rtsp/session.go: dequeue", "net/rtsp/session.go: handleRtsp"]}
{"id": "C64", "title": "Session identifier propagation", "statement": "After a response carrying Session: id;params, every later PLAY/PAUSE/TEARDOWN/DESCRIBE request carries exactly id.", "quantifier": "every history", "why_tests_cant": "histories", "anchors": ["net/rtsp/session.go: handleRtsp", "net/rtsp/session.go: enqueue", "net/rtsp/message.go: Request.Pack"]}
{"id": "C65", "title": "Keep-alive policy", "statement": "Keep-alives are sent only over UDP transports, only between Ready and Done, never closer together than the keep-alive interval.", "quantifier": "every history with any monotone clock", "why_tests_cant": "histories with clocks", "anchors": ["net/rtsp/session.go: KeepAlive"]}
{"id": "C66", "title": "UDP packets are delivered", "statement": "After Start, a packet received on a UDP listener is delivered on Data; Stop closes the listener.", "quantifier": "every schedule of the listener goroutine", "why_tests_cant": "schedule dependent", "anchors": ["net/rtsp/connection.go: Start", "net/rtsp/connection.go: Stop"]}
{"id": "C67", "title": "Unicast UDP listens on the advertised port", "statement": "After SETUP over unicast UDP the listeners are opened on the client ports offered in the Transport header.", "quantifier": "every feed index and response", "why_tests_cant": "all responses", "anchors": ["net/rtsp/session.go: handleSetup", "net/rtsp/connection.go: AddSink"]}
{"id": "C68", "title": "HTTP tunnel requests", "statement": "ConnectHTTP renders a request whose line, cookie and fixed headers are as documented, with Content-Length only for POST; ReceiveHTTP accepts exactly HTTP/1.0 responses with a three-digit status and consumes exactly the header block.", "quantifier": "every verb, uri, cookie; every response", "why_tests_cant": "all strings", "anchors": ["net/rtsp/http.go: ConnectHTTP", "net/rtsp/http.go: ReceiveHTTP"]}
{"id": "C69", "title": "RTSP over HTTP commands can be sent", "statement": "In HTTP mode a command is written to the POST connection.", "quantifier": "every command", "why_tests_cant": "needs a live tunnel; in the model a null-pointer path", "anchors": ["net/rtsp/connection.go: Write", "net/rtsp/connection.go: Dial"]}
{"id": "C70", "title": "The client's media loop never crashes on network data", "statement": "Whatever bytes arrive on the media channels, the command-line client either processes or reports them.", "quantifier": "every sequence of packets", "why_tests_cant": "crash freedom over all inputs", "anchors": ["cmd/ouro/main.go: handleStates"]}
{"id": "C71", "title": "Client lifecycle", "statement": "The command-line client issues PLAY on Ready, PAUSE after playing, TEARDOWN after pausing and exits after Done.", "quantifier": "every sequence of stage, timer and data events", "why_tests_cant": "event histories", "anchors": ["cmd/ouro/main.go: handleStates"]}
{"id": "C72", "title": "Commands before Open are reported as errors", "statement": "Issuing a command on a session that has not been opened returns an error and sends nothing.", "quantifier": "every command, every unopened session", "why_tests_cant": "the error branch exists but is not reachable through the public commands", "anchors": ["net/rtsp/session.go: command", "net/rtsp/session.go: Options", "net/rtsp/session.go: Play", "net/rtsp/session.go: KeepAlive"]}
{"id": "C73", "title": "Refused credentials end in an error", "statement": "When the server answers 401 again to a request that carried credentials, or no credentials are known, the session reports an error instead of repeating the request.", "quantifier": "every number of refusals", "why_tests_cant": "unbounded repetition", "anchors": ["net/rtsp/session.go: handleRtsp", "net/rtsp/session.go: authorize"]}
{"id": "C74", "title": "UDP channels identify feeds", "statement": "The data and control listeners of the i-th feed (from 0) carry channel numbers 2i and 2i+1, in whatever order the SETUP responses arrive.", "quantifier": "every number of feeds up to 127, every response order", "why_tests_cant": "all orders", "anchors": ["net/rtsp/session.go: handleSetup", "net/rtsp/connection.go: AddSink"]}
{"id": "C75", "title": "A failed DESCRIBE is reported", "statement": "When DESCRIBE yields no usable description, the session reports an error.", "quantifier": "every status and body", "why_tests_cant": "all responses", "anchors": ["net/rtsp/session.go: handleRtsp"]}
{"id": "C76", "title": "The digest covers the URI of the request", "statement": "The uri parameter of a digest Authorization value is the request's URI.", "quantifier": "every request, challenge and credentials", "why_tests_cant": "all requests", "anchors": ["net/rtsp/session.go: authorize", "net/rtsp/session.go: Setup", "net/rtsp/digest.go: Authenticate"]}
{"id": "C77", "title": "The application learns that the session has ended", "statement": "When the session's loop ends because of an error or the end of the connection, the application receives a stage, and the command-line client terminates.", "quantifier": "every state and input at which the loop ends", "why_tests_cant": "all ways to end, and schedules", "anchors": ["net/rtsp/session.go: process", "cmd/ouro/main.go: handleStates"]}
{"id": "C78", "title": "The session survives whatever the server sends", "statement": "No history of commands and received bytes makes the session crash: every response, frame, silence and end of the connection is either processed or ends the loop with an error.", "quantifier": "every byte stream with silences anywhere, every history of commands and loop turns, every protocol except HTTP tunnelling", "why_tests_cant": "crash freedom over all inputs and histories", "anchors": ["net/rtsp/session.go: process", "net/rtsp/session.go: receive", "net/rtsp/session.go: handleRtsp", "net/rtsp/session.go: handleSetup", "net/rtsp/message.go: Unpack", "net/sdp/packet.go: Parse"]}
{"id": "C79", "title": "A cooperating server brings the session through", "statement": "Over TCP, with a server that grants every request and describes at least one video section with readable parameter sets, Options leads to OPTIONS, DESCRIBE and one SETUP per section, numbered 1, 2, 3 and up, with the section's URI, channels 2i and 2i+1 and the session identifier learned so far; Ready is announced once, every later PLAY, PAUSE and TEARDOWN is sent with the next number and announced when granted, and every frame in between is delivered in order.", "quantifier": "every description, number of sections, order of the SETUP answers, placement of frames and silences, sequence of later commands, session identifiers, accepted transport texts", "why_tests_cant": "whole conversations of any length", "anchors": ["net/rtsp/session.go: Options", "net/rtsp/session.go: Setup", "net/rtsp/session.go: handleRtsp", "net/rtsp/session.go: handleSetup", "net/rtsp/session.go: process", "net/rtsp/feed.go: TransportSetup"]}
{"id": "C80", "title": "The description's parameter sets reach the feed", "statement": "When the session is ready, each feed holds the sequence and picture parameter sets that the sprop-parameter-sets attribute of its section carries, under their identifiers.", "quantifier": "every legal pair of parameter sets, every description and conversation as in C79", "why_tests_cant": "all parameter sets and conversations", "anchors": ["net/rtsp/feed.go: TransportSetup", "net/sdp/packet.go: Parse", "net/h264/spspps.go: ParseSprop", "net/rtsp/session.go: handleSetup"]}
{"id": "C81", "title": "Video reaches the application as it was sent", "statement": "NAL units sent as RTP packets in single, aggregated (STAP-A) or fragmented (FU-A) form over the connection are shown by the command-line client in order, each once, with header, content and timestamp as sent, whatever responses, silences and control packets come in between.", "quantifier": "every list of NAL units, every fragmentation and aggregation, every RTP header, every placement of other traffic, every schedule of client and session", "why_tests_cant": "all streams, fragmentations and schedules", "anchors": ["cmd/ouro/main.go: handleStates", "net/rtp/packet.go: Unpack", "net/h264/packet.go: Push", "net/rtsp/session.go: receive"]}
{"id": "C82", "title": "Damaged units are not shown", "statement": "If a fragment of a NAL unit is lost, repeated or out of order, the client does not show the damaged unit, and shows the units after it.", "quantifier": "every fragmented unit, every missing fragment, every RTP header", "why_tests_cant": "all losses at all positions", "anchors": ["cmd/ouro/main.go: handleStates", "net/h264/packet.go: AddFragment"]}
{"id": "C83", "title": "The password is not disclosed", "statement": "What a session sends does not disclose the password: without a challenge nothing depends on the credentials, and a challenge for Digest is answered so that only the digests of user, realm and password for the realms asked for matter. A server, or whoever answers in its place, cannot make a client that has used Digest send the password.", "quantifier": "every credentials, every server behaviour and every history of commands and loop turns, compared between two runs", "why_tests_cant": "a statement about pairs of executions: all server behaviours, all passwords", "anchors": ["net/rtsp/session.go: authorize", "net/rtsp/digest.go: NewDigest, Authenticate"]}
{"id": "C84", "title": "Opening a URL connects to the server it names", "statement": "Opening scheme://[user[:password]@]host[:port][path][?query] connects to that host at that port, 554 if none is given, with the decoded user and password as credentials and scheme://host:port path?query as the URI of the requests; over HTTP the tunnel is asked for first. A URL without a host or with an impossible port is refused.", "quantifier": "every URL of RFC 3986 with a name, IPv4 or IPv6 address, every percent-encoding, every reachability of hosts", "why_tests_cant": "all URLs", "anchors": ["net/rtsp/connection.go: Dial"]}
{"id": "C85", "title": "Request URIs carry neither credentials nor blanks nor control characters", "statement": "Whatever text is given as URL, the URI put into requests contains no control character (so that it cannot end the request line), no blank, and none of the credentials.", "quantifier": "every byte string given as URL", "why_tests_cant": "all strings", "anchors": ["net/rtsp/connection.go: Dial"]}
{"id": "C86", "title": "Segments of a playlist are addressed by file name", "statement": "The URI of a playlist's segments is the base URI with the file's own name as the last path segment, percent-encoded as needed, whatever directory the file is in.", "quantifier": "every base URI with a host, every path, every file name and directory", "why_tests_cant": "all names and paths", "anchors": ["net/hls/playlist.go: NewPlaylist"]}
{"id": "C87", "title": "One request is one request", "statement": "Every request sent is, line by line, a request line with one of the six methods followed by the known header fields, each at most once and each on one line, and an empty line: neither the URL nor anything a server has sent (challenge, session id, transport, description) can add a line to a request.", "quantifier": "every URL, every stream of bytes from the server, every history of commands and turns of the loop, every protocol, every random source", "why_tests_cant": "all URLs and all server behaviours", "anchors": ["net/rtsp/session.go: command, handleRtsp, authorize", "net/rtsp/message.go: Pack", "net/rtsp/digest.go: Authenticate", "net/rtsp/connection.go: Dial"]}
{"id": "C88", "title": "The playlist is a valid media playlist", "statement": "The rendered text is a media playlist as RFC 8216 requires (target duration, comma after each duration), from which a player reads the last segments added with their durations, byte ranges and URI.", "quantifier": "every ring size, every history of additions, every URI of one line, every formatter of durations", "why_tests_cant": "all histories and all URIs", "anchors": ["net/hls/playlist.go: String, AddSegment"]}
{"id": "C89", "title": "A player that follows the playlist plays every segment", "statement": "A player that loads the playlist after every addition plays every segment added once, in the order of the additions.", "quantifier": "every ring size, every history of additions, players that heed the end mark and players that do not", "why_tests_cant": "all histories, over repeated loads", "anchors": ["net/hls/playlist.go: String, AddSegment"]}
{"id": "C90", "title": "A segment keeps its media sequence number", "statement": "In all texts rendered over time in which a segment is listed, it has the same media sequence number.", "quantifier": "every ring size, every pair of moments in every history of additions", "why_tests_cant": "relates texts rendered at different times", "anchors": ["net/hls/playlist.go: String, AddSegment"]}
{"id": "C91", "title": "A server that asks for credentials is given them and the session goes on", "statement": "When a server answers requests with challenges (401, Basic or Digest) and grants them otherwise, each challenged request is sent again under its number with the credentials RFC 2617 prescribes for that challenge and the URI of the session, every later request carries the credentials for the latest challenge, and the session gets ready, follows the commands and delivers all packets as without challenges.", "quantifier": "every user and password, every sequence of challenges for OPTIONS, DESCRIBE and each later command, every order of the answers to SETUP, every interleaving with packets and silences, every sequence of commands", "why_tests_cant": "whole conversations with any number of challenges", "anchors": ["net/rtsp/session.go: handleRtsp, authorize, command, enqueue", "net/rtsp/digest.go: NewDigest, Authenticate, response"]}
{"id": "C92", "title": "How the network cuts the bytes cannot be seen", "statement": "What a session does (requests sent, stages announced, packets delivered, errors, end of the loop) depends only on the bytes received and on where silences longer than the timeout fall, not on how the bytes are cut into pieces by the network; the same holds for reading a single response and for the answer to an HTTP GET.", "quantifier": "every cutting of every byte stream with silences, every history of commands and turns of the loop, every state of the session, through the buffered reader of 2048 bytes", "why_tests_cant": "all segmentations of all streams", "anchors": ["net/rtsp/connection.go: Peek, ReadLine, ReadUint16, ReadByte, ReadBytes, Discard", "net/rtsp/session.go: receive, handleRtsp", "net/rtsp/message.go: Unpack", "net/rtsp/http.go: ReceiveHTTP"]}
{"id": "C93", "title": "A response that is kept keeps its body", "statement": "The body of a response returned by Unpack stays what it was while further data is read from the connection.", "quantifier": "every connection, every sequence of reads before and after", "why_tests_cant": "needs a model of memory shared between the reader and the response", "anchors": ["net/rtsp/message.go: Unpack", "net/rtsp/connection.go: ReadBytes, Peek"]}
{"id": "C94", "title": "Units do not depend on the buffer they came from", "statement": "What the sink holds (units, fragments, decoding order number) and the outcome of every call depend only on the bytes packets had when they were pushed, whatever the caller does with its buffers before and after; and a unit taken from the list of units stays what it was through everything that is pushed or written into those buffers later.", "quantifier": "every history of buffers made, bytes stored into them and parts of them pushed; every amount of spare capacity of every allocation", "why_tests_cant": "needs a model of memory shared between the caller's buffers, the units and the fragments, over whole histories", "anchors": ["net/h264/packet.go: Push, AddFragment, parseNAL, parseSTAP, parseMTAP", "net/h264/annexb.go: SplitAnnexB, EBSPToRaw"]}
{"id": "C95", "title": "A list of units that is kept stays", "statement": "A list of units obtained from the sink after one packet is unchanged by the packets pushed after it.", "quantifier": "every history, every packet, every amount of spare capacity", "why_tests_cant": "needs a model of memory shared between the sink and its caller", "anchors": ["net/h264/packet.go: NewNALSink, Push, parseNAL"]}
{"id": "C96", "title": "Units do not overlap", "statement": "A caller may append to the data of one of the units of a packet (for instance padding for a decoder) without changing another unit, a fragment waiting for its end, a unit kept from an earlier packet or a buffer of its own.", "quantifier": "every history, every unit, all bytes appended, every amount of spare capacity", "why_tests_cant": "needs a model of slices with capacity into shared arrays", "anchors": ["net/h264/packet.go: parseSTAP, parseMTAP, AddFragment"]}
{"id": "C97", "title": "The program gets through its session", "statement": "Run over TCP against a server that grants every request after it has received it (in any order, with media packets, control packets and silences at any time), the program sends OPTIONS, DESCRIBE, a SETUP for every video stream, PLAY, PAUSE and TEARDOWN, in this order and numbered from 1; each SETUP goes to the URI of its stream and offers the next pair of channels, the others go to the base URI. While it has not finished, either it has something to do or the server owes it an answer, so it never gets stuck. It takes a number of steps bounded by the number of streams, of packets and of silences, and it ends only by itself, when all requests are answered.", "quantifier": "every description with a video stream, every order of answers, every interleaving of the server, the session's loop and the client", "why_tests_cant": "a liveness statement about all interleavings of three parties; a test sees one schedule", "anchors": ["cmd/ouro/main.go: main, stage, data and ticker handling", "net/rtsp/session.go: Open, options, describe, setup, play, pause, teardown, processing"]}
{"id": "C98", "title": "The program does what its command line says", "statement": "Started with one RTSP URL, the program makes one connection, to the host and port the URL names (554 if it names none), and against a server that grants its requests it goes through OPTIONS, DESCRIBE, SETUP, PLAY, PAUSE and TEARDOWN of the presentation named by the URL, without its credentials. Started with anything but one argument, or with an option, or with a port above 65535, it ends without making a connection.", "quantifier": "every list of arguments, every RTSP URL (scheme, credentials, host name or address, port, path, query), every set of reachable addresses, every granting server", "why_tests_cant": "ranges over all URLs and over all executions of the whole program", "anchors": ["cmd/ouro/main.go: main, handleStates", "net/rtsp/session.go: Open", "net/rtsp/connection.go: Dial"]}
{"id": "C99", "title": "Decoding order can be restored", "statement": "In the interleaved mode of RFC 6184 (STAP-B, MTAP, FU-B), DonDiff of the numbers of two units that were exposed is their distance in decoding order, if that is below 32768; so an application that sorts by it decodes in the right order.", "quantifier": "every pair of units less than 32768 apart, every position in the 16-bit cycle, whatever was received before and in between", "why_tests_cant": "ranges over all pairs of packets and all histories between them", "anchors": ["net/h264/packet.go: parseSTAP", "net/h264/packet.go: parseMTAP", "net/h264/packet.go: parseNAL", "net/h264/packet.go: DonDiff"]}
{"id": "C100", "title": "A response is received whatever the length of its content", "statement": "A well-formed response to an outstanding request is received and acted upon, however long its content (a session description, for one) is.", "quantifier": "every response, every content length, every state of the session", "why_tests_cant": "the limit is a buffer size that appears nowhere in the interface", "anchors": ["net/rtsp/session.go: handleRtsp, process", "net/rtsp/message.go: Unpack", "net/rtsp/connection.go: ReadBytes, Dial"]}
{"id": "C101", "title": "Of the schemes a server offers, Digest is taken", "statement": "When a 401 response offers several authentication schemes, one field each, and a usable Digest challenge is among them, the retransmission answers that one: the password does not go out as Basic credentials, and the session does not end, whatever the order of the offers.", "quantifier": "every list of offers in every order, every request, every user and password", "why_tests_cant": "ranges over orders and combinations of header fields", "anchors": ["net/rtsp/session.go: handleRtsp, authorize", "net/rtsp/message.go: MessageHeader.Set, Unpack", "net/rtsp/digest.go: NewDigest"]}
{"id": "C102", "title": "A request from the server does not end the session", "statement": "RTSP servers may send requests of their own on the connection (ANNOUNCE, GET_PARAMETER, SET_PARAMETER, REDIRECT). The session goes on when one arrives.", "quantifier": "every method, URI, header and content, every state of the session", "why_tests_cant": "ranges over all requests and all states", "anchors": ["net/rtsp/session.go: handleRtsp, process", "net/rtsp/message.go: Unpack"]}
{"id": "C103", "title": "A refused command is reported", "statement": "When the server answers PLAY, PAUSE or TEARDOWN with a status other than 200 (and 401), the application is told, so that it can go on; in particular the command-line program ends.", "quantifier": "every refused command, status, state of the session, every continuation", "why_tests_cant": "says what happens after every continuation, including no further input at all", "anchors": ["net/rtsp/session.go: handleRtsp", "cmd/ouro/main.go: handleStates"]}
{"id": "C104", "title": "Nothing else in a response has an effect", "statement": "What a session sends, announces and delivers depends on a response through its status code, its content and its fields CSeq, Session, Transport and WWW-Authenticate alone: two histories whose responses agree in these are the same to the server and to the application, whatever the reasons and all other fields say.", "quantifier": "every two histories of commands, frames, silences and responses over any transport, from every state", "why_tests_cant": "a relation between two executions, over all pairs of responses", "anchors": ["net/rtsp/session.go: handleRtsp, handleSetup, authorize, KeepAlive, process", "net/rtsp/message.go: Unpack"]}
{"id": "C105", "title": "Only methods the server lists are used", "statement": "A session does not use a method that the server's answer to OPTIONS does not list in its Public field.", "quantifier": "every list, every granting server", "why_tests_cant": "ranges over all lists of methods", "anchors": ["net/rtsp/session.go: handleRtsp, Describe, Setup"]}
{"id": "C106", "title": "A stream is set up at the URI the description gives", "statement": "The URI of a SETUP request is the control attribute of the stream, resolved as RFC 2326 C.1.1 says against Content-Base, Content-Location or the URI of the DESCRIBE request: full URIs as they are, * as the base itself, others relative to the base.", "quantifier": "every description, control attribute and base, every granting server", "why_tests_cant": "ranges over all combinations of base and control URIs", "anchors": ["net/rtsp/session.go: Setup, handleRtsp"]}
{"id": "C107", "title": "The output tells what was received", "statement": "For each media packet the client takes it prints its channel, payload type, number of sources, marker and sequence number; for each control packet its channel, type, length and count; and for each NAL unit its forbidden bit, reference indication, type and size, in the order of the units.", "quantifier": "every execution of the program, every conversation, every way to carry the units in packets", "why_tests_cant": "the lines depend on the state of the sink and on all headers, over unbounded conversations", "anchors": ["cmd/ouro/main.go: handleStates", "net/h264/packet.go: ZeroBit, RefIdc, Type", "net/rtp/packet.go: PT, CC, M", "net/rtcp/packet.go: C"]}
{"id": "C108", "title": "The output does not give the password away", "statement": "What the client prints does not allow to recover the password of the URI.", "quantifier": "every history of commands, responses and challenges", "why_tests_cant": "what is printed for one password has to be compared with what is printed for all others", "anchors": ["net/rtsp/session.go: command, handleRtsp"]}
{"id": "C109", "title": "A response packed again is the same response", "statement": "Response.Pack gives a text that, read by Unpack, is the response again, and of which nothing is left over.", "quantifier": "every response read from any bytes, every order of the fields", "why_tests_cant": "ranges over all responses and all iteration orders of the header map", "anchors": ["net/rtsp/message.go: Response.Pack, Unpack"]}
{"id": "C110", "title": "The fragment of a URL stays with the client", "statement": "The fragment of the URL a session is opened with (what follows #) is not sent to the server: requests name the URL without it.", "quantifier": "every RTSP URL with a fragment", "why_tests_cant": "ranges over all URLs and fragments, with all encodings", "anchors": ["net/rtsp/connection.go: Dial"]}
{"id": "C111", "title": "A session may be used by several goroutines", "statement": "Goroutines that call methods of one session, beside the session's own loop, never touch the same part of it at the same time, one of them changing it.", "quantifier": "every number of goroutines, every sequence of calls, every order of their steps", "why_tests_cant": "a race shows only in some orders of steps, and the race detector only sees the order that happened", "anchors": ["net/rtsp/session.go: Session, command, enqueue, dequeue, Setup, KeepAlive, process, handleRtsp, handleSetup", "net/rtsp/connection.go: AddSink, Start, Stop", "net/rtsp/digest.go: response"]}
{"id": "C112", "title": "Each request carries its own authorization", "statement": "Requests made at the same time by several goroutines each carry the authorization for their own method.", "quantifier": "every digest, all requests, every order of steps", "why_tests_cant": "the failure needs one order of steps among many", "anchors": ["net/rtsp/digest.go: response, Authenticate", "net/rtsp/session.go: command"]}
{"id": "C113", "title": "Streams are set up whatever else is asked meanwhile", "statement": "When the server grants all SETUP requests the session becomes ready, whatever commands other goroutines issue while the streams are being set up.", "quantifier": "every description, all commands at every moment of Setup, all orders of the answers", "why_tests_cant": "the failure needs a command at one moment of another goroutine's call", "anchors": ["net/rtsp/session.go: Setup, handleSetup"]}
{"id": "C114", "title": "The fragments of a sink are those of the unit being received", "statement": "Between packets a sink holds the fragments of the unit being received, in order, marked as their packets marked them, and none when no unit is under way.", "quantifier": "every sequence of payloads", "why_tests_cant": "ranges over all sequences of payloads; the leftovers show only in the state after the unit", "anchors": ["net/h264/packet.go: Push, NALFragment, IsStart, IsEnd"]}
{"id": "C115", "title": "A text that is not an RTSP URL is refused", "statement": "Opening a text that is not an RTSP URL fails, and connects to nothing.", "quantifier": "every text, every state", "why_tests_cant": "ranges over all texts; what is accepted by mistake is found only by knowing where to look", "anchors": ["net/rtsp/connection.go: Dial"]}
{"id": "C116", "title": "The program gets through its session with a server that asks for credentials", "statement": "Whatever requests the server asks credentials for, as often as it likes, the program repeats each with the credentials of its challenge, uses them from then on, asks for everything planned in order, and ends when all is done; until then it can go on or waits for the server.", "quantifier": "every set of streams, user, password, every sequence of challenges (Basic or Digest), answers and packets, every scheduling", "why_tests_cant": "ranges over all interleavings of challenges with packets, answers and the program's own events; the failure needs two requests under way", "anchors": ["net/rtsp/session.go: authorize, command, enqueue, dequeue, handleRtsp, handleSetup", "net/rtsp/digest.go: NewDigest, Authenticate", "cmd/ouro/main.go: handleStates"]}
{"id": "C117", "title": "Parameter sets are understood in the form they are sent in", "statement": "A sequence or picture parameter set that arrives as a NAL unit, in band or in sprop-parameter-sets, is stored with its values, wherever the standard has escape bytes inserted.", "quantifier": "every legal parameter set, every state of the store", "why_tests_cant": "escape bytes depend on the alignment of long runs of zero bits; sets with one before the last field read are rare among samples", "anchors": ["net/h264/spspps.go: ParseSprop, ParseSPS, ParsePPS", "net/h264/packet.go: Push"]}
{"id": "C118", "title": "An application takes from the channels what it cares for", "statement": "Stages and packets reach the application in order and complete; the session goes on reading whichever of the two channels the application listens to.", "quantifier": "every application (commands and takes in any order), every stream from the server, every scheduling", "why_tests_cant": "ranges over all applications and all interleavings; the session stands still only after the 21st packet not taken or a stage not taken", "anchors": ["net/rtsp/session.go: receive, process, notify, Open", "net/rtsp/connection.go: Dial"]}
{"id": "C119", "title": "A playlist can be served while segments are added to it", "statement": "String, called by one goroutine while another one is in AddSegment, gives the text before or after the segment: only segments that were added, in order, with their durations and byte ranges.", "quantifier": "every ring size, every sequence of segments, every interleaving of the loads of String with the stores of AddSegment", "why_tests_cant": "ranges over all interleavings of two goroutines; a test that does not happen on the few bad ones passes", "anchors": ["net/hls/playlist.go: String, AddSegment"]}
{"id": "C120", "title": "Requests about the whole presentation go where the description says", "statement": "PLAY, PAUSE, TEARDOWN and keep-alives go to the URI that the description gives for the whole presentation: its session-level control attribute, else Content-Base, Content-Location or the URI asked for.", "quantifier": "every session, every stream from the server, every sequence of commands", "why_tests_cant": "ranges over all histories of a session; servers that accept the opened URI as well hide the mistake", "anchors": ["net/rtsp/session.go: Options, Describe, Setup, Play, Pause, Teardown, KeepAlive, command, handleRtsp"]}
{"id": "C121", "title": "A session can be opened again", "statement": "Open on a session that is over goes on as on a new session: the description is asked for, the streams are set up and Ready is announced when they are; the new server is told nothing of the old session.", "quantifier": "every session state, every URL, every stream from the new server", "why_tests_cant": "ranges over everything a former session can leave behind; tests use a new session each", "anchors": ["net/rtsp/session.go: NewSession, Open, authorize, handleRtsp, handleSetup", "net/rtsp/connection.go: Dial"]}
{"id": "C122", "title": "The ports are free again when the session is over", "statement": "When the server has acknowledged TEARDOWN, or the connection is lost, the UDP ports the session listened on are closed.", "quantifier": "every session, every stream from the server, every sequence of commands", "why_tests_cant": "ranges over all histories; a leak of two ports per stream shows only in programs that open many sessions", "anchors": ["net/rtsp/session.go: handleSetup, Teardown, process", "net/rtsp/connection.go: AddSink, Start, Stop"]}
{"id": "C123", "title": "The session does not time out at the server while it is used", "statement": "While a session plays, the server gets a request at least once in the time it has set in the Session field (60 seconds unless given).", "quantifier": "every session, every stream from the server, every clock, every timeout", "why_tests_cant": "needs minutes of real time per case and ranges over all clocks and timeouts", "anchors": ["net/rtsp/session.go: process, KeepAlive, handleSetup"]}
{"id": "C124", "title": "A challenge is understood in every form the standard allows", "statement": "A WWW-Authenticate field written in any form of RFC 2617 is understood: values with or without quotes and with commas in the quotes, blanks between the parts, scheme and names in any case, parameters that are not known, several challenges in one field.", "quantifier": "every challenge of the grammar", "why_tests_cant": "ranges over the whole grammar; each server uses one form, and those at hand the simplest", "anchors": ["net/rtsp/digest.go: NewDigest"]}
{"id": "C125", "title": "The packets of a compound RTCP packet can be read one after the other", "statement": "A program that calls Unpack, goes on behind the packet by its length field and calls Unpack again gets every packet of a compound RTCP packet in order, whatever comes behind; and what it gets of a packet depends on the bytes of that packet alone.", "quantifier": "every sequence of packets, every content, every rest behind them", "why_tests_cant": "ranges over all sequences of packets with all contents; tests unpack single packets", "anchors": ["net/rtcp/packet.go: Unpack, Packet"]}
{"id": "C126", "title": "Done is the end", "statement": "After Done has been announced no other stage is announced, no packet is passed on, the session sends nothing of its own accord, and its loop ends.", "quantifier": "every history up to Done, every stream from the server after it", "why_tests_cant": "ranges over all histories and all answers that are still under way; tests end at Done", "anchors": ["net/rtsp/session.go: process, receive, handleRtsp, notify, KeepAlive, Teardown"]}
{"id": "C127", "title": "The order of the attributes of a stream does not matter", "statement": "Two descriptions that differ only in the order of the attribute lines of a stream give the same stream.", "quantifier": "every description, every set of attribute lines, every two orders of them", "why_tests_cant": "ranges over all permutations of all sets of lines; tests have one order", "anchors": ["net/sdp/packet.go: Parse"]}
{"id": "C128", "title": "A stream with several formats is described by one of them", "statement": "When a media line offers several formats, the mapping, the codec, the clock rate and the parameter sets reported for the stream are those of the payload type reported.", "quantifier": "every list of formats, every sequence of attribute lines about them", "why_tests_cant": "ranges over all lists of formats and lines; the test has one format per stream", "anchors": ["net/sdp/packet.go: Parse, Media"]}
{"id": "C129", "title": "Two sessions do not ask for the same ports", "statement": "Two sessions that receive over UDP on one machine ask their servers for different ports, so each gets its own packets.", "quantifier": "every two sessions, every two descriptions", "why_tests_cant": "ranges over all pairs of sessions and descriptions, and needs two servers at a time", "anchors": ["net/rtsp/transport.go: NewTransport", "net/rtsp/feed.go: ParseFeeds, TransportHeader", "net/rtsp/session.go: Setup"]}
{"id": "C130", "title": "What a server sends over UDP can be received", "statement": "A datagram that the server sends to this machine, or to the multicast group, on the port of a stream reaches the listener of the stream.", "quantifier": "every session, every address of the machine or the group, every port", "why_tests_cant": "ranges over the addresses of all networks; a test runs on one machine, where the loopback address works", "anchors": ["net/rtsp/connection.go: AddSink", "net/rtsp/session.go: handleSetup"]}
{"id": "C131", "title": "A transport that was not asked for is not accepted in silence", "statement": "If the server answers SETUP with another transport than was asked for, or with none, the caller is told instead of being told that all is ready.", "quantifier": "every session, every stream, every transport in the answer", "why_tests_cant": "ranges over all answers to all requests; the servers at hand grant what is asked", "anchors": ["net/rtsp/transport.go: Parse", "net/rtsp/feed.go: TransportSetup", "net/rtsp/session.go: handleSetup"]}
{"id": "C132", "title": "A request that cannot be sent does not go unnoticed", "statement": "If a request cannot be written, be it the application's or one that the session sends of its own accord, the application is told or the session ends.", "quantifier": "every session, every request, every error of the connection", "why_tests_cant": "needs a connection that fails at each of the writes in turn, with each kind of error", "anchors": ["net/rtsp/session.go: command, Setup, KeepAlive, process", "net/rtsp/connection.go: Write, isTimeoutOrTemp"]}
{"id": "C133", "title": "Transport parameters left out have their default values", "statement": "Reading a Transport field into a fresh Transport gives every parameter that the field leaves out the default that RFC 2326 12.39 names (multicast, mode PLAY); reading it into one that is set up already leaves those parameters as they are.", "quantifier": "every Transport field, every Transport read into, every parameter", "why_tests_cant": "ranges over all combinations of parameters and all values", "anchors": ["net/rtsp/transport.go: Parse"]}
{"id": "C134", "title": "A redirected session goes to the new location", "statement": "After an answer of the class 3xx that gives a Location, the request is made again there, and the session goes on with that server.", "quantifier": "every session, every stream from the server, every location", "why_tests_cant": "ranges over all servers that redirect, at every point of the handshake", "anchors": ["net/rtsp/session.go: handleRtsp, Describe, command"]}
{"id": "C135", "title": "The session goes on only when the server has agreed", "statement": "An answer whose status is not of the class 2xx, 401 aside, does not take the session a step further: DESCRIBE is sent only after OPTIONS succeeded, SETUP only after DESCRIBE did.", "quantifier": "every session state, every answer", "why_tests_cant": "ranges over all statuses of all answers; the servers at hand send no content with an error", "anchors": ["net/rtsp/session.go: handleRtsp, Describe, Setup"]}
{"id": "C136", "title": "A header field may stand on several lines", "statement": "A field that is continued on further lines (each beginning with a blank or a tab) has the value it would have on one line; several fields of one name have the value of one field with the list of their values.", "quantifier": "every response, every field, every number of lines", "why_tests_cant": "ranges over all ways to write a header; the servers at hand write one line per field", "anchors": ["net/rtsp/message.go: Response.Unpack, MessageHeader.Set", "net/rtsp/session.go: process"]}
{"id": "C137", "title": "Requests nobody answers are not kept for ever", "statement": "What a session keeps about the requests it has sent does not grow without bound while the session lives, even if the server leaves requests unanswered.", "quantifier": "every session, every server, every number of keep-alives", "why_tests_cant": "ranges over sessions of any length; a test sees a few requests, all of which are answered", "anchors": ["net/rtsp/session.go: enqueue, dequeue, KeepAlive, process"]}
{"id": "C138", "title": "Whichever channels the server grants", "statement": "A server may grant a stream other channels of the connection than were asked for. Whichever it grants, the packets of the stream are shown as they would be on the channels asked for.", "quantifier": "every stream, every choice of channels, every sequence of packets", "why_tests_cant": "ranges over all choices of a server; servers at hand grant what was asked for", "anchors": ["cmd/ouro/main.go: handleStates", "net/rtsp/session.go: receive, handleSetup", "net/rtsp/transport.go: Parse"]}
{"id": "C139", "title": "Every unit is shown once, in the order it was sent", "statement": "Packets may come twice or out of order, and packets of other sources or payload types may come on the same channel. The units of the stream are shown once each, in the order of the sequence numbers, and nothing is shown of the other packets.", "quantifier": "every sequence of packets, every order of arrival, every header", "why_tests_cant": "ranges over all that a network does to the order of packets; a test replays a recording", "anchors": ["net/rtp/packet.go: Unpack", "net/h264/packet.go: Push", "cmd/ouro/main.go: handleStates"]}
{"id": "C140", "title": "What a control packet says can be had", "statement": "Of every legal RTCP packet Unpack returns the contents: the sources and the reason of a goodbye, the blocks of a receiver report, the items of a source description. A program that is told goodbye takes notice.", "quantifier": "every legal packet, every contents, every compound packet", "why_tests_cant": "ranges over all contents of packets; a test has a few", "anchors": ["net/rtcp/packet.go: Unpack", "cmd/ouro/main.go: handleStates"]}
{"id": "C141", "title": "A parameter set the standard does not allow is refused", "statement": "A sequence or picture parameter set that is well formed but has a value out of the range of the standard (number, colour format, bit depth, picture size less than the cropping, number of reference pictures, quantiser, or a picture parameter set for a sequence parameter set that is not there) is refused with an error and not stored.", "quantifier": "every set that can be written, every value out of range", "why_tests_cant": "ranges over all values of all fields; a test has a few wrong sets", "anchors": ["net/h264/spspps.go: ParseSPS, ParsePPS"]}
{"id": "C142", "title": "The server reads the user's name from the Authorization field as it was given", "statement": "For every challenge accepted, every user name and password and every history of requests: reading the value returned for a request as RFC 2617 writes it (parameters separated by commas, quoted strings ending at the first quote that is not escaped, a backslash standing for the next character; for Basic, the name ending at the first colon of the decoded text) gives the user name, and for digests the address and the realm, nonce, opaque, algorithm and qop of the challenge.", "quantifier": "for all challenges, addresses, user names, passwords, random values and histories of requests and renewals", "why_tests_cant": "User names in tests are plain words; names with a backslash (DOMAIN\\user), a quote or a colon are endlessly many, and the claim that nothing in the value changes how the rest is read is about all of them.", "anchors": ["net/rtsp/digest.go: Authenticate", "net/rtsp/digest.go: response", "net/rtsp/digest.go: NewDigest"]}
{"id": "C143", "title": "The parameters of the Authorization field have the form of the standard", "statement": "Every digest response is written as RFC 2617 3.2.2 says: user name, realm, nonce, uri, opaque, cnonce and response as quoted strings, algorithm, qop and nc as tokens.", "quantifier": "for all challenges, addresses, user names, passwords, random values and histories of requests and renewals", "why_tests_cant": "A test compares one header with one expected text, usually copied from the output; the form has to hold of every header.", "anchors": ["net/rtsp/digest.go: Authenticate", "net/rtsp/digest.go: response"]}
{"id": "C144", "title": "Zero bytes around the units of a byte stream belong to none of them", "statement": "For every list of NAL units and every number of zero bytes before each start code and at the end (leading_zero_8bits, zero_byte and trailing_zero_8bits of H.264 Annex B), SplitAnnexB returns exactly the units.", "quantifier": "every non-empty list of units, every number of zero bytes before each start code and behind the last unit", "why_tests_cant": "The zero bytes may be any number at every place; a test has streams with three- and four-byte start codes.", "anchors": ["net/h264/annexb.go: SplitAnnexB"]}
{"id": "C145", "title": "All the streams that were set up are played", "statement": "The session that PLAY names is the session of every stream that was set up, also with a server that begins a session for each SETUP request that names none (RFC 2326 10.4 and 12.37).", "quantifier": "every description, number of streams, order of the answers to SETUP, placement of frames and silences, session identifiers, later commands", "why_tests_cant": "A test server hands out one identifier; with one per SETUP request the outcome depends on which answer comes last, over all orders and numbers of streams.", "anchors": ["net/rtsp/message.go: Request.Pack", "net/rtsp/session.go: Setup", "net/rtsp/session.go: handleResponse"]}
{"id": "C146", "title": "Timeout bounds every read", "statement": "With the exported field Timeout positive, a read of a connection returns what it asks for if and only if it comes within Timeout from the start of the call, and otherwise fails with a timeout at that moment, unless the connection ended; with Timeout zero a read waits for as long as it takes.", "quantifier": "every sequence of reads and of assignments to Timeout, at any times, every division of the incoming bytes into arrivals at any times, with the connection ending or not", "why_tests_cant": "A test runs on one clock with one spacing of the arrivals; a deadline that outlives the setting it came from shows only in a history with a change of Timeout and a pause behind it.", "anchors": ["net/rtsp/connection.go: ReadLine", "net/rtsp/connection.go: Peek", "net/rtsp/connection.go: ReadByte", "net/rtsp/connection.go: ReadUint16", "net/rtsp/connection.go: ReadBytes"]}
{"id": "C147", "title": "The server receives whole requests", "statement": "What a server reads from the connection is a sequence of whole requests, those that were sent; after one that could be written only in part no other follows on the same connection.", "quantifier": "every URL, every stream of bytes from the server, every history of commands and turns of the loop, every point at which a write is cut", "why_tests_cant": "A write is cut by a full buffer and a deadline, which a test on the loopback does not see; where it is cut and what comes behind it is left to the network.", "anchors": ["net/rtsp/connection.go: Write", "net/rtsp/session.go: command"]}
{"id": "C148", "title": "Requests carry the credentials for the latest challenge", "statement": "Whatever the server sends and the application asks for: no request carries an Authorization value before one has been repeated after a 401; from then on every request carries the value that the challenge of the latest such answer, the user's name and password and the request's own method give, so that the server reads its own challenge and the user's name from it.", "quantifier": "every user and address, every stream of bytes from the server, every history of commands and turns of the loop, every protocol but HTTP tunnelling, every moment of the history", "why_tests_cant": "A test has one challenge and a few requests; that no history of challenges, commands, failed writes and errors ever leaves a request with the credentials for an older challenge, or with another method's, is a statement about all of them.", "anchors": ["net/rtsp/session.go: command", "net/rtsp/session.go: handleRtsp", "net/rtsp/digest.go: Authenticate"]}
{"id": "C149", "title": "A segment's duration is read from the playlist as it was given", "statement": "In whatever text the playlist gives out, the duration of every segment listed is a decimal number that rounds to exactly the number given to AddSegment and to no other, for every finite number that is not negative; for any other value (an infinity, NaN, a negative sign) the text is no number, so that a player never takes it for another duration.", "quantifier": "every size of the playlist, every file name, every history of additions, every float64", "why_tests_cant": "There are 2^64 durations; that none of their shortest texts rounds to a neighbour, in particular next to a power of two and among the smallest numbers, and that no later addition changes a duration already listed, cannot be settled by examples.", "anchors": ["net/hls/playlist.go: String", "net/hls/playlist.go: AddSegment"]}
{"id": "C150", "title": "The loop of a session does not spin", "statement": "While the loop of a session goes on, each of its turns has used up at least one byte the server sent or one pause as long as the read timeout; so whatever the server sends, whatever the application asks for in between and whichever writes fail, the loop takes at most one turn for each byte and pause, and it is over at the latest one turn after the end of the connection has been reached.", "quantifier": "every session in any state, every stream of bytes, pauses and end, every history of commands and turns, every pattern of failed writes and listeners", "why_tests_cant": "Endless loops show only for the inputs that cause them; that no response, frame, error or failed write leaves the loop going without having read anything is a statement about all of them.", "anchors": ["net/rtsp/session.go: process", "net/rtsp/session.go: receive", "net/rtsp/session.go: handleRtsp", "net/rtsp/message.go: Unpack"]}
{"id": "C151", "title": "A response reads the same whatever ends its lines", "statement": "Unpack takes CR LF, LF and CR alike as the end of a line (RFC 2326 4): the same response with other line ends, mixed in any way, gives the same result, an error included, and leaves the same bytes to be read after it.", "quantifier": "every status line and list of header lines, well-formed or not, every choice of the end of each line, every content and whatever follows", "why_tests_cant": "There are as many ways to end the lines as there are combinations of ends, and a wrong one moves the border between the head and the content; a test has a few.", "anchors": ["net/rtsp/message.go: Unpack", "net/rtsp/connection.go: ReadLine"]}
{"id": "C152", "title": "A description reads the same whatever ends its lines", "statement": "Parse takes CR LF and LF alike as the end of a line (RFC 4566 5) and does not need the end of the last one: the same description with other line ends, mixed in any way, gives the same feeds.", "quantifier": "every list of lines, well-formed or not, every choice of the end of each line, with or without the last one", "why_tests_cant": "A stray CR would only show in the last value of some line of some description; a test has a few descriptions with one kind of line end.", "anchors": ["net/sdp/packet.go: Parse"]}
{"id": "C153", "title": "A feed says of its stream what the description says", "statement": "The feeds of a session are, at any time, the video sections in order of one description the server sent in this session, and every sequence or picture parameter set a feed can be asked for was read from one of the units its own section gives: nothing the server sends besides, and no section of another stream, ever changes them.", "quantifier": "every stream of bytes, pauses and end, every history of commands and turns, every pattern of failed writes and listeners", "why_tests_cant": "A test looks at the feeds after one exchange; that no other response, frame or error, in any order, mixes up the sections or their parameter sets is a statement about all histories.", "anchors": ["net/rtsp/session.go: handleRtsp", "net/rtsp/feed.go: ParseFeeds", "net/rtsp/feed.go: TransportSetup", "net/h264/spspps.go: ParseSprop"]}
{"id": "C154", "title": "Parameter sets sent in the stream become known", "statement": "A parameter set that is sent in the stream (RFC 6184 8.4; SPSInfo: parsed from out-of-band or in-band data in the stream) can be had from the feed once its packet has been delivered.", "quantifier": "every session, every history, every packet", "why_tests_cant": "In which of all histories the feed learns a set cannot be told by examples.", "anchors": ["net/rtsp/session.go: receive", "net/rtsp/feed.go: TransportSetup", "net/h264/spspps.go: ParseSPS"]}
{"id": "C155", "title": "The log is a record of the session", "statement": "Every message the client sends or receives is in the log it prints, once and in the order of exchange, next to nothing but notices and errors; every stage it is told of is named there in order, and every tick of its timer with the stage it finds, with a notice if it closes the session; and when the client ends by itself, the last entry is the error that ended it, or the tick after the end of the session.", "quantifier": "every execution of the program: every order of turns, stages, packets, ticks and expiries, whatever the server sends and whichever writes fail", "why_tests_cant": "A test sees the output of a few conversations; that nothing exchanged is ever missing or out of order, and that no way to end is silent, is a statement about all executions.", "anchors": ["cmd/ouro/main.go: handleStates", "net/rtsp/session.go: command", "net/rtsp/session.go: handleRtsp"]}
{"id": "C156", "title": "Every entry of the output begins a line", "statement": "The client prints its log to standard output; whatever the server does, every entry of it begins a line of its own, so that the output can be read line by line.", "quantifier": "every execution of the program and every order in which the texts printed by its goroutines reach standard output", "why_tests_cant": "Whether two goroutines' texts ever share a line depends on the server's answers and on the schedule; a test sees one of each.", "anchors": ["net/rtsp/connection.go: Start", "cmd/ouro/main.go: handleStates", "net/rtsp/session.go: handleSetup"]}
{"id": "C157", "title": "A playlist that was made can be used", "statement": "NewPlaylist returns an error unless the base is a URL, the file exists and can be read, and there is room for at least one segment; the playlist it returns otherwise takes segments and shows them.", "quantifier": "every base, file name, number of segments and state of the file system, and every history of segments", "why_tests_cant": "A test makes a playlist of one file with one size; the sizes and files that break it, and the histories that follow, are without end.", "anchors": ["net/hls/playlist.go: NewPlaylist", "net/hls/playlist.go: AddSegment", "net/hls/playlist.go: String"]}
{"id": "C158", "title": "A request names only a session the server has given", "statement": "Every Session field of a request is an identifier that the server gave in a response of this session before the request was sent.", "quantifier": "every stream of bytes from the server, every history of commands and turns of the loop, every protocol", "why_tests_cant": "Where an identifier comes from depends on the whole history; a test looks at one request of one conversation.", "anchors": ["net/rtsp/session.go: handleRtsp", "net/rtsp/session.go: KeepAlive", "net/rtsp/message.go: Pack"]}
{"id": "C159", "title": "The tunnel through HTTP is opened only when the server agrees", "statement": "A session over HTTP is opened exactly when the server answers the GET with status 200 in a version of HTTP a client of HTTP/1.0 has to accept; the whole head of the answer is taken and what follows it is left for RTSP.", "quantifier": "every URL, every answer of the server, every way its lines end, whatever follows", "why_tests_cant": "The answers of servers have no bound; a test tries a few, and against a server that says yes.", "anchors": ["net/rtsp/http.go: ReceiveHTTP", "net/rtsp/connection.go: Dial"]}
{"id": "C160", "title": "Only the streams asked for are shown", "statement": "What is passed to the application and shown are packets of the streams that were set up, on the channels the server granted for them, while they are played.", "quantifier": "every state of a session, every channel, every sequence of packets, every history", "why_tests_cant": "A test sees the packets its own server sends, which are those that were asked for.", "anchors": ["net/rtsp/session.go: receive", "cmd/ouro/main.go: handleStates"]}
{"id": "C161", "title": "A session goes on while the server answers what it is asked", "statement": "Over the connection or over UDP, as long as every response that arrives answers a request that has not been answered, its content is a description that can be read, its transport can be read, and it asks for credentials only if there are some and in a form that can be read, the session's loop goes on: it takes everything that arrives, in order, and announces or delivers it. This holds whatever commands the application gives and whenever, whichever requests the server refuses, in whatever order it answers, and however the clock goes, so also with keep-alives in between.", "quantifier": "every protocol but HTTP, every history of commands, turns and clock readings, every sequence of responses (any status), packets and silences", "why_tests_cant": "Unit tests can try a few conversations; commands, keep-alives and answers interleave in unboundedly many ways, and one error anywhere in the handling of a response ends the loop for good.", "anchors": ["net/rtsp/session.go: process", "net/rtsp/session.go: receive", "net/rtsp/session.go: handleRtsp", "net/rtsp/session.go: handleSetup", "net/rtsp/session.go: KeepAlive"]}
{"id": "C162", "title": "A parameter set damaged in the description is not taken for another", "statement": "Of each parameter set in the description (sprop-parameter-sets, in base64) the feed has the bytes that its text stands for, and none of a text that stands for nothing; likewise the configuration in hexadecimal.", "quantifier": "every description, every video section, every fmtp attribute of two or more parameters, whatever their texts", "why_tests_cant": "A test describes with sets that are well formed; damaged ones differ in where and how, and what is made of each is a matter of every text there is.", "anchors": ["net/sdp/packet.go: Parse"]}
{"id": "C163", "title": "A duration is written with no digit too many", "statement": "In every playlist, the text of a segment's duration has no more digits than tell it from every other float64: no decimal number with fewer stands for it, and of those with as many none that does is nearer.", "quantifier": "every playlist, every history of segments, every finite duration that is not negative", "why_tests_cant": "There are 2^63 durations; a test prints a few, most of them round, where the digits are few anyway.", "anchors": ["net/hls/playlist.go: String"]}
{"id": "C164", "title": "A stream in another format is not taken for H.264", "statement": "A video stream whose description names a format other than H.264 is not set up, or what is received of it is not shown as H.264 units.", "quantifier": "every session and execution of the client, every description, every H.265 packet", "why_tests_cant": "A test uses the one format the client reads; that another makes no difference at all is a claim about two sessions and all their histories.", "anchors": ["net/rtsp/session.go: handleRtsp", "net/sdp/packet.go: Parse", "cmd/ouro/main.go: handleStates"]}
{"id": "C165", "title": "Parameter sets may come in either order", "statement": "What is known after a sequence parameter set and a picture parameter set that names it does not depend on which of them was given first; nor does what is known after any number of sets with numbers of their own depend on their order.", "quantifier": "every two sets, as any bytes, every list of sets and every order of it, and every state of what is known before", "why_tests_cant": "The order matters for a few picture parameter sets only, those with scaling lists for the 8x8 transform; that it matters for no others, and for each of these, takes all of them.", "anchors": ["net/h264/spspps.go: ParseSPS", "net/h264/spspps.go: ParsePPS"]}
{"id": "C166", "title": "The program takes each of its steps once, whatever the server does", "statement": "Whatever the server sends and whatever fails, the program at any moment has asked for the beginning of: OPTIONS, DESCRIBE, some SETUPs, PLAY, PAUSE, TEARDOWN, each once (not counting requests repeated with credentials); it has taken a beginning of the stages ready, playing, paused, done; and when its timer ends it, all of them.", "quantifier": "every conversation over TCP, every order of events, every outcome of every read and write, as long as no description has 2^62 streams", "why_tests_cant": "A test replays a few servers; that no answer given twice, late, out of order or for another request makes the program play, pause or tear down twice is a statement about all conversations.", "anchors": ["cmd/ouro/main.go: handleStates", "net/rtsp/session.go: handleRtsp", "net/rtsp/session.go: handleSetup", "net/rtsp/session.go: dequeue"]}
{"id": "C167", "title": "The program plays for five seconds and pauses for five seconds", "statement": "PAUSE is sent at least five seconds after the program heard that the stream plays, TEARDOWN at least five seconds after it heard that the stream is paused, and the program ends (by its timer) at least five seconds after it heard that the session is done.", "quantifier": "every conversation over TCP and all times of all events", "why_tests_cant": "The timer is shared by three waits; that no tick left over from one wait ends the next takes all interleavings of expiry, stages and packets.", "anchors": ["cmd/ouro/main.go: handleStates"]}
{"id": "C168", "title": "A stage is announced no more often than it was asked for", "statement": "At every moment a session has announced Ready, Play, Pause and Done no more often than SETUP, PLAY, PAUSE and TEARDOWN have been requested; and for each announcement of the last three the server has sent an answer of its own with status 200.", "quantifier": "every history of commands and receiver turns over TCP or UDP, every server, every outcome of every read, write and listen", "why_tests_cant": "An answer repeated by the server, or for a request repeated with credentials under another number, must not count twice; a test sees single conversations.", "anchors": ["net/rtsp/session.go: handleRtsp", "net/rtsp/session.go: handleSetup", "net/rtsp/session.go: enqueue", "net/rtsp/session.go: dequeue", "net/rtsp/session.go: notify"]}
{"id": "C169", "title": "The client asks for nothing its application has not asked for", "statement": "Whatever the server sends, in whatever order, and whatever the application does: PLAY, PAUSE and TEARDOWN are sent exactly as often as the application calls Play, Pause and Teardown; OPTIONS exactly as often as it calls Options or the session is due to be kept alive; DESCRIBE no more often than OPTIONS has been sent plus Describe called; SETUP, when the application leaves it to the session, once at most for every m=video in the responses received; and a request is sent again no more often than credentials have been asked for (status 401). So no server can make the client send requests without end of its own accord.", "quantifier": "all sessions over TCP or UDP, all sequences of calls and turns of the loop, all bytes the server may send, all failures of writes and listeners", "why_tests_cant": "A test can show that one hostile conversation does not multiply requests; that none does is a statement about all conversations.", "anchors": ["net/rtsp/session.go: handleRtsp", "net/rtsp/session.go: command", "net/rtsp/session.go: KeepAlive", "net/rtsp/session.go: Setup", "net/sdp/packet.go: Parse"]}
{"id": "C170", "title": "No more comes out of a sink than was put in", "statement": "Whatever payloads are pushed, the units an application is shown (headers and contents together, after each Push) have no more bytes than the payloads pushed so far: a sender cannot make the client handle more than it sends.", "quantifier": "all sequences of payloads, of any bytes and any lengths", "why_tests_cant": "Amplification comes from odd sequences of packets, not from single ones; a test tries a few sequences.", "anchors": ["net/h264/packet.go: Push", "net/h264/packet.go: AddFragment", "net/h264/packet.go: parseSTAP", "net/h264/packet.go: parseMTAP", "net/h264/annexb.go: SplitAnnexB"]}
{"id": "C171", "title": "What is made of a stream does not depend on the streams that share its sink", "statement": "When the payloads of several streams are pushed into one sink, as the command-line client does, the units that come of one of them, their contents, times and numbers, and what Push returns for it are the same as if its payloads were pushed alone.", "quantifier": "all sequences of payloads of any number of streams, in any order, and all states of the sink", "why_tests_cant": "Interference is a statement about pairs of executions: every interleaving with the other streams against the stream alone.", "anchors": ["net/h264/packet.go: Push", "net/h264/packet.go: AddFragment", "net/h264/packet.go: parseNAL", "net/h264/packet.go: parseSTAP", "net/h264/packet.go: parseMTAP", "cmd/ouro/main.go: handleStates"]}
{"id": "C172", "title": "Media packets and silences do not disturb the session", "statement": "Over TCP the media packets and the pauses between the responses make no difference to the session: the requests sent, the stages announced, the ports listened on and the end of the loop are the same as if the responses came alone.", "quantifier": "all histories of commands and turns of the loop, all sequences of responses, packets and silences, all states of the session", "why_tests_cant": "It compares every execution with another one in which the packets are missing; tests look at single executions.", "anchors": ["net/rtsp/session.go: receive", "net/rtsp/session.go: process", "net/rtsp/session.go: handleRtsp", "net/rtsp/connection.go: ReadBytes"]}
{"id": "C173", "title": "Lines of a description that are of no use are passed over", "statement": "Lines of a session description that are neither media lines nor one of the attributes the library looks for (control, rtpmap, fmtp) may be added or left out anywhere without a change to the streams Parse returns.", "quantifier": "all descriptions, all such lines, at all places", "why_tests_cant": "It compares the results for every description with and without every such line; a test has some lines some vendor sends.", "anchors": ["net/sdp/packet.go: Parse"]}
{"id": "C174", "title": "Unknown transport parameters and the order of the others", "statement": "Parameters of a Transport field that the library does not know may be added or left out anywhere, and the parameters it does know may stand in any order, without a change to what Transport.Parse reads from the field.", "quantifier": "all Transport values read into, all lists of parameters, all their permutations, all unknown parameters at all places", "why_tests_cant": "It compares the results for every field with those for every reordering of it and every addition to it; a test has a few fields some server sent.", "anchors": ["net/rtsp/transport.go: Parse"]}
{"id": "C175", "title": "What comes after a parameter set does not change it", "statement": "A parameter set that ParseSPS or ParsePPS can read from a buffer is read the same, and leaves the same sets known, when any other bytes come after it in the buffer.", "quantifier": "all stores of parameter sets, all buffers, legal or not, all bytes after them", "why_tests_cant": "It compares every buffer with every longer one; tests have single buffers.", "anchors": ["net/h264/spspps.go: ParseSPS", "net/h264/spspps.go: ParsePPS"]}
{"id": "C176", "title": "Byte streams one after the other give their units one after the other", "statement": "SplitAnnexB applied to two byte streams with a start code between them returns the units it returns for the first followed by the units it returns for the second, so that a stream may be cut at its start codes and split piece by piece.", "quantifier": "all byte sequences on both sides, legal streams or not, both forms of the start code", "why_tests_cant": "It relates the results for all pairs of streams and their concatenation; tests have single streams.", "anchors": ["net/h264/annexb.go: SplitAnnexB"]}
{"id": "C177", "title": "The clock of a stream may start anywhere", "statement": "If the times given to Push with the payloads of a stream are all moved by the same amount, modulo 2^32, then so are the times of the units that come out of the sink, and nothing else about the units or the errors changes.", "quantifier": "all sequences of payloads of any bytes with any times, all amounts", "why_tests_cant": "A sender starts its clock at a random value; the property compares all sequences with all their shifts, wrap-around included.", "anchors": ["net/h264/packet.go: Push", "net/h264/packet.go: parseSTAP", "net/h264/packet.go: parseMTAP", "net/h264/packet.go: AddFragment"]}
{"id": "C178", "title": "Packets that differ are not read alike", "statement": "If Unpack returns the same packet for two RTP packets, or for two RTCP packets, then the two are the same bytes: what an application, a recorder or a relay gets from Unpack is all there was in the packet.", "quantifier": "all pairs of byte strings that Unpack accepts", "why_tests_cant": "It is a statement about every pair of packets; tests compare the fields of one packet with what was put there.", "anchors": ["net/rtp/packet.go: Unpack", "net/rtcp/packet.go: Unpack"]}
{"id": "C179", "title": "A change of the sequence parameter set can be seen", "statement": "If two legal sequence parameter sets differ in a value of their syntax, VUI parameters included, then what ParseSPS keeps of them differs: an application that compares it sees that the stream has changed.", "quantifier": "all pairs of legal sequence parameter sets and all stores", "why_tests_cant": "It is about every pair of parameter sets; tests parse a few and look at some fields.", "anchors": ["net/h264/spspps.go: ParseSPS", "net/h264/spspps.go: SPSInfo"]}
{"id": "C180", "title": "A change of the picture parameter set can be seen", "statement": "If two legal picture parameter sets differ in a value of their syntax, then what ParsePPS keeps of them differs.", "quantifier": "all pairs of legal picture parameter sets and all stores of sequence parameter sets", "why_tests_cant": "It is about every pair of parameter sets; tests parse a few and look at some fields.", "anchors": ["net/h264/spspps.go: ParsePPS", "net/h264/spspps.go: PPSInfo"]}
{"id": "C181", "title": "A byte stream can be split as it comes", "statement": "Of the part of a byte stream that has come so far, all units that SplitAnnexB returns but the last are final: whatever comes later, they are the first units of the whole. The bytes of all units but the last can be dropped: SplitAnnexB applied to the bytes that made the last unit, with what comes later behind them, returns the remaining units of the whole, even if the cut is within a start code or an emulation prevention sequence.", "quantifier": "all byte sequences, legal streams or not, cut anywhere, and all continuations of them", "why_tests_cant": "It relates the results for all beginnings of a stream to those for all continuations; tests have single streams.", "anchors": ["net/h264/annexb.go: SplitAnnexB, EBSPToRaw"]}
{"id": "C182", "title": "Escaping makes a unit little longer and never makes two units alike", "statement": "Where RBSPToEncapsulated returns, what it returns is at least as long as its argument and at most a third longer, so that a buffer can be sized beforehand; EBSPToRaw returns at most as many bytes as it is given and at least two thirds of them. RBSPToEncapsulated returns exactly its argument if and only if nothing in it is to be escaped (two zero bytes followed by a byte up to 3 or by the end). It returns different bytes for different units.", "quantifier": "all byte sequences of all lengths, all pairs of them", "why_tests_cant": "Bounds over all lengths and a comparison of the results for all pairs of units; tests have single units.", "anchors": ["net/h264/annexb.go: RBSPToEncapsulated, EBSPToRaw"]}
{"id": "C183", "title": "A number may be read in pieces", "statement": "Calling ReadBits for n bits and then for m bits returns the upper and the lower part of the number that one call for n + m bits returns from the same place, and leaves the same number of bits available.", "quantifier": "all buffers, all states of the reader that calls can lead to, all widths of both pieces", "why_tests_cant": "It relates three calls in all states of the reader, at all positions within a byte and all widths; tests have single sequences of calls.", "anchors": ["net/h264/bits.go: ReadBits, Available"]}
{"id": "C184", "title": "A unit may be escaped and unescaped piece by piece", "statement": "What RBSPToEncapsulated returns for a unit is what it returns for the pieces of the unit, one after the other, and likewise for EBSPToRaw, so that a long unit need not be held in one piece.", "quantifier": "all byte sequences, cut in two anywhere", "why_tests_cant": "It relates the results for all units and all places to cut them; tests have single units.", "anchors": ["net/h264/annexb.go: RBSPToEncapsulated, EBSPToRaw"]}
