{
 "claims": [
  {
   "property": "C01",
   "status": "partial",
   "theorems": [
    "C01_read_bits_partial",
    "C01_read_bits_exact",
    "C01_read_bits_refuted"
   ],
   "note": "False of the code for every read spanning five bytes whose lost bits are not all zero (C01_read_bits_refuted; e.g. five 0xFF bytes, ReadBits(4) then ReadBits(32)). Proved for every read with n + (Available() after) mod 8 <= 32, in particular every n <= 25; exact value of the lossy reads in C01_read_bits_exact."
  },
  {
   "property": "C02",
   "status": "partial",
   "theorems": [
    "C02_bounds",
    "C02_history",
    "C02_empty",
    "C02_zero_width_refuted"
   ],
   "note": "Proved for every non-empty buffer and every history, including equality with the abstract bit-list machine. On the empty buffer a zero-width ReadBits panics (C02_zero_width_refuted); positive widths fail cleanly (C02_empty)."
  },
  {
   "property": "C03",
   "status": "partial",
   "theorems": [
    "C03_ue_partial",
    "C03_ue_exact",
    "C03_ue_refuted"
   ],
   "note": "False for large codeNum at unlucky alignments (C03_ue_refuted). Proved for every v < 2^26-1 at every position and for larger v whenever the suffix fits the 32-bit accumulator; exact value otherwise in C03_ue_exact."
  },
  {
   "property": "C04",
   "status": "partial",
   "theorems": [
    "C04_se_partial",
    "C04_se_exact",
    "C04_se_refuted"
   ],
   "note": "As C03 (C04_se_refuted). Proved for |v| < 2^25 at every position; exact value otherwise in C04_se_exact."
  },
  {
   "property": "C05",
   "status": "partial",
   "theorems": [
    "C05_skip_bits",
    "C05_skip_golomb",
    "C05_empty_refuted"
   ],
   "note": "Proved on every non-empty buffer; on the empty buffer zero-width skip succeeds where read panics (C05_empty_refuted)."
  },
  {
   "property": "C06",
   "status": "proved",
   "theorems": [
    "C06_scaling_list",
    "C06_out_of_range_refuted"
   ],
   "note": "Deltas in the range the standard allows. Outside it the truncated remainder can give negative entries (C06_out_of_range_refuted)."
  },
  {
   "property": "C07",
   "status": "partial",
   "theorems": [
    "C07_trailing_partial",
    "C07_trailing_exact",
    "C07_trailing_refuted"
   ],
   "note": "Code checks only the current byte: exact characterisation C07_trailing_exact, full claim when at most eight bits are unread, counterexample C07_trailing_refuted."
  },
  {
   "property": "C08",
   "status": "proved",
   "theorems": [
    "C08_payload",
    "C08_payload_eof"
   ],
   "note": ""
  },
  {
   "property": "C09",
   "status": "partial",
   "theorems": [
    "C09_roundtrip_partial",
    "C09_roundtrip_refuted",
    "C09_standard"
   ],
   "note": "False: the encoder panics on some payloads (C11) and loses a byte on others (C09_roundtrip_refuted). Exact: when it returns, the round trip holds iff no byte 03 follows a maximal run of 4, 7, 10, ... zeros. Without four zeros in a row the output is the standard encapsulation."
  },
  {
   "property": "C10",
   "status": "partial",
   "theorems": [
    "C10_no_start_code_partial",
    "C10_no_start_code_refuted"
   ],
   "note": "False (C10_no_start_code_refuted: 00 00 00 00 01 encodes to a string containing 00 00 01). Exact condition proved: the payload has no four zeros followed by a byte <= 2."
  },
  {
   "property": "C11",
   "status": "partial",
   "theorems": [
    "C11_total_partial",
    "C11_total_refuted"
   ],
   "note": "False (C11_total_refuted). Exact: panics iff the number of trailing zero bytes is 2 mod 3."
  },
  {
   "property": "C12",
   "status": "proved",
   "theorems": [
    "C12_decapsulate",
    "C12_decapsulate_open",
    "C12_encapsulation_clean"
   ],
   "note": ""
  },
  {
   "property": "C13",
   "status": "proved",
   "theorems": [
    "C13_split"
   ],
   "note": ""
  },
  {
   "property": "C14",
   "status": "proved",
   "theorems": [
    "C14_split_total"
   ],
   "note": ""
  },
  {
   "property": "C15",
   "status": "proved",
   "theorems": [
    "C15_single",
    "C15_single_raw"
   ],
   "note": "For every legal encapsulated NAL unit of a single-unit type and every sink state; also for any payload without a start code."
  },
  {
   "property": "C16",
   "status": "partial",
   "theorems": [
    "C16_stap_a_partial",
    "C16_stap_a_units_partial",
    "C16_stap_a_exact",
    "C16_stap_a_refuted",
    "C16_stap_a_crash"
   ],
   "note": "False as stated: emulation bytes are removed from the whole packet before the size fields are read, so a STAP-A with an emulation byte in a unit is misparsed, and sizes 65534/65535 panic. Proved for every list of units needing no emulation bytes, sizes 1..65533; C16_stap_a_exact says what any packet yields, by its decoded form, whole or cut."
  },
  {
   "property": "C17",
   "status": "partial",
   "theorems": [
    "C17_stap_b_partial",
    "C17_number",
    "C17_stap_b_units_partial",
    "C17_stap_b_exact",
    "C17_stap_b_refuted"
   ],
   "note": "False as stated: DON and size fields are themselves taken for start codes or emulation sequences (e.g. DON 256 with a first unit of 3 bytes). Proved whenever the packet shows no such pattern, in particular when DON is not a multiple of 256 and no unit needs emulation bytes; C17_stap_b_exact says what any packet yields, by its decoded form, whole or cut."
  },
  {
   "property": "C18",
   "status": "partial",
   "theorems": [
    "C18_mtap16_partial",
    "C18_mtap24_partial",
    "C18_mtap_exact",
    "C18_mtap16_don_refuted",
    "C18_mtap24_ts_refuted"
   ],
   "note": "False as stated: DON of unit i is DONB+i+DOND, and 24-bit offsets are computed from the packet timestamp. Exact results proved for MTAP16 and MTAP24, for any packet by its decoded form (C18_mtap_exact); both violations refuted with witnesses."
  },
  {
   "property": "C19",
   "status": "partial",
   "theorems": [
    "C19_fu_a",
    "C19_fu_b_partial",
    "C19_fu_b_exact",
    "C19_fu_b_refuted"
   ],
   "note": "Proved in full for FU-A from any sink state. FU-B: proved unless the DON bytes and the payload form a start code or emulation sequence (refuted in that case); without a start code exact (C19_fu_b_exact)."
  },
  {
   "property": "C20",
   "status": "partial",
   "theorems": [
    "C20_fragmentation_partial",
    "C20_fragmentation_exact",
    "C20_fragmentation_refuted"
   ],
   "note": "Exact: the unit comes out decoded if and only if no emulation sequence is cut (C20_fragmentation_exact)."
  },
  {
   "property": "C21",
   "status": "partial",
   "theorems": [
    "C21_push_all_partial",
    "C21_push_all_refuted"
   ],
   "note": "False: only the last NAL unit of a payload is exposed. Exact result proved for any number of NAL units."
  },
  {
   "property": "C22",
   "status": "partial",
   "theorems": [
    "C22_total_partial",
    "C22_panic_exact",
    "C22_exact",
    "C22_types",
    "C22_total_refuted"
   ],
   "note": "False: size 0, 65534, 65535 (STAP) and 0 or >= 65536-off (MTAP) panic. What every payload leads to (success, error, panic) is characterised exactly."
  },
  {
   "property": "C23",
   "status": "proved",
   "theorems": [
    "C23_don_diff"
   ],
   "note": "All 16-bit pairs."
  },
  {
   "property": "C24",
   "status": "partial",
   "theorems": [
    "C24_stap_a_cut_partial",
    "C24_mtap16_cut_partial",
    "C24_mtap24_cut_partial",
    "C24_stap_cut_exact",
    "C24_mtap_cut_exact",
    "C24_short_headers",
    "C24_cut_refuted"
   ],
   "note": "False for cuts leaving less than a size field (STAP) or less than a unit header (MTAP), which are silently accepted; proved for all other cuts and for all packets ending inside the fixed header; exact for every cut (C24_stap_cut_exact, C24_mtap_cut_exact)."
  },
  {
   "property": "C25",
   "status": "proved",
   "theorems": [
    "C25_parse_sps_total_atomic"
   ],
   "note": "Every byte string below 2^60 bytes, every store; the only error is io.ErrUnexpectedEOF."
  },
  {
   "property": "C26",
   "status": "partial",
   "theorems": [
    "C26_inferred_partial",
    "C26_flag_refuted",
    "C26_mbaff_refuted",
    "C26_reserved_partial",
    "C26_reserved_refuted",
    "C26_profiles_refuted",
    "C26_poc2_all_refuted",
    "C26_sps_fields_partial",
    "C26_poc2_refuted",
    "C26_interlaced_refuted"
   ],
   "note": "Proved for every legal progressive SPS with pic_order_cnt_type 0 or 1 (POC offsets below 2^25 in size, profiles other than 134, 135, 139, 183), any scaling matrices, any bits following. The FrameMbsOnly stored is never frame_mbs_only_flag (C26_flag_refuted, its exact value for every legal set). Sets with macroblock-adaptive coding, no cropping and no VUI are all refused; those of profiles 134, 135 and 139 are all misread; no progressive set with pic_order_cnt_type 2 is ever stored with its values (C26_poc2_all_refuted, universally quantified). The reserved bits of the constraint byte are ignored except with profiles 77, 88 and 100 (exact)."
  },
  {
   "property": "C27",
   "status": "partial",
   "theorems": [
    "C27_mbaff_refuted",
    "C27_dimensions_partial",
    "C27_dimensions_uncropped_partial",
    "C27_dimensions_refuted"
   ],
   "note": "Width proved. Height of progressive streams characterised exactly: 4:2:0 loses 2(top+bottom) rows more than the standard crop, other chroma formats give twice the height. 1080p is stored as 1072 (refuted). Correct for 4:2:0 without vertical crop. Every set with macroblock-adaptive coding that is stored has height 0 (C27_mbaff_refuted)."
  },
  {
   "property": "C28",
   "status": "partial",
   "theorems": [
    "C28_parse_pps_exact",
    "C28_parse_pps_total_partial",
    "C28_parse_pps_refuted"
   ],
   "note": "False: a PPS declaring more than eight slice groups panics (refuted). The crashing inputs are characterised exactly; on all others it returns and is atomic."
  },
  {
   "property": "C29",
   "status": "partial",
   "theorems": [
    "C29_change_lost_refuted",
    "C29_pps_fields_partial",
    "C29_pps_trailing_refuted",
    "C29_pps_untrailed_partial",
    "C29_change_types_refuted"
   ],
   "note": "Proved for every legal PPS with the optional tail (slice group types 3 and 4 excepted: their direction and rate are always lost, C29_change_lost_refuted). Every legal PPS without the tail is rejected with EOF (C29_pps_trailing_refuted, universally quantified)."
  },
  {
   "property": "C30",
   "status": "proved",
   "theorems": [
    "C30_last_writer",
    "C30_others_ignored"
   ],
   "note": ""
  },
  {
   "property": "C31",
   "status": "proved",
   "theorems": [
    "C31_unpack_layout",
    "C31_unpack_only"
   ],
   "note": "Also the converse: every accepted byte string is such a layout."
  },
  {
   "property": "C32",
   "status": "partial",
   "theorems": [
    "C32_total_partial",
    "C32_fixed_header_total",
    "C32_total_refuted"
   ],
   "note": "False as stated: panics on exactly the empty string and the version-2 strings that are not whole packets (exact characterisation proved, witness refuted)."
  },
  {
   "property": "C33",
   "status": "partial",
   "theorems": [
    "C33_pack_unpack_partial",
    "C33_pack_panics",
    "C33_ssrc_refuted",
    "C33_panic_refuted"
   ],
   "note": "False as stated: SSRC, CSRC and extension come back as zero, and Pack panics when the header size wraps 16 bits; what survives is proved exactly."
  },
  {
   "property": "C34",
   "status": "partial",
   "theorems": [
    "C34_padding_partial",
    "C34_padding_refuted"
   ],
   "note": "False as stated for every padded packet: the payload returned always includes the padding (proved)."
  },
  {
   "property": "C35",
   "status": "proved",
   "theorems": [
    "C35_sender_report",
    "C35_other_types"
   ],
   "note": ""
  },
  {
   "property": "C36",
   "status": "partial",
   "theorems": [
    "C36_total_partial",
    "C36_errors",
    "C36_total_refuted"
   ],
   "note": "False as stated: panics on exactly the strings shorter than 4 bytes; the error part is proved as stated."
  },
  {
   "property": "C37",
   "status": "partial",
   "theorems": [
    "C37_reports_partial",
    "C37_reports_refuted"
   ],
   "note": "False as stated: the report list is always empty (proved for every sender report)."
  },
  {
   "property": "C38",
   "status": "proved",
   "theorems": [
    "C38_contiguous",
    "C38_neighbours"
   ],
   "note": ""
  },
  {
   "property": "C39",
   "status": "partial",
   "theorems": [
    "C39_listing_partial",
    "C39_listing_refuted",
    "C39_empty"
   ],
   "note": "True for 1 <= n < 2*nseg (proved); for every n >= 2*nseg String panics (proved for all histories)."
  },
  {
   "property": "C40",
   "status": "partial",
   "theorems": [
    "C40_total_partial",
    "C40_no_segments",
    "C40_total_refuted"
   ],
   "note": "False as stated: String panics exactly from the 2*nseg-th addition on; AddSegment panics with nseg = 0."
  },
  {
   "property": "C41",
   "status": "proved",
   "theorems": [
    "C41_sections_in_order",
    "C41_video_section",
    "C41_media_line",
    "C41_short_line",
    "C41_other_sections",
    "C41_every_body"
   ],
   "note": ""
  },
  {
   "property": "C42",
   "status": "partial",
   "theorems": [
    "C42_total_partial",
    "C42_crash",
    "C42_total_refuted"
   ],
   "note": "Parse crashes exactly on documents with a line that trims to m=video (proved both ways, refuted witness)."
  },
  {
   "property": "C43",
   "status": "partial",
   "theorems": [
    "C43_control",
    "C43_control_only_partial",
    "C43_rtpmap",
    "C43_fmtp_partial",
    "C43_fmtp_exact",
    "C43_single_fmtp_refuted",
    "C43_clock_refuted"
   ],
   "note": "Control and rtpmap proved for all values; fmtp proved for two or more parameters, with everything else the line changes (C43_fmtp_exact). Refuted: a single-parameter fmtp line is ignored; a number between slashes (in a control URI or in base64 text) overwrites the clock rate."
  },
  {
   "property": "C44",
   "status": "proved",
   "theorems": [
    "C44_challenge"
   ],
   "note": ""
  },
  {
   "property": "C45",
   "status": "partial",
   "theorems": [
    "C45_digest_partial",
    "C45_first_partial",
    "C45_session_refuted",
    "C45_exact"
   ],
   "note": "Proved for every history under plain MD5 (fewer than 2^32 renewals) and for the first request under any algorithm with qop; refuted for the second request of an MD5-sess session (the session key is rehashed on every call). C45_exact says what every header is for every algorithm and history: under MD5-sess the k-th request carries the key hashed k times; without qop the key is not hashed with the nonces at all."
  },
  {
   "property": "C46",
   "status": "partial",
   "theorems": [
    "C46_count_refuted",
    "C46_next_partial"
   ],
   "note": "Refuted for every qop challenge: requests repeat the count 00000001. Only Next, which nothing calls after Authenticate, increases it (proved)."
  },
  {
   "property": "C47",
   "status": "proved",
   "theorems": [
    "C47_basic",
    "C47_decodes"
   ],
   "note": ""
  },
  {
   "property": "C48",
   "status": "proved",
   "theorems": [
    "C48_scheme",
    "C48_attribute",
    "C48_algorithm",
    "C48_total"
   ],
   "note": ""
  },
  {
   "property": "C49",
   "status": "proved",
   "theorems": [
    "C49_pair_roundtrip",
    "C49_negative",
    "C49_single",
    "C49_second"
   ],
   "note": "Necessity of non-negativity is proved too, and what a single number and a bad second one give."
  },
  {
   "property": "C50",
   "status": "partial",
   "theorems": [
    "C50_received_partial",
    "C50_self",
    "C50_fresh_partial",
    "C50_interleaved_refuted",
    "C50_flag_refuted"
   ],
   "note": "Exact result of parsing proved for all transports; the interleaved flag is never set by Parse (refuted for every interleaved transport), and an interleaved multicast text comes back as unicast. Reading a transport's own header back is the identity (proved); into a fresh one it is, if the transport is not interleaved and has nothing set that its text leaves out (C50_fresh_partial)."
  },
  {
   "property": "C51",
   "status": "proved",
   "theorems": [
    "C51_disjoint",
    "C51_in_range",
    "C51_text",
    "C51_other"
   ],
   "note": "As integers; they are representable channel bytes for the first 128 feeds and ports for the first 7768 (proved)."
  },
  {
   "property": "C52",
   "status": "proved",
   "theorems": [
    "C52_headers",
    "C52_headers_unique",
    "C52_headers_raw_case",
    "C52_headers_raw"
   ],
   "note": ""
  },
  {
   "property": "C53",
   "status": "proved",
   "theorems": [
    "C53_request",
    "C53_request_once"
   ],
   "note": "For components without CR or LF (no escaping exists in RTSP); the once-only part also needs given headers that avoid the library's own names."
  },
  {
   "property": "C54",
   "status": "proved",
   "theorems": [
    "C54_response"
   ],
   "note": "Bodies up to 2048 bytes (see C56 for the limit)."
  },
  {
   "property": "C55",
   "status": "proved",
   "theorems": [
    "C55_interleaving",
    "C55_frames"
   ],
   "note": "For frames up to 2048 bytes (see C56), under any interleaving of application commands and loop turns."
  },
  {
   "property": "C56",
   "status": "partial",
   "theorems": [
    "C56_frame_partial",
    "C56_frame_refuted"
   ],
   "note": "False for lengths above the 2048-byte read buffer: such a frame ends the loop undelivered (proved for every such frame). Frames of 0..2048 bytes are delivered (proved)."
  },
  {
   "property": "C57",
   "status": "partial",
   "theorems": [
    "C57_between_partial",
    "C57_inside_refuted",
    "C57_line_refuted"
   ],
   "note": "Proved for silences between frames and responses; false inside them: every cut inside a frame loses its header and the next read starts in the middle (proved for all cuts), and likewise for a response line."
  },
  {
   "property": "C58",
   "status": "proved",
   "theorems": [
    "C58_sequence"
   ],
   "note": "Up to 2^63 requests, for every history of commands and loop turns taken one at a time (see C59 for concurrent ones)."
  },
  {
   "property": "C59",
   "status": "partial",
   "theorems": [
    "C59_exclusive_partial",
    "C59_alone",
    "C59_lost_update_refuted",
    "C59_late_use_refuted",
    "C59_any_refuted"
   ],
   "note": "False: two goroutines can load the same number, or both increment before either uses it; then one request is no longer found under its number (two refuted witnesses, and for any two commands in any session). Proved for any number of goroutines under schedules where numbering does not overlap."
  },
  {
   "property": "C60",
   "status": "proved",
   "theorems": [
    "C60_announced",
    "C60_current",
    "C60_acknowledged"
   ],
   "note": "Also the converse: every 200 response to such a request announces the stage. Ready is treated in C61."
  },
  {
   "property": "C61",
   "status": "partial",
   "theorems": [
    "C61_exact",
    "C61_again_refuted",
    "C61_ready_partial",
    "C61_no_feeds_refuted"
   ],
   "note": "Proved for every k >= 1, every order and every mix of statuses other than 401, for the first description of a session, when each response is taken without error. False otherwise: no feeds means no Ready, and after a second DESCRIBE Ready comes at the first answer (refuted); exact for every later description in C61_exact; after a 401 see C62."
  },
  {
   "property": "C62",
   "status": "partial",
   "theorems": [
    "C62_retransmission_partial",
    "C62_latest",
    "C62_earlier_refuted",
    "C62_history"
   ],
   "note": "Proved when the refused request is the latest one sent. Otherwise always false: the number changes and another outstanding request is forgotten (proved for all such states)."
  },
  {
   "property": "C63",
   "status": "proved",
   "theorems": [
    "C63_unsolicited",
    "C63_once",
    "C63_matched"
   ],
   "note": ""
  },
  {
   "property": "C64",
   "status": "proved",
   "theorems": [
    "C64_identifier",
    "C64_header"
   ],
   "note": "Until a response brings another identifier. OPTIONS and SETUP requests do not carry it, by design of the library; keep-alive OPTIONS do (C65)."
  },
  {
   "property": "C65",
   "status": "proved",
   "theorems": [
    "C65_policy",
    "C65_due",
    "C65_not_due",
    "C65_regular"
   ],
   "note": "Also exact: what KeepAlive does when one is due, and when not."
  },
  {
   "property": "C66",
   "status": "partial",
   "theorems": [
    "C66_start_refuted",
    "C66_told_partial",
    "C66_one_each_partial",
    "C66_reads_partial",
    "C66_accounting",
    "C66_stop_refuted",
    "C66_stop_hangs"
   ],
   "note": "False in every execution: each goroutine waits for the stop signal before it reads, so nothing is delivered until Stop is called, then one packet per listener; Stop closes nothing, and hangs before Start. Proved for all interleavings; conservation of packets is proved too."
  },
  {
   "property": "C67",
   "status": "partial",
   "theorems": [
    "C67_unicast_refuted",
    "C67_multicast_partial"
   ],
   "note": "False for every unicast response without a port parameter (the usual form): both listeners are opened on port 0 (proved). Multicast is right (proved)."
  },
  {
   "property": "C68",
   "status": "partial",
   "theorems": [
    "C68_connect",
    "C68_receive",
    "C68_receive_partial",
    "C68_receive_refuted",
    "C68_exact"
   ],
   "note": "Request text and acceptance of every well-formed response proved; a status such as +20 is accepted too (refuted); exactly: three digits, a plus sign and two digits, or -00 (C68_exact)."
  },
  {
   "property": "C69",
   "status": "partial",
   "theorems": [
    "C69_command_refuted",
    "C69_history_refuted"
   ],
   "note": "False: the POST connection is never opened; every command crashes and nothing is sent in any history (both proved)."
  },
  {
   "property": "C70",
   "status": "partial",
   "theorems": [
    "C70_control_exact",
    "C70_media_refuted",
    "C70_media_exact",
    "C70_safe_partial",
    "C70_four_bytes_refuted"
   ],
   "note": "False: empty and incomplete packets crash the client, four bytes from the server suffice; exact conditions proved for all control packets and all whole media packets, whatever the start codes in them."
  },
  {
   "property": "C71",
   "status": "partial",
   "theorems": [
    "C71_order",
    "C71_acknowledged",
    "C71_steps",
    "C71_exit_partial",
    "C71_version_refuted",
    "C71_exit_refuted"
   ],
   "note": "Order, acknowledgement and progress of the commands proved for every execution of client and session together; false for the exit: every packet of another version, on any channel and at any stage, ends the client with nothing sent (C71_version_refuted)."
  },
  {
   "property": "C72",
   "status": "partial",
   "theorems": [
    "C72_before_open_refuted",
    "C72_setup"
   ],
   "note": "False: every command but Setup panics (proved); Setup does nothing and returns nil."
  },
  {
   "property": "C73",
   "status": "partial",
   "theorems": [
    "C73_refused_refuted",
    "C73_no_credentials_partial"
   ],
   "note": "False with credentials: n refusals lead to n retransmissions, for every n (proved). Without credentials or with an unusable challenge an error is reported (proved)."
  },
  {
   "property": "C74",
   "status": "partial",
   "theorems": [
    "C74_exact",
    "C74_order_refuted",
    "C74_channels_partial"
   ],
   "note": "False: the channels are 2n, 2n+1 for the n-th answered SETUP counted from one, whichever feed it is (proved exactly), whatever the order of the answers, so channel 0 is never used and the mapping follows the order of the answers (refuted for every session with two streams)."
  },
  {
   "property": "C75",
   "status": "partial",
   "theorems": [
    "C75_nothing_refuted",
    "C75_crash_refuted",
    "C75_partial",
    "C75_no_description_refuted"
   ],
   "note": "False in every case: without a body, and with a body that has no video stream, nothing is reported and the session stalls, whatever the status; a bare video line crashes the program (all proved). Exact: the only errors that can come of an answer to DESCRIBE are those of writing the SETUP requests for the streams of a usable description."
  },
  {
   "property": "C76",
   "status": "partial",
   "theorems": [
    "C76_exact",
    "C76_uri_partial",
    "C76_setup_refuted"
   ],
   "note": "False for SETUP: the uri is always the session's base URI, in every request of every history, so it is the request's own exactly when the request goes there (C76_exact)."
  },
  {
   "property": "C77",
   "status": "partial",
   "theorems": [
    "C77_silent_refuted",
    "C77_hang_refuted",
    "C77_write_partial",
    "C77_start_partial",
    "C77_play_partial"
   ],
   "note": "False: the turn that ends the loop announces nothing (proved for all), and the client then waits for ever (proved). An error of writing any of its own commands ends the client (proved)."
  },
  {
   "property": "C78",
   "status": "partial",
   "theorems": [
    "C78_survives_partial",
    "C78_reading",
    "C78_description_refuted",
    "C78_survives_refuted"
   ],
   "note": "False: a description with a bare m=video line, or with a picture parameter set of more than eight slice groups, crashes the session (both witnessed; the first for every such description). Proved: there is no other cause, over all histories. HTTP mode crashes on every command (C69)."
  },
  {
   "property": "C79",
   "status": "proved",
   "theorems": [
    "C79_conversation",
    "C79_transports"
   ],
   "note": "Writes and listeners succeed; the clock is arbitrary. Servers that ask for credentials are C91, other descriptions C75 and C80."
  },
  {
   "property": "C80",
   "status": "partial",
   "theorems": [
    "C80_stored_partial",
    "C80_plain_pps_refuted"
   ],
   "note": "Proved for the parameter sets of C26 and C29. False for every plain picture parameter set with its trailing bits: reading it fails and the session's loop ends at the answer to SETUP, before Ready (proved for all of them)."
  },
  {
   "property": "C81",
   "status": "partial",
   "theorems": [
    "C81_media_partial",
    "C81_program_partial",
    "C81_feeds_partial",
    "C81_two_feeds_refuted"
   ],
   "note": "Proved for one feed, for all executions, with fragments not cut inside an emulation prevention sequence (else false, C20) and aggregated units without one (else false, C16). Of several feeds all units are shown if no packet of one comes between the fragments of another. Otherwise false: their fragments mix in the client's only sink (proved for all such pairs)."
  },
  {
   "property": "C82",
   "status": "partial",
   "theorems": [
    "C82_header_refuted",
    "C82_between_refuted",
    "C82_middle_lost_refuted",
    "C82_first_lost_refuted",
    "C82_last_lost_partial"
   ],
   "note": "False: of the RTP header only the timestamp is used, so whatever comes between a first and a last fragment is shown as a unit; a unit without a middle fragment is shown shorter, one without its first fragment with the content of the unit before it (each proved for all). Proved for a lost last fragment."
  },
  {
   "property": "C83",
   "status": "partial",
   "theorems": [
    "C83_unasked",
    "C83_digest_partial",
    "C83_basic_refuted"
   ],
   "note": "Proved for runs without a challenge and for runs whose challenges are not Basic. False when a challenge is Basic: the password is sent, in a form that decodes to it, at any time and after Digest too (proved for all states)."
  },
  {
   "property": "C84",
   "status": "partial",
   "theorems": [
    "C84_zone",
    "C84_open_partial",
    "C84_port",
    "C84_tunnel",
    "C84_encoded",
    "C84_empty_port_refuted",
    "C84_no_host_refuted",
    "C84_no_slash_refuted"
   ],
   "note": "Proved for URLs with a host and without a port or with a non-empty one. False for an empty port (port 0 is connected to) and for URLs without a host, such as host/path or host:port/path (this machine is connected to): each for all such URLs. The model of net/url and net.SplitHostPort follows Go 1.19 to 1.24."
  },
  {
   "property": "C85",
   "status": "partial",
   "theorems": [
    "C85_control",
    "C85_credentials_partial",
    "C85_opaque_refuted",
    "C85_blank_refuted"
   ],
   "note": "Control characters: proved for all strings. Credentials: proved for all URLs with // before the authority, false for every one without it. Blanks: there is one just if the query has one."
  },
  {
   "property": "C86",
   "status": "partial",
   "theorems": [
    "C86_network_partial",
    "C86_slash_refuted",
    "C86_uri_partial",
    "C86_path_partial",
    "C86_bare_partial",
    "C86_relative_partial",
    "C86_relpath_partial",
    "C86_file_partial",
    "C86_opaque_refuted",
    "C86_nameless_refuted"
   ],
   "note": "Proved for every base URI with a host and no fragment, for those that name no host (file:///p, file:/p) or no scheme (//host/p), for every absolute path, for every relative path (C86_relpath_partial), and without a base (a name with a colon is then preceded by ./), with dots in the path resolved after RFC 3986. False for every path with an encoded slash, which becomes one between names, and for every URI whose scheme no slash follows."
  },
  {
   "property": "C87",
   "status": "partial",
   "theorems": [
    "C87_lines_partial",
    "C87_user_refuted"
   ],
   "note": "Proved (with lines ended by line feeds) when the decoded user name has no line feed; passwords, the rest of the URL and everything from the server are arbitrary. False with a user name such as a%0D%0AX%3A%20b and a Digest challenge, shown by a witness."
  },
  {
   "property": "C88",
   "status": "partial",
   "theorems": [
    "C88_read_partial",
    "C88_conforming_refuted"
   ],
   "note": "The read-back is proved for fewer than 2k additions (afterwards String panics, C39) by a reader that does not insist on the missing parts. False as to conformity: no text has a target duration or the comma after a duration."
  },
  {
   "property": "C89",
   "status": "partial",
   "theorems": [
    "C89_follow_partial",
    "C89_end_refuted",
    "C89_loads"
   ],
   "note": "A player that ignores the end mark plays just the first k segments (exact, below 2k additions). False beyond k, and false from the second segment on for a player that heeds EXT-X-ENDLIST, which every text has."
  },
  {
   "property": "C90",
   "status": "partial",
   "theorems": [
    "C90_numbers_partial",
    "C90_numbers_refuted"
   ],
   "note": "Proved up to k additions. False for every history of more than k (non-empty) segments: the text has no EXT-X-MEDIA-SEQUENCE."
  },
  {
   "property": "C91",
   "status": "partial",
   "theorems": [
    "C91_authorized_partial",
    "C91_sess_refuted"
   ],
   "note": "Proved for Basic and for Digest with MD5 (any qop), challenges at OPTIONS, DESCRIBE, PLAY, PAUSE and TEARDOWN, over TCP, writes succeeding. False with MD5-sess (a witness run; see C45). Challenges for one of several outstanding SETUPs are C62, the uri of SETUP is C76, the count of uses C46."
  },
  {
   "property": "C92",
   "status": "proved",
   "theorems": [
    "C92_pieces",
    "C92_stream",
    "C92_calls"
   ],
   "note": "The buffered reader is modelled with its array, indices and sliding (M_bufio), after the Go standard library; M_session on a stream of bytes is proved to be the same."
  },
  {
   "property": "C93",
   "status": "partial",
   "theorems": [
    "C93_body_partial",
    "C93_body_refuted"
   ],
   "note": "Proved as long as the later reads need no byte that was not already in the buffer. False otherwise: the body is a slice of the reader's buffer, and whenever the answer was the last thing fetched, looking at one byte of the next piece turns the body into the bytes of that piece at the same place. The session itself uses the body at once (C92)."
  },
  {
   "property": "C94",
   "status": "proved",
   "theorems": [
    "C94_sink",
    "C94_outcome",
    "C94_unit"
   ],
   "note": ""
  },
  {
   "property": "C95",
   "status": "partial",
   "theorems": [
    "C95_kept_refuted",
    "C95_kept_exact",
    "C95_kept_partial"
   ],
   "note": "False: the list is reused, so every later packet writes its units over it (for every history; exact for a packet without start codes). Proved for packets that finish no unit. Copying the units out is safe (C94)."
  },
  {
   "property": "C96",
   "status": "partial",
   "theorems": [
    "C96_append_partial",
    "C96_append_refuted"
   ],
   "note": "Proved for up to three bytes, and for any number if the packet has one unit. False for more: the units of an aggregate are slices of one array with the capacity of all the rest, and the fourth byte appended to one overwrites the next (witness)."
  },
  {
   "property": "C97",
   "status": "proved",
   "theorems": [
    "C97_agenda",
    "C97_requests",
    "C97_goes_on",
    "C97_ends",
    "C97_no_video"
   ],
   "note": "Without a video stream the program waits for ever after DESCRIBE (C97_no_video), which is why the statement asks for one."
  },
  {
   "property": "C98",
   "status": "proved",
   "theorems": [
    "C98_arguments",
    "C98_url",
    "C98_session"
   ],
   "note": "URLs that are not well formed are not all refused: see C84 and C85."
  },
  {
   "property": "C99",
   "status": "partial",
   "theorems": [
    "C99_compare",
    "C99_stap_b_partial",
    "C99_fu_b_refuted",
    "C99_mtap_refuted"
   ],
   "note": "Proved for units of STAP-B packets (without emulation bytes, see C17). False for FU-B: its number is lost, the unit gets the sink's own count (proved for every series). False for MTAP: the i-th unit is taken for one i places later (proved for every packet)."
  },
  {
   "property": "C100",
   "status": "partial",
   "theorems": [
    "C100_long_refuted",
    "C100_fits_partial"
   ],
   "note": "True up to 2048 bytes. False for every longer content, the size of the read buffer: the session's loop ends, the log says only that the buffer is full, and the application is not told (C77)."
  },
  {
   "property": "C101",
   "status": "partial",
   "theorems": [
    "C101_last",
    "C101_basic_refuted",
    "C101_unknown_refuted"
   ],
   "note": "Exact: the last offer is the one taken (C101_last). So it is true when Digest comes last, and false in every other order: Basic last sends the password as it is, an unknown scheme last ends the session."
  },
  {
   "property": "C102",
   "status": "partial",
   "theorems": [
    "C102_server_request_refuted"
   ],
   "note": "False for every request: its first line is no status line, and the session's loop ends."
  },
  {
   "property": "C103",
   "status": "partial",
   "theorems": [
    "C103_refused_refuted",
    "C103_program_refuted"
   ],
   "note": "False for every refusal: it is logged and that is all. The program waits for ever, proved for every continuation in which the server sends nothing more, or hangs up."
  },
  {
   "property": "C104",
   "status": "proved",
   "theorems": [
    "C104_heeded"
   ],
   "note": ""
  },
  {
   "property": "C105",
   "status": "partial",
   "theorems": [
    "C105_listed_refuted"
   ],
   "note": "False: what is listed has no effect (this follows from C104 too); DESCRIBE and SETUP follow in every conversation of C79."
  },
  {
   "property": "C106",
   "status": "partial",
   "theorems": [
    "C106_target_exact",
    "C106_base_refuted"
   ],
   "note": "Exact condition proved (C106_target_exact): true for full URIs, and for relative ones when the directory of the base is the URI of the session with a slash. False for other bases, since Content-Base is not heeded, and for *."
  },
  {
   "property": "C107",
   "status": "partial",
   "theorems": [
    "C107_lines_partial",
    "C107_bit_refuted"
   ],
   "note": "True for one feed sent as in C81, for the program's whole output at packets. False for a unit in fragments whose forbidden bit is set, and wherever C81 fails."
  },
  {
   "property": "C108",
   "status": "partial",
   "theorems": [
    "C108_unasked_partial",
    "C108_digest_partial",
    "C108_basic_refuted"
   ],
   "note": "True without a challenge, and with Digest up to a hash. False after a Basic challenge: the request is printed with its Authorization field."
  },
  {
   "property": "C109",
   "status": "partial",
   "theorems": [
    "C109_again_partial",
    "C109_left_refuted"
   ],
   "note": "The response is always the same, for every text read. False as to what is left: after a body two bytes too many are written, and the next message cannot be read."
  },
  {
   "property": "C110",
   "status": "partial",
   "theorems": [
    "C110_fragment_refuted",
    "C110_empty_partial"
   ],
   "note": "False for every URL with a non-empty fragment: all requests name it, as it was written (and the control attribute of a stream is appended to it). True when the fragment is empty."
  },
  {
   "property": "C111",
   "status": "partial",
   "theorems": [
    "C111_tables_partial",
    "C111_lock",
    "C111_commands_refuted",
    "C111_calls_refuted"
   ],
   "note": "Exact: true of the queue, the table of methods, the reader and the count of streams (C111_tables_partial, for all orders of steps), and the lock is always given back (C111_lock). False of every other part that changes: the request (if it is refused before it has been written), the number, the identifier, the authentication and its digest, the stage, the streams, the time of the last keep-alive and the listeners, each with a witness."
  },
  {
   "property": "C112",
   "status": "partial",
   "theorems": [
    "C112_one_by_one_partial",
    "C112_some_method_partial",
    "C112_crossed_refuted"
   ],
   "note": "False: of any two requests made at the same time the one can get the other's authorization (for every digest without MD5-sess). True when the calls do not overlap, and each text is always right for some method asked for."
  },
  {
   "property": "C113",
   "status": "partial",
   "theorems": [
    "C113_exact",
    "C113_nobody_partial",
    "C113_never_ready_refuted"
   ],
   "note": "Exact: a stream waits for the number of its request plus the number of commands issued before Setup looks. So with a single one Ready never comes, proved for all answers that grant the streams."
  },
  {
   "property": "C114",
   "status": "partial",
   "theorems": [
    "C114_exact",
    "C114_kept_refuted",
    "C114_unbounded_refuted"
   ],
   "note": "Exact (C114_exact): the sink holds the fragments since the last that starts a unit, in order, with their marks. So true while a unit is under way; false afterwards: they are kept when the unit is complete, and fragments without a start pile up without bound."
  },
  {
   "property": "C115",
   "status": "partial",
   "theorems": [
    "C115_control_partial",
    "C115_percent_partial",
    "C115_host_partial",
    "C115_scheme_refuted",
    "C115_encoded_partial",
    "C115_bracket_partial",
    "C115_asterisk_refuted",
    "C115_inner_partial"
   ],
   "note": "Proved for control characters, bad percent encodings in paths, bad ports, bad brackets, bad zones and encoded ASCII bytes in hosts. False for a single asterisk, which is connected to at no host. False for other schemes: all of them, rtsps too, are connected to in the clear at port 554. (Also false for URLs without a host, see C84.)"
  },
  {
   "property": "C116",
   "status": "partial",
   "theorems": [
    "C116_agenda_partial",
    "C116_credentials_partial",
    "C116_goes_on_partial",
    "C116_ends_partial",
    "C116_setups_refuted"
   ],
   "note": "Proved when the server asks for credentials only while no other request is under way: agenda, credentials, progress and end. False otherwise: with two streams, asked at both SETUPs, the first is repeated under the number of the second, the second never, and the program waits for ever."
  },
  {
   "property": "C117",
   "status": "partial",
   "theorems": [
    "C117_sps_partial",
    "C117_pps_partial",
    "C117_in_band_partial",
    "C117_sps_refuted",
    "C117_pps_refuted"
   ],
   "note": "Proved in band always, and out of band when no escape is needed up to the byte of the last bit read. False otherwise: escapes are not removed from sprop-parameter-sets; legal sets are stored with wrong values (176x144 as 16x2147483600) or refused."
  },
  {
   "property": "C118",
   "status": "partial",
   "theorems": [
    "C118_in_order",
    "C118_one_take_partial",
    "C118_stages_only_refuted",
    "C118_packets_only_refuted",
    "C118_program"
   ],
   "note": "Order and completeness proved for all applications; the loop wants at most one take at any time. False without it: behind 21 packets not taken nothing is read and no stage is announced; from a stage not taken on nothing is read."
  },
  {
   "property": "C119",
   "status": "partial",
   "theorems": [
    "C119_between",
    "C119_partial",
    "C119_returns",
    "C119_phantom_refuted",
    "C119_torn_refuted",
    "C119_order_refuted"
   ],
   "note": "Proved between calls, and until the ring comes round for all entries but the newest; String returns for fewer than twice as many segments as the ring holds. False otherwise: there is no lock; a text can have an entry nobody added, a new position with an old length, or the newest segment listed first."
  },
  {
   "property": "C120",
   "status": "partial",
   "theorems": [
    "C120_kinds",
    "C120_whole_partial",
    "C120_exact",
    "C120_base_refuted",
    "C120_control_refuted"
   ],
   "note": "All requests but SETUP go to the URI that was opened (C120_kinds), so right exactly when the description gives that one (C120_exact). False when Content-Base (even with just a slash added) or a session-level control attribute says otherwise: both are ignored."
  },
  {
   "property": "C121",
   "status": "partial",
   "theorems": [
    "C121_attempts_partial",
    "C121_again_refuted",
    "C121_early_refuted",
    "C121_told_refuted",
    "C121_credentials_refuted"
   ],
   "note": "Proved after attempts that failed. False for every session that has been Ready (the stage is kept: nothing follows OPTIONS); every one that was lost earlier announces Ready too soon, by as many answers as it had counted; and the session identifier and the credentials for the first server are sent to the second, whatever happened before."
  },
  {
   "property": "C122",
   "status": "partial",
   "theorems": [
    "C122_kept_refuted",
    "C122_none_partial"
   ],
   "note": "Exact: after any history the listeners are all those ever opened (C122_kept_refuted); right only for sessions that never listened (C122_none_partial). Nobody calls Stop; the TCP connection has no Close at all (not in the model)."
  },
  {
   "property": "C123",
   "status": "partial",
   "theorems": [
    "C123_udp_partial",
    "C123_tcp_refuted",
    "C123_idle_refuted",
    "C123_short_refuted"
   ],
   "note": "Proved over UDP for every timeout of two seconds and the longest turn. False over TCP for every timeout (no request is made while media arrive or nothing does), and for shorter timeouts: the timeout parameter is not looked at."
  },
  {
   "property": "C124",
   "status": "partial",
   "theorems": [
    "C124_forms_partial",
    "C124_scheme_refuted",
    "C124_unknown_refuted",
    "C124_comma_refuted",
    "C124_several_refuted"
   ],
   "note": "Proved with and without quotes, with blanks, names in any case. False, each for all such challenges: another case of the scheme, any parameter besides the seven, two challenges in one field are refused (the session ends, C73); a value with a comma is cut short. Escapes in quoted strings are not considered."
  },
  {
   "property": "C125",
   "status": "partial",
   "theorems": [
    "C125_walk",
    "C125_own_partial",
    "C125_own_refuted"
   ],
   "note": "Proved for every sequence of well-formed packets and every rest. What is returned depends on the packet's own bytes except, exactly, for a sender report whose length field is too small for its blocks: alone it is refused, with packets behind it their bytes are returned as the sender's (for all such reports)."
  },
  {
   "property": "C126",
   "status": "partial",
   "theorems": [
    "C126_quiet_partial",
    "C126_goes_on_refuted",
    "C126_stage_refuted"
   ],
   "note": "Stages and requests: proved when everything sent has been answered. False otherwise: the answer to a PLAY or PAUSE still under way is announced after Done, for every such history. False of packets and of the loop, always: packets are passed on as before and the loop goes on for as long as packets or silences come."
  },
  {
   "property": "C127",
   "status": "partial",
   "theorems": [
    "C127_order_partial",
    "C127_order_refuted"
   ],
   "note": "Proved for every order, with each of control, rtpmap and fmtp at most once, any other lines, more than one fmtp parameter, and no number between the first two slashes of the control URI or of the parameters. False with such a number (live/1/video), for every such URI: the clock rate depends on the order."
  },
  {
   "property": "C128",
   "status": "partial",
   "theorems": [
    "C128_exact",
    "C128_own_partial",
    "C128_formats_refuted"
   ],
   "note": "Exact: the payload type is that of the first format, mapping and clock rate are those of the last rtpmap line, the codec that of the last known name, the parameter sets those of all fmtp lines. Right when everything said is about that payload type; false for every two formats with an rtpmap line each."
  },
  {
   "property": "C129",
   "status": "partial",
   "theorems": [
    "C129_exact",
    "C129_ports_refuted"
   ],
   "note": "False for every two sessions over UDP whose descriptions have a stream: stream number i is asked for on 50000 + 2 i, always (exact, for every session and description, also when a write fails). The ports of one session differ (C51)."
  },
  {
   "property": "C130",
   "status": "partial",
   "theorems": [
    "C130_loopback",
    "C130_local_partial",
    "C130_remote_refuted"
   ],
   "note": "Every listener of every session is bound to 127.0.0.1: proved for a datagram to that address, false for a datagram to any other address and for every multicast group. That no listener is read before Stop is C66."
  },
  {
   "property": "C131",
   "status": "partial",
   "theorems": [
    "C131_blind",
    "C131_udp_refuted",
    "C131_none_refuted",
    "C131_refused_partial"
   ],
   "note": "False: whether an answer is accepted does not depend on what was asked for; a stream asked for on the connection and granted over UDP with any ports, or granted with no transport at all, is set up without a listener and Ready is announced. Refused are texts that cannot be read."
  },
  {
   "property": "C132",
   "status": "partial",
   "theorems": [
    "C132_command_partial",
    "C132_alive_refuted",
    "C132_setup_refuted"
   ],
   "note": "True of the application's own requests. False of keep-alives: for every error the turn of the loop and the state it leaves are those of one that was sent. False of the SETUP requests that follow a description, when the write runs into its deadline: the loop goes on, and Ready is never announced whatever answers come; with another error the loop ends."
  },
  {
   "property": "C133",
   "status": "partial",
   "theorems": [
    "C133_kept_partial",
    "C133_default_refuted"
   ],
   "note": "Proved: parameters left out keep the value they had, for every field, readable or not. False for a fresh Transport: it stays unicast and without a mode, where the defaults are multicast and PLAY."
  },
  {
   "property": "C134",
   "status": "partial",
   "theorems": [
    "C134_location_refuted",
    "C134_waits_refuted"
   ],
   "note": "False for every session and every location: whatever redirects it, no request but a SETUP whose URI a description gave goes anywhere but to the URI that was opened; a redirected DESCRIBE without content is followed by nothing, and nothing is told."
  },
  {
   "property": "C135",
   "status": "partial",
   "theorems": [
    "C135_options_refuted",
    "C135_describe_refuted",
    "C135_blind",
    "C135_orders_partial"
   ],
   "note": "Exact for OPTIONS and DESCRIBE: the status has no effect, 401 aside. So false there: after any answer to OPTIONS the description is asked for, after any answer to DESCRIBE what its content describes is set up. Proved for PLAY, PAUSE and TEARDOWN. For SETUP see C61 and C131."
  },
  {
   "property": "C136",
   "status": "partial",
   "theorems": [
    "C136_folded_refuted",
    "C136_unfolded_partial",
    "C136_colon_refuted",
    "C136_repeated_exact"
   ],
   "note": "False: a response with one line that continues a field and has no colon is not read, and the loop ends, always; a continuing line with a colon is read as a field of its own; of several fields of one name the last counts (so the value is right exactly if there is at most one). Proved for fields on one line each."
  },
  {
   "property": "C137",
   "status": "partial",
   "theorems": [
    "C137_exact",
    "C137_none_partial",
    "C137_grows_refuted"
   ],
   "note": "Exact: a session keeps the requests that have not been answered, and nothing when all have been. So false over UDP while the server is silent: each keep-alive leaves one request more, even one that could not be written, and none is ever dropped."
  },
  {
   "property": "C138",
   "status": "partial",
   "theorems": [
    "C138_moved_partial",
    "C138_granted_partial",
    "C138_odd_refuted",
    "C138_report_refuted"
   ],
   "note": "Any channels are accepted, and a stream moved to channels of the same parity is shown the same (proved). False otherwise: nothing of a stream on an odd channel is shown, and a sender report on an even channel is shown as a NAL unit nobody sent."
  },
  {
   "property": "C139",
   "status": "partial",
   "theorems": [
    "C139_blind_refuted",
    "C139_twice_refuted",
    "C139_order_refuted"
   ],
   "note": "False: only channel, timestamp and payload of a packet count (for all sequences of packets and all headers), so a packet that comes twice is shown twice, and units are shown in the order of arrival. For packets in order see C81, for lost fragments C82."
  },
  {
   "property": "C140",
   "status": "partial",
   "theorems": [
    "C140_blind_refuted",
    "C140_header_partial",
    "C140_goodbye_refuted"
   ],
   "note": "False for everything but sender reports: what is returned is the first word of the packet, whatever it contains, and the program takes no notice of a goodbye. The first word is returned right (proved). For sender reports see C35 and C37."
  },
  {
   "property": "C141",
   "status": "partial",
   "theorems": [
    "C141_sps_refuted",
    "C141_pps_refuted"
   ],
   "note": "False: every set that can be written is stored under its number and with its values, whatever the ranges (for all values; the shapes of the parameter sets that are misread at all are those of C26 and C28)."
  },
  {
   "property": "C142",
   "status": "partial",
   "theorems": [
    "C142_digest_partial",
    "C142_name_refuted",
    "C142_basic_partial"
   ],
   "note": "Proved for every name, address and challenge without quotes and backslashes (C142_digest_partial). False for every name with a quote or a backslash, whatever the rest (C142_name_refuted): nothing is escaped, so DOMAIN\\ann is read as DOMAINann and a quote lets the name set other parameters. Basic: read as given exactly when the name has no colon (C142_basic_partial)."
  },
  {
   "property": "C143",
   "status": "partial",
   "theorems": [
    "C143_refuted",
    "C143_partial"
   ],
   "note": "False for every digest response (C143_refuted): algorithm, and qop if there is one, are written in quotes where the grammar has tokens. All the other parameters have their form (C143_partial)."
  },
  {
   "property": "C144",
   "status": "partial",
   "theorems": [
    "C144_exact",
    "C144_partial"
   ],
   "note": "What is returned is determined for every such stream (C144_exact): it is the list of units exactly when no start code has more than one zero byte before it and there is none at the end (C144_partial). The other zero bytes are returned at the end of units, or as a unit of their own in front."
  },
  {
   "property": "C145",
   "status": "partial",
   "theorems": [
    "C145_unnamed_refuted",
    "C145_field_refuted",
    "C145_play_refuted",
    "C145_partial"
   ],
   "note": "False: no SETUP request of any history names a session (C145_unnamed_refuted, C145_field_refuted), so with a server that begins one for each, PLAY names the session of the answer that came last and no other, in every conversation (C145_play_refuted). Proved for servers that put all streams into one session nevertheless (C145_partial)."
  },
  {
   "property": "C146",
   "status": "partial",
   "theorems": [
    "C146_partial",
    "C146_zero_partial",
    "C146_refuted",
    "C146_stream_partial"
   ],
   "note": "With Timeout positive proved in full (C146_partial). With Timeout zero it holds only if no earlier read had a positive one (C146_zero_partial): the old deadline is never withdrawn, so that after it every read fails at once and takes nothing from the connection, for ever (C146_refuted). C146_stream_partial: the stream of bytes and pauses on which the other properties of reading are stated covers every timed history with Timeout positive."
  },
  {
   "property": "C147",
   "status": "partial",
   "theorems": [
    "C147_partial",
    "C147_open_refuted",
    "C147_refuted"
   ],
   "note": "Proved as long as no write but the last fails (C147_partial; user names without a line feed, as in C87). False otherwise: a command whose write fails leaves the connection open to the next (C147_open_refuted), and then, for any two requests of any history and any cut, the server reads both as one message that is neither (C147_refuted)."
  },
  {
   "property": "C148",
   "status": "proved",
   "theorems": [
    "C148_history",
    "C148_read"
   ],
   "note": "The value is that of session_calls, whose contents are C45 (the digest), C142 (how it is read) and C47 (Basic); C148_read puts them together for the wire. The uri in it is the session's, see C76."
  },
  {
   "property": "C149",
   "status": "proved",
   "theorems": [
    "C149_duration",
    "C149_one"
   ],
   "note": "The text is that of strconv.FormatFloat as modelled in M_float (after the library's roundShortest). String gives out no text from the 2k-th addition on (C40)."
  },
  {
   "property": "C150",
   "status": "proved",
   "theorems": [
    "C150_turns",
    "C150_ends"
   ],
   "note": "Reading one byte after another; a pause is a read that runs into the deadline (C146)."
  },
  {
   "property": "C151",
   "status": "partial",
   "theorems": [
    "C151_ends_partial",
    "C151_cr_refuted"
   ],
   "note": "Holds for CR LF and LF in any mixture (C151_ends_partial). A CR alone is not taken as the end of a line: no response with such lines is read, all of it is dropped (C151_cr_refuted)."
  },
  {
   "property": "C152",
   "status": "proved",
   "theorems": [
    "C152_ends",
    "C152_last"
   ],
   "note": "A CR alone is no line end for a description (RFC 4566 does not ask for it)."
  },
  {
   "property": "C153",
   "status": "proved",
   "theorems": [
    "C153_sections",
    "C153_sets"
   ],
   "note": "For a session opened once; a session that is opened again starts with the feeds of the one before (C121)."
  },
  {
   "property": "C154",
   "status": "partial",
   "theorems": [
    "C154_in_band_refuted",
    "C154_frames_refuted"
   ],
   "note": "Never the case: the feed's sets come from its section of the description only (C153_sets), so that a feed whose section gives none has none whatever is received (C154_in_band_refuted), and frames change no feed (C154_frames_refuted). The application can parse the units itself (C117_in_band_partial)."
  },
  {
   "property": "C155",
   "status": "proved",
   "theorems": [
    "C155_messages",
    "C155_stages",
    "C155_ticks",
    "C155_end"
   ],
   "note": "After Open (whose OPTIONS is printed too). The entries of stages and ticks are told from errors by their first words: the texts of errors are taken not to begin like a notice. A panic is reported by the runtime, outside the model."
  },
  {
   "property": "C156",
   "status": "partial",
   "theorems": [
    "C156_lines_partial",
    "C156_lines_refuted"
   ],
   "note": "Start prints \"Reading from UDP sink n\" past package log and without a newline. A server that answers SETUP with UDP makes the client open listeners although it asked for TCP; the entry after the announcement is then on its line (C156_lines_refuted, for every order of the texts, and C156_case). Without listeners the output is exactly the entries of the log, each on its own line (C156_lines_partial)."
  },
  {
   "property": "C157",
   "status": "partial",
   "theorems": [
    "C157_made_partial",
    "C157_error",
    "C157_control",
    "C157_file_refuted",
    "C157_room_refuted"
   ],
   "note": "The comment of NewPlaylist says it verifies that the file exists and can be read; it never looks (C157_file_refuted). With no segments it makes a playlist that crashes at the first AddSegment, with fewer it crashes itself (C157_room_refuted). Errors are exactly those of net/url (C157_error, C157_control); with room, from the arguments to the text all is as it should be until the ring has come round twice (C157_made_partial)."
  },
  {
   "property": "C158",
   "status": "partial",
   "theorems": [
    "C158_given_partial",
    "C158_empty_refuted"
   ],
   "note": "Every Session field that is not empty was given by the server, in a response before the request (C158_given_partial). With a server that has given none, keep-alives over UDP have an empty Session field, which RFC 2326 does not allow (C158_empty_refuted, in every history)."
  },
  {
   "property": "C159",
   "status": "partial",
   "theorems": [
    "C159_status_refuted",
    "C159_version_refuted",
    "C159_agreed_partial",
    "C159_whole_partial"
   ],
   "note": "A server of HTTP/1.0 that answers 200 has the session opened, however its lines end (C159_agreed_partial), and none is opened without a whole head of HTTP/1.0, of which exactly the head is taken (C159_whole_partial). Any other status opens the session as well (C159_status_refuted), and HTTP/1.1 200 does not (C159_version_refuted), in every case."
  },
  {
   "property": "C160",
   "status": "partial",
   "theorems": [
    "C160_unasked_refuted",
    "C160_sent_partial"
   ],
   "note": "False: on every channel no stream was granted, and in every stage but Play (before anything is described, and when paused), each packet is passed on and its unit shown (C160_unasked_refuted). Nothing is passed on that the server did not send as a packet (C160_sent_partial)."
  },
  {
   "property": "C161",
   "status": "proved",
   "theorems": [
    "C161_goes_on",
    "C161_sets"
   ],
   "note": "Writes and listeners succeed, packets and contents fit into the buffer (C56, C100). That the parameter sets of C26 and C29 can be read whatever is known already is C161_sets; responses outside the hypotheses are C63, C73, C75, C80 and C131."
  },
  {
   "property": "C162",
   "status": "partial",
   "theorems": [
    "C162_damaged_refuted",
    "C162_exact",
    "C162_one",
    "C162_whole_partial",
    "C162_config"
   ],
   "note": "False: a text broken off by any character that is no letter, behind a multiple of four letters, gives the set the letters before stand for, whatever follows (C162_damaged_refuted). Exactly: each text gives what its beginning stands for as far as it goes (C162_exact, C162_one; C162_config for hexadecimal), and so the right bytes where it stands for something (C162_whole_partial). The error of the decoder is dropped."
  },
  {
   "property": "C163",
   "status": "proved",
   "theorems": [
    "C163_digits",
    "C163_decimals",
    "C163_nearest"
   ],
   "note": "C163_digits with C163_decimals and C163_nearest, which say what no_longer means for a number with decimals."
  },
  {
   "property": "C164",
   "status": "partial",
   "theorems": [
    "C164_described_refuted",
    "C164_session_refuted",
    "C164_program_refuted",
    "C164_rtpmap",
    "C164_h265_refuted"
   ],
   "note": "False. Two descriptions that differ in codecs, clock rates and payload types only have the same requests sent (C164_described_refuted), the sessions do the same in every history (C164_session_refuted) and so does the program, with the same units taken (C164_program_refuted); such descriptions exist for any two codec names (C164_rtpmap). A packet of every H.265 unit type in use is shown as an H.264 unit (C164_h265_refuted). What holds: the H.264 of one that names it is read right, C81 and C43."
  },
  {
   "property": "C165",
   "status": "partial",
   "theorems": [
    "C165_plain_partial",
    "C165_same_partial",
    "C165_order_refuted",
    "C165_any_partial"
   ],
   "note": "False exactly where it can be: C165_order_refuted, every well formed picture parameter set with a scaling matrix for the 8x8 transform of a stream that is not 4:4:4, given before its sequence parameter set, is refused or read wrongly, and read rightly after it. True, for any bytes, of the others: C165_plain_partial, C165_same_partial, and C165_any_partial for lists of any length."
  },
  {
   "property": "C166",
   "status": "proved",
   "theorems": [
    "C166_once",
    "C166_stages",
    "C166_finished"
   ],
   "note": "The description's size is bounded because the streams are counted in 64 bits; no memory holds so many."
  },
  {
   "property": "C167",
   "status": "proved",
   "theorems": [
    "C167_waits",
    "C167_end"
   ],
   "note": "A Go timer expires at any time from when it is due, and never before; C167_case shows that it cannot a nanosecond earlier. There is no upper bound: the runtime gives none."
  },
  {
   "property": "C168",
   "status": "proved",
   "theorems": [
    "C168_asked",
    "C168_answered"
   ],
   "note": "Over HTTP no command can be sent (C69)."
  },
  {
   "property": "C169",
   "status": "proved",
   "theorems": [
    "C169_own",
    "C169_options",
    "C169_describe",
    "C169_setup",
    "C169_repeated"
   ],
   "note": "Equality while the process has not crashed, at most otherwise. Over HTTP no command can be sent (C69)."
  },
  {
   "property": "C170",
   "status": "partial",
   "theorems": [
    "C170_partial",
    "C170_bound",
    "C170_refuted",
    "C170_factor_refuted"
   ],
   "note": "True when no fragment comes between the last of a unit and the first of another (C170_partial). False otherwise: the fragments of a complete unit are kept, so that each further last fragment of two bytes shows the unit once more (C170_refuted), and no factor bounds what comes out (C170_factor_refuted). For any payloads each Push shows no more than all payloads so far (C170_bound)."
  },
  {
   "property": "C171",
   "status": "partial",
   "theorems": [
    "C171_partial",
    "C171_refuted",
    "C171_crash_refuted",
    "C171_number_refuted"
   ],
   "note": "True of contents, times and results when no fragment of another stream comes between two of a unit and none of its payloads crashes the client (C171_partial; payloads without start codes or emulation prevention sequences). False otherwise: a unit is then made of pieces of both (C171_refuted), a crash takes all streams along (C171_crash_refuted), and decoding order numbers count the units of all streams (C171_number_refuted)."
  },
  {
   "property": "C172",
   "status": "partial",
   "theorems": [
    "C172_media_partial",
    "C172_long_refuted"
   ],
   "note": "True for packets of up to 2048 bytes (C172_media_partial). A longer one, which the frame header allows, ends the loop, and no answer after it is taken (C172_long_refuted; see C56)."
  },
  {
   "property": "C173",
   "status": "partial",
   "theorems": [
    "C173_partial",
    "C173_slash_refuted",
    "C173_word_refuted"
   ],
   "note": "True for lines of other types, and for attributes without a slash, a semicolon or a word that begins with control: or rtpmap: (C173_partial). False otherwise: in an attribute of any name a number after a slash becomes the clock rate (C173_slash_refuted), and a second word control:x the URI of the stream (C173_word_refuted)."
  },
  {
   "property": "C174",
   "status": "partial",
   "theorems": [
    "C174_unknown_partial",
    "C174_order",
    "C174_slash_refuted"
   ],
   "note": "The order does not matter unless two parameters tell the same thing or contradict each other (C174_order), and unknown parameters are passed over unless they have two slashes (C174_unknown_partial). False otherwise: the last piece of any parameter with two slashes is taken for the lower transport, so url=rtsp://camera takes an interleaved stream off the connection (C174_slash_refuted)."
  },
  {
   "property": "C175",
   "status": "partial",
   "theorems": [
    "C175_sps",
    "C175_pps_partial",
    "C175_pps_refuted"
   ],
   "note": "Holds for sequence parameter sets (C175_sps) and for picture parameter sets that have the optional last part (C175_pps_partial). False for the others: whether the optional part is there is decided by whether any bit is left, so a byte after the set becomes part of it (C175_pps_refuted)."
  },
  {
   "property": "C176",
   "status": "partial",
   "theorems": [
    "C176_partial",
    "C176_zero_refuted",
    "C176_code_refuted"
   ],
   "note": "Holds if the first ends in neither a zero byte nor a start code (C176_partial). False otherwise: a zero byte or a start code at the very end is kept as part of the last unit, and is not once something follows (C176_zero_refuted, C176_code_refuted)."
  },
  {
   "property": "C177",
   "status": "partial",
   "theorems": [
    "C177_partial",
    "C177_mtap24_refuted"
   ],
   "note": "Holds for all payloads without MTAP24 (C177_partial). False for those: the time of the packet is taken for the upper part of the offset, so that units move 257 times as far as the packet (C177_mtap24_refuted)."
  },
  {
   "property": "C178",
   "status": "partial",
   "theorems": [
    "C178_rtp",
    "C178_rtcp_partial",
    "C178_reports_refuted",
    "C178_others_refuted"
   ],
   "note": "True of RTP (C178_rtp). False of RTCP: the report blocks of sender reports (C178_reports_refuted) and everything but the header of the other packets (C178_others_refuted) are not in what is returned. C178_rtcp_partial says exactly which packets are read alike."
  },
  {
   "property": "C179",
   "status": "partial",
   "theorems": [
    "C179_partial",
    "C179_offsets_refuted",
    "C179_vui_refuted",
    "C179_interlaced_refuted"
   ],
   "note": "Holds of every element but two for the parameter sets C26 reads (frame pictures, picture order count types 0 and 1): C179_partial. The offsets of reference frames are read and thrown away (C179_offsets_refuted), and VUI parameters are not read (C179_vui_refuted). Parameter sets of field pictures are misread, and different ones may be kept alike (C179_interlaced_refuted)."
  },
  {
   "property": "C180",
   "status": "partial",
   "theorems": [
    "C180_partial",
    "C180_change_refuted"
   ],
   "note": "Holds for the parameter sets C29 reads, whatever sequence parameter sets are known (C180_partial). False with slice groups of type 3, whose elements are read from the wrong places (C180_change_refuted). Without the optional last part a parameter set is refused (C29)."
  },
  {
   "property": "C181",
   "status": "proved",
   "theorems": [
    "C181_as_it_comes"
   ],
   "note": ""
  },
  {
   "property": "C182",
   "status": "proved",
   "theorems": [
    "C182_size",
    "C182_attained",
    "C182_unchanged",
    "C182_differ"
   ],
   "note": ""
  },
  {
   "property": "C183",
   "status": "partial",
   "theorems": [
    "C183_partial",
    "C183_pieces",
    "C183_refuted"
   ],
   "note": "Holds for up to 25 bits together (C183_partial). False from 26 bits on, where one call loses the first bits if the number touches five bytes (C183_refuted); pieces of up to 25 bits each come out right in every case, also where one call does not (C183_pieces)."
  },
  {
   "property": "C184",
   "status": "partial",
   "theorems": [
    "C184_partial",
    "C184_escape_refuted",
    "C184_unescape_refuted"
   ],
   "note": "Holds if the first piece does not end in a zero byte (C184_partial). False otherwise: a start code can appear where the escaped pieces meet (C184_escape_refuted), and an escape there is not removed (C184_unescape_refuted)."
  }
 ]
}
