(* The project's own unit tests, run on the model: it gives the results the tests expect of the code. *)
From Coq Require Import String.
From Verif Require Import Base GoStrings M_bits M_annexb M_sps M_hls M_float M_sdp M_digest M_url M_dial.

(* net/h264/bits_test.go:7-14 *)
Example TestAvailable : available (new_reader [77; 50]) = 16.
Proof. vm_compute. reflexivity. Qed.

(* net/h264/bits_test.go:16-58 *)
Example TestRead :
  let r0 := new_reader [77; 50] in
  let '(r1, v1) := read_bits r0 3 in let '(r2, v2) := read_bits r1 2 in let '(r3, v3) := read_bits r2 7 in
  let '(r4, v4) := read_bits r3 2 in let '(r5, v5) := read_bits r4 1 in let '(r6, v6) := read_bits r5 1 in
  v1 = Ok 2 /\ v2 = Ok 1 /\ v3 = Ok 83 /\ available r3 = 4 /\ v4 = Ok 0 /\ v5 = Ok 1 /\ v6 = Ok 0 /\ available r6 = 0 /\
  snd (read_bits r6 1) = Err ErrUnexpectedEOF.
Proof. vm_compute. repeat split. Qed.

(* net/h264/bits_test.go:60-79 *)
Example TestSignedGolomb : map (fun b => snd (read_se (new_reader [b]))) [128; 64; 96; 32; 56] = [Ok 0; Ok 1; Ok (-1); Ok 2; Ok (-3)].
Proof. vm_compute. reflexivity. Qed.

(* net/h264/annexb_test.go:7-30 *)
Example TestSplitAnnexB :
  split_annexb [0; 0; 0; 1; 103; 66; 128; 32; 218; 1; 64; 22; 232; 6; 208; 161; 53; 0; 0; 0; 1; 104; 206; 6; 226; 0; 0; 0; 1;
                101; 184; 64; 240; 140; 3; 242; 117; 103; 173; 65; 100; 36; 14; 160; 178; 18; 30; 248] =
  Ok [[103; 66; 128; 32; 218; 1; 64; 22; 232; 6; 208; 161; 53]; [104; 206; 6; 226];
      [101; 184; 64; 240; 140; 3; 242; 117; 103; 173; 65; 100; 36; 14; 160; 178; 18; 30; 248]].
Proof. vm_compute. reflexivity. Qed.

Definition raw_640 : bytes := [122; 0; 30; 188; 217; 64; 160; 47; 248; 152; 64; 0; 0; 1; 128; 0; 0; 86; 131; 197; 139; 101; 128].
Definition ebsp_640 : bytes := [122; 0; 30; 188; 217; 64; 160; 47; 248; 152; 64; 0; 0; 3; 1; 128; 0; 0; 86; 131; 197; 139; 101; 128].
(* net/h264/annexb_test.go:32-49 *)
Example TestEBSPToRaw : ebsp_to_raw ebsp_640 = raw_640.
Proof. vm_compute. reflexivity. Qed.
(* net/h264/annexb_test.go:51-67 *)
Example TestRBSPToEncapsulated : rbsp_to_encapsulated raw_640 = Ok ebsp_640.
Proof. vm_compute. reflexivity. Qed.

Definition amcrest_sps : bytes :=
  [100; 0; 31; 172; 52; 200; 5; 0; 91; 255; 1; 110; 2; 2; 2; 128; 0; 1; 244; 0; 0; 58; 152; 116; 48; 0; 78; 42; 0; 1; 56; 168;
   93; 229; 198; 134; 0; 9; 197; 64; 0; 39; 21; 11; 188; 184; 80; 0].
Definition size_of (s : store) : option (Z * Z) := match get_sps s 0 with Some i => Some (sps_width i, sps_height i) | None => None end.
Definition pps_of (s : store) : option Z := match get_pps s 0 with Some i => Some (pps_id i) | None => None end.
(* net/h264/spspps_test.go:7-33 *)
Example TestParseSPSAmcrestHiDef : snd (parse_sps new_store amcrest_sps) = Ok tt /\ size_of (fst (parse_sps new_store amcrest_sps)) = Some (1280, 720).
Proof. vm_compute. split; reflexivity. Qed.
(* net/h264/spspps_test.go:35-53 *)
Example TestParsePPSAmcrest : snd (parse_pps new_store [238; 60; 48; 0]) = Ok tt /\ pps_of (fst (parse_pps new_store [238; 60; 48; 0])) = Some 0.
Proof. vm_compute. split; reflexivity. Qed.
(* net/h264/spspps_test.go:55-82 *)
Example TestParseSPSAmcrestSprops : snd (parse_sprop new_store (103 :: amcrest_sps)) = Ok tt /\ size_of (fst (parse_sprop new_store (103 :: amcrest_sps))) = Some (1280, 720).
Proof. vm_compute. split; reflexivity. Qed.
(* net/h264/spspps_test.go:84-102 *)
Example TestParsePPSAmcrestSprops : snd (parse_sprop new_store [104; 238; 60; 48; 0]) = Ok tt /\ pps_of (fst (parse_sprop new_store [104; 238; 60; 48; 0])) = Some 0.
Proof. vm_compute. split; reflexivity. Qed.

(* net/hls/playlist_test.go:7-48; the durations 2.58, 3.014, 3.24, 2.9777, 3.4333 and 3.41 as bit patterns; the segment size 3.5 is never
   read.  (net/rtsp/session_test.go holds no test.) *)
Definition text_lines (l : list bytes) : bytes := flat_map (fun x => x ++ [10]) l.
Example TestPlaylist :
  match playlist_uri (bs "https://example.com/media") (bs "/var/media/video.ts") with
  | None => Panic
  | Some uri => let! pl := add_all (new_playlist uri 5) [(4612992062319325348, 82560); (4613969343438464745, 96448); (4614478250196357612, 103680);
      (4613887603105227971, 95286); (4614913523100342970, 109866); (4614861056164684104, 109120)] in render format_float pl
  end = Ok (text_lines [bs "#EXTM3U"; bs "#EXT-X-VERSION:4";
    bs "#EXTINF:3.014"; bs "#EXT-X-BYTERANGE:96448@82560"; bs "https://example.com/media/video.ts";
    bs "#EXTINF:3.24"; bs "#EXT-X-BYTERANGE:103680@179008"; bs "https://example.com/media/video.ts";
    bs "#EXTINF:2.9777"; bs "#EXT-X-BYTERANGE:95286@282688"; bs "https://example.com/media/video.ts";
    bs "#EXTINF:3.4333"; bs "#EXT-X-BYTERANGE:109866@377974"; bs "https://example.com/media/video.ts";
    bs "#EXTINF:3.41"; bs "#EXT-X-BYTERANGE:109120@487840"; bs "https://example.com/media/video.ts";
    bs "#EXT-X-ENDLIST"]).
Proof. vm_compute. reflexivity. Qed.

(* net/sdp/packet_test.go:7-32 expects nothing of the result; this is what it is *)
Example TestParse :
  match sdp_parse (10 :: text_lines [bs "v=0"; bs "o=- 1 1 IN IP4"; bs "s=hysxrtpsion"; bs "c=IN IP4 0.0.0.0"; bs "t=0 0"; bs "a=control:*"; bs "a=range:npt=0-";
    bs "m=video 0 RTP/AVP 96"; bs "a=rtpmap:96 H264/90000"; bs "a=control:trackID=0";
    bs "a=fmtp:96 packetization-mode=1; sprop-parameter-sets=Z2QAKKzoBQBbkA==,aO48sA==; profile-level-id=640028";
    bs "m=audio 0 RTP/AVP 97"; bs "b=AS:16"; bs "a=control:trackID=1"; bs "a=rtpmap:97 MPEG4-GENERIC/16000/1";
    bs "a=fmtp:97 profile-level-id=1;mode=AAC-hbr;sizelength=13;indexlength=3;indexdeltalength=3;config=1408";
    bs "m=application 0 RTP/AVP 111"; bs "a=control:trackID=2"; bs "a=rtpmap:111 X-KATA/1000"; bs "a=fmtp:111 octet-align=1"; bs "b=AS:2"]) with
  | Ok [m] => m_type m = 96 /\ m_timescale m = 90000 /\ m_control m = bs "trackID=0" /\ m_rtpmap m = 96 /\ m_payload_type m = 96 /\
              m_sprops m = [[103; 100; 0; 40; 172; 232; 5; 0; 91; 144]; [104; 238; 60; 176]]
  | _ => False
  end.
Proof. vm_compute. repeat split. Qed.

(* net/rtsp/digest_test.go:7-18; the test overwrites the client nonce *)
Example TestDigestAuth :
  match new_digest (bs "/dir/index.html") (bs "Digest realm=""testrealm@host.com"", qop=""auth"", nonce=""dcd98b7102dd2f0e8b11d0f600bfb0c093"", opaque=""5ccc069c403ebaf9f0171e9517f40e41""") with
  | Ok d =>
      let '(d, text) := authenticate d (bs "Mufasa") (bs "Circle Of Life") [] in
      let '(mkDigest ba us re dm no op st al _ qo ur h1 h2 nc ct) := d in
      snd (auth_call text (mkDigest ba us re dm no op st al (bs "6443776e86b984dd") qo ur h1 h2 nc ct) (bs "OPTIONS") []) =
      bs "Digest username=""Mufasa"", realm=""testrealm@host.com"", nonce=""dcd98b7102dd2f0e8b11d0f600bfb0c093"", uri=""/dir/index.html"", algorithm=""md5"", opaque=""5ccc069c403ebaf9f0171e9517f40e41"", qop=""auth"", nc=00000001, cnonce=""6443776e86b984dd"", response=""15f8e0d8b404b53a52e8cb7fa89988ee"""
  | _ => False
  end.
Proof. vm_compute. reflexivity. Qed.
(* net/rtsp/digest_test.go:20-30 *)
Example TestBasicAuth :
  match new_digest (bs "/dir/index.html") (bs "Basic realm=""testrealm@host.com""") with
  | Ok d => let '(d, text) := authenticate d (bs "Mufasa") (bs "Circle Of Life") [] in snd (auth_call text d (bs "OPTIONS") []) = bs "Basic TXVmYXNhOkNpcmNsZSBPZiBMaWZl"
  | _ => False
  end.
Proof. vm_compute. reflexivity. Qed.
