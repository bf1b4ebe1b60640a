(* Specification: video carried from a server to the client's sink (RFC 6184 non-interleaved mode over RFC 2326 10.12). *)
From Verif Require Import Base S_rtp S_annexb S_nal M_nal M_session S_session S_main S_handshake M_main.

(* ---- what is sent ---- *)
(* a NAL unit on its own, a NAL unit in fragments, or several together; d is the raw content, the network sees it encapsulated *)
Inductive sending :=
| Whole (h : Z) (d : bytes)
| Pieces (h : Z) (d : bytes) (c : bytes) (cs : list bytes)
| Bundle (h : Z) (us : list bytes).
Definition payloads (x : sending) : list bytes :=
  match x with
  | Whole h d => [encapsulate (h :: d)]
  | Pieces h d c cs => fu_packets (fu_a h) c cs
  | Bundle h us => [stap_a h us]
  end.
Definition sending_ok (x : sending) : Prop :=
  match x with
  | Whole h d => byte_ok h /\ bytes_ok d /\ rbsp_legal (h :: d) /\ 1 <= nal_type h <= 23
  | Pieces h d c cs => 0 <= h < 128 /\ bytes_ok d /\ rbsp_legal d /\ 1 <= nal_type h <= 23 /\
      concat (c :: cs) = encapsulate d /\ cs <> [] /\ cuts_ok [] (c :: cs)
  | Bundle h us => byte_ok h /\ nal_type h = 24 /\ Forall (fun u => 1 <= zlen u <= 65533 /\ hd 0 u <> 0 /\ last u 1 <> 0 /\ plain u) us
  end.
(* the units it stands for; those not in fragments count for the decoding order number *)
Definition units_of (don ts : Z) (x : sending) : list nal_unit :=
  match x with
  | Whole h d => [mkUnit h don ts d]
  | Pieces h d _ _ => [mkUnit h don ts d]
  | Bundle h us => number don ts us
  end.
Definition counts (x : sending) : Z := match x with Whole _ _ => 1 | Pieces _ _ _ _ => 0 | Bundle _ us => zlen us end.
Fixpoint all_units (don : Z) (l : list (Z * sending)) : list nal_unit :=
  match l with
  | [] => []
  | (ts, x) :: r => units_of don ts x ++ all_units ((don + counts x) mod 2 ^ 16) r
  end.
Definition stamped (ts : Z) (ps : list bytes) : list (Z * bytes) := map (fun p => (ts, p)) ps.
Definition all_payloads (l : list (Z * sending)) : list (Z * bytes) := flat_map (fun e => stamped (fst e) (payloads (snd e))) l.

(* ---- how: RTP packets on one channel, with control packets on any odd channel in between ---- *)
Inductive sent_as (ch : Z) : list (Z * bytes) -> list (Z * bytes) -> Prop :=
| sa_end : sent_as ch [] []
| sa_control k p l fs : k mod 2 = 1 -> bytes_ok p -> ~ control_crash p -> ~ control_leave p -> sent_as ch l fs -> sent_as ch l ((k, p) :: fs)
| sa_media h pl l fs : rtp_legal h -> h_padding h = false -> sent_as ch l fs -> sent_as ch ((h_time h, pl) :: l) ((ch, rtp_layout h pl) :: fs).

(* several feeds, each on an even channel of its own, whose sendings follow one another: the packets of one are not parted by those of another *)
Definition fed (l : list (Z * (Z * sending))) : list (Z * (Z * bytes)) := flat_map (fun e => map (fun p => (fst e, p)) (stamped (fst (snd e)) (payloads (snd (snd e))))) l.
Inductive sent_in_turn : list (Z * (Z * bytes)) -> list (Z * bytes) -> Prop :=
| st_end : sent_in_turn [] []
| st_control k p l fs : k mod 2 = 1 -> bytes_ok p -> ~ control_crash p -> ~ control_leave p -> sent_in_turn l fs -> sent_in_turn l ((k, p) :: fs)
| st_media ch h pl l fs : rtp_legal h -> h_padding h = false -> sent_in_turn l fs -> sent_in_turn ((ch, (h_time h, pl)) :: l) ((ch, rtp_layout h pl) :: fs).

(* ---- what the client has to show: the units in its sink after each media packet ---- *)
Fixpoint shown (c : client) (ps : list (Z * bytes)) : list nal_unit * client * fate :=
  match ps with
  | [] => ([], c, Goes)
  | (ch, p) :: r =>
      match on_packet c ch p with
      | (c1, Goes) => let '(us, c2, f) := shown c1 r in ((if ch mod 2 =? 0 then s_units (c_sink c1) else []) ++ us, c2, f)
      | (c1, f) => ([], c1, f)
      end
  end.
(* the same over an execution of the whole program *)
Fixpoint yshown (y : system) (es : list yevent) : list nal_unit :=
  match es with
  | [] => []
  | e :: rest =>
      match ystep y e with
      | Some y' =>
          (match e, y_data y, y_fate y' with
           | YPacket, (ch, _) :: _, Goes => if ch mod 2 =? 0 then s_units (c_sink (y_c y')) else []
           | _, _, _ => []
           end) ++ yshown y' rest
      | None => []
      end
  end.
Definition yturns (es : list yevent) : nat := length (filter (fun e => match e with YTurn _ _ => true | _ => false end) es).
Definition ypackets (es : list yevent) : nat := length (filter (fun e => match e with YPacket => true | _ => false end) es).
