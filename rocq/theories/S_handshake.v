(* Specification: a conversation with a server that grants everything. *)
From Coq Require Import String Permutation.
From Verif Require Import Base GoStrings S_message M_message M_transport M_sdp M_sps M_session S_session.

(* what the caller sees of a log: the requests that went out, the stages announced, the packets delivered *)
Definition sent_requests (log : list effect) : list request := flat_map (fun e => match e with Sent _ r => [r] | _ => [] end) log.
Definition stages (log : list effect) : list Z := flat_map (fun e => match e with Notified st => [st] | _ => [] end) log.
Definition packets (log : list effect) : list (Z * bytes) := flat_map (fun e => match e with Delivered ch p => [(ch, p)] | _ => [] end) log.
Definition frames (items : list item) : list (Z * bytes) := flat_map (fun i => match i with Frame ch p => [(ch, p)] | _ => [] end) items.

(* frames and silences, which may come between the responses *)
Definition noise (i : item) : Prop := match i with Resp _ _ _ _ => False | _ => True end.
Inductive with_noise : list item -> list item -> Prop :=
| wn_end : with_noise [] []
| wn_noise i s t : noise i -> with_noise s t -> with_noise s (i :: t)
| wn_keep i s t : with_noise s t -> with_noise (i :: s) (i :: t).

(* the response grants the request with this number *)
Definition grants (n : Z) (i : item) : Prop :=
  match i with Resp code _ fields _ => code = 200 /\ field_value fields (bs "CSeq") = itoa n | _ => False end.
Definition body_of_item (i : item) : bytes := match i with Resp _ _ _ body => body | _ => [] end.
Definition field_of_item (i : item) (k : bytes) : bytes := match i with Resp _ _ fields _ => field_value fields k | _ => [] end.
(* the session identifier after the response *)
Definition next_id (old : bytes) (i : item) : bytes := match field_of_item i (bs "Session") with [] => old | v => id_of v end.
Definition transport_text_ok (v : bytes) : Prop := forall t, snd (transport_parse t v) = None.
(* the response to a SETUP names a transport *)
Definition names_transport (i : item) : Prop := transport_text_ok (field_of_item i (bs "Transport")).
(* the parameter sets in the description can be read *)
Definition sets_ok (m : media) : Prop := snd (parse_sprops (mkStore (fun _ => None) (fun _ => None)) (m_sprops m)) = Ok tt.

(* ---- the requests, in order ---- *)
Definition target (uri control : bytes) : bytes := if beq (firstn 7 control) (bs "rtsp://") then control else uri ++ bs "/" ++ control.
Definition offer (i : Z) : bytes := bs "RTP/AVP/TCP;interleaved=" ++ itoa (2 * i) ++ bs "-" ++ itoa (2 * i + 1).
Fixpoint setups (uri id : bytes) (i : Z) (ms : list media) : list request :=
  match ms with
  | [] => []
  | m :: r => mkReq (bs "SETUP") (3 + i) (target uri (m_control m)) [] id [(bs "Transport", offer i)] :: setups uri id (i + 1) r
  end.
Definition opening (uri id1 id2 : bytes) (ms : list media) : list request :=
  mkReq (bs "OPTIONS") 1 uri [] [] [] :: mkReq (bs "DESCRIBE") 2 uri [] id1 [(bs "Accept", bs "application/sdp")] :: setups uri id2 0 ms.

(* ---- a server that grants everything ---- *)
Record opening_ok (ms : list media) (ropt rdesc : item) (rsets : list item) : Prop := {
  oo_options : grants 1 ropt;
  oo_describe : grants 2 rdesc;
  oo_body : body_of_item rdesc <> [];
  oo_sdp : sdp_parse (body_of_item rdesc) = Ok ms;
  oo_some : ms <> [];
  oo_sets : Forall sets_ok ms;
  oo_setups : exists ns, Permutation ns (map (fun i => 3 + Z.of_nat i) (seq 0 (length ms))) /\ Forall2 grants ns rsets;
  oo_transports : Forall names_transport rsets }.

(* ---- after that: commands, each with what arrives until the next one ---- *)
Inductive order := Play | Pause | Teardown.
Definition order_cmd (o : order) : cmd := match o with Play => CPlay | Pause => CPause | Teardown => CTeardown end.
Definition order_verb (o : order) : bytes := match o with Play => bs "PLAY" | Pause => bs "PAUSE" | Teardown => bs "TEARDOWN" end.
Definition order_stage (o : order) : Z := match o with Play => 2 | Pause => 3 | Teardown => 4 end.
Record round := mkRound { r_order : order; r_answer : item; r_items : list item; r_clocks : list (Z * Z) }.
Definition turns_at (clocks : list (Z * Z)) : list event := map (fun c => Turn (fst c) (snd c)) clocks.
Definition round_events (r : round) : list event := App (order_cmd (r_order r)) :: turns_at (r_clocks r).
(* the answers of the rounds, numbered from n on *)
Fixpoint rounds_ok (n : Z) (rs : list round) : Prop :=
  match rs with
  | [] => True
  | r :: rest => grants n (r_answer r) /\ with_noise [r_answer r] (r_items r) /\ Forall item_ok (r_items r) /\
                 length (r_clocks r) = length (r_items r) /\ rounds_ok (n + 1) rest
  end.
Fixpoint round_requests (uri id : bytes) (n : Z) (rs : list round) : list request :=
  match rs with
  | [] => []
  | r :: rest => mkReq (order_verb (r_order r)) n uri [] id [] :: round_requests uri (next_id id (r_answer r)) (n + 1) rest
  end.
