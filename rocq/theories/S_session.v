(* Specification: what an observer of the log of a session knows, and what may happen next.
   The observer looks only at what goes over the connection and the channels. *)
From Coq Require Import String.
From Verif Require Import Base GoStrings M_conn S_message M_message M_session.

Record obs := mkO {
  o_pending : Z -> option request;               (* requests sent and not answered, by CSeq *)
  o_id : bytes;                                  (* session identifier *)
  o_stage : Z;                                   (* last stage announced *)
  o_cseq : Z;                                    (* CSeq of the last new request *)
  o_last : option Z;                             (* time of the last keep-alive *)
  o_cur : option (request * response) }.         (* request and response, until something is announced for them *)

Definition obs0 : obs := mkO (fun _ => None) [] 0 0 None None.
Definition put {A} (f : Z -> A) (k : Z) (x : A) : Z -> A := fun i => if i =? k then x else f i.
(* the identifier in a Session field: the text before the parameters *)
Definition id_of (v : bytes) : bytes := match cut 59 v with Some (a, _) => a | None => v end.

Definition observe1 (o : obs) (e : effect) : obs :=
  match e with
  | Sent again r => mkO (put (o_pending o) (q_cseq r) (Some r)) (o_id o) (o_stage o) (if again then o_cseq o else q_cseq r) (o_last o) (o_cur o)
  | Got r =>
      match o_pending o (p_cseq r) with
      | None => mkO (o_pending o) (o_id o) (o_stage o) (o_cseq o) (o_last o) None
      | Some req =>
          let v := header_get (p_header r) (bs "Session") in
          mkO (put (o_pending o) (p_cseq r) None) (if (p_code r =? 401) || beq v [] then o_id o else id_of v)
              (o_stage o) (o_cseq o) (o_last o) (Some (req, r))
      end
  | Notified st => mkO (o_pending o) (o_id o) st (o_cseq o) (o_last o) None
  | Alive _ t2 => mkO (o_pending o) (o_id o) (o_stage o) (o_cseq o) (Some t2) (o_cur o)
  | _ => o
  end.
Definition observe (log : list effect) : obs := fold_left observe1 log obs0.

(* ---- what may happen next ---- *)
Definition verb_of (stage : Z) : bytes :=
  if stage =? 1 then bs "SETUP" else if stage =? 2 then bs "PLAY" else if stage =? 3 then bs "PAUSE" else if stage =? 4 then bs "TEARDOWN" else [].

(* a stage is announced for a response to a request with that purpose *)
Definition stage_legal (o : obs) (e : effect) : Prop :=
  match e with
  | Notified st => exists req r, o_cur o = Some (req, r) /\ 1 <= st <= 4 /\ q_verb req = verb_of st /\ (st <> 1 -> p_code r = 200)
  | _ => True
  end.
(* new requests are numbered in sequence; a request is repeated only after a 401 *)
Definition number_legal (o : obs) (e : effect) : Prop :=
  match e with
  | Sent false r => q_cseq r = i64 (o_cseq o + 1)
  | _ => True
  end.
Definition again_legal (o : obs) (e : effect) : Prop :=
  match e with
  | Sent true r => q_cseq r = o_cseq o /\ q_auth r <> [] /\
      exists req rsp, o_cur o = Some (req, rsp) /\ p_code rsp = 401 /\ q_verb r = q_verb req /\ q_uri r = q_uri req /\ q_header r = q_header req
  | _ => True
  end.
Definition id_legal (o : obs) (e : effect) : Prop :=
  match e with Sent _ r => q_session r = o_id o | _ => True end.
(* keep-alives: between Ready and Done, at least two seconds after the last *)
Definition alive_legal (o : obs) (e : effect) : Prop :=
  match e with
  | Alive t1 t2 => 1 <= o_stage o <= 3 /\ (forall l, o_last o = Some l -> t1 - l >= 2000000000)
  | _ => True
  end.
Definition legal (o : obs) (e : effect) : Prop :=
  stage_legal o e /\ number_legal o e /\ again_legal o e /\ id_legal o e /\ alive_legal o e.

(* ---- reading the log directly ---- *)
(* CSeq numbers of the new requests, in order *)
Definition new_cseqs (log : list effect) : list Z := flat_map (fun e => match e with Sent false r => [q_cseq r] | _ => [] end) log.
(* a request with this CSeq was sent and no response with it came since *)
Definition outstanding (log : list effect) (k : Z) : Prop :=
  exists a again req b, log = a ++ Sent again req :: b /\ q_cseq req = k /\ (forall r, In (Got r) b -> p_cseq r <> k).
(* r answers req *)
Definition answers (log : list effect) (req : request) (r : response) : Prop :=
  exists a again b d, log = a ++ Sent again req :: b ++ Got r :: d /\ p_cseq r = q_cseq req /\
    (forall r', In (Got r') b -> p_cseq r' <> q_cseq req) /\ (forall r', ~ In (Got r') d) /\ (forall st, ~ In (Notified st) d).
(* the last stage announced *)
Definition last_stage (log : list effect) : Z := fold_left (fun st e => match e with Notified st' => st' | _ => st end) log 0.
Definition opened (w : world) (proto : Z) : Prop := exists user uri, w_s w = dialled proto user uri /\ w_log w = [].

(* ---- what arrives on the connection ---- *)
(* a frame (RFC 2326 10.12), a response, or a silence longer than the read timeout *)
Inductive item :=
| Frame (ch : Z) (payload : bytes)
| Resp (code : Z) (reason : bytes) (fields : list sfield) (body : bytes)
| Quiet.
Definition frame_text (ch : Z) (payload : bytes) : bytes := [36; ch] ++ be_put 2 (zlen payload) ++ payload.
Definition item_stream (i : item) : stream :=
  match i with
  | Frame ch p => sent (frame_text ch p)
  | Resp code reason fields body => sent (response_text (bs "RTSP/1.0") code reason fields body)
  | Quiet => [None]
  end.
(* what the library can take: see C56 for longer frames *)
Definition item_ok (i : item) : Prop :=
  match i with
  | Frame ch p => byte_ok ch /\ zlen p <= 2048
  | Resp code reason fields body => 100 <= code <= 999 /\ line_text reason /\ Forall sfield_ok fields /\ content_ok fields body /\ zlen body <= 2048
  | Quiet => True
  end.
(* what is to be heard of it *)
Definition heard (i : item) (es : list effect) : Prop :=
  match i with
  | Frame ch p => es = [Delivered ch p]
  | Resp code reason fields body => exists r, es = [Got r] /\ p_code r = code /\ p_body r = (match body with [] => None | _ => Some body end) /\
      (forall k, token k -> header_get (p_header r) k = field_value fields k) /\
      (forall n, 0 <= n < 2 ^ 63 -> field_value fields (bs "CSeq") = itoa n -> p_cseq r = n)
  | Quiet => es = []
  end.
Inductive heard_all : list item -> list effect -> Prop :=
| ha_nil : heard_all [] []
| ha_cons i is e es : heard i e -> heard_all is es -> heard_all (i :: is) (e ++ es).
Definition is_incoming (e : effect) : bool := match e with Delivered _ _ | Got _ => true | _ => false end.
Definition incoming (log : list effect) : list effect := filter is_incoming log.
Definition turns (es : list event) : nat := length (filter (fun e => match e with Turn _ _ => true | _ => false end) es).

(* ---- responses taken one after the other, each without an error ---- *)
Inductive handled : world -> list response -> world -> Prop :=
| h_nil w : handled w [] w
| h_cons w r w1 rs w2 : handle_response w r = (w1, Ok tt) -> handled w1 rs w2 -> handled w (r :: rs) w2.
(* the announcements of Ready in a log *)
Definition readies (log : list effect) : list effect := filter (fun e => match e with Notified st => st =? 1 | _ => false end) log.
(* the listeners opened *)
Definition listenings (log : list effect) : list (Z * Z) := flat_map (fun e => match e with Listening ch port => [(ch, port)] | _ => [] end) log.
(* the requests sent again *)
Definition retransmissions (log : list effect) : list request := flat_map (fun e => match e with Sent true r => [r] | _ => [] end) log.
