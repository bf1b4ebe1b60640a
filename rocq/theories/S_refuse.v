(* Specification: requests of a server, challenges of several schemes, refusals. *)
From Coq Require Import String.
From Verif Require Import Base GoStrings S_digest M_conn S_message M_message M_session S_session S_handshake S_auth.

(* a request as a server sends it (RFC 2326 6): ANNOUNCE, REDIRECT, GET_PARAMETER, ... *)
Definition request_text (verb uri : bytes) (fields : list sfield) (body : bytes) : bytes :=
  verb ++ 32 :: uri ++ bs " RTSP/1.0" ++ [13; 10] ++ flat_map sfield_text fields ++ [13; 10] ++ body.
Definition method (verb : bytes) : Prop := verb <> [] /\ Forall (fun c => 65 <= c <= 90 \/ c = 95) verb.

(* the fields of a response that offers schemes, in order, among others *)
Definition is_offer (f : sfield) : bool := same_name (bs "WWW-Authenticate") (f_name f).
Definition offers (fields : list sfield) : list bytes := map f_value (filter is_offer fields).
Definition asking_text (c : challenge) : bytes := scheme (ch_basic c) ++ items_text (ch_attrs c).

(* the answer to request n is neither 200 nor 401 *)
Definition refuses (n : Z) (i : item) : Prop :=
  match i with
  | Resp code _ fields _ => code <> 200 /\ code <> 401 /\ field_value fields (bs "CSeq") = itoa n
  | _ => False
  end.
Definition order_of (verb : bytes) : Prop := verb = bs "PLAY" \/ verb = bs "PAUSE" \/ verb = bs "TEARDOWN".

(* the same item but for the reason and for fields other than those named *)
Definition agree (names : list bytes) (i i' : item) : Prop :=
  match i, i' with
  | Resp code _ fields body, Resp code' _ fields' body' =>
      code' = code /\ body' = body /\ Forall (fun k => field_value fields' k = field_value fields k) names
  | _, _ => i' = i
  end.

(* where a stream is to be set up (RFC 2326 C.1.1, RFC 3986 5.2 without dot segments) *)
Definition base_of (uri : bytes) (i : item) : bytes :=
  match field_of_item i (bs "Content-Base") with [] => match field_of_item i (bs "Content-Location") with [] => uri | v => v end | v => v end.
Fixpoint dir (b : bytes) : bytes := match b with [] => [] | c :: r => match dir r with [] => if c =? 47 then [c] else [] | d => c :: d end end.
Definition is_absolute (control : bytes) : Prop := exists r, control = bs "rtsp://" ++ r.
Definition is_whole (control : bytes) : Prop := control = [] \/ control = bs "*".
Definition is_relative (control : bytes) : Prop := exists c r, control = c :: r /\ ~ In c (bs "/?#*") /\ ~ In 58 control /\ ~ In 46 control.
Definition rfc_target (base control : bytes) : bytes :=
  if beq (firstn 7 control) (bs "rtsp://") then control else if beq control [] || beq control (bs "*") then base else dir base ++ control.
