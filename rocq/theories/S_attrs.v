(* Specification: the attributes of a media section (RFC 4566 5.13, 6; RFC 6184 8.2.1), as lines and by their meaning. *)
From Coq Require Import String.
From Verif Require Import Base GoStrings S_sdp.

Inductive attr :=
| AControl (uri : bytes)
| ARtpmap (pt : Z) (name : bytes) (rate : Z) (tail : bytes)      (* tail: nothing, or / and parameters *)
| AFmtp (pt : Z) (params : list (bytes * fparam))                 (* each with the blanks before it *)
| AOther (line : bytes).                                          (* a line that says nothing of these *)

(* the text of the line, up to surrounding white space *)
Definition attr_text (a : attr) : bytes :=
  match a with
  | AControl uri => bs "a=control:" ++ uri
  | ARtpmap pt name rate tail => bs "a=rtpmap:" ++ itoa pt ++ bs " " ++ name ++ bs "/" ++ itoa rate ++ tail
  | AFmtp pt params => bs "a=fmtp:" ++ itoa pt ++ bs " " ++ params_text params
  | AOther line => line
  end.
Definition says (l : bytes) (a : attr) : Prop := trim_space l = attr_text a.

(* other lines: not a media line or an attribute, or an attribute of one word without / and ; *)
Definition other_line (l : bytes) : Prop :=
  ~ In 61 l \/
  (exists k v, l = k ++ 61 :: v /\ ~ In 61 k /\ k <> bs "m" /\ k <> bs "a") \/
  (exists t, l = bs "a=" ++ t /\ ~ In 32 t /\ ~ In 47 t /\ ~ In 59 t /\ (forall v, t <> bs "control:" ++ v) /\ (forall v, t <> bs "rtpmap:" ++ v)).

(* The library's limits (C43): an fmtp line has more than one parameter; no number stands between the first two
   slashes of a control URI or of the parameters. *)
Definition attr_ok (a : attr) : Prop :=
  match a with
  | AControl uri => ~ In 32 uri /\ ~ In 59 uri /\ slash_number uri = None
  | ARtpmap pt name rate tail => 0 <= pt < 2 ^ 63 /\ 0 <= rate < 2 ^ 63 /\ ~ In 47 name /\ ~ In 58 name /\ ~ In 59 name /\
      (tail = [] \/ exists x, tail = 47 :: x) /\ ~ In 58 tail /\ ~ In 59 tail
  | AFmtp pt params => (2 <= length params)%nat /\ Forall (fun bp => blanks (fst bp) /\ fparam_ok (snd bp)) params /\
      Forall (fun bp => token_named (snd bp)) params /\ slash_number (params_text params) = None
  | AOther line => other_line line
  end.

(* which of the three it is *)
Definition kind (a : attr) : list Z := match a with AControl _ => [1] | ARtpmap _ _ _ _ => [2] | AFmtp _ _ => [3] | AOther _ => [] end.
(* the payload type it is about *)
Definition about (a : attr) : list Z := match a with ARtpmap pt _ _ _ | AFmtp pt _ => [pt] | _ => [] end.
