(* Specification: RTSP URLs, after RFC 3986 and RFC 2326 3.2. *)
From Coq Require Import String.
From Verif Require Import Base.

Definition unreserved (c : Z) : Prop := 48 <= c <= 57 \/ 65 <= c <= 90 \/ 97 <= c <= 122 \/ In c (bs "-._~").
Definition sub_delim (c : Z) : Prop := In c (bs "!$&'()*+,;=").
Definition hexit (d n : Z) : Prop := 48 <= d <= 57 /\ n = d - 48 \/ 65 <= d <= 70 /\ n = d - 55 \/ 97 <= d <= 102 /\ n = d - 87.
(* percent-encoded text and what it stands for *)
Inductive pct (ok : Z -> Prop) : bytes -> bytes -> Prop :=
| pct_nil : pct ok [] []
| pct_lit c t v : ok c -> pct ok t v -> pct ok (c :: t) (c :: v)
| pct_hex a b x y t v : hexit a x -> hexit b y -> pct ok t v -> pct ok (37 :: a :: b :: t) (x * 16 + y :: v).
Definition user_char (c : Z) : Prop := unreserved c \/ sub_delim c.
Definition pass_char (c : Z) : Prop := user_char c \/ c = 58.
Definition path_char (c : Z) : Prop := unreserved c \/ sub_delim c \/ In c (bs ":@/").

Definition scheme_ok (s : bytes) : Prop :=
  exists c r, s = c :: r /\ (65 <= c <= 90 \/ 97 <= c <= 122) /\ Forall (fun c => 48 <= c <= 57 \/ 65 <= c <= 90 \/ 97 <= c <= 122 \/ In c (bs "+-.")) r.
Definition lowered (s : bytes) : bytes := map (fun c => if (65 <=? c) && (c <=? 90) then c + 32 else c) s.
(* a name or an IPv4 address, or an IPv6 address in brackets *)
Inductive rhost := Named (name : bytes) | V6 (addr : bytes).
Definition rhost_ok (h : rhost) : Prop :=
  match h with
  | Named n => n <> [] /\ Forall (fun c => unreserved c \/ sub_delim c) n
  | V6 a => Forall (fun c => 48 <= c <= 57 \/ 65 <= c <= 70 \/ 97 <= c <= 102 \/ c = 58 \/ c = 46) a
  end.
Definition rhost_text (h : rhost) : bytes := match h with Named n => n | V6 a => bs "[" ++ a ++ bs "]" end.
Definition rhost_name (h : rhost) : bytes := match h with Named n => n | V6 a => a end.
Definition path_ok (p : bytes) : Prop := p = [] \/ exists t v, p = 47 :: t /\ pct path_char t v.
Definition fragment_char (c : Z) : Prop := path_char c \/ c = 63.
Definition query_ok (q : bytes) : Prop := Forall (fun c => 32 <= c /\ c <> 127 /\ c <> 35) q.

(* the text before the host: user, and user and password, encoded as n and p *)
Inductive ruser := NoUser | User (n : bytes) | UserPass (n p : bytes).
Definition ruser_text (u : ruser) : bytes := match u with NoUser => [] | User n => n ++ bs "@" | UserPass n p => n ++ bs ":" ++ p ++ bs "@" end.
Definition ruser_is (u : ruser) (who : option (bytes * bytes)) : Prop :=
  match u, who with
  | NoUser, None => True
  | User n, Some (name, pass) => pct user_char n name /\ pass = []
  | UserPass n p, Some (name, pass) => pct user_char n name /\ pct pass_char p pass
  | _, _ => False
  end.
Definition rport_ok (p : bytes) : Prop := p <> [] /\ Forall (fun c => 48 <= c <= 57) p.
Definition rport_text (p : option bytes) : bytes := match p with Some p => bs ":" ++ p | None => [] end.
Definition query_text (q : option bytes) : bytes := match q with Some q => bs "?" ++ q | None => [] end.
(* the number of a port; 554 is that of RTSP *)
Definition decimal (s : bytes) : Z := fold_left (fun a c => a * 10 + (c - 48)) s 0.
Definition rport_number (p : option bytes) : Z := match p with Some p => decimal p | None => 554 end.

Definition url_text (sch : bytes) (u : ruser) (h : rhost) (port : option bytes) (path : bytes) (q : option bytes) : bytes :=
  sch ++ bs "://" ++ ruser_text u ++ rhost_text h ++ rport_text port ++ path ++ query_text q.

(* ---- names in paths ---- *)
Definition name_ok (s : bytes) : Prop := s <> [] /\ s <> bs "." /\ s <> bs ".." /\ ~ In 47 s /\ bytes_ok s.
Definition slashed (names : list bytes) : bytes := flat_map (fun s => 47 :: s) names.
(* a segment of a path; where a path leads: a segment "." or "" stays, ".." goes up (RFC 3986 5.2.4) *)
Definition seg_ok (s : bytes) : Prop := ~ In 47 s /\ bytes_ok s.
Definition walk (here : list bytes) (s : bytes) : list bytes :=
  if beq s [] || beq s (bs ".") then here else if beq s (bs "..") then removelast here else here ++ [s].
Definition resolved (segs : list bytes) : list bytes := fold_left walk segs [].
