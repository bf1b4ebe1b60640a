(* Specification: texts that are not URLs, and hosts with a zone (RFC 6874). *)
From Coq Require Import String.
From Verif Require Import Base S_url.

(* scheme, authority, path and query *)
Definition located (sch auth path : bytes) (q : option bytes) : bytes := sch ++ bs "://" ++ auth ++ path ++ query_text q.
(* bytes that do not end an authority, nor make the whole no URL *)
Definition auth_char (c : Z) : Prop := 32 < c < 127 /\ ~ In c (bs "/?#").
(* a percent sign that two hexadecimal digits do not follow *)
Definition bad_percent (s : bytes) : Prop :=
  exists a r, s = a ++ 37 :: r /\ ~ In 37 a /\ ~ (exists x y t u v, r = x :: y :: t /\ hexit x u /\ hexit y v).
(* an IPv6 address with a zone *)
Definition zone_ok (z : bytes) : Prop := Forall unreserved z.
(* an encoded byte that a zone cannot stand for *)
Definition zone_stray (v : Z) : Prop := ~ unreserved v /\ ~ In v (bs "!$&'()*+,;=:[]<>""") /\ v <> 37 /\ v <> 32.
(* a host name written t, that stands for v and is written w in requests: encoded are the bytes outside ASCII and the percent sign (RFC 3986 3.2.2) *)
Definition hexup (n : Z) : Z := if n <? 10 then 48 + n else 55 + n.
Inductive host_name : bytes -> bytes -> bytes -> Prop :=
| hn_nil : host_name [] [] []
| hn_lit c t v w : unreserved c \/ sub_delim c -> host_name t v w -> host_name (c :: t) (c :: v) (c :: w)
| hn_hex a b x y t v w : hexit a x -> hexit b y -> 128 <= x * 16 + y \/ x * 16 + y = 37 -> host_name t v w ->
    host_name (37 :: a :: b :: t) (x * 16 + y :: v) (37 :: hexup x :: hexup y :: w).
(* k directories up *)
Fixpoint ups (k : nat) : bytes := match k with O => [] | S k => bs "../" ++ ups k end.
(* where a path leads that starts from here: "." and "" stay, ".." goes up, and beyond the start it stays as it is (RFC 3986 5.2.4) *)
Definition wander (here : list bytes) (s : bytes) : list bytes :=
  if beq s [] || beq s (bs ".") then here
  else if beq s (bs "..") then (if forallb (beq (bs "..")) here then here ++ [s] else removelast here) else here ++ [s].
Definition wandered (segs : list bytes) : list bytes := fold_left wander segs [].
Definition joined (names : list bytes) : bytes := match names with [] => [] | s :: r => s ++ slashed r end.
(* a colon before the first slash: such a text would be taken for one with a scheme (RFC 3986 4.2) *)
Definition colon_first (p : bytes) : Prop := exists a b, p = a ++ 58 :: b /\ ~ In 47 a.
