(* Specification: lines of a session description that are of no use to a receiver of video (RFC 4566 5, 5.13: unknown attributes are ignored). *)
From Coq Require Import String.
From Verif Require Import Base GoStrings.

(* an attribute of another name, in whose text nothing looks like a clock rate, a list of parameters or one of the two attributes *)
Definition idle_attribute (v : bytes) : Prop :=
  ~ In 47 v /\ ~ In 59 v /\
  forall x, v <> bs "control:" ++ x /\ v <> bs "rtpmap:" ++ x /\ forall a, v <> a ++ bs " control:" ++ x /\ v <> a ++ bs " rtpmap:" ++ x.
(* up to surrounding white space: neither a media line nor an attribute, or an attribute as above *)
Definition idle (l : bytes) : Prop :=
  (forall v, trim_space l <> bs "m=" ++ v) /\ (forall v, trim_space l = bs "a=" ++ v -> idle_attribute v).

(* the same lines, and idle ones among them *)
Inductive padded : list bytes -> list bytes -> Prop :=
| pd_end : padded [] []
| pd_same l a b : padded a b -> padded (l :: a) (l :: b)
| pd_more l a b : idle l -> padded a b -> padded a (l :: b).
