(* Specification: what a base64 or hexadecimal text stands for, and what is left of one that is damaged (property C162). *)
From Coq Require Import String.
From Verif Require Import Base GoStrings S_sdp.

(* RFC 4648 4: the alphabet, a letter standing for its place *)
Definition alphabet64 : bytes := bs "ABCDEFGHIJKLMNOPQRSTUVWXYZabcdefghijklmnopqrstuvwxyz0123456789+/".
Definition letter64 (c x : Z) : Prop := 0 <= x /\ nth_error alphabet64 (Z.to_nat x) = Some c.

(* the text, and the bytes it stands for: four letters are the 24 bits of three bytes; the last four may be three letters and = for two
   bytes, or two letters and == for one, the bits left over being of no matter *)
Inductive spells64 : bytes -> bytes -> Prop :=
| sp_none : spells64 [] []
| sp_four a b c d x y z w i j k p t : letter64 a x -> letter64 b y -> letter64 c z -> letter64 d w -> byte_ok i -> byte_ok j -> byte_ok k ->
    x * 2 ^ 18 + y * 2 ^ 12 + z * 2 ^ 6 + w = i * 2 ^ 16 + j * 2 ^ 8 + k -> spells64 p t -> spells64 (a :: b :: c :: d :: p) (i :: j :: k :: t)
| sp_three a b c x y z i j e : letter64 a x -> letter64 b y -> letter64 c z -> byte_ok i -> byte_ok j -> 0 <= e < 2 ^ 2 ->
    x * 2 ^ 12 + y * 2 ^ 6 + z = (i * 2 ^ 8 + j) * 2 ^ 2 + e -> spells64 [a; b; c; 61] [i; j]
| sp_two a b x y i e : letter64 a x -> letter64 b y -> byte_ok i -> 0 <= e < 2 ^ 4 -> x * 2 ^ 6 + y = i * 2 ^ 4 + e -> spells64 [a; b; 61; 61] [i].

(* a text without its line breaks *)
Definition unbroken (t : bytes) : bytes := filter (fun c => negb ((c =? 10) || (c =? 13))) t.
(* the text stands for the bytes *)
Definition means64 (t x : bytes) : Prop := spells64 (unbroken t) x.
(* the bytes are what the beginning of the text stands for, as far as it goes: the text behind is not as good as empty for the reason that
   its first four characters stand for nothing, or there are not four, or those before were the last ones *)
Definition salvaged64 (t x : bytes) : Prop := exists p r, unbroken t = p ++ r /\ spells64 p x /\
  (r = [] \/ last p 0 = 61 \/ forall q r', r = q ++ r' -> length q = 4%nat -> forall y, ~ spells64 q y).

(* two hexadecimal digits a byte *)
Definition digit16 (c x : Z) : Prop := 0 <= x /\ (nth_error (bs "0123456789abcdef") (Z.to_nat x) = Some c \/ nth_error (bs "0123456789ABCDEF") (Z.to_nat x) = Some c).
Inductive spells16 : bytes -> bytes -> Prop :=
| sx_none : spells16 [] []
| sx_two a b x y p t : digit16 a x -> digit16 b y -> spells16 p t -> spells16 (a :: b :: p) (x * 16 + y :: t).
Definition salvaged16 (t x : bytes) : Prop := exists p r, t = p ++ r /\ spells16 p x /\
  (r = [] \/ forall q r', r = q ++ r' -> length q = 2%nat -> forall y, ~ spells16 q y).

(* the parameters of an fmtp attribute as they are written: blanks, name, value, with semicolons between *)
Definition written : Type := bytes * bytes * bytes.
Definition w_name (p : written) : bytes := snd (fst p).
Definition w_value (p : written) : bytes := snd p.
Definition written_ok (p : written) : Prop :=
  blanks (fst (fst p)) /\ ~ In 61 (w_name p) /\ ~ In 59 (w_name p) /\ ~ In 59 (w_value p) /\ trim_space (w_name p) = w_name p.
Fixpoint written_text (ps : list written) : bytes :=
  match ps with
  | [] => []
  | [(b, n, v)] => b ++ n ++ 61 :: v
  | (b, n, v) :: r => b ++ n ++ 61 :: v ++ 59 :: written_text r
  end.
(* the texts, between commas, of the parameter sets *)
Definition set_texts (ps : list written) : list bytes :=
  flat_map (fun p => if beq (w_name p) (bs "sprop-parameter-sets") then split_on 44 (w_value p) else []) ps.
