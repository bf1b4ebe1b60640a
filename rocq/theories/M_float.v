(* Model of strconv.FormatFloat(x, 'f', -1, 64), called at /repo/net/hls/playlist.go:73.  It follows the Go standard library
   (strconv/ftoa.go, strconv/decimal.go): genericFtoa with the shortest number of digits, computed as roundShortest does.  The library uses
   the Ryu algorithm instead for speed (ryuFtoaShortest, since Go 1.17; Grisu3 before); its tests compare the two.

   The type decimal of the library, digits and the place of the point, is a number here, in units of 10^-s with s large enough for d, upper
   and lower: the digit of weight w is (x / 10^w) mod 10, and d.nd, upper.nd and lower.nd are where the last digit that is not zero is. *)
From Coq Require Import String.
From Verif Require Import Base GoStrings.

(* the parts of the bit pattern of a float64 *)
Definition f_neg (b : Z) : bool := b / 2 ^ 63 =? 1.
Definition f_exp (b : Z) : Z := (b / 2 ^ 52) mod 2 ^ 11.
Definition f_frac (b : Z) : Z := b mod 2 ^ 52.

(* x * 2^k in units of 10^-s (decimal.Assign, decimal.Shift); -k <= s, so that the division is exact *)
Definition scaled (s x k : Z) : Z := if 0 <=? k then x * 2 ^ k * 10 ^ s else x * 10 ^ s / 2 ^ (- k).

(* decimal zeros at the end of a number that is not zero *)
Fixpoint zeros (fuel : nat) (n : Z) : Z :=
  match fuel with O => 0 | S f => if n mod 10 =? 0 then 1 + zeros f (n / 10) else 0 end.
Definition end_zeros (n : Z) : Z := zeros (S (Z.to_nat (Z.log2 n))) n.

(* decimal.RoundDown, RoundUp, Round (half to even, decimal.go shouldRoundUp) to the digits of weight w and more.  RoundUp leaves a number
   without further digits as it is; the loop below does not come to that, since lower, being less than d, differs from it by then. *)
Definition round_down (d w : Z) : Z := d / 10 ^ w * 10 ^ w.
Definition round_up (d w : Z) : Z := (d / 10 ^ w + 1) * 10 ^ w.
Definition round_near (d w : Z) : Z :=
  let rest := 2 * (d mod 10 ^ w) in
  if (rest =? 10 ^ w) && Z.even (d / 10 ^ w) then round_down d w
  else if 10 ^ w <=? rest then round_up d w else round_down d w.

(* the loop of roundShortest, at the digits of weight w; [delta] is upperdelta *)
Fixpoint walk (w : nat) (inclusive : bool) (lower d upper delta : Z) : Z :=
  let W := Z.of_nat w in
  if d mod 10 ^ (W + 1) =? 0 then d                                                  (* mi >= d.nd *)
  else
    let l := lower / 10 ^ W mod 10 in let m := d / 10 ^ W mod 10 in let u := upper / 10 ^ W mod 10 in
    let okdown := negb (l =? m) || inclusive && ((lower mod 10 ^ W =? 0) && negb (l =? 0)) in
    let delta := if (delta =? 0) && (m + 1 <? u) then 2
                 else if (delta =? 0) && negb (m =? u) then 1
                 else if (delta =? 1) && (negb (m =? 9) || negb (u =? 0)) then 2 else delta in
    let okup := (0 <? delta) && (inclusive || (1 <? delta) || negb (upper mod 10 ^ W =? 0)) in
    if okdown && okup then round_near d W
    else if okdown then round_down d W
    else if okup then round_up d W
    else match w with O => d | S w' => walk w' inclusive lower d upper delta end.

(* ftoa.go roundShortest, for mant not zero *)
Definition shortest (s mant exp : Z) : Z :=
  let d := scaled s mant (exp - 52) in
  if (-1022 <? exp) && (100 * (exp - 52) <=? 332 * (end_zeros d - s)) then d
  else
    let upper := scaled s (mant * 2 + 1) (exp - 53) in
    let '(mantlo, explo) := if (2 ^ 52 <? mant) || (exp =? -1022) then (mant - 1, exp) else (mant * 2 - 1, exp - 1) in
    let lower := scaled s (mantlo * 2 + 1) (explo - 53) in
    walk (length (digits upper) - 1) (mant mod 2 =? 0) lower d upper 0.

(* ftoa.go fmtF with as many digits after the point as there are: r * 10^-s *)
Definition fixed (r s : Z) : bytes :=
  if r =? 0 then bs "0"
  else
    let prec := Z.max 0 (s - end_zeros r) in
    itoa (r / 10 ^ s) ++
    (if 0 <? prec then
       let f := digits (r mod 10 ^ s / 10 ^ (s - prec)) in bs "." ++ repeat 48 (Z.to_nat prec - length f) ++ f
     else []).

(* ftoa.go genericFtoa, fmt 'f', prec -1, bitSize 64, on the bit pattern *)
Definition format_float (b : Z) : bytes :=
  if f_exp b =? 2047 then
    if negb (f_frac b =? 0) then bs "NaN" else if f_neg b then bs "-Inf" else bs "+Inf"
  else
    let '(mant, exp) := if f_exp b =? 0 then (f_frac b, -1022) else (f_frac b + 2 ^ 52, f_exp b - 1023) in
    let s := Z.max 0 (54 - exp) in
    (if f_neg b then bs "-" else []) ++ (if mant =? 0 then bs "0" else fixed (shortest s mant exp) s).
