(* Models of the Go standard library text functions the code calls: strings, strconv, encoding/hex,
   encoding/base64, net/textproto.  Strings are byte lists. *)
From Verif Require Import Base.

(* ---- strconv.Itoa / FormatInt base 10 ---- *)
Fixpoint dec_digits (fuel : nat) (n : Z) (acc : bytes) : bytes :=
  match fuel with
  | O => acc
  | S f => let acc := 48 + n mod 10 :: acc in if n / 10 =? 0 then acc else dec_digits f (n / 10) acc
  end.
Definition digits (n : Z) : bytes := dec_digits (S (Z.to_nat (Z.log2 n))) n [].
Definition itoa (z : Z) : bytes := if z <? 0 then 45 :: digits (- z) else digits z.

(* ---- strconv.Atoi / ParseInt base 10, 64 bits ---- *)
(* value and error; a range error comes with the clamped value, a syntax error with 0.  As in ParseUint,
   digits are consumed left to right and overflow of 64 bits is reported before a later bad character. *)
Definition is_digit (c : Z) : bool := (48 <=? c) && (c <=? 57).
Inductive uint_res := UVal (n : Z) | URange | USyntax.
Fixpoint parse_digits (acc : Z) (s : bytes) : uint_res :=
  match s with
  | [] => UVal acc
  | c :: r => if is_digit c then
                let acc := acc * 10 + (c - 48) in
                if acc >? 2 ^ 64 - 1 then URange else parse_digits acc r
              else USyntax
  end.
Definition parse_uint (s : bytes) : uint_res := match s with [] => USyntax | _ => parse_digits 0 s end.
Definition atoi (s : bytes) : Z * option goerr :=
  let '(neg, u) := match s with
                   | c :: r => if c =? 45 then (true, parse_uint r)
                               else if c =? 43 then (false, parse_uint r) else (false, parse_uint s)
                   | [] => (false, USyntax)
                   end in
  match u with
  | USyntax => (0, Some ErrAtoiSyntax)
  | URange => (if neg : bool then - 2 ^ 63 else 2 ^ 63 - 1, Some ErrAtoiRange)
  | UVal n => if neg then if n >? 2 ^ 63 then (- 2 ^ 63, Some ErrAtoiRange) else (- n, None)
              else if n >=? 2 ^ 63 then (2 ^ 63 - 1, Some ErrAtoiRange) else (n, None)
  end.

(* ---- strings ---- *)
(* strings.Split with a one-byte separator: always at least one piece *)
Fixpoint split_on (c : Z) (s : bytes) : list bytes :=
  match s with
  | [] => [[]]
  | x :: r => if x =? c then [] :: split_on c r
              else match split_on c r with
                   | p :: ps => (x :: p) :: ps
                   | [] => [[x]]
                   end
  end.

(* position of the first c, as the two sides *)
Fixpoint cut (c : Z) (s : bytes) : option (bytes * bytes) :=
  match s with
  | [] => None
  | x :: r => if x =? c then Some ([], r)
              else match cut c r with Some (a, b) => Some (x :: a, b) | None => None end
  end.

(* strings.SplitN(s, c, 2) *)
Definition split2 (c : Z) (s : bytes) : list bytes :=
  match cut c s with Some (a, b) => [a; b] | None => [s] end.

Definition has_prefix (p s : bytes) : bool := beq (firstn (List.length p) s) p.

(* unicode.IsSpace, on the UTF-8 encodings: one, two and three byte forms *)
Definition sp1 (a : Z) : bool := ((9 <=? a) && (a <=? 13)) || (a =? 32).
Definition sp2 (a b : Z) : bool := (a =? 194) && ((b =? 133) || (b =? 160)).
Definition sp3 (a b c : Z) : bool :=
  ((a =? 225) && (b =? 154) && (c =? 128)) ||
  ((a =? 226) && (b =? 128) && (((128 <=? c) && (c <=? 138)) || (c =? 168) || (c =? 169) || (c =? 175))) ||
  ((a =? 226) && (b =? 129) && (c =? 159)) ||
  ((a =? 227) && (b =? 128) && (c =? 128)).
Fixpoint trim_left (s : bytes) : bytes :=
  match s with
  | [] => []
  | a :: r => if sp1 a then trim_left r else
      match r with
      | [] => s
      | b :: r2 => if sp2 a b then trim_left r2 else
          match r2 with
          | [] => s
          | c :: r3 => if sp3 a b c then trim_left r3 else s
          end
      end
  end.
(* the same from the end, on the reversed string *)
Fixpoint trim_rev (s : bytes) : bytes :=
  match s with
  | [] => []
  | a :: r => if sp1 a then trim_rev r else
      match r with
      | [] => s
      | b :: r2 => if sp2 b a then trim_rev r2 else
          match r2 with
          | [] => s
          | c :: r3 => if sp3 c b a then trim_rev r3 else s
          end
      end
  end.
(* strings.TrimSpace *)
Definition trim_space (s : bytes) : bytes := rev (trim_rev (rev (trim_left s))).

(* strings.Trim with a one-byte cutset *)
Fixpoint drop_byte (c : Z) (s : bytes) : bytes :=
  match s with [] => [] | x :: r => if x =? c then drop_byte c r else s end.
Definition trim_byte (c : Z) (s : bytes) : bytes := rev (drop_byte c (rev (drop_byte c s))).

(* strings.ToLower / ToUpper.  ASCII letters, and the non-ASCII runes whose image is ASCII (U+0130, U+212A
   to lower; U+0131, U+017F to upper).  Simplification: other non-ASCII bytes are left as they are. *)
Definition lower1 (c : Z) : Z := if (65 <=? c) && (c <=? 90) then c + 32 else c.
Definition upper1 (c : Z) : Z := if (97 <=? c) && (c <=? 122) then c - 32 else c.
Fixpoint to_lower (s : bytes) : bytes :=
  match s with
  | [] => []
  | a :: r =>
      match r with
      | b :: r2 =>
          if (a =? 196) && (b =? 176) then 105 :: to_lower r2 else
          match r2 with
          | c :: r3 => if (a =? 226) && (b =? 132) && (c =? 170) then 107 :: to_lower r3 else lower1 a :: to_lower r
          | [] => lower1 a :: to_lower r
          end
      | [] => lower1 a :: to_lower r
      end
  end.
Fixpoint to_upper (s : bytes) : bytes :=
  match s with
  | [] => []
  | a :: r =>
      match r with
      | b :: r2 =>
          if (a =? 196) && (b =? 177) then 73 :: to_upper r2 else
          if (a =? 197) && (b =? 191) then 83 :: to_upper r2 else upper1 a :: to_upper r
      | [] => upper1 a :: to_upper r
      end
  end.

(* ---- encoding/hex ---- *)
Definition hex_digit (n : Z) : Z := if n <? 10 then 48 + n else 87 + n.
Definition hex_encode (l : bytes) : bytes := flat_map (fun b => [hex_digit (b / 16); hex_digit (b mod 16)]) l.
Definition unhex (c : Z) : option Z :=
  if (48 <=? c) && (c <=? 57) then Some (c - 48)
  else if (97 <=? c) && (c <=? 102) then Some (c - 87)
  else if (65 <=? c) && (c <=? 70) then Some (c - 55) else None.
(* hex.DecodeString: the bytes decoded before the first error, and whether there was none *)
Fixpoint hex_decode (s : bytes) : bytes * bool :=
  match s with
  | [] => ([], true)
  | [_] => ([], false)
  | a :: b :: r => match unhex a, unhex b with
                   | Some x, Some y => let '(t, ok) := hex_decode r in (x * 16 + y :: t, ok)
                   | _, _ => ([], false)
                   end
  end.

(* ---- encoding/base64 StdEncoding ---- *)
Definition b64_char (n : Z) : Z :=
  if n <? 26 then 65 + n else if n <? 52 then 71 + n else if n <? 62 then n - 4 else if n =? 62 then 43 else 47.
Fixpoint b64_encode (l : bytes) : bytes :=
  match l with
  | [] => []
  | [a] => [b64_char (a / 4); b64_char (a mod 4 * 16); 61; 61]
  | [a; b] => [b64_char (a / 4); b64_char (a mod 4 * 16 + b / 16); b64_char (b mod 16 * 4); 61]
  | a :: b :: c :: r => b64_char (a / 4) :: b64_char (a mod 4 * 16 + b / 16)
                        :: b64_char (b mod 16 * 4 + c / 64) :: b64_char (c mod 64) :: b64_encode r
  end.
Definition b64_val (c : Z) : option Z :=
  if (65 <=? c) && (c <=? 90) then Some (c - 65)
  else if (97 <=? c) && (c <=? 122) then Some (c - 71)
  else if (48 <=? c) && (c <=? 57) then Some (c + 4)
  else if c =? 43 then Some 62 else if c =? 47 then Some 63 else None.
(* quanta of four characters; on an error the bytes of the complete quanta before it are returned, and text
   after a padded quantum is an error that keeps the quantum's bytes *)
Fixpoint b64_quanta (s : bytes) : bytes * bool :=
  match s with
  | [] => ([], true)
  | a :: b :: c :: d :: r =>
      match b64_val a, b64_val b with
      | Some x, Some y =>
          match b64_val c with
          | Some z =>
              match b64_val d with
              | Some w => let '(t, ok) := b64_quanta r in
                          (x * 4 + y / 16 :: y mod 16 * 16 + z / 4 :: z mod 4 * 64 + w :: t, ok)
              | None => if d =? 61 then ([x * 4 + y / 16; y mod 16 * 16 + z / 4], match r with [] => true | _ => false end)
                        else ([], false)
              end
          | None => if (c =? 61) && (d =? 61) then ([x * 4 + y / 16], match r with [] => true | _ => false end)
                    else ([], false)
          end
      | _, _ => ([], false)
      end
  | _ => ([], false)
  end.
(* StdEncoding.DecodeString: CR and LF are skipped wherever they occur *)
Definition b64_decode (s : bytes) : bytes * bool :=
  b64_quanta (filter (fun c => negb ((c =? 10) || (c =? 13))) s).

(* ---- net/textproto.CanonicalMIMEHeaderKey ---- *)
Definition token_byte (c : Z) : bool :=
  is_digit c || ((65 <=? c) && (c <=? 90)) || ((97 <=? c) && (c <=? 122)) ||
  existsb (Z.eqb c) [33; 35; 36; 37; 38; 39; 42; 43; 45; 46; 94; 95; 96; 124; 126].
Fixpoint canon (up : bool) (s : bytes) : bytes :=
  match s with
  | [] => []
  | c :: r => let c' := if up then upper1 c else lower1 c in c' :: canon (c' =? 45) r
  end.
Definition canonical_key (s : bytes) : bytes := if forallb token_byte s then canon true s else s.
