(* Specification: how a server reads the Authorization field.  RFC 2617 3.2.2 (the parameters of a digest response),
   RFC 2616 2.2 (tokens, quoted strings: the string ends at the first quote that is not escaped, a backslash makes the
   next character an ordinary one), RFC 2617 2 (basic: the name ends at the first colon). *)
From Coq Require Import String.
From Verif Require Import Base GoStrings S_digest.

(* what is read after the opening quote: the string and the text behind the closing quote *)
Fixpoint string_text (s : bytes) : option (bytes * bytes) :=
  match s with
  | [] => None
  | c :: r =>
    if c =? 34 then Some ([], r)
    else if c =? 92 then
      match r with
      | [] => None
      | e :: r' => match string_text r' with Some (v, t) => Some (e :: v, t) | None => None end
      end
    else match string_text r with Some (v, t) => Some (c :: v, t) | None => None end
  end.
(* a token, here: up to a comma or a blank *)
Fixpoint token_text (s : bytes) : bytes * bytes :=
  match s with
  | [] => ([], [])
  | c :: r => if (c =? 44) || (c =? 32) then ([], s) else let '(v, t) := token_text r in (c :: v, t)
  end.
(* up to a character, which is left out *)
Fixpoint up_to (x : Z) (s : bytes) : option (bytes * bytes) :=
  match s with
  | [] => None
  | c :: r => if c =? x then Some ([], r) else match up_to x r with Some (v, t) => Some (c :: v, t) | None => None end
  end.
Fixpoint no_blanks (s : bytes) : bytes := match s with c :: r => if c =? 32 then no_blanks r else s | [] => [] end.

(* a parameter: its name, whether its value was written in quotes, its value *)
Record aparam := mkAParam { ap_name : bytes; ap_quoted : bool; ap_value : bytes }.
Fixpoint auth_params (n : nat) (s : bytes) : option (list aparam) :=
  match n with
  | O => None
  | S n' =>
    match up_to 61 (no_blanks s) with
    | None => None
    | Some (name, r) =>
      match (match r with
             | 34 :: q => match string_text q with Some (v, t) => Some (true, v, t) | None => None end
             | _ => let '(v, t) := token_text r in Some (false, v, t)
             end) with
      | None => None
      | Some (q, v, t) =>
        match no_blanks t with
        | [] => Some [mkAParam name q v]
        | c :: t' => if c =? 44 then match auth_params n' t' with Some l => Some (mkAParam name q v :: l) | None => None end
                     else None
        end
      end
    end
  end.
Definition auth_read (s : bytes) : option (list aparam) :=
  if has_prefix (bs "Digest ") s then auth_params (length s) (skipn 7 s) else None.
(* the value of a parameter *)
Fixpoint auth_value (name : bytes) (l : list aparam) : option bytes :=
  match l with [] => None | p :: r => if beq (ap_name p) name then Some (ap_value p) else auth_value name r end.

(* basic: name and password *)
Definition basic_read (s : bytes) : option (bytes * bytes) :=
  if has_prefix (bs "Basic ") s then
    match b64_decode (skipn 6 s) with (t, true) => up_to 58 t | _ => None end
  else None.

(* no quote and no backslash *)
Definition unescaped (s : bytes) : Prop := ~ In 34 s /\ ~ In 92 s.
Fixpoint renewals_ok (ops : list dop) : Prop :=
  match ops with [] => True | Renew rnd :: r => bytes_ok rnd /\ renewals_ok r | Call _ _ :: r => renewals_ok r end.

(* what the field should say of a request: the values of the challenge, the user and the address *)
Definition says (c : chal) (uri user : bytes) (l : list aparam) : Prop :=
  auth_value (bs "username") l = Some user /\ auth_value (bs "realm") l = Some (c_realm c) /\
  auth_value (bs "nonce") l = Some (c_nonce c) /\ auth_value (bs "uri") l = Some uri /\
  auth_value (bs "algorithm") l = Some (c_algorithm c) /\
  auth_value (bs "opaque") l = (match c_opaque c with [] => None | o => Some o end) /\
  auth_value (bs "qop") l = (match c_qop c with [] => None | q => Some q end) /\
  (exists r, auth_value (bs "response") l = Some r /\ length r = 32%nat) /\
  match c_qop c with
  | [] => auth_value (bs "nc") l = None /\ auth_value (bs "cnonce") l = None
  | _ => (exists nc, auth_value (bs "nc") l = Some nc /\ length nc = 8%nat) /\ (exists cn, auth_value (bs "cnonce") l = Some cn)
  end.

(* RFC 2617 3.2.2: the parameters written as tokens; the others are quoted strings *)
Definition token_params : list bytes := [bs "algorithm"; bs "qop"; bs "nc"; bs "stale"].
Definition in_form (l : list aparam) : Prop :=
  Forall (fun p => ap_quoted p = negb (existsb (beq (ap_name p)) token_params)) l.
