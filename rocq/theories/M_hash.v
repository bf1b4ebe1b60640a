(* Model of concurrent calls of one authentication closure: digest.go:145-170 response, step by step.

   The closure of a session (digest.go:128-130, called by session.go:97 and 238) keeps one Digest for all goroutines.  Of its
   fields only ha2 and ha1 change after Authenticate, and each load or store of them is one step; everything else is local or
   constant.  Steps of different goroutines interleave in any order (sequential consistency; a string is loaded and stored
   whole, though in Go it is two words). *)
From Coq Require Import String.
From Verif Require Import Base GoStrings S_md5 S_digest M_digest M_race.

(* a call: verb and body *)
Definition ask := (bytes * bytes)%type.

(* digest.go:146-150  the value for ha2 *)
Definition hash2 (d : digest) (a : ask) : bytes :=
  if beq (d_qop d) (bs "auth-int") then md5hex (colonnade (fst a) [d_uri d; md5hex (snd a)]) else md5hex (colonnade (fst a) [d_uri d]).
(* digest.go:151-169  the text for given ha1 and ha2 *)
Definition hash_text (d : digest) (h1 h2 : bytes) : bytes :=
  if beq (d_qop d) [] then bs ", response=""" ++ md5hex (colonnade h1 [d_nonce d; h2]) ++ bs """"
  else bs ", qop=""" ++ d_qop d ++ bs """, nc=" ++ d_nc d ++ bs ", cnonce=""" ++ d_cnonce d ++ bs """, response=""" ++
       md5hex (colonnade h1 [d_nonce d; d_nc d; d_cnonce d; d_qop d; h2]) ++ bs """".
Definition keep1 (d : digest) (h : bytes) : digest :=
  let '(mkDigest ba us re dm no op st al cn qo ur _ h2 nc ct) := d in mkDigest ba us re dm no op st al cn qo ur h h2 nc ct.
Definition keep2 (d : digest) (h : bytes) : digest :=
  let '(mkDigest ba us re dm no op st al cn qo ur h1 _ nc ct) := d in mkDigest ba us re dm no op st al cn qo ur h1 h nc ct.

(* where a goroutine is: between calls; ha2 stored; ha1 loaded to be replaced; ha1 replaced; ha1 loaded for the response *)
Inductive hpoint := HIdle | HKept (a : ask) | HTook (a : ask) (h : bytes) | HSess (a : ask) | HLast (a : ask) (h : bytes).
Record hashing := mkH { g_d : digest; g_at : nat -> hpoint; g_todo : nat -> list ask; g_out : list (nat * ask * bytes) }.

Definition hash_step (g : hashing) (i : nat) : hashing :=
  let d := g_d g in
  match g_at g i with
  | HIdle =>
      match g_todo g i with
      | [] => g
      | a :: rest => mkH (keep2 d (hash2 d a)) (at_set (g_at g) i (HKept a)) (at_set (g_todo g) i rest) (g_out g)   (* 146-150 *)
      end
  | HKept a =>
      if negb (beq (d_qop d) []) && beq (d_algorithm d) (bs "md5-sess")                                            (* 152, 156 *)
      then mkH d (at_set (g_at g) i (HTook a (d_ha1 d))) (g_todo g) (g_out g)                                       (* 157, load *)
      else mkH d (at_set (g_at g) i (HLast a (d_ha1 d))) (g_todo g) (g_out g)                                       (* 154 or 166 *)
  | HTook a h => mkH (keep1 d (md5hex (colonnade h [d_nonce d; d_cnonce d]))) (at_set (g_at g) i (HSess a)) (g_todo g) (g_out g)   (* 157 *)
  | HSess a => mkH d (at_set (g_at g) i (HLast a (d_ha1 d))) (g_todo g) (g_out g)                                   (* 166 *)
  | HLast a h => mkH d (at_set (g_at g) i HIdle) (g_todo g) (g_out g ++ [(i, a, hash_text d h (d_ha2 d))])          (* 154 or 166, to 169 *)
  end.
Definition hash_run (g : hashing) (schedule : list nat) : hashing := fold_left hash_step schedule g.
