(* Specification: the fragments among the payloads of a stream (RFC 6184 5.8). *)
From Verif Require Import Base S_nal.

(* the S bit, the E bit and the fragment, if the payload is one *)
Definition fu_of (p : bytes) : list (bool * bool * bytes) :=
  match p with
  | i :: f :: rest =>
      if nal_type i =? 28 then [(128 <=? f, 64 <=? f mod 128, rest)]
      else if (nal_type i =? 29) && (2 <=? zlen rest) then [(128 <=? f, 64 <=? f mod 128, skipn 2 rest)]
      else []
  | _ => []
  end.
