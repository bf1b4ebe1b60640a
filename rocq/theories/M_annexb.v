(* Model of /repo/net/h264/annexb.go *)
From Verif Require Import Base.

(* annexb.go:36-51  EBSPToRaw; the loop over off is recursion on the suffix buf[off:] *)
Fixpoint ebsp_to_raw (buf : bytes) : bytes :=
  match buf with
  | [] => []
  | a :: r =>
      match r with
      | b :: c :: r3 => if (a =? 0) && (b =? 0) && (c =? 3) then 0 :: 0 :: ebsp_to_raw r3
                        else a :: ebsp_to_raw r
      | _ => a :: ebsp_to_raw r
      end
  end.

(* annexb.go:55-70  RBSPToEncapsulated; recursion on the suffix buf[off:].  The guard requires only
   two bytes (size-off >= 2) before reading the third, so a suffix 00 00 is an out-of-range access. *)
Fixpoint rbsp_to_encapsulated (buf : bytes) : res bytes :=
  match buf with
  | [] => Ok []
  | a :: r =>
      match r with
      | b :: r2 =>
          if (a =? 0) && (b =? 0) then
            match r2 with
            | [] => Panic                                        (* buf[off+2] out of range *)
            | c :: r3 =>
                if c <=? 3 then
                  let! t := rbsp_to_encapsulated r3 in Ok (0 :: 0 :: 3 :: c :: t)
                else let! t := rbsp_to_encapsulated r in Ok (a :: t)
            end
          else let! t := rbsp_to_encapsulated r in Ok (a :: t)
      | [] => let! t := rbsp_to_encapsulated r in Ok (a :: t)
      end
  end.

(* annexb.go:11-29  the scanning loop of SplitAnnexB, with indices as in the source.  len < 2^63 so
   int does not wrap.  [units] is kept in order.  Every iteration advances off; fuel is len(buf). *)
Fixpoint split_loop (fuel : nat) (buf : bytes) (stop off prev : Z) (units : list bytes)
  : res (Z * list bytes) :=
  if off <? stop then
    match fuel with
    | O => Fuel
    | S f =>
        let! c := index buf (Z.to_nat (off + 2)) in
        if c >? 1 then split_loop f buf stop (off + 3) prev units
        else
          let! b := index buf (Z.to_nat (off + 1)) in
          let! a := index buf (Z.to_nat off) in
          if (c =? 1) && (b =? 0) && (a =? 0) then
            let! z := (if off >? 0 then let! p := index buf (Z.to_nat (off - 1)) in Ok (p =? 0)
                       else Ok false) in
            let! units :=
              (if (z : bool) then
                 if off >? prev + 1 then
                   let! s := slice buf (Z.to_nat prev) (Z.to_nat (off - 1)) in Ok (units ++ [ebsp_to_raw s])
                 else Ok units
               else if off >? prev then
                 let! s := slice buf (Z.to_nat prev) (Z.to_nat off) in Ok (units ++ [ebsp_to_raw s])
               else Ok units) in
            split_loop f buf stop (off + 3) (off + 3) units
          else split_loop f buf stop (off + 1) prev units
    end
  else Ok (prev, units).

(* annexb.go:7-32  SplitAnnexB *)
Definition split_annexb (buf : bytes) : res (list bytes) :=
  let! '(prev, units) := split_loop (length buf) buf (zlen buf - 3) 0 0 [] in
  let! s := slice_from buf (Z.to_nat prev) in
  Ok (units ++ [ebsp_to_raw s]).
