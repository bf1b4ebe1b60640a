(* Specification: header fields on several lines (RFC 2326 4.2 after RFC 2068 4.2): a line that begins with a blank or a tab continues the one
   before, and fields of one name stand for one field with the values in a list. *)
From Coq Require Import String.
From Verif Require Import Base GoStrings S_message.

Definition white (s : bytes) : Prop := s <> [] /\ Forall (fun c => c = 32 \/ c = 9) s.
(* a field and the lines that continue it, each with the white space it begins with *)
Record lfield := mkLong { l_first : sfield; l_more : list (bytes * bytes) }.
Definition more_ok (m : bytes * bytes) : Prop := white (fst m) /\ snd m <> [] /\ line_text (snd m) /\ trim_space (snd m) = snd m.
Definition lfield_ok (f : lfield) : Prop := sfield_ok (l_first f) /\ Forall more_ok (l_more f).
Definition lfield_text (f : lfield) : bytes := sfield_text (l_first f) ++ flat_map (fun m => fst m ++ snd m ++ [13; 10]) (l_more f).
(* the same field on one line *)
Definition unfolded (f : lfield) : sfield := mkField (f_name (l_first f)) (f_blank (l_first f)) (f_value (l_first f) ++ flat_map (fun m => 32 :: snd m) (l_more f)).
Definition status_text (code : Z) (reason : bytes) : bytes := bs "RTSP/1.0" ++ 32 :: itoa code ++ 32 :: reason ++ [13; 10].
Definition long_response (code : Z) (reason : bytes) (fields : list lfield) (body : bytes) : bytes :=
  status_text code reason ++ flat_map lfield_text fields ++ [13; 10] ++ body.
(* the values of all the fields of one name, and the list of them *)
Definition values (fields : list sfield) (k : bytes) : list bytes := map f_value (filter (fun f => same_name k (f_name f)) fields).
Definition listed (vs : list bytes) : bytes := match vs with [] => [] | v :: r => v ++ flat_map (fun x => bs ", " ++ x) r end.
