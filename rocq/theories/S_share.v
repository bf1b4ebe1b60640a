(* What is seen of a sink in memory: the lists and their units with the bytes as they read now. *)
From Verif Require Import Base S_nal M_nal M_share.

Definition unit_now (m : mem) (u : hunit) : nal_unit :=
  mkUnit (hu_header u) (hu_don u) (hu_ts u) (firstn (sl_len (hu_data u)) (skipn (sl_off (hu_data u)) (nth (sl_at (hu_data u)) (m_bytes m) []))).
Definition frag_now (m : mem) (f : hfrag) : fragment := mkFrag (unit_now m (hf_unit f)) (hf_flags f).
(* a kept list of units, and one unit kept *)
Definition list_now (m : mem) (s : lslice) : list nal_unit := map (unit_now m) (firstn (snd s) (nth (fst s) (m_units m) [])).
Definition frags_now (m : mem) (s : lslice) : list fragment := map (frag_now m) (firstn (snd s) (nth (fst s) (m_frags m) [])).
Definition sink_now (st : hstate) : sink :=
  mkSink (list_now (fst st) (k_units (snd st))) (frags_now (fst st) (k_frags (snd st))) (k_don (snd st)).

(* a program starts with no memory in use but the sink's *)
Definition boot : hstate * list nat := (h_new (mkMem [] [] []), []).
Definition hrun (slack : nat -> nat) (c : hstate * list nat) (ops : list hop) : hstate * list nat := fold_left (hstep slack) ops c.

(* the packets a history pushes, with the bytes they had at the time: the caller's buffers by address *)
Fixpoint pushes (slack : nat -> nat) (c : hstate * list nat) (ops : list hop) : list (bytes * Z) :=
  match ops with
  | [] => []
  | op :: r =>
      match op with
      | Pushed a off len ts =>
          let arr := nth a (m_bytes (fst (fst c))) [] in
          if existsb (Nat.eqb a) (snd c) && (off + len <=? length arr)%nat then [(firstn len (skipn off arr), ts)] else []
      | _ => []
      end ++ pushes slack (hstep slack c op) r
  end.
