(* Model of concurrent commands: session.go:88-109 command and 70-76 enqueue, step by step.

   Any number of goroutines issue commands on one session (the application's, and the session's own loop, which
   sends DESCRIBE, SETUP and keep-alives).  s.cseq++ is a load and a store outside the lock; enqueue is one step, since
   it holds the lock and reads s.cseq once; Pack and Write are one step, on a request no one else holds (unless it is answered
   before it is written: M_access.v).
   Steps of different goroutines interleave in any order (sequential consistency: the Go memory model allows more for
   racing accesses, so what can go wrong here can go wrong there). *)
From Coq Require Import String.
From Verif Require Import Base GoStrings M_conn M_message M_session.

(* a command to issue: verb, uri, headers *)
Definition order := (bytes * bytes * header)%type.

(* where a goroutine is: between commands; cseq loaded; cseq stored; enqueued *)
Inductive point := Idle | Loaded (r : request) (t : Z) | Stored (r : request) | Queued (r : request).

Record racing := mkR { r_w : world; r_at : nat -> point; r_todo : nat -> list order }.
Definition at_set {A} (f : nat -> A) (i : nat) (x : A) : nat -> A := fun j => if Nat.eqb j i then x else f j.

Definition race_step (x : racing) (i : nat) : racing :=
  let w := r_w x in
  match r_at x i with
  | Idle =>
      match r_todo x i with
      | [] => x
      | (verb, uri, headers) :: rest =>                                      (* session.go:92-98, and the load of 99 *)
          let h := fold_left (fun h e => header_set h (fst e) (snd e)) headers [] in
          let '(s, auth) := call_auth (w_s w) verb in
          mkR (upd_s w (fun _ => s)) (at_set (r_at x) i (Loaded (mkReq verb 0 uri auth [] h) (s_cseq s))) (at_set (r_todo x) i rest)
      end
  | Loaded r t => mkR (upd_s w (fun s => set_cseq s (i64 (t + 1)))) (at_set (r_at x) i (Stored r)) (r_todo x)     (* 99, store *)
  | Stored r => let '(s, r') := enqueue (w_s w) r in                           (* 100 *)
                mkR (upd_s w (fun _ => s)) (at_set (r_at x) i (Queued r')) (r_todo x)
  | Queued r => mkR (fst (write w false r)) (at_set (r_at x) i Idle) (r_todo x)  (* 101-108 *)
  end.
Definition race (x : racing) (schedule : list nat) : racing := fold_left race_step schedule x.
