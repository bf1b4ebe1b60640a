(* C112: authorizations asked for by several goroutines. *)
From Coq Require Import String.
From Verif Require Import Base GoStrings S_digest M_digest M_hash S_hash L_base L_hash.

(* As long as nobody begins a call while another goroutine is in one, the texts are those of the same calls made in that order by
   one goroutine. *)
Theorem C112_one_by_one_partial : forall (g : hashing) (schedule : list nat) (auth : bytes),
  d_basic (g_d g) = false -> at_rest g -> g_out g = [] -> one_by_one g schedule ->
  map (fun o => auth ++ snd o) (g_out (hash_run g schedule)) =
  calls auth (g_d g) (map (fun o => Call (fst (snd (fst o))) (snd (snd (fst o)))) (g_out (hash_run g schedule))).
Proof. intros g sch auth. apply one_by_one_calls. Qed.
Print Assumptions C112_one_by_one_partial.

(* In every order of steps, without MD5-sess, each text is right for a method that some goroutine asked for: so all are right
   when all ask for the same. *)
Theorem C112_some_method_partial : forall (g : hashing) (schedule : list nat) (i : nat) (a : ask) (text : bytes),
  d_qop (g_d g) = [] \/ d_algorithm (g_d g) <> bs "md5-sess" -> at_rest g -> g_out g = [] ->
  In (i, a, text) (g_out (hash_run g schedule)) ->
  (exists j, In a (g_todo g j)) /\ exists b j, In b (g_todo g j) /\ text = snd (digest_response (g_d g) (fst b) (snd b)).
Proof. intros g sch i a text Q R O. apply mixed; assumption. Qed.
Print Assumptions C112_some_method_partial.

(* But not for the method of the request that carries it: whatever two requests are made at the same time, the one can get the
   authorization of the other. *)
Theorem C112_crossed_refuted : forall (d : digest) (a b : ask), d_qop d = [] \/ d_algorithm d <> bs "md5-sess" ->
  exists schedule : list nat,
  g_out (hash_run (mkH d (fun _ => HIdle) (fun i => match i with 0%nat => [a] | 1%nat => [b] | _ => [] end) []) schedule) =
  [(0%nat, a, snd (digest_response d (fst b) (snd b))); (1%nat, b, snd (digest_response d (fst b) (snd b)))].
Proof. intros d a b Q. exists [0; 1; 0; 0; 1; 1]%nat. exact (crossed d a b [] Q). Qed.
Print Assumptions C112_crossed_refuted.

(* PLAY and GET_PARAMETER: in turn, and at the same time *)
Example C112_case :
  let d := mkDigest false (bs "u") (bs "r") [] (bs "n") [] [] (bs "md5") [] [] (bs "rtsp://h/s") (bs "k") [] [] 0 in
  let g := mkH d (fun _ => HIdle) (fun i => match i with 0%nat => [(bs "PLAY", [])] | 1%nat => [(bs "GET_PARAMETER", [])] | _ => [] end) [] in
  let right v := snd (digest_response d (bs v) []) in
  one_by_one g [0; 0; 0; 1; 1; 1]%nat /\
  g_out (hash_run g [0; 0; 0; 1; 1; 1]%nat) = [(0%nat, (bs "PLAY", []), right "PLAY"%string); (1%nat, (bs "GET_PARAMETER", []), right "GET_PARAMETER"%string)] /\
  right "PLAY"%string <> right "GET_PARAMETER"%string.
Proof.
  cbv zeta. splits; [|vm_compute; reflexivity|vm_compute; discriminate]. cbn [one_by_one].
  repeat split; try (intros E; vm_compute in E; discriminate E); intros _ j; destruct j as [|[|j]]; vm_compute; reflexivity.
Qed.
