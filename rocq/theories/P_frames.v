(* Properties C55-C57: interleaved data and responses on one connection. *)
From Coq Require Import String.
From Verif Require Import Base GoStrings M_conn S_message M_message M_transport M_session S_session L_frames.

(* C55  whatever commands the application issues meanwhile, the items on the connection are taken one per turn of the
   loop, in order, and each is heard of exactly once: frames with their channel and payload, responses as sent *)
Theorem C55_interleaving : forall (items : list item) (rest : stream) (w : world) (es : list event) (w' : world) (l' : life),
  Forall item_ok items -> (turns es <= length items)%nat ->
  w_in w = flat_map item_stream items ++ rest ->
  run (w, Live) es = (w', l') ->
  exists j effs, (j <= turns es)%nat /\ w_in w' = flat_map item_stream (skipn j items) ++ rest /\
    heard_all (firstn j items) effs /\ incoming (w_log w') = incoming (w_log w) ++ effs /\
    (l' = Live -> j = turns es).
Proof. intros items rest w es w' l'. apply run_items. Qed.
Print Assumptions C55_interleaving.

(* frames alone never stop the loop and change nothing else *)
Theorem C55_frames : forall (frames : list (Z * bytes)) (w : world) (times : list (Z * Z)) (rest : stream),
  s_conn (w_s w) = true -> s_proto (w_s w) = ProtoTCP ->
  Forall (fun e => byte_ok (fst e) /\ zlen (snd e) <= 2048) frames -> length times = length frames ->
  w_in w = flat_map (fun e => map Some (frame_text (fst e) (snd e))) frames ++ rest ->
  run (w, Live) (map (fun t => Turn (fst t) (snd t)) times) =
  (mkW (w_s w) rest (w_writes w) (w_listens w) (w_rand w) (w_log w ++ map (fun e => Delivered (fst e) (snd e)) frames), Live).
Proof. exact run_frames. Qed.
Print Assumptions C55_frames.

Example C55_example :
  let w := mkW (dialled ProtoTCP None (bs "rtsp://h/s")) (map Some ([36; 0; 0; 2; 7; 8] ++ bs "RTSP/1.0 200 OK" ++ [13; 10] ++ bs "CSeq: 1" ++ [13; 10; 13; 10] ++ [36; 1; 0; 0])) [] [] [] [] in
  let '(w', l) := run (w, Live) [App COptions; Turn 0 0; Turn 0 0; Turn 0 0] in
  l = Live /\ w_in w' = [] /\
  incoming (w_log w') = [Delivered 0 [7; 8]; Got (mkRsp (bs "200 OK") 200 0 1 [(bs "Cseq", bs "1")] None); Delivered 1 []] /\
  map (fun e => match e with Sent _ r => q_verb r | _ => [] end) (w_log w') = [bs "OPTIONS"; []; []; bs "DESCRIBE"; []].
Proof. vm_compute. repeat split. Qed.

(* C56  a frame of 0 to 2048 bytes is delivered *)
Theorem C56_frame_partial : forall (w : world) (ch : Z) (payload : bytes) (rest : stream),
  zlen payload <= 2048 -> w_in w = map Some (frame_text ch payload) ++ rest ->
  receive w = (note (upd_in w rest) (Delivered ch payload), Ok tt).
Proof. intros w ch p rest L E. rewrite (receive_frame w ch p rest); [|lia|exact E]. apply Z.leb_le in L. rewrite L. reflexivity. Qed.
Print Assumptions C56_frame_partial.

(* a longer one never is: it ends the loop *)
Theorem C56_frame_refuted : forall (w : world) (ch : Z) (payload : bytes) (rest : stream) (t1 t2 : Z),
  2048 < zlen payload <= 65535 -> w_in w = map Some (frame_text ch payload) ++ rest ->
  s_conn (w_s w) = true -> s_proto (w_s w) = ProtoTCP ->
  step (w, Live) (Turn t1 t2) = (upd_in w (map Some payload ++ rest), NoLoop).
Proof. exact long_frame_stops. Qed.
Print Assumptions C56_frame_refuted.

Example C56_example :
  let w := mkW (dialled ProtoTCP None []) (map Some (frame_text 0 (repeat 5 2049))) [] [] [] [] in
  snd (run (w, Live) [Turn 0 0]) = NoLoop /\ w_log (fst (run (w, Live) [Turn 0 0])) = [].
Proof. vm_compute. split; reflexivity. Qed.

(* C57  silences between items lose nothing *)
Theorem C57_between_partial : forall (items : list item) (rest : stream) (w : world) (es : list event) (w' : world),
  Forall item_ok items -> turns es = length items ->
  w_in w = flat_map item_stream items ++ rest -> run (w, Live) es = (w', Live) ->
  w_in w' = rest /\
  exists effs, incoming (w_log w') = incoming (w_log w) ++ effs /\
    heard_all (filter (fun i => match i with Quiet => false | _ => true end) items) effs.
Proof. exact run_quiet. Qed.
Print Assumptions C57_between_partial.

(* a silence anywhere inside a frame loses its header: what is read next is the middle of the frame *)
Theorem C57_inside_refuted : forall (w : world) (ch : Z) (payload : bytes) (i : nat) (rest : stream),
  zlen payload <= 2048 -> (0 < i < length (frame_text ch payload))%nat ->
  w_in w = map Some (firstn i (frame_text ch payload)) ++ None :: map Some (skipn i (frame_text ch payload)) ++ rest ->
  receive w = (upd_in w (map Some (skipn (Nat.min i 4) (frame_text ch payload)) ++ rest), Err ErrTimeout).
Proof. exact receive_cut. Qed.
Print Assumptions C57_inside_refuted.

(* and inside the first line of a response, the part already read *)
Theorem C57_line_refuted : forall (w : world) (b : Z) (part : bytes) (rest : stream),
  b <> 36 -> ~ In 10 (b :: part) -> w_in w = map Some (b :: part) ++ None :: rest ->
  receive w = (upd_in w rest, Err ErrTimeout).
Proof. exact receive_line_cut. Qed.
Print Assumptions C57_line_refuted.

(* so the content of a frame can be taken for a frame of its own *)
Example C57_example :
  let inner := frame_text 1 [1; 2; 3] in
  let text := frame_text 0 inner in
  let w := mkW (dialled ProtoTCP None []) (map Some (firstn 4 text) ++ None :: map Some (skipn 4 text)) [] [] [] [] in
  w_log (fst (run (w, Live) [Turn 0 0; Turn 0 0])) = [Delivered 1 [1; 2; 3]].
Proof. vm_compute. reflexivity. Qed.
