(* C92: how the incoming bytes are cut into pieces cannot be seen.  C93: the body of a response kept while reading on. *)
From Coq Require Import String.
From Verif Require Import Base GoStrings M_conn M_transport M_message M_session M_dial M_bufio S_bufio L_base L_bufio.

Theorem C92_pieces : forall net net' w l es, pieces_ok net -> pieces_ok net' -> flow net = flow net' ->
  let '(w1, _, l1) := b_run (w, new_reader net, l) es in
  let '(w2, _, l2) := b_run (w, new_reader net', l) es in w1 = w2 /\ l1 = l2.
Proof.
  intros net net' w l es P P' F.
  destruct (b_run_same es w (new_reader net) (new_reader net') l) as (w1 & b1 & b2 & l1 & E1 & E2);
    [now apply new_reader_sound|now apply new_reader_sound|rewrite !new_reader_view; exact F|].
  rewrite E1, E2. auto.
Qed.
Print Assumptions C92_pieces.

(* and it is what the session does on the bytes and pauses themselves *)
Theorem C92_stream : forall net w l es w1 b1 l1, pieces_ok net -> b_run (w, new_reader net, l) es = (w1, b1, l1) ->
  exists rest, run (upd_in w (flow net), l) es = (upd_in w1 rest, l1).
Proof.
  intros net w l es w1 b1 l1 P E. destruct (b_run_ok es w (new_reader net) l (new_reader_sound net P)) as (w2 & b2 & l2 & E2 & _ & R).
  rewrite E2 in E. injection E as -> -> ->. exists (view b1). exact R.
Qed.
Print Assumptions C92_stream.

(* the answer to GET, when RTSP is tunnelled through HTTP, and single responses *)
Theorem C92_calls : forall net net', pieces_ok net -> pieces_ok net' -> flow net = flow net' ->
  snd (b_receive_http (new_reader net)) = snd (b_receive_http (new_reader net')) /\
  (let! x := snd (b_unpack (new_reader net)) in Ok (fst x)) = (let! x := snd (b_unpack (new_reader net')) in Ok (fst x)).
Proof.
  intros net net' P P' F.
  destruct (b_receive_http_ok _ (new_reader_sound net P)) as (b1 & o1 & E1 & _ & R1), (b_receive_http_ok _ (new_reader_sound net' P')) as (b2 & o2 & E2 & _ & R2).
  destruct (b_unpack_ok _ (new_reader_sound net P)) as (b3 & o3 & E3 & _ & R3 & _), (b_unpack_ok _ (new_reader_sound net' P')) as (b4 & o4 & E4 & _ & R4 & _).
  rewrite new_reader_view in *. rewrite F in *. rewrite E1, E2, E3, E4. cbn [snd]. split; congruence.
Qed.
Print Assumptions C92_calls.

Definition answer (n : Z) (body : bytes) : bytes :=
  bs "RTSP/1.0 200 OK" ++ [13; 10] ++ bs "CSeq: " ++ [48 + n; 13; 10] ++ bs "Content-Length: " ++ [48 + zlen body; 13; 10; 13; 10] ++ body.

(* two packets and an answer, byte by byte, in one piece, and cut in the middle of a length and of a line *)
Example C92_case :
  let text := [36; 0; 0; 2; 7; 8] ++ answer 1 [] ++ [36; 1; 0; 1; 9] in
  let start := (mkW (dialled ProtoTCP None (bs "rtsp://h/s")) [] [] [] [] [], Live) in
  let evs := [App COptions; Turn 0 0; Turn 0 0; Turn 0 0; Turn 0 0] in
  let got net := let '(w, _, l) := b_run (fst start, new_reader net, snd start) evs in
                 (flat_map (fun e => match e with Delivered ch p => [(ch, p)] | _ => [] end) (w_log w), length (w_log w), l) in
  got (singly (map Some text)) = ([(0, [7; 8]); (1, [9])], 5%nat, NoLoop) /\
  got [Data text] = got (singly (map Some text)) /\
  got [Data (firstn 3 text); Data (firstn 20 (skipn 3 text)); Data (skipn 23 text)] = got (singly (map Some text)).
Proof. vm_compute. splits; reflexivity. Qed.

Theorem C93_body_partial : forall net before after b r s, pieces_ok net ->
  b_unpack (fold_left (fun b op => b_do op b) before (new_reader net)) = (b, Ok (r, Some s)) ->
  enough after (map Some (fetched b)) ->
  p_body r = Some (content (fold_left (fun b op => b_do op b) after b) s).
Proof.
  intros net before after b r s P E H. pose proof (dos_sound before _ (new_reader_sound net P)) as S.
  destruct (b_unpack_ok _ S) as (b' & o & E' & S' & _ & K). rewrite E in E'. injection E' as <- <-.
  rewrite K. cbn [option_map]. unfold content. rewrite (dos_here after b S' H). reflexivity.
Qed.
Print Assumptions C93_body_partial.

(* False whenever the response was the last of what had been fetched: as soon as one byte of the next piece is looked at, which is what the
   session does next, the body consists of the bytes of that piece that are at its place. *)
Theorem C93_body_refuted : forall net before b r s d more n, pieces_ok net ->
  b_unpack (fold_left (fun b op => b_do op b) before (new_reader net)) = (b, Ok (r, Some s)) ->
  fetched b = [] -> b_err b = None -> b_net b = Data d :: more -> 0 < n <= zlen d -> (fst s + snd s <= length d <= 2048)%nat ->
  p_body r = Some (content b s) /\ content (b_do (RPeek n) b) s = firstn (snd s) (skipn (fst s) d).
Proof.
  intros net before b r s d more n P E F Er N Hn L. pose proof (dos_sound before _ (new_reader_sound net P)) as S.
  destruct (b_unpack_ok _ S) as (b' & o & E' & S' & _ & K). rewrite E in E'. injection E' as <- <-. split; [now rewrite K|].
  unfold content. rewrite (peek_over b d more n S' F Er N Hn) by (destruct S' as (L0 & _); unfold size; rewrite L0; change (Z.to_nat bufio_size) with 2048%nat; lia).
  rewrite skipn_app, firstn_app, skipn_length. replace (snd s - (length d - fst s))%nat with 0%nat by lia. now rewrite firstn_O, app_nil_r.
Qed.
Print Assumptions C93_body_refuted.

(* two answers in two pieces: while the second is read the body of the first becomes that of the second *)
Example C93_refuted_case : exists net b r s, pieces_ok net /\ b_unpack (new_reader net) = (b, Ok (r, Some s)) /\ fetched b = [] /\ b_err b = None /\
  b_net b = [Data (answer 2 (bs "v=2"))] /\ (fst s + snd s <= length (answer 2 (bs "v=2")))%nat /\
  p_body r = Some (bs "v=1") /\ content b s = bs "v=1" /\ content (b_do (RPeek 1) b) s = bs "v=2" /\ content (b_do RUnpack b) s = bs "v=2".
Proof.
  exists [Data (answer 1 (bs "v=1")); Data (answer 2 (bs "v=2"))]. eexists. eexists. eexists. splits.
  - vm_compute. intros [H|[H|[]]]; discriminate.
  - vm_compute. reflexivity.
  - reflexivity.
  - reflexivity.
  - reflexivity.
  - apply Nat.leb_le. vm_compute. reflexivity.
  - reflexivity.
  - reflexivity.
  - vm_compute. reflexivity.
  - vm_compute. reflexivity.
Qed.

(* with both answers fetched at once the first keeps its body *)
Example C93_case :
  let b := fst (b_unpack (new_reader [Data (answer 1 (bs "v=1") ++ answer 2 (bs "v=2")); Data [36]])) in
  enough [RUnpack] (map Some (fetched b)) /\ ~ enough [RUnpack; RByte] (map Some (fetched b)) /\
  content (b_do RUnpack b) (47%nat, 3%nat) = bs "v=1" /\ content (b_do RByte (b_do RUnpack b)) (0%nat, 1%nat) = [36].
Proof. vm_compute. splits; try exact I; try reflexivity. intros (_ & H & _). discriminate H. Qed.
