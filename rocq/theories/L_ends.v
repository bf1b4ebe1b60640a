(* Lemmas: the ends of lines. *)
From Coq Require Import String.
From Verif Require Import Base GoStrings M_conn M_message M_sdp S_message S_ends L_base L_strings L_message.
From Coq Require Import ZifyBool ZifyNat.

Lemma trim_one c s : c = 13 \/ c = 10 -> trim_space (s ++ [c]) = trim_space s.
Proof.
  intros C.
  unfold trim_space.
  assert (L : exists t, trim_left (s ++ [c]) = trim_left s ++ t /\ (t = [c] \/ (t = [] /\ trim_left s = []))).
  { assert (G : forall n s, (length s <= n)%nat -> exists t, trim_left (s ++ [c]) = trim_left s ++ t /\ (t = [c] \/ (t = [] /\ trim_left s = []))).
    { clear s. induction n as [|n IH]; intros s Hl.
      - destruct s; [|cbn in Hl; lia]. exists []. split; [destruct C as [->| ->]; reflexivity|right; split; reflexivity].
      - destruct s as [|a s]; [exists []; split; [destruct C as [->| ->]; reflexivity|right; split; reflexivity]|]. cbn [app trim_left]. cbn [length] in Hl.
        destruct (sp1 a) eqn:E1; [apply IH; lia|]. destruct s as [|b s].
        + cbn [app]. unfold sp2. replace ((a =? 194) && ((c =? 133) || (c =? 160))) with false by (symmetry; destruct C as [->| ->]; cbn; lia). exists [c]. split; [reflexivity|left; reflexivity].
        + cbn [app length] in *. destruct (sp2 a b) eqn:E2; [apply IH; lia|]. destruct s as [|c' s].
          * cbn [app]. unfold sp3. replace (_ || _ || _ || _) with false by (symmetry; destruct C as [->| ->]; cbn; lia). exists [c]. split; [reflexivity|left; reflexivity].
          * cbn [app length] in *. destruct (sp3 a b c') eqn:E3; [apply IH; lia|]. exists [c]. split; [reflexivity|left; reflexivity]. }
    apply (G (length s)). lia. }
  destruct L as (t & -> & [->|[-> _]]); [|rewrite app_nil_r; reflexivity].
  rewrite rev_app_distr. destruct C as [->| ->]; reflexivity.
Qed.

Lemma trim_end s e : trim_space (s ++ end_text e) = trim_space s.
Proof. destruct e; [apply trim_right_crlf|apply trim_one; auto]. Qed.

(* ---- a description ---- *)
Lemma sdp_line_trim s a b : trim_space a = trim_space b -> sdp_line s a = sdp_line s b.
Proof. intros E. unfold sdp_line. rewrite E. reflexivity. Qed.

Lemma sdp_lines_text ls : Forall one_line ls -> forall s t, sdp_lines s (split_on 10 (text_of ls ++ t)) = (let! s' := sdp_lines s (map fst ls) in sdp_lines s' (split_on 10 t)).
Proof.
  induction 1 as [|[l e] ls L _ IH]; intros s t; [reflexivity|]. unfold one_line in L. cbn [fst] in L.
  cbn [map fst sdp_lines]. cbn [text_of flat_map]. fold (text_of ls). unfold ended. cbn [fst snd].
  assert (E : exists l', trim_space l' = trim_space l /\ split_on 10 (((l ++ end_text e) ++ text_of ls) ++ t) = l' :: split_on 10 (text_of ls ++ t)).
  { destruct e; cbn [end_text].
    - exists (l ++ [13]). split; [apply trim_one; auto|]. replace (((l ++ [13; 10]) ++ text_of ls) ++ t) with ((l ++ [13]) ++ 10 :: text_of ls ++ t) by (rewrite <- !app_assoc; reflexivity).
      apply split_on_app. rewrite in_app_iff. cbn [In]. intuition lia.
    - exists l. split; [reflexivity|]. replace (((l ++ [10]) ++ text_of ls) ++ t) with (l ++ 10 :: text_of ls ++ t) by (rewrite <- !app_assoc; reflexivity).
      apply split_on_app. exact L. }
  destruct E as (l' & T & ->). cbn [sdp_lines]. rewrite (sdp_line_trim s l' l T). destruct (sdp_line s l) as [s'| | |]; cbn [bind]; [apply IH|reflexivity|reflexivity|reflexivity].
Qed.

Lemma sdp_line_nil s : sdp_line s [] = Ok s.
Proof. reflexivity. Qed.

Lemma sdp_text ls : Forall one_line ls -> sdp_parse (text_of ls) = (let! s := sdp_lines ([], None) (map fst ls) in Ok (all_feeds s)).
Proof.
  intros F. unfold sdp_parse. rewrite <- (app_nil_r (text_of ls)). rewrite sdp_lines_text by exact F.
  destruct (sdp_lines ([], None) (map fst ls)) as [s| | |]; reflexivity.
Qed.

Lemma sdp_text_open ls l : Forall one_line ls -> ~ In 10 l -> sdp_parse (text_of ls ++ l) = (let! s := sdp_lines ([], None) (map fst ls ++ [l]) in Ok (all_feeds s)).
Proof.
  intros F N. unfold sdp_parse. rewrite sdp_lines_text by exact F. rewrite (split_on_none 10 l N).
  generalize (@Datatypes.pair (list media) (option media) [] None). induction (map fst ls) as [|a r IH]; intros s; [reflexivity|].
  cbn [app sdp_lines]. destruct (sdp_line s a) as [s'| | |]; cbn [bind]; [apply IH|reflexivity|reflexivity|reflexivity].
Qed.

Lemma one_line_same ls ms : same_lines ls ms -> Forall one_line ls -> Forall one_line ms.
Proof.
  unfold same_lines. revert ms. induction ls as [|l ls IH]; intros [|m ms] S F; try discriminate; [constructor|]. cbn [map] in S.
  inversion F as [|x y F1 F2]; subst. injection S as S1 S2. constructor; [unfold one_line in *; rewrite <- S1; exact F1|apply IH; assumption].
Qed.

(* ---- a response ---- *)
Lemma read_line_ended l e s : ~ In 10 l -> read_line (sent (l ++ end_text e) ++ s) = (s, Ok (l ++ end_text e)).
Proof.
  intros N. destruct e; cbn [end_text].
  - change [13; 10] with ([13] ++ [10]). rewrite app_assoc. apply read_line_sent. rewrite in_app_iff. cbn [In]. intuition lia.
  - apply read_line_sent. exact N.
Qed.

Lemma cut_end c l e : c <> 13 -> c <> 10 -> cut c (l ++ end_text e) = match cut c l with Some (a, b) => Some (a, b ++ end_text e) | None => None end.
Proof.
  intros C D. induction l as [|x l IH].
  - destruct e; cbn [app end_text cut]; rewrite ?(proj2 (Z.eqb_neq 13 c)), ?(proj2 (Z.eqb_neq 10 c)) by lia; reflexivity.
  - cbn [app cut]. destruct (x =? c); [reflexivity|]. rewrite IH. destruct (cut c l) as [[a b]|]; reflexivity.
Qed.

Lemma status_line_end proto l e : status_line proto (l ++ end_text e) = status_line proto (l ++ [13; 10]).
Proof.
  change [13; 10] with (end_text CrLf). unfold status_line. rewrite (cut_end 32 l e), (cut_end 32 l CrLf) by lia. destruct (cut 32 l) as [[a b]|]; [|reflexivity].
  rewrite (trim_end b e), (trim_end b CrLf). reflexivity.
Qed.

(* what the lines of a head give, and whether they were all read *)
Fixpoint head_of (h : header) (ls : list bytes) : res header :=
  match ls with
  | [] => Fuel
  | l :: r => if beq (trim_space l) [] then match r with [] => Ok h | _ => Fuel end
              else match split2 58 (trim_space l) with
                   | [k; v] => head_of (header_set h (trim_space k) (trim_space v)) r
                   | _ => Err ErrMalformedResponse
                   end
  end.

Lemma header_lines_text ls : Forall one_line ls -> forall fuel h rest, (length ls <= fuel)%nat -> head_of h (map fst ls) <> Fuel ->
  exists s, header_lines fuel h (sent (text_of ls) ++ rest) = (s, head_of h (map fst ls)) /\ (forall h', head_of h (map fst ls) = Ok h' -> s = rest).
Proof.
  induction 1 as [|[l e] ls L _ IH]; intros fuel h rest Fu; [intros N; contradiction N; reflexivity|]. unfold one_line in L. cbn [fst] in L.
  cbn [map fst length] in *. destruct fuel as [|f]; [lia|]. cbn [header_lines text_of flat_map]. fold (text_of ls). unfold ended. cbn [fst snd].
  rewrite sent_app, <- app_assoc, read_line_ended by exact L. rewrite trim_end. cbn [head_of].
  destruct (beq (trim_space l) []).
  - destruct ls as [|m ls]; [|intros N; contradiction N; reflexivity]. intros _. exists rest. split; [reflexivity|reflexivity].
  - destruct (split2 58 (trim_space l)) as [|k [|v [|x y]]]; try (intros _; eexists; split; [reflexivity|discriminate]).
    intros N. apply IH; [lia|exact N].
Qed.

Lemma head_of_whole ls : Forall (fun l => trim_space l <> []) ls -> forall h, head_of h (ls ++ [[]]) <> Fuel.
Proof.
  induction 1 as [|l ls L _ IH]; intros h; [discriminate|]. cbn [app head_of]. rewrite (proj2 (beq_neq (trim_space l) []) L).
  destruct (split2 58 (trim_space l)) as [|k [|v [|x y]]]; try discriminate. apply IH.
Qed.

(* what a head followed by [rest] is read as *)
Definition answer_of (first : bytes) (ls : list bytes) (rest : stream) : res response :=
  match status_line (bs "RTSP/1.0") (first ++ [13; 10]) with
  | Ok (status, code) =>
      match head_of [] ls with
      | Ok h =>
          let cseq := fst (atoi (header_get h (bs "CSeq"))) in
          let len := match atoi (header_get h (bs "Content-Length")) with (n, None) => n | _ => 0 end in
          if len >? 0 then
            match read_bytes len rest with
            | (_, Ok b) => Ok (mkRsp status code len cseq h (Some b))
            | (_, Err e) => Err e
            | (_, Panic) => Panic
            | (_, Fuel) => Fuel
            end
          else Ok (mkRsp status code len cseq h None)
      | Err e => Err e
      | Panic => Panic
      | Fuel => Fuel
      end
  | Err e => Err e
  | Panic => Panic
  | Fuel => Fuel
  end.
Definition left_of (r : response) (rest : stream) : stream := if p_length r >? 0 then fst (read_bytes (p_length r) rest) else rest.

Lemma unpack_text first e ls rest : ~ In 10 first -> Forall one_line ls -> head_of [] (map fst ls) <> Fuel ->
  exists s, unpack_response (sent (text_of ((first, e) :: ls)) ++ rest) = (s, answer_of first (map fst ls) rest) /\
            (forall r, answer_of first (map fst ls) rest = Ok r -> s = left_of r rest).
Proof.
  intros N F W. cbn [text_of flat_map]. fold (text_of ls). unfold ended. cbn [fst snd]. unfold unpack_response, answer_of.
  rewrite sent_app, <- app_assoc, read_line_ended by exact N. rewrite status_line_end.
  destruct (status_line (bs "RTSP/1.0") (first ++ [13; 10])) as [[status code]|e1| |]; try (eexists; split; [reflexivity|discriminate]).
  assert (Fu : (length ls <= S (length (sent (text_of ls) ++ rest)))%nat).
  { rewrite app_length. unfold sent. rewrite map_length. assert (length ls <= length (text_of ls))%nat; [|lia].
    clear. induction ls as [|[l e] ls IH]; [cbn; lia|]. cbn [text_of flat_map length]. fold (text_of ls). rewrite app_length. unfold ended. rewrite app_length. destruct e; cbn [snd end_text length]; lia. }
  destruct (header_lines_text ls F (S (length (sent (text_of ls) ++ rest))) [] rest Fu W) as (s & -> & P).
  destruct (head_of [] (map fst ls)) as [h|e1| |]; try (eexists; split; [reflexivity|discriminate]).
  rewrite (P h eq_refl). cbv zeta. set (n := match atoi (header_get h (bs "Content-Length")) with (n, None) => n | _ => 0 end).
  destruct (n >? 0) eqn:G.
  - destruct (read_bytes n rest) as [s3 [b|e1| |]] eqn:R; eexists; (split; [reflexivity|]); try discriminate.
    intros r E. assert (E' : r = mkRsp status code n (fst (atoi (header_get h (bs "CSeq")))) h (Some b)) by congruence. subst r. unfold left_of. cbn [p_length]. rewrite G, R. reflexivity.
  - eexists; split; [reflexivity|]. intros r E. assert (E' : r = mkRsp status code n (fst (atoi (header_get h (bs "CSeq")))) h None) by congruence. subst r. unfold left_of. cbn [p_length]. rewrite G. reflexivity.
Qed.

Lemma unpack_same first e1 e2 ls ms rest :
  ~ In 10 first -> Forall one_line ls -> same_lines ls ms -> (exists fs, Forall (fun l => trim_space l <> []) fs /\ map fst ls = fs ++ [[]]) ->
  exists s s' o,
    unpack_response (sent (text_of ((first, e1) :: ls)) ++ rest) = (s, o) /\
    unpack_response (sent (text_of ((first, e2) :: ms)) ++ rest) = (s', o) /\
    (forall r, o = Ok r -> s = s').
Proof.
  intros N F S (fs & V & M).
  assert (W : head_of [] (map fst ls) <> Fuel) by (rewrite M; apply head_of_whole; exact V).
  destruct (unpack_text first e1 ls rest N F W) as (s & E & P). unfold same_lines in S. rewrite S in W.
  destruct (unpack_text first e2 ms rest N (one_line_same ls ms S F) W) as (s' & E' & P').
  exists s, s', (answer_of first (map fst ls) rest). rewrite E, E', S. splits; try reflexivity. rewrite S in P. intros r Q. rewrite (P r Q), (P' r Q). reflexivity.
Qed.

Lemma unpack_cr t rest : ~ In 10 t -> unpack_response (sent t ++ None :: rest) = (rest, Err ErrTimeout).
Proof.
  intros N. unfold unpack_response. assert (R : read_line (sent t ++ None :: rest) = (rest, Err ErrTimeout)); [|rewrite R; reflexivity].
  revert N. induction t as [|b l IH]; intros N; [reflexivity|]. cbn [sent map app read_line]. destruct (b =? 10) eqn:E; [exfalso; apply N; left; lia|].
  fold (sent l). rewrite IH by (intros I; apply N; right; exact I). reflexivity.
Qed.

Lemma no_lf_cr first fs body : Forall (fun l => ~ In 10 l) (first :: fs) -> ~ In 10 body -> ~ In 10 (text_cr (first :: fs ++ [[]]) ++ body).
Proof.
  intros F N. rewrite in_app_iff. intros [I|I]; [|contradiction]. unfold text_cr in I. apply in_flat_map in I. destruct I as (l & L & I).
  rewrite in_app_iff in I. cbn [In] in I. destruct I as [I|[I|[]]]; [|lia]. change (first :: fs ++ [[]]) with ((first :: fs) ++ [[]]) in L.
  rewrite in_app_iff in L. destruct L as [L|[L|[]]]; [|subst l; exact I]. rewrite Forall_forall in F. exact (F l L I).
Qed.

Lemma sdp_last ls ms l e : Forall one_line ls -> ~ In 10 l -> same_lines ls ms -> sdp_parse (text_of ls ++ l) = sdp_parse (text_of (ms ++ [(l, e)])).
Proof.
  intros F N S. rewrite sdp_text_open by assumption. rewrite sdp_text.
  - rewrite map_app. cbn [map fst]. unfold same_lines in S. rewrite S. reflexivity.
  - apply Forall_app. split; [exact (one_line_same ls ms S F)|]. constructor; [exact N|constructor].
Qed.
