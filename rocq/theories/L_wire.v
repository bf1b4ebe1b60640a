(* Lemmas on messages cut short. *)
From Coq Require Import String ZifyBool ZifyNat Permutation.
From Verif Require Import Base GoStrings S_lines M_conn M_message M_transport M_sdp M_digest M_session M_url M_dial M_wire S_wire L_base L_strings P_lines.

Definition nl (ls : list bytes) : bytes := flat_map (fun l => l ++ [10]) ls.
Definition plain_lines (ls : list bytes) : Prop := Forall (fun l => ~ In 10 l /\ (2 <= length l)%nat) ls.
Definition block (ls : list bytes) : bytes := nl ls ++ [13; 10].

Lemma not_blank : forall l, (2 <= length l)%nat -> blank_line l = false.
Proof. intros [|a [|b l]] H; cbn [length] in H; try lia. unfold blank_line. cbn. destruct a as [|p|p]; try reflexivity. repeat (destruct p; try reflexivity). Qed.

Lemma nl_length : forall ls, (length ls <= length (nl ls))%nat.
Proof. induction ls as [|l ls IH]; [apply le_n|]. cbn. rewrite !app_length. cbn. unfold nl in IH. lia. Qed.

Lemma lines_block : forall ls fuel t, plain_lines ls -> (length ls < fuel)%nat -> message_lines fuel (block ls ++ t) = Some (ls, t).
Proof.
  unfold block. induction ls as [|l ls IH]; intros [|f] t P L; cbn [length] in L; try lia.
  - reflexivity.
  - inversion P as [|x y (N & B) P']; subst. unfold nl. cbn [flat_map]. rewrite <- !app_assoc. cbn [app message_lines].
    rewrite cut_app by exact N. rewrite not_blank by exact B. fold (nl ls).
    change (13 :: 10 :: t) with ([13; 10] ++ t). rewrite app_assoc. rewrite IH by (assumption || lia). reflexivity.
Qed.

(* what is there before the line end *)
Lemma cut_prefix : forall ls k, plain_lines ls -> (k < length (block ls))%nat ->
  exists j p, (j <= length ls)%nat /\ firstn k (block ls) = nl (firstn j ls) ++ p /\ ~ In 10 p /\ (k <> 0 -> j <> 0 \/ p <> [])%nat.
Proof.
  unfold block. induction ls as [|l ls IH]; intros k P K.
  - cbn in K. destruct k as [|[|k]]; [| |lia].
    + exists 0%nat, []. repeat split; try reflexivity; try lia; auto.
    + exists 0%nat, [13]. repeat split; try reflexivity. intros [D|[]]; discriminate. intros _. right. discriminate.
  - inversion P as [|x y (N & B) P']; subst. cbn [nl flat_map] in *. fold (nl ls) in *. rewrite <- !app_assoc in *. cbn [app] in *.
    destruct (Nat.le_gt_cases k (length l)) as [Hk|Hk].
    + exists 0%nat, (firstn k l). repeat split; try lia.
      * rewrite firstn_app. replace (k - length l)%nat with 0%nat by lia. cbn. now rewrite app_nil_r.
      * intros D. apply N. rewrite <- (firstn_skipn k l). apply in_or_app. now left.
      * intros D. right. destruct k; [contradiction|]. destruct l; [cbn in B; lia|discriminate].
    + rewrite app_length in K. cbn [length] in K. destruct (IH (k - length l - 1)%nat P' ltac:(lia)) as (j & p & J & E & NP & _).
      exists (S j), p. repeat split; try assumption; try lia; try (intros _; left; lia).
      * cbn [length]. lia.
      * cbn [firstn flat_map nl]. fold (nl (firstn j ls)). rewrite <- !app_assoc. cbn [app]. rewrite <- E.
        rewrite firstn_app. rewrite firstn_all2 by lia. f_equal. destruct (k - length l)%nat as [|n] eqn:Q; [lia|]. cbn [firstn]. do 2 f_equal. lia.
Qed.

Lemma nl_app : forall a b, nl (a ++ b) = nl a ++ nl b.
Proof. intros. apply flat_map_app. Qed.

(* a message cut short and another one are read as one *)
Lemma cut_merges : forall l1 l2 ls k, plain_lines l1 -> plain_lines (l2 :: ls) -> (0 < k < length (block l1))%nat ->
  exists j p, (j <= length l1)%nat /\ (j <> 0%nat \/ p <> []) /\ firstn k (block l1) = nl (firstn j l1) ++ p /\
    forall rest fuel, (length (firstn k (block l1) ++ block (l2 :: ls)) <= fuel)%nat ->
    message_lines fuel ((firstn k (block l1) ++ block (l2 :: ls)) ++ rest) = Some (firstn j l1 ++ (p ++ l2) :: ls, rest).
Proof.
  intros l1 l2 ls k P1 P2 K. destruct (cut_prefix l1 k P1 ltac:(lia)) as (j & p & J & E & NP & Z0).
  exists j, p. repeat split; try assumption; [apply Z0; lia|]. intros rest fuel F.
  replace ((firstn k (block l1) ++ block (l2 :: ls)) ++ rest) with (block (firstn j l1 ++ (p ++ l2) :: ls) ++ rest).
  2: { rewrite E. unfold block. rewrite nl_app. cbn [nl flat_map]. rewrite <- !app_assoc. reflexivity. }
  inversion P2 as [|x y (N & B) P']; subst. apply lines_block.
  - apply Forall_app. split.
    + rewrite <- (firstn_skipn j l1) in P1. apply Forall_app in P1. tauto.
    + constructor; [|exact P']. rewrite app_length. split; [|lia]. intros D. apply in_app_or in D. tauto.
  - pose proof (nl_length (firstn j l1 ++ (p ++ l2) :: ls)) as X. rewrite E in F. unfold block in F. revert F X.
    rewrite nl_app. cbn [nl flat_map]. fold (nl ls). rewrite !app_length. cbn [length]. lia.
Qed.

(* requests are such blocks *)
Lemma names_long : forall n, In n request_names -> (2 <= length n)%nat /\ ~ In 10 n.
Proof.
  intros n H. assert (X : forallb (fun n => (2 <=? length n)%nat && negb (existsb (Z.eqb 10) n)) request_names = true) by reflexivity.
  rewrite forallb_forall in X. specialize (X n H). split; [lia|]. intros D. assert (existsb (Z.eqb 10) n = true); [|lia].
  apply existsb_exists. exists 10. split; [exact D|reflexivity].
Qed.
Lemma verbs_long : forall n, In n request_verbs -> (2 <= length n)%nat /\ ~ In 10 n.
Proof.
  intros n H. assert (X : forallb (fun n => (2 <=? length n)%nat && negb (existsb (Z.eqb 10) n)) request_verbs = true) by reflexivity.
  rewrite forallb_forall in X. specialize (X n H). split; [lia|]. intros D. assert (existsb (Z.eqb 10) n = true); [|lia].
  apply existsb_exists. exists 10. split; [exact D|reflexivity].
Qed.

Lemma one_request_block : forall t, one_request t -> exists l ls, t = block (l :: ls) /\ plain_lines (l :: ls).
Proof.
  intros t (verb & uri & fields & V & U & F & _ & ->).
  exists (verb ++ bs " " ++ uri ++ bs " RTSP/1.0" ++ [13]), (map (fun f => fst f ++ bs ": " ++ snd f ++ [13]) fields). split.
  - assert (X : flat_map (fun f => fst f ++ bs ": " ++ snd f ++ [13; 10]) fields = nl (map (fun f => fst f ++ bs ": " ++ snd f ++ [13]) fields)).
    { clear. unfold nl. induction fields as [|f fs IH]; [reflexivity|]. cbn [flat_map map]. rewrite <- IH, <- !app_assoc. reflexivity. }
    unfold block. rewrite X. unfold nl. cbn [flat_map]. rewrite <- !app_assoc. reflexivity.
  - destruct (verbs_long _ V) as (V1 & V2). constructor.
    + split; [|rewrite !app_length; lia]. intros D. rewrite !in_app_iff in D. destruct D as [D|[D|[D|[D|D]]]]; auto; revert D; vm_compute; intuition discriminate.
    + apply Forall_forall. intros x X. apply in_map_iff in X. destruct X as ([n v] & <- & X). rewrite Forall_forall in F. destruct (F _ X) as (N & O). cbn [fst snd] in *.
      destruct (names_long _ N) as (N1 & N2). split; [|rewrite !app_length; lia]. intros D. rewrite !in_app_iff in D. destruct D as [D|[D|[D|D]]]; auto; revert D; vm_compute; intuition discriminate.
Qed.

Lemma lines_of_block : forall ls, plain_lines ls -> lines_of (block ls) = ls.
Proof.
  intros ls P. unfold lines_of. rewrite <- (app_nil_r (block ls)) at 2. rewrite lines_block; [reflexivity|exact P|].
  pose proof (nl_length ls). unfold block. rewrite app_length. lia.
Qed.

(* whole messages, and a last one cut short *)
Lemma short_unread : forall ls k fuel, plain_lines ls -> (k < length (block ls))%nat -> message_lines fuel (firstn k (block ls)) = None.
Proof.
  intros ls k fuel P K. destruct (cut_prefix ls k P K) as (j & p & J & E & NP & _). rewrite E. clear E K.
  assert (Q : plain_lines (firstn j ls)) by (rewrite <- (firstn_skipn j ls) in P; apply Forall_app in P; tauto).
  revert fuel Q. generalize (firstn j ls) as l. induction l as [|a l IH]; intros [|f] Q; try reflexivity.
  - cbn [nl flat_map app message_lines]. rewrite cut_none by exact NP. reflexivity.
  - inversion Q as [|x y (N & B) Q']; subst. cbn [nl flat_map]. fold (nl l). rewrite <- !app_assoc. cbn [app message_lines].
    rewrite cut_app by exact N. rewrite not_blank by exact B. rewrite IH by exact Q'. reflexivity.
Qed.

Lemma messages_whole : forall ts tail fuel, Forall one_request ts -> (tail = [] \/ exists t k, one_request t /\ (k < length t)%nat /\ tail = firstn k t) ->
  (length ts < fuel)%nat -> messages fuel (concat ts ++ tail) = (map lines_of ts, tail).
Proof.
  induction ts as [|t ts IH]; intros tail [|f] F T L; cbn [length] in L; try lia.
  - cbn [concat app map messages]. destruct T as [->|(t & k & O & K & ->)]; [reflexivity|].
    destruct (one_request_block _ O) as (l & ls & -> & P). rewrite short_unread by assumption. reflexivity.
  - inversion F as [|x y O F']; subst. destruct (one_request_block _ O) as (l & ls & -> & P). cbn [concat map]. rewrite <- app_assoc.
    cbn [messages]. rewrite lines_block; [|exact P|].
    2: { pose proof (nl_length (l :: ls)). unfold block in *. rewrite !app_length. lia. }
    rewrite IH by (assumption || lia). rewrite lines_of_block by exact P. reflexivity.
Qed.

(* every request of a history is one request *)
Lemma log_requests : forall url proto reach guid werr s effects input ses writes listens rand es w' l' rq t,
  bytes_ok url -> dial url proto reach guid werr s = (effects, input, Some ses) ->
  match s_user ses with Some (user, _) => one_line user | None => True end -> Forall bytes_ok rand ->
  M_session.run (mkW ses input writes listens rand [], Live) es = (w', l') ->
  In rq (requests (w_log w')) -> text_for rq t -> one_request t.
Proof.
  intros url proto reach guid werr s effects input ses writes listens rand es w' l' rq t B D U R E H (order & P & ->).
  unfold requests in H. apply in_flat_map in H. destruct H as (x & H1 & H2). destruct x; cbn in H2; try contradiction.
  destruct H2 as [->|[]]. eapply C87_lines_partial; eauto.
Qed.

Lemma wire_whole : forall texts outs gone, Forall (fun o => o = None) outs -> wire texts outs gone = concat texts.
Proof.
  induction texts as [|t ts IH]; intros outs gone F; [reflexivity|]. cbn [wire concat]. destruct F as [|o outs E F].
  - cbn [tl]. rewrite IH by constructor. reflexivity.
  - subst o. cbn [tl]. rewrite IH by exact F. reflexivity.
Qed.

Lemma wire_last : forall ts t e k, wire (ts ++ [t]) (repeat None (length ts) ++ [Some e]) (repeat O (length ts) ++ [k]) = concat ts ++ firstn k t.
Proof.
  induction ts as [|a ts IH]; intros t e k.
  - cbn. now rewrite app_nil_r.
  - cbn [app length repeat wire tl concat]. rewrite IH, app_assoc. reflexivity.
Qed.

Lemma concat_length : forall ts, Forall one_request ts -> (length ts <= length (concat ts))%nat.
Proof.
  induction ts as [|t ts IH]; intros F; [apply le_n|]. inversion F as [|x y O F']; subst. cbn [length concat]. rewrite app_length.
  destruct (one_request_block _ O) as (l & ls & -> & _). unfold block. rewrite app_length. cbn [length]. specialize (IH F'). lia.
Qed.

Lemma whole_requests : forall url proto reach guid werr s effects input ses writes listens rand es w' l' texts outs k,
  bytes_ok url -> dial url proto reach guid werr s = (effects, input, Some ses) ->
  match s_user ses with Some (user, _) => one_line user | None => True end -> Forall bytes_ok rand ->
  M_session.run (mkW ses input writes listens rand [], Live) es = (w', l') ->
  Forall2 text_for (requests (w_log w')) texts ->
  (Forall (fun o => o = None) outs -> received (wire texts outs []) = (map lines_of texts, [])) /\
  (forall ts t e, texts = ts ++ [t] -> outs = repeat None (length ts) ++ [Some e] -> (k < length t)%nat ->
     received (wire texts outs (repeat O (length ts) ++ [k])) = (map lines_of ts, firstn k t)).
Proof.
  intros url proto reach guid werr s effects input ses writes listens rand es w' l' texts outs k B D U R E T.
  assert (F : Forall one_request texts).
  { assert (G : forall rq t, In rq (requests (w_log w')) -> text_for rq t -> one_request t) by (intros; eapply log_requests; eauto).
    revert G T. generalize (requests (w_log w')) as rqs. clear. intros rqs G T. induction T as [|r t rs ts X T IH]; constructor.
    - eapply G; [now left|exact X].
    - apply IH. intros. eapply G; [right; eassumption|assumption]. }
  split.
  - intros O. rewrite wire_whole by exact O. unfold received. rewrite <- (app_nil_r (concat texts)) at 2.
    apply messages_whole; [exact F|now left|]. pose proof (concat_length _ F). lia.
  - intros ts t e -> -> K. rewrite wire_last. apply Forall_app in F. destruct F as (F1 & F2). inversion F2; subst. unfold received.
    apply messages_whole; [exact F1|right; eauto|]. pose proof (concat_length _ F1). rewrite app_length. lia.
Qed.

Lemma written_on : forall w c1 c2 e more, s_conn (w_s w) = true -> s_proto (w_s w) <> ProtoHTTP -> w_writes w = Some e :: None :: more ->
  In c1 [COptions; CDescribe; CPlay; CPause; CTeardown] -> In c2 [COptions; CDescribe; CPlay; CPause; CTeardown] ->
  exists w1 w2 r1 r2, do_cmd w c1 = (w1, Err e) /\ do_cmd w1 c2 = (w2, Ok tt) /\ w_log w2 = w_log w ++ [Sent false r1; Sent false r2].
Proof.
  assert (CM : forall w verb uri h, s_conn (w_s w) = true -> s_proto (w_s w) <> ProtoHTTP ->
    exists w' r, command w verb uri h = (w', match w_writes w with Some e :: _ => Err e | _ => Ok tt end) /\ w_log w' = w_log w ++ [Sent false r] /\
      w_writes w' = tl (w_writes w) /\ s_conn (w_s w') = true /\ s_proto (w_s w') = s_proto (w_s w)).
  { intros w verb uri h C P. unfold command. rewrite C. cbn [negb]. unfold call_auth.
    destruct (s_auth (w_s w)) as [[text d]|].
    - destruct (auth_call text d verb []) as [d' out]. unfold enqueue, write, upd_s. cbn. destruct (s_proto (w_s w) =? ProtoHTTP) eqn:Q; [lia|].
      destruct (w_writes w) as [|[e|] l]; do 2 eexists; repeat split; assumption.
    - unfold enqueue, write, upd_s. cbn. destruct (s_proto (w_s w) =? ProtoHTTP) eqn:Q; [lia|].
      destruct (w_writes w) as [|[e|] l]; do 2 eexists; repeat split; assumption. }
  assert (DC : forall w c, s_conn (w_s w) = true -> s_proto (w_s w) <> ProtoHTTP -> In c [COptions; CDescribe; CPlay; CPause; CTeardown] ->
    exists w' r, do_cmd w c = (w', match w_writes w with Some e :: _ => Err e | _ => Ok tt end) /\ w_log w' = w_log w ++ [Sent false r] /\
      w_writes w' = tl (w_writes w) /\ s_conn (w_s w') = true /\ s_proto (w_s w') = s_proto (w_s w)).
  { intros w c C P H. repeat (destruct H as [<-|H]; [cbn [do_cmd]; unfold options, describe, play, pause, teardown, with_conn; rewrite C; apply CM; assumption|]). destruct H. }
  intros w c1 c2 e more C P W H1 H2. destruct (DC w c1 C P H1) as (w1 & r1 & D1 & L1 & W1 & C1 & P1).
  destruct (DC w1 c2 C1 ltac:(lia) H2) as (w2 & r2 & D2 & L2 & W2 & C2 & P2). rewrite W in D1. rewrite W1, W in D2. cbn [tl] in D2.
  exists w1, w2, r1, r2. split; [exact D1|]. split; [exact D2|]. rewrite L2, L1, <- app_assoc. reflexivity.
Qed.

Lemma cut_request : forall url proto reach guid werr s effects input ses writes listens rand es w' l' r1 r2 t1 t2 e k rest,
  bytes_ok url -> dial url proto reach guid werr s = (effects, input, Some ses) ->
  match s_user ses with Some (user, _) => one_line user | None => True end -> Forall bytes_ok rand ->
  M_session.run (mkW ses input writes listens rand [], Live) es = (w', l') ->
  In r1 (requests (w_log w')) -> In r2 (requests (w_log w')) -> text_for r1 t1 -> text_for r2 t2 -> (0 < k < length t1)%nat ->
  exists some part first others, lines_of t2 = first :: others /\ (exists left, lines_of t1 = some ++ left) /\ (some <> [] \/ part <> []) /\
    message_lines (S (length (wire [t1; t2] [Some e; None] [k]))) (wire [t1; t2] [Some e; None] [k] ++ rest) = Some (some ++ (part ++ first) :: others, rest) /\
    received (wire [t1; t2] [Some e; None] [k]) = ([some ++ (part ++ first) :: others], []) /\ some ++ (part ++ first) :: others <> lines_of t2.
Proof.
  intros url proto reach guid werr s effects input ses writes listens rand es w' l' r1 r2 t1 t2 e k rest B D U R E I1 I2 T1 T2 K.
  assert (O1 : one_request t1) by (eapply log_requests with (rq := r1); eauto). assert (O2 : one_request t2) by (eapply log_requests with (rq := r2); eauto).
  destruct (one_request_block _ O1) as (a & la & -> & P1). destruct (one_request_block _ O2) as (b & lb & -> & P2).
  remember (wire [block (a :: la); block (b :: lb)] [Some e; None] [k]) as W eqn:WD.
  assert (WE : W = firstn k (block (a :: la)) ++ block (b :: lb)) by (rewrite WD; cbn [wire hd tl]; now rewrite app_nil_r).
  destruct (cut_merges (a :: la) b lb k P1 P2 K) as (j & p & J & N & EQ & M). rewrite <- WE in M.
  exists (firstn j (a :: la)), p, b, lb. rewrite !lines_of_block by assumption. splits; try reflexivity.
  - exists (skipn j (a :: la)). now rewrite firstn_skipn.
  - destruct N as [N|N]; [left|right; exact N]. destruct j; [contradiction|discriminate].
  - apply M. lia.
  - unfold received. destruct (length W) as [|n] eqn:LW.
    { rewrite WE, !app_length in LW. unfold block in LW. rewrite !app_length in LW. cbn [length] in LW. lia. }
    cbn [messages]. rewrite LW. rewrite <- (app_nil_r W). rewrite (M [] (S (S n)) ltac:(lia)). reflexivity.
  - intros X. assert (Y := f_equal (@length bytes) X). rewrite app_length in Y. cbn [length] in Y.
    destruct (firstn j (a :: la)) as [|z q] eqn:F; [|cbn [length] in Y; lia]. cbn [app] in X. injection X as X.
    destruct N as [N|N]; [destruct j; [contradiction|discriminate]|]. apply N. apply (f_equal (@length Z)) in X. rewrite app_length in X.
    destruct p; [reflexivity|cbn [length] in X; lia].
Qed.
