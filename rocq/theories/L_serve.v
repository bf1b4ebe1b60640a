(* Lemmas: the whole program with a server that answers what it has received. *)
From Coq Require Import String Permutation.
From Verif Require Import Base GoStrings S_rtp M_rtp S_nal M_nal M_conn S_message M_message M_transport M_sdp M_digest M_sps M_session S_session S_handshake M_main S_main S_serve
  L_base L_strings L_rtp L_digest L_message S_transport L_transport L_session L_frames L_flow L_handshake L_main.
From Coq Require Import ZifyBool ZifyNat.

Local Opaque digest_response.

(* ---- the requests by number ---- *)
Definition verb_no (n k : Z) : bytes :=
  if k =? 1 then bs "OPTIONS" else if k =? 2 then bs "DESCRIBE" else if k <=? 2 + n then bs "SETUP"
  else if k =? 3 + n then bs "PLAY" else if k =? 4 + n then bs "PAUSE" else bs "TEARDOWN".
Lemma verb_options n : verb_no n 1 = bs "OPTIONS". Proof. reflexivity. Qed.
Lemma verb_describe n : verb_no n 2 = bs "DESCRIBE". Proof. reflexivity. Qed.
Lemma verb_setup n k : 2 < k <= 2 + n -> verb_no n k = bs "SETUP".
Proof. intros H. unfold verb_no. destruct (k =? 1) eqn:A; [lia|]. destruct (k =? 2) eqn:B; [lia|]. destruct (k <=? 2 + n) eqn:C; [reflexivity|lia]. Qed.
Lemma verb_order n o : 0 <= n -> verb_no n (1 + n + order_stage o) = order_verb o.
Proof.
  intros H. unfold verb_no. destruct o; cbn [order_stage order_verb].
  - replace (1 + n + 2 =? 1) with false by lia. replace (1 + n + 2 =? 2) with false by lia. replace (1 + n + 2 <=? 2 + n) with false by lia. replace (1 + n + 2 =? 3 + n) with true by lia. reflexivity.
  - replace (1 + n + 3 =? 1) with false by lia. replace (1 + n + 3 =? 2) with false by lia. replace (1 + n + 3 <=? 2 + n) with false by lia. replace (1 + n + 3 =? 3 + n) with false by lia. replace (1 + n + 3 =? 4 + n) with true by lia. reflexivity.
  - replace (1 + n + 4 =? 1) with false by lia. replace (1 + n + 4 =? 2) with false by lia. replace (1 + n + 4 <=? 2 + n) with false by lia. replace (1 + n + 4 =? 3 + n) with false by lia. replace (1 + n + 4 =? 4 + n) with false by lia. reflexivity.
Qed.
Lemma from_z_app a b : forall n, from_z n (a + b) = from_z n a ++ from_z (n + Z.of_nat a) b.
Proof. induction a as [|a IH]; intros n; cbn [Nat.add from_z app]; [f_equal; lia|]. rewrite IH. f_equal. f_equal. f_equal. lia. Qed.

(* ---- what is under way from the server ---- *)
Inductive carries (ms : list media) : list item -> list Z -> Prop :=
| ca_end : carries ms [] []
| ca_noise i items ks : item_ok i -> takeable i -> carries ms items ks -> carries ms (i :: items) ks
| ca_answer i k items ks : fits ms (verb_no (zlen ms) k) k i -> carries ms items ks -> carries ms (i :: items) (k :: ks).
Lemma carries_app ms a ks : carries ms a ks -> forall b ls, carries ms b ls -> carries ms (a ++ b) (ks ++ ls).
Proof. induction 1; intros b ls B; cbn [app]; [exact B|apply ca_noise; auto|apply ca_answer; auto]. Qed.
Definition weigh (i : item) : Z := match i with Frame _ _ => 2 | Quiet => 1 | Resp _ _ _ _ => 0 end.
Definition load (items : list item) : Z := fold_right (fun i n => weigh i + n) 0 items.
Lemma load_app a b : load (a ++ b) = load a + load b.
Proof. unfold load. induction a as [|i a IH]; cbn [app fold_right]; [reflexivity|]. rewrite IH. lia. Qed.
Lemma load_pos a : 0 <= load a.
Proof. unfold load. induction a as [|i a IH]; cbn [fold_right]; [lia|]. destruct i; cbn [weigh]; lia. Qed.
Lemma takeable_noise i : takeable i -> noise i.
Proof. destruct i; cbn; auto. Qed.
Lemma item_stream_some i : item_stream i <> [].
Proof. destruct i; cbn [item_stream]; discriminate. Qed.

(* ---- the plan by number ---- *)
Lemma set_up_length uri ms : forall i, length (set_up uri i ms) = length ms.
Proof. induction ms as [|m ms IH]; intros i; cbn [set_up length]; [reflexivity|]. rewrite IH. reflexivity. Qed.
Lemma plan_order uri ms o : nth_error (plan uri ms) (Z.to_nat (1 + zlen ms + order_stage o - 1)) = Some (order_verb o, uri, []).
Proof.
  unfold plan. rewrite app_assoc. rewrite nth_error_app2; rewrite app_length, set_up_length; cbn [length]; unfold zlen; [|destruct o; cbn [order_stage]; lia].
  replace (Z.to_nat (1 + Z.of_nat (length ms) + order_stage o - 1) - (2 + length ms))%nat with (Z.to_nat (order_stage o - 2)) by (destruct o; cbn [order_stage]; lia).
  destruct o; reflexivity.
Qed.
Lemma set_up_nth uri id ms : forall i, 0 <= i -> Forall (fun r => q_auth r = [] /\ i <= q_cseq r - 3 < i + zlen ms /\ nth_error (set_up uri i ms) (Z.to_nat (q_cseq r - 3 - i)) = Some (wish_of r)) (setups uri id i ms).
Proof.
  induction ms as [|m ms IH]; intros i Hi; cbn [setups set_up]; [constructor|]. rewrite zlen_cons. pose proof (zlen_nonneg ms). constructor.
  - cbn [q_auth q_cseq wish_of q_verb q_uri q_header]. splits; [reflexivity|lia|lia|]. replace (3 + i - 3 - i) with 0 by lia. reflexivity.
  - eapply Forall_impl; [|exact (IH (i + 1) ltac:(lia))]. cbv beta. intros r (A & B & C). splits; [exact A|lia|lia|].
    replace (Z.to_nat (q_cseq r - 3 - i)) with (S (Z.to_nat (q_cseq r - 3 - (i + 1)))) by lia. exact C.
Qed.
Lemma plan_setups uri id ms : Forall (fun r => q_auth r = [] /\ nth_error (plan uri ms) (Z.to_nat (q_cseq r - 1)) = Some (wish_of r)) (setups uri id 0 ms).
Proof.
  eapply Forall_impl; [|exact (set_up_nth uri id ms 0 ltac:(lia))]. cbv beta. intros r (A & B & C). split; [exact A|]. unfold plan.
  rewrite nth_error_app2 by (cbn [length]; lia). cbn [length]. rewrite nth_error_app1 by (rewrite set_up_length; unfold zlen in B; lia).
  rewrite <- C. f_equal. lia.
Qed.

(* ---- how far things are ---- *)
Inductive phase := AskedOptions | AskedDescribe | AskedSetup (d : list Z) | AtReady | Await (o : order) | Told (o : order) | Rests (o : order) | Rung (o : order) | Over.
Definition holds (n : Z) (q : list (Z * request)) (P : list Z) : Prop :=
  forall k, (In k P -> exists req, qget q k = Some req /\ q_verb req = verb_no n k) /\ (~ In k P -> qget q k = None).
Definition base (n : Z) (ph : phase) : Z :=
  match ph with
  | AskedOptions => 18 + 2 * n | AskedDescribe => 16 + 2 * n | AskedSetup _ => 16 | AtReady => 16
  | Await Play => 13 | Told Play => 13 | Rests Play => 12 | Rung Play => 11
  | Await Pause => 8 | Told Pause => 8 | Rests Pause => 7 | Rung Pause => 6
  | Await Teardown => 3 | Told Teardown => 3 | Rests Teardown => 2 | Rung Teardown => 1
  | Over => 0
  end.
(* P: requests without a response read; st: stage; cs: last number; cst: stage the client knows; running, ticked: its timer *)
Definition phase_ok (ms : list media) (ph : phase) (P : list Z) (st : Z) (fs : list feed) (idx cs cst : Z) (running ticked : bool) (stg : option Z) (ft : fate) : Prop :=
  match ph with
  | AskedOptions => P = [1] /\ st = 0 /\ fs = [] /\ idx = 0 /\ cs = 1 /\ cst = 0 /\ running = false /\ ticked = false /\ stg = None /\ ft = Goes
  | AskedDescribe => P = [2] /\ st = 0 /\ fs = [] /\ idx = 0 /\ cs = 2 /\ cst = 0 /\ running = false /\ ticked = false /\ stg = None /\ ft = Goes
  | AskedSetup d => Permutation (d ++ P) (from_z 2 (length ms)) /\ P <> [] /\ waiting fs (from_z 2 (length ms)) d /\ st = 0 /\ idx = zlen d /\
      cs = 2 + zlen ms /\ cst = 0 /\ running = false /\ ticked = false /\ stg = None /\ ft = Goes
  | AtReady => P = [] /\ st = 1 /\ cs = 2 + zlen ms /\ cst = 0 /\ running = false /\ ticked = false /\ stg = Some 1 /\ ft = Goes
  | Await o => P = [1 + zlen ms + order_stage o] /\ st = order_stage o - 1 /\ cs = 1 + zlen ms + order_stage o /\ cst = order_stage o - 1 /\ running = false /\ ticked = false /\ stg = None /\ ft = Goes
  | Told o => P = [] /\ st = order_stage o /\ cs = 1 + zlen ms + order_stage o /\ cst = order_stage o - 1 /\ running = false /\ ticked = false /\ stg = Some (order_stage o) /\ ft = Goes
  | Rests o => P = [] /\ st = order_stage o /\ cs = 1 + zlen ms + order_stage o /\ cst = order_stage o /\ running = true /\ ticked = false /\ stg = None /\ ft = Goes
  | Rung o => P = [] /\ st = order_stage o /\ cs = 1 + zlen ms + order_stage o /\ cst = order_stage o /\ running = false /\ ticked = true /\ stg = None /\ ft = Goes
  | Over => P = [] /\ st = 4 /\ cs = 5 + zlen ms /\ cst = 4 /\ stg = None /\ ft = Returns
  end.
Definition packet_ok (x : Z * bytes) : Prop := takeable (Frame (fst x) (snd x)).

Record flows (ms : list media) (P ks done : list Z) (items : list item) (q : list (Z * request)) (cs : Z) (log : list effect) (data : list (Z * bytes)) (snk : sink) (uri : bytes) : Prop := {
  fl_carries : carries ms items ks;
  fl_once : NoDup ks;
  fl_pending : incl ks P;
  fl_distinct : NoDup P;
  fl_done : forall k, In k done <-> (1 <= k <= cs /\ (~ In k P \/ In k ks));
  fl_range : forall k, In k P -> 1 <= k <= cs;
  fl_queue : holds (zlen ms) q P;
  fl_numbers : map q_cseq (sent_requests log) = from_z 0 (Z.to_nat cs);
  fl_verbs : Forall (fun r => q_verb r = verb_no (zlen ms) (q_cseq r)) (sent_requests log);
  fl_asks : Forall (fun r => q_auth r = [] /\ nth_error (plan uri ms) (Z.to_nat (q_cseq r - 1)) = Some (wish_of r)) (sent_requests log);
  fl_count : 1 <= cs <= 5 + zlen ms;
  fl_few : 2 < cs -> zlen ms <= 2049;
  fl_data : Forall packet_ok data;
  fl_sink : 0 <= s_don snk < 2 ^ 16 }.

Inductive inv (ms : list media) user uri rnd : scene -> Z -> Prop :=
| inv_intro ph P ks done items sinks st q id fs idx verbs cs log cst snk running ticked stg data ft :
    phase_ok ms ph P st fs idx cs cst running ticked stg ft ->
    flows ms P ks done items q cs log data snk uri ->
    inv ms user uri rnd
      (mkX (mkY (wor rnd (ses user uri sinks st q id fs idx verbs cs) (flat_map item_stream items) log) Live (mkC cst snk running ticked) stg data ft) done)
      (base (zlen ms) ph + 2 * zlen P - zlen ks + load items + zlen data).

Lemma base_pos n ph : 0 <= n -> 0 <= base n ph.
Proof. intros H. destruct ph as [| |d| |[]|[]|[]|[]|]; cbn [base]; lia. Qed.
Lemma inv_pos ms user uri rnd x w : inv ms user uri rnd x w -> 0 <= w.
Proof.
  intros I. destruct I as [ph P ks done items sinks st q id fs idx verbs cs log cst snk running ticked stg data ft HP HF].
  pose proof (base_pos (zlen ms) ph (zlen_nonneg ms)). pose proof (load_pos items). pose proof (zlen_nonneg data). pose proof (zlen_nonneg P).
  pose proof (NoDup_incl_length (fl_once _ _ _ _ _ _ _ _ _ _ _ HF) (fl_pending _ _ _ _ _ _ _ _ _ _ _ HF)). unfold zlen in *. lia.
Qed.

(* ---- the beginning ---- *)
Lemma inv_start ms user uri rnd : inv ms user uri rnd (mkX (launch (wor rnd (dialled ProtoTCP user uri) [] [])) []) (20 + 2 * zlen ms).
Proof.
  pose proof (zlen_nonneg ms) as Pm. unfold launch.
  assert (E : options (wor rnd (dialled ProtoTCP user uri) [] []) =
    (wor rnd (ses user uri [] 0 (qset [] 1 (options_request uri)) [] [] 0 [] 1) [] [Sent false (options_request uri)], Ok tt)) by reflexivity.
  rewrite E. clear E.
  pose proof (inv_intro ms user uri rnd AskedOptions [1] [] [] [] [] 0 (qset [] 1 (options_request uri)) [] [] 0 [] 1 [Sent false (options_request uri)] 0 new_sink false false None [] Goes) as I.
  cbn [base] in I. change (zlen [1]) with 1 in I. change (zlen (@nil Z)) with 0 in I. change (zlen (@nil (Z * bytes))) with 0 in I. change (load []) with 0 in I.
  replace (18 + 2 * zlen ms + 2 * 1 - 0 + 0 + 0) with (20 + 2 * zlen ms) in I by lia. apply I; clear I.
  - cbn [phase_ok]. splits; reflexivity.
  - constructor.
    + constructor.
    + constructor.
    + intros k [].
    + repeat constructor. intros [].
    + intros k. cbn [In]. split; [intros []|]. intros [H [N|[]]]. apply N. left. lia.
    + intros k [<-|[]]. lia.
    + intros k. cbn [In]. split.
      * intros [<-|[]]. exists (options_request uri). split; reflexivity.
      * intros N. rewrite qget_set. destruct (k =? 1) eqn:X; [exfalso; apply N; left; lia|reflexivity].
    + reflexivity.
    + repeat constructor.
    + repeat constructor.
    + lia.
    + lia.
    + constructor.
    + vm_compute. split; [discriminate|reflexivity].
Qed.

(* ---- the server's steps ---- *)
Lemma In_snoc (k x : Z) l : In k (l ++ [x]) <-> In k l \/ k = x.
Proof. rewrite in_app_iff. cbn [In]. intuition. Qed.
Lemma NoDup_snoc (x : Z) l : NoDup l -> ~ In x l -> NoDup (l ++ [x]).
Proof. intros N I. rewrite <- (rev_involutive (l ++ [x])). apply NoDup_rev. rewrite rev_app_distr. cbn [rev app]. constructor; [rewrite <- in_rev; exact I|apply NoDup_rev; exact N]. Qed.
Lemma zlen_app {A} (a b : list A) : zlen (a ++ b) = zlen a + zlen b.
Proof. unfold zlen. rewrite app_length. lia. Qed.
Lemma flat_stream_snoc items i : flat_map item_stream (items ++ [i]) = flat_map item_stream items ++ item_stream i.
Proof. rewrite flat_map_app. cbn [flat_map]. rewrite app_nil_r. reflexivity. Qed.
Lemma fits_weigh ms v n i : fits ms v n i -> weigh i = 0.
Proof. intros (_ & G & _). destruct i; [destruct G|reflexivity|destruct G]. Qed.

Lemma answer_step ms user uri rnd y done w r i : inv ms user uri rnd (mkX y done) w ->
  In r (sent_requests (w_log (y_w y))) -> ~ In (q_cseq r) done -> fits ms (q_verb r) (q_cseq r) i ->
  inv ms user uri rnd (mkX (arrives y (item_stream i)) (q_cseq r :: done)) (w - 1).
Proof.
  intros I Ir Nd Ft. inversion I as [ph P ks done' items sinks st q id fs idx verbs cs log cst snk running ticked stg data ft HP HF]; subst. cbn [y_w wor w_log] in Ir. destruct HF.
  rewrite Forall_forall in fl_verbs0. rewrite (fl_verbs0 _ Ir) in Ft. set (k := q_cseq r) in *.
  assert (Rk : 1 <= k <= cs).
  { assert (X : In k (from_z 0 (Z.to_nat cs))) by (rewrite <- fl_numbers0; apply in_map; exact Ir). apply from_z_in in X. lia. }
  assert (Pk : In k P) by (destruct (in_dec Z.eq_dec k P) as [X|X]; [exact X|]; exfalso; apply Nd, fl_done0; auto).
  assert (Nk : ~ In k ks) by (intros X; apply Nd, fl_done0; auto).
  change (arrives _ _) with (mkY (wor rnd (ses user uri sinks st q id fs idx verbs cs) (flat_map item_stream items ++ item_stream i) log) Live (mkC cst snk running ticked) stg data ft).
  rewrite <- flat_stream_snoc.
  replace (base (zlen ms) ph + 2 * zlen P - zlen ks + load items + zlen data - 1) with (base (zlen ms) ph + 2 * zlen P - zlen (ks ++ [k]) + load (items ++ [i]) + zlen data).
  2: { rewrite load_app, zlen_app. cbn [load fold_right]. rewrite (fits_weigh _ _ _ _ Ft). change (zlen [k]) with 1. lia. }
  apply inv_intro; [exact HP|]. constructor; try assumption.
  - apply carries_app; [assumption|]. apply ca_answer; [exact Ft|constructor].
  - apply NoDup_snoc; assumption.
  - intros x X. apply In_snoc in X as [X| ->]; auto.
  - intros x. rewrite In_snoc. cbn [In]. rewrite fl_done0. split.
    + intros [<-|X]; [split; auto|tauto].
    + intros (H & [X|[X|X]]); auto.
  - apply Forall_forall. exact fl_verbs0.
Qed.

Lemma noise_step ms user uri rnd y done w i : inv ms user uri rnd (mkX y done) w -> item_ok i -> takeable i ->
  inv ms user uri rnd (mkX (arrives y (item_stream i)) done) (w + weigh i).
Proof.
  intros I K T. inversion I as [ph P ks done' items sinks st q id fs idx verbs cs log cst snk running ticked stg data ft HP HF]; subst. destruct HF.
  change (arrives _ _) with (mkY (wor rnd (ses user uri sinks st q id fs idx verbs cs) (flat_map item_stream items ++ item_stream i) log) Live (mkC cst snk running ticked) stg data ft).
  rewrite <- flat_stream_snoc.
  replace (base (zlen ms) ph + 2 * zlen P - zlen ks + load items + zlen data + weigh i) with (base (zlen ms) ph + 2 * zlen P - zlen ks + load (items ++ [i]) + zlen data).
  2: { rewrite load_app. cbn [load fold_right]. lia. }
  apply inv_intro; [exact HP|]. constructor; try assumption.
  rewrite <- (app_nil_r ks). apply carries_app; [assumption|]. apply ca_noise; [assumption..|constructor].
Qed.

(* ---- the client's own steps ---- *)
(* a command of the client goes out *)
Lemma sent_one log rq : sent_requests (log ++ [Sent false rq]) = sent_requests log ++ [rq].
Proof. rewrite sent_requests_app. reflexivity. Qed.
Lemma flows_command ms ks done items q cs log data snk rq uri : flows ms [] ks done items q cs log data snk uri ->
  cs + 1 <= 5 + zlen ms -> 2 < cs + 1 <= 2 + zlen ms \/ zlen ms <= 2049 -> q_cseq rq = cs + 1 -> q_verb rq = verb_no (zlen ms) (cs + 1) ->
  q_auth rq = [] -> nth_error (plan uri ms) (Z.to_nat cs) = Some (wish_of rq) ->
  zlen ms <= 2049 ->
  flows ms [cs + 1] ks done items (qset q (cs + 1) rq) (cs + 1) (log ++ [Sent false rq]) data snk uri.
Proof.
  intros F B _ C V A P L. destruct F. assert (ks = []) as -> by (apply incl_l_nil; exact fl_pending0). constructor; try assumption.
  - intros x [].
  - repeat constructor. intros [].
  - intros k. rewrite fl_done0. cbn [In]. split; intros (H & X).
    + split; [lia|]. left. intros [Y|[]]. lia.
    + split; [|left; intros []]. destruct X as [X|[]]. assert (k <> cs + 1) by (intros Y; apply X; left; lia). lia.
  - intros k [<-|[]]. lia.
  - intros k. cbn [In]. rewrite qget_set. destruct (fl_queue0 k) as [_ Q]. split.
    + intros [<-|[]]. rewrite Z.eqb_refl. eauto.
    + intros N. destruct (k =? cs + 1) eqn:X; [exfalso; apply N; left; lia|]. apply Q. intros [].
  - rewrite sent_one, map_app, fl_numbers0. cbn [map]. rewrite C. replace (Z.to_nat (cs + 1)) with (Z.to_nat cs + 1)%nat by lia. rewrite from_z_app. cbn [from_z]. f_equal. f_equal. lia.
  - rewrite sent_one. apply Forall_app. split; [assumption|]. repeat constructor. rewrite C. exact V.
  - rewrite sent_one. apply Forall_app. split; [assumption|]. repeat constructor; [exact A|]. rewrite C. replace (cs + 1 - 1) with cs by lia. exact P.
  - lia.
  - lia.
Qed.
(* nothing is asked, nothing is under way but noise *)
Lemma flows_idle ms ks done items q cs log data snk uri : flows ms [] ks done items q cs log data snk uri -> ks = [].
Proof. intros F. apply incl_l_nil. exact (fl_pending _ _ _ _ _ _ _ _ _ _ _ F). Qed.

Lemma stage_step ms user uri rnd y done w y' : inv ms user uri rnd (mkX y done) w -> ms <> [] -> ystep y YStage = Some y' -> inv ms user uri rnd (mkX y' done) (w - 1).
Proof.
  intros I Ne S. pose proof (zlen_nonneg ms) as Pm.
  inversion I as [ph P ks done' items sinks st q id fs idx verbs cs log cst snk running ticked stg data ft HP HF]; subst. unfold ystep in S. cbn [y_fate y_stage] in S.
  destruct ft; try discriminate. destruct stg as [n|]; [|discriminate].
  destruct ph as [| |d| |o|o|o|o|]; cbn [phase_ok] in HP; try (decompose [and] HP; discriminate).
  - destruct HP as (-> & -> & -> & -> & -> & -> & X & _). injection X as ->. unfold on_stage in S. change (1 =? StageReady) with true in S. cbv iota in S. cbn [y_w y_c] in S. unfold play, with_conn in S.
    change (s_conn (w_s (wor rnd (ses user uri sinks 1 q id fs idx verbs (2 + zlen ms)) (flat_map item_stream items) log))) with true in S. cbv iota in S.
    assert (L : zlen ms <= 2049) by (apply (fl_few _ _ _ _ _ _ _ _ _ _ _ HF); destruct ms; [contradiction|rewrite zlen_cons; pose proof (zlen_nonneg ms); lia]).
    rewrite command_talk in S by lia. cbn [must] in S. cbn [wor ses w_s s_uri] in S. injection S as <-. fold (ses user uri sinks 1) . cbn [c_sink c_running c_ticked y_c y_loop y_data].
    set (rq := mkReq (bs "PLAY") (2 + zlen ms + 1) uri [] id []).
    pose proof (inv_intro ms user uri rnd (Await Play) [2 + zlen ms + 1] ks done items sinks 1 (qset q (2 + zlen ms + 1) rq) id fs idx verbs (2 + zlen ms + 1) (log ++ [Sent false rq]) 1 snk false false None data Goes) as J.
    pose proof (flows_idle _ _ _ _ _ _ _ _ _ _ HF) as ->.
    replace (base (zlen ms) AtReady + 2 * zlen (@nil Z) - zlen (@nil Z) + load items + zlen data - 1) with (base (zlen ms) (Await Play) + 2 * zlen [2 + zlen ms + 1] - zlen (@nil Z) + load items + zlen data).
    2: { cbn [base]. change (zlen (@nil Z)) with 0. change (zlen [2 + zlen ms + 1]) with 1. lia. }
    apply J; clear J.
    + cbn [phase_ok order_stage]. splits; try reflexivity; [f_equal; lia|lia].
    + apply flows_command; [exact HF|lia|right; lia|reflexivity| |reflexivity| |exact L].
      * cbn [rq q_verb]. replace (2 + zlen ms + 1) with (1 + zlen ms + order_stage Play) by (cbn [order_stage]; lia). rewrite verb_order by lia. reflexivity.
      * replace (2 + zlen ms) with (1 + zlen ms + order_stage Play - 1) by (cbn [order_stage]; lia). apply plan_order.
  - destruct HP as (-> & -> & -> & -> & -> & -> & X & _). injection X as ->. unfold on_stage in S. cbn [c_sink c_running c_ticked y_c y_w y_loop y_data] in S.
    replace (order_stage o =? StageReady) with false in S by (destruct o; reflexivity). replace ((order_stage o =? StagePlay) || (order_stage o =? StagePause) || (order_stage o =? StageDone)) with true in S by (destruct o; reflexivity).
    injection S as <-.
    replace (base (zlen ms) (Told o) + 2 * zlen (@nil Z) - zlen ks + load items + zlen data - 1) with (base (zlen ms) (Rests o) + 2 * zlen (@nil Z) - zlen ks + load items + zlen data) by (destruct o; cbn [base]; change (zlen (@nil Z)) with 0; lia).
    apply inv_intro; [|exact HF]. cbn [phase_ok]. splits; reflexivity.
Qed.

Lemma expire_step ms user uri rnd y done w y' : inv ms user uri rnd (mkX y done) w -> ystep y YExpire = Some y' -> inv ms user uri rnd (mkX y' done) (w - 1).
Proof.
  intros I S. inversion I as [ph P ks done' items sinks st q id fs idx verbs cs log cst snk running ticked stg data ft HP HF]; subst. unfold ystep in S. cbn [y_fate y_c c_running c_state c_sink y_w y_loop y_stage y_data] in S.
  destruct ft; try discriminate. destruct running; [|discriminate]. injection S as <-.
  destruct ph as [| |d| |o|o|o|o|]; cbn [phase_ok] in HP; try (decompose [and] HP; discriminate).
  destruct HP as (-> & -> & -> & -> & _ & _ & -> & _).
  replace (base (zlen ms) (Rests o) + 2 * zlen (@nil Z) - zlen ks + load items + zlen data - 1) with (base (zlen ms) (Rung o) + 2 * zlen (@nil Z) - zlen ks + load items + zlen data) by (destruct o; cbn [base]; change (zlen (@nil Z)) with 0; lia).
  apply inv_intro; [|exact HF]. cbn [phase_ok]. splits; reflexivity.
Qed.

Definition after (o : order) : phase := match o with Play => Await Pause | Pause => Await Teardown | Teardown => Over end.
Lemma tick_step ms user uri rnd y done w y' : inv ms user uri rnd (mkX y done) w -> ystep y YTick = Some y' -> inv ms user uri rnd (mkX y' done) (w - 1).
Proof.
  intros I S. pose proof (zlen_nonneg ms) as Pm. inversion I as [ph P ks done' items sinks st q id fs idx verbs cs log cst snk running ticked stg data ft HP HF]; subst. unfold ystep in S. cbn [y_fate y_c c_ticked c_running c_state c_sink y_w y_loop y_stage y_data] in S.
  destruct ft; try discriminate. destruct ticked; [|discriminate].
  destruct ph as [| |d| |o|o|o|o|]; cbn [phase_ok] in HP; try (decompose [and] HP; discriminate).
  destruct HP as (-> & -> & -> & -> & -> & _ & -> & _). pose proof (flows_idle _ _ _ _ _ _ _ _ _ _ HF) as ->.
  assert (L : zlen ms <= 2049) by (apply (fl_few _ _ _ _ _ _ _ _ _ _ _ HF); destruct o; cbn [order_stage]; lia).
  assert (K : forall o2, order_stage o2 = order_stage o + 1 -> forall w2 c2,
     must (command (wor rnd (ses user uri sinks (order_stage o) q id fs idx verbs (1 + zlen ms + order_stage o)) (flat_map item_stream items) log) (order_verb o2) uri []) (mkC (order_stage o) snk false false) = (w2, c2, Goes) ->
     base (zlen ms) (Rung o) = base (zlen ms) (Await o2) + 3 ->
     inv ms user uri rnd (mkX (mkY w2 Live c2 None data Goes) done) (base (zlen ms) (Rung o) + 2 * zlen (@nil Z) - zlen (@nil Z) + load items + zlen data - 1)).
  { intros o2 Eo w2 c2 E B. rewrite command_talk in E by (destruct o; cbn [order_stage]; lia). remember (1 + zlen ms + order_stage o + 1) as k eqn:Ek0 in E.
    assert (Ek : k = 1 + zlen ms + order_stage o2) by lia. cbv beta iota zeta delta [must] in E. injection E as <- <-.
    set (rq := mkReq (order_verb o2) k uri [] id (fold_left (fun (h : header) e => header_set h (fst e) (snd e)) [] [])).
    replace (base (zlen ms) (Rung o) + 2 * zlen (@nil Z) - zlen (@nil Z) + load items + zlen data - 1) with (base (zlen ms) (Await o2) + 2 * zlen [k] - zlen (@nil Z) + load items + zlen data).
    2: { rewrite B. change (zlen (@nil Z)) with 0. change (zlen [k]) with 1. lia. }
    apply inv_intro.
    - cbn [phase_ok]. splits; [f_equal; exact Ek|lia|exact Ek|lia|reflexivity..].
    - rewrite Ek0. apply flows_command; [exact HF|destruct o2; cbn [order_stage] in *; lia|right; lia|reflexivity| |reflexivity| |exact L].
      + cbn [rq q_verb]. replace (1 + zlen ms + order_stage o + 1) with (1 + zlen ms + order_stage o2) by lia. rewrite verb_order by lia. reflexivity.
      + replace (1 + zlen ms + order_stage o) with (1 + zlen ms + order_stage o2 - 1) by lia. apply plan_order. }
  destruct o; cbn [order_stage] in S; unfold on_tick in S; cbn [c_state] in S.
  - change (2 =? StagePlay) with true in S. cbv iota in S. unfold pause, with_conn in S.
    change (s_conn (w_s (wor rnd (ses user uri sinks 2 q id fs idx verbs (1 + zlen ms + 2)) (flat_map item_stream items) log))) with true in S. cbv iota in S.
    destruct (must _ _) as [[w2 c2] f2] eqn:E in S. assert (f2 = Goes) as -> by (rewrite command_talk in E by lia; cbn [must] in E; congruence). injection S as <-.
    apply (K Pause); [reflexivity|exact E|reflexivity].
  - change (3 =? StagePlay) with false in S. change (3 =? StagePause) with true in S. cbv iota in S. unfold teardown, with_conn in S.
    change (s_conn (w_s (wor rnd (ses user uri sinks 3 q id fs idx verbs (1 + zlen ms + 3)) (flat_map item_stream items) log))) with true in S. cbv iota in S.
    destruct (must _ _) as [[w2 c2] f2] eqn:E in S. assert (f2 = Goes) as -> by (rewrite command_talk in E by lia; cbn [must] in E; congruence). injection S as <-.
    apply (K Teardown); [reflexivity|exact E|reflexivity].
  - change (4 =? StagePlay) with false in S. change (4 =? StagePause) with false in S. change (4 =? StageDone) with true in S. cbv iota in S. assert (Ey : forall a b : system, Some a = Some b -> b = a) by congruence. apply Ey in S. subst y'. clear Ey.
    replace (base (zlen ms) (Rung Teardown) + 2 * zlen (@nil Z) - zlen (@nil Z) + load items + zlen data - 1) with (base (zlen ms) Over + 2 * zlen (@nil Z) - zlen (@nil Z) + load items + zlen data) by (cbn [base]; lia).
    apply inv_intro; [|exact HF]. cbn [phase_ok order_stage]. splits; [reflexivity|reflexivity|lia|reflexivity..].
Qed.

Lemma packet_goes c ch p : packet_ok (ch, p) -> sink_ok c -> exists s, on_packet c ch p = (mkC (c_state c) s (c_running c) (c_ticked c), Goes) /\ 0 <= s_don s < 2 ^ 16.
Proof.
  intros (B & T) D. cbn [fst snd] in *. pose proof (packet_sink_ok c ch p B D) as K.
  assert (G : snd (on_packet c ch p) = Goes).
  { destruct (ch mod 2 =? 0) eqn:O.
    - destruct T as (h & payload & L & -> & S). rewrite media_layout by (auto; lia). rewrite S by exact D. reflexivity.
    - destruct T as (L & V & N). destruct (control_cases c ch p B ltac:(pose proof (Z.mod_pos_bound ch 2); lia)) as [[X _]|[[X _]|(_ & _ & X)]]; [unfold control_crash in X; lia| |rewrite X; reflexivity].
      destruct X as (_ & [X|X]); contradiction. }
  unfold on_packet in *. destruct (ch mod 2 =? 0).
  - destruct (rtp_unpack p) as [u|e| |]; try discriminate. destruct (push (c_sink c) (rtp_pl u) (rtp_ts u)) as [s [?|?| |]]; try discriminate. exists s. split; [reflexivity|exact K].
  - destruct (rtcp_unpack p); try discriminate. exists (c_sink c). destruct c. split; [reflexivity|exact D].
Qed.
Lemma packet_step ms user uri rnd y done w y' : inv ms user uri rnd (mkX y done) w -> ystep y YPacket = Some y' -> inv ms user uri rnd (mkX y' done) (w - 1).
Proof.
  intros I S. inversion I as [ph P ks done' items sinks st q id fs idx verbs cs log cst snk running ticked stg data ft HP HF]; subst. unfold ystep in S. cbn [y_fate y_c y_w y_loop y_stage y_data] in S.
  destruct ft; try discriminate. destruct data as [|[ch p] data]; [discriminate|]. destruct HF. apply Forall_cons_iff in fl_data0 as [Hp Hd].
  destruct (packet_goes (mkC cst snk running ticked) ch p Hp fl_sink0) as (s & E & D). rewrite E in S. cbn [c_state c_running c_ticked] in S. injection S as <-.
  rewrite zlen_cons. replace (base (zlen ms) ph + 2 * zlen P - zlen ks + load items + (zlen data + 1) - 1) with (base (zlen ms) ph + 2 * zlen P - zlen ks + load items + zlen data) by lia.
  apply inv_intro; [exact HP|]. constructor; assumption.
Qed.

(* ---- a turn of the session's loop ---- *)
Lemma noise_effects i : sent_requests (noise_log i) = [] /\ stages_in (noise_log i) = [] /\ packets_in (noise_log i) = match i with Frame ch p => [(ch, p)] | _ => [] end.
Proof. destruct i; splits; reflexivity. Qed.

(* what a turn that reads an answer leaves *)
Definition turned (y : system) (w1 : world) (new : list effect) : system := mkY w1 Live (y_c y) (hd_error (stages new)) (y_data y ++ packets new) Goes.
Lemma turn_eq y t1 t2 w1 new y' : y_fate y = Goes -> y_loop y = Live -> turn (y_w y) t1 t2 = (w1, Again) -> w_log w1 = w_log (y_w y) ++ new -> ystep y (YTurn t1 t2) = Some y' ->
  y' = turned y w1 new /\ y_stage y = None.
Proof.
  intros F L T N S. unfold ystep in S. rewrite F, L in S. destruct (y_stage y); [discriminate|]. destruct (zlen (y_data y) <=? 20); [|discriminate]. rewrite T, (news_app _ _ _ N) in S.
  assert (Ey : forall a b : system, Some a = Some b -> b = a) by congruence. apply Ey in S. split; [exact S|reflexivity].
Qed.

Lemma carries_head ms i items ks : carries ms (i :: items) ks ->
  (item_ok i /\ takeable i /\ carries ms items ks) \/ (exists k ks', ks = k :: ks' /\ fits ms (verb_no (zlen ms) k) k i /\ carries ms items ks').
Proof. intros C. inversion C; subst; [left; auto|right; eauto]. Qed.

Lemma one_pending (ks : list Z) k p : NoDup (k :: ks) -> incl (k :: ks) [p] -> k = p /\ ks = [].
Proof.
  intros N I. assert (k = p) as -> by (destruct (I k (or_introl eq_refl)) as [X|[]]; auto). split; [reflexivity|]. destruct ks as [|x ks]; [reflexivity|].
  exfalso. inversion N; subst. apply H1. left. destruct (I x (or_intror (or_introl eq_refl))) as [X|[]]. exact (eq_sym X).
Qed.
Lemma setups_numbers uri id ms : forall i, map q_cseq (setups uri id i ms) = from_z (2 + i) (length ms) /\ Forall (fun r => q_verb r = bs "SETUP" /\ 2 + i < q_cseq r <= 2 + i + zlen ms) (setups uri id i ms).
Proof.
  induction ms as [|m ms IH]; intros i; cbn [setups map length from_z]; [split; [reflexivity|constructor]|]. destruct (IH (i + 1)) as [A B]. cbn [q_cseq]. rewrite A. split.
  - f_equal; [lia|]. f_equal. lia.
  - rewrite zlen_cons. pose proof (zlen_nonneg ms). constructor; [cbn [q_verb q_cseq]; split; [reflexivity|lia]|]. eapply Forall_impl; [|exact B]. cbv beta. intros r (X & Y). split; [exact X|lia].
Qed.

Lemma turn_step ms user uri rnd y done w t1 t2 y' : inv ms user uri rnd (mkX y done) w -> ms <> [] -> Forall sets_ok ms -> w_in (y_w y) <> [] ->
  ystep y (YTurn t1 t2) = Some y' -> inv ms user uri rnd (mkX y' done) (w - 1).
Proof.
  intros I Ne So Ni S. pose proof (zlen_nonneg ms) as Pm.
  inversion I as [ph P ks done' items sinks st q id fs idx verbs cs log cst snk running ticked stg data ft HP HF]; subst. cbn [y_w wor w_in] in Ni.
  assert (ft = Goes) as -> by (unfold ystep in S; cbn [y_fate] in S; destruct ft; try discriminate; reflexivity).
  assert (stg = None) as -> by (unfold ystep in S; cbn [y_fate y_loop y_stage] in S; destruct stg; [discriminate|reflexivity]).
  destruct items as [|i items]; [destruct (Ni eq_refl)|]. clear Ni. pose proof (carries_head _ _ _ _ (fl_carries _ _ _ _ _ _ _ _ _ _ _ HF)) as [(K & T & C)|(k & ks' & -> & Ft & C)].
  - (* noise *)
    set (w1 := wor rnd (ses user uri sinks st q id fs idx verbs cs) (flat_map item_stream items) (log ++ noise_log i)).
    destruct (noise_effects i) as (N1 & N2 & N3).
    apply (turn_eq _ t1 t2 w1 (noise_log i)) in S; [|reflexivity|reflexivity| |reflexivity].
    2: { rewrite (noise_turn _ t1 t2 i (flat_map item_stream items)); [reflexivity|reflexivity|reflexivity|apply takeable_noise; exact T|exact K|reflexivity]. }
    destruct S as [-> _]. unfold turned. cbn [y_c y_data]. change (stages (noise_log i)) with (stages_in (noise_log i)). change (packets (noise_log i)) with (packets_in (noise_log i)). rewrite N2, N3. cbn [hd_error].
    set (more := match i with Frame ch p => [(ch, p)] | _ => [] end).
    replace (base (zlen ms) ph + 2 * zlen P - zlen ks + load (i :: items) + zlen data - 1) with (base (zlen ms) ph + 2 * zlen P - zlen ks + load items + zlen (data ++ more)).
    2: { rewrite zlen_app. cbn [load fold_right]. fold (load items). destruct i; cbn [weigh more] in *; [|destruct T|]; subst more; cbv iota; rewrite ?zlen_cons, ?zlen_nil; lia. }
    unfold w1. apply inv_intro; [exact HP|]. destruct HF. constructor; try assumption.
    + rewrite sent_requests_app, N1, app_nil_r. exact fl_numbers0.
    + rewrite sent_requests_app, N1, app_nil_r. exact fl_verbs0.
    + rewrite sent_requests_app, N1, app_nil_r. exact fl_asks0.
    + apply Forall_app. split; [exact fl_data0|]. unfold more. destruct i; constructor; [exact T|constructor].
  - (* an answer *)
    pose proof (fits_weigh _ _ _ _ Ft) as W0. destruct Ft as (K & G & Fd & Fs).
    assert (Ld : load (i :: items) = load items) by (cbn [load fold_right]; fold (load items); lia). rewrite Ld. clear Ld.
    set (w0 := wor rnd (ses user uri sinks st q id fs idx verbs cs) (flat_map item_stream (i :: items)) log) in *.
    destruct (resp_turn w0 i (flat_map item_stream items) k eq_refl eq_refl K G eq_refl) as (r & Tr & H). specialize (fun w1 E => H w1 t1 t2 E).
    change (upd_in w0 (flat_map item_stream items)) with (wor rnd (ses user uri sinks st q id fs idx verbs cs) (flat_map item_stream items) log) in H.
    assert (Pk : In k P) by (apply (fl_pending _ _ _ _ _ _ _ _ _ _ _ HF); left; reflexivity).
    pose proof (fl_range _ _ _ _ _ _ _ _ _ _ _ HF _ Pk) as Rk. pose proof (fl_count _ _ _ _ _ _ _ _ _ _ _ HF) as Ct. pose proof (fl_few _ _ _ _ _ _ _ _ _ _ _ HF) as Fw.
    assert (Bk : 0 <= k < 2 ^ 63) by (destruct (Z.leb_spec cs 2); lia).
    destruct (tells_grants _ _ _ Tr G Bk) as (Cr & Qr).
    destruct (fl_queue _ _ _ _ _ _ _ _ _ _ _ HF k) as [Hq _]. destruct (Hq Pk) as (req & Gq & Vq). clear Hq.
    assert (HT : handle_response (wor rnd (ses user uri sinks st q id fs idx verbs cs) (flat_map item_stream items) log) r =
      react (wor rnd (ses user uri sinks st (qdel q k) (brings id r) fs idx verbs cs) (flat_map item_stream items) (log ++ [Got r])) req r).
    { rewrite <- Qr. apply handle_talk; [rewrite Qr; exact Gq|lia]. }
    pose proof (fl_once _ _ _ _ _ _ _ _ _ _ _ HF) as On. pose proof (fl_pending _ _ _ _ _ _ _ _ _ _ _ HF) as Pe. pose proof (fl_done _ _ _ _ _ _ _ _ _ _ _ HF) as Dn.
    pose proof (fl_queue _ _ _ _ _ _ _ _ _ _ _ HF) as Qu. pose proof (fl_numbers _ _ _ _ _ _ _ _ _ _ _ HF) as Nu. pose proof (fl_verbs _ _ _ _ _ _ _ _ _ _ _ HF) as Ve. pose proof (fl_asks _ _ _ _ _ _ _ _ _ _ _ HF) as Va.
    pose proof (fl_data _ _ _ _ _ _ _ _ _ _ _ HF) as Da. pose proof (fl_sink _ _ _ _ _ _ _ _ _ _ _ HF) as Sk. pose proof (fl_distinct _ _ _ _ _ _ _ _ _ _ _ HF) as Di.
    destruct ph as [| |d| |o|o|o|o|]; cbn [phase_ok] in HP.
    + (* OPTIONS *)
      destruct HP as (-> & -> & -> & -> & -> & -> & -> & -> & _). destruct (one_pending _ _ _ On Pe) as [-> ->]. rewrite verb_options in *.
      destruct (react_options user uri rnd sinks (qdel q 1) (brings id r) [] 0 verbs 1 (flat_map item_stream items) (log ++ [Got r]) req r Vq ltac:(lia)) as (verbs' & E).
      rewrite E in HT. change (1 + 1) with 2 in *. set (rq := mkReq (bs "DESCRIBE") 2 uri [] (brings id r) [(bs "Accept", bs "application/sdp")]) in *.
      eapply (turn_eq _ t1 t2 _ ([Got r] ++ [Sent false rq])) in S; [|reflexivity|reflexivity|exact (H _ HT)|cbn [wor w_log]; rewrite <- app_assoc; reflexivity].
      destruct S as [-> _]. unfold turned. cbn [y_c y_data app stages packets flat_map hd_error]. rewrite app_nil_r.
      replace (base (zlen ms) AskedOptions + 2 * zlen [1] - zlen [1] + load items + zlen data - 1) with (base (zlen ms) AskedDescribe + 2 * zlen [2] - zlen (@nil Z) + load items + zlen data).
      2: { cbn [base]. change (zlen [1]) with 1. change (zlen [2]) with 1. change (zlen (@nil Z)) with 0. lia. }
      apply inv_intro; [cbn [phase_ok]; splits; reflexivity|]. constructor; try assumption.
      * constructor.
      * intros x [].
      * repeat constructor. intros [].
      * intros x. rewrite Dn. cbn [In]. split; intros (X & Y); (split; [lia|]).
        -- left. intros [Z|[]]. lia.
        -- right. left. destruct Y as [Y|[]]. assert (x <> 2) by (intros Z; apply Y; left; lia). lia.
      * intros x [<-|[]]. lia.
      * intros x. cbn [In]. rewrite qget_set. destruct (Qu x) as [_ Q]. split.
        -- intros [<-|[]]. exists rq. split; reflexivity.
        -- intros N. destruct (x =? 2) eqn:X; [exfalso; apply N; left; lia|]. rewrite qget_del. destruct (x =? 1) eqn:X1; [reflexivity|]. apply Q. intros [Y|[]]. lia.
      * rewrite !sent_requests_app, !map_app, Nu. reflexivity.
      * rewrite !sent_requests_app. apply Forall_app; split; [apply Forall_app; split; [exact Ve|constructor]|constructor; [reflexivity|constructor]].
      * rewrite !sent_requests_app. apply Forall_app; split; [apply Forall_app; split; [exact Va|constructor]|constructor; [split; reflexivity|constructor]].
      * lia.
      * lia.
    + (* DESCRIBE *)
      destruct HP as (-> & -> & -> & -> & -> & -> & -> & -> & _). destruct (one_pending _ _ _ On Pe) as [-> ->]. rewrite verb_describe in *. destruct (Fd eq_refl) as (Bn & Sd).
      assert (L : zlen ms <= 2049).
      { pose proof (parse_few _ _ Sd) as X. destruct i as [ch p|code reason f body|]; [destruct G| |destruct G]. cbn [item_ok body_of_item] in *. destruct K as (_ & _ & _ & _ & Y). lia. }
      destruct (react_describe user uri rnd sinks (qdel q 2) (brings id r) 0 verbs (flat_map item_stream items) (log ++ [Got r]) req r (body_of_item i) ms Vq (tells_body _ _ Tr Bn) Sd ltac:(lia)) as (q' & E & Qa & Qb).
      rewrite E in HT. destruct (sent_all (setups uri (brings id r) 0 ms)) as (X1 & X2 & X3). destruct (setups_numbers uri (brings id r) ms 0) as (Y1 & Y2).
      eapply (turn_eq _ t1 t2 _ ([Got r] ++ map (Sent false) (setups uri (brings id r) 0 ms))) in S; [|reflexivity|reflexivity|exact (H _ HT)|cbn [wor w_log]; rewrite <- app_assoc; reflexivity].
      destruct S as [-> _]. unfold turned. cbn [y_c y_data]. rewrite stages_app, packets_app, X2, X3. cbn [app stages packets flat_map hd_error]. rewrite app_nil_r.
      assert (Lz : zlen (from_z 2 (length ms)) = zlen ms) by (unfold zlen; rewrite from_z_len; reflexivity).
      replace (base (zlen ms) AskedDescribe + 2 * zlen [2] - zlen [2] + load items + zlen data - 1) with (base (zlen ms) (AskedSetup []) + 2 * zlen (from_z 2 (length ms)) - zlen (@nil Z) + load items + zlen data).
      2: { cbn [base]. rewrite Lz. change (zlen [2]) with 1. change (zlen (@nil Z)) with 0. lia. }
      apply inv_intro.
      * cbn [phase_ok]. splits; try reflexivity.
        -- destruct ms; [contradiction|discriminate].
        -- unfold waiting. splits; [apply asked_cseqs|apply from_z_nodup| |intros f _ []]. intros f If _. destruct (asked_media ms 0 f If) as (X & Y). split; [exact X|]. rewrite Forall_forall in So. apply So. exact Y.
      * constructor; try assumption.
        -- constructor.
        -- intros x [].
        -- apply from_z_nodup.
        -- intros x. rewrite Dn. cbn [In]. rewrite from_z_in. unfold zlen in *. split; intros (X & Y); [split; [lia|left; lia]|]. destruct Y as [Y|[]]. split; [lia|]. destruct (Z.eq_dec x 2); [right; left; lia|left; intros [Z|[]]; lia].
        -- intros x X. apply from_z_in in X. unfold zlen. lia.
        -- intros x. rewrite from_z_in. split.
           ++ intros X. destruct (Qa x) as (req' & A & B); [unfold zlen; lia|]. exists req'. split; [exact A|]. rewrite B, verb_setup; [reflexivity|unfold zlen; lia].
           ++ intros N. rewrite Qb by (unfold zlen; lia). rewrite qget_del. destruct (x =? 2) eqn:X; [reflexivity|]. destruct (Qu x) as [_ Q]. apply Q. intros [Y|[]]. lia.
        -- rewrite !sent_requests_app, !map_app, Nu, X1, Y1. cbn [sent_requests flat_map map]. rewrite app_nil_r. replace (Z.to_nat (2 + zlen ms)) with (2 + length ms)%nat by (unfold zlen; lia). rewrite from_z_app. reflexivity.
        -- rewrite !sent_requests_app, X1. apply Forall_app. split; [apply Forall_app; split; [exact Ve|constructor]|]. eapply Forall_impl; [|exact Y2]. cbv beta. intros a (A & B). rewrite A, verb_setup; [reflexivity|lia].
        -- rewrite !sent_requests_app, X1. apply Forall_app. split; [apply Forall_app; split; [exact Va|constructor]|]. apply plan_setups.
        -- lia.
        -- intros _. exact L.
    + (* SETUP *)
      destruct HP as (Pd & Pn & Wa & -> & -> & -> & -> & -> & -> & _). set (cseqs := from_z 2 (length ms)) in *.
      assert (Lz : zlen cseqs = zlen ms) by (unfold zlen, cseqs; rewrite from_z_len; reflexivity).
      assert (ND : NoDup (d ++ P)) by (apply (Permutation_NoDup (Permutation_sym Pd)), from_z_nodup).
      assert (Inc : forall x, In x cseqs <-> In x d \/ In x P) by (intros x; rewrite <- in_app_iff; split; apply Permutation_in; [apply Permutation_sym|]; exact Pd).
      assert (Dj : forall x, In x d -> In x P -> False).
      { intros x X Y. apply in_split in X as (d1 & d2 & ->). rewrite <- app_assoc in ND. cbn [app] in ND. apply NoDup_remove_2 in ND. apply ND. rewrite !in_app_iff. tauto. }
      assert (Rn : forall x, In x P -> 2 < x <= 2 + zlen ms).
      { intros x X. assert (Y : In x cseqs) by (apply Inc; auto). apply from_z_in in Y. unfold zlen. lia. }
      assert (L : zlen ms <= 2049) by (apply Fw; destruct ms; [contradiction|rewrite zlen_cons; pose proof (zlen_nonneg ms); lia]).
      assert (Ld : zlen d + zlen P = zlen ms) by (rewrite <- zlen_app, <- Lz; unfold zlen; rewrite (Permutation_length Pd); reflexivity).
      pose proof (zlen_nonneg P) as PP.
      assert (As : asking q cseqs d).
      { intros x. destruct (Qu x) as [Q1 Q2]. split.
        - intros A B. assert (X : In x P) by (apply Inc in A; tauto). destruct (Q1 X) as (rq & Y & Z). exists rq. split; [exact Y|]. rewrite Z. apply verb_setup. apply Rn. exact X.
        - intros A. apply Q2. intros X. destruct A as [A|A]; [apply A, Inc; auto|exact (Dj x A X)]. }
      rewrite (verb_setup _ _ (Rn _ Pk)) in *.
      destruct (setup_granted user uri rnd sinks q id fs verbs (2 + zlen ms) (flat_map item_stream items) log r (field_of_item i (bs "Transport")) cseqs d) as (s1 & q1 & f1 & new & E & Wa1 & Mm1 & As1 & B1 & B2 & B3); try assumption;
        [rewrite Qr; apply Inc; auto|rewrite Qr; intros X; exact (Dj k X Pk)|apply tells_field; [exact Tr|vm_compute; repeat constructor; congruence]|exact (Fs eq_refl)|lia|].
      clear HT. rewrite Qr in *.
      eapply (turn_eq _ t1 t2 _ new) in S; [|reflexivity|reflexivity|exact (H _ E)|reflexivity].
      destruct S as [-> _]. unfold turned. cbn [y_c y_data]. rewrite B2, B3, app_nil_r, Lz.
      apply in_split in Pk as (p1 & p2 & ->).
      assert (Pd' : Permutation ((k :: d) ++ p1 ++ p2) cseqs).
      { rewrite <- Pd. cbn [app]. rewrite !app_assoc. apply Permutation_middle. }
      assert (Nk : ~ In k (p1 ++ p2)) by (apply NoDup_remove_2; exact Di). apply NoDup_cons_iff in On as [Nks On].
      assert (In' : forall x, In x (p1 ++ k :: p2) <-> x = k \/ In x (p1 ++ p2)) by (intros x; rewrite !in_app_iff; cbn [In]; intuition).
      assert (FL : flows ms (p1 ++ p2) ks' done items q1 (2 + zlen ms) (log ++ new) data snk uri).
      { constructor; try assumption.
        - intros x X. assert (Y : In x (p1 ++ k :: p2)) by (apply Pe; right; exact X). apply In' in Y as [-> |Y]; [contradiction|exact Y].
        - apply NoDup_remove_1 in Di. exact Di.
        - intros x. rewrite Dn, In'. cbn [In]. split; intros (X & Y); (split; [exact X|]).
          + destruct Y as [Y|[Y|Y]]; [left; tauto|subst x; left; exact Nk|right; exact Y].
          + destruct (Z.eq_dec x k) as [->|D]; [right; left; reflexivity|]. destruct Y as [Y|Y]; [left; tauto|right; right; exact Y].
        - intros x X. assert (Y : In x (p1 ++ k :: p2)) by (apply In'; auto). apply Rn in Y. lia.
        - intros x. destruct (As1 x) as [A1 A2]. split.
          + intros X. assert (Y : In x (p1 ++ k :: p2)) by (apply In'; auto). destruct A1 as (rq & A & B).
            * apply Inc. right. exact Y.
            * intros [Z|Z]; [subst x; contradiction|exact (Dj x Z Y)].
            * exists rq. split; [exact A|]. rewrite B, verb_setup; [reflexivity|apply Rn; exact Y].
          + intros X. apply A2. destruct (in_dec Z.eq_dec x cseqs) as [Y|Y]; [|left; exact Y]. right. apply Inc in Y as [Y|Y]; [right; exact Y|]. apply In' in Y as [Y|Y]; [left; auto|contradiction].
        - rewrite sent_requests_app, B1, app_nil_r. exact Nu.
        - rewrite sent_requests_app, B1, app_nil_r. exact Ve.
        - rewrite sent_requests_app, B1, app_nil_r. exact Va. }
      assert (LP : zlen (p1 ++ k :: p2) = zlen (p1 ++ p2) + 1) by (rewrite !zlen_app, zlen_cons; lia). rewrite LP in *. rewrite (zlen_cons k ks'). pose proof (zlen_nonneg (p1 ++ p2)) as Pp.
      destruct (zlen d + 1 >=? zlen ms) eqn:Zd.
      * assert (p1 ++ p2 = []) as E0 by (destruct (p1 ++ p2) as [|x l]; [reflexivity|]; rewrite zlen_cons in *; pose proof (zlen_nonneg l); lia). rewrite E0 in *.
        replace (base (zlen ms) (AskedSetup d) + 2 * (zlen (@nil Z) + 1) - (zlen ks' + 1) + load items + zlen data - 1) with (base (zlen ms) AtReady + 2 * zlen (@nil Z) - zlen ks' + load items + zlen data) by (cbn [base]; change (zlen (@nil Z)) with 0; lia).
        apply inv_intro; [|exact FL]. cbn [phase_ok hd_error]. splits; reflexivity.
      * replace (base (zlen ms) (AskedSetup d) + 2 * (zlen (p1 ++ p2) + 1) - (zlen ks' + 1) + load items + zlen data - 1) with (base (zlen ms) (AskedSetup (k :: d)) + 2 * zlen (p1 ++ p2) - zlen ks' + load items + zlen data) by (cbn [base]; lia).
        apply inv_intro; [|exact FL]. cbn [phase_ok hd_error]. splits; try reflexivity; [exact Pd'| |exact Wa1]. intros E0. rewrite E0 in Ld. change (zlen (@nil Z)) with 0 in Ld. lia.
    + destruct HP as (-> & _). destruct Pk.
    + (* PLAY, PAUSE, TEARDOWN *)
      destruct HP as (-> & -> & -> & -> & -> & -> & _). destruct (one_pending _ _ _ On Pe) as [-> ->]. rewrite verb_order in * by lia.
      rewrite (react_order _ _ _ _ _ _ _ _ _ _ _ _ _ req r o Vq Cr) in HT. remember (1 + zlen ms + order_stage o) as cs eqn:Ecs.
      eapply (turn_eq _ t1 t2 _ ([Got r] ++ [Notified (order_stage o)])) in S; [|reflexivity|reflexivity|exact (H _ HT)|cbn [wor w_log]; rewrite <- app_assoc; reflexivity].
      destruct S as [-> _]. unfold turned. cbn [y_c y_data app stages packets flat_map hd_error]. rewrite app_nil_r.
      replace (base (zlen ms) (Await o) + 2 * zlen [cs] - zlen [cs] + load items + zlen data - 1) with (base (zlen ms) (Told o) + 2 * zlen (@nil Z) - zlen (@nil Z) + load items + zlen data).
      2: { change (zlen [cs]) with 1. change (zlen (@nil Z)) with 0. destruct o; cbn [base]; lia. }
      apply inv_intro; [cbn [phase_ok]; splits; try reflexivity; exact Ecs|]. constructor; try assumption.
      * constructor.
      * intros x [].
      * constructor.
      * intros x. rewrite Dn. cbn [In]. split; intros (X & Y); (split; [exact X|]); [left; tauto|]. destruct (Z.eq_dec x cs) as [->|D]; [right; left; reflexivity|left; intros [Z|[]]; auto].
      * intros x [].
      * intros x. cbn [In]. split; [intros []|]. intros _. rewrite qget_del. destruct (x =? cs) eqn:X; [reflexivity|]. destruct (Qu x) as [_ Q]. apply Q. intros [Y|[]]. lia.
      * rewrite !sent_requests_app, !map_app, Nu. cbn [sent_requests flat_map map]. rewrite !app_nil_r. reflexivity.
      * rewrite !sent_requests_app. cbn [sent_requests flat_map]. rewrite !app_nil_r. exact Ve.
      * rewrite !sent_requests_app. cbn [sent_requests flat_map]. rewrite !app_nil_r. exact Va.
    + destruct HP as (-> & _). destruct Pk.
    + destruct HP as (-> & _). destruct Pk.
    + destruct HP as (-> & _). destruct Pk.
    + destruct HP as (-> & _). destruct Pk.
Qed.

(* ---- every step ---- *)
Lemma weigh_two i : weigh i <= 2.
Proof. destruct i; cbn; lia. Qed.
Lemma step_inv ms user uri rnd x e x' w : xstep ms x e x' -> ms <> [] -> Forall sets_ok ms -> inv ms user uri rnd x w ->
  exists w', inv ms user uri rnd x' w' /\ w' <= (if is_noise e then w + 2 else w - 1).
Proof.
  intros S Ne So I. destruct S as [y done r i A B C|y done i A B|y done e y' A B]; cbn [is_noise].
  - exists (w - 1). split; [apply answer_step; assumption|lia].
  - exists (w + weigh i). split; [apply noise_step; assumption|pose proof (weigh_two i); lia].
  - exists (w - 1). split; [|lia]. destruct e.
    + eapply turn_step; eauto.
    + eapply stage_step; eauto.
    + eapply packet_step; eauto.
    + eapply tick_step; eauto.
    + eapply expire_step; eauto.
Qed.
Lemma run_inv ms user uri rnd x es x' : xrun ms x es x' -> ms <> [] -> Forall sets_ok ms -> forall w, inv ms user uri rnd x w ->
  exists w', inv ms user uri rnd x' w' /\ w' + proper es <= w + 2 * noises es.
Proof.
  intros R Ne So. induction R as [x|x e x' es x'' S R IH]; intros w I.
  - exists w. split; [exact I|]. unfold proper, noises. cbn [filter]. change (zlen (@nil xevent)) with 0. lia.
  - destruct (step_inv _ _ _ _ _ _ _ _ S Ne So I) as (w1 & I1 & L1). destruct (IH w1 I1) as (w2 & I2 & L2). exists w2. split; [exact I2|].
    unfold proper, noises in *. cbn [filter]. destruct (is_noise e); cbn [negb]; rewrite zlen_cons; lia.
Qed.

Lemma inv_moves ms user uri rnd x w : inv ms user uri rnd x w -> y_fate (x_y x) = Goes -> owed x \/ can_move x.
Proof.
  intros I F. destruct I as [ph P ks done items sinks st q id fs idx verbs cs log cst snk running ticked stg data ft HP HF]. cbn [x_y y_fate] in F. subst ft.
  assert (W : P <> [] -> stg = None -> owed (mkX (mkY (wor rnd (ses user uri sinks st q id fs idx verbs cs) (flat_map item_stream items) log) Live (mkC cst snk running ticked) stg data Goes) done) \/
    can_move (mkX (mkY (wor rnd (ses user uri sinks st q id fs idx verbs cs) (flat_map item_stream items) log) Live (mkC cst snk running ticked) stg data Goes) done)).
  { intros N ->. destruct HF. destruct data as [|[ch p] data].
    - destruct items as [|i items].
      + left. inversion fl_carries0; subst. destruct P as [|k P]; [contradiction|]. destruct (fl_range0 k (or_introl eq_refl)) as [R1 R2].
        assert (X : In k (map q_cseq (sent_requests log))) by (rewrite fl_numbers0; apply from_z_in; lia). apply in_map_iff in X as (r & <- & X). exists r. split; [exact X|].
        cbn [x_done]. rewrite fl_done0. intros (_ & [Y|[]]). apply Y. left. reflexivity.
      + right. unfold can_move. cbn [x_y]. destruct (turn (wor rnd (ses user uri sinks st q id fs idx verbs cs) (flat_map item_stream (i :: items)) log) 0 0) as [w1 en] eqn:T.
        exists (YTurn 0 0). unfold ystep. cbn [y_fate y_loop y_stage y_data y_w]. change (zlen (@nil (Z * bytes)) <=? 20) with true. cbv iota. rewrite T. eexists. split; [|reflexivity].
        intros _. cbn [wor w_in flat_map]. destruct (item_stream i) eqn:E; [destruct (item_stream_some _ E)|discriminate].
    - right. unfold can_move. exists YPacket. unfold ystep. cbn [x_y y_fate y_data y_c]. destruct (on_packet (mkC cst snk running ticked) ch p) as [c f]. eexists. split; [discriminate|reflexivity]. }
  destruct ph as [| |d| |o|o|o|o|]; cbn [phase_ok] in HP; decompose [and] HP; clear HP; subst; try (apply W; [discriminate|reflexivity]).
  - apply W; [assumption|reflexivity].
  - right. exists YStage. unfold ystep. cbn [x_y y_fate y_stage]. destruct (on_stage _ _ _) as [[w1 c1] f1]. eexists. split; [discriminate|reflexivity].
  - right. exists YStage. unfold ystep. cbn [x_y y_fate y_stage]. destruct (on_stage _ _ _) as [[w1 c1] f1]. eexists. split; [discriminate|reflexivity].
  - right. exists YExpire. unfold ystep. cbn [x_y y_fate y_c c_running]. eexists. split; [discriminate|reflexivity].
  - right. exists YTick. unfold ystep. cbn [x_y y_fate y_c c_ticked]. destruct (on_tick _ _) as [[w1 c1] f1]. eexists. split; [discriminate|reflexivity].
Qed.

Lemma agenda_numbers ms : map (verb_no (zlen ms)) (from_z 0 (5 + length ms)) = agenda ms.
Proof.
  pose proof (zlen_nonneg ms) as P. replace (5 + length ms)%nat with (2 + (length ms + 3))%nat by lia. rewrite !from_z_app, !map_app. unfold agenda. f_equal. f_equal.
  - change (0 + Z.of_nat 2) with 2. assert (G : forall n k, 2 <= k -> k + Z.of_nat n <= 2 + zlen ms -> map (verb_no (zlen ms)) (from_z k n) = repeat (bs "SETUP") n).
    { induction n as [|n IH]; intros k A B; cbn [from_z map repeat]; [reflexivity|]. rewrite verb_setup by lia. f_equal. apply IH; lia. }
    rewrite G by (unfold zlen; lia). clear. induction ms as [|m ms IH]; cbn [length repeat map]; [reflexivity|]. f_equal. exact IH.
  - cbn [from_z map]. replace (0 + Z.of_nat 2 + Z.of_nat (length ms) + 1) with (1 + zlen ms + order_stage Play) by (cbn [order_stage]; unfold zlen; lia). rewrite verb_order by exact P.
    replace (1 + zlen ms + order_stage Play + 1) with (1 + zlen ms + order_stage Pause) by (cbn [order_stage]; lia). rewrite verb_order by exact P.
    replace (1 + zlen ms + order_stage Pause + 1) with (1 + zlen ms + order_stage Teardown) by (cbn [order_stage]; lia). rewrite verb_order by exact P. reflexivity.
Qed.
Lemma inv_orderly ms user uri rnd x w : inv ms user uri rnd x w ->
  numbers_sent (x_y x) = map Z.of_nat (seq 1 (length (verbs_sent (x_y x)))) /\ verbs_sent (x_y x) = firstn (length (verbs_sent (x_y x))) (agenda ms) /\ y_loop (x_y x) = Live /\
  (y_fate (x_y x) = Goes \/ y_fate (x_y x) = Returns /\ verbs_sent (x_y x) = agenda ms /\ c_state (y_c (x_y x)) = 4).
Proof.
  intros I. destruct I as [ph P ks done items sinks st q id fs idx verbs cs log cst snk running ticked stg data ft HP HF]. destruct HF. unfold numbers_sent, verbs_sent. cbn [x_y y_w wor w_log y_loop y_fate y_c c_state].
  assert (V : map q_verb (sent_requests log) = map (verb_no (zlen ms)) (from_z 0 (Z.to_nat cs))).
  { rewrite <- fl_numbers0, map_map. apply map_ext_in. intros r Ir. rewrite Forall_forall in fl_verbs0. apply fl_verbs0. exact Ir. }
  assert (Ln : length (map q_verb (sent_requests log)) = Z.to_nat cs) by (rewrite V, map_length, from_z_len; reflexivity).
  assert (Fi : map (verb_no (zlen ms)) (from_z 0 (Z.to_nat cs)) = firstn (Z.to_nat cs) (agenda ms)).
  { rewrite <- agenda_numbers. replace (5 + length ms)%nat with (Z.to_nat cs + (5 + length ms - Z.to_nat cs))%nat by (unfold zlen in *; lia).
    rewrite from_z_app, map_app, firstn_app, map_length, from_z_len, Nat.sub_diag. cbn [firstn]. rewrite app_nil_r. symmetry. apply firstn_all2. rewrite map_length, from_z_len. lia. }
  splits.
  - rewrite fl_numbers0, Ln. clear. enough (G : forall n k j, k + 1 = Z.of_nat j -> from_z k n = map Z.of_nat (seq j n)) by (apply G; reflexivity).
    induction n as [|n IH]; intros k j E; cbn [from_z seq map]; [reflexivity|]. rewrite E. f_equal. apply IH. lia.
  - rewrite Ln, V. exact Fi.
  - reflexivity.
  - destruct ph as [| |d| |o|o|o|o|]; cbn [phase_ok] in HP; try (left; tauto). destruct HP as (_ & _ & -> & -> & _ & ->). right. splits; [reflexivity| |reflexivity].
    rewrite V. replace (Z.to_nat (5 + zlen ms)) with (5 + length ms)%nat by (unfold zlen; lia). apply agenda_numbers.
Qed.

Lemma nth_firstn_map {A B} (f : A -> B) (pl : list B) : forall l k, (forall i x, nth_error l i = Some x -> nth_error pl (k + i) = Some (f x)) -> map f l = firstn (length l) (skipn k pl).
Proof.
  induction l as [|x l IH]; intros k H; [reflexivity|]. cbn [map length]. pose proof (H 0%nat x eq_refl) as E. rewrite Nat.add_0_r in E.
  pose proof (nth_error_split _ _ E) as (a & b & Ep & La). subst pl.
  assert (Sk : skipn k (a ++ f x :: b) = f x :: b) by (rewrite <- La, skipn_app, skipn_all, Nat.sub_diag; reflexivity).
  assert (Sk1 : skipn (S k) (a ++ f x :: b) = b).
  { rewrite <- La. change (S (length a)) with (1 + length a)%nat. rewrite skipn_app. rewrite skipn_all2 by lia. replace (1 + length a - length a)%nat with 1%nat by lia. reflexivity. }
  rewrite Sk. cbn [firstn]. f_equal. rewrite (IH (S k)).
  - rewrite Sk1. reflexivity.
  - intros i y Y. rewrite <- (H (S i) y Y). f_equal. lia.
Qed.
Lemma inv_plan ms user uri rnd x w : inv ms user uri rnd x w ->
  wishes (x_y x) = firstn (length (wishes (x_y x))) (plan uri ms) /\ Forall (fun r => q_auth r = []) (sent_requests (w_log (y_w (x_y x)))).
Proof.
  intros I. destruct I as [ph P ks done items sinks st q id fs idx verbs cs log cst snk running ticked stg data ft HP HF]. destruct HF. unfold wishes. cbn [x_y y_w wor w_log]. split.
  - rewrite map_length. change (plan uri ms) with (skipn 0 (plan uri ms)). apply nth_firstn_map. intros i r E. cbn [Nat.add].
    pose proof (nth_error_In _ _ E) as Ir. rewrite Forall_forall in fl_asks0. destruct (fl_asks0 r Ir) as [_ <-]. f_equal.
    pose proof (map_nth_error q_cseq _ _ E) as N. rewrite fl_numbers0 in N.
    enough (G : forall n k j x, nth_error (from_z k n) j = Some x -> x = k + 1 + Z.of_nat j) by (apply G in N; lia).
    clear. induction n as [|n IH]; intros k [|j] x E; try discriminate; cbn [from_z nth_error] in E; [injection E as <-; lia|]. apply IH in E. lia.
  - eapply Forall_impl; [|exact fl_asks0]. intros r [A _]. exact A.
Qed.

(* ---- a run, computed ---- *)
Definition perform1 (ms : list media) (x : scene) (e : xevent) : option scene :=
  let y := x_y x in
  match e with
  | XAnswer n i => if existsb (fun r => (q_cseq r =? n) && beq (q_verb r) (verb_no (zlen ms) n)) (sent_requests (w_log (y_w y))) && negb (existsb (Z.eqb n) (x_done x))
                   then Some (mkX (arrives y (item_stream i)) (n :: x_done x)) else None
  | XNoise i => Some (mkX (arrives y (item_stream i)) (x_done x))
  | XClient e => if is_turn e && match w_in (y_w y) with [] => true | _ => false end then None
                 else match ystep y e with Some y' => Some (mkX y' (x_done x)) | None => None end
  end.
Fixpoint perform (ms : list media) (x : scene) (es : list xevent) : option scene :=
  match es with [] => Some x | e :: r => match perform1 ms x e with Some x' => perform ms x' r | None => None end end.
Definition allowed (ms : list media) (e : xevent) : Prop :=
  match e with XAnswer n i => fits ms (verb_no (zlen ms) n) n i | XNoise i => item_ok i /\ takeable i | XClient _ => True end.
Lemma perform_run ms es : forall x x', Forall (allowed ms) es -> perform ms x es = Some x' -> xrun ms x es x'.
Proof.
  induction es as [|e es IH]; intros x x' A P; cbn [perform] in P; [injection P as <-; constructor|]. apply Forall_cons_iff in A as [Ae A].
  destruct (perform1 ms x e) as [x1|] eqn:E; [|discriminate]. apply (xr_step ms x e x1); [|apply IH; assumption]. destruct x as [y done]. unfold perform1 in E. cbn [x_y x_done] in E. destruct e as [n i|i|e]; cbn [allowed] in Ae.
  - destruct (_ && _) eqn:X in E; [|discriminate]. injection E as <-. apply andb_prop in X as [X Y]. apply existsb_exists in X as (r & Ir & X). apply andb_prop in X as [X V].
    apply Z.eqb_eq in X. subst n. apply beq_eq in V. apply xs_answer; [exact Ir| |rewrite V; exact Ae]. intros D. enough (Z : existsb (Z.eqb (q_cseq r)) done = true) by (rewrite Z in Y; discriminate).
    apply existsb_exists. exists (q_cseq r). split; [exact D|apply Z.eqb_refl].
  - injection E as <-. destruct Ae. apply xs_noise; assumption.
  - destruct (_ && _) eqn:X in E; [discriminate|]. destruct (ystep y e) as [y'|] eqn:S; [|discriminate]. injection E as <-. apply xs_client; [|exact S]. intros T N. rewrite T, N in X. discriminate.
Qed.

(* deciding that an answer is in order *)
Definition field_fine (f : sfield) : bool :=
  forallb token_byte (f_name f) && negb (beq (f_name f) []) && forallb (Z.eqb 32) (f_blank f) && L_message.plain (f_value f) && beq (trim_space (f_value f)) (f_value f).
Definition body_fine (fields : list sfield) (body : bytes) : bool :=
  match body with
  | [] => match atoi (field_value fields (bs "Content-Length")) with (n, None) => n <=? 0 | _ => true end
  | _ => beq (field_value fields (bs "Content-Length")) (itoa (zlen body))
  end.
Definition answer_fine (n : Z) (i : item) : bool :=
  match i with
  | Resp code reason fields body => (code =? 200) && L_message.plain reason && forallb field_fine fields && body_fine fields body && (zlen body <=? 2048) &&
      beq (field_value fields (bs "CSeq")) (itoa n)
  | _ => false
  end.
Lemma field_fine_ok f : field_fine f = true -> sfield_ok f.
Proof.
  unfold field_fine. intros H. do 4 (apply andb_prop in H as [H ?]). apply beq_eq in H0. unfold sfield_ok. splits; [..|assumption].
  - apply Forall_forall. apply forallb_forall. exact H.
  - intros E. rewrite E in *. discriminate.
  - apply Forall_forall. intros c Ic. rewrite forallb_forall in H2. specialize (H2 _ Ic). lia.
  - apply plain_line. assumption.
Qed.
Lemma answer_fine_ok n i : answer_fine n i = true -> item_ok i /\ grants n i.
Proof.
  destruct i as [|code reason fields body|]; try discriminate. unfold answer_fine. intros H. do 5 (apply andb_prop in H as [H ?]). apply beq_eq in H0. apply Z.eqb_eq in H. subst code.
  unfold item_ok, grants. splits; [lia|lia|apply plain_line; assumption| | |lia|reflexivity|exact H0].
  - apply Forall_forall. intros f F. apply field_fine_ok. rewrite forallb_forall in H3. auto.
  - unfold body_fine, content_ok in *. destruct body; [|apply beq_eq; assumption]. intros k E. rewrite E in *. lia.
Qed.
Lemma answer_fits ms verb n i : answer_fine n i = true -> (verb = bs "DESCRIBE" -> body_of_item i <> [] /\ sdp_parse (body_of_item i) = Ok ms) ->
  (verb = bs "SETUP" -> names_transport i) -> fits ms verb n i.
Proof. intros F D S. destruct (answer_fine_ok n i F). unfold fits. splits; assumption. Qed.
Lemma channels_named k i : 0 <= k < 1000 -> field_of_item i (bs "Transport") = transport_string (new_transport ProtoTCP k) -> names_transport i.
Proof.
  intros K E t. rewrite E, parse_transport_string; [reflexivity|]. unfold new_transport. rewrite i64_small by lia. unfold transport_ok, pair_ok, text_ok. cbn -[Z.pow].
  splits; try lia; intuition discriminate.
Qed.

(* ---- at the end nothing is owed ---- *)
Lemma inv_settled ms user uri rnd x w : inv ms user uri rnd x w -> y_fate (x_y x) = Returns -> ~ owed x.
Proof.
  intros I R (r & Ir & Nr). destruct I as [ph P ks done items sinks st q id fs idx verbs cs log cst snk running ticked stg data ft HP HF]. cbn [x_y y_fate y_w wor w_log x_done] in R, Ir, Nr. subst ft.
  assert (EP : P = []) by (destruct ph as [| |d| | | | | |]; cbn [phase_ok] in HP; decompose [and] HP; try discriminate; assumption). subst P. apply Nr. apply (fl_done _ _ _ _ _ _ _ _ _ _ _ HF).
  split; [|left; intros []]. apply (in_map q_cseq) in Ir. rewrite (fl_numbers _ _ _ _ _ _ _ _ _ _ _ HF) in Ir. apply from_z_in in Ir. lia.
Qed.
