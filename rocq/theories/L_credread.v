(* Lemmas: the credentials of a history, read by the server. *)
From Coq Require Import String.
From Verif Require Import Base GoStrings M_conn M_message M_transport M_sdp M_digest M_sps M_session S_digest S_session S_handshake S_authfield S_creds L_base L_strings L_session L_flow L_creds P_authfield.

Lemma creds_history (proto : Z) (user : option (bytes * bytes)) (uri : bytes) (w : world) (es : list event) (w' : world) (l' : life) (log rest : list effect) :
  w_s w = dialled proto user uri -> w_log w = [] -> Forall bytes_ok (w_rand w) -> proto <> ProtoHTTP ->
  M_session.run (w, Live) es = (w', l') -> w_log w' = log ++ rest -> rightly uri user log.
Proof.
  intros S L R P E X. assert (C : creds uri user w).
  { unfold creds. rewrite S, L. splits; try reflexivity; try assumption.
    - intros a b Z0. symmetry in Z0. apply app_eq_nil in Z0 as [-> _]. left. split; [reflexivity|constructor].
    - left. splits; try reflexivity. constructor. }
  apply (run_creds uri user) in E; [|exact C]. destruct E as (_ & _ & _ & _ & PF & _). exact (PF _ _ X).
Qed.

Lemma renewals_calls vs : renewals (map (fun x : request => Call (q_verb x) []) vs) = 0.
Proof. induction vs as [|v vs IH]; [reflexivity|]. exact IH. Qed.
Lemma renewals_calls_ok vs : renewals_ok (map (fun x : request => Call (q_verb x) []) vs).
Proof. induction vs as [|v vs IH]; [exact I|]. exact IH. Qed.

Lemma creds_read (proto : Z) (user : option (bytes * bytes)) (uri : bytes) (w : world) (es : list event) (w' : world) (l' : life) (l1 l2 : list effect) (again : bool) (q : request) :
  w_s w = dialled proto user uri -> w_log w = [] -> Forall bytes_ok (w_rand w) -> proto <> ProtoHTTP ->
  M_session.run (w, Live) es = (w', l') -> w_log w' = l1 ++ Sent again q :: l2 -> q_auth q <> [] ->
  exists r d name pass, In (Got r) l1 /\ p_code r = 401 /\ user = Some (name, pass) /\ new_digest uri (header_get (p_header r) (bs "WWW-Authenticate")) = Ok d /\
    (d_basic d = true -> bytes_ok name -> bytes_ok pass -> (basic_read (q_auth q) = Some (name, pass) <-> ~ In 58 name)) /\
    (d_basic d = false -> unescaped uri -> unescaped name -> unescaped (d_realm d) -> unescaped (d_nonce d) -> unescaped (d_opaque d) -> unescaped (d_algorithm d) -> unescaped (d_qop d) ->
     exists l, auth_read (q_auth q) = Some l /\ says (mkChal (d_realm d) (d_nonce d) (d_opaque d) (d_algorithm d) (d_qop d)) uri name l).
Proof.
  intros S L R P E X A. assert (X' : w_log w' = (l1 ++ [Sent again q]) ++ l2) by (rewrite <- app_assoc; exact X).
  destruct (creds_history _ _ _ _ _ _ _ _ _ S L R P E X') as [(_ & F)|(b & r & q0 & t & d & n & p & rnd & EL & RT & C & U & B & D & M)].
  { exfalso. unfold sent_requests in F. rewrite flat_map_app in F. apply Forall_app in F as [_ F]. inversion F; subst. contradiction. }
  exists r, d, n, p.
  assert (Q : In q (q0 :: sent_requests t)).
  { destruct (list_last_dec t) as [->|(m & z & ->)].
    - change (b ++ [Got r; Sent true q0]) with (b ++ ([Got r] ++ [Sent true q0])) in EL. rewrite app_assoc in EL. apply app_inj_tail in EL as [_ EL]. injection EL as _ <-. left. reflexivity.
    - replace (b ++ Got r :: Sent true q0 :: m ++ [z]) with ((b ++ Got r :: Sent true q0 :: m) ++ [z]) in EL by (rewrite <- app_assoc; reflexivity).
      apply app_inj_tail in EL as [_ <-]. right. unfold sent_requests. rewrite flat_map_app. apply in_or_app. right. left. reflexivity. }
  assert (Q' : In (q_auth q) (session_calls d n p rnd (map (fun x => Call (q_verb x) []) (q0 :: sent_requests t)))) by (rewrite <- M; apply in_map; exact Q).
  splits; try assumption.
  - destruct (list_last_dec t) as [->|(m & z & ->)].
    + change (b ++ [Got r; Sent true q0]) with (b ++ ([Got r] ++ [Sent true q0])) in EL. rewrite app_assoc in EL. apply app_inj_tail in EL as [-> _]. apply in_or_app. right. left. reflexivity.
    + replace (b ++ Got r :: Sent true q0 :: m ++ [z]) with ((b ++ Got r :: Sent true q0 :: m) ++ [z]) in EL by (rewrite <- app_assoc; reflexivity).
      apply app_inj_tail in EL as [-> _]. apply in_or_app. right. left. reflexivity.
  - intros BA b1 b2. pose proof (C142_basic_partial d n p rnd (map (fun x => Call (q_verb x) []) (q0 :: sent_requests t)) BA b1 b2) as G. rewrite Forall_forall in G. exact (G _ Q').
  - intros BA u1 u2 u3 u4 u5 u6 u7. assert (RN : 1 + renewals (map (fun x => Call (q_verb x) []) (q0 :: sent_requests t)) < 2 ^ 32) by (rewrite renewals_calls; reflexivity).
    pose proof (C142_digest_partial uri _ d n p rnd (map (fun x => Call (q_verb x) []) (q0 :: sent_requests t)) D BA RN B (renewals_calls_ok _) u1 u2 u3 u4 u5 u6 u7) as G.
    rewrite Forall_forall in G. exact (G _ Q').
Qed.
