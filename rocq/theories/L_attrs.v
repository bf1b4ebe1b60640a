(* Lemmas for C127 and C128: the attributes of a section, one after the other. *)
From Coq Require Import String Permutation.
From Verif Require Import Base GoStrings S_sdp M_sdp L_base L_strings L_sdp S_attrs P_sdp.

Definition effect (m : media) (a : attr) : media :=
  match a with
  | AControl uri => with_control m uri
  | ARtpmap pt name rate _ => with_rtpmap (with_timescale (with_type m (codec_of name (m_type m))) rate) pt
  | AFmtp _ ps => mkMedia (m_type m) (m_timescale m) (m_control m) (m_rtpmap m) (last_of config_of (map snd ps) (m_config m))
      (m_sprops m ++ sprops_of (map snd ps)) (m_payload_type m) (last_of sizelength_of (map snd ps) (m_sizelength m)) (last_of indexlength_of (map snd ps) (m_indexlength m))
  | AOther _ => m
  end.

Lemma effect_comm a b m : NoDup (kind a ++ kind b) -> effect (effect m a) b = effect (effect m b) a.
Proof.
  intros N. destruct a, b; try reflexivity;
    (cbn [kind app] in N; inversion N as [|? ? X _]; exfalso; apply X; left; reflexivity).
Qed.

Lemma effects_perm a b : Permutation a b -> NoDup (flat_map kind a) -> forall m, fold_left effect a m = fold_left effect b m.
Proof.
  induction 1 as [|x a b P IH|x y a|a b c P1 IH1 P2 IH2]; intros N m.
  - reflexivity.
  - cbn [fold_left]. apply IH. cbn [flat_map] in N. revert N. clear. induction (kind x); intros N; [exact N|]. inversion N; auto.
  - cbn [fold_left]. rewrite (effect_comm y x); [reflexivity|]. cbn [flat_map] in N. rewrite app_assoc in N.
    revert N. generalize (kind y ++ kind x). clear. intros l. induction l as [|z l IH]; intros N; [constructor|]. inversion N; subst. constructor; [|auto].
    intros I. apply H1. apply in_or_app. auto.
  - rewrite IH1 by exact N. apply IH2. eapply Permutation_NoDup; [|exact N]. apply Permutation_flat_map. exact P1.
Qed.

Lemma other_not_media l a : says l a -> attr_ok a -> ~ media_line l.
Proof.
  intros S K (v & E). unfold says in S. rewrite E in S. destruct a as [uri|pt name rate tail|pt ps|line]; try discriminate.
  cbn [attr_text attr_ok] in *. subst line. destruct K as [K|[(k & x & K & N & M & A)|(t & K & _)]].
  - apply K. right; left; reflexivity.
  - destruct k as [|c k]; [discriminate|]. cbn [app] in K. inversion K as [[E1 E2]]. destruct k as [|d k].
    + apply M. rewrite <- E1. reflexivity.
    + cbn [app] in E2. inversion E2. subst d. apply N. right; left; reflexivity.
  - discriminate.
Qed.

Lemma other_says_nothing ls done m l : Forall one_line (ls ++ [l]) -> in_video ls -> sdp_parse (body_of ls) = Ok (done ++ [m]) ->
  other_line (trim_space l) -> sdp_parse (body_of (ls ++ [l])) = Ok (done ++ [m]).
Proof.
  intros O V E [K|[(k & v & K & N & M & A)|(t & K & N1 & N2 & N3 & Nc & Nr)]].
  - rewrite parse_body in * by (try exact O; apply Forall_app in O; apply O). rewrite sdp_lines_app.
    destruct (sdp_lines ([], None) ls) as [s| | |] eqn:E1; try discriminate. cbn [bind] in *. cbn [sdp_lines].
    unfold sdp_line. rewrite split2_none by exact K. cbn [bind]. exact E.
  - rewrite parse_body in * by (try exact O; apply Forall_app in O; apply O). rewrite sdp_lines_app.
    destruct (sdp_lines ([], None) ls) as [s| | |] eqn:E1; try discriminate. cbn [bind] in *. cbn [sdp_lines].
    unfold sdp_line. rewrite K, split2_app by exact N.
    rewrite (proj2 (beq_neq k (bs "m")) M), (proj2 (beq_neq k (bs "a")) A). cbn [bind]. exact E.
  - rewrite (attr_appended ls done m l t O V E K). rewrite split2_none by exact N1. cbn [fold_left]. unfold attr_field.
    rewrite attr_semi_none, attr_slash_none by assumption. unfold attr_colon.
    destruct (cut 58 t) as [[x y]|] eqn:C.
    + apply cut_some in C. destruct C as (-> & Nx). rewrite split2_app by exact Nx.
      destruct (beq x (bs "control")) eqn:B1; [apply beq_eq in B1; subst x; exfalso; apply (Nc y); reflexivity|].
      destruct (beq x (bs "rtpmap")) eqn:B2; [apply beq_eq in B2; subst x; exfalso; apply (Nr y); reflexivity|]. reflexivity.
    + apply cut_none_inv in C. rewrite split2_none by exact C. reflexivity.
Qed.

Lemma attr_effect ls done m l a : Forall one_line (ls ++ [l]) -> in_video ls -> sdp_parse (body_of ls) = Ok (done ++ [m]) ->
  says l a -> attr_ok a -> sdp_parse (body_of (ls ++ [l])) = Ok (done ++ [effect m a]).
Proof.
  intros O V E S K. unfold says in S. destruct a as [uri|pt name rate tail|pt ps|line]; cbn [attr_text attr_ok] in *.
  - destruct K as (N1 & N2 & N3). rewrite (C43_control_only_partial ls done m l uri O V E S N1 N2), N3. reflexivity.
  - destruct K as (Hp & Hr & N1 & N2 & N3 & T & T1 & T2). rewrite (C43_rtpmap ls done m l pt name rate tail O V E S Hp Hr N1 N2 N3 T T1 T2). reflexivity.
  - destruct K as (L & F & N & G). destruct ps as [|[b p] [|q ps]]; cbn [length] in L; try lia.
    rewrite (C43_fmtp_exact ls done m l pt b p (q :: ps) O V E S ltac:(discriminate) F (Forall_inv N)), G. reflexivity.
  - rewrite <- S in K. rewrite (other_says_nothing ls done m l O V E K). reflexivity.
Qed.

Lemma in_video_snoc ls l : in_video ls -> ~ media_line l -> in_video (ls ++ [l]).
Proof.
  intros (a & ml & b & -> & V & F) N. exists a, ml, (b ++ [l]). splits; [rewrite <- app_assoc; reflexivity|exact V|]. apply Forall_app. auto.
Qed.

Lemma attrs_effect ats : forall ls ls' done m, Forall one_line (ls ++ ls') -> in_video ls -> sdp_parse (body_of ls) = Ok (done ++ [m]) ->
  Forall2 says ls' ats -> Forall attr_ok ats -> sdp_parse (body_of (ls ++ ls')) = Ok (done ++ [fold_left effect ats m]).
Proof.
  induction ats as [|a ats IH]; intros ls ls' done m O V E S K; inversion S; subst.
  - rewrite app_nil_r. exact E.
  - apply Forall_cons_iff in K as [K1 K]. cbn [fold_left].
    replace (ls ++ x :: l) with ((ls ++ [x]) ++ l) in * by (rewrite <- app_assoc; reflexivity).
    apply IH; [exact O|apply in_video_snoc; [exact V|eapply other_not_media; eauto]| |assumption|exact K].
    apply attr_effect; auto. apply Forall_app in O. apply O.
Qed.

Lemma section_effect ml ls ats port proto pt tail : Forall one_line (ml :: ls) ->
  trim_space ml = bs "m=video " ++ port ++ bs " " ++ proto ++ bs " " ++ itoa pt ++ tail ->
  ~ In 32 port -> ~ In 32 proto -> - 2 ^ 63 <= pt < 2 ^ 63 -> (tail = [] \/ exists x, tail = 32 :: x) ->
  Forall2 says ls ats -> Forall attr_ok ats ->
  sdp_parse (body_of (ml :: ls)) = Ok [fold_left effect ats (mkMedia 0 0 [] 0 [] [] pt 0 0)].
Proof.
  intros O T P1 P2 Hp Ht S K. change (ml :: ls) with ([ml] ++ ls). change [?x] with ([] ++ [x]).
  apply attrs_effect; [exact O| | |exact S|exact K].
  - exists [], ml, []. splits; [reflexivity| |constructor]. exists (port ++ bs " " ++ proto ++ bs " " ++ itoa pt ++ tail). exact T.
  - cbn [app body_of]. destruct (C41_media_line ml [] port proto pt tail) as (E & _); auto. constructor; [exact (Forall_inv O)|constructor].
Qed.

(* what the attributes after the last rtpmap leave as it is *)
Lemma keeps_clock ats : forall m, ~ In 2 (flat_map kind ats) -> let m' := fold_left effect ats m in
  m_type m' = m_type m /\ m_timescale m' = m_timescale m /\ m_rtpmap m' = m_rtpmap m.
Proof.
  induction ats as [|a ats IH]; intros m N m'; [subst m'; auto|]. subst m'. cbn [fold_left]. cbn [flat_map] in N.
  assert (N2 : ~ In 2 (flat_map kind ats)) by (intros I; apply N; apply in_or_app; auto).
  destruct (IH (effect m a) N2) as (A & B & C). rewrite A, B, C.
  destruct a; try (splits; reflexivity). exfalso. apply N. left; reflexivity.
Qed.

Lemma keeps_payload ats : forall m, m_payload_type (fold_left effect ats m) = m_payload_type m.
Proof. induction ats as [|a ats IH]; intros m; [reflexivity|]. cbn [fold_left]. rewrite IH. destruct a; reflexivity. Qed.

Lemma all_sprops ats : forall m, m_sprops (fold_left effect ats m) = m_sprops m ++ flat_map (fun a => match a with AFmtp _ ps => sprops_of (map snd ps) | _ => [] end) ats.
Proof.
  induction ats as [|a ats IH]; intros m; [cbn; rewrite app_nil_r; reflexivity|]. cbn [fold_left flat_map]. rewrite IH. destruct a; cbn [effect with_control with_rtpmap with_timescale with_type m_sprops app]; try reflexivity.
  rewrite <- app_assoc. reflexivity.
Qed.

Lemma codec_known name old : codec_of name 0 <> 0 -> codec_of name old = codec_of name 0.
Proof. unfold codec_of. destruct (beq _ _); [reflexivity|]. destruct (beq _ _); [reflexivity|]. intros H; congruence. Qed.

Lemma last_rtpmap a pt name rate tail b m : ~ In 2 (flat_map kind b) -> let m' := fold_left effect (a ++ ARtpmap pt name rate tail :: b) m in
  m_rtpmap m' = pt /\ m_timescale m' = rate /\ (codec_of name 0 <> 0 -> m_type m' = codec_of name 0).
Proof.
  intros N m'. subst m'. rewrite fold_left_app. cbn [fold_left].
  destruct (keeps_clock b (effect (fold_left effect a m) (ARtpmap pt name rate tail)) N) as (A & B & C). rewrite A, B, C. splits; try reflexivity.
  intros K. cbn [effect with_rtpmap with_timescale with_type m_type]. apply codec_known. exact K.
Qed.
