(* Lemmas about the SDP model. *)
From Coq Require Import String.
From Verif Require Import Base GoStrings S_sdp M_sdp L_base L_strings L_rtp.
From Coq Require Import ZifyBool ZifyNat.

Lemma body_join l : body_of l = join 10 l.
Proof. induction l as [|x [|y l] IH]; [reflexivity|reflexivity|]. cbn [body_of join] in *. rewrite IH. reflexivity. Qed.

Lemma split_body l : Forall one_line l -> split_on 10 (body_of l) = match l with [] => [[]] | _ => l end.
Proof. intros F. rewrite body_join. destruct l as [|x l]; [reflexivity|]. apply split_join; [discriminate|exact F]. Qed.

Lemma sdp_lines_app a : forall s b, sdp_lines s (a ++ b) = let! s' := sdp_lines s a in sdp_lines s' b.
Proof.
  induction a as [|l a IH]; intros s b; cbn [app sdp_lines bind]; [reflexivity|].
  destruct (sdp_line s l); cbn [bind]; auto.
Qed.

(* the kinds of line *)
Definition line_video (l : bytes) : bool := has_prefix (bs "m=video ") (trim_space l).

Lemma sdp_line_empty s : sdp_line s [] = Ok s.
Proof. reflexivity. Qed.

(* parsing a line reads the state only through its feeds *)
Definition extend (pre : list media) (s : sdp_state) : sdp_state := (pre ++ fst s, snd s).

Lemma all_extend pre s : all_feeds (extend pre s) = pre ++ all_feeds s.
Proof. destruct s as [d [m|]]; cbn; [rewrite app_assoc|]; reflexivity. Qed.

Definition rmap {A B} (f : A -> B) (r : res A) : res B := match r with Ok a => Ok (f a) | Err e => Err e | Panic => Panic | Fuel => Fuel end.

Lemma sdp_line_extend pre s l : sdp_line (extend pre s) l = rmap (extend pre) (sdp_line s l).
Proof.
  unfold sdp_line. destruct (split2 61 (trim_space l)) as [|key [|val [|x r]]]; try reflexivity.
  cbv zeta. destruct (beq key (bs "m")).
  - destruct (beq (hd [] (split2 32 val)) (bs "video")).
    + destruct (split2 32 val) as [|f0 [|f1 [|x r]]]; try reflexivity. cbn [rmap]. unfold extend at 2. cbn [fst snd].
      rewrite all_extend. reflexivity.
    + cbn [rmap]. unfold extend at 2. cbn [fst snd]. rewrite all_extend. reflexivity.
  - destruct (beq key (bs "a")); [|reflexivity]. destruct s as [d [m|]]; reflexivity.
Qed.

Lemma sdp_lines_extend pre ls : forall s, sdp_lines (extend pre s) ls = rmap (extend pre) (sdp_lines s ls).
Proof.
  induction ls as [|l ls IH]; intros s; [reflexivity|]. cbn [sdp_lines]. rewrite sdp_line_extend.
  destruct (sdp_line s l); cbn [rmap bind]; auto.
Qed.

(* a media line forgets the open feed *)
Lemma media_line_close s l : media_line l -> sdp_line s l = sdp_line (all_feeds s, None) l.
Proof.
  intros [v E]. unfold sdp_line. rewrite E. change (bs "m=" ++ v) with (bs "m" ++ 61 :: v).
  rewrite split2_app by (apply absent_spec; reflexivity). reflexivity.
Qed.

Lemma sdp_line_kinds s l : (exists s', sdp_line s l = Ok s') \/ (sdp_line s l = Panic /\ bare_video_line l).
Proof.
  unfold sdp_line, bare_video_line. destruct (split2 61 (trim_space l)) as [|key [|val [|x r]]] eqn:E; try (left; eauto; fail).
  cbv zeta. destruct (beq key (bs "m")) eqn:Em.
  - destruct (beq (hd [] (split2 32 val)) (bs "video")) eqn:Ev; [|left; eauto].
    unfold split2 in *. destruct (cut 32 val) as [[f0 f1]|] eqn:Ec; [left; eauto|]. right. split; [reflexivity|].
    cbn [hd] in Ev. apply beq_eq in Em, Ev. subst.
    destruct (cut 61 (trim_space l)) as [[a b]|] eqn:E1; [|discriminate]. injection E as -> ->.
    apply cut_some in E1 as [E1 _]. rewrite E1. reflexivity.
  - left. destruct (beq key (bs "a")); [|eauto]. destruct s as [d [m|]]; eauto.
Qed.

Lemma bare_panics s l : bare_video_line l -> sdp_line s l = Panic.
Proof. intros E. unfold sdp_line. rewrite E. reflexivity. Qed.

Lemma sdp_lines_kinds ls : forall s, (exists s', sdp_lines s ls = Ok s') /\ Forall (fun l => ~ bare_video_line l) ls \/
  sdp_lines s ls = Panic /\ Exists bare_video_line ls.
Proof.
  induction ls as [|l ls IH]; intros s; [left; split; [exists s; reflexivity|constructor]|]. cbn [sdp_lines].
  destruct (sdp_line_kinds s l) as [[s' E]|[E B]]; rewrite E; cbn [bind].
  - assert (N : ~ bare_video_line l) by (intros B; rewrite (bare_panics s l B) in E; discriminate).
    destruct (IH s') as [[H1 H2]|[H1 H2]]; [left; split; [exact H1|constructor; assumption]|right; split; [exact H1|constructor 2; exact H2]].
  - right. split; [reflexivity|]. constructor; exact B.
Qed.

(* lines that open no feed *)
Lemma sdp_line_novideo d l : ~ video_line l -> ~ bare_video_line l -> sdp_line (d, None) l = Ok (d, None).
Proof.
  intros N B. destruct (sdp_line_kinds (d, None) l) as [[s' E]|[_ E]]; [|contradiction].
  revert E. unfold sdp_line. destruct (split2 61 (trim_space l)) as [|key [|val [|x r]]] eqn:Es; try reflexivity.
  cbv zeta. destruct (beq key (bs "m")) eqn:Em; [|destruct (beq key (bs "a")); reflexivity].
  destruct (beq (hd [] (split2 32 val)) (bs "video")) eqn:Ev; [|reflexivity].
  exfalso. unfold split2 in *. apply beq_eq in Em. subst key.
  destruct (cut 61 (trim_space l)) as [[a b]|] eqn:E1; [|discriminate]. injection Es as -> ->.
  apply cut_some in E1 as [E1 _].
  destruct (cut 32 val) as [[f0 f1]|] eqn:Ec; cbn [hd] in Ev; apply beq_eq in Ev; subst.
  - apply cut_some in Ec as [-> _]. apply N. exists f1. rewrite E1. reflexivity.
  - apply B. unfold bare_video_line. rewrite E1. reflexivity.
Qed.

Lemma sdp_lines_novideo ls d : Forall (fun l => ~ video_line l) ls -> Forall (fun l => ~ bare_video_line l) ls ->
  sdp_lines (d, None) ls = Ok (d, None).
Proof.
  induction ls as [|l ls IH]; intros F B; [reflexivity|]. apply Forall_cons_iff in F as [F1 F2]. apply Forall_cons_iff in B as [B1 B2].
  cbn [sdp_lines]. rewrite sdp_line_novideo by assumption. cbn [bind]. auto.
Qed.

Lemma video_line_opens s l : video_line l -> exists m, sdp_line s l = Ok (all_feeds s, Some m).
Proof.
  intros [v E]. unfold sdp_line. rewrite E.
  change (bs "m=video " ++ v) with (bs "m" ++ 61 :: (bs "video" ++ 32 :: v)).
  rewrite split2_app by (apply absent_spec; reflexivity). cbv zeta.
  change (beq (bs "m") (bs "m")) with true. cbv iota.
  rewrite split2_app by (apply absent_spec; reflexivity). cbn [hd].
  change (beq (bs "video") (bs "video")) with true. cbv iota. eauto.
Qed.

Lemma attr_keeps d m l : ~ media_line l -> exists m', sdp_line (d, Some m) l = Ok (d, Some m').
Proof.
  intros N. unfold sdp_line. destruct (split2 61 (trim_space l)) as [|key [|val [|x r]]] eqn:Es; eauto.
  cbv zeta. destruct (beq key (bs "m")) eqn:Em; [|destruct (beq key (bs "a")); eauto].
  exfalso. apply N. unfold split2 in Es. apply beq_eq in Em. subst key.
  destruct (cut 61 (trim_space l)) as [[a b]|] eqn:E1; [|discriminate]. injection Es as -> ->.
  apply cut_some in E1 as [E1 _]. exists val. rewrite E1. reflexivity.
Qed.

Lemma attrs_keep ls : forall d m, Forall (fun l => ~ media_line l) ls -> exists m', sdp_lines (d, Some m) ls = Ok (d, Some m').
Proof.
  induction ls as [|l ls IH]; intros d m F; [exists m; reflexivity|]. apply Forall_cons_iff in F as [F1 F2]. cbn [sdp_lines].
  destruct (attr_keeps d m l F1) as [m' E]. rewrite E. cbn [bind]. auto.
Qed.

(* ---- attributes ---- *)
Lemma upper_key_absent s c t : ~ In c t -> In c (to_upper s) -> to_upper s <> t.
Proof. intros H I E. rewrite E in I. auto. Qed.

Lemma attr_line d m val : trim_space (bs "a=" ++ val) = bs "a=" ++ val ->
  sdp_line (d, Some m) (bs "a=" ++ val) = Ok (d, Some (fold_left attr_field (split2 32 val) m)).
Proof.
  intros T. unfold sdp_line. rewrite T. change (bs "a=" ++ val) with (bs "a" ++ 61 :: val).
  rewrite split2_app by (apply absent_spec; reflexivity). reflexivity.
Qed.

Lemma attr_semi_none m f : ~ In 59 f -> attr_semi m f = m.
Proof. intros H. unfold attr_semi. rewrite split_on_none by exact H. reflexivity. Qed.

Lemma attr_colon_none m f : ~ In 58 f -> attr_colon m f = m.
Proof. intros H. unfold attr_colon. rewrite split2_none by exact H. reflexivity. Qed.

Lemma attr_slash_none m f : ~ In 47 f -> attr_slash m f = m.
Proof. intros H. unfold attr_slash. rewrite split_on_none by exact H. reflexivity. Qed.

Lemma with_timescale_id m : with_timescale m (m_timescale m) = m.
Proof. destruct m; reflexivity. Qed.
Lemma with_type_id m : with_type m (m_type m) = m.
Proof. destruct m; reflexivity. Qed.

Lemma parse_body ls : Forall one_line ls ->
  sdp_parse (body_of ls) = let! s := sdp_lines ([], None) ls in Ok (all_feeds s).
Proof. intros O. unfold sdp_parse. rewrite split_body by exact O. destruct ls; reflexivity. Qed.

Lemma in_video_state ls : in_video ls -> forall done m, Forall one_line ls -> sdp_parse (body_of ls) = Ok (done ++ [m]) ->
  sdp_lines ([], None) ls = Ok (done, Some m).
Proof.
  intros (a & ml & b & -> & V & F) done m O E. rewrite parse_body in E by exact O.
  rewrite sdp_lines_app in *. destruct (sdp_lines ([], None) a) as [s| | |] eqn:Ea; cbn [bind] in *; try discriminate.
  cbn [sdp_lines] in *. destruct (video_line_opens s ml V) as [m0 Em]. rewrite Em in *. cbn [bind] in *.
  destruct (attrs_keep b (all_feeds s) m0 F) as [m1 E1]. rewrite E1 in *. cbn [bind] in E.
  assert (E' : all_feeds s ++ [m1] = done ++ [m]) by (apply Ok_inj in E; exact E). apply app_inj_tail in E' as [-> ->]. reflexivity.
Qed.

Lemma attr_appended ls done m l val : Forall one_line (ls ++ [l]) -> in_video ls -> sdp_parse (body_of ls) = Ok (done ++ [m]) ->
  trim_space l = bs "a=" ++ val ->
  sdp_parse (body_of (ls ++ [l])) = Ok (done ++ [fold_left attr_field (split2 32 val) m]).
Proof.
  intros O V E T. apply Forall_app in O as O'. destruct O' as [O1 _]. pose proof (in_video_state ls V done m O1 E) as S.
  rewrite parse_body by exact O.
  rewrite sdp_lines_app, S. cbn [bind sdp_lines]. unfold sdp_line. rewrite T.
  change (bs "a=" ++ val) with (bs "a" ++ 61 :: val). rewrite split2_app by (apply absent_spec; reflexivity). reflexivity.
Qed.

(* slash pieces *)
Lemma attr_slash_exact m f : (forall p r, split_on 47 f = p :: r -> codec_of p (m_type m) = m_type m) ->
  attr_slash m f = with_timescale m (match slash_number f with Some n => n | None => m_timescale m end).
Proof.
  intros H. unfold attr_slash, slash_number. destruct (split_on 47 f) as [|k [|v r]]; try (rewrite with_timescale_id; reflexivity).
  specialize (H k (v :: r) eq_refl). unfold codec_of in H.
  destruct (atoi v) as [n [e|]].
  - rewrite with_timescale_id. destruct (beq (to_upper k) (bs "MPEG4-GENERIC")); [rewrite H; apply with_type_id|].
    destruct (beq (to_upper k) (bs "H264")); [rewrite H; apply with_type_id|reflexivity].
  - destruct (beq (to_upper k) (bs "MPEG4-GENERIC")); [rewrite H, with_type_id; reflexivity|].
    destruct (beq (to_upper k) (bs "H264")); [rewrite H, with_type_id; reflexivity|reflexivity].
Qed.

Lemma split_first c s : exists p r, split_on c s = p :: r /\ exists t, s = p ++ t.
Proof.
  induction s as [|x s (p & r & E & t & T)]; [exists [], []; split; [reflexivity|exists []; reflexivity]|].
  cbn [split_on]. destruct (x =? c).
  - exists [], (split_on c s). split; [reflexivity|]. exists (x :: s). reflexivity.
  - rewrite E. exists (x :: p), r. split; [reflexivity|]. exists t. cbn [app]. rewrite <- T. reflexivity.
Qed.

Lemma split_prefix c a s p r : ~ In c a -> split_on c s = p :: r -> split_on c (a ++ s) = (a ++ p) :: r.
Proof.
  induction a as [|x a IH]; intros N E; [exact E|]. cbn [app split_on].
  destruct (x =? c) eqn:Ex; [exfalso; apply N; left; lia|]. rewrite (IH (fun h => N (or_intror h)) E). reflexivity.
Qed.

Lemma slash_number_prefix a s : ~ In 47 a -> slash_number (a ++ s) = slash_number s.
Proof.
  intros N. destruct (split_on_nonempty 47 s) as (p & r & E). unfold slash_number. rewrite (split_prefix 47 a s p r N E), E. reflexivity.
Qed.

(* a name starting with the given ASCII letter keeps it in upper case *)
Lemma to_upper_head a s : 0 <= a < 128 -> exists r, to_upper (a :: s) = upper1 a :: r.
Proof.
  intros H. cbn [to_upper]. destruct s as [|b s]; [eauto|].
  repeat match goal with |- context [(a =? ?k) && ?x] => replace (a =? k) with false by lia; cbn [andb] end. eauto.
Qed.

Lemma codec_head a s old : 0 <= a < 128 -> upper1 a <> 72 -> upper1 a <> 77 -> codec_of (a :: s) old = old.
Proof.
  intros H N1 N2. destruct (to_upper_head a s H) as [r E]. unfold codec_of. rewrite E.
  replace (beq (upper1 a :: r) (bs "MPEG4-GENERIC")) with false; [replace (beq (upper1 a :: r) (bs "H264")) with false; [reflexivity|]|];
    symmetry; apply beq_neq; intros X; injection X; intros; contradiction.
Qed.

(* ---- control ---- *)
Lemma control_field m v : ~ In 59 v ->
  attr_field m (bs "control:" ++ v) = with_timescale (with_control m v) (match slash_number v with Some n => n | None => m_timescale m end).
Proof.
  intros N. unfold attr_field. rewrite attr_semi_none by (intros I; apply in_app_or in I as [I|I]; [revert I; apply absent_spec; reflexivity|auto]).
  assert (C : attr_colon m (bs "control:" ++ v) = with_control m v).
  { unfold attr_colon. change (bs "control:" ++ v) with (bs "control" ++ 58 :: v).
    rewrite split2_app by (apply absent_spec; reflexivity). reflexivity. }
  rewrite C, attr_slash_exact.
  - rewrite slash_number_prefix by (apply absent_spec; reflexivity). reflexivity.
  - intros p r E. destruct (split_on_nonempty 47 v) as (q & t & Eq). rewrite (split_prefix 47 (bs "control:") v q t) in E; [|apply absent_spec; reflexivity|exact Eq].
    injection E as <- _. apply (codec_head 99); [lia| |]; vm_compute; congruence.
Qed.

Lemma fold_param_control ps : forall m, m_control (fold_left attr_param ps m) = m_control m.
Proof.
  induction ps as [|p ps IH]; intros m; [reflexivity|]. cbn [fold_left]. rewrite IH. unfold attr_param.
  destruct (split2 61 p) as [|k [|v [|x r]]]; try reflexivity.
  repeat match goal with |- context [if ?c then _ else _] => destruct c end; reflexivity.
Qed.

Lemma semi_control m f : m_control (attr_semi m f) = m_control m.
Proof. unfold attr_semi. destruct (split_on 59 f) as [|a [|b r]]; try reflexivity. apply fold_param_control. Qed.

Lemma slash_control m f : m_control (attr_slash m f) = m_control m.
Proof.
  unfold attr_slash. destruct (split_on 47 f) as [|a [|b r]]; try reflexivity.
  destruct (beq (to_upper a) (bs "MPEG4-GENERIC")), (beq (to_upper a) (bs "H264")), (atoi b) as [n [e|]]; reflexivity.
Qed.

Lemma control_set m v : m_control (attr_field m (bs "control:" ++ v)) = v.
Proof.
  unfold attr_field. rewrite semi_control, slash_control. unfold attr_colon. change (bs "control:" ++ v) with (bs "control" ++ 58 :: v).
  rewrite split2_app by (apply absent_spec; reflexivity). reflexivity.
Qed.

(* ---- rtpmap ---- *)
Lemma rtpmap_fields m pt name rate tail : 0 <= pt < 2 ^ 63 -> 0 <= rate < 2 ^ 63 ->
  ~ In 47 name -> ~ In 58 name -> ~ In 59 name -> (tail = [] \/ exists x, tail = 47 :: x) -> ~ In 58 tail -> ~ In 59 tail ->
  fold_left attr_field [bs "rtpmap:" ++ itoa pt; name ++ 47 :: itoa rate ++ tail] m =
  with_timescale (with_type (with_rtpmap m pt) (codec_of name (m_type m))) rate.
Proof.
  intros Hp Hr N1 N2 N3 Ht T1 T2. cbn [fold_left].
  assert (Ad : forall z c, c <> 45 -> ~ 48 <= c <= 57 -> ~ In c (itoa z)) by (intros z c A B I; apply itoa_chars in I; lia).
  assert (F1 : attr_field m (bs "rtpmap:" ++ itoa pt) = with_rtpmap m pt).
  { unfold attr_field. rewrite attr_semi_none, attr_slash_none.
    - unfold attr_colon. change (bs "rtpmap:" ++ itoa pt) with (bs "rtpmap" ++ 58 :: itoa pt).
      rewrite split2_app by (apply absent_spec; reflexivity).
      change (beq (bs "rtpmap") (bs "control")) with false. change (beq (bs "rtpmap") (bs "rtpmap")) with true. cbv iota.
      rewrite atoi_itoa by lia. reflexivity.
    - intros I. apply in_app_or in I as [I|I]; [revert I; apply absent_spec; reflexivity|revert I; apply Ad; lia].
    - intros I. apply in_app_or in I as [I|I]; [revert I; apply absent_spec; reflexivity|revert I; apply Ad; lia]. }
  rewrite F1. unfold attr_field.
  assert (G : forall c, c <> 45 -> ~ 48 <= c <= 57 -> c <> 47 -> ~ In c name -> ~ In c tail -> ~ In c (name ++ 47 :: itoa rate ++ tail)).
  { intros c A1 A2 A3 A4 A5 I. apply in_app_or in I as [I|[I|I]]; [auto|lia|]. apply in_app_or in I as [I|I]; [revert I; apply Ad; assumption|auto]. }
  rewrite attr_semi_none by (apply G; auto; lia). rewrite attr_colon_none by (apply G; auto; lia).
  unfold attr_slash. rewrite split_on_app by exact N1.
  assert (E : exists r, split_on 47 (itoa rate ++ tail) = itoa rate :: r).
  { destruct Ht as [->|[x ->]].
    - rewrite app_nil_r. exists []. apply split_on_none. apply Ad; lia.
    - exists (split_on 47 x). apply split_on_app. apply Ad; lia. }
  destruct E as [r E]. rewrite E, atoi_itoa by lia. unfold codec_of.
  destruct (beq (to_upper name) (bs "MPEG4-GENERIC")); [reflexivity|]. destruct (beq (to_upper name) (bs "H264")); [reflexivity|].
  destruct m; reflexivity.
Qed.

(* ---- fmtp ---- *)
Lemma comma_join sets : comma_b64 sets = join 44 (map b64_encode sets).
Proof. induction sets as [|a [|b r] IH]; [reflexivity|reflexivity|]. cbn [comma_b64 map join] in *. rewrite IH. reflexivity. Qed.

Lemma map_decode sets : Forall bytes_ok sets -> map (fun f => fst (b64_decode f)) (map b64_encode sets) = sets.
Proof. induction 1 as [|x l H _ IH]; cbn [map]; [reflexivity|]. rewrite b64_decode_encode by exact H. rewrite IH. reflexivity. Qed.

Lemma split_sprops sets : sets <> [] -> Forall bytes_ok sets -> split_on 44 (comma_b64 sets) = map b64_encode sets.
Proof.
  intros N F. rewrite comma_join. apply split_join; [destruct sets; [contradiction|discriminate]|].
  apply Forall_map. eapply Forall_impl; [|exact F]. intros x B. apply b64_absent; [exact B|]. unfold b64_letter. lia.
Qed.

Lemma trim_left_blanks b s : blanks b -> trim_left (b ++ s) = trim_left s.
Proof. induction 1 as [|x b -> _ IH]; [reflexivity|]. cbn [app trim_left]. exact IH. Qed.
Lemma trim_space_blanks b s : blanks b -> trim_space (b ++ s) = trim_space s.
Proof. intros H. unfold trim_space. rewrite trim_left_blanks by exact H. reflexivity. Qed.

Lemma blanks_absent c b : blanks b -> c <> 32 -> ~ In c b.
Proof. intros F N I. apply N. exact (proj1 (Forall_forall _ _) F c I). Qed.

Definition param_effect (m : media) (p : fparam) : media :=
  match p with
  | PSprops s => with_sprops m (m_sprops m ++ s)
  | PConfig b => with_config m b
  | PSizeLength n => with_sizelength m n
  | PIndexLength n => with_indexlength m n
  | POther _ _ => m
  end.

Lemma attr_param_text m b p : blanks b -> fparam_ok p -> attr_param m (b ++ fparam_text p) = param_effect m p.
Proof.
  intros B H. unfold attr_param.
  assert (K : forall key val, ~ In 61 key -> split2 61 (b ++ key ++ 61 :: val) = [b ++ key; val]).
  { intros key val N. rewrite app_assoc. apply split2_app. intros I. apply in_app_or in I as [I|I]; [revert I; apply blanks_absent; [exact B|lia]|auto]. }
  destruct p as [sets|c|n|n|key val]; cbn [fparam_text param_effect fparam_ok] in *.
  - destruct H as [H1 H2]. change (bs "sprop-parameter-sets=" ++ ?x) with (bs "sprop-parameter-sets" ++ 61 :: x).
    rewrite K by (apply absent_spec; reflexivity). rewrite trim_space_blanks by exact B. cbv zeta.
    change (trim_space (bs "sprop-parameter-sets")) with (bs "sprop-parameter-sets").
    rewrite split_sprops, map_decode by assumption. reflexivity.
  - change (bs "config=" ++ ?x) with (bs "config" ++ 61 :: x).
    rewrite K by (apply absent_spec; reflexivity). rewrite trim_space_blanks by exact B. cbv zeta.
    change (trim_space (bs "config")) with (bs "config"). rewrite hex_decode_encode by exact H. reflexivity.
  - change (bs "sizelength=" ++ ?x) with (bs "sizelength" ++ 61 :: x).
    rewrite K by (apply absent_spec; reflexivity). rewrite trim_space_blanks by exact B. cbv zeta.
    change (trim_space (bs "sizelength")) with (bs "sizelength"). rewrite atoi_itoa by exact H. reflexivity.
  - change (bs "indexlength=" ++ ?x) with (bs "indexlength" ++ 61 :: x).
    rewrite K by (apply absent_spec; reflexivity). rewrite trim_space_blanks by exact B. cbv zeta.
    change (trim_space (bs "indexlength")) with (bs "indexlength"). rewrite atoi_itoa by exact H. reflexivity.
  - destruct H as (H1 & H2 & H3 & H4 & H5). rewrite K by exact H1. rewrite trim_space_blanks by exact B. cbv zeta. rewrite H4.
    unfold known_params in H5.
    repeat match goal with |- context [beq key ?x] => destruct (beq key x) eqn:?; [exfalso; apply H5; rewrite (proj1 (beq_eq key x)) by assumption; cbn [In]; tauto|] end.
    reflexivity.
Qed.

Lemma fparam_no_semi b p : blanks b -> fparam_ok p -> ~ In 59 (b ++ fparam_text p).
Proof.
  intros B H I. apply in_app_or in I as [I|I]; [revert I; apply blanks_absent; [exact B|lia]|].
  destruct p as [sets|c|n|n|key val]; cbn [fparam_text fparam_ok] in *.
  - apply in_app_or in I as [I|I]; [revert I; apply absent_spec; reflexivity|]. destruct H as [_ H].
    revert I. rewrite comma_join. clear - H. induction H as [|x l Hx _ IH]; [intros []|]. cbn [map join].
    destruct (map b64_encode l) eqn:E; [apply b64_absent; [exact Hx|unfold b64_letter; lia]|].
    intros I. apply in_app_or in I as [I|[I|I]]; [revert I; apply b64_absent; [exact Hx|unfold b64_letter; lia]|lia|]. apply IH. exact I.
  - apply in_app_or in I as [I|I]; [revert I; apply absent_spec; reflexivity|].
    pose proof (proj1 (Forall_forall _ _) (hex_alphabet c H) _ I) as X. cbv beta in X. lia.
  - apply in_app_or in I as [I|I]; [revert I; apply absent_spec; reflexivity|]. apply itoa_chars in I. lia.
  - apply in_app_or in I as [I|I]; [revert I; apply absent_spec; reflexivity|]. apply itoa_chars in I. lia.
  - destruct H as (H1 & H2 & H3 & _). apply in_app_or in I as [I|[I|I]]; [auto|lia|auto].
Qed.

Lemma params_join ps : params_text ps = join 59 (map (fun bp => fst bp ++ fparam_text (snd bp)) ps).
Proof.
  induction ps as [|[b p] [|q r] IH]; [reflexivity|reflexivity|]. change (params_text ((b, p) :: q :: r)) with (b ++ fparam_text p ++ 59 :: params_text (q :: r)). rewrite IH.
  cbn [map join fst snd]. rewrite (app_assoc b). reflexivity.
Qed.

Lemma semi_params m ps : (2 <= length ps)%nat -> Forall (fun bp => blanks (fst bp) /\ fparam_ok (snd bp)) ps ->
  attr_semi m (params_text ps) = fold_left param_effect (map snd ps) m.
Proof.
  intros L F. unfold attr_semi. rewrite params_join, split_join.
  - destruct ps as [|x [|y ps]]; cbn [length] in L; try lia. cbn [map].
    change ((fst x ++ fparam_text (snd x)) :: (fst y ++ fparam_text (snd y)) :: map (fun bp => fst bp ++ fparam_text (snd bp)) ps)
      with (map (fun bp : bytes * fparam => fst bp ++ fparam_text (snd bp)) (x :: y :: ps)).
    change (snd x :: snd y :: map snd ps) with (map snd (x :: y :: ps)).
    clear L. revert m F. generalize (x :: y :: ps). intros l. induction l as [|z l IH]; intros m F; [reflexivity|].
    apply Forall_cons_iff in F as [[F1 F2] F]. cbn [map fold_left]. rewrite attr_param_text by assumption. apply IH. exact F.
  - destruct ps; [cbn in L; lia|discriminate].
  - apply Forall_map. eapply Forall_impl; [|exact F]. intros bp [H1 H2]. apply fparam_no_semi; assumption.
Qed.

Lemma effects ps : forall m, let m' := fold_left param_effect ps m in
  m_sprops m' = m_sprops m ++ sprops_of ps /\ m_config m' = last_of config_of ps (m_config m) /\
  m_sizelength m' = last_of sizelength_of ps (m_sizelength m) /\ m_indexlength m' = last_of indexlength_of ps (m_indexlength m).
Proof.
  induction ps as [|p ps IH]; intros m; [cbn; rewrite app_nil_r; auto|]. cbn [fold_left]. cbv zeta in *.
  destruct (IH (param_effect m p)) as (E1 & E2 & E3 & E4). rewrite E1, E2, E3, E4. unfold sprops_of, last_of. cbn [flat_map fold_left].
  splits; destruct p; cbn [param_effect config_of sizelength_of indexlength_of m_sprops m_config m_sizelength m_indexlength with_sprops with_config with_sizelength with_indexlength app];
    try reflexivity. rewrite app_assoc. reflexivity.
Qed.

Lemma colon_slash_keep m f : let m' := attr_slash (attr_colon m f) f in
  m_sprops m' = m_sprops m /\ m_config m' = m_config m /\ m_sizelength m' = m_sizelength m /\ m_indexlength m' = m_indexlength m.
Proof.
  cbv zeta. unfold attr_slash, attr_colon.
  assert (C : forall m0 : media, m_sprops m0 = m_sprops m /\ m_config m0 = m_config m /\ m_sizelength m0 = m_sizelength m /\ m_indexlength m0 = m_indexlength m ->
    let m' := match split_on 47 f with
      | key :: val :: _ => let m1 := if beq (to_upper key) (bs "MPEG4-GENERIC") then with_type m0 97 else if beq (to_upper key) (bs "H264") then with_type m0 96 else m0 in
          match atoi val with (i, None) => with_timescale m1 i | _ => m1 end
      | _ => m0 end in
    m_sprops m' = m_sprops m /\ m_config m' = m_config m /\ m_sizelength m' = m_sizelength m /\ m_indexlength m' = m_indexlength m).
  { intros m0 H. cbv zeta. destruct (split_on 47 f) as [|k [|v r]]; auto.
    destruct (beq (to_upper k) (bs "MPEG4-GENERIC")), (beq (to_upper k) (bs "H264")), (atoi v) as [n [e|]]; exact H. }
  apply C. destruct (split2 58 f) as [|k [|v [|x r]]]; auto. destruct (beq k (bs "control")); auto. destruct (beq k (bs "rtpmap")); auto.
Qed.

Lemma fmtp_head m pt : attr_field m (bs "fmtp:" ++ itoa pt) = m.
Proof.
  assert (Ad : forall z c, c <> 45 -> ~ 48 <= c <= 57 -> ~ In c (itoa z)) by (intros z c A B I; apply itoa_chars in I; lia).
  unfold attr_field. rewrite attr_semi_none, attr_slash_none.
  - unfold attr_colon. change (bs "fmtp:" ++ itoa pt) with (bs "fmtp" ++ 58 :: itoa pt).
    rewrite split2_app by (apply absent_spec; reflexivity). reflexivity.
  - intros I. apply in_app_or in I as [I|I]; [revert I; apply absent_spec; reflexivity|revert I; apply Ad; lia].
  - intros I. apply in_app_or in I as [I|I]; [revert I; apply absent_spec; reflexivity|revert I; apply Ad; lia].
Qed.

Lemma fmtp_split pt x : split2 32 (bs "fmtp:" ++ itoa pt ++ 32 :: x) = [bs "fmtp:" ++ itoa pt; x].
Proof.
  rewrite app_assoc. apply split2_app. intros I. apply in_app_or in I as [I|I]; [revert I; apply absent_spec; reflexivity|].
  apply itoa_chars in I. lia.
Qed.

(* ---- C41, C42 ---- *)
Lemma sections_compose a ml b : Forall one_line (a ++ ml :: b) -> media_line ml ->
  sdp_parse (body_of (a ++ ml :: b)) = res_app (sdp_parse (body_of a)) (sdp_parse (body_of (ml :: b))).
Proof.
  intros O M. apply Forall_app in O as O'. destruct O' as [O1 O2]. rewrite !parse_body by assumption.
  rewrite sdp_lines_app. destruct (sdp_lines_kinds a ([], None)) as [[[s Ea] _]|[Ea _]]; rewrite Ea; cbn [bind]; [|reflexivity].
  assert (X : sdp_lines s (ml :: b) = rmap (extend (all_feeds s)) (sdp_lines ([], None) (ml :: b))).
  { cbn [sdp_lines]. rewrite (media_line_close s ml M).
    replace (all_feeds s, None) with (extend (all_feeds s) ([], None)) by (unfold extend; cbn [fst snd]; rewrite app_nil_r; reflexivity).
    rewrite sdp_line_extend. destruct (sdp_line ([], None) ml) as [s'| | |]; cbn [rmap bind]; try reflexivity. apply sdp_lines_extend. }
  rewrite X. destruct (sdp_lines_kinds (ml :: b) ([], None)) as [[[s2 Eb] _]|[Eb _]]; rewrite Eb; cbn [rmap bind res_app]; [|reflexivity].
  rewrite all_extend. reflexivity.
Qed.

Lemma video_section_one ml b : Forall one_line (ml :: b) -> video_line ml -> Forall (fun l => ~ media_line l) b ->
  exists f, sdp_parse (body_of (ml :: b)) = Ok [f].
Proof.
  intros O V F. rewrite parse_body by exact O. cbn [sdp_lines]. destruct (video_line_opens ([], None) ml V) as [m E].
  rewrite E. cbn [bind]. destruct (attrs_keep b (all_feeds ([], None)) m F) as [m' E']. rewrite E'. cbn. eauto.
Qed.

(* attributes do not change the payload type *)
Lemma param_payload ps : forall m, m_payload_type (fold_left attr_param ps m) = m_payload_type m.
Proof.
  induction ps as [|p ps IH]; intros m; [reflexivity|]. cbn [fold_left]. rewrite IH. unfold attr_param.
  destruct (split2 61 p) as [|k [|v [|x r]]]; try reflexivity.
  repeat match goal with |- context [if ?c then _ else _] => destruct c end; reflexivity.
Qed.
Lemma field_payload m f : m_payload_type (attr_field m f) = m_payload_type m.
Proof.
  unfold attr_field. assert (A : forall m, m_payload_type (attr_semi m f) = m_payload_type m).
  { intros x. unfold attr_semi. destruct (split_on 59 f) as [|a [|b r]]; try reflexivity. apply param_payload. }
  rewrite A. assert (B : forall m, m_payload_type (attr_slash m f) = m_payload_type m).
  { intros x. unfold attr_slash. destruct (split_on 47 f) as [|a [|b r]]; try reflexivity.
    destruct (beq (to_upper a) (bs "MPEG4-GENERIC")), (beq (to_upper a) (bs "H264")), (atoi b) as [n [e|]]; reflexivity. }
  rewrite B. unfold attr_colon. destruct (split2 58 f) as [|k [|v [|x r]]]; try reflexivity.
  destruct (beq k (bs "control")), (beq k (bs "rtpmap")); reflexivity.
Qed.
Lemma attrs_payload ls : forall d m d' m', Forall (fun l => ~ media_line l) ls -> sdp_lines (d, Some m) ls = Ok (d', Some m') ->
  m_payload_type m' = m_payload_type m.
Proof.
  induction ls as [|l ls IH]; intros d m d' m' F H; [injection H as _ ->; reflexivity|]. apply Forall_cons_iff in F as [F1 F2]. cbn [sdp_lines] in H.
  destruct (attr_keeps d m l F1) as [m1 E]. rewrite E in H. cbn [bind] in H. rewrite (IH _ _ _ _ F2 H). clear H IH.
  unfold sdp_line in E. destruct (split2 61 (trim_space l)) as [|key [|val [|x r]]]; try (injection E as ->; reflexivity).
  cbv zeta in E. destruct (beq key (bs "m")).
  - destruct (beq (hd [] (split2 32 val)) (bs "video")); [|discriminate]. destruct (split2 32 val) as [|a [|b [|c r]]]; try discriminate.
    injection E as E _. apply (f_equal (@length _)) in E. cbn [all_feeds] in E. rewrite app_length in E. cbn in E. lia.
  - destruct (beq key (bs "a")); [|injection E as ->; reflexivity]. injection E as <-. revert m. induction (split2 32 val) as [|f fs IH]; intros m; [reflexivity|].
    cbn [fold_left]. rewrite IH. apply field_payload.
Qed.

Lemma media_line_payload s ml port proto pt tail : trim_space ml = bs "m=video " ++ port ++ bs " " ++ proto ++ bs " " ++ itoa pt ++ tail ->
  ~ In 32 port -> ~ In 32 proto -> - 2 ^ 63 <= pt < 2 ^ 63 -> (tail = [] \/ exists x, tail = 32 :: x) ->
  sdp_line s ml = Ok (all_feeds s, Some (mkMedia 0 0 [] 0 [] [] pt 0 0)).
Proof.
  intros E N1 N2 P T. unfold sdp_line. rewrite E.
  change (bs "m=video " ++ port ++ bs " " ++ proto ++ bs " " ++ itoa pt ++ tail) with (bs "m" ++ 61 :: (bs "video" ++ 32 :: (port ++ 32 :: proto ++ 32 :: itoa pt ++ tail))).
  rewrite split2_app by (apply absent_spec; reflexivity). cbv zeta.
  change (beq (bs "m") (bs "m")) with true. cbv iota.
  rewrite split2_app by (apply absent_spec; reflexivity). cbn [hd].
  change (beq (bs "video") (bs "video")) with true. cbv iota.
  rewrite split_on_app, split_on_app by assumption.
  assert (I : ~ In 32 (itoa pt)) by (intros I; apply itoa_chars in I; lia).
  assert (X : exists r, split_on 32 (itoa pt ++ tail) = itoa pt :: r).
  { destruct T as [->|[x ->]]; [rewrite app_nil_r, split_on_none by exact I; eauto|rewrite split_on_app by exact I; eauto]. }
  destruct X as [r ->]. rewrite atoi_itoa by exact P. reflexivity.
Qed.
Lemma media_section_payload ml b port proto pt tail : Forall one_line (ml :: b) ->
  trim_space ml = bs "m=video " ++ port ++ bs " " ++ proto ++ bs " " ++ itoa pt ++ tail ->
  ~ In 32 port -> ~ In 32 proto -> - 2 ^ 63 <= pt < 2 ^ 63 -> (tail = [] \/ exists x, tail = 32 :: x) -> Forall (fun l => ~ media_line l) b ->
  sdp_parse ml = Ok [mkMedia 0 0 [] 0 [] [] pt 0 0] /\ exists f, sdp_parse (body_of (ml :: b)) = Ok [f] /\ m_payload_type f = pt.
Proof.
  intros O E N1 N2 P T F. pose proof (media_line_payload ([], None) ml port proto pt tail E N1 N2 P T) as L. split.
  - change ml with (body_of [ml]) at 1. rewrite parse_body by (constructor; [now inversion O|constructor]). cbn [sdp_lines]. rewrite L. reflexivity.
  - rewrite parse_body by exact O. cbn [sdp_lines]. rewrite L. cbn [bind all_feeds].
    destruct (attrs_keep b [] (mkMedia 0 0 [] 0 [] [] pt 0 0) F) as [m' E']. rewrite E'. exists m'. split; [reflexivity|]. apply (attrs_payload _ _ _ _ _ F E').
Qed.

Lemma media_line_short s ml a : trim_space ml = bs "m=video " ++ a -> (~ In 32 a \/ exists x y, a = x ++ 32 :: y /\ ~ In 32 x /\ ~ In 32 y) ->
  sdp_line s ml = Ok (all_feeds s, Some (mkMedia 0 0 [] 0 [] [] 0 0 0)).
Proof.
  intros E A. unfold sdp_line. rewrite E.
  assert (S1 : split2 61 (bs "m=video " ++ a) = [bs "m"; bs "video " ++ a]) by reflexivity. rewrite S1.
  assert (S2 : split2 32 (bs "video " ++ a) = [bs "video"; a]) by reflexivity. cbv zeta. rewrite S2. change (beq (bs "m") (bs "m")) with true. cbn [hd]. change (beq (bs "video") (bs "video")) with true. cbv iota.
  destruct A as [N|(x & y & -> & N1 & N2)].
  - rewrite split_on_none by exact N. reflexivity.
  - rewrite split_on_app by exact N1. rewrite split_on_none by exact N2. reflexivity.
Qed.
Lemma media_section_short ml b a : Forall one_line (ml :: b) -> trim_space ml = bs "m=video " ++ a -> (~ In 32 a \/ exists x y, a = x ++ 32 :: y /\ ~ In 32 x /\ ~ In 32 y) ->
  Forall (fun l => ~ media_line l) b ->
  sdp_parse ml = Ok [mkMedia 0 0 [] 0 [] [] 0 0 0] /\ exists f, sdp_parse (body_of (ml :: b)) = Ok [f] /\ m_payload_type f = 0.
Proof.
  intros O E N F. pose proof (media_line_short ([], None) ml a E N) as L. split.
  - change ml with (body_of [ml]) at 1. rewrite parse_body by (constructor; [now inversion O|constructor]). cbn [sdp_lines]. rewrite L. reflexivity.
  - rewrite parse_body by exact O. cbn [sdp_lines]. rewrite L. cbn [bind all_feeds].
    destruct (attrs_keep b [] (mkMedia 0 0 [] 0 [] [] 0 0 0) F) as [m' E']. rewrite E'. exists m'. split; [reflexivity|]. apply (attrs_payload _ _ _ _ _ F E').
Qed.

Lemma other_sections_none ls : Forall one_line ls -> Forall (fun l => ~ video_line l /\ ~ bare_video_line l) ls ->
  sdp_parse (body_of ls) = Ok [].
Proof.
  intros O F. rewrite parse_body by exact O. rewrite sdp_lines_novideo; [reflexivity| |]; (eapply Forall_impl; [|exact F]; cbv beta; intros x [H1 H2]; assumption).
Qed.

Lemma every_body s : exists ls, Forall one_line ls /\ s = body_of ls.
Proof. exists (split_on 10 s). split; [apply split_no_sep|]. rewrite body_join, join_split. reflexivity. Qed.

Lemma parse_total s : (exists l, In l (split_on 10 s) /\ bare_video_line l) \/ exists feeds, sdp_parse s = Ok feeds.
Proof.
  unfold sdp_parse. destruct (sdp_lines_kinds (split_on 10 s) ([], None)) as [[[s' E] _]|[_ X]].
  - right. rewrite E. cbn. eauto.
  - left. apply Exists_exists in X. exact X.
Qed.

Lemma parse_crash s l : In l (split_on 10 s) -> bare_video_line l -> sdp_parse s = Panic.
Proof.
  intros I B. unfold sdp_parse. destruct (sdp_lines_kinds (split_on 10 s) ([], None)) as [[_ F]|[E _]].
  - exfalso. exact (proj1 (Forall_forall _ _) F l I B).
  - rewrite E. reflexivity.
Qed.

(* ---- the rest of an fmtp line ---- *)
Lemma to_upper_keeps n : forall s, (length s <= n)%nat -> In 61 s -> In 61 (to_upper s).
Proof.
  induction n as [|n IH]; intros s L I; [destruct s; [contradiction I|cbn in L; lia]|].
  destruct s as [|a [|b r]]; [contradiction I|destruct I as [->|[]]; left; reflexivity|].
  change (to_upper (a :: b :: r)) with (if (a =? 196) && (b =? 177) then 73 :: to_upper r else if (a =? 197) && (b =? 191) then 83 :: to_upper r else upper1 a :: to_upper (b :: r)).
  cbn [length] in L.
  destruct ((a =? 196) && (b =? 177)) eqn:E1; [destruct I as [->|[->|I]]; [lia|lia|right; apply IH; [lia|exact I]]|].
  destruct ((a =? 197) && (b =? 191)) eqn:E2; [destruct I as [->|[->|I]]; [lia|lia|right; apply IH; [lia|exact I]]|].
  destruct I as [->|I]; [left; reflexivity|right; apply IH; [cbn [length]; lia|exact I]].
Qed.
Lemma codec_equals k old : In 61 k -> codec_of k old = old.
Proof.
  intros I. apply (to_upper_keeps (length k) k (le_n _)) in I. unfold codec_of.
  replace (beq (to_upper k) (bs "MPEG4-GENERIC")) with false; [replace (beq (to_upper k) (bs "H264")) with false; [reflexivity|]|];
    symmetry; apply beq_neq; intros X; rewrite X in I; revert I; apply absent_spec; reflexivity.
Qed.
Lemma fparam_head p : fparam_ok p -> token_named p -> exists key val, fparam_text p = key ++ 61 :: val /\ ~ In 58 key /\ ~ In 47 key.
Proof.
  intros O T. destruct p as [sets|c|n|n|key val]; cbn [fparam_text].
  - exists (bs "sprop-parameter-sets"), (comma_b64 sets). splits; [reflexivity| |]; apply absent_spec; reflexivity.
  - exists (bs "config"), (hex_encode c). splits; [reflexivity| |]; apply absent_spec; reflexivity.
  - exists (bs "sizelength"), (itoa n). splits; [reflexivity| |]; apply absent_spec; reflexivity.
  - exists (bs "indexlength"), (itoa n). splits; [reflexivity| |]; apply absent_spec; reflexivity.
  - exists key, val. destruct T. splits; [reflexivity|assumption|assumption].
Qed.
Lemma params_head b p ps : blanks b -> fparam_ok p -> token_named p -> exists pre rest, params_text ((b, p) :: ps) = pre ++ 61 :: rest /\ ~ In 58 pre /\ ~ In 47 pre.
Proof.
  intros B O T. destruct (fparam_head p O T) as (key & val & E & N1 & N2).
  assert (G : forall c, c <> 32 -> ~ In c key -> ~ In c (b ++ key)) by (intros c C N I; apply in_app_or in I as [I|I]; [revert I; apply blanks_absent; assumption|auto]).
  destruct ps as [|q ps].
  - exists (b ++ key), val. cbn [params_text]. rewrite E, <- app_assoc. splits; [reflexivity|apply G; [lia|assumption]|apply G; [lia|assumption]].
  - exists (b ++ key), (val ++ 59 :: params_text (q :: ps)). change (params_text ((b, p) :: q :: ps)) with (b ++ fparam_text p ++ 59 :: params_text (q :: ps)).
    rewrite E, <- !app_assoc. splits; [reflexivity|apply G; [lia|assumption]|apply G; [lia|assumption]].
Qed.
Lemma cut_prefix c a s : ~ In c a -> cut c (a ++ s) = match cut c s with Some (x, y) => Some (a ++ x, y) | None => None end.
Proof.
  induction a as [|x a IH]; intros N; [cbn [app]; destruct (cut c s) as [[? ?]|]; reflexivity|]. cbn [app cut].
  destruct (x =? c) eqn:E; [exfalso; apply N; left; lia|]. rewrite IH by (intros I; apply N; right; exact I). destruct (cut c s) as [[? ?]|]; reflexivity.
Qed.
Lemma colon_none m pre rest : ~ In 58 pre -> attr_colon m (pre ++ 61 :: rest) = m.
Proof.
  intros N. unfold attr_colon, GoStrings.split2. rewrite cut_prefix by exact N. cbn [cut]. replace (61 =? 58) with false by lia.
  destruct (cut 58 rest) as [[x y]|]; [|reflexivity]. 
  replace (beq (pre ++ 61 :: x) (bs "control")) with false; [replace (beq (pre ++ 61 :: x) (bs "rtpmap")) with false; [reflexivity|]|];
    symmetry; apply beq_neq; intros X; assert (I : In 61 (pre ++ 61 :: x)) by (apply in_or_app; right; left; reflexivity); rewrite X in I; revert I; apply absent_spec; reflexivity.
Qed.
Lemma colon_slash_params m b p ps : blanks b -> fparam_ok p -> token_named p -> let f := params_text ((b, p) :: ps) in
  attr_slash (attr_colon m f) f = with_timescale m (match slash_number f with Some n => n | None => m_timescale m end).
Proof.
  intros B O T. cbv zeta. destruct (params_head b p ps B O T) as (pre & rest & E & N1 & N2). rewrite E, colon_none by exact N1. apply attr_slash_exact.
  intros k r S. destruct (split_on_nonempty 47 (61 :: rest)) as (q & t & Eq). rewrite (split_prefix 47 pre _ q t N2 Eq) in S. injection S as <- _.
  apply codec_equals. apply in_or_app. right. cbn [split_on] in Eq. replace (61 =? 47) with false in Eq by lia. destruct (split_on 47 rest); injection Eq as <- _; left; reflexivity.
Qed.
Lemma effects_rest ps : forall m, let m' := fold_left param_effect ps m in
  m_type m' = m_type m /\ m_timescale m' = m_timescale m /\ m_control m' = m_control m /\ m_rtpmap m' = m_rtpmap m /\ m_payload_type m' = m_payload_type m.
Proof.
  induction ps as [|p ps IH]; intros m; [cbn; auto|]. cbn [fold_left]. cbv zeta in *. destruct (IH (param_effect m p)) as (E1 & E2 & E3 & E4 & E5). rewrite E1, E2, E3, E4, E5.
  destruct p; splits; reflexivity.
Qed.
