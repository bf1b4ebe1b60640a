(* Header fields on several lines. *)
From Coq Require Import String.
From Verif Require Import Base GoStrings M_conn S_message M_message M_transport M_session S_session S_handshake S_fold
  L_base L_strings L_message L_frames L_refuse L_serve.
From Coq Require Import ZifyBool.

Lemma trim_left_white ws s : Forall (fun c => c = 32 \/ c = 9) ws -> trim_left (ws ++ s) = trim_left s.
Proof. induction 1 as [|c ws [->| ->] F IH]; [reflexivity| |]; cbn [app trim_left]; [change (sp1 32) with true|change (sp1 9) with true]; cbn iota; exact IH. Qed.
Lemma trim_white ws s : Forall (fun c => c = 32 \/ c = 9) ws -> trim_space (ws ++ s) = trim_space s.
Proof. intros F. unfold trim_space. rewrite trim_left_white by exact F. reflexivity. Qed.
Lemma trim_in c s : In c (trim_space s) -> In c s.
Proof.
  unfold trim_space. intros H. apply in_rev in H. destruct (trim_rev_suffix (rev (trim_left s))) as [p E].
  assert (I : In c (trim_left s)) by (apply in_rev; rewrite E; apply in_or_app; right; exact H).
  destruct (trim_left_suffix s) as [q Q]. rewrite Q. apply in_or_app. right. exact I.
Qed.

(* the lines of a header, one of which has no colon *)
Definition cut_lines (ls : list bytes) : bytes := flat_map (fun l => l ++ [13; 10]) ls.
Lemma line_read l s : ~ In 10 l -> read_line (sent (l ++ [13; 10]) ++ s) = (s, Ok (l ++ [13; 10])).
Proof.
  intros N. replace (l ++ [13; 10]) with ((l ++ [13]) ++ [10]) by (rewrite <- app_assoc; reflexivity).
  apply read_line_sent. intros I. apply in_app_or in I as [I|[I|[]]]; [contradiction|discriminate].
Qed.
Lemma lines_stop ls : forall fuel h s, Forall (fun l => ~ In 10 l /\ trim_space l <> []) ls -> Exists (fun l => ~ In 58 l) ls -> (length ls <= fuel)%nat ->
  exists s', header_lines fuel h (sent (cut_lines ls) ++ s) = (s', Err ErrMalformedResponse).
Proof.
  induction ls as [|l ls IH]; intros fuel h s F X L; [inversion X|]. destruct fuel as [|fuel]; [cbn in L; lia|].
  apply Forall_cons_iff in F as [(N & T) F]. unfold cut_lines. cbn [flat_map]. fold (cut_lines ls). rewrite sent_app, <- app_assoc.
  cbn [header_lines]. rewrite line_read by exact N. cbv zeta. rewrite trim_right_crlf. destruct (beq (trim_space l) []) eqn:E; [apply beq_eq in E; contradiction|].
  unfold split2. destruct (cut 58 (trim_space l)) as [[a b]|] eqn:C; [|eexists; reflexivity].
  apply IH; [exact F| |cbn [length] in L; lia]. inversion X as [? ? Y|? ? Y]; subst; [|exact Y].
  exfalso. apply Y, trim_in. apply cut_some in C as (-> & _). apply in_elt.
Qed.

Lemma lfield_lines f : lfield_ok f -> exists ls, lfield_text f = cut_lines ls /\ Forall (fun l => ~ In 10 l /\ trim_space l <> []) ls /\
  (forall m, In m (l_more f) -> In (fst m ++ snd m) ls).
Proof.
  intros (O & M). exists ((f_name (l_first f) ++ 58 :: f_blank (l_first f) ++ f_value (l_first f)) :: map (fun m => fst m ++ snd m) (l_more f)). splits.
  - unfold lfield_text, cut_lines, sfield_text. cbn [flat_map]. f_equal; [rewrite <- app_assoc; cbn [app]; rewrite <- app_assoc; reflexivity|].
    induction (l_more f) as [|m l IH]; [reflexivity|]. cbn [flat_map map]. apply Forall_cons_iff in M as [_ M]. rewrite (IH M), <- !app_assoc. reflexivity.
  - constructor.
    + split.
      * intros I. apply (sfield_no_nl _ O). apply in_app_or in I as [I|[I|I]]; apply in_or_app; [left; exact I|right; left; exact I|]. right. right.
        rewrite app_assoc. apply in_or_app. left. exact I.
      * destruct (field_line_split _ O) as (line & E & NE & _). rewrite <- E in NE. unfold sfield_text in NE.
        replace (f_name (l_first f) ++ 58 :: f_blank (l_first f) ++ f_value (l_first f) ++ [13; 10]) with ((f_name (l_first f) ++ 58 :: f_blank (l_first f) ++ f_value (l_first f)) ++ [13; 10]) in NE
          by (rewrite <- app_assoc; cbn [app]; rewrite <- app_assoc; reflexivity). rewrite trim_right_crlf in NE. exact NE.
    + apply Forall_map. eapply Forall_impl; [|exact M]. intros m ((_ & W) & NE & (_ & N) & T). cbv beta. split.
      * intros I. apply in_app_or in I as [I|I]; [|contradiction]. rewrite Forall_forall in W. apply W in I. lia.
      * intros Q. rewrite trim_white in Q by exact W. apply NE. rewrite <- T. exact Q.
  - intros m I. right. apply in_map_iff. exists m. split; [reflexivity|exact I].
Qed.
Lemma lfields_lines fs : Forall lfield_ok fs -> exists ls, flat_map lfield_text fs = cut_lines ls /\ Forall (fun l => ~ In 10 l /\ trim_space l <> []) ls /\
  (forall f m, In f fs -> In m (l_more f) -> In (fst m ++ snd m) ls).
Proof.
  induction 1 as [|f fs O F (ls & E & G & M)]; [exists []; splits; [reflexivity|constructor|intros f m []]|].
  destruct (lfield_lines f O) as (l1 & E1 & G1 & M1). exists (l1 ++ ls). splits.
  - cbn [flat_map]. rewrite E, E1. unfold cut_lines. rewrite flat_map_app. reflexivity.
  - apply Forall_app. split; assumption.
  - intros g m [<-|I] J; apply in_or_app; [left; apply M1; exact J|right; eapply M; eassumption].
Qed.
Lemma lines_length ls : (length ls <= length (cut_lines ls))%nat.
Proof. unfold cut_lines. induction ls as [|l ls IH]; [reflexivity|]. cbn [flat_map length]. rewrite !app_length. cbn [length]. lia. Qed.

Lemma folded_unread code reason fs body rest f m : 100 <= code <= 999 -> line_text reason -> Forall lfield_ok fs -> In f fs -> In m (l_more f) -> ~ In 58 (snd m) ->
  exists s', unpack_response (sent (long_response code reason fs body) ++ rest) = (s', Err ErrMalformedResponse).
Proof.
  intros C R F I J N. destruct (lfields_lines fs F) as (ls & E & G & M). unfold long_response. rewrite E.
  rewrite sent_app, <- app_assoc. unfold status_text. unfold unpack_response. rewrite first_line_read; [|vm_compute; intuition discriminate|exact C|exact R].
  rewrite status_line_ok; [|vm_compute; intuition discriminate|exact C]. rewrite sent_app, <- app_assoc.
  match goal with |- context [header_lines ?fu [] (_ ++ ?s)] => destruct (lines_stop ls fu [] s G) as (s' & H) end.
  - apply Exists_exists. exists (fst m ++ snd m). split; [eapply M; eassumption|]. intros K. apply in_app_or in K as [K|K]; [|contradiction].
    rewrite Forall_forall in F. destruct (F f I) as (_ & Q). rewrite Forall_forall in Q. destruct (Q m J) as ((_ & W) & _). rewrite Forall_forall in W. apply W in K. lia.
  - unfold sent. rewrite !app_length, !map_length. eapply Nat.le_trans; [exact (lines_length ls)|]. apply Nat.le_le_succ_r, Nat.le_add_r.
  - rewrite H. exists s'. reflexivity.
Qed.

(* lines that have a colon, with or without white space before them *)
Definition led_ok (f : bytes * sfield) : Prop := Forall (fun c => c = 32 \/ c = 9) (fst f) /\ sfield_ok (snd f).
Definition led_text (f : bytes * sfield) : bytes := fst f ++ sfield_text (snd f).
Lemma led_lines fs : forall fuel h s, Forall led_ok fs -> (length fs < fuel)%nat ->
  header_lines fuel h (sent (flat_map led_text fs ++ [13; 10]) ++ s) = (s, Ok (header_run h (fields_ops (map snd fs)))).
Proof.
  induction fs as [|[ws f] fs IH]; intros [|fuel] h s F L; try (cbn in L; lia); [reflexivity|].
  apply Forall_cons_iff in F as [(W & O) F]. cbn [fst snd] in *. cbn [flat_map header_lines map fst snd]. rewrite <- !app_assoc, sent_app, <- app_assoc.
  assert (RL : read_line (sent (led_text (ws, f)) ++ (sent (flat_map led_text fs ++ [13; 10]) ++ s)) = (sent (flat_map led_text fs ++ [13; 10]) ++ s, Ok (led_text (ws, f)))).
  { generalize (sent (flat_map led_text fs ++ [13; 10]) ++ s). intros s0. unfold led_text, sfield_text. cbn [fst snd]. replace (ws ++ f_name f ++ 58 :: f_blank f ++ f_value f ++ [13; 10]) with ((ws ++ f_name f ++ 58 :: f_blank f ++ f_value f ++ [13]) ++ [10])
      by (rewrite <- !app_assoc; cbn [app]; rewrite <- !app_assoc; reflexivity).
    apply read_line_sent. intros I. apply in_app_or in I as [I|I]; [rewrite Forall_forall in W; apply W in I; lia|exact (sfield_no_nl f O I)]. }
  rewrite RL. destruct (field_line_split f O) as (line & El & Nl & w & Es & Ew). cbv zeta. change (led_text (ws, f)) with (ws ++ sfield_text f). rewrite trim_white by exact W. rewrite El.
  destruct (beq line []) eqn:Eb; [apply beq_eq in Eb; contradiction|]. rewrite Es, Ew.
  destruct O as (T & _). rewrite trim_token by exact T. rewrite IH; [reflexivity|exact F|cbn [length] in L; lia].
Qed.
Lemma led_length fs : (length fs <= length (flat_map led_text fs))%nat.
Proof. induction fs as [|f fs IH]; [reflexivity|]. cbn [flat_map length]. unfold led_text at 1, sfield_text. rewrite !app_length. cbn [length]. lia. Qed.
Lemma led_unpack code reason fs body rest :
  100 <= code <= 999 -> line_text reason -> Forall led_ok fs -> content_ok (map snd fs) body -> zlen body <= 2048 ->
  exists r, unpack_response (sent (status_text code reason ++ flat_map led_text fs ++ [13; 10] ++ body) ++ rest) = (rest, Ok r) /\
    p_code r = code /\ p_body r = (match body with [] => None | _ => Some body end) /\
    (forall k, token k -> header_get (p_header r) k = field_value (map snd fs) k).
Proof.
  intros C R F K L. assert (F2 : Forall sfield_ok (map snd fs)) by (apply Forall_map; eapply Forall_impl; [|exact F]; intros f (_ & O); exact O).
  rewrite sent_app, <- app_assoc. unfold status_text, unpack_response.
  rewrite first_line_read; [|vm_compute; intuition discriminate|exact C|exact R].
  rewrite status_line_ok; [|vm_compute; intuition discriminate|exact C].
  replace (sent (flat_map led_text fs ++ [13; 10] ++ body)) with (sent (flat_map led_text fs ++ [13; 10]) ++ sent body) by (rewrite <- sent_app, <- app_assoc; reflexivity).
  rewrite <- app_assoc. rewrite led_lines; [|exact F|unfold sent; rewrite app_length, map_length, app_length; pose proof (led_length fs); lia].
  cbv zeta. rewrite !header_run_fields; [|exact F2|repeat constructor|exact F2|repeat constructor].
  assert (H : forall st n b, exists r, @Datatypes.pair stream (res response) rest (Ok (mkRsp st code n (fst (atoi (field_value (map snd fs) (bs "CSeq")))) (header_run [] (fields_ops (map snd fs))) b)) = (rest, Ok r) /\
    p_code r = code /\ p_body r = b /\ (forall k, token k -> header_get (p_header r) k = field_value (map snd fs) k)).
  { intros st n b. eexists. split; [reflexivity|]. cbn [p_code p_body p_header]. splits; try reflexivity. intros k T. apply header_run_fields; assumption. }
  destruct body as [|b body]; cbn [content_ok] in K.
  - destruct (atoi (field_value (map snd fs) (bs "Content-Length"))) as [n [e|]].
    + apply H.
    + specialize (K n eq_refl). destruct (n >? 0) eqn:E; [lia|apply H].
  - rewrite K. rewrite atoi_itoa by (pose proof (zlen_nonneg body); rewrite zlen_cons in *; lia).
    destruct (zlen (b :: body) >? 0) eqn:E; [|pose proof (zlen_nonneg body); rewrite zlen_cons in *; lia].
    rewrite read_bytes_sent by exact L. apply H.
Qed.

(* the last field of a name *)
Lemma value_last fs k : field_value fs k = last (values fs k) [].
Proof.
  unfold field_value, spec_get, values. rewrite <- (rev_involutive fs). induction (rev fs) as [|f l IH]; [reflexivity|].
  cbn [rev]. rewrite map_app, fold_left_app, filter_app, map_app. cbn [map fold_left filter]. destruct (same_name k (f_name f)); cbn [map].
  - rewrite last_last. reflexivity.
  - rewrite app_nil_r. exact IH.
Qed.
Lemma listed_length v r : zlen (listed (v :: r)) = zlen v + fold_right (fun x n => 2 + zlen x + n) 0 r.
Proof.
  cbn [listed]. rewrite L_serve.zlen_app. f_equal. induction r as [|x r IH]; [reflexivity|]. cbn [flat_map fold_right]. rewrite !L_serve.zlen_app, IH. reflexivity.
Qed.
Lemma last_listed vs : listed vs = last vs [] <-> (length vs <= 1)%nat.
Proof.
  destruct vs as [|v [|x r]]; [split; [cbn; lia|reflexivity]|split; [cbn; lia|intros _; cbn [listed last flat_map]; apply app_nil_r]|]. split; [|cbn [length]; lia].
  intros E. exfalso. apply (f_equal zlen) in E. rewrite listed_length in E. cbn [fold_right] in E. pose proof (zlen_nonneg v).
  assert (G : forall (r : list bytes) (x : bytes), zlen (last (x :: r) []) <= zlen x + fold_right (fun x n => 2 + zlen x + n) 0 r).
  { clear. induction r as [|y r IH]; intros x; [cbn [last fold_right]; lia|]. change (last (x :: y :: r) []) with (last (y :: r) []). cbn [fold_right]. specialize (IH y). pose proof (zlen_nonneg x). lia. }
  specialize (G r x). change (last (v :: x :: r) []) with (last (x :: r) []) in E. lia.
Qed.
