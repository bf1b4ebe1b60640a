(* Lemmas: URLs. *)
From Coq Require Import String.
From Verif Require Import Base GoStrings M_url M_conn M_message M_transport M_sdp M_session M_dial S_url L_base L_strings.
From Coq Require Import ZifyBool ZifyNat.

(* sets of characters, by trying all of them *)
Definition ascii : list Z := map Z.of_nat (seq 0 128).
Lemma ascii_in c : 0 <= c < 128 -> In c ascii.
Proof. intros H. unfold ascii. replace c with (Z.of_nat (Z.to_nat c)) by lia. apply in_map. apply in_seq. lia. Qed.
Lemma ascii_all (f : Z -> bool) c : forallb f ascii = true -> 0 <= c < 128 -> f c = true.
Proof. intros H C. rewrite forallb_forall in H. apply H. apply ascii_in. exact C. Qed.
Definition unresb (c : Z) : bool := alnum c || one_of (bs "-._~") c.
Definition subb (c : Z) : bool := one_of (bs "!$&'()*+,;=") c.
Lemma one_of_spec l c : one_of l c = true <-> In c l.
Proof.
  unfold one_of. rewrite existsb_exists. split; [intros (x & I & E); replace c with x by lia; exact I|]. intros I. exists c. split; [exact I|lia].
Qed.
Lemma unres_spec c : unreserved c <-> unresb c = true.
Proof.
  unfold unreserved, unresb. rewrite orb_true_iff, one_of_spec. unfold alnum, letter, is_digit. split.
  - intros [H|[H|[H|H]]]; [left; lia|left; lia|left; lia|right; exact H].
  - intros [H|H]; [lia|tauto].
Qed.
Lemma sub_spec c : sub_delim c <-> subb c = true.
Proof. unfold sub_delim, subb. rewrite one_of_spec. reflexivity. Qed.
Lemma unres_range c : unresb c = true -> 0 <= c < 128.
Proof. unfold unresb, alnum, letter, is_digit. rewrite orb_true_iff, one_of_spec. intros [H|H]; [lia|]. cbn in H. lia. Qed.
Lemma sub_range c : subb c = true -> 0 <= c < 128.
Proof. unfold subb. rewrite one_of_spec. cbn. lia. Qed.
Definition regb (c : Z) : bool := unresb c || subb c.
Lemma reg_range c : regb c = true -> 0 <= c < 128.
Proof. unfold regb. rewrite orb_true_iff. intros [H|H]; [apply unres_range|apply sub_range]; exact H. Qed.
Lemma reg_spec c : unreserved c \/ sub_delim c <-> regb c = true.
Proof. unfold regb. rewrite orb_true_iff, unres_spec, sub_spec. reflexivity. Qed.

(* the characters of each part *)
Definition utextb (c : Z) : bool := regb c || (c =? 37).
Definition ptextb (c : Z) : bool := regb c || (c =? 37) || (c =? 58).
Definition ktextb (c : Z) : bool := regb c || one_of (bs ":@/%") c.
Lemma range_ktext c : ktextb c = true -> 0 <= c < 128.
Proof. unfold ktextb. rewrite orb_true_iff, one_of_spec. intros [H|H]; [apply reg_range; exact H|cbn in H; lia]. Qed.
Lemma utext_ktext c : utextb c = true -> ktextb c = true.
Proof. unfold utextb, ktextb. rewrite !orb_true_iff, one_of_spec. cbn. intros [H|H]; [left; exact H|right; lia]. Qed.
Lemma ptext_ktext c : ptextb c = true -> ktextb c = true.
Proof. unfold ptextb, ktextb. rewrite !orb_true_iff, one_of_spec. cbn. intros [[H|H]|H]; [left; exact H|right; lia|right; lia]. Qed.
Lemma reg_ktext c : regb c = true -> ktextb c = true.
Proof. unfold ktextb. intros ->. reflexivity. Qed.
Lemma digit_reg c : 48 <= c <= 57 -> regb c = true.
Proof. intros H. apply reg_spec. left. left. exact H. Qed.
Lemma ktext_facts c : ktextb c = true -> 32 < c < 127 /\ c <> 63 /\ c <> 35 /\ (one_of (bs "!$&'()*+,;=:@[]%") c || negb (should_escape c InPath)) = true.
Proof.
  intros H. pose proof (range_ktext c H) as R.
  pose proof (ascii_all (fun c => implb (ktextb c) ((32 <? c) && (c <? 127) && negb (c =? 63) && negb (c =? 35) && (one_of (bs "!$&'()*+,;=:@[]%") c || negb (should_escape c InPath)))) c ltac:(vm_compute; reflexivity) R) as F.
  cbv beta in F. rewrite H in F. cbn [implb] in F. rewrite !andb_true_iff in F. destruct F as ((((A & B) & C) & D) & E). splits; try lia; exact E.
Qed.
Lemma reg_facts c : regb c = true -> should_escape c InHost = false /\ 32 < c < 127 /\ c <> 37 /\ c <> 58 /\ c <> 64 /\ c <> 47 /\ c <> 91 /\ c <> 93.
Proof.
  intros H. pose proof (reg_range c H) as R.
  pose proof (ascii_all (fun c => implb (regb c) (negb (should_escape c InHost) && (32 <? c) && (c <? 127) && negb (c =? 37) && negb (c =? 58) && negb (c =? 64) && negb (c =? 47) && negb (c =? 91) && negb (c =? 93))) c ltac:(vm_compute; reflexivity) R) as F.
  cbv beta in F. rewrite H in F. cbn [implb] in F. rewrite !andb_true_iff in F. destruct F as ((((((((A & B) & C) & D) & E) & F) & G) & I) & J). splits; try lia; apply negb_true_iff; exact A.
Qed.
Lemma ptext_facts c : ptextb c = true -> c <> 64 /\ c <> 47 /\ (alnum c || one_of (bs "-._:~!$&'()*+,;=%@") c) = true.
Proof.
  intros H. pose proof (range_ktext c (ptext_ktext c H)) as R.
  pose proof (ascii_all (fun c => implb (ptextb c) (negb (c =? 64) && negb (c =? 47) && (alnum c || one_of (bs "-._:~!$&'()*+,;=%@") c))) c ltac:(vm_compute; reflexivity) R) as F.
  cbv beta in F. rewrite H in F. cbn [implb] in F. rewrite !andb_true_iff in F. destruct F as ((A & B) & C). splits; try lia; exact C.
Qed.
Lemma utext_ptext c : utextb c = true -> ptextb c = true.
Proof. unfold utextb, ptextb. intros ->. reflexivity. Qed.
Lemma utext_colon c : utextb c = true -> c <> 58.
Proof. unfold utextb. rewrite orb_true_iff. intros [H|H]; [apply reg_facts in H; tauto|lia]. Qed.

Lemma hexit_unhex d n : hexit d n -> unhex d = Some n.
Proof.
  unfold hexit, unhex. intros [[H ->]|[[H ->]|[H ->]]].
  - destruct ((48 <=? d) && (d <=? 57)) eqn:E; [reflexivity|lia].
  - destruct ((48 <=? d) && (d <=? 57)) eqn:E; [lia|]. destruct ((97 <=? d) && (d <=? 102)) eqn:E2; [lia|]. destruct ((65 <=? d) && (d <=? 70)) eqn:E3; [reflexivity|lia].
  - destruct ((48 <=? d) && (d <=? 57)) eqn:E; [lia|]. destruct ((97 <=? d) && (d <=? 102)) eqn:E2; [reflexivity|lia].
Qed.
Lemma hexit_reg d n : hexit d n -> regb d = true.
Proof. unfold hexit. intros H. apply reg_spec. left. unfold unreserved. lia. Qed.
Lemma unescape_pct m (ok : Z -> Prop) t v : in_host m = false -> (forall c, ok c -> c <> 37) -> pct ok t v -> unescape m t = Some v.
Proof.
  intros M K P. induction P as [|c t v C P IH|a b x y t v A B P IH]; [reflexivity| |].
  - cbn [unescape]. specialize (K c C). destruct (c =? 37) eqn:E; [lia|]. rewrite M, IH. reflexivity.
  - cbn [unescape]. change (37 =? 37) with true. cbv iota. rewrite (hexit_unhex _ _ A), (hexit_unhex _ _ B), IH. cbv zeta. destruct m; try discriminate M; reflexivity.
Qed.
Lemma pct_chars (ok : Z -> Prop) (f : Z -> bool) t v : (forall c, ok c -> f c = true) -> (forall c, regb c = true -> f c = true) -> f 37 = true -> pct ok t v -> forallb f t = true.
Proof.
  intros A B C P. induction P as [|c t v K P IH|a b x y t v X Y P IH]; [reflexivity| |]; cbn [forallb].
  - rewrite A by exact K. exact IH.
  - rewrite C, (B a) by (eapply hexit_reg; eassumption). rewrite (B b) by (eapply hexit_reg; eassumption). exact IH.
Qed.

Lemma cut_last_app c a b : ~ In c b -> cut_last c (a ++ c :: b) = Some (a, b).
Proof. intros N. unfold cut_last. rewrite rev_app_distr. cbn [rev]. rewrite <- app_assoc. cbn [app]. rewrite cut_app by (rewrite <- in_rev; exact N). rewrite !rev_involutive. reflexivity. Qed.
Lemma cut_last_none c s : ~ In c s -> cut_last c s = None.
Proof. intros N. unfold cut_last. rewrite cut_none; [reflexivity|]. rewrite <- in_rev. exact N. Qed.
Lemma not_in_b (f : Z -> bool) c s : forallb f s = true -> f c = false -> ~ In c s.
Proof. intros A B I. rewrite forallb_forall in A. apply A in I. congruence. Qed.
Lemma has_not c s : ~ In c s -> has c s = false.
Proof. intros N. unfold has. destruct (existsb (Z.eqb c) s) eqn:E; [|reflexivity]. apply existsb_exists in E. destruct E as (x & I & E). replace c with x in N by lia. contradiction. Qed.
Lemma forallb_imp {A} (f g : A -> bool) l : (forall x, f x = true -> g x = true) -> forallb f l = true -> forallb g l = true.
Proof. intros H. rewrite !forallb_forall. auto. Qed.
Lemma Forall_b {A} (P : A -> Prop) (f : A -> bool) l : (forall x, P x -> f x = true) -> Forall P l -> forallb f l = true.
Proof. intros H F. apply forallb_forall. rewrite Forall_forall in F. auto. Qed.

(* the host *)
Definition hostb (c : Z) : bool := regb c || one_of (bs ":[]") c.
Lemma host_facts c : hostb c = true -> should_escape c InHost = false /\ 32 < c < 127 /\ c <> 37 /\ c <> 64 /\ c <> 47 /\ c <> 63 /\ c <> 35.
Proof.
  unfold hostb. rewrite orb_true_iff, one_of_spec. intros [H|H].
  - pose proof (ktext_facts c (reg_ktext c H)) as K. apply reg_facts in H. tauto.
  - cbn in H. destruct H as [<-|[<-|[<-|[]]]]; (split; [reflexivity|lia]).
Qed.
Lemma unescape_host s : forallb hostb s = true -> unescape InHost s = Some s.
Proof.
  induction s as [|c s IH]; [reflexivity|]. cbn [forallb unescape]. rewrite andb_true_iff. intros (A & B). apply host_facts in A. destruct A as (A & _ & N & _).
  destruct (c =? 37) eqn:E; [lia|]. rewrite A, andb_false_r, IH by exact B. reflexivity.
Qed.
Lemma escape_host s : forallb hostb s = true -> escape InHost s = s.
Proof.
  induction s as [|c s IH]; [reflexivity|]. cbn [forallb]. rewrite andb_true_iff. intros (A & B). apply host_facts in A. destruct A as (A & _). unfold escape in *. cbn [flat_map]. rewrite A. cbn [app]. rewrite IH by exact B. reflexivity.
Qed.
Definition v6b (c : Z) : bool := is_digit c || ((65 <=? c) && (c <=? 70)) || ((97 <=? c) && (c <=? 102)) || (c =? 58) || (c =? 46).
Lemma v6_host c : v6b c = true -> hostb c = true /\ c <> 91 /\ c <> 93.
Proof.
  intros H. unfold hostb. destruct (Z.eq_dec c 58) as [->|N]; [split; [reflexivity|lia]|]. assert (R : regb c = true).
  { apply reg_spec. left. unfold unreserved, v6b, is_digit in *. destruct (Z.eq_dec c 46) as [->|M]; [right; right; right; cbn; lia|lia]. }
  rewrite R. apply reg_facts in R. split; [reflexivity|tauto].
Qed.
Lemma digitb_host c : is_digit c = true -> hostb c = true /\ c <> 58 /\ c <> 91 /\ c <> 93.
Proof. unfold is_digit. intros H. unfold hostb. rewrite (digit_reg c) by lia. split; [reflexivity|lia]. Qed.
Lemma port_digits p : rport_ok p -> forallb is_digit p = true.
Proof. intros (_ & F). eapply Forall_b; [|exact F]. unfold is_digit. intros x H. lia. Qed.
Lemma rhost_chars h : rhost_ok h -> forallb hostb (rhost_text h) = true.
Proof.
  destruct h as [n|a]; cbn [rhost_ok rhost_text].
  - intros (_ & F). eapply Forall_b; [|exact F]. intros x H. unfold hostb. apply reg_spec in H. rewrite H. reflexivity.
  - intros F. rewrite !forallb_app. rewrite !andb_true_iff. split; [reflexivity|]. split; [|reflexivity]. eapply Forall_b; [|exact F]. intros x H. cbv beta in H. apply v6_host. unfold v6b, is_digit. lia.
Qed.
Lemma find_zone_none s : ~ In 37 s -> find_zone s = None.
Proof.
  induction s as [|c s IH]; intros N; [reflexivity|]. cbn [find_zone]. change (bs "%25") with [37; 50; 53]. destruct (has_prefix [37; 50; 53] (c :: s)) eqn:P.
  - apply has_prefix_inv in P. cbn [length] in P. contradiction N. rewrite P. left. reflexivity.
  - rewrite IH; [reflexivity|]. intros I. apply N. right. exact I.
Qed.
Lemma rport_chars p : match p with Some p => rport_ok p | None => True end -> forallb hostb (rport_text p) = true.
Proof.
  destruct p as [p|]; [|reflexivity]. intros P. cbn [rport_text]. rewrite forallb_app. cbn [bs forallb]. rewrite andb_true_iff. split; [reflexivity|]. eapply forallb_imp; [|apply port_digits; exact P]. intros x H. apply digitb_host. exact H.
Qed.
Lemma parse_host_ok h p : rhost_ok h -> match p with Some p => rport_ok p | None => True end -> parse_host (rhost_text h ++ rport_text p) = Some (rhost_text h ++ rport_text p).
Proof.
  intros H P. assert (C : forallb hostb (rhost_text h ++ rport_text p) = true) by (rewrite forallb_app, (rhost_chars h H), (rport_chars p P); reflexivity).
  unfold parse_host. destruct h as [n|a]; cbn [rhost_text rhost_ok] in *.
  - destruct H as (NE & F). assert (NB : forall c, In c n -> regb c = true) by (intros c I; apply reg_spec; rewrite Forall_forall in F; auto).
    assert (E : has_prefix (bs "[") (n ++ rport_text p) = false).
    { destruct n as [|c n]; [contradiction|]. specialize (NB c (or_introl eq_refl)). apply reg_facts in NB. change (bs "[") with [91]. unfold has_prefix. cbn [length firstn app beq]. destruct (c =? 91) eqn:X; [lia|reflexivity]. }
    rewrite E. assert (N58 : ~ In 58 n) by (intros I; apply NB in I; apply reg_facts in I; lia). destruct p as [p|]; cbn [rport_text] in *.
    + change (bs ":" ++ p) with (58 :: p) in *. pose proof (port_digits p P) as D. rewrite cut_last_app by (eapply not_in_b; [exact D|reflexivity]).
      cbn [valid_port]. change (58 =? 58) with true. rewrite D. cbn [andb negb]. apply unescape_host. exact C.
    + rewrite app_nil_r in *. rewrite cut_last_none by exact N58. apply unescape_host. exact C.
  - change (bs "[" ++ a ++ bs "]") with (91 :: a ++ [93]) in *. assert (E : has_prefix (bs "[") ((91 :: a ++ [93]) ++ rport_text p) = true) by (apply (has_prefix_app (bs "["))). rewrite E.
    assert (V : forall c, In c a -> v6b c = true) by (intros c I; rewrite Forall_forall in H; specialize (H c I); unfold v6b, is_digit; lia).
    assert (S : (91 :: a ++ [93]) ++ rport_text p = (91 :: a) ++ 93 :: rport_text p) by (cbn [app]; rewrite <- app_assoc; reflexivity). rewrite S in *.
    assert (N93 : ~ In 93 (rport_text p)).
    { destruct p as [p|]; [|intros []]. change (bs ":" ++ p) with (58 :: p). cbn [rport_text]. intros [X|I]; [discriminate X|]. apply (not_in_b is_digit 93 p (port_digits p P) eq_refl I). }
    rewrite cut_last_app by exact N93.
    assert (VP : valid_port (rport_text p) = true) by (destruct p as [p|]; [|reflexivity]; change (rport_text (Some p)) with (58 :: p); cbn [valid_port]; rewrite (port_digits p P); reflexivity).
    rewrite VP. cbn [negb]. rewrite find_zone_none; [apply unescape_host; exact C|]. intros [X|I]; [discriminate X|]. apply V in I. unfold v6b, is_digit in I. lia.
Qed.

(* the authority *)
Definition ruser_of (u : ruser) (who : option (bytes * bytes)) : option (bytes * option bytes) :=
  match u, who with User _, Some (n, _) => Some (n, None) | UserPass _ _, Some (n, p) => Some (n, Some p) | _, _ => None end.
Lemma user_char_reg c : user_char c -> regb c = true.
Proof. apply reg_spec. Qed.
Lemma user_text n v : pct user_char n v -> forallb utextb n = true /\ unescape InUser n = Some v.
Proof.
  intros P. split.
  - eapply pct_chars; [| | |exact P]; [| |reflexivity]; intros c H; unfold utextb; [apply user_char_reg in H|]; rewrite H; reflexivity.
  - eapply unescape_pct; [reflexivity| |exact P]. intros c H. apply user_char_reg, reg_facts in H. tauto.
Qed.
Lemma pass_text n v : pct pass_char n v -> forallb ptextb n = true /\ unescape InUser n = Some v.
Proof.
  intros P. split.
  - eapply pct_chars; [| | |exact P]; [| |reflexivity]; intros c H; unfold ptextb; [destruct H as [H| ->]; [apply user_char_reg in H; rewrite H; reflexivity|apply orb_true_r]|]. rewrite H. reflexivity.
  - eapply unescape_pct; [reflexivity| |exact P]. intros c [H| ->]; [apply user_char_reg, reg_facts in H; tauto|lia].
Qed.
Lemma ruser_chars u who : ruser_is u who -> forallb (fun c => ptextb c || (c =? 64)) (ruser_text u) = true.
Proof.
  intros U. destruct u as [|n|n p]; cbn [ruser_text]; [reflexivity| |]; destruct who as [[name pass]|]; try contradiction; destruct U as (A & B); apply user_text in A as (A & _).
  - rewrite forallb_app, andb_true_iff. split; [|reflexivity]. eapply forallb_imp; [|exact A]. intros x H. rewrite (utext_ptext x H). reflexivity.
  - apply pass_text in B as (B & _). rewrite !forallb_app, !andb_true_iff. splits; try reflexivity.
    + eapply forallb_imp; [|exact A]. intros x H. rewrite (utext_ptext x H). reflexivity.
    + eapply forallb_imp; [|exact B]. intros x H. rewrite H. reflexivity.
Qed.
Lemma parse_authority_ok u who h p : ruser_is u who -> rhost_ok h -> match p with Some p => rport_ok p | None => True end ->
  parse_authority (ruser_text u ++ rhost_text h ++ rport_text p) = Some (ruser_of u who, rhost_text h ++ rport_text p).
Proof.
  intros U H P. pose proof (parse_host_ok h p H P) as PH. assert (N : ~ In 64 (rhost_text h ++ rport_text p)).
  { apply (not_in_b hostb); [rewrite forallb_app, (rhost_chars h H), (rport_chars p P); reflexivity|reflexivity]. }
  unfold parse_authority. destruct u as [|n|n q]; cbn [ruser_text ruser_is] in *.
  - cbn [app]. rewrite cut_last_none by exact N. rewrite PH. destruct who; [contradiction|reflexivity].
  - destruct who as [[name pass]|]; [|contradiction]. destruct U as (A & ->). apply user_text in A as (A & D). rewrite <- app_assoc. change (bs "@" ++ rhost_text h ++ rport_text p) with (64 :: rhost_text h ++ rport_text p).
    rewrite cut_last_app by exact N. rewrite PH. assert (V : valid_userinfo n = true) by (unfold valid_userinfo; eapply forallb_imp; [|exact A]; intros x X; apply utext_ptext, ptext_facts in X; apply X). rewrite V. cbn [negb].
    rewrite cut_none by (intros I; rewrite forallb_forall in A; apply A, utext_colon in I; lia). rewrite D. reflexivity.
  - destruct who as [[name pass]|]; [|contradiction]. destruct U as (A & B). apply user_text in A as (A & D). apply pass_text in B as (B & E). change (bs ":" ++ q ++ bs "@") with (58 :: q ++ [64]).
    replace ((n ++ 58 :: q ++ [64]) ++ rhost_text h ++ rport_text p) with ((n ++ 58 :: q) ++ 64 :: rhost_text h ++ rport_text p) by (rewrite <- !app_assoc; cbn [app]; rewrite <- !app_assoc; reflexivity).
    rewrite cut_last_app by exact N. rewrite PH. assert (V : valid_userinfo (n ++ 58 :: q) = true).
    { unfold valid_userinfo. rewrite forallb_app. cbn [forallb]. rewrite !andb_true_iff. splits; [|reflexivity|].
      - eapply forallb_imp; [|exact A]. intros x X. apply utext_ptext, ptext_facts in X. apply X.
      - eapply forallb_imp; [|exact B]. intros x X. apply ptext_facts in X. apply X. }
    rewrite V. cbn [negb]. rewrite cut_app by (intros I; rewrite forallb_forall in A; apply A, utext_colon in I; lia). rewrite D, E. reflexivity.
Qed.

(* the path *)
Lemma path_text p : path_ok p -> forallb ktextb p = true /\ valid_encoded InPath p = true /\ (p = [] \/ exists t, p = 47 :: t) /\
  exists d, unescape InPath p = Some d /\ d <> bs "*" /\ (d = [] -> p = []).
Proof.
  intros [->|(t & v & -> & P)].
  - splits; try reflexivity; [left; reflexivity|]. exists []. splits; try reflexivity; discriminate.
  - assert (K : forallb ktextb t = true).
    { eapply pct_chars; [| | |exact P]; [|intros c H; apply reg_ktext; exact H|reflexivity]. intros c [H|[H|H]]; [apply reg_ktext; apply reg_spec; left; exact H|apply reg_ktext; apply reg_spec; right; exact H|].
      cbn in H. destruct H as [<-|[<-|[<-|[]]]]; reflexivity. }
    splits; [cbn [forallb]; rewrite K; reflexivity| |right; exists t; reflexivity|].
    + unfold valid_encoded. cbn [forallb]. rewrite andb_true_iff. split; [reflexivity|]. eapply forallb_imp; [|exact K]. intros x X. apply ktext_facts in X. apply X.
    + exists (47 :: v). cbn [unescape]. change (47 =? 37) with false. cbv iota. cbn [in_host andb]. rewrite (unescape_pct InPath path_char t v eq_refl); [|intros c [H|[H|H]]|exact P].
      * splits; [reflexivity|discriminate|discriminate].
      * assert (R : regb c = true) by (apply reg_spec; left; exact H). apply reg_facts in R. tauto.
      * assert (R : regb c = true) by (apply reg_spec; right; exact H). apply reg_facts in R. tauto.
      * cbn in H. lia.
Qed.
Lemma encoded_path p d : valid_encoded InPath p = true -> unescape InPath p = Some d -> d <> bs "*" -> encoded InPath d (if beq p (escape InPath d) then [] else p) = p.
Proof.
  intros V U N. unfold encoded. destruct (beq p (escape InPath d)) eqn:E.
  - cbn [beq negb andb]. apply beq_eq in E. destruct (beq d (bs "*")) eqn:S; [apply beq_eq in S; contradiction|]. symmetry. exact E.
  - rewrite V, U, beq_refl. destruct p as [|c p]; [|reflexivity]. cbn [unescape] in U. injection U as <-. discriminate E.
Qed.

(* the scheme *)
Lemma to_lower_step x l : 0 <= x < 128 -> to_lower (x :: l) = lower1 x :: to_lower l.
Proof.
  intros X. destruct l as [|y [|z l]]; [reflexivity| |]; cbn [to_lower].
  - destruct ((x =? 196) && (y =? 176)) eqn:E; [lia|reflexivity].
  - destruct ((x =? 196) && (y =? 176)) eqn:E; [lia|]. destruct ((x =? 226) && (y =? 132) && (z =? 170)) eqn:E2; [lia|reflexivity].
Qed.
Lemma get_scheme_ok r : forall seen raw rest, seen <> [] -> Forall (fun c => 48 <= c <= 57 \/ 65 <= c <= 90 \/ 97 <= c <= 122 \/ In c (bs "+-.")) r ->
  get_scheme seen (r ++ 58 :: rest) raw = Some (seen ++ r, rest).
Proof.
  induction r as [|c r IH]; intros seen raw rest N F; cbn [app get_scheme].
  - change (letter 58) with false. change (is_digit 58 || one_of (bs "+-.") 58) with false. cbv iota. rewrite app_nil_r. destruct seen; [contradiction|reflexivity].
  - inversion F as [|x y C F2]; subst. assert (T : get_scheme (seen ++ [c]) (r ++ 58 :: rest) raw = Some (seen ++ c :: r, rest)) by (rewrite IH; [rewrite <- app_assoc; reflexivity|destruct seen; discriminate|exact F2]).
    destruct (letter c) eqn:L; [exact T|]. assert (D : is_digit c || one_of (bs "+-.") c = true).
    { rewrite orb_true_iff, one_of_spec. unfold letter, is_digit in *. destruct C as [C|[C|[C|C]]]; [left; lia|lia|lia|right; exact C]. }
    rewrite D. destruct seen; [contradiction|exact T].
Qed.
Lemma scheme_chars sch : scheme_ok sch -> forallb (fun c => (32 <? c) && (c <? 127) && negb (c =? 35)) sch = true /\ to_lower sch = lowered sch /\ lowered sch <> [] /\
  forall rest raw, get_scheme [] (sch ++ 58 :: rest) raw = Some (sch, rest).
Proof.
  intros (c & r & -> & C & F). splits.
  - cbn [forallb]. rewrite andb_true_iff. split; [lia|]. eapply Forall_b; [|exact F]. intros x X. cbn in X. lia.
  - assert (G : Forall (fun c => 0 <= c < 128) (c :: r)) by (constructor; [lia|]; eapply Forall_impl; [|exact F]; cbn; intros x X; lia). clear F C. generalize dependent (c :: r). intros l G.
    induction l as [|x l IH]; [reflexivity|]. inversion G as [|y z X G2]; subst. rewrite to_lower_step by exact X. cbn [lowered map]. rewrite IH by exact G2. reflexivity.
  - discriminate.
  - intros rest raw. cbn [app get_scheme]. assert (L : letter c = true) by (unfold letter; lia). rewrite L. cbn [app]. rewrite get_scheme_ok; [reflexivity|discriminate|exact F].
Qed.

(* everything *)
Lemma existsb_not (f : Z -> bool) g s : (forall c, g c = true -> f c = false) -> forallb g s = true -> existsb f s = false.
Proof.
  intros H. induction s as [|c s IH]; [reflexivity|]. cbn [forallb existsb]. rewrite andb_true_iff. intros (A & B). rewrite (H c A), IH by exact B. reflexivity.
Qed.
Lemma bs_colon : bs "://" = [58; 47; 47].
Proof. reflexivity. Qed.
Lemma parse_text sch u who h port path q d : scheme_ok sch -> ruser_is u who -> rhost_ok h -> match port with Some p => rport_ok p | None => True end ->
  path_ok path -> match q with Some q => query_ok q | None => True end -> unescape InPath path = Some d ->
  parse (url_text sch u h port path q) =
  Some (mkUrl (lowered sch) [] (ruser_of u who) (rhost_text h ++ rport_text port) d (if beq path (escape InPath d) then [] else path) false
          (match q with Some [] => true | _ => false end) (match q with Some q => q | None => [] end) [] []).
Proof.
  intros S U H P K Q D. pose proof (scheme_chars sch S) as (S1 & S2 & S3 & S4). pose proof (path_text path K) as (K1 & _ & K3 & _).
  pose proof (parse_authority_ok u who h port U H P) as PA. set (auth := ruser_text u ++ rhost_text h ++ rport_text port) in *.
  assert (A : forallb (fun c => (32 <? c) && (c <? 127) && negb (c =? 35) && negb (c =? 47) && negb (c =? 63)) auth = true).
  { unfold auth. rewrite !forallb_app, !andb_true_iff. splits.
    - eapply forallb_imp; [|eapply ruser_chars; exact U]. intros c. cbv beta. rewrite orb_true_iff. intros [C|C]; [|lia]. pose proof (ptext_facts c C) as (C1 & C2 & _). apply ptext_ktext, ktext_facts in C. lia.
    - eapply forallb_imp; [|apply rhost_chars; exact H]. intros c C. apply host_facts in C. lia.
    - eapply forallb_imp; [|apply rport_chars; exact P]. intros c C. apply host_facts in C. lia. }
  assert (E : url_text sch u h port path q = sch ++ 58 :: 47 :: 47 :: auth ++ path ++ query_text q) by (unfold url_text, auth; rewrite <- !app_assoc; reflexivity).
  rewrite E. clear E. set (raw := sch ++ 58 :: 47 :: 47 :: auth ++ path ++ query_text q).
  assert (QT : forallb (fun c => (32 <=? c) && negb (c =? 127) && negb (c =? 35)) (query_text q) = true).
  { destruct q as [q|]; [|reflexivity]. cbn [query_text]. rewrite forallb_app, andb_true_iff. split; [reflexivity|]. eapply Forall_b; [|exact Q]. cbv beta. lia. }
  assert (R : forallb (fun c => (32 <=? c) && negb (c =? 127) && negb (c =? 35)) raw = true).
  { unfold raw. rewrite forallb_app. cbn [forallb]. rewrite !forallb_app. rewrite !andb_true_iff. splits; try reflexivity; try exact QT.
    - eapply forallb_imp; [|exact S1]. cbv beta. lia.
    - eapply forallb_imp; [|exact A]. cbv beta. lia.
    - eapply forallb_imp; [|exact K1]. intros c C. apply ktext_facts in C. lia. }
  unfold parse. rewrite cut_none by (eapply not_in_b; [exact R|reflexivity]). unfold parse1.
  rewrite (existsb_not _ _ raw) with (2 := R) by (cbv beta; lia).
  assert (NS : beq raw (bs "*") = false).
  { destruct S as (c & r & -> & C & _). unfold raw. change (bs "*") with [42]. cbn [app beq]. destruct (c =? 42) eqn:X; [lia|reflexivity]. }
  rewrite NS. unfold raw at 1. rewrite S4. rewrite S2. cbv zeta.
  assert (C63 : cut 63 (47 :: 47 :: auth ++ path ++ query_text q) = match q with Some q => Some (47 :: 47 :: auth ++ path, q) | None => None end).
  { assert (N : ~ In 63 (47 :: 47 :: auth ++ path)).
    { intros [X|[X|I]]; try discriminate X. apply in_app_or in I as [I|I]; [revert I; eapply not_in_b; [exact A|reflexivity]|]. rewrite forallb_forall in K1. apply K1, ktext_facts in I. lia. }
    destruct q as [q|]; cbn [query_text].
    - change (bs "?" ++ q) with (63 :: q). rewrite app_assoc. change (47 :: 47 :: (auth ++ path) ++ 63 :: q) with ((47 :: 47 :: auth ++ path) ++ 63 :: q). apply cut_app. exact N.
    - rewrite app_nil_r. apply cut_none. exact N. }
  rewrite C63. clear C63 R QT NS. assert (NIL : auth ++ path ++ query_text None = auth ++ path) by (cbn [query_text]; rewrite app_nil_r; reflexivity).
  assert (HP : has_prefix (bs "/") (47 :: 47 :: auth ++ path) = true) by (apply (has_prefix_app (bs "/"))).
  assert (HP2 : has_prefix (bs "//") (47 :: 47 :: auth ++ path) = true) by (apply (has_prefix_app (bs "//"))).
  assert (LS : beq (lowered sch) [] = false) by (destruct (lowered sch); [contradiction|reflexivity]). 
  assert (C47 : (match cut 47 (auth ++ path) with Some (a, b) => (a, 47 :: b) | None => (auth ++ path, []) end) = (auth, path)).
  { assert (N : ~ In 47 auth) by (eapply not_in_b; [exact A|reflexivity]). destruct K3 as [->|(t & ->)]; [rewrite app_nil_r, cut_none by exact N; reflexivity|rewrite cut_app by exact N; reflexivity]. }
  destruct q as [[|c0 q0]|]; cbv iota; rewrite ?NIL, HP, HP2, LS; cbn [negb orb andb skipn]; rewrite C47, PA; unfold set_encoded; rewrite D; reflexivity.
Qed.

(* host and port apart *)
Lemma split_ok h p : rhost_ok h -> rport_ok p -> split_host_port (rhost_text h ++ 58 :: p) = Some (rhost_name h, p).
Proof.
  intros H P. pose proof (port_digits p P) as D. assert (N58 : ~ In 58 p) by (eapply not_in_b; [exact D|reflexivity]). assert (N91 : ~ In 91 p) by (eapply not_in_b; [exact D|reflexivity]). assert (N93 : ~ In 93 p) by (eapply not_in_b; [exact D|reflexivity]).
  unfold split_host_port. rewrite cut_last_app by exact N58. destruct h as [n|a]; cbn [rhost_text rhost_name rhost_ok] in *.
  - destruct H as (NE & F). assert (NB : forall c, In c n -> regb c = true) by (intros c I; apply reg_spec; rewrite Forall_forall in F; auto).
    assert (E : has_prefix (bs "[") (n ++ 58 :: p) = false).
    { destruct n as [|c n]; [contradiction|]. specialize (NB c (or_introl eq_refl)). apply reg_facts in NB. change (bs "[") with [91]. unfold has_prefix. cbn [length firstn app beq]. destruct (c =? 91) eqn:X; [lia|reflexivity]. }
    rewrite E. rewrite !has_not; [reflexivity| | |]; intros I; try (apply in_app_or in I as [I|[X|I]]; try discriminate X; try contradiction); apply NB, reg_facts in I; lia.
  - change (bs "[" ++ a ++ bs "]") with (91 :: a ++ [93]). assert (V : forall c, In c a -> v6b c = true) by (intros c I; rewrite Forall_forall in H; specialize (H c I); unfold v6b, is_digit; lia).
    assert (HP : has_prefix (bs "[") ((91 :: a ++ [93]) ++ 58 :: p) = true) by (apply (has_prefix_app (bs "["))). rewrite HP. assert (S : (91 :: a ++ [93]) ++ 58 :: p = (91 :: a) ++ 93 :: 58 :: p) by (cbn [app]; rewrite <- app_assoc; reflexivity). rewrite S.
    rewrite cut_app by (intros [X|I]; [discriminate X|]; apply V, v6_host in I; lia). change ((91 :: a) ++ [93]) with (91 :: a ++ [93]). rewrite beq_refl. cbn [negb app skipn].
    rewrite !has_not; [reflexivity| |].
    + intros [X|I]; [discriminate X|contradiction].
    + intros I. apply in_app_or in I as [I|[X|[X|I]]]; try discriminate X; [|contradiction]. apply V, v6_host in I. lia.
Qed.
Lemma split_none h : rhost_ok h -> split_host_port (rhost_text h) = None.
Proof.
  intros H. unfold split_host_port. destruct h as [n|a]; cbn [rhost_text rhost_ok] in *.
  - destruct H as (NE & F). rewrite cut_last_none; [reflexivity|]. intros I. rewrite Forall_forall in F. apply F, reg_spec, reg_facts in I. lia.
  - change (bs "[" ++ a ++ bs "]") with (91 :: a ++ [93]). assert (HP : has_prefix (bs "[") (91 :: a ++ [93]) = true) by (apply (has_prefix_app (bs "["))). rewrite HP. destruct (cut_last 58 (91 :: a ++ [93])) as [[b p]|]; [|reflexivity].
    change (91 :: a ++ [93]) with ((91 :: a) ++ [93]). rewrite cut_app; [reflexivity|]. intros [X|I]; [discriminate X|]. rewrite Forall_forall in H. specialize (H _ I). cbv beta in H. lia.
Qed.
Definition port_or (p : option bytes) : bytes := match p with Some p => p | None => bs "554" end.
Lemma port_or_ok p : match p with Some p => rport_ok p | None => True end -> rport_ok (port_or p).
Proof. destruct p as [p|]; [tauto|]. intros _. split; [discriminate|]. repeat constructor; cbn; lia. Qed.
Lemma dial_text sch u who h port path q d : scheme_ok sch -> ruser_is u who -> rhost_ok h -> match port with Some p => rport_ok p | None => True end ->
  path_ok path -> match q with Some q => query_ok q | None => True end -> unescape InPath path = Some d ->
  exists v, parse (url_text sch u h port path q) = Some v /\ dial_host v = rhost_text h ++ 58 :: port_or port /\ credentials v = who /\
    base_uri v = lowered sch ++ bs "://" ++ rhost_text h ++ bs ":" ++ port_or port ++ path ++ query_text q.
Proof.
  intros S U H P K Q D. rewrite (parse_text sch u who h port path q d S U H P K Q D). eexists. split; [reflexivity|].
  assert (DH : dial_host (mkUrl (lowered sch) [] (ruser_of u who) (rhost_text h ++ rport_text port) d (if beq path (escape InPath d) then [] else path) false
          (match q with Some [] => true | _ => false end) (match q with Some q => q | None => [] end) [] []) = rhost_text h ++ 58 :: port_or port).
  { unfold dial_host. cbn [u_host]. destruct port as [p|]; cbn [rport_text port_or].
    - change (bs ":" ++ p) with (58 :: p). rewrite split_ok by assumption. reflexivity.
    - rewrite app_nil_r, split_none by exact H. reflexivity. }
  splits; [exact DH| |].
  - unfold credentials. cbn [u_user]. destruct u as [|n|n p], who as [[a b]|]; cbn [ruser_is ruser_of] in *; try contradiction; try reflexivity. destruct U as (_ & ->). reflexivity.
  - unfold base_uri. rewrite DH. unfold url_string. cbn [u_scheme u_opaque u_user u_host u_path u_rawpath u_omit u_force u_query u_fragment u_rawfragment].
    destruct (path_text path K) as (_ & VE & PS & d' & D' & ND & _). rewrite D in D'. injection D' as <-. rewrite (encoded_path path d VE D ND).
    destruct (scheme_chars sch S) as (_ & _ & NS & _). assert (LS : beq (lowered sch) [] = false) by (destruct (lowered sch); [contradiction|reflexivity]). rewrite LS.
    assert (HN : beq (rhost_text h ++ 58 :: port_or port) [] = false) by (destruct (rhost_text h); reflexivity). rewrite HN. cbn [beq negb andb orb].
    rewrite escape_host.
    2:{ rewrite forallb_app. rewrite (rhost_chars h H). cbn [forallb andb]. change (hostb 58) with true. cbn [andb]. eapply forallb_imp; [|apply port_digits, port_or_ok; exact P]. intros c C. apply digitb_host. exact C. }
    assert (SL : (if negb (beq path []) && negb (has_prefix (bs "/") path) && true then bs "/" else []) = []) by (destruct PS as [->|(t & ->)]; [reflexivity|assert (HP : has_prefix (bs "/") (47 :: t) = true) by (apply (has_prefix_app (bs "/"))); rewrite HP; reflexivity]).
    rewrite SL. assert (NB : beq ((lowered sch ++ bs ":") ++ (bs "//" ++ [] ++ rhost_text h ++ 58 :: port_or port) ++ []) [] = false) by (destruct (lowered sch); reflexivity). rewrite NB. cbn [andb].
    destruct q as [[|c0 q0]|]; cbn [orb negb beq query_text]; rewrite ?app_nil_r, <- !app_assoc; reflexivity.
Qed.

(* the fragment *)
Definition with_fragment (v : url) (d r : bytes) : url :=
  mkUrl (u_scheme v) (u_opaque v) (u_user v) (u_host v) (u_path v) (u_rawpath v) (u_omit v) (u_force v) (u_query v) d r.
Lemma reg_fragment c : regb c = true -> (one_of (bs "!$&'()*+,;=:@[]%") c || negb (should_escape c InFragment)) = true.
Proof.
  intros H. pose proof (reg_range c H) as R.
  pose proof (ascii_all (fun c => implb (regb c) (one_of (bs "!$&'()*+,;=:@[]%") c || negb (should_escape c InFragment))) c ltac:(vm_compute; reflexivity) R) as F.
  cbv beta in F. rewrite H in F. exact F.
Qed.
Lemma fragment_text f v : pct fragment_char f v -> valid_encoded InFragment f = true /\ unescape InFragment f = Some v /\ (v = [] -> f = []).
Proof.
  intros P. splits.
  - unfold valid_encoded. eapply pct_chars; [| | |exact P]; [| |reflexivity].
    + intros c [[H|[H|H]]|X]; [| | |subst c; reflexivity].
      * apply reg_fragment, reg_spec. left. exact H.
      * apply reg_fragment, reg_spec. right. exact H.
      * cbn in H. destruct H as [<-|[<-|[<-|[]]]]; reflexivity.
    + intros c R. apply reg_fragment. exact R.
  - eapply unescape_pct; [reflexivity| |exact P]. intros c [[H|[H|H]]|X]; [| | |lia].
    + assert (R : regb c = true) by (apply reg_spec; left; exact H). apply reg_facts in R. tauto.
    + assert (R : regb c = true) by (apply reg_spec; right; exact H). apply reg_facts in R. tauto.
    + cbn in H. lia.
  - destruct P; [reflexivity|discriminate|discriminate].
Qed.
Lemma url_text_35 sch u who h port path q : scheme_ok sch -> ruser_is u who -> rhost_ok h -> match port with Some p => rport_ok p | None => True end ->
  path_ok path -> match q with Some q => query_ok q | None => True end -> ~ In 35 (url_text sch u h port path q).
Proof.
  intros S U H P K Q. unfold url_text. rewrite !in_app_iff. destruct (scheme_chars sch S) as (SC & _).
  pose proof (ruser_chars u who U) as UC. pose proof (rhost_chars h H) as HC. pose proof (rport_chars port P) as PC. destruct (path_text path K) as (KC & _).
  intros [I|[I|[I|[I|[I|[I|I]]]]]].
  - eapply not_in_b; [exact SC| |exact I]. reflexivity.
  - cbn in I. lia.
  - eapply not_in_b; [exact UC| |exact I]. reflexivity.
  - eapply not_in_b; [exact HC| |exact I]. reflexivity.
  - eapply not_in_b; [exact PC| |exact I]. reflexivity.
  - eapply not_in_b; [exact KC| |exact I]. reflexivity.
  - destruct q as [q|]; [|exact I]. unfold query_text in I. apply in_app_or in I as [I|I]; [cbn in I; lia|]. unfold query_ok in Q. rewrite Forall_forall in Q. apply Q in I. lia.
Qed.
Lemma parse_fragment a f : ~ In 35 a -> parse (a ++ 35 :: f) =
  match f with
  | [] => parse a
  | _ => match parse a, set_encoded InFragment f with Some v, Some (d, r) => Some (with_fragment v d r) | _, _ => None end
  end.
Proof.
  intros N. assert (E : parse a = parse1 a) by (unfold parse; rewrite cut_none by exact N; reflexivity). rewrite E. unfold parse. rewrite cut_app by exact N.
  destruct (parse1 a) as [v|]; destruct f; reflexivity.
Qed.
Lemma encoded_fragment f v : pct fragment_char f v -> encoded InFragment v (if beq f (escape InFragment v) then [] else f) = f.
Proof.
  intros P. destruct (fragment_text f v P) as (V & U & _). unfold encoded. destruct (beq f (escape InFragment v)) eqn:E.
  - cbn [beq negb andb]. apply beq_eq in E. symmetry. exact E.
  - rewrite V, U, beq_refl. destruct f as [|c f]; [|reflexivity]. cbn [unescape] in U. injection U as <-. discriminate E.
Qed.
Lemma dial_fragment sch u who h port path q d f v : scheme_ok sch -> ruser_is u who -> rhost_ok h -> match port with Some p => rport_ok p | None => True end ->
  path_ok path -> match q with Some q => query_ok q | None => True end -> unescape InPath path = Some d -> pct fragment_char f v -> f <> [] ->
  exists w, parse (url_text sch u h port path q ++ bs "#" ++ f) = Some w /\ dial_host w = rhost_text h ++ 58 :: port_or port /\ credentials w = who /\
    base_uri w = (lowered sch ++ bs "://" ++ rhost_text h ++ bs ":" ++ port_or port ++ path ++ query_text q) ++ bs "#" ++ f.
Proof.
  intros S U H P K Q D F NF. pose proof (url_text_35 sch u who h port path q S U H P K Q) as N. change (bs "#" ++ f) with (35 :: f). rewrite parse_fragment by exact N.
  destruct (dial_text sch u who h port path q d S U H P K Q D) as (w & E & DH & C & B). rewrite E. destruct (fragment_text f v F) as (_ & FU & FN).
  unfold set_encoded. rewrite FU. exists (with_fragment w v (if beq f (escape InFragment v) then [] else f)). split; [destruct f; [contradiction|reflexivity]|]. splits; [exact DH|exact C|].
  rewrite <- B.
  assert (W : u_fragment w = [] /\ u_rawfragment w = []).
  { rewrite (parse_text sch u who h port path q d S U H P K Q D) in E. injection E as <-. split; reflexivity. }
  unfold base_uri. unfold url_string. destruct W as (W1 & _).
  cbn [with_fragment u_scheme u_opaque u_user u_host u_path u_rawpath u_omit u_force u_query u_fragment u_rawfragment].
  change (dial_host (with_fragment w v (if beq f (escape InFragment v) then [] else f))) with (dial_host w).
  rewrite (encoded_fragment f v F), W1. destruct v as [|c v]; [exfalso; apply NF, FN; reflexivity|]. cbn [beq]. rewrite app_nil_r, <- !app_assoc. reflexivity.
Qed.

(* no control characters *)
Definition calm (c : Z) : bool := (32 <=? c) && negb (c =? 127).
Lemma calm_unescaped c m : should_escape c m = false -> calm c = true.
Proof.
  unfold should_escape. destruct (alnum c) eqn:A; [intros _; unfold alnum, letter, is_digit, calm in *; lia|].
  assert (O : forall l, forallb calm l = true -> one_of l c = true -> calm c = true) by (intros l F I; apply one_of_spec in I; rewrite forallb_forall in F; auto).
  destruct (in_host m && one_of (bs "!$&'()*+,;=:[]<>""") c) eqn:B; [intros _; apply andb_true_iff in B as (_ & B); revert B; apply O; reflexivity|].
  destruct (one_of (bs "-_.~") c) eqn:C; [intros _; revert C; apply O; reflexivity|].
  destruct (one_of (bs "$&+,/:;=?@") c) eqn:D; [intros _; revert D; apply O; reflexivity|].
  destruct m; try discriminate. destruct (one_of (bs "!()*") c) eqn:E; [intros _; revert E; apply O; reflexivity|discriminate].
Qed.
Lemma calm_escape m s : bytes_ok s -> forallb calm (escape m s) = true.
Proof.
  intros B. induction B as [|c s C B IH]; [reflexivity|]. unfold escape in *. cbn [flat_map]. rewrite forallb_app, IH, andb_true_r. destruct (should_escape c m) eqn:E.
  - cbn [forallb]. unfold calm, upperhex. unfold byte_ok in C. change (32 <=? 37) with true. change (37 =? 127) with false. cbn [negb andb].
    assert (0 <= c / 16 < 16) by (Z.div_mod_to_equations; lia). assert (0 <= c mod 16 < 16) by (Z.div_mod_to_equations; lia).
    destruct (c / 16 <? 10) eqn:E1, (c mod 16 <? 10) eqn:E2; lia.
  - cbn [forallb]. rewrite (calm_unescaped c m E). reflexivity.
Qed.
Lemma calm_valid m s : valid_encoded m s = true -> forallb calm s = true.
Proof.
  unfold valid_encoded. apply forallb_imp. intros c. rewrite orb_true_iff, negb_true_iff. intros [H|H]; [|eapply calm_unescaped; exact H]. apply one_of_spec in H. revert c H.
  apply forallb_forall. reflexivity.
Qed.
Lemma calm_encoded m d raw : bytes_ok d -> forallb calm (encoded m d raw) = true.
Proof.
  intros B. unfold encoded. destruct (negb (beq raw []) && valid_encoded m raw && match unescape m raw with Some d' => beq d' d | None => false end) eqn:E.
  - rewrite !andb_true_iff in E. destruct E as ((_ & V) & _). eapply calm_valid; exact V.
  - destruct m; try (apply calm_escape; exact B). destruct (beq d (bs "*")); [reflexivity|apply calm_escape; exact B].
Qed.
Lemma unhex_range c n : unhex c = Some n -> 0 <= n < 16.
Proof.
  unfold unhex. destruct ((48 <=? c) && (c <=? 57)) eqn:A; [intros E; injection E as <-; lia|]. destruct ((97 <=? c) && (c <=? 102)) eqn:B; [intros E; injection E as <-; lia|].
  destruct ((65 <=? c) && (c <=? 70)) eqn:C; [intros E; injection E as <-; lia|discriminate].
Qed.
Lemma unescape_bytes m s : forall d, bytes_ok s -> unescape m s = Some d -> bytes_ok d.
Proof.
  remember (length s) as n eqn:L. assert (LE : (length s <= n)%nat) by lia. clear L. revert s LE. induction n as [|n IH]; intros s LE d B.
  { destruct s; [|cbn in LE; lia]. intros E. injection E as <-. constructor. }
  destruct s as [|c r]; [intros E; injection E as <-; constructor|]. cbn [unescape]. inversion B as [|x y C B2]; subst. cbn [length] in LE. destruct (c =? 37).
  - destruct r as [|a [|b r']]; try discriminate. destruct (unhex a) as [x|] eqn:X; [|discriminate]. destruct (unhex b) as [y|] eqn:Y; [|discriminate]. cbv zeta.
    match goal with |- (if ?q then _ else _) = _ -> _ => destruct q; [discriminate|] end. destruct (unescape m r') as [t|] eqn:T; [|discriminate]. intros E. injection E as <-.
    apply unhex_range in X. apply unhex_range in Y. inversion B2 as [|? ? ? B3]; subst. inversion B3 as [|? ? ? B4]; subst. constructor; [unfold byte_ok; lia|]. eapply IH; [|exact B4|exact T]. cbn [length] in LE. lia.
  - destruct (in_host m && (c <? 128) && should_escape c m); [discriminate|]. destruct (unescape m r) as [t|] eqn:T; [|discriminate]. intros E. injection E as <-. constructor; [exact C|]. eapply IH; [|exact B2|exact T]. lia.
Qed.
Lemma cut_last_some c s a b : cut_last c s = Some (a, b) -> s = a ++ c :: b.
Proof.
  unfold cut_last. destruct (cut c (rev s)) as [[x y]|] eqn:E; [|discriminate]. intros H. injection H as <- <-. apply cut_some in E as (E & _). rewrite <- (rev_involutive s), E, rev_app_distr. cbn [rev]. rewrite <- app_assoc. reflexivity.
Qed.
Lemma find_zone_some s : forall a b, find_zone s = Some (a, b) -> s = a ++ b.
Proof.
  induction s as [|c s IH]; intros a b; cbn [find_zone]; [discriminate|]. destruct (has_prefix (bs "%25") (c :: s)); [intros E; injection E as <- <-; reflexivity|].
  destruct (find_zone s) as [[x y]|]; [|discriminate]. intros E. injection E as <- <-. cbn [app]. rewrite <- (IH x y eq_refl). reflexivity.
Qed.
Lemma parse_host_bytes s h : bytes_ok s -> parse_host s = Some h -> bytes_ok h.
Proof.
  intros B. unfold parse_host. destruct (has_prefix (bs "[") s).
  - destruct (cut_last 93 s) as [[b p]|] eqn:C; [|discriminate]. destruct (negb (valid_port p)); [discriminate|]. destruct (find_zone b) as [[h1 z]|] eqn:F; [|apply unescape_bytes; exact B].
    destruct (unescape InHost h1) as [x|] eqn:X; [|discriminate]. destruct (unescape InZone z) as [y|] eqn:Y; [|discriminate]. destruct (unescape InHost (93 :: p)) as [q|] eqn:Q; [|discriminate]. intros E. injection E as <-.
    apply cut_last_some in C. apply find_zone_some in F. subst s b. apply bytes_ok_app in B as (B1 & B2). apply bytes_ok_app in B1 as (B0 & B1).
    apply bytes_ok_app. split; [eapply unescape_bytes; [exact B0|exact X]|]. apply bytes_ok_app. split; [eapply unescape_bytes; [exact B1|exact Y]|eapply unescape_bytes; [exact B2|exact Q]].
  - destruct (cut_last 58 s) as [[b p]|]; [|apply unescape_bytes; exact B]. destruct (negb (valid_port (58 :: p))); [discriminate|]. apply unescape_bytes; exact B.
Qed.
Definition who_bytes (x : option (bytes * option bytes)) : Prop := match x with Some (n, Some p) => bytes_ok n /\ bytes_ok p | Some (n, None) => bytes_ok n | None => True end.
Lemma parse_authority_bytes s u h : bytes_ok s -> parse_authority s = Some (u, h) -> bytes_ok h /\ who_bytes u.
Proof.
  intros B. unfold parse_authority. destruct (cut_last 64 s) as [[i r]|] eqn:C.
  - apply cut_last_some in C. subst s. apply bytes_ok_app in B as (B1 & B2). apply Forall_inv_tail in B2. destruct (parse_host r) as [h'|] eqn:H; [|discriminate]. apply parse_host_bytes in H; [|exact B2].
    destruct (negb (valid_userinfo i)); [discriminate|]. destruct (cut 58 i) as [[n p]|] eqn:K.
    + apply cut_some in K as (-> & _). apply bytes_ok_app in B1 as (B3 & B4). apply Forall_inv_tail in B4. destruct (unescape InUser n) as [n'|] eqn:N; [|discriminate]. destruct (unescape InUser p) as [p'|] eqn:P; [|discriminate].
      intros E. injection E as <- <-. split; [exact H|]. split; [eapply unescape_bytes; [exact B3|exact N]|eapply unescape_bytes; [exact B4|exact P]].
    + destruct (unescape InUser i) as [n'|] eqn:N; [|discriminate]. intros E. injection E as <- <-. split; [exact H|]. eapply unescape_bytes; [exact B1|exact N].
  - destruct (parse_host s) as [h'|] eqn:H; [|discriminate]. intros E. injection E as <- <-. split; [|exact I]. eapply parse_host_bytes; [exact B|exact H].
Qed.
Lemma get_scheme_out r : forall seen raw sch rest, forallb (fun c => letter c || is_digit c || one_of (bs "+-.") c) seen = true -> get_scheme seen r raw = Some (sch, rest) ->
  forallb (fun c => letter c || is_digit c || one_of (bs "+-.") c) sch = true /\ (rest = raw \/ exists p, r = p ++ rest).
Proof.
  induction r as [|c r IH]; intros seen raw sch rest F; cbn [get_scheme]; [intros E; injection E as <- <-; auto|].
  assert (N : forall seen', forallb (fun c => letter c || is_digit c || one_of (bs "+-.") c) seen' = true -> get_scheme seen' r raw = Some (sch, rest) ->
     forallb (fun c => letter c || is_digit c || one_of (bs "+-.") c) sch = true /\ (rest = raw \/ exists p, c :: r = p ++ rest)).
  { intros seen' F' E. destruct (IH seen' raw sch rest F' E) as (A & [->|(p & ->)]); (split; [exact A|]); [left; reflexivity|right; exists (c :: p); reflexivity]. }
  destruct (letter c) eqn:L.
  { apply N. rewrite forallb_app, F. cbn [forallb]. rewrite L. reflexivity. }
  destruct (is_digit c || one_of (bs "+-.") c) eqn:D.
  { destruct seen as [|x seen]; [intros E; injection E as <- <-; auto|]. apply N. rewrite forallb_app, F. cbn [forallb]. rewrite L. cbn [orb]. rewrite D. reflexivity. }
  destruct (c =? 58).
  { destruct seen as [|x seen]; [discriminate|]. intros E. injection E as <- <-. split; [exact F|]. right. exists [c]. reflexivity. }
  intros E. injection E as <- <-. auto.
Qed.
(* what parse leaves in a URL *)
Definition parsed (u : url) : Prop :=
  forallb calm (u_scheme u) = true /\ forallb calm (u_opaque u) = true /\ bytes_ok (u_host u) /\ bytes_ok (u_path u) /\ forallb calm (u_query u) = true /\ bytes_ok (u_fragment u) /\ who_bytes (u_user u).
Lemma parse1_parsed raw u : bytes_ok raw -> parse1 raw = Some u -> parsed u.
Proof.
  intros B. unfold parse1. destruct (existsb (fun c => (c <? 32) || (c =? 127)) raw) eqn:CT; [discriminate|].
  assert (CR : forallb calm raw = true).
  { apply forallb_forall. intros c I. destruct (calm c) eqn:E; [reflexivity|]. assert (X : existsb (fun c => (c <? 32) || (c =? 127)) raw = true) by (apply existsb_exists; exists c; split; [exact I|unfold calm in E; lia]). congruence. }
  destruct (beq raw (bs "*")).
  { intros E. injection E as <-. unfold parsed. cbn [u_scheme u_opaque u_host u_path u_query u_fragment u_user]. splits; try reflexivity; try exact I; apply bytes_okb_spec; reflexivity. }
  destruct (get_scheme [] raw raw) as [[sch rest]|] eqn:G; [|discriminate]. apply get_scheme_out in G; [|reflexivity]. destruct G as (S & R).
  assert (LS : forallb calm (to_lower sch) = true).
  { clear -S. induction sch as [|c sch IH]; [reflexivity|]. cbn [forallb] in S. rewrite andb_true_iff in S. destruct S as (C & S). assert (K : 0 <= c < 128 /\ calm (lower1 c) = true).
    { rewrite !orb_true_iff, one_of_spec in C. unfold letter, is_digit, calm, lower1 in *. destruct C as [[C|C]|C]; [|split; [lia|destruct ((65 <=? c) && (c <=? 90)) eqn:E; lia]|cbn in C; split; [lia|destruct ((65 <=? c) && (c <=? 90)) eqn:E; lia]].
      split; [lia|]. destruct ((65 <=? c) && (c <=? 90)) eqn:E; lia. }
    destruct K as (K1 & K2). rewrite to_lower_step by exact K1. cbn [forallb]. rewrite K2. apply IH. exact S. }
  assert (RC : forallb calm rest = true /\ bytes_ok rest).
  { destruct R as [->|(p & ->)]; [auto|]. rewrite forallb_app, andb_true_iff in CR. apply bytes_ok_app in B. split; [apply CR|apply B]. }
  clear R CT. cbv zeta. destruct RC as (C & BR).
  set (x := match cut 63 rest with None => (rest, false, []) | Some (a, []) => (a, true, []) | Some (a, q) => (a, false, q) end).
  assert (X : exists a f q, x = (a, f, q) /\ forallb calm a = true /\ bytes_ok a /\ forallb calm q = true).
  { unfold x. destruct (cut 63 rest) as [[a q]|] eqn:K; [|exists rest, false, []; auto]. apply cut_some in K as (-> & _). rewrite forallb_app in C. cbn [forallb] in C. rewrite !andb_true_iff in C. apply bytes_ok_app in BR. destruct q as [|c q]; eexists; eexists; eexists; (split; [reflexivity|]); tauto. }
  destruct X as (a & f & q & E0 & CA & BA & CQ). rewrite E0. clear E0 x.
  assert (T : forall user host path omit u, bytes_ok host -> bytes_ok path -> who_bytes user ->
     match set_encoded InPath path with Some (d, r) => Some (mkUrl (to_lower sch) [] user host d r omit f q [] []) | None => None end = Some u -> parsed u).
  { intros user host path omit u' BH BP W. unfold set_encoded. destruct (unescape InPath path) as [d|] eqn:D; [|discriminate]. intros E. injection E as <-. unfold parsed. cbn. splits; auto; try constructor. eapply unescape_bytes; eassumption. }
  destruct (negb (has_prefix (bs "/") a)).
  { destruct (negb (beq (to_lower sch) [])).
    - intros E. injection E as <-. unfold parsed. cbn. splits; auto; constructor.
    - destruct (has 58 match cut 47 a with Some (a0, _) => a0 | None => a end); [discriminate|]. apply T; [constructor|exact BA|exact I]. }
  destruct ((negb (beq (to_lower sch) []) || negb (has_prefix (bs "///") a)) && has_prefix (bs "//") a).
  - assert (SK : bytes_ok (skipn 2 a)) by (rewrite <- (firstn_skipn 2 a) in BA; apply bytes_ok_app in BA; tauto).
    destruct (cut 47 (skipn 2 a)) as [[au pa]|] eqn:K.
    + apply cut_some in K as (K & _). rewrite K in SK. apply bytes_ok_app in SK as (SA & SP). destruct (parse_authority au) as [[us ho]|] eqn:P; [|discriminate]. apply parse_authority_bytes in P; [|exact SA]. apply T; tauto.
    + destruct (parse_authority (skipn 2 a)) as [[us ho]|] eqn:P; [|discriminate]. apply parse_authority_bytes in P; [|exact SK]. apply T; try tauto. constructor.
  - apply T; [constructor|exact BA|exact I].
Qed.
Lemma parse_parsed raw u : bytes_ok raw -> parse raw = Some u -> parsed u.
Proof.
  intros B. unfold parse. destruct (cut 35 raw) as [[a f]|] eqn:K; [|apply parse1_parsed; exact B]. apply cut_some in K as (-> & _). apply bytes_ok_app in B as (BA & BF). apply Forall_inv_tail in BF.
  destruct (parse1 a) as [v|] eqn:P; [|discriminate]. apply parse1_parsed in P; [|exact BA]. destruct f as [|c f]; [intros E; injection E as <-; exact P|].
  unfold set_encoded. destruct (unescape InFragment (c :: f)) as [d|] eqn:D; [|discriminate]. intros E. injection E as <-. unfold parsed in *. cbn. splits; try tauto. eapply unescape_bytes; eassumption.
Qed.
Lemma dial_host_bytes u : bytes_ok (u_host u) -> bytes_ok (dial_host u).
Proof. intros B. unfold dial_host. destruct (split_host_port (u_host u)); [exact B|]. apply bytes_ok_app. split; [exact B|]. apply bytes_okb_spec. reflexivity. Qed.
Lemma base_calm raw u : bytes_ok raw -> parse raw = Some u -> forallb calm (base_uri u) = true.
Proof.
  intros B P. apply parse_parsed in P; [|exact B]. destruct P as (PS & PO & PH & PP & PQ & PF & _). unfold base_uri, url_string. cbn [u_scheme u_opaque u_user u_host u_path u_rawpath u_omit u_force u_query u_fragment u_rawfragment].
  rewrite !forallb_app, !andb_true_iff. splits.
  - destruct (beq (u_scheme u) []); [reflexivity|]. rewrite forallb_app, PS. reflexivity.
  - destruct (negb (beq (u_opaque u) [])); [exact PO|]. rewrite !forallb_app, !andb_true_iff. splits.
    + destruct (beq (u_scheme u) [] && beq (dial_host u) [] && true); [reflexivity|]. destruct (u_omit u && beq (dial_host u) [] && true); [reflexivity|]. rewrite !forallb_app, !andb_true_iff. splits; try reflexivity.
      * destruct (beq (dial_host u) [] && beq (u_path u) [] && true); reflexivity.
      * apply calm_escape, dial_host_bytes. exact PH.
    + match goal with |- forallb calm (if ?b then _ else _) = true => destruct b; reflexivity end.
    + match goal with |- forallb calm (if ?b then _ else _) = true => destruct b; reflexivity end.
    + apply calm_encoded. exact PP.
  - destruct (u_force u || negb (beq (u_query u) [])); [|reflexivity]. cbn [forallb]. rewrite PQ. reflexivity.
  - destruct (beq (u_fragment u) []); [reflexivity|]. cbn [forallb]. rewrite calm_encoded by exact PF. reflexivity.
Qed.
