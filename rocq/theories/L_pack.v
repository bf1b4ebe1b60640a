(* Lemmas: a response that was received, packed and read again. *)
From Coq Require Import String Permutation.
From Verif Require Import Base GoStrings M_conn S_message M_message L_base L_strings L_digest L_message S_lines L_lines.
From Coq Require Import ZifyBool ZifyNat.

(* ---- trimming twice ---- *)
Lemma trim_left_idem s : trim_left (trim_left s) = trim_left s.
Proof.
  assert (G : forall n s, (length s <= n)%nat -> trim_left (trim_left s) = trim_left s); [|apply (G (length s)), le_n]. clear.
  induction n as [|n IH]; intros [|a s] L; try reflexivity; cbn [length] in L; [lia|]. cbn [trim_left]. destruct (sp1 a) eqn:E1; [apply IH; lia|].
  destruct s as [|b s]; [cbn [trim_left]; rewrite E1; reflexivity|]. destruct (sp2 a b) eqn:E2; [apply IH; cbn [length] in L; lia|].
  destruct s as [|c s]; [cbn [trim_left]; rewrite E1, E2; reflexivity|]. destruct (sp3 a b c) eqn:E3; [apply IH; cbn [length] in L; lia|].
  cbn [trim_left]. rewrite E1, E2, E3. reflexivity.
Qed.
Lemma trim_rev_idem s : trim_rev (trim_rev s) = trim_rev s.
Proof.
  assert (G : forall n s, (length s <= n)%nat -> trim_rev (trim_rev s) = trim_rev s); [|apply (G (length s)), le_n]. clear.
  induction n as [|n IH]; intros [|a s] L; try reflexivity; cbn [length] in L; [lia|]. cbn [trim_rev]. destruct (sp1 a) eqn:E1; [apply IH; lia|].
  destruct s as [|b s]; [cbn [trim_rev]; rewrite E1; reflexivity|]. destruct (sp2 b a) eqn:E2; [apply IH; cbn [length] in L; lia|].
  destruct s as [|c s]; [cbn [trim_rev]; rewrite E1, E2; reflexivity|]. destruct (sp3 c b a) eqn:E3; [apply IH; cbn [length] in L; lia|].
  cbn [trim_rev]. rewrite E1, E2, E3. reflexivity.
Qed.
Lemma trim_left_len s : (length (trim_left s) <= length s)%nat.
Proof. destruct (trim_left_suffix s) as (p & E). rewrite E at 2. rewrite app_length. lia. Qed.
Lemma trim_left_prefix s : forall t, trim_left (s ++ t) = s ++ t -> trim_left s = s.
Proof.
  intros t E. destruct s as [|a s]; [reflexivity|]. cbn [app trim_left] in *.
  destruct (sp1 a). { apply (f_equal (@length Z)) in E. pose proof (trim_left_len (s ++ t)). cbn [length] in E. lia. }
  destruct s as [|b s]; [reflexivity|]. cbn [app] in E. destruct (sp2 a b). { apply (f_equal (@length Z)) in E. pose proof (trim_left_len (s ++ t)). cbn [length] in E. lia. }
  destruct s as [|c s]; [reflexivity|]. cbn [app] in E. destruct (sp3 a b c). { apply (f_equal (@length Z)) in E. pose proof (trim_left_len (s ++ t)). cbn [length] in E. lia. }
  reflexivity.
Qed.
Lemma trim_idem s : trim_space (trim_space s) = trim_space s.
Proof.
  assert (L : trim_left (trim_space s) = trim_space s).
  { destruct (trim_rev_suffix (rev (trim_left s))) as (p & E). apply (f_equal (@rev Z)) in E. rewrite rev_involutive, rev_app_distr in E. fold (trim_space s) in E.
    apply (trim_left_prefix _ (rev p)). rewrite <- E. apply trim_left_idem. }
  unfold trim_space at 1. rewrite L. unfold trim_space. rewrite rev_involutive, trim_rev_idem. reflexivity.
Qed.
Lemma trim_left_more s x t : s <> [] -> trim_left s = s -> x = 58 -> trim_left (s ++ x :: t) = s ++ x :: t.
Proof.
  intros N E ->. destruct s as [|a s]; [contradiction|]. cbn [trim_left app] in *.
  destruct (sp1 a). { apply (f_equal (@length Z)) in E. pose proof (trim_left_len s). cbn [length] in E. lia. }
  destruct s as [|b s]; cbn [app].
  { unfold sp2. replace ((a =? 194) && ((58 =? 133) || (58 =? 160))) with false by lia. destruct t as [|c t]; [reflexivity|].
    unfold sp3. destruct (_ || _ || _ || _) eqn:E3; [lia|reflexivity]. }
  destruct (sp2 a b). { apply (f_equal (@length Z)) in E. pose proof (trim_left_len s). cbn [length] in E. lia. }
  destruct s as [|c s]; cbn [app].
  { unfold sp3. destruct (_ || _ || _ || _) eqn:E3; [lia|reflexivity]. }
  destruct (sp3 a b c). { apply (f_equal (@length Z)) in E. pose proof (trim_left_len s). cbn [length] in E. lia. }
  reflexivity.
Qed.

(* ---- canonical twice ---- *)
Lemma upper1_token c : token_byte c = true -> token_byte (upper1 c) = true.
Proof. unfold upper1. destruct ((97 <=? c) && (c <=? 122)) eqn:E; [|auto]. intros _. unfold token_byte, is_digit. lia. Qed.
Lemma lower1_token c : token_byte c = true -> token_byte (lower1 c) = true.
Proof. unfold lower1. destruct ((65 <=? c) && (c <=? 90)) eqn:E; [|auto]. intros _. unfold token_byte, is_digit. lia. Qed.
Lemma canon_token s : forall up, forallb token_byte s = true -> forallb token_byte (canon up s) = true.
Proof.
  induction s as [|c s IH]; intros up H; [reflexivity|]. cbn [forallb canon] in *. cbv zeta. apply andb_prop in H as [H1 H2]. rewrite IH by exact H2. rewrite andb_true_r.
  destruct up; [apply upper1_token|apply lower1_token]; exact H1.
Qed.
Lemma canonical_idem k : canonical_key (canonical_key k) = canonical_key k.
Proof.
  unfold canonical_key. destruct (forallb token_byte k) eqn:E; [|rewrite E; reflexivity]. rewrite canon_token by exact E. apply canon_of_lower, canon_lower.
Qed.
Lemma canonical_no c k : c <> 45 -> ~ (33 <= c <= 126 /\ c <> 58) -> ~ In c k -> ~ In c (canonical_key k).
Proof.
  intros _ C N. unfold canonical_key. destruct (forallb token_byte k) eqn:E; [|exact N]. apply token_no; [|exact C]. apply Forall_forall. intros x I.
  pose proof (canon_token k true E) as T. rewrite forallb_forall in T. exact (T x I).
Qed.
Lemma canonical_trim k : trim_space k = k -> trim_space (canonical_key k) = canonical_key k.
Proof.
  intros T. unfold canonical_key. destruct (forallb token_byte k) eqn:E; [|exact T]. apply trim_token. apply Forall_forall. intros x I.
  pose proof (canon_token k true E) as A. rewrite forallb_forall in A. exact (A x I).
Qed.

(* ---- fields as they are in a received response ---- *)
Definition kept (e : bytes * bytes) : Prop :=
  let '(k, v) := e in trim_space k = k /\ ~ In 58 k /\ ~ In 10 k /\ canonical_key k = k /\ trim_space v = v /\ ~ In 10 v.
Lemma kept_line k v : kept (k, v) ->
  let line := trim_space (k ++ bs ": " ++ v ++ crnl) in line <> [] /\ exists w, split2 58 line = [k; w] /\ trim_space w = v.
Proof.
  intros (K & C & _ & _ & V & _). cbv zeta. unfold crnl.
  replace (k ++ bs ": " ++ v ++ [13; 10]) with ((k ++ 58 :: 32 :: v) ++ [13; 10]) by (change (bs ": ") with [58; 32]; rewrite <- app_assoc; reflexivity).
  rewrite trim_right_crlf. destruct (trim_fixed k K) as [KL _]. destruct (trim_fixed v V) as [_ VR].
  assert (L : trim_left (k ++ 58 :: 32 :: v) = k ++ 58 :: 32 :: v).
  { destruct k as [|a k]; [apply trim_left_ink; lia|]. apply trim_left_more; [discriminate|exact KL|reflexivity]. }
  unfold trim_space at 1 2. rewrite L. rewrite rev_app_distr. cbn [rev]. rewrite <- !app_assoc. cbn [app].
  destruct v as [|x v].
  - cbn [rev app]. change (trim_rev (32 :: 58 :: rev k)) with (trim_rev (58 :: rev k)). rewrite trim_rev_ink by lia. cbn [rev]. rewrite rev_involutive. split.
    + intros X. apply app_eq_nil in X as [_ X]. discriminate.
    + exists []. split; [apply split2_app, C|reflexivity].
  - rewrite trim_rev_more; [|intros X; apply (f_equal (@length Z)) in X; rewrite rev_length in X; discriminate|exact VR|left; reflexivity].
    rewrite rev_app_distr. rewrite rev_involutive. cbn [rev]. rewrite rev_involutive, <- !app_assoc. cbn [app]. split.
    + intros X. apply app_eq_nil in X as [_ X]. discriminate.
    + exists (32 :: x :: v). split; [apply split2_app, C|]. apply (trim_space_field [32]); [repeat constructor|exact V].
Qed.
Lemma map_set_new h k v : ~ In k (map fst h) -> map_set h k v = h ++ [(k, v)].
Proof.
  induction h as [|[a b] h IH]; intros N; [reflexivity|]. cbn [map_set map fst In app] in *. destruct (beq k a) eqn:E; [apply beq_eq in E; subst; tauto|]. rewrite IH by tauto. reflexivity.
Qed.
Lemma lines_again o : forall fuel h s, Forall kept o -> NoDup (map fst (h ++ o)) -> (length o < fuel)%nat ->
  header_lines fuel h (sent (flat_map (fun e => field_line (fst e) (snd e)) o ++ crnl) ++ s) = (s, Ok (h ++ o)).
Proof.
  induction o as [|[k v] o IH]; intros fuel h s F N L; (destruct fuel as [|fuel]; [cbn in L; lia|]).
  { cbn [flat_map app]. rewrite app_nil_r. reflexivity. }
  apply Forall_cons_iff in F as [K F]. cbn [flat_map fst snd]. rewrite <- app_assoc, sent_app, <- app_assoc. cbn [header_lines]. unfold field_line at 1, colsp.
  replace (k ++ bs ": " ++ v ++ crnl) with ((k ++ bs ": " ++ v ++ [13]) ++ [10]) by (unfold crnl; rewrite <- !app_assoc; reflexivity).
  pose proof K as (K1 & K2 & K3 & K4 & K5 & K6).
  rewrite read_line_sent.
  2:{ intros I. apply in_app_or in I as [I|I]; [contradiction|]. apply in_app_or in I as [I|I]; [vm_compute in I; intuition discriminate|]. apply in_app_or in I as [I|[I|[]]]; [contradiction|discriminate]. }
  replace ((k ++ bs ": " ++ v ++ [13]) ++ [10]) with (k ++ bs ": " ++ v ++ crnl) by (unfold crnl; rewrite <- !app_assoc; reflexivity).
  destruct (kept_line k v K) as (Ne & w & Sp & W). cbv zeta. destruct (beq (trim_space _) []) eqn:B; [apply beq_eq in B; contradiction|]. rewrite Sp, W, K1. unfold header_set. rewrite K4.
  rewrite map_set_new.
  - replace (h ++ (k, v) :: o) with ((h ++ [(k, v)]) ++ o) by (rewrite <- app_assoc; reflexivity). apply IH; [exact F|rewrite <- app_assoc; exact N|cbn [length] in L; lia].
  - rewrite map_app in N. cbn [map fst] in N. apply NoDup_remove_2 in N. intros I. apply N, in_or_app. left. exact I.
Qed.

Lemma map_set_kept h k v : Forall kept h -> kept (k, v) -> Forall kept (map_set h k v).
Proof.
  intros F K. induction F as [|[a b] h E F IH]; cbn [map_set]; [constructor; [exact K|constructor]|]. destruct (beq k a) eqn:B; [apply beq_eq in B; subst a|]; constructor; auto.
Qed.
Lemma lines_kept fuel : forall h s s' h', Forall kept h -> NoDup (map fst h) -> header_lines fuel h s = (s', Ok h') -> Forall kept h' /\ NoDup (map fst h').
Proof.
  induction fuel as [|fuel IH]; intros h s s' h' H U E; cbn [header_lines] in E; [discriminate|]. destruct (read_line s) as [s1 [l|e| |]] eqn:R; try discriminate. apply read_line_flat in R. destruct R as (l0 & -> & F).
  cbv zeta in E. destruct (beq (trim_space (l0 ++ [10])) []); [injection E as _ <-; auto|]. pose proof (flat_trim_nl l0 F) as T. unfold split2 in E.
  destruct (cut 58 (trim_space (l0 ++ [10]))) as [[k v]|] eqn:C; [|discriminate]. apply cut_some in C as [C1 C2]. rewrite C1 in T. apply flat_app in T as [T1 T2]. apply flat_cons in T2 as [_ T2].
  apply IH in E; [exact E| |].
  - apply map_set_kept; [exact H|]. assert (K58 : ~ In 58 (trim_space k)).
    { intros I. apply C2. destruct (trim_left_suffix k) as (p & P). destruct (trim_rev_suffix (rev (trim_left k))) as (q & Q). unfold trim_space in I. rewrite <- in_rev in I.
      rewrite P. apply in_or_app. right. rewrite in_rev, Q. apply in_or_app. right. exact I. }
    pose proof (flat_trim _ T1) as K10. cbn [kept]. splits.
    + apply canonical_trim, trim_idem.
    + apply canonical_no; [lia|lia|exact K58].
    + apply canonical_no; [lia|lia|exact K10].
    + apply canonical_idem.
    + apply trim_idem.
    + exact (flat_trim _ T2).
  - apply map_set_keys. exact U.
Qed.

(* ---- the whole ---- *)
Lemma get_permuted h o k : NoDup (map fst h) -> Permutation h o -> map_get h k = map_get o k.
Proof.
  intros N P. assert (S : forall l, NoDup (map fst l) -> forall v, map_get l k = Some v <-> In (k, v) l).
  { induction l as [|[a b] l IH]; intros U v; cbn [map_get map fst In] in *; [split; [discriminate|intros []]|]. inversion U as [|? ? U1 U2]; subst. destruct (beq k a) eqn:B.
    - apply beq_eq in B. subst a. split; [intros X; injection X as ->; auto|]. intros [X|X]; [congruence|]. exfalso. apply U1. apply (in_map fst) in X. exact X.
    - rewrite (IH U2 v). split; [auto|]. intros [X|X]; [|exact X]. injection X as -> ->. rewrite beq_refl in B. discriminate. }
  assert (N' : NoDup (map fst o)) by (eapply Permutation_NoDup; [apply Permutation_map; exact P|exact N]).
  destruct (map_get h k) as [v|] eqn:E1.
  - apply (S h N) in E1. symmetry. apply (S o N'). eapply Permutation_in; eauto.
  - destruct (map_get o k) as [v|] eqn:E2; [|reflexivity]. apply (S o N') in E2. apply Permutation_sym in P. apply (Permutation_in _ P) in E2. apply (S h N) in E2. congruence.
Qed.
Lemma status_again line status code : status_line (bs "RTSP/1.0") line = Ok (status, code) -> (exists l0, line = l0 ++ [10] /\ ~ In 10 l0) ->
  ~ In 10 status /\ status_line (bs "RTSP/1.0") (bs "RTSP/1.0" ++ bs " " ++ status ++ crnl) = Ok (status, code).
Proof.
  intros E (l0 & -> & F). unfold status_line in *. destruct (cut 32 (l0 ++ [10])) as [[p rest]|] eqn:C; [|discriminate]. destruct (negb (beq p (bs "RTSP/1.0"))); [discriminate|]. cbv zeta in E.
  apply cut_some in C as [C _].
  set (T := trim_space rest) in *.
  assert (Es : status = T). { destruct (negb _); [discriminate|]. destruct (atoi _) as [n [e|]]; [discriminate|]. destruct (n <? 0); [discriminate|]. congruence. } subst status.
  split.
  - destruct (list_last_dec rest) as [->|(m & z & ->)]; [intros []|]. change (p ++ 32 :: m ++ [z]) with (p ++ (32 :: m) ++ [z]) in C. rewrite app_assoc in C. apply app_inj_tail in C as [C <-].
    apply flat_trim_nl. intros I. apply F. rewrite C. apply in_or_app. right. right. exact I.
  - change (bs "RTSP/1.0" ++ bs " " ++ T ++ crnl) with (bs "RTSP/1.0" ++ 32 :: T ++ crnl). rewrite cut_app by (vm_compute; intuition discriminate). rewrite beq_refl. cbn [negb]. cbv zeta.
    unfold crnl. rewrite trim_right_crlf. replace (trim_space T) with T by (unfold T; rewrite trim_idem; reflexivity). exact E.
Qed.
Lemma peek_length n s s' b : peek n s = (s', Ok b) -> 0 < n -> n <= 2048 /\ zlen b = n.
Proof.
  unfold peek. destruct (n >? bufio_size) eqn:E; [discriminate|]. unfold bufio_size in E. intros H P. split; [lia|]. clear E.
  assert (G : forall k s s' b, take_bytes k s = (s', Ok b) -> length b = k).
  { clear. induction k as [|k IH]; intros s s' b H; [injection H as _ <-; reflexivity|]. cbn [take_bytes] in H. destruct s as [|[x|] s]; try discriminate.
    destruct (take_bytes k s) as [r [l|e| |]] eqn:T; try discriminate. injection H as _ <-. cbn [length]. f_equal. eapply IH; eauto. }
  apply G in H. unfold zlen. lia.
Qed.
Lemma pack_again s s' r o rest : unpack_response s = (s', Ok r) -> Permutation (p_header r) o ->
  unpack_response (sent (pack_response r o) ++ rest) =
  ((if p_length r >? 0 then sent crnl ++ rest else rest), Ok (mkRsp (p_status r) (p_code r) (p_length r) (p_cseq r) o (p_body r))).
Proof.
  intros U P. unfold unpack_response in U. destruct (read_line s) as [s1 [l|e| |]] eqn:R; try discriminate. apply read_line_flat in R.
  destruct (status_line (bs "RTSP/1.0") l) as [[st code]|e| |] eqn:SL; try discriminate. destruct (status_again _ _ _ SL R) as [S10 SA].
  destruct (header_lines (S (length s1)) [] s1) as [s2 [h|e| |]] eqn:H; try discriminate. apply lines_kept in H as [Hk Hu]; [|constructor|constructor]. cbv zeta in U.
  set (len := match atoi (header_get h (bs "Content-Length")) with (n, None) => n | _ => 0 end) in *.
  set (cs := fst (atoi (header_get h (bs "CSeq")))) in *.
  assert (Hp : h = p_header r /\ st = p_status r /\ code = p_code r /\ len = p_length r /\ cs = p_cseq r /\
    (len > 0 -> len <= 2048 /\ exists b, p_body r = Some b /\ zlen b = len) /\ (len <= 0 -> p_body r = None)).
  { destruct (len >? 0) eqn:Le.
    - unfold read_bytes in U. destruct (peek len s2) as [s3 [b|e| |]] eqn:Pk; try discriminate. apply peek_length in Pk as [B1 B2]; [|lia]. injection U as _ <-. cbn [p_header p_status p_code p_length p_cseq p_body]. splits; auto; [|lia].
      intros _. split; [exact B1|]. exists b. auto.
    - injection U as _ <-. cbn [p_header p_status p_code p_length p_cseq p_body]. splits; auto. lia. }
  destruct Hp as (E1 & E2 & E3 & E4 & E5 & B1 & B0). rewrite <- E1 in P. rewrite E2, E3 in SA. rewrite E2 in S10. rewrite <- E4, <- E5.
  assert (No : NoDup (map fst o)) by (eapply Permutation_NoDup; [apply Permutation_map; exact P|exact Hu]).
  assert (Ko : Forall kept o) by (eapply Permutation_Forall; eauto).
  assert (G : forall k, header_get o k = header_get h k) by (intros k; unfold header_get; rewrite (get_permuted h o _ Hu P); reflexivity).
  unfold pack_response. rewrite <- E4.
  set (body := if len >? 0 then match p_body r with Some b => b | None => [] end ++ crnl else []).
  replace (bs "RTSP/1.0" ++ bs " " ++ p_status r ++ crnl ++ flat_map (fun e => field_line (fst e) (snd e)) o ++ crnl ++ body)
    with (((bs "RTSP/1.0" ++ bs " " ++ p_status r ++ [13]) ++ [10]) ++ (flat_map (fun e => field_line (fst e) (snd e)) o ++ crnl) ++ body)
    by (unfold crnl; rewrite <- !app_assoc; reflexivity).
  rewrite (sent_app (_ ++ [10])), <- app_assoc. unfold unpack_response. rewrite read_line_sent.
  2:{ intros I. apply in_app_or in I as [I|I]; [vm_compute in I; intuition discriminate|]. apply in_app_or in I as [I|I]; [vm_compute in I; intuition discriminate|]. apply in_app_or in I as [I|[I|[]]]; [contradiction|discriminate]. }
  replace ((bs "RTSP/1.0" ++ bs " " ++ p_status r ++ [13]) ++ [10]) with (bs "RTSP/1.0" ++ bs " " ++ p_status r ++ crnl) by (unfold crnl; rewrite <- !app_assoc; reflexivity).
  rewrite SA, sent_app, <- app_assoc. rewrite lines_again.
  2:{ exact Ko. } 2:{ exact No. }
  2:{ rewrite app_length. unfold sent. rewrite map_length, app_length.
      assert (X : (length o <= length (flat_map (fun e => field_line (fst e) (snd e)) o))%nat).
      { clear. induction o as [|e o IH]; [apply le_n|]. cbn [flat_map length]. rewrite app_length. unfold field_line at 1, colsp at 1. rewrite (app_length (fst e)), (app_length (bs ": ")). change (length (bs ": ")) with 2%nat. lia. }
      lia. }
  cbn [app]. cbv zeta. rewrite !G. fold len cs. unfold body. destruct (len >? 0) eqn:Le; [|rewrite B0 by lia; reflexivity].
  destruct B1 as (B1 & b & B2 & B3); [lia|]. rewrite B2, <- B3, sent_app, <- app_assoc. rewrite read_bytes_sent by lia. reflexivity.
Qed.
