(* Lemmas for P_params: what each parameter of a Transport field sets. *)
From Coq Require Import String Permutation.
From Verif Require Import Base GoStrings M_transport S_omits S_params L_base L_strings L_omits L_ports.

Inductive change :=
  | CTcp (b : bool) | CMulti (b : bool) | CAppend | CInter (p : pair) | CPort (p : pair) | CClient (p : pair) | CServer (p : pair)
  | CLayers (n : Z) | CTtl (n : Z) | CDest (s : bytes) | CSource (s : bytes) | CSsrc (s : bytes) | CMode (s : bytes).
Definition applyc (t : transport) (c : change) : transport :=
  match c with
  | CTcp b => set_tcp t b | CMulti b => set_multicast t b | CAppend => set_append t true | CInter p => set_interleave t p
  | CPort p => set_port t p | CClient p => set_client_port t p | CServer p => set_server_port t p | CLayers n => set_layers t n
  | CTtl n => set_ttl t n | CDest s => set_destination t s | CSource s => set_source t s | CSsrc s => set_ssrc t s | CMode s => set_mode t s
  end.
Definition okc (f : bytes) (c : change) : Prop :=
  match c with
  | CTcp _ => two_slashes f
  | CMulti true => param_name f = bs "multicast" | CMulti false => param_name f = bs "unicast" \/ param_name f = bs "interleaved"
  | CAppend => param_name f = bs "append" | CInter _ => param_name f = bs "interleaved" | CPort _ => param_name f = bs "port"
  | CClient _ => param_name f = bs "client_port" | CServer _ => param_name f = bs "server_port" | CLayers _ => param_name f = bs "layers"
  | CTtl _ => param_name f = bs "ttl" | CDest _ => param_name f = bs "destination" | CSource _ => param_name f = bs "source"
  | CSsrc _ => param_name f = bs "ssrc" | CMode _ => param_name f = bs "mode"
  end.

Lemma split_count c s : length (split_on c s) = S (count_occ Z.eq_dec s c).
Proof.
  induction s as [|x s IH]; [reflexivity|]. cbn [split_on count_occ]. destruct (Z.eqb_spec x c) as [->|N].
  - destruct (Z.eq_dec c c) as [_|X]; [|congruence]. cbn [length]. rewrite IH. reflexivity.
  - destruct (Z.eq_dec x c) as [X|_]; [congruence|]. rewrite <- IH. destruct (split_on c s); [cbn in IH; discriminate|reflexivity].
Qed.
Lemma slash_change f : exists cs, Forall (okc f) cs /\ forall t, match split_on 47 f with [_; _; c] => set_tcp t (beq (to_upper c) (bs "TCP")) | _ => t end = fold_left applyc cs t.
Proof.
  pose proof (split_count 47 f) as L. destruct (split_on 47 f) as [|a [|b [|c [|d r]]]]; try (exists []; split; [constructor|reflexivity]).
  exists [CTcp (beq (to_upper c) (bs "TCP"))]. split; [|reflexivity]. constructor; [|constructor]. cbn in L. cbn [okc]. unfold two_slashes. lia.
Qed.
Lemma field_changes f : exists cs, Forall (okc f) cs /\ forall t, fst (parse_field t f) = fold_left applyc cs t.
Proof.
  destruct (slash_change f) as (cs & F & E).
  assert (G : exists ds, Forall (okc f) ds /\ forall t, fst (parse_field t f) = fold_left applyc ds (fold_left applyc cs t)).
  { unfold parse_field. cbv zeta. rewrite key_name.
    destruct (beq (param_name f) (bs "unicast")) eqn:K1; [apply beq_eq in K1; exists [CMulti false]; split; [constructor; [left; exact K1|constructor]|intros t; rewrite <- E; reflexivity]|].
    destruct (beq (param_name f) (bs "multicast")) eqn:K2; [apply beq_eq in K2; exists [CMulti true]; split; [constructor; [exact K2|constructor]|intros t; rewrite <- E; reflexivity]|].
    destruct (split2 61 f) as [|a [|x l]]; cbv iota beta.
    1, 2: destruct (beq (param_name f) (bs "destination")); [exists []; split; [constructor|intros t; rewrite <- E; reflexivity]|];
      destruct (beq (param_name f) (bs "source")); [exists []; split; [constructor|intros t; rewrite <- E; reflexivity]|];
      destruct (beq (param_name f) (bs "interleaved")) eqn:K3; [apply beq_eq in K3; exists [CMulti false]; split; [constructor; [right; exact K3|constructor]|intros t; rewrite <- E; reflexivity]|];
      destruct (beq (param_name f) (bs "append")) eqn:K4; [apply beq_eq in K4; exists [CAppend]; split; [constructor; [exact K4|constructor]|intros t; rewrite <- E; reflexivity]|];
      exists []; split; [constructor|]; intros t; rewrite <- E;
      repeat match goal with |- fst (if ?b then _ else _) = _ => destruct b; [reflexivity|] end; reflexivity.
    destruct (parse_pair x) as [p e], (atoi x) as [n e2].
    destruct (beq (param_name f) (bs "destination")) eqn:K; [apply beq_eq in K; exists [CDest x]; split; [repeat apply Forall_cons; try apply Forall_nil; cbn [okc]; auto|intros t; rewrite <- E; reflexivity]|clear K].
    destruct (beq (param_name f) (bs "source")) eqn:K; [apply beq_eq in K; exists [CSource x]; split; [repeat apply Forall_cons; try apply Forall_nil; cbn [okc]; auto|intros t; rewrite <- E; reflexivity]|clear K].
    destruct (beq (param_name f) (bs "interleaved")) eqn:K; [apply beq_eq in K; exists [CMulti false; CInter p]; split; [repeat apply Forall_cons; try apply Forall_nil; cbn [okc]; auto|intros t; rewrite <- E; reflexivity]|clear K].
    destruct (beq (param_name f) (bs "append")) eqn:K; [apply beq_eq in K; exists [CAppend]; split; [repeat apply Forall_cons; try apply Forall_nil; cbn [okc]; auto|intros t; rewrite <- E; reflexivity]|clear K].
    destruct (beq (param_name f) (bs "layers")) eqn:K; [apply beq_eq in K; exists [CLayers n]; split; [repeat apply Forall_cons; try apply Forall_nil; cbn [okc]; auto|intros t; rewrite <- E; reflexivity]|clear K].
    destruct (beq (param_name f) (bs "ttl")) eqn:K; [apply beq_eq in K; exists [CTtl n]; split; [repeat apply Forall_cons; try apply Forall_nil; cbn [okc]; auto|intros t; rewrite <- E; reflexivity]|clear K].
    destruct (beq (param_name f) (bs "port")) eqn:K; [apply beq_eq in K; exists [CPort p]; split; [repeat apply Forall_cons; try apply Forall_nil; cbn [okc]; auto|intros t; rewrite <- E; reflexivity]|clear K].
    destruct (beq (param_name f) (bs "client_port")) eqn:K; [apply beq_eq in K; exists [CClient p]; split; [repeat apply Forall_cons; try apply Forall_nil; cbn [okc]; auto|intros t; rewrite <- E; reflexivity]|clear K].
    destruct (beq (param_name f) (bs "server_port")) eqn:K; [apply beq_eq in K; exists [CServer p]; split; [repeat apply Forall_cons; try apply Forall_nil; cbn [okc]; auto|intros t; rewrite <- E; reflexivity]|clear K].
    destruct (beq (param_name f) (bs "ssrc")) eqn:K; [apply beq_eq in K; exists [CSsrc x]; split; [repeat apply Forall_cons; try apply Forall_nil; cbn [okc]; auto|intros t; rewrite <- E; reflexivity]|clear K].
    destruct (beq (param_name f) (bs "mode")) eqn:K; [apply beq_eq in K; exists [CMode x]; split; [repeat apply Forall_cons; try apply Forall_nil; cbn [okc]; auto|intros t; rewrite <- E; reflexivity]|clear K].
    exists []. split; [constructor|intros t; rewrite <- E; reflexivity]. }
  destruct G as (ds & D & G). exists (cs ++ ds). split; [apply Forall_app; split; assumption|]. intros t. rewrite G, fold_left_app. reflexivity.
Qed.

Lemma changes_apart f g c d t : ~ clash f g -> okc f c -> okc g d -> applyc (applyc t c) d = applyc (applyc t d) c.
Proof.
  intros N C D. assert (P : forall k, param_name f = k -> param_name g = k -> False) by (intros k A B; apply N; right; left; congruence).
  destruct c; destruct d; try reflexivity; cbn [okc] in C, D; try (exfalso; eapply P; eassumption).
  - exfalso. apply N. left. split; assumption.
  - destruct b, b0; try reflexivity; exfalso; apply N; right; right; unfold multi_or_uni; auto.
Qed.
Lemma fold_apart f g cs : forall ds t, ~ clash f g -> Forall (okc f) cs -> Forall (okc g) ds ->
  fold_left applyc ds (fold_left applyc cs t) = fold_left applyc cs (fold_left applyc ds t).
Proof.
  assert (O : forall c ds t, ~ clash f g -> okc f c -> Forall (okc g) ds -> fold_left applyc ds (applyc t c) = applyc (fold_left applyc ds t) c).
  { intros c ds. induction ds as [|d ds IH]; intros t N C D; [reflexivity|]. inversion D; subst. cbn [fold_left].
    rewrite (changes_apart f g) by assumption. apply IH; assumption. }
  induction cs as [|c cs IH]; intros ds t N C D; [reflexivity|]. inversion C; subst. cbn [fold_left]. rewrite IH by assumption. rewrite O by assumption. reflexivity.
Qed.
Lemma fields_apart f g t : ~ clash f g -> fst (parse_field (fst (parse_field t f)) g) = fst (parse_field (fst (parse_field t g)) f).
Proof.
  intros N. destruct (field_changes f) as (cs & C & Ef), (field_changes g) as (ds & D & Eg). rewrite !Ef, !Eg, ?Ef. eapply fold_apart; eassumption.
Qed.

Lemma clash_sym f g : clash f g -> clash g f.
Proof. unfold clash. intuition congruence. Qed.
Lemma apart_perm l m : Permutation l m -> ForallOrdPairs (fun f g => ~ clash f g) l -> ForallOrdPairs (fun f g => ~ clash f g) m.
Proof.
  induction 1 as [|x l m P IH|x y l|l m n P1 IH1 P2 IH2]; intros H; [exact H| | |auto].
  - inversion H; subst. constructor; [|auto]. eapply Permutation_Forall; eassumption.
  - inversion H as [|? ? A B]; subst. inversion B as [|? ? C D]; subst. inversion A; subst.
    constructor; [constructor; [intros X; apply clash_sym in X; contradiction|assumption]|constructor; assumption].
Qed.
Lemma fine_fields l : forall t, snd (parse_fields t l) = None <-> Forall (fun f => snd (parse_field t f) = None) l.
Proof.
  induction l as [|f l IH]; intros t; [split; [constructor|reflexivity]|]. cbn [parse_fields]. destruct (parse_field t f) as [u [e|]] eqn:E.
  - cbn [snd]. split; [discriminate|]. intros F. apply Forall_inv in F. rewrite E in F. discriminate.
  - rewrite (parse_fields_blind l u t), IH. split; [intros F; constructor; [rewrite E; reflexivity|exact F]|apply Forall_inv_tail].
Qed.
Lemma fine_perm l m t : Permutation l m -> snd (parse_fields t l) = None -> snd (parse_fields t m) = None.
Proof. intros P H. apply fine_fields in H. apply fine_fields. eapply Permutation_Forall; eassumption. Qed.
Lemma fields_perm l m : Permutation l m -> ForallOrdPairs (fun f g => ~ clash f g) l -> forall t, snd (parse_fields t l) = None -> parse_fields t m = parse_fields t l.
Proof.
  induction 1 as [|x l m P IH|x y l|l m n P1 IH1 P2 IH2]; intros H t E; [reflexivity| | |].
  - cbn [parse_fields] in *. inversion H; subst. destruct (parse_field t x) as [u [e|]]; [reflexivity|]. apply IH; assumption.
  - inversion H as [|? ? A B]; subst. apply Forall_inv in A. pose proof E as F. apply fine_fields in F. inversion F as [|? ? F1 F2]; subst. apply Forall_inv in F2.
    pose proof (fields_apart y x t A) as C. cbn [parse_fields] in *.
    destruct (parse_field t y) as [u e] eqn:Ey, (parse_field t x) as [v e'] eqn:Ex. cbn [fst snd] in *. subst e e'.
    pose proof (parse_field_blind v t y) as Y. pose proof (parse_field_blind u t x) as X. rewrite Ey in Y. rewrite Ex in X. cbn [snd] in X, Y.
    destruct (parse_field v y) as [v' e], (parse_field u x) as [u' e']. cbn [fst snd] in *. subst. reflexivity.
  - rewrite IH2; [apply IH1; assumption|eapply apart_perm; eassumption|eapply fine_perm; eassumption].
Qed.
Lemma parse_perm u l m : l <> [] -> Forall (fun f => ~ In 59 f) l -> Permutation l m -> ForallOrdPairs (fun f g => ~ clash f g) l ->
  snd (transport_parse u (join 59 l)) = None -> transport_parse u (join 59 m) = transport_parse u (join 59 l).
Proof.
  intros N F P A E. assert (M : m <> []) by (intros ->; apply N, Permutation_nil, Permutation_sym, P).
  unfold transport_parse in *. rewrite split_join in E by assumption. rewrite !split_join by (try assumption; eapply Permutation_Forall; eassumption).
  apply fields_perm; assumption.
Qed.

Lemma unknown_field t f : unknown f -> parse_field t f = (match split_on 47 f with [_; _; c] => set_tcp t (beq (to_upper c) (bs "TCP")) | _ => t end, None).
Proof.
  intros U. unfold parse_field. cbv zeta. rewrite key_name.
  assert (K : forall k, In k known_params -> beq (param_name f) (bs k) = false) by (intros k I; apply beq_neq; intros E; apply U; rewrite E; apply in_map, I).
  rewrite !K by (cbn; tauto). reflexivity.
Qed.
Lemma unknown_passed t f : unknown f -> ~ two_slashes f -> parse_field t f = (t, None).
Proof.
  intros U N. rewrite unknown_field by exact U. pose proof (split_count 47 f) as L. unfold two_slashes in N.
  destruct (split_on 47 f) as [|a [|b [|c [|d r]]]]; try reflexivity. cbn in L. lia.
Qed.
Lemma unknown_inserted u pre f post : pre ++ post <> [] -> Forall (fun f => ~ In 59 f) (pre ++ f :: post) -> unknown f -> ~ two_slashes f ->
  transport_parse u (join 59 (pre ++ f :: post)) = transport_parse u (join 59 (pre ++ post)).
Proof.
  intros N F U T. unfold transport_parse. rewrite !split_join; [|exact N| |destruct pre; discriminate|exact F].
  - rewrite !parse_fields_app. destruct (parse_fields u pre) as [t [e|]]; [reflexivity|]. cbn [parse_fields]. rewrite unknown_passed by assumption. reflexivity.
  - apply Forall_app in F as (A & B). apply Forall_app. split; [exact A|eapply Forall_inv_tail; exact B].
Qed.
Lemma slashes_taken u pre k a b c post : Forall (fun f => ~ In 59 f) (pre ++ (k ++ 61 :: a ++ 47 :: b ++ 47 :: c) :: post) ->
  ~ In 47 (k ++ 61 :: a) -> ~ In 47 b -> ~ In 47 c -> unknown (k ++ 61 :: a ++ 47 :: b ++ 47 :: c) ->
  snd (transport_parse u (join 59 pre)) = None -> pre <> [] -> Forall (fun f => ~ two_slashes f) post ->
  t_tcp (fst (transport_parse u (join 59 (pre ++ (k ++ 61 :: a ++ 47 :: b ++ 47 :: c) :: post)))) = beq (to_upper c) (bs "TCP").
Proof.
  intros F K B C U E N P. pose proof F as F'. apply Forall_app in F' as (F1 & F2). unfold transport_parse in *. rewrite split_join in E by assumption.
  rewrite split_join; [|destruct pre; discriminate|exact F]. rewrite parse_fields_app. destruct (parse_fields u pre) as [t e]. cbn [snd] in E. subst e. cbn [parse_fields].
  assert (S : split_on 47 (k ++ 61 :: a ++ 47 :: b ++ 47 :: c) = [k ++ 61 :: a; b; c]).
  { replace (k ++ 61 :: a ++ 47 :: b ++ 47 :: c) with (join 47 [k ++ 61 :: a; b; c]) by (cbn [join]; rewrite <- app_assoc; reflexivity).
    apply split_join; [discriminate|]. repeat (constructor; [assumption|]). constructor. }
  rewrite unknown_field, S by exact U. cbv iota beta.
  assert (G : forall l v, Forall (fun f => ~ two_slashes f) l -> t_tcp (fst (parse_fields v l)) = t_tcp v).
  { induction l as [|g l IH]; intros v H; [reflexivity|]. inversion H; subst. cbn [parse_fields].
    assert (X : t_tcp (fst (parse_field v g)) = t_tcp v).
    { destruct (field_changes g) as (cs & D & Eg). rewrite Eg. revert v D. clear Eg IH. induction cs as [|d cs IH]; intros v D; [reflexivity|]. inversion D; subst. cbn [fold_left]. rewrite IH by assumption.
      destruct d; try reflexivity. cbn [okc] in *. contradiction. }
    destruct (parse_field v g) as [w [e|]]; [exact X|]. rewrite IH by assumption. exact X. }
  rewrite G by exact P. reflexivity.
Qed.
