(* Lemmas: the answer to the request for a tunnel. *)
From Coq Require Import String.
From Verif Require Import Base GoStrings M_conn M_message M_session M_url M_dial S_message S_ends S_tunnel L_base L_strings L_message L_bufio L_lines L_fold L_ends L_url.
From Coq Require Import ZifyBool ZifyNat.

Lemma http_lines_text ls : Forall one_line ls -> Forall (fun l => trim_space (fst l) <> [] /\ In 58 (trim_space (fst l))) ls -> forall e fuel rest, (length ls < fuel)%nat ->
  http_lines fuel (sent (text_of (ls ++ [([], e)])) ++ rest) = (rest, Ok tt).
Proof.
  induction 1 as [|[l d] ls L _ IH]; intros F e fuel rest Fu; (destruct fuel as [|f]; [cbn in Fu; lia|]).
  - destruct e; reflexivity.
  - unfold one_line in L. cbn [fst] in L. apply Forall_cons_iff in F as [[B C] F]. cbn [fst] in B, C. cbn [app text_of flat_map http_lines]. fold (text_of (ls ++ [([], e)])). unfold ended. cbn [fst snd].
    rewrite sent_app, <- app_assoc, read_line_ended by exact L. rewrite trim_end. cbv zeta. rewrite (proj2 (beq_neq _ _) B).
    assert (X : exists k v, split2 58 (trim_space l) = [k; v]).
    { unfold split2. destruct (cut 58 (trim_space l)) as [[k v]|] eqn:E; [exists k, v; reflexivity|]. apply cut_none_inv in E. contradiction. }
    destruct X as (k & v & ->). apply IH; [exact F|cbn [length] in Fu; lia].
Qed.

Lemma http_lines_inv fuel : forall s rest, http_lines fuel s = (rest, Ok tt) ->
  exists fields blank, s = sent (flat_map (fun l => l ++ [10]) (fields ++ [blank])) ++ rest /\ Forall (fun l => ~ In 10 l) (fields ++ [blank]) /\
    Forall (fun l => In 58 l /\ trim_space l <> []) fields /\ trim_space blank = [].
Proof.
  induction fuel as [|f IH]; intros s rest; [discriminate|]. cbn [http_lines].
  destruct (read_line s) as [s1 [l| | |]] eqn:E; try discriminate. destruct (read_line_used s s1 l E) as [U _]. destruct (read_line_flat s s1 l E) as (l0 & -> & FL).
  cbv zeta. rewrite (trim_one 10 l0) by auto.
  assert (N : ~ In 10 l0) by apply FL.
  destruct (beq (trim_space l0) []) eqn:B.
  - apply beq_eq in B. intros R. assert (s1 = rest) by congruence. subst s1. exists [], l0. cbn [app flat_map]. rewrite app_nil_r. splits; try exact U; try exact B; [constructor; [exact N|constructor]|constructor].
  - apply beq_neq in B. unfold split2. destruct (cut 58 (trim_space l0)) as [[k v]|] eqn:C; [|discriminate]. intros R.
    destruct (IH s1 rest R) as (fields & blank & -> & F1 & F2 & F3). exists (l0 :: fields), blank. cbn [app flat_map]. splits.
    + rewrite sent_app, <- app_assoc. exact U.
    + constructor; assumption.
    + constructor; [split; [|exact B]|exact F2]. apply cut_some in C as [C _]. assert (I : In 58 (trim_space l0)) by (rewrite C, in_app_iff; right; left; reflexivity).
      apply trim_in. exact I.
    + exact F3.
Qed.
