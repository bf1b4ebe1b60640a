(* Specification: a server that answers what it is asked (C161). *)
From Coq Require Import String.
From Verif Require Import Base GoStrings S_message M_message M_sdp M_sps M_digest M_session S_session S_handshake.

(* the parameter sets of a section can be read, whatever sets are known already *)
Definition readable (m : media) : Prop := forall known, snd (parse_sprops known (m_sprops m)) = Ok tt.

(* What may arrive when [log] has happened: packets and silences; and responses to requests that have not been answered, whose content is
   a description that can be read, whose transport can be read, and which ask for credentials only if there are some and in a form that can
   be read. *)
Definition fair (user : option (bytes * bytes)) (uri : bytes) (log : list effect) (i : item) : Prop :=
  match i with
  | Resp code _ fields body =>
      (exists k, 0 <= k < 2 ^ 63 /\ outstanding log k /\ field_value fields (bs "CSeq") = itoa k) /\
      (code = 401 -> user <> None /\ exists d, new_digest uri (field_value fields (bs "WWW-Authenticate")) = Ok d) /\
      (body <> [] -> exists ms, sdp_parse body = Ok ms /\ Forall readable ms) /\ names_transport i
  | _ => True
  end.
(* In the history [es] the items arrive one in each turn of the loop, and each is fair when it arrives. *)
Definition fair_play (user : option (bytes * bytes)) (uri : bytes) (items : list item) (w : world) (es : list event) : Prop :=
  forall before t1 t2 after w1 l1, es = before ++ Turn t1 t2 :: after -> run (w, Live) before = (w1, l1) ->
    exists i, nth_error items (turns before) = Some i /\ fair user uri (w_log w1) i.
