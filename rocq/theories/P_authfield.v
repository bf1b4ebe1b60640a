(* C142, C143: the Authorization field as a server reads it. *)
From Coq Require Import String.
From Verif Require Import Base GoStrings S_digest M_digest S_authfield L_base L_strings L_digest L_authfield.

(* A server reads from every field of every history the user, the address and the values of its own challenge, when there
   is no quote and no backslash in them. *)
Theorem C142_digest_partial : forall uri ch d user pass rnd ops, new_digest uri ch = Ok d -> d_basic d = false -> 1 + renewals ops < 2 ^ 32 ->
  bytes_ok rnd -> renewals_ok ops -> unescaped uri -> unescaped user ->
  unescaped (d_realm d) -> unescaped (d_nonce d) -> unescaped (d_opaque d) -> unescaped (d_algorithm d) -> unescaped (d_qop d) ->
  Forall (fun out => exists l, auth_read out = Some l /\
            says (mkChal (d_realm d) (d_nonce d) (d_opaque d) (d_algorithm d) (d_qop d)) uri user l)
         (session_calls d user pass rnd ops).
Proof.
  intros uri ch d user pass rnd ops N B L R RO U V P1 P2 P3 P4 P5. rewrite (session_drift _ _ _ _ _ _ _ N B L).
  apply drift_each; [exact RO|apply cnonce_hexish, R|]. intros ha1 nc cn verb body NC NL CN. eexists. split.
  - apply header_read; [unfold chal_plain; splits; assumption|exact U|exact V|exact NC|exact CN].
  - eapply header_says; [exact NL|reflexivity].
Qed.
Print Assumptions C142_digest_partial.

(* With a quote or a backslash in it the name is never the one read, whatever the challenge, the address and the history:
   nothing is escaped. *)
Theorem C142_name_refuted : forall uri ch d user pass rnd ops, new_digest uri ch = Ok d -> d_basic d = false -> 1 + renewals ops < 2 ^ 32 ->
  In 34 user \/ In 92 user ->
  Forall (fun out => forall l, auth_read out = Some l -> auth_value (bs "username") l <> Some user) (session_calls d user pass rnd ops).
Proof.
  intros uri ch d user pass rnd ops N B L Q. rewrite (session_drift _ _ _ _ _ _ _ N B L).
  apply drift_any. intros ha1 nc cn verb body l E A. destruct (header_name _ _ _ _ _ _ _ _ _ E A) as (X & Y). tauto.
Qed.
Print Assumptions C142_name_refuted.

Example C142_case : exists d, new_digest (bs "/s") (bs "Digest realm=""cam"", nonce=""77"", qop=""auth""") = Ok d /\ d_basic d = false /\
  (forall out, In out (session_calls d (bs "ann lee") (bs "pw") [1;2;3;4;5;6;7;8] [Call (bs "PLAY") []]) ->
     exists l, auth_read out = Some l /\ auth_value (bs "username") l = Some (bs "ann lee") /\ auth_value (bs "qop") l = Some (bs "auth") /\
       auth_value (bs "nc") l = Some (bs "00000001")) /\
  (* DOMAIN\ann is read as DOMAINann; x", realm="y as another user in another realm *)
  (forall out, In out (session_calls d (bs "DOMAIN\ann") (bs "pw") [1;2;3;4;5;6;7;8] [Call (bs "PLAY") []]) ->
     exists l, auth_read out = Some l /\ auth_value (bs "username") l = Some (bs "DOMAINann")) /\
  (forall out, In out (session_calls d (bs "x"", realm=""y") (bs "pw") [1;2;3;4;5;6;7;8] [Call (bs "PLAY") []]) ->
     exists l, auth_read out = Some l /\ auth_value (bs "username") l = Some (bs "x") /\ auth_value (bs "realm") l = Some (bs "y")).
Proof.
  eexists. split; [vm_compute; reflexivity|]. split; [reflexivity|].
  splits; (intros out I; vm_compute in I; destruct I as [<-|[]]; eexists; split; [vm_compute; reflexivity|]); vm_compute; repeat split.
Qed.

(* Basic: the name and the password are read as they are exactly when there is no colon in the name. *)
Theorem C142_basic_partial : forall d user pass rnd ops, d_basic d = true -> bytes_ok user -> bytes_ok pass ->
  Forall (fun out => basic_read out = Some (user, pass) <-> ~ In 58 user) (session_calls d user pass rnd ops).
Proof.
  intros d user pass rnd ops B U P. unfold session_calls, authenticate. rewrite B, colonnade_colons, (calls_basic ops d _ B).
  assert (K : basic_read (bs "Basic " ++ b64_encode (colons [user; pass])) = up_to 58 (user ++ 58 :: pass)).
  { unfold basic_read. replace (has_prefix (bs "Basic ") _) with true by reflexivity. cbv iota.
    match goal with |- context [skipn 6 (bs "Basic " ++ ?x)] => change (skipn 6 (bs "Basic " ++ x)) with x end.
    change (colons [user; pass]) with (user ++ 58 :: pass). rewrite b64_decode_encode; [reflexivity|].
    apply bytes_ok_app. split; [exact U|]. constructor; [unfold byte_ok; lia|exact P]. }
  assert (X : basic_read (bs "Basic " ++ b64_encode (colons [user; pass])) = Some (user, pass) <-> ~ In 58 user).
  { rewrite K. split; [apply up_to_inv|apply up_to_app]. }
  induction ops as [|[v b|r] ops IH]; cbn [flat_map app]; [constructor| |exact IH]. constructor; [exact X|exact IH].
Qed.
Print Assumptions C142_basic_partial.

Example C142_basic_case : exists d, new_digest (bs "/s") (bs "Basic realm=""cam""") = Ok d /\ d_basic d = true /\
  map basic_read (session_calls d (bs "ann") (bs "a:b") [] [Call (bs "PLAY") []]) = [Some (bs "ann", bs "a:b")] /\
  map basic_read (session_calls d (bs "an:n") (bs "ab") [] [Call (bs "PLAY") []]) = [Some (bs "an", bs "n:ab")].
Proof. eexists. split; [vm_compute; reflexivity|]. repeat split; vm_compute; reflexivity. Qed.

(* The algorithm (and the qop) are written in quotes, where the grammar has tokens: no field is in the form of RFC 2617. *)
Theorem C143_refuted : forall uri ch d user pass rnd ops, new_digest uri ch = Ok d -> d_basic d = false -> 1 + renewals ops < 2 ^ 32 ->
  bytes_ok rnd -> renewals_ok ops -> unescaped uri -> unescaped user ->
  unescaped (d_realm d) -> unescaped (d_nonce d) -> unescaped (d_opaque d) -> unescaped (d_algorithm d) -> unescaped (d_qop d) ->
  Forall (fun out => exists l, auth_read out = Some l /\ ~ in_form l) (session_calls d user pass rnd ops).
Proof.
  intros uri ch d user pass rnd ops N B L R RO U V P1 P2 P3 P4 P5. rewrite (session_drift _ _ _ _ _ _ _ N B L).
  apply drift_each; [exact RO|apply cnonce_hexish, R|]. intros ha1 nc cn verb body NC NL CN. eexists. split.
  - apply header_read; [unfold chal_plain; splits; assumption|exact U|exact V|exact NC|exact CN].
  - eapply header_form. reflexivity.
Qed.
Print Assumptions C143_refuted.

(* All the other parameters are in their form. *)
Theorem C143_partial : forall uri ch d user pass rnd ops, new_digest uri ch = Ok d -> d_basic d = false -> 1 + renewals ops < 2 ^ 32 ->
  bytes_ok rnd -> renewals_ok ops -> unescaped uri -> unescaped user ->
  unescaped (d_realm d) -> unescaped (d_nonce d) -> unescaped (d_opaque d) -> unescaped (d_algorithm d) -> unescaped (d_qop d) ->
  Forall (fun out => exists l, auth_read out = Some l /\
      Forall (fun p => ap_name p = bs "algorithm" \/ ap_name p = bs "qop" \/
                       ap_quoted p = negb (existsb (beq (ap_name p)) token_params)) l)
    (session_calls d user pass rnd ops).
Proof.
  intros uri ch d user pass rnd ops N B L R RO U V P1 P2 P3 P4 P5. rewrite (session_drift _ _ _ _ _ _ _ N B L).
  apply drift_each; [exact RO|apply cnonce_hexish, R|]. intros ha1 nc cn verb body NC NL CN. eexists. split.
  - apply header_read; [unfold chal_plain; splits; assumption|exact U|exact V|exact NC|exact CN].
  - eapply header_form. reflexivity.
Qed.
Print Assumptions C143_partial.

Example C143_case : exists d, new_digest (bs "/s") (bs "Digest realm=""cam"", nonce=""77"", qop=""auth"", opaque=""o""") = Ok d /\
  forall out, In out (session_calls d (bs "ann") (bs "pw") [1;2;3;4;5;6;7;8] [Call (bs "PLAY") []]) ->
  exists l, auth_read out = Some l /\
    map (fun p => @Datatypes.pair bytes bool (ap_name p) (ap_quoted p)) l =
    map (fun x : String.string * bool => (bs (fst x), snd x))
      [("username", true); ("realm", true); ("nonce", true); ("uri", true); ("algorithm", true); ("opaque", true); ("qop", true);
       ("nc", false); ("cnonce", true); ("response", true)]%string.
Proof.
  eexists. split; [vm_compute; reflexivity|]. intros out I; vm_compute in I; destruct I as [<-|[]]; eexists; split; vm_compute; reflexivity.
Qed.
