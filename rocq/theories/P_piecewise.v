(* C184: units escaped and unescaped piece by piece. *)
From Verif Require Import Base S_annexb M_annexb L_base L_piecewise.

(* C184  Full statement: what RBSPToEncapsulated and EBSPToRaw make of a unit is what they make of its pieces, one after the other.
   So it is if the first piece does not end in a zero byte, whatever is in both; the first piece is then escaped without a panic. *)
Theorem C184_partial : forall a b, last a 1 <> 0 ->
  ebsp_to_raw (a ++ b) = ebsp_to_raw a ++ ebsp_to_raw b /\
  exists ea, rbsp_to_encapsulated a = Ok ea /\
    (forall eb, rbsp_to_encapsulated b = Ok eb -> rbsp_to_encapsulated (a ++ b) = Ok (ea ++ eb)) /\
    (rbsp_to_encapsulated b = Panic -> rbsp_to_encapsulated (a ++ b) = Panic).
Proof.
  intros a b H. split; [exact (raw_piecewise a b H)|]. destruct (enc_piecewise a b H) as (ea & E & F).
  exists ea. splits; [exact E|intros eb B; rewrite F, B; reflexivity|intros B; rewrite F, B; reflexivity].
Qed.
Print Assumptions C184_partial.

(* Cut behind a zero byte, the pieces together can hold a start code... *)
Theorem C184_escape_refuted : exists a b ea eb e, rbsp_to_encapsulated a = Ok ea /\ rbsp_to_encapsulated b = Ok eb /\
  rbsp_to_encapsulated (a ++ b) = Ok e /\ ~ contains [0; 0; 1] e /\ contains [0; 0; 1] (ea ++ eb).
Proof.
  exists [101; 0], [0; 1]. do 3 eexists. splits; try reflexivity.
  - intros (p & q & E). destruct p as [|? [|? [|? p]]]; cbn in E; try discriminate. injection E as _ _ _ E.
    destruct p as [|? [|? p]]; cbn in E; try discriminate. injection E as _ _ E. destruct p; discriminate.
  - exists [101], []. reflexivity.
Qed.
Print Assumptions C184_escape_refuted.

(* ...or an escape that should have been removed. *)
Theorem C184_unescape_refuted : exists a b, ebsp_to_raw (a ++ b) = [101; 0; 0; 1] /\ ebsp_to_raw a ++ ebsp_to_raw b = [101; 0; 0; 3; 1].
Proof. exists [101; 0; 0], [3; 1]. split; reflexivity. Qed.
Print Assumptions C184_unescape_refuted.

Example C184_case :
  rbsp_to_encapsulated [101; 0; 0; 1] = Ok [101; 0; 0; 3; 1] /\ rbsp_to_encapsulated [0; 0; 2; 9] = Ok [0; 0; 3; 2; 9] /\
  rbsp_to_encapsulated ([101; 0; 0; 1] ++ [0; 0; 2; 9]) = Ok [101; 0; 0; 3; 1; 0; 0; 3; 2; 9] /\
  ebsp_to_raw [101; 0; 0; 3] ++ ebsp_to_raw [1; 0] = ebsp_to_raw [101; 0; 0; 3; 1; 0].
Proof. splits; vm_compute; reflexivity. Qed.
