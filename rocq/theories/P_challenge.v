(* C124: challenges in all the forms of the standard. *)
From Coq Require Import String.
From Verif Require Import Base GoStrings S_md5 S_digest S_challenge M_digest L_base L_digest L_challenge.

(* Full statement: a challenge written in any form of RFC 2617 (with or without quotes, blanks anywhere between the parts, schemes and
   names in any case, parameters that are not known, several challenges in one field) is understood. *)

(* With or without quotes, blanks around the parts, names in any case: understood, when the scheme is written Digest or Basic, all
   parameters are known ones and no value has a comma. *)
Theorem C124_forms_partial : forall basic uri ch l, trim_space ch = scheme basic ++ cparams_text l -> l <> [] -> Forall cparam_ok l ->
  Forall (fun p => Forall ascii_letter (cp_name p) /\ In (to_lower (cp_name p)) known_attrs /\ ~ In 44 (cp_value p)) l ->
  (value_of (bs "nonce") [] l = [] \/ In (to_lower (value_of (bs "algorithm") (bs "md5") l)) [bs "md5"; bs "md5-sess"]) ->
  exists d, new_digest uri ch = Ok d /\ d_basic d = basic /\ d_uri d = uri /\ d_realm d = value_of (bs "realm") [] l /\
    d_domain d = value_of (bs "domain") [] l /\ d_nonce d = value_of (bs "nonce") [] l /\ d_opaque d = value_of (bs "opaque") [] l /\
    d_stale d = value_of (bs "stale") [] l /\ d_algorithm d = to_lower (value_of (bs "algorithm") (bs "md5") l) /\
    d_qop d = to_lower (value_of (bs "qop") [] l).
Proof. exact forms_parsed. Qed.
Print Assumptions C124_forms_partial.

(* The scheme in any other case is refused, whatever follows. *)
Theorem C124_scheme_refuted : forall uri ch sch rest, trim_space ch = sch ++ bs " " ++ rest ->
  to_lower sch = bs "digest" \/ to_lower sch = bs "basic" -> ~ In 32 sch -> sch <> bs "Digest" -> sch <> bs "Basic" ->
  new_digest uri ch = Err ErrAuthMalformedChallenge.
Proof. intros uri ch sch rest E _ N D B. exact (other_scheme uri ch sch rest E N D B). Qed.
Print Assumptions C124_scheme_refuted.

(* A parameter that is not one of the seven is refused, wherever it stands and whatever the others are (3.2.1: any unrecognized directive
   must be ignored). *)
Theorem C124_unknown_refuted : forall uri ch basic a p b, trim_space ch = scheme basic ++ cparams_text (a ++ p :: b) -> cparam_ok p ->
  ~ In (to_lower (cp_name p)) known_attrs -> new_digest uri ch = Err ErrAuthMalformedChallenge.
Proof. exact unknown_refused. Qed.
Print Assumptions C124_unknown_refuted.

(* No value with a comma is ever understood: none of those read has one. *)
Theorem C124_comma_refuted : forall uri ch d, new_digest uri ch = Ok d ->
  ~ In 44 (d_realm d) /\ ~ In 44 (d_domain d) /\ ~ In 44 (d_nonce d) /\ ~ In 44 (d_opaque d).
Proof. exact new_digest_commaless. Qed.
Print Assumptions C124_comma_refuted.

(* Two challenges in one field are refused, whichever they are. *)
Theorem C124_several_refuted : forall uri ch first second l blank p l2,
  trim_space ch = scheme first ++ cparams_text l ++ bs "," ++ blank ++ scheme second ++ cparams_text (p :: l2) -> spaces blank -> cparam_ok p ->
  new_digest uri ch = Err ErrAuthMalformedChallenge.
Proof. intros uri ch first second l b p l2. apply several_refused. Qed.
Print Assumptions C124_several_refuted.

Example C124_case :
  let l := [mkParam [32] (bs "Realm") true (bs "hall 1") [32]; mkParam [] (bs "nonce") false (bs "0f") []; mkParam [32; 32] (bs "algorithm") false (bs "MD5") []] in
  scheme false ++ cparams_text l = bs "Digest  Realm=""hall 1"" ,nonce=0f,  algorithm=MD5" /\
  option_map d_realm (match new_digest [] (bs "Digest  Realm=""hall 1"" ,nonce=0f,  algorithm=MD5") with Ok d => Some d | _ => None end) = Some (bs "hall 1") /\
  option_map d_realm (match new_digest [] (bs "Digest realm=""hall, floor 1"", nonce=""0f""") with Ok d => Some d | _ => None end) = Some (bs "hall") /\
  new_digest [] (bs "digest realm=""r"", nonce=""0f""") = Err ErrAuthMalformedChallenge /\
  new_digest [] (bs "Digest realm=""r"", nonce=""0f"", userhash=false") = Err ErrAuthMalformedChallenge /\
  new_digest [] (bs "Digest realm=""r"", nonce=""0f"", Basic realm=""r""") = Err ErrAuthMalformedChallenge.
Proof. cbv zeta. splits; vm_compute; reflexivity. Qed.
