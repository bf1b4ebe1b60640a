(* Property C162: parameter sets damaged in the description. *)
From Coq Require Import String.
From Verif Require Import Base GoStrings S_sdp S_garbled M_sdp L_base L_strings L_sdp L_garbled P_sdp.
From Coq Require Import ZifyBool ZifyNat.

(* ---- C162 ---- *)
(* Full statement: of each parameter set in the description the feed has the bytes its text stands for, and none of a text that stands for
   nothing.  A text broken off by any character that is no letter, behind four letters or eight and so on, gives the set that the letters
   before stand for, whatever follows. *)
Theorem C162_damaged_refuted : forall ls done m l pt b c rest other, Forall one_line (ls ++ [l]) -> in_video ls -> sdp_parse (body_of ls) = Ok (done ++ [m]) ->
  bytes_ok b -> zlen b mod 3 = 0 -> ~ (exists x, letter64 c x) -> ~ In c [10; 13; 44; 59; 61] -> ~ In 44 rest -> ~ In 59 rest ->
  written_ok other -> set_texts [other] = [] ->
  let text := b64_encode b ++ c :: rest in
  trim_space l = bs "a=fmtp:" ++ itoa pt ++ bs " " ++ written_text [other; ([], bs "sprop-parameter-sets", text)] ->
  (~ exists x, means64 text x) /\
  exists m', sdp_parse (body_of (ls ++ [l])) = Ok (done ++ [m']) /\ m_sprops m' = m_sprops m ++ [b].
Proof.
  intros ls done m l pt b c rest other O V E B M C N R1 R2 W S text T.
  assert (CV : b64_val c = None) by (destruct (b64_val c) as [x|] eqn:X; [exfalso; apply C; exists x; apply letter64_val; exact X|reflexivity]).
  cbn [In] in N. assert (AB : forall k, ~ (b64_letter k \/ k = 61) -> k <> c -> ~ In k rest -> ~ In k text).
  { intros k K1 K2 K3 I. apply in_app_or in I as [I|[I|I]]; [revert I; apply b64_absent; assumption|lia|auto]. }
  assert (D : b64_decode text = (b, false)).
  { unfold b64_decode, text. rewrite filter_app. cbn [filter].
    replace (negb ((c =? 10) || (c =? 13))) with true by lia.
    replace (filter (fun c0 => negb ((c0 =? 10) || (c0 =? 13))) (b64_encode b)) with (b64_encode b); [apply (quanta_damaged _ b c _ (le_n _)); assumption|].
    symmetry. pose proof (b64_alphabet b B) as A. unfold b64_letter in A. clear - A. induction A as [|k r K _ IH]; [reflexivity|]. cbn [filter]. replace (negb ((k =? 10) || (k =? 13))) with true by lia. rewrite IH. reflexivity. }
  split; [intros [x X]; apply means64_iff in X; congruence|].
  assert (WO : written_ok ([], bs "sprop-parameter-sets", text)).
  { unfold written_ok, w_name, w_value. cbn [fst snd]. splits; [constructor|apply absent_spec; reflexivity|apply absent_spec; reflexivity| |reflexivity].
    apply AB; [unfold b64_letter; lia|lia|exact R2]. }
  destruct (written_line ls done m l pt _ O V E T ltac:(cbn; lia) ltac:(constructor; [exact W|constructor; [exact WO|constructor]])) as (m' & P & Q & _).
  exists m'. split; [exact P|]. rewrite Q. unfold set_texts in *. cbn [flat_map] in S |- *. rewrite app_nil_r in S. rewrite S. unfold w_name, w_value. cbn [fst snd app].
    rewrite beq_refl, app_nil_r, split_on_none by (apply AB; [unfold b64_letter; lia|lia|exact R1]). cbn [map]. rewrite D. reflexivity.
Qed.
Print Assumptions C162_damaged_refuted.

(* Exactly: each text gives what its beginning stands for, as far as it goes, in the order of the texts ... *)
Theorem C162_exact : forall ls done m l pt ps, Forall one_line (ls ++ [l]) -> in_video ls -> sdp_parse (body_of ls) = Ok (done ++ [m]) ->
  trim_space l = bs "a=fmtp:" ++ itoa pt ++ bs " " ++ written_text ps -> (2 <= length ps)%nat -> Forall written_ok ps ->
  exists m' sets, sdp_parse (body_of (ls ++ [l])) = Ok (done ++ [m']) /\ m_sprops m' = m_sprops m ++ sets /\ Forall2 salvaged64 (set_texts ps) sets.
Proof.
  intros ls done m l pt ps O V E T L F. destruct (written_line ls done m l pt ps O V E T L F) as (m' & P & Q & _). eexists m', _. splits; [exact P|exact Q|].
  generalize (set_texts ps). intros ts. induction ts as [|t ts IH]; cbn [map]; constructor; [apply salvaged64_iff; reflexivity|exact IH].
Qed.
Print Assumptions C162_exact.

(* ... which is one thing only ... *)
Theorem C162_one : forall t x y, salvaged64 t x -> salvaged64 t y -> x = y.
Proof. intros t x y X Y. apply salvaged64_iff in X, Y. congruence. Qed.
Print Assumptions C162_one.

(* ... and the right one where the text stands for something. *)
Theorem C162_whole_partial : forall ls done m l pt ps, Forall one_line (ls ++ [l]) -> in_video ls -> sdp_parse (body_of ls) = Ok (done ++ [m]) ->
  trim_space l = bs "a=fmtp:" ++ itoa pt ++ bs " " ++ written_text ps -> (2 <= length ps)%nat -> Forall written_ok ps ->
  forall sets, Forall2 means64 (set_texts ps) sets ->
  exists m', sdp_parse (body_of (ls ++ [l])) = Ok (done ++ [m']) /\ m_sprops m' = m_sprops m ++ sets.
Proof.
  intros ls done m l pt ps O V E T L F sets G. destruct (written_line ls done m l pt ps O V E T L F) as (m' & P & Q & _). exists m'. split; [exact P|]. rewrite Q. f_equal.
  clear - G. induction G as [|t x ts xs X _ IH]; [reflexivity|]. cbn [map]. apply means64_iff in X. rewrite X, IH. reflexivity.
Qed.
Print Assumptions C162_whole_partial.

(* The configuration in hexadecimal is no different. *)
Theorem C162_config : forall ls done m l pt b v other, Forall one_line (ls ++ [l]) -> in_video ls -> sdp_parse (body_of ls) = Ok (done ++ [m]) ->
  let ps := [other; (b, bs "config", v)] in
  trim_space l = bs "a=fmtp:" ++ itoa pt ++ bs " " ++ written_text ps -> Forall written_ok ps ->
  exists m', sdp_parse (body_of (ls ++ [l])) = Ok (done ++ [m']) /\ salvaged16 v (m_config m').
Proof.
  intros ls done m l pt b v other O V E ps T F. destruct (written_line ls done m l pt ps O V E T ltac:(cbn; lia) F) as (m' & P & _ & Q). exists m'. split; [exact P|].
  apply salvaged16_iff. rewrite Q. unfold ps, w_name, w_value. cbn [fold_left fst snd]. rewrite beq_refl. reflexivity.
Qed.
Print Assumptions C162_config.

(* the set 67 42 00 29, of which the text loses its fifth letter; the same text whole, and with other bits left over *)
Example C162_case :
  let got t := match described_by ["m=video 0 RTP/AVP 96"; String.append "a=fmtp:96 packetization-mode=1; sprop-parameter-sets=" t]%string with Ok [m] => m_sprops m | _ => [] end in
  got "Z0IAKQ==,aM4xUg=="%string = [[103; 66; 0; 41]; [104; 206; 49; 82]] /\
  got "Z0IA?Q==,aM4xUg=="%string = [[103; 66; 0]; [104; 206; 49; 82]] /\
  got "Z0IAKR==,aM4xUg"%string = [[103; 66; 0; 41]; [104; 206; 49]] /\
  got "Z0IAKQ==aM4xUg==,"%string = [[103; 66; 0; 41]; []].
Proof. vm_compute. repeat split. Qed.
Example C162_texts : means64 (bs "Z0IAKR==") [103; 66; 0; 41] /\ salvaged64 (bs "Z0IA?Q==") [103; 66; 0] /\ salvaged16 (bs "12x0") [18] /\ ~ (exists x, letter64 63 x).
Proof.
  splits; [apply means64_iff; reflexivity|apply salvaged64_iff; reflexivity|apply salvaged16_iff; reflexivity|].
  intros [x X]. apply letter64_val in X. discriminate.
Qed.
