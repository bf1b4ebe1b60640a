(* Specification: sections of a session description (RFC 4566 5.14), as lines of text. *)
From Coq Require Import String.
From Verif Require Import Base GoStrings.

(* a body made of the given lines *)
Fixpoint body_of (lines : list bytes) : bytes :=
  match lines with [] => [] | [l] => l | l :: r => l ++ 10 :: body_of r end.
Definition one_line (l : bytes) : Prop := ~ In 10 l.

(* media lines, up to surrounding white space *)
Definition media_line (l : bytes) : Prop := exists v, trim_space l = bs "m=" ++ v.
Definition video_line (l : bytes) : Prop := exists v, trim_space l = bs "m=video " ++ v.
(* a video line with nothing after the word *)
Definition bare_video_line (l : bytes) : Prop := trim_space l = bs "m=video".

(* concatenation of outcomes: a crash in either part is a crash of the whole *)
Definition res_app {A} (a b : res (list A)) : res (list A) :=
  match a, b with Ok x, Ok y => Ok (x ++ y) | _, _ => Panic end.

(* second '/'-separated piece of a text, when it is an integer *)
Definition slash_number (s : bytes) : option Z :=
  match split_on 47 s with
  | _ :: v :: _ => match atoi v with (n, None) => Some n | _ => None end
  | _ => None
  end.

(* codec numbers of the package *)
Definition codec_of (name : bytes) (old : Z) : Z :=
  if beq (to_upper name) (bs "MPEG4-GENERIC") then 97 else if beq (to_upper name) (bs "H264") then 96 else old.

(* the last section of a document (its lines so far) is a video section *)
Definition in_video (ls : list bytes) : Prop :=
  exists a ml b, ls = a ++ ml :: b /\ video_line ml /\ Forall (fun l => ~ media_line l) b.

(* parameters of an fmtp attribute (RFC 6184 8.1, RFC 3640 4.1) *)
Inductive fparam :=
| PSprops (sets : list bytes)           (* sprop-parameter-sets=base64,base64,... *)
| PConfig (b : bytes)                   (* config=hex *)
| PSizeLength (n : Z)
| PIndexLength (n : Z)
| POther (key val : bytes).

Fixpoint comma_b64 (sets : list bytes) : bytes :=
  match sets with [] => [] | [s] => b64_encode s | s :: r => b64_encode s ++ 44 :: comma_b64 r end.
Definition fparam_text (p : fparam) : bytes :=
  match p with
  | PSprops sets => bs "sprop-parameter-sets=" ++ comma_b64 sets
  | PConfig b => bs "config=" ++ hex_encode b
  | PSizeLength n => bs "sizelength=" ++ itoa n
  | PIndexLength n => bs "indexlength=" ++ itoa n
  | POther key val => key ++ 61 :: val
  end.
(* blanks may precede a parameter *)
Definition blanks (b : bytes) : Prop := Forall (fun c => c = 32) b.
Fixpoint params_text (ps : list (bytes * fparam)) : bytes :=
  match ps with
  | [] => []
  | [(b, p)] => b ++ fparam_text p
  | (b, p) :: r => b ++ fparam_text p ++ 59 :: params_text r
  end.
Definition known_params : list bytes := [bs "sprop-parameter-sets"; bs "config"; bs "sizelength"; bs "indexlength"].
Definition fparam_ok (p : fparam) : Prop :=
  match p with
  | PSprops sets => sets <> [] /\ Forall bytes_ok sets
  | PConfig b => bytes_ok b
  | PSizeLength n | PIndexLength n => - 2 ^ 63 <= n < 2 ^ 63
  | POther key val => ~ In 61 key /\ ~ In 59 key /\ ~ In 59 val /\ trim_space key = key /\ ~ In key known_params
  end.

Definition sprops_of (ps : list fparam) : list bytes := flat_map (fun p => match p with PSprops s => s | _ => [] end) ps.
Definition last_of {A} (f : fparam -> option A) (ps : list fparam) (old : A) : A :=
  fold_left (fun a p => match f p with Some x => x | None => a end) ps old.
Definition config_of p := match p with PConfig b => Some b | _ => None end.
Definition sizelength_of p := match p with PSizeLength b => Some b | _ => None end.
Definition indexlength_of p := match p with PIndexLength b => Some b | _ => None end.
(* the name of a parameter, which the grammar (RFC 2045 5.1, token) keeps free of colons and slashes *)
Definition token_named (p : fparam) : Prop := match p with POther key _ => ~ In 58 key /\ ~ In 47 key | _ => True end.
