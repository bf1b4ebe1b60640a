(* Model of main (/repo/cmd/ouro/main.go:97-111): the program from its command line. *)
From Coq Require Import String.
From Verif Require Import Base GoStrings M_conn M_message M_transport M_sdp M_session M_main M_url M_dial.

(* main.go:98  flag.Parse when no flag is defined (package flag, FlagSet.parseOne): an argument that starts with a dash is an error,
   or asks for the usage; both end the program (None).  Two dashes end the flags; a single dash is an argument. *)
Definition flag_args (args : list bytes) : option (list bytes) :=
  match args with
  | (45 :: 45 :: []) :: rest => Some rest
  | (45 :: _ :: _) :: _ => None
  | _ => Some args
  end.

(* how main begins: it exits in flag.Parse, panics on the number of arguments, ends in log.Fatalln, or gets to handleStates *)
Inductive begun := Exits | Panicked | Failed | Runs (y : system).

(* main.go:97-111; session.go:46-54 (Open).  Parameters as in dial (M_dial.v); [rnd] are the client nonces, [ws] the outcomes of writes, [s] what arrives.
   The loop of the session may take turns before OPTIONS is written; there is nothing to read then, since the server has not been asked
   anything: frames that come unasked are read after it. *)
Definition prog (args : list bytes) (reach : bytes -> Z -> bool) (ws : list (option goerr)) (rnd : list bytes) (s : stream) : list dial_effect * begun :=
  match flag_args args with
  | None => ([], Exits)
  | Some [url] =>
      match dial url ProtoTCP reach [] false s with
      | (es, _, None) => (es, Failed)
      | (es, s', Some ses) =>
          let y := launch (mkW ses s' ws [] rnd []) in
          (es, match y_fate y with Goes => Runs y | Crashes => Panicked | _ => Failed end)
      end
  | Some _ => ([], Panicked)
  end.
