(* Specification: parameters of a Transport field that may stand in any order, RFC 2326 12.39. *)
From Coq Require Import String.
From Verif Require Import Base GoStrings S_omits.

(* the parameters the library reads *)
Definition known_params : list string :=
  ["unicast"; "multicast"; "destination"; "source"; "interleaved"; "append"; "layers"; "ttl"; "port"; "client_port"; "server_port"; "ssrc"; "mode"]%string.
Definition unknown (f : bytes) : Prop := ~ In (param_name f) (map bs known_params).
(* of the form protocol/profile/lower-transport, as the first of them is *)
Definition two_slashes (f : bytes) : Prop := count_occ Z.eq_dec f 47 = 2%nat.
(* two that tell the same thing, or contradict each other *)
Definition multi_or_uni (f g : bytes) : Prop := param_name f = bs "multicast" /\ (param_name g = bs "unicast" \/ param_name g = bs "interleaved").
Definition clash (f g : bytes) : Prop :=
  two_slashes f /\ two_slashes g \/ param_name f = param_name g \/ multi_or_uni f g \/ multi_or_uni g f.
