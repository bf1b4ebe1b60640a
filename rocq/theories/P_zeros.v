(* C144: zero bytes around the units of a byte stream. *)
From Verif Require Import Base S_annexb M_annexb S_zeros L_base L_annexb L_zeros.

(* What is returned of a stream with any numbers of zero bytes: all but one of those before a start code are kept, at the end of the
   unit before or, in front of the first, as a unit of their own; those at the end are kept at the end of the last unit. *)
Theorem C144_exact : forall k u us t, Forall (fun u => bytes_ok (snd u) /\ snd u <> [] /\ rbsp_legal (snd u)) ((k, u) :: us) ->
  split_annexb (zero_stream ((k, u) :: us) t) = Ok ((if (2 <=? k)%nat then [repeat 0 (k - 1)] else []) ++ with_zeros u us t).
Proof. exact split_zeros. Qed.
Print Assumptions C144_exact.

(* So the units are returned exactly when there is at most one zero byte before each start code and none at the end. *)
Theorem C144_partial : forall us t, us <> [] -> Forall (fun u => bytes_ok (snd u) /\ snd u <> [] /\ rbsp_legal (snd u)) us ->
  (split_annexb (zero_stream us t) = Ok (map snd us) <-> Forall (fun u => (fst u <= 1)%nat) us /\ t = 0%nat).
Proof.
  intros us t N F. destruct us as [|[k u] us]; [contradiction|]. rewrite (split_zeros k u us t F). cbn [map snd]. rewrite Forall_cons_iff. cbn [fst].
  pose proof (with_zeros_same us u t) as W. destruct (2 <=? k)%nat eqn:K.
  - split; [|intros ((L & _) & _); lia]. intros E. exfalso. assert (L : forall A (a b : A), Ok a = Ok b -> a = b) by (intros A a b X; injection X as X; exact X).
    apply L, (f_equal (@length _)) in E. cbn [app length] in E. rewrite with_zeros_len, map_length in E. lia.
  - cbn [app]. split.
    + intros E. injection E as E. apply W in E as (E1 & E2). splits; [lia|exact E1|exact E2].
    + intros ((_ & A) & T). f_equal. apply W. split; assumption.
Qed.
Print Assumptions C144_partial.

Example C144_case :
  zero_stream [(2%nat, [103; 66]); (3%nat, [101; 9])] 1 = [0; 0; 0; 0; 1; 103; 66; 0; 0; 0; 0; 0; 1; 101; 9; 0] /\
  split_annexb [0; 0; 0; 0; 1; 103; 66; 0; 0; 0; 0; 0; 1; 101; 9; 0] = Ok [[0]; [103; 66; 0; 0]; [101; 9; 0]] /\
  split_annexb (zero_stream [(1%nat, [103; 66]); (0%nat, [101; 9])] 0) = Ok [[103; 66]; [101; 9]].
Proof. splits; vm_compute; reflexivity. Qed.
