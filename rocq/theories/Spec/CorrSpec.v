(** Correlation and linear systems in terms of samples. *)
From Verif Require Import Model.RealArr.

(** sample i of a signal which is zero outside of the array *)
Definition smp (a : list R) (i : Z) : R := if (i <? 0)%Z then 0 else nth (Z.to_nat i) a 0.
(** correlation of a and b at displacement d: sum_i a(i+d) b(i) *)
Definition corr (a b : list R) (d : Z) : R :=
  rsum (length b) (fun i => smp a (Z.of_nat i + d) * smp b (Z.of_nat i)).
(** entry (i,j) of the symmetric Toeplitz matrix with first row t *)
Definition toep (t : list R) (i j : nat) : R := smp t (Z.abs (Z.of_nat i - Z.of_nat j)).
(** x solves the n x n system T x = b *)
Definition solves (t b x : list R) : Prop :=
  length x = length b /\
  forall i, (i < length b)%nat ->
    rsum (length b) (fun j => toep t i j * smp x (Z.of_nat j)) = smp b (Z.of_nat i).
(** a solver is correct if it solves every uniquely solvable system *)
Definition correct_solver (solve : list R -> list R -> list R) : Prop :=
  forall t b, (exists! x, solves t b x) -> solves t b (solve t b).
