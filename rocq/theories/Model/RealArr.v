(** Real vectors standing for numpy float arrays (rounding, NaN and infinities are
    not modelled). *)
From Verif Require Export Model.Num.
From Coq Require Export Reals.
Notation length := List.length.
Open Scope R_scope.

(** finite sums f 0 + ... + f (n-1) *)
Fixpoint rsum (n : nat) (f : nat -> R) : R :=
  match n with O => 0 | S n' => rsum n' f + f n' end.
(** np.sum of an array, np.dot of the common part of two arrays *)
Definition asum (a : list R) : R := fold_right Rplus 0 a.
(** np.dot, np.sum(a * b), deconvolve.py:264, 288 *)
Definition dot (a b : list R) : R := asum (zipw Rmult a b).
(** np.max(np.abs(a)) for non-empty a *)
Definition max_abs (a : list R) : R := fold_right Rmax 0 (map Rabs a).
(** c * a *)
Definition scale (c : R) (a : list R) : list R := map (Rmult c) a.
(** np.zeros(n) *)
Definition zeros (n : nat) : list R := repeat 0 n.
(** deconvolve.py:248-250 _add_zeros *)
Definition add_zeros (a : list R) (l r : nat) : list R := zeros l ++ a ++ zeros r.
