(** What a time domain receiver function is: the solution of the normal equations of
    source s and response r. Lag zero is at sample T of the source window. *)
From Verif Require Import Model.RealArr Spec.CorrSpec.

Definition nonzero (s : list R) : Prop := exists p, nth p s 0 <> 0.
(** (STS / STS_0 + spiking * I) x = STR with STR_i = sum_k r(k+i-T) s(k) *)
Definition normal_eq (s r : list R) (spiking : R) (T : Z) (x : list R) : Prop :=
  length x = length r /\
  forall i, (i < length r)%nat ->
    rsum (length r) (fun j => (corr s s (Z.of_nat i - Z.of_nat j) / corr s s 0 +
                               (if (i =? j)%nat then spiking else 0)) * smp x (Z.of_nat j))
    = corr r s (Z.of_nat i - T).
(** the documented formula: (STS + spiking * I) x = STR *)
Definition documented_eq (s r : list R) (spiking : R) (T : Z) (x : list R) : Prop :=
  length x = length r /\
  forall i, (i < length r)%nat ->
    rsum (length r) (fun j => (corr s s (Z.of_nat i - Z.of_nat j) +
                               (if (i =? j)%nat then spiking else 0)) * smp x (Z.of_nat j))
    = corr r s (Z.of_nat i - T).
(** r is the source with onset at sample o of r, T samples before are in s *)
Definition placed (s r : list R) (T o : Z) : Prop := forall j, smp r j = smp s (j - o + T).
(** r is the convolution of s and g, a spike of g at lag zero being at sample T *)
Definition convolved (s g r : list R) (T : Z) : Prop :=
  forall j, smp r j = rsum (length g) (fun i => smp g (Z.of_nat i) * smp s (j - Z.of_nat i + T)).
(** conditions under which lag zero is right (see C27) *)
Definition regular_window (s : list R) (T : Z) : Prop :=
  Z.odd (Z.of_nat (length s)) = true \/ (0 < T < Z.of_nat (length s))%Z.
