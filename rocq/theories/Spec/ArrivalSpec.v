(** Traces composed of arrivals with the waveform of the source. *)
From Verif Require Import Model.RealArr.
From Verif Require Export Spec.CorrSpec.

(** arrivals: amplitude and sample; sum of f(amplitude, sample) over the arrivals *)
Definition over_arrivals (l : list (R * Z)) (f : R -> Z -> R) : R := fold_right (fun a acc => f (fst a) (snd a) + acc) 0 l.
(** r is the sum of the arrivals, each of them the window s (with T samples before the
    onset) times its amplitude, with the onset at its sample; each of them is completely
    within the trace *)
Definition composed (s r : list R) (T : Z) (l : list (R * Z)) : Prop :=
  (forall j, smp r j = over_arrivals l (fun c o => c * smp s (j - o + T))) /\
  (forall c o j, In (c, o) l -> (j < 0 \/ Z.of_nat (length r) <= j)%Z -> smp s (j - o + T) = 0).
(** a wavelet which is symmetric, 1 in the middle and nowhere larger, and repeats after n samples *)
Definition zero_phase (n : nat) (W : Z -> R) : Prop :=
  W 0%Z = 1 /\ (forall z, Rabs (W z) <= 1) /\ (forall z, W (- z)%Z = W z) /\ (forall z, W (z + Z.of_nat n)%Z = W z).
