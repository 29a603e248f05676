(** Spike trains, predicted signals and misfits for iterative deconvolution. *)
From Verif Require Import Model.Cplx.
From Verif Require Export Spec.WaterSpec.

(** Gaussian low-pass filter exp(-(f/g)^2/2) and delay by tshift of the n samples of x *)
Definition frequency (n : nat) (dt : R) (k : nat) : R :=
  IZR (if (2 * k <? n)%nat then Z.of_nat k else Z.of_nat k - Z.of_nat n) / (INR n * dt).
Definition filtered (n : nat) (dt g tshift : R) (x : list R) : list R :=
  map (fun j => / INR n * rsum n (fun k =>
         exp (- (1 / 2) * (frequency n dt k / g) ^ 2) *
         fst (Cmul (dft n x k) (cis (2 * PI * INR k * INR j / INR n - 2 * PI * frequency n dt k * tshift)))))
      (seq 0 n).
Definition lowpass (n : nat) (dt g : R) (x : list R) : list R := filtered n dt g 0 x.

(** a spike: lag (modulo n) and amplitude *)
Definition spike := (nat * R)%type.
Definition no_spike : spike := (0%nat, 0).
(** array with the amplitudes *)
Definition spike_train (n : nat) (sp : list spike) : list R :=
  map (fun i => fold_right (fun la acc => (if Nat.eqb (fst la) i then snd la else 0) + acc) 0 sp) (seq 0 n).
(** sample j of the source s repeated at the lags with the amplitudes, times dt *)
Definition predicted (n : nat) (dt : R) (s : list R) (sp : list spike) (j : nat) : R :=
  fold_right (fun la acc => dt * snd la * periodic n s (Z.of_nat j - Z.of_nat (fst la)) + acc) 0 sp.
Definition residual (n : nat) (dt : R) (r s : list R) (sp : list spike) (j : nat) : R :=
  nth j r 0 - predicted n dt s sp j.
(** energy of what the spikes do not explain *)
Definition misfit (n : nat) (dt : R) (r s : list R) (sp : list spike) : R :=
  rsum n (fun j => residual n dt r s sp j * residual n dt r s sp j).
(** correlation of the residual with the source at a lag *)
Definition match_at (n : nat) (dt : R) (r s : list R) (sp : list spike) (l : nat) : R :=
  rsum n (fun j => residual n dt r s sp j * periodic n s (Z.of_nat j - Z.of_nat l)).

(** lags 0 ... len-1, and unless they are muted also the lags -shift ... -1 (modulo n) *)
Definition lag_allowed (n len : nat) (shift : Z) (mute_shift : bool) (l : nat) : Prop :=
  (l < len)%nat \/ (mute_shift = false /\ (Z.of_nat n - shift <= Z.of_nat l)%Z).

(** spike number t is put at the lag with the best correlation, with the amplitude
    that reduces the misfit most *)
Definition best_spike (n : nat) (dt : R) (r s : list R) (allowed : nat -> Prop) (before : list spike) (x : spike) : Prop :=
  (fst x < n)%nat /\ allowed (fst x) /\
  (forall l, (l < n)%nat -> allowed l ->
     Rabs (match_at n dt r s before l) <= Rabs (match_at n dt r s before (fst x))) /\
  snd x = match_at n dt r s before (fst x) / (energy n s * dt).

(** misfit reduction by spike t in percent of the energy of the response *)
Definition improvement (n : nat) (dt : R) (r s : list R) (sp : list spike) (t : nat) : R :=
  100 * ((misfit n dt r s (firstn t sp) - misfit n dt r s (firstn (S t) sp)) / energy n r).
(** the spikes sp, their number and the recorded misfits are those of a greedy search
    that starts if there is something to explain and stops after itmax spikes or when a
    spike improves by minderr percent or less *)
Record spike_run (n : nat) (dt : R) (r s : list R) (allowed : nat -> Prop) (itmax : nat) (minderr : R)
    (sp : list spike) (it : nat) (rms : list R) : Prop := {
  run_count : it = length sp /\ (it <= itmax)%nat;
  run_start : (0 < itmax)%nat -> 0 < energy n r -> (0 < it)%nat;
  run_best : forall t, (t < it)%nat -> best_spike n dt r s allowed (firstn t sp) (nth t sp no_spike);
  run_rms : length rms = itmax /\ forall t, (t < itmax)%nat ->
      nth t rms 0 = if (t <? it)%nat then misfit n dt r s (firstn (S t) sp) / energy n r else 0;
  run_continue : forall t, (S t < it)%nat -> minderr < improvement n dt r s sp t;
  run_stop : (it < itmax)%nat -> (0 < it)%nat -> improvement n dt r s sp (it - 1) <= minderr }.
(** z is x rounded towards zero *)
Definition toward_zero (x : R) (z : Z) : Prop :=
  (0 <= x -> IZR z <= x < IZR z + 1) /\ (x < 0 -> IZR z - 1 < x <= IZR z).
(** scipy.fftpack.next_fast_len *)
Definition fast_len (next_fast_len : nat -> nat) : Prop := forall m, (m <= next_fast_len m)%nat.
