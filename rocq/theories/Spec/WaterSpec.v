(** Circular delays and convolutions, energies and spectra of sampled signals. *)
From Verif Require Import Model.Cplx.

(** sample j + period * k of the periodic continuation *)
Definition periodic (n : nat) (x : list R) (j : Z) : R := nth (Z.to_nat (j mod Z.of_nat n)) x 0.
(** x circularly delayed by m samples *)
Definition delayed (n : nat) (m : Z) (x : list R) : list R :=
  map (fun j => periodic n x (Z.of_nat j - m)) (seq 0 n).
(** circular convolution of s and g *)
Definition circ_conv (n : nat) (s g : list R) : list R :=
  map (fun j => rsum n (fun i => nth i s 0 * periodic n g (Z.of_nat j - Z.of_nat i))) (seq 0 n).
(** linear convolution at sample j, arrays are zero outside *)
Definition lin_conv (s g : list R) : list R :=
  map (fun j => rsum (S j) (fun i => nth i s 0 * nth (j - i) g 0)) (seq 0 (length s + length g - 1)).
(** discrete Fourier transform at frequency k of n samples *)
Definition dft (n : nat) (x : list R) (k : nat) : cplx :=
  csum n (fun j => Cscal (nth j x 0) (cis (- (2 * PI * INR k * INR j / INR n)))).
Definition cdft (n : nat) (x : list cplx) (k : nat) : cplx :=
  csum n (fun j => Cmul (nth j x Czero) (cis (- (2 * PI * INR k * INR j / INR n)))).
(** energy of a real and of a complex signal *)
Definition energy (n : nat) (x : list R) : R := rsum n (fun j => nth j x 0 * nth j x 0).
Definition cenergy (x : list cplx) : R := rsum (length x) (fun j => Cnorm2 (nth j x Czero)).
(** M is the largest power of the spectrum of src *)
Definition peak_power (n : nat) (src : list R) (M : R) : Prop :=
  (forall k, (k < n)%nat -> Cnorm2 (dft n src k) <= M) /\
  exists k, (k < n)%nat /\ Cnorm2 (dft n src k) = M.
Definition nonzero_within (n : nat) (s : list R) : Prop := exists p, (p < n)%nat /\ nth p s 0 <> 0.

(** number of points N of the results: argument length, or length of the first response *)
Definition result_points (rs : list (list R)) (len : option nat) (N : nat) : Prop :=
  match len with Some m => m = N | None => match rs with r :: _ => length r = N | [] => False end end.
(** number of points n of the Fourier transforms: argument nfft or the default *)
Definition fft_points (next_fast_len : nat -> nat) (nfft : option nat) (N n : nat) : Prop :=
  match nfft with Some m => m = n | None => next_fast_len N = n end /\ (0 < n)%nat.
