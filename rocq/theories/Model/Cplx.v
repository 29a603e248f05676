(** Complex numbers and the discrete Fourier transform of scipy.fftpack
    (library contract), over the real numbers. *)
From Verif Require Export Model.RealArr.

(** complex numbers, deconvolve.py:208-245 *)
Definition cplx := (R * R)%type.
(** a real number as complex number (numpy), deconvolve.py:208 *)
Definition RtoC (x : R) : cplx := (x, 0).
(** 0j, deconvolve.py:586 *)
Definition Czero : cplx := (0, 0).
(** 1 as complex number (numpy) *)
Definition Cone : cplx := (1, 0).
(** a + b, deconvolve.py:604 *)
Definition Cadd (a b : cplx) : cplx := (fst a + fst b, snd a + snd b).
(** -a, deconvolve.py:415 *)
Definition Copp (a : cplx) : cplx := (- fst a, - snd a).
(** a - b (numpy) *)
Definition Csub (a b : cplx) : cplx := (fst a - fst b, snd a - snd b).
(** a * b, deconvolve.py:224 *)
Definition Cmul (a b : cplx) : cplx := (fst a * fst b - snd a * snd b, fst a * snd b + snd a * fst b).
(** np.conjugate, deconvolve.py:209 *)
Definition Cconj (a : cplx) : cplx := (fst a, - snd a).
(** r * a for a real r, a / r *)
Definition Cscal (r : R) (a : cplx) : cplx := (r * fst a, r * snd a).
(** |a|^2 *)
Definition Cnorm2 (a : cplx) : R := fst a * fst a + snd a * snd a.
(** 1 / a *)
Definition Cinv (a : cplx) : cplx := (fst a / Cnorm2 a, - snd a / Cnorm2 a).
(** exp(i x) *)
Definition cis (x : R) : cplx := (cos x, sin x).
(** a 0 + ... + a (n-1) *)
Fixpoint csum (n : nat) (f : nat -> cplx) : cplx :=
  match n with O => Czero | S n' => Cadd (csum n' f) (f n') end.

(** exp(2 pi i z / n) *)
Definition unit (n : nat) (z : Z) : cplx := cis (2 * PI * IZR z / INR n).

(** fft(x, n): x is cut or filled with zeros; n = 0 raises ValueError *)
Definition fft_at (n : nat) (x : nat -> cplx) (k : nat) : cplx :=
  csum n (fun j => Cmul (x j) (unit n (- (Z.of_nat k * Z.of_nat j)))).
(** one element of ifft (library scipy), deconvolve.py:224 *)
Definition ifft_at (n : nat) (X : nat -> cplx) (j : nat) : cplx :=
  Cscal (/ INR n) (csum n (fun k => Cmul (X k) (unit n (Z.of_nat k * Z.of_nat j)))).
(** [f(i) for i in range(n)], np.arange, deconvolve.py:405-415 *)
Definition tabulate {A} (n : nat) (f : nat -> A) : list A := map f (seq 0 n).
(** fft(x, n) (library scipy), deconvolve.py:208 *)
Definition fft (x : list R) (n : nat) : list cplx :=
  tabulate n (fft_at n (fun j => RtoC (nth j x 0))).
(** ifft(X, n) (library scipy), deconvolve.py:216, 224 *)
Definition ifft (X : list cplx) (n : nat) : list cplx :=
  tabulate n (ifft_at n (fun k => nth k X Czero)).
(** elementwise product of two spectra of the same length *)
Definition cprod (a b : list cplx) : list cplx := zipw Cmul a b.

(** np.fft.fftfreq(n, d): 0, 1, ..., -2, -1 divided by n * d *)
Definition fold_freq (n k : nat) : Z :=
  if (2 * k <? n)%nat then Z.of_nat k else (Z.of_nat k - Z.of_nat n)%Z.
(** np.fft.fftfreq (library), deconvolve.py:239, 398, 414 *)
Definition fftfreq (n : nat) (d : R) : list R :=
  tabulate n (fun k => IZR (fold_freq n k) / (INR n * d)).

(** deconvolve.py:385-402 _gauss_filter. f0 = 0 divides by zero, also at frequency 0
    (NaN), see its callers. *)
Definition gauss_filter (dt : R) (nft : nat) (f0 : R) (waterlevel : option R) : list R :=
  map (fun f => let a := - (1 / 2) * (f / f0) ^ 2 in
                exp (match waterlevel with Some w => Rmax a w | None => a end))
      (fftfreq nft dt).
(** deconvolve.py:405-415 _phase_shift_filter *)
Definition phase_shift_filter (nft : nat) (dt tshift : R) : list cplx :=
  map (fun f => cis (- 2 * PI * f * tshift)) (fftfreq nft dt).
(** deconvolve.py:418-430 _apply_filter; fft raises for an empty filter *)
Definition apply_filter (x : list R) (filt : list cplx) : res (list R) :=
  match length filt with
  | O => Err ValueError
  | n => Ok (map fst (ifft (cprod (fft x n) filt) n))
  end.
