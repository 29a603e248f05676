(** Vocabulary for multitaper deconvolution. *)
From Verif Require Import Model.RealArr.
From Coq Require Import QArith Qreals.
Open Scope R_scope.

(** a * x + b * y, sample by sample *)
Definition lincomb (a : R) (x : list R) (b : R) (y : list R) : list R :=
  map (fun p => a * fst p + b * snd p) (combine x y).
(** x with offset a and linear trend b added: sample i gets a + b * i *)
Definition add_trend (a b : R) (x : list R) : list R :=
  map (fun p => snd p + (a + b * INR (fst p))) (combine (seq 0 (length x)) x).
(** offset and trend for each of several arrays *)
Definition add_trends (ab : nat -> R * R) (l : list (list R)) : list (list R) :=
  map (fun c => add_trend (fst (ab c)) (snd (ab c)) (nth c l [])) (seq 0 (length l)).
(** no offset and no linear trend *)
Definition trendless (x : list R) : Prop :=
  rsum (length x) (fun i => nth i x 0) = 0 /\ rsum (length x) (fun i => INR i * nth i x 0) = 0.
(** tapers as delivered by a multitaper package: K tapers with n samples each and K
    positive eigenvalues *)
Definition proper_tapers (slepians : nat -> Q -> nat -> list (list R) * list R) : Prop :=
  forall n b K, length (fst (slepians n b K)) = K /\ Forall (fun w => length w = n) (fst (slepians n b K)) /\
                length (snd (slepians n b K)) = K /\ Forall (fun e => 0 < e) (snd (slepians n b K)).
(** n samples are the number of samples of tapers of T seconds (rounded) *)
Definition taper_samples (T rate : Q) (n : nat) : Prop :=
  (0 < n)%nat /\ (Qabs.Qabs (T * rate - inject_Z (Z.of_nat n)) < 1 # 2)%Q.
(** the largest absolute value of a is m, taken at some sample *)
Definition peak_abs (a : list R) (m : R) : Prop :=
  (forall i, (i < length a)%nat -> Rabs (nth i a 0) <= m) /\ exists i, (i < length a)%nat /\ Rabs (nth i a 0) = m.
