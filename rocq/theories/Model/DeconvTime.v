(** rf/deconvolve.py:164-167, 248-382: correlation helpers and deconv_time over the
    real numbers. The Toeplitz solver is a parameter. *)
From Verif Require Export Model.RealArr.

(** scipy.signal.correlate(a, b, 'valid') for len(b) <= len(a) (library contract);
    the other case, in which scipy swaps the arguments, does not occur here and is
    not modelled. *)
Definition correlate_valid (a b : list R) : res (list R) :=
  if (length b <=? length a)%nat
  then Ok (map (fun k => dot (skipn k a) b) (seq 0 (length a - length b + 1)))
  else Err OtherError.

(** deconvolve.py:253-264 _acorrt; np.zeros(num - 1) raises ValueError for num = 0 *)
Definition acorrt (a : list R) (num : nat) : res (list R) :=
  match num with
  | O => Err ValueError
  | S n => correlate_valid (add_zeros a 0 n) a
  end.

(** deconvolve.py:267-288 _xcorrt *)
Definition xcorrt (a b : list R) (num : nat) (zero_sample : Z) : res (list R) :=
  let z := Z.abs_nat zero_sample in
  let a := if (0 <? zero_sample)%Z then add_zeros a (2 * z) 0
           else if (zero_sample <? 0)%Z then add_zeros a 0 (2 * z)
           else a in
  let dif := (Z.of_nat (length a) - Z.of_nat (length b) + 1 - Z.of_nat num)%Z in
  if (0 <? dif)%Z
  then correlate_valid a (add_zeros b (Z.to_nat ((dif + 1) / 2)) (Z.to_nat (dif / 2)))
  else correlate_valid (add_zeros a (Z.to_nat ((- dif + 1) / 2)) (Z.to_nat (- dif / 2))) b.

(** rsp_list: a single array or a list of arrays; also the shape of the result *)
Inductive arrays : Type := Single (a : list R) | Many (l : list (list R)).
(** deconvolve.py:164-167 *)
Definition get_length (rsp : arrays) : res nat :=
  match rsp with
  | Single a => Ok (length a)
  | Many (a :: _) => Ok (length a)
  | Many [] => Err IndexError
  end.

(** normalisation, deconvolve.py:375-378 and 516-519: one common factor.
    A zero array gives infinities/NaN in numpy, Err OtherError here. *)
Definition normalise (i : nat) (rfs : list (list R)) : res (list (list R)) :=
  match nth_error rfs i with
  | None => Err IndexError
  | Some r => if Req_EM_T (max_abs r) 0 then Err OtherError
              else Ok (map (scale (/ max_abs r)) rfs)
  end.

(** deconvolve.py:364-366: first row of the matrix. A zero source gives NaN in
    numpy, Err OtherError here. *)
Definition toeplitz_row (src : list R) (len : nat) (spiking : R) : res (list R) :=
  let! ac := acorrt src len in
  match ac with
  | [] => Err IndexError
  | c0 :: _ => if Req_EM_T c0 0 then Err OtherError
               else match map (fun x => x / c0) ac with
                    | [] => Err IndexError
                    | x :: xs => Ok (x + spiking :: xs)
                    end
  end.

Section Time.
  Variable solve : list R -> list R -> list R.

  (** deconvolve.py:371-373, one response *)
  Definition rf_one (src : list R) (len : nat) (shift : Z) (sts rsp : list R) : res (list R) :=
    let! str := xcorrt rsp src len shift in
    if (length str =? length sts)%nat then Ok (solve sts str) else Err AssertionError.

  (** deconvolve.py:293, 360-382 deconv_time *)
  Definition deconv_time (rsp_list : arrays) (src : list R) (shift : Z) (spiking : R)
      (len : option nat) (norm : option nat) : res arrays :=
    let! n := match len with Some n => Ok n | None => get_length rsp_list end in
    let! sts := toeplitz_row src n spiking in
    let rsps := match rsp_list with Single a => [a] | Many l => l end in
    let! rfs := mapM (rf_one src n shift sts) rsps in
    let! out := match norm with Some i => normalise i rfs | None => Ok rfs end in
    match rsp_list, out with
    | Single _, [r] => Ok (Single r)
    | Single _, _ => Err UnboundLocalError
    | Many _, _ => Ok (Many out)
    end.
End Time.
