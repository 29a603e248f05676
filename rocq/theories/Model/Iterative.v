(** rf/deconvolve.py:433-521 deconv_iterative over the real numbers. Divisions by zero,
    which give infinities and NaN in numpy, are Err OtherError. *)
From Verif Require Export Model.Cplx Model.DeconvTime.

(** int(x): towards zero *)
Definition trunc (x : R) : Z := if Rle_dec 0 x then Int_part x else (- Int_part (- x))%Z.
(** np.argmax(np.abs(a)): first index of the largest absolute value *)
Fixpoint argmax_from (l : list R) (i : nat) (best : nat) (b : R) : nat :=
  match l with
  | [] => best
  | x :: xs => if Rlt_dec b (Rabs x) then argmax_from xs (S i) i (Rabs x)
               else argmax_from xs (S i) best b
  end.
(** np.argmax(np.abs(rs)), deconvolve.py:497 *)
Definition argmax_abs (l : list R) : nat :=
  match l with [] => 0%nat | x :: xs => argmax_from xs 1 0 (Rabs x) end.
(** a[i] = v; a[lo:hi] = 0 *)
Fixpoint update (l : list R) (i : nat) (v : R) : list R :=
  match l, i with
  | [], _ => []
  | _ :: xs, O => v :: xs
  | x :: xs, S i' => x :: update xs i' v
  end.
(** rs[mute_min:mute_max] = 0, deconvolve.py:496 *)
Definition mute (l : list R) (lo hi : nat) : list R :=
  map (fun ix => if (lo <=? fst ix)%nat && (fst ix <? hi)%nat then 0 else snd ix)
      (combine (seq 0 (length l)) l).
(** np.sum(a ** 2) *)
Definition power (a : list R) : R := asum (map (fun x => x ^ 2) a).
(** a - b, deconvolve.py:502 *)
Definition vsub (a b : list R) : list R := zipw Rminus a b.

(** what stays fixed during the iteration for one response *)
Record iter_env : Type := mkEnv {
  i_nfft : nat; i_dt : R; i_sspec : list cplx; i_rflt : list R;
  i_powerS : R; i_powerR : R; i_lo : nat; i_hi : nat; i_minderr : R }.

(** deconvolve.py:494-496: correlation, scaled and muted *)
Definition iter_rs (e : iter_env) (rem : list R) : list R :=
  let n := i_nfft e in
  let rs := map fst (ifft (cprod (fft rem n) (map Cconj (i_sspec e))) n) in
  mute (map (fun x => x / i_powerS e / i_dt e) rs) (i_lo e) (i_hi e).
(** deconvolve.py:500: convolution with the source *)
Definition iter_pflt (e : iter_env) (p0 : list R) : list R :=
  let n := i_nfft e in
  map (fun z => fst z * i_dt e) (ifft (cprod (fft p0 n) (i_sspec e)) n).

(** deconvolve.py:493-508: the while loop; [left] = itmax - it. Result: p0, it, rms
    (only the recorded values). *)
Fixpoint iter_loop (e : iter_env) (left : nat) (p0 rem : list R) (sumsq_i d_error : R)
    (rms : list R) : res (list R * list R) :=
  match left with
  | O => Ok (p0, rms)
  | S left' =>
      if Rlt_dec (i_minderr e) (Rabs d_error) then
        if Req_EM_T (i_powerS e) 0 then Err OtherError
        else if Req_EM_T (i_powerR e) 0 then Err OtherError
        else
        let rs := iter_rs e rem in
        let i1 := argmax_abs rs in
        let p0 := update p0 i1 (nth i1 p0 0 + nth i1 rs 0) in
        let rem := vsub (i_rflt e) (iter_pflt e p0) in
        let sumsq := power rem / i_powerR e in
        iter_loop e left' p0 rem sumsq (100 * (sumsq_i - sumsq)) (rms ++ [sumsq])
      else Ok (p0, rms)
  end.

Section Iterative.
  Variable next_fast_len : nat -> nat.

  (** deconvolve.py:475-514, one response: receiver function, number of iterations,
      rms (np.zeros(itmax), filled from the left). gauss = None: TypeError,
      gauss = 0: NaN. *)
  Definition iter_one (src : list R) (sr tshift : R) (gauss : option R) (itmax : nat) (minderr : R)
      (mute_shift : bool) (r0 : list R) : res (list R * nat * list R) :=
    let dt := 1 / sr in
    let nfft := next_fast_len (2 * length r0) in
    if (nfft =? 0)%nat then Err ZeroDivisionError                     (* fftfreq *)
    else
    match gauss with
    | None => Err TypeError
    | Some g =>
        if Req_EM_T g 0 then Err OtherError
        else
        let gaussF := gauss_filter dt nfft g None in
        let! r_flt := apply_filter r0 (map RtoC gaussF) in
        let s_spec := zipw Cscal gaussF (fft src nfft) in
        let powerS := power (map fst (ifft s_spec nfft)) in
        let powerR := power r_flt in
        let hi := if mute_shift then nfft
                  else slice_bound nfft (Z.of_nat nfft - trunc (tshift * sr)) in
        let e := mkEnv nfft dt s_spec r_flt powerS powerR (Nat.min nfft (length r0)) hi minderr in
        let! (p0, rms) := iter_loop e itmax (zeros nfft) r_flt 1 (100 * powerR + minderr) [] in
        let! p_flt := apply_filter p0 (zipw Cscal gaussF (phase_shift_filter nfft dt tshift)) in
        Ok (firstn (length r0) p_flt, length rms, rms ++ zeros (itmax - length rms))
    end.

  (** deconvolve.py:469-521. A single array is iterated over: its elements have no len().
      Negative indices for normalize are not modelled. *)
  Definition deconv_iterative (rsp : arrays) (src : list R) (sr tshift : R) (gauss : option R)
      (itmax : nat) (minderr : R) (mute_shift : bool) (normalize : option nat)
    : res (list (list R) * list nat * list (list R)) :=
    if Req_EM_T sr 0 then Err ZeroDivisionError
    else
    let! rs := match rsp with
               | Many l => Ok l
               | Single [] => Ok []
               | Single (_ :: _) => Err TypeError
               end in
    let! out := mapM (iter_one src sr tshift gauss itmax minderr mute_shift) rs in
    let rfs := map (fun o => fst (fst o)) out in
    let! rfs := match normalize with Some i => normalise i rfs | None => Ok rfs end in
    Ok (rfs, map (fun o => snd (fst o)) out, map snd out).
End Iterative.
