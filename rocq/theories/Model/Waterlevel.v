(** rf/deconvolve.py:170-245 deconv_waterlevel over the real numbers. Divisions by
    zero, which give infinities and NaN in numpy, are Err OtherError. *)
From Verif Require Export Model.Cplx Model.DeconvTime.

(** the argument normalize: None, 'src' or an index *)
Inductive wnorm : Type := NNone | NSrc | NIdx (i : nat).

(** result: the variable rf, rf_list, or rf_list and the dictionary info, of which
    the entries rf_src and norm are kept *)
Inductive wresult : Type :=
| WSingle (a : list cplx)
| WMany (l : list (list cplx))
| WInfo (l : list (list cplx)) (rf_src : list cplx) (norm : cplx).

(** np.max of a complex array: the lexicographic maximum, ValueError if empty *)
Definition cle (a b : cplx) : bool :=
  if Rlt_dec (fst a) (fst b) then true
  else if Req_EM_T (fst a) (fst b) then (if Rle_dec (snd a) (snd b) then true else false) else false.
(** the larger of two complex numbers, see cmax *)
Definition cmax2 (a b : cplx) : cplx := if cle a b then b else a.
(** max(rf_list[normalize]), max(rf_src), deconvolve.py:217, 227 *)
Definition cmax (l : list cplx) : res cplx :=
  match l with [] => Err ValueError | x :: xs => Ok (fold_left cmax2 xs x) end.
(** 1 / max(a) *)
Definition recip_max (a : list cplx) : res cplx :=
  let! m := cmax a in
  if Req_EM_T (Cnorm2 m) 0 then Err OtherError else Ok (Cinv m).
(** np.max of a real array of values >= 0 *)
Definition rmax (l : list R) : R := fold_right Rmax 0 l.

(** deconvolve.py:205-207: ffilt. gauss = 0: NaN *)
Definition wl_filter (nfft : nat) (dt tshift : R) (gauss : option R) : res (list cplx) :=
  let shift := phase_shift_filter nfft dt tshift in
  match gauss with
  | None => Ok shift
  | Some g => if Req_EM_T g 0 then Err OtherError
              else Ok (zipw Cscal (gauss_filter dt nfft g (Some (-700))) shift)
  end.
(** deconvolve.py:210-212: spec_src_water *)
Definition wl_water (spec_src : list cplx) (waterlevel : R) : list R :=
  let p := map Cnorm2 spec_src in
  map (fun x => Rmax x (rmax p * waterlevel)) p.
(** division by zero in deconvolve.py:215, 224 *)
Definition some_zero (l : list R) : bool :=
  existsb (fun x => if Req_EM_T x 0 then true else false) l.

(** a / w elementwise *)
Definition cdiv (a : list cplx) (w : list R) : list cplx := zipw (fun x y => Cscal (/ y) x) a w.

Section Waterlevel.
  (** scipy.fftpack.next_fast_len *)
  Variable next_fast_len : nat -> nat.

  (** deconvolve.py:224-225, one element of rf_list *)
  Definition wl_one (nfft n : nat) (ffilt conj_src : list cplx) (water : list R) (rsp : list R) : list cplx :=
    firstn n (ifft (cdiv (cprod (cprod ffilt (fft rsp nfft)) conj_src) water) nfft).
  (** deconvolve.py:215-216, 233-234: prepared source *)
  Definition wl_src (nfft n : nat) (ffilt spec_src conj_src : list cplx) (water : list R) : list cplx :=
    firstn n (ifft (cdiv (cprod (cprod ffilt spec_src) conj_src) water) nfft).

  (** deconvolve.py:199-245. Negative indices for normalize are not modelled. *)
  Definition deconv_waterlevel (rsp_list : arrays) (src : list R) (sampling_rate waterlevel : R)
      (gauss : option R) (tshift : R) (len : option nat) (normalize : wnorm)
      (nfft : option nat) (return_info : bool) : res wresult :=
    let! n := match len with Some n => Ok n | None => get_length rsp_list end in
    let nfft := match nfft with Some m => m | None => next_fast_len n end in
    if Req_EM_T sampling_rate 0 then Err ZeroDivisionError
    else
    let dt := 1 / sampling_rate in
    if (nfft =? 0)%nat then Err ZeroDivisionError              (* fftfreq *)
    else
    let! ffilt := wl_filter nfft dt tshift gauss in
    let spec_src := fft src nfft in
    let conj_src := map Cconj spec_src in
    let water := wl_water spec_src waterlevel in
    if some_zero water then Err OtherError
    else
    let rf_src := wl_src nfft n ffilt spec_src conj_src water in
    let rsps := match rsp_list with Single a => [a] | Many l => l end in
    let rf_list := map (wl_one nfft n ffilt conj_src water) rsps in
    let! norm := match normalize with
                 | NSrc => let! c := recip_max rf_src in Ok (Some c)
                 | NIdx i => match nth_error rf_list i with
                             | None => Err IndexError
                             | Some r => let! c := recip_max r in Ok (Some c)
                             end
                 | NNone => Ok None
                 end in
    let rf_list := match norm with Some c => map (map (Cmul c)) rf_list | None => rf_list end in
    if return_info then
      match normalize, norm with
      | NSrc, Some c => Ok (WInfo rf_list (map (Cmul c) rf_src) c)
      | NIdx _, _ => let! c := recip_max rf_src in
                     Ok (WInfo rf_list (map (Cmul c) rf_src) c)    (* norm is overwritten *)
      | _, _ => Err UnboundLocalError                           (* rf_src *)
      end
    else
    match rsp_list with
    | Many _ => Ok (WMany rf_list)
    | Single _ =>
        (* return rf: bound by the loop over rf_list only if normalize is not None *)
        match norm, rf_list with
        | Some _, [r] => Ok (WSingle r)
        | _, _ => Err UnboundLocalError
        end
    end.
End Waterlevel.
