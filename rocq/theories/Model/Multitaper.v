(** rf/deconvolve.py:524-683 deconv_multitaper over the real numbers. The Slepian tapers
    of the package multitaper are a parameter. Divisions which give infinities or NaN in
    numpy are Err OtherError; divisions of Python floats by zero are ZeroDivisionError. *)
From Verif Require Export Model.Waterlevel.
From Coq Require Export Qreals QArith.
Open Scope R_scope.

(** scipy.signal.detrend(x, type='constant') (library contract) *)
Definition detrend_constant (x : list R) : list R :=
  map (fun a => a - asum x / INR (length x)) x.
(** scipy.signal.detrend(x, type='linear'): x minus its least squares line. For a single
    sample the line is any line through it. *)
Definition centre (n i : nat) : R := INR i - (INR n - 1) / 2.
(** scipy.signal.detrend(type='linear') (library contract), deconvolve.py:588, 620, 645 *)
Definition detrend_linear (x : list R) : list R :=
  let n := length x in
  let mean := asum x / INR n in
  let slope := rsum n (fun i => centre n i * nth i x 0) / rsum n (fun i => centre n i * centre n i) in
  tabulate n (fun i => nth i x 0 - mean - slope * centre n i).
(** deconvolve.py:587-588, 619-620, 644-645 *)
Definition detrend2 (x : list R) : list R := detrend_linear (detrend_constant x).

(** int(q) of a float; round(q), halves to even *)
Definition int_of (q : Q) : Z := Z.quot (Qnum q) (Zpos (Qden q)).
(** int(round(x)), deconvolve.py:574 *)
Definition round_q (q : Q) : Z :=
  let d := Zpos (Qden q) in
  let f := (Qnum q / d)%Z in
  let r := (Qnum q mod d)%Z in
  if (2 * r <? d)%Z then f else if (d <? 2 * r)%Z then (f + 1)%Z
  else if Z.even f then f else (f + 1)%Z.

(** bit = np.zeros(nft); bit[js:js+ntap] = w: the slice is cut at the end of the array,
    other shapes than that of w are a ValueError, except that a single number fills
    the slice *)
Definition insert_window (nft js ntap : nat) (w : list R) : res (list R) :=
  let s := Nat.min js nft in
  let e := Nat.min (js + ntap) nft in
  if (length w =? e - s)%nat then Ok (zeros s ++ w ++ zeros (nft - e))
  else match w with
       | [x] => Ok (zeros s ++ repeat x (e - s) ++ zeros (nft - e))
       | _ => Err ValueError
       end.
(** deconvolve.py:600-603, 629-632, 652-655: bit. Simplification: arrays of length 1,
    which numpy broadcasts, are a ValueError like other lengths. *)
Definition windowed (nft js ntap : nat) (w x : list R) : res (list cplx) :=
  let! bit := insert_window nft js ntap w in
  if (length x =? nft)%nat then Ok (fft (zipw Rmult bit x) nft) else Err ValueError.

(** overlap factor ofac, and window j: js = int(j*ntap/ofac) *)
Definition window_start (ntap : nat) (ofac : Q) (j : nat) : nat :=
  Z.to_nat (int_of (inject_Z (Z.of_nat j * Z.of_nat ntap) / ofac)).
(** int(ofac*len/ntap) *)
Definition window_count (ntap : nat) (ofac : Q) (len : nat) : Z :=
  int_of (ofac * inject_Z (Z.of_nat len) / inject_Z (Z.of_nat ntap)).

(** deconvolve.py:596-604, 625-633, 648-656: the loops over windows and tapers. [skip]:
    windows are skipped unless je < nft *)
Definition estimate (skip : bool) (nft ntap : nat) (ofac : Q) (nwin : Z) (tap : list (list R)) (x : list R)
  : res (list (list cplx)) :=
  foldM (fun est j =>
           let js := window_start ntap ofac j in
           if skip && negb (js + ntap <? nft)%nat then Ok est
           else mapM (fun ew => let! b := windowed nft js ntap (snd ew) x in Ok (zipw Cadd (fst ew) b))
                     (combine est tap))
        (seq 0 (Z.to_nat nwin)) (map (fun _ => repeat Czero nft) tap).

(** nwav/float(nwin*nft) *)
Definition float_fac (num : nat) (nwin : Z) (nft : nat) : res R :=
  if (nwin * Z.of_nat nft =? 0)%Z then Err ZeroDivisionError
  else Ok (INR num / IZR (nwin * Z.of_nat nft)).

(** x_pad = np.zeros(nft); x_pad[:len(x)] = x. Simplification: x of length 1 and nft = 0
    not special. *)
Definition pad_to (nft : nat) (x : list R) : res (list R) :=
  if (length x <=? nft)%nat then Ok (x ++ zeros (nft - length x)) else Err ValueError.

(** deconvolve.py:577-580: signs of the tapers for K >= 2, K >= 3 *)
Definition flip_signs (tap : list (list R)) : list (list R) :=
  match tap with
  | a :: b :: c :: r => a :: map Ropp b :: map Ropp c :: r
  | [a; b] => [a; map Ropp b]
  | _ => tap
  end.

(** deconvolve.py:639-641 s0 *)
Definition noise_power (nft : nat) (nfft : list (list cplx)) (el : list R) : list R :=
  fold_left (fun s0 ne => zipw Rplus s0 (map (fun z => Cnorm2 z / snd ne) (fst ne))) (combine nfft el) (zeros nft).
(** deconvolve.py:662-666 num, denom *)
Definition cross_sum (nft : nat) (a b : list (list cplx)) : list cplx :=
  fold_left (fun acc ab => zipw Cadd acc (zipw (fun x y => Cmul x (Cconj y)) (fst ab) (snd ab)))
            (combine a b) (repeat Czero nft).

(** deconvolve.py:611-676: one component *)
Definition mt_component (nft ntap : nat) (dt tshift : R) (ofac : Q) (gauss : option R) (tap : list (list R)) (el : list R)
    (nwav : nat) (sfft : list (list cplx)) (dat nos : list R) : res (list R) :=
  let nos := detrend2 nos in
  let! nos_pad := pad_to nft nos in
  let nwin := window_count ntap ofac (length nos) in
  let! nfft := estimate true nft ntap ofac nwin tap nos_pad in
  let! fac := float_fac nwav nwin nft in
  let nfft := map (map (Cscal fac)) nfft in
  if some_zero el then Err OtherError
  else
  let s0 := noise_power nft nfft el in
  let dat := detrend2 dat in
  let nwin := (window_count ntap ofac nft - 1)%Z in
  let! dfft := estimate true nft ntap ofac nwin tap dat in
  let! fac := float_fac nft nwin nft in
  let dfft := map (map (Cscal fac)) dfft in
  let num := cross_sum nft sfft dfft in
  let denom := cross_sum nft sfft sfft in
  (* denom is real *)
  let total := zipw (fun z s => fst z + s) denom s0 in
  if some_zero total then Err OtherError
  else
  let recF := cdiv num total in
  let! recF := match gauss with
               | None => Ok recF
               | Some g => if Req_EM_T g 0 then Err OtherError
                           else Ok (zipw Cscal (gauss_filter dt nft g None) recF)
               end in
  let recF := cprod recF (phase_shift_filter nft dt (tshift - dt)) in
  Ok (rev (map fst (ifft recF nft))).

(** deconvolve.py:678-681. An index out of range is an IndexError; negative indices are
    not modelled. *)
Definition mt_normalize (normalize : option nat) (out : list (list R)) : res (list (list R)) :=
  match normalize with
  | None => Ok out
  | Some i =>
      match nth_error out i with
      | None => Err IndexError
      | Some a => if Req_EM_T (max_abs a) 0 then Err OtherError
                  else Ok (map (scale (1 / max_abs a)) out)
      end
  end.

Section Multitaper.
  (** mt.MTSpec(np.arange(ntap), nw=tband, kspec=K): the rows of vn.T and lamb *)
  Variable slepians : nat -> Q -> nat -> list (list R) * list R.

  (** deconvolve.py:566-683. Not modelled: the package is not installed (ImportError),
      the warning for K > 3. *)
  Definition deconv_multitaper (rsp : list (list R)) (src : list R) (nse : list (list R)) (sampling_rate : Q) (tshift : R)
      (gauss : option R) (K : nat) (tband T olap : Q) (normalize : option nat) : res (list (list R)) :=
    match rsp, nse with
    | [], _ => Err IndexError
    | r0 :: _, _ =>
      if negb (length src <? length r0)%nat then Err AssertionError
      else match nse with
      | [] => Err IndexError
      | n0 :: _ =>
        if negb (length n0 <=? length r0)%nat then Err AssertionError
        else
        let nft := length r0 in
        if Qeq_bool sampling_rate 0 then Err ZeroDivisionError
        else
        let dt := 1 / Q2R sampling_rate in
        let zntap := round_q (T * sampling_rate) in
        if (zntap <=? 0)%Z then Err OtherError             (* no tapers of this length *)
        else
        let ntap := Z.to_nat zntap in
        let tap := flip_signs (fst (slepians ntap tband K)) in
        let el := snd (slepians ntap tband K) in
        if Qeq_bool olap 1 then Err ZeroDivisionError
        else
        let ofac := (1 / (1 - olap))%Q in
        let src := detrend2 src in
        let nwav := length src in
        let nwin := window_count ntap ofac nwav in
        let! src_pad := pad_to nft src in
        let! sfft := estimate false nft ntap ofac nwin tap src_pad in
        let! fac := float_fac nwav nwin nft in
        let sfft := map (map (Cscal fac)) sfft in
        let! out := mapM (fun c =>
                      match nth_error nse c with
                      | None => Err IndexError
                      | Some nos => mt_component nft ntap dt tshift ofac gauss tap el nwav sfft (nth c rsp []) nos
                      end) (seq 0 (length rsp)) in
        mt_normalize normalize out
      end
    end.
End Multitaper.
