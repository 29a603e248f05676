(** Vocabulary for deconvolve() together with a deconvolution function: contracts of
    tapering and of floating point computations, isolated sources. *)
From Verif Require Import Model.Deconv Model.Waterlevel Model.Iterative Spec.TimeSpec.
Open Scope R_scope.

(** obspy Trace.taper(max_percentage=None, max_length=w), w in ns: samples are multiplied
    by numbers, samples at least w away from both ends by 1 *)
Definition tapers (taper : Z -> trace -> trace) : Prop := forall w t,
  st (taper w t) = st t /\ length (data (taper w t)) = length (data t) /\
  forall i, (i < length (data t))%nat ->
    ((nth i (data t) 0 == 0)%Q -> (nth i (data (taper w t)) 0 == 0)%Q) /\
    ((w <= Z.of_nat i * delta (st t))%Z -> (w <= (Z.of_nat (length (data t)) - 1 - Z.of_nat i) * delta (st t))%Z ->
     (nth i (data (taper w t)) 0 == nth i (data t) 0)%Q).

(** the numbers [ds] are those of [out] up to eps *)
Definition up_to (eps : R) (ds : list (list Q)) (out : list (list R)) : Prop :=
  Forall2 (Forall2 (fun d x => Rabs (Q2R d - x) <= eps)) ds out.
Definition reals (l : list (list Q)) : list (list R) := map (map Q2R) l.
(** seconds *)
Definition in_sec (ns : Z) : R := IZR ns / 1000000000.
(** sampling rate of a trace with sampling interval d ns *)
Definition rate_of (d : Z) : R := 1000000000 / IZR d.

(** [kernel] computes the results of spectral division up to eps *)
Definition computes_waterlevel (eps : R) (nfl : nat -> nat) (wl : R) (gauss : option R) (rate : R)
    (kernel : kcall -> res (list (list Q) * list Z)) : Prop :=
  forall c ds its i out, k_method c = "waterlevel" -> k_norm c = Some (Some i) -> kernel c = Ok (ds, its) ->
    deconv_waterlevel nfl (Many (reals (k_rsp c))) (map Q2R (k_src c)) rate wl gauss (in_sec (k_tshift c)) None (NIdx i) None false = Ok (WMany out) ->
    up_to eps ds (map (map fst) out).
(** [kernel] computes the results of iterative deconvolution up to eps *)
Definition computes_iterative (eps : R) (nfl : nat -> nat) (g : R) (itmax : nat) (minderr : R) (ms : bool) (rate : R)
    (kernel : kcall -> res (list (list Q) * list Z)) : Prop :=
  forall c ds its i out its' rms, k_method c = "iterative" -> k_norm c = Some (Some i) -> kernel c = Ok (ds, its) ->
    deconv_iterative nfl (Many (reals (k_rsp c))) (map Q2R (k_src c)) rate (in_sec (k_tshift c)) (Some g) itmax minderr ms (Some i) = Ok (out, its', rms) ->
    up_to eps ds out.

(** all samples of t outside of lo ... hi are zero, and some sample is not *)
Definition isolated (t : trace) (lo hi : Z) : Prop :=
  (forall i, (i < length (data t))%nat -> ~ (nth i (data t) 0 == 0)%Q -> (lo <= sample_time t i <= hi)%Z) /\
  exists i, (i < length (data t))%nat /\ ~ (nth i (data t) 0 == 0)%Q.
(** t' is 1 (up to eps) at the time o, and nowhere larger *)
Definition unit_peak (eps : R) (t t' : trace) (o : Z) : Prop :=
  length (data t') = length (data t) /\
  (exists k, (k < length (data t))%nat /\ o = sample_time t k /\ Rabs (Q2R (nth k (data t') 0%Q) - 1) <= eps) /\
  forall q, In q (data t') -> Rabs (Q2R q) <= 1 + eps.
