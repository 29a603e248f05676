(** Sample indices in floating point arithmetic: rf/simple_model.py:161-187 (index0),
    rf/deconvolve.py:126-127 (shift) and rf/deconvolve.py:492. The other models compute
    these indices exactly. *)
From Verif Require Export Model.SimpleModel.
From Flocq Require Import Core.
Local Open Scope R_scope.

(** simple_model.py:166, deconvolve.py:127, 492: the double nearest to a real number, ties to
    even (IEEE 754, numpy and Python floats). Simplification: no overflow, no NaN. *)
Definition rnd (x : R) : R := round radix2 (FLT_exp (-1074) 53) ZnearestE x.
(** simple_model.py:166, difference of two UTCDateTime given in ns (ObsPy):
    round((a.ns - b.ns) / 1e9, 6) *)
Definition f_secs (ns : Z) : R :=
  rnd (IZR (ZnearestE (rnd (rnd (IZR ns) / 1000000000) * 1000000)) / 1000000).
(** simple_model.py:166: int(floor((st.onset - st.starttime) * st.sampling_rate)) *)
Definition f_index (start onset : Z) (rate : R) : Z := Zfloor (rnd (f_secs (onset - start) * rate)).
(** deconvolve.py:492: int(tshift * sampling_rate) *)
Definition f_trunc (tshift rate : R) : Z := Ztrunc (rnd (tshift * rate)).
(** deconvolve.py:127: int(round(tshift * sr - len(src) // 2)) *)
Definition f_shift (tshift sr : R) (n : nat) : Z := ZnearestE (rnd (rnd (tshift * sr) - IZR (Z.of_nat (n / 2)))).

(** simple_model.py:161-187, one trace, [moveout_trace] with the index of floating point
    arithmetic; [rate] is tr.stats.sampling_rate *)
Definition moveout_trace_float (deg2km : R) (m : smodel) (phase : string) (ref rate : R) (t : mtrace)
  : smodel * res mtrace :=
  if negb ((x_start t <=? x_onset t)%Z && (x_onset t <=? x_end t)%Z) then (m, Err ValueError)
  else
  let index0 := Z.to_nat (f_index (x_start t) (x_onset t) rate) in
  match stretch_delay_times deg2km m (x_slow t) phase ref with
  | (m, Err e) => (m, Err e)
  | (m, Ok (t0, t1)) =>
      (m, match finite t0, finite t1 with
          | Some t0, Some t1 =>
              let! d := (if s_multiple phase then move_backward else move_forward) t index0 t0 t1 in
              Ok (with_data t d)
          | _, _ => Err OtherError
          end)
  end.
