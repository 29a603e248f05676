(** Times in files: rf/rfstream.py:50-57, 83-98, 532-610 with obspy.io.sac, obspy.io.sh and obspyh5.
    Headers.v keeps all values; here times are rounded as in files. *)
From Verif Require Export Model.FloatIndex Model.Batch.
From Flocq Require Import Core.
Local Open Scope R_scope.

(** rfstream.py:568-610: header fields of SAC files are numpy.float32, ties to even.
    Simplification: no overflow, no NaN. *)
Definition f32 (x : R) : R := round radix2 (FLT_exp (-149) 24) ZnearestE x.
(** rfstream.py:573-576, obspy_to_sac_header (contract): the reference time is the start time cut to
    milliseconds *)
Definition sac_ref (start : Z) : Z := (start / 1000000 * 1000000)%Z.
(** rfstream.py:55-57 __UTC2SAC: t - reference time, stored in a header field *)
Definition sac_field (ref t : Z) : R := f32 (f_secs (t - ref)).
(** rfstream.py:50-52 __SAC2UTC: reference time + field. ObsPy adds int(round(field * 1e9)) to the
    nanoseconds. [prod] rounds the product: to float32 for numpy 2, to double for numpy 1. *)
Definition sac_utc (prod : R -> R) (ref : Z) (x : R) : Z := (ref + ZnearestE (prod (x * 1000000000)%R))%Z.
(** rfstream.py:50-57: a time after writing and reading a SAC file *)
Definition sac_time (prod : R -> R) (ref t : Z) : Z := sac_utc prod ref (sac_field ref t).
(** rfstream.py:89-93: times in the header of Q files, day-month-year_h:m:s with three decimals, cut
    (contract) *)
Definition q_time (t : Z) : Z := (t / 1000000 * 1000000)%Z.
(** rfstream.py:71-72, 101-107, obspyh5 (contract): str(UTCDateTime) has six decimals, cut *)
Definition h5_time (t : Z) : Z := (t / 1000 * 1000)%Z.

(** rfstream.py:97-98: the times of _HEADER_CONVERSIONS are replaced *)
Definition with_times (f : Z -> Z) (t : trace) : trace :=
  mkTrace (mkStats (network (st t)) (station (st t)) (location (st t)) (channel (st t)) (starttime (st t)) (delta (st t))
             (map (fun kv => match snd kv with
                             | VTime z => if String.eqb (fst kv) "onset" || String.eqb (fst kv) "event_time"
                                          then (fst kv, VTime (f z)) else kv
                             | _ => kv
                             end) (extra (st t)))) (data t).
(** rfstream.py:532-566: a trace as it is read; [ref t] is the reference time in its SAC header.
    Simplification: only the two times change; other numbers are rounded, too (see f32), the start
    time of SAC files to microseconds, of Q files to milliseconds. *)
Definition read_trace (prod : R -> R) (ref : trace -> Z) (format : string) (t : trace) : trace :=
  if String.eqb format "SAC" then with_times (sac_time prod (ref t)) t
  else if String.eqb format "Q" then with_times q_time t
  else with_times h5_time t.
(** rfstream.py:110-121, 161-167 read_rf for files with these traces *)
Definition read_file (prod : R -> R) (ref : trace -> Z) (format : string) (l : list trace) : res (list trace) :=
  Ok (map (read_trace prod ref format) l).
