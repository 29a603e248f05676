(** Traces and streams as used by rf (obspy.Trace / obspy.Stats, restricted to
    what rf reads and writes). *)
From Verif Require Export Model.Py.

(** Values of stats entries. Numbers are exact rationals (floats in Python),
    times are integer nanoseconds as in obspy's UTCDateTime. *)
Inductive value : Type :=
| VStr (s : string)
| VNum (q : Q)
| VTime (t : Z)
| VStrs (l : list string)   (* the processing list *)
| VNone.

(** equality of header values (Python) *)
Definition value_eqb (a b : value) : bool :=
  match a, b with
  | VStr s, VStr t => String.eqb s t
  | VNum p, VNum q => Qeq_bool p q
  | VTime s, VTime t => Z.eqb s t
  | VStrs l, VStrs m => if list_eq_dec string_dec l m then true else false
  | VNone, VNone => true
  | _, _ => false
  end.

(** obspy.Stats: the entries every Stats object has as fields, all other
    entries (onset, phase, type, slowness, ...) in [extra].
    Simplification: the sampling interval is an integer number of ns. *)
Record stats : Type := mkStats {
  network : string; station : string; location : string; channel : string;
  starttime : Z;
  delta : Z;
  extra : dict value }.

(** a trace: stats and data (library obspy) *)
Record trace : Type := mkTrace { st : stats; data : list Q }.

(** tr.stats.npts (library) *)
Definition npts (t : trace) : Z := Z.of_nat (List.length (data t)).
(** obspy: endtime = starttime + (npts-1)*delta (starttime if there is no data) *)
Definition endtime (t : trace) : Z :=
  if (npts t =? 0)%Z then starttime (st t)
  else (starttime (st t) + (npts t - 1) * delta (st t))%Z.
(** obspy Trace.id *)
Definition stats_id (s : stats) : string :=
  (network s ++ "." ++ station s ++ "." ++ location s ++ "." ++ channel s)%string.
(** tr.id (library), rfstream.py:412 *)
Definition tr_id (t : trace) : string := stats_id (st t).

(** [tr.stats[key]]; None = KeyError *)
Definition tr_get (t : trace) (k : string) : option value :=
  if String.eqb k "network" then Some (VStr (network (st t)))
  else if String.eqb k "station" then Some (VStr (station (st t)))
  else if String.eqb k "location" then Some (VStr (location (st t)))
  else if String.eqb k "channel" then Some (VStr (channel (st t)))
  else if String.eqb k "starttime" then Some (VTime (starttime (st t)))
  else if String.eqb k "endtime" then Some (VTime (endtime t))
  else if String.eqb k "npts" then Some (VNum (inject_Z (npts t)))
  else dget (extra (st t)) k.

(** tr.stats[k] = v *)
Definition set_extra (t : trace) (k : string) (v : value) : trace :=
  mkTrace (mkStats (network (st t)) (station (st t)) (location (st t))
                   (channel (st t)) (starttime (st t)) (delta (st t))
                   (dset (extra (st t)) k v)) (data t).
(** tr.data = d *)
Definition set_data (t : trace) (d : list Q) : trace := mkTrace (st t) d.
(** tr.stats.starttime = z *)
Definition set_starttime (t : trace) (z : Z) : trace :=
  mkTrace (mkStats (network (st t)) (station (st t)) (location (st t))
                   (channel (st t)) z (delta (st t)) (extra (st t))) (data t).

(** component letter tr.stats.channel[-1] *)
Definition comp (t : trace) : option ascii := last_char (channel (st t)).

(** ** Heap of traces: streams share Trace objects by reference *)
Definition loc := nat.
(** trace objects by identity *)
Definition heap := loc -> trace.
(** change of one trace object *)
Definition hset (h : heap) (l : loc) (t : trace) : heap :=
  fun l' => if Nat.eqb l' l then t else h l'.
