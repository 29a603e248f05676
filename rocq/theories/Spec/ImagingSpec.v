(** Specification of plots, independent of the code. *)
From Verif Require Import Model.Trace.
From Coq Require Import Qabs.

(** All traces of the stream have the text x in the pattern f. *)
Definition common (f : trace -> string) (s : list trace) (x : string) : Prop :=
  s <> [] /\ forall t, In t s -> f t = x.
(** The three patterns: full id, id with the component replaced, station. *)
Definition full_id (t : trace) : string :=
  (network (st t) ++ "." ++ station (st t) ++ "." ++ location (st t) ++ "." ++ channel (st t))%string.
Definition band_id (t : trace) : string :=
  (network (st t) ++ "." ++ station (st t) ++ "." ++ location (st t) ++ "." ++
   substring 0 2 (channel (st t)) ++ "?")%string.
Definition station_id (t : trace) : string := (network (st t) ++ "." ++ station (st t))%string.

(** m is the largest absolute value in d *)
Definition is_peak (d : list Q) (m : Q) : Prop :=
  (forall x, In x d -> Qabs x <= m)%Q /\ exists x, In x d /\ (Qabs x == m)%Q.

(** all drawn amplitudes are numbers of absolute value at most b *)
Definition drawn_within (b : Q) (l : list (option Q)) : Prop :=
  forall o, In o l -> exists x, o = Some x /\ (Qabs x <= b)%Q.

(** Time of sample i relative to the onset, ns *)
Definition sample_time (t : trace) (o : Z) (i : nat) : Z := (starttime (st t) + Z.of_nat i * delta (st t) - o)%Z.
Definition has_onset (t : trace) (o : Z) : Prop := dget (extra (st t)) "onset" = Some (VTime o).
