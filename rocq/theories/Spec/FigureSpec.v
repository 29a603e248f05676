(** What a user may expect of the commands plot and plot-profile. *)
From Verif Require Import Model.Figures Spec.BatchSpec.

(** set() *)
Definition sets (channel_set : list trace -> list string) : Prop :=
  forall s, NoDup (channel_set s) /\ forall c, In c (channel_set s) <-> exists t, In t s /\ channel (st t) = c.
(** channel codes in upper case, without wildcards and dots *)
Definition channel_ok (c : string) : Prop := code c /\ upper c = c.
(** all traces belong to this station *)
Definition station_stream (p : spair) (s : list trace) : Prop :=
  code (p_net p) /\ code (p_sta p) /\ code (p_loc p) /\
  Forall (fun t => network (st t) = p_net p /\ station (st t) = p_sta p /\ location (st t) = p_loc p /\ channel_ok (channel (st t))) s.
Definition of_channel (c : string) (s : list trace) : list trace := filter (fun t => String.eqb (channel (st t)) c) s.
(** sorted by back azimuth *)
Definition baz (t : trace) : option Q := match dget (extra (st t)) "back_azimuth" with Some (VNum q) => Some q | _ => None end.
Definition by_azimuth (l : list trace) : Prop :=
  StronglySorted (fun t u => exists a b, baz t = Some a /\ baz u = Some b /\ (a <= b)%Q) l.
Definition figure_name (root : string) (p : spair) (c : string) : string :=
  (root ++ "/" ++ p_net p ++ "." ++ p_sta p ++ "." ++ p_loc p ++ "." ++ c ++ ".pdf")%string.
