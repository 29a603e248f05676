(** What a user may expect of the command stack. *)
From Verif Require Import Model.Figures Spec.BatchSpec Spec.FigureSpec Spec.MeanSpec Spec.TraceSpec.

(** set() *)
Definition id_sets (id_set : list trace -> list string) : Prop := forall s, set_order (id_set s) s.
(** the traces of a channel have the same number of samples *)
Definition stackable (s : list trace) : Prop :=
  s <> [] /\ Forall onset_is_time s /\
  forall t u, In t s -> In u s -> channel (st t) = channel (st u) -> List.length (data t) = List.length (data u).
(** [t] is the stack of a channel of a station *)
Definition stack_of (p : spair) (c : string) (s : list trace) (t : trace) : Prop :=
  network (st t) = p_net p /\ station (st t) = p_sta p /\ location (st t) = p_loc p /\ channel (st t) = c /\
  is_mean (map data (of_channel c s)) (data t).
Definition stack_file (fmt root : string) (p : spair) (c : string) : string :=
  if String.eqb fmt "Q" then (root ++ "/" ++ p_net p ++ "." ++ p_sta p ++ "." ++ p_loc p ++ ".QHD")%string
  else if String.eqb fmt "SAC" then (root ++ "/" ++ p_net p ++ "." ++ p_sta p ++ "." ++ p_loc p ++ "." ++ c ++ ".SAC")%string
  else (root ++ ".h5")%string.
(** the file contains this trace *)
Definition holds (fs : files) (n : string) (t : trace) : Prop := exists f k, dget fs n = Some f /\ In (k, t) f.
