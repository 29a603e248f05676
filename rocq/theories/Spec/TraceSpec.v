(** Vocabulary on traces used in theorem statements. *)
From Verif Require Import Model.Trace.
(** no code of the trace contains a dot *)
Definition no_dots (t : trace) : Prop :=
  char_in "." (network (st t)) = false /\ char_in "." (station (st t)) = false /\
  char_in "." (location (st t)) = false /\ char_in "." (channel (st t)) = false.
(** the onset, if there is one, is a time *)
Definition onset_is_time (t : trace) : Prop :=
  forall v, dget (extra (st t)) "onset" = Some v -> exists o, v = VTime o.
(** [ids] lists the set of the ids of the stream, in any order *)
Definition set_order (ids : list string) (s : list trace) : Prop :=
  NoDup ids /\ forall i, In i ids <-> In i (map tr_id s).
