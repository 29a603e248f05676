(** What a user may expect of several calls of the program: C131-C133. *)
From Verif Require Import Model.Dispatch Spec.BatchSpec Spec.ConfigSpec Spec.CliSpec Spec.DispatchSpec.

(** options for the iteration over events and stations: those of the configuration, and the phase
    if it is given *)
Definition data_options (loads : string -> res json) (v : string -> option json) (w : json) : Prop :=
  exists o, is_value loads (v "options") (JObj []) o /\ (not_set (v "phase") -> w = o) /\ (forall p, set_to (v "phase") p -> with_entry o w "phase" p).
(** keys of HDF5 files tell traces of different events, stations and channels apart *)
Definition keys_differ (year : Z -> Prop) (h5key : trace -> string) : Prop :=
  forall p q t u, proper year p -> proper year q -> trace_of p t -> trace_of q u ->
    three_letters (channel (st t)) -> three_letters (channel (st u)) -> h5key t = h5key u -> same_pair p q /\ channel (st t) = channel (st u).
(** streams of different events or stations *)
Definition different (items : list (spair * list trace)) : Prop := ForallOrdPairs (fun a b => ~ same_pair (fst a) (fst b)) items.
(** the stream of the same event and station after the commands *)
Definition after_commands (f : string -> list trace -> res (list trace)) (cmds : list string) (x r : spair * list trace) : Prop :=
  fst r = fst x /\ apply_all f cmds (snd x) (snd r).
(** the same if the stream has been written and read in between *)
Definition reread (f : string -> list trace -> res (list trace)) (load : list trace -> res (list trace)) (cmds : list string) (x r : spair * list trace) : Prop :=
  fst r = fst x /\ exists l s, Permutation l (snd x) /\ load l = Ok s /\ apply_all f cmds s (snd r).
(** the commands of a second call follow on those of a first one; in between the traces are written and
    read ([rd]), their order may change *)
Definition after_both (rd : trace -> trace) (f g : string -> list trace -> res (list trace)) (cmds1 cmds2 : list string) (x r : spair * list trace) : Prop :=
  fst r = fst x /\ exists s l, apply_all f cmds1 (snd x) s /\ Permutation l s /\ apply_all g cmds2 (map rd l) (snd r).
