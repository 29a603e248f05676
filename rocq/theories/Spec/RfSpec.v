(** Vocabulary for RFStream.rf. *)
From Verif Require Import Model.Rf Spec.TimeSpec Spec.IterSpec.

Definition onset_of (t : trace) (o : Z) : Prop := dget (extra (st t)) "onset" = Some (VTime o).
(** the common part of every step of rf: which trace it is and its time axis *)
Definition same_frame (a b : trace) : Prop :=
  network (st a) = network (st b) /\ station (st a) = station (st b) /\ location (st a) = location (st b) /\
  channel (st a) = channel (st b) /\ starttime (st a) = starttime (st b) /\ delta (st a) = delta (st b).
(** entries other than the listed ones agree *)
Definition same_entries_but (ks : list string) (a b : trace) : Prop :=
  forall k, ~ In k ks -> dget (extra (st a)) k = dget (extra (st b)) k.

(** [t'] is [t] mirrored about its onset: the sample at distance x from the onset is
    moved to distance -x. *)
Definition mirrored (t t' : trace) : Prop :=
  exists o o', onset_of t o /\ onset_of t' o' /\
    List.length (data t') = List.length (data t) /\
    forall i x, nth_error (data t) i = Some x ->
      exists j, nth_error (data t') j = Some x /\
        (sample_time t' j - o' = - (sample_time t i - o))%Z.

(** all samples change sign *)
Definition opposite (t t' : trace) : Prop := 
  st t' = st t /\ Forall2 (fun x y => (y == - x)%Q) (data t) (data t').

(** [g] consists of the traces of the stream [ls] of the same group as [x] *)
Definition class_of (str_of : value -> string) (key : option string) (h : heap) (ls : list loc) (x : loc) (g : list loc) : Prop :=
  exists p : loc -> bool,
    (forall y, p y = true <-> same_group str_of key (h x) (h y)) /\ g = filter p ls.
(** the groups of 2 or 3 traces with common id prefix and onset, in key order *)
Definition groups_2_3 (str_of : value -> string) (h : heap) (ls : list loc) (gs : list (list loc)) : Prop :=
  (forall g, In g gs -> (List.length g = 2 \/ List.length g = 3) /\
      exists x, In x g /\ class_of str_of (Some "onset") h ls x g) /\
  (forall x g, In x ls -> class_of str_of (Some "onset") h ls x g ->
      List.length g = 2 \/ List.length g = 3 -> In g gs) /\
  StronglySorted (fun g g' => forall x y, In x g -> In y g' -> group_before str_of (Some "onset") (h x) (h y)) gs.
(** [f] was applied once to each group, in this order, each time successfully *)
Inductive applied (f : list loc -> heap -> heap * res unit) : list (list loc) -> heap -> heap -> Prop :=
| App_nil h : applied f [] h h
| App_cons g gs h h1 h2 : f g h = (h1, Ok tt) -> applied f gs h1 h2 -> applied f (g :: gs) h h2.

(** stream of traces with non-empty text phases (or no phase) *)
Definition phases_are_texts (tr : list trace) : Prop :=
  forall t, In t tr -> match dget (extra (st t)) "phase" with
                       | None => True | Some (VStr "") => False | Some (VStr _) => True | Some _ => False end.
