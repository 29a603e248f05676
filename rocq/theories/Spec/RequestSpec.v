(** Samples with their times, and the samples which belong to a window: C138. *)
From Verif Require Import Model.LocalData.

(** the samples of a trace with their times *)
Fixpoint samples_from (s d : Z) (l : list Q) : list (Z * Q) :=
  match l with [] => [] | x :: l' => (s, x) :: samples_from (s + d) d l' end.
Definition samples (t : trace) : list (Z * Q) := samples_from (starttime (st t)) (delta (st t)) (data t).
(** less than half a sampling interval outside of the window *)
Definition inside (a b d : Z) (x : Z * Q) : bool := (2 * a - d <? 2 * fst x)%Z && (2 * fst x <? 2 * b + d)%Z.
(** records with samples at the same times *)
Definition same_times (t u : trace) : Prop :=
  starttime (st t) = starttime (st u) /\ delta (st t) = delta (st u) /\ List.length (data t) = List.length (data u).
(** the request is for the window and [pad] on both sides; the window is [i_start it] to [i_stop it] *)
Definition padded (pad : Z) (it : item) : Prop :=
  q_start (i_req it) = (i_start it - pad)%Z /\ q_end (i_req it) = (i_stop it + pad)%Z /\ (i_start it < i_stop it)%Z.
(** the file has three records for the request, of different channels and with the same times *)
Definition three_records (d : Z) (file : list trace) (it : item) : Prop :=
  let ts := filter (selects (i_req it)) file in
  List.length ts = 3 /\ NoDup (map tr_id ts) /\ (forall t, In t ts -> delta (st t) = d) /\
  forall t u, In t ts -> In u ts -> same_times t u.
(** [u] has the codes of [t], its samples inside the window and the entries of the event *)
Definition answer (d : Z) (it : item) (t u : trace) : Prop :=
  tr_id u = tr_id t /\ delta (st u) = delta (st t) /\
  samples u = filter (inside (i_start it) (i_stop it) d) (samples t) /\ samples u <> [] /\
  forall k, dget (extra (st u)) k = match dget (i_stats it) k with Some v => Some v | None => dget (extra (st t)) k end.
(** the stream for an event and a station, none if the window is outside of the records *)
Definition answers (d : Z) (file : list trace) (it : item) (r : option (list trace)) : Prop :=
  let ts := filter (selects (i_req it)) file in
  match r with
  | Some s => Forall2 (answer d it) ts s
  | None => forall t x, In t ts -> In x (samples t) -> inside (i_start it) (i_stop it) d x = false
  end.
Fixpoint given {A} (l : list (option A)) : list A :=
  match l with [] => [] | Some x :: l' => x :: given l' | None :: l' => given l' end.
