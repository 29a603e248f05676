(** Words for C146 to C148. *)
From Verif Require Import Model.Batch Spec.BatchSpec.

(** at least [e] ns away from the next full seconds *)
Definition clear_of_seconds (e t : Z) : Prop := (e <= t mod 1000000000 /\ t mod 1000000000 + e < 1000000000)%Z.
(** a command which keeps codes, the second of event_time and the channels apart *)
Definition tidy (year : Z -> Prop) (f : list trace -> res (list trace)) : Prop :=
  forall p s out, good year (p, s) -> f s = Ok out -> good year (p, out).
(** all traces of the streams have event times with this property *)
Definition event_times (P : trace -> Z -> Prop) (streams : list (spair * list trace)) : Prop :=
  forall p s t e, In (p, s) streams -> In t s -> dget (extra (st t)) "event_time" = Some (VTime e) -> P t e.
(** times in file headers have this much room to the next full seconds: 1 microsecond, and 1/8000000 of the
    distance to the reference time of the file *)
Definition room (ref : trace -> Z) (t : trace) (e : Z) : Prop :=
  (Z.abs (e - ref t) <= 1000000 * 1000000000)%Z /\ clear_of_seconds (1000 + Z.abs (e - ref t) / 8000000) e.
(** texts of times have six decimals *)
Definition micro_text (str_of : value -> string) : Prop :=
  forall a b, str_of (VTime a) = str_of (VTime b) <-> (a / 1000 = b / 1000)%Z.
(** components of one record with this onset *)
Definition record (id : string) (onset : Z) (l : list trace) : Prop :=
  Forall (fun t => (exists component, tr_id t = (id ++ String component "")%string) /\ tr_get t "onset" = Some (VTime onset)) l.
