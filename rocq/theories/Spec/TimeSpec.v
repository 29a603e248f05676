(** Vocabulary for times. All times are integers (ns). *)
From Verif Require Import Model.Times.

Definition sample_time (t : trace) (i : nat) : Z := (starttime (st t) + Z.of_nat i * delta (st t))%Z.
(** codes, sampling interval and other entries agree *)
Definition same_header (a b : trace) : Prop :=
  network (st a) = network (st b) /\ station (st a) = station (st b) /\ location (st a) = location (st b) /\
  channel (st a) = channel (st b) /\ delta (st a) = delta (st b) /\ extra (st a) = extra (st b).
(** [t'] consists of the samples k..k+m-1 of [t], at the same times, among them
    all samples between [lo] and [hi] and none more than half a sample outside. *)
Definition window_of (t t' : trace) (lo hi : Z) : Prop :=
  same_header t' t /\
  exists k m, 
    data t' = firstn m (skipn k (data t)) /\ List.length (data t') = m /\
    (m <> 0 -> starttime (st t') = sample_time t k) /\
    (forall i, i < List.length (data t) -> (lo <= sample_time t i <= hi)%Z -> k <= i < k + m) /\
    (forall i, k <= i < k + m -> (2 * (lo - sample_time t i) <= delta (st t))%Z /\
                                 (2 * (sample_time t i - hi) <= delta (st t))%Z).
(** a number of seconds that is n ns *)
Definition secs (n : Z) : sec := SNum (inject_Z n / inject_Z 1000000000).
(** seconds resolved against the reference time [ref], at any nesting depth *)
Inductive resolves (ref : Z) : sec -> sec -> Prop :=
| RsNone : resolves ref SNone SNone
| RsTime t : resolves ref (STime t) (STime t)
| RsNum q n : (q * inject_Z 1000000000 == inject_Z n)%Q -> resolves ref (SNum q) (STime (ref + n))
| RsNil : resolves ref (SList []) (SList [])
| RsCons x y l m : resolves ref x y -> resolves ref (SList l) (SList m) -> resolves ref (SList (x :: l)) (SList (y :: m)).
(** the reference time of the argument reftime for this trace *)
Inductive own_reference (t : trace) : reft -> Z -> Prop :=
| OwnTime z : own_reference t (RTime z) z
| OwnKey k z : tr_get t k = Some (VTime z) -> own_reference t (RKey k) z.
