(** Vocabulary for ground motion and rotation. *)
From Verif Require Import Model.Rf Spec.TimeSpec Spec.RfSpec Spec.ArrivalSpec.
From Coq Require Import Reals Qreals.

Local Open Scope Q_scope.
(** cosine and sine *)
Definition unit_circle (cosd sind : Q -> Q) : Prop := forall x, cosd x * cosd x + sind x * sind x == 1.
(** sample j of a list of samples, 0 before and after *)
Definition at_ (p : list Q) (j : Z) : Q := if (0 <=? j)%Z then nth (Z.to_nat j) p 0 else 0.
(** horizontal motion away from the event, for motion n to the north, e to the east; the event is seen in the
    direction b (clockwise from north) *)
Definition away (cosb sinb n e : Q) : Q := - (n * cosb + e * sinb).
(** horizontal motion at right angles to it, to the left for somebody who looks to the event *)
Definition across (cosb sinb n e : Q) : Q := n * sinb - e * cosb.

(** the traces z, n, e of the stream [ls] (and no others) are a group for rf(), record the vertical, north
    and east component with the same time axis, with back azimuth b and inclination i *)
Definition three_components (str_of : value -> string) (h : heap) (ls : list loc) (z n e : loc) (b i : Q) : Prop :=
  (exists g, class_of str_of (Some "onset") h ls z g /\ Permutation g [z; n; e]) /\
  endswith_char (channel (st (h z))) "Z" = true /\ endswith_char (channel (st (h n))) "N" = true /\
  endswith_char (channel (st (h e))) "E" = true /\
  forall l, In l [z; n; e] ->
    dget (extra (st (h l))) "back_azimuth" = Some (VNum b) /\ dget (extra (st (h l))) "inclination" = Some (VNum i) /\
    starttime (st (h l)) = starttime (st (h z)) /\ delta (st (h l)) = delta (st (h z)) /\
    List.length (data (h l)) = List.length (data (h z)).
(** t' is t with the component letter c and the samples f(0), f(1), ...; only the entries [ks] may change *)
Definition turned (ks : list string) (t t' : trace) (c : ascii) (f : nat -> Q) : Prop :=
  network (st t') = network (st t) /\ station (st t') = station (st t) /\ location (st t') = location (st t) /\
  channel (st t') = (droplast (channel (st t)) ++ String c "")%string /\
  starttime (st t') = starttime (st t) /\ delta (st t') = delta (st t) /\ same_entries_but ks t' t /\
  List.length (data t') = List.length (data t) /\ forall j, (j < List.length (data t))%nat -> nth j (data t') 0 == f j.

(** sum of the source signal p times the amplitude at the delay, over the arrivals (amplitude, delay in samples) *)
Definition arrivals_at (l : list (Q * Z)) (p : list Q) (j : Z) : Q :=
  fold_right (fun a acc => fst a * at_ p (j - snd a) + acc) 0 l.
(** each arrival is completely within the N samples *)
Definition inside (l : list (Q * Z)) (p : list Q) (N : nat) : Prop :=
  forall c a j, In (c, a) l -> ~ (at_ p j == 0) -> (0 <= j + a < Z.of_nat N)%Z.
(** The ground motion for a ray from the direction of the event with the given back azimuth and inclination: l is the
    motion along the ray (up and away from the event), q the motion in the plane of the ray at right angles to the ray
    (down and away from the event), t the motion at right angles to this plane *)
Definition motion (cosb sinb cosi sini : Q) (h : heap) (z n e : loc) (l q t : Z -> Q) : Prop :=
  forall j, (j < List.length (data (h z)))%nat ->
    nth j (data (h z)) 0 == l (Z.of_nat j) * cosi - q (Z.of_nat j) * sini /\
    away cosb sinb (nth j (data (h n)) 0) (nth j (data (h e)) 0) == l (Z.of_nat j) * sini + q (Z.of_nat j) * cosi /\
    across cosb sinb (nth j (data (h n)) 0) (nth j (data (h e)) 0) == t (Z.of_nat j).
(** arrivals with the opposite delays *)
Definition reversed (arr : list (Q * Z)) : list (Q * Z) := map (fun a => (fst a, - snd a)%Z) arr.
(** the samples of t are the arrivals (amplitude, delay in samples after sample ko), each of them shown as the
    wavelet W, up to eps *)
Definition shows (eps : R) (W : Z -> R) (ko : nat) (t : trace) (N : nat) (arr : list (Q * Z)) : Prop :=
  List.length (data t) = N /\
  forall k, (k < N)%nat ->
    (Rabs (Q2R (nth k (data t) 0%Q) - over_arrivals (map (fun a => (Q2R (fst a), snd a)) arr) (fun c a => c * W (Z.of_nat k - Z.of_nat ko - a)%Z)) <= eps)%R.
