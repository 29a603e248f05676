(** Profile coordinates on a plane: distance along the profile and to the right
    of it, for a profile starting in [p0] in direction [azimuth] (degrees). *)
From Verif Require Import Model.Boxes.
Definition along (p0 : pt) (azimuth : R) (p : pt) : R :=
  (fst p - fst p0) * cos (rad azimuth) + (snd p - snd p0) * sin (rad azimuth).
Definition across (p0 : pt) (azimuth : R) (p : pt) : R :=
  (snd p - snd p0) * cos (rad azimuth) - (fst p - fst p0) * sin (rad azimuth).
(** the point with given profile coordinates *)
Definition at_coord (p0 : pt) (azimuth x y : R) : pt :=
  (fst p0 + x * cos (rad azimuth) - y * sin (rad azimuth),
   snd p0 + x * sin (rad azimuth) + y * cos (rad azimuth)).
Fixpoint increasing (l : list R) : Prop :=
  match l with
  | x :: ((y :: _) as l') => x < y /\ increasing l'
  | _ => True
  end.
