(** What a user may expect of maps. Points are (longitude, latitude). *)
From Verif Require Import Model.Maps.

Definition same_point (p q : Q * Q) : Prop := (fst p == fst q /\ snd p == snd q)%Q.
(** a point of the map *)
Definition shown {P} (m : geomap P) (lon lat : Q) : Prop := exists l p, In l (m_scatter m) /\ In p l /\ same_point p (lon, lat).
Definition labelled {P} (m : geomap P) (name : string) (lon lat : Q) : Prop := exists p, In (name, p) (m_labels m) /\ same_point p (lon, lat).
(** a station of a stream or of an inventory *)
Definition station_at (inv : inventory) (name : string) (lon lat : Q) : Prop :=
  match inv with
  | OfStream s => exists t lo la, In t s /\ station (st t) = name /\
      dget (extra (st t)) "station_longitude" = Some (VNum lo) /\ dget (extra (st t)) "station_latitude" = Some (VNum la) /\ (lo == lon)%Q /\ (la == lat)%Q
  | OfInventory i => exists net lo la, In net i /\ In (name, la, lo) net /\ (lo == lon)%Q /\ (la == lat)%Q
  end.
(** all stations have coordinates and there is one *)
Definition locatable (inv : inventory) : Prop :=
  (exists name lon lat, station_at inv name lon lat) /\
  match inv with
  | OfStream s => Forall (fun t => (exists lo, dget (extra (st t)) "station_longitude" = Some (VNum lo)) /\ exists la, dget (extra (st t)) "station_latitude" = Some (VNum la)) s
  | OfInventory _ => True
  end.
Definition maybe {A} (o : option A) (f : A -> Prop) : Prop := match o with None => False | Some x => f x end.
(** at most half of the numbers are smaller and at most half of them are larger *)
Definition middle (l : list Q) (m : Q) : Prop :=
  2 * List.length (filter (fun x => negb (Qle_bool m x)) l) <= List.length l /\
  2 * List.length (filter (fun x => negb (Qle_bool x m)) l) <= List.length l.
