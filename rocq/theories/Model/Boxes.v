(** rf/profile.py:13-56  _get_box and get_profile_boxes, and _find_box (59-72),
    over real numbers. *)
From Coq Require Export Reals Lra List.
Export ListNotations.
Open Scope R_scope.

(** a tuple latlon, profile.py:13, 20-24 *)
Definition pt := (R * R)%type.

(** Python's x % y for y > 0 *)
Definition pymod (x y : R) : R := x - y * IZR (Int_part (x / y)).

(** A box dictionary of profile.py:25-28; [rprofile] is the optional entry
    'profile' (profile.py:49-54): latlon0, azimuth, length, width. *)
Record rbox : Type := mkRBox {
  poly : list pt; rlength : R; rpos : R; rlatlon : pt;
  rprofile : option (pt * R * R * R) }.

Section Geo.
  (** util.direct_geodetic(latlon, azimuth, distance) (geographiclib) *)
  Variable direct : pt -> R -> R -> pt.

  (** profile.py:20-24: walk along the corners. Simplification: the corners are
      kept in (lat, lon) order, the code swaps each to (lon, lat) for shapely
      (the swap is undone for points in _find_box, latlon[::-1]). *)
  Fixpoint walk (p : pt) (legs : list (R * R)) : list pt :=
    match legs with
    | [] => []
    | (a, d) :: legs' => let p' := direct p a d in p' :: walk p' legs'
    end.

  (** profile.py:13-29 *)
  Definition get_box (latlon0 : pt) (azimuth length width offset : R) : rbox :=
    let start := direct latlon0 azimuth offset in
    let azis := [pymod (azimuth - 90) 360; azimuth; pymod (azimuth + 90) 360; pymod (azimuth + 180) 360] in
    let dists := [width / 2; length; width; length] in
    mkRBox (walk start (combine azis dists)) length (offset + length / 2)
           (direct start azimuth (length / 2)) None.

  (** profile.py:49-54: box['profile'] = ... *)
  Definition set_profile (b : rbox) (p : pt * R * R * R) : rbox :=
    mkRBox (poly b) (rlength b) (rpos b) (rlatlon b) (Some p).

  (** profile.py:45-56: the loop over i in range(len(bins)-1); [total] is
      bins[-1] - bins[0], [first] tells i == 0 *)
  Fixpoint boxes_loop (latlon0 : pt) (azimuth width total : R) (first : bool) (bins : list R) : list rbox :=
    match bins with
    | x :: ((y :: _) as rest) =>
        let box := get_box latlon0 azimuth (y - x) width x in
        let box := if first then set_profile box (latlon0, azimuth, total, width) else box in
        box :: boxes_loop latlon0 azimuth width total false rest
    | _ => []
    end.
  (** profile.py:32-56 *)
  Definition get_profile_boxes (latlon0 : pt) (azimuth : R) (bins : list R) (width : R) : list rbox :=
    boxes_loop latlon0 azimuth width (last bins 0 - hd 0 bins) true bins.
End Geo.

(** ** Plane geometry: the same functions on a plane with coordinates
    (north, east) instead of the ellipsoid. *)
Definition rad (deg : R) : R := deg * PI / 180.
(** util.py:167-179 direct_geodetic in the plane (simplification: flat earth) *)
Definition plane_direct (p : pt) (azimuth dist : R) : pt :=
  (fst p + dist * cos (rad azimuth), snd p + dist * sin (rad azimuth)).
(** a point strictly inside a polygon with corners in clockwise order as seen in
    (north, east) coordinates: strictly on the right of every edge
    (shapely's within excludes the boundary) *)
Definition cross (a b p : pt) : R :=
  (fst b - fst a) * (snd p - snd a) - (snd b - snd a) * (fst p - fst a).
(** Polygon and within, profile.py:25, 71 (library shapely): right of all edges *)
Fixpoint edges_right (first : pt) (l : list pt) (p : pt) : Prop :=
  match l with
  | [] => True
  | [a] => 0 < cross a first p
  | a :: ((b :: _) as l') => 0 < cross a b p /\ edges_right first l' p
  end.
(** p.within(poly), profile.py:71 (library shapely) for a convex polygon *)
Definition inside (l : list pt) (p : pt) : Prop :=
  match l with [] => False | a :: _ => edges_right a l p end.
