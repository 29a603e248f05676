(** rf/imaging.py:190-286: maps of stations, piercing points and profiles. *)
From Verif Require Export Model.Imaging.

(** np.median of a list of numbers (library). Empty list: nan, which cannot be sliced
    (imaging.py:195): IndexError. *)
Definition np_median (l : list Q) : res Q :=
  let s := sort Qle_bool l in
  let n := List.length l in
  match n with
  | O => Err IndexError
  | _ => if Nat.even n then Ok ((nth (n / 2 - 1) s 0 + nth (n / 2) s 0) / 2)%Q else Ok (nth (n / 2) s 0%Q)
  end.

Section Maps.
  (** polygons (shapely) *)
  Context {P : Type}.
  (** The content of geoaxes: the centre (longitude, latitude) of the projection which is made by
      default (None: axes with a projection given by the user), the points of the calls of scatter,
      the labels, the geometries. Simplification: colors, markers and the like are left out. *)
  Record geomap : Type := mkMap {
    m_centre : option (Q * Q);
    m_scatter : list (list (Q * Q));
    m_labels : list (string * (Q * Q));
    m_polys : list P }.

  (** imaging.py:190-196 _get_geoaxes; [crs]: true if a reference system is given. Points are
      (latitude, longitude) *)
  Definition get_geoaxes (crs : bool) (latlons : list (Q * Q)) : res geomap :=
    if crs then Ok (mkMap None [] [] [])
    else let! lat0 := np_median (map fst latlons) in
         let! lon0 := np_median (map snd latlons) in
         Ok (mkMap (Some (lon0, lat0)) [] [] []).
  (** [ax] or new axes, imaging.py:224-225, 250-251, 275-277 *)
  Definition axes (ax : option geomap) (crs : bool) (latlons : list (Q * Q)) : res geomap :=
    match ax with Some m => Ok m | None => get_geoaxes crs latlons end.
  (** ax.scatter of a list of (latitude, longitude), imaging.py:228, 256 (library): TypeError without points, since x
      and y are missing *)
  Definition scatter (latlons : list (Q * Q)) (m : geomap) : res geomap :=
    match latlons with
    | [] => Err TypeError
    | _ => Ok (mkMap (m_centre m) (m_scatter m ++ [map (fun p => (snd p, fst p)) latlons]) (m_labels m) (m_polys m))
    end.
  (** a stream or an inventory: networks with stations (code, latitude, longitude) *)
  Inductive inventory : Type :=
  | OfStream (s : list trace)
  | OfInventory (inv : list (list (string * Q * Q))).
  (** imaging.py:215-223: coordinates and names of the stations *)
  Definition station_data (inv : inventory) : res (list ((Q * Q) * string)) :=
    match inv with
    | OfStream s =>
        let! data := mapM (fun t =>
          let! la := num_attr "station_latitude" t in
          let! lo := num_attr "station_longitude" t in
          Ok ((la, lo), station (st t))) s in
        Ok (dedup sta_eqb data)
    | OfInventory i => Ok (List.concat (map (map (fun s => let '(code, la, lo) := s in ((la, lo), code))) i))
    end.
  (** imaging.py:204-236 plot_stations *)
  Definition plot_stations (inv : inventory) (label : bool) (ax : option geomap) (crs : bool) : res geomap :=
    let! data := station_data inv in
    match data with
    | [] => Err ValueError
    | _ =>
        let latlons := map fst data in
        let! m := axes ax crs latlons in
        let! m := scatter latlons m in
        Ok (if label then mkMap (m_centre m) (m_scatter m) (m_labels m ++ map (fun d => (snd d, (snd (fst d), fst (fst d)))) data) (m_polys m) else m)
    end.
  (** imaging.py:252-253, 278-279 *)
  Definition with_stations (inv : option inventory) (label : bool) (m : geomap) : res geomap :=
    match inv with None => Ok m | Some i => plot_stations i label (Some m) false end.
  (** imaging.py:239-257 plot_ppoints *)
  Definition plot_ppoints (ppoints : list (Q * Q)) (inv : option inventory) (label : bool) (ax : option geomap) (crs : bool) : res geomap :=
    let! m := axes ax crs ppoints in
    let! m := with_stations inv label m in
    scatter ppoints m.
  (** imaging.py:260-286 plot_profile_map; boxes: midpoint (latitude, longitude) and polygon *)
  Definition plot_profile_map (boxes : list ((Q * Q) * P)) (inv : option inventory) (label : bool) (ppoints : option (list (Q * Q)))
      (ax : option geomap) (crs : bool) : res geomap :=
    let! m := (match ax with
               | Some m => Ok m
               | None => match nth_error boxes (List.length boxes / 2) with
                         | None => Err IndexError
                         | Some b => get_geoaxes crs [fst b]
                         end
               end) in
    let! m := with_stations inv label m in
    let! m := (match ppoints with None => Ok m | Some p => plot_ppoints p None true (Some m) false end) in
    Ok (mkMap (m_centre m) (m_scatter m) (m_labels m) (m_polys m ++ map snd boxes)).
End Maps.
Arguments geomap : clear implicits.
