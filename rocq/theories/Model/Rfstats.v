(** rf/rfstream.py:22-47, 59-70, 380-401, 633-732: obj2stats, rfstats and ppoints. The
    geodesic of obspy, TauPy and the ray tracer of rf.simple_model are oracles. *)
From Verif Require Export Model.Write.

(** ** Events (obspy.core.event). Only what rf reads. An Origin object is never
    false in a boolean context because it always has a resource_id. *)
Record origin : Type := mkOrigin {
  o_lat : option Q; o_lon : option Q; o_depth : option Q (* m *); o_time : option Z }.
(** obspy event, rfstream.py:22-47 *)
Record event : Type := mkEvent {
  e_pref : option origin;           (* preferred_origin() *)
  e_origins : list origin;
  e_prefmag : option (option Q);    (* preferred_magnitude(), its mag *)
  e_mags : list (option Q);
  e_id : option string }.
(** station: dictionary with latitude, longitude, elevation *)
Definition station_d := dict value.

(** rfstream.py:22-33 __get_event_origin_prop *)
Definition event_origin (ev : event) : res origin :=
  match e_pref ev with
  | Some o => Ok o
  | None => match e_origins ev with o :: _ => Ok o | [] => Err ValueError end
  end.
(** rfstream.py:22-33 *)
Definition origin_prop {A} (f : origin -> option A) (ev : event) : res A :=
  let! o := event_origin ev in
  match f o with None => Err ValueError | Some r => Ok r end.
(** rfstream.py:36-40 __get_event_magnitude: a magnitude without value gives None *)
Definition event_magnitude (ev : event) : res value :=
  match e_prefmag ev with
  | Some m => Ok (match m with Some q => VNum q | None => VNone end)
  | None => match e_mags ev with
            | m :: _ => Ok (match m with Some q => VNum q | None => VNone end)
            | [] => Err ValueError
            end
  end.
(** rfstream.py:43-47 __get_event_id *)
Definition event_id (ev : event) : value :=
  match e_id ev with Some s => VStr s | None => VNone end.

(** rfstream.py:633-649 obj2stats with the getters of lines 60-70 *)
Definition event_stats (ev : event) : res (dict value) :=
  let! lat := origin_prop o_lat ev in
  let! lon := origin_prop o_lon ev in
  let! dep := origin_prop o_depth ev in
  let! mag := event_magnitude ev in
  let! t := origin_prop o_time ev in
  Ok [("event_latitude", VNum lat); ("event_longitude", VNum lon); ("event_depth", VNum (dep / 1000));
      ("event_magnitude", mag); ("event_time", VTime t); ("event_id", event_id ev)].
(** rfstream.py:646-648 with the getters of 59-61 *)
Definition station_stats (sta : station_d) : res (dict value) :=
  let! lat := dgetE sta "latitude" in
  let! lon := dgetE sta "longitude" in
  let! elev := dgetE sta "elevation" in
  Ok [("station_latitude", lat); ("station_longitude", lon); ("station_elevation", elev)].
(** rfstream.py:633-649 *)
Definition obj2stats (ev : option event) (sta : option station_d) : res (dict value) :=
  let! d := match ev with Some e => event_stats e | None => Ok [] end in
  let! u := match sta with Some s => station_stats s | None => Ok [] end in
  Ok (dupdate d u).

(** argument dist_range: 'default', a false value (None), or a pair *)
Inductive drange : Type := DDefault | DNone | DRange (lo hi : Q).

(** obspy arrival: time, incident_angle, ray_param_sec_degree, rfstream.py:722-725 *)
Record arrival : Type := mkArrival { ar_time : Q; ar_inc : Q; ar_slow : Q }.

(** util.py:14 DEG2KM *)
Definition deg2km : Q := (1112 # 10)%Q.

Section Rfstats.
  (** gps2dist_azimuth(lat1, lon1, lat2, lon2): distance in m, azimuth at point 1, azimuth at point 2 *)
  Variable gps : Q -> Q -> Q -> Q -> res (Q * Q * Q).
  (** TauPyModel(model=...) and get_travel_times(depth, distance, (phase,)) *)
  Variable taup_load : string -> res unit.
  Variable taup : string -> Q -> Q -> string -> res (list arrival).
  (** load_model(model).ppoint(stats, depth, phase=...): the stats afterwards *)
  Variable ppoint : string -> dict value -> Q -> string -> res (dict value).

  (** stats.key for a number (AttribDict: AttributeError if missing) *)
  Definition num_attr (s : dict value) (k : string) : res Q :=
    match dget s k with
    | None => Err AttributeError
    | Some (VNum q) => Ok q
    | Some _ => Err TypeError
    end.
  (** stats.event_time, rfstream.py:723 *)
  Definition time_attr (s : dict value) (k : string) : res Z :=
    match dget s k with
    | None => Err AttributeError
    | Some (VTime t) => Ok t
    | Some _ => Err TypeError
    end.

  (** lines 698-701 *)
  Definition resolve_range (phase : string) (dr : drange) : res drange :=
    match dr with
    | DDefault =>
        if str_in (upper phase) "PS" then
          Ok (if String.eqb (upper phase) "P" then DRange 30 90 else DRange 50 85)
        else Err ValueError
    | _ => Ok dr
    end.
  (** not dist_range[0] <= dist <= dist_range[1], rfstream.py:710 *)
  Definition outside (dr : drange) (dist : Q) : bool :=
    match dr with
    | DRange lo hi => negb (Qle_bool lo dist && Qle_bool dist hi)
    | _ => false
    end.
  (** line 730 *)
  Definition default_pp_phase (phase : string) : string :=
    if endswith_char (upper phase) "P" then "S" else "P".

  (** arguments of rfstats, rfstream.py:652-655 *)
  Record rs_args : Type := mkRs {
    r_event : option event; r_station : option station_d; r_phase : string; r_range : drange;
    r_tt : string; r_ppdepth : option Q; r_ppphase : option string; r_model : string }.

  (** rfstream.py:698-732: rfstats for one stats object. Result: the stats after the
      call and whether they are returned (true) or None is returned (false). *)
  Definition rfstats1 (a : rs_args) (s : dict value) : dict value * res bool :=
    match resolve_range (r_phase a) (r_range a) with
    | Err e => (s, Err e)
    | Ok dr =>
      match (match r_event a, r_station a with
             | Some ev, Some sta => let! u := obj2stats (Some ev) (Some sta) in Ok (dupdate s u)
             | _, _ => Ok s
             end) with
      | Err e => (s, Err e)
      | Ok s =>
        match (let! sla := num_attr s "station_latitude" in
               let! slo := num_attr s "station_longitude" in
               let! ela := num_attr s "event_latitude" in
               let! elo := num_attr s "event_longitude" in
               gps sla slo ela elo) with
        | Err e => (s, Err e)
        | Ok (m, baz, _) =>
          let dist := (m / 1000 / deg2km)%Q in
          if outside dr dist then (s, Ok false)
          else
            match (let! _ := taup_load (r_tt a) in
                   let! dep := num_attr s "event_depth" in
                   let! arr := taup (r_tt a) dep dist (r_phase a) in
                   match arr with
                   | [] => Err OtherError
                   | ar :: _ => let! t := time_attr s "event_time" in Ok (ar, utc_add t (ar_time ar))
                   end) with
            | Err e => (s, Err e)
            | Ok (ar, onset) =>
              let s := dupdate s [("distance", VNum dist); ("back_azimuth", VNum baz);
                                  ("inclination", VNum (ar_inc ar)); ("onset", VTime onset);
                                  ("slowness", VNum (ar_slow ar)); ("phase", VStr (r_phase a))] in
              match r_ppdepth a with
              | None => (s, Ok true)
              | Some d =>
                  let pp := match r_ppphase a with Some p => p | None => default_pp_phase (r_phase a) end in
                  match ppoint (r_model a) s d pp with
                  | Err e => (s, Err e)
                  | Ok s' => (s', Ok true)
                  end
              end
            end
        end
      end
    end.

  (** rfstats(event=..., station=...) without obj *)
  Definition rfstats_new (a : rs_args) : res (option (dict value)) :=
    match rfstats1 a [] with
    | (_, Err e) => Err e
    | (_, Ok false) => Ok None
    | (s, Ok true) => Ok (Some s)
    end.

  (** rfstream.py:686-697: rfstats for a stream of distinct traces. Result: all trace
      objects after the call; the traces of the stream if the call returns. *)
  Fixpoint rfstats_stream (a : rs_args) (trs : list hst) : list hst * res (list hst) :=
    match trs with
    | [] => ([], Ok [])
    | t :: rest =>
        match rfstats1 a (h_main t) with
        | (s, Err e) => (with_main t s :: rest, Err e)
        | (s, Ok keep) =>
            let t := with_main t s in
            match rfstats_stream a rest with
            | (objs, Err e) => (t :: objs, Err e)
            | (objs, Ok kept) => (t :: objs, Ok (if keep then t :: kept else kept))
            end
        end
    end.

  (** rfstream.py:395-401 RFStream.ppoints (the trace objects afterwards): the dictionary
      lookup of None or another letter is a KeyError *)
  Definition ppoints_phase (pp_phase : option string) (trs : list hst) : res string :=
    match pp_phase with
    | Some p => Ok p
    | None =>
        let! m := get_method trs in
        match m with
        | Some m => if String.eqb m "P" then Ok "S" else if String.eqb m "S" then Ok "P" else Err KeyError
        | None => Err KeyError
        end
    end.
  (** rfstream.py:380-401 for header dictionaries *)
  Definition ppoints (model : string) (depth : Q) (pp_phase : option string) (trs : list hst) : res (list hst) :=
    let! p := ppoints_phase pp_phase trs in
    mapM (fun t => let! s := ppoint model (h_main t) depth p in Ok (with_main t s)) trs.
End Rfstats.
