(** What a user may expect of obj2stats and rfstats. *)
From Verif Require Import Model.Rfstats.

(** the origin that represents an event: the preferred one, else the first *)
Definition origin_of (ev : event) (o : origin) : Prop :=
  e_pref ev = Some o \/ e_pref ev = None /\ exists l, e_origins ev = o :: l.
Definition magnitude_of (ev : event) (m : option Q) : Prop :=
  e_prefmag ev = Some m \/ e_prefmag ev = None /\ exists l, e_mags ev = m :: l.
Definition num_or_none (m : option Q) : value := match m with Some q => VNum q | None => VNone end.

(** b is s with the entries of event and station *)
Definition described (ev : event) (sta : dict value) (s b : dict value) : Prop :=
  exists lat lon dep t m sla slo sel,
    origin_of ev (mkOrigin (Some lat) (Some lon) (Some dep) (Some t)) /\ magnitude_of ev m /\
    dget sta "latitude" = Some sla /\ dget sta "longitude" = Some slo /\ dget sta "elevation" = Some sel /\
    dget b "event_latitude" = Some (VNum lat) /\ dget b "event_longitude" = Some (VNum lon) /\
    dget b "event_depth" = Some (VNum (dep / 1000)) /\ dget b "event_magnitude" = Some (num_or_none m) /\
    dget b "event_time" = Some (VTime t) /\
    dget b "event_id" = Some (match e_id ev with Some i => VStr i | None => VNone end) /\
    dget b "station_latitude" = Some sla /\ dget b "station_longitude" = Some slo /\
    dget b "station_elevation" = Some sel /\
    forall k, ~ In k ["event_latitude"; "event_longitude"; "event_depth"; "event_magnitude"; "event_time"; "event_id";
                      "station_latitude"; "station_longitude"; "station_elevation"] -> dget b k = dget s k.
(** the stats which are used for the calculation *)
Definition base (a : rs_args) (s b : dict value) : Prop :=
  match r_event a, r_station a with
  | Some ev, Some sta => described ev sta s b
  | _, _ => b = s
  end.

Section S.
  Variable gps : Q -> Q -> Q -> Q -> res (Q * Q * Q).
  Variable taup : string -> Q -> Q -> string -> res (list arrival).
  Variable ppoint : string -> dict value -> Q -> string -> res (dict value).

  (** distance in degrees (111.2 km) and azimuth at the station *)
  Definition epicentral (b : dict value) (dist baz : Q) : Prop :=
    exists sla slo ela elo m az2,
      dget b "station_latitude" = Some (VNum sla) /\ dget b "station_longitude" = Some (VNum slo) /\
      dget b "event_latitude" = Some (VNum ela) /\ dget b "event_longitude" = Some (VNum elo) /\
      gps sla slo ela elo = Ok (m, baz, az2) /\ dist = (m / 1000 / (1112 # 10))%Q.
  Definition within (a : rs_args) (dist : Q) : Prop :=
    match r_range a with
    | DRange lo hi => (lo <= dist <= hi)%Q
    | DNone => True
    | DDefault => if String.eqb (upper (r_phase a)) "P" then (30 <= dist <= 90)%Q else (50 <= dist <= 85)%Q
    end.
  (** s1 is b with the values of the ray of the first arrival *)
  Definition ray (a : rs_args) (b s1 : dict value) : Prop :=
    exists dist baz dep t ar others,
      epicentral b dist baz /\ dget b "event_depth" = Some (VNum dep) /\ dget b "event_time" = Some (VTime t) /\
      taup (r_tt a) dep dist (r_phase a) = Ok (ar :: others) /\
      dget s1 "distance" = Some (VNum dist) /\ dget s1 "back_azimuth" = Some (VNum baz) /\
      dget s1 "inclination" = Some (VNum (ar_inc ar)) /\ dget s1 "slowness" = Some (VNum (ar_slow ar)) /\
      dget s1 "onset" = Some (VTime (t + Qfloor (ar_time ar * inject_Z 1000000000 + (1 # 2)))) /\
      dget s1 "phase" = Some (VStr (r_phase a)) /\
      forall k, ~ In k ["distance"; "back_azimuth"; "inclination"; "slowness"; "onset"; "phase"] ->
        dget s1 k = dget b k.
  (** converted phase: S for phases ending with P, else P *)
  Definition converted (a : rs_args) (p : string) : Prop :=
    match r_ppphase a with
    | Some q => p = q
    | None => if last_char (upper (r_phase a)) then
                (last_char (upper (r_phase a)) = Some "P"%char -> p = "S") /\
                (last_char (upper (r_phase a)) <> Some "P"%char -> p = "P")
              else p = "P"
    end.
  Definition traced (a : rs_args) (s1 s2 : dict value) : Prop :=
    match r_ppdepth a with
    | None => s2 = s1
    | Some d => exists p, converted a p /\ ppoint (r_model a) s1 d p = Ok s2
    end.

  Definition in_range (a : rs_args) (t : hst) : Prop :=
    exists b dist baz, base a (h_main t) b /\ epicentral b dist baz /\ within a dist.
  Definition out_of_range (a : rs_args) (t : hst) : Prop :=
    exists b dist baz, base a (h_main t) b /\ epicentral b dist baz /\ ~ within a dist.
  Definition with_ray (a : rs_args) (t t' : hst) : Prop :=
    exists b s1, base a (h_main t) b /\ ray a b s1 /\ traced a s1 (h_main t') /\ t' = with_main t (h_main t').
End S.

(** l' contains the elements of l which satisfy K, changed as R says, in order; the others satisfy D *)
Inductive selected {A} (K D : A -> Prop) (R : A -> A -> Prop) : list A -> list A -> Prop :=
| sel_nil : selected K D R [] []
| sel_keep t t' l l' : K t -> R t t' -> selected K D R l l' -> selected K D R (t :: l) (t' :: l')
| sel_drop t l l' : D t -> selected K D R l l' -> selected K D R (t :: l) l'.
