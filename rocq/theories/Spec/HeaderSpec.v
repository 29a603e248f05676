(** What a user may expect of headers in files. *)
From Verif Require Import Model.Headers.

(** the 21 entries of the table in the documentation (rf/__init__.py:122-146) *)
Definition documented : list string :=
  ["station_latitude"; "station_longitude"; "station_elevation"; "event_latitude"; "event_longitude";
   "event_depth"; "event_magnitude"; "event_time"; "onset"; "type"; "phase"; "moveout"; "distance";
   "back_azimuth"; "inclination"; "slowness"; "pp_latitude"; "pp_longitude"; "pp_depth"; "box_pos"; "box_length"].
(** the SAC fields and the SeismicHandler fields of the table *)
Definition documented_sac : list (string * string) :=
  [("station_latitude", "stla"); ("station_longitude", "stlo"); ("station_elevation", "stel");
   ("event_latitude", "evla"); ("event_longitude", "evlo"); ("event_depth", "evdp");
   ("event_magnitude", "mag"); ("event_time", "o"); ("onset", "a");
   ("type", "kuser0"); ("phase", "kuser1"); ("moveout", "kuser2");
   ("distance", "gcarc"); ("back_azimuth", "baz"); ("inclination", "user0"); ("slowness", "user1");
   ("pp_latitude", "user2"); ("pp_longitude", "user3"); ("pp_depth", "user4");
   ("box_pos", "user5"); ("box_length", "user6")].
Definition documented_q : list (string * string) :=
  [("station_latitude", "COMMENT"); ("station_longitude", "COMMENT"); ("station_elevation", "COMMENT");
   ("event_latitude", "LAT"); ("event_longitude", "LON"); ("event_depth", "DEPTH");
   ("event_magnitude", "MAGNITUDE"); ("event_time", "ORIGIN"); ("onset", "P-ONSET");
   ("type", "COMMENT"); ("phase", "COMMENT"); ("moveout", "COMMENT");
   ("distance", "DISTANCE"); ("back_azimuth", "AZIMUTH"); ("inclination", "INCI"); ("slowness", "SLOWNESS");
   ("pp_latitude", "COMMENT"); ("pp_longitude", "COMMENT"); ("pp_depth", "COMMENT");
   ("box_pos", "COMMENT"); ("box_length", "COMMENT")].
(** those stored in the COMMENT of Q files *)
Definition documented_comment : list string :=
  ["station_latitude"; "station_longitude"; "station_elevation"; "type"; "phase"; "moveout";
   "pp_latitude"; "pp_longitude"; "pp_depth"; "box_pos"; "box_length"].
Definition time_entry (h : string) : Prop := h = "onset" \/ h = "event_time".

(** the reference time that a SAC file of this trace will have *)
Definition reference_time (s : hst) (t : Z) : Prop :=
  match h_sac s with
  | Some d => match dget d "nz" with Some (FV (VTime t')) => t = t' | _ => t = h_start s end
  | None => t = h_start s
  end.
(** the trace has no SAC header entry of the table yet (it was not read from SAC
    and not written to SAC before) *)
Definition no_sac_entries (s : hst) : Prop :=
  forall d, h_sac s = Some d -> forall k, In k (map snd documented_sac) -> dget d k = None.
Definition no_sh_entries (s : hst) : Prop :=
  forall d, h_sh s = Some d -> forall k, In k (map snd documented_q) -> dget d k = None.
(** times are times, other entries are not *)
Definition well_typed (s : hst) : Prop :=
  forall h v, dget (h_main s) h = Some v ->
    (time_entry h -> exists t, v = VTime t) /\
    (~ time_entry h -> In h documented -> match v with VTime _ => False | _ => True end).
(** no value prints with the text -12345, SAC's mark for undefined *)
Definition no_null (str_of : value -> string) (s : hst) : Prop :=
  forall ref, reference_time s ref -> forall h v, In h documented -> dget (h_main s) h = Some v ->
    str_in "-12345" (str_of (match v with
                             | VTime t => VNum (inject_Z (t - ref) / inject_Z 1000000000)
                             | _ => v
                             end)) = false.

(** what a SAC file with reference time ref contains for the entry v: times in seconds
    after the reference time *)
Definition sac_value (ref : Z) (v : value) : value :=
  match v with VTime t => VNum (inject_Z (t - ref) / inject_Z 1000000000) | _ => v end.
(** file f contains the documented entries of the trace s in the documented fields *)
Definition sac_file (s f : hst) : Prop :=
  exists d ref, h_sac f = Some d /\ reference_time s ref /\ dget d "nz" = Some (FV (VTime ref)) /\
    forall e fld v, In (e, fld) documented_sac -> dget (h_main s) e = Some v -> dget d fld = Some (FV (sac_value ref v)).
Definition q_file (compat : bool) (s f : hst) : Prop :=
  exists d, h_sh f = Some d /\
    (forall e fld v, In (e, fld) documented_q -> fld <> "COMMENT" -> dget (h_main s) e = Some v -> dget d fld = Some (FV v)) /\
    (compat = true -> dget d "COMMENT" = None) /\
    (compat = false -> (exists e v, In (e, "COMMENT") documented_q /\ dget (h_main s) e = Some v) ->
       exists c, dget d "COMMENT" = Some (FJson c) /\
         forall e, In (e, "COMMENT") documented_q -> dget c e = dget (h_main s) e).
(** the entry e of the trace that is read from a SAC file with reference time ref, when
    its field contains v: times are rounded to ns *)
Definition from_sac (ref : Z) (e : string) (v : value) : option value :=
  if (String.eqb e "onset" || String.eqb e "event_time")%bool then
    match v with
    | VNum q => Some (VTime (ref + Qfloor (q * inject_Z 1000000000 + (1 # 2))))
    | _ => None
    end
  else Some v.
