(** rf/rfstream.py:404-430  RFStream.stack (without the decorator, see
    Model/Util.v) *)
From Verif Require Export Model.Trace Model.Num.

(** rfstream.py:420-422: the entries copied from the stats of [tr] *)
Definition stack_entries : list string :=
  ["phase"; "moveout"; "station_latitude"; "station_longitude"; "station_elevation"; "processing"].

(** for entry in (...): if entry in tr.stats: header[entry] = tr.stats[entry] *)
Definition copy_entries (entries : list string) (from : dict value) (to : dict value) : dict value :=
  fold_left (fun h e => match dget from e with Some v => dset h e v | None => h end) entries to.

(** rfstream.py:426-428: onset relative to the start time is kept, the new trace
    starts at UTCDateTime(0), the default of obspy.Stats. An onset that is no time
    raises TypeError in the subtraction. *)
Definition copy_onset (tr : trace) (tr2 : trace) : res trace :=
  match dget (extra (st tr)) "onset" with
  | None => Ok tr2
  | Some (VTime o) => Ok (set_extra tr2 "onset" (VTime (starttime (st tr2) + (o - starttime (st tr)))))
  | Some _ => Err TypeError
  end.

(** rfstream.py:416-429: the body of the loop for one id. [tr] is self[0]
    (line 413; the comprehension variable of line 417 is local in Python 3). *)
Definition stack_one (s : list trace) (tr : trace) (id : string) : res trace :=
  match split_on "." id with
  | [net; sta; loc; cha] =>
      let! d := np_mean0 (map data (filter (fun t => String.eqb (tr_id t) id) s)) in
      let hdr := copy_entries stack_entries (extra (st tr)) [] in
      copy_onset tr (mkTrace (mkStats net sta loc cha 0 (delta (st tr)) hdr) d)
  | _ => Err ValueError       (* too many / not enough values to unpack *)
  end.

(** [ids] is the iteration order of the set of line 412 *)
Definition stack (ids : list string) (s : list trace) : res (list trace) :=
  match s with
  | [] => Err IndexError      (* self[0], line 413 *)
  | tr :: _ => mapM (stack_one s tr) ids
  end.
