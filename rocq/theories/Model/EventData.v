(** rf/util.py:17-129: _get_stations, iter_event_data and iter_event_metadata. A generator
    is modelled by the list of what it does (requests, trims, yielded streams) and how it ends. *)
From Verif Require Export Model.Rfstats.

(** util.py:17-20 _get_stations: the channels of inventory.get_contents() *)
Definition get_stations (channels : list string) : res (dict ascii) :=
  foldM (fun d ch => match last_char ch with
                     | Some c => Ok (dset d (droplast ch ++ "?")%string c)
                     | None => Err IndexError
                     end) channels [].

(** exceptions caught by "except Exception" *)
Definition caught (e : exn) : bool := match e with KeyboardInterrupt => false | _ => true end.

(** (event.preferred_origin() or event.origins[0])['time'] *)
Definition origin_time (ev : event) : res (option Z) :=
  match e_pref ev with
  | Some o => Ok (o_time o)
  | None => match e_origins ev with o :: _ => Ok (o_time o) | [] => Err IndexError end
  end.

(** kws of get_waveforms, util.py:81-83 *)
Record request : Type := mkReq {
  q_net : string; q_sta : string; q_loc : string; q_cha : string; q_start : Z; q_end : Z }.
(** a trace of the obtained waveforms: headers, and whether the data are a masked array *)
Record wtrace : Type := mkW { w_h : hst; w_masked : bool }.

(** what the generator does, util.py:85-103 *)
Inductive action : Type :=
| ARequest (q : request)      (* get_waveforms is called *)
| ATrim (a b : Z)             (* the obtained stream is trimmed *)
| AYield (l : list hst).

(** net, sta, loc, cha = seedid.split('.') *)
Definition split4 (s : string) : res (string * string * string * string) :=
  match split_on "." s with
  | [a; b; c; d] => Ok (a, b, c, d)
  | _ => Err ValueError
  end.

Section Iter.
  Variable gps : Q -> Q -> Q -> Q -> res (Q * Q * Q).
  Variable taup_load : string -> res unit.
  Variable taup : string -> Q -> Q -> string -> res (list arrival).
  Variable ppoint : string -> dict value -> Q -> string -> res (dict value).
  Variable str_of : value -> string.
  (** inventory.get_coordinates(seed_id, datetime) *)
  Variable coordinates : string -> option Z -> res station_d.
  (** a waveform stream of obspy with trim and merge *)
  Variable W : Type.
  Variable trim : Z -> Z -> W -> res W.
  Variable merge : W -> res W.
  Variable components : W -> list wtrace.
  (** get_waveforms of the user; None: the function returned None *)
  Variable waveforms : request -> res (option W).

  (** util.py:63-103 the body of the loop. [a]: the arguments for rfstats *)
  Definition one_pair (a : rs_args) (w0 w1 pad : Q) (stations : dict ascii) (ev : event) (seedid : string)
    : list action * option exn :=
    match origin_time ev with
    | Err e => ([], Some e)                     (* outside of try *)
    | Ok ot =>
      match (match dget stations seedid with
             | Some c => coordinates (droplast seedid ++ char_str c)%string ot
             | None => Err KeyError
             end) with
      | Err e => ([], if caught e then None else Some e)
      | Ok coords =>
        match rfstats_new gps taup_load taup ppoint
                (mkRs (Some ev) (Some coords) (r_phase a) (r_range a) (r_tt a) (r_ppdepth a) (r_ppphase a) (r_model a)) with
        | Err e => ([], if caught e then None else Some e)
        | Ok None => ([], None)
        | Ok (Some []) => ([], None)            (* if not stats *)
        | Ok (Some stats) =>
          match (let! ids := split4 seedid in let! t := time_attr stats "onset" in Ok (ids, t)) with
          | Err e => ([], Some e)
          | Ok ((net, sta, loc, cha), onset) =>
            let start := utc_add onset w0 in
            let stop := utc_add onset w1 in
            let q := mkReq net sta loc cha (utc_add start (- pad)) (utc_add stop pad) in
            match waveforms q with
            | Err e => ([ARequest q], if caught e then None else Some e)
            | Ok None => ([ARequest q], Some AttributeError)
            | Ok (Some st) =>
              match (let! st := trim start stop st in merge st) with
              | Err e => ([ARequest q; ATrim start stop], Some e)   (* outside of try *)
              | Ok st =>
                let trs := components st in
                if negb (List.length trs =? 3) then ([ARequest q; ATrim start stop], None)
                else if existsb w_masked trs then ([ARequest q; ATrim start stop], None)
                else
                  match mapM (rftrace_init str_of) (map (fun t => with_main (w_h t) (dupdate (h_main (w_h t)) stats)) trs) with
                  | Err e => ([ARequest q; ATrim start stop], Some e)
                  | Ok l => ([ARequest q; ATrim start stop; AYield l], None)
                  end
              end
            end
          end
        end
      end
    end.

  (** the for loop; the first exception that is not caught ends it *)
  Fixpoint run_pairs (f : event -> string -> list action * option exn) (l : list (event * string))
    : list action * option exn :=
    match l with
    | [] => ([], None)
    | (ev, id) :: l' =>
        match f ev id with
        | (acts, Some e) => (acts, Some e)
        | (acts, None) => let (rest, e) := run_pairs f l' in (acts ++ rest, e)
        end
    end.

  (** util.py:54-60 iter_event_data *)
  Definition iter_event_data (a : rs_args) (window : option (Q * Q)) (pad : Q) (events : list event) (channels : list string)
    : list action * option exn :=
    match last_char (r_phase a) with
    | None => ([], Some IndexError)
    | Some c =>
        let '(w0, w1) := match window with
                         | Some w => w
                         | None => if String.eqb (upper (char_str c)) "P" then (-50, 150) else (-100, 50)
                         end%Q in
        match get_stations channels with
        | Err e => ([], Some e)
        | Ok stations => run_pairs (one_pair a w0 w1 pad stations) (list_prod events (map fst stations))
        end
    end.
End Iter.

(** util.py:106-129 iter_event_metadata: the yielded dictionaries and how it ends *)
Definition one_meta (ev : option event) (seedid : string) : res (dict value) :=
  let! ids := split4 seedid in
  let '(net, sta, loc, cha) := ids in
  let meta := [("network", VStr net); ("station", VStr sta); ("location", VStr loc); ("channel", VStr cha)] in
  match ev with
  | None => Ok meta
  | Some ev => let! ot := origin_time ev in
               Ok (dset meta "event_time" (match ot with Some t => VTime t | None => VNone end))
  end.
(** for event, seedid in itertools.product(...), util.py:120-129 *)
Fixpoint run_meta (l : list (option event * string)) : list (dict value) * option exn :=
  match l with
  | [] => ([], None)
  | (ev, id) :: l' => match one_meta ev id with
                      | Err e => ([], Some e)
                      | Ok m => let (ms, e) := run_meta l' in (m :: ms, e)
                      end
  end.
(** util.py:106-129 *)
Definition iter_event_metadata (events : option (list event)) (channels : list string) : list (dict value) * option exn :=
  match get_stations channels with
  | Err e => ([], Some e)
  | Ok stations =>
      run_meta (list_prod (match events with Some l => map Some l | None => [None] end) (map fst stations))
  end.
