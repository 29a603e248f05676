(** What a user may expect of files written and read in batch mode. *)
From Verif Require Import Model.Batch.

(** no wildcards; no separators of directories; no dots: codes of networks, stations, locations *)
Definition no_wild (s : string) : Prop := char_in "*" s = false /\ char_in "?" s = false.
Definition slash_free (s : string) : Prop := char_in "/" s = false.
Definition code (s : string) : Prop := no_wild s /\ slash_free s /\ char_in "." s = false.

(** formatted times: 19 characters which depend on the full second only, injective for a range of
    years *)
Definition clock (fmt : Z -> string) (year : Z -> Prop) : Prop :=
  (forall t, String.length (fmt t) = 19 /\ no_wild (fmt t) /\ slash_free (fmt t)) /\
  (forall t t', ((t / 1000000000 = t' / 1000000000)%Z -> fmt t = fmt t') /\ (year t -> year t' -> fmt t = fmt t' -> (t / 1000000000 = t' / 1000000000)%Z)).

(** a station and an event *)
Record spair : Type := mkPair { p_net : string; p_sta : string; p_loc : string; p_time : Z }.
Definition same_station (p q : spair) : Prop := p_net p = p_net q /\ p_sta p = p_sta q /\ p_loc p = p_loc q.
(** the same up to one second *)
Definition same_pair (p q : spair) : Prop := same_station p q /\ (p_time p / 1000000000 = p_time q / 1000000000)%Z.
Definition proper (year : Z -> Prop) (p : spair) : Prop := code (p_net p) /\ code (p_sta p) /\ code (p_loc p) /\ year (p_time p).
(** a trace of this pair; files may have changed its event_time within the second *)
Definition trace_of (p : spair) (t : trace) : Prop :=
  network (st t) = p_net p /\ station (st t) = p_sta p /\ location (st t) = p_loc p /\
  exists e, dget (extra (st t)) "event_time" = Some (VTime e) /\ (e / 1000000000 = p_time p / 1000000000)%Z.
(** channels with three letters, each once *)
Definition three_letters (s : string) : Prop := String.length s = 3 /\ slash_free s.
Definition channels_ok (s : list trace) : Prop :=
  NoDup (map (fun t => channel (st t)) s) /\ Forall (fun t => three_letters (channel (st t))) s.

(** files are read trace by trace; this may change anything but the codes, e.g. round header values *)
Definition same_codes (t u : trace) : Prop :=
  network (st u) = network (st t) /\ station (st u) = station (st t) /\ location (st u) = location (st t) /\ channel (st u) = channel (st t).
Definition reads (load : list trace -> res (list trace)) (rd : trace -> trace) : Prop :=
  (forall l, load l = Ok (map rd l)) /\ forall t, same_codes t (rd t).

(** a stream of a pair *)
Definition good (year : Z -> Prop) (ps : spair * list trace) : Prop :=
  proper year (fst ps) /\ Forall (trace_of (fst ps)) (snd ps) /\ snd ps <> [] /\ channels_ok (snd ps).
(** what the iterator makes of the result of reading: errors are skipped *)
Definition read_result (r : res (list trace)) : res (option (list trace)) :=
  match r with Ok s => Ok (Some s) | Err e => if caught e then Ok None else Err e end.

(** the dictionaries which iter_event_metadata yields for a pair, and for a station without events *)
Definition meta (p : spair) (cha : string) : dict value :=
  [("network", VStr (p_net p)); ("station", VStr (p_sta p)); ("location", VStr (p_loc p)); ("channel", VStr cha); ("event_time", VTime (p_time p))].
Definition station_meta (p : spair) (cha : string) : dict value :=
  [("network", VStr (p_net p)); ("station", VStr (p_sta p)); ("location", VStr (p_loc p)); ("channel", VStr cha)].

(** files which are not those of a run with this output path *)
Definition unrelated (root : string) (fs : files) : Prop :=
  forall n f, In (n, f) fs -> (forall s, n <> (root ++ "/" ++ s)%string) /\ n <> (root ++ ".h5")%string.

Definition op_name (o : wop) : string := match o with Put n _ => n | Append n _ => n | Dataset n _ _ => n end.
(** the entry of a file *)
Definition entry (fs : files) (name key : string) : option trace := dget (contents fs name) key.
(** a crash during a run: some of the operations are done, and the file of the next one (if it is
    created or replaced) may have any content *)
Inductive crashed (fs : files) (ops : list wop) : files -> Prop :=
| crash_between k : crashed fs ops (do_ops fs (firstn k ops))
| crash_during k n t rest torn : skipn k ops = Put n t :: rest -> crashed fs ops (dset (do_ops fs (firstn k ops)) n torn).

(** all traces of the streams of a station *)
Definition of_station (p : spair) (streams : list (spair * list trace)) : list trace :=
  flat_map snd (filter (fun ps => String.eqb (p_net p) (p_net (fst ps)) && String.eqb (p_sta p) (p_sta (fst ps)) && String.eqb (p_loc p) (p_loc (fst ps))) streams).

(** The part of a run which went well: items are read, processed and written one after the other.
    [succeeded fs items ops fs']: these items were finished by the operations ops. *)
Section Run.
  Context {I : Type}.
  Variable get : files -> I -> res (option (list trace)).
  Variable process : list trace -> res (list trace).
  Variable save : list trace -> list wop * option exn.
  Inductive succeeded : files -> list I -> list wop -> files -> Prop :=
  | s_none fs : succeeded fs [] [] fs
  | s_skip fs i items ops fs' : get fs i = Ok None -> succeeded fs items ops fs' -> succeeded fs (i :: items) ops fs'
  | s_write fs i items stream out ops1 ops2 fs' : get fs i = Ok (Some stream) -> process stream = Ok out -> save out = (ops1, None) ->
      succeeded (do_ops fs ops1) items ops2 fs' -> succeeded fs (i :: items) (ops1 ++ ops2) fs'.
  (** an item fails: nothing is written for it, or what the writer had written when it failed *)
  Inductive fails (fs : files) (i : I) : list wop -> exn -> Prop :=
  | f_get e : get fs i = Err e -> fails fs i [] e
  | f_process stream e : get fs i = Ok (Some stream) -> process stream = Err e -> fails fs i [] e
  | f_write stream out ops e : get fs i = Ok (Some stream) -> process stream = Ok out -> save out = (ops, Some e) -> fails fs i ops e.
End Run.

(** codes without directories, of traces and of the dictionaries of the iterators *)
Definition slashless (t : trace) : Prop :=
  slash_free (network (st t)) /\ slash_free (station (st t)) /\ slash_free (location (st t)) /\ slash_free (channel (st t)).
Definition meta_ok (m : dict value) : Prop :=
  slash_free (meta_str m "network") /\ slash_free (meta_str m "station") /\ slash_free (meta_str m "location").
(** the same files (SAC), or the same datasets in all files (H5) *)
Definition same_result (fmt : string) (fs fs' : files) : Prop :=
  (fmt = "SAC" -> forall n, dget fs n = dget fs' n) /\ (fmt = "H5" -> forall n k, entry fs n k = entry fs' n k).
