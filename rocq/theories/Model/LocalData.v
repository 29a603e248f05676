(** The command data of rf/batch.py with a local file as source of the waveforms (batch.py:155-163),
    together with the loops of util.py:84-103 and batch.py:353-364, on arrays in memory. *)
From Verif Require Export Model.Memory Model.EventData.
From Verif Require Import Model.Figures.

(** fnmatch(text, pattern) as used by Stream.select (library obspy): not case sensitive *)
Definition glob (p s : string) : bool := fnmatch (list_ascii_of_string (upper p)) (list_ascii_of_string (upper s)).
(** stream.select(network=, station=, location=, channel=), batch.py:159-160 *)
Definition selects (q : request) (t : trace) : bool :=
  glob (q_net q) (network (st t)) && glob (q_sta q) (station (st t)) && glob (q_loc q) (location (st t)) && glob (q_cha q) (channel (st t)).
(** Stream.trim(nearest_sample=True) of obspy (library contract): both times are moved to the
    nearest samples of the first trace *)
Definition snap_start (t : trace) (a : Z) : Z := (starttime (st t) + round_away (a - starttime (st t)) (delta (st t)) * delta (st t))%Z.
(** see above *)
Definition snap_end (t : trace) (b : Z) : Z := (endtime t + round_away (b - endtime t) (delta (st t)) * delta (st t))%Z.
(** tr.stats.update(stats), util.py:102 *)
Definition update_stats (s : stats) (d : dict value) : stats :=
  mkStats (network s) (station s) (location s) (channel s) (starttime s) (delta s) (dupdate (extra s) d).

(** st.slice(starttime, endtime) (library obspy), batch.py:161: new objects, views, empty traces are dropped *)
Definition v_slice (a b : Z) (ls new : list loc) (w : world) : world * res (list loc) :=
  match mapM (fun l => cut (w_mem w) (w_obj w l) (STime a) (STime b)) ls with
  | Err e => (w, Err e)
  | Ok l => let l' := filter (fun t => negb (npts (look (w_mem w) t) =? 0)%Z) l in
            (mkWorld (w_mem w) (oset_list (w_obj w) new l'), Ok (firstn (List.length l') new))
  end.
(** for trace in stream: trace.trim(a, b) (library obspy) *)
Fixpoint v_cut_loop (a b : Z) (ls : list loc) (w : world) : world * res unit :=
  match ls with
  | [] => (w, Ok tt)
  | l :: ls' => match cut (w_mem w) (w_obj w l) (STime a) (STime b) with
                | Err e => (w, Err e)
                | Ok t => v_cut_loop a b ls' (mkWorld (w_mem w) (oset (w_obj w) l t))
                end
  end.
(** stream.trim(starttime, endtime), util.py:88 *)
Definition v_stream_trim (a b : Z) (ls : list loc) (w : world) : world * res (list loc) :=
  match ls with
  | [] => (w, Ok [])
  | l0 :: _ => match v_cut_loop (snap_start (seen w l0) a) (snap_end (seen w l0) b) ls w with
               | (w', Err e) => (w', Err e)
               | (w', Ok _) => (w', Ok (filter (fun l => negb (npts (seen w' l) =? 0)%Z) ls))
               end
  end.
(** stream.merge(), util.py:89 (library obspy): of the traces of the result, some are traces of the
    stream as they are (number), the others are joined to new arrays (with a mask or not) *)
Definition plan : Type := list (nat + trace * bool).
(** the new traces are stored at [next], ... *)
Fixpoint v_merge (p : plan) (ls : list loc) (next : loc) (w : world) : world * list (loc * bool) :=
  match p with
  | [] => (w, [])
  | inl i :: p' => let (w', r) := v_merge p' ls next w in
                   (w', match nth_error ls i with Some l => (l, false) :: r | None => r end)
  | inr (t, m) :: p' => let (w', r) := v_merge p' ls (S next) (assign w next t) in (w', (next, m) :: r)
  end.
(** what is asked for: kws, the window, and the stats of event and station, util.py:78-83 *)
Record item : Type := mkItem { i_req : request; i_start : Z; i_stop : Z; i_stats : dict value }.
(** commands after data, batch.py:355-362 *)
Inductive command : Type := CData | CCalc (a : rf_args) | CMoveout.

Section Local.
  Variable str_of : value -> string.
  Variable filt : act.
  Variable lowpass : Z -> list Q -> list Q.
  Variable rot : list loc -> heap -> heap * res unit.
  Variable rot_new : list loc -> list loc.
  Variable dec : string -> list loc -> heap -> heap * res unit.
  Variable dec_new : list loc -> list loc.
  Variable mo : trace -> res (list Q).
  Variable mark : stats -> stats.
  Variable merge : list trace -> plan.

  (** util.py:85-103 and batch.py:155-163, one pair of event and station: the stream which is yielded.
      Places for new objects are [next], ...; the number is the next free one afterwards. *)
  Definition local_stream (file : list loc) (it : item) (w : world) (next : loc) : world * loc * res (option (list loc)) :=
    let sel := filter (fun l => selects (i_req it) (seen w l)) file in
    let n1 := next + List.length sel in
    match v_slice (q_start (i_req it)) (q_end (i_req it)) sel (seq next (List.length sel)) w with
    | (w1, Err e) => (w1, n1, Err (if caught e then AttributeError else e))   (* the wrapper returns None *)
    | (w1, Ok ls) =>
        match v_stream_trim (i_start it) (i_stop it) ls w1 with
        | (w2, Err e) => (w2, n1, Err e)
        | (w2, Ok ls2) =>
            let p := merge (map (seen w2) ls2) in
            let n2 := n1 + List.length p in
            let (w3, ms) := v_merge p ls2 n1 w2 in
            if negb (List.length ms =? 3) then (w3, n2, Ok None)
            else if existsb snd ms then (w3, n2, Ok None)
            else let ls3 := map fst ms in
                 let w4 := fold_left (fun w l => restat w l (update_stats (v_st (w_obj w l)) (i_stats it))) ls3 w3 in
                 let (w5, r) := v_init ls3 (seq n2 3) w4 in
                 (w5, n2 + 3, let! l := r in Ok (Some l))
        end
    end.
  (** batch.py:355-362 *)
  Fixpoint v_commands (cmds : list command) (ls : list loc) (w : world) : world * res (list loc) :=
    match cmds with
    | [] => (w, Ok ls)
    | CData :: cs => v_commands cs ls w
    | CCalc a :: cs => match v_rf str_of filt lowpass rot rot_new dec dec_new a ls w with
                       | (w', Err e) => (w', Err e)
                       | (w', Ok ls') => v_commands cs ls' w'
                       end
    | CMoveout :: cs => match v_moveout mo mark ls w with
                        | (w', Err e) => (w', Err e)
                        | (w', Ok _) => v_commands cs ls w'
                        end
    end.
  (** the whole loop: streams which are yielded, streams which are written, and the exception *)
  Fixpoint local_run (cmds : list command) (file : list loc) (items : list item) (w : world) (next : loc)
    : list (list trace) * list (list trace) * option exn :=
    match items with
    | [] => ([], [], None)
    | it :: items' =>
        match local_stream file it w next with
        | (_, _, Err e) => ([], [], Some e)
        | (w1, n1, Ok None) => local_run cmds file items' w1 n1
        | (w1, n1, Ok (Some ls)) =>
            match v_commands cmds ls w1 with
            | (_, Err e) => ([map (seen w1) ls], [], Some e)
            | (w2, Ok ls') => let '(ys, ws, e) := local_run cmds file items' w2 n1 in
                              (map (seen w1) ls :: ys, map (seen w2) ls' :: ws, e)
            end
        end
    end.
End Local.
