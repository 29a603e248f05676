(** rf/imaging.py: what is drawn where. Figures are described by the arrays and
    numbers given to matplotlib; sizes, colors, ticks and files are not modelled,
    and the argument trim is not (it calls slice2, see Model/Times.v). *)
From Verif Require Export Model.Trace Model.Num Model.Stack.
From Coq Require Export Qabs.
Open Scope nat_scope.

(** ** _label (imaging.py:15-23) *)
(** '{x:.2}'.format(x) for a text: the first two characters *)
Definition first2 (s : string) : string := substring 0 2 s.
(** imaging.py:16-19 *)
Definition label_fmts : list (trace -> string) :=
  [(fun t => let s := st t in network s ++ "." ++ station s ++ "." ++ location s ++ "." ++ channel s);
   (fun t => let s := st t in network s ++ "." ++ station s ++ "." ++ location s ++ "." ++ first2 (channel s) ++ "?");
   (fun t => let s := st t in network s ++ "." ++ station s)]%string.
(** imaging.py:15-23 *)
Definition label (stream : list trace) : string :=
  (fix go (fmts : list (trace -> string)) : string :=
     match fmts with
     | [] => ""
     | f :: fmts' => match dedup String.eqb (map f stream) with
                     | [x] => x
                     | _ => go fmts'
                     end
     end) label_fmts.

(** ** helpers for numpy *)
Definition Qmax (a b : Q) : Q := if Qle_bool a b then b else a.
(** min(a, b), imaging.py:119 *)
Definition Qmin (a b : Q) : Q := if Qle_bool a b then a else b.
(** max(l), min(l); ValueError for an empty sequence *)
Definition py_max (l : list Q) : res Q :=
  match l with [] => Err ValueError | x :: xs => Ok (fold_left Qmax xs x) end.
(** min(l), imaging.py:318-319 *)
Definition py_min (l : list Q) : res Q :=
  match l with [] => Err ValueError | x :: xs => Ok (fold_left Qmin xs x) end.
(** np.max(np.abs(d)) and max(abs(d)) *)
Definition max_abs (d : list Q) : res Q := py_max (map Qabs d).
(** x / m; None (nan or infinite) for m = 0 *)
Definition qdiv (x m : Q) : option Q := if Qeq_bool m 0 then None else Some (x / m)%Q.

(** tr.stats.onset *)
Definition onset_of (t : trace) : res Z :=
  match dget (extra (st t)) "onset" with
  | None => Err AttributeError
  | Some (VTime o) => Ok o
  | Some _ => Err TypeError
  end.
(** tr.times(reftime=onset) (library), in ns *)
Definition times_rel (t : trace) : res (list Z) :=
  let! o := onset_of t in
  Ok (map (fun i => starttime (st t) - o + Z.of_nat i * delta (st t))%Z (seq 0 (List.length (data t)))).
(** attributes which are numbers *)
Definition num_attr (k : string) (t : trace) : res Q :=
  match dget (extra (st t)) k with
  | None => Err AttributeError
  | Some (VNum q) => Ok q
  | Some _ => Err TypeError
  end.

(** ** plot_rf (imaging.py:26-187) *)
Record rf_plot : Type := mkRfPlot {
  (* one line for each trace: level, times, amplitudes relative to the level *)
  rp_lines : list (nat * list Z * list (option Q));
  (* header, points (value, level) *)
  rp_info : list (string * list (value * nat));
  rp_xlim : Z * Z;
  rp_ylim : Q * Q;
  rp_stack : option (list Z * list Q);
  rp_title : nat * string }.

(** imaging.py:114-124: loop over the traces with xlim and the last times *)
Definition plot_rf_step (show_traces trace_scale : bool) (scale_factor max_ : Q)
    (acc : (list (nat * list Z * list (option Q)) * (Z * Z) * list Z * nat)) (tr : trace)
  : res (list (nat * list Z * list (option Q)) * (Z * Z) * list Z * nat) :=
  let '(lines, (x0, x1), _, i) := acc in
  let! times := times_rel tr in
  match times with
  | [] => Err IndexError
  | t0 :: _ =>
      let xlim := (Z.min x0 t0, Z.max x1 (last times t0)) in
      if show_traces then
        let! m := (if trace_scale then max_abs (data tr) else Ok max_) in
        let line := map (fun d => option_map (fun x => x * scale_factor)%Q (qdiv d m)) (data tr) in
        Ok (lines ++ [(i + 1, times, line)], xlim, times, i + 1)
      else Ok (lines, xlim, times, i + 1)
  end.
(** imaging.py:97-104, 126-129; only two entries of info are prepared with an axes *)
Definition plot_info (stream : list trace) (info : list string) : res (list (string * list (value * nat))) :=
  if Nat.ltb 2 (List.length info) then Err ValueError
  else mapM (fun header =>
         let! vals := mapM (fun t => match tr_get t header with Some v => Ok v | None => Err KeyError end) stream in
         Ok (header, combine vals (map S (seq 0 (List.length stream))))) info.
(** imaging.py:151-165. [ids]: iteration order of the set of ids in stack(). Only
    ValueError is caught. *)
Definition plot_stack (ids : list string) (stream : list trace) (times : list Z) : res (option (list Z * list Q)) :=
  match stack ids stream with
  | Err ValueError => Ok None
  | Err e => Err e
  | Ok [s] => Ok (Some (times, data s))
  | Ok _ => Ok None
  end.
(** [info]: the headers (first entries) of the argument info, [] for None *)
Definition plot_rf (ids : list string) (stream : list trace) (trace_scale : bool) (scale_factor : Q)
    (info : list string) (show_traces : bool) : res (option rf_plot) :=
  match stream with
  | [] => Ok None
  | _ =>
      let info := if show_traces then info else [] in
      let! maxs := mapM (fun t => max_abs (data t)) stream in
      let! max_ := py_max maxs in
      let! (lines, xlim, times, _) :=
        foldM (plot_rf_step show_traces trace_scale scale_factor max_) stream ([], (0, 0)%Z, [], 0) in
      let! points := plot_info stream info in
      let! stk := plot_stack ids stream times in
      Ok (Some (mkRfPlot lines points xlim
                  (- (1#2), inject_Z (Z.of_nat (List.length stream)) + (3#2))%Q
                  stk (List.length stream, label stream)))
  end.

(** ** plot_stations (imaging.py:215-235): points (lon, lat) and labels *)
(** tr.stats.station_latitude etc. A stream without these entries raises
    AttributeError and is then treated as an inventory, which raises again
    (iterating over a trace); the text of the error is not modelled. *)
Definition sta_eqb (a b : (Q * Q) * string) : bool :=
  Qeq_bool (fst (fst a)) (fst (fst b)) && Qeq_bool (snd (fst a)) (snd (fst b)) && String.eqb (snd a) (snd b).
(** The order of the set is arbitrary, here the one of dedup. ValueError: zip( *[])
    cannot be unpacked. *)
Definition plot_points (data : list ((Q * Q) * string)) (label_stations : bool)
  : res (list (Q * Q) * list (string * (Q * Q))) :=
  match data with
  | [] => Err ValueError
  | _ => let latlons := map fst data in
         let names := map snd data in
         let rev2 (p : Q * Q) := (snd p, fst p) in
         Ok (map rev2 latlons,
             if label_stations then map (fun ln => (snd ln, rev2 (fst ln))) (combine latlons names) else [])
  end.
(** imaging.py:215-219, 224-236 *)
Definition plot_stations_stream (stream : list trace) (label_stations : bool)
  : res (list (Q * Q) * list (string * (Q * Q))) :=
  let! data := mapM (fun t =>
    let! la := num_attr "station_latitude" t in
    let! lo := num_attr "station_longitude" t in
    Ok ((la, lo), station (st t))) stream in
  plot_points (dedup sta_eqb data) label_stations.
(** an inventory: networks with stations (code, latitude, longitude) *)
Definition plot_stations_inventory (inv : list (list (string * Q * Q))) (label_stations : bool)
  : res (list (Q * Q) * list (string * (Q * Q))) :=
  plot_points (List.concat (map (map (fun s => let '(code, la, lo) := s in ((la, lo), code))) inv)) label_stations.

(** ** plot_profile (imaging.py:311-375) without the axis of depths (336-359) *)
Record profile_plot : Type := mkProfilePlot {
  pp_lines : list (Q * list (option Q) * list Z);   (* baseline, x, times *)
  pp_xlim : Q * Q;
  pp_bars : option (list (Q * Q * Q)) }.            (* left end, right end, height *)
(** ax.bar(x, height, width) (library): align='center' *)
Definition bar (x height width : Q) : Q * Q * Q := (x - width / 2, x + width / 2, height)%Q.
(** imaging.py:289-380 *)
Definition plot_profile (profile : list trace) (scale : Q) (top : option string) : res (option profile_plot) :=
  match profile with
  | [] => Ok None
  | _ =>
      let! widths := mapM (num_attr "box_length") profile in
      let! minw := py_min widths in
      let pad := (Qmax 1 scale * minw)%Q in
      let! poss := mapM (num_attr "box_pos") profile in
      let! lo := py_min poss in
      let! hi := py_max poss in
      let! maxs := mapM (fun t => max_abs (data t)) profile in
      let! max_ := py_max maxs in
      let! lines := mapM (fun tr =>
        let! pos := num_attr "box_pos" tr in
        let! y := times_rel tr in
        Ok (pos, map (fun d => option_map (fun x => pos + x * minw)%Q (qdiv (scale * d)%Q max_)) (data tr), y)) profile in
      let! bars :=
        (match top with
         | None => Ok None
         | Some tp =>
             if negb (String.eqb tp "hist") then Err NotImplementedError else
             let left := map (fun pw => fst pw - snd pw / 2)%Q (combine poss widths) in
             let! height := mapM (num_attr "num") profile in
             Ok (Some (map (fun p => let '(x, h, w) := p in bar x h w) (combine (combine left height) widths)))
         end) in
      Ok (Some (mkProfilePlot lines (lo - pad, hi + pad)%Q bars))
  end.

(** ** plot_harmonics (imaging.py:405-458) *)
(** Stream.select(location=loc) (library): not case sensitive *)
Definition select_loc (loc : string) (s : list trace) : list trace :=
  filter (fun t => String.eqb (upper (location (st t))) (upper loc)) s.
(** hd.select(channel=cha), imaging.py:413 (library): not case sensitive *)
Definition select_cha (cha : string) (s : list trace) : list trace :=
  filter (fun t => String.eqb (upper (channel (st t))) (upper cha)) s.
(** int(s). Simplification: digits only. *)
Fixpoint int_digits (s : string) (acc : Z) : res Z :=
  match s with
  | EmptyString => Ok acc
  | String a s' =>
      let n := nat_of_ascii a in
      if (48 <=? n) && (n <=? 57) then int_digits s' (10 * acc + Z.of_nat (n - 48))%Z else Err ValueError
  end.
(** int(tr.stats['channel']), imaging.py:444, 450 *)
Definition py_int (s : string) : res Z :=
  match s with EmptyString => Err ValueError | _ => int_digits s 0 end.
(** imaging.py:413-417 and, with the comparison to ref0 instead of ref1, 419-422 *)
Definition head_ref (s : list trace) : res Q :=
  let! t := pyindex s 0 in max_abs (data t).
(** imaging.py:415-416 *)
Definition ref_step (r : Q) (t : trace) : res Q :=
  let! m := max_abs (data t) in Ok (if Qle_bool m r then r else m).
(** imaging.py:421-422 *)
Definition ref1_step (ref0 r : Q) (t : trace) : res Q :=
  let! m := max_abs (data t) in Ok (if Qle_bool m ref0 then r else m).
(** one wiggle: row, times, amplitudes relative to the row *)
Definition harm_line (ref : Q) (t : trace) : res (Z * list Z * list (option Q)) :=
  let! times := times_rel t in
  let! c := py_int (channel (st t)) in
  Ok ((4 - c)%Z, times, map (fun d => qdiv d ref) (data t)).
(** labels of the rows 0 to 4 (imaging.py:464-465) *)
Definition row_labels : list string := ["sin($2\theta$)"; "cos($2\theta$)"; "sin($\theta$)"; "cos($\theta$)"; "constant"].
(** imaging.py:383-472 *)
Definition plot_harmonics (hd : list trace) (hd2 : option (list trace))
  : res (list (Z * list Z * list (option Q)) * list (Z * list Z * list (option Q))) :=
  let! r := head_ref (select_cha "0" (select_loc "mod" hd)) in
  let! ref0 := foldM ref_step hd r in
  let modl := select_loc "mod" hd in
  let! (ref1, unmod) :=
    (match hd2 with
     | Some (t2 :: ts2) =>
         let hd2 := t2 :: ts2 in
         let! r := head_ref (select_cha "0" (select_loc "mod" hd2)) in
         let! ref1 := foldM (ref1_step ref0) (select_loc "mod" hd2) r in
         Ok (ref1, select_loc "mod" hd2)
     | _ => Ok (ref0, select_loc "unmod" hd)
     end) in
  foldM (fun lr i =>
    let '(lhs, rhs) := lr in
    let! t := pyindex modl (Z.of_nat i) in
    let! l := harm_line ref0 t in
    match unmod with
    | [] => Ok (lhs ++ [l], rhs)
    | _ => let! u := pyindex unmod (Z.of_nat i) in
           let! r := harm_line ref1 u in
           Ok (lhs ++ [l], rhs ++ [r])
    end) (seq 0 5) ([], []).
