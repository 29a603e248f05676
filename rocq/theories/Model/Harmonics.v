(** rf/harmonics.py: harmonic decomposition over the real numbers. The least squares
    solvers (np.linalg.lstsq for real and for complex data) are parameters. *)
From Verif Require Export Model.Trace Model.Cplx.
From Coq Require Export Qreals.
Open Scope R_scope.

(** a receiver function; entries of stats are rational numbers (floats) *)
Record htrace : Type := mkHT { ht_st : stats; ht_data : list R }.

(** np.radians *)
Definition radians (x : R) : R := x * PI / 180.

(** harmonics.py:136-169 decomp_two: The rows of the returned matrix, first of the
    R/Q, then of the T component *)
Definition decomp_two (baz : list R) (azim : R) (scalars : R * R) : list (list R) :=
  map (fun b => let x := radians (b - azim) in
         [fst scalars; cos x; sin x; cos (2 * x); sin (2 * x); 0; cos x; sin x; cos (2 * x); sin (2 * x)]) baz ++
  map (fun b => let x := radians (b - azim) in
         [0; - sin x; cos x; - sin (2 * x); cos (2 * x); snd scalars; sin x; - cos x; sin (2 * x); - cos (2 * x)]) baz.
(** harmonics.py:172-185 decomp_one *)
Definition decomp_one (baz : list R) (azim : R) : list (list R) :=
  map (fun b => let x := radians (b - azim) in [1; cos x; sin x; cos (2 * x); sin (2 * x)]) baz.

(** stream.select(channel='*c'), case insensitive *)
Definition select_comp (c : ascii) (s : list htrace) : list htrace :=
  filter (fun t => endswith_char (upper (channel (ht_st t))) (upper_char c)) s.
(** stats['event_time'] as key of sort. Simplification: times are compared in ns,
    other types of values are an error. *)
Definition event_time (t : htrace) : res Z :=
  match dget (extra (ht_st t)) "event_time" with
  | Some (VTime z) => Ok z
  | Some _ => Err TypeError
  | None => Err KeyError
  end.
(** Stream.sort(['event_time']), stable *)
Definition sort_time (s : list htrace) : res (list htrace) :=
  let! keys := mapM event_time s in
  Ok (map snd (sort (fun a b => Z.leb (fst a) (fst b)) (combine keys s))).
(** tr.stats.back_azimuth *)
Definition back_azimuth (t : htrace) : res R :=
  match dget (extra (ht_st t)) "back_azimuth" with
  | Some (VNum q) => Ok (Q2R q)
  | Some _ => Err TypeError
  | None => Err AttributeError
  end.
(** np.array of arrays: ValueError for different lengths *)
Definition stack_rows (s : list htrace) : res (list (list R)) :=
  let rows := map ht_data s in
  if same_length rows then Ok rows else Err ValueError.
(** np.fft.fft of a row *)
Definition fft_row (r : list R) : res (list cplx) :=
  match length r with O => Err ValueError | n => Ok (fft r n) end.

(** a[:, i] *)
Definition column {A} (rows : list (list A)) (i : nat) : res (list A) :=
  mapM (fun r => match nth_error r i with Some x => Ok x | None => Err IndexError end) rows.

(** harmonics.py:87-100: the loop over samples; the columns of hd. LinAlgError if the
    numbers of rows differ *)
Definition fit {A} (lstsq : list (list R) -> list A -> list A) (jac : list (list R)) (rows rowsT : list (list A)) (npts : nat)
  : res (list (list A)) :=
  mapM (fun i => let! r := column rows i in
                 let! t := column rowsT i in
                 if (length (r ++ t) =? length jac)%nat then Ok (lstsq jac (r ++ t)) else Err LinAlgError)
       (seq 0 npts).
(** the rows hd[j] *)
Definition hd_rows {A} (d : A) (nharm : nat) (cols : list (list A)) : list (list A) :=
  map (fun j => map (fun col => nth j col d) cols) (seq 0 nharm).

(** change of the element with index i, harmonics.py:108-133 *)
Definition upd {A} (l : list A) (i : nat) (f : A -> A) : list A :=
  match skipn i l with
  | [] => l
  | x :: r => firstn i l ++ f x :: r
  end.
(** tr.stats[k] = v, harmonics.py:108-133 *)
Definition ht_set (k : string) (v : value) (t : htrace) : htrace :=
  let s := ht_st t in
  mkHT (mkStats (network s) (station s) (location s) (channel s) (starttime s) (delta s) (dset (extra s) k v)) (ht_data t).
(** tr.stats['channel'] = c, harmonics.py:108-133 *)
Definition ht_channel (c : string) (t : htrace) : htrace :=
  let s := ht_st t in
  mkHT (mkStats (network s) (station s) (location s) c (starttime s) (delta s) (extra s)) (ht_data t).
(** tr.stats['location'] = c, harmonics.py:108-133 *)
Definition ht_location (c : string) (t : htrace) : htrace :=
  let s := ht_st t in
  mkHT (mkStats (network s) (station s) c (channel s) (starttime s) (delta s) (extra s)) (ht_data t).
(** harmonics.py:108-115 *)
Definition clean (s : stats) : stats :=
  mkStats (network s) (station s) (location s) (channel s) (starttime s) (delta s)
    (dset (fold_left ddel ["processing"; "event_id"; "event_depth"; "event_latitude"; "event_longitude";
             "event_magnitude"; "inclination"; "slowness"; "event_time"; "back_azimuth"] (extra s))
          "type" (VStr "harmonic")).
(** names of the harmonics, harmonics.py:107-133 *)
Definition terms : list string := ["constant"; "cos"; "sin"; "cos2"; "sin2"].
(** str(i) for i < 5 *)
Definition digit (i : nat) : string := nth i ["0"; "1"; "2"; "3"; "4"] "".
(** harmonics.py:107-133 *)
Definition harm_out (first : stats) (hd : list (list R)) (components : string) (two : bool) : list htrace :=
  let out := map (mkHT (clean first)) hd in
  let out := fold_left (fun out i =>
    upd out i (fun t => ht_set "components" (VStr components) (ht_location "mod"
                 (ht_set "term" (VStr (nth i terms "")) (ht_channel (digit i) t))))) (seq 0 5) out in
  if two
  then let out := fold_left (fun out i =>
         upd out i (fun t => ht_location "unmod" (ht_set "term" (VStr (nth (i - 5) terms "")) (ht_channel (digit (i - 5)) t))))
         (seq 5 5) out in
       upd out 9 (ht_set "components" (VStr components))       (* i is 9 after the loop *)
  else out.

Section Harmonics.
  (** np.linalg.lstsq(jac, v, rcond=None)[0] for real and for complex v *)
  Variable lstsq : list (list R) -> list R -> list R.
  Variable clstsq : list (list R) -> list cplx -> list cplx.

  (** harmonics.py:48-133. [scalars]: the keyword argument of decomp_two. The warning for
      few traces and the processing information of the decorator are not modelled here. *)
  Definition harmonics (stream : list htrace) (components : string) (azim : R) (method : string) (scalars : option (R * R))
    : res (list htrace) :=
    if negb (existsb (String.eqb components) ["RT"; "R"; "Q"; "QT"; "T"]) then Err NotImplementedError
    else
    match list_ascii_of_string components with
    | [] => Err IndexError
    | c0 :: cs =>
      if existsb (fun c => (length (select_comp c stream) =? 0)%nat) (c0 :: cs) then Err ValueError
      else if negb (existsb (String.eqb method) ["time"; "freq"]) then Err NotImplementedError
      else
      let two := match cs with [] => false | _ => true end in
      let! trs := sort_time (select_comp c0 stream) in
      let! baz := mapM back_azimuth trs in
      let! rfR := stack_rows trs in
      let! rfT := (if two then let! trsT := sort_time (select_comp "T" stream) in stack_rows trsT else Ok []) in
      match stream with
      | [] => Err IndexError
      | first :: _ =>
        let npts := length (ht_data first) in
        let nharm := if two then 10%nat else 5%nat in
        let jacobian := if two then Ok (decomp_two baz azim (match scalars with Some s => s | None => (3, 3 / 10) end))
                        else match scalars with Some _ => Err TypeError | None => Ok (decomp_one baz azim) end in
        let! hd := (if String.eqb method "time" then
                      let! jac := jacobian in
                      let! cols := fit lstsq jac rfR rfT npts in
                      Ok (hd_rows 0 nharm cols)
                    else
                      let! fR := mapM fft_row rfR in
                      let! fT := mapM fft_row rfT in
                      let! jac := jacobian in
                      let! cols := fit clstsq jac fR fT npts in
                      match npts with
                      | O => Err ValueError
                      | _ => Ok (map (fun row => map fst (ifft row npts)) (hd_rows Czero nharm cols))
                      end) in
        Ok (harm_out (ht_st first) hd components two)
      end
    end.
End Harmonics.
