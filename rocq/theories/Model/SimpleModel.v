(** rf/simple_model.py and the wrappers RFStream.moveout / ppoints, over the real
    numbers. NaN in arrays is [None]; other float effects are not modelled. *)
From Verif Require Export Model.RealArr.

(** simple_model.py:49-52 _interpolate_n; np.linspace(a, b, num, endpoint=False).
    Simplification: n holds natural numbers. *)
Definition linspace (a b : R) (num : nat) : list R :=
  map (fun k => a + INR k * ((b - a) / INR num)) (seq 0 num).
(** simple_model.py:49-52 *)
Fixpoint interpolate_n (val : list R) (n : list nat) : res (list R) :=
  match val with
  | [] => Err IndexError                                  (* val[-1] *)
  | [a] => Ok [a]
  | a :: ((b :: _) as rest) =>
      match n with
      | _ :: ((n1 :: _) as ns) =>
          let! l := interpolate_n rest ns in Ok (linspace a b (n1 + 1) ++ l)
      | _ => Err IndexError                                (* n[i + 1] *)
      end
  end.

(** a SimpleModel instance. [is_array]: z, vp, vs are numpy arrays, not lists. *)
Record smodel : Type := mkModel {
  mz : list R; mdz : list R; mvp : list R; mvs : list R; is_array : bool;
  t_ref : dict (list (option R)) }.

(** np.diff *)
Fixpoint diff (l : list R) : list R :=
  match l with
  | a :: ((b :: _) as rest) => b - a :: diff rest
  | _ => []
  end.
(** simple_model.py:68-78; [arr]: the arguments are arrays. *)
Definition new_model (arr : bool) (z vp vs : list R) (n : option (list nat)) : res smodel :=
  if negb ((length z =? length vp)%nat && (length vp =? length vs)%nat) then Err AssertionError
  else
  match n with
  | None => Ok (mkModel (removelast z) (diff z) (removelast vp) (removelast vs) arr [])
  | Some n =>
      let! z := interpolate_n z n in
      let! vp := interpolate_n vp n in
      let! vs := interpolate_n vs n in
      Ok (mkModel (removelast z) (diff z) (removelast vp) (removelast vs) true [])
  end.

Section Earth.
  (** obspy degrees2kilometers(1) *)
  Variable deg2km : R.

  (** np.sqrt(v ** (-2) - hslow ** 2), velocities not zero *)
  Definition qvert (v h : R) : option R :=
    let d := (/ v) ^ 2 - h ^ 2 in
    if Rle_dec 0 d then Some (sqrt d) else None.

  (** simple_model.py:80-100. list ** int is a TypeError. A scalar 0 (letter not in
      phase) is broadcast to the number of layers. *)
  Definition vertical_slowness (m : smodel) (slowness : R) (phase : string)
    : res (list (option R) * list (option R)) :=
    let phase := upper phase in
    let h := slowness / deg2km in
    let p := char_in "P" phase in
    let s := char_in "S" phase in
    if (p || s) && negb (is_array m) then Err TypeError
    else Ok ((if p then map (fun v => qvert v h) (mvp m) else map (fun _ => Some 0) (mdz m)),
             (if s then map (fun v => qvert v h) (mvs m) else map (fun _ => Some 0) (mdz m))).

  (** arithmetic with NaN *)
  Definition olift2 (f : R -> R -> R) (a b : option R) : option R :=
    match a, b with Some x, Some y => Some (f x y) | _, _ => None end.
  (** number * array with NaN, simple_model.py:102-114 *)
  Definition oscale (c : R) (a : option R) : option R := option_map (Rmult c) a.
  (** np.cumsum *)
  Fixpoint cumsum_from (acc : option R) (l : list (option R)) : list (option R) :=
    match l with
    | [] => []
    | x :: xs => let s := olift2 Rplus acc x in s :: cumsum_from s xs
    end.
  (** np.cumsum, simple_model.py:114 *)
  Definition cumsum (l : list (option R)) : list (option R) := cumsum_from (Some 0) l.
  (** elementwise operation of numpy, simple_model.py:102-114 *)
  Fixpoint zipw3 {A B C D} (f : A -> B -> C -> D) (a : list A) (b : list B) (c : list C) : list D :=
    match a, b, c with
    | x :: a', y :: b', z :: c' => f x y z :: zipw3 f a' b' c'
    | _, _, _ => []
    end.

  (** simple_model.py:102-114 *)
  Definition delay_times (m : smodel) (slowness : R) (phase : string) : res (list (option R)) :=
    let phase := upper phase in
    let! (qp, qs) := vertical_slowness m slowness phase in
    match phase with
    | EmptyString => Err IndexError
    | String c _ =>
        let np := INR (count_char "P" phase) in
        let ns := INR (count_char "S" phase) in
        let dt p s dz :=
          oscale dz (olift2 Rminus (olift2 Rplus (oscale np p) (oscale ns s))
                                   (oscale 2 (if Ascii.eqb c "P" then p else s))) in
        Ok (cumsum (zipw3 dt qp qs (mdz m)))
    end.

  (** np.nonzero(np.isnan(t))[0][0] *)
  Fixpoint first_nan (t : list (option R)) : option nat :=
    match t with
    | [] => None
    | None :: _ => Some 0%nat
    | Some _ :: t' => option_map S (first_nan t')
    end.
  (** np.hstack((-t[1:10][::-1], t)) *)
  Definition mirror_head (t : list (option R)) : list (option R) :=
    rev (map (option_map Ropp) (pyslice t (Some 1%Z) (Some 10%Z))) ++ t.
  (** self.t_ref[phase] = ..., simple_model.py:116-151 *)
  Definition set_t_ref (m : smodel) (d : dict (list (option R))) : smodel :=
    mkModel (mz m) (mdz m) (mvp m) (mvs m) (is_array m) d.

  (** simple_model.py:116-151; the instance is changed (self.t_ref) *)
  Definition stretch_delay_times (m : smodel) (slowness : R) (phase : string) (ref : R)
    : smodel * res (list (option R) * list (option R)) :=
    if Nat.odd (String.length phase) then (m, Err ValueError)
    else
    let phase := upper phase in
    let cached :=
      match dget (t_ref m) phase with
      | Some t => (m, Ok t)
      | None => match delay_times m ref phase with
                | Ok t => (set_t_ref m (dset (t_ref m) phase t), Ok t)
                | Err e => (m, Err e)
                end
      end in
    match cached with
    | (m, Err e) => (m, Err e)
    | (m, Ok tref) =>
        (m, let! t := delay_times m slowness phase in
            let neg := match phase with String "S" _ => true | _ => false end in
            let tref := if neg then map (option_map Ropp) tref else tref in
            let t := if neg then map (option_map Ropp) t else t in
            let index := match first_nan t with
                         | Some i => (Z.of_nat i - 1)%Z
                         | None => Z.of_nat (length t)
                         end in
            Ok (mirror_head (pyslice t None (Some index)), mirror_head (pyslice tref None (Some index))))
    end.

  (** np.interp, numpy/core/src/multiarray/compiled_base.c: binary_search_with_guess and
      arr_interp. -1: before the first sample point, length: after the last one. The
      result of the search for one x is the guess for the next x. *)
  Definition ati (arr : list R) (i : Z) : R := nth (Z.to_nat i) arr 0.
  (** for (i = 1; i < len && key >= arr[i]; ++i); return i - 1 *)
  Fixpoint scan (fuel : nat) (key : R) (arr : list R) (i : Z) : Z :=
    match fuel with
    | O => (i - 1)%Z
    | S fuel' => if (i <? Z.of_nat (length arr))%Z
                 then if Rle_dec (ati arr i) key then scan fuel' key arr (i + 1) else (i - 1)%Z
                 else (i - 1)%Z
    end.
  (** binary_search_with_guess of numpy (library): bisection *)
  Fixpoint bisect (fuel : nat) (key : R) (arr : list R) (imin imax : Z) : Z :=
    match fuel with
    | O => (imin - 1)%Z
    | S fuel' => if (imin <? imax)%Z
                 then let imid := (imin + (imax - imin) / 2)%Z in
                      if Rle_dec (ati arr imid) key then bisect fuel' key arr (imid + 1) imax
                      else bisect fuel' key arr imin imid
                 else (imin - 1)%Z
    end.
  (** binary_search_with_guess of numpy (library), used by np.interp, simple_model.py:173, 184 *)
  Definition search (key : R) (arr : list R) (guess : Z) : Z :=
    let len := Z.of_nat (length arr) in
    let bis := bisect (S (length arr)) key arr in
    if Rlt_dec (ati arr (len - 1)) key then len
    else if Rlt_dec key (ati arr 0) then (-1)%Z
    else if (len <=? 4)%Z then scan (length arr) key arr 1
    else
    let guess := if (guess >? len - 3)%Z then (len - 3)%Z else guess in
    let guess := if (guess <? 1)%Z then 1%Z else guess in
    if Rlt_dec key (ati arr guess)
    then if Rlt_dec key (ati arr (guess - 1))
         then if (guess >? 8)%Z
              then if Rle_dec (ati arr (guess - 8)) key then bis (guess - 8)%Z (guess - 1)%Z
                   else bis 0%Z (guess - 1)%Z
              else bis 0%Z (guess - 1)%Z
         else (guess - 1)%Z
    else if Rlt_dec key (ati arr (guess + 1)) then guess
    else if Rlt_dec key (ati arr (guess + 2)) then (guess + 1)%Z
    else if (guess <? len - 8 - 1)%Z
         then if Rlt_dec key (ati arr (guess + 8)) then bis (guess + 2)%Z (guess + 8)%Z
              else bis (guess + 2)%Z len
         else bis (guess + 2)%Z len.
  (** [left], [right]: None means the default *)
  Definition interp_value (left right : option R) (xp fp : list R) (x : R) (j : Z) : R :=
    let len := Z.of_nat (length xp) in
    if (j =? -1)%Z then match left with Some l => l | None => ati fp 0 end
    else if (j =? len)%Z then match right with Some r => r | None => ati fp (len - 1) end
    else if (j =? len - 1)%Z then ati fp j
    else if Req_EM_T (ati xp j) x then ati fp j
    else (ati fp (j + 1) - ati fp j) / (ati xp (j + 1) - ati xp j) * (x - ati xp j) + ati fp j.
  (** np.interp (library): the guess is the last index found *)
  Fixpoint interp_walk (left right : option R) (xp fp : list R) (guess : Z) (xs : list R) : list R :=
    match xs with
    | [] => []
    | x :: xs' => let j := search x xp guess in
                  interp_value left right xp fp x j :: interp_walk left right xp fp j xs'
    end.
  (** np.interp(xs, xp, fp, left, right), simple_model.py:170-187 *)
  Definition np_interp (xs xp fp : list R) (left right : option R) : res (list R) :=
    if negb (length xp =? length fp)%nat then Err ValueError
    else match xp with
         | [] => Err ValueError                       (* array of sample points is empty *)
         | _ => Ok (interp_walk left right xp fp 0 xs)
         end.

  (** the stats entries of a trace that matter for moveout; times in ns *)
  Record mtrace : Type := mkMT {
    x_start : Z; x_onset : Z; x_delta : Z; x_data : list R;
    x_slow : R; x_before : option R; x_moveout : option string }.
  (** tr.stats.endtime, simple_model.py:161-187 *)
  Definition x_end (t : mtrace) : Z :=
    (x_start t + (if (length (x_data t) =? 0)%nat then 0 else Z.of_nat (length (x_data t)) - 1) * x_delta t)%Z.
  (** difference of two UTCDateTime in seconds, simple_model.py:161-187 *)
  Definition secs (ns : Z) : R := IZR ns / 1000000000.
  (** tr.data = ..., simple_model.py:176, 187 *)
  Definition with_data (t : mtrace) (d : list R) : mtrace :=
    mkMT (x_start t) (x_onset t) (x_delta t) d (x_slow t) (x_before t) (x_moveout t).

  (** a table without NaN *)
  Fixpoint finite (t : list (option R)) : option (list R) :=
    match t with
    | [] => Some []
    | Some x :: t' => option_map (cons x) (finite t')
    | None :: _ => None
    end.

  (** simple_model.py:178-187, P receiver functions and Sp *)
  Definition move_forward (t : mtrace) (index0 : nat) (t0 t1 : list R) : res (list R) :=
    match t0, t1 with
    | _ :: _, _ :: _ =>
        let index0 := if Rlt_dec (last t1 0) (last t0 0) then S index0 else index0 in
        let time0 := secs (x_start t - x_onset t + Z.of_nat index0 * x_delta t) in
        let old := skipn index0 (x_data t) in
        let ts := map (fun k => time0 + INR k * secs (x_delta t)) (seq 0 (length (x_data t) - index0)) in
        let! new_t := np_interp ts t0 t1 (Some 0) None in
        let! d := np_interp ts new_t old None (Some 0) in
        Ok (firstn index0 (x_data t) ++ d)
    | _, _ => Err IndexError                               (* t0[-1] *)
    end.
  (** simple_model.py:170-176, S multiples *)
  Definition move_backward (t : mtrace) (index0 : nat) (t0 t1 : list R) : res (list R) :=
    let time0 := secs (x_start t - x_onset t + Z.of_nat index0 * x_delta t) in
    let old := rev (firstn index0 (x_data t)) in
    let ts := map (fun k => - time0 - INR k * secs (x_delta t)) (seq 0 index0) in
    let! nt := np_interp (map Ropp ts) (map Ropp t0) (map Ropp t1) (Some 0) (Some 0) in
    let new_t := map Ropp nt in
    let! d := np_interp (map Ropp ts) (map Ropp new_t) old (Some 0) (Some 0) in
    Ok (rev d ++ skipn index0 (x_data t)).
  (** S_multiple, simple_model.py:153-170 *)
  Definition s_multiple (phase : string) : bool :=
    match upper phase with String "S" _ => (3 <? String.length phase)%nat | _ => false end.

  (** simple_model.py:161-187, one trace. NaN in the tables: result not modelled,
      Err OtherError. *)
  Definition moveout_trace (m : smodel) (phase : string) (ref : R) (t : mtrace)
    : smodel * res mtrace :=
    if negb ((x_start t <=? x_onset t)%Z && (x_onset t <=? x_end t)%Z) then (m, Err ValueError)
    else
    let index0 := Z.to_nat ((x_onset t - x_start t) / x_delta t) in
    match stretch_delay_times m (x_slow t) phase ref with
    | (m, Err e) => (m, Err e)
    | (m, Ok (t0, t1)) =>
        (m, match finite t0, finite t1 with
            | Some t0, Some t1 =>
                let! d := (if s_multiple phase then move_backward else move_forward) t index0 t0 t1 in
                Ok (with_data t d)
            | _, _ => Err OtherError
            end)
    end.
  (** simple_model.py:153-188: traces are changed one after the other *)
  Fixpoint moveout (m : smodel) (phase : string) (ref : R) (ts : list mtrace)
    : smodel * list mtrace * res unit :=
    match ts with
    | [] => (m, [], Ok tt)
    | t :: ts' =>
        match moveout_trace m phase ref t with
        | (m, Err e) => (m, t :: ts', Err e)
        | (m, Ok t') => match moveout m phase ref ts' with
                        | (m, r, e) => (m, t' :: r, e)
                        end
        end
    end.

  (** rfstream.py:358-378 RFStream.moveout with the model given; [method]: the method
      of the stream, None if its phases do not agree *)
  Definition default_phase (method : string) : res string :=
    if String.eqb method "P" then Ok "Ps"
    else if String.eqb method "S" then Ok "Sp" else Err KeyError.
  (** rfstream.py:374-377, one trace *)
  Definition tag_moveout (phase : string) (ref : R) (t : mtrace) : mtrace :=
    mkMT (x_start t) (x_onset t) (x_delta t) (x_data t) ref (Some (x_slow t)) (Some phase).
  (** rfstream.py:358-378 *)
  Definition stream_moveout (method : string) (m : smodel) (phase : option string) (ref : R) (ts : list mtrace)
    : smodel * list mtrace * res unit :=
    match (match phase with Some p => Ok p | None => default_phase method end) with
    | Err e => (m, ts, Err e)
    | Ok p => match moveout m p ref ts with
              | (m, ts, Err e) => (m, ts, Err e)
              | (m, ts, Ok _) => (m, map (tag_moveout p ref) ts, Ok tt)
              end
    end.

  (** np.nonzero(depth < z)[0][0] *)
  Fixpoint first_above (depth : R) (z : list R) : option nat :=
    match z with
    | [] => None
    | x :: z' => if Rlt_dec depth x then Some 0%nat else option_map S (first_above depth z')
    end.
  (** dz * slowness / DEG2KM / q; division by zero counts as NaN *)
  Definition odiv (a : R) (q : option R) : option R :=
    match q with
    | Some x => if Req_EM_T x 0 then None else Some (a / x)
    | None => None
    end.
  (** simple_model.py:190-213. None: NaN *)
  Definition ppoint_distance (m : smodel) (depth slowness : R) (phase : string) : res (option R) :=
    if Nat.even (String.length phase) then Err ValueError
    else
    let phase := upper phase in
    let! (qp, qs) := vertical_slowness m slowness phase in
    let x_of q := cumsum (zipw (fun dz q => odiv (dz * slowness / deg2km) q) (mdz m) q) in
    let xp := if char_in "P" phase then x_of qp else map (fun _ => Some 0) (mdz m) in
    let xs := if char_in "S" phase then x_of qs else map (fun _ => Some 0) (mdz m) in
    let x := zipw (olift2 Rplus) (map (oscale (INR (count_char "P" phase))) xp)
                                 (map (oscale (INR (count_char "S" phase))) xs) in
    if negb (is_array m) then Err TypeError                    (* depth < list *)
    else
    match first_above depth (mz m) with
    | None => Err IndexError
    | Some i =>
        if negb (char_in "P" phase || char_in "S" phase) then Err TypeError     (* float[index] *)
        else
        let index := (Z.of_nat i - 1)%Z in
        let! x0 := pyindex x index in
        let! x1 := pyindex x (index + 1) in
        let! z0 := pyindex (mz m) index in
        let! z1 := pyindex (mz m) (index + 1) in
        Ok (if Req_EM_T (z1 - z0) 0 then None
            else olift2 (fun a b => a + (b - a) * (depth - z0) / (z1 - z0)) x0 x1)
    end.
End Earth.
