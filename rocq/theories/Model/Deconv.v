(** rf/deconvolve.py:13-20, 23-161: nearest sample and the driver deconvolve().
    The numerical kernels (modelled in separate files) and tapering are parameters. *)
From Verif Require Export Model.Times.

(** deconvolve.py:13-20 __find_nearest on an increasing array (times in ns).
    np.searchsorted(side='left') = number of elements smaller than value. Both
    array[idx-1] and array[idx] are evaluated before idx is tested. *)
Definition searchsorted (a : list Z) (v : Z) : nat := List.length (filter (fun x => x <? v)%Z a).
(** deconvolve.py:13-20 *)
Definition find_nearest (a : list Z) (v : Z) : res nat :=
  let idx := searchsorted a v in
  let! x := pyindex a (Z.of_nat idx - 1) in
  let! y := pyindex a (Z.of_nat idx) in
  let expr := (Z.abs (v - x) <? Z.abs (v - y))%Z in
  if (0 <? idx) && ((idx =? List.length a) || expr) then Ok (idx - 1) else Ok idx.

(** Trace.times(): i * delta *)
Definition times (t : trace) : list Z :=
  map (fun i => Z.of_nat i * delta (st t))%Z (seq 0 (List.length (data t))).

(** obspy Trace._ltrim and _rtrim with nearest_sample=True, pad=True, fill_value=0
    (library contract, not in /repo). A negative shift is computed from a start time
    further left, so that halves are rounded up. *)
Definition round_up (n d : Z) : Z := ((2 * n + d) / (2 * d))%Z.
(** obspy Trace._ltrim with pad=True, fill_value=0 (library contract), deconvolve.py:123 *)
Definition ltrim_pad (t : trace) (t1 : Z) : trace :=
  let k := round_away (t1 - starttime (st t)) (delta (st t)) in
  let k := if (k <? 0)%Z then round_up (t1 - starttime (st t)) (delta (st t)) else k in
  set_data (set_starttime t (starttime (st t) + k * delta (st t)))
           (repeat 0%Q (Z.to_nat (- k)) ++ skipn (Z.to_nat k) (data t)).
(** obspy Trace._rtrim with pad=True, fill_value=0 (library contract), deconvolve.py:123 *)
Definition rtrim_pad (t : trace) (t2 : Z) : trace :=
  let d := (round_away (t2 - starttime (st t)) (delta (st t)) - npts t + 1)%Z in
  if (0 <=? d)%Z then set_data t (data t ++ repeat 0%Q (Z.to_nat d))
  else if (t2 <? starttime (st t))%Z then
    set_data (set_starttime t (endtime t + d * delta (st t))) []
  else set_data t (firstn (Z.to_nat (if (t2 =? starttime (st t))%Z then 1 else npts t + d)) (data t)).
(** src.trim(..., pad=True, fill_value=0.), deconvolve.py:123 *)
Definition trim_pad (t : trace) (t1 t2 : Z) : res trace :=
  if (t2 <? t1)%Z then Err ValueError else Ok (rtrim_pad (ltrim_pad t t1) t2).

Inductive winsrc_arg : Type := WStr (s : string) | WTuple (a b taper : Z).   (* ns *)

(** Arguments the kernels are called with. [k_shift]: samples (method time);
    [k_tshift]: ns, with the opposite sign for
    multitaper (deconvolve.py:155); [k_norm]: None = keyword not given, Some None = None; [k_noise]: the
    noise for method multitaper. *)
Record kcall : Type := mkCall {
  k_method : string; k_rsp : list (list Q); k_src : list Q;
  k_shift : Z; k_tshift : Z; k_norm : option (option nat); k_noise : list (list Q) }.

(** rsp.index(src), deconvolve.py:88 *)
Fixpoint index_of (l : loc) (ls : list loc) : option nat :=
  match ls with
  | [] => None
  | x :: xs => if Nat.eqb l x then Some 0 else option_map S (index_of l xs)
  end.

(** tr.stats.channel[-1] in components *)
Definition has_comp (h : heap) (comps : string) (l : loc) : res bool :=
  match comp (h l) with Some c => Ok (char_in c comps) | None => Err IndexError end.
(** list comprehension with a condition which may raise, deconvolve.py:80, 85 *)
Fixpoint filterM {A} (f : A -> res bool) (l : list A) : res (list A) :=
  match l with
  | [] => Ok []
  | x :: xs => let! b := f x in let! r := filterM f xs in Ok (if b then x :: r else r)
  end.

(** deconvolve.py:146-153: noise from the window between the start of the first response
    and 5 s before the onset. stream.copy().trim2() is slice2(), see C22. For the keyword
    noise see [noise_for]. *)
Definition noise_data (method : string) (response : option string) (rsp ls : list loc) (h : heap) : res (list (list Q)) :=
  if negb (String.eqb method "multitaper") then Ok []
  else match rsp with
       | [] => Err IndexError
       | r0 :: _ =>
           match dget (extra (st (h r0))) "onset" with
           | Some (VTime o) =>
               let onset_rsp := (o - starttime (st (h r0)))%Z in
               let! noise := slice2 (SNum (inject_Z (- onset_rsp) / inject_Z 1000000000)) (SNum (-5)) (RKey "onset") false ls h in
               let! noise := match response with
                             | None => Ok noise
                             | Some r => filterM (fun t => match comp t with Some c => Ok (char_in c r) | None => Err IndexError end) noise
                             end in
               Ok (map data noise)
           | Some _ => Err TypeError
           | None => Err AttributeError
           end
       end.

(** deconvolve.py:146-153 with the keyword noise ([given], None: not given): the same selection. Other
    methods do not have this keyword (method 'func': it is passed on to the function). *)
Definition noise_for (given : option (list trace)) (method : string) (response : option string) (rsp ls : list loc) (h : heap) : res (list (list Q)) :=
  match given with
  | None => noise_data method response rsp ls h
  | Some noise =>
      if String.eqb method "multitaper" then
        let! noise := match response with
                      | None => Ok noise
                      | Some r => filterM (fun t => match comp t with Some c => Ok (char_in c r) | None => Err IndexError end) noise
                      end in
        Ok (map data noise)
      else if String.eqb method "func" then Ok []
      else Err TypeError
  end.

Section Driver.
  (** data and number of iterations for each response *)
  Variable kernel : kcall -> res (list (list Q) * list Z).
  Variable taper : Z -> trace -> trace.          (* max_length in ns *)

  Definition known_method (m : string) : bool :=
    existsb (String.eqb m) ["time"; "waterlevel"; "iterative"; "multitaper"; "func"].

  (** deconvolve.py:101-114: default windows. lenrsp_sec and onset_sec in ns *)
  Definition source_window (w : winsrc_arg) (m : string) (len onset : Z) : res (Z * Z * Z) :=
    let s := 1000000000%Z in
    match w with
    | WTuple a b c => Ok (a, b, c)
    | WStr p =>
        let tmf := existsb (String.eqb m) ["time"; "multitaper"; "func"] in
        if String.eqb p "P" && tmf then Ok (-10 * s, 30 * s, 5 * s)%Z
        else if String.eqb p "S" && tmf then Ok (-10 * s, 30 * s, 5 * s)%Z
        else if String.eqb p "P" && String.eqb m "iterative" then Ok (- onset, len - onset, 0)%Z
        else if String.eqb p "S" && String.eqb m "iterative" then Ok (- onset, len - onset, 0)%Z
        else if String.eqb p "P" && String.eqb m "waterlevel" then Ok (- onset, len - onset, 5 * s)%Z
        else if String.eqb p "S" && String.eqb m "waterlevel" then Ok (-10 * s, len - onset, 5 * s)%Z
        else Err TypeError                        (* onset + 'x', or '' [0] *)
    end.

  (** int(round(tshift * sr - len(src) // 2)): rounding half to even *)
  Definition round_even (n d : Z) : Z :=
    let q := (n / d)%Z in
    let r := (n mod d)%Z in
    if (2 * r <? d)%Z then q else if (d <? 2 * r)%Z then (q + 1)%Z
    else if Z.even q then q else (q + 1)%Z.

  (** for i, tr in enumerate(rsp): tr.data = rf_data[i].real, deconvolve.py:130-131, 136-137, 142-143, 157-158 *)
  Fixpoint store (ls : list loc) (ds : list (list Q)) (h : heap) : heap :=
    match ls, ds with
    | l :: ls', d :: ds' => store ls' ds' (hset h l (set_data (h l) d))
    | _, _ => h
    end.
  (** tr.stats['iterations'] = nit[i], deconvolve.py:144 *)
  Fixpoint store_it (ls : list loc) (its : list Z) (h : heap) : heap :=
    match ls, its with
    | l :: ls', i :: its' => store_it ls' its' (hset h l (set_extra (h l) "iterations" (VNum (inject_Z i))))
    | _, _ => h
    end.
  (** deconvolve.py:98-99 *)
  Fixpoint set_onsets (ls : list loc) (o : Z) (h : heap) : heap :=
    match ls with
    | [] => h
    | l :: ls' => set_onsets ls' o (hset h l (set_extra (h l) "onset" (VTime o)))
    end.

  (** deconvolve.py:75-161. [response]: response_components; [norm]: the keyword
      normalize. Result: heap, and the traces of the returned stream. A user supplied
      function (method 'func') is treated like a kernel which returns new data.
      src in rsp: at most one trace has a source component, so equality of traces
      (Trace.__eq__) and identity agree here. [given]: the keyword noise. *)
  Definition deconvolve_given (given : option (list trace)) (method : string) (source : string) (response : option string)
      (w : winsrc_arg) (norm : option (option nat)) (ls : list loc) (h : heap)
    : heap * res (list loc) :=
    let method := if String.eqb method "freq" then "waterlevel" else method in
    if negb (known_method method) then (h, Err NotImplementedError)
    else
    match filterM (has_comp h source) ls with
    | Err e => (h, Err e)
    | Ok [src] =>
        match (match response with
               | None => Ok ls
               | Some r => filterM (has_comp h r) ls
               end) with
        | Err e => (h, Err e)
        | Ok rsp =>
            let norm := match norm with
                        | Some n => Some n
                        | None => match index_of src rsp with
                                  | Some i => Some (Some i)
                                  | None => None
                                  end
                        end in
            if negb ((0 <? List.length rsp) && (List.length rsp <? 4)) then (h, Err ValueError)
            else
            let s := h src in
            match dget (extra (st s)) "onset" with
            | Some (VTime o) =>
                match find_nearest (times s) (o - starttime (st s)) with
                | Err e => (h, Err e)
                | Ok idx =>
                    let onset := (starttime (st s) + Z.of_nat idx * delta (st s))%Z in
                    let h1 := hset h src (set_extra s "onset" (VTime onset)) in
                    let h2 := set_onsets rsp onset h1 in
                    let len := (endtime s - starttime (st s))%Z in
                    let onset_sec := (onset - starttime (st s))%Z in
                    match source_window w method len onset_sec with
                    | Err e => (h2, Err e)
                    | Ok (w0, w1, w2) =>
                        match trim_pad (h2 src) (onset + w0) (onset + w1) with
                        | Err e => (h2, Err e)
                        | Ok tsrc =>
                            let tsrc := taper w2 tsrc in
                            (* src is a copy if it is one of the responses, else it
                               is changed in place *)
                            let h3 := match index_of src rsp with
                                      | Some _ => h2
                                      | None => hset h2 src tsrc
                                      end in
                            match noise_for given method response rsp ls h3 with
                            | Err e => (h3, Err e)
                            | Ok noise =>
                            let call :=
                              mkCall method (map (fun l => data (h3 l)) rsp) (data tsrc)
                                (round_even (- w0 - (npts tsrc / 2) * delta (st s)) (delta (st s)))
                                (if String.eqb method "multitaper" then w0 else - w0)%Z norm noise in
                            match kernel call with
                            | Err e => (h3, Err e)
                            | Ok (ds, its) =>
                                let h4 := store rsp ds h3 in
                                let h5 := if String.eqb method "iterative" then store_it rsp its h4 else h4 in
                                (h5, Ok rsp)
                            end
                            end
                        end
                    end
                end
            | Some _ => (h, Err TypeError)
            | None => (h, Err AttributeError)
            end
        end
    | Ok _ => (h, Err ValueError)
    end.
  (** deconvolve.py:75-161 without the keyword noise *)
  Definition deconvolve : string -> string -> option string -> winsrc_arg -> option (option nat) -> list loc -> heap -> heap * res (list loc) :=
    deconvolve_given None.
End Driver.
