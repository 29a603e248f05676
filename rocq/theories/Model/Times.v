(** rf/rfstream.py:216-250, 612-622: relative times, trim2 and slice2. *)
From Verif Require Export Model.Headers.

(** The argument seconds of _seconds2utc: None, a number, an UTCDateTime, an
    iterable (any nesting) or a text. *)
Inductive sec : Type :=
| SNone | SNum (q : Q) | STime (t : Z) | SList (l : list sec) | SText (s : string).
(** reftime: None, an UTCDateTime, or the name of a stats entry *)
Inductive reft : Type := RNone | RTime (t : Z) | RKey (k : string).

(** reftime + seconds, where reftime is a stats entry: only times can be added to
    seconds to give a time; number + number is a number. *)
Definition val_add (v : value) (q : Q) : res sec :=
  match v with
  | VTime t => Ok (STime (utc_add t q))
  | VNum p => Ok (SNum (p + q))
  | _ => Err TypeError
  end.

(** rfstream.py:612-622 RFTrace._seconds2utc. A text is Iterable: its characters are
    texts again, so that any non-empty text recurses without end. *)
Fixpoint seconds2utc (tr : trace) (reftime : reft) (s : sec) : res sec :=
  match s with
  | SList l =>      (* a list comprehension *)
      let! l' := (fix go l := match l with
                              | [] => Ok []
                              | x :: xs => let! y := seconds2utc tr reftime x in
                                           let! ys := go xs in Ok (y :: ys)
                              end) l in
      Ok (SList l')
  | SText "" => Ok (SList [])
  | SText _ => Err RecursionError
  | STime t => Ok (STime t)
  | SNone => Ok SNone
  | SNum q =>
      match reftime with
      | RNone => Ok (SNum q)
      | RTime t => Ok (STime (utc_add t q))
      | RKey k => match tr_get tr k with
                  | None => Err KeyError
                  | Some v => val_add v q
                  end
      end
  end.

(** obspy.core.compatibility.round_away of the quotient n/d (exact, not float):
    to the nearest integer, halves away from zero *)
Definition round_away (n d : Z) : Z := (Z.sgn n * ((2 * Z.abs n + d) / (2 * d)))%Z.

(** obspy Trace._ltrim and _rtrim with nearest_sample=True, pad=False (library
    contract, not in /repo). *)
Definition ltrim (tr : trace) (t1 : Z) : trace :=
  let k := round_away (t1 - starttime (st tr)) (delta (st tr)) in
  if (k <=? 0)%Z then tr
  else set_data (set_starttime tr (starttime (st tr) + k * delta (st tr)))
                (skipn (Z.to_nat k) (data tr)).
(** obspy Trace._rtrim (library contract), rfstream.py:231, 246 *)
Definition rtrim (tr : trace) (t2 : Z) : trace :=
  let d := (round_away (t2 - starttime (st tr)) (delta (st tr)) - (npts tr - 1))%Z in
  if (0 <=? d)%Z then tr
  else if (t2 <? starttime (st tr))%Z then
    set_data (set_starttime tr (endtime tr + d * delta (st tr))) []
  else set_data tr (firstn (Z.to_nat (if (t2 =? starttime (st tr))%Z then 1 else npts tr + d)) (data tr)).

(** obspy Trace.trim(starttime, endtime); a time that is neither an UTCDateTime nor
    None: numbers are seconds to cut at either end, not modelled (TypeError here,
    as for lists). *)
Definition trim (tr : trace) (t1 t2 : sec) : res trace :=
  match t1, t2 with
  | STime a, STime b => if (b <? a)%Z then Err ValueError else Ok (rtrim (ltrim tr a) b)
  | STime a, SNone => Ok (ltrim tr a)
  | SNone, STime b => Ok (rtrim tr b)
  | SNone, SNone => Ok tr
  | _, _ => Err TypeError
  end.

(** rfstream.py:229-231, 244-246 *)
Definition trim_rel (a b : sec) (r : reft) (tr : trace) : res trace :=
  let! t1 := seconds2utc tr r a in
  let! t2 := seconds2utc tr r b in
  trim tr t1 t2.

(** rfstream.py:228-233 trim2: in place, trace by trace; returns the heap and the
    new trace list. On an error the earlier traces have been trimmed already. *)
Fixpoint trim_loop (a b : sec) (r : reft) (ls : list loc) (h : heap) : heap * res unit :=
  match ls with
  | [] => (h, Ok tt)
  | l :: ls' => match trim_rel a b r (h l) with
                | Err e => (h, Err e)
                | Ok t => trim_loop a b r ls' (hset h l t)
                end
  end.
(** rfstream.py:216-233 *)
Definition trim2 (a b : sec) (r : reft) (ls : list loc) (h : heap) : heap * res (list loc) :=
  match trim_loop a b r ls h with
  | (h', Err e) => (h', Err e)
  | (h', Ok _) => (h', Ok (filter (fun l => negb (npts (h' l) =? 0)%Z) ls))
  end.

(** rfstream.py:242-250 slice2. obspy Trace.slice is trim applied to a copy of the
    trace: the result is a list of new traces, the heap is not changed. *)
Definition slice2 (a b : sec) (r : reft) (keep_empty : bool) (ls : list loc) (h : heap) : res (list trace) :=
  let! l := mapM (fun l => trim_rel a b r (h l)) ls in
  Ok (filter (fun t => keep_empty || negb (npts t =? 0)%Z) l).
