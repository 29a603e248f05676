(** rf/batch.py:347-351: the command profile with the function profile of rf/profile.py. *)
From Verif Require Export Model.Dispatch Model.Profile.

(** batch.py:109-118: traces read from files, each with its own array *)
Fixpoint in_memory (m : mem) (l : list trace) : mem * list ptrace :=
  match l with
  | [] => (m, [])
  | t :: l' => let (m1, b) := alloc m (data t) in let (m2, r) := in_memory m1 l' in (m2, mkPT (st t) b :: r)
  end.
(** the trace with the content of its array, batch.py:351 *)
Definition content (m : mem) (t : ptrace) : trace := mkTrace (p_st t) (rd m (p_buf t)).
(** batch.py:350 profile(iter_, boxx), profile.py:75-130. Simplifications: no keyword options (a
    projection is no text of json); the entry processing is that of the first trace, see Util.v for
    the decorator. *)
Definition profile_traces (within : Q * Q -> box -> bool) (options : json) (boxes : list box) (l : list trace) : res (list trace) :=
  match options with
  | JObj [] =>
      let (m, s) := in_memory [] l in
      let! r := rf_profile within false m s boxes in
      let (m2, out) := r in Ok (map (content m2) out)
  | _ => Err TypeError
  end.
