(** rf/imaging.py:336-359: the axis of depths of plot_profile, and the whole function.
    Locators and formatters of matplotlib are described by the positions and labels they get. *)
From Verif Require Import Model.Imaging.
From Verif Require Export Model.Trace Model.ModelFile.
From Coq Require Import Qreals.
Notation length := List.length.
Open Scope R_scope.

(** arr[i] for an array which may contain NaN, used in imaging.py:349-350 *)
Definition ato (arr : list (option R)) (i : Z) : option R := nth (Z.to_nat i) arr None.
(** np.interp (library): one value if fp may contain NaN, compare interp_value *)
Definition interp_value_nan (xp : list R) (fp : list (option R)) (x : R) (j : Z) : option R :=
  let len := Z.of_nat (length xp) in
  if (j =? -1)%Z then ato fp 0
  else if (j =? len)%Z then ato fp (len - 1)
  else if (j =? len - 1)%Z then ato fp j
  else if Req_EM_T (ati xp j) x then ato fp j
  else match ato fp (j + 1), ato fp j with
       | Some b, Some a => Some ((b - a) / (ati xp (j + 1) - ati xp j) * (x - ati xp j) + a)
       | _, _ => None
       end.
(** np.interp (library): the guess is the last index found *)
Fixpoint interp_walk_nan (xp : list R) (fp : list (option R)) (guess : Z) (xs : list R) : list (option R) :=
  match xs with
  | [] => []
  | x :: xs' => let j := search x xp guess in
                interp_value_nan xp fp x j :: interp_walk_nan xp fp j xs'
  end.
(** np.interp(xs, xp, fp), imaging.py:349-350 *)
Definition np_interp_nan (xs xp : list R) (fp : list (option R)) : res (list (option R)) :=
  if negb (length xp =? length fp)%nat then Err ValueError
  else match xp with
       | [] => Err ValueError
       | _ => Ok (interp_walk_nan xp fp 0 xs)
       end.

(** profile[0].stats.moveout, imaging.py:339 *)
Definition str_attr (k : string) (t : trace) : res string :=
  match dget (extra (st t)) k with
  | None => Err AttributeError
  | Some (VStr v) => Ok v
  | Some _ => Err TypeError
  end.

(** positions and labels of the ticks. A position is None for NaN; labels are the decimal
    numbers str(i) of d1 (imaging.py:353) *)
Record depth_axis : Type := mkAxis {
  major : list (option R); labels : list Z; minor : list (option R) }.

(** np.arange(20) * dkm, imaging.py:347 *)
Definition major_depths (dkm : Z) : list Z := map (fun k => (Z.of_nat k * dkm)%Z) (seq 0 20).
(** np.arange(100) * dkm / 5, imaging.py:348 *)
Definition minor_depths (dkm : Z) : list R := map (fun k => INR k * IZR dkm / 5) (seq 0 100).

Section Axis.
  (** obspy degrees2kilometers(1) *)
  Variable deg2km : R.
  (** imaging.py:339-356 *)
  Definition depth_ticks (m : smodel) (first : trace) : res depth_axis :=
    let! phase := str_attr "moveout" first in
    let! slowness := num_attr "slowness" first in
    let! pd := delay_times deg2km m (Q2R slowness) phase in
    let! onset := onset_of first in
    let dkm := if (50 * 1000000000 <? endtime first - onset)%Z then 200%Z else 50%Z in
    let d1 := major_depths dkm in
    let d2 := minor_depths dkm in
    let! t1 := np_interp_nan (map IZR d1) (mz m) pd in
    let! t2 := np_interp_nan d2 (mz m) pd in
    Ok (mkAxis t1 d1 t2).

  (** content of data/iasp91.dat *)
  Variable iasp91 : rows.
  (** imaging.py:289-380; [moveout_model]: None for None or '' *)
  Definition plot_profile_axis (s : session) (profile : list trace) (scale : Q) (top : option string)
      (moveout_model : option string) : session * res (option (profile_plot * option depth_axis)) :=
    match profile with
    | [] => (s, Ok None)
    | first :: _ =>
        match plot_profile profile scale None with
        | Err e => (s, Err e)
        | Ok _ =>
            let '(s, axis) :=
              match moveout_model with
              | None => (s, Ok None)
              | Some fname =>
                  let '(s, m) := load_model iasp91 s fname in
                  (s, let! m := m in let! a := depth_ticks m first in Ok (Some a))
              end in
            (s, let! a := axis in
                let! p := plot_profile profile scale top in
                Ok (option_map (fun p => (p, a)) p))
        end
    end.
End Axis.
