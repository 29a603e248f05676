(** rf/simple_model.py:12-46, 215-237, rf/util.py:167-180 and the wrappers RFStream.moveout,
    RFStream.ppoints (rfstream.py:358-401): model files, the cache of models, piercing
    points. Numbers are real. *)
From Verif Require Export Model.SimpleModel.
Notation length := List.length.
Open Scope R_scope.

(** a text file as the numbers of its lines, comments removed *)
Definition rows : Type := list (list R).

(** ndarray.astype(int): rounding towards zero *)
Definition astype_int (x : R) : Z := if Rle_dec 0 x then Int_part x else (- Int_part (- x))%Z.
(** the column n as natural numbers. The first entry is never used (n[i + 1]). Negative
    numbers: np.linspace raises ValueError for less than zero points; -1 (zero points) is not
    modelled, Err OtherError *)
Definition as_nat (z : Z) : res nat :=
  if (z <? -1)%Z then Err ValueError else if (z <? 0)%Z then Err OtherError else Ok (Z.to_nat z).
(** n.astype(int), simple_model.py:41-42 *)
Definition count_column (c : list R) : res (list nat) :=
  match c with
  | [] => Ok []
  | _ :: c' => let! l := mapM (fun x => as_nat (astype_int x)) c' in Ok (0%nat :: l)
  end.
(** one column of np.loadtxt(unpack=True), simple_model.py:39-44 *)
Definition column (f : rows) (j : nat) : list R := map (fun row => nth j row 0) f.
(** simple_model.py:37-44: np.loadtxt(fname, unpack=True) and unpacking of the columns.
    np.loadtxt drops dimensions of length one, then columns are numbers without a length. *)
Definition read_model (f : rows) : res smodel :=
  match f with
  | [] => Err ValueError
  | row :: _ =>
      let w := length row in
      if negb (forallb (fun r => (length r =? w)%nat) f) then Err ValueError
      else if (length f =? 1)%nat || (w =? 1)%nat then
        let k := (length f * w)%nat in
        if (k =? 1)%nat || (k =? 3)%nat || (k =? 4)%nat then Err TypeError else Err ValueError
      else if (w =? 4)%nat then
        let! n := count_column (column f 3) in
        new_model true (column f 0) (column f 1) (column f 2) (Some n)
      else if (w =? 3)%nat then new_model true (column f 0) (column f 1) (column f 2) None
      else Err ValueError
  end.

(** files of the user and the dictionary _MODEL_CACHE of the process *)
Record session : Type := mkSession { s_files : string -> option rows; s_cache : dict smodel }.

(** a trace with the headers needed for piercing points; None: header not set. pp: depth and
    coordinates, None if these are NaN *)
Record ptrace : Type := mkPT {
  p_m : mtrace; p_lat : option R; p_lon : option R; p_baz : option R; p_pp : option (R * option (R * R)) }.
(** data and headers of RFStream.moveout are replaced, rfstream.py:358-378 *)
Definition with_m (t : ptrace) (m : mtrace) : ptrace := mkPT m (p_lat t) (p_lon t) (p_baz t) (p_pp t).
(** stats.pp_latitude etc., simple_model.py:234-236 *)
Definition with_pp (t : ptrace) (pp : R * option (R * R)) : ptrace := mkPT (p_m t) (p_lat t) (p_lon t) (p_baz t) (Some pp).

Section Session.
  (** obspy degrees2kilometers(1); content of data/iasp91.dat *)
  Variable deg2km : R.
  Variable iasp91 : rows.
  (** Geodesic.WGS84.Direct(lat, lon, azi, m): latitude and longitude *)
  Variable geodesic : R -> R -> R -> R -> R * R.

  (** simple_model.py:15-46. A file which does not exist: Err OtherError *)
  Definition load_model (s : session) (fname : string) : session * res smodel :=
    match dget (s_cache s) fname with
    | Some m => (s, Ok m)
    | None =>
        match (if String.eqb fname "iasp91" then Some iasp91 else s_files s fname) with
        | None => (s, Err OtherError)
        | Some f => match read_model f with
                    | Ok m => (mkSession (s_files s) (dset (s_cache s) fname m), Ok m)
                    | Err e => (s, Err e)
                    end
        end
    end.
  (** the model is one object: what a method changes in it is changed in the cache *)
  Definition keep_model (s : session) (fname : string) (m : smodel) : session :=
    mkSession (s_files s) (dset (s_cache s) fname m).

  (** util.py:167-180 *)
  Definition direct_geodetic (lat lon azi dist : R) : R * R := geodesic lat lon azi (dist * 1000).
  (** simple_model.py:215-237 *)
  Definition ppoint (m : smodel) (t : ptrace) (depth : R) (phase : string) : res ptrace :=
    let! dr := ppoint_distance deg2km m depth (x_slow (p_m t)) phase in
    match p_lat t, p_lon t, p_baz t with
    | Some lat, Some lon, Some az =>
        Ok (with_pp t (depth, match dr with Some x => Some (direct_geodetic lat lon az x) | None => None end))
    | _, _, _ => Err KeyError
    end.
  (** rfstream.py:398-399: traces are changed one after the other *)
  Fixpoint ppoint_all (m : smodel) (depth : R) (phase : string) (ts : list ptrace) : list ptrace * res unit :=
    match ts with
    | [] => ([], Ok tt)
    | t :: ts' =>
        match ppoint m t depth phase with
        | Err e => (t :: ts', Err e)
        | Ok t' => let '(r, e) := ppoint_all m depth phase ts' in (t' :: r, e)
        end
    end.
  (** (tr.stats.pp_latitude, tr.stats.pp_longitude), rfstream.py:400-401 *)
  Definition pp_coords (t : ptrace) : option (R * R) := match p_pp t with Some (_, c) => c | None => None end.
  (** rfstream.py:380-401; [method]: property method of the stream *)
  Definition pp_default (method : string) : res string :=
    if String.eqb method "P" then Ok "S" else if String.eqb method "S" then Ok "P" else Err KeyError.
  (** rfstream.py:380-401 *)
  Definition stream_ppoints (s : session) (fname method : string) (depth : R) (pp_phase : option string) (ts : list ptrace)
    : session * list ptrace * res (list (option (R * R))) :=
    match (match pp_phase with Some p => Ok p | None => pp_default method end) with
    | Err e => (s, ts, Err e)
    | Ok p =>
        match load_model s fname with
        | (s, Err e) => (s, ts, Err e)
        | (s, Ok m) => match ppoint_all m depth p ts with
                       | (ts, Err e) => (s, ts, Err e)
                       | (ts, Ok _) => (s, ts, Ok (map pp_coords ts))
                       end
        end
    end.
  (** rfstream.py:358-378 with the model loaded by name *)
  Definition file_moveout (s : session) (fname method : string) (phase : option string) (ref : R) (ts : list mtrace)
    : session * list mtrace * res unit :=
    match (match phase with Some p => Ok p | None => default_phase method end) with
    | Err e => (s, ts, Err e)
    | Ok p =>
        match load_model s fname with
        | (s, Err e) => (s, ts, Err e)
        | (s, Ok m) => match stream_moveout deg2km method m (Some p) ref ts with
                       | (m, ts, r) => (keep_model s fname m, ts, r)
                       end
        end
    end.

  (** ** histories of a process *)
  Inductive op : Type :=
  | OpLoad (fname : string)
  | OpMoveout (fname method : string) (phase : option string) (ref : R) (ts : list mtrace)
  | OpPpoints (fname method : string) (depth : R) (phase : option string) (ts : list ptrace)
  | OpWrite (fname : string) (f : option rows).          (* the user writes or removes a file *)
  Definition step (s : session) (o : op) : session :=
    match o with
    | OpLoad f => fst (load_model s f)
    | OpMoveout f me ph ref ts => fst (fst (file_moveout s f me ph ref ts))
    | OpPpoints f me dep ph ts => fst (fst (stream_ppoints s f me dep ph ts))
    | OpWrite f c => mkSession (fun g => if String.eqb g f then c else s_files s g) (s_cache s)
    end.
  (** a sequence of calls and file operations, see step *)
  Definition run (s : session) (h : list op) : session := fold_left step h s.
End Session.
