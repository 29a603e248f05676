(** rf/rfstream.py:264-355 RFStream.rf. Filtering, low pass filtering before
    decimation, rotation and deconvolution are parameters. *)
From Verif Require Export Model.Times Model.Iter.

(** for tr in stream: f(tr) in place, stops at the first exception; f gives the
    trace afterwards (also if it fails) *)
Definition act : Type := trace -> trace * res unit.
(** for tr in self: ..., rfstream.py:322, 335, 348 *)
Fixpoint for_locs (f : act) (ls : list loc) (h : heap) : heap * res unit :=
  match ls with
  | [] => (h, Ok tt)
  | l :: ls' => match f (h l) with
                | (t, Err e) => (hset h l t, Err e)
                | (t, Ok _) => for_locs f ls' (hset h l t)
                end
  end.
(** for substream in groups: f(substream), f changes traces in place *)
Fixpoint for_groups (f : list loc -> heap -> heap * res unit) (gs : list (list loc)) (h : heap) : heap * res unit :=
  match gs with
  | [] => (h, Ok tt)
  | g :: gs' => match f g h with
                | (h', Err e) => (h', Err e)
                | (h', Ok _) => for_groups f gs' h'
                end
  end.

(** rfstream.py:155-160, 172-177 for traces (see also Write.v for header
    dictionaries). Phases are texts; any other value counts as the text "?". *)
Definition stream_phase (tr : list trace) : option string :=
  match dedup String.eqb (flat_map (fun t => match dget (extra (st t)) "phase" with
                                             | Some (VStr p) => [p] | Some _ => ["?"] | None => [] end) tr) with
  | [v] => Some v
  | _ => None
  end.
(** self.method, rfstream.py:172-177 *)
Definition stream_method (tr : list trace) : res (option string) :=
  match stream_phase tr with
  | None => Ok None
  | Some p => match last_char p with
              | Some a => Ok (Some (upper (char_str a)))
              | None => Err IndexError
              end
  end.

(** sampling_rate = 1e9 / delta *)
Definition rate (t : trace) : Q := (inject_Z 1000000000 / inject_Z (delta (st t)))%Q.
(** the argument downsample: an int or a float *)
Inductive freq : Type := FInt (d : Z) | FFloat (q : Q).
(** the number downsample, rfstream.py:323 *)
Definition freq_q (d : freq) : Q := match d with FInt z => inject_Z z | FFloat q => q end.
(** rfstream.py:324: int(sampling_rate) // downsample *)
Definition downsample_factor (d : freq) (t : trace) : Z :=
  match d with
  | FInt z => (Qfloor (rate t) / z)%Z
  | FFloat q => Qfloor (inject_Z (Qfloor (rate t)) / q)
  end.
(** x[::k] for k >= 1; the first [skip] samples are left out *)
Fixpoint every_nth (k skip : nat) (l : list Q) : list Q :=
  match l with
  | [] => []
  | x :: xs => match skip with
               | 0 => x :: every_nth k (k - 1) xs
               | S s => every_nth k s xs
               end
  end.
(** obspy Trace.decimate(factor) (library contract): a factor above 16 is rejected,
    0 divides by zero (the cut-off frequency), then the data are low pass filtered;
    obspy.signal.filter.integer_decimation rejects factors which are not of type int
    (int // float is a float); then every factor-th sample is kept.
    Simplification: negative factors (downsample < 0) fail like 0. *)
Definition decimate (lowpass : Z -> list Q -> list Q) (is_int : bool) (f : Z) : act := fun t =>
  if (16 <? f)%Z then (t, Err OtherError)
  else if (f <=? 0)%Z then (t, Err ZeroDivisionError)
  else
    let d := lowpass f (data t) in
    if is_int then
      (mkTrace (mkStats (network (st t)) (station (st t)) (location (st t)) (channel (st t))
                        (starttime (st t)) (delta (st t) * f) (extra (st t)))
               (every_nth (Z.to_nat f) 0 d), Ok tt)
    else (set_data t d, Err TypeError).
(** rfstream.py:323-324, body of the loop *)
Definition downsample_one (lowpass : Z -> list Q -> list Q) (d : freq) : act := fun t =>
  if Qle_bool (freq_q d) (rate t)
  then decimate lowpass (match d with FInt _ => true | FFloat _ => false end) (downsample_factor d t) t
  else (t, Ok tt).

(** rfstream.py:336-337: tr.data = -tr.data *)
Definition negate_q : act := fun t =>
  (if endswith_char (channel (st t)) "Q" then set_data t (map Qopp (data t)) else t, Ok tt).
(** rfstream.py:349-351, body of the loop *)
Definition mirror : act := fun t =>
  let t1 := set_data t (rev (data t)) in
  match dget (extra (st t)) "onset" with
  | None => (t1, Err AttributeError)
  | Some (VTime o) =>
      (set_extra t1 "onset" (VTime (starttime (st t) + (endtime t1 - o))), Ok tt)
  | Some _ => (t1, Err TypeError)
  end.

(** the arguments of rf, rfstream.py:264-266 *)
Record rf_args : Type := mkArgs {
  a_method : option string;
  a_filter : bool;
  a_trim : option (Z * Z);            (* ns *)
  a_downsample : option freq;
  a_rotate : bool;
  a_deconvolve : bool }.

Section Rf.
  Variable str_of : value -> string.
  Variable filt : act.
  Variable lowpass : Z -> list Q -> list Q.
  Variable rot : list loc -> heap -> heap * res unit.
  (** the argument is the method ('P' / 'S'), which selects source components and window *)
  Variable dec : string -> list loc -> heap -> heap * res unit.

  (** rfstream.py:306-308 *)
  Definition iter3c (ls : list loc) (h : heap) : res (list (list loc)) :=
    iter_multiple h str_of ls (Some "onset") (NTuple [2; 3]).

  (** for stream3c in iter3c(self), rfstream.py:325-327, 338-343 *)
  Definition group_stage (on : bool) (f : list loc -> heap -> heap * res unit) (ls : list loc) (h : heap)
    : heap * res unit :=
    if on then match iter3c ls h with
               | Err e => (h, Err e)
               | Ok gs => for_groups f gs h
               end
    else (h, Ok tt).

  (** lines 310-314: the method *)
  Definition rf_method (a : rf_args) (tr : list trace) : res string :=
    let! m := match a_method a with Some m => Ok (Some m) | None => stream_method tr end in
    match m with
    | None => Err ValueError
    | Some m => if str_in m "PS" then Ok m else Err ValueError
    end.
  (** lines 317-327: filter, trim, downsample, rotate *)
  Definition rf_prepare (a : rf_args) (ls : list loc) (h : heap) : heap * res (list loc) :=
    match (if a_filter a then for_locs filt ls h else (h, Ok tt)) with
    | (h1, Err e) => (h1, Err e)
    | (h1, Ok _) =>
        match (match a_trim a with
               | Some (x, y) => trim2 (SNum (inject_Z x / e9)) (SNum (inject_Z y / e9)) (RKey "onset") ls h1
               | None => (h1, Ok ls)
               end) with
        | (h2, Err e) => (h2, Err e)
        | (h2, Ok ls2) =>
            match (match a_downsample a with
                   | Some d => for_locs (downsample_one lowpass d) ls2 h2
                   | None => (h2, Ok tt)
                   end) with
            | (h3, Err e) => (h3, Err e)
            | (h3, Ok _) =>
                match group_stage (a_rotate a) rot ls2 h3 with
                | (h4, Err e) => (h4, Err e)
                | (h4, Ok _) => (h4, Ok ls2)
                end
            end
        end
    end.
  (** lines 347-354: mirroring and tagging *)
  Definition tag_type : act := fun t => (set_extra t "type" (VStr "rf"), Ok tt).
  (** rfstream.py:179-182, one trace *)
  Definition set_phase (m : string) : act := fun t => (set_extra t "phase" (VStr m), Ok tt).
  (** rfstream.py:344-355 *)
  Definition rf_finish (m : string) (ls : list loc) (h : heap) : heap * res unit :=
    match (if String.eqb m "S" then for_locs mirror ls h else (h, Ok tt)) with
    | (h1, Err e) => (h1, Err e)
    | (h1, Ok _) =>
        let h2 := fst (for_locs tag_type ls h1) in
        match stream_method (map h2 ls) with
        | Err e => (h2, Err e)
        | Ok (Some m') => if String.eqb m' m then (h2, Ok tt) else for_locs (set_phase m) ls h2
        | Ok None => for_locs (set_phase m) ls h2
        end
    end.

  (** lines 310-343: everything up to the deconvolution *)
  Definition rf_deconvolved (a : rf_args) (m : string) (ls : list loc) (h : heap) : heap * res (list loc) :=
    match rf_prepare a ls h with
    | (h1, Err e) => (h1, Err e)
    | (h1, Ok ls1) =>
        let h2 := fst (for_locs negate_q ls1 h1) in
        match group_stage (a_deconvolve a) (dec m) ls1 h2 with
        | (h3, Err e) => (h3, Err e)
        | (h3, Ok _) => (h3, Ok ls1)
        end
    end.
  (** the whole method; the list is the trace list of the stream afterwards *)
  Definition rf (a : rf_args) (ls : list loc) (h : heap) : heap * res (list loc) :=
    match rf_method a (map h ls) with
    | Err e => (h, Err e)
    | Ok m =>
        match rf_deconvolved a m ls h with
        | (h3, Err e) => (h3, Err e)
        | (h3, Ok ls1) =>
            match rf_finish m ls1 h3 with
            | (h4, Err e) => (h4, Err e)
            | (h4, Ok _) => (h4, Ok ls1)
            end
        end
    end.
End Rf.
