(** Arrays in memory: data of different trace objects may be views on the same array. The other
    files of this model take the data of a trace as a value; here the objects of rf/rfstream.py and
    the waveforms of rf/batch.py:155-163 are modelled with the arrays behind them. *)
From Verif Require Export Model.Rf.

(** arrays by number; a new array gets the next number (library numpy) *)
Definition mem : Type := list (list Q).
(** a contiguous part of an array, a[off:off+len] (library numpy) *)
Record view : Type := mkView { v_buf : nat; v_off : nat; v_len : nat }.
(** the values of a view (library numpy) *)
Definition array (m : mem) (v : view) : list Q := firstn (v_len v) (skipn (v_off v) (nth (v_buf v) m [])).
(** a trace object: its own stats, and an array or view as data (library obspy) *)
Record vtrace : Type := mkVT { v_st : stats; v_arr : view }.
(** all arrays and all trace objects *)
Record world : Type := mkWorld { w_mem : mem; w_obj : loc -> vtrace }.
(** what the program sees if it looks at a trace *)
Definition look (m : mem) (t : vtrace) : trace := mkTrace (v_st t) (array m (v_arr t)).
(** the same for a trace object *)
Definition seen (w : world) : heap := fun l => look (w_mem w) (w_obj w l).
(** an attribute of a trace object is replaced *)
Definition oset (o : loc -> vtrace) (l : loc) (t : vtrace) : loc -> vtrace := fun l' => if Nat.eqb l' l then t else o l'.
(** several objects *)
Fixpoint oset_list (o : loc -> vtrace) (ls : list loc) (ts : list vtrace) : loc -> vtrace :=
  match ls, ts with
  | l :: ls', t :: ts' => oset_list (oset o l t) ls' ts'
  | _, _ => o
  end.

(** tr.data = ... with a new array, e.g. rfstream.py:337; stats may change, too *)
Definition assign (w : world) (l : loc) (t : trace) : world :=
  mkWorld (w_mem w ++ [data t]) (oset (w_obj w) l (mkVT (st t) (mkView (List.length (w_mem w)) 0 (List.length (data t))))).
(** tr.stats are changed, the array stays *)
Definition restat (w : world) (l : loc) (s : stats) : world := mkWorld (w_mem w) (oset (w_obj w) l (mkVT s (v_arr (w_obj w l)))).
(** a method of which F is the effect on the values: traces of [kept] keep their arrays (stats may
    change), then traces of [fresh] get new ones.
    Simplification: if it fails, arrays of traces which have not been reached are copied, too. *)
Definition renew (F : heap -> heap * res unit) (kept fresh : list loc) (w : world) : world * res unit :=
  let (h, r) := F (seen w) in
  (fold_left (fun w l => assign w l (h l)) fresh (fold_left (fun w l => restat w l (st (h l))) kept w), r).

(** tr.data[:] = d: into the array of the view (library numpy), simple_model.py:176, 187 *)
Definition store (m : mem) (v : view) (d : list Q) : mem :=
  let b := nth (v_buf v) m [] in
  firstn (v_buf v) m ++ [firstn (v_off v) b ++ d ++ skipn (v_off v + List.length d) b] ++ skipn (S (v_buf v)) m.

(** obspy Trace._ltrim (library contract): self.data[k:] is a view *)
Definition cut_left (m : mem) (v : vtrace) (t1 : Z) : vtrace :=
  let t := look m v in
  let k := round_away (t1 - starttime (st t)) (delta (st t)) in
  if (k <=? 0)%Z then v
  else let n := Nat.min (Z.to_nat k) (v_len (v_arr v)) in
       mkVT (st (ltrim t t1)) (mkView (v_buf (v_arr v)) (v_off (v_arr v) + n) (v_len (v_arr v) - n)).
(** obspy Trace._rtrim (library contract): self.data[:n] is a view *)
Definition cut_right (m : mem) (v : vtrace) (t2 : Z) : vtrace :=
  let t := look m v in
  let d := (round_away (t2 - starttime (st t)) (delta (st t)) - (npts t - 1))%Z in
  if (0 <=? d)%Z then v
  else if (t2 <? starttime (st t))%Z then mkVT (st (rtrim t t2)) (mkView (v_buf (v_arr v)) (v_off (v_arr v)) 0)
  else mkVT (st t) (mkView (v_buf (v_arr v)) (v_off (v_arr v))
                      (Nat.min (Z.to_nat (if (t2 =? starttime (st t))%Z then 1 else npts t + d)) (v_len (v_arr v)))).
(** obspy Trace.trim(t1, t2), see [Times.trim] *)
Definition cut (m : mem) (v : vtrace) (t1 t2 : sec) : res vtrace :=
  match t1, t2 with
  | STime a, STime b => if (b <? a)%Z then Err ValueError else Ok (cut_right m (cut_left m v a) b)
  | STime a, SNone => Ok (cut_left m v a)
  | SNone, STime b => Ok (cut_right m v b)
  | SNone, SNone => Ok v
  | _, _ => Err TypeError
  end.
(** rfstream.py:229-231, 244-246 *)
Definition cut_rel (m : mem) (a b : sec) (r : reft) (v : vtrace) : res vtrace :=
  let! t1 := seconds2utc (look m v) r a in
  let! t2 := seconds2utc (look m v) r b in
  cut m v t1 t2.
(** rfstream.py:228-231 *)
Fixpoint v_trim_loop (a b : sec) (r : reft) (ls : list loc) (w : world) : world * res unit :=
  match ls with
  | [] => (w, Ok tt)
  | l :: ls' => match cut_rel (w_mem w) a b r (w_obj w l) with
                | Err e => (w, Err e)
                | Ok t => v_trim_loop a b r ls' (mkWorld (w_mem w) (oset (w_obj w) l t))
                end
  end.
(** rfstream.py:216-233 trim2 *)
Definition v_trim2 (a b : sec) (r : reft) (ls : list loc) (w : world) : world * res (list loc) :=
  match v_trim_loop a b r ls w with
  | (w', Err e) => (w', Err e)
  | (w', Ok _) => (w', Ok (filter (fun l => negb (npts (seen w' l) =? 0)%Z) ls))
  end.
(** rfstream.py:235-250 slice2: new objects (at the places [new]) with views on the same arrays *)
Definition v_slice2 (a b : sec) (r : reft) (keep_empty : bool) (ls new : list loc) (w : world) : world * res (list loc) :=
  match mapM (fun l => cut_rel (w_mem w) a b r (w_obj w l)) ls with
  | Err e => (w, Err e)
  | Ok l => let l' := filter (fun t => keep_empty || negb (npts (look (w_mem w) t) =? 0)%Z) l in
            (mkWorld (w_mem w) (oset_list (w_obj w) new l'), Ok (firstn (List.length l') new))
  end.
(** rfstream.py:141-151, 467-476 RFStream(traces) of plain obspy traces: new objects with the same data and
    copies of the stats. Simplification: stats of special formats are as before. *)
Definition v_init (ls new : list loc) (w : world) : world * res (list loc) :=
  (mkWorld (w_mem w) (oset_list (w_obj w) new (map (w_obj w) ls)), Ok (firstn (List.length ls) new)).
(** stream.copy() (library obspy): everything is copied *)
Fixpoint v_copy_loop (ls new : list loc) (w : world) : world :=
  match ls, new with
  | l :: ls', n :: new' => v_copy_loop ls' new' (assign w n (seen w l))
  | _, _ => w
  end.
(** the copy is the stream at [new], see above *)
Definition v_copy (ls new : list loc) (w : world) : world * res (list loc) := (v_copy_loop ls new w, Ok (firstn (List.length ls) new)).

Section Methods.
  Variable str_of : value -> string.
  Variable filt : act.
  Variable lowpass : Z -> list Q -> list Q.
  (** rotation of a group, and the traces which get new arrays: both (NE->RT) or all three (ZNE->LQT) *)
  Variable rot : list loc -> heap -> heap * res unit.
  Variable rot_new : list loc -> list loc.
  (** deconvolution of a group; new arrays for the responses and for a source which is not among them *)
  Variable dec : string -> list loc -> heap -> heap * res unit.
  Variable dec_new : list loc -> list loc.
  (** the data of a trace after the moveout correction, simple_model.py:160-188 *)
  Variable mo : trace -> res (list Q).
  (** the stats after the moveout correction, rfstream.py:375-378 *)
  Variable mark : stats -> stats.

  (** stream.filter(), rfstream.py:318 *)
  Definition v_filter (ls : list loc) (w : world) : world * res unit := renew (for_locs filt ls) [] ls w.
  (** for stream3c in iter3c(self), rfstream.py:325-327, 338-343 *)
  Definition v_groups (on : bool) (f : list loc -> heap -> heap * res unit) (new : list loc -> list loc) (ls : list loc) (w : world) : world * res unit :=
    if on then match iter3c str_of ls (seen w) with
               | Err e => (w, Err e)
               | Ok gs => renew (for_groups f gs) (List.concat gs) (flat_map new gs) w
               end
    else (w, Ok tt).
  (** rfstream.py:317-327 *)
  Definition v_prepare (a : rf_args) (ls : list loc) (w : world) : world * res (list loc) :=
    match (if a_filter a then v_filter ls w else (w, Ok tt)) with
    | (w1, Err e) => (w1, Err e)
    | (w1, Ok _) =>
        match (match a_trim a with
               | Some (x, y) => v_trim2 (SNum (inject_Z x / e9)) (SNum (inject_Z y / e9)) (RKey "onset") ls w1
               | None => (w1, Ok ls)
               end) with
        | (w2, Err e) => (w2, Err e)
        | (w2, Ok ls2) =>
            match (match a_downsample a with
                   | Some d => renew (for_locs (downsample_one lowpass d) ls2) [] (filter (fun l => Qle_bool (freq_q d) (rate (seen w2 l))) ls2) w2
                   | None => (w2, Ok tt)
                   end) with
            | (w3, Err e) => (w3, Err e)
            | (w3, Ok _) =>
                match v_groups (a_rotate a) rot rot_new ls2 w3 with
                | (w4, Err e) => (w4, Err e)
                | (w4, Ok _) => (w4, Ok ls2)
                end
            end
        end
    end.
  (** rfstream.py:335-343 *)
  Definition v_deconvolved (a : rf_args) (m : string) (ls : list loc) (w : world) : world * res (list loc) :=
    match v_prepare a ls w with
    | (w1, Err e) => (w1, Err e)
    | (w1, Ok ls1) =>
        let w2 := fst (renew (for_locs negate_q ls1) [] (filter (fun l => endswith_char (channel (st (seen w1 l))) "Q") ls1) w1) in
        match v_groups (a_deconvolve a) (dec m) dec_new ls1 w2 with
        | (w3, Err e) => (w3, Err e)
        | (w3, Ok _) => (w3, Ok ls1)
        end
    end.
  (** rfstream.py:347-355. The mirrored data are stored as a new, contiguous array by obspy.
      Simplification: also if there is one sample only *)
  Definition v_finish (m : string) (ls : list loc) (w : world) : world * res unit :=
    match (if String.eqb m "S" then renew (for_locs mirror ls) [] ls w else (w, Ok tt)) with
    | (w1, Err e) => (w1, Err e)
    | (w1, Ok _) =>
        let w2 := fst (renew (for_locs tag_type ls) ls [] w1) in
        match stream_method (map (seen w2) ls) with
        | Err e => (w2, Err e)
        | Ok (Some m') => if String.eqb m' m then (w2, Ok tt) else renew (for_locs (set_phase m) ls) ls [] w2
        | Ok None => renew (for_locs (set_phase m) ls) ls [] w2
        end
    end.
  (** rfstream.py:264-355 RFStream.rf *)
  Definition v_rf (a : rf_args) (ls : list loc) (w : world) : world * res (list loc) :=
    match rf_method a (map (seen w) ls) with
    | Err e => (w, Err e)
    | Ok m =>
        match v_deconvolved a m ls w with
        | (w3, Err e) => (w3, Err e)
        | (w3, Ok ls1) =>
            match v_finish m ls1 w3 with
            | (w4, Err e) => (w4, Err e)
            | (w4, Ok _) => (w4, Ok ls1)
            end
        end
    end.

  (** simple_model.py:160-188: the loop; data are written into the existing array *)
  Fixpoint v_moveout_loop (ls : list loc) (w : world) : world * res unit :=
    match ls with
    | [] => (w, Ok tt)
    | l :: ls' => match mo (seen w l) with
                  | Err e => (w, Err e)
                  | Ok d => v_moveout_loop ls' (mkWorld (store (w_mem w) (v_arr (w_obj w l)) d) (w_obj w))
                  end
    end.
  (** rfstream.py:357-379 RFStream.moveout *)
  Definition v_moveout (ls : list loc) (w : world) : world * res unit :=
    match v_moveout_loop ls w with
    | (w1, Err e) => (w1, Err e)
    | (w1, Ok _) => (fold_left (fun w l => restat w l (mark (v_st (w_obj w l)))) ls w1, Ok tt)
    end.
  (** calls of methods of streams in a program *)
  Inductive call : Type :=
  | KFilter (ls : list loc)
  | KTrim (a b : sec) (r : reft) (ls : list loc)
  | KRf (a : rf_args) (ls : list loc)
  | KMoveout (ls : list loc)
  | KSlice (a b : sec) (r : reft) (keep_empty : bool) (ls new : list loc)
  | KInit (ls new : list loc)
  | KCopy (ls new : list loc).
  (** one call: the state afterwards and the stream which the call returns; the program may go on if it fails *)
  Definition do_call (c : call) (w : world) : world * res (list loc) :=
    match c with
    | KFilter ls => let (w', r) := v_filter ls w in (w', let! _ := r in Ok ls)
    | KTrim a b r ls => v_trim2 a b r ls w
    | KRf a ls => v_rf a ls w
    | KMoveout ls => let (w', r) := v_moveout ls w in (w', let! _ := r in Ok ls)
    | KSlice a b r k ls new => v_slice2 a b r k ls new w
    | KInit ls new => v_init ls new w
    | KCopy ls new => v_copy ls new w
    end.
End Methods.
