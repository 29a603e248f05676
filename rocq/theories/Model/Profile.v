(** rf/profile.py  profile boxes and profile stacking *)
From Verif Require Export Model.Trace Model.Num Model.Stack.

(** A box dictionary (profile.py:25-28): pos, length, latlon, and the optional
    'profile' entry of the first box (profile.py:49-54): latlon, azimuth, length,
    width. The polygon is not a field: whether it encloses a point is the oracle
    [within] below; the planar geometry of the polygon is in Model/Boxes.v. *)
Record box : Type := mkBox {
  b_pos : Q; b_len : Q; b_lat : Q; b_lon : Q;
  b_profile : option (Q * Q * Q * Q * Q) }.

(** Numpy arrays live in a memory; traces hold references, so that sharing of the
    data array of the first trace (profile.py:109) is visible. *)
Definition mem := list (list Q).
(** content of an array, profile.py:109-118 *)
Definition rd (m : mem) (b : nat) : list Q := nth b m [].
(** a new array, profile.py:115, 118 *)
Definition alloc (m : mem) (d : list Q) : mem * nat := (m ++ [d], List.length m).
(** a trace: stats and reference to its array, profile.py:86-118 *)
Record ptrace : Type := mkPT { p_st : stats; p_buf : nat }.

(** tr.stats.pp_latitude, tr.stats.pp_longitude (profile.py:87): attribute access
    on Stats; AttributeError if missing *)
Definition ppoint (t : ptrace) : res (Q * Q) :=
  match dget (extra (p_st t)) "pp_latitude" with
  | None => Err AttributeError
  | Some (VNum la) =>
      match dget (extra (p_st t)) "pp_longitude" with
      | None => Err AttributeError
      | Some (VNum lo) => Ok (la, lo)
      | Some _ => Err TypeError
      end
  | Some _ => Err TypeError
  end.

Section Prof.
  (** [within p b]: the projected point p lies within the projected polygon of b
      (shapely/cartopy, profile.py:67-71). [crs_given]: the crs argument is not None. *)
  Variable within : Q * Q -> box -> bool.
  Variable crs_given : bool.

  (** profile.py:59-72 _find_box. boxes[len(boxes)//2] raises IndexError for an
      empty list if no crs is given (profile.py:64). *)
  Definition find_box (p : Q * Q) (boxes : list box) : res (option box) :=
    if negb crs_given && Nat.eqb (List.length boxes) 0 then Err IndexError
    else Ok (find (within p) boxes).

  (** The dictionary key (pos, comp) of profile.py:93; positions compare by value,
      here by their lowest terms. *)
  Definition pkey : Type := (Q * ascii)%type.
  (** equality of positions, profile.py:94 *)
  Definition Qeqb (a b : Q) : bool := Z.eqb (Qnum a) (Qnum b) && Pos.eqb (Qden a) (Qden b).
  (** equality of keys, profile.py:94 *)
  Definition pkey_eqb (a b : pkey) : bool := Qeqb (fst a) (fst b) && Ascii.eqb (snd a) (snd b).

  (** an entry of the dictionary stack: header and data reference of tr2, and
      tr2.stats.num (kept separately here, written to the header at the end) *)
  Record pentry : Type := mkPE { e_st : stats; e_buf : nat; e_num : nat }.

  (** profile.py:95-112 header of a new entry *)
  Definition new_stats (t : ptrace) (b : box) (boxes : list box) (c : ascii) : res stats :=
    match boxes with
    | [] => Err IndexError                      (* boxes[0] *)
    | b0 :: _ =>
        match b_profile b0 with
        | None => Err KeyError                  (* boxes[0]['profile'] *)
        | Some (plat, plon, pazi, plen, _) =>
            let hdr := [("box_pos", VNum (b_pos b)); ("box_length", VNum (b_len b));
                        ("box_latitude", VNum (b_lat b)); ("box_longitude", VNum (b_lon b));
                        ("profile_latitude", VNum plat); ("profile_longitude", VNum plon);
                        ("profile_azimuth", VNum pazi); ("profile_length", VNum plen)] in
            let hdr := copy_entries ["slowness"; "phase"; "moveout"; "processing"]
                                    (extra (p_st t)) hdr in
            let s := mkStats "" "" "" ("??" ++ char_str c)%string 0 (delta (p_st t)) hdr in
            match dget (extra (p_st t)) "onset" with
            | None => Ok s
            | Some (VTime o) =>
                Ok (mkStats "" "" "" ("??" ++ char_str c)%string 0 (delta (p_st t))
                     (dset hdr "onset" (VTime (0 + (o - starttime (p_st t))))))
            | Some _ => Err TypeError
            end
        end
    end.

  (** profile.py:87-116: the body of the loop over the stream *)
  Definition profile_step (boxes : list box) (s : mem * list (pkey * pentry)) (t : ptrace)
    : res (mem * list (pkey * pentry)) :=
    let '(m, stack) := s in
    let! p := ppoint t in
    let! ob := find_box p boxes in
    match ob with
    | None => Ok (m, stack)
    | Some b =>
        match last_char (channel (p_st t)) with
        | None => Err IndexError                (* channel[-1] *)
        | Some c =>
            let key := (Qred (b_pos b), c) in
            match aget pkey_eqb stack key with
            | None =>
                let! st2 := new_stats t b boxes c in
                Ok (m, aset pkey_eqb stack key (mkPE st2 (p_buf t) 1))
            | Some e =>
                let! d := np_add (rd m (e_buf e)) (rd m (p_buf t)) in
                let '(m', b') := alloc m d in
                Ok (m', aset pkey_eqb stack key (mkPE (e_st e) b' (S (e_num e))))
            end
        end
    end.

  (** profile.py:118 and 129: divide, and set num and type *)
  Definition finish (s : mem * list ptrace) (e : pentry) : mem * list ptrace :=
    let '(m, out) := s in
    let n := inject_Z (Z.of_nat (e_num e)) in
    let '(m', b') := alloc m (np_div (rd m (e_buf e)) n) in
    let st2 := e_st e in
    (m', out ++ [mkPT (mkStats (network st2) (station st2) (location st2) (channel st2)
                        (starttime st2) (delta st2)
                        (dset (dset (extra st2) "num" (VNum n)) "type" (VStr "profile"))) b']).

  (** Stream.sort(['channel', 'box_pos']) (profile.py:128): obspy sorts by the last
      key first, each time stably *)
  Definition pos_of (t : ptrace) : Q :=
    match dget (extra (p_st t)) "box_pos" with Some (VNum q) => q | _ => 0%Q end.
  (** profile.sort(['channel', 'box_pos']), profile.py:128 (library) *)
  Definition sort_profile (l : list ptrace) : list ptrace :=
    sort (fun a b => String.leb (channel (p_st a)) (channel (p_st b)))
         (sort (fun a b => Qle_bool (pos_of a) (pos_of b)) l).

  (** profile.py:75-130 (the class of the result is not modelled) *)
  Definition rf_profile (m : mem) (stream : list ptrace) (boxes : list box)
    : res (mem * list ptrace) :=
    let! ms := foldM (profile_step boxes) stream (m, []) in
    let '(m1, stack) := ms in
    let '(m2, out) := fold_left finish (map snd stack) (m1, []) in
    Ok (m2, sort_profile out).
End Prof.
