(** Vocabulary for the profile theorems. *)
From Verif Require Import Model.Profile Spec.MeanSpec.

(** number stored under a header entry *)
Definition num_entry (k : string) (t : ptrace) (q : Q) : Prop :=
  exists v, dget (extra (p_st t)) k = Some (VNum v) /\ (v == q)%Q.

(** trace [t] contributes to box position [pos] and component [c]: its piercing
    point is enclosed by a box at [pos], no earlier box of the list encloses it,
    and its channel code ends in [c] *)
Definition hits (within : Q * Q -> box -> bool) (boxes : list box) (t : ptrace) (pos : Q) (c : ascii) : Prop :=
  exists la lo before b after,
    dget (extra (p_st t)) "pp_latitude" = Some (VNum la) /\
    dget (extra (p_st t)) "pp_longitude" = Some (VNum lo) /\
    boxes = before ++ b :: after /\ within (la, lo) b = true /\
    Forall (fun b' => within (la, lo) b' = false) before /\
    (b_pos b == pos)%Q /\
    last_char (channel (p_st t)) = Some c.

(** [sel] are the elements of [l] with property P, in order *)
Inductive selects {A} (P : A -> Prop) : list A -> list A -> Prop :=
| sel_nil : selects P [] []
| sel_in x l r : P x -> selects P l r -> selects P (x :: l) (x :: r)
| sel_out x l r : ~ P x -> selects P l r -> selects P (x :: l) r.

(** a trace usable for a profile: piercing point, channel code, onset *)
Definition profile_ready (t : ptrace) : Prop :=
  (exists la lo, dget (extra (p_st t)) "pp_latitude" = Some (VNum la) /\
                 dget (extra (p_st t)) "pp_longitude" = Some (VNum lo)) /\
  channel (p_st t) <> "" /\
  (forall v, dget (extra (p_st t)) "onset" = Some v -> exists o, v = VTime o).

(** strictly before in the order (channel, box_pos) *)
Definition before_in_profile (a b : ptrace) : Prop :=
  String.compare (channel (p_st a)) (channel (p_st b)) = Lt \/
  (channel (p_st a) = channel (p_st b) /\
   exists p q, num_entry "box_pos" a p /\ num_entry "box_pos" b q /\ (p < q)%Q).

(** what one trace of the profile must look like *)
Definition profile_trace_ok (within : Q * Q -> box -> bool) (boxes : list box)
           (m : mem) (stream : list ptrace) (m' : mem) (o : ptrace) : Prop :=
  exists pos c first rest,
    selects (fun t => hits within boxes t pos c) stream (first :: rest) /\
    channel (p_st o) = ("??" ++ char_str c)%string /\
    num_entry "box_pos" o pos /\
    num_entry "num" o (inject_Z (Z.of_nat (List.length (first :: rest)))) /\
    (* samples: the mean *)
    is_mean (map (fun t => rd m (p_buf t)) (first :: rest)) (rd m' (p_buf o)) /\
    (* header *)
    dget (extra (p_st o)) "type" = Some (VStr "profile") /\
    delta (p_st o) = delta (p_st first) /\
    (forall e, In e ["slowness"; "phase"; "moveout"; "processing"] ->
       dget (extra (p_st o)) e = dget (extra (p_st first)) e) /\
    (forall t0, dget (extra (p_st first)) "onset" = Some (VTime t0) ->
       dget (extra (p_st o)) "onset" = Some (VTime (starttime (p_st o) + (t0 - starttime (p_st first))))) /\
    (exists b, In b boxes /\ (b_pos b == pos)%Q /\
       dget (extra (p_st o)) "box_length" = Some (VNum (b_len b)) /\
       dget (extra (p_st o)) "box_latitude" = Some (VNum (b_lat b)) /\
       dget (extra (p_st o)) "box_longitude" = Some (VNum (b_lon b))) /\
    (exists b0 plat plon pazi plen w, hd_error boxes = Some b0 /\
       b_profile b0 = Some (plat, plon, pazi, plen, w) /\
       dget (extra (p_st o)) "profile_latitude" = Some (VNum plat) /\
       dget (extra (p_st o)) "profile_longitude" = Some (VNum plon) /\
       dget (extra (p_st o)) "profile_azimuth" = Some (VNum pazi) /\
       dget (extra (p_st o)) "profile_length" = Some (VNum plen)).
