(** What the command data should do with a local file: C137. *)
From Verif Require Import Model.LocalData Spec.IterSpec.

(** the samples of a request, cut out of the records of the file *)
Definition cut_all (a b : Z) (ts : list trace) : res (list trace) :=
  let! l := mapM (fun t => trim t (STime a) (STime b)) ts in
  Ok (filter (fun t => negb (npts t =? 0)%Z) l).
(** the traces of a merged stream, and whether there are gaps *)
Fixpoint merged (p : plan) (ts : list trace) : list (trace * bool) :=
  match p with
  | [] => []
  | inl i :: p' => match nth_error ts i with Some t => (t, false) :: merged p' ts | None => merged p' ts end
  | inr x :: p' => x :: merged p' ts
  end.
(** the stream for an event and a station: it depends on the records of the file and the request only *)
Definition event_stream (merge : list trace -> plan) (file : list trace) (it : item) : res (option (list trace)) :=
  match cut_all (q_start (i_req it)) (q_end (i_req it)) (filter (selects (i_req it)) file) with
  | Err e => Err (if caught e then AttributeError else e)
  | Ok l1 =>
      let! l2 := match l1 with [] => Ok [] | t0 :: _ => cut_all (snap_start t0 (i_start it)) (snap_end t0 (i_stop it)) l1 end in
      let l3 := merged (merge l2) l2 in
      if Nat.eqb (List.length l3) 3 && negb (existsb snd l3)
      then Ok (Some (map (fun x => mkTrace (update_stats (st (fst x)) (i_stats it)) (data (fst x))) l3))
      else Ok None
  end.
(** the streams for all events and stations, up to the first exception *)
Fixpoint event_streams (merge : list trace -> plan) (file : list trace) (items : list item) : list (list trace) :=
  match items with
  | [] => []
  | it :: items' => match event_stream merge file it with
                    | Err _ => []
                    | Ok None => event_streams merge file items'
                    | Ok (Some s) => s :: event_streams merge file items'
                    end
  end.
(** the three traces of a stream belong together *)
Definition together (str_of : value -> string) (ts : list trace) : Prop :=
  List.length ts = 3 /\ (forall t, In t ts -> has_entry (Some "onset") t) /\ forall t u, In t ts -> In u ts -> same_group str_of (Some "onset") t u.
(** no moveout, or rf renews all arrays before *)
Definition renews (rotates : Prop) (a : rf_args) : Prop :=
  a_filter a = true \/ a_filter a = false /\ a_trim a = None /\ a_downsample a = None /\ a_rotate a = true /\ rotates.
Definition careful (rotates : Prop) (cmds : list command) : Prop :=
  Forall (fun c => c <> CMoveout) cmds \/ exists k a cs, cmds = repeat CData k ++ CCalc a :: cs /\ renews rotates a.
(** traces of the stream are taken at most once *)
Fixpoint kept (p : plan) : list nat := match p with [] => [] | inl i :: p' => i :: kept p' | inr _ :: p' => kept p' end.
Definition merges (merge : list trace -> plan) : Prop := forall ts, NoDup (kept (merge ts)).
