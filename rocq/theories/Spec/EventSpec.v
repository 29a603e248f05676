(** What a user may expect of the iterators over events and stations. *)
From Verif Require Import Model.EventData.

(** the first occurrences of the elements, in order *)
Fixpoint firsts (l : list string) : list string :=
  match l with
  | [] => []
  | x :: r => x :: filter (fun y => negb (String.eqb y x)) (firsts r)
  end.
(** the stations of an inventory: ids of channels without component *)
Definition station_of (ch : string) : string := (droplast ch ++ "?")%string.
Definition station_ids (channels : list string) : list string := firsts (map station_of channels).

(** onset + seconds, rounded to ns *)
Definition after (t : Z) (secs : Q) : Z := (t + Qfloor (secs * inject_Z 1000000000 + (1 # 2)))%Z.

Definition time_of (ev : event) : option Z :=
  match e_pref ev with
  | Some o => o_time o
  | None => match e_origins ev with o :: _ => o_time o | [] => None end
  end.
Definition has_origin (ev : event) : Prop := e_pref ev <> None \/ e_origins ev <> [].

Section S.
  Variable rfstats : event -> station_d -> res (option (dict value)).  (* for the given phase and options *)
  Variable str_of : value -> string.
  Variable coordinates : string -> option Z -> res station_d.
  Variable W : Type.
  Variable trim : Z -> Z -> W -> res W.
  Variable merge : W -> res W.
  Variable components : W -> list wtrace.
  Variable waveforms : request -> res (option W).
  Variable channels : list string.
  Variables w0 w1 pad : Q.

  (** for an event and a station: the stats which rfstats returns, if there are *)
  Definition pair_stats (ev : event) (id : string) (s : dict value) : Prop :=
    exists ch coords, In ch channels /\ station_of ch = id /\ coordinates ch (time_of ev) = Ok coords /\
      rfstats ev coords = Ok (Some s).
  (** coordinates not available, an error in rfstats or a distance outside of the range *)
  Definition pair_unavailable (ev : event) (id : string) : Prop :=
    exists ch, In ch channels /\ station_of ch = id /\
      ((exists e, coordinates ch (time_of ev) = Err e) \/
       exists coords, coordinates ch (time_of ev) = Ok coords /\ ((exists e, rfstats ev coords = Err e) \/ rfstats ev coords = Ok None)).
  (** data for the window [onset+w0, onset+w1] are requested with padding *)
  Definition request_for (id : string) (onset : Z) (q : request) : Prop :=
    (q_net q ++ "." ++ q_sta q ++ "." ++ q_loc q ++ "." ++ q_cha q)%string = id /\
    (forall c, In c [q_net q; q_sta q; q_loc q; q_cha q] -> char_in "." c = false) /\
    q_start q = after (after onset w0) (- pad) /\ q_end q = after (after onset w1) pad.
  (** three components without gaps *)
  Definition complete (st : W) : Prop :=
    List.length (components st) = 3 /\ forall t, In t (components st) -> w_masked t = false.
  (** the streams with the entries of rfstats *)
  Definition annotated (s : dict value) (st : W) (l : list hst) : Prop :=
    Forall2 (fun t t' => rftrace_init str_of (with_main (w_h t) (dupdate (h_main (w_h t)) s)) = Ok t') (components st) l.

  (** what is done for one pair *)
  Inductive pair_result (ev : event) (id : string) : list action -> Prop :=
  | PUnavailable : pair_unavailable ev id -> pair_result ev id []
  | PNoData s onset q e : pair_stats ev id s -> dget s "onset" = Some (VTime onset) -> request_for id onset q ->
      waveforms q = Err e -> pair_result ev id [ARequest q]
  | PIncomplete s onset q st st1 st2 : pair_stats ev id s -> dget s "onset" = Some (VTime onset) -> request_for id onset q ->
      waveforms q = Ok (Some st) -> trim (after onset w0) (after onset w1) st = Ok st1 -> merge st1 = Ok st2 -> ~ complete st2 ->
      pair_result ev id [ARequest q; ATrim (after onset w0) (after onset w1)]
  | PComplete s onset q st st1 st2 l : pair_stats ev id s -> dget s "onset" = Some (VTime onset) -> request_for id onset q ->
      waveforms q = Ok (Some st) -> trim (after onset w0) (after onset w1) st = Ok st1 -> merge st1 = Ok st2 -> complete st2 ->
      annotated s st2 l -> pair_result ev id [ARequest q; ATrim (after onset w0) (after onset w1); AYield l].
  (** what may have been done for the pair at which the iteration is aborted *)
  Inductive pair_aborted (ev : event) (id : string) : list action -> Prop :=
  | ANothing : pair_aborted ev id []
  | ARequested s onset q : pair_stats ev id s -> dget s "onset" = Some (VTime onset) -> request_for id onset q ->
      pair_aborted ev id [ARequest q]
  | ATrimmed s onset q : pair_stats ev id s -> dget s "onset" = Some (VTime onset) -> request_for id onset q ->
      pair_aborted ev id [ARequest q; ATrim (after onset w0) (after onset w1)].
End S.

(** Stream.ppoints / SimpleModel.ppoint set the piercing point and nothing else *)
Definition sets_ppoint (ppoint : string -> dict value -> Q -> string -> res (dict value)) : Prop :=
  forall m s d p s', NoDup (map fst s) -> ppoint m s d p = Ok s' ->
    NoDup (map fst s') /\ forall k, ~ In k ["pp_latitude"; "pp_longitude"; "pp_depth"] -> dget s' k = dget s k.
(** default window around the onset *)
Definition window_of (phase : string) (window : option (Q * Q)) (w : Q * Q) : Prop :=
  match window with
  | Some w' => w = w'
  | None => (last_char (upper phase) = Some "P"%char -> w = (-50, 150)%Q) /\
            (last_char (upper phase) <> Some "P"%char -> w = (-100, 50)%Q)
  end.
(** a complete channel id *)
Definition channel_id (ch : string) : Prop :=
  exists net sta loc cha, ch = (net ++ "." ++ sta ++ "." ++ loc ++ "." ++ cha)%string /\ cha <> "" /\
    char_in "." net = false /\ char_in "." sta = false /\ char_in "." loc = false /\ char_in "." cha = false.
(** data which do not come from SAC or Q files *)
Definition plain_format (t : hst) : Prop :=
  forall f, h_format t = Some f -> ~ In (lower f) ["sac"; "q"; "sh"] /\ upper f <> "Q".
