(** What a user may expect of rf data: C143, C144. *)
From Verif Require Import Model.Dispatch Spec.EventSpec Spec.BatchSpec Spec.OnceSpec.

(** an option, or its default *)
Definition option_is {A} (means : json -> A -> Prop) (d : dict json) (k : string) (default x : A) : Prop :=
  match dget d k with None => x = default | Some j => means j x end.
Definition text (j : json) (s : string) : Prop := j = JStr s.
Definition number (j : json) (q : Q) : Prop := j = JNum q.
Definition null_or {A} (means : json -> A -> Prop) (j : json) (x : option A) : Prop :=
  match x with None => j = JNull | Some a => means j a end.
Definition two_numbers (j : json) (w : Q * Q) : Prop := j = JList [JNum (fst w); JNum (snd w)].
Definition distances (j : json) (r : drange) : Prop :=
  match r with DDefault => j = JStr "default" | DNone => j = JNull | DRange lo hi => j = JList [JNum lo; JNum hi] end.
(** the documented entries of options and what they mean *)
Definition documented (opt : json) (a : rs_args) (window : option (Q * Q)) (pad : Q) : Prop :=
  exists d, opt = JObj d /\
    (forall k v, In (k, v) d -> In k ["phase"; "request_window"; "pad"; "dist_range"; "tt_model"; "pp_depth"; "pp_phase"; "model"]) /\
    option_is text d "phase" "P" (r_phase a) /\ option_is (null_or two_numbers) d "request_window" None window /\
    option_is number d "pad" 10%Q pad /\ option_is distances d "dist_range" DDefault (r_range a) /\
    option_is text d "tt_model" "iasp91" (r_tt a) /\ option_is (null_or number) d "pp_depth" None (r_ppdepth a) /\
    option_is (null_or text) d "pp_phase" None (r_ppphase a) /\ option_is text d "model" "iasp91" (r_model a).

(** the pair of an event and of a station id NET.STA.LOC.BH? *)
Definition pair_of (ev : event) (id : string) (p : spair) : Prop :=
  time_of ev = Some (p_time p) /\ exists cha, char_in "." cha = false /\
  id = (p_net p ++ "." ++ p_sta p ++ "." ++ p_loc p ++ "." ++ cha)%string.

Section S.
  Variable rfstats : event -> station_d -> res (option (dict value)).
  Variable coordinates : string -> option Z -> res station_d.
  Variable F : Type.
  Variable trim : Z -> Z -> F -> res F.
  Variable merge : F -> res F.
  Variable components : F -> list wtrace.
  Variable get : request -> res (option F).
  Variable channels : list string.
  Variables (w : Q * Q) (pad : Q).

  (** Traces for a request have the codes which were asked for, channels with three letters, each once,
      and are not read from SAC or Q files. *)
  Definition answers : Prop :=
    forall q st a b st1 st2, get q = Ok (Some st) -> trim a b st = Ok st1 -> merge st1 = Ok st2 ->
      NoDup (map (fun t => h_cha (w_h t)) (components st2)) /\
      forall t, In t (components st2) -> h_net (w_h t) = q_net q /\ h_sta (w_h t) = q_sta q /\ h_loc (w_h t) = q_loc q /\
        three_letters (h_cha (w_h t)) /\ plain_format (w_h t).
  (** the data of the window around the onset *)
  Definition data_for (ev : event) (id : string) (s : dict value) (st2 : F) : Prop :=
    exists onset q st st1, pair_stats rfstats coordinates channels ev id s /\ dget s "onset" = Some (VTime onset) /\
      request_for (fst w) (snd w) pad id onset q /\ get q = Ok (Some st) /\
      trim (after onset (fst w)) (after onset (snd w)) st = Ok st1 /\ merge st1 = Ok st2.
  (** the traces of a complete stream with the stats of event and station *)
  Definition delivered (ev : event) (id : string) (l : list hst) : Prop :=
    exists s st, data_for ev id s st /\ complete F components st /\
      Forall2 (fun t h => h_net h = h_net (w_h t) /\ h_sta h = h_sta (w_h t) /\ h_loc h = h_loc (w_h t) /\ h_cha h = h_cha (w_h t) /\
        h_start h = h_start (w_h t) /\ forall k v, dget s k = Some v -> dget (h_main h) k = Some v) (components st) l.
  (** there is no stream for event and station *)
  Definition missing (ev : event) (id : string) : Prop :=
    pair_unavailable rfstats coordinates channels ev id \/
    (exists s onset q e, pair_stats rfstats coordinates channels ev id s /\ dget s "onset" = Some (VTime onset) /\
       request_for (fst w) (snd w) pad id onset q /\ get q = Err e) \/
    (exists s st, data_for ev id s st /\ ~ complete F components st).
End S.

(** a name with blanks around it *)
Definition padded (s name : string) : Prop :=
  exists l r, s = (l ++ name ++ r)%string /\ (forall c, In c (list_ascii_of_string (l ++ r)) -> In c [" "; "009"; "010"; "011"; "012"; "013"]%char) /\
    (forall c rest, name = String c rest -> ~ In c [" "; "009"; "010"; "011"; "012"; "013"]%char) /\
    (forall c, last_char name = Some c -> ~ In c [" "; "009"; "010"; "011"; "012"; "013"]%char).
(** the arguments of a request: codes and times, and nothing else *)
Definition arguments_of (q : request) (kw : dict value) : Prop :=
  dget kw "network" = Some (VStr (q_net q)) /\ dget kw "station" = Some (VStr (q_sta q)) /\ dget kw "location" = Some (VStr (q_loc q)) /\
  dget kw "channel" = Some (VStr (q_cha q)) /\ dget kw "starttime" = Some (VTime (q_start q)) /\ dget kw "endtime" = Some (VTime (q_end q)) /\
  forall k, ~ In k ["network"; "station"; "location"; "channel"; "starttime"; "endtime"] -> dget kw k = None.
