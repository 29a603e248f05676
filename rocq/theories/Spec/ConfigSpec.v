(** What a user may expect of the configuration. *)
From Verif Require Import Model.Config.

(** Comments start with # outside of strings and end at the end of the line. *)
Inductive mode : Type := Outside | Inside | Escaped | Comment.
Definition next (m : mode) (c : ascii) : mode :=
  match m with
  | Outside => if Ascii.eqb c "#" then Comment else if Ascii.eqb c """" then Inside else Outside
  | Inside => if Ascii.eqb c "\" then Escaped else if Ascii.eqb c """" then Outside else Inside
  | Escaped => Inside
  | Comment => if Ascii.eqb c "010" then Outside else Comment
  end.
Fixpoint uncomment (m : mode) (s : string) : string :=
  match s with
  | EmptyString => EmptyString
  | String c s' => match next m c with
                   | Comment => uncomment Comment s'
                   | m' => String c (uncomment m' s')
                   end
  end.
(** a # in a string *)
Fixpoint hash_in_string (m : mode) (s : string) : bool :=
  match s with
  | EmptyString => false
  | String c s' => (match m with Inside | Escaped => Ascii.eqb c "#" | _ => false end) || hash_in_string (next m c) s'
  end.

(** the command line is preferred *)
Definition chosen (cli conf : dict json) (k : string) : option json :=
  match dget cli k with Some v => Some v | None => dget conf k end.
(** options which are objects can be given as text, and are empty if not given *)
Definition is_value (loads : string -> res json) (v : option json) (default w : json) : Prop :=
  match v with Some (JStr s) => loads s = Ok w | Some v => w = v | None => w = default end.
(** the same object but for one entry *)
Definition with_entry (v w : json) (k : string) (x : json) : Prop :=
  exists d d', v = JObj d /\ w = JObj d' /\ dget d' k = Some x /\ forall k', k' <> k -> dget d' k' = dget d k'.
(** an option which is given and not null *)
Definition set_to (v : option json) (x : json) : Prop := v = Some x /\ x <> JNull.
Definition not_set (v : option json) : Prop := v = None \/ v = Some JNull.

Definition known (k : string) : Prop :=
  In k ["commands"; "events"; "inventory"; "objects"; "get_waveforms"; "data"; "plugin"; "phase"; "moveout_phase"; "path_in"; "path_out"; "format"; "newformat";
        "client_options"; "options"; "rf"; "moveout"; "boxbins"; "boxes"; "profile"; "plot"; "plot_profile"].
