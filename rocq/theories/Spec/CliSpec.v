(** The command line as documented: rf [options] command arguments. *)
From Verif Require Import Model.Config.

(** the options and their names in the configuration *)
Definition option_name (flag key : string) : Prop :=
  In (flag, key)
    [("-c", "conf"); ("--conf", "conf"); ("--events", "events"); ("--inventory", "inventory"); ("--data", "data"); ("--phase", "phase");
     ("--moveout-phase", "moveout_phase"); ("--format", "format"); ("--client-options", "client_options"); ("--options", "options");
     ("--rf", "rf"); ("--moveout", "moveout"); ("--boxbins", "boxbins"); ("--boxes", "boxes"); ("--profile", "profile"); ("--plot", "plot");
     ("--plot-profile", "plot_profile")].
(** a token which cannot be taken for an option *)
Definition plain (t : string) : Prop := String.prefix "-" t = false.
(** tokens, and the options given by them in this order: as --option value or --option=value *)
Inductive options : list string -> list (string * string) -> Prop :=
| no_options : options [] []
| separate flag key v l d : option_name flag key -> plain v -> options l d -> options (flag :: v :: l) ((key, v) :: d)
| joined flag key v l d : option_name flag key -> options l d -> options ((flag ++ "=" ++ v)%string :: l) ((key, v) :: d).
(** if an option is given several times the last one counts *)
Fixpoint last_given (d : list (string * string)) (k : string) : option string :=
  match d with
  | [] => None
  | (k', v) :: d' => match last_given d' k with Some w => Some w | None => if String.eqb k k' then Some v else None end
  end.
(** the name of the configuration file *)
Definition conf_name (d : list (string * string)) : string := match last_given d "conf" with Some c => c | None => "conf.json" end.
(** a command, the tokens after it, and what they are for the command *)
Inductive positional : string -> list string -> dict json -> Prop :=
| data_args cmds out : (forall c, In c cmds -> c = "calc" \/ c = "moveout") ->
    positional "data" (cmds ++ [out]) [("commands", JList (map JStr cmds)); ("path_out", JStr out)]
| calc_args cmds inp out : (forall c, In c cmds -> c = "moveout") ->
    positional "calc" (cmds ++ [inp; out]) [("commands", JList (map JStr cmds)); ("path_in", JStr inp); ("path_out", JStr out)]
| path_args c inp out : In c ["moveout"; "stack"; "profile"; "plot"; "plot-profile"] ->
    positional c [inp; out] [("path_in", JStr inp); ("path_out", JStr out)]
| convert_args inp out fmt : positional "convert" [inp; out; fmt] [("path_in", JStr inp); ("path_out", JStr out); ("newformat", JStr fmt)]
| print_args objs : objs <> [] -> positional "print" objs [("objects", JList (map JStr objs))].
(** an argument of the command, else an option, else an entry of the configuration file *)
Definition value_of (a : dict json) (d : list (string * string)) (conf : dict json) (k : string) : option json :=
  match dget a k with
  | Some v => Some v
  | None => match (if String.eqb k "conf" then None else last_given d k) with
            | Some v => Some (JStr v)
            | None => dget conf k
            end
  end.
