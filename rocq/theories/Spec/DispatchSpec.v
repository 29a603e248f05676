(** What a user may expect of the program as a whole: C126-C130. *)
From Verif Require Import Model.Dispatch Spec.BatchSpec Spec.ConfigSpec Spec.CliSpec.

(** files of a path: in the directory, or with this name *)
Definition inside (path n : string) : Prop :=
  (exists s, n = (path ++ "/" ++ s)%string) \/ n = (path ++ ".h5")%string \/ n = (path ++ ".QHD")%string.
(** the content of the configuration, which is empty for -c None *)
Definition configured (loads : string -> res json) (file : string -> option string) (d : list (string * string)) (conf : dict json) : Prop :=
  (In (conf_name d) ["None"; "none"; "null"; ""] /\ conf = []) \/
  (~ In (conf_name d) ["None"; "none"; "null"; ""] /\
   exists text, file (conf_name d) = Some text /\ loads (strip_comments text) = Ok (JObj conf) /\ forall k v, In (k, v) conf -> known k).
(** an option of the command line (text), else the entry of the configuration file *)
Definition setting (d : list (string * string)) (conf : dict json) (k : string) : option json :=
  match last_given d k with Some v => Some (JStr v) | None => dget conf k end.
(** all options for functions are objects (or texts for them) and boxbins can be used *)
Definition options_ok (loads : string -> res json) (linspace : json -> res json) (v : string -> option json) : Prop :=
  (forall k, In k ["client_options"; "options"; "rf"; "moveout"; "boxes"; "profile"; "plot"; "plot_profile"] -> exists o, is_value loads (v k) (JObj []) (JObj o)) /\
  exists b, is_value loads (v "boxbins") JNull b /\ (b = JNull \/ exists l, linspace b = Ok l).
(** file name, or file name and format *)
Definition names_file (v : option json) (n : string) (f : option string) : Prop :=
  match f with
  | None => v = Some (JStr n) \/ v = Some (JList [JStr n; JNull])
  | Some f => v = Some (JList [JStr n; JStr f])
  end.
(** format of files, Q if not set *)
Definition format_is (v : option json) (fmt : string) : Prop := v = Some (JStr fmt) \/ (v = None /\ fmt = "Q").
(** no path is in the directory of the other one *)
Definition apart (a b : string) : Prop := a <> b /\ (forall s, a <> (b ++ "/" ++ s)%string) /\ (forall s, b <> (a ++ "/" ++ s)%string).
(** an archive: streams (with their pairs of event and station) have been written one after the other *)
Definition stored (fmt_time : Z -> string) (year : Z -> Prop) (str_of : value -> string) (h5key : trace -> string) (writer : string -> list trace -> option exn)
    (pin fmt : string) (streams : list (spair * list trace)) (fs : files) : Prop :=
  clock fmt_time year /\ no_wild pin /\ In fmt ["Q"; "SAC"; "H5"] /\
  Forall (good year) streams /\ ForallOrdPairs (fun a b => ~ same_pair (fst a) (fst b)) streams /\ (fmt = "H5" -> NoDup (map h5key (flat_map snd streams))) /\
  exists fs0 opss, unrelated pin fs0 /\ Forall2 (fun ps ops => write fmt_time str_of h5key writer (snd ps) pin fmt TRf = (ops, None)) streams opss /\ fs = do_ops fs0 (List.concat opss).
(** the commands one after the other *)
Fixpoint apply_all (f : string -> list trace -> res (list trace)) (cmds : list string) (s out : list trace) : Prop :=
  match cmds with
  | [] => out = s
  | c :: cmds' => exists s', f c s = Ok s' /\ apply_all f cmds' s' out
  end.
(** options for moveout: those of the configuration, and the phase if it is given *)
Definition moveout_options (loads : string -> res json) (v : string -> option json) (w : json) : Prop :=
  exists m, is_value loads (v "moveout") (JObj []) m /\ (not_set (v "moveout_phase") -> w = m) /\ (forall p, set_to (v "moveout_phase") p -> with_entry m w "phase" p).
