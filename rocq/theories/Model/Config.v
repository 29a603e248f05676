(** rf/batch.py: configuration and options. Texts in json format are parsed by json.loads, which
    is the parameter [loads]. *)
From Verif Require Export Model.Py.

(** values of json.load, batch.py:219, 249 *)
Inductive json : Type :=
| JNull | JBool (b : bool) | JNum (q : Q) | JStr (s : string) | JList (l : list json) | JObj (d : list (string * json)).

(** '\n', batch.py:183 *)
Definition newline : ascii := "010".
(** batch.py:182-184 ConfigJSONDecoder.decode: what is passed to the decoder of json *)
Definition strip_comments (s : string) : string :=
  str_join (char_str newline) (map (fun l => hd "" (split_on "#" l)) (split_on newline s)).

(** batch.py:232-233 DICT_OPTIONS *)
Definition DICT_OPTIONS : list string :=
  ["client_options"; "options"; "rf"; "moveout"; "boxbins"; "boxes"; "profile"; "plot"; "plot_profile"].
(** batch.py:236-240 the named arguments of run_commands after command *)
Definition NAMED : list string :=
  ["commands"; "events"; "inventory"; "objects"; "get_waveforms"; "data"; "plugin"; "phase"; "moveout_phase"; "path_in"; "path_out"; "format"; "newformat"].
(** opt in DICT_OPTIONS, batch.py:243 *)
Definition inb (k : string) (l : list string) : bool := existsb (String.eqb k) l.

(** d[k] = v for values of a configuration *)
Definition set_item (j : json) (k : string) (v : json) : res json :=
  match j with JObj d => Ok (JObj (dset d k v)) | _ => Err TypeError end.

Section Config.
  Variable loads : string -> res json.
  Variable linspace : json -> res json.

  (** batch.py:246-249 *)
  Definition default_option (opt : string) : json := if String.eqb opt "boxbins" then JNull else JObj [].
  (** batch.py:245-249, one option *)
  Definition fill_option (kw : dict json) (opt : string) : res (dict json) :=
    let kw := match dget kw opt with Some _ => kw | None => dset kw opt (default_option opt) end in
    match dget kw opt with
    | Some (JStr s) => let! v := loads s in Ok (dset kw opt v)
    | _ => Ok kw
    end.
  (** kw[opt][k] = v *)
  Definition set_in (kw : dict json) (opt k : string) (v : json) : res (dict json) :=
    match dget kw opt with
    | Some j => let! j' := set_item j k v in Ok (dset kw opt j')
    | None => Err KeyError
    end.
  (** phase is not None, moveout_phase is not None, batch.py:250-252 *)
  Definition given (v : option json) : option json := match v with Some JNull => None | v => v end.
  (** batch.py:242-255 the options after the first part of run_commands; [args]: all keyword
      arguments *)
  Definition resolve (args : dict json) : res (dict json) :=
    let kw := filter (fun e => negb (inb (fst e) NAMED)) args in
    if existsb (fun e => negb (inb (fst e) DICT_OPTIONS)) kw then Err ParseError
    else
      let! kw := foldM fill_option DICT_OPTIONS kw in
      let! kw := match given (dget args "phase") with Some p => set_in kw "options" "phase" p | None => Ok kw end in
      let! kw := match given (dget args "moveout_phase") with Some p => set_in kw "moveout" "phase" p | None => Ok kw end in
      match given (dget kw "boxbins") with
      | Some b => let! bins := linspace b in set_in kw "boxes" "bins" bins
      | None => Ok kw
      end.

  (** batch.py:212-229 run without the command create: a message and nothing else, or the keyword
      arguments for run_commands. [file]: content of a file *)
  Inductive outcome : Type := Message | Raise (e : exn) | Call (args : dict json).
  (** kw.get('objects', [''])[0], batch.py:216 *)
  Definition objects0 (kw : dict json) : res string :=
    match dget kw "objects" with
    | None => Ok ""
    | Some (JList (JStr s :: _)) => Ok s
    | Some (JList []) => Err IndexError
    | Some _ => Err TypeError
    end.
  (** batch.py:212-229 *)
  Definition run_config (file : string -> option string) (command : string) (conf : option string) (kw : dict json) : outcome :=
    let call (args : dict json) := match dget args "command" with Some _ => Raise TypeError | None => Call args end in
    match conf with
    | None => call kw
    | Some c =>
        if inb c ["None"; "none"; "null"; ""] then call kw
        else
          match (if String.eqb command "print" then let! o := objects0 kw in Ok (inb o ["stations"; "events"]) else Ok true) with
          | Err e => Raise e
          | Ok false => call kw
          | Ok true =>
              match file c with
              | None => Message
              | Some text =>
                  match loads (strip_comments text) with
                  | Err ValueError => Message
                  | Err e => Raise e
                  | Ok (JObj d) => call (dupdate d kw)
                  | Ok _ => Raise AttributeError
                  end
              end
          end
    end.
End Config.

(** batch.py:268-289 events and inventory are read. [Some x]: x is used, None: the message
    "cannot read events or stations". *)
Inductive events_arg (E : Type) : Type :=
| EvNone                                  (* None *)
| EvName (name : string)                  (* file name *)
| EvPair (name : string) (format : string)
| EvCatalog (l : list E)                  (* obspy.Catalog *)
| EvList (l : list E).                    (* list of events *)
Arguments EvNone {E}. Arguments EvName {E} _. Arguments EvPair {E} _ _. Arguments EvCatalog {E} _. Arguments EvList {E} _.
Section Read.
  Variable E : Type.
  (** obspy.read_events, reading of files; for an Event instead of a file name there is an error *)
  Variable read_events : string -> option string -> res (list E).
  (** isinstance(events, obspy.Catalog), batch.py:272 *)
  Definition is_catalog (a : events_arg E) : bool := match a with EvCatalog _ => true | _ => false end.
  (** a pair of strings is a list of length 2 *)
  Definition is_list (a : events_arg E) : bool := match a with EvList _ | EvPair _ _ => true | _ => false end.
  (** len(events) == 2 and isinstance(events[0], basestring), batch.py:274 *)
  Definition two_strings (a : events_arg E) : bool := match a with EvPair _ _ => true | _ => false end.
  (** batch.py:272-279 *)
  Definition load_events (a : events_arg E) : res (list E) :=
    if negb (is_catalog a) || negb (is_list a) || two_strings a then
      match a with
      | EvName n => read_events n None
      | EvPair n f => read_events n (Some f)
      | EvNone => Err TypeError
      | EvCatalog [_; _] | EvList [_; _] => Err OtherError      (* unpacked, read_events(event, event) *)
      | EvCatalog _ | EvList _ => Err ValueError
      end
    else match a with EvCatalog l | EvList l => Ok l | _ => Ok [] end.

  Variable I : Type.
  (** the argument inventory, batch.py:281-286 *)
  Inductive inv_arg : Type := InvName (name : string) | InvPair (name format : string) | InvObject (i : I) | InvNone.
  Variable read_inventory : string -> option string -> res I.
  (** batch.py:280-286 *)
  Definition load_inventory (a : inv_arg) : res I :=
    match a with
    | InvObject i => Ok i
    | InvName n => read_inventory n None
    | InvPair n f => read_inventory n (Some f)
    | InvNone => Err TypeError
    end.
  (** batch.py:268-289 for commands other than print, stack and plot. Inner None: the message. *)
  Definition load_input (ev : events_arg E) (inv : inv_arg) : option (list E * I) :=
    match (let! e := load_events ev in let! i := load_inventory inv in Ok (e, i)) with
    | Ok x => Some x
    | Err _ => None
    end.
End Read.
Arguments InvName {I} _. Arguments InvPair {I} _ _. Arguments InvObject {I} _. Arguments InvNone {I}.
