(** rf/batch.py:191-229, 266-289, 300-310, 367-452: the command line. The parser of the command line is
    argparse (library); its rules for the arguments of rf are modelled. Simplifications: the token
    -- is refused, and messages of argparse (usage, errors, help, version) are not told apart. *)
From Verif Require Export Model.Config.

(** f.replace('_', '-'), batch.py:442 *)
Fixpoint dash (s : string) : string :=
  match s with EmptyString => EmptyString | String a s' => String (if Ascii.eqb a "_" then "-"%char else a) (dash s') end.
(** names of the values in the result of parse_args: '-' is replaced by '_' (argparse), batch.py:445 *)
Fixpoint undash (s : string) : string :=
  match s with EmptyString => EmptyString | String a s' => String (if Ascii.eqb a "-" then "_"%char else a) (undash s') end.
(** batch.py:437-438 features_str *)
Definition features_str : list string := ["events"; "inventory"; "data"; "phase"; "moveout-phase"; "format"].
(** the options of the main parser and the names of their values, batch.py:375-379, 437-442; -h and --help are
    added by argparse *)
Definition main_flags : dict string :=
  [("-h", "help"); ("--help", "help"); ("-v", "version"); ("--version", "version"); ("-c", "conf"); ("--conf", "conf")]
  ++ map (fun f => (("--" ++ f)%string, undash f)) features_str
  ++ map (fun f => (("--" ++ dash f)%string, undash (dash f))) DICT_OPTIONS.
(** batch.py:381-401 the commands *)
Definition subcommands : list string :=
  ["create"; "data"; "calc"; "moveout"; "stack"; "profile"; "convert"; "print"; "plot"; "plot-profile"].
(** the options of the parsers of the commands, batch.py:404 *)
Definition sub_flags (command : string) : dict string :=
  [("-h", "help"); ("--help", "help")] ++ (if String.eqb command "create" then [("-t", "tutorial"); ("--tutorial", "tutorial")] else []).

(** a token of the command line for argparse (batch.py:445, library ArgumentParser._parse_optional) *)
Inductive token : Type := Pos | Opt (dest : string) (v : option string) | Bad.
(** '=' in arg_string; arg_string.split('=', 1) (library, batch.py:445) *)
Fixpoint split_eq (s : string) : string * option string :=
  match s with
  | EmptyString => (EmptyString, None)
  | String a s' => if Ascii.eqb a "=" then (EmptyString, Some s') else let (n, v) := split_eq s' in (String a n, v)
  end.
(** \d of regular expressions, ASCII (library, batch.py:445) *)
Definition is_digit (a : ascii) : bool := let n := nat_of_ascii a in (48 <=? n) && (n <=? 57).
(** \d* (library, batch.py:445) *)
Fixpoint all_digits (s : string) : bool := match s with EmptyString => true | String a s' => is_digit a && all_digits s' end.
(** ^-\d+$|^-\d*\.\d+$ (library ArgumentParser._negative_number_matcher, batch.py:445), [s]: after the sign *)
Fixpoint number (s : string) : bool :=
  match s with
  | EmptyString => false
  | String a s' => if Ascii.eqb a "." then negb (String.eqb s' "") && all_digits s'
                   else is_digit a && (String.eqb s' "" || number s')
  end.
(** library ArgumentParser._get_option_tuples (batch.py:445): abbreviations of options, options of one letter followed
    by their value *)
Definition candidates (flags : dict string) (t : string) : list (string * option string) :=
  if String.prefix "--" t then
    let (n, v) := split_eq t in
    map (fun f => (snd f, v)) (filter (fun f => String.prefix n (fst f)) flags)
  else
    map (fun f => (snd f, if String.eqb (fst f) (String.substring 0 2 t) then Some (String.substring 2 (String.length t - 2) t) else None))
        (filter (fun f => String.eqb (fst f) (String.substring 0 2 t) || String.prefix t (fst f)) flags).
(** library ArgumentParser._parse_optional (batch.py:445): argument, option (with its value if it is in the same token),
    or neither (unknown or ambiguous option) *)
Definition classify (flags : dict string) (t : string) : token :=
  if negb (String.prefix "-" t) then Pos
  else match dget flags t with
  | Some d => Opt d None
  | None =>
      if (String.length t =? 1)%nat then Pos
      else
        let (n, v) := split_eq t in
        match v, dget flags n with
        | Some v, Some d => Opt d (Some v)
        | _, _ =>
            match candidates flags t with
            | [(d, v)] => Opt d v
            | _ :: _ :: _ => Bad
            | [] => if number (String.substring 1 (String.length t - 1) t) then Pos
                    else if char_in " " t then Pos else Bad
            end
        end
  end.

(** batch.py:407-409, 411-412: nargs='*' and choices; without values the default is used *)
Definition commands_value (choices : list string) (l : list string) : option json :=
  match l with
  | [] => Some (JStr "moveout")
  | _ => if forallb (fun c => inb c choices) l then Some (JList (map JStr l)) else None
  end.
(** batch.py:404-430 the arguments of the commands: names and values. Arguments with nargs='*' take as
    many tokens as possible (argparse). None: usage *)
Definition arguments (command : string) (pos : list string) : option (dict json) :=
  if String.eqb command "create" then match pos with [] => Some [] | _ => None end
  else if String.eqb command "print" then match pos with [] => None | _ => Some [("objects", JList (map JStr pos))] end
  else if String.eqb command "data" then
    match rev pos with
    | out :: r => match commands_value ["calc"; "moveout"] (rev r) with
                  | Some c => Some [("commands", c); ("path_out", JStr out)]
                  | None => None
                  end
    | _ => None
    end
  else if String.eqb command "calc" then
    match rev pos with
    | out :: inp :: r => match commands_value ["moveout"] (rev r) with
                         | Some c => Some [("commands", c); ("path_in", JStr inp); ("path_out", JStr out)]
                         | None => None
                         end
    | _ => None
    end
  else if String.eqb command "convert" then
    match pos with [inp; out; fmt] => Some [("path_in", JStr inp); ("path_out", JStr out); ("newformat", JStr fmt)] | _ => None end
  else match pos with [inp; out] => Some [("path_in", JStr inp); ("path_out", JStr out)] | _ => None end.

(** the tokens after the command, batch.py:445 (argparse): whether tutorial is set, and the arguments *)
Fixpoint parse_sub (command : string) (l : list string) : option (bool * list string) :=
  match l with
  | [] => Some (false, [])
  | t :: l' =>
      match classify (sub_flags command) t with
      | Pos => match parse_sub command l' with Some (b, pos) => Some (b, t :: pos) | None => None end
      | Opt d None => if String.eqb d "tutorial" then match parse_sub command l' with Some (_, pos) => Some (true, pos) | None => None end
                      else None
      | _ => None
      end
  end.
(** batch.py:445 p.parse_args(args): the command (None if there is none) and the values, None: argparse
    ends the program. [ns]: values of options so far *)
Fixpoint parse_args (ns : dict json) (l : list string) : option (option string * bool * dict json) :=
  match l with
  | [] => Some (None, false, ns)
  | t :: l' =>
      match classify main_flags t with
      | Pos =>
          if inb t subcommands then
            match parse_sub t l' with
            | Some (tutorial, pos) => match arguments t pos with
                                      | Some a => Some (Some t, tutorial, dupdate ns a)
                                      | None => None
                                      end
            | None => None
            end
          else None
      | Opt d v =>
          if inb d ["help"; "version"] then None
          else match v with
               | Some v => parse_args (dset ns d (JStr v)) l'
               | None => match l' with
                         | w :: l'' => match classify main_flags w with
                                       | Pos => parse_args (dset ns d (JStr w)) l''
                                       | _ => None
                                       end
                         | [] => None
                         end
               end
      | Bad => None
      end
  end.

(** os.path.dirname (library), batch.py:200: what is before the last slash; [acc]: text since then,
    [best]: so far. Slashes at the end are removed unless there is nothing else. *)
Fixpoint before_last_slash (s : string) (acc best : string) : string :=
  match s with
  | EmptyString => best
  | String a s' => let acc := (acc ++ char_str a)%string in before_last_slash s' acc (if Ascii.eqb a "/" then acc else best)
  end.
(** head.rstrip('/') (library os.path.dirname), batch.py:200 *)
Fixpoint strip_slashes (s : string) : string :=
  match s with
  | EmptyString => EmptyString
  | String a s' => match strip_slashes s' with
                   | EmptyString => if Ascii.eqb a "/" then EmptyString else char_str a
                   | r => String a r
                   end
  end.
(** os.path.dirname(conf), batch.py:200 *)
Definition dirname (s : string) : string :=
  let head := before_last_slash s "" "" in
  match strip_slashes head with EmptyString => head | r => r end.
(** os.path.join(dest_dir, src) for names which do not start with a slash, batch.py:207 *)
Definition path_join (d f : string) : string :=
  if String.eqb d "" then f else if endswith_char d "/" then (d ++ f)%string else (d ++ "/" ++ f)%string.
(** batch.py:196-211 the command create: the copied files, from the directory example of the package to
    the given name *)
Definition create_files (conf : option string) (tutorial : bool) : list (string * string) :=
  let conf := match conf with None => "conf.json" | Some c => c end in
  let example_files := ["example_events.xml"; "example_inventory.xml"; "example_data.mseed"] in
  let srcs := ["conf.json"] ++ (if tutorial then example_files else []) in
  let dests := [conf] ++ (if tutorial then map (path_join (dirname conf)) example_files else []) in
  combine srcs dests.

(** batch.py:367-452 what happens: argparse ends the program, files are copied, or configuration is
    loaded and run_commands is called (or not), for the given command (None: none given) *)
Inductive cli : Type := Stop | Create (copies : list (string * string)) | Run (command : option string) (o : outcome).
(** batch.py:445-449 run with the parsed arguments *)
Definition run_cli (loads : string -> res json) (file : string -> option string) (argv : list string) : cli :=
  match parse_args [("conf", JStr "conf.json")] argv with
  | None => Stop
  | Some (command, tutorial, args) =>
      let args := match dget args "commands" with
                  | Some (JStr s) => if String.eqb s "moveout" then dset args "commands" (JList []) else args
                  | _ => args
                  end in
      let conf := match dget args "conf" with Some (JStr c) => Some c | _ => None end in
      let kw := ddel args "conf" in
      let c := match command with Some c => c | None => "" end in
      if String.eqb c "create" then Create (create_files conf tutorial)
      else Run command (run_config loads file c conf kw)
  end.

(** batch.py:266-289, 300-310 the command print: what is printed, or (None) the message "cannot read events
    or stations" *)
Section Print.
  Context {Ev In Tr : Type}.
  (** what is printed, batch.py:301-309 *)
  Inductive printed : Type := PEvents (l : list Ev) | PInventory (i : In) | PTraces (l : list Tr).
  Variable read_rf : string -> res (list Tr).
  Variable read_events : string -> option string -> res (list Ev).
  Variable read_inventory : string -> option string -> res In.
  (** batch.py:300-310 and, for this command, 266-289 *)
  Definition print_command (objects : list string) (events : events_arg Ev) (inventory : inv_arg In) : res (option printed) :=
    match objects with
    | [] => Ok None                      (* objects[0] inside of try *)
    | o :: _ =>
        if String.eqb o "events" then
          match load_events Ev read_events events with Ok l => Ok (Some (PEvents l)) | Err _ => Ok None end
        else if String.eqb o "stations" then
          match load_inventory In read_inventory inventory with Ok i => Ok (Some (PInventory i)) | Err _ => Ok None end
        else let! l := mapM read_rf objects in Ok (Some (PTraces (List.concat l)))
    end.
End Print.
