(** rf/batch.py:236-364: run_commands as a whole, and the program rf (batch.py:367-447). Libraries
    and the processing of streams are parameters which get the options of the configuration. *)
From Verif Require Export Model.Figures Model.Cli.

(** What a call does: only a message (also: usage), files copied by rf create, or operations on
    files, saved figures, and the exception which ends the call *)
Inductive effect (D : Type) : Type :=
| Nothing
| Copied (l : list (string * string))
| Did (ops : list wop) (figs : list (string * D)) (e : option exn).
Arguments Nothing {D}. Arguments Copied {D} _. Arguments Did {D} _ _ _.

(** commands=() and list(commands), batch.py:236, 353. Simplification: entries which are not strings
    are no command. *)
Definition commands_arg (v : option json) : res (list string) :=
  match v with
  | None => Ok []
  | Some (JList l) => Ok (map (fun j => match j with JStr s => s | _ => "" end) l)
  | Some (JStr s) => Ok (map char_str (list_ascii_of_string s))
  | Some _ => Err TypeError
  end.
(** events=None, batch.py:236, 272-278. Simplification: objects of json are not unpacked. *)
Definition events_of (v : option json) : events_arg event :=
  match v with
  | Some (JStr s) => EvName s
  | Some (JList [JStr n; JStr f]) => EvPair n f
  | Some (JList [JStr n; JNull]) => EvName n
  | _ => EvNone
  end.
(** inventory=None, batch.py:236, 281-285. Simplification: as for events *)
Definition inventory_of (v : option json) : inv_arg (list string) :=
  match v with
  | Some (JStr s) => InvName s
  | Some (JList [JStr n; JStr f]) => InvPair n f
  | Some (JList [JStr n; JNull]) => InvName n
  | _ => InvNone
  end.
(** path_in=None, path_out=None, batch.py:239: the text in file names. Simplification: all values
    but strings are like None. *)
Definition path_arg (v : option json) : string := match v with Some (JStr s) => s | _ => "None" end.
(** format='Q', batch.py:239. Simplification: values other than strings are like an unknown format *)
Definition format_arg (v : option json) : string := match v with None => "Q" | Some (JStr s) => s | Some _ => "" end.
(** kw[opt], batch.py:295-360 *)
Definition option_of (kw : dict json) (opt : string) : json := match dget kw opt with Some j => j | None => JNull end.

Section Dispatch.
  (** D: figures, W: get_waveforms, B: boxes *)
  Context {D W B : Type}.
  Variable fmt_time : Z -> string.
  Variable str_of : value -> string.
  Variable h5key : trace -> string.
  Variable writer : string -> list trace -> option exn.
  Variable load : string -> list trace -> res (list trace).
  Variable id_set channel_set : list trace -> list string.
  Variable read_events : string -> option string -> res (list event).
  Variable read_inventory : string -> option string -> res (list string).
  Variable loads : string -> res json.
  Variable linspace : json -> res json.
  (** init_data(data, client_options, plugin) *)
  Variable init : option json -> json -> option json -> res W.
  (** the streams of iter_event_data(events, inventory, get_waveforms, **options), and its end *)
  Variable data_streams : json -> W -> list event -> list string -> list (list trace) * option exn.
  (** stream.rf(options), stream.moveout(options) *)
  Variable rf moveout : json -> list trace -> res (list trace).
  Variable plot_rf plot_profile : json -> list trace -> res D.
  Variable get_boxes : json -> res B.
  Variable profile : json -> B -> list trace -> res (list trace).
  (** the command print shows something and may raise an exception, see Cli.v *)
  Variable show : dict json -> option exn.

  (** batch.py:268-289 for commands other than print: None: the message, else events and channels *)
  Definition input (command : string) (args : dict json) : option (option (list event) * list string) :=
    if inb command ["stack"; "plot"] then
      match load_inventory (list string) read_inventory (inventory_of (dget args "inventory")) with
      | Ok i => Some (None, i)
      | Err _ => None
      end
    else
      match load_input event read_events (list string) read_inventory (events_of (dget args "events")) (inventory_of (dget args "inventory")) with
      | Some (e, i) => Some (Some e, i)
      | None => None
      end.
  (** batch.py:312-364; [kw]: the options, [w]: get_waveforms. Simplification: if both the iterator and
      the profile fail it is the exception of the iterator. *)
  Definition perform (command : string) (commands : res (list string)) (args kw : dict json) (events : option (list event)) (channels : list string)
      (fs : files) : effect D :=
    let pin := path_arg (dget args "path_in") in
    let pout := path_arg (dget args "path_out") in
    let format := format_arg (dget args "format") in
    let steps l := process_commands (rf (option_of kw "rf")) (moveout (option_of kw "moveout")) (command :: l) in
    let get := fetch fmt_time load pin format in
    let loop (r : list wop * option exn) := Did (fst r) [] (snd r) in
    let draw (r : list (string * D) * option exn) := Did [] (fst r) (snd r) in
    if String.eqb command "data" then
      match init (dget args "data") (option_of kw "client_options") (dget args "plugin") with
      | Err _ => Nothing
      | Ok w =>
          let (streams, fin) := data_streams (option_of kw "options") w (match events with Some l => l | None => [] end) channels in
          match commands with
          | Err e => Did [] [] (Some e)
          | Ok l => loop (run_loop fmt_time str_of h5key writer (fun _ s => Ok (Some s)) (steps l) pout format TRf streams fin fs)
          end
      end
    else if String.eqb command "plot-profile" then
      match iter_profile load pin format fs with
      | Err e => Did [] [] (Some e)
      | Ok p => draw (plot_profile_command (plot_profile (option_of kw "plot_profile")) channel_set pout p)
      end
    else
      let (metas, fin) := iter_event_metadata events channels in
      if String.eqb command "convert" then
        (* newformat.upper(), batch.py:80 *)
        let newformat s := match given (dget args "newformat") with None => Err AttributeError | Some _ => Ok s end in
        loop (run_loop fmt_time str_of h5key writer get newformat pout (format_arg (dget args "newformat")) TRf metas fin fs)
      else if String.eqb command "plot" then
        let (streams, fin) := processed (get fs) metas fin in
        draw (plot_command (plot_rf (option_of kw "plot")) channel_set pout streams fin)
      else if String.eqb command "stack" then
        loop (run_loop fmt_time str_of h5key writer get (fun s => stack (id_set s) s) pout format TStack metas fin fs)
      else if String.eqb command "profile" then
        match get_boxes (option_of kw "boxes") with
        | Err e => Did [] [] (Some e)
        | Ok boxes =>
            match iter_processed_traces fmt_time load events channels pin format fs with
            | (_, Some e) => Did [] [] (Some e)
            | (traces, None) => match profile (option_of kw "profile") boxes traces with
                                | Err e => Did [] [] (Some e)
                                | Ok p => loop (write fmt_time str_of h5key writer p pout format TProfile)
                                end
            end
        end
      else
        match commands with
        | Err e => Did [] [] (Some e)
        | Ok l => loop (run_loop fmt_time str_of h5key writer get (steps l) pout format TRf metas fin fs)
        end.
  (** batch.py:257-265: exceptions are replaced by ParseError, but only for calc *)
  Definition check_arg (command : string) (commands : res (list string)) : res unit :=
    match commands with
    | Ok l => check_commands command l
    | Err _ => if String.eqb command "calc" then Err ParseError else Ok tt
    end.
  (** batch.py:236-364 run_commands; [args]: the keyword arguments *)
  Definition run_commands (command : string) (args : dict json) (fs : files) : effect D :=
    match (let! kw := resolve loads linspace args in
           let! _ := check_arg command (commands_arg (dget args "commands")) in
           Ok kw) with
    | Err e => Did [] [] (Some e)
    | Ok kw =>
        if String.eqb command "print" then Did [] [] (show args)
        else match input command args with
             | None => Nothing
             | Some (events, channels) => perform command (commands_arg (dget args "commands")) args kw events channels fs
             end
    end.
  (** batch.py:367-447 run_cli and 187-229 run: the program rf. Without command (None) the call ends
      like for an unknown command, batch.py:362-363. After a ParseError the usage is printed. *)
  Definition program (file : string -> option string) (argv : list string) (fs : files) : effect D :=
    match run_cli loads file argv with
    | Stop => Nothing
    | Create l => Copied l
    | Run command o =>
        match o with
        | Message => Nothing
        | Raise e => Did [] [] (Some e)
        | Call args => run_commands (match command with Some c => c | None => "" end) args fs
        end
    end.
End Dispatch.
