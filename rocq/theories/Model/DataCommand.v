(** rf/batch.py:135-176 and 299-316 together with rf/util.py:23-103: the source of the waveforms and
    the streams of the command data. *)
From Verif Require Export Model.Dispatch.
From Verif Require Import Model.EventData.

(** blanks for str.strip() *)
Definition blank (c : ascii) : bool := existsb (Ascii.eqb c) [" "; "009"; "010"; "011"; "012"; "013"]%char.
(** str.lstrip() on lists of characters *)
Fixpoint lstrip (l : list ascii) : list ascii :=
  match l with
  | c :: l' => if blank c then lstrip l' else l
  | [] => []
  end.
(** str.strip(), batch.py:153 *)
Definition strip (s : string) : string := string_of_list_ascii (rev (lstrip (rev (lstrip (list_ascii_of_string s))))).

(** util.py:81-83: the keyword arguments of get_waveforms *)
Definition kws (q : request) : dict value :=
  [("network", VStr (q_net q)); ("station", VStr (q_sta q)); ("location", VStr (q_loc q)); ("channel", VStr (q_cha q));
   ("starttime", VTime (q_start q)); ("endtime", VTime (q_end q))].

Section Source.
  (** streams of obspy *)
  Context {F : Type}.
  (** import_module('obspy.clients.NAME'): None: ImportError; else Client(options) and its get_waveforms *)
  Variable clients : string -> option (json -> res (dict value -> res (option F))).
  (** load_func(modulename, funcname), batch.py:125-131 *)
  Variable load_func : string -> string -> res (dict value -> res (option F)).
  (** obspy.read(data); read(None) reads example data *)
  Variable read_data : option string -> res F.
  (** stream.select(codes), then st.slice(times), batch.py:159-161 *)
  Variable pick : F -> dict value -> res F.
  (** batch.py:135-176 init_data. Simplification: names of data which are not strings are like None. *)
  Definition init_data (data : option json) (client_options : json) (plugin : option json) : res (request -> res (option F)) :=
    let name := match data with Some (JStr s) => Some s | _ => None end in
    let text := match name with Some s => s | None => "None" end in
    let! get :=
      match clients text with
      | Some client => client client_options
      | None =>
          if String.eqb text "plugin" then
            match plugin with
            | Some (JStr p) => match split_on ":" p with
                               | [modulename; funcname] => load_func (strip modulename) (strip funcname)
                               | _ => Err ValueError
                               end
            | _ => Err AttributeError
            end
          else
            let! stream := read_data name in
            Ok (fun kw => let! st := pick stream kw in Ok (Some st))
      end in
    Ok (wrapper (fun q => get (kws q))).
End Source.

(** phase='P', util.py:23. Simplification: values which are not strings raise TypeError. *)
Definition str_arg (v : option json) (default : string) : res string :=
  match v with None => Ok default | Some (JStr s) => Ok s | Some _ => Err TypeError end.
(** request_window=None, util.py:24, 79-80. Simplification: other values raise TypeError before the first pair
    and not at the first pair in range. *)
Definition window_arg (v : option json) : res (option (Q * Q)) :=
  match v with
  | None | Some JNull => Ok None
  | Some (JList (JNum a :: JNum b :: _)) => Ok (Some (a, b))
  | Some _ => Err TypeError
  end.
(** pad=10, util.py:24. Simplification: as for request_window *)
Definition pad_arg (v : option json) : res Q :=
  match v with None => Ok 10%Q | Some (JNum q) => Ok q | Some _ => Err TypeError end.
(** dist_range='default', rfstream.py:653, 698-701, 710 *)
Definition range_arg (v : option json) : res drange :=
  match v with
  | None => Ok DDefault
  | Some (JStr s) => if String.eqb s "default" then Ok DDefault else if String.eqb s "" then Ok DNone else Err TypeError
  | Some JNull | Some (JList []) | Some (JObj []) | Some (JBool false) => Ok DNone
  | Some (JNum q) => if Qeq_bool q 0 then Ok DNone else Err TypeError
  | Some (JList (JNum a :: JNum b :: _)) => Ok (DRange a b)
  | Some _ => Err TypeError
  end.
(** pp_depth=None, rfstream.py:654 *)
Definition depth_arg (v : option json) : res (option Q) :=
  match v with None | Some JNull => Ok None | Some (JNum q) => Ok (Some q) | Some _ => Err TypeError end.
(** pp_phase=None, rfstream.py:654 *)
Definition phase_arg (v : option json) : res (option string) :=
  match v with None | Some JNull => Ok None | Some (JStr s) => Ok (Some s) | Some _ => Err TypeError end.
(** rfstats(..., phase=phase, **kwargs), util.py:71 and rfstream.py:652-654. Simplification: values of
    other types are errors also where rfstats does not use them, and so is the argument obj. *)
Definition rfstats_args (phase : string) (kw : dict json) : res rs_args :=
  if existsb (fun kv => negb (inb (fst kv) ["dist_range"; "tt_model"; "pp_depth"; "pp_phase"; "model"])) kw then Err TypeError
  else
    let! r := range_arg (dget kw "dist_range") in
    let! t := str_arg (dget kw "tt_model") "iasp91" in
    let! d := depth_arg (dget kw "pp_depth") in
    let! p := phase_arg (dget kw "pp_phase") in
    let! m := str_arg (dget kw "model") "iasp91" in
    Ok (mkRs None None phase r t d p m).

(** what the generator has yielded *)
Definition yielded (acts : list action) : list (list hst) :=
  flat_map (fun x => match x with AYield l => [l] | _ => [] end) acts.
(** a yielded trace; the samples are those which the headers belong to *)
Definition as_trace (sampling : hst -> Z) (samples : hst -> list Q) (h : hst) : trace :=
  mkTrace (mkStats (h_net h) (h_sta h) (h_loc h) (h_cha h) (h_start h) (sampling h) (h_main h)) (samples h).

Section Streams.
  Variable gps : Q -> Q -> Q -> Q -> res (Q * Q * Q).
  Variable taup_load : string -> res unit.
  Variable taup : string -> Q -> Q -> string -> res (list arrival).
  Variable ppoint : string -> dict value -> Q -> string -> res (dict value).
  Variable str_of : value -> string.
  Variable coordinates : string -> option Z -> res station_d.
  Variable F : Type.
  Variable trim : Z -> Z -> F -> res F.
  Variable merge : F -> res F.
  Variable components : F -> list wtrace.
  Variable sampling : hst -> Z.
  Variable samples : hst -> list Q.

  (** batch.py:313-314: iter_event_data(events, inventory, get_waveforms, pbar=..., **options). An
      error in the arguments of rfstats is handled like missing coordinates (util.py:66-76). *)
  Definition iterate (opt : json) (get : request -> res (option F)) (events : list event) (channels : list string)
    : list action * option exn :=
    match opt with
    | JObj d =>
        if existsb (fun kv => inb (fst kv) ["events"; "inventory"; "get_waveforms"; "pbar"]) d then ([], Some TypeError)
        else
          match str_arg (dget d "phase") "P", window_arg (dget d "request_window"), pad_arg (dget d "pad") with
          | Ok phase, Ok window, Ok pad =>
              let kw := filter (fun kv => negb (inb (fst kv) ["phase"; "request_window"; "pad"])) d in
              match rfstats_args phase kw with
              | Ok a => iter_event_data gps taup_load taup ppoint str_of coordinates F trim merge components get a window pad events channels
              | Err e => iter_event_data gps taup_load taup ppoint str_of (fun _ _ => Err e) F trim merge components get
                           (mkRs None None phase DDefault "iasp91" None None "iasp91") window pad events channels
              end
          | _, _, _ => ([], Some TypeError)
          end
    | _ => ([], Some TypeError)
    end.
  (** the streams for the loop of batch.py:353-364 *)
  Definition event_streams (opt : json) (get : request -> res (option F)) (events : list event) (channels : list string)
    : list (list trace) * option exn :=
    let (acts, fin) := iterate opt get events channels in (map (map (as_trace sampling samples)) (yielded acts), fin).
End Streams.
