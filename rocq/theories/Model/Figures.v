(** rf/batch.py:50-51, 97-123, 325-351: the iterators over processed data, the commands plot,
    plot-profile, stack and profile. *)
From Verif Require Export Model.Batch Model.Stack.

(** batch.py:97-112 iter_event_processed_data for the dictionaries [metas] of iter_event_metadata, which
    ends with [fin]; files do not change meanwhile. Result: the yielded streams and the exception *)
Fixpoint processed (get : dict value -> res (option (list trace))) (metas : list (dict value)) (fin : option exn) : list (list trace) * option exn :=
  match metas with
  | [] => ([], fin)
  | m :: metas' =>
      match get m with
      | Err e => ([], Some e)
      | Ok None => processed get metas' fin
      | Ok (Some s) => let (l, e) := processed get metas' fin in (s :: l, e)
      end
  end.

Section Processed.
  Variable fmt_time : Z -> string.
  Variable load : string -> list trace -> res (list trace).
  (** batch.py:97-118 iter_event_processed_data: streams, and (yield_traces) traces *)
  Definition iter_processed (events : option (list event)) (channels : list string) (pin format : string) (fs : files) : list (list trace) * option exn :=
    let (metas, fin) := iter_event_metadata events channels in processed (fetch fmt_time load pin format fs) metas fin.
  (** batch.py:97-116 with yield_traces=True *)
  Definition iter_processed_traces (events : option (list event)) (channels : list string) (pin format : string) (fs : files) : list trace * option exn :=
    let (out, e) := iter_processed events channels pin format fs in (List.concat out, e).
End Processed.

(** fnmatch.fnmatchcase for the wildcards ? and * (library). Simplification: brackets are not
    special. *)
Fixpoint fnmatch (p s : list ascii) : bool :=
  match p with
  | [] => match s with [] => true | _ => false end
  | a :: p' =>
      if Ascii.eqb a "*" then
        (fix star (s : list ascii) : bool :=
           fnmatch p' s || match s with _ :: s' => star s' | [] => false end) s
      else match s with
           | [] => false
           | c :: s' => (Ascii.eqb a "?" || Ascii.eqb a c) && fnmatch p' s'
           end
  end.
(** Stream.select(channel=cha) (library): not case sensitive *)
Definition select_channel (cha : string) (s : list trace) : list trace :=
  filter (fun t => fnmatch (list_ascii_of_string (upper cha)) (list_ascii_of_string (upper (channel (st t))))) s.

(** batch.py:50-51 PLOT_FNAMES, PLOT_PROFILE_FNAMES *)
Definition pdf_name (root : string) (t : trace) : res string :=
  let s := st t in Ok (root ++ "/" ++ nsl (network s) (station s) (location s) ++ "." ++ channel s ++ ".pdf")%string.
(** batch.py:51 PLOT_PROFILE_FNAMES *)
Definition profile_pdf (root : string) (t : trace) : res string :=
  match String.get 2 (channel (st t)) with
  | None => Err IndexError
  | Some c => Ok (root ++ "/profile_" ++ char_str c ++ ".pdf")%string
  end.
(** Stream.sort(['back_azimuth']) (library) *)
Definition azimuth (t : trace) : res Q :=
  match dget (extra (st t)) "back_azimuth" with
  | None => Err KeyError
  | Some (VNum q) => Ok q
  | Some _ => Err TypeError
  end.
(** st2.sort(['back_azimuth']), batch.py:332 (library) *)
Definition sort_azimuth (s : list trace) : res (list trace) :=
  let! az := mapM azimuth s in
  Ok (map snd (sort (fun a b => Qle_bool (fst a) (fst b)) (combine az s))).

Section Figures.
  Context {D : Type}.
  (** plot_rf, plot_profile: the figure *)
  Variable draw : list trace -> res D.
  (** set(tr.stats.channel for tr in stream): the order of its elements is arbitrary *)
  Variable channel_set : list trace -> list string.

  (** batch.py:327-333, 336-342. Result: figures in the order in which they are saved, and the exception.
      [arrange]: sorting *)
  Fixpoint figures (name : trace -> res string) (arrange : list trace -> res (list trace))
      (chans : list string) (stream : list trace) : list (string * D) * option exn :=
    match chans with
    | [] => ([], None)
    | ch :: chans' =>
        match (let st2 := select_channel ch stream in
               match st2 with
               | [] => Err IndexError
               | first :: _ => let! n := name first in let! l := arrange st2 in let! d := draw l in Ok (n, d)
               end) with
        | Err e => ([], Some e)
        | Ok f => let (fs, e) := figures name arrange chans' stream in (f :: fs, e)
        end
    end.
  (** batch.py:325-333; [streams]: what the iterator yields, [fin]: how it ends *)
  Fixpoint plot_command (root : string) (streams : list (list trace)) (fin : option exn) : list (string * D) * option exn :=
    match streams with
    | [] => ([], fin)
    | s :: streams' =>
        match figures (pdf_name root) sort_azimuth (channel_set s) s with
        | (f, Some e) => (f, Some e)
        | (f, None) => let (fs, e) := plot_command root streams' fin in (f ++ fs, e)
        end
    end.
  (** batch.py:335-342 for the stream of the profile *)
  Definition plot_profile_command (root : string) (profile : list trace) : list (string * D) * option exn :=
    figures (profile_pdf root) Ok (channel_set profile) profile.
End Figures.
(** saved files: later figures replace earlier ones *)
Definition save_all {D} (l : list (string * D)) : dict D := fold_left (fun d f => dset d (fst f) (snd f)) l [].

(** batch.py:121-123 _iter_profile. Simplification: the format is found out by obspy, here it is
    the given one. *)
Definition iter_profile (load : string -> list trace -> res (list trace)) (pin format : string) (fs : files) : res (list trace) :=
  let! n := profile_fname format pin "???" (Ok "*") in
  if String.eqb format "H5" then
    match dget fs n with
    | None => Err OtherError
    | Some f => load "H5" (map snd f)
    end
  else read_glob load fs format n.

Section StackCommand.
  Variable fmt_time : Z -> string.
  Variable str_of : value -> string.
  Variable h5key : trace -> string.
  Variable writer : string -> list trace -> option exn.
  (** the set of ids in RFStream.stack *)
  Variable id_set : list trace -> list string.
  (** batch.py:343-346; [streams]: what the iterator yields, [fin]: how it ends. Simplification: the
      streams do not depend on what is written. *)
  Fixpoint stack_command (root fmt : string) (streams : list (list trace)) (fin : option exn) : list wop * option exn :=
    match streams with
    | [] => ([], fin)
    | s :: streams' =>
        match stack (id_set s) s with
        | Err e => ([], Some e)
        | Ok out =>
            match write fmt_time str_of h5key writer out root fmt TStack with
            | (ops, Some e) => (ops, Some e)
            | (ops, None) => let (ops', e) := stack_command root fmt streams' fin in (ops ++ ops', e)
            end
        end
    end.
End StackCommand.
