(** rf/batch.py: file names, writing and reading of files, and the loop over streams.
    Contents of files are lists of traces; the parameter [load] is what reading them gives. *)
From Verif Require Export Model.EventData.

(** A file: keys (H5: names of the datasets, else "") and traces. The file system as dictionary. *)
Definition file := list (string * trace).
(** the files on disk by name, batch.py:88-94, 110 (library obspy, obspyh5) *)
Definition files := dict file.

(** glob.glob for the wildcards ? and * which do not match "/". Simplification: brackets are
    not special. *)
Definition noslash (c : ascii) : bool := negb (Ascii.eqb c "/").
(** glob.glob of obspy.read on the names, batch.py:110, 123: the wildcards * and ? *)
Fixpoint glob (p s : list ascii) : bool :=
  match p with
  | [] => match s with [] => true | _ => false end
  | a :: p' =>
      if Ascii.eqb a "*" then
        (fix star (s : list ascii) : bool :=
           glob p' s || match s with c :: s' => noslash c && star s' | [] => false end) s
      else match s with
           | [] => false
           | c :: s' => (if Ascii.eqb a "?" then noslash c else Ascii.eqb a c) && glob p' s'
           end
  end.
(** the same for texts, batch.py:110, 123 *)
Definition glob_str (p s : string) : bool := glob (list_ascii_of_string p) (list_ascii_of_string s).

Section Batch.
  (** '{:%Y-%m-%dT%H:%M:%S}'.format(t.datetime) *)
  Variable fmt_time : Z -> string.
  (** str() of stats entries *)
  Variable str_of : value -> string.

  (** {network}.{station}.{location}, batch.py:36-44 *)
  Definition nsl (net sta loc : string) : string := (net ++ "." ++ sta ++ "." ++ loc)%string.
  (** batch.py:35-41 FNAMES[format].format(...); [time]: the formatted event time *)
  Definition fname (format root net sta loc cha : string) (time : res string) : res string :=
    let id := nsl net sta loc in
    if String.eqb format "Q" then
      let! t := time in Ok (root ++ "/" ++ id ++ "/" ++ id ++ "_" ++ t ++ ".QHD")%string
    else if String.eqb format "SAC" then
      let! t := time in Ok (root ++ "/" ++ id ++ "/" ++ id ++ "." ++ cha ++ "_" ++ t ++ ".SAC")%string
    else if String.eqb format "H5" then Ok (root ++ ".h5")%string
    else Err KeyError.
  (** batch.py:42-45 STACK_FNAMES *)
  Definition stack_fname (format root net sta loc cha : string) : res string :=
    let id := nsl net sta loc in
    if String.eqb format "Q" then Ok (root ++ "/" ++ id ++ ".QHD")%string
    else if String.eqb format "SAC" then Ok (root ++ "/" ++ id ++ "." ++ cha ++ ".SAC")%string
    else if String.eqb format "H5" then Ok (root ++ ".h5")%string
    else Err KeyError.
  (** batch.py:46-49 PROFILE_FNAMES *)
  Definition profile_fname (format root cha : string) (box_pos : res string) : res string :=
    if String.eqb format "Q" then Ok (root ++ ".QHD")%string
    else if String.eqb format "SAC" then
      match String.get 2 cha with
      | None => Err IndexError
      | Some c => let! b := box_pos in Ok (root ++ "/profile_" ++ char_str c ++ "_" ++ b ++ ".SAC")%string
      end
    else if String.eqb format "H5" then Ok (root ++ ".h5")%string
    else Err KeyError.
  (** {event_time.datetime:...} *)
  Definition format_time (v : option value) : res string :=
    match v with
    | None => Err KeyError
    | Some (VTime t) => Ok (fmt_time t)
    | Some _ => Err AttributeError
    end.
  (** the argument type of write *)
  Inductive wtype : Type := TRf | TStack | TProfile.
  (** batch.py:82-85, 93: fname_pattern.format(root=root, **tr.stats) *)
  Definition trace_fname (ty : wtype) (format root : string) (t : trace) : res string :=
    let s := st t in
    match ty with
    | TRf => fname format root (network s) (station s) (location s) (channel s) (format_time (tr_get t "event_time"))
    | TStack => stack_fname format root (network s) (station s) (location s) (channel s)
    | TProfile => profile_fname format root (channel s)
                    (match tr_get t "box_pos" with Some v => Ok (str_of v) | None => Err KeyError end)
    end.

  (** what the writers of obspy and obspyh5 do: SAC files are overwritten, traces are appended to
      Q files (argument append of obspy's Q writer), datasets are added to H5 files or replaced *)
  Inductive wop : Type :=
  | Put (name : string) (t : trace)
  | Append (name : string) (l : list trace)
  | Dataset (name key : string) (t : trace).
  (** content of a file, empty if it does not exist (mode a of obspyh5, batch.py:88) *)
  Definition contents (fs : files) (name : string) : file := match dget fs name with Some f => f | None => [] end.
  (** effect of one operation on the files, batch.py:88-94 *)
  Definition do_op (fs : files) (o : wop) : files :=
    match o with
    | Put n t => dset fs n [("", t)]
    | Append n l => dset fs n (contents fs n ++ map (pair "") l)
    | Dataset n k t => dset fs n (dset (contents fs n) k t)
    end.
  (** effect of write on the files, batch.py:77-94 *)
  Definition do_ops (fs : files) (l : list wop) : files := fold_left do_op l fs.

  (** index of obspyh5 for a trace *)
  Variable h5key : trace -> string.
  (** the writer raises an exception for these traces (then nothing is written by this call) *)
  Variable writer : string -> list trace -> option exn.

  (** batch.py:92-94 *)
  Fixpoint write_sac (ty : wtype) (root : string) (l : list trace) : list wop * option exn :=
    match l with
    | [] => ([], None)
    | t :: l' =>
        match trace_fname ty "SAC" root t with
        | Err e => ([], Some e)
        | Ok n => match writer "SAC" [t] with
                  | Some e => ([], Some e)
                  | None => let (ops, e) := write_sac ty root l' in (Put n t :: ops, e)
                  end
        end
    end.
  (** batch.py:77-94 write: operations on files, and the exception. Creation of directories
      is not modelled. *)
  Definition write (stream : list trace) (root fmt : string) (ty : wtype) : list wop * option exn :=
    let format := upper fmt in
    match stream with
    | [] => ([], None)
    | first :: _ =>
        match trace_fname ty format root first with
        | Err e => ([], Some e)
        | Ok n =>
            if String.eqb format "H5" then
              match writer format stream with
              | Some e => ([], Some e)
              | None => (map (fun t => Dataset n (h5key t) t) stream, None)
              end
            else if String.eqb format "Q" then
              match writer format stream with
              | Some e => ([], Some e)
              | None => ([Append n stream], None)
              end
            else if String.eqb format "SAC" then write_sac ty root stream
            else ([], None)
        end
    end.

  (** reading the traces of files; exceptions are those of read_rf *)
  Variable load : string -> list trace -> res (list trace).
  (** read_rf for a file name with wildcards; exception if there is no such file *)
  Definition read_glob (fs : files) (format pattern : string) : res (list trace) :=
    match sort (fun a b => String.leb (fst a) (fst b)) (filter (fun f => glob_str pattern (fst f)) fs) with
    | [] => Err OtherError
    | l => load format (List.concat (map (fun f => map snd (snd f)) l))
    end.
  (** obspyh5: datasets with the given metadata (event times are compared as in the index) *)
  Definition meta_matches (meta : dict value) (t : trace) : bool :=
    forallb (fun kv => match snd kv, tr_get t (fst kv) with
                       | VTime z, Some (VTime z') => String.eqb (fmt_time z) (fmt_time z')
                       | v, Some v' => value_eqb v v'
                       | _, None => false
                       end) meta.
  (** batch.py:106-110: read_rf(fname, readonly=meta) of a HDF5 file (library obspyh5) *)
  Definition read_h5 (fs : files) (name : string) (meta : dict value) : res (list trace) :=
    match dget fs name with
    | None => Err OtherError
    | Some f => match filter (meta_matches meta) (map snd f) with
                | [] => Err KeyError
                | l => load "H5" l
                end
    end.
  (** a text in the dictionary of util.py:124-125 *)
  Definition meta_str (meta : dict value) (k : string) : string :=
    match dget meta k with Some (VStr s) => s | _ => "" end.
  (** batch.py:100-112 iter_event_processed_data: what is read for one of the dictionaries of
      iter_event_metadata. None: nothing is yielded *)
  Definition fetch (pin format : string) (fs : files) (meta : dict value) : res (option (list trace)) :=
    let time := match dget meta "event_time" with
                | None => Ok "*"                       (* _DummyUTC *)
                | v => format_time v
                end in
    let! name := fname format pin (meta_str meta "network") (meta_str meta "station") (meta_str meta "location") "???" time in
    match (if String.eqb format "H5" then read_h5 fs name (ddel meta "channel") else read_glob fs format name) with
    | Err e => if caught e then Ok None else Err e
    | Ok s => Ok (Some s)
    end.

  (** batch.py:323-324, 344-346, 354-364: the loops over the streams of an iterator. [items]: what the
      iterator goes through, [fin]: how it ends. The iterator is lazy, so [get] sees the files
      written before. Result: operations on files and the exception which ended the loop. *)
  Section Loop.
    Context {I : Type}.
    Variable get : files -> I -> res (option (list trace)).
    Variable process : list trace -> res (list trace).
    Variables (root fmt : string) (ty : wtype).
    (** batch.py:323-324, 344-346, 354-364: for stream in iter_ *)
    Fixpoint run_loop (items : list I) (fin : option exn) (fs : files) : list wop * option exn :=
      match items with
      | [] => ([], fin)
      | i :: items' =>
          match get fs i with
          | Err e => ([], Some e)
          | Ok None => run_loop items' fin fs
          | Ok (Some stream) =>
              match process stream with
              | Err e => ([], Some e)
              | Ok out =>
                  match write out root fmt ty with
                  | (ops, Some e) => (ops, Some e)
                  | (ops, None) => let (ops', e) := run_loop items' fin (do_ops fs ops) in (ops ++ ops', e)
                  end
              end
          end
      end.
  End Loop.

  (** batch.py:257-265: ParseError *)
  Definition check_commands (command : string) (commands : list string) : res unit :=
    if String.eqb command "calc" then
      if (3 <=? List.length commands)%nat then Err ParseError
      else match commands with
           | [a; b] => if String.eqb a b then Err ParseError else Ok tt
           | _ => Ok tt
           end
    else Ok tt.        (* the branch "elif command == 'calc'" is never reached *)
  (** batch.py:353-363 *)
  Definition process_commands (rf moveout : list trace -> res (list trace)) (cmds : list string) (stream : list trace)
    : res (list trace) :=
    foldM (fun s c => if String.eqb c "data" then Ok s
                      else if String.eqb c "calc" then rf s
                      else if String.eqb c "moveout" then moveout s
                      else Err NotImplementedError) cmds stream.
  (** batch.py:257-265 and 353-364 for the commands data, calc and moveout *)
  Definition run_processing {I} (get : files -> I -> res (option (list trace))) (rf moveout : list trace -> res (list trace))
      (command : string) (commands : list string) (root fmt : string) (items : list I) (fin : option exn) (fs : files)
    : list wop * option exn :=
    match check_commands command commands with
    | Err e => ([], Some e)
    | Ok _ => run_loop get (process_commands rf moveout (command :: commands)) root fmt TRf items fin fs
    end.
End Batch.

(** batch.py:165-176 init_data: the function around get_waveforms; errors are printed *)
Definition wrapper {W} (get_waveforms : request -> res (option W)) (q : request) : res (option W) :=
  match get_waveforms q with
  | Err e => if caught e then Ok None else Err e
  | r => r
  end.
