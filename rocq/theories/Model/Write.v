(** rf/rfstream.py:110-121, 142-150, 155-214: stream properties type and method,
    RFStream.write and read_rf. Trace objects live in a heap, a stream is a list of
    references (the same trace may be in a stream twice). The writer of obspy is
    an oracle: it either writes all traces or raises. *)
From Verif Require Export Model.Headers.

(** trace objects by identity, rfstream.py:197-214 *)
Definition hheap := list hst.
(** change of one trace object *)
Fixpoint hput (h : hheap) (i : nat) (s : hst) : hheap :=
  match h, i with
  | [], _ => []
  | _ :: h', 0 => s :: h'
  | x :: h', S i' => x :: hput h' i' s
  end.

(** rfstream.py:155-160 __get_unique_header: values that occur, None if there is
    none or more than one (a warning is issued then). Entries are compared with ==;
    only text entries are used here. *)
Definition value_str (v : value) : string := match v with VStr s => s | _ => "?" end.
(** rfstream.py:155-160 *)
Definition unique_header (header : string) (tr : list hst) : option string :=
  match dedup String.eqb (flat_map (fun s => match dget (h_main s) header with
                                             | Some v => [value_str v] | None => [] end) tr) with
  | [v] => Some v
  | _ => None
  end.
(** rfstream.py:162-170 type, 172-182 method *)
Definition get_type (tr : list hst) : option string := unique_header "type" tr.
(** rfstream.py:167-170 *)
Definition set_type (v : string) (tr : list hst) : list hst :=
  map (fun s => with_main s (dset (h_main s) "type" (VStr v))) tr.
(** rfstream.py:172-177 *)
Definition get_method (tr : list hst) : res (option string) :=
  match unique_header "phase" tr with
  | None => Ok None
  | Some p => match last_char p with
              | Some a => Ok (Some (upper (char_str a)))
              | None => Err IndexError          (* ''[-1] *)
              end
  end.
(** rfstream.py:179-182 *)
Definition set_method (v : string) (tr : list hst) : list hst :=
  map (fun s => with_main s (dset (h_main s) "phase" (VStr v))) tr.

(** rfstream.py:101-107 _H5INDEX *)
Definition rf_index : string :=
  "waveforms/{network}.{station}.{location}/{event_time.datetime:%Y-%m-%dT%H:%M:%S}/{channel}_{starttime.datetime:%Y-%m-%dT%H:%M:%S}_{endtime.datetime:%Y-%m-%dT%H:%M:%S}".
(** rfstream.py:106 _H5INDEX['profile'] *)
Definition profile_index : string := "waveforms/{channel[2]}_{box_pos}".
(** _H5INDEX[index], rfstream.py:208 *)
Definition h5index (k : string) : res string :=
  if String.eqb k "rf" then Ok rf_index
  else if String.eqb k "profile" then Ok profile_index else Err KeyError.

(** tr.stats.station = c, rfstream.py:200, 214 *)
Definition set_sta (s : hst) (c : string) : hst := with_codes s (h_net s) c (h_loc s).

(** rfstream.py:197-200: the loop before writing *)
Fixpoint prepare (fmt : string) (compat : bool) (ids : list nat) (h : hheap) : hheap * res unit :=
  match ids with
  | [] => (h, Ok tt)
  | i :: ids' =>
      match nth_error h i with
      | None => (h, Err IndexError)              (* no such object *)
      | Some s =>
          match write_header fmt compat s with
          | Err e => (h, Err e)
          | Ok s1 => prepare fmt compat ids'
                       (hput h i (if String.eqb (upper fmt) "Q" then set_sta s1 (h_id s1) else s1))
          end
      end
  end.
(** rfstream.py:212-214: the loop after writing *)
Fixpoint restore (ids : list nat) (h : hheap) : hheap * res unit :=
  match ids with
  | [] => (h, Ok tt)
  | i :: ids' =>
      match nth_error h i with
      | None => (h, Err IndexError)
      | Some s => match split_on "." (h_sta s) with
                  | _ :: c :: _ => restore ids' (hput h i (set_sta s c))
                  | _ => (h, Err IndexError)
                  end
      end
  end.

(** the traces of a stream, rfstream.py:197 *)
Definition deref (h : hheap) (ids : list nat) : list hst :=
  flat_map (fun i => match nth_error h i with Some s => [s] | None => [] end) ids.

(** rfstream.py:184-214 RFStream.write. [ix] is obspyh5._INDEX. The writer sees
    the traces and the index; [Some e]: it raises e. The result is the list of
    written traces, as they can be read again. When write_header raises, changes
    of the sub-dictionaries of that trace are not tracked. *)
Definition write (fmt : string) (compat : bool) (writer : string -> list hst -> option exn)
    (ids : list nat) (h : hheap) (ix : string) : hheap * string * res (list hst) :=
  match ids with
  | [] => (h, ix, Ok [])
  | _ =>
    match prepare fmt compat ids h with
    | (h1, Err e) => (h1, ix, Err e)
    | (h1, Ok _) =>
        let traces := deref h1 ids in
        let h5 := String.eqb (upper fmt) "H5" in
        let index :=
          if h5 then
            match get_type traces with
            | Some t => if String.eqb t "" then None else Some t
            | None => match traces with
                      | s :: _ => if dmem (h_main s) "event_time" then Some "rf" else None
                      | [] => None
                      end
            end
          else None in
        match (match index with Some k => h5index k | None => Ok ix end) with
        | Err e => (h1, ix, Err e)
        | Ok ix1 =>
            match writer ix1 traces with
            | Some e => (h1, ix1, Err e)
            | None =>
                let files := map (file_roundtrip fmt) traces in
                if String.eqb (upper fmt) "Q" then
                  match restore ids h1 with
                  | (h2, Err e) => (h2, ix, Err e)
                  | (h2, Ok _) => (h2, ix, Ok files)
                  end
                else (h1, ix, Ok files)
            end
        end
    end
  end.

(** rfstream.py:110-121, 142-150: read_rf = RFStream(read(...)) *)
Definition read_rf (str_of : value -> string) (files : list hst) : res (list hst) :=
  mapM (rftrace_init str_of) files.
