(** rf/rfstream.py:50-98, 484-487, 532-610: mapping of stats entries to SAC and
    SeismicHandler (Q) header fields and back. *)
From Verif Require Export Model.Trace.
From Coq Require Export Qround.

(** str.lower, rfstream.py:532-566 *)
Definition lower_char (a : ascii) : ascii :=
  let n := nat_of_ascii a in
  if (65 <=? n) && (n <=? 90) then ascii_of_nat (n + 32) else a.
(** str.lower, rfstream.py:532-566 *)
Fixpoint lower (s : string) : string :=
  match s with
  | EmptyString => EmptyString
  | String a s' => String (lower_char a) (lower s')
  end.

(** rfstream.py:73-78 _HEADERS *)
Definition headers : list string :=
  ["station_latitude"; "station_longitude"; "station_elevation";
   "event_latitude"; "event_longitude"; "event_depth"; "event_magnitude"; "event_time";
   "onset"; "type"; "phase"; "moveout";
   "distance"; "back_azimuth"; "inclination"; "slowness";
   "pp_latitude"; "pp_longitude"; "pp_depth"; "box_pos"; "box_length"].
(** rfstream.py:83-96 _FORMATHEADERS *)
Definition sac_headers : list string :=
  ["stla"; "stlo"; "stel"; "evla"; "evlo"; "evdp"; "mag"; "o"; "a";
   "kuser0"; "kuser1"; "kuser2"; "gcarc"; "baz"; "user0"; "user1";
   "user2"; "user3"; "user4"; "user5"; "user6"].
(** rfstream.py:89-96 _FORMATHEADERS['sh'] *)
Definition sh_headers : list string :=
  ["COMMENT"; "COMMENT"; "COMMENT"; "LAT"; "LON"; "DEPTH"; "MAGNITUDE"; "ORIGIN"; "P-ONSET";
   "COMMENT"; "COMMENT"; "COMMENT"; "DISTANCE"; "AZIMUTH"; "INCI"; "SLOWNESS";
   "COMMENT"; "COMMENT"; "COMMENT"; "COMMENT"; "COMMENT"].
(** zip(_HEADERS, _FORMATHEADERS[format]) *)
Definition sac_map := combine headers sac_headers.
(** zip(_HEADERS, _FORMATHEADERS[format]), rfstream.py:532-610 *)
Definition sh_map := combine headers sh_headers.

(** Values in a format sub-dictionary stats.sac / stats.sh: plain values, or a
    text that parses as JSON. A JSON text is represented by what it parses to:
    json.loads(json.dumps(d)) = d for dictionaries of strings and numbers is
    assumed (floats print with repr and round-trip). *)
Inductive fval : Type :=
| FV (v : value)
| FJson (d : dict value)    (* text of a JSON object *)
| FJsonOther.               (* text of any other JSON value: 5, [1], null, ... *)

(** The stats of a trace: codes, start time, entries, the sub-dictionaries
    stats.sac and stats.sh, and stats._format (set by obspy.read). The nz* fields
    of SAC, which define the reference time, are one entry "nz" holding it. *)
Record hst : Type := mkH {
  h_net : string; h_sta : string; h_loc : string; h_cha : string;
  h_start : Z; h_main : dict value;
  h_sac : option (dict fval); h_sh : option (dict fval); h_format : option string }.

(** the entries of stats are replaced, rfstream.py:532-566 *)
Definition with_main (s : hst) (d : dict value) : hst :=
  mkH (h_net s) (h_sta s) (h_loc s) (h_cha s) (h_start s) d (h_sac s) (h_sh s) (h_format s).
(** stats.sac is replaced, rfstream.py:568-610 *)
Definition with_sac (s : hst) (d : dict fval) : hst :=
  mkH (h_net s) (h_sta s) (h_loc s) (h_cha s) (h_start s) (h_main s) (Some d) (h_sh s) (h_format s).
(** stats.sh is replaced, rfstream.py:568-610 *)
Definition with_sh (s : hst) (d : dict fval) : hst :=
  mkH (h_net s) (h_sta s) (h_loc s) (h_cha s) (h_start s) (h_main s) (h_sac s) (Some d) (h_format s).
(** the codes of stats are replaced, rfstream.py:476-487, 200, 214 *)
Definition with_codes (s : hst) (n st l : string) : hst :=
  mkH n st l (h_cha s) (h_start s) (h_main s) (h_sac s) (h_sh s) (h_format s).
(** tr.id (library), rfstream.py:200 *)
Definition h_id (s : hst) : string :=
  (h_net s ++ "." ++ h_sta s ++ "." ++ h_loc s ++ "." ++ h_cha s)%string.

(** obspy.io.sac.util.get_sac_reftime: SacError if it is not set *)
Definition sac_reftime (d : dict fval) : res Z :=
  match dget d "nz" with Some (FV (VTime t)) => Ok t | _ => Err OtherError end.
(** obspy.io.sac.util.obspy_to_sac_header (contract): keeps an old header, makes
    sure that a reference time is set (the start time if there is none). *)
Definition obspy_to_sac (s : hst) : dict fval :=
  let old := match h_sac s with Some d => d | None => [] end in
  match sac_reftime old with Ok _ => old | Err _ => dset old "nz" (FV (VTime (h_start s))) end.

(** nanoseconds per second of UTCDateTime (library) *)
Definition e9 : Q := inject_Z 1000000000.
(** UTCDateTime + seconds: rounded to ns *)
Definition utc_add (t : Z) (secs : Q) : Z := (t + Qfloor (secs * e9 + (1 # 2)))%Z.
(** UTCDateTime - UTCDateTime: seconds *)
Definition utc_sub (t u : Z) : Q := (inject_Z (t - u) / e9)%Q.

(** the entries of _HEADER_CONVERSIONS['sac'], rfstream.py:97-98 *)
Definition is_sac_time (head : string) : bool := String.eqb head "onset" || String.eqb head "event_time".

(** ** Reading: rfstream.py:532-566 *)
Section Read.
  Variable str_of : value -> string.    (* Python's str() *)

  (** lines 558-566: conversion (SAC2UTC, rfstream.py:50-52) of st[head] *)
  Definition read_convert (sac : dict fval) (head : string) (main : dict value) : res (dict value) :=
    if is_sac_time head then
      let! ref := sac_reftime sac in     (* SacError is not caught *)
      match dget main head with
      | None => Ok main                  (* KeyError of stats[head], caught *)
      | Some (VNum q) => Ok (dset main head (VTime (utc_add ref q)))
      | Some _ => Err TypeError
      end
    else Ok main.                        (* KeyError of _HEADER_CONVERSIONS, caught *)

  Definition read_sac_step (sac : dict fval) (main : dict value) (hm : string * string) : res (dict value) :=
    let '(head, fh) := hm in
    match dget sac fh with
    | None => Ok main                    (* KeyError: continue *)
    | Some (FV v) =>
        if str_in "-12345" (str_of v) then read_convert sac head main
        else read_convert sac head (dset main head v)
    | Some _ => read_convert sac head (dset main head (VStr "json")) (* a text *)
    end.

  (** rfstream.py:546-566 for format sh, one header *)
  Definition read_sh_step (sh : dict fval) (main : dict value) (hm : string * string) : res (dict value) :=
    let '(head, fh) := hm in
    match dget sh fh with
    | None => Ok main
    | Some x =>
        if String.eqb fh "COMMENT" then
          match x with
          | FJson d => Ok (dupdate main d)        (* st.update(json.loads(value)) *)
          | FJsonOther => Err TypeError           (* st.update(5) *)
          | FV (VStr _) => Ok main                (* JSONDecodeError, caught *)
          | FV _ => Err TypeError                 (* json.loads needs a text *)
          end
        else match x with FV v => Ok (dset main head v) | _ => Ok (dset main head (VStr "json")) end
    end.

  (** RFTrace._read_format_specific_header() with format None (532-566) *)
  Definition read_header (s : hst) : res hst :=
    match h_format s with
    | None => Ok s
    | Some f =>
        let f := lower f in
        let f := if String.eqb f "q" then "sh" else f in
        if String.eqb f "sac" then
          match h_sac s with
          | None => Ok s                 (* st['sac'] KeyError for every entry *)
          | Some sac => let! m := foldM (read_sac_step sac) sac_map (h_main s) in Ok (with_main s m)
          end
        else if String.eqb f "sh" then
          match h_sh s with
          | None => Ok s
          | Some sh => let! m := foldM (read_sh_step sh) sh_map (h_main s) in Ok (with_main s m)
          end
        else Ok s
    end.

  (** rfstream.py:476-487 RFTrace.__init__(trace=...): Q files store the id as
      station code *)
  Definition rftrace_init (s : hst) : res hst :=
    let s := match h_format s with
             | Some f =>
                 if String.eqb (upper f) "Q" && (1 <? count_char "." (h_sta s)) then
                   match split_on "." (h_sta s) with
                   | n :: st :: l :: _ => with_codes s n st l
                   | _ => s              (* not reachable: at least two dots *)
                   end
                 else s
             | None => s
             end in
    read_header s.
End Read.

(** ** Writing: rfstream.py:568-610 *)
(** UTC2SAC (rfstream.py:55-57) *)
Definition write_convert (sac : dict fval) (head : string) (v : value) : res value :=
  if is_sac_time head then
    let! ref := sac_reftime sac in
    match v with VTime t => Ok (VNum (utc_sub t ref)) | _ => Err TypeError end
  else Ok v.
(** rfstream.py:588-603 for format sac, one header *)
Definition write_sac_step (main : dict value) (sac : dict fval) (hm : string * string) : res (dict fval) :=
  let '(head, fh) := hm in
  match dget main head with
  | None => Ok sac                       (* KeyError: continue *)
  | Some v => let! v' := write_convert sac head v in Ok (dset sac fh (FV v'))
  end.

(** state of the Q loop: stats.sh and the dictionary comment *)
Definition write_sh_step (main : dict value) (cs : dict value * dict fval) (hm : string * string)
  : dict value * dict fval :=
  let '(comment, sh) := cs in
  let '(head, fh) := hm in
  match dget main head with
  | None => (comment, sh)
  | Some v => if String.eqb fh "COMMENT" then (dset comment head v, sh)
              else (comment, dset sh fh (FV v))
  end.
(** json.dumps accepts strings and numbers; a time, for which the default hook
    returns the same object again, gives ValueError (circular reference) *)
Definition jsonable (v : value) : bool :=
  match v with VTime _ => false | _ => true end.

(** rfstream.py:568-610 *)
Definition write_header (fmt : string) (sh_compat : bool) (s : hst) : res hst :=
  let f := lower fmt in
  if String.eqb f "sac" then
    let! sac := foldM (write_sac_step (h_main s)) sac_map (obspy_to_sac s) in
    Ok (with_sac s sac)
  else if String.eqb f "q" || String.eqb f "sh" then
    let sh0 := match h_sh s with Some d => d | None => [] end in
    let '(comment, sh) := fold_left (write_sh_step (h_main s)) sh_map ([], sh0) in
    if sh_compat then Ok (with_sh s (ddel sh "COMMENT"))
    else match comment with
         | [] => Ok (with_sh s sh)
         | _ => if forallb (fun kv => jsonable (snd kv)) comment
                then Ok (with_sh s (dset sh "COMMENT" (FJson comment)))
                else Err ValueError
         end
  else Ok s.

(** ** Files (contract of the obspy plugins). Writing a trace to SAC or Q and
    reading it again gives a trace with the same codes as in memory at the time
    of writing (Q: no network and no location code), the same start time, the same
    sub-dictionary, stats._format set, and no other stats entry. Restrictions of
    the formats (32 bit floats, 8 characters, ms) are not modelled. *)
Definition file_roundtrip (fmt : string) (s : hst) : hst :=
  let q := String.eqb (upper fmt) "Q" in
  mkH (if q then "" else h_net s) (h_sta s) (if q then "" else h_loc s) (h_cha s) (h_start s) []
      (if String.eqb (upper fmt) "SAC" then h_sac s else None)
      (if q then h_sh s else None)
      (Some (upper fmt)).
