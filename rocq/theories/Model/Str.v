(** rf/rfstream.py:489-530 RFTrace.__str__: the text of a trace. *)
From Verif Require Export Model.Trace.

Section Str.
  (** str() of a header value; '%.df' % q; str(stats.sampling_rate) for a sampling interval in ns
      and str() of the number of samples; the text of a trace without onset (obspy) *)
  Variable str_of : value -> string.
  Variable fixed : nat -> Q -> string.
  Variable rate_text : Z -> string.
  Variable count_text : nat -> string.
  Variable plain : trace -> string.

  (** str.format: text up to the first colon and text after it, rfstream.py:530 *)
  Fixpoint split_colon (s : string) : string * string :=
    match s with
    | EmptyString => (EmptyString, EmptyString)
    | String a s' => if Ascii.eqb a ":" then (EmptyString, s')
                     else let (x, y) := split_colon s' in (String a x, y)
    end.
  (** format(value, spec) of str.format with the stats as keywords for one field, rfstream.py:530. Simplification:
      the only specifications are none, .1f and .2f; no attributes, items or conversions in fields *)
  Definition field (t : trace) (f : string) : res string :=
    let (name, spec) := split_colon f in
    if String.eqb name "" then Err IndexError             (* no positional arguments *)
    else if String.eqb name "sampling_rate" && String.eqb spec "" then Ok (rate_text (delta (st t)))
    else if String.eqb name "npts" && String.eqb spec "" then Ok (count_text (List.length (data t)))
    else match tr_get t name with
         | None => Err KeyError
         | Some v =>
             if String.eqb spec "" then Ok (str_of v)
             else match v with
                  | VNum q => if String.eqb spec ".1f" then Ok (fixed 1 q)
                              else if String.eqb spec ".2f" then Ok (fixed 2 q) else Err ValueError
                  | VStr _ => Err ValueError
                  | _ => Err TypeError
                  end
         end.
  (** str.format, rfstream.py:530; [inside]: the text of the field read so far *)
  Fixpoint py_format (t : trace) (s : string) (inside : option string) : res string :=
    match s, inside with
    | EmptyString, None => Ok EmptyString
    | EmptyString, Some _ => Err ValueError               (* expected '}' *)
    | String a s', Some f =>
        if Ascii.eqb a "}" then
          let! x := field t f in let! r := py_format t s' None in Ok (x ++ r)%string
        else if Ascii.eqb a "{" then Err ValueError
        else py_format t s' (Some (f ++ String a "")%string)
    | String a s', None =>
        if Ascii.eqb a "{" then
          match s' with
          | String b s'' => if Ascii.eqb b "{" then let! r := py_format t s'' None in Ok (String "{" r)
                            else py_format t s' (Some "")
          | _ => Err ValueError
          end
        else if Ascii.eqb a "}" then
          match s' with
          | String b s'' => if Ascii.eqb b "}" then let! r := py_format t s'' None in Ok (String "}" r)
                            else Err ValueError           (* single '}' *)
          | _ => Err ValueError
          end
        else let! r := py_format t s' None in Ok (String a r)
    end.

  (** rfstream.py:493-504: type, phase and id *)
  Definition str_label (t : trace) : res string :=
    match tr_get t "type" with
    | None | Some VNone => Ok (tr_id t)
    | Some ty =>
        let! m := match tr_get t "phase" with
                  | None | Some VNone => Ok ""%string
                  | Some (VStr p) => match last_char p with
                                     | Some a => Ok (upper (String a ""))
                                     | None => Err IndexError
                                     end
                  | Some _ => Err TypeError
                  end in
        let o := (m ++ "rf")%string in
        let! o := match ty with
                  | VStr s => if String.eqb s "rf" then Ok o else Ok (o ++ " " ++ s)%string
                  | _ => Err TypeError
                  end in
        Ok (if String.prefix "..." (tr_id t)
            then (o ++ " (" ++ match last_char (tr_id t) with Some a => String a "" | None => "" end ++ ")")%string
            else (o ++ " " ++ tr_id t)%string)
    end.
  (** rfstream.py:506-510. Simplification: the onset is a time *)
  Definition str_window (t : trace) : res string :=
    match tr_get t "onset" with
    | Some (VTime on) =>
        let secs z := (inject_Z z / inject_Z 1000000000)%Q in
        let o := (fixed 1 (secs (starttime (st t) - on)%Z) ++ "s - " ++ fixed 1 (secs (endtime t - on)%Z) ++ "s")%string in
        Ok (if (starttime (st t) =? 0)%Z then o else (o ++ " onset:" ++ str_of (VTime on))%string)
    | _ => Err TypeError
    end.
  (** rfstream.py:513-528 *)
  Definition str_extra (masked : bool) (t : trace) : list string :=
    let has k := match tr_get t k with Some _ => true | None => false end in
    (if has "event_magnitude" then ["mag:{event_magnitude:.1f}"] else []) ++
    (if has "distance" then ["dist:{distance:.1f}"] else []) ++
    (if has "back_azimuth" then ["baz:{back_azimuth:.1f}"] else []) ++
    (if has "box_pos" then ["pos:{box_pos:.2f}km"] else []) ++
    (if has "slowness" then ["slow:{slowness:.2f}"] else []) ++
    (if has "moveout" then ["({moveout} moveout)"] else []) ++
    (if masked then ["(masked)"] else []).
  (** rfstream.py:489-530; [masked]: there are masked samples *)
  Definition str_trace (masked : bool) (t : trace) : res string :=
    match tr_get t "onset" with
    | None => Ok (plain t)
    | Some _ =>
        let! o1 := str_label t in
        let! o2 := str_window t in
        py_format t (String.concat " | " [o1; o2; "{sampling_rate} Hz, {npts} samples"; String.concat " " (str_extra masked t)]) None
    end.
End Str.
