(** The decorator which records processing information and the cache of the
    example streams (rf/util.py). *)
From Verif Require Export Model.Trace.

(** ** _add_processing_info (util.py:225-249) *)

(** Values of arguments. [PRepr r] is any object whose repr() is r, [PStream] the
    stream object itself, [PBoxes l] a list of boxes of which only the entries of
    box['profile'] are read, given by their repr(). *)
Inductive pval : Type :=
| PNone
| PStr (s : string)
| PRepr (r : string)
| PStream
| PBoxes (l : list (dict string)).

(** repr(v) if v is not a string, 'v' for a string (util.py:240-241).
    The repr of a stream or of boxes never ends up in the information for the
    decorated functions, see [info_args]. *)
Definition ptext (v : pval) : string :=
  match v with
  | PNone => "None"
  | PStr s => ("'" ++ s ++ "'")%string
  | PRepr r => r
  | PStream => "<stream>"
  | PBoxes _ => "<boxes>"
  end.

(** Signature of a Python function: names of the parameters with defaults and
    whether there is a parameter **kwargs *)
Record signature : Type := mkSig {
  sig_params : list (string * option pval);
  sig_varkw : bool }.

(** inspect.getcallargs(func, *args, **kwargs) (library): values of the named
    parameters and the dictionary of the additional keyword arguments; TypeError
    if the call does not fit to the signature *)
Definition bind_kw (sig : signature) (nx : dict pval * dict pval) (kv : string * pval)
  : res (dict pval * dict pval) :=
  let '(named, extra) := nx in
  let '(k, v) := kv in
  if existsb (String.eqb k) (map fst (sig_params sig)) then
    if dmem named k then Err TypeError else Ok (dset named k v, extra)
  else if sig_varkw sig then Ok (named, dset extra k v) else Err TypeError.
(** inspect.getcallargs (library): default of one parameter, util.py:227 *)
Definition bind_default (named : dict pval) (p : string * option pval) : res (dict pval) :=
  if dmem named (fst p) then Ok named
  else match snd p with Some v => Ok (dset named (fst p) v) | None => Err TypeError end.
(** inspect.getcallargs (library), util.py:227 *)
Definition getcallargs (sig : signature) (args : list pval) (kwargs : dict pval)
  : res (dict pval * dict pval) :=
  if Nat.ltb (List.length (sig_params sig)) (List.length args) then Err TypeError
  else
    let named : dict pval := combine (map fst (sig_params sig)) args in
    let none : dict pval := [] in
    let! (named, extra) := foldM (bind_kw sig) kwargs (named, none) in
    let! named := foldM bind_default (sig_params sig) named in
    Ok (named, extra).

(** util.py:229-237, the arguments which are reported. [boxes] other than a list
    of boxes cannot be indexed like boxes[0]['profile'] (TypeError). *)
Definition info_args (named extra : dict pval) : res (dict pval) :=
  (* if args_.pop('self', None) is None: args_.pop('stream') *)
  let! named :=
    (match dget named "self" with
     | None | Some PNone =>
         let named := ddel named "self" in
         let! _ := dgetE named "stream" in Ok (ddel named "stream")
     | Some _ => Ok (ddel named "self")
     end) in
  let kw := dupdate extra named in
  let boxes := dget kw "boxes" in
  let kw := ddel kw "boxes" in
  match boxes with
  | None | Some PNone | Some (PBoxes []) => Ok kw
  | Some (PBoxes (b :: _)) =>
      let! latlon := dgetE b "latlon" in
      let! azimuth := dgetE b "azimuth" in
      let! length := dgetE b "length" in
      Ok (dset (dset (dset kw "latlon" (PRepr latlon)) "azimuth" (PRepr azimuth))
               "length" (PRepr length))
  | Some (PStr "") => Ok kw
  | Some _ => Err TypeError
  end.

(** util.py:238-242 *)
Definition info_text (version function : string) (kw : dict pval) : string :=
  let arguments := map (fun kv => (fst kv ++ "=" ++ ptext (snd kv))%string) kw in
  ("rf " ++ version ++ ": " ++ function ++ "(" ++
   str_join "::" (sort String.leb arguments) ++ ")")%string.

(** obspy Trace._internal_add_processing_info (library): appends to
    stats.processing, which is created if it is missing, as long as there are
    less than 100 entries. Appending to something which is not a list raises. *)
Definition add_processing (info : string) (t : trace) : res trace :=
  match dget (extra (st t)) "processing" with
  | None => Ok (set_extra t "processing" (VStrs [info]))
  | Some (VStrs l) =>
      if Nat.ltb (List.length l) 100 then Ok (set_extra t "processing" (VStrs (l ++ [info])))
      else Ok t
  | Some _ => Err AttributeError
  end.
(** util.py:244-248: the first exception ends the loop and is discarded.
    Simplification: every trace is an object of its own. *)
Fixpoint add_all (info : string) (s : list trace) : list trace :=
  match s with
  | [] => []
  | t :: ts => match add_processing info t with
               | Ok t' => t' :: add_all info ts
               | Err _ => t :: ts
               end
  end.

(** The decorated function (util.py:225-249) *)
Definition decorated (version function : string) (sig : signature)
    (func : list pval -> dict pval -> res (list trace))
    (args : list pval) (kwargs : dict pval) : res (list trace) :=
  let! (named, extra) := getcallargs sig args kwargs in
  let! kw := info_args named extra in
  let info := info_text version function kw in
  let! stream := func args kwargs in
  Ok (add_all info stream).

(** Signatures of the decorated functions: deconvolve.py:24-26, harmonics.py:11,
    profile.py:76, rfstream.py:264-266, 358, 404 *)
Definition sig_deconvolve : signature :=
  mkSig [("stream", None); ("method", Some (PStr "time")); ("func", Some PNone);
         ("source_components", Some (PStr "LZ")); ("response_components", Some PNone);
         ("winsrc", Some (PStr "P"))] true.
(** harmonics.py:11 *)
Definition sig_harmonics : signature :=
  mkSig [("stream", None); ("components", Some (PStr "R")); ("azim", Some (PRepr "0"));
         ("method", Some (PStr "time"))] true.
(** profile.py:76 *)
Definition sig_profile : signature :=
  mkSig [("stream", None); ("boxes", None); ("crs", Some PNone)] false.
(** rfstream.py:264-266 *)
Definition sig_rf : signature :=
  mkSig [("self", None); ("method", Some PNone); ("filter", Some PNone); ("trim", Some PNone);
         ("downsample", Some PNone); ("rotate", Some (PStr "ZNE->LQT"));
         ("deconvolve", Some (PStr "time")); ("source_components", Some PNone)] true.
(** rfstream.py:358 *)
Definition sig_moveout : signature :=
  mkSig [("self", None); ("phase", Some PNone); ("ref", Some (PRepr "6.4"));
         ("model", Some (PStr "iasp91"))] false.
(** rfstream.py:404 *)
Definition sig_stack : signature := mkSig [("self", None)] false.

(** ** The cache of the example streams (util.py:182-222) *)
Section Cache.
  (** [stream] is the content of a stream, [compute key] the body of the function
      with this cache key from read_rf() to ppoints(): it does not depend on the
      history (simplification: deterministic, reads package data only). *)
  Context {stream : Type} (compute : string -> res stream).

  (** Stream objects live in a heap and are referred to by their address. *)
  Record world : Type := mkWorld {
    heap : list stream;
    cache : dict nat;       (* __CACHE *)
    handed : list nat }.    (* addresses returned to callers *)

  (** stream.copy() (library): a deep copy at a new address *)
  Definition copy_of (w : world) (a : nat) : res (world * nat) :=
    match nth_error (heap w) a with
    | Some s => let b := List.length (heap w) in
                Ok (mkWorld (heap w ++ [s]) (cache w) (handed w ++ [b]), b)
    | None => Err OtherError   (* dangling address, does not exist in Python *)
    end.

  (** minimal_example_rf() and minimal_example_Srf() (util.py:185-202, 205-222) *)
  Definition example_call (key : string) (w : world) : res (world * nat) :=
    match dget (cache w) key with
    | Some a => copy_of w a
    | None =>
        let! s := compute key in
        let a := List.length (heap w) in
        copy_of (mkWorld (heap w ++ [s]) (dset (cache w) key a) (handed w)) a
    end.
  (** util.py:185-202 *)
  Definition minimal_example_rf := example_call "minimal_example_rf".
  (** util.py:205-222 *)
  Definition minimal_example_Srf := example_call "minimal_example_Srf".

  (** change of an element of a list *)
  Fixpoint set_nth {A} (n : nat) (x : A) (l : list A) : list A :=
    match l, n with
    | [], _ => []
    | _ :: ys, 0 => x :: ys
    | y :: ys, S m => y :: set_nth m x ys
    end.

  (** What callers can do: call one of the functions, overwrite the content of a
      stream they got before, make streams of their own. *)
  Inductive action : Type :=
  | ACallRf
  | ACallSrf
  | AModify (i : nat) (s : stream)   (* i-th stream handed out so far *)
  | ANew (s : stream).
  (** effect of one of the calls on the process, util.py:182-222 *)
  Definition act (w : world) (a : action) : world :=
    match a with
    | ACallRf => match minimal_example_rf w with Ok (w', _) => w' | Err _ => w end
    | ACallSrf => match minimal_example_Srf w with Ok (w', _) => w' | Err _ => w end
    | AModify i s =>
        match nth_error (handed w) i with
        | Some a => mkWorld (set_nth a s (heap w)) (cache w) (handed w)
        | None => w
        end
    | ANew s => mkWorld (heap w ++ [s]) (cache w) (handed w ++ [List.length (heap w)])
    end.
  (** a new process: __CACHE = {}, util.py:182 *)
  Definition start : world := mkWorld [] [] [].
  (** a sequence of calls, util.py:182-222 *)
  Definition run (l : list action) : world := fold_left act l start.
End Cache.
