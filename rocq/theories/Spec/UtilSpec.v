(** Specification of the processing information, independent of the code. *)
From Verif Require Import Model.Trace Model.Util.

(** Position of a name in the list of parameters *)
Fixpoint position (k : string) (l : list string) : option nat :=
  match l with
  | [] => None
  | x :: xs => if String.eqb k x then Some 0 else option_map S (position k xs)
  end.

(** The value an argument has inside the called function: given by position, by
    keyword, or by default. *)
Definition effective (sig : signature) (args : list pval) (kwargs : dict pval) (k : string)
  : option pval :=
  match position k (map fst (sig_params sig)) with
  | Some i =>
      match nth_error args i with
      | Some v => Some v
      | None => match dget kwargs k with
                | Some v => Some v
                | None => match nth_error (sig_params sig) i with
                          | Some (_, d) => d
                          | None => None
                          end
                end
      end
  | None => dget kwargs k
  end.

(** What is reported under the name k: the effective arguments except the stream
    itself, the boxes replaced by what they say about the profile. *)
Definition reported (first : string) (f : string -> option pval) (k : string) : option pval :=
  if String.eqb k first then None
  else if String.eqb k "boxes" then None
  else match f "boxes" with
       | Some (PBoxes (b :: _)) =>
           if existsb (String.eqb k) ["latlon"; "azimuth"; "length"]
           then option_map PRepr (dget b k) else f k
       | _ => f k
       end.

(** Texts are listed in alphabetical order, separated by '::' *)
Definition is_entry (version function : string) (rep : string -> option pval) (e : string) : Prop :=
  exists (args : list (string * pval)) (texts : list string),
    NoDup (map fst args) /\
    (forall k v, In (k, v) args <-> rep k = Some v) /\
    Permutation texts
      (map (fun kv => (fst kv ++ "=" ++
                       match snd kv with
                       | PStr s => "'" ++ s ++ "'"
                       | v => ptext v
                       end)%string) args) /\
    StronglySorted (fun a b => String.leb a b = true) texts /\
    e = ("rf " ++ version ++ ": " ++ function ++ "(" ++ str_join "::" texts ++ ")")%string.

(** Processing list of a trace; None if the entry is there but is not a list *)
Definition processing (t : trace) : option (list string) :=
  match dget (extra (st t)) "processing" with
  | None => Some []
  | Some (VStrs l) => Some l
  | Some _ => None
  end.

(** Everything but the processing list is the same *)
Definition same_but_processing (t t' : trace) : Prop :=
  data t' = data t /\
  network (st t') = network (st t) /\ station (st t') = station (st t) /\
  location (st t') = location (st t) /\ channel (st t') = channel (st t) /\
  starttime (st t') = starttime (st t) /\ delta (st t') = delta (st t) /\
  forall k, k <> "processing" -> dget (extra (st t')) k = dget (extra (st t)) k.

(** The arguments fit to the signature as Python requires it: *)
Definition fits (sig : signature) (args : list pval) (kwargs : dict pval) : Prop :=
  let names := map fst (sig_params sig) in
  List.length args <= List.length names /\
  (* no parameter given twice *)
  (forall i k, nth_error names i = Some k -> i < List.length args -> dget kwargs k = None) /\
  (* no unknown keyword *)
  (sig_varkw sig = false -> forall k v, dget kwargs k = Some v -> In k names) /\
  (* nothing is missing *)
  (forall k, In k names -> effective sig args kwargs k <> None).

(** The parameter which holds the stream: 'self' of a method or 'stream' of a
    function. *)
Definition first_param (sig : signature) (first : string) : Prop :=
  let names := map fst (sig_params sig) in
  In first names /\ (first = "self" \/ (first = "stream" /\ ~ In "self" names)).

(** The boxes, if given, are none or the first one describes its profile. *)
Definition boxes_ok (b : option pval) : Prop :=
  match b with
  | None | Some PNone | Some (PStr "") | Some (PBoxes []) => True
  | Some (PBoxes (b :: _)) =>
      dget b "latlon" <> None /\ dget b "azimuth" <> None /\ dget b "length" <> None
  | Some _ => False
  end.
