(** rf/util.py:132-164  class IterMultipleComponents *)
From Verif Require Export Model.Trace.

(** The parameter number_components: None, an int, or a tuple of ints
    (util.py:144-146). *)
Inductive ncomp : Type := NAny | NInt (n : nat) | NTuple (l : list nat).

(** The key k of util.py:152:
    [(tr.id[:-1], str(tr.stats[key]) if key is not None else None)].
    [str_of] is Python's str() on stats values. *)
Definition gkey : Type := (string * option string)%type.
(** equality of the second components of the keys, util.py:152-153 *)
Definition ostr_eqb (a b : option string) : bool :=
  match a, b with
  | None, None => true
  | Some s, Some t => String.eqb s t
  | _, _ => false
  end.
(** equality of keys, util.py:153 *)
Definition gkey_eqb (a b : gkey) : bool :=
  String.eqb (fst a) (fst b) && ostr_eqb (snd a) (snd b).
(** Comparison of the key tuples in sorted() (util.py:155). The second components
    are either both strings or both None (then the first components differ, so
    None is never compared). *)
Definition gkey_leb (a b : gkey) : bool :=
  match String.compare (fst a) (fst b) with
  | Lt => true
  | Gt => false
  | Eq => match snd a, snd b with
          | None, _ => true
          | Some _, None => false
          | Some s, Some t => String.leb s t
          end
  end.

Section IterMC.
  Context {T : Type} (look : T -> trace) (str_of : value -> string).

  (** util.py:152 *)
  Definition group_key (key : option string) (x : T) : res gkey :=
    match key with
    | None => Ok (droplast (tr_id (look x)), None)
    | Some k => match tr_get (look x) k with
                | None => Err KeyError
                | Some v => Ok (droplast (tr_id (look x)), Some (str_of v))
                end
    end.

  (** util.py:150,153: substreams is a defaultdict; substreams[k].append(tr) *)
  Definition add_to (d : list (gkey * list T)) (k : gkey) (x : T) : list (gkey * list T) :=
    match aget gkey_eqb d k with
    | None => aset gkey_eqb d k [x]
    | Some xs => aset gkey_eqb d k (xs ++ [x])
    end.

  (** util.py:156-157 *)
  Definition n_matches (n : ncomp) (len : nat) : bool :=
    match n with
    | NAny => true
    | NInt m => Nat.eqb len m
    | NTuple l => existsb (Nat.eqb len) l
    end.

  (** util.py:149-157 (and 159-164: iteration is over this list) *)
  Definition iter_multiple (stream : list T) (key : option string) (n : ncomp)
    : res (list (list T)) :=
    let! d := foldM (fun d x => let! k := group_key key x in Ok (add_to d k x)) stream [] in
    Ok (map snd (filter (fun kv => n_matches n (List.length (snd kv)))
                        (sort (fun a b => gkey_leb (fst a) (fst b)) d))).
End IterMC.
