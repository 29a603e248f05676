(** Python vocabulary used by the model: exceptions as values, dictionaries
    (insertion ordered association lists), slices, strings, stable sort.
    Nothing in here is specific to rf. *)
From Coq Require Export List ZArith QArith Bool String Ascii Lia Permutation Sorted.
From Coq Require Export Arith.
Export ListNotations.
Open Scope string_scope.
Open Scope list_scope.
Open Scope nat_scope.

(** Exceptions that the modelled code raises (Python class names). *)
Inductive exn : Type :=
| ValueError | KeyError | IndexError | TypeError | AttributeError
| NotImplementedError | UnboundLocalError | ZeroDivisionError
| AssertionError | ParseError | ImportError | RecursionError
| LinAlgError | KeyboardInterrupt | OtherError.

(** a value or a raised exception (Python) *)
Inductive res (A : Type) : Type :=
| Ok (a : A)
| Err (e : exn).
Arguments Ok {A} a.
Arguments Err {A} e.

(** statements in sequence: an exception ends the execution (Python) *)
Definition bind {A B} (m : res A) (f : A -> res B) : res B :=
  match m with Ok a => f a | Err e => Err e end.
Notation "'let!' x ':=' m 'in' f" := (bind m (fun x => f))
  (at level 200, x pattern, m at level 100, f at level 200, right associativity).

(** [f(x) for x in l] (Python) *)
Fixpoint mapM {A B} (f : A -> res B) (l : list A) : res (list B) :=
  match l with
  | [] => Ok []
  | x :: xs => let! y := f x in let! ys := mapM f xs in Ok (y :: ys)
  end.

(** for-loop with state and early exit by exception *)
Fixpoint foldM {A S} (f : S -> A -> res S) (l : list A) (s : S) : res S :=
  match l with
  | [] => Ok s
  | x :: xs => let! s' := f s x in foldM f xs s'
  end.

(** ** Dictionaries: insertion ordered association lists *)
Section Dict.
  Context {K A : Type} (eqb : K -> K -> bool).
  (** d.get(k) (Python) *)
  Fixpoint aget (d : list (K * A)) (k : K) : option A :=
    match d with
    | [] => None
    | (k', v) :: d' => if eqb k k' then Some v else aget d' k
    end.
  (** d[k] = v: keeps the position of an existing key, else appends *)
  Fixpoint aset (d : list (K * A)) (k : K) (v : A) : list (K * A) :=
    match d with
    | [] => [(k, v)]
    | (k', v') :: d' => if eqb k k' then (k', v) :: d' else (k', v') :: aset d' k v
    end.
  (** d.pop(k, None) (the dictionary afterwards) *)
  Fixpoint adel (d : list (K * A)) (k : K) : list (K * A) :=
    match d with
    | [] => []
    | (k', v') :: d' => if eqb k k' then d' else (k', v') :: adel d' k
    end.
  (** k in d (Python) *)
  Definition amem (d : list (K * A)) (k : K) : bool :=
    match aget d k with Some _ => true | None => false end.
  (** d.update(u) *)
  Definition aupdate (d u : list (K * A)) : list (K * A) :=
    fold_left (fun acc kv => aset acc (fst kv) (snd kv)) u d.
End Dict.

(** dictionaries with text keys (Python), in order of insertion *)
Definition dict (A : Type) := list (string * A).
(** d.get(k) *)
Definition dget {A} (d : dict A) (k : string) : option A := aget String.eqb d k.
(** d[k] = v *)
Definition dset {A} (d : dict A) (k : string) (v : A) : dict A := aset String.eqb d k v.
(** del d[k], d.pop(k) *)
Definition ddel {A} (d : dict A) (k : string) : dict A := adel String.eqb d k.
(** k in d *)
Definition dmem {A} (d : dict A) (k : string) : bool := amem String.eqb d k.
(** d.update(u) *)
Definition dupdate {A} (d u : dict A) : dict A := aupdate String.eqb d u.

(** d[k] raising KeyError *)
Definition dgetE {A} (d : dict A) (k : string) : res A :=
  match dget d k with Some v => Ok v | None => Err KeyError end.

(** ** Sequences *)
(** Normalised bound of a Python slice on a sequence of length n. *)
Definition slice_bound (n : nat) (i : Z) : nat :=
  if (i <? 0)%Z then Z.to_nat (Z.max 0 (Z.of_nat n + i))
  else Nat.min n (Z.to_nat i).
(** l[a:b] *)
Definition pyslice {A} (l : list A) (a b : option Z) : list A :=
  let n := List.length l in
  let i := match a with None => 0 | Some a => slice_bound n a end in
  let j := match b with None => n | Some b => slice_bound n b end in
  firstn (j - i) (skipn i l).
(** l[i], negative indices count from the end, IndexError outside *)
Definition pyindex {A} (l : list A) (i : Z) : res A :=
  let n := Z.of_nat (List.length l) in
  let j := (if i <? 0 then n + i else i)%Z in
  if ((j <? 0) || (n <=? j))%Z%bool then Err IndexError
  else match nth_error l (Z.to_nat j) with Some x => Ok x | None => Err IndexError end.

(** sorted(l) (stable) for a total preorder leb *)
Section Sort.
  Context {A : Type} (leb : A -> A -> bool).
  (** insertion for sort *)
  Fixpoint insert_sorted (x : A) (l : list A) : list A :=
    match l with
    | [] => [x]
    | y :: ys => if leb x y then x :: y :: ys else y :: insert_sorted x ys
    end.
  (** sorted(l), stable (Python) *)
  Definition sort (l : list A) : list A := fold_right insert_sorted [] l.
End Sort.

(** set(l) as a list without repetitions, one arbitrary but fixed order *)
Fixpoint dedup {A} (eqb : A -> A -> bool) (l : list A) : list A :=
  match l with
  | [] => []
  | x :: xs => let r := dedup eqb xs in if existsb (eqb x) r then r else x :: r
  end.

(** ** Strings *)
(** s[:-1] *)
Fixpoint droplast (s : string) : string :=
  match s with
  | EmptyString => EmptyString
  | String a EmptyString => EmptyString
  | String a s' => String a (droplast s')
  end.
(** s[-1], None for the empty string (IndexError in Python) *)
Fixpoint last_char (s : string) : option ascii :=
  match s with
  | EmptyString => None
  | String a EmptyString => Some a
  | String _ s' => last_char s'
  end.
(** c in s for a single character c *)
Fixpoint char_in (c : ascii) (s : string) : bool :=
  match s with
  | EmptyString => false
  | String a s' => Ascii.eqb c a || char_in c s'
  end.
(** s in t (substring test, the empty string is in every string) *)
Fixpoint str_in (s t : string) : bool :=
  String.prefix s t ||
  match t with EmptyString => false | String _ t' => str_in s t' end.
(** s.split(c) for a single character c: never empty *)
Fixpoint split_on (c : ascii) (s : string) : list string :=
  match s with
  | EmptyString => [EmptyString]
  | String a s' =>
      if Ascii.eqb a c then EmptyString :: split_on c s'
      else match split_on c s' with
           | [] => [String a EmptyString]
           | w :: ws => String a w :: ws
           end
  end.
(** sep.join(l) *)
Fixpoint str_join (sep : string) (l : list string) : string :=
  match l with
  | [] => ""
  | [x] => x
  | x :: xs => (x ++ sep ++ str_join sep xs)%string
  end.
(** s.upper() on ASCII *)
Definition upper_char (a : ascii) : ascii :=
  let n := nat_of_ascii a in
  if (97 <=? n) && (n <=? 122) then ascii_of_nat (n - 32) else a.
(** str.upper, rfstream.py:177 *)
Fixpoint upper (s : string) : string :=
  match s with
  | EmptyString => EmptyString
  | String a s' => String (upper_char a) (upper s')
  end.
(** s.count(c) for a single character c *)
Fixpoint count_char (c : ascii) (s : string) : nat :=
  match s with
  | EmptyString => 0
  | String a s' => (if Ascii.eqb c a then 1 else 0) + count_char c s'
  end.
(** a text of one character *)
Definition char_str (a : ascii) : string := String a EmptyString.
(** s.endswith(c) for a single character c *)
Definition endswith_char (s : string) (c : ascii) : bool :=
  match last_char s with Some a => Ascii.eqb a c | None => false end.
