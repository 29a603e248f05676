(** What "same component group" means, in words of the documentation of
    IterMultipleComponents: same seed id up to the last character, same
    (printed) value of the grouping entry. *)
From Verif Require Import Model.Trace.

Definition printed (str_of : value -> string) (key : option string) (t : trace) : option string :=
  match key with
  | None => None
  | Some k => option_map str_of (tr_get t k)
  end.
Definition same_group (str_of : value -> string) (key : option string) (t u : trace) : Prop :=
  droplast (tr_id t) = droplast (tr_id u) /\ printed str_of key t = printed str_of key u.
(** the lexicographic order on (id prefix, printed entry) *)
Definition group_before (str_of : value -> string) (key : option string) (t u : trace) : Prop :=
  String.compare (droplast (tr_id t)) (droplast (tr_id u)) = Lt \/
  (droplast (tr_id t) = droplast (tr_id u) /\
   exists a b, printed str_of key t = Some a /\ printed str_of key u = Some b /\
               String.compare a b = Lt).
Definition has_entry (key : option string) (t : trace) : Prop :=
  match key with None => True | Some k => tr_get t k <> None end.
