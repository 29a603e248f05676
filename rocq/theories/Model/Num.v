(** Exact rational vectors standing for numpy arrays (rounding is not modelled). *)
From Verif Require Export Model.Py.

(** elementwise operation of numpy (without broadcasting), rfstream.py:417, profile.py:115 *)
Fixpoint zipw {A B C} (f : A -> B -> C) (a : list A) (b : list B) : list C :=
  match a, b with
  | x :: a', y :: b' => f x y :: zipw f a' b'
  | _, _ => []
  end.

(** all arrays have the length of the first one *)
Definition same_length {A} (rows : list (list A)) : bool :=
  match rows with
  | [] => true
  | r :: rs => forallb (fun x => Nat.eqb (List.length x) (List.length r)) rs
  end.

(** np.mean(rows, axis=0) for a non-empty list of 1-d arrays;
    ValueError (inhomogeneous shape) if the lengths differ *)
Definition np_mean0 (rows : list (list Q)) : res (list Q) :=
  match rows with
  | [] => Err ValueError
  | r :: rs =>
      if same_length rows
      then Ok (map (fun x => x / inject_Z (Z.of_nat (List.length rows)))%Q
                   (fold_left (zipw Qplus) rs r))
      else Err ValueError
  end.

(** a + b with numpy broadcasting of 1-d arrays *)
Definition np_add (a b : list Q) : res (list Q) :=
  if Nat.eqb (List.length a) (List.length b) then Ok (zipw Qplus a b)
  else match a, b with
       | [x], _ => Ok (map (fun y => x + y)%Q b)
       | _, [y] => Ok (map (fun x => x + y)%Q a)
       | _, _ => Err ValueError
       end.
(** a / s *)
Definition np_div (a : list Q) (s : Q) : list Q := map (fun x => x / s)%Q a.
