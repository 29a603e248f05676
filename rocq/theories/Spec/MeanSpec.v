(** The arithmetic mean, sample by sample. *)
From Verif Require Import Model.Py.
(** [m] has n samples and sample k is the mean of sample k of all rows *)
Definition is_mean (rows : list (list Q)) (m : list Q) : Prop :=
  Forall (fun r => List.length r = List.length m) rows /\
  forall k, k < List.length m ->
    (nth k m 0 * inject_Z (Z.of_nat (List.length rows)) ==
     fold_right Qplus 0 (map (fun r => nth k r 0) rows))%Q.
