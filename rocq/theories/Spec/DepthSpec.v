(** Delay of a phase converted at a depth inside of a layer. *)
From Verif Require Import Model.SimpleModel Spec.ModelSpec.
Notation length := List.length.
Open Scope R_scope.

(** depth d lies in layer i *)
Definition in_layer (m : smodel) (i : nat) (d : R) : Prop :=
  (i < layers m)%nat /\ nth i (mz m) 0 <= d <= nth i (mz m) 0 + nth i (mdz m) 0.
(** x is the delay, relative to the direct wave, of the phase converted at depth d in layer i:
    all layers above and the part of layer i above d contribute *)
Definition delay_at (deg2km : R) (m : smodel) (s : R) (phase : string) (i : nat) (d x : R) : Prop :=
  in_layer m i d /\
  exists qp qs : nat -> R,
    (forall j, (j <= i)%nat ->
       (char_in "P" (upper phase) = true -> snell (nth j (mvp m) 0) (s / deg2km) (qp j)) /\
       (char_in "S" (upper phase) = true -> snell (nth j (mvs m) 0) (s / deg2km) (qs j))) /\
    x = rsum i (fun j => layer_delay phase (qp j) (qs j) (nth j (mdz m) 0))
        + layer_delay phase (qp i) (qs i) (d - nth i (mz m) 0).
(** S waves are slower than P waves *)
Definition s_strictly_slower (m : smodel) : Prop :=
  forall j, (j < layers m)%nat -> nth j (mvs m) 0 < nth j (mvp m) 0.
