(** Words for C140. *)
From Verif Require Import Model.SimpleModel Spec.ModelSpec.
Local Open Scope R_scope.

(** [rate] is the sampling rate belonging to [delta] ns, up to the errors of one or two
    floating point operations: 1 / delta, or delta = 1 / rate *)
Definition rate_of (delta : Z) (rate : R) : Prop := Rabs (rate * secs delta - 1) <= / 2 ^ 51.
(** the number of the last sample not after the onset *)
Definition last_before (start onset delta k : Z) : Prop := (start + k * delta <= onset < start + (k + 1) * delta)%Z.
