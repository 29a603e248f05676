(** Layered models, Snell's law, delay times and moveout in terms of layers. *)
From Verif Require Import Model.SimpleModel.
Notation length := List.length.
Open Scope R_scope.

(** position of depth i of the user's model among the support points:
    sum of n_j + 1 over j = 1..i *)
Fixpoint knot (n : list nat) (i : nat) : nat :=
  match i with O => 0%nat | S i' => (knot n i' + nth i n 0 + 1)%nat end.
Definition increasing (l : list R) : Prop :=
  forall i j, (i <= j)%nat -> (j < length l)%nat -> nth i l 0 <= nth j l 0.

(** all arrays have one entry per layer, velocities are positive, layers are not
    turned over *)
Definition layers (m : smodel) : nat := length (mdz m).
Definition valid_model (m : smodel) : Prop :=
  is_array m = true /\ length (mz m) = layers m /\ length (mvp m) = layers m /\ length (mvs m) = layers m /\
  (forall j, (j < layers m)%nat -> 0 < nth j (mvp m) 0 /\ 0 < nth j (mvs m) 0 /\ 0 <= nth j (mdz m) 0).
Definition s_slower (m : smodel) : Prop :=
  forall j, (j < layers m)%nat -> nth j (mvs m) 0 <= nth j (mvp m) 0.

(** q is the vertical slowness for velocity v and horizontal slowness h *)
Definition snell (v h q : R) : Prop := 0 <= q /\ q * q + h * h = / v * / v.
(** the wave does not propagate *)
Definition evanescent (v h : R) : Prop := / v < Rabs h.
(** no wave of the phase is evanescent in the first c layers *)
Definition propagates_to (deg2km : R) (m : smodel) (s : R) (phase : string) (c : nat) : Prop :=
  forall j, (j < c)%nat ->
    (char_in "P" (upper phase) = true -> ~ evanescent (nth j (mvp m) 0) (s / deg2km)) /\
    (char_in "S" (upper phase) = true -> ~ evanescent (nth j (mvs m) 0) (s / deg2km)).
Definition evan_layer (deg2km : R) (m : smodel) (s : R) (phase : string) (j : nat) : Prop :=
  (char_in "P" (upper phase) = true /\ evanescent (nth j (mvp m) 0) (s / deg2km)) \/
  (char_in "S" (upper phase) = true /\ evanescent (nth j (mvs m) 0) (s / deg2km)).
(** the number of layers moveout makes use of: all, or all but one of those above the
    first layer the phase does not cross *)
Definition used_layers (deg2km : R) (m : smodel) (s : R) (phase : string) (c : nat) : Prop :=
  (c = layers m /\ propagates_to deg2km m s phase c) \/
  ((S c < layers m)%nat /\ propagates_to deg2km m s phase (S c) /\ evan_layer deg2km m s phase (S c)).

(** phases are words of the letters P and S *)
Definition ps_phase (phase : string) : Prop :=
  phase <> "" /\ forall c, char_in c (upper phase) = true -> c = "P"%char \/ c = "S"%char.
(** delay of a phase relative to the direct wave caused by one layer *)
Definition layer_delay (phase : string) (qp qs dz : R) : R :=
  let phase := upper phase in
  dz * (INR (count_char "P" phase) * qp + INR (count_char "S" phase) * qs
        - 2 * (match phase with String "P" _ => qp | _ => qs end)).
(** x is the delay of the phase converted at the bottom of layer i *)
Definition is_delay (deg2km : R) (m : smodel) (s : R) (phase : string) (i : nat) (x : R) : Prop :=
  exists qp qs : nat -> R,
    (forall j, (j <= i)%nat ->
       (char_in "P" (upper phase) = true -> snell (nth j (mvp m) 0) (s / deg2km) (qp j)) /\
       (char_in "S" (upper phase) = true -> snell (nth j (mvs m) 0) (s / deg2km) (qs j))) /\
    x = rsum (S i) (fun j => layer_delay phase (qp j) (qs j) (nth j (mdz m) 0)).
(** phases that arrive after the P wave, and Sp: PxY... with another P or an S *)
Definition forward (phase : string) : Prop :=
  match upper phase with
  | String "P" _ => (2 <= count_char "P" (upper phase))%nat \/ (1 <= count_char "S" (upper phase))%nat
  | p => p = "SP"
  end.

(** delays of phases starting with S are counted backwards *)
Definition sgn_phase (phase : string) : R := match upper phase with String "S" _ => -1 | _ => 1 end.
(** all reference delays stored in the model were calculated for this reference *)
Definition consistent (deg2km : R) (m : smodel) (ref : R) : Prop :=
  forall ph t, dget (t_ref m) ph = Some t -> delay_times deg2km m ref ph = Ok t.

(** time of sample k relative to the onset, in seconds *)
Definition rel_time (t : mtrace) (k : nat) : R := secs (x_start t - x_onset t + Z.of_nat k * x_delta t).
Definition onset_inside (t : mtrace) : Prop := (x_start t <= x_onset t <= x_end t)%Z.
(** horizontal distance from the surface to depth d in layer i, for slowness h and
    vertical slownesses q *)
Definition ray_distance (m : smodel) (h : R) (q : nat -> R) (i : nat) (d : R) : R :=
  rsum i (fun j => nth j (mdz m) 0 * h / q j) + (d - nth i (mz m) 0) * h / q i.
(** all legs of a phase *)
Definition leg_distance (m : smodel) (phase : string) (h : R) (qp qs : nat -> R) (i : nat) (d : R) : R :=
  INR (count_char "P" (upper phase)) * ray_distance m h qp i d + INR (count_char "S" (upper phase)) * ray_distance m h qs i d.
(** each layer begins where the one above ends *)
Definition contiguous (m : smodel) : Prop :=
  forall j, (S j < layers m)%nat -> nth (S j) (mz m) 0 = nth j (mz m) 0 + nth j (mdz m) 0.
(** vertical slownesses, not zero, of the waves of the phase in the layers 0..i *)
Definition crosses (deg2km : R) (m : smodel) (s : R) (phase : string) (qp qs : nat -> R) (i : nat) : Prop :=
  forall j, (j <= i)%nat ->
    (char_in "P" (upper phase) = true -> snell (nth j (mvp m) 0) (s / deg2km) (qp j) /\ 0 < qp j) /\
    (char_in "S" (upper phase) = true -> snell (nth j (mvs m) 0) (s / deg2km) (qs j) /\ 0 < qs j).
