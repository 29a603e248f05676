(** Histories of a process for C103 - C107 *)
From Verif Require Import Model.ModelFile.
Open Scope R_scope.

(** the call uses the model with this name *)
Definition uses (f : string) (o : op) : Prop :=
  match o with OpLoad g => g = f | OpMoveout g _ _ _ _ => g = f | OpPpoints g _ _ _ _ => g = f | OpWrite _ _ => False end.
(** the user writes the file with this name *)
Definition writes (f : string) (o : op) : Prop := match o with OpWrite g _ => g = f | _ => False end.
(** if the call is a moveout with this model, its reference is allowed *)
Definition refers (f : string) (allowed : R -> Prop) (o : op) : Prop :=
  match o with OpMoveout g _ _ r _ => g = f -> allowed r | _ => True end.
(** what the name stands for: "iasp91" is the file of the package *)
Definition content (iasp91 : rows) (s : session) (f : string) : option rows :=
  if String.eqb f "iasp91" then Some iasp91 else s_files s f.
(** a new process with the same files *)
Definition restarted (s : session) : session := mkSession (s_files s) [].
(** same depths and velocities *)
Definition same_earth (m m' : smodel) : Prop := mz m = mz m' /\ mdz m = mdz m' /\ mvp m = mvp m' /\ mvs m = mvs m'.
(** same result of loading *)
Definition same_load (a b : res smodel) : Prop :=
  match a, b with Ok m, Ok m' => same_earth m m' | Err e, Err e' => e = e' | _, _ => False end.
(** the headers of a trace without the piercing point *)
Definition same_but_pp (t t' : ptrace) : Prop :=
  p_m t' = p_m t /\ p_lat t' = p_lat t /\ p_lon t' = p_lon t /\ p_baz t' = p_baz t.
Definition slowed (ref : R) (t : ptrace) : ptrace :=
  with_m t (mkMT (x_start (p_m t)) (x_onset (p_m t)) (x_delta (p_m t)) (x_data (p_m t)) ref (x_before (p_m t)) (x_moveout (p_m t))).
