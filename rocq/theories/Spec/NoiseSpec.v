(** Vocabulary for the keyword noise of deconvolve(): C139. *)
From Verif Require Import Model.Deconv.

(** the letter of the component *)
Definition letter (t : trace) : option ascii := last_char (channel (st t)).
(** [ds]: data of those traces whose component is one of the responses, in order *)
Definition noise_of (response : option string) (noise : list trace) (ds : list (list Q)) : Prop :=
  exists p : trace -> bool,
    (forall t, p t = true <-> match response with None => True | Some s => exists c, letter t = Some c /\ char_in c s = true end) /\
    ds = map data (filter p noise).
(** the noise has the components [cs] of the responses, in this order *)
Definition in_order (response : option string) (noise : list trace) (cs : list (option ascii)) : Prop :=
  exists p : trace -> bool,
    (forall t, p t = true <-> match response with None => True | Some s => exists c, letter t = Some c /\ char_in c s = true end) /\
    map letter (filter p noise) = cs.
