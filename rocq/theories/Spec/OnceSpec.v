(** What a user may expect of the iteration over stored streams: C108. *)
From Verif Require Import Model.Figures Spec.EventSpec Spec.BatchSpec.

Definition sec (t : Z) : Z := (t / 1000000000)%Z.
Definition channel_code (net sta loc cha : string) : string := (net ++ "." ++ sta ++ "." ++ loc ++ "." ++ cha)%string.
(** the channel is in the inventory *)
Definition in_inventory (channels : list string) (net sta loc cha : string) : Prop :=
  cha <> "" /\ char_in "." cha = false /\ In (channel_code net sta loc cha) channels.
Definition inventory_ok (channels : list string) : Prop :=
  forall ch, In ch channels -> exists net sta loc cha, ch = channel_code net sta loc cha /\
    code net /\ code sta /\ code loc /\ cha <> "" /\ char_in "." cha = false.
(** channels of a station with the same location have the same first letters (BHZ, BHN, BHE) *)
Definition one_group (channels : list string) : Prop :=
  forall net sta loc c1 c2, code net -> code sta -> code loc -> in_inventory channels net sta loc c1 -> in_inventory channels net sta loc c2 ->
  droplast c1 = droplast c2.
(** events have an origin time, in different seconds *)
Definition events_ok (year : Z -> Prop) (events : list event) : Prop :=
  (forall ev, In ev events -> exists t, time_of ev = Some t /\ year t) /\
  ForallOrdPairs (fun a b => forall t u, time_of a = Some t -> time_of b = Some u -> sec t <> sec u) events.
(** streams of this event and station are asked for *)
Definition requested (events : list event) (channels : list string) (p : spair) : Prop :=
  (exists ev t, In ev events /\ time_of ev = Some t /\ sec t = sec (p_time p)) /\
  (exists cha, in_inventory channels (p_net p) (p_sta p) (p_loc p) cha).
