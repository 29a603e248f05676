(** What a user may expect of the commands profile and plot-profile: C142. *)
From Verif Require Import Model.ProfileCommand Spec.BatchSpec Spec.ConfigSpec Spec.MeanSpec Spec.ProfileSpec.

(** the number in an entry of the header *)
Definition entry_is (k : string) (t : trace) (q : Q) : Prop := exists v, dget (extra (st t)) k = Some (VNum v) /\ (v == q)%Q.
(** the piercing point of the trace is in a box at this position, and in no box before it in the list;
    the trace is of this component *)
Definition in_box (within : Q * Q -> box -> bool) (boxes : list box) (t : trace) (pos : Q) (c : ascii) : Prop :=
  exists la lo before b after,
    dget (extra (st t)) "pp_latitude" = Some (VNum la) /\ dget (extra (st t)) "pp_longitude" = Some (VNum lo) /\
    boxes = before ++ b :: after /\ within (la, lo) b = true /\ Forall (fun b' => within (la, lo) b' = false) before /\
    (b_pos b == pos)%Q /\ last_char (channel (st t)) = Some c.
(** traces which can be used: piercing point; the component is a capital letter or a digit; onset *)
Definition usable (t : trace) : Prop :=
  (exists la lo, dget (extra (st t)) "pp_latitude" = Some (VNum la) /\ dget (extra (st t)) "pp_longitude" = Some (VNum lo)) /\
  (exists c, last_char (channel (st t)) = Some c /\ upper_char c = c /\ ~ In c ["*"; "?"; "/"]%char) /\
  (forall v, dget (extra (st t)) "onset" = Some v -> exists o, v = VTime o).
(** [prof] is a profile of [traces]: for each box and component with traces one trace with their mean *)
Definition profile_of (within : Q * Q -> box -> bool) (boxes : list box) (traces prof : list trace) : Prop :=
  (forall o, In o prof -> exists pos c sel,
     selects (fun t => in_box within boxes t pos c) traces sel /\ sel <> [] /\
     channel (st o) = ("??" ++ char_str c)%string /\ entry_is "box_pos" o pos /\ entry_is "num" o (inject_Z (Z.of_nat (List.length sel))) /\
     is_mean (map data sel) (data o) /\ dget (extra (st o)) "type" = Some (VStr "profile")) /\
  (forall t pos c, In t traces -> in_box within boxes t pos c ->
     exists o, In o prof /\ channel (st o) = ("??" ++ char_str c)%string /\ entry_is "box_pos" o pos) /\
  ForallOrdPairs (fun o o' => ~ (channel (st o) = channel (st o') /\ exists pos, entry_is "box_pos" o pos /\ entry_is "box_pos" o' pos)) prof.
(** options for the boxes: those of the configuration, with the bins if boxbins is given *)
Definition box_options (loads : string -> res json) (linspace : json -> res json) (v : string -> option json) (w : json) : Prop :=
  exists b bins, is_value loads (v "boxes") (JObj []) b /\ is_value loads (v "boxbins") JNull bins /\
    (bins = JNull -> w = b) /\ (bins <> JNull -> exists l, linspace bins = Ok l /\ with_entry b w "bins" l).
(** the text of a position and the name of a dataset belong to one position and component *)
Definition box_names (str_of : value -> string) (h5key : trace -> string) : Prop :=
  (forall p, slash_free (str_of (VNum p))) /\
  (forall p q, str_of (VNum p) = str_of (VNum q) -> (p == q)%Q) /\
  (forall t u p q, entry_is "box_pos" t p -> entry_is "box_pos" u q -> h5key t = h5key u -> channel (st t) = channel (st u) /\ (p == q)%Q).
