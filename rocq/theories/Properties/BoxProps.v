(** C09, C10: profile boxes (rf/profile.py:13-72). *)
From Verif Require Import Model.Boxes Spec.BoxSpec Proofs.BoxFacts.
From Verif Require Model.Profile Proofs.ProfileFacts.

(** C09, bookkeeping: for every geodetic function the boxes tile the profile. *)
Theorem C09_boxes_tile :
  forall (direct : pt -> R -> R -> pt) p0 az bins w,
  let bs := get_profile_boxes direct p0 az bins w in
  List.length bs = (List.length bins - 1)%nat /\
  (forall i d, (i < List.length bs)%nat ->
     let b := nth i bs d in
     rpos b - rlength b / 2 = nth i bins 0 /\ rpos b + rlength b / 2 = nth (S i) bins 0 /\
     (i = 0%nat -> rprofile b = Some (p0, az, last bins 0 - hd 0 bins, w)) /\
     (i <> 0%nat -> rprofile b = None)) /\
  fold_right Rplus 0 (map rlength bs) = last bins 0 - hd 0 bins.
Proof. exact profile_boxes_spec. Qed.
Print Assumptions C09_boxes_tile.

(** C09, geometry on a plane: box i is the rectangle between bins[i] and
    bins[i+1] along the profile and -width/2, width/2 across; consecutive boxes
    share the edge at bins[i+1]. *)
Theorem C09_boxes_rectangles :
  forall p0 az bins w i d,
  let bs := get_profile_boxes plane_direct p0 az bins w in
  (i < List.length bs)%nat ->
  poly (nth i bs d) =
    [at_coord p0 az (nth i bins 0) (- (w / 2)); at_coord p0 az (nth (S i) bins 0) (- (w / 2));
     at_coord p0 az (nth (S i) bins 0) (w / 2); at_coord p0 az (nth i bins 0) (w / 2)] /\
  rlatlon (nth i bs d) = at_coord p0 az (rpos (nth i bs d)) 0.
Proof. exact profile_boxes_plane. Qed.
Print Assumptions C09_boxes_rectangles.

(** C10: the box returned is the first one of the list that encloses the point;
    None iff no box encloses it. *)
Theorem C10_find_first_box :
  forall within crs p (boxes : list Profile.box), boxes <> [] ->
  exists r, Profile.find_box within crs p boxes = Py.Ok r /\
    (forall b, r = Some b <->
       exists before after, boxes = before ++ b :: after /\ within p b = true /\
                            Forall (fun b' => within p b' = false) before) /\
    (r = None <-> forall b, In b boxes -> within p b = false).
Proof. exact ProfileFacts.find_box_spec. Qed.
Print Assumptions C10_find_first_box.

(** C10 on a plane: exactly the points strictly between the edges are enclosed,
    by at most one box; points on a common edge of two boxes by none. *)
Theorem C10_enclosed :
  forall p0 az bins w p i d,
  increasing bins -> 0 < w ->
  let bs := get_profile_boxes plane_direct p0 az bins w in
  (i < List.length bs)%nat ->
  (inside (poly (nth i bs d)) p <->
   nth i bins 0 < along p0 az p < nth (S i) bins 0 /\ - (w / 2) < across p0 az p < w / 2).
Proof. exact plane_box_of_point. Qed.
Print Assumptions C10_enclosed.
Theorem C10_at_most_one :
  forall p0 az bins w p i j d,
  increasing bins -> 0 < w ->
  let bs := get_profile_boxes plane_direct p0 az bins w in
  (i < List.length bs)%nat -> (j < List.length bs)%nat ->
  inside (poly (nth i bs d)) p -> inside (poly (nth j bs d)) p -> i = j.
Proof. exact plane_box_unique. Qed.
Print Assumptions C10_at_most_one.
Theorem C10_edge_in_no_box :
  forall p0 az bins w p k i d,
  increasing bins -> 0 < w ->
  let bs := get_profile_boxes plane_direct p0 az bins w in
  (k < List.length bins)%nat -> along p0 az p = nth k bins 0 ->
  (i < List.length bs)%nat -> ~ inside (poly (nth i bs d)) p.
Proof. exact plane_edge_in_no_box. Qed.
Print Assumptions C10_edge_in_no_box.

(** Non-vacuity: bins 0, 10, 30; the point (5, 1) is in the first box. *)
Example C10_nonvacuous :
  increasing [0; 10; 30] /\
  inside (poly (nth 0 (get_profile_boxes plane_direct (0, 0) 0 [0; 10; 30] 20)
                    (mkRBox [] 0 0 (0, 0) None))) (5, 1).
Proof.
  split; [simpl; lra|]. apply plane_box_of_point; [simpl; lra | lra | simpl; auto with arith |].
  unfold along, across, rad. simpl.
  replace (0 * PI / 180) with 0 by field. rewrite cos_0, sin_0. lra.
Qed.
