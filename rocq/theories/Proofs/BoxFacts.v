From Verif Require Import Model.Boxes Spec.BoxSpec.
From Coq Require Import Lia ZArith.

Lemma cos_period_Z x k : cos (x + 2 * PI * IZR k) = cos x.
Proof.
  destruct k as [|p|p].
  - f_equal. rewrite Rmult_0_r. ring.
  - rewrite <- (cos_period x (Pos.to_nat p)). f_equal. rewrite INR_IPR.
    change (IZR (Z.pos p)) with (IPR p). ring.
  - rewrite <- (cos_period (x + 2 * PI * IZR (Z.neg p)) (Pos.to_nat p)). f_equal.
    rewrite INR_IPR. change (IZR (Z.neg p)) with (- IPR p). ring.
Qed.
Lemma sin_period_Z x k : sin (x + 2 * PI * IZR k) = sin x.
Proof.
  destruct k as [|p|p].
  - f_equal. rewrite Rmult_0_r. ring.
  - rewrite <- (sin_period x (Pos.to_nat p)). f_equal. rewrite INR_IPR.
    change (IZR (Z.pos p)) with (IPR p). ring.
  - rewrite <- (sin_period (x + 2 * PI * IZR (Z.neg p)) (Pos.to_nat p)). f_equal.
    rewrite INR_IPR. change (IZR (Z.neg p)) with (- IPR p). ring.
Qed.
Lemma cos_pymod x : cos (rad (pymod x 360)) = cos (rad x).
Proof.
  unfold pymod, rad. rewrite <- (cos_period_Z (x * PI / 180) (- Int_part (x / 360))).
  f_equal. rewrite opp_IZR. field.
Qed.
Lemma sin_pymod x : sin (rad (pymod x 360)) = sin (rad x).
Proof.
  unfold pymod, rad. rewrite <- (sin_period_Z (x * PI / 180) (- Int_part (x / 360))).
  f_equal. rewrite opp_IZR. field.
Qed.
Lemma rad_sub90 a : rad (a - 90) = - (PI / 2 - rad a). Proof. unfold rad. field. Qed.
Lemma rad_add90 a : rad (a + 90) = PI / 2 + rad a. Proof. unfold rad. field. Qed.
Lemma rad_add180 a : rad (a + 180) = rad a + PI. Proof. unfold rad. field. Qed.

Lemma cos_sub90 a : cos (rad (a - 90)) = sin (rad a).
Proof. rewrite rad_sub90, cos_neg, cos_shift. reflexivity. Qed.
Lemma sin_sub90 a : sin (rad (a - 90)) = - cos (rad a).
Proof. rewrite rad_sub90, sin_neg, sin_shift. reflexivity. Qed.
Lemma cos_add90 a : cos (rad (a + 90)) = - sin (rad a).
Proof. rewrite rad_add90. rewrite cos_plus, cos_PI2, sin_PI2. ring. Qed.
Lemma sin_add90 a : sin (rad (a + 90)) = cos (rad a).
Proof. rewrite rad_add90. rewrite sin_plus, cos_PI2, sin_PI2. ring. Qed.
Lemma cos_add180 a : cos (rad (a + 180)) = - cos (rad a).
Proof. rewrite rad_add180. apply neg_cos. Qed.
Lemma sin_add180 a : sin (rad (a + 180)) = - sin (rad a).
Proof. rewrite rad_add180. apply neg_sin. Qed.

(** the polygon of a box is the rectangle *)
Lemma box_rectangle p0 az len w off :
  poly (get_box plane_direct p0 az len w off) =
    [at_coord p0 az off (- (w / 2)); at_coord p0 az (off + len) (- (w / 2));
     at_coord p0 az (off + len) (w / 2); at_coord p0 az off (w / 2)].
Proof.
  unfold get_box, at_coord, plane_direct. cbn [poly walk combine fst snd].
  rewrite !cos_pymod, !sin_pymod, cos_sub90, sin_sub90, cos_add90, sin_add90, cos_add180, sin_add180.
  repeat (f_equal; [f_equal; field|]). f_equal. f_equal; field.
Qed.
Lemma box_latlon p0 az len w off :
  rlatlon (get_box plane_direct p0 az len w off) = at_coord p0 az (off + len / 2) 0.
Proof. unfold get_box, at_coord, plane_direct. cbn. f_equal; field. Qed.

Lemma sc2 x : sin x * sin x + cos x * cos x = 1.
Proof. pose proof (sin2_cos2 x) as H. unfold Rsqr in H. exact H. Qed.
Lemma inside_rectangle p0 az x1 x2 y1 y2 p :
  x1 < x2 -> y1 < y2 ->
  (inside [at_coord p0 az x1 y1; at_coord p0 az x2 y1; at_coord p0 az x2 y2; at_coord p0 az x1 y2] p <->
   x1 < along p0 az p < x2 /\ y1 < across p0 az p < y2).
Proof.
  intros Hx Hy. cbn [inside edges_right].
  set (c := cos (rad az)). set (s := sin (rad az)).
  assert (s * s + c * c = 1) as Hsc by apply sc2.
  assert (cross (at_coord p0 az x1 y1) (at_coord p0 az x2 y1) p = (x2 - x1) * (across p0 az p - y1)) as E1.
  { unfold cross, at_coord, across. cbn [fst snd]. fold c s.
    transitivity ((x2 - x1) * ((snd p - snd p0) * c - (fst p - fst p0) * s - y1 * (s * s + c * c))); [ring|].
    rewrite Hsc. ring. }
  assert (cross (at_coord p0 az x2 y1) (at_coord p0 az x2 y2) p = (y2 - y1) * (x2 - along p0 az p)) as E2.
  { unfold cross, at_coord, along. cbn [fst snd]. fold c s.
    transitivity ((y2 - y1) * (x2 * (s * s + c * c) - ((fst p - fst p0) * c + (snd p - snd p0) * s))); [ring|].
    rewrite Hsc. ring. }
  assert (cross (at_coord p0 az x2 y2) (at_coord p0 az x1 y2) p = (x2 - x1) * (y2 - across p0 az p)) as E3.
  { unfold cross, at_coord, across. cbn [fst snd]. fold c s.
    transitivity ((x2 - x1) * (y2 * (s * s + c * c) - ((snd p - snd p0) * c - (fst p - fst p0) * s))); [ring|].
    rewrite Hsc. ring. }
  assert (cross (at_coord p0 az x1 y2) (at_coord p0 az x1 y1) p = (y2 - y1) * (along p0 az p - x1)) as E4.
  { unfold cross, at_coord, along. cbn [fst snd]. fold c s.
    transitivity ((y2 - y1) * ((fst p - fst p0) * c + (snd p - snd p0) * s - x1 * (s * s + c * c))); [ring|].
    rewrite Hsc. ring. }
  rewrite E1, E2, E3, E4.
  assert (forall a b, 0 < a -> (0 < a * b <-> 0 < b)) as Hm.
  { intros a b Ha. split; intros H; [|apply Rmult_lt_0_compat; assumption].
    apply (Rmult_lt_reg_l a); [exact Ha|]. rewrite Rmult_0_r. exact H. }
  rewrite !Hm by lra. lra.
Qed.

(** structure of the box list *)
Section Loop.
  Variable direct : pt -> R -> R -> pt.
  Variables (p0 : pt) (az w total : R).
  Lemma boxes_loop_cons first x y bins :
    boxes_loop direct p0 az w total first (x :: y :: bins) =
    (if first then set_profile (get_box direct p0 az (y - x) w x) (p0, az, total, w)
     else get_box direct p0 az (y - x) w x) :: boxes_loop direct p0 az w total false (y :: bins).
  Proof. reflexivity. Qed.
  Lemma boxes_loop_length first bins :
    List.length (boxes_loop direct p0 az w total first bins) = (List.length bins - 1)%nat.
  Proof.
    revert first. induction bins as [|x bins IH]; intros first; [reflexivity|].
    destruct bins as [|y bins]; [reflexivity|].
    rewrite boxes_loop_cons. cbn [List.length]. rewrite IH. cbn [List.length]. lia.
  Qed.
  Lemma boxes_loop_nth first bins i d :
    (S i < List.length bins)%nat ->
    nth i (boxes_loop direct p0 az w total first bins) d =
      (let b := get_box direct p0 az (nth (S i) bins 0 - nth i bins 0) w (nth i bins 0) in
       if andb first (Nat.eqb i 0) then set_profile b (p0, az, total, w) else b).
  Proof.
    revert first i. induction bins as [|x bins IH]; intros first i Hi; [simpl in Hi; lia|].
    destruct bins as [|y bins]; [simpl in Hi; lia|].
    destruct i as [|i].
    - rewrite boxes_loop_cons. destruct first; reflexivity.
    - rewrite boxes_loop_cons. cbn [nth]. rewrite IH by (cbn [List.length] in *; lia).
      cbn [Nat.eqb andb]. rewrite Bool.andb_false_r. reflexivity.
  Qed.
  Lemma boxes_loop_sum first bins :
    fold_right Rplus 0 (map rlength (boxes_loop direct p0 az w total first bins)) = last bins 0 - hd 0 bins.
  Proof.
    revert first. induction bins as [|x bins IH]; intros first; [simpl; ring|].
    destruct bins as [|y bins]; [simpl; ring|].
    rewrite boxes_loop_cons. cbn [map fold_right]. rewrite IH.
    replace (rlength (if first then _ else _)) with (y - x) by (destruct first; reflexivity).
    change (last (x :: y :: bins) 0) with (last (y :: bins) 0). cbn [hd]. ring.
  Qed.
End Loop.

Theorem profile_boxes_spec direct p0 az bins w :
  let bs := get_profile_boxes direct p0 az bins w in
  List.length bs = (List.length bins - 1)%nat /\
  (forall i d, (i < List.length bs)%nat ->
     let b := nth i bs d in
     rpos b - rlength b / 2 = nth i bins 0 /\ rpos b + rlength b / 2 = nth (S i) bins 0 /\
     (i = 0%nat -> rprofile b = Some (p0, az, last bins 0 - hd 0 bins, w)) /\
     (i <> 0%nat -> rprofile b = None)) /\
  fold_right Rplus 0 (map rlength bs) = last bins 0 - hd 0 bins.
Proof.
  cbv zeta. unfold get_profile_boxes. rewrite boxes_loop_length. split; [reflexivity|]. split.
  - intros i d Hi. rewrite boxes_loop_nth by lia. cbn [andb].
    destruct (Nat.eqb_spec i 0) as [->|Hne]; cbn; repeat split; try lra; try congruence.
  - apply boxes_loop_sum.
Qed.

Theorem profile_boxes_plane p0 az bins w i d :
  let bs := get_profile_boxes plane_direct p0 az bins w in
  (i < List.length bs)%nat ->
  poly (nth i bs d) =
    [at_coord p0 az (nth i bins 0) (- (w / 2)); at_coord p0 az (nth (S i) bins 0) (- (w / 2));
     at_coord p0 az (nth (S i) bins 0) (w / 2); at_coord p0 az (nth i bins 0) (w / 2)] /\
  rlatlon (nth i bs d) = at_coord p0 az (rpos (nth i bs d)) 0.
Proof.
  cbv zeta. intros Hi. unfold get_profile_boxes in *. rewrite boxes_loop_length in Hi.
  rewrite boxes_loop_nth by lia. cbv zeta.
  set (b := get_box _ _ _ _ _ _).
  assert (poly (if andb true (Nat.eqb i 0) then set_profile b (p0, az, last bins 0 - hd 0 bins, w) else b) = poly b) as ->
    by (destruct (andb true (Nat.eqb i 0)); reflexivity).
  split.
  - unfold b. rewrite box_rectangle.
    replace (nth i bins 0 + (nth (S i) bins 0 - nth i bins 0)) with (nth (S i) bins 0) by ring. reflexivity.
  - transitivity (rlatlon b); [destruct (andb true (Nat.eqb i 0)); reflexivity|].
    unfold b. rewrite box_latlon.
    f_equal. destruct (andb true (Nat.eqb i 0)); cbn; reflexivity.
Qed.

Lemma increasing_nth bins i : increasing bins -> (S i < List.length bins)%nat -> nth i bins 0 < nth (S i) bins 0.
Proof.
  revert i. induction bins as [|x bins IH]; intros i Hinc Hi; [simpl in Hi; lia|].
  destruct bins as [|y bins]; [simpl in Hi; lia|]. destruct Hinc as [H1 H2].
  destruct i as [|i]; [exact H1|]. apply IH; [exact H2 | cbn [List.length] in *; lia].
Qed.
Lemma increasing_le bins i j : increasing bins -> (i <= j)%nat -> (j < List.length bins)%nat -> nth i bins 0 <= nth j bins 0.
Proof.
  intros Hinc Hij. induction Hij as [|j Hij IH]; intros Hj; [lra|].
  apply Rle_trans with (nth j bins 0); [apply IH; lia|]. apply Rlt_le, increasing_nth; assumption.
Qed.

Theorem plane_box_of_point p0 az bins w p i d :
  increasing bins -> 0 < w ->
  let bs := get_profile_boxes plane_direct p0 az bins w in
  (i < List.length bs)%nat ->
  (inside (poly (nth i bs d)) p <->
   nth i bins 0 < along p0 az p < nth (S i) bins 0 /\ - (w / 2) < across p0 az p < w / 2).
Proof.
  cbv zeta. intros Hinc Hw Hi.
  destruct (profile_boxes_plane p0 az bins w i d Hi) as [-> _].
  unfold get_profile_boxes in Hi. rewrite boxes_loop_length in Hi.
  apply inside_rectangle; [apply increasing_nth; [exact Hinc | lia] | lra].
Qed.

Theorem plane_box_unique p0 az bins w p i j d :
  increasing bins -> 0 < w ->
  let bs := get_profile_boxes plane_direct p0 az bins w in
  (i < List.length bs)%nat -> (j < List.length bs)%nat ->
  inside (poly (nth i bs d)) p -> inside (poly (nth j bs d)) p -> i = j.
Proof.
  cbv zeta. intros Hinc Hw Hi Hj H1 H2.
  apply plane_box_of_point in H1; auto. apply plane_box_of_point in H2; auto.
  unfold get_profile_boxes in *. rewrite boxes_loop_length in *.
  assert (forall a b, (a < b)%nat -> (S b < List.length bins)%nat ->
     nth a bins 0 < along p0 az p < nth (S a) bins 0 -> nth b bins 0 < along p0 az p < nth (S b) bins 0 -> False) as Hcon.
  { intros a b Hab Hb Ha Hb'. pose proof (increasing_le bins (S a) b Hinc ltac:(lia) ltac:(lia)). lra. }
  destruct (Nat.lt_trichotomy i j) as [H|[H|H]]; [exfalso; apply (Hcon i j); tauto || lia | exact H |
    exfalso; apply (Hcon j i); tauto || lia].
Qed.

Theorem plane_edge_in_no_box p0 az bins w p k i d :
  increasing bins -> 0 < w ->
  let bs := get_profile_boxes plane_direct p0 az bins w in
  (k < List.length bins)%nat -> along p0 az p = nth k bins 0 ->
  (i < List.length bs)%nat -> ~ inside (poly (nth i bs d)) p.
Proof.
  cbv zeta. intros Hinc Hw Hk Hal Hi Hin. apply plane_box_of_point in Hin; auto.
  unfold get_profile_boxes in Hi. rewrite boxes_loop_length in Hi. rewrite Hal in Hin.
  destruct (Nat.le_gt_cases k i) as [H|H].
  - pose proof (increasing_le bins k i Hinc H ltac:(lia)). lra.
  - pose proof (increasing_le bins (S i) k Hinc ltac:(lia) ltac:(lia)). lra.
Qed.
