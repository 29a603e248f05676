(** C07, C08: profile stacking (rf/profile.py:75-137). [within] says whether a
    box encloses a piercing point (shapely/cartopy), numpy arrays are references
    into a memory. *)
From Verif Require Import Model.Profile Spec.MeanSpec Spec.ProfileSpec Proofs.ProfileFacts.

(** C07 and the first half of C08. Guards: traces have piercing points and a
    channel code, the first box carries the profile entry (as made by
    get_profile_boxes), traces stacked together have the same length. *)
Theorem C07_profile_mean :
  forall (within : Q * Q -> box -> bool) (crs : bool) (boxes : list box) (m0 : mem) (stream : list ptrace),
  Forall (fun t => p_buf t < List.length m0) stream ->
  Forall profile_ready stream ->
  forall (b0 : box) (plat plon pazi plen w : Q),
  hd_error boxes = Some b0 -> b_profile b0 = Some (plat, plon, pazi, plen, w) ->
  (forall t u pos c, In t stream -> In u stream ->
     hits within boxes t pos c -> hits within boxes u pos c ->
     List.length (rd m0 (p_buf t)) = List.length (rd m0 (p_buf u))) ->
  exists m2 out, rf_profile within crs m0 stream boxes = Ok (m2, out) /\
      (* arrays that existed before are unchanged, the result has its own arrays *)
      (forall b, b < List.length m0 -> rd m2 b = rd m0 b) /\
      Forall (fun o => List.length m0 <= p_buf o) out /\ NoDup (map p_buf out) /\
      (* every trace of the profile is right *)
      (forall o, In o out -> profile_trace_ok within boxes m0 stream m2 o) /\
      (* every (box, component) that was hit is there *)
      (forall t pos c, In t stream -> hits within boxes t pos c ->
         exists o, In o out /\ channel (p_st o) = ("??" ++ char_str c)%string /\ num_entry "box_pos" o pos) /\
      (* sorted by channel and position, no (box, component) twice *)
      StronglySorted before_in_profile out.
Proof. exact profile_spec. Qed.
Print Assumptions C07_profile_mean.

(** C08. The order of the traces only affects copied headers. *)
Theorem C08_profile_order :
  forall within crs boxes m0 s1 s2 b0 pp m1 out1 m2 out2,
  Permutation s1 s2 ->
  Forall (fun t => p_buf t < List.length m0) s1 -> Forall profile_ready s1 ->
  hd_error boxes = Some b0 -> b_profile b0 = Some pp ->
  (forall t u pos c, In t s1 -> In u s1 -> hits within boxes t pos c -> hits within boxes u pos c ->
     List.length (rd m0 (p_buf t)) = List.length (rd m0 (p_buf u))) ->
  rf_profile within crs m0 s1 boxes = Ok (m1, out1) ->
  rf_profile within crs m0 s2 boxes = Ok (m2, out2) ->
  Forall2 (fun o1 o2 =>
      channel (p_st o1) = channel (p_st o2) /\
      (exists pos, num_entry "box_pos" o1 pos /\ num_entry "box_pos" o2 pos) /\
      (exists n, num_entry "num" o1 n /\ num_entry "num" o2 n) /\
      Forall2 Qeq (rd m1 (p_buf o1)) (rd m2 (p_buf o2))) out1 out2.
Proof. exact profile_perm. Qed.
Print Assumptions C08_profile_order.

(** Non-vacuity: two boxes along the latitude, four traces, one outside. *)
Definition ex_within (p : Q * Q) (b : box) : bool :=
  (negb (Qle_bool (fst p) (b_pos b - b_len b / 2)) && negb (Qle_bool (b_pos b + b_len b / 2) (fst p)))%Q.
Definition ex_boxes := [mkBox 5 10 5 0 (Some (0, 0, 0, 20, 2000)); mkBox 15 10 15 0 None]%Q.
Definition ex_pt (la : Q) (cha : string) (b : nat) : ptrace :=
  mkPT (mkStats "" "" "" cha 10 1 [("pp_latitude", VNum la); ("pp_longitude", VNum 0);
                                   ("onset", VTime 12); ("phase", VStr "P")]) b.
Definition ex_ps := [ex_pt 3 "BHQ" 0; ex_pt 12 "BHQ" 1; ex_pt 10 "BHQ" 1; ex_pt 4 "BHQ" 2]%Q.
Definition ex_mem : mem := [[1;2];[3;5];[5;4]]%Q.
Example C07_nonvacuous :
  Forall (fun t => p_buf t < List.length ex_mem) ex_ps /\ Forall profile_ready ex_ps /\
  exists m o1 o2, rf_profile ex_within false ex_mem ex_ps ex_boxes = Ok (m, [o1; o2]) /\
    Forall2 Qeq (rd m (p_buf o1)) [3;3]%Q /\ Forall2 Qeq (rd m (p_buf o2)) [3;5]%Q /\
    num_entry "num" o1 2 /\ dget (extra (p_st o1)) "onset" = Some (VTime 2).
Proof.
  split; [repeat constructor|]. split.
  - repeat constructor; simpl; try discriminate;
      try (do 2 eexists; split; reflexivity); intros v H; inversion H; eauto.
  - do 3 eexists. split; [vm_compute; reflexivity|].
    repeat split; try (repeat constructor). eexists; split; [vm_compute; reflexivity | reflexivity].
Qed.
