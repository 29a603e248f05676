(** C123-C125: maps of piercing points and profiles. *)
From Verif Require Import Model.Maps Spec.MapSpec Proofs.PyFacts Proofs.ImagingFacts Proofs.MapFacts.
From Coq Require Import Lqa.
Notation length := List.length.

(** * C123 *)
Definition shown_before {P} (ax : option (geomap P)) (lon lat : Q) : Prop := maybe ax (fun m => shown m lon lat).
Definition labelled_before {P} (ax : option (geomap P)) (name : string) (lon lat : Q) : Prop := maybe ax (fun m => labelled m name lon lat).
Lemma axes_spec {P} (ax : option (geomap P)) crs ll m : axes ax crs ll = Ok m ->
  (forall lon lat, shown m lon lat <-> shown_before ax lon lat) /\ (forall name lon lat, labelled m name lon lat <-> labelled_before ax name lon lat) /\
  m_polys m = match ax with Some m0 => m_polys m0 | None => [] end.
Proof.
  unfold axes, get_geoaxes, shown_before, labelled_before. destruct ax as [m0|]; cbn [maybe].
  - intros H. injection H as <-. repeat split; tauto.
  - intros H. assert (m_scatter m = [] /\ m_labels m = [] /\ m_polys m = []) as (E1 & E2 & E3).
    { destruct crs; [injection H as <-; auto|]. destruct (np_median (map fst ll)); [|discriminate]. cbn [bind] in H. destruct (np_median (map snd ll)); [|discriminate]. injection H as <-. auto. }
    split; [|split; [|exact E3]].
    + intros lon lat. unfold shown. rewrite E1. split; [intros (l & p & [] & _) | intros []].
    + intros name lon lat. unfold labelled. rewrite E2. split; [intros (p & [] & _) | intros []].
Qed.
Lemma with_spec {P} inv label (m m' : geomap P) : with_stations inv label m = Ok m' ->
  m_centre m' = m_centre m /\ m_polys m' = m_polys m /\
  (forall lon lat, shown m' lon lat <-> shown m lon lat \/ maybe inv (fun i => exists name, station_at i name lon lat)) /\
  (forall name lon lat, labelled m' name lon lat <-> labelled m name lon lat \/ maybe inv (fun i => label = true /\ station_at i name lon lat)).
Proof.
  unfold with_stations. destruct inv as [i|]; cbn [maybe].
  - intros H. apply stations_spec in H. destruct H as (m0 & Ea & _ & E1 & E2 & H1 & H2). cbn [axes] in Ea. injection Ea as <-. auto.
  - intros H. injection H as <-. repeat split; tauto.
Qed.
(** plot_ppoints: the map shows the piercing points and, if an inventory is given, its stations, at
    their longitudes and latitudes, in addition to what was on the given axes; stations are
    labelled on demand; nothing else is drawn. *)
Theorem C123_ppoints {P} pts inv label (ax : option (geomap P)) crs m :
  plot_ppoints pts inv label ax crs = Ok m ->
  (forall lon lat, shown m lon lat <-> shown_before ax lon lat \/ (exists p, In p pts /\ (fst p == lat)%Q /\ (snd p == lon)%Q) \/ maybe inv (fun i => exists name, station_at i name lon lat)) /\
  (forall name lon lat, labelled m name lon lat <-> labelled_before ax name lon lat \/ maybe inv (fun i => label = true /\ station_at i name lon lat)) /\
  m_polys m = match ax with Some m0 => m_polys m0 | None => [] end.
Proof.
  unfold plot_ppoints. destruct (axes ax crs pts) as [m0|] eqn:Ea; [|discriminate]. cbn [bind]. destruct (with_stations inv label m0) as [m1|] eqn:Ew; [|discriminate]. cbn [bind]. intros Hs.
  apply axes_spec in Ea. destruct Ea as (A1 & A2 & A3). apply with_spec in Ew. destruct Ew as (_ & W1 & W2 & W3). apply scatter_spec in Hs. destruct Hs as (_ & _ & S1 & S2 & S3).
  split; [|split].
  - intros lon lat. rewrite S3, W2, A1. unfold same_point. cbn [fst snd].
    assert ((exists p, In p pts /\ (snd p == lon)%Q /\ (fst p == lat)%Q) <-> (exists p, In p pts /\ (fst p == lat)%Q /\ (snd p == lon)%Q)) as -> by (split; intros (p & ? & ? & ?); exists p; auto). tauto.
  - intros name lon lat. unfold labelled at 1. rewrite S1. fold (labelled m1 name lon lat). rewrite W3, A2. reflexivity.
  - rewrite S2, W1, A3. reflexivity.
Qed.
Print Assumptions C123_ppoints.
(** plot_profile_map: the same with the boxes of the profile, each of them once and in order. *)
Theorem C123_profile {P} (boxes : list ((Q * Q) * P)) inv label pts ax crs m :
  plot_profile_map boxes inv label pts ax crs = Ok m ->
  (forall lon lat, shown m lon lat <-> shown_before ax lon lat \/ maybe pts (fun l => exists p, In p l /\ (fst p == lat)%Q /\ (snd p == lon)%Q) \/ maybe inv (fun i => exists name, station_at i name lon lat)) /\
  (forall name lon lat, labelled m name lon lat <-> labelled_before ax name lon lat \/ maybe inv (fun i => label = true /\ station_at i name lon lat)) /\
  m_polys m = match ax with Some m0 => m_polys m0 | None => [] end ++ map snd boxes.
Proof.
  unfold plot_profile_map. intros H.
  destruct (match ax with Some m => Ok m | None => match nth_error boxes (length boxes / 2) with None => Err IndexError | Some b => get_geoaxes crs [fst b] end end) as [m0|] eqn:Ea; [|discriminate]. cbn [bind] in H.
  assert (exists ll, axes ax crs ll = Ok m0) as [ll Ea'].
  { destruct ax as [m'|]; [exists []; exact Ea|]. destruct (nth_error boxes (length boxes / 2)) as [b|]; [|discriminate]. exists [fst b]. exact Ea. }
  apply axes_spec in Ea'. destruct Ea' as (A1 & A2 & A3). destruct (with_stations inv label m0) as [m1|] eqn:Ew; [|discriminate]. cbn [bind] in H. apply with_spec in Ew. destruct Ew as (_ & W1 & W2 & W3).
  destruct pts as [l|]; cbn [maybe].
  - destruct (plot_ppoints l None true (Some m1) false) as [m2|] eqn:Ep; [|discriminate]. cbn [bind] in H. injection H as <-. apply C123_ppoints in Ep. cbn [maybe shown_before labelled_before] in Ep. destruct Ep as (P1 & P2 & P3).
    split; [|split].
    + intros lon lat. change (shown m2 lon lat <-> shown_before ax lon lat \/ (exists p, In p l /\ (fst p == lat)%Q /\ (snd p == lon)%Q) \/ maybe inv (fun i => exists name, station_at i name lon lat)).
      rewrite P1. unfold shown_before at 1. cbn [maybe]. rewrite W2, A1. tauto.
    + intros name lon lat. change (labelled m2 name lon lat <-> labelled_before ax name lon lat \/ maybe inv (fun i => label = true /\ station_at i name lon lat)). rewrite P2. unfold labelled_before at 1. cbn [maybe]. rewrite W3, A2. tauto.
    + cbn [m_polys]. rewrite P3, W1, A3. reflexivity.
  - cbn [bind] in H. injection H as <-. split; [|split].
    + intros lon lat. change (shown m1 lon lat <-> shown_before ax lon lat \/ False \/ maybe inv (fun i => exists name, station_at i name lon lat)). rewrite W2, A1. tauto.
    + intros name lon lat. change (labelled m1 name lon lat <-> labelled_before ax name lon lat \/ maybe inv (fun i => label = true /\ station_at i name lon lat)). rewrite W3, A2. reflexivity.
    + cbn [m_polys]. rewrite W1, A3. reflexivity.
Qed.
Print Assumptions C123_profile.
Definition inv_m : inventory := OfInventory [[("PB01", -21, -69); ("PB02", -22, -70)]]%Q.
Example C123_nonvacuous : locatable inv_m /\ exists m : geomap nat,
  plot_profile_map [((-20, -71)%Q, 4); ((-20, -70)%Q, 5)] (Some inv_m) true (Some [(-21, -68)]%Q) None false = Ok m /\
  m_polys m = [4; 5] /\ length (m_labels m) = 2 /\ m_centre m = Some (-70, -20)%Q /\ m_scatter m = [[(-69, -21); (-70, -22)]; [(-68, -21)]]%Q.
Proof.
  split; [split; [exists "PB01", (-69)%Q, (-21)%Q; do 3 eexists; split; [left; reflexivity|]; split; [left; reflexivity | split; reflexivity] | exact I]|].
  eexists. split; [vm_compute; reflexivity|]. repeat (split; [reflexivity|]). reflexivity.
Qed.

(** * C124 *)
(** Maps are drawn exactly if there is something to draw: piercing points, if a list of them is
    given, stations with coordinates, if an inventory is given, and boxes, if there are no axes. *)
Theorem C124_ppoints_partial {P} pts inv label (ax : option (geomap P)) crs :
  (exists m, plot_ppoints pts inv label ax crs = Ok m) <-> pts <> [] /\ (forall i, inv = Some i -> locatable i).
Proof.
  unfold plot_ppoints. split.
  - intros [m H]. destruct (axes ax crs pts) as [m0|]; [|discriminate]. cbn [bind] in H. destruct (with_stations inv label m0) as [m1|] eqn:Ew; [|discriminate]. cbn [bind] in H.
    apply scatter_spec in H. split; [apply H|]. intros i ->. apply stations_spec in Ew. destruct Ew as (? & _ & ? & _). assumption.
  - intros [Hp Hi]. assert (exists m0, axes ax crs pts = Ok m0) as [m0 ->].
    { unfold axes, get_geoaxes. destruct ax as [m|]; [eauto|]. destruct crs; [eauto|].
      destruct (median_middle (map fst pts)) as (a & -> & _); [destruct pts; [congruence | discriminate]|]. cbn [bind].
      destruct (median_middle (map snd pts)) as (b & -> & _); [destruct pts; [congruence | discriminate]|]. cbn [bind]. eauto. }
    cbn [bind]. assert (exists m1, with_stations inv label m0 = Ok m1) as [m1 ->].
    { unfold with_stations. destruct inv as [i|]; [|eauto]. apply stations_succeed, Hi. reflexivity. }
    cbn [bind]. unfold scatter. destruct pts; [congruence | eauto].
Qed.
Print Assumptions C124_ppoints_partial.
Theorem C124_profile_partial {P} (boxes : list ((Q * Q) * P)) inv label pts ax crs :
  (exists m, plot_profile_map boxes inv label pts ax crs = Ok m) <->
  (ax = None -> boxes <> []) /\ pts <> Some [] /\ (forall i, inv = Some i -> locatable i).
Proof.
  unfold plot_profile_map. split.
  - intros [m H]. destruct (match ax with Some m => Ok m | None => match nth_error boxes (length boxes / 2) with None => Err IndexError | Some b => get_geoaxes crs [fst b] end end) as [m0|] eqn:Ea; [|discriminate]. cbn [bind] in H.
    split; [intros -> ->; discriminate Ea|]. destruct (with_stations inv label m0) as [m1|] eqn:Ew; [|discriminate]. cbn [bind] in H. split.
    + intros ->. discriminate H.
    + intros i ->. apply stations_spec in Ew. destruct Ew as (? & _ & ? & _). assumption.
  - intros (Hb & Hp & Hi). assert (exists m0, match ax with Some m => Ok m | None => match nth_error boxes (length boxes / 2) with None => Err IndexError | Some b => get_geoaxes crs [fst b] end end = Ok m0) as [m0 ->].
    { destruct ax as [m|]; [eauto|]. destruct (nth_error boxes (length boxes / 2)) as [b|] eqn:En.
      - unfold get_geoaxes. destruct crs; [eauto|]. cbn [map]. destruct (median_middle [fst (fst b)]) as (x & -> & _); [discriminate|]. cbn [bind]. destruct (median_middle [snd (fst b)]) as (y & -> & _); [discriminate|]. cbn [bind]. eauto.
      - exfalso. apply nth_error_None in En. destruct boxes as [|b l]; [apply Hb; reflexivity|]. assert (length (b :: l) / 2 < length (b :: l)) by (apply Nat.div_lt; cbn; lia). lia. }
    cbn [bind]. assert (exists m1, with_stations inv label m0 = Ok m1) as [m1 ->].
    { unfold with_stations. destruct inv as [i|]; [|eauto]. apply stations_succeed, Hi. reflexivity. }
    cbn [bind]. destruct pts as [l|]; [|cbn [bind]; eauto].
    destruct (proj2 (C124_ppoints_partial l None true (Some m1) false)) as [m2 Hm2]; [split; [congruence | discriminate]|]. rewrite Hm2. cbn [bind]. eauto.
Qed.
Print Assumptions C124_profile_partial.
(** The full C124 does not hold: with an empty list of piercing points there is no map, not even of the
    stations or of the profile. *)
Theorem C124_empty_refuted : exists (boxes : list ((Q * Q) * nat)) i, boxes <> [] /\ locatable i /\
  plot_ppoints [] (Some i) true None false = Err IndexError (A := geomap nat) /\ plot_ppoints [] (Some i) true None true = Err TypeError (A := geomap nat) /\
  plot_profile_map boxes (Some i) true (Some []) None false = Err TypeError /\
  exists m, plot_profile_map boxes (Some i) true None None false = Ok m.
Proof.
  exists [((-20, -71)%Q, 4)], inv_m. split; [discriminate|]. split; [apply C123_nonvacuous|]. repeat (split; [reflexivity|]). eexists. vm_compute. reflexivity.
Qed.
Print Assumptions C124_empty_refuted.

(** * C125 *)
(** The default map of piercing points is centred in the middle of the points: at most half of
    them are further west (north, ...). *)
Theorem C125_centre_partial {P} pts inv label (m : geomap P) :
  plot_ppoints pts inv label None false = Ok m ->
  exists lon lat, m_centre m = Some (lon, lat) /\ middle (map snd pts) lon /\ middle (map fst pts) lat.
Proof.
  intros H. assert (pts <> []) as Hne by (apply (C124_ppoints_partial pts inv label (None : option (geomap P)) false); eauto).
  unfold plot_ppoints, axes, get_geoaxes in H.
  destruct (median_middle (map fst pts)) as (lat & E1 & M1); [destruct pts; [congruence | discriminate]|]. destruct (median_middle (map snd pts)) as (lon & E2 & M2); [destruct pts; [congruence | discriminate]|].
  rewrite E1, E2 in H. cbn [bind] in H. destruct (with_stations inv label _) as [m1|] eqn:Ew in H; [|discriminate]. cbn [bind] in H. apply with_spec in Ew. destruct Ew as (W & _). apply scatter_spec in H. destruct H as (_ & S & _).
  exists lon, lat. rewrite S, W. auto.
Qed.
Print Assumptions C125_centre_partial.
(** The map of a profile is centred in its middle box. *)
Theorem C125_profile {P} (boxes : list ((Q * Q) * P)) inv label pts m :
  plot_profile_map boxes inv label pts None false = Ok m ->
  exists before b after lon lat, boxes = before ++ b :: after /\ (length before = length after \/ length before = S (length after)) /\
    m_centre m = Some (lon, lat) /\ (lat == fst (fst b))%Q /\ (lon == snd (fst b))%Q.
Proof.
  intros H. unfold plot_profile_map in H. destruct (nth_error boxes (length boxes / 2)) as [b|] eqn:En; [|discriminate]. pose proof En as En'. apply nth_error_split in En. destruct En as (before & after & E & El).
  destruct (median_middle (map fst [fst b])) as (lat & E1 & _); [discriminate|]. destruct (median_middle (map snd [fst b])) as (lon & E2 & _); [discriminate|].
  unfold get_geoaxes in H. rewrite E1, E2 in H. cbn [bind] in H. destruct (with_stations inv label _) as [m1|] eqn:Ew in H; [|discriminate]. cbn [bind] in H. apply with_spec in Ew. destruct Ew as (W & _). cbn [m_centre] in W.
  exists before, b, after, lon, lat. split; [exact E|]. split; [|split].
  - assert (length boxes = length before + S (length after)) as Hl by (rewrite E, app_length; reflexivity). pose proof (Nat.div_mod (length boxes) 2 ltac:(lia)). pose proof (Nat.mod_upper_bound (length boxes) 2 ltac:(lia)). lia.
  - destruct pts as [l|].
    + destruct (plot_ppoints l None true (Some m1) false) as [m2|] eqn:Ep; [|discriminate]. cbn [bind] in H. injection H as <-. cbn [m_centre]. unfold plot_ppoints in Ep. cbn [axes with_stations bind] in Ep. apply scatter_spec in Ep. destruct Ep as (_ & S & _). rewrite S. exact W.
    + cbn [bind] in H. injection H as <-. exact W.
  - cbn in E1, E2. injection E1 as <-. injection E2 as <-. split; reflexivity.
Qed.
Print Assumptions C125_profile.
(** The full C125 does not hold across the date line: piercing points at 179 degrees east and west
    are shown on a map centred at the longitude 0, on the other side of the globe. *)
Theorem C125_dateline_refuted : exists pts (m : geomap nat), plot_ppoints pts None true None false = Ok m /\
  Forall (fun p => (179 <= Qabs (snd p))%Q) pts /\ exists lon lat, m_centre m = Some (lon, lat) /\ (lon == 0)%Q.
Proof.
  exists [(-17, 179); (-18, -179)]%Q. eexists. split; [vm_compute; reflexivity|]. split; [repeat constructor; vm_compute; discriminate|]. eexists _, _. split; reflexivity.
Qed.
Print Assumptions C125_dateline_refuted.
Example C125_nonvacuous : exists m : geomap nat, plot_ppoints [(-21, -68); (-20, -70); (-23, -69)]%Q (Some inv_m) true None false = Ok m /\ m_centre m = Some (-69, -21)%Q.
Proof. eexists. split; [vm_compute; reflexivity | reflexivity]. Qed.
