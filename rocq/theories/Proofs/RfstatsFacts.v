From Verif Require Import Model.Rfstats Spec.StatsSpec Proofs.PyFacts.

Lemma event_origin_spec ev o : event_origin ev = Ok o <-> origin_of ev o.
Proof.
  unfold event_origin, origin_of. destruct (e_pref ev) as [p|].
  - split; [intros H; left; congruence|]. intros [H|[H _]]; congruence.
  - destruct (e_origins ev) as [|x l].
    + split; [discriminate|]. intros [H|[_ [l H]]]; discriminate.
    + split; [intros H; right; split; [reflexivity|]; exists l; congruence|]. intros [H|[_ [l' H]]]; congruence.
Qed.
Lemma event_magnitude_spec ev v : event_magnitude ev = Ok v <-> exists m, magnitude_of ev m /\ v = num_or_none m.
Proof.
  unfold event_magnitude, magnitude_of, num_or_none. destruct (e_prefmag ev) as [p|].
  - split; [intros H; exists p; split; [left; reflexivity|inversion H; reflexivity]|]. intros (m & [H|[H _]] & ->); inversion H; reflexivity.
  - destruct (e_mags ev) as [|x l].
    + split; [discriminate|]. intros (m & [H|[_ [l H]]] & _); discriminate.
    + split; [intros H; exists x; split; [right; split; [reflexivity|]; exists l; reflexivity | inversion H; reflexivity]|].
      intros (m & [H|[_ [l' H]]] & ->); inversion H; reflexivity.
Qed.

(** dget of an update by a list without repeated keys, computed *)
Lemma dupdate_cons {A} (d : dict A) k v u : dupdate d ((k, v) :: u) = dupdate (dset d k v) u.
Proof. reflexivity. Qed.
Lemma dupdate_nil {A} (d : dict A) : dupdate d [] = d.
Proof. reflexivity. Qed.
Lemma dget_dset_if {A} (d : dict A) k k2 v : dget (dset d k v) k2 = if String.eqb k2 k then Some v else dget d k2.
Proof.
  destruct (String.eqb_spec k2 k) as [->|H]; [apply dget_dset_eq | apply dget_dset_ne; congruence].
Qed.

Definition ev_keys := ["event_latitude"; "event_longitude"; "event_depth"; "event_magnitude"; "event_time"; "event_id";
                      "station_latitude"; "station_longitude"; "station_elevation"].

Lemma event_stats_ok ev d : event_stats ev = Ok d ->
  exists lat lon dep t m, origin_of ev (mkOrigin (Some lat) (Some lon) (Some dep) (Some t)) /\ magnitude_of ev m /\
   d = [("event_latitude", VNum lat); ("event_longitude", VNum lon); ("event_depth", VNum (dep / 1000));
      ("event_magnitude", num_or_none m); ("event_time", VTime t); ("event_id", event_id ev)].
Proof.
  unfold event_stats, origin_prop. destruct (event_origin ev) as [o|e] eqn:Eo; [|discriminate]. cbn [bind].
  apply event_origin_spec in Eo. destruct o as [la lo de ti]; cbn [o_lat o_lon o_depth o_time].
  destruct la as [la|]; [|discriminate]. destruct lo as [lo|]; [|discriminate]. destruct de as [de|]; [|discriminate].
  cbn [bind]. destruct (event_magnitude ev) as [mv|e] eqn:Em; [|discriminate]. cbn [bind].
  apply event_magnitude_spec in Em. destruct Em as (m & Hm & ->).
  destruct ti as [ti|]; [|discriminate]. cbn [bind]. intros H. exists la, lo, de, ti, m.
  split; [exact Eo|]. split; [exact Hm|]. congruence.
Qed.
Lemma event_stats_total ev lat lon dep t m :
  origin_of ev (mkOrigin (Some lat) (Some lon) (Some dep) (Some t)) -> magnitude_of ev m ->
  event_stats ev = Ok [("event_latitude", VNum lat); ("event_longitude", VNum lon); ("event_depth", VNum (dep / 1000));
      ("event_magnitude", num_or_none m); ("event_time", VTime t); ("event_id", event_id ev)].
Proof.
  intros Ho Hm. unfold event_stats, origin_prop. apply event_origin_spec in Ho. rewrite Ho. cbn [bind o_lat o_lon o_depth o_time].
  assert (event_magnitude ev = Ok (num_or_none m)) as -> by (apply event_magnitude_spec; eauto). reflexivity.
Qed.
Lemma station_stats_ok sta d : station_stats sta = Ok d <->
  exists la lo el, dget sta "latitude" = Some la /\ dget sta "longitude" = Some lo /\ dget sta "elevation" = Some el /\
    d = [("station_latitude", la); ("station_longitude", lo); ("station_elevation", el)].
Proof.
  unfold station_stats, dgetE. destruct (dget sta "latitude") as [la|]; cbn [bind].
  2: { split; [discriminate|]. intros (? & ? & ? & ? & _). discriminate. }
  destruct (dget sta "longitude") as [lo|]; cbn [bind].
  2: { split; [discriminate|]. intros (? & ? & ? & ? & ? & _). discriminate. }
  destruct (dget sta "elevation") as [el|]; cbn [bind].
  2: { split; [discriminate|]. intros (? & ? & ? & ? & ? & ? & _). discriminate. }
  split; [intros H; exists la, lo, el; repeat split; congruence|]. intros (? & ? & ? & H1 & H2 & H3 & ->). inversion H1; inversion H2; inversion H3; reflexivity.
Qed.

Lemma ev_sta_update (v1 v2 v3 v4 v5 v6 v7 v8 v9 : value) :
  dupdate [("event_latitude", v1); ("event_longitude", v2); ("event_depth", v3);
      ("event_magnitude", v4); ("event_time", v5); ("event_id", v6)]
     [("station_latitude", v7); ("station_longitude", v8); ("station_elevation", v9)] =
  [("event_latitude", v1); ("event_longitude", v2); ("event_depth", v3);
      ("event_magnitude", v4); ("event_time", v5); ("event_id", v6);
      ("station_latitude", v7); ("station_longitude", v8); ("station_elevation", v9)].
Proof. reflexivity. Qed.
Lemma keys_ne {A} (k : string) (l : list string) (x : string) (a b : A) :
  ~ In k l -> In x l -> (if String.eqb k x then a else b) = b.
Proof. intros H Hx. destruct (String.eqb_spec k x) as [->|]; [contradiction | reflexivity]. Qed.

Ltac other_key k H :=
  rewrite ?dget_dset_if;
  repeat match goal with
  | |- context [String.eqb k ?x] => destruct (String.eqb_spec k x) as [->|?]; [exfalso; apply H; simpl; tauto|]
  end.

Lemma obj2stats_update ev (sta : station_d) u s : obj2stats (Some ev) (Some sta) = Ok u -> described ev sta s (dupdate s u).
Proof.
  unfold obj2stats. destruct (event_stats ev) as [d|e] eqn:E; [|discriminate]. cbn [bind].
  destruct (station_stats sta) as [d2|e] eqn:E2; [|discriminate]. cbn [bind].
  apply event_stats_ok in E. destruct E as (lat & lon & dep & t & m & Ho & Hm & ->).
  apply station_stats_ok in E2. destruct E2 as (la & lo & el & H1 & H2 & H3 & ->).
  rewrite ev_sta_update. intros H. inversion H; subst u; clear H.
  exists lat, lon, dep, t, m, la, lo, el. split; [exact Ho|]. split; [exact Hm|].
  split; [exact H1|]. split; [exact H2|]. split; [exact H3|].
  rewrite !dupdate_cons, dupdate_nil.
  do 9 (split; [rewrite !dget_dset_if; reflexivity|]).
  intros k Hk. other_key k Hk. reflexivity.
Qed.
Lemma obj2stats_total ev (sta : station_d) s b : described ev sta s b -> exists u, obj2stats (Some ev) (Some sta) = Ok u /\ 
  forall k, dget b k = dget (dupdate s u) k.
Proof.
  intros (lat & lon & dep & t & m & la & lo & el & Ho & Hm & H1 & H2 & H3 & G1 & G2 & G3 & G4 & G5 & G6 & G7 & G8 & G9 & Go).
  unfold obj2stats. rewrite (event_stats_total _ _ _ _ _ _ Ho Hm). cbn [bind].
  rewrite (proj2 (station_stats_ok sta [("station_latitude", la); ("station_longitude", lo); ("station_elevation", el)])); [|exists la, lo, el; eauto].
  cbn [bind]. rewrite ev_sta_update.
  eexists. split; [reflexivity|].
  intros k. rewrite !dupdate_cons, dupdate_nil. rewrite !dget_dset_if.
  repeat match goal with
  | |- context [String.eqb k ?x] => destruct (String.eqb_spec k x) as [->|?]; [assumption|]
  end.
  apply Go. simpl. intros H. repeat (destruct H as [H|H]; [congruence|]). contradiction.
Qed.

Section S.
  Variable gps : Q -> Q -> Q -> Q -> res (Q * Q * Q).
  Variable taup_load : string -> res unit.
  Variable taup : string -> Q -> Q -> string -> res (list arrival).
  Variable ppoint : string -> dict value -> Q -> string -> res (dict value).

  Lemma num_attr_ok s k q : num_attr s k = Ok q <-> dget s k = Some (VNum q).
  Proof. unfold num_attr. destruct (dget s k) as [[]|]; split; intros H; congruence. Qed.
  Lemma time_attr_ok s k q : time_attr s k = Ok q <-> dget s k = Some (VTime q).
  Proof. unfold time_attr. destruct (dget s k) as [[]|]; split; intros H; congruence. Qed.

  Definition update_base (a : rs_args) (s : dict value) : res (dict value) :=
    match r_event a, r_station a with
    | Some ev, Some sta => let! u := obj2stats (Some ev) (Some sta) in Ok (dupdate s u)
    | _, _ => Ok s
    end.
  Lemma update_base_ok a s b : update_base a s = Ok b -> base a s b.
  Proof.
    unfold update_base, base. destruct (r_event a) as [ev|]; [|congruence]. destruct (r_station a) as [sta|]; [|congruence].
    destruct (obj2stats (Some ev) (Some sta)) as [u|e] eqn:E; [|discriminate]. cbn [bind]. intros H. inversion H; subst.
    apply obj2stats_update, E.
  Qed.
  Lemma update_base_total a s b : base a s b -> exists b', update_base a s = Ok b' /\ forall k, dget b k = dget b' k.
  Proof.
    unfold update_base, base. destruct (r_event a) as [ev|]; [|intros ->; eauto]. destruct (r_station a) as [sta|]; [|intros ->; eauto].
    intros H. apply obj2stats_total in H. destruct H as (u & H0 & H). exists (dupdate s u). rewrite H0. cbn [bind]. auto.
  Qed.

  Definition geodesic (s : dict value) : res (Q * Q * Q) :=
    let! sla := num_attr s "station_latitude" in
    let! slo := num_attr s "station_longitude" in
    let! ela := num_attr s "event_latitude" in
    let! elo := num_attr s "event_longitude" in
    gps sla slo ela elo.
  Lemma geodesic_ok s dist baz : epicentral gps s dist baz <-> exists m az2, geodesic s = Ok (m, baz, az2) /\ dist = (m / 1000 / deg2km)%Q.
  Proof.
    unfold epicentral, geodesic. split.
    - intros (sla & slo & ela & elo & m & az2 & H1 & H2 & H3 & H4 & H5 & H6).
      rewrite (proj2 (num_attr_ok _ _ _) H1), (proj2 (num_attr_ok _ _ _) H2), (proj2 (num_attr_ok _ _ _) H3), (proj2 (num_attr_ok _ _ _) H4).
      cbn [bind]. exists m, az2. split; assumption.
    - intros (m & az2 & H & ->).
      destruct (num_attr s "station_latitude") as [sla|] eqn:E1; [|discriminate].
      destruct (num_attr s "station_longitude") as [slo|] eqn:E2; [|discriminate].
      destruct (num_attr s "event_latitude") as [ela|] eqn:E3; [|discriminate].
      destruct (num_attr s "event_longitude") as [elo|] eqn:E4; [|discriminate]. cbn [bind] in H.
      apply num_attr_ok in E1, E2, E3, E4. exists sla, slo, ela, elo, m, az2. repeat (split; [assumption|]). reflexivity.
  Qed.
  Lemma geodesic_ext s s' : (forall k, dget s k = dget s' k) -> geodesic s = geodesic s'.
  Proof. intros H. unfold geodesic, num_attr. rewrite !H. reflexivity. Qed.

  Definition raycalc (a : rs_args) (s : dict value) (dist : Q) : res (arrival * Z) :=
    let! _ := taup_load (r_tt a) in
    let! dep := num_attr s "event_depth" in
    let! arr := taup (r_tt a) dep dist (r_phase a) in
    match arr with
    | [] => Err OtherError
    | ar :: _ => let! t := time_attr s "event_time" in Ok (ar, utc_add t (ar_time ar))
    end.
  Definition ray_update (a : rs_args) (s : dict value) (dist baz : Q) (ar : arrival) (onset : Z) : dict value :=
    dupdate s [("distance", VNum dist); ("back_azimuth", VNum baz);
               ("inclination", VNum (ar_inc ar)); ("onset", VTime onset);
               ("slowness", VNum (ar_slow ar)); ("phase", VStr (r_phase a))].

  Lemma rfstats1_unfold a s : rfstats1 gps taup_load taup ppoint a s =
    match resolve_range (r_phase a) (r_range a) with
    | Err e => (s, Err e)
    | Ok dr =>
      match update_base a s with
      | Err e => (s, Err e)
      | Ok s =>
        match geodesic s with
        | Err e => (s, Err e)
        | Ok (m, baz, _) =>
          let dist := (m / 1000 / deg2km)%Q in
          if outside dr dist then (s, Ok false)
          else
            match raycalc a s dist with
            | Err e => (s, Err e)
            | Ok (ar, onset) =>
              let s := ray_update a s dist baz ar onset in
              match r_ppdepth a with
              | None => (s, Ok true)
              | Some d =>
                  let pp := match r_ppphase a with Some p => p | None => default_pp_phase (r_phase a) end in
                  match ppoint (r_model a) s d pp with
                  | Err e => (s, Err e)
                  | Ok s' => (s', Ok true)
                  end
              end
            end
        end
      end
    end.
  Proof. reflexivity. Qed.

  Lemma ray_update_ray a b dist baz ar onset : epicentral gps b dist baz -> raycalc a b dist = Ok (ar, onset) ->
    ray gps taup a b (ray_update a b dist baz ar onset).
  Proof.
    intros He Hr. unfold raycalc in Hr.
    destruct (taup_load (r_tt a)); [|discriminate]. cbn [bind] in Hr.
    destruct (num_attr b "event_depth") as [dep|] eqn:E1; [|discriminate]. cbn [bind] in Hr.
    destruct (taup (r_tt a) dep dist (r_phase a)) as [[|ar' l]|] eqn:E2; [discriminate| |discriminate]. cbn [bind] in Hr.
    destruct (time_attr b "event_time") as [t|] eqn:E3; [|discriminate]. cbn [bind] in Hr. inversion Hr; subst ar' onset; clear Hr.
    apply num_attr_ok in E1. apply time_attr_ok in E3.
    exists dist, baz, dep, t, ar, l. split; [exact He|]. split; [exact E1|]. split; [exact E3|]. split; [exact E2|].
    unfold ray_update. rewrite !dupdate_cons, dupdate_nil.
    do 6 (split; [rewrite !dget_dset_if; reflexivity|]).
    intros k Hk. other_key k Hk. reflexivity.
  Qed.

  Lemma outside_within a dr dist : resolve_range (r_phase a) (r_range a) = Ok dr -> (outside dr dist = false <-> within a dist).
  Proof.
    assert (forall lo hi, negb (Qle_bool lo dist && Qle_bool dist hi) = false <-> (lo <= dist <= hi)%Q) as H.
    { intros lo hi. rewrite negb_false_iff, andb_true_iff, !Qle_bool_iff. reflexivity. }
    unfold resolve_range, within. destruct (r_range a) as [| |lo hi].
    - destruct (str_in _ _); [|discriminate]. intros E. inversion E; subst. 
      destruct (String.eqb (upper (r_phase a)) "P"); apply H.
    - intros E. inversion E; subst. split; intros _; [exact I | reflexivity].
    - intros E. inversion E; subst. apply H.
  Qed.
  Lemma converted_ok a : converted a (match r_ppphase a with Some p => p | None => default_pp_phase (r_phase a) end).
  Proof.
    unfold converted, default_pp_phase, endswith_char. destruct (r_ppphase a); [reflexivity|].
    destruct (last_char (upper (r_phase a))) as [c|]; [|reflexivity].
    destruct (Ascii.eqb_spec c "P"); split; congruence.
  Qed.
  Lemma converted_fun a p q : converted a p -> converted a q -> p = q.
  Proof.
    unfold converted. destruct (r_ppphase a); [congruence|]. destruct (last_char (upper (r_phase a))) as [c|]; [|congruence].
    intros [H1 H2] [H3 H4]. destruct (ascii_dec c "P") as [->|Hne]; [rewrite H1, H3; reflexivity|].
    rewrite H2, H4 by congruence. reflexivity.
  Qed.

  Theorem rfstats1_kept a s s' : rfstats1 gps taup_load taup ppoint a s = (s', Ok true) ->
    exists b dist baz s1, base a s b /\ epicentral gps b dist baz /\ within a dist /\ ray gps taup a b s1 /\ traced ppoint a s1 s'.
  Proof.
    rewrite rfstats1_unfold. destruct (resolve_range _ _) as [dr|] eqn:Er; [|discriminate].
    destruct (update_base a s) as [b|] eqn:Eb; [|discriminate]. apply update_base_ok in Eb.
    destruct (geodesic b) as [[[m baz] az2]|] eqn:Eg; [|discriminate]. cbv zeta.
    set (dist := (m / 1000 / deg2km)%Q).
    assert (epicentral gps b dist baz) as He by (apply geodesic_ok; eauto).
    destruct (outside dr dist) eqn:Eo; [discriminate|]. apply (outside_within a) in Eo; [|exact Er].
    destruct (raycalc a b dist) as [[ar onset]|] eqn:Ea; [|discriminate].
    pose proof (ray_update_ray a b dist baz ar onset He Ea) as Hray.
    intros H. exists b, dist, baz, (ray_update a b dist baz ar onset). repeat (split; [assumption|]).
    unfold traced. destruct (r_ppdepth a) as [d|]; [|congruence].
    destruct (ppoint _ _ _ _) as [s2|] eqn:Ep; [|discriminate]. inversion H; subst s2.
    eexists. split; [apply converted_ok | exact Ep].
  Qed.
  Theorem rfstats1_dropped a s s' : rfstats1 gps taup_load taup ppoint a s = (s', Ok false) ->
    exists dist baz, base a s s' /\ epicentral gps s' dist baz /\ ~ within a dist.
  Proof.
    rewrite rfstats1_unfold. destruct (resolve_range _ _) as [dr|] eqn:Er; [|discriminate].
    destruct (update_base a s) as [b|] eqn:Eb; [|discriminate]. apply update_base_ok in Eb.
    destruct (geodesic b) as [[[m baz] az2]|] eqn:Eg; [|discriminate]. cbv zeta.
    set (dist := (m / 1000 / deg2km)%Q).
    assert (epicentral gps b dist baz) as He by (apply geodesic_ok; eauto).
    destruct (outside dr dist) eqn:Eo.
    - intros H. inversion H; subst. exists dist, baz. split; [exact Eb|]. split; [exact He|].
      intros Hw. apply (outside_within a dr dist Er) in Hw. congruence.
    - destruct (raycalc a b dist) as [[ar onset]|] eqn:Ea; [|discriminate].
      destruct (r_ppdepth a) as [d|]; [|discriminate]. destruct (ppoint _ _ _ _); discriminate.
  Qed.
  (** completeness, for one stats object *)
  Theorem rfstats1_complete_out a s b dist baz dr : resolve_range (r_phase a) (r_range a) = Ok dr ->
    base a s b -> epicentral gps b dist baz -> ~ within a dist -> exists s', rfstats1 gps taup_load taup ppoint a s = (s', Ok false).
  Proof.
    intros Er Hb He Hw. rewrite rfstats1_unfold, Er. apply update_base_total in Hb. destruct Hb as (b' & -> & Hb).
    apply geodesic_ok in He. destruct He as (m & az2 & Hg & Hd). rewrite (geodesic_ext b b' Hb) in Hg. rewrite Hg. cbv zeta.
    rewrite <- Hd. destruct (outside dr dist) eqn:Eo; [eauto|]. apply (outside_within a) in Eo; [contradiction | exact Er].
  Qed.
  Theorem rfstats1_complete_in a s b dist baz dr dep t ar others :
    resolve_range (r_phase a) (r_range a) = Ok dr -> taup_load (r_tt a) = Ok tt ->
    base a s b -> epicentral gps b dist baz -> within a dist ->
    dget b "event_depth" = Some (VNum dep) -> dget b "event_time" = Some (VTime t) ->
    taup (r_tt a) dep dist (r_phase a) = Ok (ar :: others) ->
    (forall d, r_ppdepth a = Some d -> forall s1 p, ray gps taup a b s1 -> converted a p -> exists s2, ppoint (r_model a) s1 d p = Ok s2) ->
    exists s', rfstats1 gps taup_load taup ppoint a s = (s', Ok true).
  Proof.
    intros Er Hl Hb He Hw Hdep Ht Hta Hpp. rewrite rfstats1_unfold, Er. pose proof Hb as Hb0. apply update_base_total in Hb. destruct Hb as (b' & Hub & Hb).
    rewrite Hub. pose proof He as He0.
    apply geodesic_ok in He. destruct He as (m & az2 & Hg & Hd). rewrite (geodesic_ext b b' Hb) in Hg. rewrite Hg. cbv zeta.
    rewrite <- Hd. apply (outside_within a dr dist Er) in Hw. rewrite Hw.
    assert (raycalc a b' dist = Ok (ar, utc_add t (ar_time ar))) as Hr.
    { unfold raycalc. rewrite Hl. cbn [bind]. rewrite Hb in Hdep, Ht. rewrite (proj2 (num_attr_ok _ _ _) Hdep). cbn [bind].
      rewrite Hta. cbn [bind]. rewrite (proj2 (time_attr_ok _ _ _) Ht). reflexivity. }
    rewrite Hr.
    assert (epicentral gps b' dist baz) as He' by (apply geodesic_ok; eauto).
    assert (ray gps taup a b (ray_update a b' dist baz ar (utc_add t (ar_time ar)))) as Hray.
    { destruct (ray_update_ray a b' dist baz ar _ He' Hr) as (dist2 & baz2 & dep2 & t2 & ar2 & oth2 & R1 & R2 & R3 & R4 & R5 & R6 & R7 & R8 & R9 & R10 & R11).
      exists dist2, baz2, dep2, t2, ar2, oth2. rewrite <- Hb in R2, R3.
      split. { apply geodesic_ok. rewrite (geodesic_ext b b' Hb). apply geodesic_ok, R1. }
      repeat (split; [assumption|]). intros k Hk. rewrite Hb. apply R11, Hk. }
    destruct (r_ppdepth a) as [d|] eqn:Ed; [|eauto].
    destruct (Hpp d eq_refl _ _ Hray (converted_ok a)) as [s2 ->]. eauto.
  Qed.

  Theorem stream_selected a trs objs kept : rfstats_stream gps taup_load taup ppoint a trs = (objs, Ok kept) ->
    selected (in_range gps a) (out_of_range gps a) (with_ray gps taup ppoint a) trs kept.
  Proof.
    revert objs kept. induction trs as [|t trs IH]; intros objs kept; cbn [rfstats_stream].
    - intros H. inversion H. constructor.
    - destruct (rfstats1 _ _ _ _ a (h_main t)) as [s [keep|e]] eqn:E; [|discriminate].
      destruct (rfstats_stream _ _ _ _ a trs) as [objs2 [kept2|e]] eqn:E2; [|discriminate].
      intros H. inversion H; subst; clear H. specialize (IH _ _ eq_refl). destruct keep.
      + apply rfstats1_kept in E. destruct E as (b & dist & baz & s1 & H1 & H2 & H3 & H4 & H5). constructor; [| |exact IH].
        * exists b, dist, baz. auto.
        * exists b, s1. auto.
      + apply rfstats1_dropped in E. destruct E as (dist & baz & H1 & H2 & H3). constructor; [|exact IH].
        exists s, dist, baz. auto.
  Qed.
  Theorem stream_returns a trs :
    (forall t, In t trs -> exists s' k, rfstats1 gps taup_load taup ppoint a (h_main t) = (s', Ok k)) ->
    exists objs kept, rfstats_stream gps taup_load taup ppoint a trs = (objs, Ok kept).
  Proof.
    induction trs as [|t trs IH]; intros H; cbn [rfstats_stream]; [eauto|].
    destruct (H t (or_introl eq_refl)) as (s' & k & ->).
    destruct IH as (objs & kept & ->); [intros; apply H; right; assumption|]. eauto.
  Qed.
  Theorem stream_failure a trs objs e : rfstats_stream gps taup_load taup ppoint a trs = (objs, Err e) ->
    exists before t after before' t', trs = before ++ t :: after /\ objs = before' ++ t' :: after /\
      List.length before' = List.length before /\
      Forall2 (fun x x' => x' = with_main x (h_main x')) (before ++ [t]) (before' ++ [t']).
  Proof.
    revert objs. induction trs as [|t trs IH]; intros objs; cbn [rfstats_stream]; [discriminate|].
    destruct (rfstats1 _ _ _ _ a (h_main t)) as [s [keep|e1]] eqn:E.
    - destruct (rfstats_stream _ _ _ _ a trs) as [objs2 [kept2|e2]] eqn:E2; [discriminate|].
      intros H. inversion H; subst; clear H. destruct (IH _ eq_refl) as (bf & t0 & af & bf' & t' & -> & -> & Hl & HF).
      exists (t :: bf), t0, af, (with_main t s :: bf'), t'. split; [reflexivity|]. split; [reflexivity|].
      split; [simpl; congruence|]. simpl. constructor; [reflexivity | exact HF].
    - intros H. inversion H; subst; clear H. exists [], t, trs, [], (with_main t s).
      repeat split. simpl. constructor; [reflexivity|constructor].
  Qed.
End S.

Lemma ps_substrings s : str_in s "PS" = true <-> In s [""; "P"; "S"; "PS"].
Proof.
  split.
  - intros H. simpl in H.
    destruct s as [|a s]; [simpl; tauto|]. cbn [String.prefix] in H.
    destruct (ascii_dec a "P") as [->|Na].
    + destruct s as [|b s]; [simpl; tauto|]. cbn [String.prefix] in H.
      destruct (ascii_dec b "S") as [->|Nb].
      * destruct s as [|c s]; [simpl; tauto|]. cbn [String.prefix] in H. simpl in H.
        discriminate.
      * simpl in H. discriminate.
    + destruct (ascii_dec a "S") as [->|Nb]; simpl in H.
      * destruct s as [|b s]; [simpl; tauto|]. simpl in H. discriminate.
      * discriminate.
  - simpl. intros [<-|[<-|[<-|[<-|[]]]]]; reflexivity.
Qed.
