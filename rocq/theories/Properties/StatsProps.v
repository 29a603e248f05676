(** C50 - C52, C83: obj2stats, rfstats and the default phases. *)
From Verif Require Import Model.Rfstats Spec.StatsSpec Spec.HeaderSpec Spec.WriteSpec Proofs.PyFacts Proofs.WriteFacts Proofs.RfstatsFacts.

(** C50: a successful call keeps exactly the traces in range, in order; distance, back
    azimuth, inclination, onset, slowness and phase of each are those of the first arrival
    for this event and station, and no other entry is changed. *)
Theorem C50_selection gps taup_load taup ppoint a trs objs kept :
  rfstats_stream gps taup_load taup ppoint a trs = (objs, Ok kept) ->
  selected (in_range gps a) (out_of_range gps a) (with_ray gps taup ppoint a) trs kept.
Proof. exact (stream_selected gps taup_load taup ppoint a trs objs kept). Qed.
Print Assumptions C50_selection.
(** The call returns if event and station coordinates are there, and depth, time and an
    arrival for the traces in range. *)
Theorem C50_returns gps taup_load taup ppoint a trs :
  (r_range a = DDefault -> In (upper (r_phase a)) ["P"; "S"]) ->
  taup_load (r_tt a) = Ok tt ->
  (forall t, In t trs -> exists b dist baz, base a (h_main t) b /\ epicentral gps b dist baz /\
     (within a dist ->
        exists dep time ar others, dget b "event_depth" = Some (VNum dep) /\ dget b "event_time" = Some (VTime time) /\
          taup (r_tt a) dep dist (r_phase a) = Ok (ar :: others) /\
          (forall d, r_ppdepth a = Some d -> forall s1 p, ray gps taup a b s1 -> converted a p ->
             exists s2, ppoint (r_model a) s1 d p = Ok s2))) ->
  exists objs kept, rfstats_stream gps taup_load taup ppoint a trs = (objs, Ok kept).
Proof.
  intros Hr Hl Ht.
  assert (exists dr, resolve_range (r_phase a) (r_range a) = Ok dr) as [dr Hdr].
  { unfold resolve_range. destruct (r_range a); eauto. 
    assert (str_in (upper (r_phase a)) "PS" = true) as ->; [|eauto].
    apply ps_substrings. specialize (Hr eq_refl). simpl in Hr |- *. tauto. }
  apply stream_returns. intros t Hin. destruct (Ht t Hin) as (b & dist & baz & Hb & He & Hw).
  destruct (outside dr dist) eqn:Eo.
  - destruct (rfstats1_complete_out gps taup_load taup ppoint a (h_main t) b dist baz dr Hdr Hb He) as [s' Hs'].
    { intros H. apply (outside_within a dr dist Hdr) in H. congruence. }
    eauto.
  - apply (outside_within a dr dist Hdr) in Eo. destruct (Hw Eo) as (dep & time & ar & others & H1 & H2 & H3 & H4).
    destruct (rfstats1_complete_in gps taup_load taup ppoint a (h_main t) b dist baz dr dep time ar others) as [s' Hs']; eauto.
Qed.
Print Assumptions C50_returns.
(** If it fails, the stream has all its traces and those after the failing one are untouched. *)
Theorem C50_failure gps taup_load taup ppoint a trs objs e :
  rfstats_stream gps taup_load taup ppoint a trs = (objs, Err e) ->
  exists before t after before' t', trs = before ++ t :: after /\ objs = before' ++ t' :: after /\
    List.length before' = List.length before /\
    Forall2 (fun x x' => x' = with_main x (h_main x')) (before ++ [t]) (before' ++ [t']).
Proof. exact (stream_failure gps taup_load taup ppoint a trs objs e). Qed.
Print Assumptions C50_failure.

(** an example: the distance is the difference of the latitudes, 10 s per degree *)
Definition gps_x (la lo ela elo : Q) : res (Q * Q * Q) := Ok (((ela - la) * 111200)%Q, 0, 180)%Q.
Definition taup_x (m : string) (dep dist : Q) (ph : string) : res (list arrival) :=
  if String.eqb ph "P" then Ok [mkArrival (10 * dist) 20 6; mkArrival 0 0 0] else Ok [].
Definition args_x (r : drange) (phase : string) : rs_args := mkRs None None phase r "iasp91" None None "iasp91".
Definition stats_x (lat : Q) : dict value :=
  [("station_latitude", VNum 0); ("station_longitude", VNum 0); ("event_latitude", VNum lat); ("event_longitude", VNum 0);
   ("event_depth", VNum 10); ("event_time", VTime 5)].
Definition trace_x (lat : Q) : hst := mkH "CX" "PB01" "" "BHZ" 0 (stats_x lat) None None None.
Example C50_nonvacuous :
  match rfstats_stream gps_x (fun _ => Ok tt) taup_x (fun _ s _ _ => Ok s) (args_x DDefault "P") [trace_x 20; trace_x 30; trace_x 90; trace_x 91] with
  | (objs, Ok kept) => List.length objs = 4 /\
      map (fun t => (match dget (h_main t) "event_latitude" with Some (VNum q) => Qeq_bool q 30 || Qeq_bool q 90 | _ => false end,
                     match dget (h_main t) "onset" with Some (VTime t) => t | _ => 0%Z end)) kept
        = [(true, 300000000005%Z); (true, 900000000005%Z)]
  | _ => False
  end.
Proof. vm_compute. auto. Qed.
Example C50_failure_nonvacuous :
  match rfstats_stream gps_x (fun _ => Ok tt) taup_x (fun _ s _ _ => Ok s) (args_x DDefault "S") [trace_x 20; trace_x 60; trace_x 70] with
  | (objs, Err OtherError) => List.length objs = 3
  | _ => False
  end.
Proof. vm_compute. reflexivity. Qed.

(** C51: default ranges. *)
Theorem C51_default_range gps taup_load taup ppoint a s :
  (upper (r_phase a) = "P" -> r_range a = DDefault ->
     rfstats1 gps taup_load taup ppoint a s =
     rfstats1 gps taup_load taup ppoint (mkRs (r_event a) (r_station a) (r_phase a) (DRange 30 90) (r_tt a) (r_ppdepth a) (r_ppphase a) (r_model a)) s) /\
  (upper (r_phase a) = "S" -> r_range a = DDefault ->
     rfstats1 gps taup_load taup ppoint a s =
     rfstats1 gps taup_load taup ppoint (mkRs (r_event a) (r_station a) (r_phase a) (DRange 50 85) (r_tt a) (r_ppdepth a) (r_ppphase a) (r_model a)) s).
Proof.
  split; intros Hp Hr; unfold rfstats1; cbn [r_event r_station r_phase r_range r_tt r_ppdepth r_ppphase r_model];
    unfold resolve_range; rewrite Hr, Hp; reflexivity.
Qed.
Print Assumptions C51_default_range.
Theorem C51_other_phases_partial gps taup_load taup ppoint a s :
  r_range a = DDefault -> ~ In (upper (r_phase a)) [""; "P"; "S"; "PS"] ->
  rfstats1 gps taup_load taup ppoint a s = (s, Err ValueError).
Proof.
  intros Hr Hp. unfold rfstats1, resolve_range. rewrite Hr.
  destruct (str_in (upper (r_phase a)) "PS") eqn:E; [|reflexivity]. apply ps_substrings in E. contradiction.
Qed.
Print Assumptions C51_other_phases_partial.
(** phase='PS' is accepted without dist_range and gets the range of S *)
Theorem C51_ps_refuted gps taup_load taup ppoint s :
  rfstats1 gps taup_load taup ppoint (args_x DDefault "PS") s = rfstats1 gps taup_load taup ppoint (args_x (DRange 50 85) "PS") s.
Proof. reflexivity. Qed.
Print Assumptions C51_ps_refuted.

Lemma last_char_upper s : last_char (upper s) = option_map upper_char (last_char s).
Proof.
  induction s as [|a s IH]; [reflexivity|]. destruct s as [|b s]; [reflexivity|].
  change (last_char (String (upper_char a) (upper (String b s))) = option_map upper_char (last_char (String b s))).
  rewrite <- IH. reflexivity.
Qed.
Lemma selected_in {A} (K D : A -> Prop) R l l' x : selected K D R l l' -> In x l' -> exists y, In y l /\ R y x.
Proof.
  induction 1 as [|t t' l l' Hk Hr Hs IH|t l l' Hd Hs IH]; intros Hin; [destruct Hin| |].
  - destruct Hin as [<-|Hin]; [exists t; simpl; auto|]. destruct (IH Hin) as (y & Hy & Hy2). exists y. simpl; auto.
  - destruct (IH Hin) as (y & Hy & Hy2). exists y. simpl; auto.
Qed.
(** the default piercing point phases of rfstats and ppoints agree for phases ending with P or S *)
Theorem C51_pp_phase_agrees_partial gps taup_load taup ppoint a trs objs kept c :
  rfstats_stream gps taup_load taup ppoint a trs = (objs, Ok kept) -> kept <> [] -> r_ppdepth a = None -> r_ppphase a = None ->
  last_char (upper (r_phase a)) = Some c -> c = "P"%char \/ c = "S"%char ->
  exists p, ppoints_phase None kept = Ok p /\ converted a p.
Proof.
  intros H Hne Hpp Hph Hl Hc. apply stream_selected in H.
  assert (common "phase" (r_phase a) kept) as Hcom.
  { assert (forall s, In s kept -> dget (h_main s) "phase" = Some (VStr (r_phase a))) as Hall.
    { intros s Hs. destruct (selected_in _ _ _ _ _ _ H Hs) as (t & _ & b & s1 & _ & Hray & Htr & _).
      unfold traced in Htr. rewrite Hpp in Htr. rewrite Htr.
      destruct Hray as (? & ? & ? & ? & ? & ? & _ & _ & _ & _ & _ & _ & _ & _ & _ & Hphase & _). exact Hphase. }
    split.
    - destruct kept as [|s kept]; [contradiction|]. exists s. split; [left; reflexivity|]. apply Hall. left; reflexivity.
    - intros s x Hs Hx. rewrite (Hall s Hs) in Hx. congruence. }
  assert (forall s, In s kept -> text_header "phase" s) as Htext.
  { intros s Hs v Hv. exists (r_phase a). apply (proj2 Hcom s v Hs Hv). }
  apply (unique_header_spec "phase" kept (r_phase a) Htext) in Hcom.
  unfold ppoints_phase, get_method. rewrite Hcom. rewrite last_char_upper in Hl.
  destruct (last_char (r_phase a)) as [x|] eqn:El; [|discriminate]. cbn [option_map] in Hl. inversion Hl as [Hx]; clear Hl.
  cbn [bind]. unfold char_str. cbn [upper]. rewrite Hx.
  assert (last_char (upper (r_phase a)) = Some c) as Hl2 by (rewrite last_char_upper, El; cbn; congruence).
  unfold converted. rewrite Hph, Hl2.
  destruct Hc as [->| ->].
  - exists "S". split; [reflexivity|]. split; congruence.
  - exists "P". split; [reflexivity|]. split; congruence.
Qed.
Print Assumptions C51_pp_phase_agrees_partial.
(** For other phases ppoints() raises KeyError while rfstats(pp_depth=...) uses P. *)
Theorem C51_pp_phase_refuted :
  exists kept objs, rfstats_stream gps_x (fun _ => Ok tt) (fun _ _ _ _ => Ok [mkArrival 1 2 3]) (fun _ s _ _ => Ok s)
     (args_x DNone "Pdiff") [trace_x 100] = (objs, Ok kept) /\ kept <> [] /\
  ppoints_phase None kept = Err KeyError /\ converted (args_x DNone "Pdiff") "P".
Proof.
  eexists. eexists. split; [vm_compute; reflexivity|]. split; [discriminate|]. split; [vm_compute; reflexivity|].
  unfold converted. cbn. split; [discriminate | reflexivity].
Qed.
Print Assumptions C51_pp_phase_refuted.
Example C51_nonvacuous : 
  match rfstats_stream gps_x (fun _ => Ok tt) taup_x (fun _ s _ _ => Ok s) (args_x DDefault "P") [trace_x 40] with
  | (_, Ok kept) => ppoints_phase None kept = Ok "S"
  | _ => False
  end /\ ~ In (upper "PP") [""; "P"; "S"; "PS"].
Proof. split; [vm_compute; reflexivity|]. simpl. intuition discriminate. Qed.

(** C52: missing metadata of an event is reported as ValueError ... *)
Theorem C52_missing ev sta :
  (forall o, ~ origin_of ev o) \/
  (exists o, origin_of ev o /\ (o_lat o = None \/ o_lon o = None \/ o_depth o = None \/ o_time o = None)) \/
  (forall m, ~ magnitude_of ev m) ->
  obj2stats (Some ev) sta = Err ValueError.
Proof.
  intros H. unfold obj2stats. assert (event_stats ev = Err ValueError) as ->; [|reflexivity].
  unfold event_stats, origin_prop. destruct (event_origin ev) as [o|e] eqn:Eo.
  2: { unfold event_origin in Eo. destruct (e_pref ev); [discriminate|]. destruct (e_origins ev); [|discriminate].
       inversion Eo. reflexivity. }
  apply event_origin_spec in Eo. cbn [bind].
  assert (event_magnitude ev = Err ValueError \/ exists v, event_magnitude ev = Ok v) as Hm.
  { unfold event_magnitude. destruct (e_prefmag ev); [eauto|]. destruct (e_mags ev); eauto. }
  destruct (o_lat o) eqn:E1; [|reflexivity]. destruct (o_lon o) eqn:E2; [|reflexivity]. destruct (o_depth o) eqn:E3; [|reflexivity].
  cbn [bind]. destruct Hm as [->|[v Hv]]; [reflexivity|]. rewrite Hv. cbn [bind].
  destruct (o_time o) eqn:E4; [|reflexivity]. exfalso.
  destruct H as [H|[(o2 & Ho2 & H)|H]].
  - exact (H o Eo).
  - apply event_origin_spec in Eo, Ho2. assert (o2 = o) as -> by congruence.
    rewrite E1, E2, E3, E4 in H. intuition discriminate.
  - apply event_magnitude_spec in Hv. destruct Hv as (m & Hm & _). exact (H m Hm).
Qed.
Print Assumptions C52_missing.
(** ... and otherwise all entries are set, the depth in km. *)
Theorem C52_complete ev (sta : station_d) lat lon dep t m sla slo sel :
  origin_of ev (mkOrigin (Some lat) (Some lon) (Some dep) (Some t)) -> magnitude_of ev m ->
  dget sta "latitude" = Some sla -> dget sta "longitude" = Some slo -> dget sta "elevation" = Some sel ->
  exists d, obj2stats (Some ev) (Some sta) = Ok d /\
    d = [("event_latitude", VNum lat); ("event_longitude", VNum lon); ("event_depth", VNum (dep / 1000));
         ("event_magnitude", num_or_none m); ("event_time", VTime t);
         ("event_id", match e_id ev with Some i => VStr i | None => VNone end);
         ("station_latitude", sla); ("station_longitude", slo); ("station_elevation", sel)].
Proof.
  intros Ho Hm H1 H2 H3. unfold obj2stats. rewrite (event_stats_total _ _ _ _ _ _ Ho Hm). cbn [bind].
  rewrite (proj2 (station_stats_ok sta [("station_latitude", sla); ("station_longitude", slo); ("station_elevation", sel)])); [|exists sla, slo, sel; eauto].
  cbn [bind]. eexists. split; [reflexivity|]. unfold event_id. rewrite ev_sta_update. reflexivity.
Qed.
Print Assumptions C52_complete.
Definition ev_x : event := mkEvent None [mkOrigin (Some 1%Q) (Some 2%Q) (Some 30000%Q) (Some 7%Z)] None [Some 5%Q] (Some "smi:1").
Definition sta_x : station_d := [("latitude", VNum 0); ("longitude", VNum 0); ("elevation", VNum 10)].
Example C52_nonvacuous :
  origin_of ev_x (mkOrigin (Some 1%Q) (Some 2%Q) (Some 30000%Q) (Some 7%Z)) /\ magnitude_of ev_x (Some 5%Q) /\
  obj2stats (Some (mkEvent None [] None [] None)) None = Err ValueError.
Proof.
  split; [right; split; [reflexivity|]; exists []; reflexivity|]. split; [right; split; [reflexivity|]; exists []; reflexivity | reflexivity].
Qed.

(** C83: event and station given together are used, whatever the stats contained before ... *)
Theorem C83_event_and_station_partial gps taup_load taup ppoint a ev sta s s' :
  r_event a = Some ev -> r_station a = Some sta -> r_ppdepth a = None ->
  rfstats1 gps taup_load taup ppoint a s = (s', Ok true) -> 
  exists b, described ev sta s b /\ ray gps taup a b s'.
Proof.
  intros He Hs Hd H. apply rfstats1_kept in H. destruct H as (b & dist & baz & s1 & H1 & H2 & H3 & H4 & H5).
  unfold base in H1. rewrite He, Hs in H1. unfold traced in H5. rewrite Hd in H5. subst. eauto.
Qed.
Print Assumptions C83_event_and_station_partial.
(** ... but an event without a station (or a station without an event) is ignored. *)
Theorem C83_event_alone_refuted gps taup_load taup ppoint a ev s :
  rfstats1 gps taup_load taup ppoint (mkRs (Some ev) None (r_phase a) (r_range a) (r_tt a) (r_ppdepth a) (r_ppphase a) (r_model a)) s =
  rfstats1 gps taup_load taup ppoint (mkRs None None (r_phase a) (r_range a) (r_tt a) (r_ppdepth a) (r_ppphase a) (r_model a)) s.
Proof. reflexivity. Qed.
Print Assumptions C83_event_alone_refuted.
Theorem C83_stale_event_refuted :
  exists s', rfstats1 gps_x (fun _ => Ok tt) taup_x (fun _ s _ _ => Ok s)
     (mkRs (Some ev_x) None "P" DNone "iasp91" None None "iasp91") (stats_x 40) = (s', Ok true) /\
   dget s' "event_latitude" = Some (VNum 40).
Proof. eexists. split; [vm_compute; reflexivity | reflexivity]. Qed.
Print Assumptions C83_stale_event_refuted.
Example C83_nonvacuous :
  match rfstats1 gps_x (fun _ => Ok tt) taup_x (fun _ s _ _ => Ok s) (mkRs (Some ev_x) (Some sta_x) "P" DNone "iasp91" None None "iasp91") (stats_x 40) with
  | (s', Ok true) => dget s' "event_latitude" = Some (VNum 1) /\ dget s' "event_depth" = Some (VNum (30000 / 1000))
  | _ => False
  end.
Proof. vm_compute. auto. Qed.
