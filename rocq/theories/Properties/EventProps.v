(** C53 - C55, C70: iteration over events and stations. *)
From Verif Require Import Model.EventData Spec.StatsSpec Spec.EventSpec Proofs.PyFacts Proofs.RfstatsFacts Proofs.EventFacts.

Section I.
  Variable gps : Q -> Q -> Q -> Q -> res (Q * Q * Q).
  Variable taup_load : string -> res unit.
  Variable taup : string -> Q -> Q -> string -> res (list arrival).
  Variable ppoint : string -> dict value -> Q -> string -> res (dict value).
  Variable str_of : value -> string.
  Variable coordinates : string -> option Z -> res station_d.
  Variable W : Type.
  Variable trim : Z -> Z -> W -> res W.
  Variable merge : W -> res W.
  Variable components : W -> list wtrace.
  Variable waveforms : request -> res (option W).
  Variables (a : rs_args) (window : option (Q * Q)) (pad : Q) (events : list event) (channels : list string).
  (** rfstats(event=ev, station=sta, phase=..., options) *)
  Definition call_rfstats (ev : event) (sta : station_d) : res (option (dict value)) :=
    rfstats_new gps taup_load taup ppoint
      (mkRs (Some ev) (Some sta) (r_phase a) (r_range a) (r_tt a) (r_ppdepth a) (r_ppphase a) (r_model a)).
  Definition iteration : list action * option exn :=
    iter_event_data gps taup_load taup ppoint str_of coordinates W trim merge components waveforms a window pad events channels.
  Definition outcome (w : Q * Q) := 
    pair_result call_rfstats str_of coordinates W trim merge components waveforms channels (fst w) (snd w) pad.

  Definition aborted (w : Q * Q) := pair_aborted call_rfstats coordinates channels (fst w) (snd w) pad.

  (** C54: what the iterator has done when it ends, or is aborted by an exception: the pairs
      of the product are processed in order, each with one of the four outcomes; the pair which
      raises yields nothing. *)
  Theorem C54_product_order acts ending :
    sets_ppoint ppoint -> iteration = (acts, ending) ->
    acts = [] /\ ending <> None \/
    exists w done actss, window_of (r_phase a) window w /\ Forall2 (fun p => outcome w (fst p) (snd p)) done actss /\
      match ending with
      | None => done = list_prod events (station_ids channels) /\ acts = List.concat actss
      | Some _ => exists ev id rest part, list_prod events (station_ids channels) = done ++ (ev, id) :: rest /\
                    acts = List.concat actss ++ part /\ aborted w ev id part
      end.
  Proof.
    intros Hpp. unfold iteration, iter_event_data.
    destruct (last_char (r_phase a)) as [c|] eqn:El; [|intros H; inversion H; left; split; [reflexivity | discriminate]].
    pose proof (window_of_spec (r_phase a) window c El) as Hw.
    set (w := match window with Some w => w | None => _ end) in *. destruct w as [w0 w1].
    destruct (get_stations channels) as [stations|e] eqn:Est; [|intros H; inversion H; left; split; [reflexivity | discriminate]].
    destruct (get_stations_spec _ _ Est) as (Hids & _). rewrite Hids.
    intros H. right. exists (w0, w1).
    assert (forall ev id acts, In (ev, id) (list_prod events (station_ids channels)) ->
      one_pair gps taup_load taup ppoint str_of coordinates W trim merge components waveforms a w0 w1 pad stations ev id = (acts, None) ->
      outcome (w0, w1) ev id acts) as Hpair.
    { intros ev id ac Hin Hp. apply in_prod_iff in Hin. destruct Hin as [_ Hin]. rewrite <- Hids in Hin.
      exact (one_pair_done gps taup_load taup ppoint str_of coordinates W trim merge components waveforms a w0 w1 pad channels Hpp stations ev id ac Est Hin Hp). }
    destruct ending as [e|].
    - apply (run_pairs_abort _ (outcome (w0, w1)) _ _ _ Hpair) in H.
      destruct H as (l1 & ev & id & l2 & actss & part & Hl & Hf & Hacts & HF).
      exists l1, actss. split; [exact Hw|]. split; [exact HF|]. exists ev, id, l2, part. split; [exact Hl|]. split; [exact Hacts|].
      assert (In (ev, id) (list_prod events (station_ids channels))) as Hin by (rewrite Hl; apply in_app_iff; right; left; reflexivity).
      apply in_prod_iff in Hin. destruct Hin as [_ Hin]. rewrite <- Hids in Hin.
      exact (one_pair_abort gps taup_load taup ppoint str_of coordinates W trim merge components waveforms a w0 w1 pad channels Hpp stations ev id part e Est Hin Hf).
    - apply (run_pairs_done _ (outcome (w0, w1)) _ _ Hpair) in H. destruct H as (actss & Hacts & HF).
      exists (list_prod events (station_ids channels)), actss. auto.
  Qed.

  (** every action belongs to a pair *)
  Lemma action_pair acts ending x :
    sets_ppoint ppoint -> iteration = (acts, ending) -> In x acts ->
    exists w ev id ac, window_of (r_phase a) window w /\ In ev events /\ In id (station_ids channels) /\ In x ac /\
      (outcome w ev id ac \/ aborted w ev id ac).
  Proof.
    intros Hpp H Hin. destruct (C54_product_order acts ending Hpp H) as [[-> _]|(w & done & actss & Hw & HF & Hend)].
    { destruct Hin. }
    assert (forall ac, In ac actss -> exists ev id, In (ev, id) done /\ outcome w ev id ac) as Hdone.
    { intros ac Hac. destruct (Forall2_in_r _ _ _ _ HF Hac) as ([ev id] & Hp & Hres). eauto. }
    destruct ending as [e|].
    - destruct Hend as (ev & id & rest & part & Hprod & -> & Hab). apply in_app_iff in Hin. destruct Hin as [Hin|Hin].
      + apply in_concat in Hin. destruct Hin as (ac & Hac & Hin). destruct (Hdone ac Hac) as (ev' & id' & Hp & Hres).
        assert (In (ev', id') (list_prod events (station_ids channels))) as Hpr by (rewrite Hprod; apply in_app_iff; left; exact Hp).
        apply in_prod_iff in Hpr. exists w, ev', id', ac. tauto.
      + assert (In (ev, id) (list_prod events (station_ids channels))) as Hpr by (rewrite Hprod; apply in_app_iff; right; left; reflexivity).
        apply in_prod_iff in Hpr. exists w, ev, id, part. tauto.
    - destruct Hend as [-> ->]. apply in_concat in Hin. destruct Hin as (ac & Hac & Hin). destruct (Hdone ac Hac) as (ev' & id' & Hp & Hres).
      apply in_prod_iff in Hp. exists w, ev', id', ac. tauto.
  Qed.

  (** every yielded stream: three components without gaps, with the entries of rfstats *)
  Theorem C54_complete_streams acts ending l :
    sets_ppoint ppoint -> iteration = (acts, ending) -> In (AYield l) acts ->
    exists ev id s st, In ev events /\ In id (station_ids channels) /\
      pair_stats call_rfstats coordinates channels ev id s /\ 
      complete W components st /\ annotated str_of W components s st l /\ List.length l = 3.
  Proof.
    intros Hpp H Hin. destruct (action_pair acts ending _ Hpp H Hin) as (w & ev & id & ac & _ & Hev & Hid & Hx & Hres).
    destruct Hres as [Hres|Hres].
    - destruct Hres as [|s onset q e|s onset q st st1 st2|s onset q st st1 st2 l' H1 H2 H3 H4 H5 H6 H7 H8]; simpl in Hx.
      + contradiction.
      + destruct Hx as [Hx|[]]; discriminate.
      + destruct Hx as [Hx|[Hx|[]]]; discriminate.
      + destruct Hx as [Hx|[Hx|[Hx|[]]]]; try discriminate. inversion Hx; subst l'.
        exists ev, id, s, st2. repeat (split; [assumption|]). destruct H7 as [H7 _]. rewrite <- H7.
        clear -H8. unfold annotated in H8. induction H8; simpl; congruence.
    - destruct Hres; simpl in Hx; [contradiction | destruct Hx as [Hx|[]]; discriminate | destruct Hx as [Hx|[Hx|[]]]; discriminate].
  Qed.
  Theorem C54_entries_partial acts ending l :
    sets_ppoint ppoint -> iteration = (acts, ending) -> In (AYield l) acts ->
    (forall st t, In t (components st) -> plain_format (w_h t)) ->
    exists ev id s, In ev events /\ In id (station_ids channels) /\
      pair_stats call_rfstats coordinates channels ev id s /\
      forall t k v, In t l -> dget s k = Some v -> dget (h_main t) k = Some v.
  Proof.
    intros Hpp H Hin Hplain. destruct (C54_complete_streams acts ending l Hpp H Hin) as (ev & id & s & st & Hev & Hid & Hs & Hc & Ha & _).
    exists ev, id, s. repeat (split; [assumption|]).
    destruct Hs as (ch & coords & _ & _ & _ & Hrf).
    destruct (rfstats_new_onset _ _ _ _ _ _ Hpp Hrf) as [Hnd _].
    intros t k v Ht Hk. destruct (Forall2_in_r _ _ _ _ Ha Ht) as (wt & Hwt & Hinit).
    rewrite plain_init in Hinit by (exact (Hplain st wt Hwt)).
    assert (t = with_main (w_h wt) (dupdate (h_main (w_h wt)) s)) as -> by congruence. cbn [h_main with_main].
    rewrite dupdate_get by exact Hnd. rewrite Hk. reflexivity.
  Qed.

  (** C55: what is requested and how it is trimmed *)
  Theorem C55_requests acts ending q :
    sets_ppoint ppoint -> iteration = (acts, ending) -> In (ARequest q) acts ->
    exists w ev id s onset, window_of (r_phase a) window w /\ In ev events /\ In id (station_ids channels) /\
      pair_stats call_rfstats coordinates channels ev id s /\ dget s "onset" = Some (VTime onset) /\
      request_for (fst w) (snd w) pad id onset q.
  Proof.
    intros Hpp H Hin. destruct (action_pair acts ending _ Hpp H Hin) as (w & ev & id & ac & Hw & Hev & Hid & Hx & Hres).
    exists w, ev, id.
    destruct Hres as [Hres|Hres]; destruct Hres; simpl in Hx; try contradiction;
      (destruct Hx as [Hx|Hx]; [inversion Hx; subst; eauto 10|
         repeat match type of Hx with _ \/ _ => destruct Hx as [Hx|Hx]; [discriminate|] end; contradiction]).
  Qed.
  Theorem C55_trims acts ending t0 t1 :
    sets_ppoint ppoint -> iteration = (acts, ending) -> In (ATrim t0 t1) acts ->
    exists w ev id s onset, window_of (r_phase a) window w /\ In ev events /\ In id (station_ids channels) /\
      pair_stats call_rfstats coordinates channels ev id s /\ dget s "onset" = Some (VTime onset) /\
      t0 = after onset (fst w) /\ t1 = after onset (snd w).
  Proof.
    intros Hpp H Hin. destruct (action_pair acts ending _ Hpp H Hin) as (w & ev & id & ac & Hw & Hev & Hid & Hx & Hres).
    exists w, ev, id.
    destruct Hres as [Hres|Hres]; destruct Hres; simpl in Hx; try contradiction;
      (destruct Hx as [Hx|Hx]; [discriminate|]); try contradiction;
      (destruct Hx as [Hx|Hx]; [inversion Hx; subst; eauto 12|
         repeat match type of Hx with _ \/ _ => destruct Hx as [Hx|Hx]; [discriminate|] end; contradiction]).
  Qed.

  (** C53: errors of coordinates, rfstats and data retrieval are confined to their pair. *)
  Theorem C53_isolation_partial :
    sets_ppoint ppoint -> r_phase a <> "" ->
    (forall ev, In ev events -> has_origin ev) -> (forall ch, In ch channels -> channel_id ch) ->
    (forall id t, coordinates id t <> Err KeyboardInterrupt) ->
    (forall ev sta, call_rfstats ev sta <> Err KeyboardInterrupt) ->
    (forall q, waveforms q <> Err KeyboardInterrupt) ->
    (forall q, waveforms q <> Ok None) ->
    (forall x y st, exists st', trim x y st = Ok st') -> (forall st, exists st', merge st = Ok st') ->
    (forall st t, In t (components st) -> plain_format (w_h t)) ->
    exists w actss, window_of (r_phase a) window w /\
      iteration = (List.concat actss, None) /\
      Forall2 (fun p => outcome w (fst p) (snd p)) (list_prod events (station_ids channels)) actss.
  Proof.
    intros Hpp Hph Hor Hch Hki1 Hki2 Hki3 Hnone Htrim Hmerge Hplain.
    assert (snd iteration = None) as Hend.
    { unfold iteration, iter_event_data.
      destruct (last_char (r_phase a)) as [c|] eqn:El; [|exfalso; apply Hph, last_char_none, El].
      destruct (match window with Some w => w | None => _ end) as [w0 w1].
      destruct (get_stations_ok channels) as [stations Est].
      { intros ch Hin. destruct (Hch ch Hin) as (net & sta & loc & cha & -> & _). destruct net; discriminate. }
      rewrite Est. destruct (get_stations_spec _ _ Est) as (Hids & Hof & Hget).
      apply run_pairs_total. intros ev id Hin. apply in_prod_iff in Hin. destruct Hin as [Hev Hid].
      destruct (Hget id Hid) as [x Hx]. destruct (Hof id x Hx) as (ch & Hinch & Hst & Heq).
      unfold one_pair.
      assert (exists ot, origin_time ev = Ok ot) as [ot ->].
      { unfold origin_time. destruct (e_pref ev) eqn:E1; [eauto|]. destruct (e_origins ev) eqn:E2; [|eauto].
        exfalso. destruct (Hor ev Hev) as [Ho|Ho]; congruence. }
      rewrite Hx, Heq.
      destruct (coordinates ch ot) as [coords|e1] eqn:E1; [|cbn [snd]; specialize (Hki1 ch ot); destruct e1; try reflexivity; congruence].
      fold (call_rfstats ev coords). destruct (call_rfstats ev coords) as [[s|]|e2] eqn:E2;
        [|reflexivity|cbn [snd]; specialize (Hki2 ev coords); destruct e2; try reflexivity; congruence].
      destruct (rfstats_new_onset _ _ _ _ _ _ Hpp E2) as (_ & onset & Hon).
      destruct s as [|kv s0] eqn:Es; [discriminate|]. rewrite <- Es in *. clear Es kv s0.
      rewrite (proj2 (time_attr_ok _ _ _) Hon).
      destruct (split4_channel ch (Hch ch Hinch)) as [[[[net sta] loc] cha] Hsp]. rewrite Hst in Hsp. rewrite Hsp. cbn [bind]. cbv zeta.
      set (q := mkReq _ _ _ _ _ _).
      destruct (waveforms q) as [[st|]|e3] eqn:E3;
        [|exfalso; exact (Hnone q E3)|cbn [snd]; specialize (Hki3 q); destruct e3; try reflexivity; congruence].
      destruct (Htrim (utc_add onset w0) (utc_add onset w1) st) as [st1 ->]. cbn [bind]. destruct (Hmerge st1) as [st2 ->].
      destruct (negb _); [reflexivity|]. destruct (existsb _ _); [reflexivity|].
      assert (forall l, (forall t, In t l -> plain_format (w_h t)) ->
        exists r, mapM (rftrace_init str_of) (map (fun t => with_main (w_h t) (dupdate (h_main (w_h t)) s)) l) = Ok r) as Hm.
      { induction l as [|t l IH]; intros Hl; cbn [map mapM]; [eauto|].
        rewrite plain_init by (exact (Hl t (or_introl eq_refl))). cbn [bind].
        destruct IH as [r ->]; [intros; apply Hl; right; assumption|]. cbn [bind]. eauto. }
      destruct (Hm (components st2) (Hplain st2)) as [r ->]. reflexivity. }
    destruct iteration as [acts ending] eqn:E. cbn [snd] in Hend. subst ending.
    destruct (C54_product_order acts None Hpp E) as [[_ H]|(w & done & actss & Hw & HF & -> & ->)]; [congruence|].
    exists w, actss. auto.
  Qed.
End I.
Print Assumptions C54_product_order.
Print Assumptions C54_complete_streams.
Print Assumptions C54_entries_partial.
Print Assumptions C55_requests.
Print Assumptions C55_trims.
Print Assumptions C53_isolation_partial.

(** the channel whose coordinates are used is in the inventory, see [pair_stats]; the stations
    are the channels without component letter, each once *)
Theorem C55_stations channels :
  NoDup (station_ids channels) /\
  forall id, In id (station_ids channels) <-> exists ch, In ch channels /\ id = (droplast ch ++ "?")%string.
Proof.
  unfold station_ids.
  assert (forall l, NoDup (firsts l) /\ forall x, In x (firsts l) <-> In x l) as H.
  { induction l as [|x l [IH1 IH2]]; [split; [constructor | tauto]|]. cbn [firsts]. split.
    - constructor.
      + intros Hin. apply filter_In in Hin. destruct Hin as [_ Hin]. rewrite String.eqb_refl in Hin. discriminate.
      + apply NoDup_filter, IH1.
    - intros y. simpl. rewrite filter_In, IH2. destruct (String.eqb_spec y x) as [->|Hne]; simpl.
      + tauto.
      + split; [tauto|]. intros [H|H]; [congruence | tauto]. }
  destruct (H (map station_of channels)) as [H1 H2]. split; [exact H1|].
  intros id. rewrite H2, in_map_iff. split; intros (ch & Hc1 & Hc2); exists ch; auto.
Qed.
Print Assumptions C55_stations.

(** ** an example: two events, two stations of three components each; no data for one pair *)
Definition gps_e (la lo ela elo : Q) : res (Q * Q * Q) := Ok (((ela - la) * 111200)%Q, 0, 180)%Q.
Definition taup_e (m : string) (dep dist : Q) (ph : string) : res (list arrival) := Ok [mkArrival (10 * dist) 20 6].
Definition ppoint_e (m : string) (s : dict value) (d : Q) (p : string) : res (dict value) := Ok s.
Definition args_e : rs_args := mkRs None None "P" DDefault "iasp91" None None "iasp91".
Definition origin_e (lat : Q) (t : Z) : origin := mkOrigin (Some lat) (Some 2%Q) (Some 30000%Q) (Some t).
Definition event_e (lat : Q) (t : Z) : event := mkEvent None [origin_e lat t] None [Some 5%Q] None.
Definition coords_e (id : string) (t : option Z) : res station_d :=
  Ok [("latitude", VNum 0); ("longitude", VNum 0); ("elevation", VNum 10)].
Definition channels_e : list string := ["CX.PB01..BHE"; "CX.PB01..BHN"; "CX.PB01..BHZ"; "CX.PB02..BHZ"; "CX.PB02..BHN"].
Definition wtrace_e (f : option string) (q : request) (c : string) : wtrace :=
  mkW (mkH (q_net q) (q_sta q) (q_loc q) ("BH" ++ c) (q_start q) [] (Some [("nz", FV (VTime 0)); ("gcarc", FV (VNum 99))]) None f) false.
Definition waveforms_e (f : option string) (q : request) : res (option (list wtrace)) :=
  if String.eqb (q_sta q) "PB02" && (q_start q <? 400000000000)%Z then Err OtherError
  else Ok (Some (map (wtrace_e f q) ["E"; "N"; "Z"])).
Definition iteration_e (wf : request -> res (option (list wtrace))) (merge : list wtrace -> res (list wtrace)) (events : list event) :=
  iter_event_data gps_e (fun _ => Ok tt) taup_e ppoint_e (fun _ => "1") coords_e (list wtrace) (fun _ _ st => Ok st) merge (fun st => st)
    wf args_e None 10 events channels_e.
Definition yields (r : list action * option exn) : list (list (option value)) :=
  flat_map (fun x => match x with AYield l => [map (fun t => dget (h_main t) "distance") l] | _ => [] end) (fst r).
Lemma channels_e_ids ch : In ch channels_e -> channel_id ch.
Proof.
  intros H. simpl in H.
  assert (forall sta cha, char_in "." sta = false -> char_in "." cha = false -> cha <> "" -> channel_id ("CX." ++ sta ++ ".." ++ cha)) as Hc.
  { intros sta cha H1 H2 H3. exists "CX", sta, "", cha. repeat split; assumption. }
  repeat (destruct H as [<-|H]; [first
    [ exact (Hc "PB01" "BHE" eq_refl eq_refl ltac:(discriminate)) | exact (Hc "PB01" "BHN" eq_refl eq_refl ltac:(discriminate))
    | exact (Hc "PB01" "BHZ" eq_refl eq_refl ltac:(discriminate)) | exact (Hc "PB02" "BHZ" eq_refl eq_refl ltac:(discriminate))
    | exact (Hc "PB02" "BHN" eq_refl eq_refl ltac:(discriminate)) ]|]). destruct H.
Qed.
Example C53_nonvacuous :
  sets_ppoint ppoint_e /\ (forall q, waveforms_e None q <> Ok None) /\ (forall q, waveforms_e None q <> Err KeyboardInterrupt) /\
  (forall ch, In ch channels_e -> channel_id ch) /\ station_ids channels_e = ["CX.PB01..BH?"; "CX.PB02..BH?"] /\
  (let r := iteration_e (waveforms_e None) (fun st => Ok st) [event_e 40 0; event_e 60 0; event_e 20 0] in
   List.length (yields r) = 3 /\ snd r = None) .
Proof.
  split; [intros m s d p s' Hn H; inversion H; subst; auto|].
  split; [intros q; unfold waveforms_e; destruct (_ && _); discriminate|].
  split; [intros q; unfold waveforms_e; destruct (_ && _); discriminate|].
  split; [exact channels_e_ids|]. split; [reflexivity|]. vm_compute. split; reflexivity.
Qed.

(** The full C53 -- an error at a single pair never ends the iteration -- does not hold: *)
Definition ends_early (wf : request -> res (option (list wtrace))) (merge : list wtrace -> res (list wtrace)) (events : list event) : Prop :=
  snd (iteration_e wf merge events) <> None.
(** ... an event without origin ends it before the following events are requested *)
Theorem C53_no_origin_refuted :
  ends_early (waveforms_e None) (fun st => Ok st) [event_e 40 0; mkEvent None [] None [] None; event_e 60 0] /\
  ~ ends_early (waveforms_e None) (fun st => Ok st) [event_e 40 0; event_e 60 0].
Proof. split; [vm_compute; discriminate | intros H; apply H; vm_compute; reflexivity]. Qed.
(** ... get_waveforms returning None (as the functions of rf.batch do without data) ends it *)
Theorem C53_none_returned_refuted :
  ends_early (fun q => if String.eqb (q_sta q) "PB02" then Ok None else waveforms_e None q) (fun st => Ok st) [event_e 40 0].
Proof. vm_compute. discriminate. Qed.
(** ... so do segments which cannot be merged, e.g. of different sampling rates *)
Theorem C53_merge_refuted :
  ends_early (waveforms_e None) (fun st => if existsb (fun t => String.eqb (h_sta (w_h t)) "PB02") st then Err OtherError else Ok st) [event_e 60 0].
Proof. vm_compute. discriminate. Qed.
Print Assumptions C53_no_origin_refuted.
Print Assumptions C53_none_returned_refuted.
Print Assumptions C53_merge_refuted.

(** The entries of rfstats in C54 are not those of the yielded stream if the data come from SAC
    files whose headers are set: the distance is that of the file. *)
Theorem C54_sac_refuted :
  exists l s, In (AYield l) (fst (iteration_e (waveforms_e (Some "SAC")) (fun st => Ok st) [event_e 40 0])) /\
    pair_stats (fun ev sta => rfstats_new gps_e (fun _ => Ok tt) taup_e ppoint_e (mkRs (Some ev) (Some sta) "P" DDefault "iasp91" None None "iasp91"))
      coords_e channels_e (event_e 40 0) "CX.PB01..BH?" s /\
    (exists d, dget s "distance" = Some (VNum d) /\ (d == 40)%Q) /\
    forall t, In t l -> dget (h_main t) "distance" = Some (VNum 99).
Proof.
  destruct (fst (iteration_e (waveforms_e (Some "SAC")) (fun st => Ok st) [event_e 40 0])) as [|q0 [|t0 [|[q|x y|l] acts]]] eqn:E; try (vm_compute in E; discriminate E).
  destruct (rfstats_new gps_e (fun _ => Ok tt) taup_e ppoint_e
    (mkRs (Some (event_e 40 0)) (Some [("latitude", VNum 0); ("longitude", VNum 0); ("elevation", VNum 10)]) "P" DDefault "iasp91" None None "iasp91")) as [[s|]|] eqn:E2;
    [|vm_compute in E2; discriminate E2|vm_compute in E2; discriminate E2].
  exists l, s. split; [simpl; auto|]. split.
  { exists "CX.PB01..BHZ", [("latitude", VNum 0); ("longitude", VNum 0); ("elevation", VNum 10)].
    split; [simpl; auto|]. split; [reflexivity|]. split; [reflexivity | exact E2]. }
  split.
  - vm_compute in E2. inversion E2; subst s. eexists. split; [reflexivity|]. reflexivity.
  - vm_compute in E. inversion E; subst. intros t Ht. simpl in Ht. repeat (destruct Ht as [<-|Ht]; [reflexivity|]). destruct Ht.
Qed.
Print Assumptions C54_sac_refuted.
(** ** metadata *)
Definition meta_of (ev : option event) (id : string) (m : dict value) : Prop :=
  (exists net sta loc cha, id = (net ++ "." ++ sta ++ "." ++ loc ++ "." ++ cha)%string /\
     dget m "network" = Some (VStr net) /\ dget m "station" = Some (VStr sta) /\
     dget m "location" = Some (VStr loc) /\ dget m "channel" = Some (VStr cha)) /\
  dget m "event_time" = match ev with
                        | None => None
                        | Some ev => Some (match time_of ev with Some t => VTime t | None => VNone end)
                        end /\
  forall k, ~ In k ["network"; "station"; "location"; "channel"; "event_time"] -> dget m k = None.
Lemma one_meta_of ev id m : one_meta ev id = Ok m -> meta_of ev id m.
Proof.
  unfold one_meta. destruct (split4 id) as [[[[net sta] loc] cha]|e] eqn:E; [|discriminate]. cbn [bind].
  apply split4_spec in E. intros H. unfold meta_of.
  assert (forall k, ~ In k ["network"; "station"; "location"; "channel"; "event_time"] ->
     String.eqb k "network" = false /\ String.eqb k "station" = false /\ String.eqb k "location" = false /\
     String.eqb k "channel" = false /\ String.eqb k "event_time" = false) as Hk.
  { intros k Hk. repeat split; apply String.eqb_neq; intros ->; apply Hk; simpl; tauto. }
  destruct ev as [ev|].
  - destruct (origin_time ev) as [ot|] eqn:Eo; [|discriminate]. apply origin_time_of in Eo. subst ot. cbn [bind] in H.
    assert (m = dset [("network", VStr net); ("station", VStr sta); ("location", VStr loc); ("channel", VStr cha)]
      "event_time" (match time_of ev with Some t => VTime t | None => VNone end)) as -> by congruence.
    split; [exists net, sta, loc, cha; repeat split; auto; symmetry; exact E|]. split; [reflexivity|].
    intros k Hn. destruct (Hk k Hn) as (A & B & D & F & G). cbn. rewrite A, B, D, F, G. reflexivity.
  - assert (m = [("network", VStr net); ("station", VStr sta); ("location", VStr loc); ("channel", VStr cha)]) as -> by congruence.
    split; [exists net, sta, loc, cha; repeat split; auto; symmetry; exact E|]. split; [reflexivity|].
    intros k Hn. destruct (Hk k Hn) as (A & B & D & F & G). cbn. rewrite A, B, D, F. reflexivity.
Qed.
Definition meta_pairs (events : option (list event)) (channels : list string) : list (option event * string) :=
  match events with
  | Some l => list_prod (map Some l) (station_ids channels)
  | None => map (fun id => (None, id)) (station_ids channels)
  end.
(** C70: one dictionary per pair, in the order of the product *)
Theorem C70_metadata events channels :
  (forall ch, In ch channels -> channel_id ch) ->
  (forall l ev, events = Some l -> In ev l -> has_origin ev) ->
  exists ms, iter_event_metadata events channels = (ms, None) /\
    Forall2 (fun p m => meta_of (fst p) (snd p) m) (meta_pairs events channels) ms.
Proof.
  intros Hch Hor. unfold iter_event_metadata. destruct (get_stations_ok channels) as [stations Est].
  { intros ch Hin. destruct (Hch ch Hin) as (net & sta & loc & cha & -> & _). destruct net; discriminate. }
  rewrite Est. destruct (get_stations_spec _ _ Est) as (Hids & Hof & Hget). rewrite Hids.
  assert (list_prod (match events with Some l => map Some l | None => [None] end) (station_ids channels) = meta_pairs events channels) as ->.
  { destruct events; [reflexivity|]. simpl. apply app_nil_r. }
  assert (forall ev id, In (ev, id) (meta_pairs events channels) -> exists m, one_meta ev id = Ok m) as Hone.
  { intros ev id Hin. assert (In id (station_ids channels) /\ (forall e, ev = Some e -> has_origin e)) as [Hid Hev].
    { unfold meta_pairs in Hin. destruct events as [l|].
      - apply in_prod_iff in Hin. destruct Hin as [H1 H2]. split; [exact H2|]. intros e ->. apply in_map_iff in H1.
        destruct H1 as (e' & He & H1). inversion He; subst. exact (Hor l e eq_refl H1).
      - apply in_map_iff in Hin. destruct Hin as (x & Hx & Hin). inversion Hx; subst. split; [exact Hin | discriminate]. }
    rewrite <- Hids in Hid. destruct (Hget id Hid) as [c Hc]. destruct (Hof id c Hc) as (ch & Hinch & Hst & Heq).
    destruct (split4_channel ch (Hch ch Hinch)) as [[[[net sta] loc] cha] Hsp]. rewrite Hst in Hsp.
    unfold one_meta. rewrite Hsp. cbn [bind]. destruct ev as [e|]; [|eauto].
    unfold origin_time. destruct (e_pref e) eqn:E1; [cbn [bind]; eauto|]. destruct (e_origins e) eqn:E2; [|cbn [bind]; eauto].
    exfalso. destruct (Hev e eq_refl) as [Ho|Ho]; congruence. }
  revert Hone. generalize (meta_pairs events channels). clear.
  induction l as [|[ev id] l IH]; intros Hone; cbn [run_meta]; [exists []; split; [reflexivity | constructor]|].
  destruct (Hone ev id (or_introl eq_refl)) as [m Hm]. rewrite Hm.
  destruct IH as (ms & -> & HF); [intros; apply Hone; right; assumption|].
  exists (m :: ms). split; [reflexivity|]. constructor; [apply one_meta_of, Hm | exact HF].
Qed.
Print Assumptions C70_metadata.
Example C70_nonvacuous :
  (forall ch, In ch channels_e -> channel_id ch) /\ has_origin (event_e 40 0) /\
  List.length (fst (iter_event_metadata (Some [event_e 40 0; event_e 60 5]) channels_e)) = 4 /\
  List.length (fst (iter_event_metadata None channels_e)) = 2.
Proof. split; [exact channels_e_ids|]. split; [right; discriminate|]. split; reflexivity. Qed.
