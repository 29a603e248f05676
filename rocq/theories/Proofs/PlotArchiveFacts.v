(** The command plot on an archive. *)
From Verif Require Import Model.Figures Spec.EventSpec Spec.BatchSpec Spec.FigureSpec Spec.OnceSpec Proofs.PyFacts Proofs.BatchFacts Proofs.BatchRead Proofs.BatchLoop Proofs.EventFacts Proofs.OnceFacts Proofs.FigureFacts Proofs.StackArchiveFacts.
Notation length := List.length.

Lemma fetch_station fmt_time load root fmt fs p q c d : same_station p q ->
  fetch fmt_time load root fmt fs (station_meta p c) = fetch fmt_time load root fmt fs (station_meta q d).
Proof. destruct p as [n s l t], q as [n' s' l' t']. intros (E1 & E2 & E3). cbn in E1, E2, E3. subst. reflexivity. Qed.

(** What the iteration over stations yields, also for stations with several bands. *)
Lemma stations_items fmt_time year str_of h5key writer load root fs0 streams opss fmt channels t0 :
  clock fmt_time year -> no_wild root -> unrelated root fs0 -> year t0 ->
  Forall (good year) streams -> ForallOrdPairs (fun a b => ~ same_pair (fst a) (fst b)) streams ->
  In fmt ["Q"; "SAC"; "H5"] -> (fmt = "H5" -> NoDup (map h5key (flat_map snd streams))) ->
  Forall2 (fun ps ops => write fmt_time str_of h5key writer (snd ps) root fmt TRf = (ops, None)) streams opss ->
  (forall l, exists s, load fmt l = Ok s) -> inventory_ok channels ->
  exists items,
    iter_processed fmt_time load None channels root fmt (do_ops fs0 (List.concat opss)) = (map snd items, None) /\
    (forall p s, In (p, s) items -> proper year p /\ (exists cha, in_inventory channels (p_net p) (p_sta p) (p_loc p) cha) /\
       (exists q s', In (q, s') streams /\ same_station p q) /\ exists l, Permutation l (of_station p streams) /\ load fmt l = Ok s) /\
    (forall p s, In (p, s) streams -> (exists cha, in_inventory channels (p_net p) (p_sta p) (p_loc p) cha) -> exists q s', In (q, s') items /\ same_station q p) /\
    (forall a b, In a items -> In b items -> same_station (fst a) (fst b) -> snd a = snd b).
Proof.
  intros Hc Hr Hu Ht0 Hg Hd Hf Hk Hw Hl Hinv.
  unfold iter_processed, iter_event_metadata. destruct (stations_ok channels Hinv) as (stt & -> & ->). cbn [list_prod]. rewrite app_nil_r.
  destruct (run_meta_stations t0 (station_ids channels)) as (ps & -> & HF).
  { intros id Hin. destruct (id_split channels Hinv id Hin) as (n & s & l & c & _ & _ & _ & _ & _ & E). eauto. }
  assert (forall y, In y ps -> proper year (fst y) /\ (exists cha, in_inventory channels (p_net (fst y)) (p_sta (fst y)) (p_loc (fst y)) cha)) as Hpp.
  { intros y Hy. destruct (F2_in_r _ _ _ y HF Hy) as (id & Hin & Hs & Ht). cbn [fst snd] in *.
    destruct (id_split channels Hinv id Hin) as (n & s & l & c & K1 & K2 & K3 & I1 & _ & E). rewrite E in Hs. inversion Hs; subst.
    split; [|exists c; exact I1]. split; [exact K1|]. split; [exact K2|]. split; [exact K3 | exact Ht0]. }
  set (get := fetch fmt_time load root fmt (do_ops fs0 (List.concat opss))).
  set (item := fun y : spair * string => match get (station_meta (fst y) (snd y)) with Ok (Some s) => [(fst y, s)] | _ => [] end).
  assert (forall y, In y ps -> exists l, Permutation l (of_station (fst y) streams) /\
    get (station_meta (fst y) (snd y)) = match of_station (fst y) streams with [] => Ok None | _ => read_result (load fmt l) end) as Hget.
  { intros y Hy. destruct (fetch_eq fmt_time year Hc str_of h5key writer load root Hr fs0 Hu streams Hg Hd fmt _ (fst y) (snd y) opss Hf Hk Hw eq_refl (proj1 (Hpp y Hy))) as [_ (l & P & E)].
    change (traces_of streams (stationb (fst y))) with (of_station (fst y) streams) in *. exists l. split; [exact P | exact E]. }
  exists (flat_map item ps). split; [|split; [|split]].
  - assert (forall l, incl l ps -> processed get (map (fun y => station_meta (fst y) (snd y)) l) None = (map snd (flat_map item l), None)) as H; [|apply H, incl_refl].
    induction l as [|y l IH]; intros Hi; [reflexivity|]. cbn [map processed flat_map]. rewrite map_app. rewrite IH by (intros z Hz; apply Hi; right; exact Hz).
    destruct (Hget y (Hi y (or_introl eq_refl))) as (l' & P & E). unfold item. rewrite E. destruct (of_station (fst y) streams) as [|t ts]; [reflexivity|].
    destruct (Hl l') as [s Hs]. rewrite Hs. reflexivity.
  - intros p s Hin. apply in_flat_map in Hin. destruct Hin as (y & Hy & Hin). unfold item in Hin. destruct (Hget y Hy) as (l & P & E). rewrite E in Hin.
    destruct (of_station (fst y) streams) as [|t ts] eqn:Eo; [destruct Hin|]. destruct (Hl l) as [s' Hs]. rewrite Hs in Hin. destruct Hin as [E'|[]]. injection E' as <- <-.
    destruct (Hpp y Hy) as [H1 H2]. split; [exact H1|]. split; [exact H2|]. split.
    + assert (In t (of_station (fst y) streams)) as Ht by (rewrite Eo; left; reflexivity). apply of_station_in in Ht. destruct Ht as (q & s'' & Hq & Hsame & _). eauto.
    + exists l. rewrite Eo. split; assumption.
  - intros p s Hin (cha & Hi). rewrite Forall_forall in Hg. destruct (Hg _ Hin) as ((K1 & K2 & K3 & _) & _ & Hne & _). cbn [fst snd] in *.
    destruct (F2_in_l _ _ _ _ HF (id_of_code channels _ _ _ _ Hi)) as (y & Hy & Hs & _). rewrite split4_code in Hs by (assumption || apply Hi). injection Hs as J1 J2 J3 _.
    destruct (Hget y Hy) as (l & P & E). assert (same_station (fst y) p) as Hsame by (repeat split; congruence).
    destruct (of_station (fst y) streams) as [|t ts] eqn:Eo.
    + exfalso. destruct s as [|t s]; [congruence|]. assert (In t (of_station (fst y) streams)) as Ht by (apply of_station_in; exists p, (t :: s); split; [exact Hin|]; split; [exact Hsame | left; reflexivity]).
      rewrite Eo in Ht. destruct Ht.
    + destruct (Hl l) as [s' Hs']. exists (fst y), s'. split; [|exact Hsame]. apply in_flat_map. exists y. split; [exact Hy|]. unfold item. rewrite E, Hs'. left. reflexivity.
  - intros a b Ha Hb Hsame. apply in_flat_map in Ha, Hb. destruct Ha as (y & _ & Ha), Hb as (z & _ & Hb). unfold item in Ha, Hb.
    destruct (get (station_meta (fst y) (snd y))) as [[s|]|] eqn:Ey; try (destruct Ha; fail). destruct Ha as [<-|[]].
    destruct (get (station_meta (fst z) (snd z))) as [[s'|]|] eqn:Ez; try (destruct Hb; fail). destruct Hb as [<-|[]]. cbn [fst snd] in *.
    assert (Ok (Some s) = Ok (Some s')) as E by (rewrite <- Ey, <- Ez; apply fetch_station, Hsame). congruence.
Qed.

(** figures saved under the same name are the same *)
Lemma save_all_get {D} (l : list (string * D)) n d : (forall n d d', In (n, d) l -> In (n, d') l -> d = d') ->
  dget (save_all l) n = Some d <-> In (n, d) l.
Proof.
  intros Hfun. unfold save_all.
  assert (forall acc : dict D, dget (fold_left (fun d f => dset d (fst f) (snd f)) l acc) n = Some d <-> In (n, d) l \/ (~ In n (map fst l) /\ dget acc n = Some d)) as H.
  { induction l as [|[m x] l IH]; intros acc; cbn [fold_left map fst snd In]; [tauto|]. rewrite IH by (intros; eapply Hfun; right; eassumption). clear IH.
    destruct (String.eqb_spec n m) as [->|Hne]; [rewrite dget_dset_eq | rewrite dget_dset_ne by congruence].
    - split.
      + intros [H|[H E]]; [left; right; exact H|]. injection E as ->. left. left. reflexivity.
      + intros [[E|H]|[H _]]; [|left; exact H | exfalso; apply H; left; reflexivity]. injection E as ->.
        destruct (in_dec string_dec m (map fst l)) as [Hin|Hin]; [|right; auto]. left. apply in_map_iff in Hin. destruct Hin as ([m' d'] & E' & Hin). cbn in E'. subst m'.
        rewrite (Hfun m d d'); [exact Hin | left; reflexivity | right; exact Hin].
    - split.
      + intros [H|[H E]]; [left; right; exact H | right; split; [intros [E'|H']; [congruence | contradiction] | exact E]].
      + intros [[E|H]|[H E]]; [congruence | left; exact H | right; split; [tauto | exact E]]. }
  rewrite H. split; [intros [Hin|[_ E]]; [exact Hin | discriminate E] | left; assumption].
Qed.
Lemma plot_items {D} (draw : list trace -> res D) channel_set root items figs :
  sets channel_set -> Forall (fun x => station_stream (fst x) (snd x)) items ->
  (forall a b, In a items -> In b items -> same_station (fst a) (fst b) -> snd a = snd b) ->
  plot_command draw channel_set root (map snd items) None = (figs, None) ->
  (forall p s t, In (p, s) items -> In t s ->
     exists l d, Permutation l (of_channel (channel (st t)) s) /\ by_azimuth l /\ draw l = Ok d /\
       dget (save_all figs) (figure_name root p (channel (st t))) = Some d) /\
  (forall n d, dget (save_all figs) n = Some d -> exists p s t, In (p, s) items /\ In t s /\ n = figure_name root p (channel (st t))).
Proof.
  intros Hset Hst Hsame H. destruct (plot_spec draw channel_set root _ _ H) as (figss & -> & HF).
  pose (fig := fun (x : spair * list trace) c (y : string * D) => exists l, sort_azimuth (of_channel c (snd x)) = Ok l /\ draw l = Ok (snd y) /\ fst y = figure_name root (fst x) c).
  assert (Forall2 (fun x f => Forall2 (fig x) (channel_set (snd x)) f) items figss) as HF2.
  { revert HF Hst. clear - Hset. revert figss. induction items as [|[p s] items IH]; intros figss HF Hst; inversion HF as [|? f ? fs H1 H2]; subst; [constructor|].
    inversion Hst as [|? ? Hp Hst']; subst. constructor; [|apply IH; assumption]. cbn [fst snd] in *. apply figures_spec in H1.
    destruct Hp as (C1 & C2 & C3 & Hs). destruct (Hset s) as [_ Hc].
    assert (Forall (fun t => channel_ok (channel (st t))) s) as Hok by (eapply Forall_impl; [|exact Hs]; cbn; tauto).
    assert (forall c, In c (channel_set s) -> channel_ok c) as Hco.
    { intros c Hin. apply Hc in Hin. destruct Hin as (t & Ht & <-). rewrite Forall_forall in Hok. apply Hok, Ht. }
    revert Hco H1. clear - Hok Hs. generalize (channel_set s). intros chans Hco H1. induction H1 as [|c y chans f Hy HF IH]; [constructor|]. constructor; [|apply IH; intros; apply Hco; right; assumption].
    destruct Hy as (first & rest & l & E1 & E2 & E3 & E4). pose proof (Hco c (or_introl eq_refl)) as Hcc. rewrite select_exact in E1 by assumption.
    exists l. cbn [snd fst]. rewrite E1. split; [exact E3|]. split; [exact E4|].
    assert (In first (of_channel c s)) as Hin by (rewrite E1; left; reflexivity). unfold of_channel in Hin. apply filter_In in Hin. destruct Hin as [Hin Ec]. apply String.eqb_eq in Ec.
    rewrite Forall_forall in Hs. destruct (Hs first Hin) as (N1 & N2 & N3 & _). unfold pdf_name in E2. injection E2 as <-. rewrite N1, N2, N3, Ec. unfold nsl, figure_name. rewrite !sapp_assoc. reflexivity. }
  assert (forall y, In y (List.concat figss) <-> exists x c, In x items /\ In c (channel_set (snd x)) /\ In y (List.concat figss) /\ fig x c y) as Hin.
  { intros y. split; [|intros (_ & _ & _ & _ & Hy & _); exact Hy]. intros Hy. pose proof Hy as Hy'. apply in_concat in Hy. destruct Hy as (f & Hf & Hy). destruct (F2_in_r _ _ _ _ HF2 Hf) as (x & Hx & Hone).
    destruct (F2_in_r _ _ _ _ Hone Hy) as (c & Hc & Hfig). exists x, c. auto. }
  rewrite Forall_forall in Hst.
  assert (forall n d d', In (n, d) (List.concat figss) -> In (n, d') (List.concat figss) -> d = d') as Hfun.
  { intros n d d' H1 H2. apply Hin in H1, H2. destruct H1 as (x & c & Hx & Hc & _ & l & S1 & D1 & E1), H2 as (x' & c' & Hx' & Hc' & _ & l' & S2 & D2 & E2). cbn [fst snd] in *.
    pose proof (Hst x Hx) as (C1 & C2 & C3 & Hs). pose proof (Hst x' Hx') as (C1' & C2' & C3' & Hs'). rewrite Forall_forall in Hs, Hs'.
    apply Hset in Hc, Hc'. destruct Hc as (t & Ht & <-), Hc' as (t' & Ht' & <-). rewrite E1 in E2.
    apply figure_name_inj in E2; [|repeat (split; try assumption) | repeat (split; try assumption) | apply (Hs t Ht) | apply (Hs' t' Ht')]. destruct E2 as [Ess Ech].
    rewrite (Hsame x x' Hx Hx' Ess), Ech, S2 in S1. injection S1 as ->. rewrite D2 in D1. injection D1 as ->. reflexivity. }
  split.
  - intros p s t Hi Ht. destruct (F2_in_l _ _ _ _ HF2 Hi) as (f & Hf & Hone). cbn [fst snd] in Hone.
    destruct (F2_in_l _ _ _ (channel (st t)) Hone) as (y & Hy & l & S & Dr & E); [apply Hset; exists t; auto|]. destruct (sort_azimuth_ok _ _ S) as [P Hs].
    exists l, (snd y). split; [exact P|]. split; [exact Hs|]. split; [exact Dr|]. apply save_all_get; [exact Hfun|]. cbn [fst] in E. rewrite <- E. apply in_concat. exists f. destruct y; auto.
  - intros n d Hn. apply save_all_get in Hn; [|exact Hfun]. apply Hin in Hn. destruct Hn as ([p s] & c & Hi & Hc & _ & l & _ & _ & E). cbn [fst snd] in *. apply Hset in Hc. destruct Hc as (t & Ht & <-).
    exists p, s, t. auto.
Qed.
