(** C122: the command plot on an archive. *)
From Verif Require Import Model.Figures Spec.EventSpec Spec.BatchSpec Spec.OnceSpec Spec.FigureSpec Proofs.PyFacts Proofs.BatchFacts Proofs.BatchRead Proofs.OnceFacts Proofs.FigureFacts Proofs.StackArchiveFacts Proofs.PlotArchiveFacts Properties.BatchProps Properties.OnceProps Properties.FigureProps.
Notation length := List.length.

(** Receiver functions of different station-event pairs were written to an archive. rf plot saves for
    each station of the inventory with data and each of its channels a figure with exactly the
    traces of this station and channel, of all events, as they are read ([rd]) and sorted by back
    azimuth; and no other figure. *)
Theorem C122_archive D (draw : list trace -> res D) channel_set fmt_time year str_of h5key writer load rd pin root fs0 streams opss fmt channels :
  clock fmt_time year -> no_wild pin -> unrelated pin fs0 -> (exists t, year t) ->
  Forall (good year) streams -> ForallOrdPairs (fun a b => ~ same_pair (fst a) (fst b)) streams ->
  In fmt ["Q"; "SAC"; "H5"] -> (fmt = "H5" -> NoDup (map h5key (flat_map snd streams))) ->
  Forall2 (fun ps ops => write fmt_time str_of h5key writer (snd ps) pin fmt TRf = (ops, None)) streams opss ->
  reads (load fmt) rd -> inventory_ok channels -> sets channel_set ->
  (forall p s t, In (p, s) streams -> In t s -> channel_ok (channel (st t)) /\ baz (rd t) <> None) ->
  (forall l, l <> [] -> exists d, draw l = Ok d) ->
  exists out fin figs,
    iter_processed fmt_time load None channels pin fmt (do_ops fs0 (List.concat opss)) = (out, fin) /\
    plot_command draw channel_set root out fin = (figs, None) /\
    let plotted p t := In t (of_station p streams) /\ exists cha, in_inventory channels (p_net p) (p_sta p) (p_loc p) cha in
    (forall p s t, In (p, s) streams -> plotted p t ->
       exists l d, Permutation l (map rd (of_channel (channel (st t)) (of_station p streams))) /\ by_azimuth l /\ draw l = Ok d /\
         dget (save_all figs) (figure_name root p (channel (st t))) = Some d) /\
    (forall n d, dget (save_all figs) n = Some d -> exists p t, plotted p t /\ n = figure_name root p (channel (st t))).
Proof.
  intros Hc Hr Hu [t0 Ht0] Hg Hd Hf Hk Hw [Hl Hcd] Hinv Hset Hch Hdraw.
  destruct (stations_items fmt_time year str_of h5key writer load pin fs0 streams opss fmt channels t0 Hc Hr Hu Ht0 Hg Hd Hf Hk Hw) as (items & E & Hit & Hall & Hsame);
    [intros l; eexists; apply Hl | exact Hinv|].
  assert (forall p s, In (p, s) items -> Permutation s (map rd (of_station p streams))) as HP.
  { intros p s Hin. destruct (Hit p s Hin) as (_ & _ & _ & l & P & El). rewrite Hl in El. injection El as <-. apply Permutation_map, P. }
  assert (forall p s t, In (p, s) items -> In t s -> (network (st t) = p_net p /\ station (st t) = p_sta p /\ location (st t) = p_loc p) /\ channel_ok (channel (st t)) /\ baz t <> None) as Htr.
  { intros p s t' Hin Ht. eapply Permutation_in in Ht; [|exact (HP p s Hin)]. apply in_map_iff in Ht. destruct Ht as (t & <- & Ht). destruct (Hcd t) as (C1 & C2 & C3 & C4). rewrite C1, C2, C3, C4. apply of_station_in in Ht. destruct Ht as (q & s' & Hq & (E1 & E2 & E3) & Ht). rewrite Forall_forall in Hg.
    destruct (Hg _ Hq) as (_ & Hs' & _). cbn [fst snd] in Hs'. rewrite Forall_forall in Hs'. destruct (Hs' t Ht) as (F1 & F2 & F3 & _). split; [repeat split; congruence|]. exact (Hch q s' t Hq Ht). }
  destruct (C110_succeeds D draw channel_set root (map snd items) Hset) as (figs & Efig); [|exact Hdraw|].
  { apply Forall_forall. intros s Hs. apply in_map_iff in Hs. destruct Hs as ([p s'] & <- & Hin). apply Forall_forall. intros t Ht. destruct (Htr p s' t Hin Ht) as (_ & H1 & H2). auto. }
  assert (Forall (fun x => station_stream (fst x) (snd x)) items) as Hst.
  { apply Forall_forall. intros [p s] Hin. cbn [fst snd]. destruct (Hit p s Hin) as ((K1 & K2 & K3 & _) & _). repeat (split; [assumption|]). apply Forall_forall. intros t Ht. destruct (Htr p s t Hin Ht) as ((G1 & G2 & G3) & G4 & _). auto. }
  destruct (plot_items draw channel_set root items figs Hset Hst Hsame Efig) as [H1 H2].
  exists (map snd items), None, figs. split; [exact E|]. split; [exact Efig|]. cbv zeta. split.
  - intros p s t Hin [Ht Hi]. destruct (Hall p s Hin Hi) as (q & s' & Hq & Hs). pose proof (HP q s' Hq) as P. rewrite (of_station_same q p streams Hs) in P.
    destruct (Hcd t) as (_ & _ & _ & C4). destruct (H1 q s' (rd t) Hq) as (l & d & P' & Hb & Hdr & Hg'); [eapply Permutation_in; [apply Permutation_sym, P | apply in_map, Ht]|]. rewrite C4 in *. exists l, d. split; [|split; [exact Hb|]; split; [exact Hdr|]].
    + eapply perm_trans; [exact P'|]. rewrite <- (channel_map rd _ _ Hcd). unfold of_channel. apply perm_filter, P.
    + destruct Hs as (S1 & S2 & S3). unfold figure_name in *. rewrite S1, S2, S3 in Hg'. exact Hg'.
  - intros n d Hn. destruct (H2 n d Hn) as (p & s & t & Hin & Ht & En). pose proof (Permutation_in _ (HP p s Hin) Ht) as Ht'. apply in_map_iff in Ht'. destruct Ht' as (u & <- & Hu'). destruct (Hcd u) as (_ & _ & _ & C4). rewrite C4 in En.
    exists p, u. split; [|exact En]. split; [exact Hu'|]. apply (Hit p s Hin).
Qed.
Print Assumptions C122_archive.

(** a case: two stations, one of them with two events and channels of two bands in the inventory *)
Definition baz_tr (p : spair) (cha : string) (a x : Q) : trace :=
  mkTrace (mkStats (p_net p) (p_sta p) (p_loc p) cha 0 100000000 [("event_time", VTime (p_time p)); ("back_azimuth", VNum a)]) [x].
Definition baz_s (p : spair) (a x : Q) : spair * list trace := (p, [baz_tr p "BHQ" a x; baz_tr p "BHL" a (x + 1)]).
Definition baz_streams : list (spair * list trace) := [baz_s (pair_e "PB01" 5) 200 1; baz_s (pair_e "PB01" 1000000007) 30 10; baz_s (pair_e "PB02" 5) 77 20].
Definition inv_bands : list string := ["CX.PB01..BHZ"; "CX.PB01..HHZ"; "CX.PB02..BHZ"].
Lemma good_baz sta t a x : code sta -> year_e t -> good year_e (baz_s (pair_e sta t) a x).
Proof.
  intros Hs Ht. unfold good. cbn [fst snd baz_s]. split; [|split; [|split; [discriminate|]]].
  - unfold proper, pair_e. cbn. split; [repeat split|]. split; [exact Hs|]. split; [repeat split | exact Ht].
  - repeat (constructor; [repeat split; eexists; split; reflexivity|]). constructor.
  - unfold channels_ok. cbn. split; [|repeat constructor]. constructor; [intros [H|[]]; discriminate H|]. constructor; [intros []|constructor].
Qed.
Example C122_nonvacuous :
  clock clock_e year_e /\ year_e 5 /\ Forall (good year_e) baz_streams /\ ForallOrdPairs (fun a b => ~ same_pair (fst a) (fst b)) baz_streams /\
  inventory_ok inv_bands /\ sets set_e /\
  (forall p s t, In (p, s) baz_streams -> In t s -> channel_ok (channel (st t)) /\ baz t <> None) /\
  exists opss, Forall2 (fun ps ops => write_e (snd ps) "in" "Q" TRf = (ops, None)) baz_streams opss /\
    exists figs, (let (out, fin) := iter_processed clock_e (fun _ l => Ok l) None inv_bands "in" "Q" (do_ops [] (List.concat opss)) in
      plot_command draw_e set_e "figs" out fin = (figs, None)) /\ length (save_all figs) = 4 /\
      dget (save_all figs) "figs/CX.PB01..BHQ.pdf" = Some [[10]; [1]]%Q.
Proof.
  split; [exact clock_e_ok|]. split; [unfold year_e; lia|].
  split; [repeat (constructor; [apply good_baz; [repeat split | unfold year_e; lia]|]); constructor|].
  split; [repeat constructor; intros [(H1 & H2 & H3) H4]; cbn in *; try discriminate; vm_compute in H4; discriminate|].
  split.
  { intros ch H. cbn in H. destruct H as [<-|[<-|[<-|[]]]]; [exists "CX", "PB01", "", "BHZ" | exists "CX", "PB01", "", "HHZ" | exists "CX", "PB02", "", "BHZ"]; (split; [reflexivity|]; repeat (split; try reflexivity); discriminate). }
  split; [exact set_e_ok|]. split.
  { intros p s t Hin Ht. cbn in Hin. destruct Hin as [E|[E|[E|[]]]]; injection E as <- <-; cbn in Ht; destruct Ht as [<-|[<-|[]]]; (split; [repeat split | discriminate]). }
  eexists. split; [repeat (constructor; [reflexivity|]); constructor|]. eexists. split; [vm_compute; reflexivity|]. split; vm_compute; reflexivity.
Qed.
