(** C108: every stored stream is visited once. *)
From Verif Require Import Model.Figures Spec.EventSpec Spec.BatchSpec Spec.OnceSpec Proofs.PyFacts Proofs.BatchFacts Proofs.BatchRead Proofs.BatchLoop Proofs.EventFacts Proofs.OnceFacts Properties.EventProps Properties.BatchProps.
Notation length := List.length.

(** * C108 *)
(** Streams of different station-event pairs are written. The iteration over events and an inventory
    yields each stream of a requested pair exactly once, and nothing else. Guards: all channels of
    a station and location have the same first letters, events are in different seconds. *)
Theorem C108_events_partial fmt_time year str_of h5key writer load root fs0 streams opss fmt events channels :
  clock fmt_time year -> no_wild root -> unrelated root fs0 ->
  Forall (good year) streams -> ForallOrdPairs (fun a b => ~ same_pair (fst a) (fst b)) streams ->
  In fmt ["Q"; "SAC"; "H5"] -> (fmt = "H5" -> NoDup (map h5key (flat_map snd streams))) ->
  Forall2 (fun ps ops => write fmt_time str_of h5key writer (snd ps) root fmt TRf = (ops, None)) streams opss ->
  (forall l, exists s, load fmt l = Ok s) ->
  inventory_ok channels -> one_group channels -> events_ok year events ->
  exists out order,
    iter_processed fmt_time load (Some events) channels root fmt (do_ops fs0 (List.concat opss)) = (out, None) /\
    NoDup order /\ (forall x, In x order <-> In x streams /\ requested events channels (fst x)) /\
    Forall2 (fun x s => exists l, Permutation l (snd x) /\ load fmt l = Ok s) order out.
Proof.
  intros Hc Hr Hu Hg Hd Hf Hk Hw Hl Hinv Hone [Hev Hsec].
  destruct (metas_pairs year events channels Hinv Hone (conj Hev Hsec)) as (ps & Em & Hpp & Hpd & Hrq). unfold iter_processed. rewrite Em.
  destruct (processed_map (fetch fmt_time load root fmt (do_ops fs0 (List.concat opss))) (fun y => meta (fst y) (snd y))
    (fun y o => Forall2 (fun x s => exists l, Permutation l (snd x) /\ load fmt l = Ok s) (filter (fun x => pairb (fst y) (fst x)) streams) o) ps) as (outs & E & HO).
  { intros y Hy. destruct (fetch_eq fmt_time year Hc str_of h5key writer load root Hr fs0 Hu streams Hg Hd fmt _ (fst y) (snd y) opss Hf Hk Hw eq_refl (Hpp y Hy)) as [(l & P & E) _].
    unfold traces_of in *. destruct (filter_pair (fst y) streams Hd) as [Hn|[x Hx]].
    - rewrite Hn in *. cbn [flat_map] in *. exists None. split; [exact E | constructor].
    - rewrite Hx in *. cbn [flat_map] in *. rewrite app_nil_r in *. assert (In x streams) as Hin by (apply (filter_In (fun z => pairb (fst y) (fst z))); rewrite Hx; left; reflexivity).
      destruct (proj1 (Forall_forall _ _) Hg x Hin) as (_ & _ & Hne & _). destruct (Hl l) as [s Hs]. exists (Some s). split.
      + rewrite E. destruct (snd x) eqn:Es; [congruence|]. rewrite Hs. reflexivity.
      + constructor; [|constructor]. exists l. split; assumption. }
  exists (List.concat outs), (visited streams ps). split; [exact E|]. split; [apply visited_NoDup; [apply streams_NoDup, Hd | exact Hpd]|]. split.
  - intros x. rewrite visited_in. split; intros [Hx H]; split; try exact Hx.
    + apply Hrq; try exact H; apply (proj1 (Forall_forall _ _) Hg x Hx).
    + apply Hrq; try exact H; apply (proj1 (Forall_forall _ _) Hg x Hx).
  - apply F2_concat, HO.
Qed.
Print Assumptions C108_events_partial.

(** Without events (commands plot, stack and profile): one stream for each station with its
    traces of all events. *)
Theorem C108_stations_partial fmt_time year str_of h5key writer load root fs0 streams opss fmt channels t0 :
  clock fmt_time year -> no_wild root -> unrelated root fs0 -> year t0 ->
  Forall (good year) streams -> ForallOrdPairs (fun a b => ~ same_pair (fst a) (fst b)) streams ->
  In fmt ["Q"; "SAC"; "H5"] -> (fmt = "H5" -> NoDup (map h5key (flat_map snd streams))) ->
  Forall2 (fun ps ops => write fmt_time str_of h5key writer (snd ps) root fmt TRf = (ops, None)) streams opss ->
  (forall l, exists s, load fmt l = Ok s) ->
  inventory_ok channels -> one_group channels ->
  exists out order,
    iter_processed fmt_time load None channels root fmt (do_ops fs0 (List.concat opss)) = (out, None) /\
    NoDup order /\
    (forall net sta loc, In (net, sta, loc) order <-> (exists cha, code net /\ code sta /\ code loc /\ in_inventory channels net sta loc cha) /\
       exists p s, In (p, s) streams /\ p_net p = net /\ p_sta p = sta /\ p_loc p = loc) /\
    Forall2 (fun x s => exists l, Permutation l (of_station (mkPair (fst (fst x)) (snd (fst x)) (snd x) t0) streams) /\ load fmt l = Ok s) order out.
Proof.
  intros Hc Hr Hu Ht0 Hg Hd Hf Hk Hw Hl Hinv Hone.
  unfold iter_processed, iter_event_metadata. destruct (stations_ok channels Hinv) as (stt & -> & ->). cbn [list_prod]. rewrite app_nil_r.
  destruct (run_meta_stations t0 (station_ids channels)) as (ps & -> & HF).
  { intros id Hin. destruct (id_split channels Hinv id Hin) as (n & s & l & c & _ & _ & _ & _ & _ & E). eauto. }
  assert (forall y, In y ps -> proper year (fst y) /\ (exists cha, in_inventory channels (p_net (fst y)) (p_sta (fst y)) (p_loc (fst y)) cha) /\ p_time (fst y) = t0) as Hpp.
  { intros y Hy. destruct (F2_in_r _ _ _ y HF Hy) as (id & Hin & Hs & Ht). cbn [fst snd] in *.
    destruct (id_split channels Hinv id Hin) as (n & s & l & c & K1 & K2 & K3 & I1 & _ & E). rewrite E in Hs. inversion Hs; subst.
    split; [|split; [exists c; exact I1 | reflexivity]]. split; [exact K1|]. split; [exact K2|]. split; [exact K3 | exact Ht0]. }
  assert (ForallOrdPairs (fun a b : spair * string => ~ same_station (fst a) (fst b)) ps) as Hpd.
  { refine (FOP_Forall2 _ _ _ _ ps _ (ids_differ channels Hinv Hone) HF).
    intros i1 i2 [[n1 s1 l1 t1] c1] [[n2 s2 l2 t2] c2] H [S1 _] [S2 _] (E1 & E2 & E3). cbn [fst snd p_net p_sta p_loc p_time] in *. subst n2 s2 l2.
    apply (H (n1, s1, l1)); [exists c1; exact S1 | exists c2; exact S2]. }
  pose (key := fun y : spair * string => (p_net (fst y), p_sta (fst y), p_loc (fst y))).
  pose (here := fun y : spair * string => match of_station (fst y) streams with [] => [] | _ => [key y] end).
  destruct (processed_map (fetch fmt_time load root fmt (do_ops fs0 (List.concat opss))) (fun y => station_meta (fst y) (snd y))
    (fun y o => Forall2 (fun x s => exists l, Permutation l (of_station (mkPair (fst (fst x)) (snd (fst x)) (snd x) t0) streams) /\ load fmt l = Ok s) (here y) o) ps) as (outs & E & HO).
  { intros y Hy. destruct (Hpp y Hy) as (Py & _ & Ty).
    destruct (fetch_eq fmt_time year Hc str_of h5key writer load root Hr fs0 Hu streams Hg Hd fmt _ (fst y) (snd y) opss Hf Hk Hw eq_refl Py) as [_ (l & P & E)].
    change (traces_of streams (stationb (fst y))) with (of_station (fst y) streams) in *. unfold here, key.
    destruct (of_station (fst y) streams) as [|t ts] eqn:Eo.
    - exists None. split; [exact E | constructor].
    - destruct (Hl l) as [s Hs]. rewrite Hs in E. exists (Some s). split; [exact E|]. constructor; [|constructor]. exists l. split; [|exact Hs].
      cbn [fst snd]. rewrite <- Ty. destruct (fst y) as [n s0 lo tt] eqn:Ey. cbn [p_net p_sta p_loc p_time]. rewrite Eo. exact P. }
  assert (forall y : spair * string, (of_station (fst y) streams = [] -> ~ exists p s, In (p, s) streams /\ same_station (fst y) p) /\
    (of_station (fst y) streams <> [] -> exists p s, In (p, s) streams /\ same_station (fst y) p)) as Hof.
  { intros y. change (of_station (fst y) streams) with (traces_of streams (stationb (fst y))). rewrite <- (traces_nil year streams Hg). split.
    - intros H (p & s & Hin & Hs). assert (In (p, s) (filter (fun ps => stationb (fst y) (fst ps)) streams)) as Hi by (apply filter_In; split; [exact Hin | apply stationb_spec, Hs]).
      rewrite H in Hi. destruct Hi.
    - intros H. destruct (filter (fun ps => stationb (fst y) (fst ps)) streams) as [|[p s] r] eqn:Ef; [congruence|].
      assert (In (p, s) (filter (fun ps => stationb (fst y) (fst ps)) streams)) as Hi by (rewrite Ef; left; reflexivity). apply filter_In in Hi. destruct Hi as [Hi Es].
      exists p, s. split; [exact Hi | apply stationb_spec, Es]. }
  exists (List.concat outs), (flat_map here ps). split; [exact E|]. split; [|split; [|apply F2_concat, HO]].
  - clear - Hpd. induction Hpd as [|y l Hy Hd IH]; [constructor|]. cbn [flat_map]. apply NoDup_app_intro; [unfold here; destruct (of_station _ _); repeat constructor; intros [] | exact IH |].
    intros x Hx Hx'. unfold here in Hx. destruct (of_station (fst y) streams); [destruct Hx|]. destruct Hx as [<-|[]]. apply in_flat_map in Hx'. destruct Hx' as (z & Hz & Hx).
    unfold here in Hx. destruct (of_station (fst z) streams); [destruct Hx|]. destruct Hx as [Hx|[]]. unfold key in Hx. inversion Hx. rewrite Forall_forall in Hy. apply (Hy z Hz). repeat split; congruence.
  - intros net sta loc. rewrite in_flat_map. split.
    + intros (y & Hy & Hx). unfold here in Hx. destruct (of_station (fst y) streams) eqn:Eo; [destruct Hx|]. destruct Hx as [Hx|[]]. unfold key in Hx. inversion Hx; subst.
      destruct (Hpp y Hy) as ((K1 & K2 & K3 & _) & (cha & Hi) & _). split; [exists cha; repeat (split; [assumption|]); exact Hi|].
      destruct (proj2 (Hof y)) as (p & s & Hin & E1 & E2 & E3); [congruence|]. exists p, s. auto.
    + intros [(cha & K1 & K2 & K3 & Hi) (p & s & Hin & <- & <- & <-)].
      destruct (F2_in_l _ _ _ _ HF (id_of_code channels _ _ _ _ Hi)) as (y & Hy & Hs & _). rewrite split4_code in Hs by (assumption || apply Hi). injection Hs as J1 J2 J3 _.
      exists y. split; [exact Hy|]. unfold here. destruct (of_station (fst y) streams) eqn:Eo.
      * exfalso. apply (proj1 (Hof y) Eo). exists p, s. split; [exact Hin|]. repeat split; congruence.
      * left. unfold key. congruence.
Qed.
Print Assumptions C108_stations_partial.

(** a case: three stored streams, two of a requested event *)
Definition inv_e : list string := ["CX.PB01..BHZ"; "CX.PB01..BHN"; "CX.PB01..BHE"; "CX.PB02..BHZ"; "CX.PB02..BHN"; "CX.PB02..BHE"].
Lemma inv_e_ok : inventory_ok inv_e.
Proof.
  intros ch H. cbn in H. repeat (destruct H as [<-|H]; [|]); try destruct H.
  all: match goal with |- exists n s l c, ?x = _ /\ _ =>
    let r := eval vm_compute in (split_on "." x) in
    match r with [?a; ?b; ?c; ?d] => exists a, b, c, d end end.
  all: split; [reflexivity|]; repeat (split; try reflexivity); discriminate.
Qed.
Lemma code_parts n s l c n' s' l' c' : code n -> code s -> code l -> code n' -> code s' -> code l' ->
  channel_code n s l c = channel_code n' s' l' c' -> n = n' /\ s = s' /\ l = l' /\ c = c'.
Proof.
  intros (_ & _ & H1) (_ & _ & H2) (_ & _ & H3) (_ & _ & H4) (_ & _ & H5) (_ & _ & H6) H. apply (f_equal (split_on ".")) in H. unfold channel_code in H. cbn [append] in H.
  rewrite !split_on_sep in H by assumption. inversion H; subst. repeat split.
  pose proof (split_join "." c) as J1. pose proof (split_join "." c') as J2. congruence.
Qed.
Lemma inv_e_one : one_group inv_e.
Proof.
  assert (forall n s l c, code n -> code s -> code l -> in_inventory inv_e n s l c -> droplast c = "BH") as H.
  { intros n s l c H1 H2 H3 (_ & _ & H). cbn in H.
    repeat (destruct H as [H|H]; [match type of H with ?x = _ =>
      let r := eval vm_compute in (split_on "." x) in
      match r with [?a; ?b; ?c0; ?d] => change x with (channel_code a b c0 d) in H end end;
      apply code_parts in H; [destruct H as (_ & _ & _ & <-); reflexivity | repeat split | repeat split | repeat split | assumption | assumption | assumption]|]). destruct H. }
  intros n s l c1 c2 H1 H2 H3 I1 I2. rewrite (H n s l c1), (H n s l c2); auto.
Qed.
Example C108_nonvacuous :
  inventory_ok inv_e /\ one_group inv_e /\ events_ok year_e [event_e 40 7] /\ events_ok year_e [event_e 40 7; event_e 60 1000000000] /\
  (forall fmt, In fmt ["Q"; "SAC"; "H5"] -> exists opss, Forall2 (fun ps ops => write_e (snd ps) "out" fmt TRf = (ops, None)) streams_e opss /\
     length (fst (iter_processed clock_e (fun _ l => Ok l) (Some [event_e 40 7]) inv_e "out" fmt (do_ops [] (List.concat opss)))) = 2 /\
     length (fst (iter_processed clock_e (fun _ l => Ok l) (Some [event_e 40 7; event_e 60 1000000000]) inv_e "out" fmt (do_ops [] (List.concat opss)))) = 3 /\
     length (fst (iter_processed clock_e (fun _ l => Ok l) None inv_e "out" fmt (do_ops [] (List.concat opss)))) = 2).
Proof.
  split; [exact inv_e_ok|]. split; [exact inv_e_one|]. split; [|split].
  - split; [|repeat constructor]. intros ev [<-|[]]. exists 7%Z. split; [reflexivity | unfold year_e; lia].
  - split.
    + intros ev [<-|[<-|[]]]; [exists 7%Z | exists 1000000000%Z]; (split; [reflexivity | unfold year_e; lia]).
    + repeat constructor. intros t u Ht Hu. injection Ht as <-. injection Hu as <-. discriminate.
  - intros fmt [<-|[<-|[<-|[]]]]; (eexists; split; [repeat (constructor; [reflexivity|]); constructor | vm_compute; auto]).
Qed.

(** The full C108 does not hold: if a station has channels of two bands at the same location, its
    streams are visited twice. rf convert to Q then writes all traces twice into the new file, and
    a moveout correction in place with SAC is applied twice. The same happens for two events in
    the same second. *)
Definition convert_e (channels : list string) (events : list event) (root1 fmt1 root2 fmt2 : string) (fs : files) : list wop * option exn :=
  let (metas, fin) := iter_event_metadata (Some events) channels in
  run_loop clock_e (fun _ => "") key_e (fun _ _ => None) (fetch_e root1 fmt1) (fun s => Ok s) root2 fmt2 TRf metas fin fs.
Theorem C108_twice_refuted :
  let one := [(pair_e "PB01" 5, stream_e (pair_e "PB01" 5) 1)] in
  forall channels events,
  In (channels, events) [(["CX.PB01..BHZ"; "CX.PB01..HHZ"], [event_e 40 7]); (["CX.PB01..BHZ"], [event_e 40 7; event_e 41 8])] ->
  forall fmt opss, In fmt ["Q"; "SAC"; "H5"] -> Forall2 (fun ps ops => write_e (snd ps) "out" fmt TRf = (ops, None)) one opss ->
  (exists s, Permutation s (stream_e (pair_e "PB01" 5) 1) /\ iter_processed clock_e (fun _ l => Ok l) (Some events) channels "out" fmt (do_ops [] (List.concat opss)) = ([s; s], None)) /\
  (exists ops s1 s2, convert_e channels events "out" fmt "new" "Q" (do_ops [] (List.concat opss)) = (ops, None) /\
     Permutation s1 (stream_e (pair_e "PB01" 5) 1) /\ Permutation s2 (stream_e (pair_e "PB01" 5) 1) /\
     map snd (contents (do_ops [] ops) "new/CX.PB01./CX.PB01._1970-01-01T00:00:00.QHD") = s1 ++ s2).
Proof.
  intros one channels events Hce fmt opss Hf Hw.
  assert (opss = match opss with [o] => [o] | _ => [] end /\ exists o, opss = [o] /\ write_e (snd (pair_e "PB01" 5, stream_e (pair_e "PB01" 5) 1)) "out" fmt TRf = (o, None)) as (_ & o & -> & Ho).
  { inversion Hw as [|? ? ? ? H1 H2]; subst. inversion H2; subst. split; [reflexivity|]. eauto. }
  clear Hw. destruct Hce as [E|[E|[]]]; inversion E; subst channels events; destruct Hf as [<-|[<-|[<-|[]]]]; vm_compute in Ho; injection Ho as <-.
  all: split; [eexists; split; [|vm_compute; reflexivity] | eexists; eexists [_; _], [_; _]; split; [vm_compute; reflexivity|]; split; [|split; [|vm_compute; reflexivity]]].
  all: try reflexivity; apply perm_swap.
Qed.
Print Assumptions C108_twice_refuted.
