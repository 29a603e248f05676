(** C109: results of commands can be read back. *)
From Verif Require Import Model.Figures Spec.EventSpec Spec.BatchSpec Spec.OnceSpec Proofs.PyFacts Proofs.BatchFacts Proofs.BatchRead Proofs.BatchLoop Proofs.EventFacts Proofs.OnceFacts Proofs.ConvertFacts
  Properties.EventProps Properties.BatchProps Properties.OnceProps.
Notation length := List.length.

(** * C109 *)
Section Loop.
  Variable fmt_time : Z -> string.
  Variable year : Z -> Prop.
  Hypothesis Hclock : clock fmt_time year.
  Variable str_of : value -> string.
  Variable h5key : trace -> string.
  Variable writer : string -> list trace -> option exn.
  Variable load : string -> list trace -> res (list trace).
  Variables (pin root fmt fmt2 : string) (fs : files) (streams : list (spair * list trace)).
  Variable process : list trace -> res (list trace).
  Notation write := (write fmt_time str_of h5key writer).
  Notation fetch := (fetch fmt_time load).
  Hypothesis Hpin : no_wild pin.
  Hypothesis Hne : pin <> root.
  Hypothesis Hf : In fmt ["Q"; "SAC"; "H5"].
  Hypothesis Hf2 : In fmt2 ["Q"; "SAC"; "H5"].
  Hypothesis Hg : Forall (good year) streams.
  Hypothesis Hd : ForallOrdPairs (fun a b => ~ same_pair (fst a) (fst b)) streams.
  Hypothesis Hread : forall p cha, proper year p -> found load streams fmt (pairb p) (fetch pin fmt fs (meta p cha)).
  Hypothesis Hload : forall l, exists s, load fmt l = Ok s.
  Hypothesis Hproc : forall p s l s' out, In (p, s) streams -> Permutation l s -> load fmt l = Ok s' -> process s' = Ok out -> good year (p, out).

  Definition came_from (x r : spair * list trace) : Prop :=
    fst r = fst x /\ exists l s', Permutation l (snd x) /\ load fmt l = Ok s' /\ process s' = Ok (snd r).
  Lemma unchanged ops p cha : Forall (fun o => mine root (op_name o)) ops -> proper year p -> fetch pin fmt (do_ops fs ops) (meta p cha) = fetch pin fmt fs (meta p cha).
  Proof.
    intros Hm Hp. set (nameb := fun n => if in_dec string_dec n (map op_name ops) then true else false).
    assert (forall n, In n (map op_name ops) -> nameb n = true) as Hn by (intros n Hi; unfold nameb; destruct (in_dec _ _ _); [reflexivity | contradiction]).
    apply (fetch_mine fmt_time year Hclock writer load nameb _ _ pin root fmt p cha Hf Hpin Hne).
    - apply (proper_codes year writer load root p Hp).
    - intros n Hb. unfold nameb in Hb. destruct (in_dec string_dec n (map op_name ops)) as [Hin|]; [|discriminate]. apply in_map_iff in Hin. destruct Hin as (o & <- & Ho).
      rewrite Forall_forall in Hm. apply Hm, Ho.
    - apply others_ops, Hn.
  Qed.
  Lemma loop_results ps : (forall y, In y ps -> proper year (fst y)) -> forall done ops, Forall (fun o => mine root (op_name o)) done ->
    run_loop fmt_time str_of h5key writer (fetch pin fmt) process root fmt2 TRf (map (fun y => meta (fst y) (snd y)) ps) None (do_ops fs done) = (ops, None) ->
    exists rs opss, ops = List.concat opss /\ Forall2 (fun r o => write (snd r) root fmt2 TRf = (o, None)) rs opss /\ Forall2 came_from (visited streams ps) rs /\
      Forall (fun o => mine root (op_name o)) ops.
  Proof.
    induction ps as [|y ps IH]; intros Hps dn ops Hdn H.
    - cbn in H. inversion H; subst. exists [], []. repeat split; constructor.
    - cbn [map run_loop] in H. rewrite (unchanged dn (fst y) (snd y) Hdn (Hps y (or_introl eq_refl))) in H.
      destruct (Hread (fst y) (snd y) (Hps y (or_introl eq_refl))) as (l & P & E). rewrite E in H. unfold visited. cbn [flat_map]. unfold traces_of in *.
      destruct (filter_pair (fst y) streams Hd) as [Hn|[x Hx]].
      + rewrite Hn in *. cbn [flat_map app] in *. apply (IH (fun z Hz => Hps z (or_intror Hz)) dn ops Hdn H).
      + rewrite Hx in *. cbn [flat_map] in *. rewrite app_nil_r in *.
        assert (In x streams) as Hin by (apply (filter_In (fun z => pairb (fst y) (fst z))); rewrite Hx; left; reflexivity).
        destruct (proj1 (Forall_forall _ _) Hg x Hin) as (_ & _ & Hnx & _). destruct (Hload l) as [s' Hs']. destruct (snd x) as [|t ts] eqn:Es; [congruence|].
        rewrite Hs' in H. cbn [read_result] in H. destruct (process s') as [out|] eqn:Ep; [|discriminate H].
        destruct (write out root fmt2 TRf) as [o1 [e|]] eqn:Ew; [discriminate H|].
        assert (good year (fst x, out)) as Hgo by (apply (Hproc (fst x) (snd x) l s'); [destruct x; exact Hin | rewrite Es; exact P | exact Hs' | exact Ep]).
        pose proof (write_mine fmt_time year Hclock str_of h5key writer load root fmt2 (fst x, out) o1 Hf2 Hgo Ew) as Hm.
        destruct (run_loop _ _ _ _ _ _ _ _ _ _ _ _) as [ops2 e2] eqn:Er in H. inversion H; subst ops e2. rewrite <- do_ops_app in Er.
        destruct (IH (fun z Hz => Hps z (or_intror Hz)) (dn ++ o1) ops2) as (rs & opss & E1 & E2 & E3 & E4); [apply Forall_app; split; assumption | exact Er|].
        exists ((fst x, out) :: rs), (o1 :: opss). split; [cbn [List.concat]; rewrite E1; reflexivity|]. split; [constructor; assumption|]. split.
        * cbn [app]. constructor; [|exact E3]. split; [reflexivity|]. exists l, s'. rewrite Es. auto.
        * apply Forall_app. split; assumption.
  Qed.
End Loop.

(** Streams are stored at [pin]; a command reads those of the requested pairs, processes them and
    writes the results to [root]. If it ends without an exception, reading at [root] gives for each
    stored and requested pair the result of processing its traces, and nothing for other pairs.
    The stored streams are still there. Guards: a new path, channels of a station with the same
    first letters, events in different seconds. *)
Theorem C109_results_partial fmt_time year str_of h5key writer load pin root fs0 streams opss fmt fmt2 events channels process metas fin ops p cha :
  clock fmt_time year -> no_wild pin -> no_wild root -> pin <> root -> unrelated pin fs0 ->
  Forall (good year) streams -> ForallOrdPairs (fun a b => ~ same_pair (fst a) (fst b)) streams ->
  In fmt ["Q"; "SAC"; "H5"] -> In fmt2 ["Q"; "SAC"; "H5"] -> (fmt = "H5" -> NoDup (map h5key (flat_map snd streams))) ->
  (fmt2 = "H5" -> forall p q t u, proper year p -> proper year q -> trace_of p t -> trace_of q u ->
     three_letters (channel (st t)) -> three_letters (channel (st u)) -> h5key t = h5key u -> same_pair p q /\ channel (st t) = channel (st u)) ->
  Forall2 (fun ps ops => write fmt_time str_of h5key writer (snd ps) pin fmt TRf = (ops, None)) streams opss ->
  unrelated root (do_ops fs0 (List.concat opss)) ->
  (forall l, exists s, load fmt l = Ok s) ->
  inventory_ok channels -> one_group channels -> events_ok year events ->
  (forall p s l s' out, In (p, s) streams -> Permutation l s -> load fmt l = Ok s' -> process s' = Ok out -> good year (p, out)) ->
  iter_event_metadata (Some events) channels = (metas, fin) ->
  run_loop fmt_time str_of h5key writer (fetch fmt_time load pin fmt) process root fmt2 TRf metas fin (do_ops fs0 (List.concat opss)) = (ops, None) ->
  proper year p ->
  let before := do_ops fs0 (List.concat opss) in
  let after := do_ops before ops in
  (forall s, In (p, s) streams -> requested events channels p ->
     exists l s' out l', Permutation l s /\ load fmt l = Ok s' /\ process s' = Ok out /\ Permutation l' out /\
       fetch fmt_time load root fmt2 after (meta p cha) = read_result (load fmt2 l')) /\
  ((forall q s, In (q, s) streams -> same_pair p q -> ~ requested events channels q) -> fetch fmt_time load root fmt2 after (meta p cha) = Ok None) /\
  fetch fmt_time load pin fmt after (meta p cha) = fetch fmt_time load pin fmt before (meta p cha).
Proof.
  intros Hc Hpin Hroot Hne Hu Hg Hd Hf Hf2 Hk Hk2 Hw Hu2 Hl Hinv Hone Hev Hproc Hmeta Hrun Hp before after.
  destruct (metas_pairs year events channels Hinv Hone Hev) as (ps & Em & Hpp & Hpd & Hrq). rewrite Em in Hmeta. inversion Hmeta; subst metas fin. clear Hmeta.
  assert (forall p cha, proper year p -> found load streams fmt (pairb p) (fetch fmt_time load pin fmt before (meta p cha))) as Hread.
  { intros q c Hq. exact (proj1 (fetch_eq fmt_time year Hc str_of h5key writer load pin Hpin fs0 Hu streams Hg Hd fmt before q c opss Hf Hk Hw eq_refl Hq)). }
  destruct (loop_results fmt_time year Hc str_of h5key writer load pin root fmt fmt2 before streams process Hpin Hne Hf Hf2 Hg Hd Hread Hl Hproc ps Hpp [] ops (Forall_nil _) Hrun)
    as (rs & opss2 & -> & Hw2 & Hfrom & Hmine).
  assert (ForallOrdPairs (fun a b => ~ same_pair (fst a) (fst b)) rs) as Hd2.
  { refine (FOP_Forall2 _ _ _ _ rs _ (visited_FOP streams ps Hd Hpd) Hfrom). intros a b x y H [Ea _] [Eb _]. rewrite Ea, Eb. exact H. }
  assert (Forall (good year) rs) as Hg2.
  { apply Forall_forall. intros [q o] Hr. destruct (F2_in_r _ _ _ _ Hfrom Hr) as ([q' s] & Hx & E & l & s' & P & L & Pr). cbn [fst snd] in *. subst q'.
    apply visited_in in Hx. apply (Hproc q s l s' o); [apply Hx | exact P | exact L | exact Pr]. }
  assert (fmt2 = "H5" -> NoDup (map h5key (flat_map snd rs))) as Hk3.
  { intros E. specialize (Hk2 E). clear - Hk2 Hd2 Hg2. induction rs as [|[q o] rs IH]; [constructor|]. inversion Hg2 as [|? ? (Q & T & _ & N & L) Hg']; subst. inversion Hd2 as [|? ? Hx Hd']; subst.
    cbn [flat_map snd fst] in *. rewrite map_app. apply NoDup_app_intro; [|apply IH; assumption|].
    - clear - T N L Q Hk2. induction o as [|t o IH]; [constructor|]. inversion T as [|? ? T1 T2]; inversion N as [|? ? N1 N2]; inversion L as [|? ? L1 L2]; subst. cbn [map] in *. constructor; [|apply IH; assumption].
      intros Hin. apply in_map_iff in Hin. destruct Hin as (u & Eu & Hu). apply N1. rewrite Forall_forall in T2, L2.
      destruct (Hk2 q q u t Q Q (T2 u Hu) T1 (L2 u Hu) L1 Eu) as [_ E]. rewrite <- E. apply (in_map (fun t => channel (st t)) o u Hu).
    - intros k H1 H2. apply in_map_iff in H1. destruct H1 as (t & <- & Ht). apply in_map_iff in H2. destruct H2 as (u & Eu & Hu). apply in_flat_map in Hu. destruct Hu as (r & Hr & Hu).
      rewrite Forall_forall in Hx, Hg', T, L. apply (Hx r Hr). destruct (Hg' r Hr) as (Q2 & T2 & _ & _ & L2). rewrite Forall_forall in T2, L2.
      apply (Hk2 q (fst r) t u Q Q2 (T t Ht) (T2 u Hu) (L t Ht) (L2 u Hu)). symmetry. exact Eu. }
  destruct (fetch_eq fmt_time year Hc str_of h5key writer load root Hroot before Hu2 rs Hg2 Hd2 fmt2 after p cha opss2 Hf2 Hk3 Hw2 eq_refl Hp) as [(l2 & P2 & E2) _].
  split; [|split].
  - intros s Hin Hreq. destruct Hp as (K1 & K2 & K3 & Yp). apply (Hrq p K1 K2 K3) in Hreq.
    assert (In (p, s) (visited streams ps)) as Hv by (apply visited_in; split; [exact Hin | exact Hreq]).
    destruct (F2_in_l _ _ _ _ Hfrom Hv) as ([q out] & Hr & E & l & s' & P & L & Pr). cbn [fst snd] in *. subst q.
    rewrite (traces_pair writer load root rs Hd2 p out Hr) in *. exists l, s', out, l2. repeat (split; [assumption|]).
    rewrite E2. destruct out; [|reflexivity]. exfalso. rewrite Forall_forall in Hg2. destruct (Hg2 _ Hr) as (_ & _ & Hn & _). apply Hn. reflexivity.
  - intros Hn. rewrite E2, traces_none; [reflexivity|]. intros q out Hr. destruct (pairb p q) eqn:Epq; [|reflexivity]. exfalso.
    destruct (F2_in_r _ _ _ _ Hfrom Hr) as ([q' s] & Hv & E & _). cbn [fst snd] in *. subst q'. apply visited_in in Hv. destruct Hv as [Hin Hreq]. cbn [fst] in Hreq.
    rewrite Forall_forall in Hg. destruct (Hg _ Hin) as ((K1 & K2 & K3 & _) & _). cbn [fst] in *. apply (Hn q s Hin); [apply pairb_spec, Epq | apply (Hrq q K1 K2 K3), Hreq].
  - apply (unchanged fmt_time year Hc writer load pin root fmt before Hpin Hne Hf (List.concat opss2) p cha Hmine Hp).
Qed.
Print Assumptions C109_results_partial.

(** a case: converting from Q to H5, and receiver functions of SAC data *)
Definition h5_e (t : trace) : string :=
  (nsl (network (st t)) (station (st t)) (location (st t)) ++ "/" ++ channel (st t) ++ "/" ++
   match dget (extra (st t)) "event_time" with Some (VTime z) => clock_e z | _ => "" end)%string.
Lemma h5_e_inj p q t u : proper year_e p -> proper year_e q -> trace_of p t -> trace_of q u ->
  three_letters (channel (st t)) -> three_letters (channel (st u)) -> h5_e t = h5_e u -> same_pair p q /\ channel (st t) = channel (st u).
Proof.
  intros Hp Hq (T1 & T2 & T3 & e & T4 & T5) (U1 & U2 & U3 & e' & U4 & U5) [_ Lt] [_ Lu] H. unfold h5_e in H. rewrite T1, T2, T3, T4, U1, U2, U3, U4 in H.
  apply (f_equal la) in H. rewrite !la_app in H. cbn [list_ascii_of_string app] in H.
  pose proof (proper_codes year_e (fun _ _ => None) (fun _ l => Ok l) "" p Hp) as [Cp Yp]. pose proof (proper_codes year_e (fun _ _ => None) (fun _ l => Ok l) "" q Hq) as [Cq Yq].
  apply split_sep in H; [|apply (codes_lid p Cp) | apply (codes_lid q Cq)]. destruct H as [E H].
  apply split_sep in H; [|apply char_in_la, Lt | apply char_in_la, Lu]. destruct H as [E2 H]. apply la_inj in E2, H.
  split; [|exact E2]. split; [apply (codes_inj p q Cp Cq E)|]. apply (proj2 (proj2 clock_e_ok _ _)); [assumption|assumption|].
  rewrite <- (proj1 (proj2 clock_e_ok _ _) T5), <- (proj1 (proj2 clock_e_ok _ _) U5). exact H.
Qed.
Definition conv_e (pin root fmt fmt2 : string) (process : list trace -> res (list trace)) : res (list wop * files) :=
  let fs := do_ops [] (flat_map (fun ps => fst (write clock_e (fun _ => "") h5_e (fun _ _ => None) (snd ps) pin fmt TRf)) streams_e) in
  let (metas, fin) := iter_event_metadata (Some [event_e 40 7]) inv_e in
  match run_loop clock_e (fun _ => "") h5_e (fun _ _ => None) (fetch_e pin fmt) process root fmt2 TRf metas fin fs with
  | (ops, None) => Ok (ops, do_ops fs ops)
  | (_, Some e) => Err e
  end.
Example C109_nonvacuous :
  (forall p q t u, proper year_e p -> proper year_e q -> trace_of p t -> trace_of q u ->
     three_letters (channel (st t)) -> three_letters (channel (st u)) -> h5_e t = h5_e u -> same_pair p q /\ channel (st t) = channel (st u)) /\
  (forall p s l s' out, In (p, s) streams_e -> Permutation l s -> Ok l = Ok s' -> twice_e s' = Ok out -> good year_e (p, out)) /\
  requested [event_e 40 7] inv_e (pair_e "PB01" 5) /\ requested [event_e 40 7] inv_e (pair_e "PB02" 5) /\ ~ requested [event_e 40 7] inv_e (pair_e "PB01" 1000000007) /\
  (exists ops fs l, conv_e "in" "out" "Q" "H5" (fun s => Ok s) = Ok (ops, fs) /\ fetch_e "out" "H5" fs (meta (pair_e "PB01" 5) "BH?") = Ok (Some l) /\ length l = 2 /\
     fetch_e "out" "H5" fs (meta (pair_e "PB01" 1000000007) "BH?") = Ok None) /\
  (exists ops fs t u, conv_e "in" "out" "SAC" "SAC" twice_e = Ok (ops, fs) /\ fetch_e "out" "SAC" fs (meta (pair_e "PB02" 5) "BH?") = Ok (Some [t; u]) /\ data t = [21 + 21]%Q).
Proof.
  split; [exact h5_e_inj|]. split.
  { intros p s l s' out Hin P El Et. injection El as <-. unfold twice_e in Et. injection Et as <-.
    assert (Forall (good year_e) streams_e) as Hall by (repeat (constructor; [apply good_e; [repeat split | unfold year_e; lia]|]); constructor).
    rewrite Forall_forall in Hall. destruct (Hall _ Hin) as (H1 & H2 & H3 & H4 & H5). cbn [fst snd] in *. split; [exact H1|]. cbn [fst snd].
    assert (Forall (trace_of p) l) as H2' by (eapply Permutation_Forall; [apply Permutation_sym, P | exact H2]).
    assert (Forall (fun t => three_letters (channel (st t))) l) as H5' by (eapply Permutation_Forall; [apply Permutation_sym, P | exact H5]).
    split; [|split; [|split]].
    - apply Forall_forall. intros x Hx. apply in_map_iff in Hx. destruct Hx as (t & <- & Ht). rewrite Forall_forall in H2'. exact (H2' t Ht).
    - destruct l; [apply Permutation_nil in P; congruence | discriminate].
    - rewrite map_map. cbn [st]. apply (Permutation_NoDup (l := map (fun t => channel (st t)) s)); [apply Permutation_map, Permutation_sym, P | exact H4].
    - apply Forall_forall. intros x Hx. apply in_map_iff in Hx. destruct Hx as (t & <- & Ht). rewrite Forall_forall in H5'. exact (H5' t Ht). }
  split; [|split; [|split]].
  - split; [exists (event_e 40 7), 7%Z; split; [left; reflexivity|]; split; reflexivity|]. exists "BHZ". split; [discriminate|]. split; [reflexivity|]. cbn. auto.
  - split; [exists (event_e 40 7), 7%Z; split; [left; reflexivity|]; split; reflexivity|]. exists "BHZ". split; [discriminate|]. split; [reflexivity|]. cbn. auto 10.
  - intros [(ev & t & [<-|[]] & Ht & Es) _]. injection Ht as <-. discriminate Es.
  - split.
    + do 3 eexists. split; [vm_compute; reflexivity|]. split; [vm_compute; reflexivity|]. split; vm_compute; reflexivity.
    + do 4 eexists. split; [vm_compute; reflexivity|]. split; [vm_compute; reflexivity|]. reflexivity.
Qed.

(** The full C109 does not hold: with the same path for input and output, Q files contain the results
    together with the data. *)
Theorem C109_in_place_refuted :
  exists ops fs l, conv_e "in" "in" "Q" "Q" twice_e = Ok (ops, fs) /\ fetch_e "in" "Q" fs (meta (pair_e "PB01" 5) "BH?") = Ok (Some l) /\
    length l = 4 /\ map data l = [[1]; [1 + 1]; [1 + 1]; [1 + 1 + (1 + 1)]]%Q.
Proof. do 3 eexists. split; [vm_compute; reflexivity|]. split; [vm_compute; reflexivity|]. split; reflexivity. Qed.
Print Assumptions C109_in_place_refuted.
