(** C56-C59, C84, C85: metadata of the result, refuted statements and examples *)
From Verif Require Import Model.Harmonics Spec.HarmonicSpec Proofs.PyFacts Proofs.SumFacts Proofs.LstsqFacts Proofs.TrigPolyFacts Proofs.HarmonicFacts Proofs.HarmonicMain Proofs.WaterFacts.
From Verif Require Import Properties.HarmonicProps Properties.HarmonicProps2.
From Coq Require Import Lra Lia.
Notation length := List.length.
Open Scope R_scope.

(** C59: entries of trace number j of the result *)
Definition term_names : list string := ["constant"; "cos"; "sin"; "cos2"; "sin2"].
Definition numerals : list string := ["0"; "1"; "2"; "3"; "4"].
Definition dropped : list string :=
  ["processing"; "event_id"; "event_depth"; "event_latitude"; "event_longitude"; "event_magnitude"; "inclination"; "slowness"; "event_time"; "back_azimuth"].
(** all but the entry components *)
Definition harmonic_trace (first : stats) (n j : nat) (t : htrace) : Prop :=
  length (ht_data t) = n /\
  network (ht_st t) = network first /\ station (ht_st t) = station first /\
  starttime (ht_st t) = starttime first /\ delta (ht_st t) = delta first /\
  channel (ht_st t) = nth (j mod 5) numerals "" /\ location (ht_st t) = (if (j <? 5)%nat then "mod" else "unmod") /\
  dget (extra (ht_st t)) "term" = Some (VStr (nth (j mod 5) term_names "")) /\
  dget (extra (ht_st t)) "type" = Some (VStr "harmonic") /\
  (forall k, In k dropped -> NoDup (map fst (extra first)) -> dget (extra (ht_st t)) k = None) /\
  (forall k, ~ In k (dropped ++ ["term"; "type"; "components"]) -> dget (extra (ht_st t)) k = dget (extra first) k).

Lemma ddel_NoDup (d : dict value) k : NoDup (map fst d) -> NoDup (map fst (ddel d k)).
Proof.
  unfold ddel. induction d as [|[k0 v] d IH]; intros H; [constructor|]. inversion H as [|? ? Hn Hd]; subst. cbn [adel].
  destruct (String.eqb k k0); [exact Hd|]. cbn [map fst].
  assert (forall x, In x (map fst (adel String.eqb d k)) -> In x (map fst d)) as Hin.
  { clear. induction d as [|[k1 v1] d IH]; intros x Hx; [destruct Hx|]. cbn [adel] in Hx. destruct (String.eqb k k1); [right; exact Hx|].
    destruct Hx as [<-|Hx]; [left; reflexivity | right; apply IH, Hx]. }
  constructor; [intros Hc; apply Hn, Hin, Hc | apply IH, Hd].
Qed.
Lemma clean_dropped s k : In k dropped -> NoDup (map fst (extra s)) -> dget (extra (clean s)) k = None.
Proof.
  intros Hk Hn. unfold clean. cbn [extra].
  rewrite dget_dset_ne by (intros <-; unfold dropped in Hk; cbn in Hk; intuition discriminate).
  assert (forall ks (d : dict value), NoDup (map fst d) -> NoDup (map fst (fold_left ddel ks d)) /\ (In k ks \/ dget d k = None -> dget (fold_left ddel ks d) k = None)) as H.
  { induction ks as [|k0 ks IH]; intros d Hd; [split; [exact Hd|]; intros [[]|H]; exact H|]. cbn [fold_left].
    assert (NoDup (map fst (ddel d k0))) as Hd' by (apply ddel_NoDup, Hd).
    destruct (IH _ Hd') as [I1 I2]. split; [exact I1|]. intros H. apply I2.
    destruct (string_dec k0 k) as [->|Hne]; [right; apply dget_ddel_eq, Hd|]. rewrite dget_ddel_ne by exact Hne.
    destruct H as [[H|H]|H]; [contradiction | left; exact H | right; exact H]. }
  apply H; [exact Hn | left; exact Hk].
Qed.
Lemma clean_kept s k : ~ In k (dropped ++ ["term"; "type"; "components"]) -> dget (extra (clean s)) k = dget (extra s) k.
Proof.
  intros Hk. unfold clean. cbn [extra]. rewrite in_app_iff in Hk. cbn [In] in Hk. rewrite dget_dset_ne by (intros <-; apply Hk; auto).
  assert (forall ks (d : dict value), ~ In k ks -> dget (fold_left ddel ks d) k = dget d k) as H.
  { induction ks as [|k0 ks IH]; intros d Hin; [reflexivity|]. cbn [fold_left]. rewrite IH by (intros H; apply Hin; right; exact H).
    apply dget_ddel_ne. intros ->. apply Hin. left. reflexivity. }
  apply H. intros Hin. apply Hk. left. exact Hin.
Qed.
Lemma clean_type s : dget (extra (clean s)) "type" = Some (VStr "harmonic"). Proof. apply dget_dset_eq. Qed.

Section H.
  Variable lstsq : list (list R) -> list R -> list R.
  Variable clstsq : list (list R) -> list cplx -> list cplx.
  Hypothesis Hl : correct_lstsq lstsq.
  Hypothesis Hcl : correct_clstsq clstsq.
  Notation harmonics := (harmonics lstsq clstsq).

  Ltac field_tac first Hr :=
    unfold harmonic_trace; cbn [ht_data ht_st ht_set ht_channel ht_location network station starttime delta channel location extra];
    repeat match goal with |- _ /\ _ => split end;
    try reflexivity; try (apply Hr; cbn; tauto);
    try (rewrite !dget_dset; reflexivity);
    try (rewrite !dget_dset; cbn; exact (clean_type first));
    [ intros k Hk Hn; rewrite !dget_dset_ne by (intros <-; unfold dropped in Hk; cbn in Hk; intuition discriminate); apply clean_dropped; assumption
    | intros k Hk; rewrite !dget_dset_ne by (intros <-; apply Hk; apply in_app_iff; right; cbn; tauto); apply clean_kept; exact Hk ].

  Theorem C59_one stream c azim method sc out first rest :
    harmonics stream (String c "") azim method sc = Ok out -> stream = first :: rest ->
    length out = 5%nat /\
    forall j t, nth_error out j = Some t ->
      harmonic_trace (ht_st first) (points stream) j t /\ dget (extra (ht_st t)) "components" = Some (VStr (String c "")).
  Proof.
    intros H Hs. destruct (harm_fit lstsq clstsq Hl Hcl _ _ _ _ _ _ H) as (two & trs & trsT & jac & first' & rest' & Hin & Hs' & (hd & Hd & Hr & Ho) & _).
    destruct Hin as (c0 & _ & _ & _ & _ & _ & [(-> & _)|(-> & Hc & _)]); [|discriminate].
    rewrite Hs in Hs'. inversion Hs'; subst first' rest'. rewrite Hs. cbn [points].
    change (nharm false) with 5%nat in Hd. clear H Hs Hs'.
    destruct hd as [|d0 [|d1 [|d2 [|d3 [|d4 [|]]]]]]; try discriminate Hd.
    unfold harm_out in Ho. cbn [map seq fold_left upd skipn firstn app nth terms digit] in Ho. subst out. split; [reflexivity|].
    intros j t Hj.
    do 5 (destruct j as [|j]; [cbn [nth_error] in Hj; injection Hj as <-; split; [field_tac (ht_st first) Hr | cbn [ht_data ht_st ht_set ht_channel ht_location extra]; rewrite !dget_dset; reflexivity]|]).
    destruct j; discriminate Hj.
  Qed.
  Theorem C59_two_partial stream c azim method sc out first rest :
    harmonics stream (String c "T") azim method sc = Ok out -> stream = first :: rest ->
    length out = 10%nat /\
    forall j t, nth_error out j = Some t ->
      harmonic_trace (ht_st first) (points stream) j t /\
      ((j < 5)%nat \/ j = 9%nat -> dget (extra (ht_st t)) "components" = Some (VStr (String c "T"))).
  Proof.
    intros H Hs. destruct (harm_fit lstsq clstsq Hl Hcl _ _ _ _ _ _ H) as (two & trs & trsT & jac & first' & rest' & Hin & Hs' & (hd & Hd & Hr & Ho) & _).
    destruct Hin as (c0 & _ & _ & _ & _ & _ & [(-> & Hc & _)|(-> & _)]); [discriminate|].
    rewrite Hs in Hs'. inversion Hs'; subst first' rest'. rewrite Hs. cbn [points].
    change (nharm true) with 10%nat in Hd. clear H Hs Hs'.
    destruct hd as [|d0 [|d1 [|d2 [|d3 [|d4 [|d5 [|d6 [|d7 [|d8 [|d9 [|]]]]]]]]]]]; try discriminate Hd.
    unfold harm_out in Ho. cbn [map seq fold_left upd skipn firstn app nth terms digit Nat.sub] in Ho. subst out. split; [reflexivity|].
    intros j t Hj.
    do 10 (destruct j as [|j]; [cbn [nth_error] in Hj; injection Hj as <-; split;
      [field_tac (ht_st first) Hr
      | intros Hj; first [ cbn [ht_data ht_st ht_set ht_channel ht_location extra]; rewrite !dget_dset; reflexivity
                         | exfalso; lia ]]|]).
    destruct j; discriminate Hj.
  Qed.
End H.

(** ** examples *)
Definition rf_stats (ch : string) (time : Z) (b : Q) : stats :=
  mkStats "NT" "ST" "" ch 0 1 [("event_time", VTime time); ("back_azimuth", VNum b); ("onset", VTime 5); ("type", VStr "rf")].
Definition rf_tr (ch : string) (time : Z) (b : Q) (data : list R) : htrace := mkHT (rf_stats ch time b) data.

(** C58: R of the events 1 and 2 and T of the events 2 and 3: no pairs, but no error *)
Definition wrong_events : list htrace :=
  [rf_tr "BHR" 1 10 [1]; rf_tr "BHR" 2 50 [2]; rf_tr "BHT" 2 50 [3]; rf_tr "BHT" 3 90 [4]].
Theorem C58_refuted :
  (~ exists pairs, pairing (rfs "R" wrong_events) (rfs "T" wrong_events) pairs) /\
  forall lstsq clstsq, exists out, harmonics lstsq clstsq wrong_events "RT" 0 "time" None = Ok out /\ length out = 10%nat.
Proof.
  split.
  - intros (pairs & H1 & H2 & H3).
    assert (In (rf_tr "BHR" 1 10 [1]) (map fst pairs)) as Hi by (apply (Permutation_in _ (Permutation_sym H1)); left; reflexivity).
    apply in_map_iff in Hi. destruct Hi as ([a b] & E & Hp). cbn [fst] in E. subst a. specialize (H3 _ Hp). cbn [fst snd] in H3.
    assert (In b (map snd pairs)) as Hb by (apply in_map_iff; exists (rf_tr "BHR" 1 10 [1], b); auto).
    apply (Permutation_in b H2) in Hb. destruct Hb as [<-|[<-|[]]]; discriminate H3.
  - intros lstsq clstsq. eexists. split; reflexivity.
Qed.
(** C59: the entry components of trace 5 is missing *)
Definition two_rfs : list htrace := [rf_tr "BHR" 1 10 [1]; rf_tr "BHT" 1 10 [2]].
Theorem C59_refuted : forall lstsq clstsq, exists out t,
  harmonics lstsq clstsq two_rfs "RT" 0 "time" None = Ok out /\ nth_error out 5 = Some t /\ dget (extra (ht_st t)) "components" = None.
Proof. intros lstsq clstsq. eexists. eexists. split; [reflexivity|]. split; reflexivity. Qed.
(** C85: the number of samples is that of the first trace *)
Definition short_first : list htrace := [rf_tr "BHZ" 1 10 [1]; rf_tr "BHR" 1 10 [1; 2]].
Theorem C85_refuted : forall lstsq clstsq, exists stream stream' out out',
  Permutation stream stream' /\
  harmonics lstsq clstsq stream "R" 0 "time" None = Ok out /\ harmonics lstsq clstsq stream' "R" 0 "time" None = Ok out' /\
  map (fun t => length (ht_data t)) out = repeat 1%nat 5 /\ map (fun t => length (ht_data t)) out' = repeat 2%nat 5.
Proof.
  intros lstsq clstsq. exists short_first, (rev short_first). eexists. eexists.
  split; [apply Permutation_rev|]. split; [reflexivity|]. split; [reflexivity|]. split; reflexivity.
Qed.

(** hypotheses of C56, C57, C84, C85: exact harmonics at five azimuths *)
Definition bazs5 : list Q := [0%Q; 72%Q; 144%Q; 216%Q; 288%Q].
Definition exact5 (h : list R) : list htrace :=
  map (fun p => rf_tr "BHR" (fst p) (snd p) [harmonic 10 h (Q2R (snd p)); 0]) (combine [1; 2; 3; 4; 5]%Z bazs5).
Lemma different_Q a b : (0 <= a < 360)%Z -> (0 <= b < 360)%Z -> a <> b -> different (Q2R (inject_Z a)) (Q2R (inject_Z b)).
Proof.
  intros Ha Hb Hne k H. unfold Q2R, inject_Z in H. cbn [QArith_base.Qnum QArith_base.Qden] in H.
  assert (IZR (a - b) = IZR (360 * k)) as E by (rewrite minus_IZR, mult_IZR; lra). apply eq_IZR in E. lia.
Qed.
Lemma exact5_azimuths h : five_azimuths (map baz_of (rfs "R" (exact5 h))).
Proof.
  exists [Q2R (inject_Z 0); Q2R (inject_Z 72); Q2R (inject_Z 144); Q2R (inject_Z 216); Q2R (inject_Z 288)].
  split; [reflexivity|]. split; [intros x Hx; exact Hx|].
  repeat (constructor; [repeat (constructor; [apply different_Q; lia|]); constructor|]). constructor.
Qed.
Example C56_nonvacuous : exists lstsq clstsq, correct_lstsq lstsq /\ correct_clstsq clstsq /\
  forall h, length h = 5%nat -> 
    five_azimuths (map baz_of (rfs "R" (exact5 h))) /\ points (exact5 h) = 2%nat /\ all_same_points (exact5 h) /\
    (forall t, In t (rfs "R" (exact5 h)) -> sample 0 t = harmonic 10 h (baz_of t)) /\
    exists out, harmonics lstsq clstsq (exact5 h) "R" 10 "freq" None = Ok out /\ harmonics lstsq clstsq (exact5 h) "R" 10 "time" None = Ok out /\
      coefficients 0 out = h /\ coefficients 1 out = [0; 0; 0; 0; 0].
Proof.
  destruct solvers_exist as (lstsq & clstsq & Hl & Hcl). exists lstsq, clstsq. split; [exact Hl|]. split; [exact Hcl|]. intros h Hh.
  split; [apply exact5_azimuths|]. split; [reflexivity|].
  assert (all_same_points (exact5 h)) as Hs.
  { intros t Ht. repeat (destruct Ht as [<-|Ht]; [reflexivity|]). destruct Ht. }
  split; [exact Hs|].
  assert (forall t, In t (rfs "R" (exact5 h)) -> sample 0 t = harmonic 10 h (baz_of t)) as Hex.
  { intros t Ht. repeat (destruct Ht as [<-|Ht]; [reflexivity|]). destruct Ht. }
  split; [exact Hex|].
  assert (exists out, harmonics lstsq clstsq (exact5 h) "R" 10 "time" None = Ok out) as [out H] by (eexists; reflexivity).
  exists out. split; [rewrite (C84_methods_agree lstsq clstsq Hl Hcl); [exact H | cbn; lia | exact Hs]|]. split; [exact H|]. split.
  - apply (C56_recover_one lstsq clstsq Hl Hcl _ "R" 10 "time" None out 0 h H); [intros E; discriminate E | cbn; lia | apply exact5_azimuths | exact Hh | exact Hex].
  - apply (C56_recover_one lstsq clstsq Hl Hcl _ "R" 10 "time" None out 1 _ H); [intros E; discriminate E | cbn; lia | apply exact5_azimuths | reflexivity |].
    intros t Ht. unfold harmonic. cbn [nth]. rewrite !Rmult_0_l, !Rplus_0_l. repeat (destruct Ht as [<-|Ht]; [reflexivity|]). destruct Ht.
Qed.
(** two components with the same events in another order *)
Definition pair_stream (h : list R) : list htrace :=
  exact5 (firstn 5 h) ++ rev (map (fun p => rf_tr "BHT" (fst p) (snd p) [1; 2]) (combine [1; 2; 3; 4; 5]%Z bazs5)).
Example C58_nonvacuous : exists lstsq clstsq, correct_lstsq lstsq /\ correct_clstsq clstsq /\
  forall h, exists out, harmonics lstsq clstsq (pair_stream h) "RT" 10 "time" None = Ok out /\
    same_events (rfs "R" (pair_stream h)) (rfs "T" (pair_stream h)).
Proof.
  destruct solvers_exist as (lstsq & clstsq & Hl & Hcl). exists lstsq, clstsq. split; [exact Hl|]. split; [exact Hcl|]. intros h.
  eexists. split; [reflexivity|]. unfold same_events.
  assert (map HarmonicSpec.time_of (rfs "R" (pair_stream h)) = map (fun z => Some (VTime z)) [1; 2; 3; 4; 5]%Z) as -> by reflexivity.
  assert (map HarmonicSpec.time_of (rfs "T" (pair_stream h)) = map (fun z => Some (VTime z)) [5; 4; 3; 2; 1]%Z) as -> by reflexivity.
  split; [repeat (constructor; [cbn; intuition discriminate|]); constructor|].
  split; [repeat (constructor; [cbn; intuition discriminate|]); constructor|].
  intros k. cbn. tauto.
Qed.
(** two streams as in C85: reversed, and with another component *)
Example C85_nonvacuous h : exists lstsq clstsq out out', correct_lstsq lstsq /\ correct_clstsq clstsq /\
  let s := exact5 h in let s' := rf_tr "BHZ" 1 10 [1; 1] :: rev (exact5 h) in
  harmonics lstsq clstsq s "R" 0 "time" None = Ok out /\ harmonics lstsq clstsq s' "R" 0 "time" None = Ok out' /\
  all_same_points s /\ all_same_points s' /\ points s = points s' /\ Permutation (rfs "R" s) (rfs "R" s') /\ NoDup (map HarmonicSpec.time_of (rfs "R" s)).
Proof.
  destruct solvers_exist as (lstsq & clstsq & Hl & Hcl). exists lstsq, clstsq. eexists. eexists. split; [exact Hl|]. split; [exact Hcl|].
  cbv zeta. split; [reflexivity|]. split; [reflexivity|].
  split; [intros t Ht; repeat (destruct Ht as [<-|Ht]; [reflexivity|]); destruct Ht|].
  split; [intros t Ht; repeat (destruct Ht as [<-|Ht]; [reflexivity|]); destruct Ht|].
  split; [reflexivity|]. split; [exact (Permutation_rev (exact5 h))|].
  assert (map HarmonicSpec.time_of (rfs "R" (exact5 h)) = map (fun z => Some (VTime z)) [1; 2; 3; 4; 5]%Z) as -> by reflexivity.
  repeat (constructor; [cbn; intuition discriminate|]); constructor.
Qed.

Print Assumptions C56_fit_one. Print Assumptions C56_recover_one. Print Assumptions C56_recover_two.
Print Assumptions C57_turn. Print Assumptions C57_prediction_one. Print Assumptions C57_prediction_two.
Print Assumptions C58_counts. Print Assumptions C58_pairs_partial. Print Assumptions C58_refuted. 
Print Assumptions C59_one. Print Assumptions C59_two_partial. Print Assumptions C59_refuted.
Print Assumptions C84_methods_agree. Print Assumptions C85_order_partial. Print Assumptions C85_refuted.
Print Assumptions C56_nonvacuous. Print Assumptions C58_nonvacuous. Print Assumptions C85_nonvacuous.
