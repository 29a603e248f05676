(** C57, C58, C59, C84, C85: azimuth, pairs of components, metadata, methods and order *)
From Verif Require Import Model.Harmonics Spec.HarmonicSpec Proofs.PyFacts Proofs.SumFacts Proofs.LstsqFacts Proofs.TrigPolyFacts Proofs.HarmonicFacts Proofs.HarmonicMain Proofs.WaterFacts.
From Verif Require Import Properties.HarmonicProps.
From Coq Require Import Lra Lia.
Notation length := List.length.
Open Scope R_scope.

(** coefficients for another azimuth, for 5 or 10 terms *)
Definition all_turned (azim : R) (c : list R) : list R :=
  if (length c =? 10)%nat then turned azim (firstn 5 c) ++ turned azim (skipn 5 c) else turned azim c.

Lemma lstsq_turn n J J' v x (U V : list R -> list R) :
  length J' = length J ->
  (forall x, length x = n -> length (U x) = n /\ length (V x) = n /\ dot (U x) (U x) = dot x x /\ dot (V x) (V x) = dot x x) ->
  (forall x i, length x = n -> (i < length J)%nat -> dot (nth i J' []) (U x) = dot (nth i J []) x /\ dot (nth i J' []) x = dot (nth i J []) (V x)) ->
  is_lstsq n J v x -> is_lstsq n J' v (U x).
Proof.
  intros Hl HUV HJ (Hx & Hmin & Hnorm).
  assert (forall y, length y = n -> misfit_of J' v (U y) = misfit_of J v y /\ misfit_of J' v y = misfit_of J v (V y)) as Hm.
  { intros y Hy. unfold misfit_of. rewrite Hl. split; apply rsum_ext; intros i Hi; [rewrite (proj1 (HJ y i Hy Hi)) | rewrite (proj2 (HJ y i Hy Hi))]; reflexivity. }
  destruct (HUV x Hx) as (H1 & _ & H3 & _).
  split; [exact H1|]. rewrite (proj1 (Hm x Hx)). split.
  - intros y Hy. rewrite (proj2 (Hm y Hy)). apply Hmin. apply HUV, Hy.
  - intros y Hy. rewrite (proj2 (Hm y Hy)). intros E. rewrite H3. destruct (HUV y Hy) as (_ & HV & _ & <-). apply Hnorm; assumption.
Qed.
Lemma cosd_add a b : cosd (a + b) = cosd a * cosd b - sind a * sind b.
Proof. unfold cosd, sind. rewrite <- cos_plus. f_equal. field. Qed.
Lemma sind_add a b : sind (a + b) = sind a * cosd b + cosd a * sind b.
Proof. unfold cosd, sind. rewrite <- sin_plus. f_equal. field. Qed.
Lemma sc1 a : sind a * sind a = 1 - cosd a * cosd a.
Proof. unfold cosd, sind. pose proof (sin2_cos2 (a * PI / 180)) as H. unfold Rsqr in H. lra. Qed.
Lemma turned_length a c : length (turned a c) = 5%nat. Proof. reflexivity. Qed.
Lemma dot5 a c : length c = 5%nat -> dot (turned a c) (turned a c) = dot c c.
Proof.
  intros H. destruct c as [|c0 [|c1 [|c2 [|c3 [|c4 [|]]]]]]; try discriminate. unfold turned. cbn.
  pose proof (sc1 a) as E1. pose proof (sc1 (2 * a)) as E2.
  set (A := cosd a) in *. set (B := sind a) in *. set (X := cosd (2 * a)) in *. set (Y := sind (2 * a)) in *.
  transitivity (c0 * c0 + (c1 * c1 + c2 * c2) * (A * A + B * B) + (c3 * c3 + c4 * c4) * (X * X + Y * Y)); [ring|]. rewrite E1, E2. ring.
Qed.
(** a combination of cos and sin *)
Lemma wave a x1 x2 phi : (x1 * cosd a + x2 * sind a) * cosd phi + (x2 * cosd a - x1 * sind a) * sind phi = x1 * cosd (a + phi) + x2 * sind (a + phi).
Proof. rewrite cosd_add, sind_add. ring. Qed.

Lemma harmonic_turned a a' c b : length c = 5%nat -> harmonic a' (turned (a' - a) c) b = harmonic a c b.
Proof.
  intros H. destruct c as [|c0 [|c1 [|c2 [|c3 [|c4 [|]]]]]]; try discriminate. unfold harmonic, turned. cbn [nth].
  pose proof (wave (a' - a) c1 c2 (b - a')) as W1. pose proof (wave (2 * (a' - a)) c3 c4 (2 * (b - a'))) as W2.
  replace (a' - a + (b - a')) with (b - a) in W1 by ring. replace (2 * (a' - a) + 2 * (b - a')) with (2 * (b - a)) in W2 by ring. lra.
Qed.
Ltac len10 c H := destruct c as [|c0 [|c1 [|c2 [|c3 [|c4 [|c5 [|c6 [|c7 [|c8 [|c9 [|]]]]]]]]]]]; try discriminate H.
Lemma harmonic_R_turned s a a' c b : length c = 10%nat -> harmonic_R s a' (all_turned (a' - a) c) b = harmonic_R s a c b.
Proof.
  intros H. len10 c H. unfold harmonic_R, all_turned, turned. cbn [length Nat.eqb firstn skipn app nth].
  pose proof (wave (a' - a) (c1 + c6) (c2 + c7) (b - a')) as W1. pose proof (wave (2 * (a' - a)) (c3 + c8) (c4 + c9) (2 * (b - a'))) as W2.
  replace (a' - a + (b - a')) with (b - a) in W1 by ring. replace (2 * (a' - a) + 2 * (b - a')) with (2 * (b - a)) in W2 by ring.
  cbn in W1, W2 |- *. lra.
Qed.
Lemma harmonic_T_turned s a a' c b : length c = 10%nat -> harmonic_T s a' (all_turned (a' - a) c) b = harmonic_T s a c b.
Proof.
  intros H. len10 c H. unfold harmonic_T, all_turned, turned. cbn [length Nat.eqb firstn skipn app nth].
  pose proof (wave (a' - a) (c1 - c6) (c2 - c7) (b - a' + 90)) as W1. pose proof (wave (2 * (a' - a)) (c3 - c8) (c4 - c9) (2 * (b - a' + 45))) as W2.
  replace (a' - a + (b - a' + 90)) with (b - a + 90) in W1 by ring. replace (2 * (a' - a) + 2 * (b - a' + 45)) with (2 * (b - a + 45)) in W2 by ring.
  cbn in W1, W2 |- *. lra.
Qed.
Lemma all_turned_10 a c : length c = 10%nat -> length (all_turned a c) = 10%nat /\ dot (all_turned a c) (all_turned a c) = dot c c.
Proof.
  intros H. unfold all_turned. rewrite H. cbn [Nat.eqb]. split; [reflexivity|].
  pose proof (dot5 a (firstn 5 c)) as E1. pose proof (dot5 a (skipn 5 c)) as E2.
  rewrite firstn_length, H in E1. rewrite skipn_length, H in E2. specialize (E1 eq_refl). specialize (E2 eq_refl).
  assert (forall u v u' v' : list R, length u = length u' -> dot (u ++ v) (u' ++ v') = dot u u' + dot v v') as Hd.
  { clear. unfold dot, asum. induction u as [|x u IH]; intros v [|y u'] v' E; try discriminate; cbn.
    - ring.
    - rewrite IH by (cbn in E; lia). ring. }
  rewrite Hd by reflexivity. rewrite E1, E2. rewrite <- Hd by reflexivity. rewrite firstn_skipn. reflexivity.
Qed.
Lemma turned_back_one a a' c b : length c = 5%nat -> harmonic a' c b = harmonic a (turned (a - a') c) b.
Proof. intros H. symmetry. apply harmonic_turned, H. Qed.

Section H.
  Variable lstsq : list (list R) -> list R -> list R.
  Variable clstsq : list (list R) -> list cplx -> list cplx.
  Hypothesis Hl : correct_lstsq lstsq.
  Hypothesis Hcl : correct_clstsq clstsq.
  Notation harmonics := (harmonics lstsq clstsq).

  Lemma same_points_used method stream comps azim sc two trs trsT jac first rest :
    inputs stream comps azim sc two trs trsT jac -> stream = first :: rest -> same_points method stream ->
    method = "freq" -> forall t, In t (trs ++ trsT) -> length (ht_data t) = length (ht_data first).
  Proof.
    intros (c0 & _ & -> & _ & _ & _ & H) Hs Hp Hm t Ht. specialize (Hp Hm t). rewrite Hs in Hp at 2. apply Hp.
    apply in_app_iff in Ht. destruct Ht as [Ht|Ht].
    - apply (Permutation_in t (sort_perm _ _)) in Ht. apply filter_In in Ht. apply Ht.
    - destruct H as [(_ & _ & _ & -> & _)|(_ & _ & _ & -> & _)]; [destruct Ht|].
      apply (Permutation_in t (sort_perm _ _)) in Ht. apply filter_In in Ht. apply Ht.
  Qed.

  (** C57: the decomposition for another azimuth has turned coefficients; this also holds
      if the coefficients are not determined by the back azimuths *)
  Theorem C57_turn stream comps azim azim' method sc out out' i :
    harmonics stream comps azim method sc = Ok out -> harmonics stream comps azim' method sc = Ok out' ->
    same_points method stream -> (i < points stream)%nat ->
    coefficients i out' = all_turned (azim' - azim) (coefficients i out).
  Proof.
    intros H H' Hp Hi.
    destruct (harm_fit lstsq clstsq Hl Hcl _ _ _ _ _ _ H) as (two & trs & trsT & jac & first & rest & Hin & Hs & _ & Hf).
    destruct (harm_fit lstsq clstsq Hl Hcl _ _ _ _ _ _ H') as (two' & trs' & trsT' & jac' & first' & rest' & Hin' & Hs' & _ & Hf').
    specialize (Hf (same_points_used _ _ _ _ _ _ _ _ _ _ _ Hin Hs Hp)). specialize (Hf' (same_points_used _ _ _ _ _ _ _ _ _ _ _ Hin' Hs' Hp)).
    rewrite Hs in Hs'. inversion Hs'; subst first' rest'. clear Hs'.
    assert (points stream = length (ht_data first)) as Hpts by (rewrite Hs; reflexivity). rewrite Hpts in *.
    destruct (Hf i Hi) as (Hlr & _ & _ & Hls). destruct (Hf' i Hi) as (Hlr' & _ & _ & Hls'). clear Hf Hf'.
    destruct Hin as (c0 & _ & Htrs & _ & _ & _ & [(-> & Hc & -> & -> & Hj)|(-> & Hc & _ & HT & _ & Hj)]);
      destruct Hin' as (c0' & _ & Htrs' & _ & _ & _ & [(-> & Hc' & Hsc & -> & Hj')|(-> & Hc' & _ & HT' & _ & Hj')]); rewrite Hc in Hc';
      inversion Hc'; subst c0'; clear Hc'; rewrite <- Htrs in Htrs'; rewrite Htrs' in *; clear Htrs'.
    - refine (eq_sym (lstsq_unique _ _ _ _ _ _ Hls')).
      assert (all_turned (azim' - azim) (coefficients i out) = turned (azim' - azim) (coefficients i out)) as -> by (unfold all_turned; destruct Hls as [-> _]; reflexivity).
      rewrite Hj'. apply (lstsq_turn _ jac _ _ _ _ (turned (azim - azim'))); [rewrite Hj; unfold decomp_one; rewrite !map_length; reflexivity| | |exact Hls].
      + intros x Hx. repeat split; apply dot5, Hx.
      + intros x k Hx Hk. rewrite Hj in Hk |- *. unfold decomp_one in *. rewrite !map_length in Hk. rewrite !map_map.
        rewrite !(nth_map_in _ trs k first []) by exact Hk. cbv zeta. rewrite !row_one by first [exact Hx | reflexivity].
        split; [apply harmonic_turned, Hx | apply turned_back_one, Hx].
    - rewrite <- HT in HT'. rewrite HT' in *. clear HT'.
      refine (eq_sym (lstsq_unique _ _ _ _ _ _ Hls')).
      rewrite Hj'. apply (lstsq_turn _ jac _ _ _ _ (all_turned (azim - azim'))); [rewrite Hj; unfold decomp_two; rewrite !app_length, !map_length; reflexivity| | |exact Hls].
      + intros x Hx. repeat split; apply all_turned_10, Hx.
      + intros x k Hx Hk. rewrite Hj in Hk |- *. unfold decomp_two in *. rewrite app_length, !map_length in Hk. rewrite !map_map.
        destruct (Nat.lt_ge_cases k (length trs)) as [Hk'|Hk'].
        * rewrite !app_nth1 by (rewrite map_length; exact Hk').
          rewrite !(nth_map_in _ trs k first []) by exact Hk'. rewrite !row_R by first [exact Hx | apply all_turned_10, Hx].
          split; [apply harmonic_R_turned, Hx | symmetry; apply harmonic_R_turned, Hx].
        * rewrite !app_nth2 by (rewrite map_length; exact Hk'). rewrite !map_length.
          rewrite !(nth_map_in _ trs (k - length trs) first []) by lia. rewrite !row_T by first [exact Hx | apply all_turned_10, Hx].
          split; [apply harmonic_T_turned, Hx | symmetry; apply harmonic_T_turned, Hx].
  Qed.
  (** ... and predicts the same data *)
  Theorem C57_prediction_one stream c azim azim' method sc out out' i b :
    harmonics stream (String c "") azim method sc = Ok out -> harmonics stream (String c "") azim' method sc = Ok out' ->
    same_points method stream -> (i < points stream)%nat ->
    harmonic azim' (coefficients i out') b = harmonic azim (coefficients i out) b.
  Proof.
    intros H H' Hp Hi. rewrite (C57_turn _ _ _ _ _ _ _ _ i H H' Hp Hi).
    destruct (C56_fit_one _ _ Hl Hcl _ _ _ _ _ _ i [0; 0; 0; 0; 0] H Hp Hi eq_refl) as [Hlen _].
    unfold all_turned. rewrite Hlen. cbn [Nat.eqb]. apply harmonic_turned, Hlen.
  Qed.
  Theorem C57_prediction_two stream c azim azim' method sc out out' i b :
    harmonics stream (String c "T") azim method sc = Ok out -> harmonics stream (String c "T") azim' method sc = Ok out' ->
    same_points method stream -> (i < points stream)%nat ->
    let s := match sc with Some s => s | None => (3, 3 / 10) end in
    harmonic_R s azim' (coefficients i out') b = harmonic_R s azim (coefficients i out) b /\
    harmonic_T s azim' (coefficients i out') b = harmonic_T s azim (coefficients i out) b.
  Proof.
    intros H H' Hp Hi s. rewrite (C57_turn _ _ _ _ _ _ _ _ i H H' Hp Hi).
    destruct (harm_fit lstsq clstsq Hl Hcl _ _ _ _ _ _ H) as (two & trs & trsT & jac & first & rest & Hin & Hs & _ & Hf).
    specialize (Hf (same_points_used _ _ _ _ _ _ _ _ _ _ _ Hin Hs Hp)).
    assert (points stream = length (ht_data first)) as Hpts by (rewrite Hs; reflexivity). rewrite Hpts in *.
    destruct (Hf i Hi) as (_ & _ & _ & Hlen & _).
    destruct Hin as (c0 & _ & _ & _ & _ & _ & [(-> & Hc & _)|(-> & _)]); [discriminate|].
    split; [apply harmonic_R_turned, Hlen | apply harmonic_T_turned, Hlen].
  Qed.

  (** C84: both methods give the same result for traces of the same length *)
  Lemma fit_len {A} (d : A) ls jac (rows rowsT : list (list A)) n :
    (0 < n)%nat -> (forall r, In r (rows ++ rowsT) -> length r = n) ->
    fit ls jac rows rowsT n = if (length (rows ++ rowsT) =? length jac)%nat
      then Ok (map (fun i => ls jac (map (fun row => nth i row d) (rows ++ rowsT))) (seq 0 n)) else Err LinAlgError.
  Proof.
    intros Hn Hr. unfold fit.
    assert (forall i, (i < n)%nat -> column rows i = Ok (map (fun row => nth i row d) rows)) as H1.
    { intros i Hi. apply (column_ok d). split; [reflexivity|]. rewrite Forall_forall. intros r Hin. rewrite (Hr r); [exact Hi | apply in_app_iff; auto]. }
    assert (forall i, (i < n)%nat -> column rowsT i = Ok (map (fun row => nth i row d) rowsT)) as H2.
    { intros i Hi. apply (column_ok d). split; [reflexivity|]. rewrite Forall_forall. intros r Hin. rewrite (Hr r); [exact Hi | apply in_app_iff; auto]. }
    assert (forall l, (forall i, In i l -> (i < n)%nat) -> l <> [] ->
      mapM (fun i => let! r := column rows i in let! t := column rowsT i in
                     if (length (r ++ t) =? length jac)%nat then Ok (ls jac (r ++ t)) else Err LinAlgError) l =
      if (length (rows ++ rowsT) =? length jac)%nat then Ok (map (fun i => ls jac (map (fun row => nth i row d) (rows ++ rowsT))) l) else Err LinAlgError) as Hm.
    { induction l as [|i l IH]; intros Hin Hne; [congruence|]. cbn [mapM map]. rewrite H1, H2 by (apply Hin; left; reflexivity). cbn [bind].
      rewrite <- map_app, map_length. destruct (length (rows ++ rowsT) =? length jac)%nat; [|reflexivity]. cbn [bind].
      destruct l as [|j l]; [reflexivity|]. rewrite IH; [reflexivity | intros; apply Hin; right; assumption | discriminate]. }
    apply Hm; [intros i Hi; apply in_seq in Hi; lia|]. destruct n; [lia | discriminate].
  Qed.
  Definition all_same_points (stream : list htrace) : Prop := forall t, In t stream -> length (ht_data t) = points stream.
  Lemma rows_determined n hd hd' : length hd = length hd' -> (forall r, In r hd -> length r = n) -> (forall r, In r hd' -> length r = n) ->
    (forall i, (i < n)%nat -> map (fun row => nth i row 0) hd = map (fun row => nth i row 0) hd') -> hd = hd'.
  Proof.
    revert hd'. induction hd as [|r hd IH]; intros [|r' hd'] Hl0 H1 H2 Hc; try discriminate; [reflexivity|]. f_equal.
    - apply (nth_ext _ _ 0 0); [rewrite (H1 r), (H2 r') by (left; reflexivity); reflexivity|].
      intros k Hk. rewrite (H1 r) in Hk by (left; reflexivity). specialize (Hc k Hk). cbn in Hc. congruence.
    - apply IH; [cbn in Hl0; lia | intros; apply H1; right; assumption | intros; apply H2; right; assumption|].
      intros i Hi. specialize (Hc i Hi). cbn in Hc. congruence.
  Qed.
  (** the data of the result are determined by the coefficients *)
  Lemma data_determined stream comps azim method sc out stream' azim' method' sc' out' :
    harmonics stream comps azim method sc = Ok out -> harmonics stream' comps azim' method' sc' = Ok out' ->
    points stream = points stream' ->
    (forall i, (i < points stream)%nat -> coefficients i out = coefficients i out') -> map ht_data out = map ht_data out'.
  Proof.
    intros H H' Hpp Hc.
    destruct (harm_fit lstsq clstsq Hl Hcl _ _ _ _ _ _ H) as (two & trs & trsT & jac & first & rest & Hin & Hs & (hd & Hd1 & Hd2 & Ho) & _).
    destruct (harm_fit lstsq clstsq Hl Hcl _ _ _ _ _ _ H') as (two' & trs' & trsT' & jac' & first' & rest' & Hin' & Hs' & (hd' & Hd1' & Hd2' & Ho') & _).
    assert (two = two') as <-.
    { destruct Hin as (c0 & _ & _ & _ & _ & _ & [(-> & Hcc & _)|(-> & Hcc & _)]); destruct Hin' as (c0' & _ & _ & _ & _ & _ & [(-> & Hcc' & _)|(-> & Hcc' & _)]);
        rewrite Hcc in Hcc'; first [reflexivity | discriminate]. }
    rewrite Hs in Hpp, Hc. rewrite Hs' in Hpp. cbn [points] in Hpp, Hc.
    assert (map ht_data out = hd) as E by (rewrite Ho; apply harm_out_data). assert (map ht_data out' = hd') as E' by (rewrite Ho'; apply harm_out_data).
    rewrite E, E'. apply (rows_determined (length (ht_data first))); [congruence | exact Hd2 | rewrite Hpp; exact Hd2'|].
    intros i Hi. specialize (Hc i Hi). rewrite !coefficients_rows, E, E' in Hc. exact Hc.
  Qed.
  Lemma out_determined stream comps azim method sc out azim' method' sc' out' :
    harmonics stream comps azim method sc = Ok out -> harmonics stream comps azim' method' sc' = Ok out' ->
    map ht_data out = map ht_data out' -> out = out'.
  Proof.
    intros H H' Hd.
    destruct (harm_fit lstsq clstsq Hl Hcl _ _ _ _ _ _ H) as (two & trs & trsT & jac & first & rest & Hin & Hs & (hd & _ & _ & Ho) & _).
    destruct (harm_fit lstsq clstsq Hl Hcl _ _ _ _ _ _ H') as (two' & trs' & trsT' & jac' & first' & rest' & Hin' & Hs' & (hd' & _ & _ & Ho') & _).
    assert (two = two') as <-.
    { destruct Hin as (c0 & _ & _ & _ & _ & _ & [(-> & Hcc & _)|(-> & Hcc & _)]); destruct Hin' as (c0' & _ & _ & _ & _ & _ & [(-> & Hcc' & _)|(-> & Hcc' & _)]);
        rewrite Hcc in Hcc'; first [reflexivity | discriminate]. }
    rewrite Hs in Hs'. inversion Hs'; subst first' rest'.
    rewrite Ho, Ho' in Hd |- *. rewrite !harm_out_data in Hd. rewrite Hd. reflexivity.
  Qed.

  Lemma methods_err stream comps azim sc : (0 < points stream)%nat -> all_same_points stream ->
    (exists o, harmonics stream comps azim "time" sc = Ok o /\ exists o', harmonics stream comps azim "freq" sc = Ok o') \/
    (exists e, harmonics stream comps azim "time" sc = Err e /\ harmonics stream comps azim "freq" sc = Err e).
  Proof.
    intros Hp Hs. unfold Harmonics.harmonics.
    destruct (negb _); [right; eauto|]. destruct (list_ascii_of_string comps) as [|c0 cs]; [right; eauto|].
    destruct (existsb _ (c0 :: cs)); [right; eauto|]. change (negb (existsb (String.eqb "time") ["time"; "freq"])) with false.
    change (negb (existsb (String.eqb "freq") ["time"; "freq"])) with false. change ("time" =? "time")%string with true. change ("freq" =? "time")%string with false. cbv iota zeta.
    destruct (sort_time (select_comp c0 stream)) as [trs|e] eqn:Etrs; cbn [bind]; [|right; eauto].
    destruct (mapM back_azimuth trs) as [bz|e]; cbn [bind]; [|right; eauto].
    destruct (stack_rows trs) as [rR|e] eqn:ErR; cbn [bind]; [|right; eauto].
    set (two := match cs with [] => false | _ :: _ => true end).
    destruct (if two then let! trsT := sort_time (select_comp "T" stream) in stack_rows trsT else Ok []) as [rT|e] eqn:ErT; cbn [bind]; [|right; eauto].
    destruct stream as [|first rest]; [right; eauto|]. cbn [points] in Hp. unfold all_same_points in Hs. cbn [points] in Hs.
    set (n := length (ht_data first)) in *.
    assert (forall c l rr, sort_time (select_comp c (first :: rest)) = Ok l -> stack_rows l = Ok rr -> forall r, In r rr -> length r = n) as Hlen.
    { intros c l rr H1 H2 r Hr. unfold stack_rows in H2. destruct (same_length (map ht_data l)); [|discriminate].
      inversion H2; subst rr. apply in_map_iff in Hr. destruct Hr as (t & <- & Ht). apply Hs.
      apply sort_time_ok in H1. destruct H1 as [_ ->]. apply (Permutation_in t (sort_perm _ _)) in Ht. apply filter_In in Ht. apply Ht. }
    assert (forall r, In r (rR ++ rT) -> length r = n) as Hall.
    { intros r Hr. apply in_app_iff in Hr. destruct Hr as [Hr|Hr]; [exact (Hlen _ _ _ Etrs ErR r Hr)|].
      destruct two; [|inversion ErT; subst rT; destruct Hr].
      destruct (sort_time (select_comp "T" (first :: rest))) as [trsT|] eqn:ET; [|discriminate]. exact (Hlen _ _ _ ET ErT r Hr). }
    assert (forall rows, (forall r, In r rows -> length r = n) -> mapM fft_row rows = Ok (map (fun r => fft r n) rows)) as Hfft.
    { induction rows as [|r rows IH]; intros Hr; [reflexivity|]. cbn [mapM map]. unfold fft_row at 1. rewrite (Hr r (or_introl eq_refl)).
      destruct n as [|n']; [lia|]. cbn [bind]. rewrite IH by (intros; apply Hr; right; assumption). reflexivity. }
    rewrite (Hfft rR), (Hfft rT) by (intros; apply Hall, in_app_iff; auto). cbn [bind].
    match goal with |- context [bind (if two then ?a else ?b) _] => destruct (if two then a else b) as [jac|e]; cbn [bind]; [|right; eauto] end.
    rewrite (fit_len 0 lstsq) by assumption. rewrite (fit_len Czero clstsq); [| exact Hp |].
    2: { intros r Hr. rewrite <- map_app in Hr. apply in_map_iff in Hr. destruct Hr as (r0 & <- & Hr0). unfold fft, tabulate. rewrite map_length, seq_length. reflexivity. }
    rewrite <- map_app, map_length. destruct (length (rR ++ rT) =? length jac)%nat; cbn [bind]; [|right; eauto].
    left. destruct n as [|n']; [lia|]. cbn [bind]. eauto.
  Qed.
  Theorem C84_methods_agree stream comps azim sc : (0 < points stream)%nat -> all_same_points stream ->
    harmonics stream comps azim "freq" sc = harmonics stream comps azim "time" sc.
  Proof.
    intros Hp Hs. destruct (methods_err stream comps azim sc Hp Hs) as [(o & H & o' & H')|(e & -> & ->)]; [|reflexivity].
    rewrite H, H'. f_equal. apply (out_determined _ _ _ _ _ _ _ _ _ _ H' H). apply (data_determined _ _ _ _ _ _ _ _ _ _ _ H' H eq_refl).
    intros i Hi.
    destruct (harm_fit lstsq clstsq Hl Hcl _ _ _ _ _ _ H) as (two & trs & trsT & jac & first & rest & Hin & Hst & _ & Hf).
    destruct (harm_fit lstsq clstsq Hl Hcl _ _ _ _ _ _ H') as (two' & trs' & trsT' & jac' & first' & rest' & Hin' & Hst' & _ & Hf').
    specialize (Hf (same_points_used _ _ _ _ _ _ _ _ _ _ _ Hin Hst (fun _ => Hs))). specialize (Hf' (same_points_used _ _ _ _ _ _ _ _ _ _ _ Hin' Hst' (fun _ => Hs))).
    rewrite Hst in Hi, Hst'. inversion Hst'; subst first' rest'. cbn [points] in Hi.
    destruct (Hf i Hi) as (_ & _ & -> & _). destruct (Hf' i Hi) as (_ & _ & -> & _).
    destruct Hin as (c0 & _ & -> & _ & _ & _ & [(-> & Hc & -> & -> & ->)|(-> & Hc & _ & -> & _ & ->)]);
      destruct Hin' as (c0' & _ & -> & _ & _ & _ & [(-> & Hc' & _ & -> & ->)|(-> & Hc' & _ & -> & _ & ->)]); rewrite Hc in Hc';
      inversion Hc'; reflexivity.
  Qed.

  (** C85: if the traces have the same length, only the receiver functions of the selected
      components count, in any order *)
  Theorem C85_order_partial stream stream' comps azim method sc out out' :
    harmonics stream comps azim method sc = Ok out -> harmonics stream' comps azim method sc = Ok out' ->
    all_same_points stream -> all_same_points stream' -> points stream = points stream' ->
    (forall c, In c (list_ascii_of_string comps) -> Permutation (rfs c stream) (rfs c stream') /\ NoDup (map HarmonicSpec.time_of (rfs c stream))) ->
    map ht_data out = map ht_data out'.
  Proof.
    intros H H' Hs Hs' Hpp Hperm. apply (data_determined _ _ _ _ _ _ _ _ _ _ _ H H' Hpp). intros i Hi.
    destruct (harm_fit lstsq clstsq Hl Hcl _ _ _ _ _ _ H) as (two & trs & trsT & jac & first & rest & Hin & Hst & _ & Hf).
    destruct (harm_fit lstsq clstsq Hl Hcl _ _ _ _ _ _ H') as (two' & trs' & trsT' & jac' & first' & rest' & Hin' & Hst' & _ & Hf').
    specialize (Hf (same_points_used _ _ _ _ _ _ _ _ _ _ _ Hin Hst (fun _ => Hs))). specialize (Hf' (same_points_used _ _ _ _ _ _ _ _ _ _ _ Hin' Hst' (fun _ => Hs'))).
    assert (i < length (ht_data first))%nat as Hi1 by (rewrite Hst in Hi; exact Hi).
    assert (i < length (ht_data first'))%nat as Hi2 by (rewrite Hpp, Hst' in Hi; exact Hi).
    destruct (Hf i Hi1) as (_ & _ & -> & _). destruct (Hf' i Hi2) as (_ & _ & -> & _).
    destruct Hin as (c0 & _ & -> & Ht1 & _ & _ & [(-> & Hc & -> & -> & ->)|(-> & Hc & _ & -> & Ht2 & ->)]);
      destruct Hin' as (c0' & _ & -> & _ & _ & _ & [(-> & Hc' & _ & -> & ->)|(-> & Hc' & _ & -> & _ & ->)]); rewrite Hc in Hc';
      inversion Hc'; subst c0'; clear Hc'; rewrite Hc in Hperm.
    - destruct (Hperm c0 (or_introl eq_refl)) as [P1 N1]. rewrite (sort_perm_eq _ _ Ht1 N1 P1). reflexivity.
    - destruct (Hperm c0 (or_introl eq_refl)) as [P1 N1]. rewrite (sort_perm_eq _ _ Ht1 N1 P1).
      destruct (Hperm "T"%char) as [P2 N2]; [right; left; reflexivity|]. rewrite (sort_perm_eq _ _ Ht2 N2 P2). reflexivity.
  Qed.

End H.
