(** C56-C59, C84, C85: harmonic decomposition *)
From Verif Require Import Model.Harmonics Spec.HarmonicSpec Proofs.PyFacts Proofs.SumFacts Proofs.LstsqFacts Proofs.TrigPolyFacts Proofs.HarmonicFacts Proofs.HarmonicMain.
From Verif Require Import Proofs.WaterFacts.
From Coq Require Import Lra Lia ClassicalEpsilon.
Notation length := List.length.
Open Scope R_scope.

(** both contracts can be met *)
Theorem solvers_exist : exists lstsq clstsq, correct_lstsq lstsq /\ correct_clstsq clstsq.
Proof.
  assert (forall J v, exists x, (forall n, (forall row, In row J -> length row = n) -> J <> [] -> is_lstsq n J v x)) as H.
  { intros J v. destruct J as [|r J]; [exists []; intros; congruence|].
    destruct (lstsq_exists (length r) (r :: J) v) as [x Hx]. exists x. intros n Hn _. rewrite <- (Hn r (or_introl eq_refl)). exact Hx. }
  exists (fun J v => proj1_sig (constructive_indefinite_description _ (H J v))).
  exists (fun J v => combine (proj1_sig (constructive_indefinite_description _ (H J (map fst v))))
                             (proj1_sig (constructive_indefinite_description _ (H J (map snd v))))).
  split.
  - intros n J v Hr Hne _. destruct (constructive_indefinite_description _ (H J v)) as [x Hx]. apply Hx; assumption.
  - intros n J v Hr Hne _.
    destruct (constructive_indefinite_description _ (H J (map fst v))) as [x Hx].
    destruct (constructive_indefinite_description _ (H J (map snd v))) as [y Hy]. cbn [proj1_sig].
    specialize (Hx n Hr Hne). specialize (Hy n Hr Hne).
    assert (length x = length y) as E by (destruct Hx as [-> _], Hy as [-> _]; reflexivity).
    apply clstsq_split. rewrite combine_fst, combine_snd by exact E. auto.
Qed.

Section H.
  Variable lstsq : list (list R) -> list R -> list R.
  Variable clstsq : list (list R) -> list cplx -> list cplx.
  Hypothesis Hl : correct_lstsq lstsq.
  Hypothesis Hcl : correct_clstsq clstsq.
  Notation harmonics := (harmonics lstsq clstsq).

  (** number of samples of the result *)
  Definition points (stream : list htrace) : nat := match stream with t :: _ => length (ht_data t) | [] => 0 end.
  (** in the frequency domain the length has to be that of the first trace of the stream *)
  Definition same_points (method : string) (stream : list htrace) : Prop :=
    method = "freq" -> forall t, In t stream -> length (ht_data t) = points stream.

  Lemma rsum_rsum_list {A} (f : A -> R) l d : rsum (length l) (fun i => f (nth i l d)) = rsum_list f l.
  Proof. induction l as [|x l IH]; [reflexivity|]. cbn [List.length]. rewrite rsum_S_l. cbn [nth rsum_list fold_right]. rewrite IH. reflexivity. Qed.
  Lemma rsum_list_perm {A} (f : A -> R) l l' : Permutation l l' -> rsum_list f l = rsum_list f l'.
  Proof. unfold rsum_list. induction 1; cbn; lra. Qed.
  Lemma rsum_list_app {A} (f : A -> R) l l' : rsum_list f (l ++ l') = rsum_list f l + rsum_list f l'.
  Proof. unfold rsum_list. induction l as [|x l IH]; cbn; [lra|]. rewrite IH. lra. Qed.
  Lemma rsum_list_map {A B} (f : B -> R) (g : A -> B) l : rsum_list f (map g l) = rsum_list (fun x => f (g x)) l.
  Proof. induction l as [|x l IH]; cbn; [reflexivity|]. unfold rsum_list in IH. rewrite IH. reflexivity. Qed.
  Lemma rsum_list_ext {A} (f g : A -> R) l : (forall x, In x l -> f x = g x) -> rsum_list f l = rsum_list g l.
  Proof. induction l as [|x l IH]; intros H; cbn; [reflexivity|]. rewrite (H x (or_introl eq_refl)). unfold rsum_list in IH. rewrite IH; [reflexivity|]. intros; apply H; right; assumption. Qed.
  Lemma misfit_list J v x : length v = length J ->
    misfit_of J v x = rsum_list (fun p => (dot (fst p) x - snd p) ^ 2) (combine J v).
  Proof.
    intros H. unfold misfit_of. rewrite <- (rsum_rsum_list _ (combine J v) ([], 0)).
    rewrite combine_length, H, Nat.min_id. apply rsum_ext. intros i _. rewrite combine_nth by (symmetry; exact H). reflexivity.
  Qed.

  Lemma radians_2 x : 2 * radians x = 2 * x * PI / 180. Proof. unfold radians. field. Qed.
  Lemma row_one azim x b : length x = 5%nat -> 
    dot [1; cos (radians (b - azim)); sin (radians (b - azim)); cos (2 * radians (b - azim)); sin (2 * radians (b - azim))] x = harmonic azim x b.
  Proof.
    intros H. destruct x as [|x0 [|x1 [|x2 [|x3 [|x4 [|]]]]]]; try discriminate.
    rewrite radians_2. unfold harmonic, cosd, sind, radians. cbn. ring.
  Qed.
  Lemma row_R s azim x b : length x = 10%nat ->
    dot (let y := radians (b - azim) in [fst s; cos y; sin y; cos (2 * y); sin (2 * y); 0; cos y; sin y; cos (2 * y); sin (2 * y)]) x = harmonic_R s azim x b.
  Proof.
    intros H. destruct x as [|x0 [|x1 [|x2 [|x3 [|x4 [|x5 [|x6 [|x7 [|x8 [|x9 [|]]]]]]]]]]]; try discriminate.
    cbv zeta. rewrite radians_2. unfold harmonic_R, cosd, sind, radians. cbn. ring.
  Qed.
  Lemma row_T s azim x b : length x = 10%nat ->
    dot (let y := radians (b - azim) in [0; - sin y; cos y; - sin (2 * y); cos (2 * y); snd s; sin y; - cos y; sin (2 * y); - cos (2 * y)]) x = harmonic_T s azim x b.
  Proof.
    intros H. destruct x as [|x0 [|x1 [|x2 [|x3 [|x4 [|x5 [|x6 [|x7 [|x8 [|x9 [|]]]]]]]]]]]; try discriminate.
    cbv zeta. unfold harmonic_T, cosd, sind.
    replace ((b - azim + 90) * PI / 180) with (PI / 2 + radians (b - azim)) by (unfold radians; field).
    replace (2 * (b - azim + 45) * PI / 180) with (PI / 2 + 2 * radians (b - azim)) by (unfold radians; field).
    rewrite <- !cos_sin. replace (cos (PI / 2 + radians (b - azim))) with (- sin (radians (b - azim))) by (rewrite sin_cos; ring).
    replace (cos (PI / 2 + 2 * radians (b - azim))) with (- sin (2 * radians (b - azim))) by (rewrite (sin_cos (2 * radians (b - azim))); ring).
    cbn. ring.
  Qed.
  Lemma misfit_one azim trs i x : length x = 5%nat -> misfit_of (decomp_one (map baz_of trs) azim) (map (sample i) trs) x = misfit1 azim trs i x.
  Proof.
    intros Hx. unfold decomp_one. rewrite map_map. rewrite misfit_list by (rewrite !map_length; reflexivity).
    unfold misfit1. induction trs as [|t trs IH]; [reflexivity|]. cbn. rewrite <- (row_one azim x (baz_of t) Hx). unfold rsum_list in IH.
    f_equal. exact IH.
  Qed.
  Lemma misfit_two s azim rs ts i x : length x = 10%nat -> length rs = length ts ->
    misfit_of (decomp_two (map baz_of rs) azim s) (map (sample i) (rs ++ ts)) x = misfit2 s azim (combine rs ts) i x.
  Proof.
    intros Hx Hn. unfold decomp_two. rewrite !map_map.
    rewrite misfit_list by (rewrite !app_length, !map_length, app_length; lia).
    rewrite map_app.
    assert (forall {A B} (a a' : list A) (b b' : list B), length a = length b -> combine (a ++ a') (b ++ b') = combine a b ++ combine a' b') as Hcomb.
    { intros A B a a'. induction a as [|y a IH]; intros [|z b] b' E; try discriminate; [reflexivity|]. cbn. f_equal. apply IH. cbn in E. lia. }
    rewrite Hcomb by (rewrite !map_length; reflexivity). rewrite rsum_list_app.
    unfold misfit2. revert ts Hn. induction rs as [|r rs IH]; intros [|t ts] Hn; try discriminate; [cbn; lra|].
    cbn [map combine rsum_list fold_right fst snd].
    specialize (IH ts ltac:(cbn in Hn; lia)). unfold rsum_list in IH |- *. rewrite <- IH.
    rewrite <- (row_R s azim x (baz_of r) Hx), <- (row_T s azim x (baz_of r) Hx). cbv zeta. lra.
  Qed.

  (** C56 one component: the coefficients of every sample minimise the misfit *)
  Theorem C56_fit_one stream c azim method sc out i c' :
    harmonics stream (String c "") azim method sc = Ok out -> same_points method stream -> (i < points stream)%nat ->
    length c' = 5%nat ->
    length (coefficients i out) = 5%nat /\
    misfit1 azim (rfs c stream) i (coefficients i out) <= misfit1 azim (rfs c stream) i c'.
  Proof.
    intros H Hp Hi Hc'. destruct (harm_fit lstsq clstsq Hl Hcl _ _ _ _ _ _ H) as (two & trs & trsT & jac & first & rest & Hin & Hs & _ & Hf).
    destruct Hin as (c0 & _ & Htrs & _ & _ & _ & [(-> & Hc & -> & -> & ->)|(-> & Hc & _)]); [|discriminate].
    inversion Hc; subst c0. rewrite app_nil_r in *.
    assert (Permutation trs (rfs c stream)) as Hperm by (subst trs; apply sort_perm).
    assert (points stream = length (ht_data first)) as Hpts by (rewrite Hs; reflexivity). rewrite Hpts in *.
    destruct (Hf) with (i := i) as (_ & _ & _ & Hlen & Hmin & _); [|exact Hi|].
    { intros Hm t Ht. rewrite <- Hpts. apply (Hp Hm). apply (Permutation_in t Hperm) in Ht. apply filter_In in Ht. apply Ht. }
    split; [exact Hlen|]. specialize (Hmin c' Hc'). rewrite !misfit_one in Hmin by assumption.
    unfold misfit1 in *. rewrite !(rsum_list_perm _ _ _ Hperm) in Hmin. exact Hmin.
  Qed.
  (** ... exact harmonics are recovered if there are five back azimuths *)
  Theorem C56_recover_one stream c azim method sc out i h :
    harmonics stream (String c "") azim method sc = Ok out -> same_points method stream -> (i < points stream)%nat ->
    five_azimuths (map baz_of (rfs c stream)) -> length h = 5%nat ->
    (forall t, In t (rfs c stream) -> sample i t = harmonic azim h (baz_of t)) ->
    coefficients i out = h.
  Proof.
    intros H Hp Hi H5 Hh Hex. destruct (harm_fit lstsq clstsq Hl Hcl _ _ _ _ _ _ H) as (two & trs & trsT & jac & first & rest & Hin & Hs & _ & Hf).
    destruct Hin as (c0 & _ & Htrs & _ & _ & _ & [(-> & Hc & -> & -> & ->)|(-> & Hc & _)]); [|discriminate].
    inversion Hc; subst c0. rewrite app_nil_r in *.
    assert (Permutation trs (rfs c stream)) as Hperm by (subst trs; apply sort_perm).
    assert (points stream = length (ht_data first)) as Hpts by (rewrite Hs; reflexivity). rewrite Hpts in *.
    destruct (Hf) with (i := i) as (_ & _ & _ & Hls); [|exact Hi|].
    { intros Hm t Ht. rewrite <- Hpts. apply (Hp Hm). apply (Permutation_in t Hperm) in Ht. apply filter_In in Ht. apply Ht. }
    assert (forall z k, length z = 5%nat -> (k < length trs)%nat ->
      dot (nth k (decomp_one (map baz_of trs) azim) []) z = harmonic azim z (baz_of (nth k trs first))) as Hrow.
    { intros z k Hz Hk. unfold decomp_one. rewrite map_map. rewrite (nth_map_in _ _ _ first) by exact Hk. apply row_one, Hz. }
    assert (length (decomp_one (map baz_of trs) azim) = length trs) as Hlj by (unfold decomp_one; rewrite !map_length; reflexivity).
    apply (lstsq_exact _ _ _ _ _ Hls Hh).
    - intros k Hk. rewrite Hlj in Hk. rewrite Hrow by assumption. unfold fn. rewrite (nth_map_in _ _ _ first) by exact Hk.
      symmetry. apply Hex. apply (Permutation_in _ Hperm), nth_In, Hk.
    - intros z Hz H0. apply (harmonic_zero azim (map baz_of (rfs c stream)) z Hz H5).
      intros b Hb. apply in_map_iff in Hb. destruct Hb as (t & <- & Ht). apply (Permutation_in t (Permutation_sym Hperm)) in Ht.
      destruct (In_nth _ _ first Ht) as (k & Hk & <-). rewrite <- Hrow by assumption. apply H0. rewrite Hlj. exact Hk.
  Qed.

  (** two components: number of traces of both components *)
  Theorem C58_counts stream c azim method sc out :
    harmonics stream (String c "T") azim method sc = Ok out -> same_points method stream -> (0 < points stream)%nat ->
    length (rfs "T" stream) = length (rfs c stream).
  Proof.
    intros H Hp Hi. destruct (harm_fit lstsq clstsq Hl Hcl _ _ _ _ _ _ H) as (two & trs & trsT & jac & first & rest & Hin & Hs & _ & Hf).
    destruct Hin as (c0 & _ & -> & _ & _ & _ & [(-> & Hc & _)|(-> & Hc & _ & -> & _ & ->)]); [discriminate|].
    inversion Hc; subst c0.
    assert (points stream = length (ht_data first)) as Hpts by (rewrite Hs; reflexivity). rewrite Hpts in *.
    destruct (Hf) with (i := 0%nat) as (Hlen & _); [|exact Hi|].
    { intros Hm t Ht. rewrite <- Hpts. apply (Hp Hm). apply in_app_iff in Ht.
      destruct Ht as [Ht|Ht]; apply (Permutation_in t (sort_perm _ _)) in Ht; apply filter_In in Ht; apply Ht. }
    unfold decomp_two in Hlen. rewrite !app_length, !map_length in Hlen.
    pose proof (Permutation_length (sort_perm tleb (rfs c stream))). pose proof (Permutation_length (sort_perm tleb (rfs "T" stream))). lia.
  Qed.
  Lemma two_fit stream c azim method sc out : 
    harmonics stream (String c "T") azim method sc = Ok out -> same_points method stream ->
    same_events (rfs c stream) (rfs "T" stream) ->
    exists pairs, pairing (rfs c stream) (rfs "T" stream) pairs /\
      forall i, (i < points stream)%nat ->
        is_lstsq 10 (decomp_two (map baz_of (map fst pairs)) azim (default_scalars sc)) (map (sample i) (map fst pairs ++ map snd pairs)) (coefficients i out).
  Proof.
    intros H Hp Hev. destruct (harm_fit lstsq clstsq Hl Hcl _ _ _ _ _ _ H) as (two & trs & trsT & jac & first & rest & Hin & Hs & _ & Hf).
    destruct Hin as (c0 & _ & -> & Ht1 & _ & _ & [(-> & Hc & _)|(-> & Hc & _ & -> & Ht2 & ->)]); [discriminate|].
    inversion Hc; subst c0.
    destruct Hev as (Hn1 & Hn2 & Hev).
    pose proof (sorted_ext_time _ _ Ht1 Ht2 Hn1 Hn2 Hev) as Hkeys.
    set (rs := sort tleb (rfs c stream)) in *. set (ts := sort tleb (rfs "T" stream)) in *.
    assert (length rs = length ts) as Hlen by (rewrite <- (map_length tkey rs), Hkeys; apply map_length).
    exists (combine rs ts). split.
    - unfold pairing. rewrite combine_fst, combine_snd by exact Hlen. split; [apply sort_perm|]. split; [apply sort_perm|].
      intros p Hpin.
      assert (forall l l' : list htrace, map tkey l = map tkey l' -> In p (combine l l') -> tkey (fst p) = tkey (snd p) /\ In (fst p) l /\ In (snd p) l') as Hk.
      { induction l as [|x l IH]; intros [|y l'] E Hin; try discriminate; [destruct Hin|]. cbn in E. inversion E. destruct Hin as [<-|Hin].
        - cbn. auto.
        - destruct (IH l' H2 Hin) as (A & B & D). split; [exact A|]. split; right; assumption. }
      destruct (Hk rs ts Hkeys Hpin) as (E & Hi1 & Hi2).
      rewrite Forall_forall in Ht1, Ht2. apply (Permutation_in _ (sort_perm _ _)) in Hi1, Hi2.
      pose proof (Ht1 _ Hi1) as T1. pose proof (Ht2 _ Hi2) as T2. unfold timed in T1, T2. rewrite T1, T2, E. reflexivity.
    - intros i Hi. rewrite combine_fst, combine_snd by exact Hlen.
      assert (points stream = length (ht_data first)) as Hpts by (rewrite Hs; reflexivity). rewrite Hpts in *.
      destruct (Hf) with (i := i) as (_ & _ & _ & Hls); [|exact Hi|exact Hls].
      intros Hm t Ht. rewrite <- Hpts. apply (Hp Hm). apply in_app_iff in Ht.
      destruct Ht as [Ht|Ht]; apply (Permutation_in t (sort_perm _ _)) in Ht; apply filter_In in Ht; apply Ht.
  Qed.
  (** C56, C58 two components with the same events: the components of each event are fitted
      together, with the back azimuth of this event *)
  Theorem C58_pairs_partial stream c azim method sc out :
    harmonics stream (String c "T") azim method sc = Ok out -> same_points method stream ->
    same_events (rfs c stream) (rfs "T" stream) ->
    exists pairs, pairing (rfs c stream) (rfs "T" stream) pairs /\
      forall i c', (i < points stream)%nat -> length c' = 10%nat ->
        let s := match sc with Some s => s | None => (3, 3 / 10) end in
        length (coefficients i out) = 10%nat /\
        misfit2 s azim pairs i (coefficients i out) <= misfit2 s azim pairs i c'.
  Proof.
    intros H Hp Hev. destruct (two_fit _ _ _ _ _ _ H Hp Hev) as (pairs & Hpair & Hls). exists pairs. split; [exact Hpair|].
    intros i c' Hi Hc'. destruct (Hls i Hi) as (Hlen & Hmin & _). cbv zeta. split; [exact Hlen|].
    specialize (Hmin c' Hc'). rewrite !misfit_two in Hmin by (try assumption; rewrite !map_length; reflexivity).
    assert (combine (map fst pairs) (map snd pairs) = pairs) as Ecomb.
    { clear. induction pairs as [|[a b] l IH]; [reflexivity|]. cbn. rewrite IH. reflexivity. }
    rewrite Ecomb in Hmin. exact Hmin.
  Qed.
  Theorem C56_recover_two stream c azim method sc out i h :
    harmonics stream (String c "T") azim method sc = Ok out -> same_points method stream -> (i < points stream)%nat ->
    same_events (rfs c stream) (rfs "T" stream) ->
    let s := match sc with Some s => s | None => (3, 3 / 10) end in
    fst s <> 0 -> snd s <> 0 ->
    five_azimuths (map baz_of (rfs c stream)) -> length h = 10%nat ->
    (forall t, In t (rfs c stream) -> sample i t = harmonic_R s azim h (baz_of t)) ->
    (forall r t, In r (rfs c stream) -> In t (rfs "T" stream) -> HarmonicSpec.time_of r = HarmonicSpec.time_of t -> sample i t = harmonic_T s azim h (baz_of r)) ->
    coefficients i out = h.
  Proof.
    intros H Hp Hi Hev s Hs0 Hs1 H5 Hh HR HT. destruct (two_fit _ _ _ _ _ _ H Hp Hev) as (pairs & (Hp1 & Hp2 & Hp3) & Hls).
    specialize (Hls i Hi). change (default_scalars sc) with s in Hls.
    set (rs := map fst pairs) in *. set (ts := map snd pairs) in *.
    assert (length rs = length ts) as Hlen by (unfold rs, ts; rewrite !map_length; reflexivity).
    assert (length (decomp_two (map baz_of rs) azim s) = (length rs + length rs)%nat) as Hlj by (unfold decomp_two; rewrite app_length, !map_length; reflexivity).
    assert (forall z k d, length z = 10%nat -> (k < length rs)%nat ->
      dot (nth k (decomp_two (map baz_of rs) azim s) []) z = harmonic_R s azim z (baz_of (nth k rs d)) /\
      dot (nth (length rs + k) (decomp_two (map baz_of rs) azim s) []) z = harmonic_T s azim z (baz_of (nth k rs d))) as Hrow.
    { intros z k d Hz Hk. unfold decomp_two. rewrite !map_map. split.
      - rewrite app_nth1 by (rewrite map_length; exact Hk). rewrite (nth_map_in _ _ _ d) by exact Hk. apply row_R, Hz.
      - rewrite app_nth2 by (rewrite map_length; lia). rewrite map_length. replace (length rs + k - length rs)%nat with k by lia.
        rewrite (nth_map_in _ _ _ d) by exact Hk. apply row_T, Hz. }
    assert (exists d : htrace, True) as [d _].
    { destruct stream as [|t st]; [cbn in Hi; lia | exists t; exact I]. }
    apply (lstsq_exact _ _ _ _ _ Hls Hh).
    - intros k Hk. rewrite Hlj in Hk. unfold fn. rewrite map_app. destruct (Nat.lt_ge_cases k (length rs)) as [Hk'|Hk'].
      + rewrite (proj1 (Hrow h k d Hh Hk')). rewrite app_nth1 by (rewrite map_length; exact Hk'). rewrite (nth_map_in _ _ _ d) by exact Hk'.
        symmetry. apply HR. apply (Permutation_in _ Hp1), nth_In, Hk'.
      + assert (k - length rs < length rs)%nat as Hk2 by lia. replace k with (length rs + (k - length rs))%nat by lia.
        rewrite (proj2 (Hrow h _ d Hh Hk2)). rewrite app_nth2 by (rewrite map_length; lia). rewrite map_length.
        replace (length rs + (k - length rs) - length rs)%nat with (k - length rs)%nat by lia. set (q := (k - length rs)%nat) in *.
        rewrite (nth_map_in _ _ _ d) by lia. symmetry. apply HT.
        * apply (Permutation_in _ Hp1), nth_In, Hk2.
        * apply (Permutation_in _ Hp2), nth_In. lia.
        * assert (q < length pairs)%nat as Hq by (unfold rs in Hk2; rewrite map_length in Hk2; exact Hk2).
          unfold rs, ts. rewrite (nth_map_in _ _ _ (d, d)), (nth_map_in _ _ _ (d, d)) by exact Hq. apply Hp3, nth_In, Hq.
    - intros z Hz H0. apply (harmonic2_zero s azim (map baz_of (rfs c stream)) z Hs0 Hs1 Hz H5).
      intros b Hb. apply in_map_iff in Hb. destruct Hb as (t & <- & Ht). apply (Permutation_in t (Permutation_sym Hp1)) in Ht.
      destruct (In_nth _ _ d Ht) as (k & Hk & <-). destruct (Hrow z k d Hz Hk) as [E1 E2]. rewrite <- E1, <- E2. split; apply H0; rewrite Hlj; lia.
  Qed.
End H.
