(** C29, C30, C34 - C37: iterative deconvolution over the real numbers. *)
From Verif Require Import Model.Iterative Spec.SpikeSpec Proofs.SumFacts Proofs.CplxFacts Proofs.WaterFacts Proofs.PyFacts Proofs.DeconvTimeFacts Proofs.SpikeFacts.
From Coq Require Import Lra Lia.
Notation length := List.length.
Open Scope R_scope.

Lemma trunc_spec x z : toward_zero x z -> trunc x = z.
Proof.
  intros [H1 H2]. unfold trunc.
  assert (U : forall y k, IZR k <= y < IZR k + 1 -> Int_part y = k).
  { intros y k [A B]. unfold Int_part. assert (up y = k + 1)%Z as ->; [|lia]. symmetry. apply tech_up; rewrite plus_IZR; lra. }
  destruct (Rle_dec 0 x) as [L|L].
  - apply U, H1, L.
  - rewrite (U (- x) (- z)%Z); [lia|]. rewrite opp_IZR. specialize (H2 ltac:(lra)). lra.
Qed.
Lemma iterative_inv nfl rs src sr tshift gauss itmax minderr ms rfs its rmss :
  deconv_iterative nfl (Many rs) src sr tshift gauss itmax minderr ms None = Ok (rfs, its, rmss) ->
  sr <> 0 /\ exists out, Forall2 (fun r o => iter_one nfl src sr tshift gauss itmax minderr ms r = Ok o) rs out /\
    rfs = map (fun o => fst (fst o)) out /\ its = map (fun o => snd (fst o)) out /\ rmss = map snd out.
Proof.
  unfold deconv_iterative. destruct (Req_EM_T sr 0) as [|Hsr]; [discriminate|]. cbn [bind]. intros H. split; [exact Hsr|].
  destruct (mapM _ rs) as [out|] eqn:E; cbn [bind] in H; [|discriminate]. exists out. split; [apply mapM_Forall2, E|].
  split; [congruence|]. split; congruence.
Qed.
Lemma Forall2_nth {A B} (P : A -> B -> Prop) l m c x : Forall2 P l m -> nth_error l c = Some x -> exists y, nth_error m c = Some y /\ P x y.
Proof.
  intros H. revert c. induction H as [|a b l m Hab H IH]; intros [|c] E; cbn in *; try discriminate.
  - injection E as <-. exists b. auto.
  - apply IH, E.
Qed.
Lemma iterative_component nfl rs src sr tshift g itmax minderr ms rfs its rmss c r0 :
  deconv_iterative nfl (Many rs) src sr tshift (Some g) itmax minderr ms None = Ok (rfs, its, rmss) -> nth_error rs c = Some r0 ->
  sr <> 0 /\ exists rf it rms, nth_error rfs c = Some rf /\ nth_error its c = Some it /\ nth_error rmss c = Some rms /\
    iter_one nfl src sr tshift (Some g) itmax minderr ms r0 = Ok (rf, it, rms).
Proof.
  intros H Hc. destruct (iterative_inv _ _ _ _ _ _ _ _ _ _ _ _ H) as (Hsr & out & F & -> & -> & ->). split; [exact Hsr|].
  destruct (Forall2_nth _ _ _ _ _ F Hc) as ([[rf it] rms] & En & Ei). exists rf, it, rms.
  rewrite !nth_error_map, En. auto.
Qed.

(** C34: every component is deconvolved by a greedy search: each spike sits at the allowed
    lag where the source fits the remaining response best and has the amplitude of the
    least squares fit; the search stops after itmax spikes or when the last spike
    improves the misfit by at most minderr percent; the misfits after each spike are
    recorded; every spike reduces the misfit by exactly (correlation)^2 / (energy of the
    source). Source and response are the low-passed ones, the receiver function is the
    low-passed spike train with lag 0 at tshift. *)
Theorem C34_greedy nfl rs src sr tshift g itmax minderr ms rfs its rmss shift :
  toward_zero (tshift * sr) shift ->
  deconv_iterative nfl (Many rs) src sr tshift (Some g) itmax minderr ms None = Ok (rfs, its, rmss) ->
  forall c r0 n r s, nth_error rs c = Some r0 -> r0 <> [] -> n = nfl (2 * length r0)%nat ->
    r = lowpass n (1 / sr) g r0 -> s = lowpass n (1 / sr) g src ->
    (ms = true \/ (shift <= Z.of_nat n)%Z) ->
    exists rf it rms sp,
      nth_error rfs c = Some rf /\ nth_error its c = Some it /\ nth_error rmss c = Some rms /\
      spike_run n (1 / sr) r s (lag_allowed n (length r0) shift ms) itmax minderr sp it rms /\
      (forall t, (t < it)%nat -> misfit n (1 / sr) r s (firstn (S t) sp) =
         misfit n (1 / sr) r s (firstn t sp)
         - match_at n (1 / sr) r s (firstn t sp) (fst (nth t sp no_spike)) ^ 2 / energy n s) /\
      rf = firstn (length r0) (filtered n (1 / sr) g tshift (spike_train n sp)).
Proof.
  intros Hshift H c r0 n r s Hc Hr0 -> -> -> Hms. destruct (iterative_component _ _ _ _ _ _ _ _ _ _ _ _ _ _ H Hc) as (Hsr & rf & it & rms & E1 & E2 & E3 & E4).
  destruct (iter_one_inv _ _ _ _ _ _ _ _ _ _ E4) as (Hn & _).
  destruct (iter_one_run _ _ _ _ _ _ _ _ _ _ _ _ _ Hsr Hr0 eq_refl E4) as (sp & [A1 A1s A2 A3 A4 A5] & Erf & Hz & _).
  set (n := nfl (2 * length r0)%nat) in *. apply trunc_spec in Hshift. subst shift.
  assert (Eq : forall l, (l < n)%nat -> unmuted (env_of n (1 / sr) g tshift sr minderr ms src r0) l <-> lag_allowed n (length r0) (trunc (tshift * sr)) ms l).
  { intros l Hl. split; [apply unmuted_allowed, Hl | apply allowed_unmuted; assumption]. }
  exists rf, it, rms, sp. refine (conj E1 (conj E2 (conj E3 (conj _ (conj _ Erf))))).
  - constructor; try assumption. intros t Ht. apply best_spike_ext with (1 := Eq). apply A2, Ht.
  - intros t Ht. destruct A1 as [A1 _]. rewrite (firstn_S_nth sp t no_spike) by lia.
    apply misfit_best with (allowed := unmuted (env_of n (1 / sr) g tshift sr minderr ms src r0)); [exact Hn | apply dt_nonzero, Hsr | | apply A2, Ht].
    apply Hz. intros ->. cbn in A1. lia.
Qed.
Print Assumptions C34_greedy.

(** at most itmax iterations, itmax recorded misfits; they lie between 1 and 0 and never
    increase *)
Theorem C34_monotone nfl rs src sr tshift g itmax minderr ms rfs its rmss :
  deconv_iterative nfl (Many rs) src sr tshift (Some g) itmax minderr ms None = Ok (rfs, its, rmss) ->
  length rfs = length rs /\ length its = length rs /\ length rmss = length rs /\
  forall c r0, nth_error rs c = Some r0 -> r0 <> [] ->
    exists it rms, nth_error its c = Some it /\ nth_error rmss c = Some rms /\ (it <= itmax)%nat /\ length rms = itmax /\
      forall i j, (i <= j < itmax)%nat -> 0 <= nth j rms 0 <= nth i rms 0 /\ nth i rms 0 <= 1.
Proof.
  intros H. destruct (iterative_inv _ _ _ _ _ _ _ _ _ _ _ _ H) as (Hsr & out & F & E1 & E2 & E3).
  assert (length out = length rs) as L by (clear - F; induction F; cbn; congruence). split; [rewrite E1, map_length; auto|]. split; [rewrite E2, map_length; auto|].
  split; [rewrite E3, map_length; auto|]. clear out F E1 E2 E3 L. intros c r0 Hc Hr0.
  destruct (iterative_component _ _ _ _ _ _ _ _ _ _ _ _ _ _ H Hc) as (_ & rf & it & rms & _ & E2 & E3 & E4).
  destruct (iter_one_inv _ _ _ _ _ _ _ _ _ _ E4) as (Hn & _).
  destruct (iter_one_run _ _ _ _ _ _ _ _ _ _ _ _ _ Hsr Hr0 eq_refl E4) as (sp & [A1 _ A2 A3 _ _] & _ & Hz & _).
  exists it, rms. refine (conj E2 (conj E3 (conj (proj2 A1) (conj (proj1 A3) _)))).
  destruct A1 as [A1 A1']. destruct A3 as [_ A3]. set (n := nfl (2 * length r0)%nat) in *.
  set (r := lowpass n (1 / sr) g r0) in *. set (s := lowpass n (1 / sr) g src) in *.
  assert (D : forall t, (t < it)%nat -> misfit n (1 / sr) r s (firstn (S t) sp) <= misfit n (1 / sr) r s (firstn t sp)).
  { intros t Ht. destruct Hz as [Hs _]; [intros ->; cbn in A1; lia|]. rewrite (firstn_S_nth sp t no_spike) by lia.
    rewrite (misfit_best n (1 / sr) r s _ _ _ Hn (dt_nonzero sr Hsr) Hs (A2 t Ht)).
    pose proof (energy_pos n s). pose proof (pow2_ge_0 (match_at n (1 / sr) r s (firstn t sp) (fst (nth t sp no_spike)))) as Q.
    assert (0 <= / energy n s) by (left; apply Rinv_0_lt_compat; lra). pose proof (Rmult_le_pos _ _ Q H1). unfold Rdiv. lra. }
  assert (M : forall i j, (i <= j)%nat -> (j <= it)%nat -> misfit n (1 / sr) r s (firstn j sp) <= misfit n (1 / sr) r s (firstn i sp)).
  { intros i j Hij. induction Hij as [|j Hij IH]; intros Hj; [lra|]. eapply Rle_trans; [apply D; lia | apply IH; lia]. }
  intros i j [Hij Hj]. rewrite !A3 by lia.
  destruct (Nat.ltb_spec i it); destruct (Nat.ltb_spec j it); try lia; try lra.
  - destruct Hz as [Hs Hr]; [intros ->; cbn in A1; lia|]. pose proof (energy_pos n r). assert (0 < energy n r) as P by lra.
    pose proof (M (S i) (S j) ltac:(lia) ltac:(lia)). pose proof (misfit_pos n (1 / sr) r s (firstn (S j) sp)).
    pose proof (M 0%nat (S i) ltac:(lia) ltac:(lia)) as M0. change (firstn 0 sp) with (@nil spike) in M0. rewrite misfit_nil in M0.
    assert (0 < / energy n r) by (apply Rinv_0_lt_compat, P).
    assert (energy n r / energy n r = 1) by (field; lra).
    assert (K : forall x y, x <= y -> x / energy n r <= y / energy n r) by (intros; apply Rmult_le_compat_r; lra).
    pose proof (K _ _ M0). pose proof (K _ _ (misfit_pos n (1 / sr) r s (firstn (S j) sp))) as K0. unfold Rdiv at 1 in K0. rewrite Rmult_0_l in K0.
    pose proof (K (misfit n (1 / sr) r s (firstn (S j) sp)) (misfit n (1 / sr) r s (firstn (S i) sp)) ltac:(assumption)). lra.
  - destruct Hz as [Hs Hr]; [intros ->; cbn in A1; lia|]. pose proof (energy_pos n r). assert (0 < energy n r) as P by lra.
    pose proof (misfit_pos n (1 / sr) r s (firstn (S i) sp)).
    pose proof (M 0%nat (S i) ltac:(lia) ltac:(lia)) as M0. change (firstn 0 sp) with (@nil spike) in M0. rewrite misfit_nil in M0.
    assert (0 < / energy n r) by (apply Rinv_0_lt_compat, P).
    assert (energy n r / energy n r = 1) by (field; lra).
    assert (K : forall x y, x <= y -> x / energy n r <= y / energy n r) by (intros; apply Rmult_le_compat_r; lra).
    pose proof (K _ _ M0). pose proof (K _ _ (misfit_pos n (1 / sr) r s (firstn (S i) sp))) as K0. unfold Rdiv at 1 in K0. rewrite Rmult_0_l in K0. lra.
Qed.
Print Assumptions C34_monotone.

(** C35: the receiver function is a filtered spike train without spikes at muted lags, for
    all data and settings; with mute_shift all spikes have lags 0 ... len-1 *)
Theorem C35_muted nfl rs src sr tshift g itmax minderr ms rfs its rmss shift :
  toward_zero (tshift * sr) shift ->
  deconv_iterative nfl (Many rs) src sr tshift (Some g) itmax minderr ms None = Ok (rfs, its, rmss) ->
  forall c r0 n, nth_error rs c = Some r0 -> r0 <> [] -> n = nfl (2 * length r0)%nat ->
    exists rf sp, nth_error rfs c = Some rf /\
      rf = firstn (length r0) (filtered n (1 / sr) g tshift (spike_train n sp)) /\
      (forall l a, In (l, a) sp -> (l < n)%nat /\ lag_allowed n (length r0) shift ms l) /\
      (ms = true -> forall i, (length r0 <= i < n)%nat -> nth i (spike_train n sp) 0 = 0).
Proof.
  intros Hshift H c r0 n Hc Hr0 ->. destruct (iterative_component _ _ _ _ _ _ _ _ _ _ _ _ _ _ H Hc) as (Hsr & rf & it & rms & E1 & E2 & E3 & E4).
  destruct (iter_one_run _ _ _ _ _ _ _ _ _ _ _ _ _ Hsr Hr0 eq_refl E4) as (sp & [A1 _ A2 _ _ _] & Erf & _).
  set (n := nfl (2 * length r0)%nat) in *. apply trunc_spec in Hshift. subst shift.
  assert (Al : forall l a, In (l, a) sp -> (l < n)%nat /\ lag_allowed n (length r0) (trunc (tshift * sr)) ms l).
  { intros l a Hin. apply (In_nth sp _ no_spike) in Hin. destruct Hin as (t & Ht & Et).
    destruct (A2 t ltac:(lia)) as (B1 & B2 & _). rewrite Et in B1, B2. cbn [fst] in B1, B2.
    split; [exact B1 | eapply unmuted_allowed; eassumption]. }
  exists rf, sp. refine (conj E1 (conj Erf (conj Al _))).
  intros -> i Hi. rewrite nth_spike_train by apply Hi. clear A1 A2 Erf. induction sp as [|[l a] sp IH]; cbn; [reflexivity|].
  rewrite IH by (intros; apply (Al l0 a0); right; assumption).
  destruct (Al l a (or_introl eq_refl)) as [_ [B|[B _]]]; [|discriminate]. destruct (Nat.eqb_spec l i); [lia | ring].
Qed.
Print Assumptions C35_muted.
(** whole sample shifts: the low-passed spike train is delayed by m samples *)
Theorem C35_shift n dt g m x : (0 < n)%nat -> dt <> 0 -> filtered n dt g (IZR m * dt) x = delayed n m (lowpass n dt g x).
Proof. exact (filtered_delayed n dt g m x). Qed.
Print Assumptions C35_shift.

(** C37: a zero response needs no iteration and gives zeros *)
Theorem C37_zero_response nfl rs src sr tshift g itmax minderr ms rfs its rmss c r0 : fast_len nfl -> 0 <= minderr ->
  deconv_iterative nfl (Many rs) src sr tshift (Some g) itmax minderr ms None = Ok (rfs, its, rmss) ->
  nth_error rs c = Some r0 -> r0 <> [] -> (forall x, In x r0 -> x = 0) ->
  nth_error rfs c = Some (zeros (length r0)) /\ nth_error its c = Some 0%nat /\ nth_error rmss c = Some (zeros itmax).
Proof.
  intros Hf Hm H Hc Hr0 Hz. destruct (iterative_component _ _ _ _ _ _ _ _ _ _ _ _ _ _ H Hc) as (Hsr & rf & it & rms & E1 & E2 & E3 & E4).
  destruct (iter_one_inv _ _ _ _ _ _ _ _ _ _ E4) as (Hn & g' & Eg & Hg). injection Eg as <-.
  rewrite (iter_one_unfold nfl src sr tshift g itmax minderr ms r0 _ eq_refl Hn Hg) in E4.
  pose proof (Hf (2 * length r0)%nat) as Hle. set (n := nfl (2 * length r0)%nat) in *.
  assert (Nz : forall k, ~ nonzero_within k r0).
  { intros k (p & _ & Hp). destruct (Nat.lt_ge_cases p (length r0)) as [L|L]; [|rewrite nth_overflow in Hp by exact L; congruence].
    apply Hp, Hz, nth_In, L. }
  assert (E0 : energy n (lowpass n (1 / sr) g r0) = 0) by (apply lowpass_energy; [exact Hn | apply Nz]).
  rewrite E0 in E4.
  assert (EL : forall e sp r, i_minderr e = minderr -> iter_loop e itmax sp r 1 (100 * 0 + minderr) [] = Ok (sp, [])).
  { intros e sp r Ee. destruct itmax; cbn [iter_loop]; [reflexivity|]. rewrite Ee.
    destruct (Rlt_dec minderr (Rabs (100 * 0 + minderr))) as [L|]; [|reflexivity]. exfalso.
    replace (100 * 0 + minderr) with minderr in L by ring. rewrite Rabs_right in L; lra. }
  rewrite EL in E4 by reflexivity. cbn [bind length] in E4. rewrite Nat.sub_0_r in E4. cbn [app] in E4.
  assert (F0 : filtered n (1 / sr) g tshift (spike_train n []) = zeros n).
  { apply nth_ext with 0 0; [rewrite filtered_length; unfold zeros; rewrite repeat_length; reflexivity|].
    intros j Hj. rewrite filtered_length in Hj. unfold zeros. rewrite nth_repeat. unfold filtered.
    change (map ?f (seq 0 n)) with (tabulate n f). rewrite nth_tabulate by exact Hj. rewrite rsum_zero; [ring|].
    intros k Hk. rewrite dft_fft by exact Hn. assert (fft_at n (rsig (spike_train n [])) k = Czero) as ->.
    { unfold fft_at. apply csum_zero. intros i Hi. unfold rsig. rewrite nth_spike_train by exact Hi. apply cplx_eq; cbn; ring. }
    cbn. ring. }
  rewrite F0 in E4. assert (firstn (length r0) (zeros n) = zeros (length r0)) as F1.
  { unfold zeros. replace n with (length r0 + (n - length r0))%nat by lia. rewrite repeat_app, firstn_app, repeat_length, Nat.sub_diag.
    cbn. rewrite app_nil_r. rewrite firstn_all2 by (rewrite repeat_length; lia). reflexivity. }
  rewrite F1 in E4. injection E4 as <- <- <-. auto.
Qed.
Print Assumptions C37_zero_response.

(** for a source that is not zero, all responses (also zero ones) are deconvolved; with
    normalisation the only failures are a missing or zero reference trace *)
Theorem C37_total_partial nfl rs src sr tshift g itmax minderr ms : fast_len nfl -> sr <> 0 -> g <> 0 -> 0 <= minderr ->
  (forall r, In r rs -> r <> [] /\ nonzero_within (2 * length r) src) ->
  exists rfs its rmss,
    deconv_iterative nfl (Many rs) src sr tshift (Some g) itmax minderr ms None = Ok (rfs, its, rmss) /\
    forall i rf, nth_error rfs i = Some rf -> (exists x, In x rf /\ x <> 0) ->
      exists out, deconv_iterative nfl (Many rs) src sr tshift (Some g) itmax minderr ms (Some i) = Ok (out, its, rmss).
Proof.
  intros Hf Hsr Hg Hm Hrs.
  assert (T : exists out, mapM (iter_one nfl src sr tshift (Some g) itmax minderr ms) rs = Ok out).
  { induction rs as [|r rs IH]; [exists []; reflexivity|]. destruct IH as (out & E); [intros; apply Hrs; right; assumption|].
    destruct (Hrs r (or_introl eq_refl)) as [Hr Hs]. cbn [mapM]. rewrite E.
    pose proof (Hf (2 * length r)%nat) as Hle. assert (0 < length r)%nat by (destruct r; [congruence | cbn; lia]).
    rewrite (iter_one_unfold nfl src sr tshift g itmax minderr ms r _ eq_refl ltac:(lia) Hg).
    set (n := nfl (2 * length r)%nat) in *. assert (Hn : (0 < n)%nat) by lia.
    assert (Es : energy n (lowpass n (1 / sr) g src) <> 0).
    { intros Es. apply lowpass_energy in Es; [|exact Hn]. apply Es. destruct Hs as (p & Hp & Hx). exists p. split; [lia | exact Hx]. }
    set (e := env_of n (1 / sr) g tshift sr minderr ms src r).
    destruct (Req_dec (energy n (lowpass n (1 / sr) g r)) 0) as [E0|E0].
    - assert (EL : iter_loop e itmax (spike_train n []) (lowpass n (1 / sr) g r) 1 (100 * energy n (lowpass n (1 / sr) g r) + minderr) [] = Ok (spike_train n [], [])).
      { destruct itmax; cbn [iter_loop]; [reflexivity|]. cbn [i_minderr e env_of]. rewrite E0.
        destruct (Rlt_dec minderr (Rabs (100 * 0 + minderr))) as [L|]; [|reflexivity]. exfalso.
        replace (100 * 0 + minderr) with minderr in L by ring. rewrite Rabs_right in L; lra. }
      rewrite EL. cbn [bind]. eexists; reflexivity.
    - destruct (loop_total e n (lowpass n (1 / sr) g src) (lowpass n (1 / sr) g r) eq_refl eq_refl itmax Es E0
        (spike_train n []) (lowpass n (1 / sr) g r) 1 (100 * energy n (lowpass n (1 / sr) g r) + minderr) []) as (p0 & rms & EL).
      rewrite EL. cbn [bind]. eexists; reflexivity. }
  destruct T as (out & E). do 3 eexists. split.
  - unfold deconv_iterative. destruct (Req_EM_T sr 0); [contradiction|]. cbn [bind]. rewrite E. reflexivity.
  - intros i rf Hi (x & Hx & Hx0). unfold deconv_iterative. destruct (Req_EM_T sr 0); [contradiction|]. cbn [bind]. rewrite E. cbn [bind].
    unfold normalise. rewrite Hi. destruct (Req_EM_T (max_abs rf) 0) as [M|]; cbn [bind]; [exfalso | eexists; reflexivity].
    pose proof (max_abs_ge rf x Hx). pose proof (Rabs_pos_lt x Hx0). lra.
Qed.
Print Assumptions C37_total_partial.
(** refuted in general: a zero source divides by zero although nothing is normalised *)
Theorem C37_total_refuted : forall nfl itmax, fast_len nfl -> (0 < itmax)%nat ->
  deconv_iterative nfl (Many [[1]]) [0] 1 0 (Some 1) itmax (1 / 1000) false None = Err OtherError.
Proof.
  intros nfl itmax Hf Hit. destruct itmax as [|k]; [lia|]. unfold deconv_iterative. destruct (Req_EM_T 1 0) as [|Hsr]; [lra|]. cbn [bind mapM].
  assert (Hn : (0 < nfl (2 * length [1%R]))%nat) by (eapply Nat.lt_le_trans; [|apply Hf]; cbn; lia).
  rewrite (iter_one_unfold nfl [0] 1 0 1 (S k) (1 / 1000) false [1] _ eq_refl Hn ltac:(lra)).
  set (n := nfl (2 * length [1%R])%nat) in *.
  cbn [iter_loop]. cbn [i_minderr i_powerS env_of].
  assert (Er : 0 < energy n (lowpass n (1 / 1) 1 [1])).
  { destruct (energy_pos n (lowpass n (1 / 1) 1 [1])) as [|E]; [assumption|exfalso].
    symmetry in E. apply lowpass_energy in E; [|exact Hn]. apply E. exists 0%nat. split; [exact Hn | cbn; lra]. }
  destruct (Rlt_dec (1 / 1000) _) as [_|L].
  - destruct (Req_EM_T _ 0) as [|Es]; [reflexivity|]. exfalso. apply Es. apply lowpass_energy; [exact Hn|].
    intros (p & _ & Hp). destruct p as [|[|p]]; cbn in Hp; lra.
  - exfalso. apply L. rewrite Rabs_right; lra.
Qed.
Print Assumptions C37_total_refuted.

(** C29, iterative: one common factor, and the absolute maximum of result i is 1 *)
Theorem C29_iterative nfl rs src sr tshift gauss itmax minderr ms i out its rmss :
  deconv_iterative nfl (Many rs) src sr tshift gauss itmax minderr ms (Some i) = Ok (out, its, rmss) ->
  exists raw c r, deconv_iterative nfl (Many rs) src sr tshift gauss itmax minderr ms None = Ok (raw, its, rmss) /\
    out = map (scale c) raw /\ nth_error out i = Some r /\
    (forall x, In x r -> Rabs x <= 1) /\ (exists x, In x r /\ Rabs x = 1).
Proof.
  unfold deconv_iterative. destruct (Req_EM_T sr 0); [discriminate|]. cbn [bind].
  destruct (mapM _ rs) as [o|]; cbn [bind]; [|discriminate].
  destruct (normalise i (map (fun o => fst (fst o)) o)) as [x|] eqn:En; cbn [bind]; [|discriminate]. intros H.
  assert (x = out) as -> by congruence. assert (its = map (fun o => snd (fst o)) o) as -> by congruence.
  assert (rmss = map snd o) as -> by congruence.
  destruct (normalise_spec i _ out En) as (c & r & _ & A & B & D). do 3 eexists.
  split; [reflexivity|]. split; [exact A|]. split; [exact B|]. rewrite <- D. split; [apply max_abs_ge|].
  apply max_abs_attained. intros ->. cbn in D. lra.
Qed.
Print Assumptions C29_iterative.

(** C36, iterative: lists of arrays are accepted (C37_total_partial), single arrays are
    not, whatever the setting of normalize *)
Theorem C36_iterative_refuted nfl x r src sr tshift gauss itmax minderr ms norm : sr <> 0 ->
  deconv_iterative nfl (Single (x :: r)) src sr tshift gauss itmax minderr ms norm = Err TypeError.
Proof. intros H. unfold deconv_iterative. destruct (Req_EM_T sr 0); [contradiction | reflexivity]. Qed.
Print Assumptions C36_iterative_refuted.

(** C30, iterative: a common gain of source and responses changes nothing, neither the
    receiver functions (also unnormalised ones) nor iterations and misfits *)
Theorem C30_iterative nfl rs src sr tshift gauss itmax minderr ms norm c : c <> 0 -> 0 <= minderr ->
  deconv_iterative nfl (Many (map (scale c) rs)) (scale c src) sr tshift gauss itmax minderr ms norm =
  deconv_iterative nfl (Many rs) src sr tshift gauss itmax minderr ms norm.
Proof.
  intros Hc Hm. unfold deconv_iterative. destruct (Req_EM_T sr 0) as [|Hsr]; [reflexivity|]. cbn [bind].
  assert (mapM (iter_one nfl (scale c src) sr tshift gauss itmax minderr ms) (map (scale c) rs) =
          mapM (iter_one nfl src sr tshift gauss itmax minderr ms) rs) as ->; [|reflexivity].
  induction rs as [|r rs IH]; cbn [map mapM]; [reflexivity|]. rewrite iter_one_gain by assumption. rewrite IH. reflexivity.
Qed.
Print Assumptions C30_iterative.

(** a run with at least one spike *)
Example C34_nonvacuous : exists rfs its rmss it,
  deconv_iterative (fun m => m) (Many [[1; 2]]) [1] 1 0 (Some 1) 3 0 true None = Ok (rfs, its, rmss) /\
  its = [it] /\ (1 <= it)%nat /\ toward_zero (0 * 1) 0.
Proof.
  destruct (C37_total_partial (fun m => m) [[1; 2]] [1] 1 0 1 3 0 true) as (rfs & its & rmss & H & _); try lra.
  - intros m. lia.
  - intros r [<-|[]]. split; [discriminate|]. exists 0%nat. split; [cbn; lia | cbn; lra].
  - destruct (iterative_component _ _ _ _ _ _ _ _ _ _ _ _ 0%nat [1; 2] H eq_refl) as (Hsr & rf & it & rms & _ & E2 & _ & E4).
    destruct (C34_monotone _ _ _ _ _ _ _ _ _ _ _ _ H) as (_ & L & _). exists rfs, its, rmss, it. split; [exact H|].
    split; [destruct its as [|x [|]]; cbn in L; try lia; cbn in E2; congruence|]. split; [|split; intros; lra].
    destruct (iter_one_run _ _ _ _ _ _ _ _ [1; 2] _ _ _ _ Hsr ltac:(discriminate) eq_refl E4) as (sp & A & _ & _ & Hstop).
    destruct it as [|it]; [exfalso | lia]. specialize (Hstop ltac:(lia) eq_refl).
    set (n := (2 * length [1%R; 2%R])%nat) in *.
    destruct (energy_pos n (lowpass n (1 / 1) 1 [1; 2])) as [P|P]; [lra|]. symmetry in P. apply lowpass_energy in P; [|cbn; lia].
    apply P. exists 0%nat. split; [cbn; lia | cbn; lra].
Qed.
Example C37_nonvacuous : exists rfs its rmss,
  deconv_iterative (fun m => m) (Many [[1; 2]; [0; 0; 0]]) [1; -1] 10 0 (Some 1) 3 (1 / 1000) true None = Ok (rfs, its, rmss).
Proof.
  destruct (C37_total_partial (fun m => m) [[1; 2]; [0; 0; 0]] [1; -1] 10 0 1 3 (1 / 1000) true) as (rfs & its & rmss & H & _); try lra.
  - intros m. lia.
  - intros r [<-|[<-|[]]]; (split; [discriminate|]; exists 0%nat; split; [cbn; lia | cbn; lra]).
  - eauto.
Qed.
