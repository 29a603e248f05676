(** Deconvolution of a source from a trace which contains nothing but this source. *)
From Verif Require Import Model.Waterlevel Model.Iterative Spec.CorrSpec Spec.TimeRfSpec Spec.SpikeSpec
  Proofs.SumFacts Proofs.CplxFacts Proofs.WaterFacts Proofs.PyFacts Proofs.DeconvTimeFacts Proofs.SpikeFacts.
From Coq Require Import Lra Lia.
Notation length := List.length.
Open Scope R_scope.

(** the trace is the source, circularly delayed *)
Lemma placed_periodic n s r T o : (length r <= n)%nat -> (forall p, (n <= p)%nat -> nth p s 0 = 0) -> placed s r T o ->
  forall j, (j < n)%nat -> nth j r 0 = periodic n s (Z.of_nat j - (o - T)).
Proof.
  intros Hr Hs Hp j Hj. unfold periodic. set (z := (Z.of_nat j - (o - T))%Z).
  pose proof (Z.mod_pos_bound z (Z.of_nat n) ltac:(lia)) as B. set (q := (z mod Z.of_nat n)%Z) in *.
  rewrite <- (smp_nth s), Z2Nat.id by lia. rewrite <- (smp_nth r).
  assert (S0 : forall y, (y < 0 \/ Z.of_nat n <= y)%Z -> smp s y = 0).
  { intros y Hy. unfold smp. destruct (Z.ltb_spec y 0); [reflexivity|]. apply Hs. lia. }
  destruct (Z.eq_dec z q) as [E|E].
  - rewrite (Hp (Z.of_nat j)). f_equal. subst z. lia.
  - rewrite (Hp (Z.of_nat j)).
    assert (D : (z < 0 \/ Z.of_nat n <= z)%Z).
    { destruct (Z.lt_ge_cases z 0); [left; assumption|]. destruct (Z.lt_ge_cases z (Z.of_nat n)); [|right; assumption].
      exfalso. apply E. symmetry. apply Z.mod_small. lia. }
    rewrite S0 by (subst z; lia). symmetry.
    replace q with ((q + o - T) - o + T)%Z by ring. rewrite <- (Hp (q + o - T)%Z). apply smp_out.
    assert (exists t, z = (q + t * Z.of_nat n)%Z) as (t & Ht).
    { exists (z / Z.of_nat n)%Z. pose proof (Z.div_mod z (Z.of_nat n) ltac:(lia)). fold q in H. lia. }
    assert (t <> 0)%Z by (intros ->; lia). assert (q + o - T = Z.of_nat j - t * Z.of_nat n)%Z as -> by (subst z; lia).
    destruct (Z.lt_ge_cases t 0); [right; nia | left; nia].
Qed.
Lemma placed_fft n s r T o : (0 < n)%nat -> (length r <= n)%nat -> (forall p, (n <= p)%nat -> nth p s 0 = 0) -> placed s r T o ->
  forall k, (k < n)%nat -> fft_at n (rsig r) k = Cmul (unit n (- (Z.of_nat k * (o - T)))) (fft_at n (rsig s) k).
Proof.
  intros Hn Hr Hs Hp k Hk.
  rewrite (fft_ext n (rsig r) (ifft_at n (fun k => Cmul (unit n (- (Z.of_nat k * (o - T)))) (fft_at n (rsig s) k)))).
  - apply fft_ifft; assumption.
  - intros j Hj. rewrite ifft_shift, ifft_fft by (try apply wrap_lt; exact Hn). unfold rsig. f_equal.
    apply (placed_periodic n s r T o); assumption.
Qed.

(** a spectrum with positive amplitudes and the phases of a delay: the maximum is at the delay *)
Lemma fst_unit n z : Rabs (fst (unit n z)) <= 1.
Proof. unfold unit, cis. cbn [fst]. apply Rabs_le. apply COS_bound. Qed.
Lemma positive_spectrum n p o : (0 < n)%nat -> (forall k, (k < n)%nat -> 0 <= p k) ->
  fst (ifft_at n (fun k => Cscal (p k) (unit n (- (Z.of_nat k * Z.of_nat o)))) o) = / INR n * rsum n p /\
  forall j, Rabs (fst (ifft_at n (fun k => Cscal (p k) (unit n (- (Z.of_nat k * Z.of_nat o)))) j)) <= / INR n * rsum n p.
Proof.
  intros Hn Hp. assert (E : forall j, fst (ifft_at n (fun k => Cscal (p k) (unit n (- (Z.of_nat k * Z.of_nat o)))) j) =
    / INR n * rsum n (fun k => p k * fst (unit n (Z.of_nat k * (Z.of_nat j - Z.of_nat o))))).
  { intros j. unfold ifft_at. cbn [Cscal fst]. f_equal. rewrite csum_fst. apply rsum_ext. intros k Hk.
    replace (Z.of_nat k * (Z.of_nat j - Z.of_nat o))%Z with (- (Z.of_nat k * Z.of_nat o) + Z.of_nat k * Z.of_nat j)%Z by ring.
    rewrite (unit_add n Hn). cbn. ring. }
  assert (0 < / INR n) by (apply Rinv_0_lt_compat, lt_0_INR, Hn). split.
  - rewrite E. f_equal. apply rsum_ext. intros k Hk. rewrite Z.sub_diag, Z.mul_0_r, (unit_0 n Hn). cbn. ring.
  - intros j. rewrite E, Rabs_mult, (Rabs_right (/ INR n)) by lra. apply Rmult_le_compat_l; [lra|].
    assert (A : forall f m, Rabs (rsum m f) <= rsum m (fun k => Rabs (f k))).
    { intros f m. induction m as [|m IH]; cbn [rsum]; [rewrite Rabs_R0; lra|]. eapply Rle_trans; [apply Rabs_triang | lra]. }
    eapply Rle_trans; [apply A|]. apply rsum_le. intros k Hk. rewrite Rabs_mult, (Rabs_right (p k)) by (apply Rle_ge, Hp, Hk).
    rewrite <- (Rmult_1_r (p k)) at 2. apply Rmult_le_compat_l; [apply Hp, Hk | apply fst_unit].
Qed.
Lemma rsum_pos1 n f k : (forall i, (i < n)%nat -> 0 <= f i) -> (k < n)%nat -> 0 < f k -> 0 < rsum n f.
Proof. intros H Hk Hf. eapply Rlt_le_trans; [exact Hf | apply (rsum_ge_term n f k); assumption]. Qed.

(** ** waterlevel *)
Lemma wl_G_pos n dt gauss k : 0 < wl_G n dt gauss k.
Proof. unfold wl_G. destruct gauss; [apply exp_pos | lra]. Qed.
Definition wl_p (n : nat) (dt : R) (gauss : option R) (s : list R) (wl : R) (k : nat) : R :=
  / wl_w n s wl k * (wl_G n dt gauss k * Cnorm2 (fft_at n (rsig s) k)).
Lemma wl_spec_placed n dt gauss s wl r T o k : (0 < n)%nat -> dt <> 0 -> (length r <= n)%nat ->
  (forall p, (n <= p)%nat -> nth p s 0 = 0) -> placed s r T o -> (k < n)%nat ->
  wl_spec_one n dt (IZR T * dt) gauss s wl (fft_at n (rsig r)) k =
  Cscal (wl_p n dt gauss s wl k) (unit n (- (Z.of_nat k * o))).
Proof.
  intros Hn Hdt Hr Hs Hp Hk. unfold wl_spec_one, wl_p. rewrite wl_F_split, wl_F_unit by assumption.
  rewrite (placed_fft n s r T o Hn Hr Hs Hp k Hk). set (S := fft_at n (rsig s) k).
  replace (- (Z.of_nat k * o))%Z with (- (Z.of_nat k * T) + - (Z.of_nat k * (o - T)))%Z by ring. rewrite (unit_add n Hn).
  set (a := unit n _). set (b := unit n _). rewrite !Cscal_mul, !RtoC_mul. rewrite <- (Cmul_conj S). ring.
Qed.
Lemma wl_peak n N dt gauss s wl r T o : (0 < n)%nat -> dt <> 0 -> (length r <= n)%nat ->
  (forall p, (n <= p)%nat -> nth p s 0 = 0) -> nonzero s -> 0 < wl -> placed s r T (Z.of_nat o) -> (o < N)%nat -> (N <= n)%nat ->
  let rf := wl_rf n N dt (IZR T * dt) gauss s wl r in
  length rf = N /\ exists m, 0 < m /\ nth o rf Czero = RtoC m /\ forall z, In z rf -> Rabs (fst z) <= m /\ snd z = 0.
Proof.
  intros Hn Hdt Hr Hs (p & Hp) Hwl Hpl Ho HN. cbn zeta.
  assert (NZ : nonzero_within n s).
  { exists p. split; [|exact Hp]. destruct (Nat.lt_ge_cases p n); [assumption|]. exfalso. apply Hp, Hs. assumption. }
  assert (Rl : forall z, In z (wl_rf n N dt (IZR T * dt) gauss s wl r) -> snd z = 0).
  { intros z. apply wl_rf_real; [exact Hn | exact Hdt | right; exists T; reflexivity]. }
  assert (E : wl_rf n N dt (IZR T * dt) gauss s wl r =
    tabulate N (ifft_at n (fun k => Cscal (wl_p n dt gauss s wl k) (unit n (- (Z.of_nat k * Z.of_nat o)))))).
  { unfold wl_rf. rewrite firstn_tabulate, Nat.min_l by exact HN. apply tabulate_ext. intros j Hj. apply ifft_ext.
    intros k Hk. apply wl_spec_placed; assumption. }
  assert (P0 : forall k, (k < n)%nat -> 0 <= wl_p n dt gauss s wl k).
  { intros k Hk. unfold wl_p. apply Rmult_le_pos; [left; apply Rinv_0_lt_compat, wl_w_pos; assumption|].
    apply Rmult_le_pos; [left; apply wl_G_pos | apply Cnorm2_pos]. }
  destruct (positive_spectrum n (wl_p n dt gauss s wl) o Hn P0) as [A B].
  assert (PS : 0 < rsum n (wl_p n dt gauss s wl)).
  { pose proof (peak_pos n s NZ) as PP. destruct (proj2 (peak_spec n s (peak n s) Hn) eq_refl) as [_ (k & Hk & Ek)].
    apply (rsum_pos1 n _ k P0 Hk). unfold wl_p. apply Rmult_lt_0_compat; [apply Rinv_0_lt_compat, wl_w_pos; assumption|].
    apply Rmult_lt_0_compat; [apply wl_G_pos|]. rewrite <- dft_fft by exact Hn. rewrite Ek. exact PP. }
  assert (0 < / INR n) by (apply Rinv_0_lt_compat, lt_0_INR, Hn).
  split; [rewrite E; apply tabulate_length|]. exists (/ INR n * rsum n (wl_p n dt gauss s wl)).
  split; [apply Rmult_lt_0_compat; assumption|]. split.
  - rewrite E, nth_tabulate by exact Ho. apply cplx_eq; [exact A|]. apply Rl. rewrite E. apply In_tabulate. exists o. auto.
  - intros z Hz. split; [|apply Rl, Hz]. rewrite E in Hz. apply In_tabulate in Hz. destruct Hz as (j & Hj & <-). apply B.
Qed.

(** ** iterative *)
Lemma zero_or_not (x : list R) : (forall j, nth j x 0 = 0) \/ nonzero x.
Proof.
  induction x as [|a x [Z|NZ]]; [left; intros [|]; reflexivity | |].
  - destruct (Req_dec a 0) as [->|H]; [left; intros [|j]; [reflexivity | apply Z] | right; exists 0%nat; exact H].
  - right. destruct NZ as (p & Hp). exists (S p). exact Hp.
Qed.
Lemma last_nonzero (x : list R) : nonzero x -> exists q, (q < length x)%nat /\ nth q x 0 <> 0 /\ forall j, (q < j)%nat -> nth j x 0 = 0.
Proof.
  induction x as [|a x IH]; intros (p & Hp); [destruct p; cbn in Hp; congruence|].
  destruct (zero_or_not x) as [Z|NZ].
  - exists 0%nat. split; [cbn; lia|]. split.
    + destruct p as [|p]; [exact Hp|]. cbn in Hp. rewrite Z in Hp. congruence.
    + intros [|j] Hj; [lia|]. cbn. apply Z.
  - destruct (IH NZ) as (q & H1 & H2 & H3). exists (S q). split; [cbn; lia|]. split; [exact H2|].
    intros [|j] Hj; [lia|]. cbn. apply H3. lia.
Qed.
(** a signal in the first half of a period equals no shifted copy of itself *)
Lemma no_self_shift n x d c : (2 * length x <= n)%nat -> nonzero x -> (0 < d < Z.of_nat n)%Z ->
  (forall j, (j < n)%nat -> nth j x 0 = c * periodic n x (Z.of_nat j - d)) -> False.
Proof.
  intros Hn Hx Hd H. destruct (last_nonzero x Hx) as (q & Q1 & Q2 & Q3).
  assert (Hc : c <> 0).
  { intros ->. apply Q2. rewrite (H q) by lia. ring. }
  destruct (Z.lt_ge_cases (Z.of_nat q + d) (Z.of_nat n)) as [L|L].
  - (* sample q + d *)
    pose proof (H (Z.to_nat (Z.of_nat q + d)) ltac:(lia)) as E. rewrite (Q3 (Z.to_nat (Z.of_nat q + d))) in E by lia.
    unfold periodic in E. replace (Z.of_nat (Z.to_nat (Z.of_nat q + d)) - d)%Z with (Z.of_nat q) in E by lia.
    rewrite Z.mod_small, Nat2Z.id in E by lia. symmetry in E. apply Rmult_integral in E. tauto.
  - (* sample q - d + n *)
    pose proof (H q ltac:(lia)) as E. unfold periodic in E.
    replace (Z.of_nat q - d)%Z with ((Z.of_nat q - d + Z.of_nat n) + (-1) * Z.of_nat n)%Z in E by ring.
    rewrite Z_mod_plus_full, Z.mod_small in E by lia. rewrite (Q3 (Z.to_nat (Z.of_nat q - d + Z.of_nat n))) in E by lia.
    rewrite Rmult_0_r in E. contradiction.
Qed.

Section SelfIter.
  Variables (n : nat) (dt g : R) (s r0 : list R) (L : nat).
  Hypothesis Hn : (2 * length r0 <= n)%nat.
  Hypothesis Hdt : dt <> 0.
  Hypothesis HL : (L < length r0)%nat.
  Hypothesis Hr0 : nonzero r0.
  Hypothesis Hsh : forall j, (j < n)%nat -> nth j r0 0 = periodic n s (Z.of_nat j - Z.of_nat L).
  Let r := lowpass n dt g r0.
  Let sf := lowpass n dt g s.
  Hypothesis Hn0 : (0 < n)%nat.

  Lemma shift_fft x y m : (forall j, (j < n)%nat -> nth j x 0 = periodic n y (Z.of_nat j - Z.of_nat m)) ->
    forall k, (k < n)%nat -> fft_at n (rsig x) k = Cmul (unit n (- (Z.of_nat k * Z.of_nat m))) (fft_at n (rsig y) k).
  Proof.
    intros H k Hk.
    rewrite (fft_ext n (rsig x) (ifft_at n (fun k => Cmul (unit n (- (Z.of_nat k * Z.of_nat m))) (fft_at n (rsig y) k)))).
    - apply fft_ifft; assumption.
    - intros j Hj. rewrite ifft_shift, ifft_fft by (try apply wrap_lt; exact Hn0). unfold rsig. f_equal. apply H, Hj.
  Qed.
  Lemma low_shift j : (j < n)%nat -> nth j r 0 = periodic n sf (Z.of_nat j - Z.of_nat L).
  Proof.
    intros Hj. unfold r, sf, periodic. fold (wrap n (Z.of_nat j - Z.of_nat L)).
    rewrite !lowpass_tab, !nth_tabulate by (try apply wrap_lt; assumption). rewrite <- (ifft_shift n Hn0). f_equal. apply ifft_ext.
    intros k Hk. rewrite (shift_fft r0 s L Hsh k Hk). rewrite !Cscal_mul. ring.
  Qed.
  Lemma energy_shift : energy n r = energy n sf.
  Proof.
    unfold energy. rewrite <- (rsum_shift n Hn0 (fun i => nth i sf 0 * nth i sf 0) (- Z.of_nat L)).
    apply rsum_ext. intros j Hj. rewrite low_shift by exact Hj. reflexivity.
  Qed.
  Lemma energy_r_pos : 0 < energy n r.
  Proof.
    pose proof (energy_pos n r). destruct (Req_dec (energy n r) 0) as [E|]; [exfalso | lra].
    apply (lowpass_energy n dt g r0 Hn0) in E. apply E. destruct Hr0 as (p & Hp). exists p. split; [|exact Hp].
    destruct (Nat.lt_ge_cases p n); [assumption|]. rewrite nth_overflow in Hp by lia. congruence.
  Qed.
  Lemma match_L : match_at n dt r sf [] L = energy n r.
  Proof.
    unfold match_at, energy. apply rsum_ext. intros j Hj. rewrite low_shift by exact Hj. unfold residual, predicted. cbn [fold_right].
    rewrite low_shift by exact Hj. ring.
  Qed.
  (** the first spike *)
  Lemma first_spike (allowed : nat -> Prop) x : allowed L -> best_spike n dt r sf allowed [] x -> x = (L, / dt) /\ misfit n dt r sf [x] = 0.
  Proof.
    intros HA B. pose proof energy_r_pos as P.
    assert (M0 : misfit n dt r sf [x] = 0).
    { pose proof (misfit_best n dt r sf allowed [] x Hn0 Hdt ltac:(rewrite <- energy_shift; lra) B) as E. cbn [app] in E.
      rewrite misfit_nil in E. destruct B as (_ & _ & B & _). specialize (B L ltac:(lia) HA). rewrite match_L, Rabs_right in B by lra.
      pose proof (misfit_pos n dt r sf [x]). rewrite <- energy_shift in E. set (m := match_at n dt r sf [] (fst x)) in *.
      assert (energy n r * energy n r <= m ^ 2).
      { rewrite <- (pow2_abs m). cbn [pow]. rewrite Rmult_1_r. apply Rmult_le_compat; lra. }
      assert (energy n r <= m ^ 2 / energy n r).
      { apply Rmult_le_reg_r with (energy n r); [exact P|]. unfold Rdiv. rewrite Rmult_assoc, Rinv_l, Rmult_1_r by lra. exact H0. }
      lra. }
    split; [|exact M0]. destruct x as [l a]. destruct B as (Hl & _). cbn [fst] in Hl.
    assert (Res : forall j, (j < n)%nat -> nth j r 0 = dt * a * periodic n sf (Z.of_nat j - Z.of_nat l)).
    { intros j Hj. pose proof (rsum_sq_zero n (fun j => residual n dt r sf [(l, a)] j) M0 j Hj) as E. cbn beta in E.
      unfold residual, predicted in E. cbn [fold_right fst snd] in E. lra. }
    (* undo the filter *)
    assert (Un : forall j, (j < n)%nat -> nth j r0 0 = dt * a * periodic n s (Z.of_nat j - Z.of_nat l)).
    { intros j Hj. unfold periodic. fold (wrap n (Z.of_nat j - Z.of_nat l)).
      change (nth j r0 0) with (fst (rsig r0 j)). rewrite <- (ifft_fft n Hn0 (rsig r0) j Hj).
      rewrite (ifft_ext n _ (fun k => Cmul (RtoC (dt * a)) (Cmul (unit n (- (Z.of_nat k * Z.of_nat l))) (fft_at n (rsig s) k)))).
      - rewrite (ifft_scal n), (ifft_shift n Hn0), (ifft_fft n Hn0) by (apply wrap_lt; exact Hn0). cbn. ring.
      - intros k Hk.
        assert (E : fft_at n (rsig r) k = Cmul (RtoC (dt * a)) (Cmul (unit n (- (Z.of_nat k * Z.of_nat l))) (fft_at n (rsig sf) k))).
        { rewrite (fft_ext n (rsig r) (fun j => Cmul (RtoC (dt * a)) (rsig (delayed n (Z.of_nat l) sf) j))).
          - rewrite (fft_scal n). f_equal. apply shift_fft; [|exact Hk]. intros i Hi. unfold delayed.
            change (map ?f (seq 0 n)) with (tabulate n f). rewrite nth_tabulate by exact Hi. reflexivity.
          - intros i Hi. unfold rsig at 1. rewrite (Res i Hi). unfold rsig, delayed.
            change (map ?f (seq 0 n)) with (tabulate n f). rewrite nth_tabulate by exact Hi. apply RtoC_mul. }
        unfold r, sf in E. rewrite <- !lowpass_fft in E by assumption. pose proof (gG_pos n dt g k) as G.
        apply (f_equal (Cscal (/ gG n dt g k))) in E. rewrite Cscal_Cscal, Rinv_l, Cscal_1 in E by lra. rewrite E.
        set (u := unit n _). set (S := fft_at n (rsig s) k). rewrite !Cscal_mul.
        transitivity (Cmul (Cmul (RtoC (/ gG n dt g k)) (RtoC (gG n dt g k))) (Cmul (RtoC (dt * a)) (Cmul u S))); [ring|].
        rewrite <- RtoC_mul, Rinv_l by lra. change (RtoC 1) with Cone. ring. }
    (* the lag *)
    assert (l = L) as ->.
    { destruct (Nat.eq_dec l L) as [|Hne]; [assumption|]. exfalso.
      apply (no_self_shift n r0 ((Z.of_nat l - Z.of_nat L) mod Z.of_nat n) (dt * a) Hn Hr0).
      - pose proof (Z.mod_pos_bound (Z.of_nat l - Z.of_nat L) (Z.of_nat n) ltac:(lia)).
        assert ((Z.of_nat l - Z.of_nat L) mod Z.of_nat n <> 0)%Z; [|lia]. intros E.
        apply Z.mod_divide in E; [|lia]. destruct E as (t & Et). assert (t = 0)%Z by nia. lia.
      - intros j Hj. rewrite (Un j Hj). f_equal. unfold periodic at 2.
        set (z := ((Z.of_nat j - (Z.of_nat l - Z.of_nat L) mod Z.of_nat n) mod Z.of_nat n)%Z).
        assert (0 <= z < Z.of_nat n)%Z by (apply Z.mod_pos_bound; lia).
        rewrite Hsh by lia. unfold periodic. do 2 f_equal. rewrite Z2Nat.id by lia. unfold z.
        rewrite Zminus_mod_idemp_l.
        replace (Z.of_nat j - (Z.of_nat l - Z.of_nat L) mod Z.of_nat n - Z.of_nat L)%Z
          with (Z.of_nat j - Z.of_nat L - (Z.of_nat l - Z.of_nat L) mod Z.of_nat n)%Z by ring.
        rewrite Zminus_mod_idemp_r. f_equal. ring. }
    f_equal. destruct Hr0 as (p & Hp). assert (Hpn : (p < n)%nat) by (destruct (Nat.lt_ge_cases p n); [assumption|]; rewrite nth_overflow in Hp by lia; congruence).
    pose proof (Un p Hpn) as E. rewrite <- (Hsh p Hpn) in E.
    assert (dt * a = 1) by (apply (Rmult_eq_reg_r (nth p r0 0)); [lra | exact Hp]).
    apply (Rmult_eq_reg_l dt); [|exact Hdt]. rewrite Rinv_r by exact Hdt. exact H.
  Qed.
  (** the other spikes are empty *)
  Lemma run_self (allowed : nat -> Prop) itmax minderr sp it rms : allowed L -> (0 < itmax)%nat ->
    spike_run n dt r sf allowed itmax minderr sp it rms ->
    spike_train n sp = spike_train n [(L, / dt)] /\ (0 <= minderr -> (it <= 2)%nat).
  Proof.
    intros HA Hit [[R1 R2] Rs R3 R4 R5 R6]. specialize (Rs Hit energy_r_pos).
    destruct sp as [|x sp]; [cbn in R1; lia|]. pose proof (R3 0%nat Rs) as B0. cbn [firstn nth] in B0.
    destruct (first_spike allowed x HA B0) as [Ex M0].
    assert (Es : energy n sf <> 0) by (rewrite <- energy_shift; pose proof energy_r_pos; lra).
    assert (M : forall t, (t < it)%nat -> misfit n dt r sf (firstn (S t) (x :: sp)) = 0).
    { induction t as [|t IH]; intros Ht; [exact M0|]. rewrite (firstn_S_nth (x :: sp) (S t) no_spike) by lia.
      rewrite (misfit_best n dt r sf allowed _ _ Hn0 Hdt Es (R3 (S t) Ht)). rewrite IH by lia.
      pose proof (misfit_pos n dt r sf (firstn (S t) (x :: sp) ++ [nth (S t) (x :: sp) no_spike])) as P.
      rewrite (misfit_best n dt r sf allowed _ _ Hn0 Hdt Es (R3 (S t) Ht)), IH in P by lia.
      set (m := match_at _ _ _ _ _ _) in *. assert (0 <= m ^ 2 / energy n sf); [|lra].
      apply Rmult_le_pos; [apply pow2_ge_0|]. left. apply Rinv_0_lt_compat. pose proof (energy_pos n sf). lra. }
    assert (Z0 : forall y, In y sp -> snd y = 0).
    { intros y Hy. apply (In_nth sp y no_spike) in Hy. destruct Hy as (t & Ht & <-).
      cbn [length] in R1. destruct (R3 (S t) ltac:(lia)) as (_ & _ & _ & A). cbn [nth] in A. rewrite A.
      assert (match_at n dt r sf (firstn (S t) (x :: sp)) (fst (nth t sp no_spike)) = 0) as ->; [|unfold Rdiv; ring].
      unfold match_at. apply rsum_zero. intros j Hj. pose proof (M t ltac:(lia)) as Mt.
      rewrite (rsum_sq_zero n (fun j => residual n dt r sf (firstn (S t) (x :: sp)) j) Mt j Hj). ring. }
    split.
    - subst x. unfold spike_train. apply map_ext. intros i. cbn [fold_right]. f_equal.
      clear - Z0. induction sp as [|y sp IH]; cbn [fold_right]; [reflexivity|]. rewrite IH by (intros z Hz; apply Z0; right; exact Hz).
      rewrite (Z0 y) by (left; reflexivity). destruct (Nat.eqb _ _); ring.
    - intros Hmd. destruct (Nat.le_gt_cases it 2) as [|H3]; [assumption|]. exfalso. specialize (R5 1%nat ltac:(lia)).
      unfold improvement in R5. rewrite (M 0%nat), (M 1%nat) in R5 by lia. unfold Rdiv in R5. rewrite Rminus_0_r, Rmult_0_l in R5. lra.
  Qed.
  (** the receiver function: a low-passed spike at the onset *)
  Lemma rf_self T o : 0 < dt -> (Z.of_nat o - T = Z.of_nat L)%Z -> (o < length r0)%nat ->
    let rf := firstn (length r0) (filtered n dt g (IZR T * dt) (spike_train n [(L, / dt)])) in
    length rf = length r0 /\ 0 < nth o rf 0 /\ (forall v, In v rf -> Rabs v <= nth o rf 0) /\
    nth o rf 0 = / INR n * rsum n (fun k => gG n dt g k * / dt).
  Proof.
    intros Hdt0 Ho Hol. cbn zeta.
    assert (FS : forall k, (k < n)%nat -> fft_at n (rsig (spike_train n [(L, / dt)])) k = Cscal (/ dt) (unit n (- (Z.of_nat k * Z.of_nat L)))).
    { intros k Hk. unfold fft_at. rewrite (csum_ext n _ (fun j => if Nat.eqb j L then Cscal (/ dt) (unit n (- (Z.of_nat k * Z.of_nat j))) else Czero)).
      - rewrite (csum_delta n L (fun j => Cscal (/ dt) (unit n (- (Z.of_nat k * Z.of_nat j))))) by lia. reflexivity.
      - intros j Hj. unfold rsig. rewrite nth_spike_train by exact Hj. cbn [fold_right fst snd]. rewrite (Nat.eqb_sym j L).
        destruct (Nat.eqb L j); [rewrite Rplus_0_r, Cscal_mul; reflexivity|]. apply cplx_eq; cbn; ring. }
    assert (E : firstn (length r0) (filtered n dt g (IZR T * dt) (spike_train n [(L, / dt)])) =
      tabulate (length r0) (fun j => fst (ifft_at n (fun k => Cscal (gG n dt g k * / dt) (unit n (- (Z.of_nat k * Z.of_nat o)))) j))).
    { rewrite filtered_tab by exact Hn0. rewrite firstn_tabulate, Nat.min_l by lia. apply tabulate_ext. intros j Hj. f_equal.
      apply ifft_ext. intros k Hk. rewrite FS, wl_F_unit by assumption.
      replace (- (Z.of_nat k * Z.of_nat o))%Z with (- (Z.of_nat k * T) + - (Z.of_nat k * Z.of_nat L))%Z by (rewrite <- Ho; ring).
      rewrite (unit_add n Hn0). rewrite !Cscal_mul, RtoC_mul. ring. }
    assert (P0 : forall k, (k < n)%nat -> 0 <= gG n dt g k * / dt).
    { intros k Hk. apply Rmult_le_pos; [left; apply gG_pos | left; apply Rinv_0_lt_compat, Hdt0]. }
    destruct (positive_spectrum n (fun k => gG n dt g k * / dt) o Hn0 P0) as [A B].
    rewrite E. split; [apply tabulate_length|]. rewrite nth_tabulate by exact Hol. rewrite A. split; [|split; [|reflexivity]].
    - apply Rmult_lt_0_compat; [apply Rinv_0_lt_compat, lt_0_INR, Hn0|]. apply (rsum_pos1 n _ 0%nat P0 Hn0).
      apply Rmult_lt_0_compat; [apply gG_pos | apply Rinv_0_lt_compat, Hdt0].
    - intros v Hv. apply In_tabulate in Hv. destruct Hv as (j & Hj & <-). apply B.
  Qed.
End SelfIter.

Lemma placed_lag s r T o : placed s r T (Z.of_nat o) -> nonzero s -> (T <= Z.of_nat o)%Z ->
  (Z.of_nat o - T < Z.of_nat (length r))%Z /\ nonzero r /\ forall p, (length r <= p)%nat -> nth p s 0 = 0.
Proof.
  intros Hp (p & Hs) HT.
  assert (E : forall p, nth p s 0 = smp r (Z.of_nat p + Z.of_nat o - T)).
  { intros q. rewrite <- smp_nth. rewrite (Hp (Z.of_nat q + Z.of_nat o - T)%Z). f_equal. ring. }
  assert (Z.of_nat p + Z.of_nat o - T < Z.of_nat (length r))%Z as Hlt.
  { destruct (Z.lt_ge_cases (Z.of_nat p + Z.of_nat o - T) (Z.of_nat (length r))); [assumption|]. exfalso. apply Hs. rewrite E. apply smp_out. lia. }
  split; [lia|]. split.
  - exists (Z.to_nat (Z.of_nat p + Z.of_nat o - T)). rewrite <- smp_nth, Z2Nat.id by lia. rewrite <- E. exact Hs.
  - intros q Hq. rewrite E. apply smp_out. lia.
Qed.
Theorem iter_self nfl s sr T g itmax minderr ms r0 rf it rms o : fast_len nfl -> 0 < sr -> (0 < itmax)%nat -> nonzero s ->
  placed s r0 T (Z.of_nat o) -> (o < length r0)%nat -> (T <= Z.of_nat o)%Z ->
  iter_one nfl s sr (IZR T * (1 / sr)) (Some g) itmax minderr ms r0 = Ok (rf, it, rms) ->
  length rf = length r0 /\ 0 < nth o rf 0 /\ (forall v, In v rf -> Rabs v <= nth o rf 0) /\ (0 <= minderr -> (it <= 2)%nat) /\
  nth o rf 0 = / INR (nfl (2 * length r0)%nat) * rsum (nfl (2 * length r0)%nat) (fun k => gG (nfl (2 * length r0)%nat) (1 / sr) g k * / (1 / sr)).
Proof.
  intros Hf Hsr Hit Hs Hp Ho HT H. destruct (placed_lag s r0 T o Hp Hs HT) as (B & Hr & Hz).
  set (n := nfl (2 * length r0)%nat). pose proof (Hf (2 * length r0)%nat) as Hn. fold n in Hn.
  assert (Hn0 : (0 < n)%nat) by lia. assert (Hdt0 : 0 < 1 / sr) by (unfold Rdiv; rewrite Rmult_1_l; apply Rinv_0_lt_compat, Hsr).
  set (L := Z.to_nat (Z.of_nat o - T)). assert (HL : (L < length r0)%nat) by (unfold L; lia).
  assert (Hsh : forall j, (j < n)%nat -> nth j r0 0 = periodic n s (Z.of_nat j - Z.of_nat L)).
  { intros j Hj. rewrite (placed_periodic n s r0 T (Z.of_nat o)); [|lia | intros p Hp'; apply Hz; lia | exact Hp | exact Hj].
    f_equal. unfold L. lia. }
  destruct (iter_one_run nfl s sr (IZR T * (1 / sr)) g itmax minderr ms r0 rf it rms n ltac:(lra)
              ltac:(intros E; rewrite E in Ho; cbn in Ho; lia) eq_refl H) as (sp & Run & Erf & _).
  destruct (run_self n (1 / sr) g s r0 L Hn ltac:(lra) HL Hr Hsh Hn0
    (unmuted (env_of n (1 / sr) g (IZR T * (1 / sr)) sr minderr ms s r0)) itmax minderr sp it rms) as [Et Hit2].
  - left. cbn [i_lo env_of]. lia.
  - exact Hit.
  - exact Run.
  - rewrite Et in Erf. destruct (rf_self n (1 / sr) g r0 L Hn ltac:(lra) HL Hn0 T o Hdt0 ltac:(unfold L; lia) Ho) as (A1 & A2 & A3 & A4).
    rewrite <- Erf in A1, A2, A3, A4. auto.
Qed.
