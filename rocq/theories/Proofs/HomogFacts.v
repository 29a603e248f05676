(** Iterative deconvolution is homogeneous in the response. *)
From Verif Require Import Model.Waterlevel Model.Iterative Spec.CorrSpec Spec.TimeRfSpec Spec.SpikeSpec
  Proofs.SumFacts Proofs.CplxFacts Proofs.WaterFacts Proofs.PyFacts Proofs.DeconvTimeFacts Proofs.SpikeFacts.
From Coq Require Import Lra Lia.
Notation length := List.length.
Open Scope R_scope.

Lemma argmax_from_scale c l : c <> 0 -> forall i best b, argmax_from (scale c l) i best (Rabs c * b) = argmax_from l i best b.
Proof.
  intros Hc. assert (P : 0 < Rabs c) by (apply Rabs_pos_lt, Hc).
  induction l as [|x l IH]; intros i best b; [reflexivity|]. cbn [scale map argmax_from]. rewrite Rabs_mult.
  fold (scale c l). destruct (Rlt_dec b (Rabs x)) as [H|H], (Rlt_dec (Rabs c * b) (Rabs c * Rabs x)) as [K|K]; try apply IH.
  - exfalso. apply K. apply Rmult_lt_compat_l; assumption.
  - exfalso. apply H. apply Rmult_lt_reg_l in K; assumption.
Qed.
Lemma argmax_abs_scale c l : c <> 0 -> argmax_abs (scale c l) = argmax_abs l.
Proof. intros Hc. destruct l as [|x l]; [reflexivity|]. unfold argmax_abs. cbn [scale map]. rewrite Rabs_mult. apply argmax_from_scale, Hc. Qed.
Lemma update_scale c l : forall i v, update (scale c l) i (c * v) = scale c (update l i v).
Proof. induction l as [|x l IH]; intros [|i] v; cbn; try reflexivity. f_equal. apply IH. Qed.
Lemma nth_scale c l i : nth i (scale c l) 0 = c * nth i l 0.
Proof. unfold scale. rewrite <- (Rmult_0_r c) at 1. apply (map_nth (Rmult c)). Qed.
Lemma mute_scale c l lo hi : mute (scale c l) lo hi = scale c (mute l lo hi).
Proof.
  unfold mute, scale. rewrite map_length, map_map. generalize 0%nat. induction l as [|x l IH]; intros k; [reflexivity|].
  cbn [length seq map combine fst snd]. f_equal; [|apply IH]. destruct (_ && _)%bool; ring.
Qed.
Section ResponseGain.
  Variables (n : nat) (dt g tshift sr minderr : R) (ms : bool) (src r0 : list R) (c : R).
  Hypothesis Hn : (0 < n)%nat.
  Hypothesis Hc : c <> 0.
  Let e := env_of n dt g tshift sr minderr ms src r0.
  Let e' := env_of n dt g tshift sr minderr ms src (scale c r0).
  Lemma renv_lo : i_lo e' = i_lo e. Proof. cbn. rewrite scale_length. reflexivity. Qed.
  Lemma renv_pR : i_powerR e' = c * c * i_powerR e.
  Proof. cbn. rewrite lowpass_scale by exact Hn. apply energy_scale, filtered_length. Qed.
  Lemma renv_rflt : i_rflt e' = scale c (i_rflt e).
  Proof. cbn. apply lowpass_scale, Hn. Qed.
  Lemma rs_rgain rem : iter_rs e' (scale c rem) = scale c (iter_rs e rem).
  Proof.
    unfold iter_rs, ifft, cprod. rewrite renv_lo. change (i_sspec e') with (i_sspec e). change (i_powerS e') with (i_powerS e). change (i_hi e') with (i_hi e).
    change (i_nfft e') with n. change (i_nfft e) with n. change (i_dt e') with dt. change (i_dt e) with dt. rewrite <- mute_scale. f_equal.
    unfold e. rewrite (env_sspec0 n dt g tshift sr minderr ms src r0). unfold scale at 2.
    rewrite !fft_tab, ?map_tabulate, ?zipw_tabulate, ?map_tabulate. apply tabulate_ext. intros j Hj.
    rewrite (ifft_ext n _ (fun k => Cmul (RtoC c) (nth k (tabulate n (fun k => Cmul (fft_at n (rsig rem) k) (Cconj (Cscal (gG n dt g k) (fft_at n (rsig src) k))))) Czero))).
    - rewrite ifft_scal. set (z := ifft_at _ _ _). cbn [Cmul RtoC fst snd]. unfold Rdiv. ring.
    - intros k Hk. rewrite !nth_tabulate by exact Hk. rewrite fft_scale. ring.
  Qed.
  Lemma pflt_rgain p0 : iter_pflt e' (scale c p0) = scale c (iter_pflt e p0).
  Proof.
    unfold iter_pflt, ifft, cprod, scale. change (i_sspec e') with (i_sspec e). unfold e. rewrite (env_sspec0 n dt g tshift sr minderr ms src r0).
    change (i_nfft e') with n. change (i_nfft (env_of n dt g tshift sr minderr ms src r0)) with n. change (i_dt e') with dt.
    change (i_dt (env_of n dt g tshift sr minderr ms src r0)) with dt.
    rewrite !fft_tab, !zipw_tabulate, !map_tabulate. apply tabulate_ext. intros j Hj.
    rewrite (ifft_ext n _ (fun k => Cmul (RtoC c) (nth k (tabulate n (fun k => Cmul (fft_at n (rsig p0) k) (Cscal (gG n dt g k) (fft_at n (rsig src) k)))) Czero))).
    - rewrite ifft_scal. set (z := ifft_at _ _ _). cbn. ring.
    - intros k Hk. rewrite !nth_tabulate by exact Hk. fold (scale c p0). rewrite fft_scale. ring.
  Qed.
  Lemma loop_rgain left : forall p0 rem sq d rms,
    iter_loop e' left (scale c p0) (scale c rem) sq d rms =
    (let! (p, q) := iter_loop e left p0 rem sq d rms in Ok (scale c p, q)).
  Proof.
    assert (Hcc : c * c <> 0) by (apply Rmult_integral_contrapositive; auto).
    induction left as [|left IH]; intros p0 rem sq d rms; cbn [iter_loop]; [reflexivity|].
    change (i_minderr e') with (i_minderr e). destruct (Rlt_dec _ _); [|reflexivity].
    change (i_powerS e') with (i_powerS e). destruct (Req_EM_T (i_powerS e) 0) as [E|E]; [reflexivity|].
    destruct (Req_EM_T (i_powerR e) 0) as [F|F]; [rewrite renv_pR, F, Rmult_0_r; destruct (Req_EM_T 0 0); [reflexivity | contradiction]|].
    assert (i_powerR e' <> 0) as F' by (rewrite renv_pR; apply Rmult_integral_contrapositive; auto).
    destruct (Req_EM_T (i_powerR e') 0); [contradiction|].
    rewrite rs_rgain, argmax_abs_scale, !nth_scale, <- Rmult_plus_distr_l, update_scale by assumption.
    set (p1 := update _ _ _). rewrite renv_rflt, pflt_rgain, vsub_scale, power_scale, renv_pR.
    replace (c * c * power (vsub (i_rflt e) (iter_pflt e p1)) / (c * c * i_powerR e)) with (power (vsub (i_rflt e) (iter_pflt e p1)) / i_powerR e) by (field; auto).
    apply IH.
  Qed.
End ResponseGain.
Lemma filtered_scale n dt g t c x : (0 < n)%nat -> filtered n dt g t (scale c x) = scale c (filtered n dt g t x).
Proof.
  intros Hn. rewrite !filtered_tab by exact Hn. unfold scale at 2. rewrite map_tabulate. apply tabulate_ext. intros j Hj.
  match goal with |- fst (ifft_at n ?X j) = c * fst (ifft_at n ?Y j) => rewrite (ifft_ext n X (fun k => Cmul (RtoC c) (Y k))) end.
  - rewrite ifft_scal. set (z := ifft_at _ _ _). cbn. ring.
  - intros k Hk. cbv beta. rewrite fft_scale. ring.
Qed.
Theorem iter_one_rgain nfl src sr tshift gauss itmax minderr ms r0 c : c <> 0 -> 0 <= minderr ->
  iter_one nfl src sr tshift gauss itmax minderr ms (scale c r0) =
  (let! (o, rms) := iter_one nfl src sr tshift gauss itmax minderr ms r0 in Ok (scale c (fst o), snd o, rms)).
Proof.
  intros Hc Hm. destruct (Nat.eq_dec (nfl (2 * length r0)%nat) 0) as [E|E].
  { unfold iter_one. rewrite scale_length, E. reflexivity. }
  destruct gauss as [g|].
  2:{ unfold iter_one. rewrite scale_length. destruct (Nat.eqb _ _); reflexivity. }
  destruct (Req_dec g 0) as [->|Hg].
  { unfold iter_one. rewrite scale_length. destruct (Nat.eqb _ _); [reflexivity|]. destruct (Req_EM_T 0 0); [reflexivity | contradiction]. }
  rewrite (iter_one_unfold nfl src sr tshift g itmax minderr ms r0 _ eq_refl ltac:(lia) Hg).
  rewrite (iter_one_unfold nfl src sr tshift g itmax minderr ms (scale c r0) (nfl (2 * length r0)%nat))
    by (try (rewrite scale_length; reflexivity); try lia; exact Hg).
  rewrite scale_length. set (n := nfl (2 * length r0)%nat) in *. assert (Hn : (0 < n)%nat) by lia.
  assert (Z0 : spike_train n [] = scale c (spike_train n [])).
  { unfold spike_train, scale. rewrite map_map. apply map_ext. intros i. cbn. ring. }
  rewrite lowpass_scale by exact Hn. rewrite Z0 at 1. rewrite loop_rgain by assumption.
  rewrite energy_scale by apply filtered_length. set (e := env_of _ _ _ _ _ _ _ _ _). set (E0 := energy n (lowpass n (1 / sr) g r0)).
  assert (EL : iter_loop e itmax (spike_train n []) (lowpass n (1 / sr) g r0) 1 (100 * (c * c * E0) + minderr) [] =
               iter_loop e itmax (spike_train n []) (lowpass n (1 / sr) g r0) 1 (100 * E0 + minderr) []).
  { assert (P : 0 <= E0) by apply energy_pos. destruct P as [P|P].
    - apply loop_d.
      + cbn [i_minderr e env_of]. assert (0 < c * c * E0) by (apply Rmult_lt_0_compat; [apply Rsqr_pos_lt, Hc | exact P]). rewrite Rabs_right; lra.
      + cbn [i_minderr e env_of]. rewrite Rabs_right; lra.
    - rewrite <- P, Rmult_0_r. reflexivity. }
  rewrite EL. clear EL. destruct (iter_loop e itmax _ _ _ _ _) as [[p rms]|]; cbn [bind fst snd]; [|reflexivity].
  rewrite filtered_scale by exact Hn. unfold scale at 1. rewrite <- map_firstn'. reflexivity.
Qed.
