From Verif Require Import Model.Iterative Model.Waterlevel Spec.SpikeSpec Proofs.PyFacts Proofs.SumFacts Proofs.CplxFacts Proofs.WaterFacts.
From Coq Require Import Lra Lia.
Notation length := List.length.
Open Scope R_scope.
Add Ring cplx_ring_inst4 : cplx_ring.

(** ** arrays *)
Lemma update_length l i v : length (update l i v) = length l.
Proof. revert i. induction l as [|x l IH]; intros [|i]; cbn; [reflexivity..|]. rewrite IH. reflexivity. Qed.
Lemma nth_update l i v k : (i < length l)%nat -> nth k (update l i v) 0 = if Nat.eqb k i then v else nth k l 0.
Proof.
  revert i k. induction l as [|x l IH]; intros [|i] [|k] H; cbn in *; try lia; try reflexivity. apply IH. lia.
Qed.
Lemma mute_length l lo hi : length (mute l lo hi) = length l.
Proof. unfold mute. rewrite map_length, combine_length, seq_length. lia. Qed.
Lemma nth_mute l lo hi k : (k < length l)%nat ->
  nth k (mute l lo hi) 0 = if (lo <=? k)%nat && (k <? hi)%nat then 0 else nth k l 0.
Proof.
  intros H. unfold mute. set (f := fun ix : nat * R => _).
  rewrite (nth_indep _ 0 (f (0%nat, 0))) by (rewrite map_length, combine_length, seq_length; lia).
  rewrite (map_nth f), combine_nth by apply seq_length. unfold f. cbn [fst snd]. rewrite seq_nth by exact H. reflexivity.
Qed.
Lemma argmax_from_spec l : forall pre best b, (best < length pre)%nat -> b = Rabs (nth best pre 0) ->
  (forall i, (i < length pre)%nat -> Rabs (nth i pre 0) <= b) -> (forall i, (i < best)%nat -> Rabs (nth i pre 0) < b) ->
  let m := argmax_from l (length pre) best b in
  (m < length (pre ++ l))%nat /\
  (forall i, (i < length (pre ++ l))%nat -> Rabs (nth i (pre ++ l) 0) <= Rabs (nth m (pre ++ l) 0)) /\
  (forall i, (i < m)%nat -> Rabs (nth i (pre ++ l) 0) < Rabs (nth m (pre ++ l) 0)).
Proof.
  induction l as [|x l IH]; intros pre best b H1 -> H2 H3; cbn [argmax_from].
  - cbn zeta. rewrite app_nil_r. auto.
  - cbn zeta. replace (pre ++ x :: l) with ((pre ++ [x]) ++ l) by (rewrite <- app_assoc; reflexivity).
    assert (E : S (length pre) = length (pre ++ [x])) by (rewrite app_length; cbn; lia). rewrite E.
    destruct (Rlt_dec (Rabs (nth best pre 0)) (Rabs x)) as [L|L].
    + apply IH.
      * rewrite <- E. lia.
      * rewrite nth_middle. reflexivity.
      * intros i Hi. rewrite <- E in Hi. destruct (Nat.eq_dec i (length pre)) as [->|].
        -- rewrite nth_middle. lra.
        -- rewrite app_nth1 by lia. specialize (H2 i ltac:(lia)). lra.
      * intros i Hi. rewrite app_nth1 by lia. specialize (H2 i Hi). lra.
    + apply IH.
      * rewrite <- E. lia.
      * rewrite app_nth1 by exact H1. reflexivity.
      * intros i Hi. rewrite <- E in Hi. destruct (Nat.eq_dec i (length pre)) as [->|].
        -- rewrite nth_middle. lra.
        -- rewrite app_nth1 by lia. apply H2. lia.
      * intros i Hi. rewrite app_nth1 by lia. apply H3, Hi.
Qed.
Lemma argmax_abs_spec l : l <> [] ->
  (argmax_abs l < length l)%nat /\
  (forall i, (i < length l)%nat -> Rabs (nth i l 0) <= Rabs (nth (argmax_abs l) l 0)) /\
  (forall i, (i < argmax_abs l)%nat -> Rabs (nth i l 0) < Rabs (nth (argmax_abs l) l 0)).
Proof.
  destruct l as [|x l]; [congruence|]. intros _. unfold argmax_abs.
  apply (argmax_from_spec l [x] 0%nat (Rabs x)); cbn.
  - lia.
  - reflexivity.
  - intros i Hi. assert (i = 0)%nat as -> by lia. cbn. lra.
  - intros i Hi. lia.
Qed.
Lemma power_rsum a : power a = rsum (length a) (fun j => nth j a 0 * nth j a 0).
Proof.
  unfold power. rewrite asum_rsum, map_length. apply rsum_ext. intros j Hj.
  rewrite (nth_indep _ 0 ((fun x => x ^ 2) 0)) by (rewrite map_length; exact Hj).
  rewrite (map_nth (fun x => x ^ 2)). ring.
Qed.
Lemma power_tab n f : power (tabulate n f) = rsum n (fun j => f j * f j).
Proof.
  rewrite power_rsum, tabulate_length. apply rsum_ext. intros j Hj. rewrite nth_tabulate by exact Hj. reflexivity.
Qed.
Lemma vsub_tab n f g : vsub (tabulate n f) (tabulate n g) = tabulate n (fun j => f j - g j).
Proof. apply zipw_tabulate. Qed.
Lemma firstn_snoc {A} (l : list A) x t : (t <= length l)%nat -> firstn t (l ++ [x]) = firstn t l.
Proof. intros H. rewrite firstn_app. replace (t - length l)%nat with 0%nat by lia. cbn. apply app_nil_r. Qed.

(** ** real signals and their spectra *)
Section Real.
  Variable n : nat.
  Hypothesis Hn : (0 < n)%nat.

  Lemma rsum_shift (f : nat -> R) m : rsum n (fun i => f (wrap n (Z.of_nat i + m))) = rsum n f.
  Proof.
    pose proof (csum_shift n Hn (fun i => RtoC (f i)) m) as E. rewrite !csum_RtoC in E.
    apply (f_equal fst) in E. exact E.
  Qed.
  Lemma wrap_opp_wrap z : wrap n (- Z.of_nat (wrap n z)) = wrap n (- z).
  Proof.
    apply (wrap_cong n). rewrite (wrap_Z n Hn). rewrite <- Z.sub_0_l, <- (Z.sub_0_l z). apply Zminus_mod_idemp_r.
  Qed.
  Lemma conj_fft x : (forall j, (j < n)%nat -> snd (x j) = 0) -> forall k,
    Cconj (fft_at n x k) = fft_at n (fun j => x (wrap n (- Z.of_nat j))) k.
  Proof.
    intros Hx k. unfold fft_at. rewrite csum_conj.
    rewrite <- (csum_neg n Hn). apply csum_ext. intros j Hj.
    rewrite Cconj_mul, <- (unit_opp n Hn), Z.opp_involutive. f_equal.
    - apply cplx_eq; [reflexivity|]. cbn. rewrite Hx by (apply wrap_lt; exact Hn). ring.
    - rewrite (unit_wrap n Hn). f_equal. ring.
  Qed.
  Lemma corr_fft x s l : (l < n)%nat ->
    fst (ifft_at n (fun k => Cmul (fft_at n (rsig x) k) (Cconj (fft_at n (rsig s) k))) l) =
    rsum n (fun j => nth j x 0 * periodic n s (Z.of_nat j - Z.of_nat l)).
  Proof.
    intros Hl. rewrite (ifft_ext n _ (fft_at n (circ n (rsig x) (fun j => rsig s (wrap n (- Z.of_nat j)))))).
    2:{ intros k Hk. rewrite (fft_circ n Hn), conj_fft by reflexivity. reflexivity. }
    rewrite (ifft_fft n Hn) by exact Hl. unfold circ. rewrite csum_fst. apply rsum_ext. intros j Hj.
    rewrite wrap_opp_wrap. replace (- (Z.of_nat l - Z.of_nat j))%Z with (Z.of_nat j - Z.of_nat l)%Z by ring.
    unfold rsig, periodic, wrap. cbn. ring.
  Qed.
  Lemma conv_fft x s j : (j < n)%nat ->
    fst (ifft_at n (fun k => Cmul (fft_at n (rsig x) k) (fft_at n (rsig s) k)) j) =
    rsum n (fun i => nth i x 0 * periodic n s (Z.of_nat j - Z.of_nat i)).
  Proof.
    intros Hj. rewrite (ifft_ext n _ (fft_at n (circ n (rsig x) (rsig s)))).
    2:{ intros k Hk. rewrite (fft_circ n Hn). reflexivity. }
    rewrite (ifft_fft n Hn) by exact Hj. unfold circ. rewrite csum_fst. apply rsum_ext. intros i Hi.
    unfold rsig, periodic, wrap. cbn. ring.
  Qed.
  Lemma hermitian_real X : hermitian n X -> forall k, (k < n)%nat ->
    X k = fft_at n (rsig (tabulate n (fun j => fst (ifft_at n X j)))) k.
  Proof.
    intros H k Hk. rewrite <- (fft_ifft n Hn X k Hk) at 1. apply fft_ext. intros j Hj. unfold rsig.
    rewrite nth_tabulate by exact Hj. apply cplx_eq; [reflexivity|]. cbn. apply ifft_hermitian; assumption.
  Qed.
End Real.

(** ** one iteration *)
Lemma nth_spike_train n sp i : (i < n)%nat ->
  nth i (spike_train n sp) 0 = fold_right (fun la acc => (if Nat.eqb (fst la) i then snd la else 0) + acc) 0 sp.
Proof. intros H. unfold spike_train. change (map ?f (seq 0 n)) with (tabulate n f). rewrite nth_tabulate by exact H. reflexivity. Qed.
Lemma fold_snoc {A} (f : A -> R) l x : fold_right (fun a acc => f a + acc) 0 (l ++ [x]) = fold_right (fun a acc => f a + acc) 0 l + f x.
Proof. induction l as [|y l IH]; cbn; [ring|]. rewrite IH. ring. Qed.
Lemma spike_train_snoc n sp l a : (l < n)%nat ->
  update (spike_train n sp) l (nth l (spike_train n sp) 0 + a) = spike_train n (sp ++ [(l, a)]).
Proof.
  intros Hl. assert (L : forall sp, length (spike_train n sp) = n) by (intros; unfold spike_train; rewrite map_length, seq_length; reflexivity).
  apply nth_ext with 0 0; [rewrite update_length, !L; reflexivity|]. intros k Hk. rewrite update_length, L in Hk.
  rewrite nth_update by (rewrite L; exact Hl). rewrite !nth_spike_train by assumption.
  rewrite (fold_snoc (fun la => if Nat.eqb (fst la) k then snd la else 0)). cbn [fst snd].
  destruct (Nat.eqb_spec k l) as [->|E]; [rewrite Nat.eqb_refl; reflexivity|].
  destruct (Nat.eqb_spec l k); [congruence|]. ring.
Qed.
Lemma predicted_snoc n dt s sp l a j : predicted n dt s (sp ++ [(l, a)]) j =
  predicted n dt s sp j + dt * a * periodic n s (Z.of_nat j - Z.of_nat l).
Proof.
  unfold predicted. rewrite (fold_snoc (fun la => dt * snd la * periodic n s (Z.of_nat j - Z.of_nat (fst la)))). reflexivity.
Qed.
Lemma predicted_train n dt s sp j : Forall (fun x => (fst x < n)%nat) sp ->
  dt * rsum n (fun i => nth i (spike_train n sp) 0 * periodic n s (Z.of_nat j - Z.of_nat i)) = predicted n dt s sp j.
Proof.
  induction sp as [|[l a] sp IH]; intros H.
  - rewrite rsum_zero; [unfold predicted; cbn; ring|]. intros i Hi. rewrite nth_spike_train by exact Hi. cbn. ring.
  - inversion H as [|? ? H1 H2]; subst. cbn [fst] in H1. specialize (IH H2).
    cbn [predicted fold_right fst snd]. fold (predicted n dt s sp j). rewrite <- IH.
    rewrite (rsum_ext n _ (fun i => (if Nat.eqb i l then a * periodic n s (Z.of_nat j - Z.of_nat i) else 0) +
                                    nth i (spike_train n sp) 0 * periodic n s (Z.of_nat j - Z.of_nat i))).
    + rewrite rsum_plus, (rsum_delta n l (fun i => a * periodic n s (Z.of_nat j - Z.of_nat i))) by exact H1. ring.
    + intros i Hi. rewrite !nth_spike_train by exact Hi. cbn [fold_right fst snd]. rewrite (Nat.eqb_sym i l).
      destruct (Nat.eqb l i); ring.
Qed.
Lemma misfit_snoc n dt r s sp l a : (0 < n)%nat ->
  misfit n dt r s (sp ++ [(l, a)]) =
  misfit n dt r s sp - 2 * dt * a * match_at n dt r s sp l + dt * a * (dt * a) * energy n s.
Proof.
  intros Hn. unfold misfit, match_at, energy.
  rewrite <- (rsum_shift n Hn (fun i => nth i s 0 * nth i s 0) (- Z.of_nat l)).
  rewrite <- rsum_scal, <- rsum_scal, <- rsum_minus, <- rsum_plus. apply rsum_ext. intros j Hj.
  unfold residual. rewrite predicted_snoc.
  change (nth (wrap n (Z.of_nat j + - Z.of_nat l)) s 0) with (periodic n s (Z.of_nat j - Z.of_nat l)). ring.
Qed.
Lemma misfit_best n dt r s allowed sp x : (0 < n)%nat -> dt <> 0 -> energy n s <> 0 -> best_spike n dt r s allowed sp x ->
  misfit n dt r s (sp ++ [x]) = misfit n dt r s sp - match_at n dt r s sp (fst x) ^ 2 / energy n s.
Proof.
  intros Hn Hdt Hs (_ & _ & _ & E). destruct x as [l a]. cbn [fst snd] in *. rewrite misfit_snoc by exact Hn. rewrite E. field. auto.
Qed.
Lemma misfit_pos n dt r s sp : 0 <= misfit n dt r s sp.
Proof. apply rsum_nonneg. intros. apply Rle_0_sqr. Qed.
Lemma energy_pos n s : 0 <= energy n s.
Proof. apply rsum_nonneg. intros. apply Rle_0_sqr. Qed.

(** ** the loop *)
Section Loop.
  Variable e : iter_env.
  Variables (n : nat) (dt : R) (s r : list R) (X : nat -> cplx).
  Hypothesis Hn : (0 < n)%nat.
  Hypothesis Hdt : dt <> 0.
  Hypothesis H_n : i_nfft e = n.
  Hypothesis H_dt : i_dt e = dt.
  Hypothesis H_S : i_sspec e = tabulate n X.
  Hypothesis H_s : forall k, (k < n)%nat -> X k = fft_at n (rsig s) k.
  Hypothesis H_r : i_rflt e = r.
  Hypothesis H_rl : length r = n.
  Hypothesis H_pS : i_powerS e = energy n s.
  Hypothesis H_pR : i_powerR e = energy n r.
  Hypothesis H_lo : (0 < i_lo e)%nat.
  Definition unmuted (l : nat) : Prop := (l < i_lo e \/ i_hi e <= l)%nat.

  Lemma pflt_spec sp : Forall (fun x => (fst x < n)%nat) sp ->
    iter_pflt e (spike_train n sp) = tabulate n (predicted n dt s sp).
  Proof.
    intros H. unfold iter_pflt, ifft, cprod. rewrite H_n, H_S, H_dt, fft_tab, zipw_tabulate, map_tabulate.
    apply tabulate_ext. intros j Hj. rewrite <- predicted_train by exact H. rewrite (Rmult_comm dt). f_equal.
    rewrite <- (conv_fft n Hn) by exact Hj. f_equal. apply ifft_ext. intros k Hk.
    rewrite nth_tabulate by exact Hk. rewrite H_s by exact Hk. reflexivity.
  Qed.
  Lemma rs_length rem : length (iter_rs e rem) = n.
  Proof. unfold iter_rs. rewrite mute_length, !map_length. unfold ifft. rewrite tabulate_length. exact H_n. Qed.
  Lemma rs_spec rem l : (l < n)%nat -> nth l (iter_rs e rem) 0 =
    if (i_lo e <=? l)%nat && (l <? i_hi e)%nat then 0
    else rsum n (fun j => nth j rem 0 * periodic n s (Z.of_nat j - Z.of_nat l)) / energy n s / dt.
  Proof.
    intros Hl. unfold iter_rs, ifft, cprod. rewrite H_n, H_S, H_dt, H_pS, fft_tab, !map_tabulate, zipw_tabulate.
    rewrite nth_mute by (rewrite ?map_length, tabulate_length; exact Hl). rewrite ?map_tabulate, nth_tabulate by exact Hl.
    destruct (_ && _); [reflexivity|]. do 2 f_equal. rewrite <- (corr_fft n Hn) by exact Hl. f_equal.
    apply ifft_ext. intros k Hk. rewrite nth_tabulate by exact Hk. rewrite H_s by exact Hk. reflexivity.
  Qed.
  Lemma muted_spec l : unmuted l <-> (i_lo e <=? l)%nat && (l <? i_hi e)%nat = false.
  Proof.
    unfold unmuted. rewrite Bool.andb_false_iff, Nat.leb_gt, Nat.ltb_ge. tauto.
  Qed.
  Lemma step_best sp : energy n s <> 0 ->
    let rs := iter_rs e (tabulate n (residual n dt r s sp)) in
    let l := argmax_abs rs in
    best_spike n dt r s unmuted sp (l, nth l rs 0).
  Proof.
    intros Hs. cbn zeta. set (rem := tabulate n (residual n dt r s sp)). set (rs := iter_rs e rem). set (l := argmax_abs rs).
    assert (M : forall l, rsum n (fun j => nth j rem 0 * periodic n s (Z.of_nat j - Z.of_nat l)) = match_at n dt r s sp l).
    { intros l'. apply rsum_ext. intros j Hj. unfold rem. rewrite nth_tabulate by exact Hj. reflexivity. }
    destruct (argmax_abs_spec rs) as (A1 & A2 & A3).
    { intros E. pose proof (rs_length rem) as L. fold rs in L. rewrite E in L. cbn in L. lia. }
    fold l in A1, A2, A3. unfold rs in A1, A2. rewrite rs_length in A1, A2. fold rs in A2.
    assert (U : unmuted l).
    { apply muted_spec. destruct ((i_lo e <=? l)%nat && (l <? i_hi e)%nat) eqn:Em; [exfalso|reflexivity].
      assert (Z0 : nth l rs 0 = 0) by (unfold rs; rewrite rs_spec by exact A1; rewrite Em; reflexivity).
      apply andb_prop in Em. destruct Em as [Em _]. apply Nat.leb_le in Em.
      specialize (A3 0%nat ltac:(lia)). rewrite Z0, Rabs_R0 in A3. pose proof (Rabs_pos (nth 0 rs 0)). lra. }
    assert (V : forall k, (k < n)%nat -> unmuted k -> nth k rs 0 = match_at n dt r s sp k / energy n s / dt).
    { intros k Hk Uk. unfold rs. rewrite rs_spec by exact Hk. apply muted_spec in Uk. rewrite Uk, M. reflexivity. }
    unfold best_spike. cbn [fst snd]. refine (conj A1 (conj U (conj _ _))).
    - intros k Hk Uk. specialize (A2 k Hk). rewrite !V in A2 by assumption. unfold Rdiv in A2. rewrite !Rabs_mult in A2.
      assert (0 < Rabs (/ energy n s) * Rabs (/ dt)) as P by (apply Rmult_lt_0_compat; apply Rabs_pos_lt, Rinv_neq_0_compat; assumption).
      apply Rmult_le_reg_r with (Rabs (/ energy n s) * Rabs (/ dt)); [exact P|]. lra.
    - rewrite V by assumption. field. auto.
  Qed.

  (** what holds for the spikes found so far *)
  Record good (sp : list spike) (rms : list R) : Prop := {
    g_best : forall t, (t < length sp)%nat -> best_spike n dt r s unmuted (firstn t sp) (nth t sp no_spike);
    g_rms : rms = tabulate (length sp) (fun t => misfit n dt r s (firstn (S t) sp) / energy n r);
    g_nonzero : sp <> [] -> energy n s <> 0 /\ energy n r <> 0;
    g_continue : forall t, (S t < length sp)%nat -> i_minderr e < Rabs (improvement n dt r s sp t) }.
  Definition err_of (sp : list spike) (d : R) : Prop :=
    match sp with [] => d = 100 * energy n r + i_minderr e | _ => d = improvement n dt r s sp (length sp - 1) end.

  Lemma good_lags sp rms : good sp rms -> Forall (fun x => (fst x < n)%nat) sp.
  Proof.
    intros G. apply Forall_forall. intros x Hx. apply (In_nth sp x no_spike) in Hx. destruct Hx as (t & Ht & <-).
    apply (g_best sp rms G t Ht).
  Qed.
  Lemma misfit_nil : misfit n dt r s [] = energy n r.
  Proof. unfold misfit, energy, residual, predicted. apply rsum_ext. intros. cbn. ring. Qed.
  Lemma rem_spec sp : Forall (fun x => (fst x < n)%nat) sp ->
    vsub r (iter_pflt e (spike_train n sp)) = tabulate n (residual n dt r s sp).
  Proof.
    intros H. rewrite pflt_spec by exact H. rewrite (list_tabulate r 0) at 1. rewrite H_rl. apply vsub_tab.
  Qed.
  Lemma gain_snoc sp x t : (S t <= length sp)%nat -> improvement n dt r s (sp ++ [x]) t = improvement n dt r s sp t.
  Proof. intros H. unfold improvement. rewrite !firstn_snoc by lia. reflexivity. Qed.
  Lemma good_snoc sp rms x d : good sp rms -> err_of sp d -> i_minderr e < Rabs d ->
    energy n s <> 0 -> energy n r <> 0 -> best_spike n dt r s unmuted sp x ->
    good (sp ++ [x]) (rms ++ [misfit n dt r s (sp ++ [x]) / energy n r]).
  Proof.
    intros G He Hd Hs Hr Hb. constructor.
    - intros t Ht. rewrite app_length in Ht. cbn in Ht. destruct (Nat.eq_dec t (length sp)) as [->|].
      + rewrite firstn_snoc, firstn_all, nth_middle by lia. exact Hb.
      + rewrite firstn_snoc, app_nth1 by lia. apply (g_best sp rms G). lia.
    - rewrite (g_rms sp rms G). rewrite app_length. cbn [length]. unfold tabulate. rewrite Nat.add_1_r, seq_S, map_app. cbn [map plus].
      f_equal.
      + apply map_ext_in. intros t Ht. apply in_seq in Ht. rewrite firstn_snoc by lia. reflexivity.
      + do 3 f_equal. rewrite firstn_all2; [reflexivity | rewrite app_length; cbn; lia].
    - intros _. auto.
    - intros t Ht. rewrite app_length in Ht. cbn in Ht. rewrite gain_snoc by lia.
      destruct (Nat.eq_dec (S t) (length sp)) as [E|].
      + unfold err_of in He. destruct sp as [|y sp]; [cbn in E; lia|]. rewrite He in Hd.
        replace (length (y :: sp) - 1)%nat with t in Hd by lia. exact Hd.
      + apply (g_continue sp rms G). lia.
  Qed.
  Lemma last_gain sp x sq : sq * energy n r = misfit n dt r s sp -> energy n r <> 0 ->
    100 * (sq - misfit n dt r s (sp ++ [x]) / energy n r) = improvement n dt r s (sp ++ [x]) (length (sp ++ [x]) - 1).
  Proof.
    intros E Hr. unfold improvement. rewrite app_length. cbn [length]. replace (length sp + 1 - 1)%nat with (length sp) by lia.
    rewrite firstn_snoc, firstn_all by lia. rewrite (firstn_all2 (sp ++ [x])) by (rewrite app_length; cbn; lia).
    rewrite <- E. field. exact Hr.
  Qed.
  Lemma err_of_snoc sp x : err_of (sp ++ [x]) (improvement n dt r s (sp ++ [x]) (length (sp ++ [x]) - 1)).
  Proof. unfold err_of. destruct (sp ++ [x]) eqn:E; [destruct sp; discriminate|]. reflexivity. Qed.

  Theorem loop_good left : forall sp sq d rms p0 rms', good sp rms -> err_of sp d ->
    (energy n r <> 0 -> sq * energy n r = misfit n dt r s sp) ->
    iter_loop e left (spike_train n sp) (tabulate n (residual n dt r s sp)) sq d rms = Ok (p0, rms') ->
    exists sp', good sp' rms' /\ p0 = spike_train n sp' /\ (length sp' <= length sp + left)%nat /\
      ((length sp' < length sp + left)%nat -> exists d', err_of sp' d' /\ Rabs d' <= i_minderr e).
  Proof.
    induction left as [|left IH]; intros sp sq d rms p0 rms' G He Hq; cbn [iter_loop].
    - intros H. injection H as <- <-. exists sp. refine (conj G (conj eq_refl (conj _ _))); [lia|]. intros; lia.
    - destruct (Rlt_dec (i_minderr e) (Rabs d)) as [L|L].
      2:{ intros H. injection H as <- <-. exists sp. refine (conj G (conj eq_refl (conj _ _))); [lia|].
          intros _. exists d. split; [exact He | lra]. }
      rewrite H_pS, H_pR. destruct (Req_EM_T (energy n s) 0) as [|Hs]; [discriminate|].
      destruct (Req_EM_T (energy n r) 0) as [|Hr]; [discriminate|]. specialize (Hq Hr).
      pose proof (step_best sp Hs) as B. cbn zeta in B. set (rs := iter_rs e (tabulate n (residual n dt r s sp))) in *.
      set (l := argmax_abs rs) in *. set (a := nth l rs 0) in *.
      assert (Hl : (l < n)%nat) by apply B. rewrite spike_train_snoc by exact Hl.
      pose proof (good_snoc sp rms (l, a) d G He L Hs Hr B) as G'. pose proof (good_lags _ _ G') as F'.
      rewrite H_r, rem_spec by exact F'. rewrite power_tab. fold (misfit n dt r s (sp ++ [(l, a)])).
      rewrite last_gain by assumption. intros H.
      assert (Q : energy n r <> 0 -> misfit n dt r s (sp ++ [(l, a)]) / energy n r * energy n r = misfit n dt r s (sp ++ [(l, a)]))
        by (intros _; field; exact Hr).
      destruct (IH (sp ++ [(l, a)]) _ _ _ _ _ G' (err_of_snoc sp (l, a)) Q H) as (sp' & A1 & A2 & A3 & A4).
      exists sp'. rewrite app_length in A3, A4. cbn [length] in A3, A4.
      refine (conj A1 (conj A2 (conj _ _))); [lia|]. intros Hlt. apply A4. lia.
  Qed.
  (** the loop fails only for a source or response without energy *)
  Theorem loop_total left : energy n s <> 0 -> energy n r <> 0 -> forall p0 rem sq d rms,
    exists p0' rms', iter_loop e left p0 rem sq d rms = Ok (p0', rms').
  Proof.
    intros Hs Hr. induction left as [|left IH]; intros; cbn [iter_loop]; [do 2 eexists; reflexivity|].
    destruct (Rlt_dec _ _); [|do 2 eexists; reflexivity]. rewrite H_pS, H_pR.
    destruct (Req_EM_T (energy n s) 0); [contradiction|]. destruct (Req_EM_T (energy n r) 0); [contradiction|]. apply IH.
  Qed.
End Loop.

(** ** the filters *)
Definition gG (n : nat) (dt g : R) (k : nat) : R := exp (- (1 / 2) * (frequency n dt k / g) ^ 2).
Lemma gauss_tab n dt g : gauss_filter dt n g None = tabulate n (gG n dt g).
Proof. unfold gauss_filter, fftfreq. rewrite map_tabulate. reflexivity. Qed.
Lemma gG_pos n dt g k : 0 < gG n dt g k. Proof. apply exp_pos. Qed.
Lemma gG_even n dt g k : (k < n)%nat -> gG n dt g (wrap n (- Z.of_nat k)) = gG n dt g k.
Proof.
  intros Hk. destruct (Nat.eq_dec (2 * k) n) as [E|E].
  - assert (wrap n (- Z.of_nat k) = k) as ->; [|reflexivity]. rewrite wrap_neg by lia. destruct (Nat.eqb_spec k 0); lia.
  - unfold gG, frequency. pose proof (fold_freq_neg n k Hk E) as F. unfold fold_freq in F. rewrite F.
    rewrite opp_IZR. do 2 f_equal. unfold Rdiv. ring.
Qed.
Lemma unit_cis n k j : unit n (Z.of_nat k * Z.of_nat j) = cis (2 * PI * INR k * INR j / INR n).
Proof. unfold unit. rewrite mult_IZR, <- !INR_IZR_INZ. f_equal. unfold Rdiv. ring. Qed.
Lemma filtered_tab n dt g tshift x : (0 < n)%nat -> filtered n dt g tshift x =
  tabulate n (fun j => fst (ifft_at n (fun k => Cmul (Cscal (gG n dt g k) (wl_F n dt tshift None k)) (fft_at n (rsig x) k)) j)).
Proof.
  intros Hn. unfold filtered. apply tabulate_ext. intros j Hj. unfold ifft_at. cbn [Cscal fst]. f_equal. rewrite csum_fst.
  apply rsum_ext. intros k Hk. rewrite dft_fft by exact Hn. fold (gG n dt g k). unfold Rminus. rewrite cis_add, <- unit_cis.
  unfold wl_F. change (IZR (fold_freq n k) / (INR n * dt)) with (frequency n dt k).
  replace (- (2 * PI * frequency n dt k * tshift)) with (- 2 * PI * frequency n dt k * tshift) by ring.
  rewrite !Cscal_mul. set (a := fft_at n _ k). set (b := unit n _). set (c := cis _). cbn. ring.
Qed.
Lemma filtered_length n dt g tshift x : length (filtered n dt g tshift x) = n.
Proof. unfold filtered. rewrite map_length, seq_length. reflexivity. Qed.
Lemma apply_gauss_shift n dt g tshift x : (0 < n)%nat ->
  apply_filter x (zipw Cscal (gauss_filter dt n g None) (phase_shift_filter n dt tshift)) = Ok (filtered n dt g tshift x).
Proof.
  intros Hn. unfold apply_filter. rewrite gauss_tab, phase_shift_tab, zipw_tabulate, tabulate_length.
  destruct n as [|n']; [lia|]. set (n := S n') in *. f_equal. rewrite filtered_tab by exact Hn.
  unfold ifft, cprod. rewrite fft_tab, zipw_tabulate, map_tabulate. apply tabulate_ext. intros j Hj. f_equal.
  apply ifft_ext. intros k Hk. rewrite nth_tabulate by exact Hk. ring.
Qed.
Lemma lowpass_tab n dt g x : (0 < n)%nat ->
  lowpass n dt g x = tabulate n (fun j => fst (ifft_at n (fun k => Cscal (gG n dt g k) (fft_at n (rsig x) k)) j)).
Proof.
  intros Hn. unfold lowpass. rewrite filtered_tab by exact Hn. apply tabulate_ext. intros j Hj. f_equal. apply ifft_ext.
  intros k Hk. rewrite wl_F_0, !Cscal_mul. ring.
Qed.
Lemma apply_gauss n dt g x : (0 < n)%nat -> apply_filter x (map RtoC (gauss_filter dt n g None)) = Ok (lowpass n dt g x).
Proof.
  intros Hn. unfold apply_filter. rewrite gauss_tab, map_tabulate, tabulate_length.
  destruct n as [|n']; [lia|]. set (n := S n') in *. f_equal. rewrite lowpass_tab by exact Hn.
  unfold ifft, cprod. rewrite fft_tab, zipw_tabulate, map_tabulate. apply tabulate_ext. intros j Hj. f_equal.
  apply ifft_ext. intros k Hk. rewrite nth_tabulate by exact Hk. rewrite !Cscal_mul. ring.
Qed.
Lemma lowpass_spec_hermitian n dt g x : (0 < n)%nat -> hermitian n (fun k => Cscal (gG n dt g k) (fft_at n (rsig x) k)).
Proof.
  intros Hn k Hk. cbn beta. rewrite gG_even by exact Hk. rewrite Cconj_scal. f_equal.
  apply (fft_real_hermitian n Hn (rsig x)); [reflexivity | exact Hk].
Qed.
Lemma lowpass_fft n dt g x k : (0 < n)%nat -> (k < n)%nat ->
  Cscal (gG n dt g k) (fft_at n (rsig x) k) = fft_at n (rsig (lowpass n dt g x)) k.
Proof.
  intros Hn Hk. rewrite lowpass_tab by exact Hn.
  apply (hermitian_real n Hn _ (lowpass_spec_hermitian n dt g x Hn) k Hk).
Qed.
Lemma energy_power n x : length x = n -> power x = energy n x.
Proof. intros <-. apply power_rsum. Qed.
(** a delay by whole samples *)
Lemma filtered_delayed n dt g m x : (0 < n)%nat -> dt <> 0 -> filtered n dt g (IZR m * dt) x = delayed n m (lowpass n dt g x).
Proof.
  intros Hn Hdt. rewrite filtered_tab by exact Hn. unfold delayed. apply tabulate_ext. intros j Hj.
  unfold periodic. fold (wrap n (Z.of_nat j - m)). rewrite lowpass_tab, nth_tabulate by (try apply wrap_lt; exact Hn).
  rewrite <- (ifft_shift n Hn). f_equal. apply ifft_ext. intros k Hk. rewrite wl_F_unit by assumption. rewrite !Cscal_mul. ring.
Qed.
(** filtering keeps non-zero signals non-zero *)
Lemma lowpass_energy n dt g x : (0 < n)%nat -> (energy n (lowpass n dt g x) = 0 <-> ~ nonzero_within n x).
Proof.
  intros Hn. assert (Hi : INR n <> 0) by (apply not_0_INR; lia).
  assert (P : forall y, rsum n (fun k => Cnorm2 (fft_at n (rsig y) k)) = INR n * energy n y).
  { intros y. rewrite parseval by exact Hn. f_equal. apply rsum_ext. intros; unfold Cnorm2, rsig; cbn; ring. }
  assert (Z0 : forall y, energy n y = 0 <-> forall k, (k < n)%nat -> fft_at n (rsig y) k = Czero).
  { intros y. split.
    - intros E k Hk. apply Cnorm2_zero. pose proof (P y) as Py. rewrite E, Rmult_0_r in Py.
      apply Rle_antisym; [|apply Cnorm2_pos]. rewrite <- Py.
      apply (rsum_ge_term n (fun k => Cnorm2 (fft_at n (rsig y) k)) k); [intros; apply Cnorm2_pos | exact Hk].
    - intros H. pose proof (P y) as Py. rewrite rsum_zero in Py.
      + symmetry in Py. apply Rmult_integral in Py. tauto.
      + intros k Hk. rewrite H by exact Hk. apply Cnorm2_0. }
  rewrite Z0. transitivity (energy n x = 0).
  - rewrite Z0. split; intros H k Hk; specialize (H k Hk); pose proof (gG_pos n dt g k) as G.
    + rewrite <- lowpass_fft in H by assumption. apply Cnorm2_zero. apply (f_equal Cnorm2) in H. rewrite Cnorm2_scal, Cnorm2_0 in H.
      apply Rmult_integral in H. destruct H as [H|H]; [|exact H]. apply Rmult_integral in H. lra.
    + rewrite <- lowpass_fft by assumption. rewrite H. apply cplx_eq; cbn; ring.
  - split.
    + intros E (p & Hp & Hx). apply Hx. apply (rsum_sq_zero n (fun j => nth j x 0) E p Hp).
    + intros H. apply rsum_zero. intros p Hp. destruct (Req_dec (nth p x 0) 0) as [->|Hx]; [ring|]. exfalso. apply H. exists p. auto.
Qed.
Lemma lowpass_zero n dt g x : (0 < n)%nat -> ~ nonzero_within n x -> lowpass n dt g x = zeros n.
Proof.
  intros Hn H. apply (lowpass_energy n dt g x Hn) in H.
  apply nth_ext with 0 0; [unfold lowpass; rewrite filtered_length; unfold zeros; rewrite repeat_length; reflexivity|].
  intros j Hj. unfold lowpass in Hj. rewrite filtered_length in Hj. unfold zeros. rewrite nth_repeat.
  apply (rsum_sq_zero n (fun j => nth j (lowpass n dt g x) 0) H j Hj).
Qed.

(** ** one response *)
Definition env_of (n : nat) (dt g tshift sr minderr : R) (ms : bool) (src r0 : list R) : iter_env :=
  mkEnv n dt (zipw Cscal (gauss_filter dt n g None) (fft src n)) (lowpass n dt g r0)
    (energy n (lowpass n dt g src)) (energy n (lowpass n dt g r0)) (Nat.min n (length r0))
    (if ms then n else slice_bound n (Z.of_nat n - trunc (tshift * sr))) minderr.
Lemma iter_one_unfold nfl src sr tshift g itmax minderr ms r0 n : nfl (2 * length r0)%nat = n -> (0 < n)%nat -> g <> 0 ->
  iter_one nfl src sr tshift (Some g) itmax minderr ms r0 =
  (let! (p0, rms) := iter_loop (env_of n (1 / sr) g tshift sr minderr ms src r0) itmax (spike_train n [])
                       (lowpass n (1 / sr) g r0) 1 (100 * energy n (lowpass n (1 / sr) g r0) + minderr) [] in
   Ok (firstn (length r0) (filtered n (1 / sr) g tshift p0), length rms, rms ++ zeros (itmax - length rms))).
Proof.
  intros E Hn Hg. unfold iter_one. rewrite E. destruct (Nat.eqb_spec n 0); [lia|]. destruct (Req_EM_T g 0); [contradiction|].
  rewrite apply_gauss by exact Hn. cbn [bind].
  assert (P1 : power (lowpass n (1 / sr) g r0) = energy n (lowpass n (1 / sr) g r0)) by (apply energy_power, filtered_length).
  assert (P2 : power (map fst (ifft (zipw Cscal (gauss_filter (1 / sr) n g None) (fft src n)) n)) = energy n (lowpass n (1 / sr) g src)).
  { rewrite <- (energy_power n) by apply filtered_length. f_equal. rewrite lowpass_tab by exact Hn.
    unfold ifft. rewrite gauss_tab, fft_tab, zipw_tabulate, map_tabulate. apply tabulate_ext. intros j Hj. f_equal.
    apply ifft_ext. intros k Hk. rewrite nth_tabulate by exact Hk. reflexivity. }
  rewrite P1, P2. assert (Z0 : zeros n = spike_train n []).
  { unfold zeros, spike_train. cbn [fold_right]. clear. generalize 0%nat. induction n as [|n IH]; intros k; cbn; [reflexivity|].
    rewrite <- (IH (S k)). reflexivity. }
  rewrite Z0. fold (env_of n (1 / sr) g tshift sr minderr ms src r0).
  destruct (iter_loop _ _ _ _ _ _ _) as [[p0 rms]|]; cbn [bind]; [|reflexivity].
  rewrite apply_gauss_shift by exact Hn. reflexivity.
Qed.
Lemma residual_nil n dt r s : length r = n -> tabulate n (residual n dt r s []) = r.
Proof.
  intros <-. rewrite (list_tabulate r 0) at 4. apply tabulate_ext. intros j Hj. unfold residual, predicted. cbn. ring.
Qed.
(** the muted lags *)
Lemma unmuted_allowed n dt g tshift sr minderr ms src r0 l : (l < n)%nat ->
  unmuted (env_of n dt g tshift sr minderr ms src r0) l -> lag_allowed n (length r0) (trunc (tshift * sr)) ms l.
Proof.
  intros Hl. unfold unmuted, lag_allowed. cbn [i_lo i_hi env_of]. intros [H|H]; [left; lia|]. destruct ms; [lia|].
  right. split; [reflexivity|]. unfold slice_bound in H. destruct (Z.ltb_spec (Z.of_nat n - trunc (tshift * sr)) 0); lia.
Qed.
Lemma allowed_unmuted n dt g tshift sr minderr ms src r0 l : (ms = true \/ (trunc (tshift * sr) <= Z.of_nat n)%Z) -> (l < n)%nat ->
  lag_allowed n (length r0) (trunc (tshift * sr)) ms l -> unmuted (env_of n dt g tshift sr minderr ms src r0) l.
Proof.
  intros Hs Hl. unfold unmuted, lag_allowed. cbn [i_lo i_hi env_of]. intros [H|[-> H]]; [left; lia|]. right.
  destruct Hs as [|Hs]; [discriminate|]. unfold slice_bound. destruct (Z.ltb_spec (Z.of_nat n - trunc (tshift * sr)) 0); lia.
Qed.
Lemma best_spike_ext n dt r s (P Q : nat -> Prop) sp x : (forall l, (l < n)%nat -> (P l <-> Q l)) ->
  best_spike n dt r s P sp x -> best_spike n dt r s Q sp x.
Proof.
  intros H (A & B & C' & D). refine (conj A (conj _ (conj _ D))); [apply H; assumption|].
  intros l Hl HQ. apply C'; [exact Hl | apply H; assumption].
Qed.
Lemma firstn_S_nth {A} (l : list A) t d : (t < length l)%nat -> firstn (S t) l = firstn t l ++ [nth t l d].
Proof.
  revert t. induction l as [|x l IH]; intros [|t] H; cbn in *; try lia; try reflexivity. rewrite <- IH by lia. reflexivity.
Qed.
Lemma improvement_nonneg n dt r s P sp t : (0 < n)%nat -> dt <> 0 -> energy n s <> 0 -> (t < length sp)%nat ->
  best_spike n dt r s P (firstn t sp) (nth t sp no_spike) -> 0 <= improvement n dt r s sp t.
Proof.
  intros Hn Hdt Hs Ht B. unfold improvement. rewrite (firstn_S_nth sp t no_spike Ht).
  rewrite (misfit_best n dt r s P (firstn t sp) (nth t sp no_spike)) by assumption.
  set (M := misfit n dt r s (firstn t sp)). set (c := match_at _ _ _ _ _ _).
  replace (M - (M - c ^ 2 / energy n s)) with (c ^ 2 / energy n s) by ring.
  pose proof (energy_pos n s). pose proof (energy_pos n r). pose proof (pow2_ge_0 c).
  assert (0 < energy n s) by lra. assert (0 <= c ^ 2 / energy n s) by (apply Rmult_le_pos; [lra | left; apply Rinv_0_lt_compat; assumption]).
  apply Rmult_le_pos; [lra|]. destruct (Req_dec (energy n r) 0) as [->|].
  - unfold Rdiv at 1. rewrite Rinv_0. lra.
  - apply Rmult_le_pos; [assumption | left; apply Rinv_0_lt_compat; lra].
Qed.
Lemma iter_one_inv nfl src sr tshift gauss itmax minderr ms r0 x : iter_one nfl src sr tshift gauss itmax minderr ms r0 = Ok x ->
  (0 < nfl (2 * length r0))%nat /\ exists g, gauss = Some g /\ g <> 0.
Proof.
  unfold iter_one. destruct (Nat.eqb_spec (nfl (2 * length r0)%nat) 0); [discriminate|].
  destruct gauss as [g|]; [|discriminate]. destruct (Req_EM_T g 0); [discriminate|]. intros _. split; [lia | exists g; auto].
Qed.
Lemma dt_nonzero sr : sr <> 0 -> 1 / sr <> 0.
Proof. intros H. unfold Rdiv. rewrite Rmult_1_l. apply Rinv_neq_0_compat, H. Qed.
Theorem iter_one_run nfl src sr tshift g itmax minderr ms r0 rf it rms n : sr <> 0 -> r0 <> [] -> nfl (2 * length r0)%nat = n ->
  iter_one nfl src sr tshift (Some g) itmax minderr ms r0 = Ok (rf, it, rms) ->
  let dt := 1 / sr in
  let r := lowpass n dt g r0 in
  let s := lowpass n dt g src in
  exists sp, spike_run n dt r s (unmuted (env_of n dt g tshift sr minderr ms src r0)) itmax minderr sp it rms /\
    rf = firstn (length r0) (filtered n dt g tshift (spike_train n sp)) /\
    (sp <> [] -> energy n s <> 0 /\ energy n r <> 0) /\
    ((it < itmax)%nat -> it = 0%nat -> 100 * energy n r + minderr <= minderr).
Proof.
  intros Hsr Hr0 En H. destruct (iter_one_inv _ _ _ _ _ _ _ _ _ _ H) as (Hn & g' & Eg & Hg). injection Eg as <-. rewrite En in Hn.
  rewrite (iter_one_unfold nfl src sr tshift g itmax minderr ms r0 n En Hn Hg) in H. cbn zeta.
  set (dt := 1 / sr) in *. assert (Hdt : dt <> 0) by (apply dt_nonzero, Hsr).
  set (r := lowpass n dt g r0) in *. set (s := lowpass n dt g src) in *. set (e := env_of n dt g tshift sr minderr ms src r0) in *.
  destruct (iter_loop e itmax (spike_train n []) r 1 (100 * energy n r + minderr) []) as [[p0 rms0]|] eqn:EL; cbn [bind] in H; [|discriminate].
  assert (Hlen : (0 < length r0)%nat) by (destruct r0; [congruence | cbn; lia]).
  assert (Hrl : length r = n) by apply filtered_length.
  rewrite <- (residual_nil n dt r s Hrl) in EL at 1.
  destruct (loop_good e n dt s r (fun k => Cscal (gG n dt g k) (fft_at n (rsig src) k)) Hn Hdt eq_refl eq_refl) with
    (left := itmax) (sp := @nil spike) (sq := 1) (d := 100 * energy n r + minderr) (rms := @nil R) (p0 := p0) (rms' := rms0)
    as (sp & G & Ep & Hle & Hstop); try reflexivity; try assumption.
  - cbn [i_sspec e env_of]. rewrite gauss_tab, fft_tab, zipw_tabulate. reflexivity.
  - intros k Hk. apply lowpass_fft; assumption.
  - cbn [i_lo e env_of]. lia.
  - constructor; cbn; try reflexivity; try congruence; intros; lia.
  - intros _. rewrite (misfit_nil n dt s r). ring.
  - assert (L : length rms0 = length sp) by (rewrite (g_rms _ _ _ _ _ _ _ G), tabulate_length; reflexivity).
    cbn [length plus] in Hle, Hstop.
    assert (rf = firstn (length r0) (filtered n dt g tshift p0)) as -> by congruence.
    assert (it = length rms0) as -> by congruence. assert (rms = rms0 ++ zeros (itmax - length rms0)) as -> by congruence. clear H.
    assert (I : forall t, (t < length sp)%nat -> 0 <= improvement n dt r s sp t).
    { intros t Ht. apply (improvement_nonneg n dt r s (unmuted e)); auto.
      - apply (g_nonzero _ _ _ _ _ _ _ G). intros ->. cbn in Ht. lia.
      - apply (g_best _ _ _ _ _ _ _ G t Ht). }
    exists sp. refine (conj _ (conj _ (conj _ _))).
    + constructor.
      * split; [exact L | lia].
      * intros H1 H2. destruct (Nat.eq_dec (length rms0) 0) as [E0|]; [exfalso | lia]. rewrite L in E0. destruct (Hstop ltac:(lia)) as (d & Hd & Ha).
        destruct sp; [|discriminate]. cbn [err_of] in Hd. rewrite Hd in Ha. pose proof (Rle_abs (100 * energy n r + i_minderr e)). lra.
      * intros t Ht. apply (g_best _ _ _ _ _ _ _ G). lia.
      * split; [rewrite app_length; unfold zeros; rewrite repeat_length; lia|]. intros t Ht.
        destruct (Nat.ltb_spec t (length rms0)).
        -- rewrite app_nth1 by assumption. rewrite (g_rms _ _ _ _ _ _ _ G) at 1. rewrite nth_tabulate by lia. reflexivity.
        -- rewrite app_nth2 by lia. unfold zeros. apply nth_repeat.
      * intros t Ht. rewrite <- (Rabs_right (improvement n dt r s sp t)) by (apply Rle_ge, I; lia).
        apply (g_continue _ _ _ _ _ _ _ G). lia.
      * intros H1 H2. rewrite L in *. destruct (Hstop H1) as (d & Hd & Ha). unfold err_of in Hd.
        destruct sp as [|y sp']; [cbn in H2; lia|]. rewrite Hd in Ha. rewrite Rabs_right in Ha; [exact Ha|]. apply Rle_ge, I. lia.
    + rewrite Ep. reflexivity.
    + apply (g_nonzero _ _ _ _ _ _ _ G).
    + intros H1 H2. rewrite L in *. destruct (Hstop H1) as (d & Hd & Ha). destruct sp; [|discriminate]. cbn [err_of] in Hd.
      rewrite Hd in Ha. cbn [i_minderr e env_of] in Ha. pose proof (Rle_abs (100 * energy n r + minderr)). lra.
Qed.

(** ** common gains *)
Lemma lowpass_scale n dt g c x : (0 < n)%nat -> lowpass n dt g (scale c x) = scale c (lowpass n dt g x).
Proof.
  intros Hn. rewrite !lowpass_tab by exact Hn. unfold scale at 2. rewrite map_tabulate. apply tabulate_ext. intros j Hj.
  rewrite (ifft_ext n _ (fun k => Cmul (RtoC c) (Cscal (gG n dt g k) (fft_at n (rsig x) k)))).
  - rewrite ifft_scal. cbn. ring.
  - intros k Hk. rewrite fft_scale, !Cscal_mul. ring.
Qed.
Lemma power_scale c x : power (scale c x) = c * c * power x.
Proof.
  rewrite !power_rsum, scale_length, <- rsum_scal. apply rsum_ext. intros j Hj. unfold scale.
  rewrite (nth_indep _ 0 (c * 0)) by (rewrite map_length; exact Hj). rewrite (map_nth (Rmult c)). ring.
Qed.
Lemma energy_scale n c x : length x = n -> energy n (scale c x) = c * c * energy n x.
Proof. intros H. rewrite <- !energy_power; [apply power_scale | exact H | rewrite scale_length; exact H]. Qed.
Section Gain.
  Variables (n : nat) (dt g tshift sr minderr : R) (ms : bool) (src r0 : list R) (c : R).
  Hypothesis Hn : (0 < n)%nat.
  Hypothesis Hc : c <> 0.
  Let e := env_of n dt g tshift sr minderr ms src r0.
  Let e' := env_of n dt g tshift sr minderr ms (scale c src) (scale c r0).
  Lemma env_lo : i_lo e' = i_lo e. Proof. cbn. rewrite scale_length. reflexivity. Qed.
  Lemma env_pS : i_powerS e' = c * c * i_powerS e.
  Proof. cbn. rewrite lowpass_scale by exact Hn. apply energy_scale, filtered_length. Qed.
  Lemma env_pR : i_powerR e' = c * c * i_powerR e.
  Proof. cbn. rewrite lowpass_scale by exact Hn. apply energy_scale, filtered_length. Qed.
  Lemma env_rflt : i_rflt e' = scale c (i_rflt e).
  Proof. cbn. apply lowpass_scale, Hn. Qed.
  Lemma env_sspec : i_sspec e' = tabulate n (fun k => Cmul (RtoC c) (Cscal (gG n dt g k) (fft_at n (rsig src) k))).
  Proof.
    cbn [i_sspec e' env_of]. rewrite gauss_tab, fft_tab, zipw_tabulate. apply tabulate_ext. intros k Hk.
    rewrite fft_scale, !Cscal_mul. ring.
  Qed.
  Lemma env_sspec0 : i_sspec e = tabulate n (fun k => Cscal (gG n dt g k) (fft_at n (rsig src) k)).
  Proof. cbn [i_sspec e env_of]. rewrite gauss_tab, fft_tab, zipw_tabulate. reflexivity. Qed.
  Lemma rs_gain rem : i_powerS e <> 0 -> dt <> 0 -> iter_rs e' (scale c rem) = iter_rs e rem.
  Proof.
    intros Hp Hdt. unfold iter_rs, ifft, cprod. rewrite env_lo, env_pS, env_sspec, env_sspec0. change (i_hi e') with (i_hi e).
    change (i_nfft e') with n. change (i_nfft e) with n. change (i_dt e') with dt. change (i_dt e) with dt. f_equal.
    rewrite !fft_tab, ?map_tabulate, ?zipw_tabulate, ?map_tabulate. apply tabulate_ext. intros j Hj.
    rewrite (ifft_ext n _ (fun k => Cmul (RtoC (c * c)) (nth k (tabulate n (fun k => Cmul (fft_at n (rsig rem) k) (Cconj (Cscal (gG n dt g k) (fft_at n (rsig src) k))))) Czero))).
    - rewrite ifft_scal. set (z := ifft_at _ _ _). replace (fst (Cmul (RtoC (c * c)) z)) with (c * c * fst z) by (cbn; ring).
      field. auto.
    - intros k Hk. rewrite !nth_tabulate by exact Hk. rewrite fft_scale, Cconj_mul, Cconj_R, RtoC_mul. ring.
  Qed.
  Lemma pflt_gain p0 : iter_pflt e' p0 = scale c (iter_pflt e p0).
  Proof.
    unfold iter_pflt, ifft, cprod, scale. rewrite env_sspec, env_sspec0.
    change (i_nfft e') with n. change (i_nfft e) with n. change (i_dt e') with dt. change (i_dt e) with dt.
    rewrite !fft_tab, !zipw_tabulate, !map_tabulate. apply tabulate_ext. intros j Hj.
    rewrite (ifft_ext n _ (fun k => Cmul (RtoC c) (nth k (tabulate n (fun k => Cmul (fft_at n (rsig p0) k) (Cscal (gG n dt g k) (fft_at n (rsig src) k)))) Czero))).
    - rewrite ifft_scal. set (z := ifft_at _ _ _). cbn. ring.
    - intros k Hk. rewrite !nth_tabulate by exact Hk. ring.
  Qed.
  Lemma vsub_scale a b : vsub (scale c a) (scale c b) = scale c (vsub a b).
  Proof.
    unfold vsub, scale. revert b. induction a as [|x a IH]; intros [|y b]; cbn; try reflexivity. rewrite IH. f_equal. ring.
  Qed.
  Lemma loop_gain left : dt <> 0 -> forall p0 rem sq d rms,
    iter_loop e' left p0 (scale c rem) sq d rms = iter_loop e left p0 rem sq d rms.
  Proof.
    intros Hdt. assert (Hcc : c * c <> 0) by (apply Rmult_integral_contrapositive; auto).
    induction left as [|left IH]; intros p0 rem sq d rms; cbn [iter_loop]; [reflexivity|].
    change (i_minderr e') with (i_minderr e). destruct (Rlt_dec _ _); [|reflexivity].
    destruct (Req_EM_T (i_powerS e) 0) as [E|E]; [rewrite env_pS, E, Rmult_0_r; destruct (Req_EM_T 0 0); [reflexivity | contradiction]|].
    assert (i_powerS e' <> 0) as E' by (rewrite env_pS; apply Rmult_integral_contrapositive; auto).
    destruct (Req_EM_T (i_powerS e') 0); [contradiction|].
    destruct (Req_EM_T (i_powerR e) 0) as [F|F]; [rewrite env_pR, F, Rmult_0_r; destruct (Req_EM_T 0 0); [reflexivity | contradiction]|].
    assert (i_powerR e' <> 0) as F' by (rewrite env_pR; apply Rmult_integral_contrapositive; auto).
    destruct (Req_EM_T (i_powerR e') 0); [contradiction|].
    rewrite rs_gain by assumption. set (p1 := update _ _ _). rewrite env_rflt, pflt_gain, vsub_scale, power_scale, env_pR.
    replace (c * c * power (vsub (i_rflt e) (iter_pflt e p1)) / (c * c * i_powerR e)) with (power (vsub (i_rflt e) (iter_pflt e p1)) / i_powerR e) by (field; auto).
    apply IH.
  Qed.
End Gain.
Lemma loop_d e left p0 rem sq d d' rms : i_minderr e < Rabs d -> i_minderr e < Rabs d' ->
  iter_loop e left p0 rem sq d rms = iter_loop e left p0 rem sq d' rms.
Proof.
  intros H1 H2. destruct left; cbn [iter_loop]; [reflexivity|].
  destruct (Rlt_dec (i_minderr e) (Rabs d)); [|contradiction]. destruct (Rlt_dec (i_minderr e) (Rabs d')); [reflexivity | contradiction].
Qed.
Theorem iter_one_gain nfl src sr tshift gauss itmax minderr ms r0 c : sr <> 0 -> c <> 0 -> 0 <= minderr ->
  iter_one nfl (scale c src) sr tshift gauss itmax minderr ms (scale c r0) = iter_one nfl src sr tshift gauss itmax minderr ms r0.
Proof.
  intros Hsr Hc Hm. destruct (Nat.eq_dec (nfl (2 * length r0)%nat) 0) as [E|E].
  { unfold iter_one. rewrite scale_length, E. reflexivity. }
  destruct gauss as [g|]; [|unfold iter_one; rewrite scale_length; reflexivity].
  destruct (Req_dec g 0) as [->|Hg].
  { unfold iter_one. rewrite scale_length. destruct (Req_EM_T 0 0); [reflexivity | contradiction]. }
  rewrite (iter_one_unfold nfl src sr tshift g itmax minderr ms r0 _ eq_refl ltac:(lia) Hg).
  rewrite (iter_one_unfold nfl (scale c src) sr tshift g itmax minderr ms (scale c r0) (nfl (2 * length r0)%nat))
    by (try (rewrite scale_length; reflexivity); try lia; exact Hg).
  rewrite scale_length. set (n := nfl (2 * length r0)%nat) in *. assert (Hn : (0 < n)%nat) by lia.
  rewrite lowpass_scale by exact Hn. rewrite loop_gain by (auto; apply dt_nonzero, Hsr).
  rewrite energy_scale by apply filtered_length. set (e := env_of _ _ _ _ _ _ _ _ _). set (E0 := energy n (lowpass n (1 / sr) g r0)).
  assert (P : 0 <= E0) by apply energy_pos. destruct P as [P|P].
  - rewrite (loop_d e itmax _ _ _ (100 * (c * c * E0) + minderr) (100 * E0 + minderr)); [reflexivity| |].
    + cbn [i_minderr e env_of]. assert (0 < c * c * E0) by (apply Rmult_lt_0_compat; [apply Rsqr_pos_lt, Hc | exact P]). rewrite Rabs_right; lra.
    + cbn [i_minderr e env_of]. rewrite Rabs_right; lra.
  - rewrite <- P. rewrite Rmult_0_r. reflexivity.
Qed.
