(** C140: sample indices in floating point arithmetic. *)
From Verif Require Import Model.FloatIndex Spec.ModelSpec Spec.FloatSpec Proofs.PyFacts Proofs.SumFacts Proofs.InterpFacts Proofs.ModelFacts
  Proofs.MoveoutFacts Proofs.MoveoutMain Proofs.FloatFacts Properties.ModelProps Properties.MoveoutProps.
From Flocq Require Import Core.
From Coq Require Import Lra Lia.
Notation length := List.length.
Local Open Scope R_scope.

(** the index of moveout is off by at most one sample; if the onset is the time of sample k,
    it is k or k - 1 *)
Theorem C140_index_partial start onset delta rate k : (10000 <= delta)%Z -> (k <= 2 ^ 47)%Z -> (start <= onset)%Z -> rate_of delta rate ->
  last_before start onset delta k ->
  (k - 1 <= f_index start onset rate <= k + 1)%Z /\
  (onset = start + k * delta -> f_index start onset rate = k \/ f_index start onset rate = k - 1)%Z.
Proof.
  intros Hd Hk Hso Hr L. destruct (index_near start onset delta rate k Hd Hk Hso Hr L) as [A B]. split; [exact A|]. intros E. specialize (B E). lia.
Qed.
Print Assumptions C140_index_partial.
(** right for onsets whole seconds after the start and whole sampling rates *)
Theorem C140_whole start s f : (0 <= s < 2 ^ 20)%Z -> (0 < f)%Z -> (s * f < 2 ^ 53)%Z ->
  f_index start (start + s * 1000000000) (IZR f) = (s * f)%Z.
Proof.
  intros Hs Hf Hp. unfold f_index. replace (start + s * 1000000000 - start)%Z with (s * 1000000000)%Z by lia.
  rewrite f_secs_whole by exact Hs. rewrite <- mult_IZR, rnd_Z by nia. apply Zfloor_IZR.
Qed.
Print Assumptions C140_whole.

Lemma secs_029 : f_secs 290000000 = 5224175567749775 * / 18014398509481984.
Proof.
  unfold f_secs. rewrite (rnd_Z 290000000) by lia.
  assert (bpow radix2 (-54) = / 18014398509481984) as B by (cbn; lra).
  assert (rnd (290000000 / 1000000000) = 5224175567749775 * bpow radix2 (-54)) as ->.
  { apply (rnd_at _ (-54) 5224175567749775); [lia | cbn; lra | cbn; apply Rabs_lt; lra]. }
  rewrite (Znearest_imp _ _ 290000); [| rewrite B; apply Rabs_lt; lra].
  rewrite <- B. apply (rnd_at _ (-54) 5224175567749775); [lia | cbn; lra | cbn; apply Rabs_lt; lra].
Qed.
Lemma index_029 : f_index 0 290000000 100 = 28%Z.
Proof.
  unfold f_index. rewrite Z.sub_0_r, secs_029. apply Zfloor_imp.
  rewrite (rnd_at _ (-48) 8162774324609023); [| lia | cbn; lra | cbn; apply Rabs_lt; lra]. cbn. lra.
Qed.
(** sample 29 of a 100 Hz trace starts at 0.29 s: the index is 28 *)
Theorem C140_index_refuted : exists start onset delta rate k,
  delta = 10000000%Z /\ rate = 100 /\ rate_of delta rate /\ onset = (start + k * delta)%Z /\ k = 29%Z /\ last_before start onset delta k /\
  f_index start onset rate = 28%Z /\ f_trunc (f_secs (onset - start)) rate = 28%Z.
Proof.
  exists 0%Z, 290000000%Z, 10000000%Z, 100, 29%Z. split; [reflexivity|]. split; [reflexivity|].
  split. { unfold rate_of, secs. replace (100 * (10000000 / 1000000000) - 1) with 0 by field. rewrite Rabs_R0. apply Rlt_le, Rinv_0_lt_compat, pow_lt. lra. }
  split; [reflexivity|]. split; [reflexivity|]. split; [unfold last_before; lia|]. split; [exact index_029|].
  rewrite trunc_index by (lra || lia). exact index_029.
Qed.
Print Assumptions C140_index_refuted.

(** the number of samples cut by iterative deconvolution, for the default tshift *)
Theorem C140_trunc_partial ns delta rate k : (10000 <= delta)%Z -> (0 <= k <= 2 ^ 47)%Z -> rate_of delta rate -> ns = (k * delta)%Z ->
  f_trunc (f_secs ns) rate = k \/ f_trunc (f_secs ns) rate = (k - 1)%Z.
Proof.
  intros Hd Hk Hr E. assert (0 <= rate) as Hp.
  { unfold rate_of in Hr. apply Rabs_le_inv in Hr. destruct pow2_ineq as (_ & _ & P51). rewrite P51 in Hr.
    assert (0 < secs delta) as P by (apply secs_pos; lia). apply Rmult_le_reg_r with (secs delta); lra. }
  rewrite trunc_index by (nia || exact Hp).
  apply (C140_index_partial 0 ns delta rate k); [exact Hd | lia | nia | exact Hr | unfold last_before; lia | lia].
Qed.
Print Assumptions C140_trunc_partial.

(** the shift of time domain deconvolution is rounded, not cut: always right *)
Theorem C140_shift tshift sr k n : Rabs (tshift * sr - IZR k) <= / 4 -> (Z.abs k <= 2 ^ 45)%Z -> (Z.of_nat n <= 2 ^ 45)%Z ->
  f_shift tshift sr n = (k - Z.of_nat n / 2)%Z.
Proof. intros H Hk Hn. rewrite (shift_exact tshift sr k n H Hk Hn), Nat2Z.inj_div. reflexivity. Qed.
Print Assumptions C140_shift.
Example C140_shift_case : f_shift (f_secs 290000000) 100 5 = 27%Z.
Proof. rewrite (C140_shift _ _ 29 5); [reflexivity | rewrite secs_029; apply Rabs_le; lra | lia | lia]. Qed.

(** ** what this means for moveout *)
Lemma float_inv deg2km m phase ref rate t m' t' : moveout_trace_float deg2km m phase ref rate t = (m', Ok t') ->
  onset_inside t /\ exists T0 T1 d, (if s_multiple phase then move_backward else move_forward) t (Z.to_nat (f_index (x_start t) (x_onset t) rate)) T0 T1 = Ok d /\ t' = with_data t d.
Proof.
  unfold moveout_trace_float. destruct (negb _) eqn:Eo; [discriminate|]. apply onset_check in Eo.
  destruct (stretch_delay_times deg2km m (x_slow t) phase ref) as [m1 [[t0 t1]|e]]; [|discriminate].
  intros E. split; [exact Eo|]. inversion E as [[H1 H2]]. clear E. destruct (finite t0) as [T0|]; [|discriminate]. destruct (finite t1) as [T1|]; [|discriminate].
  exists T0, T1. destruct ((if s_multiple phase then move_backward else move_forward) t _ T0 T1) as [d|]; [|discriminate].
  exists d. split; [reflexivity|]. inversion H2. reflexivity.
Qed.
(** (C140_before_onset_refuted has a trace which meets the hypotheses)
    samples at least two sampling intervals before the onset keep their values, for S multiples all
    samples from the onset on; compare C46_frame *)
Theorem C140_frame deg2km m phase ref rate t m' t' : (10000 <= x_delta t)%Z -> (Z.of_nat (length (x_data t)) <= 2 ^ 47)%Z -> rate_of (x_delta t) rate ->
  x_data t <> [] -> moveout_trace_float deg2km m phase ref rate t = (m', Ok t') ->
  same_header t t' /\ length (x_data t') = length (x_data t) /\
  (forall k, (k < length (x_data t))%nat ->
     (if s_multiple phase then 0 <= rel_time t k else rel_time t k <= - (2 * secs (x_delta t))) ->
     nth k (x_data t') 0 = nth k (x_data t) 0) /\
  forall lo hi, (forall x, In x (x_data t) -> lo <= x <= hi) -> lo <= 0 <= hi -> forall x, In x (x_data t') -> lo <= x <= hi.
Proof.
  intros Hd Hlen Hr Hne E. destruct (float_inv _ _ _ _ _ _ _ _ E) as (Hon & T0 & T1 & d & Em & ->).
  split; [repeat split|]. cbn [with_data x_data].
  destruct (onset_index_spec t ltac:(lia) Hon Hne) as (Hk & Hr1 & Hr2). set (j := onset_index t) in *.
  assert (last_before (x_start t) (x_onset t) (x_delta t) (Z.of_nat j)) as L.
  { unfold last_before, j, onset_index. destruct Hon as [A B].
    rewrite Z2Nat.id by (apply Z.div_pos; lia). pose proof (Z.div_mod (x_onset t - x_start t) (x_delta t) ltac:(lia)).
    pose proof (Z.mod_pos_bound (x_onset t - x_start t) (x_delta t) ltac:(lia)). lia. }
  destruct (index_near _ _ _ rate (Z.of_nat j) Hd ltac:(lia) (proj1 Hon) Hr L) as [Hi Hi2]. set (i := f_index _ _ _) in *. clearbody i j.
  assert (forall a, rel_time t a = secs (x_start t - x_onset t + Z.of_nat a * x_delta t)) as Erel by reflexivity.
  destruct (s_multiple phase).
  - assert (Z.to_nat i <= length (x_data t))%nat as Hb by lia.
    destruct (move_backward_bounds t _ T0 T1 d 0 0 Hb Em) as (Ld & Hs & _). split; [exact Ld|]. split.
    + intros k Hkn Hk0. apply Hs. destruct (Nat.le_gt_cases (Z.to_nat i) k) as [|Hlt]; [assumption|]. exfalso.
      assert (Z.of_nat k <= Z.of_nat j)%Z as Hkj by lia. rewrite Erel in Hk0. unfold secs in Hk0.
      assert (0 <= x_start t - x_onset t + Z.of_nat k * x_delta t)%Z as G by (apply le_IZR; lra).
      unfold last_before in L. assert (k = j) as -> by nia. assert (x_onset t = x_start t + Z.of_nat j * x_delta t)%Z as Eo by nia. specialize (Hi2 Eo). lia.
    + intros lo hi. apply (move_backward_bounds t _ T0 T1 d lo hi Hb Em).
  - destruct (move_forward_bounds t _ T0 T1 d 0 0 Em) as (Ld & Hs & _). split; [exact Ld|]. split.
    + intros k Hkn Hk0. apply Hs. destruct (Nat.lt_ge_cases k (Z.to_nat i)) as [|Hge]; [assumption|]. exfalso.
      assert (j <= S k)%nat as Hjk by lia. pose proof (rel_time_mono t j (S k) ltac:(lia) Hjk) as H. rewrite rel_time_S in H. lra.
    + intros lo hi. apply (move_forward_bounds t _ T0 T1 d lo hi Em).
Qed.
Print Assumptions C140_frame.

(** 32 samples at 100 Hz, a spike at the onset *)
Definition spike (d : R) : mtrace := mkMT 0 290000000 10000000 (repeat 0 29 ++ [1; 0; 0]) (0 * d) None None.
Lemma demo_tables d h q0 q1 l : d <> 0 -> snell 1 h q0 -> snell (1 / 2) h q1 -> oriented d demo (h * d) "Ps" 2 l -> l = [q1 - q0; 2 * (q1 - q0)].
Proof.
  intros Hd S0 S1 O. apply (oriented_unique d demo (h * d) "Ps" 2); [apply demo_valid | phase_ok | unfold layers; cbn; lia | exact O |].
  split; [reflexivity|]. intros i Hi. destruct (demo_ps d h q0 q1 Hd S0 S1) as [A B].
  unfold sgn_phase. norm_upper. cbv iota. destruct i as [|[|i]]; [| |lia]; cbn [nth]; rewrite Rmult_1_l; assumption.
Qed.
(** the sample before the onset does not keep its value *)
Theorem C140_before_onset_refuted d : d <> 0 -> exists m phase ref rate t m' t' k,
  suitable d m phase ref /\ good t /\ x_delta t = 10000000%Z /\ rate = 100 /\ rate_of (x_delta t) rate /\
  phase = "Ps"%string /\ rel_time t k = - secs (x_delta t) /\
  moveout_trace_float d m phase ref rate t = (m', Ok t') /\
  nth k (x_data t) 0 = 0 /\ nth k (x_data t') 0 = 1 - / sqrt 3 /\
  (* exact arithmetic *)
  forall m2 t2, moveout_trace d m phase ref t = (m2, Ok t2) -> nth k (x_data t2) 0 = 0.
Proof.
  intros Hd. assert (consistent d demo (1 * d)) as Hc by (intros ph u; discriminate).
  assert (ps_phase "Ps") as Hps by phase_ok.
  destruct (demo_used d 0 Hd ltac:(lra)) as [U1 _]. destruct (demo_used d 1 Hd ltac:(lra)) as [_ P0].
  destruct (stretch_tables d demo (0 * d) "Ps" (1 * d) 2 (proj1 demo_valid) Hps eq_refl U1 P0 Hc) as (m' & l0 & l1 & E & _ & _ & _ & O0 & O1).
  apply (demo_tables d 0 _ _ l0 Hd (snell_0 1 ltac:(lra)) (snell_0 (1 / 2) ltac:(lra))) in O0. apply (demo_tables d 1 _ _ l1 Hd snell_1_1 snell_2_1) in O1. subst l0 l1.
  assert (1 < sqrt 3) as Hq by (pose proof (sqrt_pos 3); pose proof (sqrt_sqrt 3 ltac:(lra)); nra).
  assert (exists dd, move_forward (spike d) 28 (tab [/ (1 / 2) - / 1; 2 * (/ (1 / 2) - / 1)]) (tab [sqrt 3 - 0; 2 * (sqrt 3 - 0)]) = Ok dd /\ nth 28 dd 0 = 1 - / sqrt 3) as (dd & Ed & En).
  { set (q := sqrt 3) in *. cbn [tab app firstn skipn map rev].
    unfold move_forward. cbn [last]. destruct (Rlt_dec (2 * (q - 0)) (2 * (/ (1 / 2) - / 1))) as [H|_]; [exfalso; lra|].
    assert (map (fun k => secs (x_start (spike d) - x_onset (spike d) + Z.of_nat 28 * x_delta (spike d)) + INR k * secs (x_delta (spike d))) (seq 0 (length (x_data (spike d)) - 28)) = [-0.01; 0; 0.01; 0.02]) as Ets.
    { cbn -[secs]. unfold secs. repeat f_equal; lra. }
    rewrite Ets. clear Ets. replace (skipn 28 (x_data (spike d))) with [0; 1; 0; 0] by reflexivity.
    rewrite np_interp_ok; [| reflexivity | discriminate | intros [|[|[|?]]] [|[|[|?]]]; cbn; intros; (lra || lia)]. cbn [bind].
    assert (map (interp1 (Some 0) None (combine [- (2 * (/ (1 / 2) - / 1)); / (1 / 2) - / 1; 2 * (/ (1 / 2) - / 1)] [- (2 * (q - 0)); q - 0; 2 * (q - 0)])) [-0.01; 0; 0.01; 0.02]
      = [- 0.01 * q; 0; 0.01 * q; 0.02 * q]) as En.
    { cbn. rdec. replace (/ (1 / 2) - / 1) with 1 by field. do 4 (apply (f_equal2 (@cons R)); [field|]). reflexivity. }
    rewrite En. clear En. rewrite np_interp_ok; [| reflexivity | discriminate | intros [|[|[|[|?]]]] [|[|[|[|?]]]]; cbn; intros; (lra || lia)]. cbn [bind].
    eexists. split; [reflexivity|]. cbn. rdec. field. lra. }
  exists demo, "Ps"%string, (1 * d), 100, (spike d), m', (with_data (spike d) dd), 28%nat.
  split; [apply demo_suitable|]. split; [unfold good, onset_inside; cbn; split; [lia|]; split; [lia | discriminate]|].
  split; [reflexivity|]. split; [reflexivity|].
  split. { unfold rate_of, secs. cbn [x_delta spike]. replace (100 * (10000000 / 1000000000) - 1) with 0 by field. rewrite Rabs_R0. apply Rlt_le, Rinv_0_lt_compat, pow_lt. lra. }
  split; [reflexivity|].
  assert (rel_time (spike d) 28 = - secs (x_delta (spike d))) as Hrel by (unfold rel_time, secs; cbn; lra). split; [exact Hrel|].
  split. { unfold moveout_trace_float. change (negb _) with false. cbv iota. change (x_slow (spike d)) with (0 * d). rewrite E. cbv iota.
    rewrite !finite_some. change (s_multiple "Ps") with false. cbv iota.
    change (f_index (x_start (spike d)) (x_onset (spike d)) 100) with (f_index 0 290000000 100). rewrite index_029. change (Z.to_nat 28) with 28%nat. rewrite Ed. reflexivity. }
  split; [reflexivity|]. split; [exact En|].
  intros m2 t2 E2. destruct (C46_frame d demo "Ps" (1 * d) (spike d) m2 t2 0 0 ltac:(cbn; lia) E2) as (_ & _ & K & _).
  rewrite (K 28%nat); [reflexivity | cbn; lia |]. change (s_multiple "Ps") with false. cbv iota. lra.
Qed.
Print Assumptions C140_before_onset_refuted.
