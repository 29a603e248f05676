From Verif Require Import Model.DeconvTime Spec.CorrSpec Proofs.PyFacts Proofs.SumFacts Proofs.LinFacts.
From Coq Require Import Lra Lia.
Notation length := List.length.
Open Scope R_scope.

Theorem acorrt_spec a num : (1 <= num)%nat ->
  exists r, acorrt a num = Ok r /\ length r = num /\
    forall k, (k < num)%nat -> smp r (Z.of_nat k) = corr a a (Z.of_nat k).
Proof.
  intros Hn. destruct num as [|n]; [lia|]. unfold acorrt.
  destruct (correlate_total (add_zeros a 0 n) a) as [r Hr]; [rewrite add_zeros_length; lia|].
  exists r. split; [exact Hr|]. destruct (correlate_spec _ _ _ Hr) as (H1 & H2 & H3).
  rewrite add_zeros_length in H1. assert (length r = S n) as Hl by lia. split; [exact Hl|].
  intros k Hk. rewrite H3 by lia. rewrite corr_pad_a. f_equal. lia.
Qed.

(** displacement of the cross-correlation *)
Definition xoff (la lb num : nat) (z : Z) : Z :=
  let dif := (Z.of_nat la + 2 * Z.abs z - Z.of_nat lb + 1 - Z.of_nat num)%Z in
  (2 * Z.max z 0 + (if 0 <? dif then - ((dif + 1) / 2) else (- dif + 1) / 2))%Z.
Theorem xcorrt_spec a b num z : (1 <= num)%nat ->
  exists r, xcorrt a b num z = Ok r /\ length r = num /\
    forall k, (k < num)%nat -> smp r (Z.of_nat k) = corr a b (Z.of_nat k - xoff (length a) (length b) num z).
Proof.
  intros Hn. unfold xcorrt.
  set (a' := if (0 <? z)%Z then add_zeros a (2 * Z.abs_nat z) 0
             else if (z <? 0)%Z then add_zeros a 0 (2 * Z.abs_nat z) else a).
  assert (Z.of_nat (length a') = Z.of_nat (length a) + 2 * Z.abs z)%Z as Hla.
  { unfold a'. destruct (Z.ltb_spec 0 z); [rewrite add_zeros_length; lia|].
    destruct (Z.ltb_spec z 0); [rewrite add_zeros_length; lia|]. lia. }
  assert (forall d, corr a' b d = corr a b (d - 2 * Z.max z 0)) as Hca.
  { intros d. unfold a'. destruct (Z.ltb_spec 0 z); [rewrite corr_pad_a; f_equal; lia|].
    destruct (Z.ltb_spec z 0); [rewrite corr_pad_a; f_equal; lia|]. f_equal. lia. }
  unfold xoff. cbv zeta. rewrite Hla.
  set (dif := (Z.of_nat (length a) + 2 * Z.abs z - Z.of_nat (length b) + 1 - Z.of_nat num)%Z).
  destruct (Z.ltb_spec 0 dif) as [Hd|Hd].
  - pose proof (Z.div_mod dif 2 ltac:(lia)). pose proof (Z.mod_pos_bound dif 2 ltac:(lia)).
    pose proof (Z.div_mod (dif + 1) 2 ltac:(lia)). pose proof (Z.mod_pos_bound (dif + 1) 2 ltac:(lia)).
    assert (dif / 2 + (dif + 1) / 2 = dif)%Z as Hsum by lia.
    set (b' := add_zeros b (Z.to_nat ((dif + 1) / 2)) (Z.to_nat (dif / 2))).
    assert (length b' = length b + Z.to_nat dif)%nat as Hlb by (unfold b'; rewrite add_zeros_length; lia).
    destruct (correlate_total a' b') as [r Hr]; [lia|]. exists r. split; [exact Hr|].
    destruct (correlate_spec _ _ _ Hr) as (H3 & H4 & H5). assert (length r = num) as Hlr by lia. split; [exact Hlr|].
    intros k Hk. rewrite H5 by lia. unfold b'. rewrite corr_pad_b, Hca. f_equal. lia.
  - pose proof (Z.div_mod (- dif) 2 ltac:(lia)). pose proof (Z.mod_pos_bound (- dif) 2 ltac:(lia)).
    pose proof (Z.div_mod (- dif + 1) 2 ltac:(lia)). pose proof (Z.mod_pos_bound (- dif + 1) 2 ltac:(lia)).
    assert (- dif / 2 + (- dif + 1) / 2 = - dif)%Z as Hsum by lia.
    set (a'' := add_zeros a' (Z.to_nat ((- dif + 1) / 2)) (Z.to_nat (- dif / 2))).
    assert (length a'' = length a' + Z.to_nat (- dif))%nat as Hlb by (unfold a''; rewrite add_zeros_length; lia).
    destruct (correlate_total a'' b) as [r Hr]; [lia|]. exists r. split; [exact Hr|].
    destruct (correlate_spec _ _ _ Hr) as (H3 & H4 & H5). assert (length r = num) as Hlr by lia. split; [exact Hlr|].
    intros k Hk. rewrite H5 by lia. unfold a''. rewrite corr_pad_a, Hca. f_equal. lia.
Qed.
(** with the shift of deconvolve, z = T - lb/2, and as many lags as samples *)
Lemma xoff_aligned la lb T : (1 <= lb)%nat ->
  Z.odd (Z.of_nat lb) = true \/ (0 < T < Z.of_nat lb)%Z ->
  xoff la lb la (T - Z.of_nat lb / 2) = T.
Proof.
  intros Hlb H. unfold xoff. cbv zeta. set (L := Z.of_nat lb) in *.
  pose proof (Z.div_mod L 2 ltac:(lia)) as HL. pose proof (Z.mod_pos_bound L 2 ltac:(lia)).
  assert (Z.odd L = true -> L mod 2 = 1)%Z as Ho by (intros Hx; rewrite Zmod_odd, Hx; reflexivity).
  set (z := (T - L / 2)%Z). 
  set (dif := (Z.of_nat la + 2 * Z.abs z - L + 1 - Z.of_nat la)%Z). 
  assert (dif = 2 * Z.abs z - L + 1)%Z as Ed by (unfold dif; lia).
  destruct (Z.ltb_spec 0 dif).
  - pose proof (Z.div_mod (dif + 1) 2 ltac:(lia)). pose proof (Z.mod_pos_bound (dif + 1) 2 ltac:(lia)).
    destruct H as [H|H]; [specialize (Ho H)|]; lia.
  - pose proof (Z.div_mod (- dif + 1) 2 ltac:(lia)). pose proof (Z.mod_pos_bound (- dif + 1) 2 ltac:(lia)). lia.
Qed.
Lemma xoff_off_by_one la lb T : (1 <= lb)%nat ->
  Z.odd (Z.of_nat lb) = false -> (T <= 0 \/ Z.of_nat lb <= T)%Z ->
  xoff la lb la (T - Z.of_nat lb / 2) = (T - 1)%Z.
Proof.
  intros Hlb Hodd H. unfold xoff. cbv zeta. set (L := Z.of_nat lb) in *.
  pose proof (Z.div_mod L 2 ltac:(lia)) as HL. pose proof (Z.mod_pos_bound L 2 ltac:(lia)).
  assert (L mod 2 = 0)%Z as Ho by (rewrite Zmod_odd, Hodd; reflexivity).
  set (z := (T - L / 2)%Z). 
  set (dif := (Z.of_nat la + 2 * Z.abs z - L + 1 - Z.of_nat la)%Z). 
  assert (dif = 2 * Z.abs z - L + 1)%Z as Ed by (unfold dif; lia).
  destruct (Z.ltb_spec 0 dif); [|lia].
  pose proof (Z.div_mod (dif + 1) 2 ltac:(lia)). pose proof (Z.mod_pos_bound (dif + 1) 2 ltac:(lia)). lia.
Qed.

(** ** the matrix *)
Lemma corr_window s i j N : (i < N)%nat -> (j < N)%nat ->
  rsum (N + length s) (fun m => smp s (Z.of_nat m - Z.of_nat i) * smp s (Z.of_nat m - Z.of_nat j))
  = corr s s (Z.abs (Z.of_nat i - Z.of_nat j)).
Proof.
  assert (forall i j, (i <= j)%nat -> (j < N)%nat ->
    rsum (N + length s) (fun m => smp s (Z.of_nat m - Z.of_nat i) * smp s (Z.of_nat m - Z.of_nat j))
    = corr s s (Z.of_nat j - Z.of_nat i)) as W.
  { clear. intros i j Hij Hj. replace (N + length s)%nat with (j + (length s + (N - j)))%nat by lia.
    rewrite rsum_split, rsum_split. rewrite rsum_zero; [|intros m Hm; rewrite (smp_out s (Z.of_nat m - Z.of_nat j)) by lia; ring].
    rewrite (rsum_zero (N - j)); [|intros m Hm; rewrite (smp_out s (Z.of_nat _ - Z.of_nat j)) by lia; ring].
    rewrite Rplus_0_l, Rplus_0_r. unfold corr. apply rsum_ext. intros p Hp. f_equal; f_equal; lia. }
  intros Hi Hj. destruct (Nat.le_ge_cases i j) as [H|H].
  - rewrite W by lia. f_equal. lia.
  - rewrite (rsum_ext _ _ (fun m => smp s (Z.of_nat m - Z.of_nat j) * smp s (Z.of_nat m - Z.of_nat i))) by (intros; ring).
    rewrite W by lia. f_equal. lia.
Qed.
Lemma quad_form s N x :
  rsum N (fun i => rsum N (fun j => x i * x j * corr s s (Z.abs (Z.of_nat i - Z.of_nat j)))) =
  rsum (N + length s) (fun m => rsum N (fun i => x i * smp s (Z.of_nat m - Z.of_nat i)) *
                                rsum N (fun i => x i * smp s (Z.of_nat m - Z.of_nat i))).
Proof.
  set (y := fun m i => x i * smp s (Z.of_nat m - Z.of_nat i)).
  rewrite (rsum_ext (N + length s) _ (fun m => rsum N (fun i => rsum N (fun j => y m i * y m j)))).
  2:{ intros m _. fold (y m). rewrite <- rsum_scal_r. apply rsum_ext. intros i _. rewrite <- rsum_scal. reflexivity. }
  rewrite (rsum_swap (N + length s) N (fun m i => rsum N (fun j => y m i * y m j))).
  apply rsum_ext. intros i Hi. rewrite (rsum_swap (N + length s) N (fun m j => y m i * y m j)). apply rsum_ext. intros j Hj.
  unfold y. rewrite <- (corr_window s i j N) by assumption. rewrite <- rsum_scal. apply rsum_ext. intros m _. ring.
Qed.
Lemma first_nonzero n (f : nat -> R) : (exists p, (p < n)%nat /\ f p <> 0) ->
  exists p, (p < n)%nat /\ f p <> 0 /\ forall q, (q < p)%nat -> f q = 0.
Proof.
  induction n as [|n IH]; intros (p & Hp & Hf); [lia|].
  destruct (find_nonzero n f) as [H|H].
  - destruct (IH H) as (q & A & B & D). exists q. split; [lia|]. auto.
  - exists n. assert (p = n) as -> by (destruct (Nat.eq_dec p n); [assumption|]; exfalso; apply Hf, H; lia).
    split; [lia|]. auto.
Qed.
(** convolution of non-zero sequences is not zero *)
Lemma conv_nonzero s N x : (exists p, nth p s 0 <> 0) -> (exists q, (q < N)%nat /\ x q <> 0) ->
  exists m, (m < N + length s)%nat /\ rsum N (fun i => x i * smp s (Z.of_nat m - Z.of_nat i)) <> 0.
Proof.
  intros (p0 & Hp0) Hq. assert (p0 < length s)%nat as Hlt.
  { destruct (Nat.lt_ge_cases p0 (length s)); [assumption|]. rewrite nth_overflow in Hp0 by assumption. congruence. }
  destruct (first_nonzero (length s) (fun p => nth p s 0)) as (p & Hp & Hpn & Hp'); [exists p0; auto|].
  destruct (first_nonzero N x Hq) as (q & Hqn & Hxq & Hq').
  exists (p + q)%nat. split; [lia|].
  rewrite (rsum_ext N _ (fun i => if (i =? q)%nat then x i * nth p s 0 else 0)).
  - rewrite rsum_delta by exact Hqn. intros E. apply Rmult_integral in E. tauto.
  - intros i Hi. destruct (Nat.eqb_spec i q) as [->|Hiq].
    + replace (Z.of_nat (p + q) - Z.of_nat q)%Z with (Z.of_nat p) by lia. rewrite smp_nth. reflexivity.
    + destruct (Nat.lt_ge_cases i q) as [H|H]; [rewrite Hq' by exact H; ring|].
      destruct (Z_lt_le_dec (Z.of_nat (p + q) - Z.of_nat i) 0) as [Hz|Hz]; [rewrite smp_out by lia; ring|].
      replace (Z.of_nat (p + q) - Z.of_nat i)%Z with (Z.of_nat (p + q - i)) by lia. rewrite smp_nth, Hp' by lia. ring.
Qed.
Lemma corr0_pos s : (exists p, nth p s 0 <> 0) -> 0 < corr s s 0.
Proof.
  intros (p & Hp). assert (p < length s)%nat as Hlt.
  { destruct (Nat.lt_ge_cases p (length s)); [assumption|]. rewrite nth_overflow in Hp by assumption. congruence. }
  unfold corr. rewrite (rsum_ext _ _ (fun i => nth i s 0 * nth i s 0)).
  - assert (nth p s 0 * nth p s 0 <= rsum (length s) (fun i => nth i s 0 * nth i s 0)).
    { apply (rsum_ge_term (length s) (fun i => nth i s 0 * nth i s 0)); [|exact Hlt]. intros; apply Rle_0_sqr. }
    assert (0 < nth p s 0 * nth p s 0) by (apply Rsqr_pos_lt, Hp). lra.
  - intros i _. rewrite Z.add_0_r, smp_nth. reflexivity.
Qed.

Theorem toeplitz_row_spec s n spk : (1 <= n)%nat -> (exists p, nth p s 0 <> 0) ->
  exists t, toeplitz_row s n spk = Ok t /\ length t = n /\
    forall i j, (i < n)%nat -> (j < n)%nat -> toep t i j =
      corr s s (Z.abs (Z.of_nat i - Z.of_nat j)) / corr s s 0 + (if (i =? j)%nat then spk else 0).
Proof.
  intros Hn Hs. unfold toeplitz_row. destruct (acorrt_spec s n Hn) as (r & Hr & Hl & Hk). rewrite Hr. cbn [bind].
  destruct r as [|c0 r]; [cbn in Hl; lia|].
  assert (c0 = corr s s 0) as Ec0. { specialize (Hk 0%nat ltac:(lia)). exact Hk. }
  pose proof (corr0_pos s Hs) as Hpos.
  destruct (Req_EM_T c0 0) as [E|E]; [exfalso; lra|]. cbn [map]. eexists. split; [reflexivity|].
  split; [cbn in *; rewrite map_length; exact Hl|].
  intros i j Hi Hj. unfold toep. set (d := Z.abs (Z.of_nat i - Z.of_nat j)). 
  assert (exists k, d = Z.of_nat k /\ (k < n)%nat) as (k & Ed & Hkn) by (exists (Z.to_nat d); lia).
  specialize (Hk k Hkn). rewrite smp_nth in Hk. rewrite Ed, smp_nth, <- Hk. clear Hk. rewrite <- Ec0.
  destruct (Nat.eqb_spec i j) as [Hij|Hij].
  - assert (k = 0)%nat as -> by lia. cbn. reflexivity.
  - destruct k as [|k]; [lia|]. cbn [nth].
    rewrite (nth_indep _ 0 (0 / c0)) by (rewrite map_length; cbn in Hl; lia).
    rewrite (map_nth (fun x => x / c0)). ring.
Qed.

(** positive definite, for spiking >= 0 *)
Theorem toeplitz_pd s n spk t x : (1 <= n)%nat -> (exists p, nth p s 0 <> 0) -> 0 <= spk ->
  toeplitz_row s n spk = Ok t -> (exists q, (q < n)%nat /\ x q <> 0) ->
  0 < rsum n (fun i => rsum n (fun j => x i * x j * toep t i j)).
Proof.
  intros Hn Hs Hspk Ht Hx. destruct (toeplitz_row_spec s n spk Hn Hs) as (t' & Ht' & _ & He).
  rewrite Ht in Ht'. inversion Ht'; subst t'. clear Ht'. pose proof (corr0_pos s Hs) as Hpos.
  rewrite (rsum_ext n _ (fun i => / corr s s 0 * rsum n (fun j => x i * x j * corr s s (Z.abs (Z.of_nat i - Z.of_nat j))) + spk * (x i * x i))).
  2:{ intros i Hi. rewrite (rsum_ext n _ (fun j => / corr s s 0 * (x i * x j * corr s s (Z.abs (Z.of_nat i - Z.of_nat j))) + (if (j =? i)%nat then x i * x j * spk else 0))).
      - rewrite rsum_plus, rsum_scal. rewrite (rsum_delta n i (fun j => x i * x j * spk)) by exact Hi. ring.
      - intros j Hj. rewrite He by assumption. rewrite (Nat.eqb_sym j i). destruct (i =? j)%nat; field; lra. }
  rewrite rsum_plus, !rsum_scal, quad_form.
  destruct (conv_nonzero s n x Hs Hx) as (m & Hm & Hne).
  set (c := fun m => rsum n (fun i => x i * smp s (Z.of_nat m - Z.of_nat i))) in *.
  assert (0 < rsum (n + length s) (fun m => c m * c m)).
  { assert (c m * c m <= rsum (n + length s) (fun m => c m * c m)).
    { apply (rsum_ge_term (n + length s) (fun m => c m * c m)); [|exact Hm]. intros; apply Rle_0_sqr. }
    assert (0 < c m * c m) by (apply Rsqr_pos_lt, Hne). lra. }
  assert (0 <= rsum n (fun i => x i * x i)) by (apply rsum_nonneg; intros; apply Rle_0_sqr).
  assert (0 < / corr s s 0) by (apply Rinv_0_lt_compat; exact Hpos).
  assert (0 < / corr s s 0 * rsum (n + length s) (fun m => c m * c m)) by (apply Rmult_lt_0_compat; assumption).
  assert (0 <= spk * rsum n (fun i => x i * x i)) by (apply Rmult_le_pos; assumption).
  unfold c in *. lra.
Qed.
Lemma toeplitz_inj s n spk t : (1 <= n)%nat -> (exists p, nth p s 0 <> 0) -> 0 <= spk ->
  toeplitz_row s n spk = Ok t ->
  forall x, (forall i, (i < n)%nat -> rsum n (fun j => toep t i j * x j) = 0) -> forall i, (i < n)%nat -> x i = 0.
Proof.
  intros Hn Hs Hspk Ht x Hx i Hi. destruct (find_nonzero n x) as [Hnz|Hz]; [|apply Hz, Hi].
  exfalso. pose proof (toeplitz_pd s n spk t x Hn Hs Hspk Ht Hnz) as Hpd.
  rewrite rsum_zero in Hpd; [lra|]. intros k Hk.
  rewrite (rsum_ext n _ (fun j => x k * (toep t k j * x j))) by (intros; ring). rewrite rsum_scal, Hx by exact Hk. ring.
Qed.
Theorem toeplitz_unique s n spk t b : (1 <= n)%nat -> (exists p, nth p s 0 <> 0) -> 0 <= spk ->
  toeplitz_row s n spk = Ok t -> length b = n -> exists! x, solves t b x.
Proof.
  intros Hn Hs Hspk Ht Hb. pose proof (toeplitz_inj s n spk t Hn Hs Hspk Ht) as Hinj.
  destruct (inj_surj n (toep t) Hinj (fun i => smp b (Z.of_nat i))) as [x Hx].
  exists (map x (seq 0 n)). split.
  - split; [rewrite map_length, seq_length; auto|]. rewrite Hb. intros i Hi. rewrite <- Hx by exact Hi.
    apply rsum_ext. intros j Hj. f_equal. rewrite smp_nth.
    rewrite (nth_indep _ 0 (x 0%nat)) by (rewrite map_length, seq_length; exact Hj). rewrite map_nth, seq_nth by exact Hj. reflexivity.
  - intros y [Hly Hy]. rewrite Hb in *. apply smp_ext; [rewrite map_length, seq_length; auto|].
    rewrite map_length, seq_length. intros i Hi.
    assert (forall i, (i < n)%nat -> smp (map x (seq 0 n)) (Z.of_nat i) = x i) as Hs2.
    { intros j Hj. rewrite smp_nth. rewrite (nth_indep _ 0 (x 0%nat)) by (rewrite map_length, seq_length; exact Hj).
      rewrite map_nth, seq_nth by exact Hj. reflexivity. }
    rewrite Hs2 by exact Hi.
    assert (x i - smp y (Z.of_nat i) = 0); [|lra].
    apply (Hinj (fun j => x j - smp y (Z.of_nat j))); [|exact Hi]. intros k Hk.
    rewrite (rsum_ext n _ (fun j => toep t k j * x j - toep t k j * smp y (Z.of_nat j))) by (intros; ring).
    rewrite rsum_minus, Hx, Hy by exact Hk. ring.
Qed.

(** ** normalisation *)
Lemma max_abs_ge a x : In x a -> Rabs x <= max_abs a.
Proof.
  induction a as [|y a IH]; [intros []|]. intros [->|H]; unfold max_abs; cbn [map fold_right]; [apply Rmax_l|].
  eapply Rle_trans; [apply IH, H | apply Rmax_r].
Qed.
Lemma max_abs_nonneg a : 0 <= max_abs a.
Proof.
  destruct a as [|x a]; [cbn; lra|]. pose proof (Rabs_pos x). pose proof (max_abs_ge (x :: a) x (or_introl eq_refl)). lra.
Qed.
Lemma max_abs_scale c a : max_abs (scale c a) = Rabs c * max_abs a.
Proof.
  unfold max_abs, scale. induction a as [|x a IH]; cbn [map fold_right]; [ring|]. rewrite IH, Rabs_mult, RmaxRmult; [reflexivity|]. apply Rabs_pos.
Qed.
Lemma max_abs_attained a : a <> [] -> exists x, In x a /\ Rabs x = max_abs a.
Proof.
  induction a as [|y a IH]; [congruence|]. intros _. unfold max_abs. cbn [map fold_right]. fold (max_abs a).
  destruct (Rle_dec (max_abs a) (Rabs y)) as [H|H].
  - exists y. split; [left; reflexivity|]. rewrite Rmax_left by exact H. reflexivity.
  - destruct a as [|z a]; [exfalso; apply H; cbn; apply Rabs_pos|]. destruct IH as (x & Hx & Ex); [discriminate|].
    exists x. split; [right; exact Hx|]. rewrite Rmax_right by lra. exact Ex.
Qed.
Theorem normalise_spec i rfs out : normalise i rfs = Ok out ->
  exists c r, c <> 0 /\ out = map (scale c) rfs /\ nth_error out i = Some r /\ max_abs r = 1.
Proof.
  unfold normalise. destruct (nth_error rfs i) as [r|] eqn:E; [|discriminate].
  destruct (Req_EM_T (max_abs r) 0) as [|Hne]; [discriminate|]. intros H. inversion H.
  exists (/ max_abs r), (scale (/ max_abs r) r). split; [apply Rinv_neq_0_compat, Hne|]. split; [reflexivity|].
  split; [apply map_nth_error, E|]. rewrite max_abs_scale. rewrite Rabs_right; [field; exact Hne|].
  apply Rle_ge. pose proof (max_abs_nonneg r). left. apply Rinv_0_lt_compat. lra.
Qed.
Lemma scale_scale a b l : scale a (scale b l) = scale (a * b) l.
Proof. unfold scale. rewrite map_map. apply map_ext. intros; ring. Qed.
Theorem normalise_gain i rfs k : 0 < k -> normalise i (map (scale k) rfs) = normalise i rfs.
Proof.
  intros Hk. unfold normalise. rewrite nth_error_map. destruct (nth_error rfs i) as [r|]; cbn [option_map]; [|reflexivity].
  rewrite max_abs_scale, Rabs_right by lra.
  destruct (Req_EM_T (max_abs r) 0) as [E|E]; destruct (Req_EM_T (k * max_abs r) 0) as [E2|E2]; try reflexivity.
  - exfalso. apply E2. rewrite E. ring.
  - exfalso. apply Rmult_integral in E2. destruct E2; lra.
  - f_equal. rewrite map_map. apply map_ext. intros x. rewrite scale_scale. f_equal. field. split; lra.
Qed.

(** ** gain and linearity *)
Lemma corr_scale c d a b k : corr (scale c a) (scale d b) k = c * d * corr a b k.
Proof. unfold corr. rewrite scale_length, <- rsum_scal. apply rsum_ext. intros i _. rewrite !smp_scale. ring. Qed.
Lemma xcorrt_scale c d a b num z r : (1 <= num)%nat -> xcorrt a b num z = Ok r ->
  xcorrt (scale c a) (scale d b) num z = Ok (scale (c * d) r).
Proof.
  intros Hn Hr. destruct (xcorrt_spec a b num z Hn) as (r1 & E1 & L1 & K1).
  destruct (xcorrt_spec (scale c a) (scale d b) num z Hn) as (r2 & E2 & L2 & K2).
  rewrite Hr in E1. inversion E1; subst r1. rewrite E2. f_equal. apply smp_ext; [rewrite scale_length; lia|].
  intros i Hi. rewrite K2, smp_scale, K1 by lia. rewrite !scale_length, corr_scale. ring.
Qed.
Lemma nonzero_scale c s : c <> 0 -> (exists p, nth p s 0 <> 0) -> exists p, nth p (scale c s) 0 <> 0.
Proof.
  intros Hc (p & Hp). exists p. rewrite <- smp_nth, smp_scale, smp_nth. intros E. apply Rmult_integral in E. tauto.
Qed.
Lemma toeplitz_row_scale c s n spk : c <> 0 -> (1 <= n)%nat -> (exists p, nth p s 0 <> 0) ->
  toeplitz_row (scale c s) n spk = toeplitz_row s n spk.
Proof.
  intros Hc Hn Hs. destruct (toeplitz_row_spec s n spk Hn Hs) as (t & Ht & Lt & Et).
  destruct (toeplitz_row_spec (scale c s) n spk Hn (nonzero_scale c s Hc Hs)) as (t' & Ht' & Lt' & Et').
  rewrite Ht, Ht'. f_equal. apply smp_ext; [lia|]. intros i Hi.
  assert (forall u, smp u (Z.of_nat i) = toep u i 0) as Hu by (intros u; unfold toep; f_equal; lia).
  rewrite !Hu, Et, Et' by lia. rewrite !corr_scale. pose proof (corr0_pos s Hs). f_equal. field. split; lra.
Qed.
Lemma solve_scale solve t b k : correct_solver solve -> (forall b', length b' = length b -> exists! x, solves t b' x) ->
  solve t (scale k b) = scale k (solve t b).
Proof.
  intros Hc Hu. destruct (Hu (scale k b) (scale_length k b)) as (x & Hx & Hux).
  rewrite <- (Hux (solve t (scale k b))) by (apply Hc; exists x; split; assumption).
  apply Hux. destruct (Hu b eq_refl) as (y & Hy & Huy).
  destruct (Hc t b) as [Hl He]; [exists y; split; assumption|].
  split; [rewrite !scale_length; exact Hl|]. rewrite scale_length. intros i Hi.
  rewrite (rsum_ext _ _ (fun j => k * (toep t i j * smp (solve t b) (Z.of_nat j)))) by (intros j _; rewrite smp_scale; ring).
  rewrite rsum_scal, He, smp_scale by exact Hi. reflexivity.
Qed.
Lemma rf_one_scale solve s n shift spk t c d r : correct_solver solve -> c <> 0 -> (1 <= n)%nat ->
  (exists p, nth p s 0 <> 0) -> 0 <= spk -> toeplitz_row s n spk = Ok t ->
  rf_one solve (scale c s) n shift t (scale d r) =
    (let! x := rf_one solve s n shift t r in Ok (scale (d * c) x)).
Proof.
  intros Hsol Hc Hn Hs Hspk Ht. unfold rf_one. destruct (xcorrt_spec r s n shift Hn) as (str & E & L & _).
  rewrite E, (xcorrt_scale d c r s n shift str Hn E). cbn [bind]. rewrite scale_length.
  destruct (length str =? length t)%nat; cbn [bind]; [|reflexivity]. f_equal. apply solve_scale; [exact Hsol|].
  intros b' Hb'. apply (toeplitz_unique s n spk); try assumption. lia.
Qed.
Lemma mapM_scale solve s n shift spk t c d rs : correct_solver solve -> c <> 0 -> (1 <= n)%nat ->
  (exists p, nth p s 0 <> 0) -> 0 <= spk -> toeplitz_row s n spk = Ok t ->
  mapM (rf_one solve (scale c s) n shift t) (map (scale d) rs) =
    (let! x := mapM (rf_one solve s n shift t) rs in Ok (map (scale (d * c)) x)).
Proof.
  intros Hsol Hc Hn Hs Hspk Ht. induction rs as [|r rs IH]; cbn [mapM map bind]; [reflexivity|].
  rewrite (rf_one_scale solve s n shift spk t c d r Hsol Hc Hn Hs Hspk Ht), IH.
  destruct (rf_one solve s n shift t r); cbn [bind]; [|reflexivity].
  destruct (mapM (rf_one solve s n shift t) rs); reflexivity.
Qed.
Lemma map_scale_nil_len (c : R) rs : match map (scale c) rs with [] => Err IndexError | a :: _ => Ok (length a) end
  = match rs with [] => Err IndexError | a :: _ => Ok (length a) end.
Proof. destruct rs; cbn; [reflexivity|]. rewrite scale_length. reflexivity. Qed.
Theorem deconv_time_gain solve rs s shift spk len i c d : correct_solver solve -> c <> 0 -> d <> 0 -> 0 < c * d ->
  (exists p, nth p s 0 <> 0) -> 0 <= spk -> (forall r, In r rs -> r <> []) -> len <> Some 0%nat ->
  deconv_time solve (Many (map (scale d) rs)) (scale c s) shift spk len (Some i) =
  deconv_time solve (Many rs) s shift spk len (Some i).
Proof.
  intros Hsol Hc Hd Hcd Hs Hspk Hne Hlen. unfold deconv_time. cbn [get_length].
  assert (match map (scale d) rs with [] => Err IndexError | a :: _ => Ok (length a) end
     = match rs with [] => Err IndexError | a :: _ => Ok (length a) end) as Egl by apply map_scale_nil_len.
  assert (match len with Some n => Ok n | None => match map (scale d) rs with [] => Err IndexError | a :: _ => Ok (length a) end end
    = match len with Some n => Ok n | None => match rs with [] => Err IndexError | a :: _ => Ok (length a) end end) as -> by (destruct len; [reflexivity | exact Egl]).
  destruct (match len with Some n => Ok n | None => match rs with [] => Err IndexError | a :: _ => Ok (length a) end end) as [n|e] eqn:En; cbn [bind]; [|reflexivity].
  assert (1 <= n)%nat as Hn.
  { destruct len as [m|]; [inversion En; subst; destruct n; [congruence|lia]|].
    destruct rs as [|r rs]; [discriminate|]. inversion En. specialize (Hne r (or_introl eq_refl)). destruct r; [congruence|cbn; lia]. }
  rewrite (toeplitz_row_scale c s n spk Hc Hn Hs).
  destruct (toeplitz_row s n spk) as [t|e] eqn:Et; cbn [bind]; [|reflexivity].
  rewrite (mapM_scale solve s n shift spk t c d rs Hsol Hc Hn Hs Hspk Et).
  destruct (mapM (rf_one solve s n shift t) rs) as [rfs|e]; cbn [bind]; [|reflexivity].
  rewrite normalise_gain by lra. reflexivity.
Qed.

(** ** alignment *)
Lemma corr_wide a b d M : (length b <= M)%nat ->
  corr a b d = rsum M (fun i => smp a (Z.of_nat i + d) * smp b (Z.of_nat i)).
Proof.
  intros H. replace M with (length b + (M - length b))%nat by lia. rewrite rsum_split.
  rewrite (rsum_zero (M - length b)); [unfold corr; ring|]. intros i _. rewrite (smp_out b) by lia. ring.
Qed.
Lemma corr_sym s d : corr s s (- d) = corr s s d.
Proof.
  assert (forall k : nat, corr s s (- Z.of_nat k) = corr s s (Z.of_nat k)) as H.
  { intros k. pose proof (corr_window s 0 k (S k) ltac:(lia) ltac:(lia)) as W.
    replace (Z.abs (Z.of_nat 0 - Z.of_nat k)) with (Z.of_nat k) in W by lia. rewrite <- W.
    rewrite (corr_wide s s _ (S k + length s)) by lia. apply rsum_ext. intros m _.
    rewrite Z.sub_0_r, Rmult_comm. f_equal. }
  destruct (Z_lt_le_dec d 0).
  - replace d with (- Z.of_nat (Z.to_nat (- d)))%Z by lia. rewrite H, Z.opp_involutive. reflexivity.
  - replace d with (Z.of_nat (Z.to_nat d)) by lia. apply H.
Qed.
Lemma corr_max s d : Rabs (corr s s d) <= corr s s 0.
Proof.
  assert (forall k : nat, Rabs (corr s s (Z.of_nat k)) <= corr s s 0) as H.
  { intros k. set (N := S k).
    pose proof (corr_window s 0 k N ltac:(lia) ltac:(lia)) as W.
    replace (Z.abs (Z.of_nat 0 - Z.of_nat k)) with (Z.of_nat k) in W by lia. rewrite <- W.
    pose proof (corr_window s 0 0 N ltac:(lia) ltac:(lia)) as W0.
    pose proof (corr_window s k k N ltac:(lia) ltac:(lia)) as Wk.
    replace (Z.abs _) with 0%Z in W0 by lia. replace (Z.abs _) with 0%Z in Wk by lia.
    pose proof (rsum_cs (N + length s) (fun m => smp s (Z.of_nat m - Z.of_nat 0)) (fun m => smp s (Z.of_nat m - Z.of_nat k))) as CS.
    cbv beta in CS. rewrite W0, Wk in CS.
    set (x := rsum _ _) in *. 
    assert (0 <= corr s s 0) as Hp by (rewrite <- W0; apply rsum_nonneg; intros; apply Rle_0_sqr).
    apply Rsqr_incr_0_var; [|exact Hp]. rewrite <- Rsqr_abs. unfold Rsqr. lra. }
  destruct (Z_lt_le_dec d 0).
  - replace d with (- Z.of_nat (Z.to_nat (- d)))%Z by lia. rewrite corr_sym. apply H.
  - replace d with (Z.of_nat (Z.to_nat d)) by lia. apply H.
Qed.
Lemma corr_shifted r s e d : (forall j, smp r j = smp s (j - e)) -> corr r s d = corr s s (d - e).
Proof. intros H. unfold corr. apply rsum_ext. intros i _. rewrite H. f_equal. f_equal. lia. Qed.

(** ** the system solved *)
Lemma rf_one_spec solve s n shift spk t r x : correct_solver solve -> (1 <= n)%nat ->
  (exists p, nth p s 0 <> 0) -> 0 <= spk -> toeplitz_row s n spk = Ok t ->
  (rf_one solve s n shift t r = Ok x <->
   length x = n /\ forall i, (i < n)%nat ->
     rsum n (fun j => (corr s s (Z.of_nat i - Z.of_nat j) / corr s s 0 + (if (i =? j)%nat then spk else 0)) * smp x (Z.of_nat j))
     = corr r s (Z.of_nat i - xoff (length r) (length s) n shift)).
Proof.
  intros Hsol Hn Hs Hspk Ht. destruct (xcorrt_spec r s n shift Hn) as (str & E & L & K).
  destruct (toeplitz_row_spec s n spk Hn Hs) as (t' & Ht' & Lt & Et). rewrite Ht in Ht'. inversion Ht'; subst t'. clear Ht'.
  unfold rf_one. rewrite E. cbn [bind]. rewrite L, Lt, Nat.eqb_refl.
  assert (forall i j, corr s s (Z.abs (Z.of_nat i - Z.of_nat j)) = corr s s (Z.of_nat i - Z.of_nat j)) as Ha.
  { intros i j. destruct (Z.abs_eq_or_opp (Z.of_nat i - Z.of_nat j)) as [->| ->]; [reflexivity | apply corr_sym]. }
  assert (forall y, solves t str y <-> length y = n /\ forall i, (i < n)%nat ->
     rsum n (fun j => (corr s s (Z.of_nat i - Z.of_nat j) / corr s s 0 + (if (i =? j)%nat then spk else 0)) * smp y (Z.of_nat j))
     = corr r s (Z.of_nat i - xoff (length r) (length s) n shift)) as Hiff.
  { intros y. unfold solves. rewrite L. split; intros [A B]; (split; [exact A|]); intros i Hi; specialize (B i Hi).
    - rewrite <- K by exact Hi. rewrite <- B. apply rsum_ext. intros j Hj. rewrite Et, Ha by assumption. reflexivity.
    - rewrite K by exact Hi. rewrite <- B. apply rsum_ext. intros j Hj. rewrite Et, Ha by assumption. reflexivity. }
  destruct (toeplitz_unique s n spk t str Hn Hs Hspk Ht L) as (y & Hy & Huy).
  assert (solves t str (solve t str)) as Hss by (apply Hsol; exists y; split; assumption).
  rewrite <- Hiff. split.
  - intros H. inversion H; subst. exact Hss.
  - intros H. f_equal. rewrite <- (Huy _ Hss). apply Huy, H.
Qed.
Lemma mapM_Forall2 {A B} (f : A -> res B) l out : mapM f l = Ok out <-> Forall2 (fun x y => f x = Ok y) l out.
Proof.
  revert out. induction l as [|x l IH]; intros out; cbn [mapM bind].
  - split; intros H; inversion H; [constructor | reflexivity].
  - split; intros H.
    + destruct (f x) as [y|] eqn:E; cbn [bind] in H; [|discriminate]. destruct (mapM f l) as [ys|]; cbn [bind] in H; [|discriminate].
      inversion H. constructor; [exact E | apply IH; reflexivity].
    + inversion H; subst. rewrite H2. cbn [bind]. apply IH in H4. rewrite H4. reflexivity.
Qed.
(** what deconv_time returns without normalisation *)
Definition time_rf (s : list R) (spk : R) (n : nat) (shift : Z) (r x : list R) : Prop :=
  length x = n /\ forall i, (i < n)%nat ->
    rsum n (fun j => (corr s s (Z.of_nat i - Z.of_nat j) / corr s s 0 + (if (i =? j)%nat then spk else 0)) * smp x (Z.of_nat j))
    = corr r s (Z.of_nat i - xoff (length r) (length s) n shift).
Theorem deconv_time_spec solve rs s shift spk len out : correct_solver solve ->
  (exists p, nth p s 0 <> 0) -> 0 <= spk ->
  forall n, match len with Some n => Ok n | None => get_length (Many rs) end = Ok n -> (1 <= n)%nat ->
  (deconv_time solve (Many rs) s shift spk len None = Ok (Many out) <-> Forall2 (time_rf s spk n shift) rs out).
Proof.
  intros Hsol Hs Hspk n En Hn. unfold deconv_time. rewrite En. cbn [bind].
  destruct (toeplitz_row_spec s n spk Hn Hs) as (t & Ht & _). rewrite Ht. cbn [bind].
  assert (forall o, mapM (rf_one solve s n shift t) rs = Ok o <-> Forall2 (time_rf s spk n shift) rs o) as H.
  { intros o. rewrite mapM_Forall2. split; intros HF; (eapply Forall2_impl; [|exact HF]); intros r x;
      apply (rf_one_spec solve s n shift spk t r x Hsol Hn Hs Hspk Ht). }
  rewrite <- H. destruct (mapM (rf_one solve s n shift t) rs) as [o|]; cbn [bind]; split; intros E; inversion E; reflexivity.
Qed.
Theorem deconv_time_norm solve rs s shift spk len i : 
  deconv_time solve (Many rs) s shift spk len (Some i) =
  (let! r := deconv_time solve (Many rs) s shift spk len None in
   match r with Many l => let! o := normalise i l in Ok (Many o) | _ => Err OtherError end).
Proof.
  unfold deconv_time. destruct (match len with Some n => Ok n | None => get_length (Many rs) end); cbn [bind]; [|reflexivity].
  destruct (toeplitz_row s a spk); cbn [bind]; [|reflexivity].
  destruct (mapM _ rs) as [o|]; cbn [bind]; [|reflexivity].
  destruct (normalise i o); reflexivity.
Qed.
Theorem deconv_time_single solve r s shift spk len norm :
  deconv_time solve (Single r) s shift spk len norm =
  (let! x := deconv_time solve (Many [r]) s shift spk len norm in
   match x with Many [y] => Ok (Single y) | _ => Err UnboundLocalError end).
Proof.
  unfold deconv_time. cbn [get_length]. destruct (match len with Some n => Ok n | None => Ok (length r) end); cbn [bind]; [|reflexivity].
  destruct (toeplitz_row s a spk); cbn [bind]; [|reflexivity].
  destruct (mapM _ [r]) as [o|]; cbn [bind]; [|reflexivity].
  destruct norm as [i|]; [destruct (normalise i o) as [[|y [|]]|]; reflexivity | destruct o as [|y [|]]; reflexivity].
Qed.
(** uniqueness of time_rf *)
Lemma time_rf_unique s spk n shift r x y : (1 <= n)%nat -> (exists p, nth p s 0 <> 0) -> 0 <= spk ->
  time_rf s spk n shift r x -> time_rf s spk n shift r y -> x = y.
Proof.
  intros Hn Hs Hspk [Lx Hx] [Ly Hy]. apply smp_ext; [lia|]. intros i Hi. rewrite Lx in Hi.
  destruct (toeplitz_row_spec s n spk Hn Hs) as (t & Ht & Lt & Et).
  assert (forall i j, corr s s (Z.abs (Z.of_nat i - Z.of_nat j)) = corr s s (Z.of_nat i - Z.of_nat j)) as Ha.
  { intros i0 j. destruct (Z.abs_eq_or_opp (Z.of_nat i0 - Z.of_nat j)) as [->| ->]; [reflexivity | apply corr_sym]. }
  assert (smp x (Z.of_nat i) - smp y (Z.of_nat i) = 0); [|lra].
  apply (toeplitz_inj s n spk t Hn Hs Hspk Ht (fun j => smp x (Z.of_nat j) - smp y (Z.of_nat j))); [|exact Hi].
  intros k Hk. specialize (Hx k Hk). specialize (Hy k Hk).
  rewrite (rsum_ext n _ (fun j => toep t k j * smp x (Z.of_nat j) - toep t k j * smp y (Z.of_nat j))) by (intros; ring).
  rewrite rsum_minus.
  rewrite (rsum_ext n (fun j => toep t k j * smp x (Z.of_nat j)) _ (fun j Hj => f_equal (fun u => u * smp x (Z.of_nat j)) (Et k j Hk Hj))).
  rewrite (rsum_ext n (fun j => toep t k j * smp y (Z.of_nat j)) _ (fun j Hj => f_equal (fun u => u * smp y (Z.of_nat j)) (Et k j Hk Hj))).
  rewrite (rsum_ext n _ (fun j => (corr s s (Z.of_nat k - Z.of_nat j) / corr s s 0 + (if (k =? j)%nat then spk else 0)) * smp x (Z.of_nat j)))
    by (intros; rewrite Ha; reflexivity).
  rewrite (rsum_ext n (fun i0 => (corr s s (Z.abs _) / _ + _) * smp y _) (fun j => (corr s s (Z.of_nat k - Z.of_nat j) / corr s s 0 + (if (k =? j)%nat then spk else 0)) * smp y (Z.of_nat j)))
    by (intros; rewrite Ha; reflexivity).
  rewrite Hx, Hy. ring.
Qed.
(** linear in the response *)
Theorem time_rf_linear s spk n shift r1 r2 r x1 x2 c1 c2 : length r1 = length r -> length r2 = length r ->
  (forall i, smp r i = c1 * smp r1 i + c2 * smp r2 i) ->
  time_rf s spk n shift r1 x1 -> time_rf s spk n shift r2 x2 ->
  time_rf s spk n shift r (map (fun i => c1 * smp x1 (Z.of_nat i) + c2 * smp x2 (Z.of_nat i)) (seq 0 n)).
Proof.
  intros L1 L2 Hr [Lx1 H1] [Lx2 H2]. split; [rewrite map_length, seq_length; reflexivity|]. intros i Hi.
  specialize (H1 i Hi). specialize (H2 i Hi). rewrite L1 in H1. rewrite L2 in H2.
  assert (forall d, corr r s d = c1 * corr r1 s d + c2 * corr r2 s d) as Hc.
  { intros d. unfold corr. rewrite <- !rsum_scal, <- rsum_plus. apply rsum_ext. intros k _. rewrite Hr. ring. }
  rewrite Hc, <- H1, <- H2, <- !rsum_scal, <- rsum_plus. apply rsum_ext. intros j Hj.
  replace (smp (map _ (seq 0 n)) (Z.of_nat j)) with (c1 * smp x1 (Z.of_nat j) + c2 * smp x2 (Z.of_nat j)); [ring|].
  set (f := fun i => c1 * smp x1 (Z.of_nat i) + c2 * smp x2 (Z.of_nat i)).
  rewrite (smp_nth (map f (seq 0 n)) j), (nth_indep _ 0 (f 0%nat)) by (rewrite map_length, seq_length; exact Hj).
  rewrite map_nth, seq_nth by exact Hj. reflexivity.
Qed.
(** exact recovery without regularisation *)
Theorem time_rf_recovers s n shift r g : (exists p, nth p s 0 <> 0) -> length g = n ->
  (forall j, smp r j = rsum n (fun i => smp g (Z.of_nat i) * smp s (j - Z.of_nat i + xoff (length r) (length s) n shift))) ->
  time_rf s 0 n shift r (scale (corr s s 0) g).
Proof.
  intros Hs Lg Hr. pose proof (corr0_pos s Hs) as Hpos. split; [rewrite scale_length; exact Lg|]. intros i Hi.
  set (o := xoff (length r) (length s) n shift) in *.
  rewrite (rsum_ext n _ (fun j => smp g (Z.of_nat j) * corr s s (Z.of_nat i - Z.of_nat j))).
  2:{ intros j Hj. rewrite smp_scale. destruct (i =? j)%nat; field; lra. }
  unfold corr. rewrite (rsum_ext (length s) (fun k => smp r _ * _) (fun k => rsum n (fun j => smp g (Z.of_nat j) * (smp s (Z.of_nat k + (Z.of_nat i - Z.of_nat j)) * smp s (Z.of_nat k))))).
  - rewrite (rsum_swap (length s) n). apply rsum_ext. intros j _. rewrite rsum_scal. reflexivity.
  - intros k _. rewrite Hr, <- rsum_scal_r. apply rsum_ext. intros j _. rewrite Rmult_assoc. do 3 f_equal. lia.
Qed.
