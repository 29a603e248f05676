From Verif Require Import Model.DeconvTime Spec.CorrSpec.
From Coq Require Import Lra Lia.

Lemma rsum_ext n f g : (forall i, (i < n)%nat -> f i = g i) -> rsum n f = rsum n g.
Proof. induction n as [|n IH]; intros H; cbn; [reflexivity|]. rewrite IH by (intros; apply H; lia). rewrite H by lia. reflexivity. Qed.
Lemma rsum_plus n f g : rsum n (fun i => f i + g i) = rsum n f + rsum n g.
Proof. induction n as [|n IH]; cbn; [lra|]. rewrite IH. lra. Qed.
Lemma rsum_minus n f g : rsum n (fun i => f i - g i) = rsum n f - rsum n g.
Proof. induction n as [|n IH]; cbn; [lra|]. rewrite IH. lra. Qed.
Lemma rsum_scal n c f : rsum n (fun i => c * f i) = c * rsum n f.
Proof. induction n as [|n IH]; cbn; [lra|]. rewrite IH. lra. Qed.
Lemma rsum_scal_r n c f : rsum n (fun i => f i * c) = rsum n f * c.
Proof. induction n as [|n IH]; cbn; [lra|]. rewrite IH. lra. Qed.
Lemma rsum_zero n f : (forall i, (i < n)%nat -> f i = 0) -> rsum n f = 0.
Proof. intros H. rewrite (rsum_ext n f (fun _ => 0)) by exact H. clear. induction n; cbn; lra. Qed.
Lemma rsum_const n c : rsum n (fun _ => c) = INR n * c.
Proof. induction n as [|n IH]; [cbn; lra|]. rewrite S_INR. cbn. rewrite IH. lra. Qed.
Lemma rsum_swap n m (f : nat -> nat -> R) : rsum n (fun i => rsum m (f i)) = rsum m (fun j => rsum n (fun i => f i j)).
Proof.
  induction n as [|n IH]; cbn; [rewrite rsum_zero; auto|]. rewrite IH, <- rsum_plus. reflexivity.
Qed.
Lemma rsum_split n m f : rsum (n + m) f = rsum n f + rsum m (fun i => f (n + i)%nat).
Proof.
  induction m as [|m IH]; cbn; [rewrite Nat.add_0_r; lra|]. rewrite Nat.add_succ_r. cbn. rewrite IH. lra.
Qed.
Lemma rsum_S_l n f : rsum (S n) f = f 0%nat + rsum n (fun i => f (S i)).
Proof. change (S n) with (1 + n)%nat. rewrite (rsum_split 1 n f). cbn [rsum Nat.add]. lra. Qed.
Lemma rsum_nonneg n f : (forall i, (i < n)%nat -> 0 <= f i) -> 0 <= rsum n f.
Proof. induction n as [|n IH]; intros H; cbn; [lra|]. assert (0 <= f n) by (apply H; lia). assert (0 <= rsum n f) by (apply IH; intros; apply H; lia). lra. Qed.
Lemma rsum_le n f g : (forall i, (i < n)%nat -> f i <= g i) -> rsum n f <= rsum n g.
Proof. induction n as [|n IH]; intros H; cbn; [lra|]. assert (f n <= g n) by (apply H; lia). assert (rsum n f <= rsum n g) by (apply IH; intros; apply H; lia). lra. Qed.
Lemma rsum_ge_term n f i : (forall i, (i < n)%nat -> 0 <= f i) -> (i < n)%nat -> f i <= rsum n f.
Proof.
  intros H. induction n as [|n IH]; intros Hi; [lia|]. cbn.
  assert (0 <= f n) by (apply H; lia). assert (0 <= rsum n f) by (apply rsum_nonneg; intros; apply H; lia).
  destruct (Nat.eq_dec i n) as [->|Hn]; [lra|]. assert (f i <= rsum n f) by (apply IH; [intros; apply H; lia | lia]). lra.
Qed.
Lemma rsum_sq_zero n f : rsum n (fun i => f i * f i) = 0 -> forall i, (i < n)%nat -> f i = 0.
Proof.
  intros H i Hi. assert (f i * f i <= 0).
  { rewrite <- H. apply (rsum_ge_term n (fun i => f i * f i)); [|exact Hi]. intros j _. apply Rle_0_sqr. }
  pose proof (Rle_0_sqr (f i)) as H1. unfold Rsqr in H1. destruct (Rmult_integral (f i) (f i)); lra.
Qed.
Lemma rsum_rev n f : rsum n (fun i => f (n - 1 - i)%nat) = rsum n f.
Proof.
  induction n as [|n IH]; [reflexivity|]. rewrite rsum_S_l. cbn [rsum].
  replace (S n - 1 - 0)%nat with n by lia. rewrite <- IH. rewrite Rplus_comm. f_equal.
  apply rsum_ext. intros i Hi. f_equal. lia.
Qed.
(** pick one term *)
Lemma rsum_delta n k f : (k < n)%nat -> rsum n (fun i => if Nat.eqb i k then f i else 0) = f k.
Proof.
  intros Hk. induction n as [|n IH]; [lia|]. cbn. destruct (Nat.eqb_spec n k) as [->|Hn].
  - rewrite rsum_zero; [lra|]. intros i Hi. destruct (Nat.eqb_spec i k); [lia|reflexivity].
  - rewrite IH by lia. lra.
Qed.
(** Cauchy-Schwarz *)
Lemma rsum_cs n f g : rsum n (fun i => f i * g i) ^ 2 <= rsum n (fun i => f i * f i) * rsum n (fun i => g i * g i).
Proof.
  set (A := rsum n (fun i => f i * f i)). set (B := rsum n (fun i => f i * g i)). set (D := rsum n (fun i => g i * g i)).
  assert (0 <= D) as HD by (apply rsum_nonneg; intros; apply Rle_0_sqr).
  assert (0 <= A) as HA by (apply rsum_nonneg; intros; apply Rle_0_sqr).
  assert (0 <= D * (A * D - B ^ 2)) as H.
  { replace (D * (A * D - B ^ 2)) with (rsum n (fun i => (D * f i - B * g i) * (D * f i - B * g i))).
    - apply rsum_nonneg. intros. apply Rle_0_sqr.
    - rewrite (rsum_ext n _ (fun i => D * D * (f i * f i) - 2 * B * D * (f i * g i) + B * B * (g i * g i))) by (intros; ring).
      rewrite rsum_plus, rsum_minus, !rsum_scal. fold A B D. ring. }
  destruct (Req_EM_T D 0) as [E|E].
  - assert (forall i, (i < n)%nat -> g i = 0) as Hg by (apply rsum_sq_zero; exact E).
    assert (B = 0) as ->. { unfold B. apply rsum_zero. intros i Hi. rewrite Hg by exact Hi. ring. }
    rewrite E. lra.
  - assert (0 <= A * D - B ^ 2); [|lra]. apply (Rmult_le_reg_l D); [lra|]. lra.
Qed.

(** ** samples *)
Lemma smp_nth a i : smp a (Z.of_nat i) = nth i a 0.
Proof. unfold smp. destruct (Z.ltb_spec (Z.of_nat i) 0); [lia|]. rewrite Nat2Z.id. reflexivity. Qed.
Lemma smp_out a i : (i < 0 \/ Z.of_nat (length a) <= i)%Z -> smp a i = 0.
Proof. unfold smp. destruct (Z.ltb_spec i 0); [reflexivity|]. intros H'. apply nth_overflow. lia. Qed.
Lemma smp_ext a b : length a = length b -> (forall i, (i < length a)%nat -> smp a (Z.of_nat i) = smp b (Z.of_nat i)) -> a = b.
Proof.
  intros Hl H. apply nth_ext with 0 0; [exact Hl|]. intros i Hi. specialize (H i Hi). rewrite !smp_nth in H. exact H.
Qed.
Lemma smp_add_zeros a l r i : smp (add_zeros a l r) i = smp a (i - Z.of_nat l).
Proof.
  unfold add_zeros, zeros. destruct (Z_lt_le_dec i 0) as [H|H]; [rewrite !smp_out by lia; reflexivity|].
  unfold smp at 1. destruct (Z.ltb_spec i 0); [lia|].
  destruct (Z_lt_le_dec i (Z.of_nat l)) as [H1|H1].
  - rewrite app_nth1 by (rewrite repeat_length; lia). rewrite nth_repeat. rewrite smp_out by lia. reflexivity.
  - rewrite app_nth2 by (rewrite repeat_length; lia). rewrite repeat_length.
    replace (i - Z.of_nat l)%Z with (Z.of_nat (Z.to_nat i - l)) by lia. rewrite smp_nth.
    destruct (Nat.lt_ge_cases (Z.to_nat i - l) (length a)) as [H2|H2].
    + rewrite app_nth1 by exact H2. reflexivity.
    + rewrite app_nth2, nth_repeat by exact H2. rewrite nth_overflow by exact H2. reflexivity.
Qed.
Lemma add_zeros_length a l r : length (add_zeros a l r) = (l + length a + r)%nat.
Proof. unfold add_zeros, zeros. rewrite !app_length, !repeat_length. lia. Qed.
Lemma smp_scale c a i : smp (scale c a) i = c * smp a i.
Proof.
  unfold smp, scale. destruct (i <? 0)%Z; [ring|]. 
  destruct (Nat.lt_ge_cases (Z.to_nat i) (length a)) as [H|H].
  - rewrite (nth_indep _ 0 (c * 0)) by (rewrite map_length; exact H). apply map_nth.
  - rewrite !nth_overflow by (rewrite ?map_length; exact H). ring.
Qed.
Lemma scale_length c a : length (scale c a) = length a. Proof. apply map_length. Qed.

Lemma asum_rsum l : asum l = rsum (length l) (fun i => nth i l 0).
Proof. induction l as [|x l IH]; [reflexivity|]. cbn [length asum fold_right]. rewrite rsum_S_l. cbn [nth]. unfold asum in IH. rewrite IH. reflexivity. Qed.
Lemma dot_rsum a b : dot a b = rsum (length b) (fun i => nth i a 0 * nth i b 0).
Proof.
  revert a. induction b as [|y b IH]; intros a; [destruct a; reflexivity|].
  cbn [length]. rewrite rsum_S_l. destruct a as [|x a].
  - cbn. rewrite rsum_zero; [ring|]. intros i _. destruct i; ring.
  - cbn [nth]. rewrite <- IH. reflexivity.
Qed.
Lemma nth_skipn {A} k (l : list A) i d : nth i (skipn k l) d = nth (k + i) l d.
Proof. revert k. induction l as [|x l IH]; intros [|k]; cbn; try reflexivity; [destruct i; reflexivity | apply IH]. Qed.

(** ** correlation *)
Lemma correlate_spec a b r : correlate_valid a b = Ok r ->
  length r = (length a - length b + 1)%nat /\ (length b <= length a)%nat /\
  forall k, (k < length r)%nat -> smp r (Z.of_nat k) = corr a b (Z.of_nat k).
Proof.
  unfold correlate_valid. destruct (Nat.leb_spec (length b) (length a)) as [Hl|]; [|discriminate].
  intros E. inversion E; subst r. clear E. rewrite map_length, seq_length. split; [reflexivity|]. split; [exact Hl|].
  intros k Hk. rewrite smp_nth. rewrite (nth_indep _ 0 (dot (skipn 0 a) b)) by (rewrite map_length, seq_length; exact Hk).
  rewrite (map_nth (fun k => dot (skipn k a) b) _ 0%nat). rewrite seq_nth by exact Hk. cbn [Nat.add].
  rewrite dot_rsum. unfold corr. apply rsum_ext. intros i Hi. rewrite nth_skipn, <- !smp_nth. f_equal. f_equal. lia.
Qed.
Lemma correlate_total a b : (length b <= length a)%nat -> exists r, correlate_valid a b = Ok r.
Proof. intros H. unfold correlate_valid. destruct (Nat.leb_spec (length b) (length a)); [eexists; reflexivity | lia]. Qed.
Lemma corr_pad_a a b l r d : corr (add_zeros a l r) b d = corr a b (d - Z.of_nat l).
Proof. unfold corr. apply rsum_ext. intros i _. rewrite smp_add_zeros. f_equal. f_equal. lia. Qed.
Lemma corr_pad_b a b l r d : corr a (add_zeros b l r) d = corr a b (d + Z.of_nat l).
Proof.
  unfold corr. rewrite add_zeros_length. rewrite <- Nat.add_assoc, rsum_split, rsum_split.
  rewrite rsum_zero.
  2:{ intros i Hi. rewrite (smp_add_zeros b l r (Z.of_nat i)), (smp_out b) by lia. ring. }
  rewrite (rsum_zero r).
  2:{ intros i Hi. rewrite (smp_add_zeros b l r), (smp_out b) by lia. ring. }
  rewrite Rplus_0_l, Rplus_0_r. apply rsum_ext. intros i Hi. rewrite (smp_add_zeros b). f_equal; f_equal; lia.
Qed.
