(** Water level deconvolution of traces composed of arrivals. *)
From Verif Require Import Model.Waterlevel Spec.ArrivalSpec Spec.TimeRfSpec Spec.WaterSpec
  Proofs.SumFacts Proofs.CplxFacts Proofs.WaterFacts Proofs.PyFacts Proofs.DeconvTimeFacts Proofs.PeakFacts.
From Coq Require Import Lra Lia.
Notation length := List.length.
Open Scope R_scope.

(** complex sum over arrivals *)
Definition csum_arr (l : list (R * Z)) (f : R -> Z -> cplx) : cplx := fold_right (fun a acc => Cadd (f (fst a) (snd a)) acc) Czero l.
Lemma csum_arr_mul c l f : csum_arr l (fun a o => Cmul c (f a o)) = Cmul c (csum_arr l f).
Proof. induction l as [|[a o] l IH]; cbn [csum_arr fold_right]; [ring|]. fold (csum_arr l (fun a o => Cmul c (f a o))). rewrite IH. fold (csum_arr l f). cbn [fst snd]. ring. Qed.
Lemma csum_arr_ext l f g : (forall a o, In (a, o) l -> f a o = g a o) -> csum_arr l f = csum_arr l g.
Proof.
  induction l as [|[a o] l IH]; intros H; [reflexivity|]. cbn [csum_arr fold_right fst snd].
  rewrite (H a o) by (left; reflexivity). f_equal. apply IH. intros; apply H; right; assumption.
Qed.
Lemma csum_arr_fst l f : fst (csum_arr l f) = over_arrivals l (fun c o => fst (f c o)).
Proof. induction l as [|[a o] l IH]; [reflexivity|]. cbn [csum_arr fold_right over_arrivals fst snd]. cbn [Cadd fst]. f_equal. exact IH. Qed.
Lemma over_ext l f g : (forall c o, In (c, o) l -> f c o = g c o) -> over_arrivals l f = over_arrivals l g.
Proof.
  induction l as [|[a o] l IH]; intros H; [reflexivity|]. cbn [over_arrivals fold_right fst snd].
  rewrite (H a o) by (left; reflexivity). f_equal. apply IH. intros; apply H; right; assumption.
Qed.
Lemma over_scal k l f : k * over_arrivals l f = over_arrivals l (fun c o => k * f c o).
Proof. induction l as [|[a o] l IH]; cbn [over_arrivals fold_right]; [ring|]. rewrite Rmult_plus_distr_l. f_equal. exact IH. Qed.
Lemma fft_arr n l (f : R -> Z -> nat -> cplx) k : fft_at n (fun j => csum_arr l (fun c o => f c o j)) k = csum_arr l (fun c o => fft_at n (f c o) k).
Proof.
  induction l as [|[a o] l IH].
  - cbn [csum_arr fold_right]. unfold fft_at. apply csum_zero. intros. ring.
  - cbn [csum_arr fold_right fst snd]. rewrite fft_add. f_equal. exact IH.
Qed.
Lemma ifft_arr n l (f : R -> Z -> nat -> cplx) k : ifft_at n (fun j => csum_arr l (fun c o => f c o j)) k = csum_arr l (fun c o => ifft_at n (f c o) k).
Proof.
  induction l as [|[a o] l IH].
  - cbn [csum_arr fold_right]. unfold ifft_at. rewrite csum_zero; [apply cplx_eq; cbn; ring|]. intros. ring.
  - cbn [csum_arr fold_right fst snd]. rewrite ifft_add. f_equal. exact IH.
Qed.

(** one arrival *)
Definition piece (N : nat) (s : list R) (T o : Z) : list R := tabulate N (fun j => smp s (Z.of_nat j - o + T)).
Lemma piece_placed N s T o : (forall j, (j < 0 \/ Z.of_nat N <= j)%Z -> smp s (j - o + T) = 0) -> placed s (piece N s T o) T o.
Proof.
  intros H j. destruct (Z_lt_le_dec j 0); [rewrite H by lia; apply smp_out; lia|].
  destruct (Z_le_gt_dec (Z.of_nat N) j).
  - rewrite H by lia. apply smp_out. right. unfold piece. rewrite tabulate_length. lia.
  - unfold smp at 1. destruct (Z.ltb_spec j 0); [lia|]. unfold piece. rewrite nth_tabulate by lia. f_equal. lia.
Qed.
Lemma composed_fft n s r T l k : (0 < n)%nat -> (length r <= n)%nat -> (forall p, (n <= p)%nat -> nth p s 0 = 0) -> composed s r T l -> (k < n)%nat ->
  fft_at n (rsig r) k = csum_arr l (fun c o => Cscal c (fft_at n (rsig (piece (length r) s T o)) k)).
Proof.
  intros Hn Hr Hs [Hc Hz] Hk.
  rewrite (csum_arr_ext l _ (fun c o => fft_at n (fun j => Cmul (RtoC c) (rsig (piece (length r) s T o) j)) k)).
  2:{ intros c o _. rewrite fft_scal, Cscal_mul. reflexivity. }
  rewrite <- fft_arr. apply fft_ext. intros j Hj. apply cplx_eq.
  - rewrite csum_arr_fst. unfold rsig at 1. cbn [RtoC fst]. rewrite <- smp_nth, Hc. apply over_ext. intros c o Hi.
    unfold rsig. cbn [Cmul RtoC fst snd]. rewrite <- (piece_placed (length r) s T o) by (intros; eapply Hz; eassumption).
    rewrite smp_nth. ring.
  - unfold rsig at 1. cbn [RtoC snd]. induction l as [|[c o] l IH] in |- *; [reflexivity|]. cbn [csum_arr fold_right fst snd]. cbn [Cadd snd].
    fold (csum_arr l (fun c o => Cmul (RtoC c) (rsig (piece (length r) s T o) j))). rewrite <- IH. cbn. ring.
Qed.
(** spectrum of the result *)
Lemma wl_spec_composed n dt gauss s wl r T l k : (0 < n)%nat -> dt <> 0 -> (length r <= n)%nat ->
  (forall p, (n <= p)%nat -> nth p s 0 = 0) -> composed s r T l -> (k < n)%nat ->
  wl_spec_one n dt (IZR T * dt) gauss s wl (fft_at n (rsig r)) k =
  csum_arr l (fun c o => Cscal c (Cscal (wl_p n dt gauss s wl k) (unit n (- (Z.of_nat k * o))))).
Proof.
  intros Hn Hdt Hr Hs Hc Hk. pose proof (composed_fft n s r T l k Hn Hr Hs Hc Hk) as E. destruct Hc as [_ Hz].
  rewrite (csum_arr_ext l _ (fun c o => Cscal c (wl_spec_one n dt (IZR T * dt) gauss s wl (fft_at n (rsig (piece (length r) s T o))) k))).
  2:{ intros c o Hi. f_equal. symmetry. apply wl_spec_placed; try assumption.
      - unfold piece. rewrite tabulate_length. exact Hr.
      - apply piece_placed. intros; eapply Hz; eassumption. }
  unfold wl_spec_one. rewrite E. set (S := Cconj _). set (Fk := wl_F _ _ _ _ _). set (w := / wl_w n s wl k).
  rewrite (csum_arr_ext l (fun c o => Cscal c (Cscal w (Cmul (Cmul Fk _) S)))
             (fun c o => Cmul (Cscal w (Cmul Fk S)) (Cscal c (fft_at n (rsig (piece (length r) s T o)) k)))).
  2:{ intros c o _. rewrite !Cscal_mul. ring. }
  rewrite csum_arr_mul. rewrite !Cscal_mul. ring.
Qed.

(** the wavelet *)
Definition wavelet (n : nat) (p : nat -> R) (z : Z) : R := rsum n (fun k => p k * fst (unit n (Z.of_nat k * z))) / rsum n p.
Lemma wavelet_zero_phase n p : (0 < n)%nat -> (forall k, (k < n)%nat -> 0 <= p k) -> 0 < rsum n p -> zero_phase n (wavelet n p).
Proof.
  intros Hn Hp Hs. unfold wavelet. repeat split.
  - rewrite (rsum_ext n _ p); [field; lra|]. intros k Hk. rewrite Z.mul_0_r, (unit_0 n Hn). cbn. ring.
  - intros z. unfold Rdiv. rewrite Rabs_mult, Rabs_inv, (Rabs_right (rsum n p)) by lra.
    apply Rmult_le_reg_r with (rsum n p); [exact Hs|]. rewrite Rmult_assoc, Rinv_l, Rmult_1_r, Rmult_1_l by lra.
    assert (A : forall f m, Rabs (rsum m f) <= rsum m (fun k => Rabs (f k))).
    { intros f m. induction m as [|m IH]; cbn [rsum]; [rewrite Rabs_R0; lra|]. eapply Rle_trans; [apply Rabs_triang | lra]. }
    eapply Rle_trans; [apply A|]. apply rsum_le. intros k Hk. rewrite Rabs_mult, (Rabs_right (p k)) by (apply Rle_ge, Hp, Hk).
    rewrite <- (Rmult_1_r (p k)) at 2. apply Rmult_le_compat_l; [apply Hp, Hk | apply fst_unit].
  - intros z. f_equal. apply rsum_ext. intros k Hk. f_equal. unfold unit, cis. cbn [fst].
    match goal with |- cos ?a = cos ?b => replace a with (- b); [apply cos_neg|] end.
    replace (Z.of_nat k * - z)%Z with (- (Z.of_nat k * z))%Z by ring. rewrite opp_IZR. unfold Rdiv. ring.
  - intros z. f_equal. apply rsum_ext. intros k Hk. f_equal. f_equal.
    replace (Z.of_nat k * (z + Z.of_nat n))%Z with (Z.of_nat k * z + Z.of_nat k * Z.of_nat n)%Z by ring.
    apply unit_period. exact Hn.
Qed.

Lemma wl_p_pos n dt gauss s wl : (0 < n)%nat -> nonzero_within n s -> 0 < wl ->
  (forall k, (k < n)%nat -> 0 <= wl_p n dt gauss s wl k) /\ 0 < rsum n (wl_p n dt gauss s wl).
Proof.
  intros Hn NZ Hwl.
  assert (P0 : forall k, (k < n)%nat -> 0 <= wl_p n dt gauss s wl k).
  { intros k Hk. unfold wl_p. apply Rmult_le_pos; [left; apply Rinv_0_lt_compat, wl_w_pos; assumption|].
    apply Rmult_le_pos; [left; apply wl_G_pos | apply Cnorm2_pos]. }
  split; [exact P0|].
  pose proof (peak_pos n s NZ) as PP. destruct (proj2 (peak_spec n s (peak n s) Hn) eq_refl) as [_ (k & Hk & Ek)].
  apply (rsum_pos1 n _ k P0 Hk). unfold wl_p. apply Rmult_lt_0_compat; [apply Rinv_0_lt_compat, wl_w_pos; assumption|].
  apply Rmult_lt_0_compat; [apply wl_G_pos|]. rewrite <- dft_fft by exact Hn. rewrite Ek. exact PP.
Qed.
(** samples of the result before normalisation *)
Lemma wl_composed n N dt gauss s wl r T l j : (0 < n)%nat -> dt <> 0 -> (length r <= n)%nat ->
  (forall p, (n <= p)%nat -> nth p s 0 = 0) -> composed s r T l -> 0 < rsum n (wl_p n dt gauss s wl) -> (N <= n)%nat -> (j < N)%nat ->
  nth j (wl_rf n N dt (IZR T * dt) gauss s wl r) Czero =
  RtoC (/ INR n * rsum n (wl_p n dt gauss s wl) * over_arrivals l (fun c o => c * wavelet n (wl_p n dt gauss s wl) (Z.of_nat j - o))).
Proof.
  intros Hn Hdt Hr Hs Hc Hp HN Hj.
  assert (Rl : forall z, In z (wl_rf n N dt (IZR T * dt) gauss s wl r) -> snd z = 0).
  { intros z. apply wl_rf_real; [exact Hn | exact Hdt | right; exists T; reflexivity]. }
  assert (Len : length (wl_rf n N dt (IZR T * dt) gauss s wl r) = N).
  { unfold wl_rf. rewrite firstn_tabulate, tabulate_length. lia. }
  apply cplx_eq; [|cbn [RtoC snd]; apply Rl, nth_In; lia].
  unfold wl_rf. rewrite firstn_tabulate, nth_tabulate by lia.
  rewrite (ifft_ext n _ (fun k => csum_arr l (fun c o => Cscal c (Cscal (wl_p n dt gauss s wl k) (unit n (- (Z.of_nat k * o))))))).
  2:{ intros k Hk. apply wl_spec_composed; assumption. }
  rewrite (ifft_arr n l (fun c o k => Cscal c (Cscal (wl_p n dt gauss s wl k) (unit n (- (Z.of_nat k * o)))))).
  rewrite csum_arr_fst. cbn [RtoC fst]. rewrite over_scal. apply over_ext. intros c o _. unfold wavelet.
  unfold ifft_at. cbn [Cscal fst]. rewrite csum_fst.
  rewrite (rsum_ext n _ (fun k => c * (wl_p n dt gauss s wl k * fst (unit n (Z.of_nat k * (Z.of_nat j - o)))))).
  - rewrite rsum_scal. field. split; [lra | apply not_0_INR; lia].
  - intros k Hk. replace (Z.of_nat k * (Z.of_nat j - o))%Z with (- (Z.of_nat k * o) + Z.of_nat k * Z.of_nat j)%Z by ring.
    rewrite (unit_add n Hn). cbn. ring.
Qed.
