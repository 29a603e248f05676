(** Complex numbers, roots of unity, discrete Fourier transform. *)
From Verif Require Import Model.Cplx Proofs.SumFacts.
From Coq Require Import Lra Lia Ring.

Lemma cplx_eq (a b : cplx) : fst a = fst b -> snd a = snd b -> a = b.
Proof. destruct a, b; cbn; intros -> ->; reflexivity. Qed.
Ltac cring := apply cplx_eq; cbn; unfold Cnorm2; ring.

Lemma cplx_ring : ring_theory Czero Cone Cadd Cmul Csub Copp (@eq cplx).
Proof. constructor; intros; cring. Qed.
Add Ring cplx_ring_inst : cplx_ring.

Lemma Cscal_mul r a : Cscal r a = Cmul (RtoC r) a.
Proof. cring. Qed.
Lemma RtoC_mul r s : RtoC (r * s) = Cmul (RtoC r) (RtoC s). Proof. cring. Qed.
Lemma RtoC_add r s : RtoC (r + s) = Cadd (RtoC r) (RtoC s). Proof. cring. Qed.
Lemma Cscal_Cscal r s a : Cscal r (Cscal s a) = Cscal (r * s) a. Proof. cring. Qed.
Lemma Cscal_1 a : Cscal 1 a = a. Proof. cring. Qed.
Lemma Cscal_Cmul r a b : Cscal r (Cmul a b) = Cmul (Cscal r a) b. Proof. cring. Qed.
Lemma Cscal_Cmul_r r a b : Cscal r (Cmul a b) = Cmul a (Cscal r b). Proof. cring. Qed.
Lemma Cscal_add r a b : Cscal r (Cadd a b) = Cadd (Cscal r a) (Cscal r b). Proof. cring. Qed.
Lemma Cconj_mul a b : Cconj (Cmul a b) = Cmul (Cconj a) (Cconj b). Proof. cring. Qed.
Lemma Cconj_add a b : Cconj (Cadd a b) = Cadd (Cconj a) (Cconj b). Proof. cring. Qed.
Lemma Cconj_scal r a : Cconj (Cscal r a) = Cscal r (Cconj a). Proof. cring. Qed.
Lemma Cconj_conj a : Cconj (Cconj a) = a. Proof. cring. Qed.
Lemma Cconj_R r : Cconj (RtoC r) = RtoC r. Proof. cring. Qed.
Lemma Cmul_conj a : Cmul a (Cconj a) = RtoC (Cnorm2 a). Proof. cring. Qed.
Lemma Cnorm2_mul a b : Cnorm2 (Cmul a b) = Cnorm2 a * Cnorm2 b. Proof. unfold Cnorm2; cbn; ring. Qed.
Lemma Cnorm2_conj a : Cnorm2 (Cconj a) = Cnorm2 a. Proof. unfold Cnorm2; cbn; ring. Qed.
Lemma Cnorm2_scal r a : Cnorm2 (Cscal r a) = r * r * Cnorm2 a. Proof. unfold Cnorm2; cbn; ring. Qed.
Lemma Cnorm2_pos a : 0 <= Cnorm2 a.
Proof. unfold Cnorm2. pose proof (Rle_0_sqr (fst a)). pose proof (Rle_0_sqr (snd a)). unfold Rsqr in *. lra. Qed.
Lemma Cnorm2_zero a : Cnorm2 a = 0 -> a = Czero.
Proof.
  unfold Cnorm2. intros H. pose proof (Rle_0_sqr (fst a)) as A. pose proof (Rle_0_sqr (snd a)) as B. unfold Rsqr in *.
  apply cplx_eq; cbn; [destruct (Rmult_integral (fst a) (fst a)) | destruct (Rmult_integral (snd a) (snd a))]; lra.
Qed.
Lemma Cnorm2_0 : Cnorm2 Czero = 0. Proof. unfold Cnorm2; cbn; ring. Qed.
Lemma Cmul_Cinv a : Cnorm2 a <> 0 -> Cmul (Cinv a) a = Cone.
Proof. intros H. unfold Cinv. apply cplx_eq; cbn; unfold Cnorm2 in *; field; exact H. Qed.
Lemma Cmul_integral a b : Cmul a b = Czero -> a = Czero \/ b = Czero.
Proof.
  intros H. assert (E : Cnorm2 a * Cnorm2 b = 0) by (rewrite <- Cnorm2_mul, H; apply Cnorm2_0).
  destruct (Rmult_integral _ _ E) as [E1|E1]; [left | right]; apply Cnorm2_zero, E1.
Qed.

(** ** sums *)
Lemma csum_ext n f g : (forall i, (i < n)%nat -> f i = g i) -> csum n f = csum n g.
Proof. induction n as [|n IH]; intros H; cbn; [reflexivity|]. rewrite IH by (intros; apply H; lia). rewrite H by lia. reflexivity. Qed.
Lemma csum_add n f g : csum n (fun i => Cadd (f i) (g i)) = Cadd (csum n f) (csum n g).
Proof. induction n as [|n IH]; cbn; [cring|]. rewrite IH. ring. Qed.
Lemma csum_mul_l n c f : csum n (fun i => Cmul c (f i)) = Cmul c (csum n f).
Proof. induction n as [|n IH]; cbn; [cring|]. rewrite IH. ring. Qed.
Lemma csum_mul_r n c f : csum n (fun i => Cmul (f i) c) = Cmul (csum n f) c.
Proof. induction n as [|n IH]; cbn; [cring|]. rewrite IH. ring. Qed.
Lemma csum_scal n c f : csum n (fun i => Cscal c (f i)) = Cscal c (csum n f).
Proof. rewrite Cscal_mul, <- csum_mul_l. apply csum_ext. intros. apply Cscal_mul. Qed.
Lemma csum_zero n f : (forall i, (i < n)%nat -> f i = Czero) -> csum n f = Czero.
Proof. intros H. rewrite (csum_ext n f (fun _ => Czero)) by exact H. clear. induction n as [|n IH]; cbn; [reflexivity|]. rewrite IH. cring. Qed.
Lemma csum_swap n m (f : nat -> nat -> cplx) : csum n (fun i => csum m (f i)) = csum m (fun j => csum n (fun i => f i j)).
Proof.
  induction n as [|n IH]; cbn; [rewrite csum_zero; auto|]. rewrite IH, <- csum_add. reflexivity.
Qed.
Lemma csum_conj n f : Cconj (csum n f) = csum n (fun i => Cconj (f i)).
Proof. induction n as [|n IH]; cbn; [cring|]. rewrite Cconj_add, IH. reflexivity. Qed.
Lemma csum_fst n f : fst (csum n f) = rsum n (fun i => fst (f i)).
Proof. induction n as [|n IH]; cbn; [reflexivity|]. rewrite IH. reflexivity. Qed.
Lemma csum_snd n f : snd (csum n f) = rsum n (fun i => snd (f i)).
Proof. induction n as [|n IH]; cbn; [reflexivity|]. rewrite IH. reflexivity. Qed.
Lemma csum_RtoC n f : csum n (fun i => RtoC (f i)) = RtoC (rsum n f).
Proof. induction n as [|n IH]; cbn; [reflexivity|]. rewrite IH. cring. Qed.
Lemma csum_split n m f : csum (n + m) f = Cadd (csum n f) (csum m (fun i => f (n + i)%nat)).
Proof.
  induction m as [|m IH]; cbn; [rewrite Nat.add_0_r; ring|]. rewrite Nat.add_succ_r. cbn. rewrite IH. ring.
Qed.
Lemma csum_delta n k f : (k < n)%nat -> csum n (fun i => if Nat.eqb i k then f i else Czero) = f k.
Proof.
  intros Hk. induction n as [|n IH]; [lia|]. cbn. destruct (Nat.eqb_spec n k) as [->|Hn].
  - rewrite csum_zero; [ring|]. intros i Hi. destruct (Nat.eqb_spec i k); [lia|reflexivity].
  - rewrite IH by lia. ring.
Qed.

(** ** roots of unity *)
Lemma cis_add x y : cis (x + y) = Cmul (cis x) (cis y).
Proof. apply cplx_eq; cbn; [rewrite cos_plus | rewrite sin_plus]; ring. Qed.
Lemma cis_0 : cis 0 = Cone. Proof. apply cplx_eq; cbn; [apply cos_0 | apply sin_0]. Qed.
Lemma cis_opp x : cis (- x) = Cconj (cis x).
Proof. apply cplx_eq; cbn; [apply cos_neg | apply sin_neg]. Qed.
Lemma cis_norm x : Cnorm2 (cis x) = 1.
Proof. unfold Cnorm2; cbn. pose proof (sin2_cos2 x) as H. unfold Rsqr in H. lra. Qed.
Lemma cis_2PI_nat k : cis (2 * PI * INR k) = Cone.
Proof.
  induction k as [|k IH]; [cbn; rewrite Rmult_0_r; apply cis_0|].
  rewrite S_INR. replace (2 * PI * (INR k + 1)) with (2 * PI * INR k + 2 * PI) by ring.
  rewrite cis_add, IH. apply cplx_eq; cbn; rewrite ?cos_2PI, ?sin_2PI; ring.
Qed.
Lemma cis_2PI z : cis (2 * PI * IZR z) = Cone.
Proof.
  destruct (Z_le_gt_dec 0 z) as [Hz|Hz].
  - rewrite <- (Z2Nat.id z) by exact Hz. rewrite <- INR_IZR_INZ. apply cis_2PI_nat.
  - replace (2 * PI * IZR z) with (- (2 * PI * IZR (- z))) by (rewrite opp_IZR; ring).
    rewrite cis_opp. rewrite <- (Z2Nat.id (- z)) by lia. rewrite <- INR_IZR_INZ, cis_2PI_nat. cring.
Qed.

Section Unit.
  Variable n : nat.
  Hypothesis Hn : (0 < n)%nat.
  Let Hn' : INR n <> 0. Proof. apply not_0_INR. lia. Qed.

  Lemma unit_add a b : unit n (a + b) = Cmul (unit n a) (unit n b).
  Proof. unfold unit. rewrite plus_IZR, <- cis_add. f_equal. field. exact Hn'. Qed.
  Lemma unit_0 : unit n 0 = Cone.
  Proof. unfold unit. replace (2 * PI * 0 / INR n) with 0 by (field; exact Hn'). apply cis_0. Qed.
  Lemma unit_opp a : unit n (- a) = Cconj (unit n a).
  Proof. unfold unit. rewrite opp_IZR, <- cis_opp. f_equal. field. exact Hn'. Qed.
  Lemma unit_norm a : Cnorm2 (unit n a) = 1. Proof. apply cis_norm. Qed.
  Lemma unit_mult_n k : unit n (k * Z.of_nat n) = Cone.
  Proof.
    unfold unit. rewrite mult_IZR, <- INR_IZR_INZ.
    replace (2 * PI * (IZR k * INR n) / INR n) with (2 * PI * IZR k) by (field; exact Hn'). apply cis_2PI.
  Qed.
  Lemma unit_period a k : unit n (a + k * Z.of_nat n) = unit n a.
  Proof. rewrite unit_add, unit_mult_n. ring. Qed.
  Lemma unit_cong a b : (a mod Z.of_nat n = b mod Z.of_nat n)%Z -> unit n a = unit n b.
  Proof.
    intros H. rewrite (Z.div_mod a (Z.of_nat n)), (Z.div_mod b (Z.of_nat n)) by lia.
    rewrite H. rewrite !(Z.add_comm (Z.of_nat n * _)), !(Z.mul_comm (Z.of_nat n)), !unit_period. reflexivity.
  Qed.
  Lemma unit_mod a : unit n (a mod Z.of_nat n) = unit n a.
  Proof. apply unit_cong. apply Z.mod_mod. lia. Qed.
  Lemma unit_neq_1 a : (0 < a < Z.of_nat n)%Z -> unit n a <> Cone.
  Proof.
    intros Ha H. assert (Hc : cos (2 * PI * IZR a / INR n) = 1) by (exact (f_equal fst H)).
    set (x := PI * IZR a / INR n) in *.
    assert (Hx : 2 * PI * IZR a / INR n = 2 * x) by (unfold x; field; exact Hn').
    rewrite Hx, cos_2a_sin in Hc.
    assert (Hp : 0 < INR n) by (apply lt_0_INR; exact Hn).
    assert (Ha1 : 0 < IZR a) by (apply IZR_lt; lia).
    assert (Ha2 : IZR a < INR n) by (rewrite INR_IZR_INZ; apply IZR_lt; lia).
    assert (0 < x) by (unfold x, Rdiv; apply Rmult_lt_0_compat; [apply Rmult_lt_0_compat; [apply PI_RGT_0 | exact Ha1] | apply Rinv_0_lt_compat; exact Hp]).
    assert (x < PI).
    { unfold x. apply Rmult_lt_reg_r with (INR n); [exact Hp|]. unfold Rdiv. rewrite Rmult_assoc, Rinv_l, Rmult_1_r by exact Hn'.
      apply Rmult_lt_compat_l; [apply PI_RGT_0 | exact Ha2]. }
    pose proof (sin_gt_0 x) as Hs. assert (0 < sin x * sin x) by (apply Rmult_lt_0_compat; auto). lra.
  Qed.

  (** geometric sum *)
  Lemma geom_unit a m : Cmul (Csub Cone (unit n a)) (csum m (fun k => unit n (Z.of_nat k * a))) = Csub Cone (unit n (Z.of_nat m * a)).
  Proof.
    induction m as [|m IH]; [cbn [csum]; cbn [Z.of_nat Z.mul]; rewrite unit_0; ring|].
    cbn [csum]. replace (Z.of_nat (S m) * a)%Z with (Z.of_nat m * a + a)%Z by lia. rewrite unit_add.
    transitivity (Cadd (Cmul (Csub Cone (unit n a)) (csum m (fun k => unit n (Z.of_nat k * a))))
                       (Cmul (Csub Cone (unit n a)) (unit n (Z.of_nat m * a)))); [ring|]. rewrite IH. ring.
  Qed.
  Lemma csum_C1 m : csum m (fun _ => Cone) = RtoC (INR m).
  Proof. induction m as [|m IH]; [reflexivity|]. rewrite S_INR. cbn [csum]. rewrite IH. cring. Qed.
  (** orthogonality *)
  Lemma orth a : csum n (fun k => unit n (Z.of_nat k * a)) =
                 if (a mod Z.of_nat n =? 0)%Z then RtoC (INR n) else Czero.
  Proof.
    destruct (Z.eqb_spec (a mod Z.of_nat n) 0) as [E|E].
    - rewrite <- csum_C1. apply csum_ext. intros k _. rewrite <- unit_0. apply unit_cong.
      rewrite Z.mul_mod, E, Z.mul_0_r by lia. reflexivity.
    - assert (G := geom_unit a n). rewrite (Z.mul_comm (Z.of_nat n) a), unit_mult_n in G.
      destruct (Cmul_integral (Csub Cone (unit n a)) (csum n (fun k => unit n (Z.of_nat k * a)))) as [H|H].
      + rewrite G. cring.
      + exfalso. apply (unit_neq_1 (a mod Z.of_nat n)).
        * pose proof (Z.mod_pos_bound a (Z.of_nat n)). lia.
        * rewrite unit_mod. transitivity (Csub Cone (Csub Cone (unit n a))); [ring|]. rewrite H. ring.
      + exact H.
  Qed.
End Unit.

(** ** the transform and its inverse *)
Section Dft.
  Variable n : nat.
  Hypothesis Hn : (0 < n)%nat.
  Let Hn' : INR n <> 0. Proof. apply not_0_INR. lia. Qed.

  Lemma mod_diff i j : (i < n)%nat -> (j < n)%nat ->
    ((Z.of_nat i - Z.of_nat j) mod Z.of_nat n =? 0)%Z = (i =? j)%nat.
  Proof.
    intros Hi Hj. destruct (Nat.eqb_spec i j) as [->|H].
    - rewrite Z.sub_diag, Z.mod_0_l by lia. reflexivity.
    - apply Z.eqb_neq. intros E. apply Z.mod_divide in E; [|lia]. destruct E as [q E]. 
      assert (q = 0)%Z by nia. lia.
  Qed.

  Theorem ifft_fft x j : (j < n)%nat -> ifft_at n (fft_at n x) j = x j.
  Proof.
    intros Hj. unfold ifft_at, fft_at.
    rewrite (csum_ext n _ (fun k => csum n (fun i => Cmul (x i) (unit n (Z.of_nat k * (Z.of_nat j - Z.of_nat i)))))).
    2:{ intros k _. rewrite <- csum_mul_r. apply csum_ext. intros i _.
        replace (Z.of_nat k * (Z.of_nat j - Z.of_nat i))%Z with (- (Z.of_nat k * Z.of_nat i) + Z.of_nat k * Z.of_nat j)%Z by ring.
        rewrite (unit_add n Hn). ring. }
    rewrite csum_swap.
    rewrite (csum_ext n _ (fun i => if Nat.eqb i j then Cmul (x i) (RtoC (INR n)) else Czero)).
    2:{ intros i Hi. rewrite csum_mul_l, (orth n Hn), mod_diff by assumption.
        rewrite Nat.eqb_sym. destruct (i =? j)%nat; [reflexivity | ring]. }
    rewrite csum_delta by exact Hj. apply cplx_eq; cbn; field; exact Hn'.
  Qed.
  Theorem fft_ifft X k : (k < n)%nat -> fft_at n (ifft_at n X) k = X k.
  Proof.
    intros Hk. unfold ifft_at, fft_at.
    rewrite (csum_ext n _ (fun j => Cscal (/ INR n) (csum n (fun i => Cmul (X i) (unit n (Z.of_nat j * (Z.of_nat i - Z.of_nat k))))))).
    2:{ intros j _. rewrite <- Cscal_Cmul, <- csum_mul_r. f_equal. apply csum_ext. intros i _.
        replace (Z.of_nat j * (Z.of_nat i - Z.of_nat k))%Z with (Z.of_nat i * Z.of_nat j + - (Z.of_nat k * Z.of_nat j))%Z by ring.
        rewrite (unit_add n Hn). ring. }
    rewrite csum_scal, csum_swap.
    rewrite (csum_ext n _ (fun i => if Nat.eqb i k then Cmul (X i) (RtoC (INR n)) else Czero)).
    2:{ intros i Hi. rewrite csum_mul_l, (orth n Hn), mod_diff by assumption.
        destruct (i =? k)%nat; [reflexivity | ring]. }
    rewrite csum_delta by exact Hk. apply cplx_eq; cbn; field; exact Hn'.
  Qed.
  Lemma fft_ext x y k : (forall j, (j < n)%nat -> x j = y j) -> fft_at n x k = fft_at n y k.
  Proof. intros H. apply csum_ext. intros j Hj. rewrite H by exact Hj. reflexivity. Qed.
  Lemma ifft_ext X Y j : (forall k, (k < n)%nat -> X k = Y k) -> ifft_at n X j = ifft_at n Y j.
  Proof. intros H. unfold ifft_at. f_equal. apply csum_ext. intros k Hk. rewrite H by exact Hk. reflexivity. Qed.
  Lemma ifft_scal c X j : ifft_at n (fun k => Cmul c (X k)) j = Cmul c (ifft_at n X j).
  Proof.
    unfold ifft_at. rewrite (csum_ext n _ (fun k => Cmul c (Cmul (X k) (unit n (Z.of_nat k * Z.of_nat j))))).
    - rewrite csum_mul_l. rewrite Cscal_Cmul_r. reflexivity.
    - intros. ring.
  Qed.
  Lemma ifft_add X Y j : ifft_at n (fun k => Cadd (X k) (Y k)) j = Cadd (ifft_at n X j) (ifft_at n Y j).
  Proof.
    unfold ifft_at. rewrite <- Cscal_add, <- csum_add. f_equal. apply csum_ext. intros; ring.
  Qed.
  Lemma fft_scal c X j : fft_at n (fun k => Cmul c (X k)) j = Cmul c (fft_at n X j).
  Proof. unfold fft_at. rewrite <- csum_mul_l. apply csum_ext. intros. ring. Qed.
  Lemma fft_add X Y j : fft_at n (fun k => Cadd (X k) (Y k)) j = Cadd (fft_at n X j) (fft_at n Y j).
  Proof. unfold fft_at. rewrite <- csum_add. apply csum_ext. intros; ring. Qed.

  (** index modulo n *)
  Definition wrap (z : Z) : nat := Z.to_nat (z mod Z.of_nat n).
  Lemma wrap_lt z : (wrap z < n)%nat.
  Proof. unfold wrap. pose proof (Z.mod_pos_bound z (Z.of_nat n)). lia. Qed.
  Lemma wrap_Z z : Z.of_nat (wrap z) = (z mod Z.of_nat n)%Z.
  Proof. unfold wrap. pose proof (Z.mod_pos_bound z (Z.of_nat n)). lia. Qed.
  Lemma wrap_small i : (i < n)%nat -> wrap (Z.of_nat i) = i.
  Proof. intros H. unfold wrap. rewrite Z.mod_small by lia. lia. Qed.
  Lemma unit_wrap k z : unit n (k * Z.of_nat (wrap z)) = unit n (k * z).
  Proof. apply (unit_cong n Hn). rewrite wrap_Z. apply Zmult_mod_idemp_r. Qed.
  Lemma wrap_wrap a z : wrap (Z.of_nat (wrap a) + z) = wrap (a + z).
  Proof. unfold wrap at 1 3. f_equal. rewrite wrap_Z. apply Zplus_mod_idemp_l. Qed.
  Lemma wrap_cong a b : (a mod Z.of_nat n = b mod Z.of_nat n)%Z -> wrap a = wrap b.
  Proof. unfold wrap. intros ->. reflexivity. Qed.

  (** multiplication of the spectrum with unit (- k m) delays by m samples *)
  Theorem ifft_shift X m j :
    ifft_at n (fun k => Cmul (unit n (- (Z.of_nat k * m))) (X k)) j = ifft_at n X (wrap (Z.of_nat j - m)).
  Proof.
    unfold ifft_at. f_equal. apply csum_ext. intros k _. rewrite unit_wrap.
    replace (Z.of_nat k * (Z.of_nat j - m))%Z with (- (Z.of_nat k * m) + Z.of_nat k * Z.of_nat j)%Z by ring.
    rewrite (unit_add n Hn). ring.
  Qed.

  (** sum over a shifted period *)
  Lemma csum_shift (f : nat -> cplx) m : csum n (fun i => f (wrap (Z.of_nat i + m))) = csum n f.
  Proof.
    rewrite (csum_ext n _ (fun i => csum n (fun k => if Nat.eqb k (wrap (Z.of_nat i + m)) then f k else Czero))).
    2:{ intros i _. rewrite csum_delta; [reflexivity | apply wrap_lt]. }
    rewrite csum_swap. apply csum_ext. intros k Hk.
    rewrite (csum_ext n _ (fun i => if Nat.eqb i (wrap (Z.of_nat k - m)) then f k else Czero)).
    - apply (csum_delta n (wrap (Z.of_nat k - m)) (fun _ => f k)). apply wrap_lt.
    - intros i Hi. destruct (Nat.eqb_spec k (wrap (Z.of_nat i + m))) as [E|E];
        destruct (Nat.eqb_spec i (wrap (Z.of_nat k - m))) as [F|F]; try reflexivity; exfalso.
      + apply F. rewrite E. unfold Z.sub. rewrite wrap_wrap. replace (Z.of_nat i + m + - m)%Z with (Z.of_nat i) by ring.
        symmetry. apply wrap_small, Hi.
      + apply E. rewrite F. rewrite wrap_wrap. replace (Z.of_nat k - m + m)%Z with (Z.of_nat k) by ring.
        symmetry. apply wrap_small, Hk.
  Qed.

  (** circular convolution *)
  Definition circ (x y : nat -> cplx) (j : nat) : cplx :=
    csum n (fun i => Cmul (x i) (y (wrap (Z.of_nat j - Z.of_nat i)))).
  Theorem fft_circ x y k : fft_at n (circ x y) k = Cmul (fft_at n x k) (fft_at n y k).
  Proof.
    unfold circ, fft_at at 1.
    rewrite (csum_ext n _ (fun j => csum n (fun i => Cmul (Cmul (x i) (unit n (- (Z.of_nat k * Z.of_nat i))))
              (Cmul (y (wrap (Z.of_nat j - Z.of_nat i))) (unit n (- (Z.of_nat k * Z.of_nat (wrap (Z.of_nat j - Z.of_nat i))))))))).
    2:{ intros j _. rewrite <- csum_mul_r. apply csum_ext. intros i _.
        replace (- (Z.of_nat k * Z.of_nat (wrap (Z.of_nat j - Z.of_nat i))))%Z
          with ((- Z.of_nat k) * Z.of_nat (wrap (Z.of_nat j - Z.of_nat i)))%Z by ring. rewrite unit_wrap.
        replace (- (Z.of_nat k * Z.of_nat j))%Z with (- (Z.of_nat k * Z.of_nat i) + - Z.of_nat k * (Z.of_nat j - Z.of_nat i))%Z by ring.
        rewrite (unit_add n Hn). ring. }
    rewrite csum_swap. unfold fft_at. rewrite <- csum_mul_r. apply csum_ext. intros i _. rewrite csum_mul_l. f_equal.
    apply (csum_shift (fun j => Cmul (y j) (unit n (- (Z.of_nat k * Z.of_nat j)))) (- Z.of_nat i)).
  Qed.

  (** Parseval *)
  Theorem parseval x : rsum n (fun k => Cnorm2 (fft_at n x k)) = INR n * rsum n (fun j => Cnorm2 (x j)).
  Proof.
    assert (H : csum n (fun k => Cmul (fft_at n x k) (Cconj (fft_at n x k))) =
                Cscal (INR n) (csum n (fun j => Cmul (x j) (Cconj (x j))))).
    { rewrite (csum_ext n (fun k => Cmul (fft_at n x k) (Cconj (fft_at n x k)))
        (fun k => csum n (fun j => Cmul (Cconj (x j)) (Cmul (fft_at n x k) (unit n (Z.of_nat k * Z.of_nat j)))))).
      2:{ intros k _. unfold fft_at at 2. rewrite csum_conj, <- csum_mul_l. apply csum_ext. intros j _.
          rewrite Cconj_mul, <- (unit_opp n Hn), Z.opp_involutive. ring. }
      rewrite csum_swap, <- csum_scal. apply csum_ext. intros j Hj. rewrite csum_mul_l.
      pose proof (ifft_fft x j Hj) as E. unfold ifft_at in E.
      set (Sm := csum n (fun k => Cmul (fft_at n x k) (unit n (Z.of_nat k * Z.of_nat j)))) in *.
      rewrite <- E. rewrite (Cscal_Cmul (INR n)), Cscal_Cscal, Rinv_r, Cscal_1 by exact Hn'.
      unfold Sm. ring. }
    apply (f_equal fst) in H. cbn [Cscal fst] in H. rewrite !csum_fst in H.
    rewrite (rsum_ext n (fun k => Cnorm2 (fft_at n x k)) (fun k => fst (Cmul (fft_at n x k) (Cconj (fft_at n x k)))))
      by (intros; rewrite Cmul_conj; reflexivity).
    rewrite H. f_equal. apply rsum_ext. intros. rewrite Cmul_conj. reflexivity.
  Qed.

  (** Hermitian spectra belong to real signals *)
  Definition hermitian (X : nat -> cplx) : Prop := forall k, (k < n)%nat -> X (wrap (- Z.of_nat k)) = Cconj (X k).
  Lemma fft_real_hermitian x : (forall j, (j < n)%nat -> snd (x j) = 0) -> hermitian (fft_at n x).
  Proof.
    intros H k Hk. unfold fft_at. rewrite csum_conj. apply csum_ext. intros j Hj.
    rewrite Cconj_mul, <- (unit_opp n Hn). f_equal.
    - apply cplx_eq; cbn; [reflexivity|]. rewrite H by exact Hj. ring.
    - rewrite Z.mul_comm, <- Z.mul_opp_l, unit_wrap. f_equal. ring.
  Qed.
  Lemma wrap_neg k : (k < n)%nat -> wrap (- Z.of_nat k) = (if (k =? 0)%nat then 0%nat else (n - k)%nat).
  Proof.
    intros Hk. unfold wrap. destruct (Nat.eqb_spec k 0) as [->|H].
    - rewrite Z.mod_0_l by lia. reflexivity.
    - rewrite <- (Z.mod_unique (- Z.of_nat k) (Z.of_nat n) (-1) (Z.of_nat n - Z.of_nat k)); lia.
  Qed.
  Lemma csum_neg (f : nat -> cplx) : csum n (fun i => f (wrap (- Z.of_nat i))) = csum n f.
  Proof.
    rewrite (csum_ext n _ (fun i => csum n (fun k => if Nat.eqb k (wrap (- Z.of_nat i)) then f k else Czero))).
    2:{ intros i _. rewrite csum_delta; [reflexivity | apply wrap_lt]. }
    rewrite csum_swap. apply csum_ext. intros k Hk.
    rewrite (csum_ext n _ (fun i => if Nat.eqb i (wrap (- Z.of_nat k)) then f k else Czero)).
    - apply (csum_delta n (wrap (- Z.of_nat k)) (fun _ => f k)). apply wrap_lt.
    - intros i Hi. rewrite !wrap_neg by assumption.
      destruct (Nat.eqb_spec i 0), (Nat.eqb_spec k 0); subst;
        repeat (match goal with |- context [Nat.eqb ?a ?b] => destruct (Nat.eqb_spec a b) end); try reflexivity; lia.
  Qed.
  Theorem ifft_hermitian X j : hermitian X -> snd (ifft_at n X j) = 0.
  Proof.
    intros H. assert (E : Cconj (ifft_at n X j) = ifft_at n X j).
    { unfold ifft_at. rewrite Cconj_scal, csum_conj. f_equal.
      rewrite <- (csum_neg (fun k => Cmul (X k) (unit n (Z.of_nat k * Z.of_nat j)))).
      apply csum_ext. intros k Hk. rewrite Cconj_mul, H by exact Hk. f_equal.
      rewrite <- (unit_opp n Hn), (Z.mul_comm (Z.of_nat (wrap _))), unit_wrap. f_equal. ring. }
    apply (f_equal snd) in E. cbn [Cconj snd] in E. lra.
  Qed.
End Dft.
