(** Facts for C146 to C148: times in float32 fields. *)
From Verif Require Import Model.SacFile Spec.SacSpec Spec.BatchSpec Proofs.FloatFacts.
From Coq Require Import Lra Lia.
From Flocq Require Import Core Relative.
Local Open Scope R_scope.

Lemma f32_err x : Rabs (f32 x - x) <= / 2 ^ 24 * Rabs x + / 2 ^ 60.
Proof.
  unfold f32. destruct (error_N_FLT radix2 (-149) 24 ltac:(lia) (fun t => negb (Z.even t)) x) as (eps & eta & H1 & H2 & _ & E).
  rewrite E. replace (x * (1 + eps) + eta - x) with (eps * x + eta) by ring.
  eapply Rle_trans; [apply Rabs_triang|]. rewrite Rabs_mult. apply Rplus_le_compat.
  - apply Rmult_le_compat_r; [apply Rabs_pos|]. eapply Rle_trans; [exact H1|]. cbn. lra.
  - eapply Rle_trans; [exact H2|]. apply Rle_trans with (/ 2 * bpow radix2 (-59)).
    + apply Rmult_le_compat_l; [lra|]. apply bpow_le. lia.
    + cbn. lra.
Qed.
Lemma pow24 : / 2 ^ 24 = / 16777216.
Proof. f_equal. lra. Qed.

Lemma half_near x : Rabs (IZR (ZnearestE x) - x) <= / 2.
Proof. rewrite Rabs_minus_sym. apply Znearest_half. Qed.
(** seconds of a difference of two times *)
Lemma f_secs_err n : (Z.abs n <= 10 ^ 15)%Z -> Rabs (f_secs n - IZR n / 1000000000) <= 500001 / 1000000000000 + Rabs (IZR n) / 1000000000 * (4 / 9007199254740992).
Proof.
  intros Hn. destruct pow2_ineq as (P60 & P53 & _). unfold f_secs. rewrite (rnd_Z n) by lia.
  assert (Rabs (IZR n) <= 1000000000000000) as HA by (rewrite <- abs_IZR; apply IZR_le; exact Hn).
  set (v := IZR n / 1000000000) in *. assert (Rabs v = Rabs (IZR n) / 1000000000) as EA.
  { unfold v, Rdiv. rewrite Rabs_mult, (Rabs_pos_eq (/ _)) by lra. reflexivity. }
  rewrite <- EA. set (A := Rabs v) in *. assert (A <= 1000000) as HA' by lra. assert (0 <= A) as H0 by apply Rabs_pos.
  assert (-A <= v <= A) as Hv by (apply Rabs_le_inv; apply Rle_refl).
  pose proof (rnd_err v) as E1. rewrite P60, P53 in E1. fold A in E1. apply Rabs_le_inv in E1. set (b := rnd v) in *.
  pose proof (half_near (b * 1000000)) as E2. apply Rabs_le_inv in E2. set (k := IZR (ZnearestE (b * 1000000))) in *.
  set (c := k / 1000000). assert (k = c * 1000000) as Ek by (unfold c; field).
  pose proof (rnd_err c) as E3. rewrite P60, P53 in E3.
  assert (-(A + 1) <= c <= A + 1) as Hc by lra.
  assert (Rabs c <= A + 1) as Hc' by (apply Rabs_le; lra).
  assert (Rabs (rnd c - c) <= / 9007199254740992 * (A + 1) + / 1152921504606846976) as E3' by lra. apply Rabs_le_inv in E3'.
  apply Rabs_le. lra.
Qed.
(** a time in a field *)
Lemma sac_err prod ref t : prod = rnd \/ prod = f32 -> (Z.abs (t - ref) <= 10 ^ 15)%Z ->
  (Z.abs (sac_time prod ref t - t) <= 1000 + Z.abs (t - ref) / 8000000)%Z.
Proof.
  intros Hp Hn. unfold sac_time, sac_utc, sac_field. set (n := (t - ref)%Z) in *.
  pose proof (f_secs_err n Hn) as E1. set (s := f_secs n) in *. set (A := Rabs (IZR n)) in *.
  assert (A <= 1000000000000000) as HA by (unfold A; rewrite <- abs_IZR; apply IZR_le; exact Hn). assert (0 <= A) as H0 by apply Rabs_pos.
  assert (-A <= IZR n <= A) as Hv by (apply Rabs_le_inv; apply Rle_refl).
  apply Rabs_le_inv in E1. set (v := IZR n / 1000000000) in *. set (B := A / 1000000000) in *. assert (A = B * 1000000000) as EB by (unfold B; field).
  assert (IZR n = v * 1000000000) as Ev by (unfold v; field). assert (-B <= v <= B) as HvB by lra.
  assert (Rabs s <= B * (1 + 4 / 9007199254740992) + 500001 / 1000000000000) as Hs by (apply Rabs_le; lra).
  pose proof (f32_err s) as E2. rewrite pow24, (proj1 pow2_ineq) in E2.
  assert (Rabs (f32 s - s) <= / 16777216 * (B * (1 + 4 / 9007199254740992) + 500001 / 1000000000000) + / 1152921504606846976) as E2' by lra.
  apply Rabs_le_inv in E2'. set (y := f32 s) in *. set (z := y * 1000000000).
  assert (Rabs z <= B * 1000000100 + 500100) as Hz by (apply Rabs_le; unfold z; lra).
  assert (Rabs (prod z - z) <= / 16777216 * Rabs z + / 1152921504606846976) as E3.
  { destruct Hp as [->| ->]; [pose proof (rnd_err z) as E | pose proof (f32_err z) as E; rewrite pow24, (proj1 pow2_ineq) in E; exact E].
    destruct pow2_ineq as (P60 & P53 & _). rewrite P60, P53 in E. pose proof (Rabs_pos z). lra. }
  assert (Rabs (prod z - z) <= / 16777216 * (B * 1000000100 + 500100) + / 1152921504606846976) as E3' by lra. apply Rabs_le_inv in E3'.
  pose proof (half_near (prod z)) as E4. apply Rabs_le_inv in E4. set (m := ZnearestE (prod z)) in *.
  replace (ref + m - t)%Z with (m - n)%Z by (unfold n; lia).
  assert (Rabs (IZR (m - n)) <= 1000 + A / 8000000) as E by (rewrite minus_IZR; apply Rabs_le; unfold z in *; lra).
  rewrite <- abs_IZR in E. unfold A in E. rewrite <- abs_IZR in E.
  assert (IZR (Z.abs (m - n) - 1000) * 8000000 <= IZR (Z.abs n)) as E' by (rewrite minus_IZR; lra).
  rewrite <- mult_IZR in E'. apply le_IZR in E'.
  assert (Z.abs (m - n) - 1000 <= Z.abs n / 8000000)%Z by (apply Z.div_le_lower_bound; lia). lia.
Qed.

(** ** writing and reading again *)
Lemma nearE_opp x : ZnearestE (- x) = (- ZnearestE x)%Z.
Proof.
  rewrite Znearest_opp. f_equal. unfold Znearest. destruct (Rcompare _ _); try reflexivity.
  rewrite Z.even_opp, Z.even_add. cbn [Z.even]. destruct (Z.even (Zfloor x)); reflexivity.
Qed.
Lemma rnd_opp x : rnd (- x) = - rnd x.
Proof. apply round_NE_opp. Qed.
Lemma f32_opp x : f32 (- x) = - f32 x.
Proof. apply round_NE_opp. Qed.
Lemma f_secs_opp n : f_secs (- n) = - f_secs n.
Proof.
  unfold f_secs. rewrite opp_IZR, rnd_opp. replace (- rnd (IZR n) / 1000000000) with (- (rnd (IZR n) / 1000000000)) by (unfold Rdiv; ring).
  rewrite rnd_opp, Ropp_mult_distr_l_reverse, nearE_opp, opp_IZR. rewrite <- rnd_opp. f_equal. unfold Rdiv. ring.
Qed.
Lemma f32_half_ulp x (e : Z) : (-149 <= e)%Z -> 0 < x < bpow radix2 (e + 24) -> Rabs (f32 x - x) <= / 2 * bpow radix2 e.
Proof.
  intros He [H0 H1]. unfold f32. eapply Rle_trans; [apply error_le_half_ulp; apply FLT_exp_valid; reflexivity|]. apply Rmult_le_compat_l; [lra|].
  rewrite ulp_neq_0 by lra. apply bpow_le. unfold cexp, FLT_exp. assert (mag radix2 x <= e + 24)%Z; [|lia].
  apply mag_le_bpow; [lra|]. rewrite Rabs_pos_eq by lra. exact H1.
Qed.
Lemma format32 x : generic_format radix2 (FLT_exp (-149) 24) (f32 x).
Proof. apply generic_format_round; [apply FLT_exp_valid; reflexivity | apply valid_rnd_N]. Qed.
Lemma format16 : generic_format radix2 (FLT_exp (-149) 24) 16.
Proof. apply generic_format_FLT. exists (Float radix2 16 0); [unfold F2R; cbn; lra | cbn; lia | cbn; lia]. Qed.
Lemma f32_ge16 x : 16 <= x -> 16 <= f32 x.
Proof. intros H. apply round_ge_generic; [apply FLT_exp_valid; reflexivity | apply valid_rnd_N | exact format16 | exact H]. Qed.
(** float32 numbers not smaller than 16 are multiples of 2^-19 *)
Lemma grid x : generic_format radix2 (FLT_exp (-149) 24) x -> 16 <= x -> exists m : Z, x = IZR m * bpow radix2 (-19).
Proof.
  intros F H. assert (5 <= mag radix2 x)%Z as Hm by (apply mag_ge_bpow; rewrite Rabs_pos_eq by lra; cbn; lra).
  red in F. set (c := cexp radix2 (FLT_exp (-149) 24) x) in *. assert (-19 <= c)%Z as Hc by (unfold c, cexp, FLT_exp; lia).
  exists (Ztrunc (scaled_mantissa radix2 (FLT_exp (-149) 24) x) * 2 ^ (c + 19))%Z. rewrite F at 1. unfold F2R. cbn [Fnum Fexp].
  rewrite mult_IZR. rewrite Rmult_assoc. f_equal. change 2%Z with (radix_val radix2). rewrite IZR_Zpower by lia. rewrite <- bpow_plus. f_equal. lia.
Qed.
Lemma f32_near y w : generic_format radix2 (FLT_exp (-149) 24) y -> 16 < y -> Rabs (w - y) < / 1048576 -> f32 w = y.
Proof.
  intros Fy Hy Hw. destruct (grid y Fy) as [m Em]; [lra|]. assert (bpow radix2 (-19) = / 524288) as B by (cbn; lra). rewrite B in Em.
  assert (8388609 <= m)%Z as Hm by (assert (8388608 < m)%Z; [apply lt_IZR; lra | lia]). apply IZR_le in Hm.
  apply Rabs_lt_inv in Hw. assert (16 <= w) as Hw16 by lra. destruct (grid (f32 w) (format32 w) (f32_ge16 w Hw16)) as [k Ek]. rewrite B in Ek.
  assert (Valid_exp (FLT_exp (-149) 24)) as V by (apply FLT_exp_valid; reflexivity).
  assert (Rabs (f32 w - w) <= Rabs (y - w)) as N by (refine (proj2 (@round_N_pt radix2 (FLT_exp (-149) 24) V (fun t => negb (Z.even t)) w) y Fy)).
  assert (Rabs (y - w) < / 1048576) as N' by (apply Rabs_lt; lra). assert (Rabs (f32 w - w) < / 1048576) as N2 by lra. apply Rabs_lt_inv in N2.
  assert (k = m) as E; [|rewrite Ek, Em, E; reflexivity].
  assert (IZR (k - m) < 1) as L1 by (rewrite minus_IZR; lra). assert (-1 < IZR (k - m)) as L2 by (rewrite minus_IZR; lra).
  apply (lt_IZR _ 1) in L1. apply (lt_IZR (-1)) in L2. lia.
Qed.
Lemma again_pos n : (0 <= n <= 10 ^ 14)%Z -> f32 (f_secs (ZnearestE (rnd (f32 (f_secs n) * 1000000000)))) = f32 (f_secs n).
Proof.
  intros [N0 N1]. destruct pow2_ineq as (P60 & P53 & _).
  pose proof (f_secs_nonneg n N0) as X0. pose proof (f_secs_err n ltac:(lia)) as EX. apply Rabs_le_inv in EX.
  assert (0 <= IZR n <= 100000000000000) as HN by (split; [apply (IZR_le 0) | apply IZR_le]; lia). rewrite (Rabs_pos_eq (IZR n)) in EX by lra.
  set (x := f_secs n) in *. assert (x <= 100001) as X1 by lra.
  pose proof (f32_err x) as EY. rewrite pow24, P60, (Rabs_pos_eq x) in EY by exact X0. set (y := f32 x) in *. assert (Rabs (y - x) <= / 100) as EY' by lra.
  pose proof (Rabs_le_inv _ _ EY') as EY''. assert (- / 100 <= y <= 100002) as HY by lra.
  set (z := y * 1000000000). pose proof (rnd_err z) as EZ. rewrite P60, P53 in EZ.
  assert (Rabs z <= 100002000000000) as HZ by (apply Rabs_le; unfold z; lra).
  assert (Rabs (rnd z - z) <= / 50) as EZ' by lra. apply Rabs_le_inv in EZ'.
  pose proof (half_near (rnd z)) as EM. apply Rabs_le_inv in EM. set (m := ZnearestE (rnd z)) in *.
  assert (Rabs (IZR m) <= 1000000000000000) as HM by (apply Rabs_le; unfold z in *; lra). rewrite <- abs_IZR in HM. apply le_IZR in HM.
  destruct (Rle_or_lt (Rabs (y - x)) (49 / 100000000)) as [C|C].
  - (* the microsecond is found again *)
    set (k := ZnearestE (rnd (IZR n / 1000000000) * 1000000)) in *.
    assert (x = rnd (IZR k / 1000000)) as Ex by (unfold x, f_secs; rewrite (rnd_Z n) by lia; reflexivity).
    pose proof (rnd_err (IZR k / 1000000)) as EK. rewrite P60, P53, <- Ex in EK. 
    pose proof (half_near (rnd (IZR n / 1000000000) * 1000000)) as EK2. fold k in EK2. apply Rabs_le_inv in EK2.
    pose proof (rnd_err (IZR n / 1000000000)) as EK3. rewrite P60, P53, (Rabs_pos_eq (IZR n / 1000000000)) in EK3 by lra. apply Rabs_le_inv in EK3.
    assert (Rabs (IZR k / 1000000) <= 100001) as HK by (apply Rabs_le; lra).
    assert (Rabs (x - IZR k / 1000000) <= / 50000000000) as EK' by lra. apply Rabs_le_inv in EK'.
    assert (f_secs m = x) as E; [|rewrite E; reflexivity]. rewrite Ex. unfold f_secs. rewrite (rnd_Z m) by lia. assert (ZnearestE (rnd (IZR m / 1000000000) * 1000000) = k) as E; [|rewrite E; reflexivity].
    apply Znearest_imp. pose proof (rnd_err (IZR m / 1000000000)) as EB. rewrite P60, P53 in EB.
    assert (Rabs (IZR m / 1000000000) <= 100003) as HB by (apply Rabs_le; unfold z in *; lra).
    assert (Rabs (rnd (IZR m / 1000000000) - IZR m / 1000000000) <= / 50000000000) as EB' by lra. apply Rabs_le_inv in EB'.
    apply Rabs_le_inv in C. apply Rabs_lt. unfold z in *. lra.
  - assert (0 < x) as Xp. { destruct X0 as [H|H]; [exact H|exfalso]. unfold y in C. rewrite <- H in C. unfold f32 in C. rewrite round_0 in C by apply valid_rnd_N. rewrite Rminus_0_r, Rabs_R0 in C. lra. }
    assert (16 <= x) as H16. { destruct (Rle_or_lt 16 x) as [H|H]; [exact H|exfalso]. pose proof (f32_half_ulp x (-20) ltac:(lia)) as E. fold y in E. cbn in E. specialize (E ltac:(lra)). lra. }
    assert (16 <= y) as Y16 by (apply f32_ge16, H16).
    assert (16 < y) as Y16'.
    { destruct Y16 as [H|H]; [exact H|exfalso]. assert (x < 32) as H32 by lra. pose proof (f32_half_ulp x (-19) ltac:(lia)) as E. fold y in E. cbn in E. specialize (E ltac:(lra)).
      set (k := ZnearestE (rnd (IZR n / 1000000000) * 1000000)) in *.
      assert (x = rnd (IZR k / 1000000)) as Ex by (unfold x, f_secs; rewrite (rnd_Z n) by lia; reflexivity).
      pose proof (rnd_err (IZR k / 1000000)) as EK. rewrite P60, P53, <- Ex in EK.
      pose proof (half_near (rnd (IZR n / 1000000000) * 1000000)) as EK2. fold k in EK2. apply Rabs_le_inv in EK2.
      pose proof (rnd_err (IZR n / 1000000000)) as EK3. rewrite P60, P53, (Rabs_pos_eq (IZR n / 1000000000)) in EK3 by lra. apply Rabs_le_inv in EK3.
      assert (Rabs (IZR k / 1000000) <= 100001) as HK by (apply Rabs_le; lra).
      assert (Rabs (x - IZR k / 1000000) <= / 50000000000) as EK' by lra. apply Rabs_le_inv in EK'.
      apply Rabs_le_inv in E. rewrite <- H in *. assert (16 - x <= 0) as Hs by lra. rewrite Rabs_left1 in C by lra.
      assert (IZR k < 16000001) as K1 by lra. assert (16000000 < IZR k) as K2 by lra. apply (lt_IZR _ 16000001) in K1. apply (lt_IZR 16000000) in K2. lia. }
    apply f32_near; [apply format32 | exact Y16'|]. pose proof (f_secs_err m HM) as EW. 
    assert (Rabs (IZR m) <= 100002000000001) as HM' by (apply Rabs_le; unfold z in *; lra).
    assert (Rabs (f_secs m - IZR m / 1000000000) <= 5002 / 10000000000) as EW' by lra. apply Rabs_le_inv in EW'. apply Rabs_lt. unfold z in *. lra.
Qed.
Lemma sac_again ref t : (Z.abs (t - ref) <= 10 ^ 14)%Z -> sac_time rnd ref (sac_time rnd ref t) = sac_time rnd ref t.
Proof.
  intros H. unfold sac_time at 1 3. f_equal. unfold sac_time, sac_utc, sac_field.
  replace (ref + ZnearestE (rnd (f32 (f_secs (t - ref)) * 1000000000)) - ref)%Z with (ZnearestE (rnd (f32 (f_secs (t - ref)) * 1000000000))) by lia.
  set (n := (t - ref)%Z) in *. destruct (Z_le_gt_dec 0 n) as [P|P]; [apply again_pos; lia|].
  pose proof (again_pos (- n) ltac:(lia)) as E. rewrite f_secs_opp, f32_opp, Ropp_mult_distr_l_reverse, rnd_opp, nearE_opp, f_secs_opp, f32_opp in E. lra.
Qed.

(** ** values of cases *)
Lemma f32_id (m e : Z) : (Z.abs m < 2 ^ 24)%Z -> (-149 <= e)%Z -> f32 (IZR m * bpow radix2 e) = IZR m * bpow radix2 e.
Proof.
  intros Hm He. apply round_generic; [apply valid_rnd_N|]. apply generic_format_FLT. exists (Float radix2 m e); [reflexivity | exact Hm | exact He].
Qed.
Lemma f32_at x (e m : Z) : (-149 <= e)%Z -> bpow radix2 (e + 23) <= x < bpow radix2 (e + 24) ->
  Rabs (x * bpow radix2 (- e) - IZR m) < / 2 -> f32 x = IZR m * bpow radix2 e.
Proof.
  intros He [H1 H2] Hm. unfold f32, round. assert (cexp radix2 (FLT_exp (-149) 24) x = e) as Ec.
  { unfold cexp. rewrite (mag_unique radix2 x (e + 24)).
    - unfold FLT_exp. lia.
    - rewrite Rabs_pos_eq by (eapply Rle_trans; [apply bpow_ge_0 | exact H1]). replace (e + 24 - 1)%Z with (e + 23)%Z by lia. split; assumption. }
  unfold scaled_mantissa. rewrite Ec. rewrite (Znearest_imp _ _ m Hm). reflexivity.
Qed.
(** seconds are rounded to microseconds *)
Lemma f_secs_micro n k : (0 <= n <= 10 ^ 14)%Z -> (Z.abs (n - k * 1000) <= 499)%Z -> f_secs n = rnd (IZR k / 1000000).
Proof.
  intros Hn Hk. unfold f_secs. rewrite (rnd_Z n) by lia. do 3 f_equal. apply Znearest_imp. destruct pow2_ineq as (P60 & P53 & _).
  assert (0 <= IZR n <= 100000000000000) as HN by (split; [apply (IZR_le 0) | apply IZR_le]; lia).
  pose proof (rnd_err (IZR n / 1000000000)) as E. rewrite P60, P53, (Rabs_pos_eq (IZR n / 1000000000)) in E by lra. apply Rabs_le_inv in E.
  assert (Rabs (IZR (n - k * 1000)) <= 499) as HK by (rewrite <- abs_IZR; apply IZR_le; exact Hk). rewrite minus_IZR, mult_IZR in HK. apply Rabs_le_inv in HK.
  apply Rabs_lt. lra.
Qed.
(** the field, from the microseconds [k] *)
Lemma field_at n k (e m : Z) : (0 <= n <= 10 ^ 14)%Z -> (Z.abs (n - k * 1000) <= 499)%Z -> (-149 <= e)%Z ->
  bpow radix2 (e + 23) + / 1000000000 <= IZR k / 1000000 <= bpow radix2 (e + 24) - / 1000000000 ->
  Rabs (IZR k / 1000000 * bpow radix2 (- e) - IZR m) <= / 2 - / 1000000000 * bpow radix2 (- e) -> f32 (f_secs n) = IZR m * bpow radix2 e.
Proof.
  intros Hn Hk He Hb Hm. rewrite (f_secs_micro n k Hn Hk). destruct pow2_ineq as (P60 & P53 & _).
  pose proof (rnd_err (IZR k / 1000000)) as E. rewrite P60, P53 in E. set (c := IZR k / 1000000) in *.
  assert (0 <= c <= 100001) as Hc.
  { split; [pose proof (bpow_ge_0 radix2 (e + 23)); lra|]. assert (IZR k * 1000 <= 100000000000499) by (rewrite <- mult_IZR; apply IZR_le; lia). unfold c. lra. }
  rewrite (Rabs_pos_eq c) in E by lra. assert (Rabs (rnd c - c) <= / 50000000000) as E' by lra. apply Rabs_le_inv in E'.
  apply f32_at; [exact He | lra|]. pose proof (bpow_gt_0 radix2 (- e)) as Hp. set (b := bpow radix2 (- e)) in *.
  apply Rabs_le_inv in Hm. assert (Rabs ((rnd c - c) * b) <= / 50000000000 * b) as Hd by (rewrite Rabs_mult, (Rabs_pos_eq b) by lra; apply Rmult_le_compat_r; [lra | apply Rabs_le; lra]).
  apply Rabs_le_inv in Hd. apply Rabs_lt. lra.
Qed.
Lemma sac_time_neg prod ref n : prod = rnd \/ prod = f32 -> sac_time prod ref (ref - n) = (2 * ref - sac_time prod ref (ref + n))%Z.
Proof.
  intros Hp. unfold sac_time, sac_utc, sac_field. replace (ref - n - ref)%Z with (- n)%Z by lia. replace (ref + n - ref)%Z with n by lia.
  rewrite f_secs_opp, f32_opp, Ropp_mult_distr_l_reverse. assert (forall x, prod (- x) = - prod x) as Ho by (destruct Hp as [->| ->]; [exact rnd_opp | exact f32_opp]).
  rewrite Ho, nearE_opp. lia.
Qed.
(** 700.002 s *)
Lemma field_700 : f32 (f_secs 700002000000) = 11468833 * bpow radix2 (-14).
Proof. apply (field_at _ 700002000 (-14) 11468833); [lia | lia | lia | cbn; lra | cbn; apply Rabs_le; lra]. Qed.
Lemma time_700 ref : sac_time rnd ref (ref + 700002000000) = (ref + 700002014160)%Z /\ sac_time f32 ref (ref + 700002000000) = (ref + 700002009088)%Z.
Proof.
  unfold sac_time, sac_utc, sac_field. replace (ref + 700002000000 - ref)%Z with 700002000000%Z by lia. rewrite field_700. split; f_equal; apply Znearest_imp.
  - replace (11468833 * bpow radix2 (-14) * 1000000000) with (5734416500000000 * bpow radix2 (-13)) by (cbn; lra).
    rewrite (rnd_id 5734416500000000 (-13)) by lia. apply Rabs_lt. cbn. lra.
  - rewrite (f32_at _ 16 10681183); [apply Rabs_lt; cbn; lra | lia | cbn; lra | apply Rabs_lt; cbn; lra].
Qed.
(** 20 s and 19.99 s *)
Lemma time_20 prod ref : prod = rnd \/ prod = f32 -> sac_time prod ref (ref + 20000000000) = (ref + 20000000000)%Z.
Proof.
  intros Hp. unfold sac_time, sac_utc, sac_field. replace (ref + 20000000000 - ref)%Z with 20000000000%Z by lia.
  rewrite (field_at _ 20000000 (-19) 10485760); [|lia | lia | lia | cbn; lra | cbn; apply Rabs_le; lra]. f_equal. apply Znearest_imp.
  replace (10485760 * bpow radix2 (-19) * 1000000000) with (9765625 * bpow radix2 11) by (cbn; lra).
  destruct Hp as [->| ->]; [rewrite (rnd_id 9765625 11) by lia | rewrite (f32_id 9765625 11) by lia]; apply Rabs_lt; cbn; lra.
Qed.
Lemma time_1999 ref : sac_time rnd ref (ref + 19990000000) = (ref + 19989999771)%Z /\ sac_time f32 ref (ref + 19990000000) = (ref + 19989999616)%Z.
Proof.
  unfold sac_time, sac_utc, sac_field. replace (ref + 19990000000 - ref)%Z with 19990000000%Z by lia.
  rewrite (field_at _ 19990000 (-19) 10480517); [|lia | lia | lia | cbn; lra | cbn; apply Rabs_le; lra]. split; f_equal; apply Znearest_imp.
  - replace (10480517 * bpow radix2 (-19) * 1000000000) with (5240258500000000 * bpow radix2 (-18)) by (cbn; lra).
    rewrite (rnd_id 5240258500000000 (-18)) by lia. apply Rabs_lt. cbn. lra.
  - rewrite (f32_at _ 11 9760742); [apply Rabs_lt; cbn; lra | lia | cbn; lra | apply Rabs_lt; cbn; lra].
Qed.
(** 8.27 s, written and read twice *)
Lemma time_827 ref : sac_time f32 ref (ref + 8270000000) = (ref + 8270000640)%Z /\ sac_time f32 ref (ref + 8270000640) = (ref + 8270001664)%Z.
Proof.
  unfold sac_time, sac_utc, sac_field. replace (ref + 8270000000 - ref)%Z with 8270000000%Z by lia. replace (ref + 8270000640 - ref)%Z with 8270000640%Z by lia. split; f_equal; apply Znearest_imp.
  - rewrite (field_at _ 8270000 (-20) 8671724); [|lia | lia | lia | cbn; lra | cbn; apply Rabs_le; lra].
    rewrite (f32_at _ 9 16152345); [apply Rabs_lt; cbn; lra | lia | cbn; lra | apply Rabs_lt; cbn; lra].
  - rewrite (field_at _ 8270001 (-20) 8671725); [|lia | lia | lia | cbn; lra | cbn; apply Rabs_le; lra].
    rewrite (f32_at _ 9 16152347); [apply Rabs_lt; cbn; lra | lia | cbn; lra | apply Rabs_lt; cbn; lra].
Qed.

(** ** traces *)
Close Scope R_scope.
Lemma dget_times f t k : dget (extra (st (with_times f t))) k =
  match dget (extra (st t)) k with
  | Some (VTime z) => Some (VTime (if String.eqb k "onset" || String.eqb k "event_time" then f z else z))
  | o => o
  end.
Proof.
  unfold with_times. cbn [st extra]. induction (extra (st t)) as [|[k0 v] d IH]; [reflexivity|]. unfold dget in *. cbn [map aget fst snd].
  destruct v as [| |z| |]; cbn [aget fst snd]; try (destruct (String.eqb_spec k k0); [reflexivity | exact IH]).
  all: destruct (String.eqb k0 "onset" || String.eqb k0 "event_time") eqn:E; cbn [aget fst snd]; destruct (String.eqb_spec k k0) as [->|]; try exact IH; rewrite ?E; reflexivity.
Qed.
Lemma codes_times f t : same_codes t (with_times f t).
Proof. repeat split. Qed.
Lemma read_file_reads prod ref fmt : reads (read_file prod ref fmt) (read_trace prod ref fmt).
Proof. split; [reflexivity|]. intros t. unfold read_trace. destruct (String.eqb fmt "SAC"); [apply codes_times|]. destruct (String.eqb fmt "Q"); apply codes_times. Qed.
Lemma cut_second a t : (0 < a)%Z -> (1000000000 mod a = 0)%Z -> (t / a * a / 1000000000 = t / 1000000000)%Z.
Proof.
  intros Ha Hm. apply Z.mod_divide in Hm; [|lia]. destruct Hm as [b Hb]. rewrite Hb. assert (0 < b)%Z by nia. rewrite Z.mul_comm, (Z.mul_comm b a), Z.div_mul_cancel_l by lia.
  rewrite Z.div_div by lia. reflexivity.
Qed.
Lemma clear_second e t u : clear_of_seconds e t -> (Z.abs (u - t) <= e)%Z -> (u / 1000000000 = t / 1000000000)%Z.
Proof.
  intros [H1 H2] H. pose proof (Z.div_mod t 1000000000 ltac:(lia)) as E. symmetry. apply (Z.div_unique_pos u 1000000000 (t / 1000000000) (u - 1000000000 * (t / 1000000000))); lia.
Qed.
Lemma read_trace_of prod ref fmt p t : prod = rnd \/ prod = f32 ->
  (fmt = "SAC" -> forall e, dget (extra (st t)) "event_time" = Some (VTime e) -> (Z.abs (e - ref t) <= 10 ^ 15)%Z /\ clear_of_seconds (1000 + Z.abs (e - ref t) / 8000000) e) ->
  trace_of p t -> trace_of p (read_trace prod ref fmt t).
Proof.
  intros Hp Hc (H1 & H2 & H3 & e & He & Hs). assert (forall f, (f e / 1000000000 = e / 1000000000)%Z -> trace_of p (with_times f t)) as K.
  { intros f Hf. split; [exact H1|]. split; [exact H2|]. split; [exact H3|]. exists (f e). rewrite dget_times, He. split; [reflexivity | congruence]. }
  unfold read_trace. destruct (String.eqb_spec fmt "SAC") as [E|_]; [|destruct (String.eqb fmt "Q")]; apply K.
  - destruct (Hc E e He) as [A B]. apply (clear_second _ _ _ B). apply sac_err; assumption.
  - apply cut_second; [lia | reflexivity].
  - apply cut_second; [lia | reflexivity].
Qed.
