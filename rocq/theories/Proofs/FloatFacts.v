(** Errors of floating point operations. *)
From Verif Require Import Model.FloatIndex Spec.ModelSpec Spec.FloatSpec Proofs.MoveoutFacts Proofs.MoveoutMain.
From Flocq Require Import Core Relative.
From Coq Require Import Lra Lia.
Notation length := List.length.
Local Open Scope R_scope.

Lemma rnd_err x : Rabs (rnd x - x) <= / 2 ^ 53 * Rabs x + / 2 ^ 60.
Proof.
  unfold rnd. destruct (error_N_FLT radix2 (-1074) 53 ltac:(lia) (fun t => negb (Z.even t)) x) as (eps & eta & H1 & H2 & _ & E).
  rewrite E. replace (x * (1 + eps) + eta - x) with (eps * x + eta) by ring.
  eapply Rle_trans; [apply Rabs_triang|]. rewrite Rabs_mult. apply Rplus_le_compat.
  - apply Rmult_le_compat_r; [apply Rabs_pos|]. eapply Rle_trans; [exact H1|]. cbn. lra.
  - eapply Rle_trans; [exact H2|]. apply Rle_trans with (/ 2 * bpow radix2 (-59)).
    + apply Rmult_le_compat_l; [lra|]. apply bpow_le. lia.
    + cbn. lra.
Qed.
Lemma rnd_0 : rnd 0 = 0.
Proof. apply round_0. apply valid_rnd_N. Qed.
Lemma rnd_le x y : x <= y -> rnd x <= rnd y.
Proof. intros H. apply round_le; [apply FLT_exp_valid; reflexivity | apply valid_rnd_N | exact H]. Qed.
Lemma rnd_nonneg x : 0 <= x -> 0 <= rnd x.
Proof. intros H. rewrite <- rnd_0. apply rnd_le, H. Qed.
(** doubles are not changed *)
Lemma rnd_id (m e : Z) : (Z.abs m < 2 ^ 53)%Z -> (-1074 <= e)%Z -> rnd (IZR m * bpow radix2 e) = IZR m * bpow radix2 e.
Proof.
  intros Hm He. apply round_generic; [apply valid_rnd_N|]. apply generic_format_FLT. exists (Float radix2 m e); [reflexivity | exact Hm | exact He].
Qed.
Lemma rnd_Z (m : Z) : (Z.abs m < 2 ^ 53)%Z -> rnd (IZR m) = IZR m.
Proof. intros Hm. pose proof (rnd_id m 0 Hm ltac:(lia)) as H. cbn [bpow] in H. rewrite Rmult_1_r in H. exact H. Qed.
(** the double nearest to a number between two powers of two *)
Lemma rnd_at x (e m : Z) : (-1074 <= e)%Z -> bpow radix2 (e + 52) <= x < bpow radix2 (e + 53) ->
  Rabs (x * bpow radix2 (- e) - IZR m) < / 2 -> rnd x = IZR m * bpow radix2 e.
Proof.
  intros He [H1 H2] Hm. unfold rnd, round. assert (cexp radix2 (FLT_exp (-1074) 53) x = e) as Ec.
  { unfold cexp. rewrite (mag_unique radix2 x (e + 53)).
    - unfold FLT_exp. lia.
    - rewrite Rabs_pos_eq by (eapply Rle_trans; [apply bpow_ge_0 | exact H1]). replace (e + 53 - 1)%Z with (e + 52)%Z by lia. split; assumption. }
  unfold scaled_mantissa. rewrite Ec. rewrite (Znearest_imp _ _ m Hm). reflexivity.
Qed.

Lemma pow2_ineq : / 2 ^ 60 = / 1152921504606846976 /\ / 2 ^ 53 = / 9007199254740992 /\ / 2 ^ 51 = / 2251799813685248.
Proof. repeat split; f_equal; lra. Qed.

Section Index.
  Variables (delta ns : Z) (rate : R).
  Hypothesis Hd : (10000 <= delta)%Z.
  Hypothesis Hn : (0 <= ns <= 2 ^ 48 * delta)%Z.
  Hypothesis Hr : rate_of delta rate.
  Let x := IZR ns / IZR delta.
  Lemma x_bounds : 0 <= x <= 281474976710656.
  Proof.
    unfold x. assert (0 < IZR delta) as P by (apply (IZR_lt 0); lia). destruct Hn as [A B]. apply IZR_le in A. apply IZR_le in B. rewrite mult_IZR in B.
    split; [apply Rmult_le_pos; [exact A | left; apply Rinv_0_lt_compat, P]|].
    apply Rmult_le_reg_r with (IZR delta); [exact P|]. unfold Rdiv. rewrite Rmult_assoc, Rinv_l by lra. lra.
  Qed.
  (** error of the product, in samples *)
  Lemma product_err : Rabs (rnd (f_secs ns * rate) - x) < / 2.
  Proof.
    pose proof x_bounds as Hx. destruct pow2_ineq as (P60 & P53 & P51).
    unfold rate_of in Hr. rewrite P51 in Hr. set (D := secs delta) in *.
    assert (1 / 100000 <= D) as HD. { unfold D, secs. assert (10000 <= IZR delta) by (apply (IZR_le 10000); lia). lra. }
    assert (IZR ns / 1000000000 = x * D) as Es. { unfold x, D, secs. field. apply not_0_IZR. lia. }
    set (v := x * D) in *. assert (0 <= v) as Hv by (apply Rmult_le_pos; lra).
    (* ns / 1e9 *)
    pose proof (rnd_err (IZR ns)) as E1. rewrite P60, P53 in E1.
    assert (0 <= IZR ns) as Hns by (apply (IZR_le 0); lia). rewrite (Rabs_pos_eq (IZR ns)) in E1 by exact Hns.
    apply Rabs_le_inv in E1.
    set (a := rnd (IZR ns) / 1000000000) in *.
    assert (IZR ns = v * 1000000000) as En by lra.
    assert (v - v / 9007199254740992 - / 1000000000000000 <= a <= v + v / 9007199254740992 + / 1000000000000000) as Ha by (unfold a; lra).
    assert (0 <= a) as Ha0. { unfold a. pose proof (rnd_nonneg _ Hns). lra. }
    pose proof (rnd_err a) as E2. rewrite P60, P53, (Rabs_pos_eq a) in E2 by exact Ha0. apply Rabs_le_inv in E2.
    set (b := rnd a) in *.
    assert (v - v * 2.01 / 9007199254740992 - 2.1 / 1000000000000000 <= b <= v + v * 2.01 / 9007199254740992 + 2.1 / 1000000000000000) as Hb by lra.
    pose proof (Znearest_half (fun t => negb (Z.even t)) (b * 1000000)) as E3. apply Rabs_le_inv in E3.
    set (c := IZR (ZnearestE (b * 1000000)) / 1000000) in *.
    assert (0 <= b) as Hb0 by (apply rnd_nonneg; exact Ha0).
    assert (0 <= c) as Hc0.
    { unfold c. assert (0 <= IZR (ZnearestE (b * 1000000))); [|lra]. apply IZR_le.
      rewrite <- (Zrnd_IZR ZnearestE 0). apply Zrnd_le; [apply valid_rnd_N | lra]. }
    assert (Rabs (c - v) <= 0.5000001 / 1000000 + v * 2.01 / 9007199254740992) as Hc. { apply Rabs_le. unfold c. lra. }
    apply Rabs_le_inv in Hc. pose proof (rnd_err c) as E4. rewrite P60, P53, (Rabs_pos_eq c) in E4 by exact Hc0. apply Rabs_le_inv in E4.
    fold (f_secs ns) in E4. change (rnd c) with (f_secs ns) in E4. set (s := f_secs ns) in *.
    assert (Rabs (s - v) <= 0.5000002 / 1000000 + v * 3.02 / 9007199254740992) as Hs by (apply Rabs_le; lra).
    assert (0 <= s) as Hs0 by (apply rnd_nonneg; exact Hc0).
    (* times the rate *)
    apply Rabs_le_inv in Hr. apply Rabs_le_inv in Hs.
    set (q := rate * D) in *. assert (s * rate = s / D * q) as Eq by (unfold q; field; lra).
    assert (0 < / D <= 100000) as HiD.
    { split; [apply Rinv_0_lt_compat; lra|]. replace 100000 with (/ (1 / 100000)) by field. apply Rinv_le; lra. }
    assert (v / D = x) as Ev by (unfold v; field; lra).
    assert (x - 0.0500001 - x * 3.02 / 9007199254740992 <= s / D <= x + 0.0500001 + x * 3.02 / 9007199254740992) as Hsd.
    { assert (s / D = x + (s - v) / D) as -> by (rewrite <- Ev; field; lra). change ((s - v) / D) with ((s - v) * / D).
      assert (- ((0.5000002 / 1000000 + v * 3.02 / 9007199254740992) * / D) <= (s - v) * / D <= (0.5000002 / 1000000 + v * 3.02 / 9007199254740992) * / D) as [A B].
      { split; [|apply Rmult_le_compat_r; lra]. rewrite <- Ropp_mult_distr_l_reverse. apply Rmult_le_compat_r; lra. }
      assert ((0.5000002 / 1000000 + v * 3.02 / 9007199254740992) * / D <= 0.0500001 + x * 3.02 / 9007199254740992) as C.
      { replace ((0.5000002 / 1000000 + v * 3.02 / 9007199254740992) * / D) with (0.5000002 / 1000000 * / D + (v / D) * 3.02 / 9007199254740992) by (field; lra).
        rewrite Ev. lra. }
      lra. }
    assert (0 <= s / D) as Hsd0 by (apply Rmult_le_pos; lra).
    set (w := s / D) in *.
    assert (w * q - w = w * (q - 1)) as Ew by ring.
    assert (Rabs (w * q - w) <= w * / 2251799813685248) as Hwq.
    { rewrite Ew, Rabs_mult, (Rabs_pos_eq w) by exact Hsd0. apply Rmult_le_compat_l; [exact Hsd0|]. apply Rabs_le. lra. }
    apply Rabs_le_inv in Hwq. rewrite Eq. set (p := w * q) in *.
    assert (0 <= p) as Hp by (unfold p; apply Rmult_le_pos; lra).
    pose proof (rnd_err p) as E5. rewrite P60, P53, (Rabs_pos_eq p) in E5 by exact Hp. apply Rabs_le_inv in E5.
    apply Rabs_lt. lra.
  Qed.
End Index.

(** the index and the last sample not after the onset *)
Theorem index_near start onset delta rate k : (10000 <= delta)%Z -> (k <= 2 ^ 47)%Z -> (start <= onset)%Z -> rate_of delta rate ->
  last_before start onset delta k ->
  (k - 1 <= f_index start onset rate <= k + 1)%Z /\
  (onset = start + k * delta -> f_index start onset rate <= k)%Z.
Proof.
  intros Hd Hk Hso Hr [L1 L2]. unfold f_index. set (ns := (onset - start)%Z) in *.
  assert (0 <= ns <= 2 ^ 48 * delta)%Z as Hn by (split; [lia | unfold ns; nia]).
  pose proof (product_err delta ns rate Hd Hn Hr) as E. apply Rabs_lt_inv in E.
  set (y := rnd _) in *. set (x := IZR ns / IZR delta) in *.
  assert (0 < IZR delta) as P by (apply (IZR_lt 0); lia).
  assert (x * IZR delta = IZR ns) as Ex by (unfold x; field; lra).
  assert (IZR k <= x < IZR k + 1) as Hx.
  { assert (k * delta <= ns < (k + 1) * delta)%Z as [A B] by (unfold ns; lia). apply IZR_le in A. apply IZR_lt in B. rewrite mult_IZR in A, B. rewrite plus_IZR in B.
    rewrite <- Ex in A, B. split; [apply Rmult_le_reg_r in A | apply Rmult_lt_reg_r in B]; assumption. }
  pose proof (Zfloor_lb y) as F1. pose proof (Zfloor_ub y) as F2. split.
  - split.
    + assert (IZR (k - 1) < IZR (Zfloor y) + 1) as H by (rewrite minus_IZR; lra). rewrite <- plus_IZR in H. apply lt_IZR in H. lia.
    + assert (IZR (Zfloor y) < IZR (k + 1) + 1) as H by (rewrite plus_IZR; lra). rewrite <- plus_IZR in H. apply lt_IZR in H. lia.
  - intros Eo. assert (x = IZR k) as Exk.
    { unfold x, ns. rewrite Eo. replace (start + k * delta - start)%Z with (k * delta)%Z by lia. rewrite mult_IZR. field. lra. }
    assert (IZR (Zfloor y) < IZR k + 1) as H by lra. rewrite <- plus_IZR in H. apply lt_IZR in H. lia.
Qed.
Lemma f_secs_nonneg ns : (0 <= ns)%Z -> 0 <= f_secs ns.
Proof.
  intros H. unfold f_secs. apply rnd_nonneg. assert (0 <= IZR (ZnearestE (rnd (rnd (IZR ns) / 1000000000) * 1000000))); [|lra].
  apply IZR_le. rewrite <- (Zrnd_IZR ZnearestE 0). apply Zrnd_le; [apply valid_rnd_N|].
  pose proof (rnd_nonneg (rnd (IZR ns) / 1000000000)) as A. pose proof (rnd_nonneg (IZR ns) (IZR_le 0 ns H)) as B. specialize (A ltac:(lra)). cbn. lra.
Qed.
Lemma trunc_index ns rate : (0 <= ns)%Z -> 0 <= rate -> f_trunc (f_secs ns) rate = f_index 0 ns rate.
Proof.
  intros H Hr. unfold f_trunc, f_index. rewrite Z.sub_0_r. apply Ztrunc_floor. apply rnd_nonneg, Rmult_le_pos; [apply f_secs_nonneg, H | exact Hr].
Qed.
(** whole seconds *)
Lemma f_secs_whole (s : Z) : (0 <= s < 2 ^ 20)%Z -> f_secs (s * 1000000000) = IZR s.
Proof.
  intros Hs. unfold f_secs. rewrite (rnd_Z (s * 1000000000)) by lia. rewrite mult_IZR.
  replace (IZR s * 1000000000 / 1000000000) with (IZR s) by field. rewrite (rnd_Z s) by lia.
  replace (IZR s * 1000000) with (IZR (s * 1000000)) by (rewrite mult_IZR; reflexivity). rewrite (Zrnd_IZR ZnearestE).
  rewrite mult_IZR. replace (IZR s * 1000000 / 1000000) with (IZR s) by field. apply rnd_Z. lia.
Qed.
(** a rounded difference from a whole number *)
Theorem shift_exact a r k n : Rabs (a * r - IZR k) <= / 4 -> (Z.abs k <= 2 ^ 45)%Z -> (Z.of_nat n <= 2 ^ 45)%Z ->
  f_shift a r n = (k - Z.of_nat (n / 2))%Z.
Proof.
  intros H Hk Hn. unfold f_shift. destruct pow2_ineq as (P60 & P53 & _).
  assert (0 <= Z.of_nat (n / 2) <= 2 ^ 45)%Z as Hh. { split; [lia|]. pose proof (Nat.div_le_upper_bound n 2 n ltac:(lia) ltac:(lia)). lia. }
  set (h := Z.of_nat (n / 2)) in *.
  assert (-35184372088832 <= IZR k <= 35184372088832) as Hk' by (split; [apply (IZR_le (-35184372088832)) | apply (IZR_le _ 35184372088832)]; lia).
  assert (0 <= IZR h <= 35184372088832) as Hh' by (split; [apply (IZR_le 0) | apply (IZR_le _ 35184372088832)]; lia).
  apply Rabs_le_inv in H. pose proof (rnd_err (a * r)) as E1. rewrite P60, P53 in E1. set (p := a * r) in *.
  assert (Rabs p <= 35184372088833) as Hp by (apply Rabs_le; lra). assert (Rabs (rnd p - p) <= 1 / 100) as E1' by lra. apply Rabs_le_inv in E1'. clear E1.
  pose proof (rnd_err (rnd p - IZR h)) as E2. rewrite P60, P53 in E2.
  assert (Rabs (rnd p - IZR h) <= 70368744177667) as Hq by (apply Rabs_le; lra).
  set (u := rnd p - IZR h) in *. assert (Rabs (rnd u - u) <= 1 / 100) as E2' by lra. apply Rabs_le_inv in E2'.
  apply Znearest_imp. rewrite minus_IZR. apply Rabs_lt. unfold u in *. lra.
Qed.
