(** Trigonometric polynomials of degree two are determined by five azimuths. *)
From Verif Require Import Model.Harmonics Spec.HarmonicSpec Proofs.CplxFacts.
From Coq Require Import Lra Lia.
Notation length := List.length.
Open Scope R_scope.
Add Ring cplx_ring_inst_tp : cplx_ring.

(** ** complex polynomials, lowest coefficient first *)
Fixpoint peval (p : list cplx) (z : cplx) : cplx :=
  match p with [] => Czero | a :: q => Cadd a (Cmul z (peval q z)) end.
Fixpoint pquot (p : list cplx) (r : cplx) : list cplx :=
  match p with
  | [] => []
  | a :: q => match q with [] => [] | _ => peval q r :: pquot q r end
  end.
Lemma pquot_cons a b q r : pquot (a :: b :: q) r = peval (b :: q) r :: pquot (b :: q) r. Proof. reflexivity. Qed.
Lemma pquot_length p r : length (pquot p r) = pred (length p).
Proof.
  induction p as [|a p IH]; [reflexivity|]. destruct p as [|b q]; [reflexivity|].
  rewrite pquot_cons. cbn [List.length]. rewrite IH. reflexivity.
Qed.
Lemma pquot_spec p r z : peval p z = Cadd (peval p r) (Cmul (Csub z r) (peval (pquot p r) z)).
Proof.
  induction p as [|a p IH]; [cbn; unfold Cadd, Cmul, Csub, Czero; cbn; f_equal; ring|].
  destruct p as [|b q].
  - cbn [peval pquot]. ring.
  - rewrite pquot_cons. remember (b :: q) as p. cbn [peval]. rewrite IH. ring.
Qed.
Lemma pquot_zero p r : peval p r = Czero -> Forall (eq Czero) (pquot p r) -> Forall (eq Czero) p.
Proof.
  induction p as [|a p IH]; intros H0 HF; [constructor|]. destruct p as [|b q].
  - cbn in H0. constructor; [|constructor]. rewrite <- H0. ring.
  - rewrite pquot_cons in HF. inversion HF as [|? ? H1 H2]; subst.
    assert (Forall (eq Czero) (b :: q)) as Hq by (apply IH; [symmetry; exact H1 | exact H2]).
    constructor; [|exact Hq]. cbn [peval] in H0. cbn [peval] in H1. rewrite <- H1 in H0. rewrite <- H0. ring.
Qed.
Lemma roots_zero n : forall p rs, length p = n -> (n <= length rs)%nat -> ForallOrdPairs (fun a b => a <> b) rs ->
  (forall r, In r rs -> peval p r = Czero) -> Forall (eq Czero) p.
Proof.
  induction n as [|n IH]; intros p rs Hp Hl Hd Hr.
  - destruct p; [constructor | discriminate].
  - destruct rs as [|r rs]; [cbn in Hl; lia|]. inversion Hd as [|? ? Hr1 Hd1]; subst.
    apply pquot_zero with r; [apply Hr; left; reflexivity|].
    apply (IH _ rs); [rewrite pquot_length, Hp; reflexivity | cbn in Hl; lia | exact Hd1|].
    intros s Hs. pose proof (pquot_spec p r s) as E. rewrite (Hr s (or_intror Hs)), (Hr r (or_introl eq_refl)) in E.
    destruct (Cmul_integral (Csub s r) (peval (pquot p r) s)) as [H|H]; [|exfalso|exact H].
    + transitivity (Cadd Czero (Cmul (Csub s r) (peval (pquot p r) s))); [ring | symmetry; exact E].
    + rewrite Forall_forall in Hr1. apply (Hr1 s Hs). transitivity (Csub s (Csub s r)); [ring|]. rewrite H. ring.
Qed.

(** ** points of the unit circle *)
Lemma cis_one x : cis x = Cone -> exists k : Z, x = 2 * PI * IZR k.
Proof.
  intros H. assert (cos x = 1) as Hc by exact (f_equal fst H). 
  assert (sin (x / 2) = 0) as Hs.
  { assert (cos (2 * (x / 2)) = 1) as H2 by (replace (2 * (x / 2)) with x by field; exact Hc).
    rewrite cos_2a_sin in H2. apply Rsqr_0_uniq. unfold Rsqr. lra. }
  destruct (sin_eq_0_0 _ Hs) as [k Hk]. exists k. lra.
Qed.
Lemma cis_inj x y : cis x = cis y -> exists k : Z, x - y = 2 * PI * IZR k.
Proof.
  intros H. apply cis_one. unfold Rminus. rewrite cis_add, cis_opp, H. rewrite Cmul_conj, cis_norm. reflexivity.
Qed.
Definition rad (x : R) : R := x * PI / 180.
Lemma different_cis a b azim : different a b -> cis (rad (a - azim)) <> cis (rad (b - azim)).
Proof.
  intros H E. destruct (cis_inj _ _ E) as [k Hk]. apply (H k).
  assert (PI <> 0) as Hpi by (apply Rgt_not_eq, PI_RGT_0).
  apply Rmult_eq_reg_r with (PI / 180); [|lra].
  transitivity (rad (a - azim) - rad (b - azim)); [unfold rad; field|]. rewrite Hk. field.
Qed.

(** ** trigonometric polynomials with complex coefficients *)
Definition trig (a2' a1' a0 a1 a2 : cplx) (x : R) : cplx :=
  Cadd (Cadd (Cadd (Cadd (Cmul a2' (cis (- (2 * x)))) (Cmul a1' (cis (- x)))) a0) (Cmul a1 (cis x))) (Cmul a2 (cis (2 * x))).
Lemma trig_poly a2' a1' a0 a1 a2 x :
  Cmul (cis (2 * x)) (trig a2' a1' a0 a1 a2 x) = peval [a2'; a1'; a0; a1; a2] (cis x).
Proof.
  unfold trig. cbn [peval]. rewrite !cis_opp. replace (2 * x) with (x + x) by ring. rewrite !cis_add.
  assert (Cmul (cis x) (Cconj (cis x)) = Cone) as Hu by (rewrite Cmul_conj, cis_norm; reflexivity).
  rewrite Cconj_mul.
  transitivity (Cadd (Cadd (Cadd (Cadd (Cmul a2' (Cmul (Cmul (cis x) (Cconj (cis x))) (Cmul (cis x) (Cconj (cis x)))))
    (Cmul (Cmul a1' (Cmul (cis x) (Cconj (cis x)))) (cis x))) (Cmul a0 (Cmul (cis x) (cis x)))) (Cmul a1 (Cmul (cis x) (Cmul (cis x) (cis x)))))
    (Cmul a2 (Cmul (Cmul (cis x) (cis x)) (Cmul (cis x) (cis x))))); [ring|].
  rewrite Hu. ring.
Qed.
Lemma trig_zero azim bazs a2' a1' a0 a1 a2 : five_azimuths bazs ->
  (forall b, In b bazs -> trig a2' a1' a0 a1 a2 (rad (b - azim)) = Czero) ->
  a2' = Czero /\ a1' = Czero /\ a0 = Czero /\ a1 = Czero /\ a2 = Czero.
Proof.
  intros (l & Hl & Hincl & Hd) H.
  assert (Forall (eq Czero) [a2'; a1'; a0; a1; a2]) as HF.
  { apply (roots_zero 5 _ (map (fun b => cis (rad (b - azim))) l)); [reflexivity | rewrite map_length; lia | |].
    - clear -Hd. induction Hd as [|a l Ha Hd IH]; simpl; constructor; [|exact IH].
      rewrite Forall_forall in *. intros z Hz. apply in_map_iff in Hz. destruct Hz as (b & <- & Hb). apply different_cis, Ha, Hb.
    - intros r Hr. apply in_map_iff in Hr. destruct Hr as (b & <- & Hb). rewrite <- trig_poly, (H b (Hincl b Hb)). ring. }
  repeat match goal with HF : Forall _ (_ :: _) |- _ => inversion HF; clear HF; subst end. repeat split; reflexivity.
Qed.

Lemma rad2 x : 2 * x * PI / 180 = 2 * rad x. Proof. unfold rad. field. Qed.
(** real coefficients *)
Theorem harmonic_zero azim bazs c : length c = 5%nat -> five_azimuths bazs ->
  (forall b, In b bazs -> harmonic azim c b = 0) -> c = repeat 0 5.
Proof.
  intros Hc Hb H. destruct c as [|c0 [|c1 [|c2 [|c3 [|c4 [|]]]]]]; try discriminate.
  destruct (trig_zero azim bazs (c3 / 2, c4 / 2) (c1 / 2, c2 / 2) (c0, 0) (c1 / 2, - c2 / 2) (c3 / 2, - c4 / 2) Hb) as (H1 & H2 & H3 & _).
  - intros b Hin. specialize (H b Hin). unfold harmonic, cosd, sind in H. cbn [nth] in H. rewrite !rad2 in H.
    change ((b - azim) * PI / 180) with (rad (b - azim)) in H. set (x := rad (b - azim)) in *.
    unfold trig, Cadd, Cmul, cis. cbn [fst snd]. rewrite !cos_neg, !sin_neg. unfold Czero. f_equal; [rewrite <- H; field | field].
  - apply pair_equal_spec in H1, H2, H3. destruct H1, H2, H3.
    assert (c0 = 0) as -> by lra. assert (c1 = 0) as -> by lra. assert (c2 = 0) as -> by lra.
    assert (c3 = 0) as -> by lra. assert (c4 = 0) as -> by lra. reflexivity.
Qed.
Theorem harmonic2_zero s azim bazs c : fst s <> 0 -> snd s <> 0 -> length c = 10%nat -> five_azimuths bazs ->
  (forall b, In b bazs -> harmonic_R s azim c b = 0 /\ harmonic_T s azim c b = 0) -> c = repeat 0 10.
Proof.
  intros Hs0 Hs1 Hc Hb H.
  destruct c as [|c0 [|c1 [|c2 [|c3 [|c4 [|d0 [|d1 [|d2 [|d3 [|d4 [|]]]]]]]]]]]; try discriminate.
  destruct s as [s0 s1]. cbn [fst snd] in *.
  destruct (trig_zero azim bazs (c3, c4) (c1, c2) (s0 * c0, s1 * d0) (d1, - d2) (d3, - d4) Hb) as (H1 & H2 & H3 & H4 & H5).
  - intros b Hin. destruct (H b Hin) as [HR HT]. unfold harmonic_R, cosd, sind in HR. unfold harmonic_T, cosd, sind in HT.
    cbn [nth fst snd] in HR, HT. rewrite !rad2 in HR, HT.
    assert (rad (b - azim + 45) = rad (b - azim) + PI / 4) as E by (unfold rad; field). rewrite E in HT. clear E.
    assert ((b - azim + 90) * PI / 180 = rad (b - azim) + PI / 2) as E by (unfold rad; field). rewrite E in HT. clear E.
    change ((b - azim) * PI / 180) with (rad (b - azim)) in *. set (x := rad (b - azim)) in *.
    replace (2 * (x + PI / 4)) with (2 * x + PI / 2) in HT by field.
    assert (forall y, sin (y + PI / 2) = cos y) as Es by (intros; rewrite Rplus_comm; symmetry; apply cos_sin).
    assert (forall y, cos (y + PI / 2) = - sin y) as Ec by (intros; rewrite Rplus_comm, sin_cos; ring).
    rewrite !Es, !Ec in HT. unfold trig, Cadd, Cmul, cis. cbn [fst snd]. rewrite !cos_neg, !sin_neg. unfold Czero.
    f_equal; [rewrite <- HR; field | rewrite <- HT; field].
  - apply pair_equal_spec in H1, H2, H3, H4, H5.
    destruct H1 as [E3 E4], H2 as [E1 E2], H3 as [E0 F0], H4 as [F1 F2], H5 as [F3 F4].
    assert (c0 = 0) as -> by (destruct (Rmult_integral _ _ E0); [contradiction | assumption]).
    assert (d0 = 0) as -> by (destruct (Rmult_integral _ _ F0); [contradiction | assumption]).
    assert (c1 = 0) as -> by lra. assert (c2 = 0) as -> by lra.
    assert (c3 = 0) as -> by lra. assert (c4 = 0) as -> by lra.
    assert (d1 = 0) as -> by lra. assert (d2 = 0) as -> by lra.
    assert (d3 = 0) as -> by lra. assert (d4 = 0) as -> by lra. reflexivity.
Qed.
