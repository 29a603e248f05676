(** Proofs for deconvolve() with a deconvolution function. *)
From Verif Require Import Model.Deconv Model.Waterlevel Model.Iterative Spec.TimeSpec Spec.DeconvSpec Spec.CorrSpec Spec.TimeRfSpec
  Spec.WaterSpec Spec.SpikeSpec Spec.EndSpec Proofs.PyFacts Proofs.SumFacts Proofs.DeconvFacts.
From Coq Require Import Lra Lia Qreals.
Notation length := List.length.
Open Scope R_scope.

Lemma Q2R_zero : Q2R 0 = 0. Proof. unfold Q2R. cbn. lra. Qed.
Lemma Q2R_nonzero q : ~ (q == 0)%Q <-> Q2R q <> 0.
Proof.
  split; intros H F; apply H.
  - apply eqR_Qeq. rewrite F, Q2R_zero. reflexivity.
  - rewrite (Qeq_eqR _ _ F). apply Q2R_zero.
Qed.
Lemma nth_Q2R i l : nth i (map Q2R l) 0 = Q2R (nth i l 0%Q).
Proof. rewrite <- Q2R_zero at 1. apply map_nth. Qed.

Lemma nearest_unique t o o1 o2 : (0 < delta (st t))%Z -> nearest_sample t o o1 -> nearest_sample t o o2 -> o1 = o2.
Proof.
  intros Hd (i & _ & -> & A1 & B1) (j & _ & -> & A2 & B2). unfold sample_time in *. 
  assert (Z.of_nat i = Z.of_nat j) as -> by nia. reflexivity.
Qed.
Lemma window_unique m b e w a1 b1 c1 a2 b2 c2 : window_for m b e w a1 b1 c1 -> window_for m b e w a2 b2 c2 -> a1 = a2 /\ b1 = b2 /\ c1 = c2.
Proof.
  intros H1 H2. destruct H1 as [x y z|p Hm Hp|p Hm Hp|Hm|Hm]; inversion H2; subst; auto; exfalso;
    cbn in *; repeat match goal with H : _ \/ _ |- _ => destruct H end; try congruence; try contradiction; subst; try congruence.
Qed.

(** the cut and tapered source of an isolated source *)
Lemma placed_source taper t cut o a b tap k T :
  tapers taper -> (0 < delta (st t))%Z -> o = sample_time t k -> (k < length (data t))%nat -> a = (- T * delta (st t))%Z ->
  (starttime (st t) <= o + a)%Z -> (0 <= tap)%Z -> isolated t (o + a + tap) (o + b - tap - delta (st t)) ->
  cut_padded t cut (o + a) (o + b) ->
  let s := map Q2R (data (taper tap cut)) in
  placed s (map Q2R (data t)) T (Z.of_nat k) /\ (T <= Z.of_nat k)%Z /\ nonzero s /\
  (forall p, (length (data t) <= p)%nat -> nth p s 0 = 0).
Proof.
  intros Ht Hd -> Hk -> Hst Htap [Hiso Hex] (D1 & D2 & k0 & S1 & S2 & E1 & Hcut). cbn zeta.
  destruct (Ht tap cut) as (_ & Hlen & Htp). rewrite D1 in Htp.
  unfold sample_time in *.
  assert (K0 : k0 = (Z.of_nat k - T)%Z) by (rewrite S1 in S2; nia). 
  assert (KT : (T <= Z.of_nat k)%Z) by nia.
  assert (Eend : endtime cut = (starttime (st cut) + (Z.of_nat (length (data cut)) - 1) * delta (st t))%Z).
  { unfold endtime, npts. destruct (Z.eqb_spec (Z.of_nat (List.length (data cut))) 0); [lia|]. rewrite D1. reflexivity. }
  rewrite Eend, S1, K0 in E1.
  (* samples of the source *)
  assert (P : forall j, (0 <= j)%Z -> padded t j = nth (Z.to_nat j) (data t) 0%Q).
  { intros j Hj. unfold padded. destruct (Z.leb_spec 0 j); [reflexivity | lia]. }
  assert (V : forall i, (i < length (data cut))%nat -> Q2R (nth i (data (taper tap cut)) 0%Q) = Q2R (nth (Z.to_nat (k0 + Z.of_nat i)) (data t) 0%Q)).
  { intros i Hi. destruct (Htp i Hi) as [Hz Hc]. rewrite (Hcut i Hi) in Hz, Hc. rewrite !P in Hz, Hc by lia.
    set (q := nth (Z.to_nat (k0 + Z.of_nat i)) (data t) 0%Q) in *.
    destruct (Qeq_dec q 0) as [E|N].
    - rewrite (Qeq_eqR _ _ (Hz E)). symmetry. apply Qeq_eqR, E.
    - apply Qeq_eqR, Hc.
      + destruct (Nat.lt_ge_cases (Z.to_nat (k0 + Z.of_nat i)) (length (data t))) as [L|L]; [|exfalso; apply N; unfold q; rewrite nth_overflow by exact L; reflexivity].
        specialize (Hiso _ L N). nia.
      + destruct (Nat.lt_ge_cases (Z.to_nat (k0 + Z.of_nat i)) (length (data t))) as [L|L]; [|exfalso; apply N; unfold q; rewrite nth_overflow by exact L; reflexivity].
        specialize (Hiso _ L N). rewrite !Z2Nat.id in Hiso by lia. nia. }
  assert (Out : forall i, (length (data cut) <= i)%nat -> Q2R (nth (Z.to_nat (k0 + Z.of_nat i)) (data t) 0%Q) = 0).
  { intros i Hi. destruct (Req_dec (Q2R (nth (Z.to_nat (k0 + Z.of_nat i)) (data t) 0%Q)) 0) as [E|N]; [exact E|exfalso].
    apply Q2R_nonzero in N. destruct (Nat.lt_ge_cases (Z.to_nat (k0 + Z.of_nat i)) (length (data t))) as [L|L]; [|apply N; rewrite nth_overflow by exact L; reflexivity].
    specialize (Hiso _ L N). rewrite !Z2Nat.id in Hiso by lia. nia. }
  assert (Bef : forall j, (Z.of_nat j < k0)%Z -> Q2R (nth j (data t) 0%Q) = 0).
  { intros j Hj. destruct (Req_dec (Q2R (nth j (data t) 0%Q)) 0) as [E|N]; [exact E|exfalso].
    apply Q2R_nonzero in N. destruct (Nat.lt_ge_cases j (length (data t))) as [L|L]; [|apply N; rewrite nth_overflow by exact L; reflexivity].
    specialize (Hiso _ L N). nia. }
  assert (W : forall i, nth i (map Q2R (data (taper tap cut))) 0 = Q2R (nth (Z.to_nat (k0 + Z.of_nat i)) (data t) 0%Q)).
  { intros i. rewrite nth_Q2R. destruct (Nat.lt_ge_cases i (length (data cut))) as [L|L]; [apply V, L|].
    rewrite Out by exact L. rewrite nth_overflow by (rewrite Hlen; exact L). apply Q2R_zero. }
  split; [|split; [exact KT|split]].
  - intros j. unfold smp. destruct (Z.ltb_spec j 0), (Z.ltb_spec (j - Z.of_nat k + T) 0).
    + reflexivity.
    + lia.
    + rewrite nth_Q2R. apply Bef. lia.
    + rewrite W, nth_Q2R. f_equal. f_equal. lia.
  - destruct Hex as (i & Hi & N). specialize (Hiso i Hi N). exists (Z.to_nat (Z.of_nat i - k0)). rewrite W.
    assert (Z.of_nat i >= k0)%Z by nia.
    replace (Z.to_nat (k0 + Z.of_nat (Z.to_nat (Z.of_nat i - k0)))) with i by lia. apply Q2R_nonzero, N.
  - intros p Hp. rewrite W, nth_overflow by lia. apply Q2R_zero.
Qed.

Lemma nth_error_reals rsp (h : heap) i l : nth_error rsp i = Some l -> nth_error (reals (map (fun l => data (h l)) rsp)) i = Some (map Q2R (data (h l))).
Proof. intros H. unfold reals. rewrite !nth_error_map, H. reflexivity. Qed.
Lemma Forall2_error {A B} (P : A -> B -> Prop) l m i y : Forall2 P l m -> nth_error m i = Some y -> exists x, nth_error l i = Some x /\ P x y.
Proof.
  intros H. revert i. induction H as [|a b l m Hab H IH]; intros i Hy; [destruct i; discriminate|].
  destruct i as [|i]; cbn in *; [injection Hy as <-; exists a; auto | apply IH, Hy].
Qed.
Lemma close_peak eps d x n k : Forall2 (fun q v => Rabs (Q2R q - v) <= eps) d x -> length x = n -> (k < n)%nat -> nth k x 0 = 1 ->
  (forall v, In v x -> Rabs v <= 1) ->
  length d = n /\ Rabs (Q2R (nth k d 0%Q) - 1) <= eps /\ forall q, In q d -> Rabs (Q2R q) <= 1 + eps.
Proof.
  intros F L Hk E B. split; [rewrite <- L; clear - F; induction F; cbn; congruence|]. split.
  - destruct (nth_error x k) as [v|] eqn:Ev; [|apply nth_error_None in Ev; lia].
    destruct (Forall2_error _ _ _ _ _ F Ev) as (q & Eq & H). rewrite (nth_error_nth _ _ _ Eq). rewrite <- E, (nth_error_nth _ _ _ Ev). exact H.
  - intros q Hq. assert (exists v, In v x /\ Rabs (Q2R q - v) <= eps) as (v & Hv & H).
    { clear - F Hq. induction F as [|a b l m Hab F IH]; [destruct Hq|]. destruct Hq as [<-|Hq]; [exists b; split; [left; reflexivity|exact Hab]|].
      destruct (IH Hq) as (v & Hv & H). exists v. split; [right; exact Hv | exact H]. }
    specialize (B v Hv). replace (Q2R q) with ((Q2R q - v) + v) by ring. eapply Rle_trans; [apply Rabs_triang|]. lra.
Qed.
Lemma tshift_rate T d : (0 < d)%Z -> in_sec (- (- T * d)) = IZR T / rate_of d.
Proof.
  intros Hd. unfold in_sec, rate_of. rewrite opp_IZR, mult_IZR, opp_IZR. assert (IZR d <> 0) by (apply not_0_IZR; lia). field. assumption.
Qed.
