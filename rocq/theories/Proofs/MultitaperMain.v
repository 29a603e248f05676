(** Windows and timing of multitaper deconvolution. *)
From Verif Require Import Model.Multitaper Spec.MultitaperSpec Proofs.SumFacts Proofs.PyFacts Proofs.CplxFacts Proofs.WaterFacts Proofs.MultitaperFacts.
From Coq Require Import Lra Lia Ring Qround Qreals Qabs Lqa.
Open Scope nat_scope.
Open Scope R_scope.

(** ** integers *)
Lemma int_of_floor q : (0 <= q)%Q -> int_of q = Qfloor q.
Proof. intros H. destruct q as [n d]. unfold int_of, Qfloor. cbn. apply Z.quot_div_nonneg; [unfold Qle in H; cbn in H; lia | lia]. Qed.
Lemma round_q_near x n : (Qabs (x - inject_Z n) < 1 # 2)%Q -> round_q x = n.
Proof.
  intros H. apply Qabs_Qlt_condition in H. destruct H as [H1 H2]. destruct x as [a d]. unfold round_q. cbn [Qnum Qden].
  assert (E1 : (2 * n * Zpos d - Zpos d < 2 * a)%Z).
  { unfold Qlt, Qminus, Qplus, Qopp, inject_Z in H1. cbn in H1. nia. }
  assert (E2 : (2 * a < 2 * n * Zpos d + Zpos d)%Z).
  { unfold Qlt, Qminus, Qplus, Qopp, inject_Z in H2. cbn in H2. nia. }
  pose proof (Z.div_mod a (Zpos d) ltac:(lia)) as D. pose proof (Z.mod_pos_bound a (Zpos d) ltac:(lia)) as B.
  set (f := (a / Zpos d)%Z) in *. set (r := (a mod Zpos d)%Z) in *.
  destruct (Z.ltb_spec (2 * r) (Zpos d)).
  - assert (f - n < 1 /\ n - f < 1)%Z by nia. lia.
  - destruct (Z.ltb_spec (Zpos d) (2 * r)).
    + assert (f + 1 - n < 1 /\ n - (f + 1) < 1)%Z by nia. lia.
    + exfalso. assert (2 * r = Zpos d)%Z as R2 by lia.
      assert (2 * a = (2 * f + 1) * Zpos d)%Z as A2 by (rewrite D, Z.mul_add_distr_l, R2; ring).
      rewrite A2 in E1, E2. assert (f < n)%Z by nia. assert (n < f + 1)%Z by nia. lia.
Qed.
Lemma window_count_floor ntap olap len : (0 < ntap)%nat -> (olap < 1)%Q ->
  window_count ntap (1 / (1 - olap)) len = Qfloor (inject_Z (Z.of_nat len) / ((1 - olap) * inject_Z (Z.of_nat ntap))).
Proof.
  intros Hn Ho. unfold window_count.
  assert (0 < 1 - olap)%Q as P by lra.
  assert (0 < inject_Z (Z.of_nat ntap))%Q as Pn by (change 0%Q with (inject_Z 0); rewrite <- Zlt_Qlt; lia).
  assert (E : (1 / (1 - olap) * inject_Z (Z.of_nat len) / inject_Z (Z.of_nat ntap) ==
               inject_Z (Z.of_nat len) / ((1 - olap) * inject_Z (Z.of_nat ntap)))%Q) by (field; split; lra).
  rewrite int_of_floor; [apply Qfloor_comp, E|]. rewrite E. apply Qle_shift_div_l.
  - apply Qmult_lt_0_compat; lra.
  - rewrite Qmult_0_l. change 0%Q with (inject_Z 0). rewrite <- Zle_Qle. lia.
Qed.
Lemma window_start_floor ntap olap j : (olap < 1)%Q ->
  window_start ntap (1 / (1 - olap)) j = Z.to_nat (Qfloor (inject_Z (Z.of_nat j) * ((1 - olap) * inject_Z (Z.of_nat ntap)))).
Proof.
  intros Ho. unfold window_start. assert (0 < 1 - olap)%Q as P by lra.
  assert (E : (inject_Z (Z.of_nat j * Z.of_nat ntap) / (1 / (1 - olap)) ==
               inject_Z (Z.of_nat j) * ((1 - olap) * inject_Z (Z.of_nat ntap)))%Q).
  { rewrite inject_Z_mult. field. lra. }
  rewrite int_of_floor; [f_equal; apply Qfloor_comp, E|]. rewrite E.
  apply Qmult_le_0_compat; [|apply Qmult_le_0_compat]; try lra; change 0%Q with (inject_Z 0); rewrite <- Zle_Qle; lia.
Qed.
(** length of the overlap-free part of a window *)
Definition hop (ntap : nat) (olap : Q) : Q := ((1 - olap) * inject_Z (Z.of_nat ntap))%Q.
Lemma hop_pos ntap olap : (0 < ntap)%nat -> (olap < 1)%Q -> (0 < hop ntap olap)%Q.
Proof. intros H1 H2. unfold hop. apply Qmult_lt_0_compat; [lra|]. change 0%Q with (inject_Z 0). rewrite <- Zlt_Qlt. lia. Qed.
Lemma window_count_pos ntap olap len : (0 < ntap)%nat -> (olap < 1)%Q -> (hop ntap olap <= inject_Z (Z.of_nat len))%Q ->
  (1 <= window_count ntap (1 / (1 - olap)) len)%Z.
Proof.
  intros Hn Ho H. rewrite window_count_floor by assumption. assert (P := hop_pos ntap olap Hn Ho). fold (hop ntap olap).
  change 1%Z with (Qfloor 1). apply Qfloor_resp_le. apply Qle_shift_div_l; [exact P|]. lra.
Qed.
Lemma window_inside ntap olap len j : (0 < ntap)%nat -> (olap < 1)%Q ->
  (Z.of_nat j < window_count ntap (1 / (1 - olap)) len)%Z ->
  (inject_Z (Z.of_nat (window_start ntap (1 / (1 - olap)) j + ntap)) <= inject_Z (Z.of_nat len) + olap * inject_Z (Z.of_nat ntap))%Q.
Proof.
  intros Hn Ho H. rewrite window_count_floor in H by assumption. rewrite window_start_floor by exact Ho.
  fold (hop ntap olap) in *. assert (P := hop_pos ntap olap Hn Ho).
  assert ((inject_Z (Z.of_nat j) + 1) * hop ntap olap <= inject_Z (Z.of_nat len))%Q as H1.
  { assert (inject_Z (Z.of_nat j + 1) <= inject_Z (Z.of_nat len) / hop ntap olap)%Q as H0.
    { eapply Qle_trans; [|apply Qfloor_le]. rewrite <- Zle_Qle. lia. }
    rewrite inject_Z_plus in H0. change (inject_Z 1) with 1%Q in H0.
    apply (Qmult_le_compat_r _ _ (hop ntap olap)) in H0; [|lra].
    assert (inject_Z (Z.of_nat len) / hop ntap olap * hop ntap olap == inject_Z (Z.of_nat len))%Q as E by (field; lra).
    rewrite E in H0. exact H0. }
  assert (0 <= inject_Z (Z.of_nat j) * hop ntap olap)%Q as H2.
  { apply Qmult_le_0_compat; [|lra]. change 0%Q with (inject_Z 0). rewrite <- Zle_Qle. lia. }
  assert (0 <= Qfloor (inject_Z (Z.of_nat j) * hop ntap olap))%Z as H3.
  { change 0%Z with (Qfloor 0). apply Qfloor_resp_le. exact H2. }
  rewrite Nat2Z.inj_add, Z2Nat.id, inject_Z_plus by exact H3.
  pose proof (Qfloor_le (inject_Z (Z.of_nat j) * hop ntap olap)) as H4.
  assert (hop ntap olap == inject_Z (Z.of_nat ntap) - olap * inject_Z (Z.of_nat ntap))%Q as E by (unfold hop; ring).
  lra.
Qed.

(** ** windows that fit *)
Lemma insert_window_fit nft js ntap w : (js + ntap <= nft)%nat -> length w = ntap ->
  insert_window nft js ntap w = Ok (zeros js ++ w ++ zeros (nft - (js + ntap))).
Proof.
  intros H Hw. unfold insert_window. rewrite (Nat.min_l js nft), (Nat.min_l (js + ntap) nft) by lia.
  replace (js + ntap - js)%nat with ntap by lia. rewrite Hw, Nat.eqb_refl. reflexivity.
Qed.
Lemma mapM_insert nft js ntap tap : (js + ntap <= nft)%nat -> Forall (fun w => length w = ntap) tap -> forall ws, length ws = length tap ->
  mapM (fun ww => let! b := insert_window nft js ntap (snd ww) in Ok (zipw Rplus (fst ww) b)) (combine ws tap) =
  Ok (map (fun ww => zipw Rplus (fst ww) (zeros js ++ snd ww ++ zeros (nft - (js + ntap)))) (combine ws tap)).
Proof.
  intros H Ht. induction Ht as [|t tap Hl Ht IH]; intros [|w ws] L; cbn in L; try lia; [reflexivity|].
  cbn [combine mapM map fst snd]. rewrite insert_window_fit by assumption. cbn [bind]. rewrite IH by lia. reflexivity.
Qed.
Theorem weights_ok skip nft ntap ofac nwin tap : Forall (fun w => length w = ntap) tap ->
  (skip = false -> forall j, (Z.of_nat j < nwin)%Z -> (window_start ntap ofac j + ntap <= nft)%nat) ->
  exists ws, weights skip nft ntap ofac nwin tap = Ok ws /\ length ws = length tap.
Proof.
  intros Ht H. unfold weights.
  assert (forall l ws, (forall j, In j l -> skip = false -> (window_start ntap ofac j + ntap <= nft)%nat) -> length ws = length tap ->
    exists ws', foldM (fun ws j => let js := window_start ntap ofac j in
           if skip && negb (js + ntap <? nft)%nat then Ok ws
           else mapM (fun ww => let! b := insert_window nft js ntap (snd ww) in Ok (zipw Rplus (fst ww) b)) (combine ws tap)) l ws = Ok ws' /\ length ws' = length tap) as G.
  { induction l as [|j l IH]; intros ws Hl L; cbn [foldM]; [exists ws; auto|].
    destruct (skip && negb (window_start ntap ofac j + ntap <? nft)%nat) eqn:E.
    - cbn [bind]. apply IH; [intros; apply Hl; cbn; auto | exact L].
    - assert (window_start ntap ofac j + ntap <= nft)%nat as F.
      { destruct skip; [|apply Hl; cbn; auto]. cbn in E. apply Bool.negb_false_iff, Nat.ltb_lt in E. lia. }
      cbn zeta. rewrite mapM_insert by assumption. cbn [bind]. apply IH; [intros; apply Hl; cbn; auto|].
      rewrite map_length, combine_length. lia. }
  apply G; [|rewrite map_length; reflexivity]. intros j Hj Hs. apply in_seq in Hj. apply H; [exact Hs | lia].
Qed.
Lemma flip_signs_rows n tap : Forall (fun w => length w = n) tap -> Forall (fun w => length w = n) (flip_signs tap) /\ length (flip_signs tap) = length tap.
Proof.
  intros H. unfold flip_signs. destruct tap as [|a [|b [|c r]]]; auto; split; auto;
    repeat match goal with H : Forall _ (_ :: _) |- _ => inversion H; clear H; subst end; repeat constructor; rewrite ?map_length; auto.
Qed.
Lemma float_fac_ok num nwin nft : (1 <= nwin)%Z -> (0 < nft)%nat -> float_fac num nwin nft = Ok (INR num / IZR (nwin * Z.of_nat nft)).
Proof. intros H1 H2. unfold float_fac. destruct (Z.eqb_spec (nwin * Z.of_nat nft) 0); [nia | reflexivity]. Qed.
Lemma pad_to_ok nft x : (length x <= nft)%nat -> pad_to nft x = Ok (x ++ zeros (nft - length x)).
Proof. intros H. unfold pad_to. apply Nat.leb_le in H. rewrite H. reflexivity. Qed.

(** no failure except for numbers that are not finite *)
Definition fine {A} (r : res A) : Prop := (exists a, r = Ok a) \/ r = Err OtherError.
Lemma setup_fine slepians nft src rate K tband T olap n : proper_tapers slepians -> taper_samples T rate n ->
  (0 < rate)%Q -> (0 <= olap < 1)%Q -> (0 < nft)%nat ->
  (hop n olap <= inject_Z (Z.of_nat (length src)))%Q ->
  (inject_Z (Z.of_nat (length src)) + olap * inject_Z (Z.of_nat n) <= inject_Z (Z.of_nat nft))%Q ->
  exists s, mt_setup slepians nft src rate K tband T olap = Ok s /\ s_ntap s = n /\ s_ofac s = (1 / (1 - olap))%Q /\
    s_tap s = flip_signs (fst (slepians n tband K)) /\ s_el s = snd (slepians n tband K).
Proof.
  intros Hp [Hn HT] Hr Ho Hft H1 H2. unfold mt_setup.
  destruct (Qeq_bool rate 0) eqn:E; [apply Qeq_bool_iff in E; lra|].
  rewrite (round_q_near _ _ HT). destruct (Z.leb_spec (Z.of_nat n) 0); [lia|]. rewrite Nat2Z.id.
  destruct (Qeq_bool olap 1) eqn:E1; [apply Qeq_bool_iff in E1; lra|].
  destruct (Hp n tband K) as (P1 & P2 & P3 & P4).
  destruct (flip_signs_rows n _ P2) as [F1 F2].
  assert (length src <= nft)%nat as L.
  { assert (inject_Z (Z.of_nat (length src)) <= inject_Z (Z.of_nat nft))%Q as Q1.
    { assert (0 <= olap * inject_Z (Z.of_nat n))%Q; [|lra]. apply Qmult_le_0_compat; [lra|].
      change 0%Q with (inject_Z 0). rewrite <- Zle_Qle. lia. }
    rewrite <- Zle_Qle in Q1. lia. }
  rewrite pad_to_ok by (rewrite detrend2_length; exact L). cbn [bind].
  set (x := detrend2 src ++ zeros (nft - length (detrend2 src))).
  assert (length x = nft) as Lx by (unfold x; rewrite app_length, detrend2_length, zeros_length; lia).
  destruct (estimate_weights false nft n (1 / (1 - olap)) (window_count n (1 / (1 - olap)) (length src)) (flip_signs (fst (slepians n tband K))) x Lx) as [E2 _].
  rewrite E2.
  destruct (weights_ok false nft n (1 / (1 - olap)) (window_count n (1 / (1 - olap)) (length src)) (flip_signs (fst (slepians n tband K))) F1) as (ws & -> & _).
  { intros _ j Hj. pose proof (window_inside n olap (length src) j Hn ltac:(lra) Hj) as W.
    assert (inject_Z (Z.of_nat (window_start n (1 / (1 - olap)) j + n)) <= inject_Z (Z.of_nat nft))%Q as W2 by lra.
    rewrite <- Zle_Qle in W2. lia. }
  cbn [bind]. rewrite float_fac_ok; [|apply window_count_pos; [exact Hn|lra|exact H1]|exact Hft].
  cbn [bind]. eexists. split; [reflexivity|]. cbn. auto.
Qed.
Lemma component_fine nft n dt tshift olap gauss tap el nwav sfft dat nos : (0 < n)%nat -> (olap < 1)%Q -> (0 < nft)%nat ->
  Forall (fun w => length w = n) tap -> Forall (fun r => length r = nft) sfft -> length dat = nft ->
  (hop n olap <= inject_Z (Z.of_nat (length nos)))%Q -> (length nos <= nft)%nat -> (2 * hop n olap <= inject_Z (Z.of_nat nft))%Q ->
  fine (mt_component nft n dt tshift (1 / (1 - olap)) gauss tap el nwav sfft dat nos).
Proof.
  intros Hn Ho Hft Ht Hs Hd H1 H2 H3. rewrite mt_component_form by assumption. unfold mt_prep.
  rewrite pad_to_ok by (rewrite detrend2_length; exact H2). cbn [bind]. rewrite detrend2_length.
  set (x := detrend2 nos ++ zeros (nft - length nos)).
  assert (length x = nft) as Lx by (unfold x; rewrite app_length, detrend2_length, zeros_length; lia).
  destruct (estimate_weights true nft n (1 / (1 - olap)) (window_count n (1 / (1 - olap)) (length nos)) tap x Lx) as [E2 _].
  rewrite E2.
  destruct (weights_ok true nft n (1 / (1 - olap)) (window_count n (1 / (1 - olap)) (length nos)) tap Ht) as (ws & -> & _); [discriminate|].
  cbn [bind]. rewrite float_fac_ok; [|apply window_count_pos; assumption|exact Hft]. cbn [bind].
  destruct (some_zero el); [right; reflexivity|].
  destruct (weights_ok true nft n (1 / (1 - olap)) (window_count n (1 / (1 - olap)) nft - 1) tap Ht) as (wd & -> & _); [discriminate|].
  cbn [bind]. rewrite float_fac_ok; [| |exact Hft].
  2:{ assert (2 <= window_count n (1 / (1 - olap)) nft)%Z; [|lia]. rewrite window_count_floor by assumption. fold (hop n olap).
      assert (P := hop_pos n olap Hn Ho). change 2%Z with (Qfloor 2). apply Qfloor_resp_le. apply Qle_shift_div_l; [exact P | lra]. }
  cbn [bind]. destruct (some_zero _); [right; reflexivity|].
  destruct gauss as [g|]; [destruct (Req_EM_T g 0); [right; reflexivity|]|]; left; eexists; reflexivity.
Qed.
Lemma component_ok nft n dt tshift olap gauss tap el nwav sfft dat nos : (0 < n)%nat -> (olap < 1)%Q -> (0 < nft)%nat ->
  Forall (fun w => length w = n) tap -> Forall (fun r => length r = nft) sfft -> length dat = nft ->
  (hop n olap <= inject_Z (Z.of_nat (length nos)))%Q -> (length nos <= nft)%nat -> (2 * hop n olap <= inject_Z (Z.of_nat nft))%Q ->
  Forall (fun e => 0 < e) el -> gauss <> Some 0 -> (forall k, (k < nft)%nat -> exists r, In r sfft /\ nth k r Czero <> Czero) ->
  exists o, mt_component nft n dt tshift (1 / (1 - olap)) gauss tap el nwav sfft dat nos = Ok o.
Proof.
  intros Hn Ho Hft Ht Hs Hd H1 H2 H3 Hel Hg Hnz. rewrite mt_component_form by assumption. unfold mt_prep.
  rewrite pad_to_ok by (rewrite detrend2_length; exact H2). cbn [bind]. rewrite detrend2_length.
  set (x := detrend2 nos ++ zeros (nft - length nos)).
  assert (length x = nft) as Lx by (unfold x; rewrite app_length, detrend2_length, zeros_length; lia).
  destruct (estimate true nft n (1 / (1 - olap)) (window_count n (1 / (1 - olap)) (length nos)) tap x) as [nfft|e] eqn:En.
  2:{ destruct (estimate_weights true nft n (1 / (1 - olap)) (window_count n (1 / (1 - olap)) (length nos)) tap x Lx) as [E2 _].
      rewrite E2 in En.
      destruct (weights_ok true nft n (1 / (1 - olap)) (window_count n (1 / (1 - olap)) (length nos)) tap Ht) as (ws & Ew & _); [discriminate|].
      rewrite Ew in En. discriminate. }
  apply estimate_rows in En; [|exact Lx].
  cbn [bind]. rewrite float_fac_ok; [|apply window_count_pos; assumption|exact Hft]. cbn [bind].
  set (fac := INR nwav / _).
  assert (some_zero el = false) as ->.
  { apply some_zero_false. rewrite Forall_forall in Hel. intros e He. apply Rgt_not_eq, Hel, He. }
  destruct (weights_ok true nft n (1 / (1 - olap)) (window_count n (1 / (1 - olap)) nft - 1) tap Ht) as (wd & -> & _); [discriminate|].
  cbn [bind]. rewrite float_fac_ok; [| |exact Hft].
  2:{ assert (2 <= window_count n (1 / (1 - olap)) nft)%Z; [|lia]. rewrite window_count_floor by assumption. fold (hop n olap).
      assert (P := hop_pos n olap Hn Ho). change 2%Z with (Qfloor 2). apply Qfloor_resp_le. apply Qle_shift_div_l; [exact P | lra]. }
  cbn [bind].
  assert (Forall (fun r => length r = nft) (map (map (Cscal fac)) nfft)) as Hr.
  { apply Forall_map. eapply Forall_impl; [|exact En]. intros r Hr. rewrite map_length. exact Hr. }
  match goal with |- context [some_zero ?t] => assert (some_zero t = false) as -> end.
  { rewrite (cross_sum_tab nft sfft sfft Hs Hs), (noise_power_tab nft _ el Hr), zipw_tabulate. apply some_zero_false.
    intros y Hy. apply In_tabulate in Hy. destruct Hy as (k & Hk & <-).
    apply Rgt_not_eq. apply Rplus_lt_le_0_compat.
    - destruct (Hnz k Hk) as (r & Hin & Hne). clear - Hin Hne.
      assert (N : forall l, 0 <= fst (lsum (fun p => Cmul (nth k (fst p) Czero) (Cconj (nth k (snd p) Czero))) (combine l l))).
      { induction l as [|u l IH]; cbn [combine lsum fold_right fst snd]; [cbn; apply Rle_refl|].
        change (fold_right _ Czero (combine l l)) with (lsum (fun p : list cplx * list cplx => Cmul (nth k (fst p) Czero) (Cconj (nth k (snd p) Czero))) (combine l l)).
        rewrite Cmul_conj. pose proof (Cnorm2_pos (nth k u Czero)). cbn [Cadd fst RtoC]. Lra.lra. }
      induction sfft as [|u l IH]; [destruct Hin|]. cbn [combine lsum fold_right fst snd].
      change (fold_right _ Czero (combine l l)) with (lsum (fun p : list cplx * list cplx => Cmul (nth k (fst p) Czero) (Cconj (nth k (snd p) Czero))) (combine l l)).
      rewrite Cmul_conj. pose proof (Cnorm2_pos (nth k u Czero)). cbn [Cadd fst RtoC]. specialize (N l).
      destruct Hin as [->|Hin]; [|specialize (IH Hin); Lra.lra].
      assert (Cnorm2 (nth k r Czero) <> 0); [|Lra.lra].
      intros G. apply Hne. destruct (nth k r Czero) as [a b]. unfold Cnorm2 in G. cbn in G.
      assert (a = 0) by Lra.nra. assert (b = 0) by Lra.nra. subst. reflexivity.
    - unfold lrsum. clear - Hel. generalize (map (map (Cscal fac)) nfft). intros l. revert l.
      induction Hel as [|e el He Hel IH]; intros [|r l]; cbn [combine fold_right fst snd]; try apply Rle_refl.
      specialize (IH l). apply Rplus_le_le_0_compat; [|exact IH].
      apply Rmult_le_pos; [apply Cnorm2_pos | left; apply Rinv_0_lt_compat, He]. }
  destruct gauss as [g|]; [destruct (Req_EM_T g 0); [congruence|]|]; eexists; reflexivity.
Qed.
Lemma mapM_fine {A B} (f : A -> res B) l : (forall x, In x l -> fine (f x)) -> fine (mapM f l).
Proof.
  induction l as [|x l IH]; intros H; cbn [mapM]; [left; eexists; reflexivity|].
  destruct (H x ltac:(cbn; auto)) as [(a & ->)| ->]; cbn [bind]; [|right; reflexivity].
  destruct IH as [(b & ->)| ->]; [intros; apply H; cbn; auto| |]; cbn [bind]; [left; eexists; reflexivity | right; reflexivity].
Qed.

(** ** windows without overlap *)
Lemma start_no_overlap ntap olap j : (olap == 0)%Q -> window_start ntap (1 / (1 - olap)) j = (j * ntap)%nat.
Proof.
  intros H. rewrite window_start_floor by lra.
  assert (inject_Z (Z.of_nat j) * ((1 - olap) * inject_Z (Z.of_nat ntap)) == inject_Z (Z.of_nat (j * ntap)))%Q as E.
  { rewrite H, Nat2Z.inj_mul, inject_Z_mult. ring. }
  rewrite (Qfloor_comp _ _ E), Qfloor_Z. lia.
Qed.
Lemma count_no_overlap ntap olap len : (0 < ntap)%nat -> (olap == 0)%Q -> window_count ntap (1 / (1 - olap)) len = Z.of_nat (len / ntap).
Proof.
  intros Hn H. rewrite window_count_floor by (assumption || lra).
  assert (inject_Z (Z.of_nat len) / ((1 - olap) * inject_Z (Z.of_nat ntap)) == Z.of_nat len # Pos.of_nat ntap)%Q as E.
  { rewrite H. assert (inject_Z (Z.of_nat ntap) == inject_Z (Zpos (Pos.of_nat ntap)))%Q as -> by (replace (Zpos (Pos.of_nat ntap)) with (Z.of_nat ntap) by lia; reflexivity).
    rewrite (Qmake_Qdiv (Z.of_nat len)). assert (~ inject_Z (Zpos (Pos.of_nat ntap)) == 0)%Q.
    { intros F. unfold Qeq in F. discriminate F. }
    field. exact H0. }
  rewrite (Qfloor_comp _ _ E). cbn. replace (Zpos (Pos.of_nat ntap)) with (Z.of_nat ntap) by lia. rewrite Nat2Z.inj_div. reflexivity.
Qed.
(** taper w repeated nwin times *)
Definition tiled (nft ntap nwin : nat) (w : list R) : list R :=
  tabulate nft (fun i => if (i <? nwin * ntap)%nat then nth (i mod ntap) w 0 else 0).
Lemma tiled_step nft ntap k w : (0 < ntap)%nat -> length w = ntap -> (k * ntap + ntap <= nft)%nat ->
  zipw Rplus (tiled nft ntap k w) (zeros (k * ntap) ++ w ++ zeros (nft - (k * ntap + ntap))) = tiled nft ntap (S k) w.
Proof.
  intros Hn Hw H. set (z := zeros (k * ntap) ++ w ++ zeros (nft - (k * ntap + ntap))).
  assert (length z = nft) as Lz by (unfold z; rewrite !app_length, !zeros_length; lia).
  rewrite (list_tabulate z 0), Lz. unfold tiled. rewrite zipw_tabulate. apply tabulate_ext. intros i Hi. unfold z.
  destruct (Nat.ltb_spec i (k * ntap)) as [A|A], (Nat.ltb_spec i (S k * ntap)) as [B|B]; cbn in B; try lia.
  - rewrite app_nth1 by (rewrite zeros_length; exact A). unfold zeros. rewrite nth_repeat. ring.
  - rewrite app_nth2 by (rewrite zeros_length; exact A). rewrite zeros_length, app_nth1 by lia.
    assert (i - k * ntap = i mod ntap)%nat as ->.
    { apply (Nat.mod_unique i ntap k); lia. }
    ring.
  - rewrite app_nth2 by (rewrite zeros_length; exact A). rewrite zeros_length, app_nth2 by lia. unfold zeros. rewrite nth_repeat. ring.
Qed.
Lemma weights_tiled skip nft ntap olap nwin tap : (0 < ntap)%nat -> (olap == 0)%Q -> Forall (fun w => length w = ntap) tap ->
  (nwin * ntap <= nft)%nat -> (skip = true -> (nwin * ntap < nft)%nat) ->
  weights skip nft ntap (1 / (1 - olap)) (Z.of_nat nwin) tap = Ok (map (tiled nft ntap nwin) tap).
Proof.
  intros Hn Ho Ht. unfold weights. rewrite Nat2Z.id.
  assert (map (fun _ : list R => zeros nft) tap = map (tiled nft ntap 0) tap) as ->.
  { apply map_ext. intros w. unfold tiled, zeros. rewrite repeat_tabulate. reflexivity. }
  induction nwin as [|k IH]; intros H1 H2; [reflexivity|].
  rewrite seq_S, foldM_app, IH by (cbn in *; try lia; intros E; specialize (H2 E); lia). clear IH. cbn [bind foldM Nat.add].
  cbn zeta. rewrite start_no_overlap by exact Ho.
  assert (skip && negb (k * ntap + ntap <? nft)%nat = false) as ->.
  { destruct skip; [|reflexivity]. cbn. specialize (H2 eq_refl). cbn in H2. apply Bool.negb_false_iff, Nat.ltb_lt. lia. }
  rewrite mapM_insert; [| cbn in H1; lia | exact Ht | apply map_length]. cbn [bind]. f_equal.
  clear H2. induction Ht as [|w tap Hw Ht IH]; [reflexivity|]. cbn [map combine fst snd]. rewrite IH, tiled_step by (assumption || (cbn in H1; lia)). reflexivity.
Qed.

(** ** a delayed source *)
From Coq Require Import Lra.
Lemma fft_delay n x m k : (0 < n)%nat -> fft_at n (fun i => x (wrap n (Z.of_nat i - m))) k = Cmul (unit n (- (Z.of_nat k * m))) (fft_at n x k).
Proof.
  intros Hn. unfold fft_at. rewrite <- csum_mul_l.
  rewrite (csum_ext n (fun j => Cmul (x (wrap n (Z.of_nat j - m))) (unit n (- (Z.of_nat k * Z.of_nat j))))
    (fun j => (fun i => Cmul (unit n (- (Z.of_nat k * m))) (Cmul (x i) (unit n (- (Z.of_nat k * Z.of_nat i))))) (wrap n (Z.of_nat j + - m)))).
  - apply (csum_shift n Hn (fun i => Cmul (unit n (- (Z.of_nat k * m))) (Cmul (x i) (unit n (- (Z.of_nat k * Z.of_nat i)))))).
  - intros j _. replace (Z.of_nat j + - m)%Z with (Z.of_nat j - m)%Z by ring.
    replace (- (Z.of_nat k * Z.of_nat (wrap n (Z.of_nat j - m))))%Z with ((- Z.of_nat k) * Z.of_nat (wrap n (Z.of_nat j - m)))%Z by ring.
    rewrite (unit_wrap n Hn).
    replace (- (Z.of_nat k * Z.of_nat j))%Z with (- (Z.of_nat k * m) + - Z.of_nat k * (Z.of_nat j - m))%Z by ring.
    rewrite (unit_add n Hn). ring.
Qed.
Lemma nth_delayed a src b i : nth i (zeros a ++ src ++ zeros b) 0 = if (a <=? i)%nat then nth (i - a) src 0 else 0.
Proof.
  destruct (Nat.leb_spec a i) as [A|A].
  - rewrite app_nth2 by (rewrite zeros_length; exact A). rewrite zeros_length.
    destruct (Nat.lt_ge_cases (i - a) (length src)) as [B|B]; [apply app_nth1, B|].
    rewrite app_nth2 by exact B. unfold zeros. rewrite nth_repeat, nth_overflow by exact B. reflexivity.
  - rewrite app_nth1 by (rewrite zeros_length; exact A). unfold zeros. apply nth_repeat.
Qed.
Lemma trendless_pad a src b : trendless src -> trendless (zeros a ++ src ++ zeros b).
Proof.
  intros [H1 H2]. assert (length (zeros a ++ src ++ zeros b) = a + (length src + b))%nat as L by (rewrite !app_length, !zeros_length; reflexivity).
  assert (forall g : nat -> R, rsum (a + (length src + b)) (fun i => g i * nth i (zeros a ++ src ++ zeros b) 0) = rsum (length src) (fun i => g (a + i)%nat * nth i src 0)) as G.
  { intros g. rewrite !rsum_split. rewrite (rsum_zero a).
    2:{ intros i Hi. rewrite nth_delayed. destruct (Nat.leb_spec a i); [lia | ring]. }
    rewrite (rsum_zero b).
    2:{ intros i Hi. rewrite nth_delayed. destruct (Nat.leb_spec a (a + (length src + i))); [|lia]. rewrite nth_overflow by lia. ring. }
    rewrite Rplus_0_l, Rplus_0_r. apply rsum_ext. intros i Hi. rewrite nth_delayed. destruct (Nat.leb_spec a (a + i)); [|lia].
    replace (a + i - a)%nat with i by lia. reflexivity. }
  split; rewrite L.
  - rewrite (rsum_ext _ _ (fun i => 1 * nth i (zeros a ++ src ++ zeros b) 0)) by (intros; ring). rewrite (G (fun _ => 1)).
    etransitivity; [|exact H1]. apply rsum_ext. intros; ring.
  - rewrite (G INR). rewrite (rsum_ext _ _ (fun i => INR a * nth i src 0 + INR i * nth i src 0)) by (intros; rewrite plus_INR; ring).
    rewrite rsum_plus, rsum_scal, H1, H2. ring.
Qed.
Lemma trendless_detrend x : trendless x -> detrend2 x = x.
Proof. intros [H1 H2]. apply detrend2_id; assumption. Qed.

(** the tapered response is the delayed tapered source *)
Lemma tapered_delay nft ntap v q rest nw src w k : (0 < ntap)%nat -> length src = (v * ntap)%nat ->
  nft = (q * ntap + v * ntap + rest)%nat -> (q + v <= nw)%nat -> (nw * ntap <= nft)%nat -> (0 < nft)%nat ->
  fft_at nft (rsig (zipw Rmult (tiled nft ntap nw w) (zeros (q * ntap) ++ src ++ zeros rest))) k =
  Cmul (unit nft (- (Z.of_nat k * Z.of_nat (q * ntap)))) (fft_at nft (rsig (zipw Rmult (tiled nft ntap v w) (src ++ zeros (nft - length src)))) k).
Proof.
  intros Hn Hs Hft Hq Hw Hp. rewrite <- (fft_delay nft _ _ k Hp). apply fft_ext. intros i Hi. unfold rsig. f_equal.
  assert (wrap nft (Z.of_nat i - Z.of_nat (q * ntap)) < nft)%nat as Wl by (apply wrap_lt; exact Hp).
  rewrite !(zipw_nth2 Rmult 0 0) by (unfold tiled; rewrite ?tabulate_length, ?app_length, ?zeros_length; lia).
  unfold tiled. rewrite !nth_tabulate by assumption. rewrite nth_delayed.
  change (src ++ zeros (nft - length src)) with (zeros 0 ++ src ++ zeros (nft - length src)). rewrite nth_delayed. cbn [Nat.leb]. rewrite Nat.sub_0_r.
  destruct (Nat.leb_spec (q * ntap) i) as [A|A].
  - assert (wrap nft (Z.of_nat i - Z.of_nat (q * ntap)) = i - q * ntap)%nat as ->.
    { rewrite <- Nat2Z.inj_sub by exact A. apply wrap_small; lia. }
    destruct (Nat.ltb_spec (i - q * ntap) (v * ntap)) as [B|B].
    + destruct (Nat.ltb_spec i (nw * ntap)) as [F|F]; [|nia].
      assert (i mod ntap = (i - q * ntap) mod ntap)%nat as ->; [|reflexivity].
      rewrite <- (Nat.mod_add (i - q * ntap) q ntap) by lia. f_equal. lia.
    + rewrite (nth_overflow src) by lia.  ring.
  - rewrite Rmult_0_r. symmetry.
    assert (wrap nft (Z.of_nat i - Z.of_nat (q * ntap)) = nft + i - q * ntap)%nat as ->.
    { unfold wrap. rewrite <- (Z.mod_unique (Z.of_nat i - Z.of_nat (q * ntap)) (Z.of_nat nft) (-1) (Z.of_nat (nft + i - q * ntap))); lia. }
    rewrite (nth_overflow src) by lia. ring.
Qed.

Lemma rsum_pos n a k : (forall i, (i < n)%nat -> 0 <= a i) -> (k < n)%nat -> 0 < a k -> 0 < rsum n a.
Proof.
  induction n as [|n IH]; intros H Hk P; [lia|]. cbn [rsum]. assert (0 <= rsum n a) by (apply rsum_nonneg; intros; apply H; lia).
  destruct (Nat.eq_dec k n) as [->|]; [lra|]. assert (0 < rsum n a) by (apply IH; [intros; apply H; lia | lia | exact P]). assert (0 <= a n) by (apply H; lia). lra.
Qed.
(** a spectrum a_k exp(2 pi i k m / n) with a_k >= 0 has its maximum at one sample *)
Lemma fst_ifft n X j : fst (ifft_at n X j) = / INR n * rsum n (fun k => fst (Cmul (X k) (unit n (Z.of_nat k * Z.of_nat j)))).
Proof. unfold ifft_at. cbn [Cscal fst]. rewrite csum_fst. reflexivity. Qed.
Lemma peak_bound n (a : nat -> R) X m : (0 < n)%nat -> (forall k, (k < n)%nat -> 0 <= a k) ->
  (forall k, (k < n)%nat -> X k = Cscal (a k) (unit n (Z.of_nat k * (Z.of_nat m + 1)))) -> (m < n)%nat ->
  nth m (mt_out n X) 0 = / INR n * rsum n a /\ 0 <= / INR n * rsum n a /\
  (forall i, (i < n)%nat -> Rabs (nth i (mt_out n X) 0) <= / INR n * rsum n a) /\
  (0 < a 0%nat -> forall i, (i < n)%nat -> - (/ INR n * rsum n a) < nth i (mt_out n X) 0).
Proof.
  intros Hn Ha HX Hm.
  assert (P : 0 < / INR n) by (apply Rinv_0_lt_compat, lt_0_INR; exact Hn).
  assert (S0 : 0 <= rsum n a) by (apply rsum_nonneg, Ha).
  assert (E : forall i, (i < n)%nat -> nth i (mt_out n X) 0 = / INR n * rsum n (fun k => a k * fst (unit n (Z.of_nat k * (Z.of_nat m - Z.of_nat i))))).
  { intros i Hi. unfold mt_out. rewrite nth_tabulate by exact Hi. rewrite fst_ifft. f_equal. apply rsum_ext. intros k Hk.
    rewrite HX by exact Hk. rewrite <- Cscal_Cmul, <- (unit_add n Hn). cbn [Cscal fst]. do 2 f_equal. apply (unit_cong n Hn).
    replace (Z.of_nat (n - 1 - i)) with (Z.of_nat n - 1 - Z.of_nat i)%Z by lia.
    replace (Z.of_nat k * (Z.of_nat m + 1) + Z.of_nat k * (Z.of_nat n - 1 - Z.of_nat i))%Z with (Z.of_nat k * (Z.of_nat m - Z.of_nat i) + Z.of_nat k * Z.of_nat n)%Z by ring.
    apply Z_mod_plus_full. }
  repeat split.
  - rewrite E by exact Hm. f_equal. apply rsum_ext. intros k Hk. rewrite Z.sub_diag, Z.mul_0_r, (unit_0 n Hn). cbn. ring.
  - apply Rmult_le_pos; lra.
  - intros i Hi. rewrite E by exact Hi. rewrite Rabs_mult, (Rabs_pos_eq (/ INR n)) by lra. apply Rmult_le_compat_l; [lra|].
    assert (B : forall k, (k < n)%nat -> - a k <= a k * fst (unit n (Z.of_nat k * (Z.of_nat m - Z.of_nat i))) <= a k).
    { intros k Hk. specialize (Ha k Hk). unfold unit, cis. cbn [fst]. set (c := cos _). assert (-1 <= c <= 1) by (apply COS_bound). split; nra. }
    apply Rabs_le. split.
    + replace (- rsum n a) with (rsum n (fun k => - a k)); [apply rsum_le; intros; apply B; assumption|].
      rewrite (rsum_ext n (fun k => - a k) (fun k => -1 * a k)) by (intros; ring). rewrite rsum_scal. ring.
    + apply rsum_le. intros; apply B; assumption.
  - intros H0 i Hi. rewrite E by exact Hi. set (c := fun k => fst (unit n (Z.of_nat k * (Z.of_nat m - Z.of_nat i)))).
    assert (C0 : c 0%nat = 1) by (unfold c; rewrite Z.mul_0_l, (unit_0 n Hn); reflexivity).
    assert (B : forall k, -1 <= c k <= 1) by (intros k; unfold c, unit, cis; cbn [fst]; apply COS_bound).
    assert (S1 : 0 < rsum n (fun k => a k + a k * c k)).
    { apply (rsum_pos n _ 0%nat); [|lia|rewrite C0; lra]. intros k Hk. specialize (Ha k Hk). specialize (B k). nra. }
    rewrite rsum_plus in S1. change (fun k => a k * fst (unit n (Z.of_nat k * (Z.of_nat m - Z.of_nat i)))) with (fun k => a k * c k).
    apply Ropp_lt_cancel. rewrite Ropp_involutive, <- Ropp_mult_distr_r_reverse. apply Rmult_lt_compat_l; lra.
Qed.
Lemma lsum_scal_R {A} (c : cplx) (f : A -> R) l : lsum (fun x => Cmul (RtoC (f x)) c) l = Cmul (RtoC (lrsum f l)) c.
Proof. unfold lsum, lrsum. induction l as [|x l IH]; cbn [fold_right]; [cring|]. rewrite IH, RtoC_add. ring. Qed.
Lemma lrsum_nonneg {A} (f : A -> R) l : (forall x, In x l -> 0 <= f x) -> 0 <= lrsum f l.
Proof. unfold lrsum. induction l as [|x l IH]; intros H; cbn; [lra|]. pose proof (H x ltac:(cbn; auto)). assert (0 <= fold_right (fun x acc => f x + acc) 0 l) by (apply IH; intros; apply H; cbn; auto). lra. Qed.
Lemma lrsum_pos {A} (f : A -> R) l x : (forall x, In x l -> 0 <= f x) -> In x l -> 0 < f x -> 0 < lrsum f l.
Proof.
  intros H. induction l as [|y l IH]; intros Hin Hx; [destruct Hin|]. cbn [lrsum fold_right]. fold (lrsum f l).
  assert (0 <= lrsum f l) by (apply lrsum_nonneg; intros; apply H; cbn; auto).
  destruct Hin as [->|Hin]; [lra|]. assert (0 < lrsum f l) by (apply IH; auto; intros; apply H; cbn; auto). assert (0 <= f y) by (apply H; cbn; auto). lra.
Qed.
Lemma max_abs_ge a i : (i < length a)%nat -> Rabs (nth i a 0) <= max_abs a.
Proof.
  unfold max_abs. revert i. induction a as [|x a IH]; intros [|i] H; cbn in *; try lia; [apply Rmax_l|].
  eapply Rle_trans; [apply IH; lia | apply Rmax_r].
Qed.
Lemma max_abs_lub a m : 0 <= m -> (forall i, (i < length a)%nat -> Rabs (nth i a 0) <= m) -> max_abs a <= m.
Proof.
  unfold max_abs. induction a as [|x a IH]; intros H0 H; cbn; [exact H0|]. apply Rmax_lub; [apply (H 0%nat); cbn; lia|].
  apply IH; [exact H0|]. intros i Hi. apply (H (S i)). cbn. lia.
Qed.
Lemma prep_total nft ntap ofac gauss tap el nwav sfft nos wd total fd : Forall (fun r => length r = nft) sfft -> Forall (fun e => 0 < e) el ->
  mt_prep nft ntap ofac gauss tap el nwav sfft nos = Ok (wd, total, fd) -> forall q, (q < nft)%nat -> 0 < nth q total 0.
Proof.
  intros Hs Hel. unfold mt_prep. destruct (pad_to _ _) as [np|] eqn:Ep; [|discriminate]. cbn [bind]. apply pad_to_length in Ep.
  destruct (estimate _ _ _ _ _ _ _) as [nfft|] eqn:En; [|discriminate]. cbn [bind]. apply estimate_rows in En; [|exact Ep].
  destruct (float_fac nwav _ _) as [fac|]; [|discriminate]. cbn [bind]. destruct (some_zero el); [discriminate|].
  destruct (weights _ _ _ _ _ _) as [wd'|]; [|discriminate]. cbn [bind].
  destruct (float_fac nft _ _) as [fd'|]; [|discriminate]. cbn [bind]. destruct (some_zero (zipw _ _ _)) eqn:Ez; [discriminate|].
  intros E q Hq. assert (total = zipw (fun z s => fst z + s) (cross_sum nft sfft sfft) (noise_power nft (map (map (Cscal fac)) nfft) el)) as ->.
  { destruct gauss as [g|]; [destruct (Req_EM_T g 0); [discriminate|]|]; injection E as _ <- _; reflexivity. }
  assert (Forall (fun r => length r = nft) (map (map (Cscal fac)) nfft)) as Hr.
  { apply Forall_map. eapply Forall_impl; [|exact En]. intros r Hr. rewrite map_length. exact Hr. }
  rewrite (cross_sum_tab nft sfft sfft Hs Hs), (noise_power_tab nft _ el Hr), zipw_tabulate in Ez.
  rewrite (cross_sum_tab nft sfft sfft Hs Hs), (noise_power_tab nft _ el Hr), zipw_tabulate.
  rewrite nth_tabulate by exact Hq.
  match goal with |- 0 < ?t => assert (0 <= t) as P; [|assert (t <> 0); [|lra]] end.
  - assert (0 <= fst (lsum (fun p => Cmul (nth q (fst p) Czero) (Cconj (nth q (snd p) Czero))) (combine sfft sfft))) as P1.
    { clear. induction sfft as [|r l IH]; cbn [combine lsum fold_right fst snd]; [cbn; lra|].
      change (fold_right _ Czero (combine l l)) with (lsum (fun p : list cplx * list cplx => Cmul (nth q (fst p) Czero) (Cconj (nth q (snd p) Czero))) (combine l l)).
      rewrite Cmul_conj. pose proof (Cnorm2_pos (nth q r Czero)). cbn [Cadd fst RtoC]. lra. }
    assert (0 <= lrsum (fun p : list cplx * R => Cnorm2 (nth q (fst p) Czero) / snd p) (combine (map (map (Cscal fac)) nfft) el)) as P2; [|lra].
    apply lrsum_nonneg. intros [r e] Hin. apply in_combine_r in Hin. rewrite Forall_forall in Hel. specialize (Hel e Hin). cbn [fst snd].
    apply Rmult_le_pos; [apply Cnorm2_pos | left; apply Rinv_0_lt_compat, Hel].
  - rewrite some_zero_false in Ez. apply Ez. apply In_tabulate. exists q. split; [exact Hq | reflexivity].
Qed.
Lemma mt_G_pos n dt gauss k : 0 < mt_G n dt gauss k.
Proof. unfold mt_G. destruct gauss; [apply exp_pos | lra]. Qed.

Lemma combine_maps {A B D} (f : A -> B) (g : A -> D) l : combine (map f l) (map g l) = map (fun w => (f w, g w)) l.
Proof. induction l as [|x l IH]; cbn; [reflexivity|]. rewrite IH. reflexivity. Qed.
Theorem timing_raw slepians nft nwav src rate K tband T olap s tshift gauss ntap v q rest t nos o :
  proper_tapers slepians -> taper_samples T rate ntap -> ~ (rate == 0)%Q -> (olap == 0)%Q ->
  trendless src -> length src = (v * ntap)%nat -> (0 < v)%nat -> nft = (q * ntap + v * ntap + rest)%nat -> (ntap <= rest)%nat ->
  (q * ntap + t < nft)%nat -> tshift = IZR (- Z.of_nat t) * (1 / Q2R rate) ->
  mt_setup slepians nft src rate K tband T olap = Ok s ->
  mt_at nft nwav (1 / Q2R rate) tshift gauss s (zeros (q * ntap) ++ src ++ zeros rest) nos = Ok o ->
  length o = nft /\ exists P, 0 <= P /\ nth (q * ntap + t) o 0 = P /\ (forall i, (i < nft)%nat -> Rabs (nth i o 0) <= P) /\
    ((exists k r, (k < nft)%nat /\ In r (s_src s) /\ nth k r Czero <> Czero) -> 0 < P) /\
    ((exists r, In r (s_src s) /\ nth 0 r Czero <> Czero) -> forall i, (i < nft)%nat -> - P < nth i o 0).
Proof.
  intros Hp [Hn HT] Hr Ho Htr Hsrc Hv Hft Hrest Ht Hts Hset Hat.
  assert (Hnft : (0 < nft)%nat) by lia.
  assert (Hd0 : 1 / Q2R rate <> 0).
  { assert (Q2R rate <> 0). { intros F. apply Hr. apply eqR_Qeq. rewrite F, RMicromega.Q2R_0. reflexivity. }
    unfold Rdiv. rewrite Rmult_1_l. apply Rinv_neq_0_compat. assumption. }
  assert (Rows := setup_rows _ _ _ _ _ _ _ _ _ Hset).
  unfold mt_setup in Hset. destruct (Qeq_bool rate 0); [discriminate|].
  rewrite (round_q_near _ _ HT) in Hset. destruct (Z.leb_spec (Z.of_nat ntap) 0) as [B|B]; [lia|]. rewrite Nat2Z.id in Hset.
  destruct (Qeq_bool olap 1) eqn:E1; [discriminate|].
  destruct (Hp ntap tband K) as (P1 & P2 & P3 & P4).
  destruct (flip_signs_rows ntap _ P2) as [F1 F2]. set (tap := flip_signs (fst (slepians ntap tband K))) in *.
  rewrite (trendless_detrend src Htr) in Hset.
  rewrite pad_to_ok in Hset by lia. cbn [bind] in Hset.
  assert (length (src ++ zeros (nft - length src)) = nft) as Lp by (rewrite app_length, zeros_length; lia).
  rewrite (proj1 (estimate_weights _ _ _ _ _ _ _ Lp)) in Hset.
  rewrite count_no_overlap in Hset by assumption.
  assert (length src / ntap = v)%nat as Ev by (rewrite Hsrc; apply Nat.div_mul; lia).
  rewrite Ev in Hset. rewrite weights_tiled in Hset by (assumption || lia || discriminate). cbn [bind] in Hset.
  rewrite float_fac_ok in Hset by lia. cbn [bind] in Hset. injection Hset as <-. cbn [s_src] in Rows.
  unfold mt_at in Hat. cbn [s_ntap s_ofac s_tap s_el s_src] in Hat.
  set (fs := INR (length src) / IZR (Z.of_nat v * Z.of_nat nft)) in *.
  assert (Ld : length (zeros (q * ntap) ++ src ++ zeros rest) = nft) by (rewrite !app_length, !zeros_length; lia).
  rewrite mt_component_form in Hat by assumption.
  destruct (mt_prep _ _ _ _ _ _ _ _ _) as [[[wd total] fd]|] eqn:E; [|discriminate]. cbn [bind] in Hat.
  assert (Tpos := prep_total _ _ _ _ _ _ _ _ _ _ _ _ Rows P4 E).
  apply prep_weights in E. destruct E as (Ew & _ & Ef).
  assert (Q1 : (q + v + 1 <= nft / ntap)%nat).
  { apply Nat.div_le_lower_bound; [lia|]. rewrite Hft. nia. }
  assert (Q2 : (nft / ntap * ntap <= nft)%nat) by (rewrite Nat.mul_comm; apply Nat.mul_div_le; lia).
  rewrite count_no_overlap in Ew, Ef by assumption.
  replace (Z.of_nat (nft / ntap) - 1)%Z with (Z.of_nat (nft / ntap - 1)) in Ew, Ef by lia.
  set (nw := (nft / ntap - 1)%nat) in *.
  assert (Q3 : (nw * ntap < nft)%nat) by (unfold nw; rewrite Nat.mul_sub_distr_r; nia).
  rewrite weights_tiled in Ew by (assumption || lia). injection Ew as <-.
  rewrite float_fac_ok in Ef by lia. injection Ef as <-. injection Hat as <-.
  rewrite (trendless_detrend _ (trendless_pad _ _ _ Htr)).
  split; [apply tabulate_length|].
  set (fd := INR nft / IZR (Z.of_nat nw * Z.of_nat nft)).
  assert (Hfs : 0 <= fs).
  { unfold fs. apply Rmult_le_pos; [apply pos_INR|]. left. apply Rinv_0_lt_compat. apply (IZR_lt 0). nia. }
  assert (Hfd : 0 <= fd).
  { unfold fd. apply Rmult_le_pos; [apply pos_INR|]. left. apply Rinv_0_lt_compat. apply (IZR_lt 0). nia. }
  set (F := fun w k => fft_at nft (rsig (zipw Rmult (tiled nft ntap v w) (src ++ zeros (nft - length src)))) k).
  set (a := fun k => mt_G nft (1 / Q2R rate) gauss k * (/ nth k total 0 * (lrsum (fun w => fs * fd * Cnorm2 (F w k)) tap))).
  assert (Ha : forall k, (k < nft)%nat -> 0 <= a k).
  { intros k Hk. unfold a. apply Rmult_le_pos; [left; apply mt_G_pos|]. apply Rmult_le_pos; [left; apply Rinv_0_lt_compat, Tpos, Hk|].
    apply lrsum_nonneg. intros w _. apply Rmult_le_pos; [apply Rmult_le_pos; assumption | apply Cnorm2_pos]. }
  exists (/ INR nft * rsum nft a).
  destruct (peak_bound nft a (mt_spec nft (1 / Q2R rate) tshift gauss total
     (mt_num nft (map (map (Cscal fs)) (map (wspec nft (src ++ zeros (nft - length src))) (map (tiled nft ntap v) tap)))
        (map (tiled nft ntap nw) tap) fd (zeros (q * ntap) ++ src ++ zeros rest))) (q * ntap + t) Hnft Ha) as (R1 & R2 & R3 & R4); [|lia|].
  - intros k Hk. unfold mt_spec, mt_num. rewrite !map_map, combine_maps, lsum_map. cbn [fst snd].
    rewrite (lsum_ext _ (fun w => Cmul (RtoC (fs * fd * Cnorm2 (F w k))) (unit nft (Z.of_nat k * Z.of_nat (q * ntap))))).
    2:{ intros w Hw. unfold wspec. rewrite fft_tab, map_tabulate, nth_tabulate by exact Hk.
        rewrite (tapered_delay nft ntap v q rest nw) by lia. fold (F w k).
        rewrite Cconj_scal, Cconj_mul, <- (unit_opp nft Hnft), Z.opp_involutive.
        rewrite !RtoC_mul, <- Cmul_conj, !Cscal_mul. ring. }
    rewrite lsum_scal_R.
    assert (tshift - 1 / Q2R rate = IZR (- Z.of_nat t - 1) * (1 / Q2R rate)) as ->.
    { rewrite Hts, minus_IZR. ring. }
    rewrite wl_F_unit by assumption.
    replace (- (Z.of_nat k * (- Z.of_nat t - 1)))%Z with (Z.of_nat k * (Z.of_nat t + 1))%Z by ring.
    replace (Z.of_nat k * (Z.of_nat (q * ntap + t) + 1))%Z with (Z.of_nat k * Z.of_nat (q * ntap) + Z.of_nat k * (Z.of_nat t + 1))%Z by lia.
    rewrite (unit_add nft Hnft). unfold a. rewrite !Cscal_mul, !RtoC_mul. ring.
  - assert (Apos : forall k r, (k < nft)%nat -> In r (map (map (Cscal fs)) (map (wspec nft (src ++ zeros (nft - length src))) (map (tiled nft ntap v) tap))) ->
              nth k r Czero <> Czero -> 0 < a k).
    { intros k r Hk Hin Hne. unfold a. apply Rmult_lt_0_compat; [apply mt_G_pos|]. apply Rmult_lt_0_compat; [apply Rinv_0_lt_compat, Tpos, Hk|].
      rewrite !map_map in Hin. apply in_map_iff in Hin. destruct Hin as (w & <- & Hw).
      unfold wspec in Hne. rewrite fft_tab, map_tabulate, nth_tabulate in Hne by exact Hk. fold (F w k) in Hne.
      assert (Hfs' : 0 < fs).
      { destruct Hfs as [|Z]; [assumption|]. exfalso. apply Hne. rewrite <- Z. unfold Cscal, Czero. f_equal; ring. }
      assert (Hfd' : 0 < fd).
      { unfold fd. apply Rmult_lt_0_compat; [apply lt_0_INR, Hnft|]. apply Rinv_0_lt_compat. apply (IZR_lt 0). nia. }
      apply (lrsum_pos _ tap w); [|exact Hw|].
      + intros u _. apply Rmult_le_pos; [apply Rmult_le_pos; assumption | apply Cnorm2_pos].
      + apply Rmult_lt_0_compat; [apply Rmult_lt_0_compat; assumption|]. destruct (Cnorm2_pos (F w k)) as [G|G]; [exact G|].
        exfalso. apply Hne. symmetry in G. destruct (F w k) as [u v']. unfold Cnorm2 in G. cbn in G.
        assert (u = 0) by nra. assert (v' = 0) by nra. subst. unfold Cscal, Czero. cbn. f_equal; ring. }
    split; [exact R2|]. split; [exact R1|]. split; [exact R3|]. cbn [s_src]. split.
    + intros (k & r & Hk & Hin & Hne). apply Rmult_lt_0_compat; [apply Rinv_0_lt_compat, lt_0_INR, Hnft|].
      apply (rsum_pos nft a k Ha Hk). exact (Apos k r Hk Hin Hne).
    + intros (r & Hin & Hne). apply R4. exact (Apos 0%nat r Hnft Hin Hne).
Qed.
Lemma scale_nth c a i : nth i (scale c a) 0 = c * nth i a 0.
Proof. unfold scale. rewrite <- (Rmult_0_r c) at 1. apply map_nth. Qed.
