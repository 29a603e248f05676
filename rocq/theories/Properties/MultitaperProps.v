(** C38, C92-C95: multitaper deconvolution. *)
From Verif Require Import Model.Multitaper Spec.MultitaperSpec Proofs.SumFacts Proofs.PyFacts Proofs.CplxFacts Proofs.WaterFacts
  Proofs.MultitaperFacts Proofs.MultitaperMain.
From Coq Require Import Lra Lia Qround Qreals Qabs.
Open Scope nat_scope.
Open Scope R_scope.

(** number of samples as a rational number *)
Definition samples (n : nat) : Q := inject_Z (Z.of_nat n).

(** ** C38: windows *)
(** Tapers with n samples and overlap olap. If source and noise are at least as long as
    the part of a window that does not overlap, the response is longer than the source by the
    overlap, and at least two such parts long, then nothing fails, except that
    quotients of spectra may not be numbers. *)
Theorem C38_partial slepians rsp src nse rate tshift gauss K tband T olap normalize n nft :
  proper_tapers slepians -> taper_samples T rate n -> (0 < rate)%Q -> (0 <= olap < 1)%Q ->
  rsp <> [] -> Forall (fun r => length r = nft) rsp -> (length src < nft)%nat ->
  (length rsp <= length nse)%nat -> Forall (fun x => ((1 - olap) * samples n <= samples (length x))%Q /\ (length x <= nft)%nat) nse ->
  ((1 - olap) * samples n <= samples (length src))%Q ->
  (samples (length src) + olap * samples n <= samples nft)%Q ->
  (2 * ((1 - olap) * samples n) <= samples nft)%Q ->
  (forall i, normalize = Some i -> (i < length rsp)%nat) ->
  (exists out, deconv_multitaper slepians rsp src nse rate tshift gauss K tband T olap normalize = Ok out) \/
  deconv_multitaper slepians rsp src nse rate tshift gauss K tband T olap normalize = Err OtherError.
Proof.
  intros Hp HT Hr Ho Hne Hrsp Hsrc Hlen Hnse H1 H2 H3 Hnorm.
  destruct rsp as [|r0 rsp]; [congruence|]. destruct nse as [|n0 nse]; [cbn in Hlen; lia|].
  assert (length r0 = nft) as L0 by (inversion Hrsp; assumption).
  assert (length n0 <= nft)%nat as L1 by (inversion Hnse as [|? ? [_ A] _]; exact A).
  rewrite deconv_eq, L0.
  assert ((length src <? nft)%nat = true) as -> by (apply Nat.ltb_lt; exact Hsrc).
  assert ((length n0 <=? nft)%nat = true) as -> by (apply Nat.leb_le; exact L1). cbn [negb].
  destruct (setup_fine slepians nft src rate K tband T olap n Hp HT Hr Ho ltac:(lia) H1 H2) as (s & E & E1 & E2 & E3 & E4).
  rewrite E. cbn [bind]. destruct HT as [Hn _]. assert (Rows := setup_rows _ _ _ _ _ _ _ _ _ E).
  destruct (Hp n tband K) as (_ & P2 & _). destruct (flip_signs_rows n _ P2) as [F1 _].
  assert (fine (mt_raw nft (length src) (1 / Q2R rate) tshift gauss s (r0 :: rsp) (n0 :: nse))) as F.
  { unfold mt_raw. apply mapM_fine. intros c Hc. apply in_seq in Hc.
    destruct (nth_error (n0 :: nse) c) as [nos|] eqn:En.
    2:{ apply nth_error_None in En. cbn in *. lia. }
    apply nth_error_In in En. rewrite Forall_forall in Hnse. destruct (Hnse nos En) as [A B].
    unfold mt_at. rewrite E1, E2, E3.
    apply component_fine; try assumption; try (apply Ho); try lia.
    rewrite Forall_forall in Hrsp. apply Hrsp. apply nth_In. lia. }
  destruct F as [(out & Eo)| ->]; [|right; reflexivity]. rewrite Eo. cbn [bind]. unfold mt_normalize.
  destruct normalize as [i|]; [|left; eexists; reflexivity].
  destruct (nth_error out i) as [a|] eqn:Ea.
  - destruct (Req_EM_T (max_abs a) 0); [right; reflexivity | left; eexists; reflexivity].
  - exfalso. apply nth_error_None in Ea. destruct (raw_spec _ _ _ _ _ _ _ _ _ Eo) as [L _]. specialize (Hnorm i eq_refl). lia.
Qed.

(** The asserted lengths are not enough: 20 s source, 21 s response at 1 Hz and the default
    windows (10 s, overlap 0.75) are a shape error ... *)
Theorem C38_refuted slepians r src x tshift gauss tband normalize : proper_tapers slepians ->
  length r = 21%nat -> length src = 20%nat -> length x = 20%nat ->
  deconv_multitaper slepians [r] src [x] 1 tshift gauss 3 tband 10 (3 # 4) normalize = Err ValueError.
Proof.
  intros Hp Lr Ls Lx. rewrite deconv_eq, Lr, Ls, Lx. cbn [Nat.ltb Nat.leb negb].
  unfold mt_setup. rewrite Ls. change (Qeq_bool 1 0) with false. change (round_q (10 * 1)) with 10%Z. change (10 <=? 0)%Z with false.
  change (Qeq_bool (3 # 4) 1) with false. change (Z.to_nat 10) with 10%nat. cbv iota. cbn zeta.
  change (window_count 10 (1 / (1 - (3 # 4))) 20) with 8%Z.
  rewrite pad_to_ok by (rewrite detrend2_length; lia). cbn [bind].
  assert (length (detrend2 src ++ zeros (21 - length (detrend2 src))) = 21%nat) as L by (rewrite app_length, detrend2_length, zeros_length; lia).
  rewrite (proj1 (estimate_weights _ _ _ _ _ _ _ L)).
  destruct (Hp 10%nat tband 3%nat) as (P1 & P2 & _). destruct (flip_signs_rows 10 _ P2) as [F1 F2]. rewrite P1 in F2.
  destruct (flip_signs (fst (slepians 10%nat tband 3%nat))) as [|w ws]; [discriminate|].
  replace (weights false 21 10 (1 / (1 - (3 # 4))) 8 (w :: ws)) with (Err ValueError : res (list (list R))); [reflexivity|].
  inversion F1 as [|? ? W Ws]; subst. symmetry. unfold weights. change (Z.to_nat 8) with 8%nat.
  change (seq 0 8) with ([0; 1; 2; 3; 4] ++ [5; 6; 7])%nat. rewrite foldM_app.
  destruct (weights_ok false 21 10 (1 / (1 - (3 # 4))) 5 (w :: ws) F1) as (u & E & Lu).
  { intros _ j Hj. assert (j < 5)%nat as Hj' by lia. do 5 (destruct j as [|j]; [vm_compute; lia|]). lia. }
  unfold weights in E. change (seq 0 (Z.to_nat 5)) with [0; 1; 2; 3; 4]%nat in E. rewrite E. cbn [bind foldM].
  destruct u as [|u0 us]; [discriminate|]. change (window_start 10 (1 / (1 - (3 # 4))) 5) with 12%nat. cbn [andb combine mapM fst snd].
  unfold insert_window at 1. change (Nat.min (12 + 10) 21 - Nat.min 12 21)%nat with 9%nat. rewrite W. cbn [Nat.eqb].
  destruct w as [|x1 [|x2 w]]; cbn [length] in W; try discriminate W; try lia. reflexivity.
Qed.
(** ... and noise of less than 2.5 s a division by zero. *)
Theorem C38_noise_refuted slepians r src x tshift gauss tband normalize : proper_tapers slepians ->
  length r = 60%nat -> length src = 40%nat -> length x = 2%nat ->
  deconv_multitaper slepians [r] src [x] 1 tshift gauss 3 tband 10 (3 # 4) normalize = Err ZeroDivisionError.
Proof.
  intros Hp Lr Ls Lx. rewrite deconv_eq, Lr, Ls, Lx. change (negb (40 <? 60)%nat) with false. change (negb (2 <=? 60)%nat) with false. cbv iota.
  destruct (setup_fine slepians 60 src 1 3 tband 10 (3 # 4) 10 Hp) as (s & E & E1 & E2 & E3 & E4).
  - split; [lia | reflexivity].
  - reflexivity.
  - split; [vm_compute; discriminate | reflexivity].
  - lia.
  - rewrite Ls. vm_compute. discriminate.
  - rewrite Ls. vm_compute. discriminate.
  - rewrite E. cbn [bind]. rewrite mt_raw_one. unfold mt_at, mt_component. rewrite E1, E2, E3, detrend2_length, Lx.
    rewrite pad_to_ok by (rewrite detrend2_length; lia). cbn [bind].
    change (window_count 10 (1 / (1 - (3 # 4))) 2) with 0%Z.
    assert (length (detrend2 x ++ zeros (60 - length (detrend2 x))) = 60%nat) as L by (rewrite app_length, detrend2_length, zeros_length; lia).
    rewrite (proj1 (estimate_weights _ _ _ _ _ _ _ L)). cbn [weights]. unfold weights. cbn [Z.to_nat seq foldM bind]. reflexivity.
Qed.

(** ** C92: components are independent of each other, results are linear *)
Theorem C92_components slepians rsp src nse rate tshift gauss K tband T olap out nft :
  Forall (fun r => length r = nft) rsp ->
  deconv_multitaper slepians rsp src nse rate tshift gauss K tband T olap None = Ok out ->
  length out = length rsp /\
  forall c, (c < length rsp)%nat -> length (nth c out []) = nft /\
    deconv_multitaper slepians [nth c rsp []] src [nth c nse []] rate tshift gauss K tband T olap None = Ok [nth c out []].
Proof.
  intros Hl E. destruct rsp as [|r0 rsp]; [discriminate|]. destruct nse as [|n0 nse].
  { cbn in E. destruct (negb _); discriminate. }
  rewrite deconv_eq in E. inversion Hl as [|? ? L0 _]; subst. set (nft := length r0) in *.
  destruct (negb (length src <? nft)%nat) eqn:A1; [discriminate|]. destruct (negb (length n0 <=? nft)%nat); [discriminate|].
  destruct (mt_setup _ _ _ _ _ _ _ _) as [s|] eqn:Es; [|discriminate E]. cbn [bind] in E.
  destruct (mt_raw _ _ _ _ _ _ _ _) as [o|] eqn:Eo; [|discriminate]. cbn [bind mt_normalize] in E. injection E as <-.
  destruct (raw_spec _ _ _ _ _ _ _ _ _ Eo) as (L & Ln & Hc). split; [exact L|]. intros c H. specialize (Hc c H).
  assert (length (nth c (r0 :: rsp) []) = nft) as Lc.
  { rewrite Forall_forall in Hl. apply Hl. apply nth_In. exact H. }
  rewrite deconv_eq, Lc, A1. assert (Hc' := Hc). unfold mt_at in Hc'.
  rewrite mt_component_form in Hc' by (assumption || exact (setup_rows _ _ _ _ _ _ _ _ _ Es)).
  unfold mt_prep at 1 in Hc'.
  assert (length (nth c (n0 :: nse) []) <= nft)%nat as Lno.
  { unfold pad_to in Hc'. rewrite detrend2_length in Hc'. destruct (Nat.leb_spec (length (nth c (n0 :: nse) [])) nft); [assumption | discriminate]. }
  assert ((length (nth c (n0 :: nse) []) <=? nft)%nat = true) as -> by (apply Nat.leb_le; exact Lno). cbn [negb].
  fold nft. rewrite Es. cbn [bind]. rewrite mt_raw_one, Hc. cbn [bind]. split; [|reflexivity].
  clear Hc'. unfold mt_at in Hc. rewrite mt_component_form in Hc by (assumption || exact (setup_rows _ _ _ _ _ _ _ _ _ Es)).
  destruct (mt_prep _ _ _ _ _ _ _ _ _) as [[[wd total] fd]|]; [|discriminate]. cbn [bind] in Hc. injection Hc as <-.
  apply tabulate_length.
Qed.
Theorem C92_linear slepians x y src nos rate tshift gauss K tband T olap a b ox oy :
  length y = length x ->
  deconv_multitaper slepians [x] src [nos] rate tshift gauss K tband T olap None = Ok [ox] ->
  deconv_multitaper slepians [y] src [nos] rate tshift gauss K tband T olap None = Ok [oy] ->
  deconv_multitaper slepians [lincomb a x b y] src [nos] rate tshift gauss K tband T olap None = Ok [lincomb a ox b oy].
Proof.
  intros L. rewrite !deconv_eq, lincomb_length, L by exact L.
  destruct (negb _); [discriminate|]. destruct (negb _); [discriminate|].
  destruct (mt_setup _ _ _ _ _ _ _ _) as [s|] eqn:Es; [|discriminate]. cbn [bind]. rewrite !mt_raw_one.
  destruct (mt_at _ _ _ _ _ s x nos) as [o1|] eqn:E1; [|discriminate]. destruct (mt_at _ _ _ _ _ s y nos) as [o2|] eqn:E2; [|discriminate].
  cbn [bind mt_normalize]. intros [= <-] [= <-].
  rewrite (mt_at_lin _ _ _ _ _ _ _ a x b y o1 o2 (setup_rows _ _ _ _ _ _ _ _ _ Es) eq_refl L E1 E2). reflexivity.
Qed.

(** ** C93: offsets and linear trends have no influence *)
Lemma component_trend nft ntap dt tshift ofac gauss tap el nwav sfft a b dat a' b' nos :
  mt_component nft ntap dt tshift ofac gauss tap el nwav sfft (add_trend a b dat) (add_trend a' b' nos) =
  mt_component nft ntap dt tshift ofac gauss tap el nwav sfft dat nos.
Proof. unfold mt_component. rewrite !detrend2_trend. reflexivity. Qed.
Lemma add_trends_cons ab x l : exists l', add_trends ab (x :: l) = add_trend (fst (ab 0%nat)) (snd (ab 0%nat)) x :: l'.
Proof. unfold add_trends. cbn [length seq map nth]. eexists. reflexivity. Qed.
Lemma add_trends_length ab l : length (add_trends ab l) = length l.
Proof. unfold add_trends. rewrite map_length. apply seq_length. Qed.
Lemma add_trends_nth ab l c : (c < length l)%nat -> nth c (add_trends ab l) [] = add_trend (fst (ab c)) (snd (ab c)) (nth c l []).
Proof.
  intros H. unfold add_trends. rewrite (nth_indep _ [] ((fun c => add_trend (fst (ab c)) (snd (ab c)) (nth c l [])) 0%nat)) by (rewrite map_length, seq_length; exact H).
  rewrite (map_nth (fun c => add_trend (fst (ab c)) (snd (ab c)) (nth c l []))). rewrite seq_nth by exact H. reflexivity.
Qed.
Lemma raw_trend nft nwav dt tshift gauss st fr rsp fn nse :
  mt_raw nft nwav dt tshift gauss st (add_trends fr rsp) (add_trends fn nse) = mt_raw nft nwav dt tshift gauss st rsp nse.
Proof.
  unfold mt_raw. rewrite add_trends_length.
  assert (forall c, In c (seq 0 (length rsp)) -> (c < length rsp)%nat) as Hl by (intros c Hc; apply in_seq in Hc; lia).
  revert Hl. induction (seq 0 (length rsp)) as [|c l IH]; intros Hl; [reflexivity|]. cbn [mapM].
  rewrite IH by (intros; apply Hl; cbn; auto). assert (Hc := Hl c ltac:(cbn; auto)). f_equal.
  destruct (Nat.lt_ge_cases c (length nse)) as [B|B].
  - rewrite (nth_error_nth' _ [] B). rewrite (nth_error_nth' (add_trends fn nse) []) by (rewrite add_trends_length; exact B).
    rewrite !add_trends_nth by assumption. unfold mt_at. apply component_trend.
  - rewrite !(proj2 (nth_error_None _ _)); [reflexivity | exact B | rewrite add_trends_length; exact B].
Qed.
Lemma setup_trend slepians nft a b src rate K tband T olap :
  mt_setup slepians nft (add_trend a b src) rate K tband T olap = mt_setup slepians nft src rate K tband T olap.
Proof. unfold mt_setup. rewrite detrend2_trend, add_trend_length. reflexivity. Qed.
Theorem C93_detrended slepians rsp src nse rate tshift gauss K tband T olap normalize fr a b fn :
  deconv_multitaper slepians (add_trends fr rsp) (add_trend a b src) (add_trends fn nse) rate tshift gauss K tband T olap normalize =
  deconv_multitaper slepians rsp src nse rate tshift gauss K tband T olap normalize.
Proof.
  destruct rsp as [|r0 rsp]; [reflexivity|]. destruct nse as [|n0 nse].
  { destruct (add_trends_cons fr r0 rsp) as (l & ->). cbn [add_trends length seq map deconv_multitaper]. rewrite !add_trend_length. reflexivity. }
  destruct (add_trends_cons fr r0 rsp) as (lr & Er). destruct (add_trends_cons fn n0 nse) as (ln & En).
  rewrite Er, En, !deconv_eq, !add_trend_length, <- Er, <- En, setup_trend.
  destruct (negb _); [reflexivity|]. destruct (negb _); [reflexivity|].
  destruct (mt_setup _ _ _ _ _ _ _ _); [|reflexivity]. cbn [bind]. rewrite raw_trend. reflexivity.
Qed.

(** ** C94: normalization *)
Lemma max_abs_attained a : a <> [] -> exists i, (i < length a)%nat /\ Rabs (nth i a 0) = max_abs a.
Proof.
  unfold max_abs. induction a as [|x a IH]; [congruence|]. intros _. cbn [map fold_right].
  destruct a as [|y a].
  - exists 0%nat. cbn. split; [lia|]. rewrite Rmax_left; [reflexivity | apply Rabs_pos].
  - destruct IH as (i & Hi & E); [discriminate|]. destruct (Rle_dec (fold_right Rmax 0 (map Rabs (y :: a))) (Rabs x)) as [H|H].
    + exists 0%nat. split; [cbn; lia|]. cbn [nth]. rewrite Rmax_left; auto.
    + exists (S i). split; [cbn in *; lia|]. change (nth (S i) (x :: y :: a) 0) with (nth i (y :: a) 0). rewrite E. symmetry. apply Rmax_right. apply Rlt_le, Rnot_le_lt, H.
Qed.
Lemma max_abs_nonneg a : 0 <= max_abs a.
Proof. unfold max_abs. destruct a as [|x a]; cbn; [apply Rle_refl|]. eapply Rle_trans; [apply Rabs_pos | apply Rmax_l]. Qed.
(** All results are multiplied with the same positive number, so that the largest absolute
    value of result i is 1. *)
Theorem C94_normalized slepians rsp src nse rate tshift gauss K tband T olap i out nft :
  Forall (fun r => length r = nft) rsp ->
  deconv_multitaper slepians rsp src nse rate tshift gauss K tband T olap (Some i) = Ok out ->
  exists raw k, deconv_multitaper slepians rsp src nse rate tshift gauss K tband T olap None = Ok raw /\
    0 < k /\ (i < length raw)%nat /\ out = map (fun a => lincomb k a 0 a) raw /\ peak_abs (nth i out []) 1.
Proof.
  intros Hl E. destruct rsp as [|r0 rsp]; [discriminate|]. destruct nse as [|n0 nse].
  { cbn in E. destruct (negb _); discriminate. }
  rewrite deconv_eq in E. rewrite deconv_eq.
  destruct (negb (length src <? length r0)%nat); [discriminate|]. destruct (negb (length n0 <=? length r0)%nat); [discriminate|].
  destruct (mt_setup _ _ _ _ _ _ _ _) as [s|]; [|discriminate]. cbn [bind] in *.
  destruct (mt_raw _ _ _ _ _ _ _ _) as [raw|] eqn:Eo; [|discriminate]. cbn [bind mt_normalize] in *.
  destruct (nth_error raw i) as [a|] eqn:Ea; [|discriminate]. destruct (Req_EM_T (max_abs a) 0) as [|N]; [discriminate|].
  injection E as <-. assert (P := max_abs_nonneg a). assert (P' : 0 < max_abs a) by (destruct P; [assumption | congruence]).
  assert (Pk : 0 < 1 / max_abs a) by (unfold Rdiv; rewrite Rmult_1_l; apply Rinv_0_lt_compat; exact P').
  assert (Hi : (i < length raw)%nat) by (apply nth_error_Some; congruence).
  exists raw, (1 / max_abs a). split; [reflexivity|]. split; [exact Pk|]. split; [exact Hi|]. split.
  { apply map_ext. intros x. symmetry. unfold lincomb, scale. induction x as [|u x IH]; [reflexivity|]. cbn. f_equal; [ring | exact IH]. }
  assert (nth i (map (scale (1 / max_abs a)) raw) [] = scale (1 / max_abs a) a) as ->.
  { change (@nil R) with (scale (1 / max_abs a) []). rewrite map_nth. f_equal. exact (nth_error_nth _ _ [] Ea). }
  assert (F : forall j, Rabs (nth j (scale (1 / max_abs a) a) 0) = Rabs (nth j a 0) / max_abs a).
  { intros j. rewrite scale_nth, Rabs_mult, Rabs_pos_eq by (apply Rlt_le; exact Pk). unfold Rdiv. ring. }
  split.
  - intros j Hj. rewrite scale_length in Hj. rewrite F. apply Rmult_le_reg_r with (max_abs a); [exact P'|].
    unfold Rdiv. rewrite Rmult_assoc, Rinv_l, Rmult_1_r, Rmult_1_l by exact N. apply max_abs_ge, Hj.
  - destruct (max_abs_attained a) as (j & Hj & Ej).
    { intros ->. apply N. reflexivity. }
    exists j. rewrite scale_length. split; [exact Hj|]. rewrite F, Ej. unfold Rdiv. apply Rinv_r, N.
Qed.

(** multiplying all responses with the same positive number does not matter *)
Lemma lincomb_scale k x : lincomb k x 0 x = scale k x.
Proof. unfold lincomb, scale. induction x as [|u x IH]; [reflexivity|]. cbn. f_equal; [ring | exact IH]. Qed.
Lemma max_abs_scale k a : 0 < k -> max_abs (scale k a) = k * max_abs a.
Proof.
  intros Hk. unfold max_abs, scale. induction a as [|x a IH]; cbn [map fold_right]; [ring|].
  rewrite IH, Rabs_mult, (Rabs_pos_eq k) by lra. apply RmaxRmult. lra.
Qed.
Lemma raw_scale nft nwav dt tshift gauss s rsp nse k raw : Forall (fun r => length r = nft) rsp -> Forall (fun r => length r = nft) (s_src s) ->
  mt_raw nft nwav dt tshift gauss s rsp nse = Ok raw ->
  mt_raw nft nwav dt tshift gauss s (map (fun r => lincomb k r 0 r) rsp) nse = Ok (map (scale k) raw).
Proof.
  intros Hl Hs E. destruct (raw_spec _ _ _ _ _ _ _ _ _ E) as (L1 & L2 & H). unfold mt_raw. rewrite map_length.
  apply mapM_ok_Forall2. rewrite <- L1 in *.
  assert (G : forall m, (m <= length raw)%nat -> Forall2 (fun (x : nat) (y : list R) =>
     match nth_error nse x with None => Err IndexError
     | Some nos => mt_at nft nwav dt tshift gauss s (nth x (map (fun r => lincomb k r 0 r) rsp) []) nos end = Ok y)
     (seq 0 m) (firstn m (map (scale k) raw))).
  { induction m as [|m IH]; intros Hm; [constructor|]. rewrite seq_S. cbn [Nat.add].
    assert (Hn : nth_error (map (scale k) raw) m = Some (scale k (nth m raw []))).
    { rewrite (nth_error_nth' _ (scale k [])) by (rewrite map_length; lia). rewrite map_nth. reflexivity. }
    assert (firstn (S m) (map (scale k) raw) = firstn m (map (scale k) raw) ++ [scale k (nth m raw [])]) as ->.
    { clear - Hn. revert Hn. generalize (scale k (nth m raw [])). intros v. revert m. induction (map (scale k) raw) as [|u l IH]; intros [|m] Hn; cbn in *; try discriminate; [congruence|].
      f_equal. apply IH. exact Hn. }
    apply Forall2_app; [apply IH; lia|]. constructor; [|constructor].
    rewrite (nth_error_nth' nse []) by lia.
    change (@nil R) with (lincomb k [] 0 []) at 1. rewrite (map_nth (fun r => lincomb k r 0 r)).
    assert (F : length (nth m rsp []) = nft) by (rewrite Forall_forall in Hl; apply Hl, nth_In; lia).
    rewrite <- lincomb_scale. apply mt_at_lin; try assumption; apply H; lia. }
  specialize (G (length raw) (le_n _)). rewrite firstn_all2 in G by (rewrite map_length; lia). rewrite <- ?L1. exact G.
Qed.
Theorem C94_gain slepians rsp src nse rate tshift gauss K tband T olap i out nft k :
  Forall (fun r => length r = nft) rsp -> 0 < k ->
  deconv_multitaper slepians rsp src nse rate tshift gauss K tband T olap (Some i) = Ok out ->
  deconv_multitaper slepians (map (fun r => lincomb k r 0 r) rsp) src nse rate tshift gauss K tband T olap (Some i) = Ok out.
Proof.
  intros Hl Hk E. destruct rsp as [|r0 rsp]; [discriminate|]. destruct nse as [|n0 nse].
  { cbn in E. destruct (negb _); discriminate. }
  rewrite deconv_eq in E. cbn [map]. rewrite deconv_eq, lincomb_length by reflexivity.
  assert (length r0 = nft) as L0 by (inversion Hl; assumption). rewrite L0 in *.
  destruct (negb _); [discriminate|]. destruct (negb _); [discriminate|].
  destruct (mt_setup _ _ _ _ _ _ _ _) as [s|] eqn:Es; [|discriminate]. cbn [bind] in *.
  destruct (mt_raw _ _ _ _ _ _ _ _) as [raw|] eqn:Er; [|discriminate]. cbn [bind] in E.
  assert (Rows := setup_rows _ _ _ _ _ _ _ _ _ Es).
  apply (raw_scale _ _ _ _ _ _ _ _ k) in Er; try assumption. cbn [map] in Er. rewrite Er. cbn [bind mt_normalize] in *.
  rewrite nth_error_map. destruct (nth_error raw i) as [a|]; [|discriminate]. cbn [option_map].
  rewrite max_abs_scale by exact Hk.
  destruct (Req_EM_T (max_abs a) 0) as [|N]; [discriminate|]. injection E as <-.
  destruct (Req_EM_T (k * max_abs a) 0) as [Z|_]; [apply Rmult_integral in Z; destruct Z; [lra|contradiction]|].
  f_equal. rewrite map_map. apply map_ext. intros x. unfold scale. rewrite map_map. apply map_ext. intros u. field. split; [exact N | lra].
Qed.

(** ** C95: timing *)
(** The source appears delayed in response c by a number of windows. Then the largest value of
    result c, 1, is at this delay plus the time t the source starts before the onset. *)
Theorem C95_timing_partial slepians rsp src nse rate tshift gauss K tband T olap c out ntap v q rest t :
  proper_tapers slepians -> taper_samples T rate ntap -> (olap == 0)%Q ->
  trendless src -> length src = (v * ntap)%nat -> (0 < v)%nat -> (ntap <= rest)%nat ->
  Forall (fun r => length r = (q * ntap + length src + rest)%nat) rsp ->
  nth_error rsp c = Some (repeat 0 (q * ntap) ++ src ++ repeat 0 rest) ->
  (q * ntap + t < q * ntap + length src + rest)%nat -> tshift = - (INR t / Q2R rate) ->
  deconv_multitaper slepians rsp src nse rate tshift gauss K tband T olap (Some c) = Ok out ->
  nth (q * ntap + t) (nth c out []) 0 = 1 /\
  forall i, (i < length (nth c out []))%nat -> Rabs (nth i (nth c out []) 0) <= 1.
Proof.
  intros Hp HT Ho Htr Hs Hv Hrest Hl Hc Ht Hts E.
  destruct (C94_normalized _ _ _ _ _ _ _ _ _ _ _ _ _ _ Hl E) as (raw & k & Er & Hk & Hi & -> & [B (j & Hj & Ej)]).
  destruct (C92_components _ _ _ _ _ _ _ _ _ _ _ _ _ Hl Er) as [Lr Comp].
  assert (Hcl : (c < length rsp)%nat) by (rewrite <- Lr; exact Hi).
  destruct (Comp c Hcl) as [Lc Ec]. rewrite (nth_error_nth _ _ [] Hc) in Ec.
  set (nft := (q * ntap + length src + rest)%nat) in *.
  assert (Ld : length (repeat 0 (q * ntap) ++ src ++ repeat 0 rest) = nft) by (rewrite !app_length, !repeat_length; unfold nft; lia).
  rewrite deconv_eq, Ld in Ec.
  destruct (negb (length src <? nft)%nat); [discriminate|]. destruct (negb _); [discriminate|].
  destruct (mt_setup _ _ _ _ _ _ _ _) as [s|] eqn:Es; [|discriminate]. cbn [bind] in Ec. rewrite mt_raw_one in Ec.
  destruct (mt_at _ _ _ _ _ _ _ _) as [o|] eqn:Eo; [|discriminate]. cbn [bind mt_normalize] in Ec. injection Ec as Eo'. subst o.
  assert (Hr0 : ~ (rate == 0)%Q).
  { intros F. unfold mt_setup in Es. apply Qeq_bool_iff in F. rewrite F in Es. discriminate. }
  destruct (timing_raw slepians nft (length src) src rate K tband T olap s tshift gauss ntap v q rest t (nth c nse []) (nth c raw [])) as (_ & P & P0 & P1 & P2 & _ & _);
    try assumption; try (unfold nft; lia).
  { rewrite Hts, opp_IZR, <- INR_IZR_INZ. unfold Rdiv. ring. }
  assert (Nc : nth c (map (fun a => lincomb k a 0 a) raw) [] = lincomb k (nth c raw []) 0 (nth c raw [])).
  { change (@nil R) with (lincomb k [] 0 []) at 1. apply (map_nth (fun a => lincomb k a 0 a)). }
  rewrite Nc in *. rewrite lincomb_length in * by reflexivity.
  assert (F : forall m, nth m (lincomb k (nth c raw []) 0 (nth c raw [])) 0 = k * nth m (nth c raw []) 0) by (intros; rewrite lincomb_nth by reflexivity; ring).
  split; [|exact B]. rewrite F. rewrite F in Ej. rewrite Lc in *.
  assert (H1 : k * P <= 1).
  { specialize (B (q * ntap + t)%nat Ht). rewrite F in B. pose proof (Rle_abs (k * nth (q * ntap + t) (nth c raw []) 0)). rewrite P1 in *. lra. }
  assert (H2 : 1 <= k * P).
  { rewrite <- Ej. rewrite Rabs_mult, (Rabs_pos_eq k) by lra. apply Rmult_le_compat_l; [lra|]. apply P2, Hj. }
  rewrite P1. lra.
Qed.

(** ** a concrete case *)
(** a window of three samples with the taper 1, 2, 1 *)
Definition ex_slepians (n : nat) (b : Q) (K : nat) : list (list R) * list R :=
  (repeat (map (fun i => if (i =? 1)%nat then 2 else 1) (seq 0 n)) K, repeat 1 K).
Lemma ex_proper : proper_tapers ex_slepians.
Proof.
  intros n b K. unfold ex_slepians. cbn [fst snd]. rewrite !repeat_length. repeat split; apply Forall_forall; intros x Hx; apply repeat_spec in Hx; subst.
  - rewrite map_length. apply seq_length.
  - lra.
Qed.
Lemma ex_samples : taper_samples 3 1 3.
Proof. split; [lia | reflexivity]. Qed.
Definition ex_src : list R := [1; -2; 1].
Definition ex_rsp : list R := repeat 0 3 ++ ex_src ++ repeat 0 3.
Definition ex_noise : list R := [1; 0; 2; 1].
Lemma ex_trendless : trendless ex_src.
Proof. split; cbn; ring. Qed.
Lemma ex_nonzero k : Cscal (INR 3 / IZR (Z.of_nat 1 * Z.of_nat 9)) (fft_at 9 (rsig (zipw Rmult (tiled 9 3 1 [1; 2; 1]) (ex_src ++ zeros 6))) k) <> Czero.
Proof.
  unfold fft_at. cbn [csum]. unfold rsig, tiled, ex_src, zeros. cbn -[Rmult Rplus INR IZR unit Cmul Cadd Cscal RtoC Rdiv].
  set (t0 := unit 9 (- (Z.of_nat k * 0))). set (t1 := unit 9 (- (Z.of_nat k * 1))). set (t2 := unit 9 (- (Z.of_nat k * 2))).
  assert (E0 : t0 = RtoC 1) by (unfold t0; rewrite Z.mul_0_r; apply unit_0; lia).
  assert (E2 : t2 = Cmul t1 t1). { unfold t2, t1. rewrite <- unit_add by lia. f_equal. lia. }
  assert (N : Cnorm2 t1 = 1) by (apply unit_norm; lia).
  rewrite E0, E2. destruct t1 as [c s]. unfold Cnorm2 in N. cbn [fst snd] in N.
  intros F. unfold Cscal, Cadd, Cmul, RtoC, Czero in F. cbn [fst snd] in F. injection F as F1 F2.
  replace (INR 3) with 3 in * by (cbn; ring). 
  assert (G1 : 1 - 4 * c + (c * c - s * s) = 0) by lra.
  assert (G2 : s * (c - 2) = 0) by lra.
  apply Rmult_integral in G2. destruct G2 as [->|G2]; nra.
Qed.
(** The source appears three samples later in the response, and starts one sample before the
    onset: the deconvolution succeeds and its maximum is at sample 4. *)
Example C95_nonvacuous : exists out,
  deconv_multitaper ex_slepians [ex_rsp] ex_src [ex_noise] 1 (- (INR 1 / Q2R 1)) None 1 2 3 0 (Some 0%nat) = Ok out /\
  nth 4 (nth 0 out []) 0 = 1.
Proof.
  assert (S : exists s, mt_setup ex_slepians 9 ex_src 1 1 2 3 0 = Ok s /\ s_ntap s = 3%nat /\ s_ofac s = (1 / (1 - 0))%Q /\
     s_el s = [1] /\ Forall (fun w => length w = 3%nat) (s_tap s) /\
     s_src s = [map (Cscal (INR 3 / IZR (Z.of_nat 1 * Z.of_nat 9))) (wspec 9 (ex_src ++ zeros 6) (tiled 9 3 1 [1; 2; 1]))]).
  { unfold mt_setup. change (Qeq_bool 1 0) with false. change (round_q (3 * 1)) with 3%Z. change (3 <=? 0)%Z with false. cbv beta iota zeta.
    change (Z.to_nat 3) with 3%nat. change (Qeq_bool 0 1) with false. cbv beta iota zeta.
    rewrite (trendless_detrend _ ex_trendless). change (pad_to 9 ex_src) with (Ok (ex_src ++ zeros 6)). cbn [bind].
    change (length ex_src) with 3%nat.
    rewrite (proj1 (estimate_weights false 9 3 (1 / (1 - 0)) (window_count 3 (1 / (1 - 0)) 3) (flip_signs (fst (ex_slepians 3 2 1))) (ex_src ++ zeros 6) eq_refl)).
    change (window_count 3 (1 / (1 - 0)) 3) with (Z.of_nat 1). change (flip_signs (fst (ex_slepians 3 2 1))) with [[1; 2; 1]].
    rewrite weights_tiled; [|lia|reflexivity|repeat constructor|cbn; lia|discriminate]. cbn [bind map].
    rewrite float_fac_ok by lia. cbn [bind]. eexists. split; [reflexivity|]. cbn [s_ntap s_ofac s_el s_tap s_src]. repeat split; repeat constructor. }
  destruct S as (s & Es & E1 & E2 & E3 & E4 & E5).
  assert (Z : forall k, (k < 9)%nat -> exists r, In r (s_src s) /\ nth k r Czero <> Czero).
  { intros k Hk. rewrite E5. eexists. split; [left; reflexivity|]. unfold wspec. rewrite fft_tab, map_tabulate, nth_tabulate by exact Hk. apply ex_nonzero. }
  assert (Rows := setup_rows _ _ _ _ _ _ _ _ _ Es).
  destruct (component_ok 9 3 (1 / Q2R 1) (- (INR 1 / Q2R 1)) 0 None (s_tap s) (s_el s) 3 (s_src s) ex_rsp ex_noise) as (o & Eo);
    try assumption; try lia; try reflexivity; try discriminate; try (cbn; lia).
  { rewrite E3. repeat constructor. lra. }
  assert (At : mt_at 9 3 (1 / Q2R 1) (- (INR 1 / Q2R 1)) None s ex_rsp ex_noise = Ok o) by (unfold mt_at; rewrite E1, E2; exact Eo).
  assert (D : forall nz, deconv_multitaper ex_slepians [ex_rsp] ex_src [ex_noise] 1 (- (INR 1 / Q2R 1)) None 1 2 3 0 nz = mt_normalize nz [o]).
  { intros nz. rewrite deconv_eq. change (length ex_rsp) with 9%nat. change (length ex_src) with 3%nat. cbn [negb Nat.ltb Nat.leb length ex_noise].
    rewrite Es. cbn [bind]. rewrite mt_raw_one, At. reflexivity. }
  destruct (timing_raw ex_slepians 9 3 ex_src 1 1 2 3 0 s (- (INR 1 / Q2R 1)) None 3 1 1 3 1 ex_noise o) as (L & P & P0 & P1 & P2 & P3 & _);
    try assumption; try reflexivity; try lia; try apply ex_proper; try apply ex_samples; try apply ex_trendless; try discriminate.
  { cbn. unfold Rdiv. ring. }
  specialize (P3 ltac:(destruct (Z 0%nat ltac:(lia)) as (r & A & B); exists 0%nat, r; repeat split; [lia|exact A|exact B])).
  assert (M : max_abs o <> 0).
  { pose proof (max_abs_ge o 4 ltac:(lia)) as M. change (1 * 3 + 1)%nat with 4%nat in P1. rewrite P1, Rabs_pos_eq in M by exact P0. lra. }
  assert (OK : exists out, deconv_multitaper ex_slepians [ex_rsp] ex_src [ex_noise] 1 (- (INR 1 / Q2R 1)) None 1 2 3 0 (Some 0%nat) = Ok out).
  { rewrite D. cbn [mt_normalize nth_error]. destruct (Req_EM_T (max_abs o) 0); [contradiction|]. eexists. reflexivity. }
  destruct OK as (out & OK). exists out. split; [exact OK|].
  apply (C95_timing_partial ex_slepians [ex_rsp] ex_src [ex_noise] 1 (- (INR 1 / Q2R 1)) None 1 2 3 0 0 out 3 1 1 3 1);
    try exact OK; try reflexivity; try apply ex_proper; try apply ex_samples; try apply ex_trendless; try (cbn; lia).
  repeat constructor.
Qed.
(** Refuted for delays which are no multiple of the windows, even without overlap: the delayed
    wave meets other weights of the taper. Here the taper is concentrated in the middle of
    the window of three samples, the source 1, -2, 1 comes one sample late in the response: the
    largest amplitude of the result is at the delay 0 (sample 1), it is negative, and the value at
    the delay (sample 2) is not 1. *)
Definition mid_slepians (n : nat) (b : Q) (K : nat) : list (list R) * list R :=
  (repeat (map (fun i => if (i =? 1)%nat then 1 else 0) (seq 0 n)) K, repeat 1 K).
Lemma mid_proper : proper_tapers mid_slepians.
Proof.
  intros n b K. unfold mid_slepians. cbn [fst snd]. rewrite !repeat_length. repeat split; apply Forall_forall; intros x Hx; apply repeat_spec in Hx; subst.
  - rewrite map_length. apply seq_length.
  - lra.
Qed.
Definition late_rsp : list R := [0; 1; -2; 1; 0; 0; 0; 0; 0].
Lemma mid_spectrum k : fft_at 9 (rsig (zipw Rmult (tiled 9 3 1 [0; 1; 0]) (ex_src ++ zeros 6))) k = Cscal (-2) (unit 9 (- (Z.of_nat k * 1))).
Proof.
  unfold fft_at. cbn [csum]. unfold rsig, tiled, ex_src, zeros. cbn -[Rmult Rplus INR IZR unit Cmul Cadd Cscal RtoC Rdiv].
  set (t0 := unit 9 _). set (t1 := unit 9 (- (Z.of_nat k * 1))). set (t2 := unit 9 (- (Z.of_nat k * 2))).
  generalize (unit 9 (- (Z.of_nat k * 3))) (unit 9 (- (Z.of_nat k * 4))) (unit 9 (- (Z.of_nat k * 5))) (unit 9 (- (Z.of_nat k * 6)))
     (unit 9 (- (Z.of_nat k * 7))) (unit 9 (- (Z.of_nat k * 8))). intros t3 t4 t5 t6 t7 t8.
  unfold Cscal, Cadd, Cmul, RtoC, Czero. cbn [fst snd]. f_equal; ring.
Qed.
Theorem C95_timing_refuted : exists out,
  proper_tapers mid_slepians /\ taper_samples 3 1 3 /\ trendless ex_src /\ late_rsp = repeat 0 1 ++ ex_src ++ repeat 0 5 /\
  deconv_multitaper mid_slepians [late_rsp] ex_src [ex_noise] 1 (- (INR 1 / Q2R 1)) None 1 2 3 0 (Some 0%nat) = Ok out /\
  nth 1 (nth 0 out []) 0 = -1 /\ nth (1 + 1) (nth 0 out []) 0 <> 1.
Proof.
  assert (S : exists s, mt_setup mid_slepians 9 ex_src 1 1 2 3 0 = Ok s /\ s_ntap s = 3%nat /\ s_ofac s = (1 / (1 - 0))%Q /\
     s_el s = [1] /\ s_tap s = [[0; 1; 0]] /\
     s_src s = [map (Cscal (INR 3 / IZR (Z.of_nat 1 * Z.of_nat 9))) (wspec 9 (ex_src ++ zeros 6) (tiled 9 3 1 [0; 1; 0]))]).
  { unfold mt_setup. change (Qeq_bool 1 0) with false. change (round_q (3 * 1)) with 3%Z. change (3 <=? 0)%Z with false. cbv beta iota zeta.
    change (Z.to_nat 3) with 3%nat. change (Qeq_bool 0 1) with false. cbv beta iota zeta.
    rewrite (trendless_detrend _ ex_trendless). change (pad_to 9 ex_src) with (Ok (ex_src ++ zeros 6)). cbn [bind].
    change (length ex_src) with 3%nat.
    rewrite (proj1 (estimate_weights false 9 3 (1 / (1 - 0)) (window_count 3 (1 / (1 - 0)) 3) (flip_signs (fst (mid_slepians 3 2 1))) (ex_src ++ zeros 6) eq_refl)).
    change (window_count 3 (1 / (1 - 0)) 3) with (Z.of_nat 1). change (flip_signs (fst (mid_slepians 3 2 1))) with [[0; 1; 0]].
    rewrite weights_tiled; [|lia|reflexivity|repeat constructor|cbn; lia|discriminate]. cbn [bind map].
    rewrite float_fac_ok by lia. cbn [bind]. eexists. split; [reflexivity|]. cbn [s_ntap s_ofac s_el s_tap s_src]. repeat split. }
  destruct S as (s & Es & E1 & E2 & E3 & E4 & E5).
  assert (N : forall k, nth k (nth 0 (s_src s) []) Czero = if (k <? 9)%nat then Cscal (INR 3 / IZR (Z.of_nat 1 * Z.of_nat 9)) (Cscal (-2) (unit 9 (- (Z.of_nat k * 1)))) else Czero).
  { intros k. rewrite E5. cbn [nth]. unfold wspec. rewrite fft_tab, map_tabulate. destruct (Nat.ltb_spec k 9) as [Hk|Hk].
    - rewrite nth_tabulate by exact Hk. rewrite mid_spectrum. reflexivity.
    - apply nth_overflow. rewrite tabulate_length. exact Hk. }
  assert (Z : forall k, (k < 9)%nat -> exists r, In r (s_src s) /\ nth k r Czero <> Czero).
  { intros k Hk. exists (nth 0 (s_src s) []). split; [rewrite E5; left; reflexivity|]. rewrite N. destruct (Nat.ltb_spec k 9); [|lia].
    intros F. assert (Cnorm2 (unit 9 (- (Z.of_nat k * 1))) = 1) as U by (apply unit_norm; lia). destruct (unit 9 _) as [c d].
    unfold Cscal, Czero, Cnorm2 in *. cbn [fst snd] in *. injection F as F1 F2. cbn [INR] in F1, F2.
    assert (c = 0) by lra. assert (d = 0) by lra. subst. lra. }
  assert (Rows := setup_rows _ _ _ _ _ _ _ _ _ Es).
  assert (Tl : trendless late_rsp) by (split; cbn; ring).
  assert (T0 : trendless (ex_src ++ zeros 6)) by (split; cbn; ring).
  destruct (component_ok 9 3 (1 / Q2R 1) (- (INR 1 / Q2R 1)) 0 None (s_tap s) (s_el s) 3 (s_src s) (ex_src ++ zeros 6) ex_noise) as (o & Eo);
    try assumption; try lia; try reflexivity; try discriminate; try (cbn; lia).
  { rewrite E4. repeat constructor. }
  { rewrite E3. repeat constructor. lra. }
  assert (At : mt_at 9 3 (1 / Q2R 1) (- (INR 1 / Q2R 1)) None s (ex_src ++ zeros 6) ex_noise = Ok o) by (unfold mt_at; rewrite E1, E2; exact Eo).
  destruct (timing_raw mid_slepians 9 3 ex_src 1 1 2 3 0 s (- (INR 1 / Q2R 1)) None 3 1 0 6 1 ex_noise o) as (L & P & P0 & P1 & P2 & P3 & P4);
    try assumption; try reflexivity; try lia; try apply mid_proper; try apply ex_samples; try apply ex_trendless; try discriminate.
  { cbn. unfold Rdiv. ring. }
  specialize (P3 ltac:(destruct (Z 0%nat ltac:(lia)) as (r & A & B); exists 0%nat, r; repeat split; [lia|exact A|exact B])).
  specialize (P4 (Z 0%nat ltac:(lia))). change (0 * 3 + 1)%nat with 1%nat in P1.
  (* the tapered late response is -1/2 of the tapered source *)
  assert (Al : mt_at 9 3 (1 / Q2R 1) (- (INR 1 / Q2R 1)) None s late_rsp ex_noise = Ok (lincomb (-1/2) o 0 o)).
  { rewrite <- (mt_at_lin 9 3 (1 / Q2R 1) (- (INR 1 / Q2R 1)) None s ex_noise (-1/2) (ex_src ++ zeros 6) 0 (ex_src ++ zeros 6) o o Rows eq_refl eq_refl At At).
    assert (Ll : length (lincomb (-1/2) (ex_src ++ zeros 6) 0 (ex_src ++ zeros 6)) = 9%nat) by reflexivity.
    unfold mt_at. rewrite !mt_component_form by (assumption || reflexivity).
    destruct (mt_prep _ _ _ _ _ _ _ _ _) as [[[wd total] fd]|] eqn:E; [|reflexivity]. cbn [bind]. f_equal.
    apply prep_weights in E. destruct E as (Ew & _ & _). rewrite E1, E2, E4 in Ew.
    change (window_count 3 (1 / (1 - 0)) 9 - 1)%Z with (Z.of_nat 2) in Ew.
    rewrite weights_tiled in Ew; [|lia|reflexivity|repeat constructor|cbn; lia|cbn; lia]. injection Ew as <-. cbn [map].
    assert (zipw Rmult (tiled 9 3 2 [0; 1; 0]) (detrend2 late_rsp)
            = zipw Rmult (tiled 9 3 2 [0; 1; 0]) (detrend2 (lincomb (-1/2) (ex_src ++ zeros 6) 0 (ex_src ++ zeros 6)))) as Eq.
    { rewrite detrend2_lin by reflexivity. rewrite (trendless_detrend _ Tl), (trendless_detrend _ T0).
      unfold late_rsp, ex_src, zeros, tiled. cbn -[Rmult Rplus Ropp Rdiv Rinv IZR]. repeat (f_equal; try lra). }
    unfold mt_out, mt_spec, mt_num. apply tabulate_ext. intros m Hm. f_equal.
    unfold ifft_at. f_equal. apply csum_ext. intros k Hk. f_equal. f_equal. f_equal. f_equal.
    rewrite E5. cbn [combine]. unfold lsum. cbn [fold_right fst snd]. rewrite Eq. reflexivity. }
  assert (M : max_abs (lincomb (-1/2) o 0 o) = P / 2).
  { assert (F : forall i, nth i (lincomb (-1/2) o 0 o) 0 = -1/2 * nth i o 0) by (intros; rewrite lincomb_nth by reflexivity; ring).
    assert (Ln : length (lincomb (-1/2) o 0 o) = 9%nat) by (rewrite lincomb_length by reflexivity; exact L).
    apply Rle_antisym.
    - apply max_abs_lub; [lra|]. intros i Hi. rewrite F, Rabs_mult. rewrite (Rabs_left (-1/2)) by lra. specialize (P2 i ltac:(lia)). lra.
    - pose proof (max_abs_ge (lincomb (-1/2) o 0 o) 1 ltac:(lia)) as M. rewrite F, P1 in M. rewrite Rabs_left in M by lra. lra. }
  exists [scale (1 / (P / 2)) (lincomb (-1/2) o 0 o)].
  split; [apply mid_proper|]. split; [apply ex_samples|]. split; [apply ex_trendless|]. split; [reflexivity|]. split.
  { rewrite deconv_eq. change (length late_rsp) with 9%nat. change (length ex_src) with 3%nat. cbn [negb Nat.ltb Nat.leb length ex_noise].
    rewrite Es. cbn [bind]. rewrite mt_raw_one, Al. cbn [bind mt_normalize nth_error]. rewrite M.
    destruct (Req_EM_T (P / 2) 0) as [G|G]; [lra | reflexivity]. }
  cbn [nth]. rewrite !scale_nth, !lincomb_nth by reflexivity. rewrite P1. split; [field; lra|].
  specialize (P4 (1 + 1)%nat ltac:(lia)). intros G.
  assert (nth (1 + 1) o 0 = - P); [|lra].
  apply (f_equal (Rmult (P / 2))) in G.
  replace (P / 2 * (1 / (P / 2) * (-1 / 2 * nth (1 + 1) o 0 + 0 * nth (1 + 1) o 0))) with (-1 / 2 * nth (1 + 1) o 0) in G by (field; lra). lra.
Qed.
Print Assumptions C95_timing_refuted.
(** the hypotheses of C38_partial: overlapping windows, several components, default arguments *)
Example C38_nonvacuous : exists slepians (rsp : list (list R)) (src : list R) (nse : list (list R)),
  proper_tapers slepians /\ taper_samples 10 1 10 /\ length rsp = 2%nat /\ Forall (fun r => length r = 60%nat) rsp /\ length src = 40%nat /\
  (length rsp <= length nse)%nat /\ Forall (fun x => ((1 - (75 # 100)) * samples 10 <= samples (length x))%Q /\ (length x <= 60)%nat) nse /\
  ((1 - (75 # 100)) * samples 10 <= samples (length src))%Q /\ (samples (length src) + (75 # 100) * samples 10 <= samples 60)%Q /\
  (2 * ((1 - (75 # 100)) * samples 10) <= samples 60)%Q.
Proof.
  exists ex_slepians, [repeat 1 60; repeat 2 60], (repeat 1 40), [repeat 0 50; repeat 1 30].
  split; [exact ex_proper|]. split; [split; [lia | reflexivity]|]. repeat split; repeat constructor; cbn; try lia; intros F; discriminate F.
Qed.

Print Assumptions C38_partial.
Print Assumptions C38_refuted.
Print Assumptions C38_noise_refuted.
Print Assumptions C92_components.
Print Assumptions C92_linear.
Print Assumptions C93_detrended.
Print Assumptions C94_normalized.
Print Assumptions C94_gain.
Print Assumptions C95_timing_partial.
Print Assumptions C95_nonvacuous.
Print Assumptions C38_nonvacuous.
