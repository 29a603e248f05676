(** C29 - C33, C36, C80, C81: water level deconvolution over the real numbers. *)
From Verif Require Import Model.Waterlevel Spec.WaterSpec Proofs.SumFacts Proofs.CplxFacts Proofs.WaterFacts.
From Coq Require Import Lra Lia.
Notation length := List.length.
Open Scope R_scope.
Add Ring cplx_ring_inst3 : cplx_ring.

Lemma raw_form nfl rs src sr wl gauss tshift len nfft N n : sr <> 0 -> gauss <> Some 0 ->
  result_points rs len N -> fft_points nfl nfft N n -> (forall k, (k < n)%nat -> wl_w n src wl k <> 0) ->
  deconv_waterlevel nfl (Many rs) src sr wl gauss tshift len NNone nfft false =
  Ok (WMany (map (wl_rf n N (1 / sr) tshift gauss src wl) rs)).
Proof.
  intros Hsr Hg HN [Hn Hp] Hw. rewrite (waterlevel_unfold nfl (Many rs) src sr wl gauss tshift len NNone nfft false n N Hsr Hg).
  - reflexivity.
  - unfold result_points in HN. destruct len as [m|]; [rewrite HN; reflexivity|]. destruct rs as [|r rs]; [destruct HN|].
    cbn [get_length]. rewrite HN. reflexivity.
  - unfold nfft_of. destruct nfft; exact Hn.
  - exact Hp.
  - exact Hw.
Qed.
Lemma w_nonzero n src wl : nonzero_within n src -> 0 < wl -> forall k, (k < n)%nat -> wl_w n src wl k <> 0.
Proof. intros H1 H2 k _. pose proof (wl_w_pos n src wl k H1 H2). lra. Qed.
Lemma w0_nonzero n src : (0 < n)%nat -> (forall k, (k < n)%nat -> dft n src k <> Czero) -> forall k, (k < n)%nat -> wl_w n src 0 k <> 0.
Proof.
  intros Hn H k Hk. unfold wl_w. rewrite Rmult_0_r, Rmax_left by apply Cnorm2_pos. intros E. apply (H k Hk).
  rewrite dft_fft by exact Hn. apply Cnorm2_zero, E.
Qed.

(** C31: for a source that does not vanish and a positive water level the division is
    always defined, and the energy of every result is at most the energy of the
    response divided by waterlevel * (peak power of the source), for every shift and
    every Gauss filter. *)
Theorem C31_bounded nfl rs src sr wl gauss tshift len nfft N n M :
  sr <> 0 -> gauss <> Some 0 -> result_points rs len N -> fft_points nfl nfft N n ->
  nonzero_within n src -> 0 < wl -> peak_power n src M ->
  0 < M /\
  exists out, deconv_waterlevel nfl (Many rs) src sr wl gauss tshift len NNone nfft false = Ok (WMany out) /\
    Forall2 (fun r o => cenergy o <= energy n r / (wl * M)) rs out.
Proof.
  intros Hsr Hg HN Hn Hs Hwl HM. assert (E : peak n src = M) by (apply peak_spec; [apply Hn | exact HM]). subst M.
  split; [apply peak_pos, Hs|]. eexists. split; [apply raw_form with (N := N) (n := n); auto; apply w_nonzero; assumption|].
  clear HN. induction rs as [|r rs IH]; cbn; constructor; [apply wl_energy; assumption | exact IH].
Qed.
Print Assumptions C31_bounded.

(** frequencies above the water level are divided exactly, the others are divided by
    waterlevel * (peak power) instead of |S|^2 *)
Theorem C31_division nfl r rs src sr wl nfft n M out :
  sr <> 0 -> fft_points nfl nfft n n -> length r = n -> nonzero_within n src -> 0 < wl -> peak_power n src M ->
  deconv_waterlevel nfl (Many (r :: rs)) src sr wl None 0 None NNone nfft false = Ok (WMany out) ->
  Forall2 (fun r o => forall k, (k < n)%nat ->
    (wl * M <= Cnorm2 (dft n src k) -> Cmul (cdft n o k) (dft n src k) = dft n r k) /\
    (Cnorm2 (dft n src k) <= wl * M -> Cscal (wl * M) (cdft n o k) = Cmul (dft n r k) (Cconj (dft n src k)))) (r :: rs) out.
Proof.
  intros Hsr Hn Hr Hs Hwl HM. assert (E : peak n src = M) by (apply peak_spec; [apply Hn | exact HM]). subst M.
  assert (H0 : (0 < n)%nat) by apply Hn. pose proof (peak_pos n src Hs) as Hp.
  rewrite (raw_form nfl (r :: rs) src sr wl None 0 None nfft n n) by (auto; try discriminate; apply w_nonzero; assumption).
  intros H. assert (out = map (wl_rf n n (1 / sr) 0 None src wl) (r :: rs)) as -> by congruence. clear H.
  generalize (r :: rs). clear r rs Hr. intros rs.
  induction rs as [|r rs IH]; cbn; constructor; [|exact IH]. intros k Hk.
  assert (X : cdft n (wl_rf n n (1 / sr) 0 None src wl r) k = wl_spec_one n (1 / sr) 0 None src wl (fft_at n (rsig r)) k).
  { rewrite cdft_fft by exact H0. rewrite <- (fft_ifft n H0 (wl_spec_one n (1 / sr) 0 None src wl (fft_at n (rsig r))) k Hk). apply fft_ext. intros j Hj.
    unfold wl_rf. rewrite firstn_tabulate, Nat.min_id, nth_tabulate by exact Hj. reflexivity. }
  rewrite X, !dft_fft by exact H0. unfold wl_spec_one. rewrite wl_F_0. set (S := fft_at n (rsig src) k).
  unfold wl_w. fold S. rewrite (Rmult_comm wl (peak n src)). split; intros L.
  - rewrite Rmax_left by exact L. assert (Cnorm2 S <> 0) by (pose proof (Rmult_lt_0_compat _ _ Hp Hwl); lra).
    transitivity (Cscal (/ Cnorm2 S) (Cmul (RtoC (Cnorm2 S)) (fft_at n (rsig r) k))).
    + rewrite <- Cmul_conj, <- Cscal_Cmul. f_equal. ring.
    + apply cplx_eq; cbn; field; assumption.
  - rewrite Rmax_right by exact L. rewrite Cscal_Cscal, Rinv_r, Cscal_1 by (pose proof (Rmult_lt_0_compat _ _ Hp Hwl); lra). ring.
Qed.
Print Assumptions C31_division.

(** C32: without water level and filter, the circular convolution of a source with
    non-vanishing spectrum and g gives g back; all sources, g and lengths. *)
Theorem C32_recovery nfl src g sr nfft n :
  sr <> 0 -> fft_points nfl nfft n n -> length g = n -> (forall k, (k < n)%nat -> dft n src k <> Czero) ->
  deconv_waterlevel nfl (Many [circ_conv n src g]) src sr 0 None 0 None NNone nfft false = Ok (WMany [map RtoC g]).
Proof.
  intros Hsr Hn Hg Hs. assert (H0 : (0 < n)%nat) by apply Hn.
  rewrite (raw_form nfl _ src sr 0 None 0 None nfft n n); auto; [|discriminate| |apply w0_nonzero; assumption].
  - cbn [map]. rewrite wl_recover; auto. intros k Hk. rewrite <- dft_fft by exact H0. apply Hs, Hk.
  - cbn. unfold circ_conv. rewrite map_length, seq_length. reflexivity.
Qed.
Print Assumptions C32_recovery.
(** the same for the ordinary convolution, if the transform is long enough (the default
    number of points is never smaller than the number of samples) *)
Theorem C32_recovery_linear nfl src g sr nfft n :
  sr <> 0 -> (0 < length src)%nat -> (0 < length g)%nat -> fft_points nfl nfft (length src + length g - 1) n ->
  (length src + length g - 1 <= n)%nat -> (forall k, (k < n)%nat -> dft n src k <> Czero) ->
  deconv_waterlevel nfl (Many [lin_conv src g]) src sr 0 None 0 None NNone nfft false =
  Ok (WMany [map RtoC (g ++ zeros (length src - 1))]).
Proof.
  intros Hsr H1 H2 Hn H3 Hs. assert (H0 : (0 < n)%nat) by apply Hn.
  rewrite (raw_form nfl _ src sr 0 None 0 None nfft (length src + length g - 1) n); auto; [|discriminate| |apply w0_nonzero; assumption].
  - cbn [map]. rewrite wl_recover_linear; auto. intros k Hk. rewrite <- dft_fft by exact H0. apply Hs, Hk.
  - cbn. unfold lin_conv. rewrite map_length, seq_length. reflexivity.
Qed.
Print Assumptions C32_recovery_linear.

(** C33: the phase shift filter for m sampling intervals delays circularly by m samples,
    for every integer m (negative: advance), every length and all data. *)
Theorem C33_phase_shift x n dt m : (0 < n)%nat -> dt <> 0 ->
  apply_filter x (phase_shift_filter n dt (IZR m * dt)) = Ok (delayed n m x).
Proof. intros. apply apply_shift; assumption. Qed.
Print Assumptions C33_phase_shift.
(** and tshift delays water level receiver functions: with tshift + m samples every
    sample appears m samples later *)
Theorem C33_waterlevel nfl r rs src sr wl gauss tshift m nfft n :
  sr <> 0 -> gauss <> Some 0 -> fft_points nfl nfft n n -> length r = n -> nonzero_within n src -> 0 < wl ->
  exists a b,
    deconv_waterlevel nfl (Many (r :: rs)) src sr wl gauss tshift None NNone nfft false = Ok (WMany a) /\
    deconv_waterlevel nfl (Many (r :: rs)) src sr wl gauss (tshift + IZR m / sr) None NNone nfft false = Ok (WMany b) /\
    Forall2 (fun x y => length y = n /\ forall j, (j < n)%nat ->
               nth j y Czero = nth (Z.to_nat ((Z.of_nat j - m) mod Z.of_nat n)) x Czero) a b.
Proof.
  intros Hsr Hg Hn Hr Hs Hwl. assert (H0 : (0 < n)%nat) by apply Hn. do 2 eexists.
  split; [apply raw_form with (N := n) (n := n); auto; apply w_nonzero; assumption|].
  split; [apply raw_form with (N := n) (n := n); auto; apply w_nonzero; assumption|].
  generalize (r :: rs). clear r rs Hr. intros rs. induction rs as [|r rs IH]; cbn; constructor; [|exact IH].
  split; [unfold wl_rf; rewrite firstn_tabulate, Nat.min_id, tabulate_length; reflexivity|]. intros j Hj.
  replace (IZR m / sr) with (IZR m * (1 / sr)) by (field; exact Hsr).
  apply wl_delay_samples; auto. unfold Rdiv. rewrite Rmult_1_l. apply Rinv_neq_0_compat, Hsr.
Qed.
Print Assumptions C33_waterlevel.

(** C29, water level. One common factor for all results, and the largest sample of
    result i (largest real part for complex samples) becomes exactly 1. If the samples
    are real and one of them is positive, 1 is the maximum. *)
Theorem C29_waterlevel_partial nfl rs src sr wl gauss tshift len i nfft out :
  deconv_waterlevel nfl (Many rs) src sr wl gauss tshift len (NIdx i) nfft false = Ok (WMany out) ->
  exists raw c x r,
    deconv_waterlevel nfl (Many rs) src sr wl gauss tshift len NNone nfft false = Ok (WMany raw) /\
    out = map (map (Cmul c)) raw /\ nth_error raw i = Some x /\ nth_error out i = Some r /\ In Cone r /\
    ((forall z, In z x -> snd z = 0) -> (exists z, In z x /\ 0 < fst z) -> forall z, In z r -> fst z <= 1 /\ snd z = 0).
Proof.
  rewrite waterlevel_idx. destruct (deconv_waterlevel nfl (Many rs) src sr wl gauss tshift len NNone nfft false) as [[a|raw|l s c]|];
    cbn [bind]; try discriminate.
  destruct (nth_error raw i) as [x|] eqn:Ex; [|discriminate]. destruct (recip_max x) as [c|] eqn:Ec; cbn [bind]; [|discriminate].
  intros H. injection H as <-. destruct (recip_max_spec x c Ec) as (m & Hm & Hmax & Hn & ->).
  exists raw, (Cinv m), x, (map (Cmul (Cinv m)) x). split; [reflexivity|]. split; [reflexivity|]. split; [exact Ex|].
  split; [apply map_nth_error, Ex|]. split.
  - apply in_map_iff. exists m. split; [apply Cmul_Cinv, Hn | exact Hm].
  - intros Hreal (p & Hp & Hpos) z Hz. apply in_map_iff in Hz. destruct Hz as (y & <- & Hy).
    pose proof (Hmax y Hy) as L. pose proof (Hmax p Hp) as Lp. rewrite cle_spec in L, Lp.
    pose proof (Hreal m Hm) as Rm. pose proof (Hreal y Hy) as Ry.
    assert (0 < fst m) by lra. assert (fst y <= fst m) by lra.
    unfold Cinv, Cmul, Cnorm2. cbn [fst snd]. rewrite Rm, Ry. split.
    + apply Rmult_le_reg_l with (fst m); [assumption|].
      replace (fst m * (fst m / (fst m * fst m + 0 * 0) * fst y - - 0 / (fst m * fst m + 0 * 0) * 0)) with (fst y) by (field; lra). lra.
    + field. lra.
Qed.
Print Assumptions C29_waterlevel_partial.
(** normalize='src': the common factor makes the largest sample of the prepared source 1 *)
Theorem C29_waterlevel_src nfl rs src sr wl gauss tshift len N nfft out :
  result_points rs len N ->
  deconv_waterlevel nfl (Many rs) src sr wl gauss tshift len NSrc nfft false = Ok (WMany out) ->
  exists raw c s,
    deconv_waterlevel nfl (Many rs) src sr wl gauss tshift len NNone nfft false = Ok (WMany raw) /\
    deconv_waterlevel nfl (Many [src]) src sr wl gauss tshift (Some N) NNone nfft false = Ok (WMany [s]) /\
    out = map (map (Cmul c)) raw /\ In Cone (map (Cmul c) s).
Proof.
  intros HN. rewrite waterlevel_src.
  assert ((match len with Some n => Ok n | None => get_length (Many rs) end) = Ok N) as ->.
  { unfold result_points in HN. destruct len as [m|]; [rewrite HN; reflexivity|]. destruct rs as [|r rs]; [destruct HN|]. cbn. rewrite HN. reflexivity. }
  cbn [bind]. destruct (deconv_waterlevel nfl (Many rs) src sr wl gauss tshift len NNone nfft false) as [[a|raw|l s c]|];
    cbn [bind]; try discriminate.
  - destruct (deconv_waterlevel nfl (Many [src]) src sr wl gauss tshift (Some N) NNone nfft false) as [[|[|]|]|]; discriminate.
  - destruct (deconv_waterlevel nfl (Many [src]) src sr wl gauss tshift (Some N) NNone nfft false) as [[|[|s [|]]|]|]; cbn [bind]; try discriminate.
    destruct (recip_max s) as [c|] eqn:Ec; cbn [bind]; [|discriminate]. intros H. injection H as <-.
    destruct (recip_max_spec s c Ec) as (m & Hm & _ & Hn & ->). exists raw, (Cinv m), s. repeat split.
    apply in_map_iff. exists m. split; [apply Cmul_Cinv, Hn | exact Hm].
  - destruct (deconv_waterlevel nfl (Many [src]) src sr wl gauss tshift (Some N) NNone nfft false) as [[|[|]|]|]; discriminate.
Qed.
Print Assumptions C29_waterlevel_src.

(** the spectrum of a spike *)
Lemma spike_dft n k : (0 < n)%nat -> dft n [1] k = Cone.
Proof.
  intros Hn. unfold dft. destruct n as [|n]; [lia|].
  rewrite (csum_ext (S n) _ (fun j => if Nat.eqb j 0 then Cone else Czero)).
  - apply (csum_delta (S n) 0 (fun _ => Cone)). lia.
  - intros j Hj. destruct j as [|j]; cbn [Nat.eqb nth].
    + rewrite Cscal_1. replace (- (2 * PI * INR k * INR 0 / INR (S n))) with 0; [apply cis_0|]. cbn [INR]. unfold Rdiv. ring.
    + destruct j; cbn [nth]; cring.
Qed.
Lemma spike_nonvanishing n : (0 < n)%nat -> forall k, (k < n)%nat -> dft n [1] k <> Czero.
Proof. intros Hn k _ E. rewrite spike_dft in E by exact Hn. apply (f_equal fst) in E. cbn in E. lra. Qed.
Lemma spike_conv n g : (0 < n)%nat -> length g = n -> circ_conv n [1] g = g.
Proof.
  intros Hn Hg. rewrite (list_tabulate g 0) at 2. rewrite Hg. apply tabulate_ext. intros j Hj.
  rewrite (rsum_ext n _ (fun i => if Nat.eqb i 0 then nth j g 0 else 0)).
  - apply (rsum_delta n 0 (fun _ => nth j g 0)). lia.
  - intros i Hi. destruct i as [|i]; cbn [Nat.eqb nth].
    + unfold periodic. rewrite Z.sub_0_r, Z.mod_small by lia. rewrite Nat2Z.id. ring.
    + destruct i; cbn [nth]; ring.
Qed.

(** C29 fails for a reference whose samples are all negative: the largest sample is
    scaled to 1, which makes the others exceed 1. *)
Theorem C29_waterlevel_refuted : exists out r,
  deconv_waterlevel (fun n => n) (Many [[-1; -2]]) [1] 1 0 None 0 None (NIdx 0) None false = Ok (WMany out) /\
  nth_error out 0 = Some r /\ In (RtoC 2) r.
Proof.
  pose proof (C32_recovery (fun n => n) [1] [-1; -2] 1 None 2) as H.
  rewrite spike_conv in H by (try reflexivity; lia).
  specialize (H ltac:(lra) ltac:(split; [reflexivity | lia]) eq_refl (spike_nonvanishing 2 ltac:(lia))).
  rewrite waterlevel_idx, H. cbn [bind nth_error map].
  rewrite (recip_max_intro [RtoC (-1); RtoC (-2)] (RtoC (-1))).
  - cbn [bind map]. do 2 eexists. split; [reflexivity|]. split; [reflexivity|]. right. left. apply cplx_eq; cbn; unfold Cnorm2; cbn; field.
  - left. reflexivity.
  - intros y [<-|[<-|[]]]; apply cle_spec; cbn; [right | left]; lra.
  - unfold Cnorm2. cbn. lra.
Qed.
Print Assumptions C29_waterlevel_refuted.

(** C30, water level: positive gains of source and responses (or two negative ones) do
    not change the normalised result. *)
Theorem C30_waterlevel nfl rs src sr wl gauss tshift len i nfft N n c d :
  sr <> 0 -> gauss <> Some 0 -> result_points rs len N -> fft_points nfl nfft N n ->
  nonzero_within n src -> 0 < wl -> 0 < c * d ->
  deconv_waterlevel nfl (Many (map (scale d) rs)) (scale c src) sr wl gauss tshift len (NIdx i) nfft false =
  deconv_waterlevel nfl (Many rs) src sr wl gauss tshift len (NIdx i) nfft false.
Proof.
  intros Hsr Hg HN Hn Hs Hwl Hcd. assert (Hc : c <> 0) by (intros ->; lra). assert (Hd : d <> 0) by (intros ->; lra).
  assert (Hk : 0 < d / c).
  { replace (d / c) with (c * d * (/ c * / c)) by (field; exact Hc). apply Rmult_lt_0_compat; [exact Hcd|].
    apply (Rsqr_pos_lt (/ c)). apply Rinv_neq_0_compat, Hc. }
  assert (Hs' : nonzero_within n (scale c src)).
  { destruct Hs as (p & Hp & E). exists p. split; [exact Hp|].
    assert (Hl : (p < length src)%nat). { destruct (Nat.lt_ge_cases p (length src)); [assumption|]. rewrite nth_overflow in E by assumption. congruence. }
    unfold scale. rewrite (nth_indep _ 0 (c * 0)) by (rewrite map_length; exact Hl). rewrite (map_nth (Rmult c)).
    apply Rmult_integral_contrapositive. split; assumption. }
  assert (HN' : result_points (map (scale d) rs) len N).
  { unfold result_points in *. destruct len; [exact HN|]. destruct rs as [|r rs]; [exact HN|]. cbn. unfold scale. rewrite map_length. exact HN. }
  rewrite !waterlevel_idx. rewrite (raw_form nfl rs src sr wl gauss tshift len nfft N n), (raw_form nfl (map (scale d) rs) (scale c src) sr wl gauss tshift len nfft N n);
    auto using w_nonzero.
  cbn [bind]. rewrite map_map.
  rewrite (map_ext _ (fun r => map (Cscal (d / c)) (wl_rf n N (1 / sr) tshift gauss src wl r))).
  2:{ intros r. apply wl_rf_scale; [exact Hc | apply w_nonzero; assumption]. }
  rewrite <- (map_map (wl_rf n N (1 / sr) tshift gauss src wl) (map (Cscal (d / c)))).
  set (raw := map _ rs). rewrite nth_error_map. destruct (nth_error raw i) as [x|]; cbn [option_map]; [|reflexivity].
  rewrite recip_max_scal by exact Hk. destruct (recip_max x) as [m|]; cbn [bind]; [|reflexivity]. do 2 f_equal.
  rewrite map_map. apply map_ext. intros l. rewrite map_map. apply map_ext. intros z. apply cplx_eq; cbn; field; auto.
Qed.
Print Assumptions C30_waterlevel.

(** C36, water level: a single array works like a list of one array if the result is
    normalised; with normalize=None it always fails, although the list version works. *)
Theorem C36_waterlevel_partial nfl r src sr wl gauss tshift len norm nfft : norm <> NNone ->
  deconv_waterlevel nfl (Single r) src sr wl gauss tshift len norm nfft false =
  (let! x := deconv_waterlevel nfl (Many [r]) src sr wl gauss tshift len norm nfft false in
   match x with WMany [y] => Ok (WSingle y) | _ => Err UnboundLocalError end).
Proof. exact (waterlevel_single nfl r src sr wl gauss tshift len norm nfft). Qed.
Print Assumptions C36_waterlevel_partial.
Theorem C36_waterlevel_refuted :
  (forall nfl r src sr wl gauss tshift len nfft x,
     deconv_waterlevel nfl (Single r) src sr wl gauss tshift len NNone nfft false <> Ok x) /\
  exists r out, deconv_waterlevel (fun n => n) (Many [r]) [1] 1 0 None 0 None NNone None false = Ok (WMany out) /\
    deconv_waterlevel (fun n => n) (Single r) [1] 1 0 None 0 None NNone None false = Err UnboundLocalError.
Proof.
  split; [exact waterlevel_single_none|]. exists [3; 5], [map RtoC [3; 5]].
  pose proof (C32_recovery (fun n => n) [1] [3; 5] 1 None 2) as H.
  rewrite spike_conv in H by (try reflexivity; lia).
  split; [apply H; [lra | split; [reflexivity | lia] | reflexivity | apply spike_nonvanishing; lia]|].
  rewrite (waterlevel_unfold (fun n => n) (Single [3; 5]) [1] 1 0 None 0 None NNone None false 2 2); try reflexivity; try discriminate; try lra; try lia.
  apply w0_nonzero; [lia | apply spike_nonvanishing; lia].
Qed.
Print Assumptions C36_waterlevel_refuted.

(** C80: deconvolve() keeps the real part of the results only. Nothing is lost if the
    number of points of the transform is odd or the shift is a multiple of the sampling
    interval: the results are real. *)
Theorem C80_real_partial nfl rs src sr wl gauss tshift len nfft N n out :
  sr <> 0 -> gauss <> Some 0 -> result_points rs len N -> fft_points nfl nfft N n ->
  nonzero_within n src -> 0 < wl -> (Nat.odd n = true \/ exists m, tshift = IZR m / sr) ->
  deconv_waterlevel nfl (Many rs) src sr wl gauss tshift len NNone nfft false = Ok (WMany out) ->
  Forall (Forall (fun z => snd z = 0)) out.
Proof.
  intros Hsr Hg HN Hn Hs Hwl Hm. rewrite (raw_form nfl rs src sr wl gauss tshift len nfft N n) by (auto using w_nonzero).
  intros H. injection H as <-. apply Forall_forall. intros o Ho. apply in_map_iff in Ho. destruct Ho as (r & <- & _).
  apply Forall_forall. intros z Hz. refine (wl_rf_real n N (1 / sr) tshift gauss src wl r z _ _ _ Hz).
  - apply Hn.
  - unfold Rdiv. rewrite Rmult_1_l. apply Rinv_neq_0_compat, Hsr.
  - destruct Hm as [Hm|(m & ->)]; [left; exact Hm | right]. exists m. field. exact Hsr.
Qed.
Print Assumptions C80_real_partial.
(** Otherwise the results can have an imaginary part (the factor at the Nyquist frequency
    is not real). *)
Theorem C80_real_refuted : exists out z,
  deconv_waterlevel (fun n => n) (Many [[1; 0]]) [1] 1 0 None (1 / 2) None NNone None false = Ok (WMany [out]) /\
  In z out /\ snd z <> 0.
Proof.
  exists (wl_rf 2 2 (1 / 1) (1 / 2) None [1] 0 [1; 0]). eexists. split.
  - rewrite (raw_form _ _ _ _ _ _ _ _ _ 2 2); [reflexivity | lra | discriminate | reflexivity | split; [reflexivity | lia] |].
    apply w0_nonzero; [lia | apply spike_nonvanishing; lia].
  - unfold wl_rf. rewrite firstn_tabulate. split; [apply In_tabulate; exists 0%nat; split; [cbn; lia | reflexivity]|].
    unfold ifft_at. cbn [csum]. unfold wl_spec_one. cbn [Z.of_nat Z.mul]. rewrite ?Z.mul_0_r; rewrite !unit_0 by lia.
    rewrite <- !dft_fft by lia. rewrite !spike_dft by lia.
    assert (forall k, dft 2 [1; 0] k = Cone) as D.
    { intros k. rewrite <- (spike_dft 2 k) by lia. unfold dft. apply csum_ext. intros j Hj. destruct j as [|[|j]]; [reflexivity|reflexivity|lia]. }
    rewrite !D.
    assert (W : forall k, (k < 2)%nat -> wl_w 2 [1] 0 k = 1).
    { intros k Hk. unfold wl_w. rewrite Rmult_0_r, <- dft_fft, spike_dft by lia. unfold Cnorm2. cbn. rewrite Rmax_left; lra. }
    rewrite !W by lia. unfold wl_F, fold_freq. cbn [Nat.ltb Nat.leb Nat.mul Nat.add].
    cbn [Z.of_nat Pos.of_succ_nat Pos.succ Z.sub Z.opp Z.add Z.pos_sub].
    replace (- 2 * PI * (0 / (INR 2 * (1 / 1))) * (1 / 2)) with 0 by (cbn; field).
    change (Z.pos_sub 1 2) with (-1)%Z.
    cbn. replace (-2 * PI * (-1 / ((1 + 1) * (1 / 1))) * (1 / 2)) with (PI / 2) by field.
    rewrite cos_0, sin_0, cos_PI2, sin_PI2. lra.
Qed.
Print Assumptions C80_real_refuted.

(** C81: the entry norm of the returned info is the factor that was applied. This holds
    for normalize='src'; for an index it is overwritten by the factor of the prepared
    source; normalize=None raises. *)
Theorem C81_info_partial nfl rs src sr wl gauss tshift len nfft out s c :
  deconv_waterlevel nfl (Many rs) src sr wl gauss tshift len NSrc nfft true = Ok (WInfo out s c) ->
  exists raw, deconv_waterlevel nfl (Many rs) src sr wl gauss tshift len NNone nfft false = Ok (WMany raw) /\
    out = map (map (Cmul c)) raw /\ In Cone s.
Proof.
  unfold deconv_waterlevel. destruct (match len with Some n => Ok n | None => get_length (Many rs) end) as [N|]; cbn [bind]; [|discriminate].
  destruct (Req_EM_T sr 0); [discriminate|]. destruct (_ =? 0)%nat; [discriminate|].
  destruct (wl_filter _ _ _ _) as [F|]; cbn [bind]; [|discriminate]. destruct (some_zero _); [discriminate|]. cbn [bind].
  set (rfs := wl_src _ _ _ _ _ _). destruct (recip_max rfs) as [m|] eqn:Em; cbn [bind]; [|discriminate]. intros H. injection H as <- <- <-.
  eexists. split; [reflexivity|]. split; [reflexivity|]. destruct (recip_max_spec _ _ Em) as (x & Hx & _ & Hn & ->).
  apply in_map_iff. exists x. split; [apply Cmul_Cinv, Hn | exact Hx].
Qed.
Print Assumptions C81_info_partial.
Theorem C81_info_refuted :
  (exists raw out s c, 
     deconv_waterlevel (fun n => n) (Many [[2; 1]]) [1] 1 0 None 0 None NNone None false = Ok (WMany raw) /\
     deconv_waterlevel (fun n => n) (Many [[2; 1]]) [1] 1 0 None 0 None (NIdx 0) None true = Ok (WInfo out s c) /\
     out <> map (map (Cmul c)) raw) /\
  deconv_waterlevel (fun n => n) (Many [[2; 1]]) [1] 1 0 None 0 None NNone None true = Err UnboundLocalError.
Proof.
  assert (Hw : forall k, (k < 2)%nat -> wl_w 2 [1] 0 k <> 0) by (apply w0_nonzero; [lia | apply spike_nonvanishing; lia]).
  assert (A : wl_rf 2 2 (1 / 1) 0 None [1] 0 [2; 1] = map RtoC [2; 1]).
  { pose proof (wl_recover 2 (1 / 1) [1] [2; 1]) as H. rewrite spike_conv in H by (try reflexivity; lia). apply H; [lia | reflexivity|].
    intros k Hk. rewrite <- dft_fft by lia. apply spike_nonvanishing; lia. }
  assert (B : wl_rf 2 2 (1 / 1) 0 None [1] 0 [1] = map RtoC [1; 0]).
  { rewrite (wl_rf_ext 2 2 (1 / 1) 0 None [1] 0 [1] [1; 0]) by (intros j Hj; destruct j as [|[|j]]; [reflexivity|reflexivity|lia]).
    pose proof (wl_recover 2 (1 / 1) [1] [1; 0]) as H. rewrite spike_conv in H by (try reflexivity; lia). apply H; [lia | reflexivity|].
    intros k Hk. rewrite <- dft_fft by lia. apply spike_nonvanishing; lia. }
  rewrite !(waterlevel_unfold (fun n => n) (Many [[2; 1]]) [1] 1 0 None 0 None _ None _ 2 2); try reflexivity; try discriminate; try lra; try lia; try exact Hw.
  cbv zeta. cbn [elems map]. rewrite A, B. split; [|reflexivity]. cbn [nth_error bind map].
  rewrite (recip_max_intro [RtoC 2; RtoC 1] (RtoC 2)); cbn [bind];
    [| left; reflexivity | intros y [<-|[<-|[]]]; apply cle_spec; cbn; [right|left]; lra | unfold Cnorm2; cbn; lra].
  rewrite (recip_max_intro [RtoC 1; RtoC 0] (RtoC 1)); cbn [bind];
    [| left; reflexivity | intros y [<-|[<-|[]]]; apply cle_spec; cbn; [right|left]; lra | unfold Cnorm2; cbn; lra].
  do 4 eexists. split; [reflexivity|]. split; [reflexivity|]. intros E. injection E as E _ _ _. unfold Cnorm2 in E. cbn in E. lra.
Qed.
Print Assumptions C81_info_refuted.

(** Non-vacuity: a source with two samples, and a source whose second spectral line is
    below the water level. *)
Lemma dft2 a b : dft 2 [a; b] 0 = RtoC (a + b) /\ dft 2 [a; b] 1 = RtoC (a - b).
Proof.
  assert (E : forall k j, (k = 0%nat \/ j = 0%nat) -> cis (- (2 * PI * INR k * INR j / INR 2)) = Cone).
  { intros k j H. rewrite <- cis_0. f_equal. destruct H as [-> | ->]; cbn [INR]; field. }
  assert (F : cis (- (2 * PI * INR 1 * INR 1 / INR 2)) = RtoC (-1)).
  { replace (- (2 * PI * INR 1 * INR 1 / INR 2)) with (- PI) by (cbn; field). apply cplx_eq; cbn; rewrite ?cos_neg, ?sin_neg, ?cos_PI, ?sin_PI; ring. }
  unfold dft. cbn [csum nth]. rewrite !E by tauto. rewrite F. split; apply cplx_eq; cbn; ring.
Qed.
Example C31_nonvacuous : nonzero_within 2 [3; 2] /\ peak_power 2 [3; 2] 25 /\
  Cnorm2 (dft 2 [3; 2] 1) < 1 / 20 * 25 /\ fft_points (fun n => n) None 2 2.
Proof.
  destruct (dft2 3 2) as [A B]. refine (conj _ (conj _ (conj _ _))).
  - exists 0%nat. split; [lia | cbn; lra].
  - split.
    + intros k Hk. destruct k as [|[|k]]; [rewrite A | rewrite B | lia]; unfold Cnorm2; cbn; lra.
    + exists 0%nat. split; [lia|]. rewrite A. unfold Cnorm2; cbn; lra.
  - rewrite B. unfold Cnorm2; cbn; lra.
  - split; [reflexivity | lia].
Qed.
Example C32_nonvacuous :
  deconv_waterlevel (fun n => n) (Many [circ_conv 2 [2; 1] [5; -7]]) [2; 1] 10 0 None 0 None NNone None false = Ok (WMany [map RtoC [5; -7]]).
Proof.
  apply C32_recovery; [lra | split; [reflexivity | lia] | reflexivity|]. destruct (dft2 2 1) as [A B].
  intros k Hk E. destruct k as [|[|k]]; [rewrite A in E | rewrite B in E | lia]; apply (f_equal fst) in E; cbn in E; lra.
Qed.
Example C33_nonvacuous : apply_filter [1; 2; 3; 4] (phase_shift_filter 4 (1 / 10) (IZR 1 * (1 / 10))) = Ok [4; 1; 2; 3].
Proof. rewrite C33_phase_shift by (lia || lra). reflexivity. Qed.
Example C29_waterlevel_nonvacuous : exists out,
  deconv_waterlevel (fun n => n) (Many [[-4; 2]]) [1] 1 0 None 0 None (NIdx 0) None false = Ok (WMany out) /\
  out = [[RtoC (-2); RtoC 1]].
Proof.
  pose proof (C32_recovery (fun n => n) [1] [-4; 2] 1 None 2) as H.
  rewrite spike_conv in H by (try reflexivity; lia).
  specialize (H ltac:(lra) ltac:(split; [reflexivity | lia]) eq_refl (spike_nonvanishing 2 ltac:(lia))).
  rewrite waterlevel_idx, H. cbn [bind nth_error map].
  rewrite (recip_max_intro [RtoC (-4); RtoC 2] (RtoC 2)).
  - cbn [bind map]. eexists. split; [reflexivity|]. repeat f_equal; apply cplx_eq; cbn; unfold Cnorm2; cbn; field.
  - right. left. reflexivity.
  - intros y [<-|[<-|[]]]; apply cle_spec; cbn; [left | right]; lra.
  - unfold Cnorm2. cbn. lra.
Qed.
