(** C98: deconvolution of a source from a trace which contains nothing but this source. *)
From Verif Require Import Model.Waterlevel Model.Iterative Model.DeconvTime Spec.CorrSpec Spec.TimeRfSpec Spec.SpikeSpec
  Proofs.PyFacts Proofs.SumFacts Proofs.CplxFacts Proofs.WaterFacts Proofs.DeconvTimeFacts Proofs.SpikeFacts Proofs.PeakFacts
  Properties.DeconvTimeProps Properties.WaterProps Properties.SpikeProps.
From Coq Require Import Lra Lia.
Notation length := List.length.
Open Scope R_scope.

Lemma div_dt sr T : IZR T / sr = IZR T * (1 / sr). Proof. unfold Rdiv. ring. Qed.

(** C98: trace r is the source window s with the onset at sample o (T samples before the
    onset are in the window). The receiver function of this trace is 1 at sample o and
    nowhere larger. *)
Theorem C98_waterlevel nfl rs s r T o i sr wl gauss nfft N n :
  sr <> 0 -> gauss <> Some 0 -> result_points rs None N -> fft_points nfl nfft N n -> (N <= n)%nat ->
  nth_error rs i = Some r -> length r = N -> (o < N)%nat ->
  placed s r T (Z.of_nat o) -> nonzero s -> (forall p, (n <= p)%nat -> nth p s 0 = 0) -> 0 < wl ->
  exists out x,
    deconv_waterlevel nfl (Many rs) s sr wl gauss (IZR T / sr) None (NIdx i) nfft false = Ok (WMany out) /\
    nth_error out i = Some x /\ length x = N /\ nth o x Czero = Cone /\
    forall z, In z x -> Rabs (fst z) <= 1 /\ snd z = 0.
Proof.
  intros Hsr Hg HN [Hn Hn0] HNn Hi Hr Ho Hp Hs Hz Hwl.
  assert (NZ : nonzero_within n s).
  { destruct Hs as (p & Hs). exists p. split; [|exact Hs]. destruct (Nat.lt_ge_cases p n); [assumption|]. exfalso. apply Hs, Hz. assumption. }
  rewrite waterlevel_idx.
  rewrite (waterlevel_unfold nfl (Many rs) s sr wl gauss (IZR T / sr) None NNone nfft false n N); [|assumption|assumption| | destruct nfft; exact Hn | exact Hn0 |].
  2:{ unfold result_points in HN. destruct rs as [|r1 rs]; [destruct HN|]. cbn. congruence. }
  2:{ intros k Hk. pose proof (wl_w_pos n s wl k NZ Hwl). lra. }
  cbn [bind elems]. rewrite nth_error_map, Hi. cbn [option_map]. cbv beta zeta. rewrite (div_dt sr T).
  destruct (wl_peak n N (1 / sr) gauss s wl r T o Hn0 (dt_nonzero sr Hsr) ltac:(lia) Hz Hs Hwl Hp Ho HNn) as (L & m & Hm & E & B).
  set (rf := wl_rf n N (1 / sr) (IZR T * (1 / sr)) gauss s wl r) in *.
  assert (Hin : In (RtoC m) rf) by (rewrite <- E; apply nth_In; lia).
  assert (Hm2 : Cnorm2 (RtoC m) <> 0) by (unfold Cnorm2; cbn; nra).
  rewrite (recip_max_intro rf (RtoC m)); [|exact Hin| |exact Hm2].
  2:{ intros y Hy. apply cle_spec. destruct (B y Hy) as [B1 B2]. cbn [RtoC fst snd]. pose proof (Rle_abs (fst y)).
      destruct (Req_dec (fst y) m) as [->|]; [right; split; [reflexivity | lra] | left; lra]. }
  cbn [bind]. exists (map (map (Cmul (Cinv (RtoC m)))) (map (wl_rf n N (1 / sr) (IZR T * (1 / sr)) gauss s wl) rs)), (map (Cmul (Cinv (RtoC m))) rf).
  split; [reflexivity|]. split; [rewrite !nth_error_map, Hi; reflexivity|]. split; [rewrite map_length; exact L|].
  assert (EC : Cinv (RtoC m) = RtoC (/ m)).
  { apply cplx_eq; unfold Cinv, Cnorm2; cbn; field; nra. }
  split.
  - rewrite (nth_indep _ Czero (Cmul (Cinv (RtoC m)) Czero)) by (rewrite map_length; lia). rewrite map_nth, E. apply Cmul_Cinv, Hm2.
  - intros z Hz'. apply in_map_iff in Hz'. destruct Hz' as (y & <- & Hy). destruct (B y Hy) as [B1 B2]. rewrite EC. cbn [Cmul RtoC fst snd].
    rewrite B2. split; [|ring]. replace (/ m * fst y - 0 * 0) with (fst y * / m) by ring. rewrite Rabs_mult, (Rabs_right (/ m)).
    + apply Rmult_le_reg_r with m; [exact Hm|]. rewrite Rmult_assoc, Rinv_l by lra. lra.
    + left. apply Rinv_0_lt_compat, Hm.
Qed.
Print Assumptions C98_waterlevel.

Lemma iterative_peak nfl rs s r T o i sr g itmax minderr ms out its rmss :
  fast_len nfl -> 0 < sr -> (0 < itmax)%nat -> 0 <= minderr ->
  nth_error rs i = Some r -> (o < length r)%nat -> placed s r T (Z.of_nat o) -> (T <= Z.of_nat o)%Z -> nonzero s ->
  deconv_iterative nfl (Many rs) s sr (IZR T / sr) (Some g) itmax minderr ms (Some i) = Ok (out, its, rmss) ->
  exists x it, nth_error out i = Some x /\ length x = length r /\ nth o x 0 = 1 /\ (forall v, In v x -> Rabs v <= 1) /\
    nth_error its i = Some it /\ (it <= 2)%nat.
Proof.
  intros Hf Hsr Hit Hmd Hi Ho Hp HT Hs H. rewrite (div_dt sr T) in H.
  destruct (C29_iterative _ _ _ _ _ _ _ _ _ _ _ _ _ H) as (raw & c & x & Hraw & -> & Hx & Hle & (v & Hv & Ev)).
  destruct (iterative_component _ _ _ _ _ _ _ _ _ _ _ _ _ _ Hraw Hi) as (_ & rf & it & rms & E1 & E2 & E3 & E4).
  destruct (iter_self nfl s sr T g itmax minderr ms r rf it rms o Hf Hsr Hit Hs Hp Ho HT E4) as (L & P & B & Hit2 & _).
  exists x, it. rewrite nth_error_map, E1 in Hx. cbn [option_map] in Hx. injection Hx as <-.
  (* c is the reciprocal of the maximum *)
  assert (Hn : normalise i raw = Ok (map (scale c) raw)).
  { unfold deconv_iterative in H, Hraw. destruct (Req_EM_T sr 0); [lra|]. cbn [bind] in H, Hraw. destruct (mapM _ rs) as [o'|]; cbn [bind] in H, Hraw; [|discriminate].
    destruct (normalise i (map (fun o => fst (fst o)) o')) as [y|] eqn:Ey; cbn [bind] in H; [|discriminate].
    assert (raw = map (fun o => fst (fst o)) o') as -> by congruence. rewrite Ey. congruence. }
  unfold normalise in Hn. rewrite E1 in Hn. destruct (Req_EM_T (max_abs rf) 0); [discriminate|]. injection Hn as Hn.
  apply (f_equal (fun l => nth_error l i)) in Hn. rewrite !nth_error_map, E1 in Hn. cbn [option_map] in Hn. injection Hn as Hn.
  assert (MA : max_abs rf = nth o rf 0).
  { apply Rle_antisym.
    - destruct (max_abs_attained rf) as (y & Hy & <-); [intros E; rewrite E in L; cbn in L; lia|]. apply B, Hy.
    - rewrite <- (Rabs_right (nth o rf 0)) by lra. apply max_abs_ge, nth_In. lia. }
  split; [rewrite nth_error_map, E1; reflexivity|]. split; [rewrite scale_length; exact L|]. split.
  - rewrite <- Hn. rewrite <- smp_nth, smp_scale, smp_nth, MA. apply Rinv_l. lra.
  - auto.
Qed.

(** the same for iterative deconvolution, if the window starts inside of the trace and
    the source is not zero. At most two iterations are needed. *)
Theorem C98_iterative nfl rs s r T o i sr g itmax minderr ms :
  fast_len nfl -> 0 < sr -> g <> 0 -> (0 < itmax)%nat -> 0 <= minderr ->
  (forall r', In r' rs -> r' <> [] /\ nonzero_within (2 * length r') s) ->
  nth_error rs i = Some r -> (o < length r)%nat -> placed s r T (Z.of_nat o) -> (T <= Z.of_nat o)%Z ->
  exists out its rmss x it,
    deconv_iterative nfl (Many rs) s sr (IZR T / sr) (Some g) itmax minderr ms (Some i) = Ok (out, its, rmss) /\
    nth_error out i = Some x /\ length x = length r /\ nth o x 0 = 1 /\ (forall v, In v x -> Rabs v <= 1) /\
    nth_error its i = Some it /\ (it <= 2)%nat.
Proof.
  intros Hf Hsr Hg Hit Hmd Hrs Hi Ho Hp HT.
  assert (Hs : nonzero s) by (destruct (Hrs r (nth_error_In _ _ Hi)) as [_ (p & _ & N)]; exists p; exact N).
  destruct (C37_total_partial nfl rs s sr (IZR T / sr) g itmax minderr ms Hf ltac:(lra) Hg Hmd Hrs) as (raw & its & rmss & Hraw & Hnorm).
  destruct (iterative_component _ _ _ _ _ _ _ _ _ _ _ _ _ _ Hraw Hi) as (_ & rf & it & rms & E1 & E2 & E3 & E4).
  rewrite (div_dt sr T) in E4.
  destruct (iter_self nfl s sr T g itmax minderr ms r rf it rms o Hf Hsr Hit Hs Hp Ho HT E4) as (L & P & _ & _).
  destruct (Hnorm i rf E1) as (out & E); [exists (nth o rf 0); split; [apply nth_In; lia | lra]|].
  destruct (iterative_peak nfl rs s r T o i sr g itmax minderr ms out its rmss Hf Hsr Hit Hmd Hi Ho Hp HT Hs E) as (x & it' & R).
  exists out, its, rmss, x, it'. split; [exact E | exact R].
Qed.
Print Assumptions C98_iterative.

(** time domain deconvolution without regularisation returns a single spike of height 1 at
    sample o, ... *)
Theorem C98_time_partial solve rs s r T o i out : correct_solver solve -> nonzero s -> regular_window s T ->
  nth_error rs i = Some r -> (forall x, In x rs -> length x = length r) -> (o < length r)%nat -> placed s r T (Z.of_nat o) ->
  deconv_time solve (Many rs) s (T - Z.of_nat (length s) / 2) 0 None (Some i) = Ok (Many out) ->
  exists x, nth_error out i = Some x /\ length x = length r /\ nth o x 0 = 1 /\ forall j, j <> o -> nth j x 0 = 0.
Proof.
  intros Hsol Hs Hw Hi Hlen Ho Hp H.
  destruct (C29_time _ _ _ _ _ _ _ _ H) as (raw & c & x & Hraw & -> & Hx & Hle & (v & Hv & Ev)).
  assert (Hls : (1 <= length s)%nat) by (destruct s; [destruct Hs as ([|] & Hq); cbn in Hq; congruence|cbn; lia]).
  set (e := map (fun j => if Nat.eqb j o then 1 else 0) (seq 0 (length r))).
  assert (Le : length e = length r) by (unfold e; rewrite map_length, seq_length; reflexivity).
  assert (Se : forall j, smp e j = if (j =? Z.of_nat o)%Z then 1 else 0).
  { intros j. destruct (Z_lt_le_dec j 0); [|destruct (Z_lt_le_dec j (Z.of_nat (length r)))].
    - rewrite smp_out by lia. destruct (Z.eqb_spec j (Z.of_nat o)); [lia | reflexivity].
    - assert (exists k, j = Z.of_nat k) as (k & ->) by (exists (Z.to_nat j); lia). rewrite smp_nth. unfold e.
      change (map ?f (seq 0 (length r))) with (tabulate (length r) f). rewrite nth_tabulate by lia.
      destruct (Nat.eqb_spec k o), (Z.eqb_spec (Z.of_nat k) (Z.of_nat o)); try reflexivity; lia.
    - rewrite smp_out by lia. destruct (Z.eqb_spec j (Z.of_nat o)); [lia | reflexivity]. }
  assert (Raw : nth_error raw i = Some (scale (corr s s 0) e)).
  { assert (EN : get_length (Many rs) = Ok (length r)).
    { destruct rs as [|r1 rs']; [destruct i; discriminate|]. cbn. f_equal. apply Hlen. left. reflexivity. }
    pose proof (proj1 (deconv_time_spec solve rs s _ 0 None raw Hsol Hs (Rle_refl 0) (length r) EN ltac:(lia)) Hraw) as F.
    destruct (Forall2_nth _ _ _ _ _ F Hi) as (y & Ey & Ty). rewrite Ey. f_equal.
    apply (time_rf_unique s 0 (length r) (T - Z.of_nat (length s) / 2) r y); [lia | exact Hs | lra | exact Ty|].
    apply time_rf_recovers; [exact Hs | exact Le|]. rewrite xoff_aligned by assumption. intros j.
    rewrite (rsum_ext (length r) _ (fun k => if Nat.eqb k o then smp s (j - Z.of_nat o + T) else 0)).
    - rewrite (rsum_delta (length r) o (fun _ => smp s (j - Z.of_nat o + T))) by exact Ho. apply Hp.
    - intros k Hk. rewrite Se. destruct (Nat.eqb_spec k o), (Z.eqb_spec (Z.of_nat k) (Z.of_nat o)); try lia; try subst k; ring. }
  rewrite nth_error_map, Raw in Hx. cbn [option_map] in Hx. injection Hx as <-. rewrite scale_scale in *.
  set (k := c * corr s s 0) in *.
  assert (K0 : nth o (scale k e) 0 = k) by (rewrite <- smp_nth, smp_scale, Se, Z.eqb_refl; ring).
  exists (scale k e). split; [rewrite nth_error_map, Raw; cbn [option_map]; rewrite scale_scale; reflexivity|].
  split; [rewrite scale_length; exact Le|]. split.
  - (* k > 0 and |k| = 1 *)
    rewrite K0. assert (Ka : Rabs k = 1).
    { apply In_nth with (d := 0) in Hv. destruct Hv as (j & Hj & <-). rewrite scale_length in Hj.
      rewrite <- smp_nth, smp_scale, Se in Ev. destruct (Z.eqb_spec (Z.of_nat j) (Z.of_nat o)); [rewrite Rmult_1_r in Ev; exact Ev|].
      rewrite Rmult_0_r, Rabs_R0 in Ev. lra. }
    assert (0 < k); [|rewrite Rabs_right in Ka by lra; exact Ka].
    rewrite deconv_time_norm, Hraw in H. cbn [bind] in H. unfold normalise in H. rewrite Raw in H.
    destruct (Req_EM_T (max_abs (scale (corr s s 0) e)) 0) as [|NZ]; [discriminate|]. cbn [bind] in H. injection H as H.
    apply (f_equal (fun l => nth_error l i)) in H. rewrite !nth_error_map, Raw in H. cbn [option_map] in H. injection H as H.
    apply (f_equal (fun l => nth o l 0)) in H. rewrite !scale_scale in H. rewrite <- !smp_nth, !smp_scale, Se, Z.eqb_refl, !Rmult_1_r in H.
    fold k in H. rewrite <- H. apply Rmult_lt_0_compat; [|apply corr0_pos, Hs]. apply Rinv_0_lt_compat.
    pose proof (max_abs_nonneg (scale (corr s s 0) e)). lra.
  - intros j Hj. rewrite <- smp_nth, smp_scale, Se. destruct (Z.eqb_spec (Z.of_nat j) (Z.of_nat o)); [lia | ring].
Qed.
Print Assumptions C98_time_partial.

(** ... but with the default spiking = 1 the maximum can be at another sample: this trace
    has the onset at sample 1, its receiver function is larger at sample 0. *)
Definition ex_smooth : list R := [1; 2; 3; 4; 4; 4; 3; 2; 1].
Lemma ex_corr d : (0 <= d <= 8)%Z -> corr ex_smooth ex_smooth d =
  nth (Z.to_nat d) [76; 72; 62; 48; 33; 20; 10; 4; 1] 0.
Proof.
  intros H. assert (d = 0 \/ d = 1 \/ d = 2 \/ d = 3 \/ d = 4 \/ d = 5 \/ d = 6 \/ d = 7 \/ d = 8)%Z as D by lia.
  repeat (destruct D as [->|D]; [calc_R|]). subst d. calc_R.
Qed.

Definition ex_smooth_rf : list R :=
  [1691588433209718944 / 94552203492649781; 1647868243694347068 / 94552203492649781; 1325811692057710272 / 94552203492649781; 906071005811949280 / 94552203492649781; 466359451584239840 / 94552203492649781; 104115505924941744 / 94552203492649781; (-82216936164458816) / 94552203492649781; (-155291869206155040) / 94552203492649781; (-98866250951810336) / 94552203492649781].
Lemma ex_smooth_eq : normal_eq ex_smooth ex_smooth 1 1 ex_smooth_rf.
Proof.
  split; [reflexivity|]. intros i Hi. cbn in Hi.
  assert (S : forall d, (-8 <= d <= 8)%Z -> corr ex_smooth ex_smooth d = nth (Z.to_nat (Z.abs d)) [76; 72; 62; 48; 33; 20; 10; 4; 1] 0).
  { intros d Hd. destruct (Z_le_gt_dec 0 d).
    - rewrite ex_corr by lia. f_equal. lia.
    - replace d with (- - d)%Z by lia. rewrite corr_sym, ex_corr by lia. f_equal. lia. }
  rewrite (S (Z.of_nat i - 1)%Z) by lia. rewrite (S 0%Z) by lia. change (length ex_smooth) with 9%nat.
  rewrite (rsum_ext 9 _ (fun j => (nth (Z.to_nat (Z.abs (Z.of_nat i - Z.of_nat j))) [76; 72; 62; 48; 33; 20; 10; 4; 1] 0 / 76
      + (if (i =? j)%nat then 1 else 0)) * nth j ex_smooth_rf 0)).
  - do 9 (destruct i as [|i]; [calc_R|]). lia.
  - intros j Hj. rewrite (S (Z.of_nat i - Z.of_nat j)%Z) by lia. rewrite smp_nth. reflexivity.
Qed.
Theorem C98_time_refuted : exists s T o, placed s s T (Z.of_nat o) /\ nonzero s /\ regular_window s T /\ (0 < o)%nat /\
  forall solve, correct_solver solve -> exists x,
    deconv_time solve (Many [s]) s (T - Z.of_nat (length s) / 2) 1 None (Some 0%nat) = Ok (Many [x]) /\ 0 < nth o x 0 < nth 0 x 0.
Proof.
  exists ex_smooth, 1%Z, 1%nat. assert (Hs : nonzero ex_smooth) by (exists 0%nat; cbn; lra).
  assert (Hw : regular_window ex_smooth 1) by (left; reflexivity).
  split; [intros j; f_equal; lia|]. split; [exact Hs|]. split; [exact Hw|]. split; [lia|]. intros solve Hsol.
  assert (E : deconv_time solve (Many [ex_smooth]) ex_smooth (1 - Z.of_nat (length ex_smooth) / 2) 1 None None = Ok (Many [ex_smooth_rf])).
  { apply C28_receiver_functions; [assumption|assumption|lra|discriminate|intros x []|exact Hw|]. repeat constructor. apply ex_smooth_eq. }
  rewrite deconv_time_norm, E. cbn [bind]. unfold normalise. cbn [nth_error].
  assert (M : 0 < max_abs ex_smooth_rf).
  { apply Rlt_le_trans with (Rabs (nth 0 ex_smooth_rf 0)); [|apply max_abs_ge, nth_In; cbn; lia]. apply Rabs_pos_lt. cbn. lra. }
  destruct (Req_EM_T (max_abs ex_smooth_rf) 0); [lra|]. cbn [bind map].
  eexists. split; [reflexivity|]. change 0%nat with (0)%nat.
  assert (V : forall j, nth j (scale (/ max_abs ex_smooth_rf) ex_smooth_rf) 0 = / max_abs ex_smooth_rf * nth j ex_smooth_rf 0)
    by (intros j; rewrite <- !smp_nth, smp_scale; reflexivity).
  rewrite !V. pose proof (Rinv_0_lt_compat _ M) as I. split.
  - apply Rmult_lt_0_compat; [exact I | cbn; lra].
  - apply Rmult_lt_compat_l; [exact I | cbn; lra].
Qed.
Print Assumptions C98_time_refuted.

(** source [1; 5] with the onset at its second sample in a trace of 4 samples *)
Example C98_nonvacuous : placed [1; 5] [0; 1; 5; 0] 1 (Z.of_nat 2) /\ regular_window [1; 5] 1 /\
  exists out its rmss x, deconv_iterative (fun k => (2 * k)%nat) (Many [[3; 1; 0; 0]; [0; 1; 5; 0]]) [1; 5] 10 (IZR 1 / 10) (Some 2) 400 (1 / 1000) false (Some 1%nat)
    = Ok (out, its, rmss) /\ nth_error out 1 = Some x /\ nth 2 x 0 = 1 /\
  exists out' x', deconv_waterlevel (fun k => (2 * k)%nat) (Many [[3; 1; 0; 0]; [0; 1; 5; 0]]) [1; 5] 10 (1 / 20) (Some 2) (IZR 1 / 10) None (NIdx 1) None false
    = Ok (WMany out') /\ nth_error out' 1 = Some x' /\ nth 2 x' Czero = Cone.
Proof.
  assert (P : placed [1; 5] [0; 1; 5; 0] 1 (Z.of_nat 2)).
  { intros j. destruct (Z_lt_le_dec j 0); [rewrite !smp_out by (cbn; lia); reflexivity|]. destruct (Z_le_gt_dec 4 j); [rewrite !smp_out by (cbn; lia); reflexivity|].
    assert (j = 0 \/ j = 1 \/ j = 2 \/ j = 3)%Z as D by lia. destruct D as [E|[E|[E|E]]]; rewrite E; reflexivity. }
  assert (Hr : forall r', In r' [[3; 1; 0; 0]; [0; 1; 5; 0]] -> r' <> [] /\ nonzero_within (2 * length r') [1; 5]).
  { intros r' [<-|[<-|[]]]; (split; [discriminate|]; exists 0%nat; split; [cbn; lia | cbn; lra]). }
  split; [exact P|]. split; [right; cbn; lia|].
  destruct (C98_iterative (fun k => (2 * k)%nat) [[3; 1; 0; 0]; [0; 1; 5; 0]] [1; 5] [0; 1; 5; 0] 1 2 1 10 2 400 (1 / 1000) false)
    as (out & its & rmss & x & it & A & B & _ & D & _); try lra; try lia; try assumption; try reflexivity; [intros m; lia | cbn; lia |].
  exists out, its, rmss, x. split; [exact A|]. split; [exact B|]. split; [exact D|].
  destruct (C98_waterlevel (fun k => (2 * k)%nat) [[3; 1; 0; 0]; [0; 1; 5; 0]] [1; 5] [0; 1; 5; 0] 1 2 1 10 (1 / 20) (Some 2) None 4 8)
    as (out' & x' & A' & B' & _ & D' & _); try lra; try lia; try assumption; try reflexivity.
  - intros E. inversion E. lra.
  - split; [reflexivity | lia].
  - exists 0%nat. cbn. lra.
  - intros p Hp. rewrite nth_overflow by (cbn; lia). reflexivity.
  - exists out', x'. auto.
Qed.
