(** C101, C102: amplitudes of the responses and of the receiver functions. *)
From Verif Require Import Model.Waterlevel Model.Iterative Model.DeconvTime Spec.ArrivalSpec Spec.TimeRfSpec Spec.WaterSpec Spec.SpikeSpec
  Proofs.PyFacts Proofs.SumFacts Proofs.CplxFacts Proofs.WaterFacts Proofs.DeconvTimeFacts Proofs.SpikeFacts Proofs.PeakFacts
  Proofs.ArrivalFacts Proofs.HomogFacts
  Properties.DeconvTimeProps Properties.WaterProps Properties.SpikeProps Properties.PeakProps.
From Coq Require Import Lra Lia.
Notation length := List.length.
Open Scope R_scope.

(** C101: the receiver functions (before normalisation) are multiplied by the same factors as
    the responses; the factors of the components may differ *)
Theorem C101_time solve cs rs s shift spk out : correct_solver solve -> nonzero s -> 0 <= spk -> length cs = length rs ->
  (exists r rs', rs = r :: rs' /\ r <> []) ->
  deconv_time solve (Many rs) s shift spk None None = Ok (Many out) ->
  deconv_time solve (Many (zipw scale cs rs)) s shift spk None None = Ok (Many (zipw scale cs out)).
Proof.
  intros Hsol Hs Hspk Hl (r & rs' & -> & Hr) H. destruct cs as [|c cs]; [discriminate|].
  assert (Hn : (1 <= length r)%nat) by (destruct r; [congruence | cbn; lia]).
  apply (deconv_time_spec solve (r :: rs') s shift spk None out Hsol Hs Hspk (length r) eq_refl Hn) in H.
  assert (E : get_length (Many (zipw scale (c :: cs) (r :: rs'))) = Ok (length r)) by (cbn; rewrite scale_length; reflexivity).
  apply (deconv_time_spec solve (zipw scale (c :: cs) (r :: rs')) s shift spk None _ Hsol Hs Hspk (length r) E Hn).
  clear Hl E. revert H. generalize (c :: cs). generalize (r :: rs') at 1 2. intros l. revert out.
  induction l as [|y l IH]; intros out ds F; inversion F as [|? x ? out' T1 T2]; subst.
  - destruct ds; constructor.
  - destruct ds as [|d ds]; [constructor|]. cbn [zipw]. constructor; [|apply IH, T2].
    pose proof T1 as [Lx _].
    pose proof (time_rf_linear s spk (length r) shift y y (scale d y) x x d 0 ltac:(rewrite scale_length; reflexivity) ltac:(rewrite scale_length; reflexivity)
                  ltac:(intros i; rewrite smp_scale; ring) T1 T1) as TL.
    replace (scale d x) with (map (fun i => d * smp x (Z.of_nat i) + 0 * smp x (Z.of_nat i)) (seq 0 (length r))); [exact TL|].
    apply smp_ext; [rewrite map_length, seq_length, scale_length; lia|]. intros i Hi. rewrite map_length, seq_length in Hi.
    rewrite smp_scale, smp_nth. change (map ?f (seq 0 (length r))) with (tabulate (length r) f). rewrite nth_tabulate by exact Hi. ring.
Qed.
Print Assumptions C101_time.
Lemma zipw_map_l {A B C D} (f : A -> B -> D) (g : C -> B) l k : zipw f l (map g k) = zipw (fun a c => f a (g c)) l k.
Proof. revert k. induction l as [|a l IH]; intros [|c k]; cbn; try reflexivity. f_equal. apply IH. Qed.
Lemma map_zipw {A B C D} (f : C -> D) (g : A -> B -> C) l k : map f (zipw g l k) = zipw (fun a b => f (g a b)) l k.
Proof. revert k. induction l as [|a l IH]; intros [|c k]; cbn; try reflexivity. f_equal. apply IH. Qed.
Lemma zipw_ext {A B C} (f g : A -> B -> C) l k : (forall a b, f a b = g a b) -> zipw f l k = zipw g l k.
Proof. intros H. revert k. induction l as [|a l IH]; intros [|c k]; cbn; try reflexivity. rewrite H, IH. reflexivity. Qed.
Theorem C101_waterlevel nfl cs rs s sr wl gauss tshift len nfft N n :
  sr <> 0 -> gauss <> Some 0 -> result_points rs len N -> fft_points nfl nfft N n -> nonzero_within n s -> 0 < wl ->
  length cs = length rs ->
  exists out, deconv_waterlevel nfl (Many rs) s sr wl gauss tshift len NNone nfft false = Ok (WMany out) /\
    deconv_waterlevel nfl (Many (zipw scale cs rs)) s sr wl gauss tshift len NNone nfft false =
      Ok (WMany (zipw (fun c => map (Cscal c)) cs out)).
Proof.
  intros Hsr Hg HN Hn Hs Hwl Hl. exists (map (wl_rf n N (1 / sr) tshift gauss s wl) rs).
  assert (W : forall k, (k < n)%nat -> wl_w n s wl k <> 0) by (intros k Hk; pose proof (wl_w_pos n s wl k Hs Hwl); lra).
  split; [apply raw_form with (N := N) (n := n); assumption|].
  rewrite (raw_form nfl _ s sr wl gauss tshift len nfft N n); try assumption.
  - f_equal. f_equal. rewrite map_zipw, zipw_map_l. apply zipw_ext. intros c r.
    assert (E1 : s = scale 1 s) by (unfold scale; rewrite <- (map_id s) at 1; apply map_ext; intros; ring).
    rewrite E1 at 1. rewrite wl_rf_scale by (try lra; assumption). apply map_ext. intros z. f_equal. field.
  - unfold result_points in *. destruct len; [exact HN|]. destruct rs as [|r rs]; [destruct HN|]. destruct cs as [|c cs]; [discriminate|].
    cbn. rewrite scale_length. exact HN.
Qed.
Print Assumptions C101_waterlevel.
Theorem C101_iterative nfl cs rs s sr tshift gauss itmax minderr ms out its rmss :
  0 <= minderr -> length cs = length rs -> Forall (fun c => c <> 0) cs ->
  deconv_iterative nfl (Many rs) s sr tshift gauss itmax minderr ms None = Ok (out, its, rmss) ->
  deconv_iterative nfl (Many (zipw scale cs rs)) s sr tshift gauss itmax minderr ms None = Ok (zipw scale cs out, its, rmss).
Proof.
  intros Hm Hl Hc. unfold deconv_iterative. destruct (Req_EM_T sr 0); [discriminate|]. cbn [bind].
  assert (E : forall cs rs, length cs = length rs -> Forall (fun c => c <> 0) cs ->
    mapM (iter_one nfl s sr tshift gauss itmax minderr ms) (zipw scale cs rs) =
    (let! o := mapM (iter_one nfl s sr tshift gauss itmax minderr ms) rs in Ok (zipw (fun c x => (scale c (fst (fst x)), snd (fst x), snd x)) cs o))).
  { clear - Hm. intros cs rs. revert cs. induction rs as [|r rs IH]; intros [|c cs] Hl Hc; try discriminate; [reflexivity|]. inversion Hc; subst.
    injection Hl as Hl. cbn [zipw mapM]. rewrite iter_one_rgain by assumption.
    destruct (iter_one nfl s sr tshift gauss itmax minderr ms r) as [[[o k] q]|]; cbn [bind fst snd]; [|reflexivity].
    rewrite IH by assumption. destruct (mapM _ rs) as [o'|]; reflexivity. }
  rewrite E by assumption. destruct (mapM _ rs) as [o|] eqn:Eo; cbn [bind]; [|discriminate]. intros H. injection H as <- <- <-.
  assert (L : length cs = length o).
  { rewrite Hl. clear - Eo. revert o Eo. induction rs as [|r rs IH]; intros o Eo; cbn [mapM] in Eo.
    - injection Eo as <-. reflexivity.
    - destruct (iter_one _ _ _ _ _ _ _ _ _); cbn [bind] in Eo; [|discriminate]. destruct (mapM _ rs); cbn [bind] in Eo; [|discriminate].
      injection Eo as <-. cbn. f_equal. apply IH. reflexivity. }
  rewrite !map_zipw, zipw_map_l. cbn [fst snd]. f_equal. f_equal; [f_equal|].
  - clear - L. revert o L. induction cs as [|c cs IH]; intros [|x o] L; try discriminate; [reflexivity|]. cbn. f_equal. apply IH. injection L as L. exact L.
  - clear - L. revert o L. induction cs as [|c cs IH]; intros [|x o] L; try discriminate; [reflexivity|]. cbn. f_equal. apply IH. injection L as L. exact L.
Qed.
Print Assumptions C101_iterative.

(** C102: a component with a single conversion in iterative deconvolution; the source is on component i *)
Theorem C102_iterative nfl rs s r T o i j rj c a sr g itmax minderr ms :
  fast_len nfl -> 0 < sr -> g <> 0 -> (0 < itmax)%nat -> 0 <= minderr ->
  (forall r', In r' rs -> length r' = length r) -> nonzero s ->
  nth_error rs i = Some r -> (o < length r)%nat -> placed s r T (Z.of_nat o) -> (T <= Z.of_nat o)%Z ->
  nth_error rs j = Some rj -> (a < length r)%nat -> (T <= Z.of_nat a)%Z -> composed s rj T [(c, Z.of_nat a)] ->
  exists out its rmss x it,
    deconv_iterative nfl (Many rs) s sr (IZR T / sr) (Some g) itmax minderr ms (Some i) = Ok (out, its, rmss) /\
    nth_error out j = Some x /\ length x = length r /\ nth a x 0 = c /\ (forall v, In v x -> Rabs v <= Rabs c) /\
    nth_error its j = Some it /\ (it <= 2)%nat.
Proof.
  intros Hf Hsr Hg Hit Hmd Hlen Hs Hi Ho Hp HT Hj Ha HTa [Cj Zj].
  destruct (placed_lag s r T o Hp Hs HT) as (_ & _ & Hz).
  assert (Hrs : forall r', In r' rs -> r' <> [] /\ nonzero_within (2 * length r') s).
  { intros r' Hr'. specialize (Hlen r' Hr'). split; [intros ->; cbn in Hlen; lia|]. destruct Hs as (p & Hs). exists p. split; [|exact Hs].
    destruct (Nat.lt_ge_cases p (2 * length r')); [assumption|]. exfalso. apply Hs, Hz. lia. }
  destruct (C98_iterative nfl rs s r T o i sr g itmax minderr ms Hf Hsr Hg Hit Hmd Hrs Hi Ho Hp HT) as (out & its & rmss & x0 & it0 & E & Ex0 & Lx0 & P0 & _).
  exists out, its, rmss.
  destruct (C29_iterative _ _ _ _ _ _ _ _ _ _ _ _ _ E) as (raw & q & x0' & Hraw & Eo & Hx0 & _).
  rewrite Ex0 in Hx0. injection Hx0 as <-.
  destruct (iterative_component _ _ _ _ _ _ _ _ _ _ _ _ _ _ Hraw Hi) as (_ & rf & it & rms & E1 & _ & _ & E4).
  destruct (iterative_component _ _ _ _ _ _ _ _ _ _ _ _ _ _ Hraw Hj) as (_ & rfj & itj & rmsj & F1 & F2 & _ & F4).
  rewrite (div_dt sr T) in E4, F4.
  destruct (iter_self nfl s sr T g itmax minderr ms r rf it rms o Hf Hsr Hit Hs Hp Ho HT E4) as (_ & P & _ & _ & V).
  set (M := / INR (nfl (2 * length r)%nat) * rsum (nfl (2 * length r)%nat) (fun k => gG (nfl (2 * length r)%nat) (1 / sr) g k * / (1 / sr))) in V.
  assert (Q : q * M = 1).
  { rewrite Eo, nth_error_map, E1 in Ex0. cbn [option_map] in Ex0. injection Ex0 as <-. rewrite nth_scale, V in P0. exact P0. }
  assert (Lj : length rj = length r) by (apply Hlen; eapply nth_error_In; exact Hj).
  assert (Xj : nth_error out j = Some (scale q rfj)) by (rewrite Eo, nth_error_map, F1; reflexivity).
  destruct (Req_dec c 0) as [->|Hc].
  - (* nothing on this component *)
    assert (Z0 : forall x, In x rj -> x = 0).
    { intros x Hx. destruct (In_nth rj x 0 Hx) as (k & _ & <-). rewrite <- smp_nth, Cj. unfold over_arrivals. cbn [fold_right fst snd]. ring. }
    destruct (C37_zero_response _ _ _ _ _ _ _ _ _ _ _ _ j rj Hf Hmd Hraw Hj ltac:(intros ->; cbn in Lj; lia) Z0) as (G1 & G2 & _).
    rewrite F1 in G1. injection G1 as ->. assert (N0 : forall k m, nth k (scale q (zeros m)) 0 = 0).
    { intros k m. rewrite nth_scale. unfold zeros. rewrite nth_repeat. ring. }
    exists (scale q (zeros (length rj))), 0%nat. split; [exact E|]. split; [exact Xj|].
    split; [rewrite scale_length; unfold zeros; rewrite repeat_length; exact Lj|]. split; [apply N0|].
    split; [|split; [exact G2 | lia]]. intros v Hv. destruct (In_nth _ v 0 Hv) as (k & _ & <-). rewrite N0. lra.
  - set (pc := piece (length rj) s T (Z.of_nat a)).
    assert (Pp : placed s pc T (Z.of_nat a)) by (apply piece_placed; intros k Hk; apply (Zj c); [left; reflexivity | exact Hk]).
    assert (Lp : length pc = length r) by (unfold pc, piece; rewrite tabulate_length; exact Lj).
    assert (Er : rj = scale c pc).
    { apply smp_ext; [rewrite scale_length; lia|]. intros k _. rewrite smp_scale, Cj, (Pp (Z.of_nat k)). unfold over_arrivals. cbn [fold_right fst snd]. ring. }
    rewrite Er, iter_one_rgain in F4 by assumption.
    destruct (iter_one nfl s sr (IZR T * (1 / sr)) (Some g) itmax minderr ms pc) as [[[rfp itp] rmsp]|] eqn:Ep; cbn [bind fst snd] in F4; [|discriminate].
    injection F4 as <- <- <-.
    destruct (iter_self nfl s sr T g itmax minderr ms pc rfp itp rmsp a Hf Hsr Hit Hs Pp ltac:(lia) HTa Ep) as (L1 & P1 & B1 & I1 & V1).
    rewrite Lp in V1. fold M in V1.
    exists (scale q (scale c rfp)), itp. split; [exact E|]. split; [exact Xj|]. split; [rewrite !scale_length; lia|].
    assert (Mp : 0 < M) by (rewrite <- V; exact P). assert (Qe : q = / M) by (apply (Rmult_eq_reg_r M); [rewrite Q; field; lra | lra]).
    split; [rewrite !nth_scale, V1; rewrite Qe; field; lra|]. split; [|split; [exact F2 | apply I1, Hmd]].
    intros v Hv. destruct (In_nth _ v 0 Hv) as (k & Hk & <-). rewrite !scale_length in Hk. rewrite !nth_scale.
    specialize (B1 (nth k rfp 0) ltac:(apply nth_In; exact Hk)). rewrite V1 in B1. rewrite !Rabs_mult.
    rewrite Qe, (Rabs_right (/ M)) by (left; apply Rinv_0_lt_compat, Mp).
    replace (/ M * (Rabs c * Rabs (nth k rfp 0))) with (Rabs c * (Rabs (nth k rfp 0) * / M)) by ring.
    rewrite <- (Rmult_1_r (Rabs c)) at 2. apply Rmult_le_compat_l; [apply Rabs_pos|].
    apply Rmult_le_reg_r with M; [exact Mp|]. rewrite Rmult_assoc, Rinv_l by lra. lra.
Qed.
Print Assumptions C102_iterative.

(** C75 for several components, normalised by one of them: relative amplitudes are kept *)
Theorem C75_components solve s gs rs T i g : correct_solver solve -> nonzero s -> regular_window s T ->
  rs <> [] -> (forall r r', In r rs -> In r' rs -> r <> [] /\ length r = length r') ->
  Forall2 (fun g r => length g = length r /\ convolved s g r T) gs rs -> nth_error gs i = Some g -> nonzero g ->
  deconv_time solve (Many rs) s (T - Z.of_nat (length s) / 2) 0 None (Some i) = Ok (Many (map (scale (/ max_abs g)) gs)).
Proof.
  intros Hsol Hs Hw Hne Hlen HF Hi Hg.
  assert (1 <= length s)%nat as Hls by (destruct s; [destruct Hs as ([|] & Hp); cbn in Hp; congruence|cbn; lia]).
  pose proof (corr0_pos s Hs) as Hp. set (sh := (T - Z.of_nat (length s) / 2)%Z).
  destruct rs as [|r0 rs]; [congruence|].
  assert (Hn : (1 <= length r0)%nat) by (destruct (Hlen r0 r0 (or_introl eq_refl) (or_introl eq_refl)) as [H _]; destruct r0; [congruence | cbn; lia]).
  assert (E : deconv_time solve (Many (r0 :: rs)) s sh 0 None None = Ok (Many (map (scale (corr s s 0)) gs))).
  { apply (deconv_time_spec solve (r0 :: rs) s sh 0 None _ Hsol Hs (Rle_refl 0) (length r0) eq_refl Hn).
    assert (Hl : forall r, In r (r0 :: rs) -> length r = length r0) by (intros r Hr; apply Hlen; [exact Hr | left; reflexivity]).
    revert Hl HF. generalize (r0 :: rs). clear Hi Hlen Hne. induction gs as [|g' gs IH]; intros l Hl HF; inversion HF as [|? r ? l' [Lg Hc] HF']; subst; [constructor|].
    cbn [map]. constructor; [|apply IH; [intros; apply Hl; right; assumption | exact HF']].
    assert (Lr : length r = length r0) by (apply Hl; left; reflexivity). apply time_rf_recovers; [exact Hs | lia|].
    unfold sh. rewrite <- Lr, xoff_aligned by assumption. rewrite <- Lg. exact Hc. }
  rewrite deconv_time_norm, E. cbn [bind]. rewrite normalise_gain by exact Hp.
  unfold normalise. rewrite Hi. destruct (Req_EM_T (max_abs g) 0) as [E0|]; [|reflexivity].
  exfalso. destruct Hg as (p & Hgp). assert (In (nth p g 0) g) as Hin.
  { apply nth_In. destruct (Nat.lt_ge_cases p (length g)); [assumption|]. rewrite nth_overflow in Hgp by assumption. congruence. }
  pose proof (max_abs_ge g _ Hin). pose proof (Rabs_pos_lt _ Hgp). lra.
Qed.
Print Assumptions C75_components.

Ltac at_samples := let j := fresh "j" in intros j; destruct (Z_lt_le_dec j 0); [rewrite !smp_out by (cbn; lia); cbn; try lra|];
  destruct (Z_le_gt_dec 4 j); [rewrite !smp_out by (cbn; lia); cbn; try lra|];
  assert (j = 0 \/ j = 1 \/ j = 2 \/ j = 3)%Z as [->|[->|[->| ->]]] by lia.
Example C101_nonvacuous :
  deconv_waterlevel (fun k => k) (Many [[1; 0]; [0; 1]]) [1] 1 1 None 0 None NNone None false =
    Ok (WMany [wl_rf 2 2 (1 / 1) 0 None [1] 1 [1; 0]; wl_rf 2 2 (1 / 1) 0 None [1] 1 [0; 1]]) /\
  zipw scale [2; -3] [[1; 0]; [0; 1]] = [[2 * 1; 2 * 0]; [-3 * 0; -3 * 1]] /\
  exists out its rmss, deconv_iterative (fun k => (2 * k)%nat) (Many [[3; 1; 0; 0]; [0; 1; 5; 0]]) [1; 5] 10 (IZR 1 / 10) (Some 2) 400 (1 / 1000) false None
    = Ok (out, its, rmss).
Proof.
  split; [|split; [reflexivity|]].
  - rewrite (raw_form (fun k => k) [[1; 0]; [0; 1]] [1] 1 1 None 0 None None 2 2); [reflexivity | lra | discriminate | reflexivity | split; [reflexivity | lia] |].
    intros k Hk. assert (nonzero_within 2 [1]) as NZ by (exists 0%nat; split; [lia | cbn; lra]). pose proof (wl_w_pos 2 [1] 1 k NZ ltac:(lra)). lra.
  - destruct (C37_total_partial (fun k => (2 * k)%nat) [[3; 1; 0; 0]; [0; 1; 5; 0]] [1; 5] 10 (IZR 1 / 10) 2 400 (1 / 1000) false) as (out & its & rmss & E & _);
      try lra; [intros m; lia | | exists out, its, rmss; exact E].
    intros r' [<-|[<-|[]]]; (split; [discriminate|]; exists 0%nat; split; [cbn; lia | cbn; lra]).
Qed.
(** source on component 0, a negative conversion one sample later on component 1 *)
Example C102_nonvacuous : placed [1; 5] [0; 1; 5; 0] 1 (Z.of_nat 2) /\ composed [1; 5] [0; 0; -1/2; -5/2] 1 [(-1/2, 3%Z)] /\
  exists out its rmss x, deconv_iterative (fun k => (2 * k)%nat) (Many [[0; 1; 5; 0]; [0; 0; -1/2; -5/2]]) [1; 5] 10 (IZR 1 / 10) (Some 2) 400 (1 / 1000) false (Some 0%nat)
    = Ok (out, its, rmss) /\ nth_error out 1 = Some x /\ nth 3 x 0 = -1/2.
Proof.
  assert (P : placed [1; 5] [0; 1; 5; 0] 1 (Z.of_nat 2)) by (at_samples; reflexivity).
  assert (Q : composed [1; 5] [0; 0; -1/2; -5/2] 1 [(-1/2, 3%Z)]).
  { split; [unfold over_arrivals; cbn [fold_right fst snd]; at_samples; lazy -[Rplus Rmult Rdiv Ropp Rinv IZR]; lra|].
    intros c o j [E|[]] Hj. inversion E. apply smp_out. cbn in *. lia. }
  split; [exact P|]. split; [exact Q|].
  destruct (C102_iterative (fun k => (2 * k)%nat) [[0; 1; 5; 0]; [0; 0; -1/2; -5/2]] [1; 5] [0; 1; 5; 0] 1 2 0 1 [0; 0; -1/2; -5/2] (-1/2) 3 10 2 400 (1 / 1000) false)
    as (out & its & rmss & x & it & A & B & _ & D & _); try lra; try lia; try assumption; try reflexivity; try (cbn; lia).
  - intros m; lia.
  - intros r' [<-|[<-|[]]]; reflexivity.
  - exists 0%nat. cbn. lra.
  - exists out, its, rmss, x. auto.
Qed.
Example C75_components_nonvacuous : nonzero [3; 5; 4] /\ regular_window [3; 5; 4] 1 /\ nonzero [0; 1; 1; 0] /\
  Forall2 (fun g r => length g = length r /\ convolved [3; 5; 4] g r 1) [[0; 1; 1; 0]; [0; 2; 2; 0]] [[3; 8; 9; 4]; [6; 16; 18; 8]].
Proof.
  split; [exists 0%nat; cbn; lra|]. split; [left; reflexivity|]. split; [exists 1%nat; cbn; lra|].
  repeat constructor; intros j; cbn [List.length rsum];
  (assert (j < 0 \/ 3 < j \/ j = 0 \/ j = 1 \/ j = 2 \/ j = 3)%Z as [H|[H|[->|[->|[->| ->]]]]] by lia;
    [ | | lazy -[Rplus Rmult Rdiv Ropp Rinv IZR]; lra ..];
    rewrite (smp_out _ j), (smp_out [3; 5; 4] (j - Z.of_nat 1 + 1)), (smp_out [3; 5; 4] (j - Z.of_nat 2 + 1)) by (cbn; lia);
    change (smp [0; 1; 1; 0] (Z.of_nat 0)) with 0; change (smp [0; 1; 1; 0] (Z.of_nat 3)) with 0;
    change (smp [0; 2; 2; 0] (Z.of_nat 0)) with 0; change (smp [0; 2; 2; 0] (Z.of_nat 3)) with 0; ring).
Qed.
