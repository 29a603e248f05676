(** C100: receiver functions of traces composed of converted arrivals. *)
From Verif Require Import Model.Waterlevel Spec.ArrivalSpec Spec.TimeRfSpec Spec.WaterSpec
  Proofs.PyFacts Proofs.SumFacts Proofs.CplxFacts Proofs.WaterFacts Proofs.DeconvTimeFacts Proofs.SpikeFacts Proofs.PeakFacts Proofs.ArrivalFacts
  Properties.DeconvTimeProps Properties.WaterProps Properties.SpikeProps Properties.PeakProps.
From Coq Require Import Lra Lia.
Notation length := List.length.
Open Scope R_scope.

(** C100: one wavelet W describes all results: every arrival, on every component, appears in the
    receiver function as W with its amplitude at its time. *)
Theorem C100_waterlevel nfl s T sr wl gauss nfft N n :
  sr <> 0 -> gauss <> Some 0 -> fft_points nfl nfft N n -> (N <= n)%nat ->
  nonzero s -> (forall p, (n <= p)%nat -> nth p s 0 = 0) -> 0 < wl ->
  exists W, zero_phase n W /\
  forall rs i r o, result_points rs None N -> nth_error rs i = Some r -> length r = N -> (o < N)%nat -> placed s r T (Z.of_nat o) ->
  exists out,
    deconv_waterlevel nfl (Many rs) s sr wl gauss (IZR T / sr) None (NIdx i) nfft false = Ok (WMany out) /\
    length out = length rs /\
    forall j rj l, nth_error rs j = Some rj -> (length rj <= n)%nat -> composed s rj T l ->
    exists x, nth_error out j = Some x /\ length x = N /\
      forall k, (k < N)%nat -> nth k x Czero = RtoC (over_arrivals l (fun c a => c * W (Z.of_nat k - a)%Z)).
Proof.
  intros Hsr Hg [Hn Hn0] HNn Hs Hz Hwl.
  assert (NZ : nonzero_within n s).
  { destruct Hs as (p & Hs). exists p. split; [|exact Hs]. destruct (Nat.lt_ge_cases p n); [assumption|]. exfalso. apply Hs, Hz. assumption. }
  destruct (wl_p_pos n (1 / sr) gauss s wl Hn0 NZ Hwl) as [P0 PS].
  exists (wavelet n (wl_p n (1 / sr) gauss s wl)). split; [apply wavelet_zero_phase; assumption|].
  intros rs i r o HN Hi Hr Ho Hp.
  rewrite waterlevel_idx.
  rewrite (waterlevel_unfold nfl (Many rs) s sr wl gauss (IZR T / sr) None NNone nfft false n N); [|assumption|assumption| | destruct nfft; exact Hn | exact Hn0 |].
  2:{ unfold result_points in HN. destruct rs as [|r1 rs]; [destruct HN|]. cbn. congruence. }
  2:{ intros k Hk. pose proof (wl_w_pos n s wl k NZ Hwl). lra. }
  cbn [bind elems]. rewrite nth_error_map, Hi. cbn [option_map]. cbv beta zeta. rewrite (div_dt sr T).
  destruct (wl_peak n N (1 / sr) gauss s wl r T o Hn0 (dt_nonzero sr Hsr) ltac:(lia) Hz Hs Hwl Hp Ho HNn) as (L & m & Hm & E & B).
  set (rf := wl_rf n N (1 / sr) (IZR T * (1 / sr)) gauss s wl r) in *.
  assert (Hin : In (RtoC m) rf) by (rewrite <- E; apply nth_In; lia).
  assert (Hm2 : Cnorm2 (RtoC m) <> 0) by (unfold Cnorm2; cbn; nra).
  rewrite (recip_max_intro rf (RtoC m)); [|exact Hin| |exact Hm2].
  2:{ intros y Hy. apply cle_spec. destruct (B y Hy) as [B1 B2]. cbn [RtoC fst snd]. pose proof (Rle_abs (fst y)).
      destruct (Req_dec (fst y) m) as [->|]; [right; split; [reflexivity | lra] | left; lra]. }
  cbn [bind]. exists (map (map (Cmul (Cinv (RtoC m)))) (map (wl_rf n N (1 / sr) (IZR T * (1 / sr)) gauss s wl) rs)).
  split; [reflexivity|]. split; [rewrite !map_length; reflexivity|].
  assert (EC : Cinv (RtoC m) = RtoC (/ m)).
  { apply cplx_eq; unfold Cinv, Cnorm2; cbn; field; nra. }
  (* the maximum is the sum of the spectrum *)
  assert (Em : m = / INR n * rsum n (wl_p n (1 / sr) gauss s wl)).
  { assert (Cr : composed s r T [(1, Z.of_nat o)]).
    { split; [intros j; rewrite (Hp j); unfold over_arrivals; cbn [fold_right fst snd]; ring|].
      intros c a j [Q|[]] Hj. inversion Q. rewrite <- (Hp j). apply smp_out. exact Hj. }
    pose proof (wl_composed n N (1 / sr) gauss s wl r T _ o Hn0 (dt_nonzero sr Hsr) ltac:(lia) Hz Cr PS HNn Ho) as W1.
    fold rf in W1. rewrite E in W1. apply (f_equal fst) in W1. cbn [RtoC fst] in W1. rewrite W1.
    unfold over_arrivals. cbn [fold_right fst snd]. rewrite Z.sub_diag.
    destruct (wavelet_zero_phase n (wl_p n (1 / sr) gauss s wl) Hn0 P0 PS) as [-> _]. ring. }
  intros j rj l Hj Lj Cj.
  exists (map (Cmul (Cinv (RtoC m))) (wl_rf n N (1 / sr) (IZR T * (1 / sr)) gauss s wl rj)).
  assert (Len : length (wl_rf n N (1 / sr) (IZR T * (1 / sr)) gauss s wl rj) = N).
  { unfold wl_rf. rewrite firstn_tabulate, tabulate_length. lia. }
  split; [rewrite !nth_error_map, Hj; reflexivity|]. split; [rewrite map_length; exact Len|].
  intros k Hk. rewrite (nth_indep _ Czero (Cmul (Cinv (RtoC m)) Czero)) by (rewrite map_length; lia). rewrite map_nth.
  rewrite (wl_composed n N (1 / sr) gauss s wl rj T l k Hn0 (dt_nonzero sr Hsr) Lj Hz Cj PS HNn Hk).
  rewrite EC, <- Em, <- RtoC_mul. f_equal. rewrite <- Rmult_assoc, Rinv_l by lra. ring.
Qed.
Print Assumptions C100_waterlevel.

(** a single conversion: its amplitude (with sign) is read at its time, and no sample is larger *)
Theorem C100_conversion nfl rs s r T o i j rj c a sr wl gauss nfft N n :
  sr <> 0 -> gauss <> Some 0 -> result_points rs None N -> fft_points nfl nfft N n -> (N <= n)%nat ->
  nonzero s -> (forall p, (n <= p)%nat -> nth p s 0 = 0) -> 0 < wl ->
  nth_error rs i = Some r -> length r = N -> (o < N)%nat -> placed s r T (Z.of_nat o) ->
  nth_error rs j = Some rj -> (length rj <= n)%nat -> (a < N)%nat -> composed s rj T [(c, Z.of_nat a)] ->
  exists out x,
    deconv_waterlevel nfl (Many rs) s sr wl gauss (IZR T / sr) None (NIdx i) nfft false = Ok (WMany out) /\
    nth_error out j = Some x /\ length x = N /\ nth a x Czero = RtoC c /\
    forall z, In z x -> Rabs (fst z) <= Rabs c /\ snd z = 0.
Proof.
  intros Hsr Hg HN Hn HNn Hs Hz Hwl Hi Hr Ho Hp Hj Lj Ha Cj.
  destruct (C100_waterlevel nfl s T sr wl gauss nfft N n Hsr Hg Hn HNn Hs Hz Hwl) as (W & (W0 & W1 & _) & H).
  destruct (H rs i r o HN Hi Hr Ho Hp) as (out & E & _ & Hx). destruct (Hx j rj _ Hj Lj Cj) as (x & Ex & Lx & Vx).
  exists out, x. split; [exact E|]. split; [exact Ex|]. split; [exact Lx|]. split.
  - rewrite (Vx a Ha). unfold over_arrivals. cbn [fold_right fst snd]. rewrite Z.sub_diag, W0. f_equal. ring.
  - intros z Hin. destruct (In_nth x z Czero Hin) as (k & Hk & <-). rewrite (Vx k) by lia. cbn [RtoC fst snd]. split; [|reflexivity].
    unfold over_arrivals. cbn [fold_right fst snd]. rewrite Rplus_0_r, Rabs_mult. rewrite <- (Rmult_1_r (Rabs c)) at 2.
    apply Rmult_le_compat_l; [apply Rabs_pos | apply W1].
Qed.
Print Assumptions C100_conversion.

(** the direct wave on component 0; on component 1 a conversion of amplitude -1/2 one sample later
    and one of amplitude 1/4 one sample earlier *)
Example C100_nonvacuous :
  placed [1; 5] [0; 1; 5; 0] 1 (Z.of_nat 2) /\ composed [1; 5] [1/4; 5/4; -1/2; -5/2] 1 [(-1/2, 3%Z); (1/4, 1%Z)] /\
  exists W out x, zero_phase 8 W /\
    deconv_waterlevel (fun k => (2 * k)%nat) (Many [[0; 1; 5; 0]; [1/4; 5/4; -1/2; -5/2]]) [1; 5] 10 (1 / 20) (Some 2) (IZR 1 / 10) None (NIdx 0) None false
      = Ok (WMany out) /\ nth_error out 1 = Some x /\ nth 3 x Czero = RtoC (- 1/2 + 1/4 * W 2%Z).
Proof.
  assert (P : placed [1; 5] [0; 1; 5; 0] 1 (Z.of_nat 2)).
  { intros j. destruct (Z_lt_le_dec j 0); [rewrite !smp_out by (cbn; lia); reflexivity|]. destruct (Z_le_gt_dec 4 j); [rewrite !smp_out by (cbn; lia); reflexivity|].
    assert (j = 0 \/ j = 1 \/ j = 2 \/ j = 3)%Z as D by lia. destruct D as [E|[E|[E|E]]]; rewrite E; reflexivity. }
  assert (Q : composed [1; 5] [1/4; 5/4; -1/2; -5/2] 1 [(-1/2, 3%Z); (1/4, 1%Z)]).
  { split.
    - intros j. unfold over_arrivals. cbn [fold_right fst snd].
      destruct (Z_lt_le_dec j 0); [rewrite !smp_out by (cbn; lia); lra|]. destruct (Z_le_gt_dec 4 j); [rewrite !smp_out by (cbn; lia); lra|].
      assert (j = 0 \/ j = 1 \/ j = 2 \/ j = 3)%Z as D by lia. destruct D as [E|[E|[E|E]]]; rewrite E; lazy -[Rplus Rmult Rdiv Ropp Rinv IZR]; lra.
    - intros c o j [E|[E|[]]] Hj; inversion E; apply smp_out; cbn in *; lia. }
  split; [exact P|]. split; [exact Q|].
  destruct (C100_waterlevel (fun k => (2 * k)%nat) [1; 5] 1 10 (1 / 20) (Some 2) None 4 8) as (W & ZP & H); try lra; try lia.
  - intros E. inversion E. lra.
  - split; [reflexivity | lia].
  - exists 0%nat. cbn. lra.
  - intros p Hp. rewrite nth_overflow by (cbn; lia). reflexivity.
  - destruct (H [[0; 1; 5; 0]; [1/4; 5/4; -1/2; -5/2]] 0%nat [0; 1; 5; 0] 2%nat eq_refl eq_refl eq_refl ltac:(lia) P) as (out & E & _ & Hx).
    destruct (Hx 1%nat _ _ eq_refl ltac:(cbn; lia) Q) as (x & Ex & _ & Vx).
    exists W, out, x. split; [exact ZP|]. split; [exact E|]. split; [exact Ex|]. rewrite (Vx 3%nat) by lia.
    unfold over_arrivals. cbn [fold_right fst snd]. destruct ZP as [W0 _].
    replace (Z.of_nat 3 - 3)%Z with 0%Z by reflexivity. replace (Z.of_nat 3 - 1)%Z with 2%Z by reflexivity. rewrite W0. f_equal. lra.
Qed.
