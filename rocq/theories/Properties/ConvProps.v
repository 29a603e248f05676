(** C150: from ground motion to receiver functions. *)
From Verif Require Import Model.Rotate Model.Waterlevel Spec.TimeSpec Spec.IterSpec Spec.RfSpec Spec.DeconvSpec Spec.CorrSpec Spec.TimeRfSpec
  Spec.ArrivalSpec Spec.WaterSpec Spec.SpikeSpec Spec.EndSpec Spec.RotateSpec Proofs.PyFacts Proofs.RfFacts Proofs.DeconvFacts Proofs.EndFacts Proofs.RotateFacts Proofs.ConvFacts Properties.EndProps Properties.RotateProps.
From Coq Require Import Lra Lia Qreals Permutation.
Notation length := List.length.
Open Scope R_scope.

(** deconvolve() with spectral division: if the source component contains nothing but the source, all responses which
    are composed of arrivals of the source show these with one and the same wavelet, which is symmetric and 1 at delay zero. *)
Theorem C150_deconvolve eps nfl wl gauss kernel taper m source response w ls h src rsp i h' r o o' a b tap ko :
  fast_len nfl -> 0 < wl -> gauss <> Some 0 -> tapers taper ->
  (0 < delta (st (h src)))%Z -> computes_waterlevel eps nfl wl gauss (rate_of (delta (st (h src)))) kernel ->
  In m ["waterlevel"; "freq"] -> channels_set h ls -> selected h source ls [src] -> responses h response ls rsp -> NoDup rsp ->
  nth_error rsp i = Some src -> (forall l, nth_error rsp 0 = Some l -> length (data (h l)) = length (data (h src))) ->
  onset_of (h src) o -> (starttime (st (h src)) <= o <= endtime (h src))%Z -> nearest_sample (h src) o o' -> o' = sample_time (h src) ko ->
  window_for m (o' - starttime (st (h src))) (endtime (h src) - o') w a b tap -> (0 <= tap)%Z ->
  (starttime (st (h src)) <= o' + a)%Z -> (delta (st (h src)) | a)%Z ->
  isolated (h src) (o' + a + tap) (o' + b - tap - delta (st (h src))) ->
  deconvolve kernel taper m source response w None ls h = (h', Ok r) ->
  exists W, zero_phase (nfl (length (data (h src)))) W /\
    forall l arr, In l rsp -> length (data (h l)) = length (data (h src)) ->
      (forall j, (j < length (data (h src)))%nat -> (nth j (data (h l)) 0 == arrivals_at arr (data (h src)) (Z.of_nat j))%Q) ->
      inside arr (data (h src)) (length (data (h src))) ->
      shows eps W ko (h' l) (length (data (h l))) arr.
Proof. exact (dec_arrivals eps nfl wl gauss kernel taper m source response w ls h src rsp i h' r o o' a b tap ko). Qed.
Print Assumptions C150_deconvolve.

(** P receiver functions.  The ground motion consists of a P wave p along the ray, waves converted from P to SV (sv) in
    the plane of the ray and waves converted from P to SH (sh), each of them a list of arrivals (amplitude relative to p,
    delay in samples).  Then rf() returns a stream in which L shows p as one wavelet of height 1 at the onset, Q shows
    the arrivals sv and T the arrivals sh by the same wavelet, at their delays after the onset and with their amplitudes
    and signs.  The onset is the one of the sample nearest to the onset before. *)
Theorem C150_receiver_functions eps nfl wl gauss kernel taper kind cosd sind incomplete str_of filt lowpass ls h h' r z n e b i p sv sh o o' ko :
  fast_len nfl -> 0 < wl -> gauss <> Some 0 -> tapers taper -> unit_circle cosd sind ->
  (0 < delta (st (h z)))%Z -> computes_waterlevel eps nfl wl gauss (rate_of (delta (st (h z)))) kernel -> In kind ["waterlevel"; "freq"] ->
  NoDup ls -> (forall l, In l ls -> exists o, onset_of (h l) o) -> phases_are_texts (map h ls) -> channels_set h ls ->
  In z ls -> three_components str_of h ls z n e b i -> length p = length (data (h z)) ->
  motion (cosd b) (sind b) (cosd i) (sind i) h z n e (at_ p) (arrivals_at sv p) (arrivals_at sh p) ->
  inside sv p (length p) -> inside sh p (length p) ->
  isolated (set_data (h z) p) (starttime (st (h z)) + 5000000000) (endtime (h z) - 5000000000 - delta (st (h z))) ->
  onset_of (h z) o -> (starttime (st (h z)) <= o <= endtime (h z))%Z -> nearest_sample (h z) o o' -> o' = sample_time (h z) ko ->
  rf str_of filt lowpass (rotate_lqt cosd sind incomplete) (rf_dec kernel taper kind) (mkArgs (Some "P") false None None true true) ls h = (h', Ok r) ->
  r = ls /\ exists W, zero_phase (nfl (length (data (h z)))) W /\
  forall l c arr, In (l, c, arr) [(z, "L"%char, [(1%Q, 0%Z)]); (n, "Q"%char, sv); (e, "T"%char, sh)] ->
    shows eps W ko (h' l) (length (data (h z))) arr /\ onset_of (h' l) o' /\
    channel (st (h' l)) = (droplast (channel (st (h l))) ++ String c "")%string /\
    starttime (st (h' l)) = starttime (st (h z)) /\ delta (st (h' l)) = delta (st (h z)).
Proof.
  intros Hf Hwl Hg Ht Hu Hd Hk Hm Nd Ho Hph Hch Hz H3 Lp Hp Isv Ish Hiso Hon Hb Hnear Eko E.
  destruct (rf_stages _ _ _ _ _ _ _ _ _ _ _ _ (or_introl eq_refl) E) as (-> & h1 & h3 & E1 & E2 & E3). split; [reflexivity|].
  destruct (rays_stage eps nfl wl gauss kernel taper kind cosd sind incomplete str_of "P" ls h h1 h3 z n e b i p [(1%Q, 0%Z)] sv sh z o o' ko
    (- (o' - starttime (st (h z)))) (endtime (h z) - o') 5000000000 Hf Hwl Hg Ht Hu Hd Hk Hm Nd Ho Hph Hch Hz H3) as (P3 & Sub & Hko & W & HW & H); try assumption.
  - intros j Hj. destruct (Hp j Hj) as (A & B & D). rewrite A, B, D, arrivals_one. auto with qarith.
  - apply inside_one. intros j Hj. apply at_inside, Hj.
  - left. auto.
  - apply WinWaterP. exact Hm.
  - lia.
  - lia.
  - rewrite Eko. unfold sample_time. exists (- Z.of_nat ko)%Z. lia.
  - replace (o' + - (o' - starttime (st (h z))) + 5000000000)%Z with (starttime (st (h z)) + 5000000000)%Z by lia.
    replace (o' + (endtime (h z) - o') - 5000000000 - delta (st (h z)))%Z with (endtime (h z) - 5000000000 - delta (st (h z)))%Z by lia. exact Hiso.
  - destruct (finish_P ls h3 Nd P3) as (h'' & Ef & F & _). rewrite E3 in Ef. injection Ef as <-.
    exists W. split; [exact HW|]. intros l c arr Hl. destruct (H l c arr Hl) as (S & O & C & T & D).
    assert (Il : In l ls). { apply Sub. destruct Hl as [[= <- <- <-]|[[= <- <- <-]|[[= <- <- <-]|[]]]]; cbn; tauto. }
    destruct (F l Il) as ((_ & _ & _ & F4 & F5 & F6) & Fe & Fd & _). rewrite F4, F5, F6.
    split; [eapply shows_same; eassumption|]. split; [|auto]. unfold onset_of. rewrite Fe by (cbn; intuition discriminate). exact O.
Qed.
Print Assumptions C150_receiver_functions.

(** A single conversion with amplitude c at the delay a: Q is c at this delay, and nowhere larger in magnitude; L is 1 at the onset, and
    nowhere larger; T vanishes. *)
Corollary C150_conversion eps nfl wl gauss kernel taper kind cosd sind incomplete str_of filt lowpass ls h h' r z n e b i p c a o o' ko :
  fast_len nfl -> 0 < wl -> gauss <> Some 0 -> tapers taper -> unit_circle cosd sind ->
  (0 < delta (st (h z)))%Z -> computes_waterlevel eps nfl wl gauss (rate_of (delta (st (h z)))) kernel -> In kind ["waterlevel"; "freq"] ->
  NoDup ls -> (forall l, In l ls -> exists o, onset_of (h l) o) -> phases_are_texts (map h ls) -> channels_set h ls ->
  In z ls -> three_components str_of h ls z n e b i -> length p = length (data (h z)) ->
  motion (cosd b) (sind b) (cosd i) (sind i) h z n e (at_ p) (fun j => c * at_ p (j - Z.of_nat a))%Q (fun _ => 0%Q) ->
  inside [(c, Z.of_nat a)] p (length p) -> (ko + a < length p)%nat ->
  isolated (set_data (h z) p) (starttime (st (h z)) + 5000000000) (endtime (h z) - 5000000000 - delta (st (h z))) ->
  onset_of (h z) o -> (starttime (st (h z)) <= o <= endtime (h z))%Z -> nearest_sample (h z) o o' -> o' = sample_time (h z) ko ->
  rf str_of filt lowpass (rotate_lqt cosd sind incomplete) (rf_dec kernel taper kind) (mkArgs (Some "P") false None None true true) ls h = (h', Ok r) ->
  Rabs (Q2R (nth ko (data (h' z)) 0%Q) - 1) <= eps /\ (forall k, (k < length p)%nat -> Rabs (Q2R (nth k (data (h' z)) 0%Q)) <= 1 + eps) /\
  Rabs (Q2R (nth (ko + a) (data (h' n)) 0%Q) - Q2R c) <= eps /\ (forall k, (k < length p)%nat -> Rabs (Q2R (nth k (data (h' n)) 0%Q)) <= Rabs (Q2R c) + eps) /\
  (forall k, (k < length p)%nat -> Rabs (Q2R (nth k (data (h' e)) 0%Q)) <= eps).
Proof.
  intros Hf Hwl Hg Ht Hu Hd Hk Hm Nd Ho Hph Hch Hz H3 Lp Hp Isv Ha Hiso Hon Hb Hnear Eko E.
  destruct (C150_receiver_functions eps nfl wl gauss kernel taper kind cosd sind incomplete str_of filt lowpass ls h h' r z n e b i p
     [(c, Z.of_nat a)] [] o o' ko Hf Hwl Hg Ht Hu Hd Hk Hm Nd Ho Hph Hch Hz H3 Lp) as (_ & W & (W1 & W4 & _) & H); try assumption.
  { intros j Hj. destruct (Hp j Hj) as (A & B & D). rewrite A, B, D. unfold arrivals_at. cbn [fold_right fst snd].
    split; [ring|]. split; ring. }
  { intros ? ? ? []. }
  destruct (H z "L"%char [(1%Q, 0%Z)]) as ((_ & Sz) & _); [left; reflexivity|].
  destruct (H n "Q"%char [(c, Z.of_nat a)]) as ((_ & Sn) & _); [right; left; reflexivity|].
  destruct (H e "T"%char []) as ((_ & Se) & _); [right; right; left; reflexivity|].
  rewrite <- Lp in Sz, Sn, Se. unfold over_arrivals in Sz, Sn, Se. cbn [map fold_right fst snd] in Sz, Sn, Se.
  assert (E1 : Q2R 1 = 1) by (unfold Q2R; cbn; lra).
  split; [|split; [|split; [|split]]].
  - specialize (Sz ko ltac:(lia)). rewrite E1 in Sz. replace (Z.of_nat ko - Z.of_nat ko - 0)%Z with 0%Z in Sz by lia. rewrite W1 in Sz.
    replace (1 * 1 + 0) with 1 in Sz by ring. exact Sz.
  - intros k Hk'. specialize (Sz k Hk'). rewrite E1 in Sz. set (w := W _) in Sz. assert (Rabs w <= 1) by apply W4.
    revert Sz H0. unfold Rabs. repeat destruct Rcase_abs; lra.
  - specialize (Sn (ko + a)%nat Ha). replace (Z.of_nat (ko + a) - Z.of_nat ko - Z.of_nat a)%Z with 0%Z in Sn by lia. rewrite W1 in Sn.
    replace (Q2R c * 1 + 0) with (Q2R c) in Sn by ring. exact Sn.
  - intros k Hk'. specialize (Sn k Hk'). set (w := W _) in Sn. assert (Rabs w <= 1) as Hw by apply W4.
    assert (Rabs (Q2R c * w) <= Rabs (Q2R c)). { rewrite Rabs_mult. pose proof (Rabs_pos (Q2R c)). nra. }
    set (y := Q2R (nth k (data (h' n)) 0%Q)) in *. replace y with ((y - (Q2R c * w + 0)) + Q2R c * w) by ring.
    eapply Rle_trans; [apply Rabs_triang|]. lra.
  - intros k Hk'. specialize (Se k Hk'). rewrite Rminus_0_r in Se. exact Se.
Qed.
Print Assumptions C150_conversion.

(** S receiver functions.  The ground motion consists of an S wave s in the plane of the ray at right angles to the ray, waves converted from
    S to P (sp, before the onset: negative delays) along the ray and SH waves (sh).  rf() returns a stream in which Q shows s as
    one wavelet of height 1 at the onset, and L shows the converted waves as after the onset: at the opposite delays. *)
Theorem C150_S_receiver_functions eps nfl wl gauss kernel taper kind cosd sind incomplete str_of filt lowpass ls h h' r z n e b i s sp sh o o' ko :
  fast_len nfl -> 0 < wl -> gauss <> Some 0 -> tapers taper -> unit_circle cosd sind ->
  (0 < delta (st (h z)))%Z -> computes_waterlevel eps nfl wl gauss (rate_of (delta (st (h z)))) kernel -> In kind ["waterlevel"; "freq"] ->
  NoDup ls -> (forall l, In l ls -> exists o, onset_of (h l) o) -> phases_are_texts (map h ls) -> channels_set h ls ->
  In z ls -> three_components str_of h ls z n e b i -> length s = length (data (h z)) ->
  motion (cosd b) (sind b) (cosd i) (sind i) h z n e (arrivals_at sp s) (at_ s) (arrivals_at sh s) ->
  inside sp s (length s) -> inside sh s (length s) ->
  (starttime (st (h z)) <= o' - 10000000000)%Z -> (delta (st (h z)) | 10000000000)%Z ->
  isolated (set_data (h z) s) (o' - 5000000000) (endtime (h z) - 5000000000 - delta (st (h z))) ->
  onset_of (h n) o -> (starttime (st (h z)) <= o <= endtime (h z))%Z -> nearest_sample (h z) o o' -> o' = sample_time (h z) ko ->
  rf str_of filt lowpass (rotate_lqt cosd sind incomplete) (rf_dec kernel taper kind) (mkArgs (Some "S") false None None true true) ls h = (h', Ok r) ->
  r = ls /\ exists W, zero_phase (nfl (length (data (h z)))) W /\
  forall l c arr, In (l, c, arr) [(z, "L"%char, sp); (n, "Q"%char, [(1%Q, 0%Z)]); (e, "T"%char, sh)] ->
    shows eps W (length (data (h z)) - 1 - ko) (h' l) (length (data (h z))) (reversed arr) /\
    onset_of (h' l) (sample_time (h' l) (length (data (h z)) - 1 - ko)) /\
    channel (st (h' l)) = (droplast (channel (st (h l))) ++ String c "")%string /\
    starttime (st (h' l)) = starttime (st (h z)) /\ delta (st (h' l)) = delta (st (h z)).
Proof.
  intros Hf Hwl Hg Ht Hu Hd Hk Hm Nd Ho Hph Hch Hz H3 Lp Hp Isv Ish Hst Hdiv Hiso Hon Hb Hnear Eko E.
  destruct (rf_stages _ _ _ _ _ _ _ _ _ _ _ _ (or_intror eq_refl) E) as (-> & h1 & h3 & E1 & E2 & E3). split; [reflexivity|].
  destruct (rays_stage eps nfl wl gauss kernel taper kind cosd sind incomplete str_of "S" ls h h1 h3 z n e b i s sp [(1%Q, 0%Z)] sh n o o' ko
    (-10000000000) (endtime (h z) - o') 5000000000 Hf Hwl Hg Ht Hu Hd Hk Hm Nd Ho Hph Hch Hz H3) as (P3 & Sub & Hko & W & HW & H); try assumption.
  - intros j Hj. destruct (Hp j Hj) as (A & B & D). rewrite A, B, D, arrivals_one. auto with qarith.
  - apply inside_one. intros j Hj. apply at_inside, Hj.
  - right. auto.
  - apply WinWaterS. exact Hm.
  - lia.
  - apply Z.divide_opp_r in Hdiv. exact Hdiv.
  - replace (o' + (-10000000000) + 5000000000)%Z with (o' - 5000000000)%Z by lia.
    replace (o' + (endtime (h z) - o') - 5000000000 - delta (st (h z)))%Z with (endtime (h z) - 5000000000 - delta (st (h z)))%Z by lia. exact Hiso.
  - assert (Ons : forall l, In l ls -> exists o, onset_of (h3 l) o).
    { unfold rf_finish in E3. cbn [String.eqb Ascii.eqb Bool.eqb] in E3. destruct (for_locs mirror ls h3) as [h4 [[]|]] eqn:Em; [|discriminate].
      eapply mirrors_onsets; eassumption. }
    destruct (finish_S ls h3 Nd P3 Ons) as (h'' & Ef & F & _). rewrite E3 in Ef. injection Ef as <-.
    exists W. split; [exact HW|]. intros l c arr Hl. destruct (H l c arr Hl) as (S & O & C & T & D).
    assert (Il : In l ls). { apply Sub. destruct Hl as [[= <- <- <-]|[[= <- <- <-]|[[= <- <- <-]|[]]]]; cbn; tauto. }
    destruct (F l Il) as (Mi & Fr & _). pose proof Fr as (_ & _ & _ & F4 & F5 & F6). pose proof S as [Ls _].
    destruct (mirrored_rev (h3 l) (h' l)) as [Rv On]; [rewrite D; exact Hd|exact Fr|intros X; rewrite X in Ls; cbn in Ls; lia|exact Mi|].
    rewrite F4. split; [eapply shows_rev; eassumption|]. split; [|rewrite F5, F6; auto].
    rewrite <- Ls. apply On; [lia|]. unfold sample_time. rewrite T, D. unfold sample_time in Eko. rewrite <- Eko. exact O.
Qed.
Print Assumptions C150_S_receiver_functions.

(** 20 s with a pulse around 10 s, a conversion of half the amplitude 3 s later, and an SH wave *)
Definition ex_conv : heap := ex_rays 20 (at_ ex_pulse) (arrivals_at [(1 # 2, 3%Z)] ex_pulse) (arrivals_at [(- (1 # 4), 5%Z)]%Q ex_pulse).
Definition ex_conv_S : heap := ex_rays 20 (arrivals_at [(1 # 2, (-3)%Z)] ex_pulse) (at_ ex_pulse) (arrivals_at [] ex_pulse).
Lemma ex_water_ok : computes_waterlevel (1 / 1000) (fun n => n) (1 / 20) (Some 2) (rate_of 1000000000) (ex_water (1 / 1000)).
Proof. intros c ds its i out _ Hn Hk E. unfold ex_water in Hk. rewrite Hn, E in Hk. injection Hk as <- _. apply near_up_to. lra. Qed.
Lemma ex_water_total c : exists ds its, ex_water (1 / 1000) c = Ok (ds, its).
Proof. unfold ex_water. destruct (k_norm c) as [[i|]|]; eauto. destruct (deconv_waterlevel _ _ _ _ _ _ _ _ _ _ _) as [[]|]; eauto. Qed.
Definition ex_rot := rotate_lqt ex_cos ex_sin (fun _ => Ok tt).
Lemma ex_stages (m : string) h : In (m, h) [("P", ex_conv); ("S", ex_conv_S)] -> forall kernel, (forall c, exists ds its, kernel c = Ok (ds, its)) ->
  exists h1 h3, group_stage (fun _ => "t") true ex_rot [0; 1; 2]%nat h = (h1, Ok tt) /\
    group_stage (fun _ => "t") true (rf_dec kernel ex_taper "freq" m) [0; 1; 2]%nat (fst (for_locs negate_q [0; 1; 2]%nat h1)) = (h3, Ok tt).
Proof.
  intros Hm kernel HT. set (g1 := group_stage (fun _ => "t") true ex_rot [0; 1; 2]%nat h).
  assert (S1 : snd g1 = Ok tt) by (unfold g1; destruct Hm as [[= <- <-]|[[= <- <-]|[]]]; vm_compute; reflexivity).
  set (g2 := group_stage (fun _ => "t") true (rf_dec kernel ex_taper "freq" m) [0; 1; 2]%nat (fst (for_locs negate_q [0; 1; 2]%nat (fst g1)))).
  assert (S2 : snd g2 = Ok tt).
  { unfold g2, g1. destruct Hm as [[= <- <-]|[[= <- <-]|[]]]; vm_compute; match goal with |- context [kernel ?c] => destruct (HT c) as (ds & its & ->) end; reflexivity. }
  exists (fst g1), (fst g2). split; [rewrite <- S1|rewrite <- S2]; apply surjective_pairing.
Qed.
Lemma ex_isolated h : delta (st (h 2%nat)) = 1000000000%Z -> starttime (st (h 2%nat)) = 0%Z ->
  isolated (set_data (h 2%nat) ex_pulse) 5000000000 13000000000.
Proof.
  intros Hd Hs. split.
  - intros k Hk Nk. unfold sample_time, set_data. cbn [st]. rewrite Hd, Hs. cbn [set_data data] in Hk, Nk. change (length ex_pulse) with 20%nat in Hk.
    do 20 (destruct k as [|k]; [first [exfalso; apply Nk; reflexivity | lia]|]). lia.
  - exists 9%nat. split; [cbn; lia|discriminate].
Qed.
Lemma ex_inside c a : (-9 <= a <= 8)%Z -> inside [(c, a)] ex_pulse 20.
Proof.
  intros Ha c' a' j [[= <- <-]|[]] Hj. pose proof (at_inside _ _ Hj) as B. change (length ex_pulse) with 20%nat in B.
  rewrite <- (Z2Nat.id j), at_nat in Hj by lia. remember (Z.to_nat j) as k eqn:Ek. assert (j = Z.of_nat k) as -> by lia. clear Ek.
  do 20 (destruct k as [|k]; [first [exfalso; apply Hj; reflexivity | lia]|]). lia.
Qed.
Lemma rf_compose str_of filt lowpass rot dec m ls h h1 h3 h' : m = "P" \/ m = "S" ->
  group_stage str_of true rot ls h = (h1, Ok tt) -> group_stage str_of true (dec m) ls (fst (for_locs negate_q ls h1)) = (h3, Ok tt) ->
  rf_finish m ls h3 = (h', Ok tt) -> rf str_of filt lowpass rot dec (mkArgs (Some m) false None None true true) ls h = (h', Ok ls).
Proof.
  intros Hm E1 E2 E3. unfold rf, rf_method. cbn [a_method bind]. assert (E : str_in m "PS" = true) by (apply str_in_PS; tauto). rewrite E.
  unfold rf_deconvolved, rf_prepare. cbn [a_filter a_trim a_downsample a_rotate a_deconvolve]. rewrite E1, E2, E3. reflexivity.
Qed.
Lemma ex_nearest h : delta (st (h 2%nat)) = 1000000000%Z -> starttime (st (h 2%nat)) = 0%Z -> length (data (h 2%nat)) = 20%nat -> nearest_sample (h 2%nat) 10300000000 10000000000.
Proof. intros A B D. exists 10%nat. unfold sample_time. rewrite A, B, D. split; [lia|]. split; [reflexivity|]. lia. Qed.
Example C150_nonvacuous : exists h',
  rf (fun _ => "t") (fun t => (t, Ok tt)) (fun _ d => d) ex_rot (rf_dec (ex_water (1 / 1000)) ex_taper "freq") (mkArgs (Some "P") false None None true true)
    [0; 1; 2]%nat ex_conv = (h', Ok [0; 1; 2]%nat) /\
  exists W, zero_phase 20 W /\ shows (1 / 1000) W 10 (h' 2%nat) 20 [(1%Q, 0%Z)] /\ shows (1 / 1000) W 10 (h' 1%nat) 20 [(1 # 2, 3%Z)] /\
    shows (1 / 1000) W 10 (h' 0%nat) 20 [(- (1 # 4), 5%Z)]%Q.
Proof.
  destruct (ex_stages "P" ex_conv (or_introl eq_refl) _ ex_water_total) as (h1 & h3 & E1 & E2).
  assert (Ch : channels_set ex_conv [0; 1; 2]%nat) by (intros x [<-|[<-|[<-|[]]]]; discriminate).
  assert (Hon : forall l, In l [0; 1; 2]%nat -> exists o, onset_of (ex_conv l) o) by (intros l _; eexists; apply ex_onsets).
  assert (Iso : isolated (set_data (ex_conv 2%nat) ex_pulse) 5000000000 13000000000) by (apply ex_isolated; reflexivity).
  assert (Nr : nearest_sample (ex_conv 2%nat) 10300000000 10000000000) by (apply ex_nearest; reflexivity).
  assert (Fl : fast_len (fun n => n)) by (intros m; lia).
  assert (G : Some 2 <> Some 0) by (intros F; inversion F; lra).
  assert (W0 : 0 < 1 / 20) by lra.
  assert (Z2 : In 2%nat [0; 1; 2]%nat) by (cbn; tauto).
  assert (Fq : In "freq" ["waterlevel"; "freq"]) by (right; left; reflexivity).
  assert (E3 : exists h', rf_finish "P" [0; 1; 2]%nat h3 = (h', Ok tt)).
  { destruct (rays_stage (1 / 1000) (fun n => n) (1 / 20) (Some 2) (ex_water (1 / 1000)) ex_taper "freq" ex_cos ex_sin (fun _ => Ok tt) (fun _ => "t") "P" [0; 1; 2]%nat ex_conv h1 h3 2%nat 1%nat 0%nat
      (5313 # 100) (3687 # 100) ex_pulse [(1%Q, 0%Z)] [(1 # 2, 3%Z)] [(- (1 # 4), 5%Z)]%Q 2%nat 10300000000 10000000000 10 (-10000000000) 9000000000 5000000000
      Fl W0 G ex_tapers ex_circle eq_refl ex_water_ok Fq ex_nodup Hon (ex_phases _ _ _ _ _) Ch Z2 (ex_three _ _ _ _)) as (P3 & _); try assumption; try reflexivity.
    - intros j Hj. destruct (ex_motion 20 (at_ ex_pulse) (arrivals_at [(1 # 2, 3%Z)] ex_pulse) (arrivals_at [(- (1 # 4), 5%Z)]%Q ex_pulse) j Hj) as (A & B & D).
      rewrite arrivals_one. auto.
    - apply ex_inside; lia.
    - apply ex_inside; lia.
    - apply ex_inside; lia.
    - left. auto.
    - apply (WinWaterP "freq" 10000000000 9000000000 Fq).
    - lia.
    - exists (-10)%Z. reflexivity.
    - cbn. lia.
    - destruct (finish_P [0; 1; 2]%nat h3 ex_nodup P3) as (h' & F & _). exists h'. exact F. }
  destruct E3 as (h' & E3). exists h'.
  assert (E : rf (fun _ => "t") (fun t => (t, Ok tt)) (fun _ d => d) ex_rot (rf_dec (ex_water (1 / 1000)) ex_taper "freq") (mkArgs (Some "P") false None None true true)
    [0; 1; 2]%nat ex_conv = (h', Ok [0; 1; 2]%nat)) by (eapply rf_compose; eauto).
  split; [exact E|].
  destruct (C150_receiver_functions (1 / 1000) (fun n => n) (1 / 20) (Some 2) (ex_water (1 / 1000)) ex_taper "freq" ex_cos ex_sin (fun _ => Ok tt) (fun _ => "t")
      (fun t => (t, Ok tt)) (fun _ d => d) [0; 1; 2]%nat ex_conv h' [0; 1; 2]%nat 2%nat 1%nat 0%nat
      (5313 # 100) (3687 # 100) ex_pulse [(1 # 2, 3%Z)] [(- (1 # 4), 5%Z)]%Q 10300000000 10000000000 10
      Fl W0 G ex_tapers ex_circle eq_refl ex_water_ok Fq ex_nodup Hon (ex_phases _ _ _ _ _) Ch Z2 (ex_three _ _ _ _) eq_refl (ex_motion _ _ _ _)) as (_ & W & HW & H); try assumption; try reflexivity.
  - apply ex_inside; lia.
  - apply ex_inside; lia.
  - cbn. lia.
  - exists W. split; [exact HW|]. split; [|split].
    + apply (H _ "L"%char). left. reflexivity.
    + apply (H _ "Q"%char). right. left. reflexivity.
    + apply (H _ "T"%char). right. right. left. reflexivity.
Qed.
Example C150_S_nonvacuous : exists h',
  rf (fun _ => "t") (fun t => (t, Ok tt)) (fun _ d => d) ex_rot (rf_dec (ex_water (1 / 1000)) ex_taper "freq") (mkArgs (Some "S") false None None true true)
    [0; 1; 2]%nat ex_conv_S = (h', Ok [0; 1; 2]%nat) /\
  exists W, zero_phase 20 W /\ shows (1 / 1000) W 9 (h' 2%nat) 20 [(1 # 2, 3%Z)] /\ onset_of (h' 2%nat) 9000000000.
Proof.
  destruct (ex_stages "S" ex_conv_S (or_intror (or_introl eq_refl)) _ ex_water_total) as (h1 & h3 & E1 & E2).
  assert (Ch : channels_set ex_conv_S [0; 1; 2]%nat) by (intros x [<-|[<-|[<-|[]]]]; discriminate).
  assert (Hon : forall l, In l [0; 1; 2]%nat -> exists o, onset_of (ex_conv_S l) o) by (intros l _; eexists; apply ex_onsets).
  assert (Iso : isolated (set_data (ex_conv_S 2%nat) ex_pulse) 5000000000 13000000000) by (apply ex_isolated; reflexivity).
  assert (Nr : nearest_sample (ex_conv_S 2%nat) 10300000000 10000000000) by (apply ex_nearest; reflexivity).
  assert (Fl : fast_len (fun n => n)) by (intros m; lia).
  assert (G : Some 2 <> Some 0) by (intros F; inversion F; lra).
  assert (W0 : 0 < 1 / 20) by lra.
  assert (Z2 : In 2%nat [0; 1; 2]%nat) by (cbn; tauto).
  assert (Fq : In "freq" ["waterlevel"; "freq"]) by (right; left; reflexivity).
  assert (E3 : exists h', rf_finish "S" [0; 1; 2]%nat h3 = (h', Ok tt)).
  { destruct (rays_stage (1 / 1000) (fun n => n) (1 / 20) (Some 2) (ex_water (1 / 1000)) ex_taper "freq" ex_cos ex_sin (fun _ => Ok tt) (fun _ => "t") "S" [0; 1; 2]%nat ex_conv_S h1 h3 2%nat 1%nat 0%nat
      (5313 # 100) (3687 # 100) ex_pulse [(1 # 2, (-3)%Z)] [(1%Q, 0%Z)] [] 1%nat 10300000000 10000000000 10 (-10000000000) 9000000000 5000000000
      Fl W0 G ex_tapers ex_circle eq_refl ex_water_ok Fq ex_nodup Hon (ex_phases _ _ _ _ _) Ch Z2 (ex_three _ _ _ _)) as (P3 & Sub & _ & W & _ & H); try assumption; try reflexivity.
    - intros j Hj. destruct (ex_motion 20 (arrivals_at [(1 # 2, (-3)%Z)] ex_pulse) (at_ ex_pulse) (arrivals_at [] ex_pulse) j Hj) as (A & B & D).
      rewrite arrivals_one. auto.
    - apply ex_inside; lia.
    - apply ex_inside; lia.
    - intros ? ? ? [].
    - right. auto.
    - apply (WinWaterS "freq" 10000000000 9000000000 Fq).
    - lia.
    - exists (-10)%Z. reflexivity.
    - cbn. lia.
    - destruct (finish_S [0; 1; 2]%nat h3 ex_nodup P3) as (h' & F & _); [|exists h'; exact F].
      intros l [<-|[<-|[<-|[]]]]; eexists.
      + apply (H _ "T"%char []). right. right. left. reflexivity.
      + apply (H _ "Q"%char [(1%Q, 0%Z)]). right. left. reflexivity.
      + apply (H _ "L"%char [(1 # 2, (-3)%Z)]). left. reflexivity. }
  destruct E3 as (h' & E3). exists h'.
  assert (E : rf (fun _ => "t") (fun t => (t, Ok tt)) (fun _ d => d) ex_rot (rf_dec (ex_water (1 / 1000)) ex_taper "freq") (mkArgs (Some "S") false None None true true)
    [0; 1; 2]%nat ex_conv_S = (h', Ok [0; 1; 2]%nat)) by (eapply rf_compose; eauto).
  split; [exact E|].
  destruct (C150_S_receiver_functions (1 / 1000) (fun n => n) (1 / 20) (Some 2) (ex_water (1 / 1000)) ex_taper "freq" ex_cos ex_sin (fun _ => Ok tt) (fun _ => "t")
      (fun t => (t, Ok tt)) (fun _ d => d) [0; 1; 2]%nat ex_conv_S h' [0; 1; 2]%nat 2%nat 1%nat 0%nat
      (5313 # 100) (3687 # 100) ex_pulse [(1 # 2, (-3)%Z)] [] 10300000000 10000000000 10
      Fl W0 G ex_tapers ex_circle eq_refl ex_water_ok Fq ex_nodup Hon (ex_phases _ _ _ _ _) Ch Z2 (ex_three _ _ _ _) eq_refl (ex_motion _ _ _ _)) as (_ & W & HW & H); try assumption; try reflexivity.
  - apply ex_inside; lia.
  - intros ? ? ? [].
  - exists 10%Z. reflexivity.
  - cbn. lia.
  - destruct (H 2%nat "L"%char [(1 # 2, (-3)%Z)]) as (S & O & _ & T & D); [left; reflexivity|].
    exists W. split; [exact HW|]. split; [exact S|]. unfold sample_time in O. rewrite T, D in O. exact O.
Qed.
