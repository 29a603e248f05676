(** deconvolve() with spectral division for traces composed of arrivals of the source. *)
From Verif Require Import Model.Rotate Model.Waterlevel Spec.RfSpec Spec.TimeSpec Spec.DeconvSpec Spec.CorrSpec Spec.TimeRfSpec Spec.ArrivalSpec
  Spec.IterSpec Spec.WaterSpec Spec.SpikeSpec Spec.EndSpec Spec.RotateSpec Proofs.PyFacts Proofs.SumFacts Proofs.RfFacts Proofs.DeconvFacts Proofs.EndFacts Proofs.RotateFacts Properties.ArrivalProps.
From Coq Require Import Lra Lia Qreals Permutation.
Notation length := List.length.
Open Scope R_scope.

Definition real_arrivals (o : Z) (arr : list (Q * Z)) : list (R * Z) := map (fun a => (Q2R (fst a), (o + snd a)%Z)) arr.
Lemma smp_at d j : smp (map Q2R d) j = Q2R (at_ d j).
Proof.
  unfold smp, at_. destruct (Z.ltb_spec j 0), (Z.leb_spec 0 j); try lia; [symmetry; apply Q2R_zero | apply nth_Q2R].
Qed.
Lemma arrivals_real arr p o j : Q2R (arrivals_at arr p j) = over_arrivals (real_arrivals o arr) (fun c a => c * Q2R (at_ p (j - (a - o)))).
Proof.
  induction arr as [|[c a] arr IH]; [apply Q2R_zero|]. cbn [arrivals_at fold_right real_arrivals map over_arrivals fst snd].
  rewrite Q2R_plus, Q2R_mult. fold (arrivals_at arr p j). rewrite IH. f_equal. f_equal. do 2 f_equal. lia.
Qed.
Lemma composed_arrivals s p r T o arr : placed s (map Q2R p) T o -> length r = length p ->
  (forall j, (j < length p)%nat -> (nth j r 0 == arrivals_at arr p (Z.of_nat j))%Q) -> inside arr p (length p) ->
  composed s (map Q2R r) T (real_arrivals o arr).
Proof.
  intros Hp Hl Hr Hin.
  assert (V : forall j a, smp s (j - a + T) = Q2R (at_ p (j - (a - o)))).
  { intros j a. rewrite <- smp_at, Hp. f_equal. lia. }
  assert (Z0 : forall c a j, In (c, a) arr -> (j < 0 \/ Z.of_nat (length p) <= j)%Z -> Q2R (at_ p (j - a)) = 0).
  { intros c a j Ha Hj. destruct (Qeq_dec (at_ p (j - a)) 0) as [E|N]; [rewrite (Qeq_eqR _ _ E); apply Q2R_zero|].
    exfalso. specialize (Hin c a (j - a)%Z Ha N). lia. }
  split.
  - intros j. rewrite smp_at.
    replace (over_arrivals (real_arrivals o arr) (fun c a => c * smp s (j - a + T)))
      with (over_arrivals (real_arrivals o arr) (fun c a => c * Q2R (at_ p (j - (a - o))))).
    2:{ unfold over_arrivals. induction (real_arrivals o arr) as [|x l IH]; [reflexivity|]. cbn [fold_right]. rewrite IH, V. reflexivity. }
    rewrite <- arrivals_real.
    destruct (Z_lt_le_dec j 0) as [L|L]; [|destruct (Z_lt_le_dec j (Z.of_nat (length p))) as [U|U]].
    + transitivity 0.
      * unfold at_. destruct (Z.leb_spec 0 j); [lia|]. apply Q2R_zero.
      * clear - Z0 L. induction arr as [|[c a] arr IH]; [symmetry; apply Q2R_zero|]. cbn [arrivals_at fold_right fst snd].
        rewrite Q2R_plus, Q2R_mult, (Z0 c a j) by (try lia; left; reflexivity). fold (arrivals_at arr p j). rewrite <- IH; [ring|].
        intros; eapply Z0; [right; eassumption|assumption].
    + apply Qeq_eqR. unfold at_ at 1. destruct (Z.leb_spec 0 j); [|lia]. rewrite Hr by lia. rewrite Z2Nat.id by lia. reflexivity.
    + transitivity 0.
      * unfold at_. destruct (Z.leb_spec 0 j); [|lia]. rewrite nth_overflow by lia. apply Q2R_zero.
      * clear - Z0 U. induction arr as [|[c a] arr IH]; [symmetry; apply Q2R_zero|]. cbn [arrivals_at fold_right fst snd].
        rewrite Q2R_plus, Q2R_mult, (Z0 c a j) by (try lia; left; reflexivity). fold (arrivals_at arr p j). rewrite <- IH; [ring|].
        intros; eapply Z0; [right; eassumption|assumption].
  - intros c a j Hin' Hj. rewrite map_length in Hj. apply in_map_iff in Hin'. destruct Hin' as ([c' a'] & [= <- <-] & Ha).
    rewrite V. cbn [snd]. rewrite <- (Z0 c' a' j Ha) by lia. do 2 f_equal. lia.
Qed.
Lemma over_real arr o k W : over_arrivals (real_arrivals o arr) (fun c a => c * W (k - a)%Z) =
  over_arrivals (map (fun a => (Q2R (fst a), snd a)) arr) (fun c a => c * W (k - o - a)%Z).
Proof.
  unfold over_arrivals, real_arrivals. induction arr as [|[c a] arr IH]; [reflexivity|]. cbn [map fold_right fst snd]. rewrite IH.
  do 3 f_equal. lia.
Qed.
Lemma near_nth eps d x n : Forall2 (fun q v => Rabs (Q2R q - v) <= eps) d x -> length x = n ->
  length d = n /\ forall k, (k < n)%nat -> Rabs (Q2R (nth k d 0%Q) - nth k x 0) <= eps.
Proof.
  intros F L. split; [rewrite <- L; clear - F; induction F; cbn; congruence|]. intros k Hk.
  destruct (nth_error x k) as [v|] eqn:Ev; [|apply nth_error_None in Ev; lia].
  destruct (Forall2_error _ _ _ _ _ F Ev) as (q & Eq & H). rewrite (nth_error_nth _ _ _ Eq), (nth_error_nth _ _ _ Ev). exact H.
Qed.

(** the wavelet of all results of one call of deconvolve() *)
Theorem dec_arrivals eps nfl wl gauss kernel taper m source response w ls h src rsp i h' r o o' a b tap ko :
  fast_len nfl -> 0 < wl -> gauss <> Some 0 -> tapers taper ->
  (0 < delta (st (h src)))%Z -> computes_waterlevel eps nfl wl gauss (rate_of (delta (st (h src)))) kernel ->
  In m ["waterlevel"; "freq"] -> channels_set h ls -> selected h source ls [src] -> responses h response ls rsp -> NoDup rsp ->
  nth_error rsp i = Some src -> (forall l, nth_error rsp 0 = Some l -> length (data (h l)) = length (data (h src))) ->
  onset_of (h src) o -> (starttime (st (h src)) <= o <= endtime (h src))%Z -> nearest_sample (h src) o o' -> o' = sample_time (h src) ko ->
  window_for m (o' - starttime (st (h src))) (endtime (h src) - o') w a b tap -> (0 <= tap)%Z ->
  (starttime (st (h src)) <= o' + a)%Z -> (delta (st (h src)) | a)%Z ->
  isolated (h src) (o' + a + tap) (o' + b - tap - delta (st (h src))) ->
  deconvolve kernel taper m source response w None ls h = (h', Ok r) ->
  exists W, zero_phase (nfl (length (data (h src)))) W /\
    forall l arr, In l rsp -> length (data (h l)) = length (data (h src)) ->
      (forall j, (j < length (data (h src)))%nat -> (nth j (data (h l)) 0 == arrivals_at arr (data (h src)) (Z.of_nat j))%Q) ->
      inside arr (data (h src)) (length (data (h src))) ->
      length (data (h' l)) = length (data (h l)) /\
      forall k, (k < length (data (h l)))%nat ->
        Rabs (Q2R (nth k (data (h' l)) 0%Q) - over_arrivals (map (fun a => (Q2R (fst a), snd a)) arr) (fun c a => c * W (Z.of_nat k - Z.of_nat ko - a)%Z)) <= eps.
Proof.
  intros Hf Hwl Hg Ht Hd Hk Hm Hc Hs Hr Hnd Hi Hlen Ho Hb Hnear Eko Hw Htap Hst [T' HT] Hiso E.
  pose proof Hiso as [_ (i0 & Hi0 & _)].
  assert (Hne : List.length (data (h src)) <> 0%nat) by lia.
  destruct (dec_call kernel taper m source response w None ls h src rsp h' r o Hc Hs Hr Hnd Hd Ho Hb Hne E)
    as (o1 & a1 & b1 & tap1 & cut & c & ds & its & N1 & W1 & C1 & M1 & R1 & S1 & T1 & _ & [K1 _] & Ke & Res & _).
  assert (o1 = o') as -> by (eapply nearest_unique; eassumption).
  destruct (window_unique _ _ _ _ _ _ _ _ _ _ W1 Hw) as (-> & -> & ->).
  destruct Hnear as (k & Hk0 & Eo & _).
  assert (k = ko) as -> by (rewrite Eko in Eo; unfold sample_time in Eo; nia).
  set (T := (- T')%Z). assert (HT' : a = (- T * delta (st (h src)))%Z) by (unfold T; lia).
  assert (Cut : cut_padded (h src) cut (o' + a) (o' + b)).
  { apply C1. destruct Hiso as [Hin (j & Hj & Nj)]. specialize (Hin j Hj Nj). lia. }
  destruct (placed_source taper (h src) cut o' a b tap ko T Ht Hd Eo Hk0 HT' Hst Htap Hiso Cut) as (Pl & TK & NZ & Z0).
  assert (Mc : k_method c = "waterlevel") by (rewrite M1; destruct Hm as [<-|[<-|[]]]; reflexivity).
  assert (Tc : k_tshift c = (- (- T * delta (st (h src))))%Z) by (rewrite T1, HT'; destruct Hm as [<-|[<-|[]]]; reflexivity).
  pose proof (K1 i Hi) as Nc.
  set (N := length (data (h src))) in *.
  assert (Hrate : rate_of (delta (st (h src))) <> 0).
  { unfold rate_of. apply Rmult_integral_contrapositive_currified; [lra|]. apply Rinv_neq_0_compat, not_0_IZR. lia. }
  assert (RP : result_points (reals (k_rsp c)) None N).
  { rewrite R1. destruct rsp as [|l0 rsp0]; [destruct i; discriminate|]. cbn. rewrite map_length. apply Hlen. reflexivity. }
  assert (FP : fft_points nfl None N (nfl N)).
  { split; [reflexivity|]. eapply Nat.lt_le_trans; [|apply Hf]. unfold N. lia. }
  assert (Pl' : placed (map Q2R (k_src c)) (map Q2R (data (h src))) T (Z.of_nat ko)) by (rewrite S1; exact Pl).
  destruct (C100_waterlevel nfl (map Q2R (k_src c)) T (rate_of (delta (st (h src)))) wl gauss None N (nfl N) Hrate Hg FP (Hf N))
    as (W & HW & H); [rewrite S1; exact NZ| intros p Hp; rewrite S1; apply Z0; eapply Nat.le_trans; [apply Hf | exact Hp] | exact Hwl |].
  exists W. split; [exact HW|].
  destruct (H (reals (k_rsp c)) i (map Q2R (data (h src))) ko RP) as (out & Ex & Lo & Hx);
    [rewrite R1; apply (nth_error_reals rsp h); exact Hi | apply map_length | exact Hk0 | exact Pl' |].
  rewrite <- tshift_rate, <- Tc in Ex by exact Hd.
  pose proof (Hk c ds its i out Mc Nc Ke Ex) as Up.
  intros l arr Hl Ll Ha Hins. destruct (In_nth_error _ _ Hl) as (j & Hj).
  destruct (Hx j (map Q2R (data (h l))) (real_arrivals (Z.of_nat ko) arr)) as (x & Xj & Lx & Vx).
  - rewrite R1. apply (nth_error_reals rsp h). exact Hj.
  - rewrite map_length, Ll. apply Hf.
  - eapply composed_arrivals; [exact Pl'|exact Ll|exact Ha|exact Hins].
  - assert (Xj' : nth_error (map (map fst) out) j = Some (map fst x)) by (apply map_nth_error, Xj).
    destruct (Forall2_error _ _ _ _ _ Up Xj') as (d & Ed & Fd). rewrite <- (Res j l d Hj Ed) in Fd.
    destruct (near_nth eps (data (h' l)) (map fst x) N Fd) as [A B]; [rewrite map_length; exact Lx|].
    split; [rewrite A, Ll; reflexivity|]. rewrite Ll. intros k Hk'. specialize (B k Hk').
    assert (M : nth k (map fst x) 0 = fst (nth k x Czero)) by exact (map_nth fst x Czero k).
    rewrite M, (Vx k Hk') in B. cbn [RtoC fst] in B. rewrite over_real in B. exact B.
Qed.

Lemma at_out p j : (j < 0 \/ Z.of_nat (length p) <= j)%Z -> at_ p j = 0%Q.
Proof. intros H. unfold at_. destruct (Z.leb_spec 0 j); [|reflexivity]. apply nth_overflow. lia. Qed.
Lemma at_ext p q : length p = length q -> (forall j, (j < length p)%nat -> (nth j p 0 == nth j q 0)%Q) -> forall j, (at_ p j == at_ q j)%Q.
Proof.
  intros L H j. destruct (Z_lt_le_dec j 0); [rewrite !at_out by lia; reflexivity|].
  destruct (Z_lt_le_dec j (Z.of_nat (length p))); [|rewrite !at_out by lia; reflexivity].
  unfold at_. destruct (Z.leb_spec 0 j); [|lia]. apply H. lia.
Qed.
Lemma arrivals_ext arr p q j : (forall j, (at_ p j == at_ q j)%Q) -> (arrivals_at arr p j == arrivals_at arr q j)%Q.
Proof.
  intros H. induction arr as [|[c a] arr IH]; [reflexivity|]. cbn [arrivals_at fold_right fst snd].
  fold (arrivals_at arr p j) (arrivals_at arr q j). rewrite IH, H. reflexivity.
Qed.
Lemma inside_ext arr p q N : (forall j, (at_ p j == at_ q j)%Q) -> inside arr p N -> inside arr q N.
Proof. intros H I c a j Hin Hj. apply (I c a j Hin). rewrite H. exact Hj. Qed.
Lemma at_nat p j : at_ p (Z.of_nat j) = nth j p 0%Q.
Proof. unfold at_. destruct (Z.leb_spec 0 (Z.of_nat j)); [|lia]. rewrite Nat2Z.id. reflexivity. Qed.


(** the deconvolution of the groups of rf() *)
Lemma dec_source kernel taper kind m g h h1 : channels_set h g -> rf_dec kernel taper kind m g h = (h1, Ok tt) ->
  exists x r, selected h (if String.eqb m "P" then "LZ" else "QR") g [x] /\ In x g /\
    deconvolve kernel taper kind (if String.eqb m "P" then "LZ" else "QR") None (WStr m) None g h = (h1, Ok r).
Proof.
  intros Hc E. unfold rf_dec in E. set (src := if String.eqb m "P" then "LZ" else "QR") in *.
  destruct (deconvolve kernel taper kind src None (WStr m) None g h) as [h' [r|]] eqn:D; [|discriminate]. injection E as <-.
  pose proof D as D'. unfold deconvolve, deconvolve_given in D'. destruct (negb _) in D'; [discriminate|]. rewrite filterM_sel in D' by exact Hc.
  destruct (filter (selp h src) g) as [|x [|]] eqn:F; [discriminate| |discriminate]. clear D'.
  exists x, r. split; [exists (selp h src); split; [intros; apply selp_spec | symmetry; exact F]|]. split; [|reflexivity].
  assert (In x (filter (selp h src) g)) as Hin by (rewrite F; left; reflexivity). apply filter_In in Hin. apply Hin.
Qed.
Lemma dec_frames kernel taper kind m ls gs h h3 : applied (rf_dec kernel taper kind m) gs h h3 -> channels_set h ls ->
  (forall g l, In g gs -> In l g -> In l ls) -> forall l, deconvolved (h l) (h3 l).
Proof.
  intros A. induction A as [h|g gs h ha hb Eg A IH]; intros Hc Sb l; [apply deconvolved_refl|].
  assert (Cg : channels_set h g) by (intros x Hx; apply Hc, (Sb g); [left; reflexivity|exact Hx]).
  destruct (dec_source _ _ _ _ _ _ _ Cg Eg) as (x & r & S & Hx & Ed).
  pose proof (dec_only kernel taper kind _ None (WStr m) None g h x g Cg S eq_refl Hx) as [_ B]. rewrite Ed in B. cbn [fst] in B.
  eapply deconvolved_trans; [apply B|]. apply IH.
  - intros y Hy. destruct (B y) as ((_ & _ & _ & B1 & _) & _). rewrite B1. apply Hc, Hy.
  - intros g0 y Hg0. apply Sb. right; exact Hg0.
Qed.
Theorem dec_stage eps nfl wl gauss kernel taper kind m str_of ls h h3 x g src o o' ko a b tap :
  fast_len nfl -> 0 < wl -> gauss <> Some 0 -> tapers taper ->
  (0 < delta (st (h src)))%Z -> computes_waterlevel eps nfl wl gauss (rate_of (delta (st (h src)))) kernel -> In kind ["waterlevel"; "freq"] ->
  NoDup ls -> (forall l, In l ls -> exists o, onset_of (h l) o) -> channels_set h ls ->
  In x ls -> class_of str_of (Some "onset") h ls x g -> length g = 2%nat \/ length g = 3%nat ->
  selected h (if String.eqb m "P" then "LZ" else "QR") g [src] -> (forall l, In l g -> length (data (h l)) = length (data (h src))) ->
  onset_of (h src) o -> (starttime (st (h src)) <= o <= endtime (h src))%Z -> nearest_sample (h src) o o' -> o' = sample_time (h src) ko ->
  window_for kind (o' - starttime (st (h src))) (endtime (h src) - o') (WStr m) a b tap -> (0 <= tap)%Z ->
  (starttime (st (h src)) <= o' + a)%Z -> (delta (st (h src)) | a)%Z ->
  isolated (h src) (o' + a + tap) (o' + b - tap - delta (st (h src))) ->
  group_stage str_of true (rf_dec kernel taper kind m) ls h = (h3, Ok tt) ->
  (forall l, deconvolved (h l) (h3 l)) /\ (forall l, In l g -> onset_of (h3 l) o') /\
  exists W, zero_phase (nfl (length (data (h src)))) W /\
    forall l arr, In l g ->
      (forall j, (j < length (data (h src)))%nat -> (nth j (data (h l)) 0 == arrivals_at arr (data (h src)) (Z.of_nat j))%Q) ->
      inside arr (data (h src)) (length (data (h src))) ->
      shows eps W ko (h3 l) (length (data (h src))) arr.
Proof.
  intros Hf Hwl Hg Ht Hd Hk Hm Nd Ho Hch Hx Cg Lg Sel Len Hon Hb Hnear Eko Hw Htap Hst Hdiv Hiso E.
  destruct (class_in _ _ _ _ _ _ Hx Cg) as (Gx & Sub & Ng). specialize (Ng Nd).
  destruct (stage_group str_of _ (fun g h => channels_set h g) ls h h3 (dec_confined kernel taper kind m)) as (S1 & _ & _).
  { intros g0 ha hb Hab Hc l Hl. rewrite Hab by exact Hl. apply Hc, Hl. }
  { exact Ho. }
  { intros g0 Hg0 l Hl. apply Hch, Hg0, Hl. }
  { exact E. }
  destruct (S1 x g Hx Cg Lg) as (ha & hb & Ha & Eb & Hb3). clear S1.
  assert (Cha : channels_set ha g). { intros l Hl. rewrite Ha by exact Hl. apply Hch, Sub, Hl. }
  destruct (dec_source _ _ _ _ _ _ _ Cha Eb) as (src' & rr & Sel' & Hin' & Ed).
  assert (Gs : In src g). { destruct Sel as (q & _ & Eq). assert (In src (filter q g)) as Hi by (rewrite <- Eq; left; reflexivity). apply filter_In in Hi. apply Hi. }
  assert (src' = src) as ->.
  { apply selected_eq in Sel. apply selected_eq in Sel'. cut ([src'] = [src]); [intros [= ->]; reflexivity|]. rewrite Sel', Sel. apply filter_ext_in.
    intros y Hy. unfold selp. rewrite Ha by exact Hy. reflexivity. }
  pose proof (Ha src Gs) as As.
  destruct (In_nth_error _ _ Gs) as (i & Hi).
  split; [|split].
  - destruct (group_stage_spec str_of _ ls h h3 Ho E) as (gs & (G1 & _ & G3) & A). eapply dec_frames; [exact A|exact Hch|].
    intros g0 l Hg0 Hl. destruct (G1 g0 Hg0) as (_ & y & _ & q & _ & ->). apply filter_In in Hl. apply Hl.
  - destruct (dec_onset kernel taper kind (if String.eqb m "P" then "LZ" else "QR") None (WStr m) None g ha src g hb rr o Cha (fun w t => proj1 (Ht w t)) Sel' eq_refl) as (o2 & Hn2 & _ & On);
      rewrite ?As; try assumption.
    + intros F. destruct Hiso as (_ & j & Hj & _). rewrite F in Hj. cbn in Hj. lia.
    + rewrite As in Hn2. assert (o2 = o') as -> by (eapply nearest_unique; eassumption). intros l Hl. rewrite Hb3 by exact Hl. apply On, Hl.
  - destruct (dec_arrivals eps nfl wl gauss kernel taper kind (if String.eqb m "P" then "LZ" else "QR") None (WStr m) g ha src g i hb rr o o' a b tap ko Hf Hwl Hg Ht) as (W & HW & H);
      rewrite ?As; try assumption; try reflexivity.
    { intros l Hl. apply nth_error_In in Hl. rewrite Ha by exact Hl. apply Len, Hl. }
    rewrite As in HW, H. exists W. split; [exact HW|]. intros l arr Hl Harr Hins.
    destruct (H l arr Hl) as [A B]; [rewrite Ha by exact Hl; apply Len, Hl|rewrite Ha by exact Hl; exact Harr|exact Hins|].
    rewrite (Ha l Hl), (Len l Hl) in A, B. unfold shows. rewrite Hb3 by exact Hl. split; [exact A|exact B].
Qed.
Lemma deconvolved_phases (ls : list loc) (h h3 : heap) : (forall l, deconvolved (h l) (h3 l)) -> phases_are_texts (map h ls) -> phases_are_texts (map h3 ls).
Proof.
  intros K H t Ht. apply in_map_iff in Ht. destruct Ht as (l & <- & Hl). destruct (K l) as (_ & K3).
  rewrite K3 by (cbn; intuition discriminate). apply H, in_map, Hl.
Qed.
(** the components of the motion after rotation *)
Lemma motion_turned (cosd sind : Q -> Q) (h : heap) z n e b i l q t j : (cosd i * cosd i + sind i * sind i == 1)%Q ->
  motion (cosd b) (sind b) (cosd i) (sind i) h z n e l q t -> (j < length (data (h z)))%nat ->
  let up := nth j (data (h z)) 0%Q in
  let out := away (cosd b) (sind b) (nth j (data (h n)) 0%Q) (nth j (data (h e)) 0%Q) in
  (up * cosd i + out * sind i == l (Z.of_nat j))%Q /\ (out * cosd i - up * sind i == q (Z.of_nat j))%Q /\
  (across (cosd b) (sind b) (nth j (data (h n)) 0%Q) (nth j (data (h e)) 0%Q) == t (Z.of_nat j))%Q.
Proof.
  intros U H Hj up out. destruct (H j Hj) as (A & B & C). unfold up, out. rewrite A, B. split; [|split; [|exact C]].
  - transitivity (l (Z.of_nat j) * (cosd i * cosd i + sind i * sind i))%Q; [ring|]. rewrite U. ring.
  - transitivity (q (Z.of_nat j) * (cosd i * cosd i + sind i * sind i))%Q; [ring|]. rewrite U. ring.
Qed.
(** a selected component of the rotated group *)
Lemma selected_one h comps g x c : In x g -> NoDup g -> endswith_char (channel (st (h x))) c = true -> char_in c comps = true ->
  (forall y c, In y g -> endswith_char (channel (st (h y))) c = true -> char_in c comps = true -> y = x) -> selected h comps g [x].
Proof.
  intros Hx Nd Hc Hcc Hu. exists (selp h comps). split; [intros; apply selp_spec|]. symmetry. apply filter_perm_single; [|exact Hx|exact Nd].
  intros y Hy. rewrite selp_spec. split.
  - intros (d & Ld & Hd). apply (Hu y d Hy); [apply endswith_last, Ld|exact Hd].
  - intros ->. exists c. split; [apply endswith_last, Hc|exact Hcc].
Qed.
Lemma shows_same eps W ko t t' N arr : data t' = data t -> shows eps W ko t N arr -> shows eps W ko t' N arr.
Proof. unfold shows. intros ->. auto. Qed.
Lemma shows_rev eps W ko t t' N n arr : zero_phase n W -> (ko < N)%nat -> data t' = rev (data t) -> shows eps W ko t N arr -> shows eps W (N - 1 - ko) t' N (reversed arr).
Proof.
  intros (_ & _ & Sy & _) Hk Ed [L H]. unfold shows. rewrite Ed, rev_length. split; [exact L|]. intros k Hk'.
  rewrite rev_nth by lia. rewrite L. specialize (H (N - S k)%nat ltac:(lia)).
  replace (over_arrivals (map (fun a => (Q2R (fst a), snd a)) (reversed arr)) (fun c a => c * W (Z.of_nat k - Z.of_nat (N - 1 - ko) - a)%Z))
    with (over_arrivals (map (fun a => (Q2R (fst a), snd a)) arr) (fun c a => c * W (Z.of_nat (N - S k) - Z.of_nat ko - a)%Z)); [exact H|].
  clear H. unfold over_arrivals, reversed. induction arr as [|[c a] arr IH]; [reflexivity|]. cbn [map fold_right fst snd]. rewrite IH.
  f_equal. f_equal. rewrite <- Sy. f_equal. lia.
Qed.
Lemma arrivals_one p j : (arrivals_at [(1, 0%Z)] p j == at_ p j)%Q.
Proof. unfold arrivals_at. cbn [fold_right fst snd]. rewrite Z.sub_0_r. ring. Qed.
Lemma inside_one p N : (forall j, ~ (at_ p j == 0)%Q -> (0 <= j < Z.of_nat N)%Z) -> inside [(1%Q, 0%Z)] p N.
Proof. intros H c a j [[= <- <-]|[]] Hj. specialize (H j Hj). lia. Qed.
Lemma at_inside p j : ~ (at_ p j == 0)%Q -> (0 <= j < Z.of_nat (length p))%Z.
Proof.
  intros H. destruct (Z_lt_le_dec j 0) as [L|L]; [exfalso; apply H; rewrite at_out by lia; reflexivity|].
  destruct (Z_lt_le_dec j (Z.of_nat (length p))) as [L2|L2]; [lia|exfalso; apply H; rewrite at_out by lia; reflexivity].
Qed.
(** rotation and deconvolution of rf(): the source component src has the arrivals [(1, 0)] *)
Theorem rays_stage eps nfl wl gauss kernel taper kind cosd sind incomplete str_of m ls h h1 h3 z n e b i p aL aQ aT src o o' ko a bb tap :
  fast_len nfl -> 0 < wl -> gauss <> Some 0 -> tapers taper -> unit_circle cosd sind ->
  (0 < delta (st (h z)))%Z -> computes_waterlevel eps nfl wl gauss (rate_of (delta (st (h z)))) kernel -> In kind ["waterlevel"; "freq"] ->
  NoDup ls -> (forall l, In l ls -> exists o, onset_of (h l) o) -> phases_are_texts (map h ls) -> channels_set h ls ->
  In z ls -> three_components str_of h ls z n e b i ->
  motion (cosd b) (sind b) (cosd i) (sind i) h z n e (arrivals_at aL p) (arrivals_at aQ p) (arrivals_at aT p) -> length p = length (data (h z)) ->
  inside aL p (length p) -> inside aQ p (length p) -> inside aT p (length p) ->
  (src = z /\ m = "P" /\ aL = [(1%Q, 0%Z)]) \/ (src = n /\ m = "S" /\ aQ = [(1%Q, 0%Z)]) ->
  window_for kind (o' - starttime (st (h z))) (endtime (h z) - o') (WStr m) a bb tap -> (0 <= tap)%Z ->
  (starttime (st (h z)) <= o' + a)%Z -> (delta (st (h z)) | a)%Z ->
  isolated (set_data (h z) p) (o' + a + tap) (o' + bb - tap - delta (st (h z))) ->
  onset_of (h src) o -> (starttime (st (h z)) <= o <= endtime (h z))%Z -> nearest_sample (h z) o o' -> o' = sample_time (h z) ko ->
  group_stage str_of true (rotate_lqt cosd sind incomplete) ls h = (h1, Ok tt) ->
  group_stage str_of true (rf_dec kernel taper kind m) ls (fst (for_locs negate_q ls h1)) = (h3, Ok tt) ->
  phases_are_texts (map h3 ls) /\
  (forall l, In l [z; n; e] -> In l ls) /\ (ko < length (data (h z)))%nat /\
  exists W, zero_phase (nfl (length (data (h z)))) W /\
  forall l c arr, In (l, c, arr) [(z, "L"%char, aL); (n, "Q"%char, aQ); (e, "T"%char, aT)] ->
    shows eps W ko (h3 l) (length (data (h z))) arr /\ onset_of (h3 l) o' /\
    channel (st (h3 l)) = (droplast (channel (st (h l))) ++ String c "")%string /\
    starttime (st (h3 l)) = starttime (st (h z)) /\ delta (st (h3 l)) = delta (st (h z)).
Proof.
  intros Hf Hwl Hg Ht Hu Hd Hk Hm Nd Ho Hph Hch Hz H3 Hp Lp IL IQ IT Hsrc Hw Htap Hst Hdiv Hiso Hon Hb Hnear Eko E1 E2.
  destruct (lqt_stage cosd sind incomplete str_of ls h h1 z n e b i Nd Ho Hz ltac:(lia) H3 E1) as (K & L1 & L2 & L3).
  set (h2 := fst (for_locs negate_q ls h1)) in *. cbv zeta in L1, L2, L3.
  destruct (three_triple _ _ _ _ _ _ _ _ Nd Hz H3) as (g & Cg & Lg & (Pg & Ng & Trip) & Sub & Sub').
  pose proof (Sub z ltac:(cbn; tauto)) as Gz. pose proof (Sub n ltac:(cbn; tauto)) as Gn. pose proof (Sub e ltac:(cbn; tauto)) as Ge.
  pose proof (kept_class _ _ _ _ _ _ K Cg) as Cg2.
  assert (Ch2 : channels_set h2 ls). { intros l Hl. destruct (K l) as (_ & Kc & _). apply Kc, Hch, Hl. }
  assert (Ho2 : forall l, In l ls -> exists o, onset_of (h2 l) o). { intros l Hl. destruct (Ho l Hl) as (ol & Hl'). exists ol. eapply kept_onset; eassumption. }
  destruct Trip as (_ & _ & _ & Trip). destruct (Trip n ltac:(cbn; tauto)) as (_ & _ & Stn & Den & Lnz). destruct (Trip e ltac:(cbn; tauto)) as (_ & _ & Ste & Dee & Lez).
  pose proof L1 as (_ & _ & _ & Cz & Tz & Dz & _ & Nz & Vz). pose proof L2 as (_ & _ & _ & Cn & Tn & Dn & _ & Nn & Vn). pose proof L3 as (_ & _ & _ & Ce & Te & De & _ & Ne & Ve).
  set (N := length (data (h z))) in *.
  assert (Ui : (cosd i * cosd i + sind i * sind i == 1)%Q) by apply Hu.
  (* all three components *)
  assert (V : forall l c arr, In (l, c, arr) [(z, "L"%char, aL); (n, "Q"%char, aQ); (e, "T"%char, aT)] ->
     In l g /\ length (data (h2 l)) = N /\ channel (st (h2 l)) = (droplast (channel (st (h l))) ++ String c "")%string /\
     starttime (st (h2 l)) = starttime (st (h z)) /\ delta (st (h2 l)) = delta (st (h z)) /\ inside arr p N /\
     forall j, (j < N)%nat -> (nth j (data (h2 l)) 0 == arrivals_at arr p (Z.of_nat j))%Q).
  { intros l c arr [[= <- <- <-]|[[= <- <- <-]|[[= <- <- <-]|[]]]].
    - repeat (split; [first [assumption | lia | congruence]|]). split; [rewrite <- Lp; exact IL|]. intros j Hj. rewrite Vz by exact Hj.
      apply (motion_turned cosd sind h z n e b i _ _ _ j Ui Hp Hj).
    - repeat (split; [first [assumption | lia | congruence]|]). split; [rewrite <- Lp; exact IQ|]. intros j Hj. rewrite Vn by lia.
      apply (motion_turned cosd sind h z n e b i _ _ _ j Ui Hp Hj).
    - repeat (split; [first [assumption | lia | congruence]|]). split; [rewrite <- Lp; exact IT|]. intros j Hj. rewrite Ve by lia.
      apply (motion_turned cosd sind h z n e b i _ _ _ j Ui Hp Hj). }
  assert (Hs : exists c, In (src, c, [(1%Q, 0%Z)]) [(z, "L"%char, aL); (n, "Q"%char, aQ); (e, "T"%char, aT)] /\
      selected h2 (if String.eqb m "P" then "LZ" else "QR") g [src] /\ onset_of (h2 src) o).
  { destruct Hsrc as [(-> & -> & ->)|(-> & -> & ->)].
    - exists "L"%char. split; [left; reflexivity|]. split; [|eapply kept_onset; eassumption]. apply (selected_one h2 "LZ" g z "L"%char Gz Ng); [rewrite (turned_ends _ _ _ _ _ _ L1); reflexivity|reflexivity|].
      intros y c Hy Hc Hcc. apply (Permutation_in y Pg) in Hy. destruct Hy as [->|[->|[->|[]]]]; [reflexivity| |].
      + rewrite (turned_ends _ _ _ _ _ _ L2) in Hc. apply Ascii.eqb_eq in Hc. subst c. discriminate.
      + rewrite (turned_ends _ _ _ _ _ _ L3) in Hc. apply Ascii.eqb_eq in Hc. subst c. discriminate.
    - exists "Q"%char. split; [right; left; reflexivity|]. split; [|eapply kept_onset; eassumption]. apply (selected_one h2 "QR" g n "Q"%char Gn Ng); [rewrite (turned_ends _ _ _ _ _ _ L2); reflexivity|reflexivity|].
      intros y c Hy Hc Hcc. apply (Permutation_in y Pg) in Hy. destruct Hy as [->|[->|[->|[]]]]; [|reflexivity|].
      + rewrite (turned_ends _ _ _ _ _ _ L1) in Hc. apply Ascii.eqb_eq in Hc. subst c. discriminate.
      + rewrite (turned_ends _ _ _ _ _ _ L3) in Hc. apply Ascii.eqb_eq in Hc. subst c. discriminate. }
  destruct Hs as (cs & Hs & Sel & Os). destruct (V _ _ _ Hs) as (Gs & Ns & _ & Ts & Ds & _ & Vs).
  assert (At : forall j, (at_ p j == at_ (data (h2 src)) j)%Q).
  { apply at_ext; [rewrite Lp, Ns; reflexivity|]. intros j Hj. rewrite Lp in Hj. rewrite Vs by exact Hj. rewrite arrivals_one, at_nat. reflexivity. }
  assert (Ens : endtime (h2 src) = endtime (h z)). { unfold endtime, npts. rewrite Ns, Ts, Ds. reflexivity. }
  assert (Smp : forall j, sample_time (h2 src) j = sample_time (h z) j) by (intros j; unfold sample_time; rewrite Ts, Ds; reflexivity).
  pose proof Hnear as (k & Hko & Ek & K3 & K4). assert (k = ko) as -> by (rewrite Eko in Ek; unfold sample_time in Ek; nia). clear Ek.
  assert (Len : forall l, In l g -> length (data (h2 l)) = length (data (h2 src))).
  { intros l Hl. rewrite Ns. apply (Permutation_in l Pg) in Hl. destruct Hl as [<-|[<-|[<-|[]]]]; lia. }
  destruct (dec_stage eps nfl wl gauss kernel taper kind m str_of ls h2 h3 z g src o o' ko a bb tap Hf Hwl Hg Ht) as (Dec & Ond & W & HW & Sh);
    rewrite ?Ts, ?Ds, ?Ens; try assumption; try (right; exact Lg).
  { exists ko. rewrite Ns, Smp, Ds. auto. }
  { rewrite Smp. exact Eko. }
  { destruct Hiso as (I1 & j & I2 & I3). cbn [set_data data] in I1, I2, I3. assert (Eq : forall j, (j < N)%nat -> (nth j (data (h2 src)) 0 == nth j p 0)%Q).
    { intros q Hq. rewrite Vs, arrivals_one, at_nat by exact Hq. reflexivity. }
    split.
    - intros q Hq Nq. rewrite Smp. apply (I1 q); [lia|]. rewrite <- Eq by lia. exact Nq.
    - exists j. split; [lia|]. rewrite Eq by lia. exact I3. }
  split; [eapply deconvolved_phases; [exact Dec|eapply kept_phases; eassumption]|].
  split; [auto|]. split; [exact Hko|].
  rewrite Ns in HW. exists W. split; [exact HW|]. intros l c arr Hl. destruct (V _ _ _ Hl) as (Gl & Nl & Cl & Tl & Dl & Il & Vl).
  destruct (Dec l) as ((_ & _ & _ & F4 & F5 & F6) & _). rewrite F4, F5, F6.
  split; [|split; [apply Ond, Gl|auto]]. rewrite <- Ns. apply Sh; [exact Gl| |].
  - intros j Hj. rewrite Ns in Hj. rewrite Vl by exact Hj. apply arrivals_ext, At.
  - rewrite Ns. eapply inside_ext; [exact At|]. rewrite <- Ns. rewrite Ns. exact Il.
Qed.

Lemma mirrors_onsets ls h h1 : NoDup ls -> for_locs mirror ls h = (h1, Ok tt) -> forall l, In l ls -> exists o, onset_of (h l) o.
Proof.
  intros Nd E l Hl. pose proof (for_locs_inv _ _ _ _ Nd E l Hl) as A. unfold mirror in A. unfold onset_of.
  destruct (dget (extra (st (h l))) "onset") as [[]|]; cbn [snd] in A; try discriminate. eexists. reflexivity.
Qed.
Lemma mirrored_rev t t' : (0 < delta (st t))%Z -> same_frame t' t -> data t <> [] -> mirrored t t' ->
  data t' = rev (data t) /\ forall k, (k < length (data t))%nat -> onset_of t (sample_time t k) -> onset_of t' (sample_time t' (length (data t) - 1 - k)).
Proof.
  intros Hd (_ & _ & _ & _ & F5 & F6) Hne (o & o' & O & O' & L & H). set (N := length (data t)) in *.
  assert (HN : (0 < N)%nat) by (unfold N; destruct (data t); [congruence|cbn; lia]).
  assert (M : forall i x, nth_error (data t) i = Some x -> exists j, nth_error (data t') j = Some x /\ (Z.of_nat j * delta (st t) + Z.of_nat i * delta (st t) = o + o' - 2 * starttime (st t))%Z).
  { intros i x Hx. destruct (H i x Hx) as (j & J1 & J2). exists j. split; [exact J1|]. unfold sample_time in J2. rewrite F5, F6 in J2. lia. }
  destruct (nth_error (data t) 0) as [x0|] eqn:E0; [|apply nth_error_None in E0; fold N in E0; lia].
  destruct (nth_error (data t) (N - 1)) as [x1|] eqn:E1; [|apply nth_error_None in E1; fold N in E1; lia].
  destruct (M _ _ E0) as (j0 & J0 & S0). destruct (M _ _ E1) as (j1 & J1 & S1).
  assert (B0 : (j0 < N)%nat). { rewrite <- L. apply nth_error_Some. congruence. }
  assert (S : (o + o' - 2 * starttime (st t) = Z.of_nat (N - 1) * delta (st t))%Z) by nia.
  assert (R : forall i x, nth_error (data t) i = Some x -> nth_error (data t') (N - 1 - i) = Some x).
  { intros i x Hx. destruct (M i x Hx) as (j & Hj & Sj). rewrite S in Sj. replace (N - 1 - i)%nat with j; [exact Hj|].
    assert (i < N)%nat by (apply nth_error_Some; congruence). nia. }
  split.
  - apply nth_ext with (d := 0%Q) (d' := 0%Q); [rewrite rev_length; exact L|]. intros k Hk. rewrite L in Hk. rewrite rev_nth by exact Hk. fold N.
    destruct (nth_error (data t) (N - Datatypes.S k)) as [x|] eqn:Ex; [|apply nth_error_None in Ex; fold N in Ex; lia].
    pose proof (R _ _ Ex) as Rx. replace (N - 1 - (N - Datatypes.S k))%nat with k in Rx by lia.
    rewrite (nth_error_nth _ _ _ Rx), (nth_error_nth _ _ _ Ex). reflexivity.
  - intros k Hk Ok. unfold onset_of in *. rewrite O in Ok. injection Ok as ->. rewrite O'. do 2 f_equal. unfold sample_time in *. rewrite F5, F6. nia.
Qed.
