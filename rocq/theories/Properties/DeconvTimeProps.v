(** C26 - C30, C36, C73 - C75: time domain deconvolution, over the real numbers. *)
From Verif Require Import Model.Deconv Model.DeconvTime Spec.CorrSpec Spec.TimeRfSpec Spec.DeconvSpec
  Proofs.PyFacts Proofs.SumFacts Proofs.LinFacts Proofs.DeconvTimeFacts Proofs.DeconvFacts.
From Coq Require Import Lra Lia ClassicalEpsilon.
Notation length := List.length.
Open Scope R_scope.
Ltac calc_R := cbn; repeat match goal with |- context [Pos.to_nat ?p] =>
  let n := eval compute in (Pos.to_nat p) in change (Pos.to_nat p) with n end; cbn; lra.

(** C26: both helpers return num samples for all arrays and shifts; sample k of the
    auto-correlation is sum_i a(i+k) a(i). *)
Theorem C26_acorrt a num : (1 <= num)%nat ->
  exists r, acorrt a num = Ok r /\ length r = num /\
    forall k, (k < num)%nat -> nth k r 0 = rsum (length a) (fun i => nth (i + k) a 0 * nth i a 0).
Proof.
  intros H. destruct (acorrt_spec a num H) as (r & A & B & D). exists r. split; [exact A|]. split; [exact B|].
  intros k Hk. rewrite <- smp_nth, (D k Hk). unfold corr. apply rsum_ext. intros i _.
  rewrite <- Nat2Z.inj_add, !smp_nth. reflexivity.
Qed.
Print Assumptions C26_acorrt.
Theorem C26_xcorrt a b num z : (1 <= num)%nat ->
  exists r off, xcorrt a b num z = Ok r /\ length r = num /\
    forall k, (k < num)%nat -> nth k r 0 = corr a b (Z.of_nat k - off).
Proof.
  intros H. destruct (xcorrt_spec a b num z H) as (r & A & B & D).
  exists r, (xoff (length a) (length b) num z). split; [exact A|]. split; [exact B|].
  intros k Hk. rewrite <- smp_nth. exact (D k Hk).
Qed.
Print Assumptions C26_xcorrt.
(** the assertion in deconv_time never fails *)
Theorem C26_no_assertion solve rsp src shift spk len norm :
  deconv_time solve rsp src shift spk len norm <> Err AssertionError.
Proof.
  unfold deconv_time. destruct (match len with Some n => Ok n | None => get_length rsp end) as [n|e] eqn:En; cbn [bind].
  2:{ destruct len; [discriminate|]. destruct rsp as [a|[|a l]]; cbn in En; inversion En; discriminate. }
  destruct n as [|n]; [discriminate|].
  unfold toeplitz_row. destruct (acorrt_spec src (S n) ltac:(lia)) as (r & Er & Lr & _). rewrite Er. cbn [bind].
  destruct r as [|c0 r]; [discriminate|]. destruct (Req_EM_T c0 0); [discriminate|]. cbn [map bind].
  set (t := c0 / c0 + spk :: map (fun x => x / c0) r).
  assert (length t = S n) as Lt by (unfold t; cbn [length] in *; cbn [List.length]; rewrite map_length; exact Lr).
  assert (forall l, exists o, mapM (rf_one solve src (S n) shift t) l = Ok o) as HM.
  { induction l as [|x l [o IH]]; [exists []; reflexivity|]. cbn [mapM]. 
    unfold rf_one at 1. destruct (xcorrt_spec x src (S n) shift ltac:(lia)) as (str & Es & Ls & _).
    rewrite Es. cbn [bind]. rewrite Ls, Lt, Nat.eqb_refl. cbn [bind]. rewrite IH. eexists. reflexivity. }
  destruct (HM (match rsp with Single a => [a] | Many l => l end)) as [o ->]. cbn [bind].
  destruct norm as [i|]; cbn [bind].
  - unfold normalise. destruct (nth_error o i) as [x|]; cbn [bind]; [|discriminate].
    destruct (Req_EM_T (max_abs x) 0); cbn [bind]; [discriminate|].
    destruct rsp; [|discriminate]. destruct (map _ o) as [|? [|]]; discriminate.
  - destruct rsp; [|discriminate]. destruct o as [|? [|]]; discriminate.
Qed.
Print Assumptions C26_no_assertion.
Example C26_nonvacuous : exists r, acorrt [1; 2] 2 = Ok r /\ nth 0 r 0 = 5 /\ nth 1 r 0 = 2.
Proof.
  destruct (C26_acorrt [1; 2] 2 ltac:(lia)) as (r & A & _ & B). exists r. split; [exact A|].
  rewrite !B by lia. split; calc_R.
Qed.

(** C27: with the shift of deconvolve, samples of the right-hand side are correlations
    of the source window with the response, zero lag at sample T (number of samples of
    the window before the onset). Missing: windows of even length which do not contain
    the onset in their interior and results of another length, see below. *)
Theorem C27_alignment_partial r s T : r <> [] -> s <> [] -> regular_window s T ->
  exists str, xcorrt r s (length r) (T - Z.of_nat (length s) / 2) = Ok str /\ length str = length r /\
    forall k, (k < length r)%nat -> nth k str 0 = corr r s (Z.of_nat k - T).
Proof.
  intros Hr Hs Hw. assert (1 <= length r)%nat by (destruct r; [congruence|cbn; lia]).
  assert (1 <= length s)%nat by (destruct s; [congruence|cbn; lia]).
  destruct (xcorrt_spec r s (length r) (T - Z.of_nat (length s) / 2)) as (str & A & B & D); [assumption|].
  exists str. split; [exact A|]. split; [exact B|]. intros k Hk. rewrite <- smp_nth, (D k Hk).
  rewrite xoff_aligned by assumption. reflexivity.
Qed.
Print Assumptions C27_alignment_partial.
(** deconvolve calls the kernel with this shift: replacing the kernel for all other
    shifts changes nothing. *)
Theorem C27_shift kernel kernel' taper source response T b c norm ls h src :
  channels_set h ls -> selected h source ls [src] -> (0 < delta (st (h src)))%Z ->
  (forall k, k_method k = "time" -> k_shift k = (T - Z.of_nat (length (k_src k)) / 2)%Z -> kernel k = kernel' k) ->
  let w := WTuple (- T * delta (st (h src))) b c in
  deconvolve kernel taper "time" source response w norm ls h =
  deconvolve kernel' taper "time" source response w norm ls h.
Proof.
  intros Hc Hs Hd Hk w. unfold deconvolve, deconvolve_given, noise_for. change (String.eqb "time" "freq") with false. cbv iota.
  change (known_method "time") with true. cbn [negb].
  rewrite filterM_sel by exact Hc. rewrite <- (selected_eq _ _ _ _ Hs).
  destruct (match response with None => _ | Some _ => _ end) as [rsp|]; [|reflexivity].
  destruct (negb _); [reflexivity|].
  destruct (dget (extra (st (h src))) "onset") as [[]|]; try reflexivity.
  destruct (find_nearest _ _) as [idx|]; [|reflexivity].
  unfold w, source_window. destruct (trim_pad _ _ _) as [ts|]; [|reflexivity].
  change (noise_data "time" response rsp ls) with (fun _ : heap => Ok (@nil (list Q))). cbv beta iota.
  rewrite Hk; [reflexivity | reflexivity |]. cbn [k_shift k_src]. fold (npts (taper c ts)).
  set (n := (npts (taper c ts) / 2)%Z). set (d := delta (st (h src))) in *.
  replace (- (- T * d) - n * d)%Z with ((T - n) * d)%Z by ring.
  unfold round_even. rewrite Z.div_mul, Z.mod_mul by lia. destruct (Z.ltb_spec (2 * 0) d); [reflexivity|lia].
Qed.
Print Assumptions C27_shift.
(** The correlation of the source with itself is largest at the onset. *)
Theorem C27_self_maximum r s T o str : s <> [] -> regular_window s T -> placed s r T (Z.of_nat o) ->
  (o < length r)%nat ->
  xcorrt r s (length r) (T - Z.of_nat (length s) / 2) = Ok str ->
  forall k, (k < length r)%nat -> Rabs (nth k str 0) <= nth o str 0.
Proof.
  intros Hs Hw Hp Ho E k Hk. assert (r <> []) as Hr by (destruct r; [cbn in Ho; lia|discriminate]).
  destruct (C27_alignment_partial r s T Hr Hs Hw) as (str' & E' & _ & H). rewrite E in E'. inversion E'; subst str'.
  rewrite !H by assumption. rewrite !(corr_shifted r s (Z.of_nat o - T)) by (intros j; rewrite Hp; f_equal; lia).
  replace (Z.of_nat o - T - (Z.of_nat o - T))%Z with 0%Z by lia. apply corr_max.
Qed.
Print Assumptions C27_self_maximum.
(** Refuted: for a window of even length with the onset at or before its first or
    after its last sample everything is one sample early. *)
Theorem C27_even_window_refuted r s T : r <> [] -> s <> [] ->
  Z.odd (Z.of_nat (length s)) = false -> (T <= 0 \/ Z.of_nat (length s) <= T)%Z ->
  exists str, xcorrt r s (length r) (T - Z.of_nat (length s) / 2) = Ok str /\
    forall k, (k < length r)%nat -> nth k str 0 = corr r s (Z.of_nat k - T + 1).
Proof.
  intros Hr Hs Hw HT. assert (1 <= length r)%nat by (destruct r; [congruence|cbn; lia]).
  assert (1 <= length s)%nat by (destruct s; [congruence|cbn; lia]).
  destruct (xcorrt_spec r s (length r) (T - Z.of_nat (length s) / 2)) as (str & A & B & D); [assumption|].
  exists str. split; [exact A|]. intros k Hk. rewrite <- smp_nth, (D k Hk).
  rewrite xoff_off_by_one by assumption. f_equal. lia.
Qed.
Print Assumptions C27_even_window_refuted.
(** a witness: the window starts at the onset, sample 1, and the maximum is at sample 0 *)
Theorem C27_even_window_witness_refuted :
  placed [1; 2] [0; 1; 2; 0] 0 1 /\
  exists str, xcorrt [0; 1; 2; 0] [1; 2] 4 (0 - Z.of_nat 2 / 2) = Ok str /\
    nth 1 str 0 < nth 0 str 0.
Proof.
  split.
  - intros j. destruct (Z_lt_le_dec j 0); [rewrite !smp_out by (cbn; lia); reflexivity|].
    destruct (Z_lt_le_dec 3 j); [rewrite !smp_out by (cbn; lia); reflexivity|].
    assert (j = 0 \/ j = 1 \/ j = 2 \/ j = 3)%Z as [->|[->|[->| ->]]] by lia; reflexivity.
  - destruct (C27_even_window_refuted [0; 1; 2; 0] [1; 2] 0) as (str & A & B); try discriminate; [reflexivity | cbn; lia|].
    exists str. split; [exact A|]. rewrite !B by (cbn; lia). calc_R.
Qed.
Print Assumptions C27_even_window_witness_refuted.
(** Refuted: with the argument length the onset moves. Here 6 instead of 4 samples are
    requested and the maximum of the self correlation is not at the onset, sample 1. *)
Theorem C27_length_refuted :
  placed [0; 1; 0] [0; 1; 0; 0] 1 1 /\ regular_window [0; 1; 0] 1 /\
  exists str, xcorrt [0; 1; 0; 0] [0; 1; 0] 6 (1 - Z.of_nat 3 / 2) = Ok str /\
    nth 1 str 0 = 0 /\ nth 2 str 0 = 1.
Proof.
  split; [|split].
  - intros j. destruct (Z_lt_le_dec j 0); [rewrite !smp_out by (cbn; lia); reflexivity|].
    destruct (Z_lt_le_dec 3 j); [rewrite (smp_out [0; 1; 0; 0]) by (cbn; lia); rewrite smp_out by (cbn; lia); reflexivity|].
    assert (j = 0 \/ j = 1 \/ j = 2 \/ j = 3)%Z as [->|[->|[->| ->]]] by lia; reflexivity.
  - left. reflexivity.
  - destruct (xcorrt_spec [0; 1; 0; 0] [0; 1; 0] 6 (1 - Z.of_nat 3 / 2) ltac:(lia)) as (str & A & B & D).
    exists str. split; [exact A|].
    pose proof (D 1%nat ltac:(lia)) as D1. pose proof (D 2%nat ltac:(lia)) as D2. rewrite smp_nth in D1, D2.
    rewrite D1, D2. split; calc_R.
Qed.
Print Assumptions C27_length_refuted.
Example C27_nonvacuous : regular_window [3; 5; 4] 1 /\ placed [3; 5; 4] [0; 3; 5; 4; 0] 1 2.
Proof.
  split; [left; reflexivity|]. intros j.
  destruct (Z_lt_le_dec j 0); [rewrite !smp_out by (cbn; lia); reflexivity|].
  destruct (Z_lt_le_dec 4 j); [rewrite !smp_out by (cbn; lia); reflexivity|].
  assert (j = 0 \/ j = 1 \/ j = 2 \/ j = 3 \/ j = 4)%Z as [->|[->|[->|[->| ->]]]] by lia; reflexivity.
Qed.

(** C28: for a non-zero source and any length the matrix is symmetric and positive
    definite (even for spiking = 0), and every right-hand side has exactly one solution. *)
Theorem C28_matrix s n spk : (1 <= n)%nat -> nonzero s ->
  exists t, toeplitz_row s n spk = Ok t /\ length t = n /\
    forall i j, (i < n)%nat -> (j < n)%nat -> toep t i j = toep t j i /\
      toep t i j = corr s s (Z.of_nat i - Z.of_nat j) / corr s s 0 + (if (i =? j)%nat then spk else 0).
Proof.
  intros Hn Hs. destruct (toeplitz_row_spec s n spk Hn Hs) as (t & A & B & D). exists t. split; [exact A|]. split; [exact B|].
  intros i j Hi Hj. split; [unfold toep; f_equal; lia|]. rewrite D by assumption.
  destruct (Z.abs_eq_or_opp (Z.of_nat i - Z.of_nat j)) as [->| ->]; [reflexivity | rewrite corr_sym; reflexivity].
Qed.
Print Assumptions C28_matrix.
Theorem C28_positive_definite s n spk t x : (1 <= n)%nat -> nonzero s -> 0 <= spk ->
  toeplitz_row s n spk = Ok t -> (exists q, (q < n)%nat /\ x q <> 0) ->
  0 < rsum n (fun i => rsum n (fun j => x i * x j * toep t i j)).
Proof. exact (toeplitz_pd s n spk t x). Qed.
Print Assumptions C28_positive_definite.
Theorem C28_unique s n spk t b : (1 <= n)%nat -> nonzero s -> 0 <= spk ->
  toeplitz_row s n spk = Ok t -> length b = n -> exists! x, solves t b x.
Proof. exact (toeplitz_unique s n spk t b). Qed.
Print Assumptions C28_unique.
(** The receiver functions are the solutions of the normal equations of C27/C28, and
    nothing else is returned. *)
Theorem C28_receiver_functions solve r rs s T spk out : correct_solver solve -> nonzero s -> 0 <= spk ->
  r <> [] -> (forall x, In x rs -> length x = length r) -> regular_window s T ->
  (deconv_time solve (Many (r :: rs)) s (T - Z.of_nat (length s) / 2) spk None None = Ok (Many out)
   <-> Forall2 (fun y x => normal_eq s y spk T x) (r :: rs) out).
Proof.
  intros Hsol Hs Hspk Hr Hl Hw. assert (1 <= length r)%nat as Hn by (destruct r; [congruence|cbn; lia]).
  assert (1 <= length s)%nat as Hls by (destruct s; [destruct Hs as ([|] & Hp); cbn in Hp; congruence|cbn; lia]).
  rewrite (deconv_time_spec solve (r :: rs) s _ spk None out Hsol Hs Hspk (length r) eq_refl Hn).
  assert (forall l o, (forall y, In y l -> length y = length r) ->
    (Forall2 (time_rf s spk (length r) (T - Z.of_nat (length s) / 2)) l o <-> Forall2 (fun y x => normal_eq s y spk T x) l o)) as H.
  { intros l. induction l as [|y l IH]; intros o Hlen; [split; intros HF; inversion HF; constructor|].
    assert (length y = length r) as Ly by (apply Hlen; left; reflexivity).
    assert (forall x, time_rf s spk (length r) (T - Z.of_nat (length s) / 2) y x <-> normal_eq s y spk T x) as He.
    { intros x. unfold time_rf, normal_eq. rewrite <- Ly. rewrite xoff_aligned by assumption. reflexivity. }
    split; intros HF; inversion HF; subst; constructor; try (apply He; assumption);
      (apply IH; [intros z Hz; apply Hlen; right; exact Hz | assumption]). }
  apply H. intros y [<-|Hy]; [reflexivity | apply Hl, Hy].
Qed.
Print Assumptions C28_receiver_functions.
(** a correct solver exists *)
Lemma solver_exists : exists solve, correct_solver solve.
Proof.
  exists (fun t b => epsilon (inhabits []) (solves t b)). intros t b (x & Hx & _). apply epsilon_spec. exists x. exact Hx.
Qed.
Example C28_nonvacuous : nonzero [0; 3] /\ exists t, toeplitz_row [0; 3] 2 1 = Ok t.
Proof.
  assert (nonzero [0; 3]) by (exists 1%nat; calc_R). split; [assumption|].
  destruct (C28_matrix [0; 3] 2 1 ltac:(lia) ltac:(assumption)) as (t & A & _). exists t. exact A.
Qed.

(** C29, time domain: one common factor, and the absolute maximum of result i is 1. *)
Theorem C29_time solve rs s shift spk len i out :
  deconv_time solve (Many rs) s shift spk len (Some i) = Ok (Many out) ->
  exists raw c r, deconv_time solve (Many rs) s shift spk len None = Ok (Many raw) /\
    out = map (scale c) raw /\ nth_error out i = Some r /\
    (forall x, In x r -> Rabs x <= 1) /\ (exists x, In x r /\ Rabs x = 1).
Proof.
  rewrite deconv_time_norm. destruct (deconv_time solve (Many rs) s shift spk len None) as [[a|raw]|]; cbn [bind]; try discriminate.
  destruct (normalise i raw) as [o|] eqn:En; cbn [bind]; [|discriminate]. intros H. inversion H; subst o.
  destruct (normalise_spec i raw out En) as (c & r & _ & A & B & D). exists raw, c, r.
  split; [reflexivity|]. split; [exact A|]. split; [exact B|]. rewrite <- D. split; [apply max_abs_ge|].
  apply max_abs_attained. intros ->. cbn in D. lra.
Qed.
Print Assumptions C29_time.
(** and it fails only for a reference trace that is zero or missing *)
Theorem C29_time_total solve rs s shift spk len i raw r :
  deconv_time solve (Many rs) s shift spk len None = Ok (Many raw) -> nth_error raw i = Some r -> nonzero r ->
  exists out, deconv_time solve (Many rs) s shift spk len (Some i) = Ok (Many out).
Proof.
  intros E Hi (p & Hp). rewrite deconv_time_norm, E. cbn [bind]. unfold normalise. rewrite Hi.
  destruct (Req_EM_T (max_abs r) 0) as [E0|]; cbn [bind]; [|eexists; reflexivity].
  exfalso. assert (In (nth p r 0) r) as Hin.
  { apply nth_In. destruct (Nat.lt_ge_cases p (length r)); [assumption|]. rewrite nth_overflow in Hp by assumption. congruence. }
  pose proof (max_abs_ge r _ Hin). pose proof (Rabs_pos_lt _ Hp). lra.
Qed.
Print Assumptions C29_time_total.

(** C30: gains c of the source window and d of the responses (c = d for a common gain)
    with a positive product do not change the normalised result. *)
Theorem C30_gain solve rs s shift spk len i c d : correct_solver solve -> c <> 0 -> d <> 0 -> 0 < c * d ->
  nonzero s -> 0 <= spk -> (forall r, In r rs -> r <> []) -> len <> Some 0%nat ->
  deconv_time solve (Many (map (scale d) rs)) (scale c s) shift spk len (Some i) =
  deconv_time solve (Many rs) s shift spk len (Some i).
Proof. exact (deconv_time_gain solve rs s shift spk len i c d). Qed.
Print Assumptions C30_gain.
Theorem C30_common_gain solve rs s shift spk len i c : correct_solver solve -> c <> 0 ->
  nonzero s -> 0 <= spk -> (forall r, In r rs -> r <> []) -> len <> Some 0%nat ->
  deconv_time solve (Many (map (scale c) rs)) (scale c s) shift spk len (Some i) =
  deconv_time solve (Many rs) s shift spk len (Some i).
Proof. intros H1 H2. apply deconv_time_gain; try assumption. apply Rsqr_pos_lt, H2. Qed.
Print Assumptions C30_common_gain.

(** C36, time domain: a single array is treated as a list of one array, for every
    normalize setting. *)
Theorem C36_time solve r s shift spk len norm :
  deconv_time solve (Single r) s shift spk len norm =
  (let! x := deconv_time solve (Many [r]) s shift spk len norm in
   match x with Many [y] => Ok (Single y) | _ => Err UnboundLocalError end).
Proof. exact (deconv_time_single solve r s shift spk len norm). Qed.
Print Assumptions C36_time.

(** C73: the documented formula RF = (STS + spiking*I)^-1 STR. Refuted: the matrix is
    divided by STS_0, the right-hand side is not; what is computed is the documented
    solution for spiking * STS_0, times STS_0. *)
Theorem C73_formula_partial s r spk T x : nonzero s ->
  (documented_eq s r (spk * corr s s 0) T x <-> normal_eq s r spk T (scale (corr s s 0) x)).
Proof.
  intros Hs. pose proof (corr0_pos s Hs) as Hp. unfold documented_eq, normal_eq. rewrite scale_length.
  split; intros [A B]; (split; [exact A|]); intros i Hi; rewrite <- (B i Hi); apply rsum_ext; intros j _;
    rewrite smp_scale; destruct (i =? j)%nat; field; lra.
Qed.
Print Assumptions C73_formula_partial.
Theorem C73_formula_refuted : exists s r spk T x, nonzero s /\ regular_window s T /\ 0 < spk /\
  normal_eq s r spk T x /\ ~ documented_eq s r spk T x.
Proof.
  exists [2], [1], 1, 0%Z, [1]. split; [exists 0%nat; cbn; lra|]. split; [left; reflexivity|]. split; [lra|].
  split.
  - split; [reflexivity|]. intros i Hi. cbn in Hi. assert (i = 0)%nat as -> by lia. calc_R.
  - intros [_ H]. specialize (H 0%nat ltac:(cbn; lia)). cbn in H; lra.
Qed.
Print Assumptions C73_formula_refuted.

(** C74: without normalisation receiver functions are linear in the response. *)
Theorem C74_linear s spk T r1 r2 r x1 x2 x c1 c2 : nonzero s -> 0 <= spk -> r <> [] -> regular_window s T ->
  length r1 = length r -> length r2 = length r ->
  (forall i, smp r i = c1 * smp r1 i + c2 * smp r2 i) ->
  normal_eq s r1 spk T x1 -> normal_eq s r2 spk T x2 -> normal_eq s r spk T x ->
  forall i, smp x i = c1 * smp x1 i + c2 * smp x2 i.
Proof.
  intros Hs Hspk Hr Hw L1 L2 Hlin H1 H2 H. assert (1 <= length r)%nat as Hn by (destruct r; [congruence|cbn; lia]).
  assert (1 <= length s)%nat as Hls by (destruct s; [destruct Hs as ([|] & Hp); cbn in Hp; congruence|cbn; lia]).
  set (sh := (T - Z.of_nat (length s) / 2)%Z).
  assert (forall y z, length y = length r -> normal_eq s y spk T z -> time_rf s spk (length r) sh y z) as He.
  { intros y z Ly [A B]. rewrite Ly in A, B. split; [exact A|]. unfold sh. rewrite Ly, xoff_aligned by assumption. exact B. }
  pose proof (time_rf_linear s spk (length r) sh r1 r2 r x1 x2 c1 c2 L1 L2 Hlin (He _ _ L1 H1) (He _ _ L2 H2)) as HL.
  pose proof (time_rf_unique s spk (length r) sh r _ _ Hn Hs Hspk HL (He _ _ eq_refl H)) as HU. subst x.
  destruct H1 as [A1 _]. destruct H2 as [A2 _]. intros i.
  destruct (Z_lt_le_dec i 0); [rewrite !smp_out by lia; ring|].
  destruct (Z_lt_le_dec i (Z.of_nat (length r))).
  - replace i with (Z.of_nat (Z.to_nat i)) by lia. set (k := Z.to_nat i).
    set (f := fun i0 => c1 * smp x1 (Z.of_nat i0) + c2 * smp x2 (Z.of_nat i0)).
    rewrite (smp_nth (map f _)), (nth_indep _ 0 (f 0%nat)) by (rewrite map_length, seq_length; unfold k; lia).
    rewrite map_nth, seq_nth by (unfold k; lia). reflexivity.
  - rewrite !smp_out; [ring | lia | lia | rewrite map_length, seq_length; lia].
Qed.
Print Assumptions C74_linear.
Example C74_nonvacuous : normal_eq [2] [1] 1 0 [1] /\ normal_eq [2] [3] 1 0 [3] /\ normal_eq [2] [5] 1 0 [5].
Proof.
  repeat split; intros i Hi; cbn in Hi; assert (i = 0)%nat as -> by lia; calc_R.
Qed.

(** C75: exact recovery. If the response is the convolution of the source with g and
    spiking = 0 then the receiver function normalised to its own maximum is
    g / max|g|. *)
Theorem C75_recovery solve s g r T : correct_solver solve -> nonzero s -> r <> [] -> regular_window s T ->
  length g = length r -> convolved s g r T -> nonzero g ->
  deconv_time solve (Many [r]) s (T - Z.of_nat (length s) / 2) 0 None None = Ok (Many [scale (corr s s 0) g]) /\
  deconv_time solve (Many [r]) s (T - Z.of_nat (length s) / 2) 0 None (Some 0%nat) = Ok (Many [scale (/ max_abs g) g]).
Proof.
  intros Hsol Hs Hr Hw Lg Hc Hg. assert (1 <= length r)%nat as Hn by (destruct r; [congruence|cbn; lia]).
  assert (1 <= length s)%nat as Hls by (destruct s; [destruct Hs as ([|] & Hp); cbn in Hp; congruence|cbn; lia]).
  pose proof (corr0_pos s Hs) as Hp. set (sh := (T - Z.of_nat (length s) / 2)%Z).
  assert (deconv_time solve (Many [r]) s sh 0 None None = Ok (Many [scale (corr s s 0) g])) as E.
  { apply (deconv_time_spec solve [r] s sh 0 None _ Hsol Hs (Rle_refl 0) (length r) eq_refl Hn).
    constructor; [|constructor]. apply time_rf_recovers; [exact Hs | exact Lg|].
    unfold sh. rewrite xoff_aligned by assumption. rewrite <- Lg. exact Hc. }
  split; [exact E|]. rewrite deconv_time_norm, E. cbn [bind].
  assert (normalise 0 [scale (corr s s 0) g] = Ok [scale (/ max_abs g) g]) as ->; [|reflexivity].
  change [scale (corr s s 0) g] with (map (scale (corr s s 0)) [g]). rewrite normalise_gain by exact Hp.
  unfold normalise. cbn [nth_error]. destruct (Req_EM_T (max_abs g) 0) as [E0|]; [|reflexivity].
  exfalso. destruct Hg as (p & Hgp). assert (In (nth p g 0) g) as Hin.
  { apply nth_In. destruct (Nat.lt_ge_cases p (length g)); [assumption|]. rewrite nth_overflow in Hgp by assumption. congruence. }
  pose proof (max_abs_ge g _ Hin). pose proof (Rabs_pos_lt _ Hgp). lra.
Qed.
Print Assumptions C75_recovery.
Example C75_nonvacuous : nonzero [3; 5; 4] /\ regular_window [3; 5; 4] 1 /\
  convolved [3; 5; 4] [0; 1; 1; 0] [3; 8; 9; 4] 1 /\ nonzero [0; 1; 1; 0].
Proof.
  split; [exists 0%nat; cbn; lra|]. split; [left; reflexivity|]. split; [|exists 1%nat; calc_R].
  intros j. cbn [List.length rsum].
  change (smp [0; 1; 1; 0] (Z.of_nat 0)) with 0. change (smp [0; 1; 1; 0] (Z.of_nat 1)) with 1.
  change (smp [0; 1; 1; 0] (Z.of_nat 2)) with 1. change (smp [0; 1; 1; 0] (Z.of_nat 3)) with 0.
  assert (j < 0 \/ 3 < j \/ j = 0 \/ j = 1 \/ j = 2 \/ j = 3)%Z as [H|[H|[->|[->|[->| ->]]]]] by lia; try calc_R;
    rewrite (smp_out [3; 8; 9; 4]), (smp_out [3; 5; 4] (j - Z.of_nat 1 + 1)), (smp_out [3; 5; 4] (j - Z.of_nat 2 + 1)) by (cbn; lia); ring.
Qed.
