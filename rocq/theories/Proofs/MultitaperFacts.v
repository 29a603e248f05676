(** Facts about multitaper deconvolution. *)
From Verif Require Import Model.Multitaper Spec.MultitaperSpec Proofs.SumFacts Proofs.PyFacts Proofs.CplxFacts Proofs.WaterFacts.
From Coq Require Import Lra Lia Ring Qround Qreals.
Open Scope nat_scope.
Open Scope R_scope.

(** ** detrending *)
Definition mean (x : list R) : R := rsum (length x) (fun i => nth i x 0) / INR (length x).
Definition slope (x : list R) : R :=
  let n := length x in rsum n (fun i => centre n i * nth i x 0) / rsum n (fun i => centre n i * centre n i).

Lemma list_ext_nth (a b : list R) : length a = length b -> (forall i, (i < length a)%nat -> nth i a 0 = nth i b 0) -> a = b.
Proof. intros H1 H2. apply nth_ext with (d := 0) (d' := 0); assumption. Qed.

Lemma sum_INR n : rsum n INR = INR n * (INR n - 1) / 2.
Proof. induction n as [|n IH]; [cbn; lra|]. cbn [rsum]. rewrite IH, S_INR. field. Qed.
Lemma centre_sum n : rsum n (centre n) = 0.
Proof.
  unfold centre. rewrite (rsum_minus n INR (fun _ => (INR n - 1) / 2)), sum_INR, rsum_const. field.
Qed.
Lemma centre_sq n : (2 <= n)%nat -> 0 < rsum n (fun i => centre n i * centre n i).
Proof.
  intros H. apply Rlt_le_trans with (centre n 0 * centre n 0).
  - unfold centre. cbn [INR]. assert (2 <= INR n) by (change 2 with (INR 2); apply le_INR; exact H).
    replace ((0 - (INR n - 1) / 2) * (0 - (INR n - 1) / 2)) with (((INR n - 1) / 2) * ((INR n - 1) / 2)) by field.
    apply Rmult_lt_0_compat; lra.
  - apply (rsum_ge_term n (fun i => centre n i * centre n i) 0); [|lia]. intros i _. apply Rle_0_sqr.
Qed.
Lemma centre_1 i : (i < 1)%nat -> centre 1 i = 0.
Proof. intros H. assert (i = 0)%nat as -> by lia. unfold centre. cbn. field. Qed.

Lemma detrend_constant_length x : length (detrend_constant x) = length x.
Proof. apply map_length. Qed.
Lemma detrend_linear_length x : length (detrend_linear x) = length x.
Proof. apply tabulate_length. Qed.
Lemma detrend2_length x : length (detrend2 x) = length x.
Proof. unfold detrend2. rewrite detrend_linear_length. apply detrend_constant_length. Qed.
Lemma detrend_constant_nth x i : (i < length x)%nat -> nth i (detrend_constant x) 0 = nth i x 0 - mean x.
Proof.
  intros H. unfold detrend_constant, mean. rewrite asum_rsum. set (m := rsum _ _ / _).
  rewrite (nth_indep _ 0 (0 - m)) by (rewrite map_length; exact H).
  apply (map_nth (fun a => a - m)).
Qed.
(** the result does not depend on the first step *)
Theorem detrend2_nth x i : (i < length x)%nat ->
  nth i (detrend2 x) 0 = nth i x 0 - mean x - slope x * centre (length x) i.
Proof.
  intros H. unfold detrend2, detrend_linear. rewrite detrend_constant_length, nth_tabulate by exact H.
  assert (N : INR (length x) <> 0) by (apply not_0_INR; lia).
  rewrite asum_rsum, detrend_constant_length.
  rewrite (rsum_ext (length x) (fun i => nth i (detrend_constant x) 0) (fun i => nth i x 0 - mean x))
    by (intros; apply detrend_constant_nth; assumption).
  rewrite (rsum_ext (length x) (fun i => centre (length x) i * nth i (detrend_constant x) 0)
             (fun i => centre (length x) i * nth i x 0 - centre (length x) i * mean x))
    by (intros; rewrite detrend_constant_nth by assumption; ring).
  rewrite detrend_constant_nth by exact H.
  rewrite rsum_minus, (rsum_minus (length x) (fun i => centre (length x) i * nth i x 0)), rsum_scal_r, rsum_const.
  rewrite centre_sum. unfold slope. unfold mean at 2. 
  replace ((rsum (length x) (fun i0 => nth i0 x 0) - INR (length x) * (rsum (length x) (fun i0 => nth i0 x 0) / INR (length x))) / INR (length x)) with 0
    by (field; exact N).
  unfold Rdiv. rewrite Rmult_0_l, !Rminus_0_r. reflexivity.
Qed.

Lemma zipw_len2 {A B D} (f : A -> B -> D) x : forall y, length y = length x -> length (zipw f x y) = length x.
Proof. induction x as [|a x IH]; intros [|b y] H; cbn in *; try lia. rewrite IH; lia. Qed.
Lemma zipw_nth2 {A B D} (f : A -> B -> D) da db dd x : forall y i, length y = length x -> (i < length x)%nat ->
  nth i (zipw f x y) dd = f (nth i x da) (nth i y db).
Proof. induction x as [|a x IH]; intros [|b y] [|i] H Hi; cbn in *; try lia; [reflexivity|]. apply IH; lia. Qed.
Lemma lincomb_zipw a x b : forall y, lincomb a x b y = zipw (fun u v => a * u + b * v) x y.
Proof. unfold lincomb. induction x as [|u x IH]; intros [|v y]; cbn; [reflexivity..|]. f_equal. apply IH. Qed.
Lemma lincomb_length a x b y : length y = length x -> length (lincomb a x b y) = length x.
Proof. rewrite lincomb_zipw. apply zipw_len2. Qed.
Lemma lincomb_nth a x b y i : length y = length x -> nth i (lincomb a x b y) 0 = a * nth i x 0 + b * nth i y 0.
Proof.
  intros H. destruct (Nat.lt_ge_cases i (length x)) as [L|L].
  - rewrite lincomb_zipw. apply (zipw_nth2 (fun u v => a * u + b * v)); assumption.
  - rewrite !nth_overflow; [ring | lia | lia | rewrite lincomb_length; assumption].
Qed.
Theorem detrend2_lin a x b y : length y = length x ->
  detrend2 (lincomb a x b y) = lincomb a (detrend2 x) b (detrend2 y).
Proof.
  intros H. assert (L := lincomb_length a x b y H). apply list_ext_nth.
  - rewrite lincomb_length by (rewrite !detrend2_length; exact H). rewrite !detrend2_length. exact L.
  - rewrite detrend2_length, L. intros i Hi. rewrite detrend2_nth by (rewrite L; exact Hi).
    rewrite lincomb_nth by exact H.
    rewrite lincomb_nth by (rewrite !detrend2_length; exact H). rewrite !detrend2_nth by lia. unfold mean, slope. rewrite L, !H. set (n := length x) in *.
    rewrite (rsum_ext n (fun i0 => nth i0 (lincomb a x b y) 0) (fun i0 => a * nth i0 x 0 + b * nth i0 y 0))
      by (intros; apply lincomb_nth; exact H).
    rewrite (rsum_ext n (fun i0 => centre n i0 * nth i0 (lincomb a x b y) 0)
               (fun i0 => a * (centre n i0 * nth i0 x 0) + b * (centre n i0 * nth i0 y 0)))
      by (intros; rewrite lincomb_nth by exact H; ring).
    rewrite !rsum_plus, !rsum_scal. unfold Rdiv. ring.
Qed.
Lemma add_trend_length a b x : length (add_trend a b x) = length x.
Proof. unfold add_trend. rewrite map_length, combine_length, seq_length. lia. Qed.
Lemma add_trend_nth a b x i : (i < length x)%nat -> nth i (add_trend a b x) 0 = nth i x 0 + (a + b * INR i).
Proof.
  intros H. unfold add_trend.
  rewrite (nth_indep _ 0 ((fun p => snd p + (a + b * INR (fst p))) (0%nat, 0)))
    by (rewrite map_length, combine_length, seq_length; lia).
  rewrite (map_nth (fun p => snd p + (a + b * INR (fst p)))). rewrite combine_nth by apply seq_length.
  rewrite seq_nth by exact H. reflexivity.
Qed.
Theorem detrend2_trend a b x : detrend2 (add_trend a b x) = detrend2 x.
Proof.
  apply list_ext_nth; rewrite !detrend2_length, add_trend_length; [reflexivity|]. intros i Hi.
  rewrite !detrend2_nth by (rewrite ?add_trend_length; exact Hi). rewrite add_trend_nth by exact Hi.
  assert (N : INR (length x) <> 0) by (apply not_0_INR; lia).
  assert (E : mean (add_trend a b x) = mean x + a + b * ((INR (length x) - 1) / 2)).
  { unfold mean. rewrite add_trend_length.
    rewrite (rsum_ext _ (fun i0 => nth i0 (add_trend a b x) 0) (fun i0 => nth i0 x 0 + (a + b * INR i0)))
      by (intros; apply add_trend_nth; assumption).
    rewrite rsum_plus, (rsum_plus _ (fun _ => a)), rsum_const, rsum_scal.
    rewrite sum_INR. field. exact N. }
  rewrite E, add_trend_length.
  destruct (Nat.eq_dec (length x) 1) as [H1|H1].
  - rewrite H1 in *. rewrite centre_1 by exact Hi. assert (i = 0)%nat as -> by lia. cbn [INR]. field.
  - assert (P := centre_sq (length x) ltac:(lia)).
    assert (F : slope (add_trend a b x) = slope x + b).
    { unfold slope. rewrite add_trend_length. set (n := length x) in *.
      rewrite (rsum_ext n (fun i0 => centre n i0 * nth i0 (add_trend a b x) 0)
                 (fun i0 => centre n i0 * nth i0 x 0 + ((a + b * ((INR n - 1) / 2)) * centre n i0 + b * (centre n i0 * centre n i0)))).
      2:{ intros j Hj. rewrite add_trend_nth by exact Hj. unfold centre. field. }
      rewrite rsum_plus, (rsum_plus n (fun i0 => (a + b * ((INR n - 1) / 2)) * centre n i0)), !rsum_scal.
      rewrite centre_sum. field. lra. }
    rewrite F. unfold centre. field.
Qed.
(** arrays without offset and trend *)
Lemma detrend2_id x : rsum (length x) (fun i => nth i x 0) = 0 -> rsum (length x) (fun i => INR i * nth i x 0) = 0 ->
  detrend2 x = x.
Proof.
  intros H1 H2. apply list_ext_nth; rewrite detrend2_length; [reflexivity|]. intros i Hi. rewrite detrend2_nth by exact Hi.
  unfold mean, slope. rewrite H1.
  rewrite (rsum_ext _ (fun i0 => centre (length x) i0 * nth i0 x 0)
             (fun i0 => INR i0 * nth i0 x 0 - ((INR (length x) - 1) / 2) * nth i0 x 0)) by (intros; unfold centre; ring).
  rewrite rsum_minus, H2, rsum_scal, H1. unfold Rdiv. ring.
Qed.

(** ** the windows *)
(** sum of the tapers of all windows *)
Definition weights (skip : bool) (nft ntap : nat) (ofac : Q) (nwin : Z) (tap : list (list R)) : res (list (list R)) :=
  foldM (fun ws j =>
           let js := window_start ntap ofac j in
           if skip && negb (js + ntap <? nft)%nat then Ok ws
           else mapM (fun ww => let! b := insert_window nft js ntap (snd ww) in Ok (zipw Rplus (fst ww) b)) (combine ws tap))
        (seq 0 (Z.to_nat nwin)) (map (fun _ => zeros nft) tap).
(** spectrum of x multiplied with weights *)
Definition wspec (nft : nat) (x w : list R) : list cplx := fft (zipw Rmult w x) nft.

Lemma zeros_length n : length (zeros n) = n. Proof. apply repeat_length. Qed.
Lemma insert_window_length nft js ntap w b : insert_window nft js ntap w = Ok b -> length b = nft.
Proof.
  unfold insert_window. destruct (Nat.eqb_spec (length w) (Nat.min (js + ntap) nft - Nat.min js nft)) as [E|E].
  - intros [= <-]. rewrite !app_length, !zeros_length. lia.
  - destruct w as [|y [|z w]]; try discriminate. intros [= <-]. rewrite !app_length, !zeros_length, repeat_length. lia.
Qed.
Lemma zipw_len_min {A B D} (f : A -> B -> D) x : forall y, length (zipw f x y) = Nat.min (length x) (length y).
Proof. induction x as [|a x IH]; intros [|b y]; cbn; [reflexivity..|]. rewrite IH. reflexivity. Qed.

Lemma wspec_add nft x u v : length u = nft -> length v = nft -> length x = nft ->
  zipw Cadd (wspec nft x u) (wspec nft x v) = wspec nft x (zipw Rplus u v).
Proof.
  intros Hu Hv Hx. unfold wspec. rewrite !fft_tab, zipw_tabulate. apply tabulate_ext. intros k Hk.
  rewrite <- fft_add. apply fft_ext. intros j Hj. unfold rsig. rewrite <- RtoC_add. f_equal.
  rewrite !(zipw_nth2 Rmult 0 0) by (rewrite ?zipw_len2; lia). rewrite (zipw_nth2 Rplus 0 0) by lia. ring.
Qed.
Lemma wspec_zero nft x : length x = nft -> wspec nft x (zeros nft) = repeat Czero nft.
Proof.
  intros Hx. unfold wspec. rewrite fft_tab. 
  assert (repeat Czero nft = tabulate nft (fun _ => Czero)) as ->.
  { clear. unfold tabulate. generalize 0%nat. induction nft as [|n IH]; intros s; cbn; [reflexivity|]. f_equal. apply IH. }
  apply tabulate_ext. intros k Hk. unfold fft_at. apply csum_zero. intros j Hj. unfold rsig.
  rewrite (zipw_nth2 Rmult 0 0) by (rewrite ?zeros_length; lia). unfold zeros. rewrite nth_repeat, Rmult_0_l. cring.
Qed.

Lemma estimate_step nft ntap x js : length x = nft -> forall tap ws, Forall (fun w => length w = nft) ws ->
  mapM (fun ew => let! b := windowed nft js ntap (snd ew) x in Ok (zipw Cadd (fst ew) b)) (combine (map (wspec nft x) ws) tap) =
  (let! ws' := mapM (fun ww => let! b := insert_window nft js ntap (snd ww) in Ok (zipw Rplus (fst ww) b)) (combine ws tap) in
   Ok (map (wspec nft x) ws')) /\
  forall ws', mapM (fun ww => let! b := insert_window nft js ntap (snd ww) in Ok (zipw Rplus (fst ww) b)) (combine ws tap) = Ok ws' ->
    Forall (fun w => length w = nft) ws'.
Proof.
  intros Hx tap. induction tap as [|t tap IH]; intros [|w ws] H; cbn [map combine mapM]; try (split; [reflexivity|]; intros ws' [= <-]; constructor).
  inversion H as [|? ? Hw Hws]; subst. specialize (IH ws Hws). destruct IH as [IH1 IH2].
  cbn [fst snd]. unfold windowed at 1. destruct (insert_window (length x) js ntap t) as [b|e] eqn:E; cbn [bind]; [|split; [reflexivity|discriminate]].
  rewrite Nat.eqb_refl. cbn [bind]. rewrite IH1. apply insert_window_length in E.
  destruct (mapM _ (combine ws tap)) as [ws1|e] eqn:E2; cbn [bind]; [|split; [reflexivity|discriminate]].
  change (fft (zipw Rmult b x) (length x)) with (wspec (length x) x b). split.
  - cbn [map]. rewrite wspec_add by auto. reflexivity.
  - intros ws' [= <-]. constructor; [rewrite zipw_len2; lia | apply IH2; reflexivity].
Qed.

Theorem estimate_weights skip nft ntap ofac nwin tap x : length x = nft ->
  estimate skip nft ntap ofac nwin tap x =
  (let! ws := weights skip nft ntap ofac nwin tap in Ok (map (wspec nft x) ws)) /\
  forall ws, weights skip nft ntap ofac nwin tap = Ok ws -> Forall (fun w => length w = nft) ws.
Proof.
  intros Hx. unfold estimate, weights.
  assert (map (fun _ : list R => repeat Czero nft) tap = map (wspec nft x) (map (fun _ => zeros nft) tap)) as ->.
  { rewrite map_map. apply map_ext. intros _. symmetry. apply wspec_zero, Hx. }
  assert (Forall (fun w => length w = nft) (map (fun _ : list R => zeros nft) tap)) as H0.
  { apply Forall_map, Forall_forall. intros. apply zeros_length. }
  revert H0. generalize (map (fun _ : list R => zeros nft) tap). generalize (seq 0 (Z.to_nat nwin)).
  induction l as [|j l IH]; intros ws Hws; cbn [foldM bind].
  - split; [reflexivity|]. intros ws' [= <-]. exact Hws.
  - destruct (skip && negb (window_start ntap ofac j + ntap <? nft)%nat); cbn [bind]; [apply IH, Hws|].
    destruct (estimate_step nft ntap x (window_start ntap ofac j) Hx tap ws Hws) as [S1 S2]. rewrite S1.
    destruct (mapM _ (combine ws tap)) as [ws1|e]; cbn [bind]; [apply IH, S2; reflexivity | split; [reflexivity | discriminate]].
Qed.

(** ** one component *)
Definition lsum {A} (f : A -> cplx) (l : list A) : cplx := fold_right (fun x acc => Cadd (f x) acc) Czero l.
Definition lrsum {A} (f : A -> R) (l : list A) : R := fold_right (fun x acc => f x + acc) 0 l.
Lemma repeat_tabulate {A} (a : A) n : repeat a n = tabulate n (fun _ => a).
Proof. unfold tabulate. generalize 0%nat. induction n as [|n IH]; intros s; cbn; [reflexivity|]. f_equal. apply IH. Qed.
Lemma cross_sum_tab nft a b : Forall (fun r => length r = nft) a -> Forall (fun r => length r = nft) b ->
  cross_sum nft a b = tabulate nft (fun q => lsum (fun p => Cmul (nth q (fst p) Czero) (Cconj (nth q (snd p) Czero))) (combine a b)).
Proof.
  intros Ha Hb. unfold cross_sum. rewrite repeat_tabulate.
  assert (forall (l : list (list cplx * list cplx)) f, Forall (fun p => length (fst p) = nft /\ length (snd p) = nft) l ->
    fold_left (fun acc ab => zipw Cadd acc (zipw (fun x y => Cmul x (Cconj y)) (fst ab) (snd ab))) l (tabulate nft f) =
    tabulate nft (fun q => Cadd (f q) (lsum (fun p => Cmul (nth q (fst p) Czero) (Cconj (nth q (snd p) Czero))) l))) as H.
  { induction l as [|[u v] l IH]; intros f Hl; cbn [fold_left].
    - apply tabulate_ext. intros. cbn. cring.
    - inversion Hl as [|? ? [Hu Hv] Hl']; subst. cbn [fst snd] in *. 
      rewrite (list_tabulate (zipw (fun x y => Cmul x (Cconj y)) u v) Czero), zipw_len2, zipw_tabulate by lia.
      rewrite IH by exact Hl'. apply tabulate_ext. intros q Hq. cbn [lsum fold_right fst snd].
      rewrite (zipw_nth2 (fun x y => Cmul x (Cconj y)) Czero Czero) by lia. unfold lsum. ring. }
  rewrite H.
  - apply tabulate_ext. intros. ring.
  - apply Forall_forall. intros [u v] Hin. cbn. rewrite Forall_forall in Ha, Hb.
    split; [apply Ha; eapply in_combine_l; eassumption | apply Hb; eapply in_combine_r; eassumption].
Qed.
Lemma noise_power_tab nft a el : Forall (fun r => length r = nft) a ->
  noise_power nft a el = tabulate nft (fun q => lrsum (fun p => Cnorm2 (nth q (fst p) Czero) / snd p) (combine a el)).
Proof.
  intros Ha. unfold noise_power, zeros. rewrite repeat_tabulate.
  assert (forall (l : list (list cplx * R)) f, Forall (fun p => length (fst p) = nft) l ->
    fold_left (fun s0 ne => zipw Rplus s0 (map (fun z => Cnorm2 z / snd ne) (fst ne))) l (tabulate nft f) =
    tabulate nft (fun q => f q + lrsum (fun p => Cnorm2 (nth q (fst p) Czero) / snd p) l)) as H.
  { induction l as [|[u v] l IH]; intros f Hl; cbn [fold_left].
    - apply tabulate_ext. intros. cbn. ring.
    - inversion Hl as [|? ? Hu Hl']; subst. cbn [fst snd] in *.
      rewrite (list_tabulate (map (fun z => Cnorm2 z / v) u) (Cnorm2 Czero / v)), map_length, zipw_tabulate.
      rewrite IH by exact Hl'. apply tabulate_ext. intros q Hq. cbn [lrsum fold_right fst snd].
      rewrite (map_nth (fun z => Cnorm2 z / v)). unfold lrsum. ring. }
  rewrite H.
  - apply tabulate_ext. intros. ring.
  - apply Forall_forall. intros [u v] Hin. cbn. rewrite Forall_forall in Ha. apply Ha. eapply in_combine_l; eassumption.
Qed.

Definition mt_G (n : nat) (dt : R) (gauss : option R) (k : nat) : R :=
  match gauss with
  | None => 1
  | Some g => exp (- (1 / 2) * (IZR (fold_freq n k) / (INR n * dt) / g) ^ 2)
  end.
(** everything that does not depend on the response: weights, denominator, factor *)
Definition mt_prep (nft ntap : nat) (ofac : Q) (gauss : option R) (tap : list (list R)) (el : list R)
    (nwav : nat) (sfft : list (list cplx)) (nos : list R) : res (list (list R) * list R * R) :=
  let nos := detrend2 nos in
  let! nos_pad := pad_to nft nos in
  let nwin := window_count ntap ofac (length nos) in
  let! nfft := estimate true nft ntap ofac nwin tap nos_pad in
  let! fac := float_fac nwav nwin nft in
  if some_zero el then Err OtherError
  else
  let nwin := (window_count ntap ofac nft - 1)%Z in
  let! wd := weights true nft ntap ofac nwin tap in
  let! fd := float_fac nft nwin nft in
  let total := zipw (fun z s => fst z + s) (cross_sum nft sfft sfft) (noise_power nft (map (map (Cscal fac)) nfft) el) in
  if some_zero total then Err OtherError
  else match gauss with
       | Some g => if Req_EM_T g 0 then Err OtherError else Ok (wd, total, fd)
       | None => Ok (wd, total, fd)
       end.
Definition mt_num (nft : nat) (sfft : list (list cplx)) (wd : list (list R)) (fd : R) (x : list R) (q : nat) : cplx :=
  lsum (fun p => Cmul (nth q (fst p) Czero) (Cconj (Cscal fd (fft_at nft (rsig (zipw Rmult (snd p) x)) q)))) (combine sfft wd).
Definition mt_spec (nft : nat) (dt tshift : R) (gauss : option R) (total : list R) (num : nat -> cplx) (q : nat) : cplx :=
  Cmul (Cscal (mt_G nft dt gauss q) (Cscal (/ nth q total 0) (num q))) (wl_F nft dt (tshift - dt) None q).
Definition mt_out (nft : nat) (spec : nat -> cplx) : list R :=
  tabulate nft (fun m => fst (ifft_at nft spec (nft - 1 - m))).

Lemma rev_tabulate {A} n (f : nat -> A) : rev (tabulate n f) = tabulate n (fun m => f (n - 1 - m)%nat).
Proof.
  destruct n as [|n]; [reflexivity|]. apply nth_ext with (d := f 0%nat) (d' := f 0%nat); [rewrite rev_length, !tabulate_length; reflexivity|].
  rewrite rev_length, tabulate_length. intros i Hi. rewrite rev_nth by (rewrite tabulate_length; exact Hi). rewrite tabulate_length.
  rewrite !nth_tabulate by lia. f_equal. lia.
Qed.
Lemma combine_map_r {A B D} (f : B -> D) (a : list A) : forall b, combine a (map f b) = map (fun p => (fst p, f (snd p))) (combine a b).
Proof. induction a as [|x a IH]; intros [|y b]; cbn; [reflexivity..|]. rewrite IH. reflexivity. Qed.
Lemma lsum_map {A B} (f : B -> cplx) (g : A -> B) l : lsum f (map g l) = lsum (fun x => f (g x)) l.
Proof. unfold lsum. induction l as [|x l IH]; cbn; [reflexivity|]. rewrite IH. reflexivity. Qed.
Lemma lsum_ext {A} (f g : A -> cplx) l : (forall x, In x l -> f x = g x) -> lsum f l = lsum g l.
Proof. unfold lsum. induction l as [|x l IH]; intros H; cbn; [reflexivity|]. rewrite IH, H; cbn; auto. intros; apply H; cbn; auto. Qed.

Lemma gauss_tab n dt g : gauss_filter dt n g None = tabulate n (mt_G n dt (Some g)).
Proof. unfold gauss_filter, fftfreq. rewrite map_tabulate. reflexivity. Qed.
Lemma pad_to_length nft x y : pad_to nft x = Ok y -> length y = nft.
Proof. unfold pad_to. destruct (Nat.leb_spec (length x) nft); [|discriminate]. intros [= <-]. rewrite app_length, zeros_length. lia. Qed.
Lemma estimate_rows skip nft ntap ofac nwin tap x est : estimate skip nft ntap ofac nwin tap x = Ok est -> length x = nft ->
  Forall (fun r => length r = nft) est.
Proof.
  intros E Hx. destruct (estimate_weights skip nft ntap ofac nwin tap x Hx) as [E1 _]. rewrite E1 in E.
  destruct (weights skip nft ntap ofac nwin tap); [|discriminate]. injection E as <-. apply Forall_map, Forall_forall.
  intros w _. apply tabulate_length.
Qed.
Theorem mt_component_form nft ntap dt tshift ofac gauss tap el nwav sfft dat nos :
  length dat = nft -> Forall (fun r => length r = nft) sfft ->
  mt_component nft ntap dt tshift ofac gauss tap el nwav sfft dat nos =
  (let! p := mt_prep nft ntap ofac gauss tap el nwav sfft nos in
   let '(wd, total, fd) := p in
   Ok (mt_out nft (mt_spec nft dt tshift gauss total (mt_num nft sfft wd fd (detrend2 dat))))).
Proof.
  intros Hd Hs. unfold mt_component, mt_prep.
  destruct (pad_to nft (detrend2 nos)) as [np|] eqn:Ep; cbn [bind]; [|reflexivity].
  apply pad_to_length in Ep.
  destruct (estimate true nft ntap ofac (window_count ntap ofac (length (detrend2 nos))) tap np) as [nfft|] eqn:En; cbn [bind]; [|reflexivity].
  apply estimate_rows in En; [|exact Ep].
  destruct (float_fac nwav _ nft) as [fac|]; cbn [bind]; [|reflexivity].
  destruct (some_zero el); [reflexivity|].
  destruct (estimate_weights true nft ntap ofac (window_count ntap ofac nft - 1) tap (detrend2 dat)) as [E1 E2];
    [rewrite detrend2_length; exact Hd|].
  rewrite E1. destruct (weights true nft ntap ofac (window_count ntap ofac nft - 1) tap) as [wd|]; cbn [bind]; [|reflexivity].
  specialize (E2 wd eq_refl).
  destruct (float_fac nft _ nft) as [fd|]; cbn [bind]; [|reflexivity].
  set (total := zipw (fun z s => fst z + s) _ _).
  destruct (some_zero total); [reflexivity|].
  assert (length total = nft) as Lt.
  { unfold total. rewrite zipw_len_min, cross_sum_tab, tabulate_length by assumption.
    unfold noise_power.
    assert (forall (l : list (list cplx * R)) s, Forall (fun p => length (fst p) = nft) l -> length s = nft ->
              length (fold_left (fun s0 ne => zipw Rplus s0 (map (fun z => Cnorm2 z / snd ne) (fst ne))) l s) = nft) as H.
    { induction l as [|u l IH]; intros s Hl Hs1; [exact Hs1|]. inversion Hl; subst. cbn [fold_left]. apply IH; [assumption|].
      rewrite zipw_len2; rewrite ?map_length; congruence. }
    rewrite H; [lia| |apply zeros_length].
    apply Forall_forall. intros [u v] Hin. cbn. apply in_combine_l in Hin. apply in_map_iff in Hin. destruct Hin as (r & <- & Hr).
    rewrite map_length. rewrite Forall_forall in En. apply En, Hr. }
  assert (cdiv (cross_sum nft sfft (map (map (Cscal fd)) (map (wspec nft (detrend2 dat)) wd))) total =
          tabulate nft (fun q => Cscal (/ nth q total 0) (mt_num nft sfft wd fd (detrend2 dat) q))) as EQ.
  { rewrite cross_sum_tab; [|exact Hs|].
    2:{ apply Forall_map, Forall_map, Forall_forall. intros w _. rewrite map_length. apply tabulate_length. }
    unfold cdiv. rewrite (list_tabulate total 0) at 1. rewrite Lt, zipw_tabulate. apply tabulate_ext. intros q Hq. f_equal.
    unfold mt_num. rewrite map_map, combine_map_r, lsum_map. apply lsum_ext. intros [s w] _. cbn [fst snd]. do 2 f_equal.
    unfold wspec. rewrite fft_tab, map_tabulate, nth_tabulate by exact Hq. reflexivity. }
  rewrite EQ. destruct gauss as [g|].
  - destruct (Req_EM_T g 0); [reflexivity|]. cbn [bind]. f_equal. unfold cprod, ifft, mt_out.
    rewrite gauss_tab, phase_shift_tab, !zipw_tabulate, map_tabulate, rev_tabulate. apply tabulate_ext. intros m Hm. f_equal.
    apply ifft_ext. intros q Hq. rewrite nth_tabulate by exact Hq. reflexivity.
  - cbn [bind]. f_equal. unfold cprod, ifft, mt_out.
    rewrite phase_shift_tab, !zipw_tabulate, map_tabulate, rev_tabulate. apply tabulate_ext. intros m Hm. f_equal.
    apply ifft_ext. intros q Hq. rewrite nth_tabulate by exact Hq. unfold mt_spec, mt_G. rewrite Cscal_1. reflexivity.
Qed.

(** ** the whole function *)
(** taper length, overlap factor, tapers, eigenvalues and source estimates *)
Record setup : Type := mkSetup { s_ntap : nat; s_ofac : Q; s_tap : list (list R); s_el : list R; s_src : list (list cplx) }.
Definition mt_setup (slepians : nat -> Q -> nat -> list (list R) * list R) (nft : nat) (src : list R) (sampling_rate : Q)
    (K : nat) (tband T olap : Q) : res setup :=
  if Qeq_bool sampling_rate 0 then Err ZeroDivisionError
  else
  let zntap := round_q (T * sampling_rate) in
  if (zntap <=? 0)%Z then Err OtherError
  else
  let ntap := Z.to_nat zntap in
  let tap := flip_signs (fst (slepians ntap tband K)) in
  let el := snd (slepians ntap tband K) in
  if Qeq_bool olap 1 then Err ZeroDivisionError
  else
  let ofac := (1 / (1 - olap))%Q in
  let nwin := window_count ntap ofac (length src) in
  let! src_pad := pad_to nft (detrend2 src) in
  let! sfft := estimate false nft ntap ofac nwin tap src_pad in
  let! fac := float_fac (length src) nwin nft in
  Ok (mkSetup ntap ofac tap el (map (map (Cscal fac)) sfft)).
Definition mt_at (nft nwav : nat) (dt tshift : R) (gauss : option R) (s : setup) (dat : list R) (nos : list R) : res (list R) :=
  mt_component nft (s_ntap s) dt tshift (s_ofac s) gauss (s_tap s) (s_el s) nwav (s_src s) dat nos.
Definition mt_raw (nft nwav : nat) (dt tshift : R) (gauss : option R) (s : setup) (rsp nse : list (list R)) : res (list (list R)) :=
  mapM (fun c => match nth_error nse c with
                 | None => Err IndexError
                 | Some nos => mt_at nft nwav dt tshift gauss s (nth c rsp []) nos
                 end) (seq 0 (length rsp)).

Lemma deconv_eq slepians r0 rsp src n0 nse rate tshift gauss K tband T olap normalize :
  deconv_multitaper slepians (r0 :: rsp) src (n0 :: nse) rate tshift gauss K tband T olap normalize =
  if negb (length src <? length r0)%nat then Err AssertionError
  else if negb (length n0 <=? length r0)%nat then Err AssertionError
  else let! s := mt_setup slepians (length r0) src rate K tband T olap in
       let! out := mt_raw (length r0) (length src) (1 / Q2R rate) tshift gauss s (r0 :: rsp) (n0 :: nse) in
       mt_normalize normalize out.
Proof.
  unfold deconv_multitaper, mt_setup. cbn [mt_raw].
  destruct (negb _); [reflexivity|]. destruct (negb _); [reflexivity|].
  destruct (Qeq_bool rate 0); [reflexivity|]. destruct (_ <=? 0)%Z; [reflexivity|]. destruct (Qeq_bool olap 1); [reflexivity|].
  rewrite detrend2_length.
  destruct (pad_to _ _) as [sp|]; [|reflexivity]. cbn [bind].
  destruct (estimate _ _ _ _ _ _ _) as [e|]; [|reflexivity]. cbn [bind].
  destruct (float_fac _ _ _) as [f|]; reflexivity.
Qed.
Lemma setup_rows slepians nft src rate K tband T olap s :
  mt_setup slepians nft src rate K tband T olap = Ok s -> Forall (fun r => length r = nft) (s_src s).
Proof.
  unfold mt_setup. destruct (Qeq_bool rate 0); [discriminate|]. destruct (_ <=? 0)%Z; [discriminate|]. destruct (Qeq_bool olap 1); [discriminate|].
  destruct (pad_to _ _) as [sp|] eqn:Ep; [|discriminate]. cbn [bind]. apply pad_to_length in Ep.
  destruct (estimate _ _ _ _ _ _ _) as [e|] eqn:Ee; [|discriminate]. cbn [bind]. apply estimate_rows in Ee; [|exact Ep].
  destruct (float_fac _ _ _) as [f|]; [|discriminate]. intros [= <-]. cbn. apply Forall_map. eapply Forall_impl; [|exact Ee].
  intros r Hr. rewrite map_length. exact Hr.
Qed.
(** results without normalization, component by component *)
Lemma raw_spec nft nwav dt tshift gauss s rsp nse out : mt_raw nft nwav dt tshift gauss s rsp nse = Ok out ->
  length out = length rsp /\ (length rsp <= length nse)%nat /\
  forall c, (c < length rsp)%nat -> mt_at nft nwav dt tshift gauss s (nth c rsp []) (nth c nse []) = Ok (nth c out []).
Proof.
  unfold mt_raw. intros E. assert (L := mapM_ok_length _ _ _ E). rewrite seq_length in L. split; [exact L|].
  apply mapM_ok_Forall2 in E.
  assert (forall c, (c < length rsp)%nat -> exists nos, nth_error nse c = Some nos /\ mt_at nft nwav dt tshift gauss s (nth c rsp []) nos = Ok (nth c out [])) as H.
  { intros c Hc. assert (G : forall l o k, Forall2 (fun (x : nat) (y : list R) => match nth_error nse x with None => Err IndexError | Some nos => mt_at nft nwav dt tshift gauss s (nth x rsp []) nos end = Ok y) l o ->
        (k < length l)%nat -> match nth_error nse (nth k l 0%nat) with None => Err IndexError | Some nos => mt_at nft nwav dt tshift gauss s (nth (nth k l 0%nat) rsp []) nos end = Ok (nth k o [])).
    { intros l o k F. revert k. induction F as [|x y l o Hxy F IH]; intros k Hk; cbn in Hk; [lia|]. destruct k as [|k]; cbn [nth]; [exact Hxy|]. apply IH. lia. }
    specialize (G _ _ c E). rewrite seq_length, seq_nth in G by exact Hc. specialize (G Hc). cbn in G.
    destruct (nth_error nse c) as [nos|]; [|discriminate]. exists nos. split; [reflexivity | exact G]. }
  split.
  - destruct (Nat.le_gt_cases (length rsp) (length nse)) as [G|G]; [exact G|]. destruct (H (length nse) G) as (nos & N & _).
    assert (nth_error nse (length nse) = None) by (apply nth_error_None; lia). congruence.
  - intros c Hc. destruct (H c Hc) as (nos & N & E'). rewrite (nth_error_nth _ _ [] N). exact E'.
Qed.
Lemma mt_raw_one nft nwav dt tshift gauss s r n :
  mt_raw nft nwav dt tshift gauss s [r] [n] = let! o := mt_at nft nwav dt tshift gauss s r n in Ok [o].
Proof. unfold mt_raw. cbn. destruct (mt_at _ _ _ _ _ _ _ _); reflexivity. Qed.

(** ** linearity *)
Lemma lsum_lin {A} (a b : R) (f g : A -> cplx) l :
  lsum (fun x => Cadd (Cmul (RtoC a) (f x)) (Cmul (RtoC b) (g x))) l = Cadd (Cmul (RtoC a) (lsum f l)) (Cmul (RtoC b) (lsum g l)).
Proof. unfold lsum. induction l as [|x l IH]; cbn [fold_right]; [cring|]. rewrite IH. ring. Qed.
Lemma mt_num_lin nft sfft wd fd a x b y q : Forall (fun w => length w = nft) wd -> length x = nft -> length y = nft ->
  mt_num nft sfft wd fd (lincomb a x b y) q = Cadd (Cmul (RtoC a) (mt_num nft sfft wd fd x q)) (Cmul (RtoC b) (mt_num nft sfft wd fd y q)).
Proof.
  intros Hw Hx Hy. unfold mt_num. rewrite <- lsum_lin. apply lsum_ext. intros [s w] Hin. cbn [fst snd].
  apply in_combine_r in Hin. rewrite Forall_forall in Hw. specialize (Hw w Hin).
  assert (fft_at nft (rsig (zipw Rmult w (lincomb a x b y))) q =
          Cadd (Cmul (RtoC a) (fft_at nft (rsig (zipw Rmult w x)) q)) (Cmul (RtoC b) (fft_at nft (rsig (zipw Rmult w y)) q))) as ->.
  { rewrite <- !fft_scal, <- fft_add. apply fft_ext. intros j Hj. unfold rsig.
    rewrite !(zipw_nth2 Rmult 0 0) by (rewrite ?lincomb_length; lia). rewrite lincomb_nth by lia. cring. }
  cring.
Qed.
Lemma mt_out_lin nft dt tshift gauss total (a b : R) f g h : (forall q, (q < nft)%nat -> h q = Cadd (Cmul (RtoC a) (f q)) (Cmul (RtoC b) (g q))) ->
  mt_out nft (mt_spec nft dt tshift gauss total h) =
  lincomb a (mt_out nft (mt_spec nft dt tshift gauss total f)) b (mt_out nft (mt_spec nft dt tshift gauss total g)).
Proof.
  intros H. rewrite lincomb_zipw. unfold mt_out. rewrite zipw_tabulate. apply tabulate_ext. intros m Hm.
  rewrite (ifft_ext nft _ (fun q => Cadd (Cmul (RtoC a) (mt_spec nft dt tshift gauss total f q)) (Cmul (RtoC b) (mt_spec nft dt tshift gauss total g q)))).
  - rewrite ifft_add, !ifft_scal. cbn [Cadd Cmul RtoC fst snd]. ring.
  - intros q Hq. unfold mt_spec. rewrite H by exact Hq. rewrite !Cscal_mul. ring.
Qed.
Lemma prep_weights nft ntap ofac gauss tap el nwav sfft nos wd total fd :
  mt_prep nft ntap ofac gauss tap el nwav sfft nos = Ok (wd, total, fd) ->
  weights true nft ntap ofac (window_count ntap ofac nft - 1) tap = Ok wd /\ Forall (fun w => length w = nft) wd /\
  float_fac nft (window_count ntap ofac nft - 1) nft = Ok fd.
Proof.
  unfold mt_prep. destruct (pad_to _ _); [|discriminate]. cbn [bind]. destruct (estimate _ _ _ _ _ _ _); [|discriminate]. cbn [bind].
  destruct (float_fac nwav _ _); [|discriminate]. cbn [bind]. destruct (some_zero el); [discriminate|].
  destruct (weights true nft ntap ofac (window_count ntap ofac nft - 1) tap) as [wd'|] eqn:Ew; [|discriminate]. cbn [bind].
  destruct (float_fac nft _ _) as [fd'|] eqn:Ef; [|discriminate]. cbn [bind]. destruct (some_zero _); [discriminate|].
  assert (Forall (fun w => length w = nft) wd').
  { apply (estimate_weights true nft ntap ofac (window_count ntap ofac nft - 1) tap (zeros nft)); [apply zeros_length | exact Ew]. }
  destruct gauss as [g|]; [destruct (Req_EM_T g 0); [discriminate|]|]; intros [= <- _ <-]; auto.
Qed.
Theorem mt_at_lin nft nwav dt tshift gauss s nos a x b y ox oy : Forall (fun r => length r = nft) (s_src s) ->
  length x = nft -> length y = nft ->
  mt_at nft nwav dt tshift gauss s x nos = Ok ox -> mt_at nft nwav dt tshift gauss s y nos = Ok oy ->
  mt_at nft nwav dt tshift gauss s (lincomb a x b y) nos = Ok (lincomb a ox b oy).
Proof.
  intros Hs Hx Hy. unfold mt_at. rewrite !mt_component_form by (rewrite ?lincomb_length; lia || assumption).
  destruct (mt_prep _ _ _ _ _ _ _ _ _) as [[[wd total] fd]|] eqn:E; [|discriminate]. cbn [bind].
  apply prep_weights in E. destruct E as (_ & Hw & _).
  intros [= <-] [= <-]. f_equal. apply mt_out_lin. intros q Hq. rewrite detrend2_lin by lia.
  apply mt_num_lin; [exact Hw|rewrite detrend2_length; assumption..].
Qed.
