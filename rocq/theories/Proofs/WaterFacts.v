From Verif Require Import Model.Waterlevel Spec.WaterSpec Proofs.SumFacts Proofs.CplxFacts.
From Coq Require Import Lra Lia.
Notation length := List.length.
Open Scope R_scope.
Add Ring cplx_ring_inst2 : cplx_ring.

Lemma tabulate_length {A} n (f : nat -> A) : length (tabulate n f) = n.
Proof. unfold tabulate. rewrite map_length, seq_length. reflexivity. Qed.
Lemma nth_tabulate {A} n (f : nat -> A) k d : (k < n)%nat -> nth k (tabulate n f) d = f k.
Proof.
  intros H. unfold tabulate. rewrite (nth_indep _ d (f 0%nat)) by (rewrite map_length, seq_length; exact H).
  rewrite map_nth, seq_nth by exact H. reflexivity.
Qed.
Lemma map_tabulate {A B} n (f : nat -> A) (g : A -> B) : map g (tabulate n f) = tabulate n (fun k => g (f k)).
Proof. unfold tabulate. apply map_map. Qed.
Lemma tabulate_ext {A} n (f g : nat -> A) : (forall k, (k < n)%nat -> f k = g k) -> tabulate n f = tabulate n g.
Proof. intros H. unfold tabulate. apply map_ext_in. intros k Hk. apply in_seq in Hk. apply H. lia. Qed.
Lemma zipw_map {A B D E} (h : B -> D -> E) (f : A -> B) (g : A -> D) l :
  zipw h (map f l) (map g l) = map (fun x => h (f x) (g x)) l.
Proof. induction l as [|x l IH]; cbn; [reflexivity|]. rewrite IH. reflexivity. Qed.
Lemma zipw_tabulate {B D E} (h : B -> D -> E) n f g :
  zipw h (tabulate n f) (tabulate n g) = tabulate n (fun k => h (f k) (g k)).
Proof. apply zipw_map. Qed.
Lemma list_tabulate {A} (l : list A) d : l = tabulate (length l) (fun k => nth k l d).
Proof. apply nth_ext with d d; [rewrite tabulate_length; reflexivity|]. intros k Hk. rewrite nth_tabulate by exact Hk. reflexivity. Qed.
Lemma firstn_tabulate {A} n m (f : nat -> A) : firstn m (tabulate n f) = tabulate (Nat.min m n) f.
Proof.
  unfold tabulate. rewrite firstn_map. f_equal.
  replace n with (Nat.min m n + (n - Nat.min m n))%nat at 1 by lia. rewrite seq_app.
  destruct (Nat.le_gt_cases n m).
  - rewrite Nat.min_r by lia. rewrite Nat.sub_diag. cbn. rewrite app_nil_r. rewrite firstn_all2 by (rewrite seq_length; lia). reflexivity.
  - rewrite Nat.min_l by lia. rewrite firstn_app, seq_length, Nat.sub_diag. cbn. rewrite app_nil_r.
    rewrite firstn_all2 by (rewrite seq_length; lia). reflexivity.
Qed.
Lemma In_tabulate {A} n (f : nat -> A) x : In x (tabulate n f) <-> exists k, (k < n)%nat /\ f k = x.
Proof.
  unfold tabulate. rewrite in_map_iff. split; intros (k & H).
  - destruct H as [H1 H2]. apply in_seq in H2. exists k. split; [lia | exact H1].
  - exists k. split; [apply H | apply in_seq; lia].
Qed.

(** ** the filters *)
Definition rsig (x : list R) (j : nat) : cplx := RtoC (nth j x 0).
Definition wl_F (n : nat) (dt tshift : R) (gauss : option R) (k : nat) : cplx :=
  let f := IZR (fold_freq n k) / (INR n * dt) in
  match gauss with
  | None => cis (- 2 * PI * f * tshift)
  | Some g => Cscal (exp (Rmax (- (1 / 2) * (f / g) ^ 2) (-700))) (cis (- 2 * PI * f * tshift))
  end.
Lemma phase_shift_tab n dt tshift : phase_shift_filter n dt tshift = tabulate n (wl_F n dt tshift None).
Proof. unfold phase_shift_filter, fftfreq. rewrite map_tabulate. reflexivity. Qed.
Lemma wl_filter_tab n dt tshift gauss : gauss <> Some 0 ->
  wl_filter n dt tshift gauss = Ok (tabulate n (wl_F n dt tshift gauss)).
Proof.
  intros H. unfold wl_filter. destruct gauss as [g|].
  - destruct (Req_EM_T g 0) as [->|]; [congruence|]. unfold gauss_filter, fftfreq.
    rewrite map_tabulate, phase_shift_tab, zipw_tabulate. reflexivity.
  - rewrite phase_shift_tab. reflexivity.
Qed.
Lemma wl_F_norm n dt tshift gauss k : Cnorm2 (wl_F n dt tshift gauss k) <= 1.
Proof.
  unfold wl_F. destruct gauss as [g|]; [rewrite Cnorm2_scal|]; rewrite cis_norm; [|lra].
  set (a := Rmax _ _). assert (a <= 0) as Ha.
  { unfold a. apply Rmax_lub; [|lra].
    pose proof (pow2_ge_0 (IZR (fold_freq n k) / (INR n * dt) / g)). lra. }
  assert (0 < exp a <= 1) as [H1 H2].
  { split; [apply exp_pos|]. rewrite <- exp_0. destruct Ha as [Ha|Ha]; [left; apply exp_increasing, Ha | rewrite Ha; lra]. }
  rewrite Rmult_1_r. rewrite <- (Rmult_1_r 1). apply Rmult_le_compat; lra.
Qed.
Lemma fold_freq_mod n k : (k < n)%nat -> ((fold_freq n k) mod Z.of_nat n = Z.of_nat k mod Z.of_nat n)%Z.
Proof.
  intros H. unfold fold_freq. destruct (2 * k <? n)%nat; [reflexivity|].
  replace (Z.of_nat k - Z.of_nat n)%Z with (Z.of_nat k + (-1) * Z.of_nat n)%Z by ring. apply Z_mod_plus_full.
Qed.
(** tshift = m * dt *)
Lemma wl_F_unit n dt m k : dt <> 0 -> (k < n)%nat ->
  wl_F n dt (IZR m * dt) None k = unit n (- (Z.of_nat k * m)).
Proof.
  intros Hdt Hk. unfold wl_F. assert (Hn : INR n <> 0) by (apply not_0_INR; lia).
  transitivity (unit n (- (fold_freq n k * m))).
  - unfold unit. f_equal. rewrite opp_IZR, mult_IZR. field. split; assumption.
  - apply unit_cong; [lia|]. rewrite <- !Z.mul_opp_r. rewrite Z.mul_mod, fold_freq_mod by lia. rewrite <- Z.mul_mod by lia. reflexivity.
Qed.
(** the gauss filter alone *)
Definition wl_G (n : nat) (dt : R) (gauss : option R) (k : nat) : R :=
  match gauss with
  | None => 1
  | Some g => exp (Rmax (- (1 / 2) * (IZR (fold_freq n k) / (INR n * dt) / g) ^ 2) (-700))
  end.
Lemma wl_F_split n dt tshift gauss k : wl_F n dt tshift gauss k = Cscal (wl_G n dt gauss k) (wl_F n dt tshift None k).
Proof. unfold wl_F, wl_G. destruct gauss; [reflexivity | rewrite Cscal_1; reflexivity]. Qed.
Lemma wl_F_0 n dt k : wl_F n dt 0 None k = Cone.
Proof. unfold wl_F. replace (- 2 * PI * (IZR (fold_freq n k) / (INR n * dt)) * 0) with 0 by ring. apply cis_0. Qed.
Lemma fold_freq_neg n k : (k < n)%nat -> (2 * k <> n)%nat -> fold_freq n (wrap n (- Z.of_nat k)) = (- fold_freq n k)%Z.
Proof.
  intros Hk H2. rewrite wrap_neg by lia. unfold fold_freq.
  destruct (Nat.eqb_spec k 0) as [->|H0]; [|].
  - destruct (Nat.ltb_spec (2 * 0) n); lia.
  - destruct (Nat.ltb_spec (2 * k) n), (Nat.ltb_spec (2 * (n - k)) n); lia.
Qed.
Lemma wl_G_even n dt gauss k : (k < n)%nat -> wl_G n dt gauss (wrap n (- Z.of_nat k)) = wl_G n dt gauss k.
Proof.
  intros Hk. destruct (Nat.eq_dec (2 * k) n) as [E|E].
  - assert (wrap n (- Z.of_nat k) = k) as ->; [|reflexivity]. rewrite wrap_neg by lia. destruct (Nat.eqb_spec k 0); lia.
  - unfold wl_G. rewrite fold_freq_neg by assumption. destruct gauss as [g|]; [|reflexivity].
    rewrite opp_IZR. do 2 f_equal. unfold Rdiv. ring.
Qed.
(** the phase shift is Hermitian except at the Nyquist frequency *)
Lemma wl_F_hermitian n dt tshift gauss : dt <> 0 -> (Nat.odd n = true \/ exists m, tshift = IZR m * dt) ->
  hermitian n (wl_F n dt tshift gauss).
Proof.
  intros Hdt H k Hk. rewrite !(wl_F_split n dt tshift gauss), wl_G_even, Cconj_scal by exact Hk. f_equal.
  assert (Hn : (0 < n)%nat) by lia.
  destruct H as [H|(m & ->)].
  - assert (2 * k <> n)%nat as H2. { intros <-. rewrite Nat.odd_mul in H. discriminate. }
    unfold wl_F. rewrite fold_freq_neg by assumption. rewrite <- cis_opp, opp_IZR. f_equal. unfold Rdiv. ring.
  - rewrite !wl_F_unit by (auto; apply wrap_lt; lia). rewrite <- (unit_opp n Hn). rewrite Z.opp_involutive.
    replace (- (Z.of_nat (wrap n (- Z.of_nat k)) * m))%Z with ((- m) * Z.of_nat (wrap n (- Z.of_nat k)))%Z by ring.
    rewrite (unit_wrap n Hn). f_equal. ring.
Qed.

(** ** the spectrum of the result *)
Lemma fft_tab x n : fft x n = tabulate n (fft_at n (rsig x)). Proof. reflexivity. Qed.
Lemma rmax_ge l x : In x l -> x <= rmax l.
Proof. induction l as [|y l IH]; cbn; [tauto|]. intros [->|H]; [apply Rmax_l|]. eapply Rle_trans; [apply IH, H | apply Rmax_r]. Qed.
Lemma rmax_nonneg l : 0 <= rmax l.
Proof. induction l as [|y l IH]; cbn; [lra|]. eapply Rle_trans; [exact IH | apply Rmax_r]. Qed.
Lemma Rmax_case_strong' a b : Rmax a b = a \/ Rmax a b = b.
Proof. unfold Rmax. destruct (Rle_dec a b); tauto. Qed.
Lemma rmax_in l : (forall x, In x l -> 0 <= x) -> l <> [] -> In (rmax l) l.
Proof.
  induction l as [|y l IH]; [congruence|]. intros H _. cbn. destruct l as [|z l].
  - left. cbn. rewrite Rmax_left; [reflexivity|]. apply H. left; reflexivity.
  - change (fold_right Rmax 0 (z :: l)) with (rmax (z :: l)).
    destruct (Rmax_case_strong' y (rmax (z :: l))) as [->| ->]; [left; reflexivity | right; apply IH; [intros; apply H; right; assumption | congruence]].
Qed.
Definition peak (n : nat) (src : list R) : R := rmax (tabulate n (fun k => Cnorm2 (fft_at n (rsig src) k))).
Definition wl_w (n : nat) (src : list R) (wl : R) (k : nat) : R :=
  Rmax (Cnorm2 (fft_at n (rsig src) k)) (peak n src * wl).
Lemma wl_water_tab n src wl : wl_water (fft src n) wl = tabulate n (wl_w n src wl).
Proof. unfold wl_water. rewrite fft_tab, !map_tabulate. reflexivity. Qed.

Definition wl_spec_one (n : nat) (dt tshift : R) (gauss : option R) (src : list R) (wl : R) (x : nat -> cplx) (k : nat) : cplx :=
  Cscal (/ wl_w n src wl k)
    (Cmul (Cmul (wl_F n dt tshift gauss k) (x k)) (Cconj (fft_at n (rsig src) k))).
Lemma wl_one_tab n N dt tshift gauss src wl rsp :
  wl_one n N (tabulate n (wl_F n dt tshift gauss)) (map Cconj (fft src n)) (tabulate n (wl_w n src wl)) rsp =
  firstn N (tabulate n (ifft_at n (wl_spec_one n dt tshift gauss src wl (fft_at n (rsig rsp))))).
Proof.
  unfold wl_one, ifft, cdiv, cprod. rewrite !fft_tab, map_tabulate, !zipw_tabulate. f_equal.
  apply tabulate_ext. intros j _. apply ifft_ext. intros k Hk. rewrite nth_tabulate by exact Hk. reflexivity.
Qed.
Lemma wl_src_tab n N dt tshift gauss src wl :
  wl_src n N (tabulate n (wl_F n dt tshift gauss)) (fft src n) (map Cconj (fft src n)) (tabulate n (wl_w n src wl)) =
  firstn N (tabulate n (ifft_at n (wl_spec_one n dt tshift gauss src wl (fft_at n (rsig src))))).
Proof. apply (wl_one_tab n N dt tshift gauss src wl src). Qed.

Lemma some_zero_false l : some_zero l = false <-> forall x, In x l -> x <> 0.
Proof.
  unfold some_zero. split.
  - intros H x Hx E. assert (existsb (fun x => if Req_EM_T x 0 then true else false) l = true); [|congruence].
    apply existsb_exists. exists x. split; [exact Hx|]. destruct (Req_EM_T x 0); [reflexivity | contradiction].
  - intros H. apply Bool.not_true_iff_false. intros E. apply existsb_exists in E. destruct E as (x & Hx & E).
    destruct (Req_EM_T x 0); [apply (H x Hx); assumption | discriminate].
Qed.

Definition nfft_of (nfl : nat -> nat) (nfft : option nat) (N : nat) : nat :=
  match nfft with Some m => m | None => nfl N end.
Definition wl_rf (n N : nat) (dt tshift : R) (gauss : option R) (src : list R) (wl : R) (rsp : list R) : list cplx :=
  firstn N (tabulate n (ifft_at n (wl_spec_one n dt tshift gauss src wl (fft_at n (rsig rsp))))).
Definition elems (a : arrays) : list (list R) := match a with Single a => [a] | Many l => l end.

(** normal form of the function when nothing fails before the normalisation *)
Theorem waterlevel_unfold nfl rsp src sr wl gauss tshift len norm nfft info n N :
  sr <> 0 -> gauss <> Some 0 -> (match len with Some m => Ok m | None => get_length rsp end) = Ok N ->
  nfft_of nfl nfft N = n -> (0 < n)%nat -> (forall k, (k < n)%nat -> wl_w n src wl k <> 0) ->
  deconv_waterlevel nfl rsp src sr wl gauss tshift len norm nfft info =
  let rf r := wl_rf n N (1 / sr) tshift gauss src wl r in
  let rf_list := map rf (elems rsp) in
  let! nrm := match norm with
              | NSrc => let! c := recip_max (rf src) in Ok (Some c)
              | NIdx i => match nth_error rf_list i with
                          | None => Err IndexError
                          | Some r => let! c := recip_max r in Ok (Some c)
                          end
              | NNone => Ok None
              end in
  let rf_list := match nrm with Some c => map (map (Cmul c)) rf_list | None => rf_list end in
  if info then
    match norm, nrm with
    | NSrc, Some c => Ok (WInfo rf_list (map (Cmul c) (rf src)) c)
    | NIdx _, _ => let! c := recip_max (rf src) in Ok (WInfo rf_list (map (Cmul c) (rf src)) c)
    | _, _ => Err UnboundLocalError
    end
  else
  match rsp with
  | Many _ => Ok (WMany rf_list)
  | Single _ => match nrm, rf_list with
                | Some _, [r] => Ok (WSingle r)
                | _, _ => Err UnboundLocalError
                end
  end.
Proof.
  intros Hsr Hg HN Hn Hpos Hw. unfold deconv_waterlevel. rewrite HN. cbn [bind]. change (match nfft with Some m => m | None => nfl N end) with (nfft_of nfl nfft N).
  rewrite Hn. destruct (Req_EM_T sr 0) as [E|_]; [contradiction|]. rewrite (wl_filter_tab n _ _ _ Hg).
  destruct (Nat.eqb_spec n 0) as [E|_]; [lia|]. cbn [bind]. rewrite wl_water_tab.
  assert (some_zero (tabulate n (wl_w n src wl)) = false) as ->.
  { apply some_zero_false. intros x Hx. apply In_tabulate in Hx. destruct Hx as (k & Hk & <-). apply Hw, Hk. }
  cbv zeta. rewrite wl_src_tab.
  change (match rsp with Single a => [a] | Many l => l end) with (elems rsp).
  rewrite (map_ext (wl_one n N (tabulate n (wl_F n (1 / sr) tshift gauss)) (map Cconj (fft src n)) (tabulate n (wl_w n src wl)))
                   (wl_rf n N (1 / sr) tshift gauss src wl)) by (intros; apply wl_one_tab).
  reflexivity.
Qed.

(** ** relation to the specification *)
Lemma dft_fft n x k : (0 < n)%nat -> dft n x k = fft_at n (rsig x) k.
Proof.
  intros Hn. assert (INR n <> 0) by (apply not_0_INR; lia). unfold dft, fft_at. apply csum_ext. intros j _. rewrite Cscal_mul. f_equal.
  unfold unit. f_equal. rewrite opp_IZR, mult_IZR, <- !INR_IZR_INZ. field. assumption.
Qed.
Lemma cdft_fft n x k : (0 < n)%nat -> cdft n x k = fft_at n (fun j => nth j x Czero) k.
Proof.
  intros Hn. assert (INR n <> 0) by (apply not_0_INR; lia). unfold cdft, fft_at. apply csum_ext. intros j _. f_equal.
  unfold unit. f_equal. rewrite opp_IZR, mult_IZR, <- !INR_IZR_INZ. field. assumption.
Qed.
Lemma peak_spec n src M : (0 < n)%nat -> (peak_power n src M <-> peak n src = M).
Proof.
  intros Hn. unfold peak_power, peak. set (f := fun k => Cnorm2 (fft_at n (rsig src) k)).
  assert (Hin : In (rmax (tabulate n f)) (tabulate n f)).
  { apply rmax_in; [|destruct n; [lia | discriminate]]. intros x Hx. apply In_tabulate in Hx. destruct Hx as (k & _ & <-). apply Cnorm2_pos. }
  split.
  - intros [H1 (k & Hk & H2)]. rewrite dft_fft in H2 by exact Hn. apply Rle_antisym.
    + apply In_tabulate in Hin. destruct Hin as (i & Hi & <-). unfold f. rewrite <- dft_fft by exact Hn. apply H1, Hi.
    + rewrite <- H2. apply rmax_ge. apply In_tabulate. exists k. split; [exact Hk | reflexivity].
  - intros <-. split.
    + intros k Hk. rewrite dft_fft by exact Hn. apply rmax_ge. apply In_tabulate. exists k. split; [exact Hk | reflexivity].
    + apply In_tabulate in Hin. destruct Hin as (k & Hk & E). exists k. split; [exact Hk|]. rewrite dft_fft by exact Hn. exact E.
Qed.
Lemma peak_pos n src : nonzero_within n src -> 0 < peak n src.
Proof.
  intros (p & Hp & H). assert (Hn : (0 < n)%nat) by lia. destruct (Rle_lt_or_eq_dec 0 (peak n src) (rmax_nonneg _)) as [L|E]; [exact L|].
  exfalso. pose proof (parseval n Hn (rsig src)) as P.
  rewrite (rsum_zero n (fun k => Cnorm2 (fft_at n (rsig src) k))) in P.
  - assert (Hs : rsum n (fun j => Cnorm2 (rsig src j)) = 0).
    { assert (INR n <> 0) by (apply not_0_INR; lia). symmetry in P. apply Rmult_integral in P. tauto. }
    assert (Cnorm2 (rsig src p) <= 0).
    { rewrite <- Hs. apply (rsum_ge_term n (fun j => Cnorm2 (rsig src j))); [intros; apply Cnorm2_pos | exact Hp]. }
    pose proof (Cnorm2_pos (rsig src p)). assert (E0 : Cnorm2 (rsig src p) = 0) by lra. apply Cnorm2_zero in E0.
    apply H. exact (f_equal fst E0).
  - intros k Hk. apply Rle_antisym; [|apply Cnorm2_pos]. rewrite E. apply rmax_ge. apply In_tabulate. exists k. split; [exact Hk | reflexivity].
Qed.
Lemma wl_w_pos n src wl k : nonzero_within n src -> 0 < wl -> 0 < wl_w n src wl k.
Proof.
  intros H1 H2. unfold wl_w. eapply Rlt_le_trans; [|apply Rmax_r]. apply Rmult_lt_0_compat; [apply peak_pos, H1 | exact H2].
Qed.
(** the gain |conj(S) / water|^2 *)
Lemma wl_gain n src wl k : nonzero_within n src -> 0 < wl ->
  Cnorm2 (fft_at n (rsig src) k) / (wl_w n src wl k * wl_w n src wl k) <= / (wl * peak n src).
Proof.
  intros H1 H2. pose proof (peak_pos n src H1) as Hp. set (P := Cnorm2 (fft_at n (rsig src) k)).
  assert (Hc : 0 < wl * peak n src) by (apply Rmult_lt_0_compat; assumption).
  assert (Hw := wl_w_pos n src wl k H1 H2).
  assert (A : P <= wl_w n src wl k) by apply Rmax_l.
  assert (B : wl * peak n src <= wl_w n src wl k) by (rewrite Rmult_comm; apply Rmax_r).
  set (w := wl_w n src wl k) in *. set (c := wl * peak n src) in *.
  apply Rmult_le_reg_r with (w * w * c); [repeat apply Rmult_lt_0_compat; assumption|].
  replace (P / (w * w) * (w * w * c)) with (P * c) by (field; lra).
  replace (/ c * (w * w * c)) with (w * w) by (field; lra).
  assert (0 <= P) by apply Cnorm2_pos. apply Rmult_le_compat; lra.
Qed.
Lemma wl_spec_one_norm n dt tshift gauss src wl X k : nonzero_within n src -> 0 < wl ->
  Cnorm2 (wl_spec_one n dt tshift gauss src wl X k) <= Cnorm2 (X k) / (wl * peak n src).
Proof.
  intros H1 H2. unfold wl_spec_one. rewrite Cnorm2_scal, !Cnorm2_mul, Cnorm2_conj.
  pose proof (wl_gain n src wl k H1 H2) as G. pose proof (wl_F_norm n dt tshift gauss k) as F.
  pose proof (Cnorm2_pos (X k)) as PX. pose proof (Cnorm2_pos (wl_F n dt tshift gauss k)) as PF.
  pose proof (wl_w_pos n src wl k H1 H2) as Hw.
  set (w := wl_w n src wl k) in *. set (S := Cnorm2 (fft_at n (rsig src) k)) in *.
  set (FF := Cnorm2 (wl_F n dt tshift gauss k)) in *. set (XX := Cnorm2 (X k)) in *.
  replace (/ w * / w * (FF * XX * S)) with (FF * XX * (S / (w * w))) by (field; lra).
  assert (0 <= S / (w * w)).
  { unfold Rdiv. apply Rmult_le_pos; [apply Cnorm2_pos|]. left. apply Rinv_0_lt_compat, Rmult_lt_0_compat; exact Hw. }
  unfold Rdiv at 2. apply Rmult_le_compat; [apply Rmult_le_pos; assumption | assumption | | exact G].
  rewrite <- (Rmult_1_l XX) at 2. apply Rmult_le_compat_r; assumption.
Qed.
Lemma rsum_mono_n n m f : (n <= m)%nat -> (forall i, (i < m)%nat -> 0 <= f i) -> rsum n f <= rsum m f.
Proof.
  intros H Hf. replace m with (n + (m - n))%nat by lia. rewrite rsum_split.
  assert (0 <= rsum (m - n) (fun i => f (n + i)%nat)) by (apply rsum_nonneg; intros; apply Hf; lia). lra.
Qed.
Lemma ifft_energy n X : (0 < n)%nat ->
  rsum n (fun j => Cnorm2 (ifft_at n X j)) = / INR n * rsum n (fun k => Cnorm2 (X k)).
Proof.
  intros Hn. assert (INR n <> 0) by (apply not_0_INR; lia). pose proof (parseval n Hn (ifft_at n X)) as P.
  rewrite (rsum_ext n (fun k => Cnorm2 (fft_at n (ifft_at n X) k)) (fun k => Cnorm2 (X k))) in P
    by (intros k Hk; rewrite fft_ifft by assumption; reflexivity).
  rewrite P. field. assumption.
Qed.
(** energy of the result *)
Theorem wl_energy n N dt tshift gauss src wl rsp : nonzero_within n src -> 0 < wl ->
  cenergy (wl_rf n N dt tshift gauss src wl rsp) <= energy n rsp / (wl * peak n src).
Proof.
  intros H1 H2. assert (Hn : (0 < n)%nat) by (destruct H1 as (p & Hp & _); lia).
  unfold cenergy, wl_rf. rewrite firstn_tabulate, tabulate_length. set (X := wl_spec_one _ _ _ _ _ _ _).
  rewrite (rsum_ext (Nat.min N n) _ (fun j => Cnorm2 (ifft_at n X j))).
  2:{ intros j Hj. rewrite nth_tabulate by exact Hj. reflexivity. }
  eapply Rle_trans; [apply (rsum_mono_n _ n); [lia | intros; apply Cnorm2_pos]|].
  rewrite ifft_energy by exact Hn. assert (Hi : 0 < INR n) by (apply lt_0_INR; exact Hn).
  pose proof (peak_pos n src H1) as Hp. assert (Hc : 0 < wl * peak n src) by (apply Rmult_lt_0_compat; assumption).
  apply Rle_trans with (/ INR n * (rsum n (fun k => Cnorm2 (fft_at n (rsig rsp) k)) * / (wl * peak n src))).
  - apply Rmult_le_compat_l; [left; apply Rinv_0_lt_compat, Hi|]. rewrite <- rsum_scal_r. apply rsum_le. intros k _.
    apply (wl_spec_one_norm n dt tshift gauss src wl (fft_at n (rsig rsp)) k H1 H2).
  - rewrite parseval by exact Hn. unfold energy.
    rewrite (rsum_ext n (fun j => Cnorm2 (rsig rsp j)) (fun j => nth j rsp 0 * nth j rsp 0)) by (intros; unfold Cnorm2, rsig; cbn; ring).
    right. field. split; lra.
Qed.

(** ** exact recovery *)
Lemma circ_conv_fft n s g k : (0 < n)%nat -> fft_at n (rsig (circ_conv n s g)) k = Cmul (fft_at n (rsig s) k) (fft_at n (rsig g) k).
Proof.
  intros Hn. rewrite <- fft_circ by exact Hn. apply fft_ext. intros j Hj. unfold rsig at 1, circ_conv.
  change (map ?f (seq 0 n)) with (tabulate n f). rewrite nth_tabulate by exact Hj. rewrite <- csum_RtoC.
  unfold circ. apply csum_ext. intros i _. rewrite RtoC_mul. reflexivity.
Qed.
Theorem wl_recover n dt src g : (0 < n)%nat -> length g = n -> (forall k, (k < n)%nat -> fft_at n (rsig src) k <> Czero) ->
  wl_rf n n dt 0 None src 0 (circ_conv n src g) = map RtoC g.
Proof.
  intros Hn Hg Hs. unfold wl_rf. rewrite firstn_all2 by (rewrite tabulate_length; lia).
  rewrite (list_tabulate g 0) at 2. rewrite map_tabulate, Hg. apply tabulate_ext. intros j Hj.
  change (RtoC (nth j g 0)) with (rsig g j). rewrite <- (ifft_fft n Hn (rsig g) j Hj). apply ifft_ext. intros k Hk.
  unfold wl_spec_one. rewrite wl_F_0, circ_conv_fft by exact Hn. unfold wl_w. rewrite Rmult_0_r.
  rewrite Rmax_left by apply Cnorm2_pos. set (S := fft_at n (rsig src) k). set (G := fft_at n (rsig g) k).
  assert (Cnorm2 S <> 0) as HS by (intros E; apply (Hs k Hk); apply Cnorm2_zero, E).
  transitivity (Cscal (/ Cnorm2 S) (Cmul (RtoC (Cnorm2 S)) G)); [rewrite <- Cmul_conj; f_equal; ring|].
  apply cplx_eq; cbn; field; exact HS.
Qed.

(** ** delays *)
Theorem apply_shift x dt m n : (0 < n)%nat -> dt <> 0 ->
  apply_filter x (phase_shift_filter n dt (IZR m * dt)) = Ok (delayed n m x).
Proof.
  intros Hn Hdt. unfold apply_filter. rewrite phase_shift_tab, tabulate_length. destruct n as [|n']; [lia|].
  set (n := S n') in *. f_equal. unfold ifft, cprod. rewrite fft_tab, zipw_tabulate, map_tabulate. unfold delayed.
  apply tabulate_ext. intros j Hj.
  rewrite (ifft_ext n _ (fun k => Cmul (unit n (- (Z.of_nat k * m))) (fft_at n (rsig x) k))).
  - rewrite ifft_shift by exact Hn. rewrite ifft_fft by (auto; apply wrap_lt; lia). reflexivity.
  - intros k Hk. rewrite nth_tabulate by exact Hk. rewrite wl_F_unit by assumption. ring.
Qed.
(** a result for tshift + m * dt is the one for tshift, delayed *)
Theorem wl_delay n dt tshift m gauss src wl rsp j : (0 < n)%nat -> dt <> 0 -> (j < n)%nat ->
  nth j (wl_rf n n dt (tshift + IZR m * dt) gauss src wl rsp) Czero =
  (* sample j of the filtered spectrum with an extra factor *)
  ifft_at n (fun k => Cmul (cis (- 2 * PI * (IZR (fold_freq n k) / (INR n * dt)) * (IZR m * dt)))
                           (wl_spec_one n dt tshift gauss src wl (fft_at n (rsig rsp)) k)) j.
Proof.
  intros Hn Hdt Hj. unfold wl_rf. rewrite firstn_tabulate, Nat.min_id, nth_tabulate by exact Hj. apply ifft_ext.
  intros k Hk. unfold wl_spec_one. rewrite (wl_F_split n dt (tshift + IZR m * dt)), (wl_F_split n dt tshift gauss).
  unfold wl_F. rewrite Rmult_plus_distr_l, cis_add. rewrite !Cscal_mul. ring.
Qed.
Theorem wl_delay_samples n dt tshift m gauss src wl rsp j : (0 < n)%nat -> dt <> 0 -> (j < n)%nat ->
  nth j (wl_rf n n dt (tshift + IZR m * dt) gauss src wl rsp) Czero =
  nth (wrap n (Z.of_nat j - m)) (wl_rf n n dt tshift gauss src wl rsp) Czero.
Proof.
  intros Hn Hdt Hj. rewrite wl_delay by assumption.
  rewrite (ifft_ext n _ (fun k => Cmul (unit n (- (Z.of_nat k * m))) (wl_spec_one n dt tshift gauss src wl (fft_at n (rsig rsp)) k))).
  2:{ intros k Hk. rewrite <- (wl_F_unit n dt m k Hdt Hk). reflexivity. }
  rewrite ifft_shift by exact Hn. unfold wl_rf. rewrite firstn_tabulate, Nat.min_id, nth_tabulate by (apply wrap_lt; lia). reflexivity.
Qed.

(** ** real results *)
Lemma wl_w_even n src wl k : (k < n)%nat -> wl_w n src wl (wrap n (- Z.of_nat k)) = wl_w n src wl k.
Proof.
  intros Hk. assert (Hn : (0 < n)%nat) by lia. unfold wl_w. rewrite (fft_real_hermitian n Hn (rsig src)) by (reflexivity || exact Hk).
  rewrite Cnorm2_conj. reflexivity.
Qed.
Theorem wl_rf_real n N dt tshift gauss src wl rsp z : (0 < n)%nat -> dt <> 0 ->
  (Nat.odd n = true \/ exists m, tshift = IZR m * dt) ->
  In z (wl_rf n N dt tshift gauss src wl rsp) -> snd z = 0.
Proof.
  intros Hn Hdt H Hz. unfold wl_rf in Hz. rewrite firstn_tabulate in Hz. apply In_tabulate in Hz. destruct Hz as (j & Hj & <-).
  apply ifft_hermitian; [exact Hn|]. intros k Hk. unfold wl_spec_one.
  rewrite wl_w_even, (wl_F_hermitian n dt tshift gauss Hdt H k Hk) by exact Hk.
  rewrite !(fft_real_hermitian n Hn (rsig _)) by (reflexivity || exact Hk).
  rewrite Cconj_scal, !Cconj_mul. reflexivity.
Qed.

(** ** maxima of complex arrays *)
Lemma cle_spec a b : cle a b = true <-> fst a < fst b \/ (fst a = fst b /\ snd a <= snd b).
Proof.
  unfold cle. destruct (Rlt_dec (fst a) (fst b)); [intuition|]. destruct (Req_EM_T (fst a) (fst b)); [|intuition congruence].
  destruct (Rle_dec (snd a) (snd b)); intuition congruence.
Qed.
Lemma cle_total a b : cle a b = false -> cle b a = true.
Proof.
  intros H. apply cle_spec. destruct (Rtotal_order (fst a) (fst b)) as [L|[E|G]].
  - exfalso. assert (cle a b = true) by (apply cle_spec; left; exact L). congruence.
  - right. split; [auto|]. destruct (Rle_dec (snd a) (snd b)) as [L|L]; [|lra].
    exfalso. assert (cle a b = true) by (apply cle_spec; right; auto). congruence.
  - left. exact G.
Qed.
Lemma cle_refl a : cle a a = true. Proof. apply cle_spec. right. split; [reflexivity | lra]. Qed.
Lemma cle_trans a b c : cle a b = true -> cle b c = true -> cle a c = true.
Proof. rewrite !cle_spec. intros [H1|[H1 H2]] [H3|[H3 H4]]; [left; lra | left; lra | left; lra | right; split; lra]. Qed.
Lemma fold_cmax l x : (In (fold_left cmax2 l x) (x :: l)) /\ (forall y, In y (x :: l) -> cle y (fold_left cmax2 l x) = true).
Proof.
  revert x. induction l as [|z l IH]; intros x; cbn [fold_left].
  - split; [left; reflexivity|]. intros y [->|[]]. apply cle_refl.
  - destruct (IH (cmax2 x z)) as [A B]. split.
    + destruct A as [A|A]; [|right; right; exact A]. rewrite <- A. unfold cmax2. destruct (cle x z); [right; left | left]; reflexivity.
    + intros y [->|[->|H]].
      * apply cle_trans with (cmax2 y z); [unfold cmax2; destruct (cle y z) eqn:E; [exact E | apply cle_refl] | apply B; left; reflexivity].
      * apply cle_trans with (cmax2 x y); [unfold cmax2; destruct (cle x y) eqn:E; [apply cle_refl | apply cle_total, E] | apply B; left; reflexivity].
      * apply B. right. exact H.
Qed.
Lemma cmax_spec l m : cmax l = Ok m -> In m l /\ forall y, In y l -> cle y m = true.
Proof. destruct l as [|x l]; [discriminate|]. cbn [cmax]. intros H. injection H as <-. apply fold_cmax. Qed.
Lemma cmax_unique l m : In m l -> (forall y, In y l -> cle y m = true) -> cmax l = Ok m.
Proof.
  intros H1 H2. destruct l as [|x l]; [destruct H1|]. cbn [cmax]. f_equal. destruct (fold_cmax l x) as [A B].
  pose proof (H2 _ A) as C. pose proof (B _ H1) as D. rewrite cle_spec in C, D. apply cplx_eq; lra.
Qed.
Lemma recip_max_spec l c : recip_max l = Ok c ->
  exists m, In m l /\ (forall y, In y l -> cle y m = true) /\ Cnorm2 m <> 0 /\ c = Cinv m.
Proof.
  unfold recip_max. destruct (cmax l) as [m|] eqn:E; cbn [bind]; [|discriminate]. destruct (Req_EM_T (Cnorm2 m) 0); [discriminate|].
  intros H. injection H as <-. destruct (cmax_spec l m E). exists m. auto.
Qed.
Lemma recip_max_intro l m : In m l -> (forall y, In y l -> cle y m = true) -> Cnorm2 m <> 0 -> recip_max l = Ok (Cinv m).
Proof.
  intros H1 H2 H3. unfold recip_max. rewrite (cmax_unique l m H1 H2). cbn [bind]. destruct (Req_EM_T (Cnorm2 m) 0); [contradiction | reflexivity].
Qed.
(** positive common factors *)
Lemma cle_scal k a b : 0 < k -> cle (Cscal k a) (Cscal k b) = cle a b.
Proof.
  intros Hk. apply Bool.eq_true_iff_eq. rewrite !cle_spec. cbn [Cscal fst snd].
  assert (E : forall x y, k * x < k * y <-> x < y).
  { intros x y. split; [apply Rmult_lt_reg_l, Hk | apply Rmult_lt_compat_l, Hk]. }
  assert (F : forall x y, k * x <= k * y <-> x <= y).
  { intros x y. split; [apply Rmult_le_reg_l, Hk | apply Rmult_le_compat_l; lra]. }
  assert (G : forall x y, k * x = k * y <-> x = y).
  { intros x y. split; [intros H; apply (Rmult_eq_reg_l k); [exact H | lra] | intros ->; reflexivity]. }
  rewrite E, F, G. reflexivity.
Qed.
Lemma Cinv_scal k m : k <> 0 -> Cnorm2 m <> 0 -> Cinv (Cscal k m) = Cscal (/ k) (Cinv m).
Proof. intros Hk Hm. unfold Cinv. apply cplx_eq; cbn [Cscal fst snd]; rewrite Cnorm2_scal; field; auto. Qed.
Lemma recip_max_scal k l : 0 < k -> recip_max (map (Cscal k) l) = (let! c := recip_max l in Ok (Cscal (/ k) c)).
Proof.
  intros Hk. destruct (recip_max l) as [c|e] eqn:E; cbn [bind].
  - destruct (recip_max_spec l c E) as (m & A & B & D & ->). rewrite <- Cinv_scal by lra. apply recip_max_intro.
    + apply in_map, A.
    + intros y Hy. apply in_map_iff in Hy. destruct Hy as (z & <- & Hz). rewrite cle_scal by exact Hk. apply B, Hz.
    + rewrite Cnorm2_scal. apply Rmult_integral_contrapositive. split; [apply Rmult_integral_contrapositive; lra | exact D].
  - unfold recip_max in *. destruct l as [|x l]; [exact E|]. cbn [map].
    destruct (cmax (x :: l)) as [m|] eqn:Em; [|discriminate]. destruct (cmax_spec _ _ Em) as [A B]. cbn [bind] in E.
    change (Cscal k x :: map (Cscal k) l) with (map (Cscal k) (x :: l)).
    rewrite (cmax_unique (map (Cscal k) (x :: l)) (Cscal k m)).
    + cbn [bind]. destruct (Req_EM_T (Cnorm2 m) 0) as [E0|]; [|discriminate]. rewrite Cnorm2_scal, E0, Rmult_0_r.
      destruct (Req_EM_T 0 0); [exact E | congruence].
    + apply in_map, A.
    + intros y Hy. apply in_map_iff in Hy. destruct Hy as (z & <- & Hz). rewrite cle_scal by exact Hk. apply B, Hz.
Qed.

(** ** normalisation and argument shapes *)
Theorem waterlevel_idx nfl rs src sr wl gauss tshift len i nfft :
  deconv_waterlevel nfl (Many rs) src sr wl gauss tshift len (NIdx i) nfft false =
  (let! x := deconv_waterlevel nfl (Many rs) src sr wl gauss tshift len NNone nfft false in
   match x with
   | WMany raw => match nth_error raw i with
                  | None => Err IndexError
                  | Some r => let! c := recip_max r in Ok (WMany (map (map (Cmul c)) raw))
                  end
   | _ => Err UnboundLocalError
   end).
Proof.
  unfold deconv_waterlevel. destruct (match len with Some n => Ok n | None => get_length (Many rs) end) as [N|]; cbn [bind]; [|reflexivity].
  destruct (Req_EM_T sr 0); [reflexivity|]. destruct (_ =? 0)%nat; [reflexivity|].
  destruct (wl_filter _ _ _ _) as [F|]; cbn [bind]; [|reflexivity]. destruct (some_zero _); [reflexivity|]. cbn [bind].
  destruct (nth_error _ i) as [r|]; [|reflexivity]. destruct (recip_max r) as [c|]; reflexivity.
Qed.
Theorem waterlevel_src nfl rs src sr wl gauss tshift len nfft :
  deconv_waterlevel nfl (Many rs) src sr wl gauss tshift len NSrc nfft false =
  (let! N := match len with Some n => Ok n | None => get_length (Many rs) end in
   let! x := deconv_waterlevel nfl (Many rs) src sr wl gauss tshift len NNone nfft false in
   let! y := deconv_waterlevel nfl (Many [src]) src sr wl gauss tshift (Some N) NNone nfft false in
   match x, y with
   | WMany raw, WMany [r] => let! c := recip_max r in Ok (WMany (map (map (Cmul c)) raw))
   | _, _ => Err UnboundLocalError
   end).
Proof.
  unfold deconv_waterlevel. destruct (match len with Some n => Ok n | None => get_length (Many rs) end) as [N|]; cbn [bind]; [|reflexivity].
  destruct (Req_EM_T sr 0); [reflexivity|]. destruct (_ =? 0)%nat; [reflexivity|].
  destruct (wl_filter _ _ _ _) as [F|]; cbn [bind]; [|reflexivity]. destruct (some_zero _); [reflexivity|]. cbn [bind map].
  change (wl_one (match nfft with Some m => m | None => nfl N end) N F
            (map Cconj (fft src (match nfft with Some m => m | None => nfl N end)))
            (wl_water (fft src (match nfft with Some m => m | None => nfl N end)) wl) src)
    with (wl_src (match nfft with Some m => m | None => nfl N end) N F
            (fft src (match nfft with Some m => m | None => nfl N end))
            (map Cconj (fft src (match nfft with Some m => m | None => nfl N end)))
            (wl_water (fft src (match nfft with Some m => m | None => nfl N end)) wl)).
  destruct (recip_max (wl_src _ _ _ _ _ _)) as [c|]; reflexivity.
Qed.
Theorem waterlevel_single nfl r src sr wl gauss tshift len norm nfft : norm <> NNone ->
  deconv_waterlevel nfl (Single r) src sr wl gauss tshift len norm nfft false =
  (let! x := deconv_waterlevel nfl (Many [r]) src sr wl gauss tshift len norm nfft false in
   match x with WMany [y] => Ok (WSingle y) | _ => Err UnboundLocalError end).
Proof.
  intros H. unfold deconv_waterlevel. destruct len as [N|]; cbn [bind get_length].
  - destruct (Req_EM_T sr 0); [reflexivity|]. destruct (_ =? 0)%nat; [reflexivity|].
    destruct (wl_filter _ _ _ _) as [F|]; cbn [bind]; [|reflexivity]. destruct (some_zero _); [reflexivity|]. cbn [bind map].
    destruct norm as [| |i]; [congruence| |].
    + destruct (recip_max (wl_src _ _ _ _ _ _)) as [c|]; reflexivity.
    + destruct (nth_error _ i) as [x|]; [|reflexivity]. destruct (recip_max x) as [c|]; reflexivity.
  - destruct (Req_EM_T sr 0); [reflexivity|]. destruct (_ =? 0)%nat; [reflexivity|].
    destruct (wl_filter _ _ _ _) as [F|]; cbn [bind]; [|reflexivity]. destruct (some_zero _); [reflexivity|]. cbn [bind map].
    destruct norm as [| |i]; [congruence| |].
    + destruct (recip_max (wl_src _ _ _ _ _ _)) as [c|]; reflexivity.
    + destruct (nth_error _ i) as [x|]; [|reflexivity]. destruct (recip_max x) as [c|]; reflexivity.
Qed.
(** without normalisation a single array never succeeds *)
Theorem waterlevel_single_none nfl r src sr wl gauss tshift len nfft x :
  deconv_waterlevel nfl (Single r) src sr wl gauss tshift len NNone nfft false <> Ok x.
Proof.
  unfold deconv_waterlevel. destruct (match len with Some n => Ok n | None => get_length (Single r) end) as [N|]; cbn [bind]; [|discriminate].
  destruct (Req_EM_T sr 0); [discriminate|]. destruct (_ =? 0)%nat; [discriminate|].
  destruct (wl_filter _ _ _ _) as [F|]; cbn [bind]; [|discriminate]. destruct (some_zero _); discriminate.
Qed.

(** ** gains *)
Lemma rsig_scale c x j : rsig (scale c x) j = Cmul (RtoC c) (rsig x j).
Proof.
  unfold rsig, scale. destruct (Nat.lt_ge_cases j (length x)) as [H|H].
  - rewrite (nth_indep _ 0 (c * 0)) by (rewrite map_length; exact H). rewrite (map_nth (Rmult c)). apply RtoC_mul.
  - rewrite !nth_overflow by (try rewrite map_length; exact H). cring.
Qed.
Lemma fft_scale n c x k : fft_at n (rsig (scale c x)) k = Cmul (RtoC c) (fft_at n (rsig x) k).
Proof. rewrite <- fft_scal. apply fft_ext. intros. apply rsig_scale. Qed.
Lemma Cnorm2_R c a : Cnorm2 (Cmul (RtoC c) a) = c * c * Cnorm2 a.
Proof. rewrite <- Cscal_mul. apply Cnorm2_scal. Qed.
Lemma rmax_scale c l : 0 <= c -> rmax (map (Rmult c) l) = c * rmax l.
Proof.
  intros Hc. induction l as [|x l IH]; cbn; [ring|]. change (fold_right Rmax 0 ?l) with (rmax l). rewrite IH.
  rewrite <- RmaxRmult by exact Hc. reflexivity.
Qed.
Lemma peak_scale n c src : peak n (scale c src) = c * c * peak n src.
Proof.
  unfold peak. rewrite <- rmax_scale by apply Rle_0_sqr. f_equal. rewrite map_tabulate. apply tabulate_ext.
  intros k _. rewrite fft_scale. apply Cnorm2_R.
Qed.
Lemma wl_w_scale n c src wl k : wl_w n (scale c src) wl k = c * c * wl_w n src wl k.
Proof.
  unfold wl_w. rewrite peak_scale, fft_scale, Cnorm2_R, <- RmaxRmult by apply Rle_0_sqr. f_equal. ring.
Qed.
Lemma map_firstn' {A B} (f : A -> B) n l : map f (firstn n l) = firstn n (map f l).
Proof. symmetry. apply firstn_map. Qed.
Theorem wl_rf_scale n N dt tshift gauss src wl rsp c d : c <> 0 -> (forall k, (k < n)%nat -> wl_w n src wl k <> 0) ->
  wl_rf n N dt tshift gauss (scale c src) wl (scale d rsp) = map (Cscal (d / c)) (wl_rf n N dt tshift gauss src wl rsp).
Proof.
  intros Hc Hw. unfold wl_rf. rewrite map_firstn', map_tabulate. f_equal. apply tabulate_ext. intros j Hj.
  rewrite Cscal_mul, <- ifft_scal. apply ifft_ext. intros k Hk. unfold wl_spec_one.
  rewrite wl_w_scale, !fft_scale, Cconj_mul, Cconj_R. rewrite !Cscal_mul.
  replace (RtoC (/ (c * c * wl_w n src wl k))) with (Cmul (RtoC (/ (c * c))) (RtoC (/ wl_w n src wl k))).
  2:{ rewrite <- RtoC_mul. f_equal. field. split; [apply Hw, Hk | exact Hc]. }
  replace (RtoC (d / c)) with (Cmul (RtoC (/ (c * c))) (Cmul (RtoC d) (RtoC c))).
  2:{ rewrite <- !RtoC_mul. f_equal. field. exact Hc. }
  ring.
Qed.

(** ** linear convolution *)
Lemma lin_conv_circ n s g : (0 < length s)%nat -> (length s + length g - 1 <= n)%nat ->
  forall j, (j < n)%nat -> nth j (circ_conv n s g) 0 = nth j (lin_conv s g) 0.
Proof.
  intros Hs Hn j Hj. unfold circ_conv. change (map ?f (seq 0 n)) with (tabulate n f). rewrite nth_tabulate by exact Hj.
  assert (A : rsum n (fun i => nth i s 0 * periodic n g (Z.of_nat j - Z.of_nat i)) =
              rsum (S j) (fun i => nth i s 0 * nth (j - i) g 0)).
  { replace n with (S j + (n - S j))%nat at 1 by lia. rewrite rsum_split.
    rewrite (rsum_zero (n - S j)).
    - rewrite Rplus_0_r. apply rsum_ext. intros i Hi. unfold periodic. rewrite Z.mod_small by lia. do 2 f_equal. lia.
    - intros i Hi. destruct (Nat.lt_ge_cases (S j + i) (length s)) as [H|H]; [|rewrite (nth_overflow s) by exact H; ring].
      unfold periodic. rewrite (nth_overflow g); [ring|].
      rewrite <- (Z.mod_unique (Z.of_nat j - Z.of_nat (S j + i)) (Z.of_nat n) (-1) (Z.of_nat n + Z.of_nat j - Z.of_nat (S j + i))) by lia. lia. }
  rewrite A. unfold lin_conv. change (map ?f (seq 0 ?m)) with (tabulate m f).
  destruct (Nat.lt_ge_cases j (length s + length g - 1)) as [H|H]; [rewrite nth_tabulate by exact H; reflexivity|].
  rewrite nth_overflow by (rewrite tabulate_length; exact H). apply rsum_zero. intros i Hi.
  destruct (Nat.lt_ge_cases i (length s)) as [L|L]; [|rewrite (nth_overflow s) by exact L; ring].
  rewrite (nth_overflow g) by lia. ring.
Qed.
Lemma wl_rf_ext n N dt tshift gauss src wl r r' : (forall j, (j < n)%nat -> nth j r 0 = nth j r' 0) ->
  wl_rf n N dt tshift gauss src wl r = wl_rf n N dt tshift gauss src wl r'.
Proof.
  intros H. unfold wl_rf. f_equal. apply tabulate_ext. intros j _. apply ifft_ext. intros k _. unfold wl_spec_one. do 3 f_equal.
  apply fft_ext. intros i Hi. unfold rsig. rewrite H by exact Hi. reflexivity.
Qed.
Lemma periodic_pad n g m j : (length g + m = n)%nat -> (0 < n)%nat -> periodic n (g ++ zeros m) j = periodic n g j.
Proof.
  intros H Hn. unfold periodic. set (i := Z.to_nat _). destruct (Nat.lt_ge_cases i (length g)) as [L|L].
  - apply app_nth1, L.
  - rewrite app_nth2 by exact L. rewrite (nth_overflow g) by exact L. unfold zeros. apply nth_repeat.
Qed.
Theorem wl_recover_linear n dt src g : (0 < length src)%nat -> (0 < length g)%nat -> (length src + length g - 1 <= n)%nat ->
  (forall k, (k < n)%nat -> fft_at n (rsig src) k <> Czero) ->
  wl_rf n (length src + length g - 1) dt 0 None src 0 (lin_conv src g) = map RtoC (g ++ zeros (length src - 1)).
Proof.
  intros H1 H2 H3 Hs. set (g' := g ++ zeros (n - length g)).
  assert (Hg' : length g' = n) by (unfold g', zeros; rewrite app_length, repeat_length; lia).
  rewrite (wl_rf_ext n _ dt 0 None src 0 (lin_conv src g) (circ_conv n src g')).
  - assert (E : wl_rf n (length src + length g - 1) dt 0 None src 0 (circ_conv n src g') =
                firstn (length src + length g - 1) (wl_rf n n dt 0 None src 0 (circ_conv n src g'))).
    { unfold wl_rf. rewrite firstn_firstn. f_equal. lia. }
    rewrite E, wl_recover by (auto; lia). rewrite firstn_map. f_equal. unfold g', zeros.
    rewrite firstn_app, firstn_all2 by lia. f_equal.
    replace (n - length g)%nat with ((length src - 1) + (n - (length src + length g - 1)))%nat by lia.
    rewrite repeat_app, firstn_app, repeat_length.
    replace (length src + length g - 1 - length g - (length src - 1))%nat with 0%nat by lia. cbn [firstn]. rewrite app_nil_r.
    rewrite firstn_all2 by (rewrite repeat_length; lia). reflexivity.
  - intros j Hj. rewrite <- (lin_conv_circ n) by assumption. unfold circ_conv. change (map ?f (seq 0 n)) with (tabulate n f).
    rewrite !nth_tabulate by exact Hj. apply rsum_ext. intros i Hi. unfold g'. rewrite periodic_pad by lia. reflexivity.
Qed.
