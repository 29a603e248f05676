(** Least squares solutions of smallest norm: characterisation, uniqueness, linearity,
    existence. *)
From Verif Require Import Model.Harmonics Spec.HarmonicSpec Proofs.SumFacts Proofs.CplxFacts.
From Coq Require Import Lra Lia.
Notation length := List.length.
Open Scope R_scope.

(** J as matrix, vectors as functions *)
Definition app_ (n : nat) (J : nat -> nat -> R) (x : nat -> R) (i : nat) : R := rsum n (fun k => J i k * x k).
Definition ip (n : nat) (x y : nat -> R) : R := rsum n (fun k => x k * y k).
(** normal equations, and x orthogonal to the kernel *)
Definition mnls (m n : nat) (J : nat -> nat -> R) (v x : nat -> R) : Prop :=
  (forall z, rsum m (fun i => (app_ n J x i - v i) * app_ n J z i) = 0) /\
  (forall z, (forall i, (i < m)%nat -> app_ n J z i = 0) -> ip n x z = 0).

Lemma app_lin n J a b x y i : app_ n J (fun k => a * x k + b * y k) i = a * app_ n J x i + b * app_ n J y i.
Proof. unfold app_. rewrite <- !rsum_scal, <- rsum_plus. apply rsum_ext. intros; ring. Qed.
Lemma ip_lin n a b x y z : ip n (fun k => a * x k + b * y k) z = a * ip n x z + b * ip n y z.
Proof. unfold ip. rewrite <- !rsum_scal, <- rsum_plus. apply rsum_ext. intros; ring. Qed.
Lemma ip_comm n x y : ip n x y = ip n y x.
Proof. unfold ip. apply rsum_ext. intros; ring. Qed.
Lemma ip_zero n x : ip n x x = 0 -> forall k, (k < n)%nat -> x k = 0.
Proof. apply rsum_sq_zero. Qed.
Lemma ip_pos n x : 0 <= ip n x x.
Proof. apply rsum_nonneg. intros. apply Rle_0_sqr. Qed.

Lemma mnls_unique m n J v x y : mnls m n J v x -> mnls m n J v y -> forall k, (k < n)%nat -> x k = y k.
Proof.
  intros [Hx1 Hx2] [Hy1 Hy2]. set (z := fun k => 1 * x k + (-1) * y k).
  assert (forall i, (i < m)%nat -> app_ n J z i = 0) as Hz.
  { apply rsum_sq_zero.
    transitivity (rsum m (fun i => (app_ n J x i - v i) * app_ n J z i) - rsum m (fun i => (app_ n J y i - v i) * app_ n J z i)).
    - rewrite <- rsum_minus. apply rsum_ext. intros i _. unfold z at 1. rewrite app_lin. ring.
    - rewrite Hx1, Hy1. ring. }
  assert (ip n z z = 0) as H0.
  { unfold z at 1. rewrite ip_lin. rewrite (Hx2 z Hz), (Hy2 z Hz). ring. }
  intros k Hk. pose proof (ip_zero n z H0 k Hk) as H. unfold z in H. lra.
Qed.
Lemma mnls_lin m n J v w x y a b : mnls m n J v x -> mnls m n J w y ->
  mnls m n J (fun i => a * v i + b * w i) (fun k => a * x k + b * y k).
Proof.
  intros [Hx1 Hx2] [Hy1 Hy2]. split.
  - intros z. transitivity (a * rsum m (fun i => (app_ n J x i - v i) * app_ n J z i) + b * rsum m (fun i => (app_ n J y i - w i) * app_ n J z i)).
    + rewrite <- !rsum_scal, <- rsum_plus. apply rsum_ext. intros i _. rewrite app_lin. ring.
    + rewrite Hx1, Hy1. ring.
  - intros z Hz. rewrite ip_lin, (Hx2 z Hz), (Hy2 z Hz). ring.
Qed.
Lemma mnls_ext m n J v w x y : (forall i, (i < m)%nat -> v i = w i) -> (forall k, (k < n)%nat -> x k = y k) ->
  mnls m n J v x -> mnls m n J w y.
Proof.
  intros Hv Hx [H1 H2].
  assert (forall i, app_ n J y i = app_ n J x i) as Ha by (intros; apply rsum_ext; intros; rewrite Hx by assumption; reflexivity).
  split.
  - intros z. rewrite <- (H1 z). apply rsum_ext. intros i Hi. rewrite Ha, Hv by exact Hi. reflexivity.
  - intros z Hz. rewrite <- (H2 z Hz). apply rsum_ext. intros k Hk. rewrite Hx by exact Hk. reflexivity.
Qed.
Lemma mnls_zero m n J : mnls m n J (fun _ => 0) (fun _ => 0).
Proof.
  assert (forall i, app_ n J (fun _ => 0) i = 0) as H by (intros; apply rsum_zero; intros; ring).
  split; [intros z; apply rsum_zero; intros; rewrite H; ring|]. intros z _. apply rsum_zero. intros; ring.
Qed.
(** finite combinations *)
Lemma mnls_sum m n J N (v x : nat -> nat -> R) (w : nat -> R) :
  (forall j, (j < N)%nat -> mnls m n J (v j) (x j)) ->
  mnls m n J (fun i => rsum N (fun j => w j * v j i)) (fun k => rsum N (fun j => w j * x j k)).
Proof.
  induction N as [|N IH]; intros H; [apply mnls_zero|].
  eapply mnls_ext; [| |apply (mnls_lin m n J _ _ _ _ 1 (w N) (IH (fun j Hj => H j (Nat.lt_lt_succ_r _ _ Hj))) (H N (Nat.lt_succ_diag_r N)))];
    intros; cbn [rsum]; ring.
Qed.
(** change of variables by an orthogonal map *)
Lemma mnls_turn m n J J' v x (U V : (nat -> R) -> nat -> R) :
  (forall x i, (i < m)%nat -> app_ n J' (U x) i = app_ n J x i) ->
  (forall z i, (i < m)%nat -> app_ n J' z i = app_ n J (V z) i) ->
  (forall x z, ip n (U x) z = ip n x (V z)) ->
  mnls m n J v x -> mnls m n J' v (U x).
Proof.
  intros HU HV Had [H1 H2]. split.
  - intros z. rewrite <- (H1 (V z)). apply rsum_ext. intros i Hi. rewrite HU, HV by exact Hi. reflexivity.
  - intros z Hz. rewrite Had. apply H2. intros i Hi. rewrite <- HV by exact Hi. apply Hz, Hi.
Qed.

(** ** characterisation *)
Lemma quad_min a b : (forall t, 0 <= 2 * t * a + t * t * b) -> a = 0.
Proof.
  intros H. destruct (Req_dec b 0) as [->|Hb].
  - pose proof (H (- a)). nra.
  - pose proof (H (- a / b)) as H1. pose proof (H (-1)) as H2. pose proof (H 1) as H3.
    assert (0 < b) as Hp by lra.
    assert (2 * (- a / b) * a + (- a / b) * (- a / b) * b = - (a * a) / b) as E by (field; lra).
    rewrite E in H1. assert (a * a <= 0).
    { apply Rmult_le_reg_r with (/ b); [apply Rinv_0_lt_compat, Hp|]. unfold Rdiv in H1. lra. }
    nra.
Qed.
Definition mat (J : list (list R)) (i k : nat) : R := nth k (nth i J []) 0.
Definition fn (x : list R) (k : nat) : R := nth k x 0.
Lemma dot_app n J x i : length x = n -> dot (nth i J []) x = app_ n (mat J) (fn x) i.
Proof. intros <-. apply dot_rsum. Qed.
Lemma dot_ip n x y : length y = n -> dot x y = ip n (fn x) (fn y).
Proof. intros <-. apply dot_rsum. Qed.
Definition vec (n : nat) (x : nat -> R) : list R := map x (seq 0 n).
Lemma vec_length n x : length (vec n x) = n.
Proof. unfold vec. rewrite map_length, seq_length. reflexivity. Qed.
Lemma fn_vec n x k : (k < n)%nat -> fn (vec n x) k = x k.
Proof.
  intros H. unfold fn, vec. rewrite (nth_indep _ 0 (x 0%nat)) by (rewrite map_length, seq_length; exact H).
  rewrite map_nth, seq_nth by exact H. reflexivity.
Qed.
Lemma app_ext n J x y i : (forall k, (k < n)%nat -> x k = y k) -> app_ n J x i = app_ n J y i.
Proof. intros H. apply rsum_ext. intros. rewrite H by assumption. reflexivity. Qed.
Lemma ip_ext n x y z : (forall k, (k < n)%nat -> x k = y k) -> ip n x z = ip n y z.
Proof. intros H. apply rsum_ext. intros. rewrite H by assumption. reflexivity. Qed.

Lemma misfit_app n J v x : length x = n ->
  misfit_of J v x = rsum (length J) (fun i => (app_ n (mat J) (fn x) i - fn v i) ^ 2).
Proof. intros H. apply rsum_ext. intros i _. rewrite (dot_app n) by exact H. reflexivity. Qed.
Lemma misfit_step n J v x z t : length x = n ->
  misfit_of J v (vec n (fun k => fn x k + t * z k)) =
  misfit_of J v x + 2 * t * rsum (length J) (fun i => (app_ n (mat J) (fn x) i - fn v i) * app_ n (mat J) z i)
  + t * t * rsum (length J) (fun i => app_ n (mat J) z i * app_ n (mat J) z i).
Proof.
  intros H. rewrite (misfit_app n) by apply vec_length. rewrite (misfit_app n J v x) by exact H.
  rewrite <- !rsum_scal, <- !rsum_plus. apply rsum_ext. intros i _.
  rewrite (app_ext n (mat J) _ (fun k => 1 * fn x k + t * z k)) by (intros k Hk; rewrite fn_vec by exact Hk; ring).
  rewrite app_lin. ring.
Qed.
Lemma norm_step n x z t : length x = n ->
  dot (vec n (fun k => fn x k + t * z k)) (vec n (fun k => fn x k + t * z k)) =
  dot x x + 2 * t * ip n (fn x) z + t * t * ip n z z.
Proof.
  intros H. rewrite !(dot_ip n) by (try apply vec_length; exact H). unfold ip. rewrite <- !rsum_scal, <- !rsum_plus.
  apply rsum_ext. intros k Hk. rewrite !fn_vec by exact Hk. ring.
Qed.

Lemma lstsq_mnls n J v x : is_lstsq n J v x <-> length x = n /\ mnls (length J) n (mat J) (fn v) (fn x).
Proof.
  split.
  - intros (Hn & H1 & H2). split; [exact Hn|].
    assert (forall z, rsum (length J) (fun i => (app_ n (mat J) (fn x) i - fn v i) * app_ n (mat J) z i) = 0) as Hne.
    { intros z. apply (quad_min _ (rsum (length J) (fun i => app_ n (mat J) z i * app_ n (mat J) z i))).
      intros t. pose proof (H1 _ (vec_length n (fun k => fn x k + t * z k))) as H. rewrite misfit_step in H by exact Hn. lra. }
    split; [exact Hne|]. intros z Hz. apply (quad_min _ (ip n z z)). intros t.
    pose proof (H2 _ (vec_length n (fun k => fn x k + t * z k))) as H. rewrite misfit_step, norm_step in H by exact Hn.
    rewrite Hne in H. rewrite (rsum_zero (length J) (fun i => app_ n (mat J) z i * app_ n (mat J) z i)) in H
      by (intros; rewrite Hz by assumption; ring).
    assert (misfit_of J v x + 2 * t * 0 + t * t * 0 = misfit_of J v x) as E by ring. specialize (H E). lra.
  - intros (Hn & H1 & H2). split; [exact Hn|].
    assert (forall y, length y = n -> y = vec n (fun k => fn x k + 1 * (fn y k - fn x k))) as Hy.
    { intros y Hy. apply (nth_ext _ _ 0 0); [rewrite vec_length; exact Hy|]. intros k Hk. rewrite Hy in Hk.
      change (fn y k = fn (vec n (fun k => fn x k + 1 * (fn y k - fn x k))) k). rewrite fn_vec by exact Hk. ring. }
    assert (forall y, length y = n -> misfit_of J v y = misfit_of J v x
      + rsum (length J) (fun i => app_ n (mat J) (fun k => fn y k - fn x k) i * app_ n (mat J) (fun k => fn y k - fn x k) i)) as Hm.
    { intros y Hyn. rewrite (Hy y Hyn) at 1. rewrite misfit_step by exact Hn. rewrite H1. ring. }
    split.
    + intros y Hyn. rewrite (Hm y Hyn).
      pose proof (rsum_nonneg (length J) (fun i => app_ n (mat J) (fun k => fn y k - fn x k) i * app_ n (mat J) (fun k => fn y k - fn x k) i)
        (fun i _ => Rle_0_sqr _)). lra.
    + intros y Hyn E. rewrite (Hm y Hyn) in E.
      assert (forall i, (i < length J)%nat -> app_ n (mat J) (fun k => fn y k - fn x k) i = 0) as Hz by (apply rsum_sq_zero; lra).
      rewrite (Hy y Hyn), norm_step by exact Hn. rewrite (H2 _ Hz).
      pose proof (ip_pos n (fun k => fn y k - fn x k)). lra.
Qed.
Lemma lstsq_unique n J v x y : is_lstsq n J v x -> is_lstsq n J v y -> x = y.
Proof.
  rewrite !lstsq_mnls. intros [Hx1 Hx2] [Hy1 Hy2]. apply (nth_ext _ _ 0 0); [congruence|].
  intros k Hk. apply (mnls_unique _ _ _ _ _ _ Hx2 Hy2). rewrite <- Hx1. exact Hk.
Qed.
(** an exact solution that is the only one is found *)
Lemma lstsq_exact n J v x c : is_lstsq n J v x -> length c = n ->
  (forall i, (i < length J)%nat -> dot (nth i J []) c = fn v i) ->
  (forall z, length z = n -> (forall i, (i < length J)%nat -> dot (nth i J []) z = 0) -> z = repeat 0 n) -> x = c.
Proof.
  intros (Hx & H1 & _) Hc Hex Hdet.
  assert (misfit_of J v c = 0) as H0.
  { unfold misfit_of. apply rsum_zero. intros i Hi. rewrite Hex by exact Hi. unfold fn. ring. }
  assert (misfit_of J v x = 0) as H2.
  { apply Rle_antisym; [rewrite <- H0; apply H1, Hc|]. unfold misfit_of. apply rsum_nonneg. intros. apply pow2_ge_0. }
  assert (forall i, (i < length J)%nat -> dot (nth i J []) x = fn v i) as Hxx.
  { intros i Hi. unfold misfit_of in H2.
    rewrite (rsum_ext _ _ (fun i => (dot (nth i J []) x - nth i v 0) * (dot (nth i J []) x - nth i v 0))) in H2 by (intros; ring).
    pose proof (rsum_sq_zero _ _ H2 i Hi) as H. cbn beta in H. unfold fn. lra. }
  set (z := vec n (fun k => fn x k - fn c k)).
  assert (z = repeat 0 n) as Hz.
  { apply Hdet; [apply vec_length|]. intros i Hi. rewrite (dot_app n) by apply vec_length.
    rewrite (app_ext n (mat J) _ (fun k => 1 * fn x k + (-1) * fn c k)) by (intros; unfold z; rewrite fn_vec by assumption; ring).
    rewrite app_lin, <- !(dot_app n) by assumption. rewrite Hxx, Hex by exact Hi. ring. }
  apply (nth_ext _ _ 0 0); [congruence|]. intros k Hk. rewrite Hx in Hk.
  assert (fn z k = 0) as H3 by (rewrite Hz; unfold fn; apply nth_repeat).
  unfold z in H3. rewrite fn_vec in H3 by exact Hk. unfold fn in H3. lra.
Qed.

(** ** complex data *)
Lemma nth_fst k (x : list cplx) : nth k (map fst x) 0 = fst (nth k x Czero).
Proof. exact (map_nth fst x Czero k). Qed.
Lemma nth_snd k (x : list cplx) : nth k (map snd x) 0 = snd (nth k x Czero).
Proof. exact (map_nth snd x Czero k). Qed.
Lemma cdot_fst row x : fst (cdot row x) = dot row (map fst x).
Proof.
  unfold cdot. rewrite csum_fst, dot_rsum, map_length. apply rsum_ext. intros k _.
  rewrite nth_fst. reflexivity.
Qed.
Lemma cdot_snd row x : snd (cdot row x) = dot row (map snd x).
Proof.
  unfold cdot. rewrite csum_snd, dot_rsum, map_length. apply rsum_ext. intros k _.
  rewrite nth_snd. reflexivity.
Qed.
Lemma cmisfit_split J v x : cmisfit_of J v x = misfit_of J (map fst v) (map fst x) + misfit_of J (map snd v) (map snd x).
Proof.
  unfold cmisfit_of, misfit_of. rewrite <- rsum_plus. apply rsum_ext. intros i _.
  unfold Cnorm2, Csub. cbn [fst snd]. rewrite cdot_fst, cdot_snd.
  rewrite nth_fst, nth_snd. ring.
Qed.
Lemma cnorm2_split x : cnorm2 x = dot (map fst x) (map fst x) + dot (map snd x) (map snd x).
Proof.
  unfold cnorm2. rewrite !dot_rsum, !map_length, <- rsum_plus. apply rsum_ext. intros i _.
  unfold Cnorm2. rewrite !nth_fst, !nth_snd. reflexivity.
Qed.
Lemma combine_fst {A B} (a : list A) (b : list B) : length a = length b -> map fst (combine a b) = a.
Proof. revert b. induction a as [|x a IH]; intros [|y b] H; try discriminate; [reflexivity|]. simpl. f_equal. apply IH. simpl in H. congruence. Qed.
Lemma combine_snd {A B} (a : list A) (b : list B) : length a = length b -> map snd (combine a b) = b.
Proof. revert b. induction a as [|x a IH]; intros [|y b] H; try discriminate; [reflexivity|]. simpl. f_equal. apply IH. simpl in H. congruence. Qed.
Lemma clstsq_split n J v x : is_clstsq n J v x <-> is_lstsq n J (map fst v) (map fst x) /\ is_lstsq n J (map snd v) (map snd x).
Proof.
  split.
  - intros (Hn & H1 & H2). split; (split; [rewrite map_length; exact Hn|]); split.
    + intros y Hy. pose proof (H1 (combine y (map snd x))) as H.
      assert (length y = length (map snd x)) as Eq by (rewrite map_length, Hy; first [exact Hn | symmetry; exact Hn]).
      rewrite !cmisfit_split, (combine_fst _ _ Eq), (combine_snd _ _ Eq) in H.
      assert (length (combine y (map snd x)) = n) as El by (etransitivity; [apply combine_length|]; rewrite Hy in Eq; rewrite Hy; first [rewrite Eq | rewrite <- Eq]; apply Nat.min_id). specialize (H El). lra.
    + intros y Hy E. pose proof (H2 (combine y (map snd x))) as H.
      assert (length y = length (map snd x)) as Eq by (rewrite map_length, Hy; first [exact Hn | symmetry; exact Hn]).
      rewrite !cmisfit_split, !cnorm2_split, (combine_fst _ _ Eq), (combine_snd _ _ Eq) in H.
      assert (length (combine y (map snd x)) = n) as El by (etransitivity; [apply combine_length|]; rewrite Hy in Eq; rewrite Hy; first [rewrite Eq | rewrite <- Eq]; apply Nat.min_id). specialize (H El). lra.
    + intros y Hy. pose proof (H1 (combine (map fst x) y)) as H.
      assert (length (map fst x) = length y) as Eq by (rewrite map_length, Hy; first [exact Hn | symmetry; exact Hn]).
      rewrite !cmisfit_split, (combine_fst _ _ Eq), (combine_snd _ _ Eq) in H.
      assert (length (combine (map fst x) y) = n) as El by (etransitivity; [apply combine_length|]; rewrite Hy in Eq; rewrite Hy; first [rewrite Eq | rewrite <- Eq]; apply Nat.min_id). specialize (H El). lra.
    + intros y Hy E. pose proof (H2 (combine (map fst x) y)) as H.
      assert (length (map fst x) = length y) as Eq by (rewrite map_length, Hy; first [exact Hn | symmetry; exact Hn]).
      rewrite !cmisfit_split, !cnorm2_split, (combine_fst _ _ Eq), (combine_snd _ _ Eq) in H.
      assert (length (combine (map fst x) y) = n) as El by (etransitivity; [apply combine_length|]; rewrite Hy in Eq; rewrite Hy; first [rewrite Eq | rewrite <- Eq]; apply Nat.min_id). specialize (H El). lra.
  - intros [(Hn & H1 & H2) (_ & H3 & H4)]. rewrite map_length in Hn. split; [exact Hn|].
    assert (forall y : list cplx, length y = n -> length (map fst y) = n /\ length (map snd y) = n) as Hl by (intros; rewrite !map_length; auto).
    split; intros y Hy; destruct (Hl y Hy) as [Ha Hb]; rewrite !cmisfit_split; pose proof (H1 _ Ha); pose proof (H3 _ Hb); [lra|].
    intros E. rewrite !cnorm2_split. pose proof (H2 _ Ha). pose proof (H4 _ Hb).
    assert (misfit_of J (map fst v) (map fst y) = misfit_of J (map fst v) (map fst x)) by lra.
    assert (misfit_of J (map snd v) (map snd y) = misfit_of J (map snd v) (map snd x)) by lra. lra.
Qed.

(** ** existence: projection on the span of N vectors *)
Lemma projection n N (u : nat -> nat -> R) v :
  exists c, forall j, (j < N)%nat -> ip n (fun k => v k - rsum N (fun l => c l * u l k)) (u j) = 0.
Proof.
  revert v. induction N as [|N IH]; intros v; [exists (fun _ => 0); intros; lia|].
  destruct (IH (u N)) as [d Hd]. destruct (IH v) as [c Hc].
  set (w := fun k => u N k - rsum N (fun l => d l * u l k)) in *.
  set (r := fun k => v k - rsum N (fun l => c l * u l k)) in *.
  assert (forall x, (forall j, (j < N)%nat -> ip n x (u j) = 0) -> ip n x (u N) = ip n x w) as Hw.
  { intros x Hx. unfold w, ip.
    rewrite (rsum_ext n (fun k => x k * (u N k - _)) (fun k => x k * u N k - rsum N (fun l => d l * (x k * u l k)))).
    - rewrite rsum_minus, rsum_swap.
      rewrite (rsum_zero N (fun j => rsum n _)); [ring|]. intros j Hj. rewrite rsum_scal.
      change (rsum n (fun i => x i * u j i)) with (ip n x (u j)). rewrite Hx by exact Hj. ring.
    - intros k _. rewrite Rmult_minus_distr_l. f_equal. rewrite <- rsum_scal. apply rsum_ext. intros; ring. }
  set (t := if Req_EM_T (ip n w w) 0 then 0 else ip n r w / ip n w w).
  exists (fun l => if Nat.eqb l N then t else c l - t * d l).
  assert (forall k, v k - rsum (S N) (fun l => (if Nat.eqb l N then t else c l - t * d l) * u l k) = 1 * r k + (- t) * w k) as E.
  { intros k. cbn [rsum]. rewrite Nat.eqb_refl.
    rewrite (rsum_ext N _ (fun l => c l * u l k - t * (d l * u l k))).
    - rewrite rsum_minus, rsum_scal. unfold r, w. ring.
    - intros l Hl. destruct (Nat.eqb_spec l N); [lia|]. ring. }
  assert (forall j, ip n (fun k => v k - rsum (S N) (fun l => (if Nat.eqb l N then t else c l - t * d l) * u l k)) (u j)
     = ip n r (u j) - t * ip n w (u j)) as E2.
  { intros j. rewrite (ip_ext n _ (fun k => 1 * r k + (- t) * w k)) by (intros; apply E). rewrite ip_lin. ring. }
  intros j Hj. rewrite E2. destruct (Nat.eq_dec j N) as [->|Hne].
  - rewrite (Hw r Hc), (Hw w Hd). unfold t. destruct (Req_EM_T (ip n w w) 0) as [Hz|Hz]; [|field; exact Hz].
    assert (ip n r w = 0) as ->; [|ring]. apply rsum_zero. intros k Hk. rewrite (ip_zero n w Hz k Hk). ring.
  - rewrite Hc, Hd by lia. ring.
Qed.
Lemma app_sum n N J (c : nat -> R) (u : nat -> nat -> R) i :
  app_ n J (fun k => rsum N (fun l => c l * u l k)) i = rsum N (fun l => c l * app_ n J (u l) i).
Proof.
  unfold app_. rewrite (rsum_ext n _ (fun k => rsum N (fun l => c l * (J i k * u l k)))).
  - rewrite rsum_swap. apply rsum_ext. intros l _. rewrite rsum_scal. reflexivity.
  - intros k _. rewrite <- rsum_scal. apply rsum_ext. intros; ring.
Qed.
Theorem mnls_exists m n J v : exists x, mnls m n J v x.
Proof.
  (* project v on the columns *)
  destruct (projection m n (fun k i => J i k) v) as [c Hc].
  (* project the solution on the rows *)
  destruct (projection n m J c) as [d Hd].
  set (x := fun k => rsum m (fun l => d l * J l k)) in *.
  assert (forall i, (i < m)%nat -> app_ n J x i = app_ n J c i) as Hx.
  { intros i Hi. pose proof (Hd i Hi) as H.
    assert (ip n (fun k => c k - x k) (J i) = app_ n J c i - app_ n J x i) as E.
    { unfold ip, app_. rewrite <- rsum_minus. apply rsum_ext. intros; ring. }
    change (ip n (fun k => c k - x k) (J i) = 0) in H. lra. }
  exists x. split.
  - intros z. unfold app_ at 2.
    rewrite (rsum_ext m _ (fun i => rsum n (fun k => z k * ((app_ n J c i - v i) * J i k)))).
    + rewrite rsum_swap. apply rsum_zero. intros k Hk. rewrite rsum_scal.
      pose proof (Hc k Hk) as H. unfold ip in H.
      rewrite (rsum_ext m _ (fun i => (-1) * ((v i - rsum n (fun l => c l * J i l)) * J i k))).
      * rewrite rsum_scal, H. ring.
      * intros i _. unfold app_. rewrite (rsum_ext n (fun k => J i k * c k) (fun l => c l * J i l)) by (intros; ring). ring.
    + intros i Hi. rewrite Hx by exact Hi. rewrite <- rsum_scal. apply rsum_ext. intros; ring.
  - intros z Hz. unfold ip, x.
    rewrite (rsum_ext n _ (fun k => rsum m (fun l => d l * (J l k * z k)))).
    + rewrite rsum_swap. apply rsum_zero. intros l Hl. rewrite rsum_scal.
      change (rsum n (fun k => J l k * z k)) with (app_ n J z l). rewrite Hz by exact Hl. ring.
    + intros k _. rewrite <- rsum_scal_r. apply rsum_ext. intros; ring.
Qed.
Theorem lstsq_exists n J v : exists x, is_lstsq n J v x.
Proof.
  destruct (mnls_exists (length J) n (mat J) (fn v)) as [x Hx]. exists (vec n x). apply lstsq_mnls. split; [apply vec_length|].
  eapply mnls_ext; [| |exact Hx]; [reflexivity|]. intros k Hk. rewrite fn_vec by exact Hk. reflexivity.
Qed.
