(** n+1 vectors of length n are dependent; injective square systems are solvable. *)
From Verif Require Import Model.RealArr Proofs.SumFacts.
From Coq Require Import Lra Lia.

Definition skip (p k : nat) : nat := if (k <? p)%nat then k else S k.
Lemma rsum_skip m p f : (p <= m)%nat -> rsum (S m) f = f p + rsum m (fun k => f (skip p k)).
Proof.
  intros Hp. replace (S m) with (p + S (m - p))%nat by lia. rewrite rsum_split, rsum_S_l.
  assert (forall g, rsum m g = rsum p g + rsum (m - p) (fun i => g (p + i)%nat)) as Hm.
  { intros g. rewrite <- rsum_split. f_equal. lia. }
  rewrite Hm.
  replace (p + 0)%nat with p by lia.
  rewrite (rsum_ext p (fun k => f (skip p k)) f).
  2:{ intros i Hi. unfold skip. destruct (Nat.ltb_spec i p); [reflexivity|lia]. }
  rewrite (rsum_ext (m - p) (fun i => f (skip p (p + i))) (fun i => f (p + S i)%nat)); [lra|].
  intros i Hi. unfold skip. destruct (Nat.ltb_spec (p + i) p); [lia|]. f_equal. lia.
Qed.
Lemma find_nonzero m (f : nat -> R) : (exists p, (p < m)%nat /\ f p <> 0) \/ (forall p, (p < m)%nat -> f p = 0).
Proof.
  induction m as [|m [(p & Hp & Hf)|H]]; [right; intros; lia|left; exists p; split; [lia|exact Hf]|].
  destruct (Req_EM_T (f m) 0) as [E|E]; [right|left; exists m; auto].
  intros p Hp. destruct (Nat.eq_dec p m) as [->|]; [exact E|apply H; lia].
Qed.
Lemma dependent n : forall v : nat -> nat -> R, exists c,
  (exists k, (k < S n)%nat /\ c k <> 0) /\ forall i, (i < n)%nat -> rsum (S n) (fun k => c k * v k i) = 0.
Proof.
  induction n as [|n IH]; intros v.
  - exists (fun _ => 1). split; [exists 0%nat; split; [lia|lra]|]. intros; lia.
  - destruct (find_nonzero (S (S n)) (fun k => v k n)) as [(p & Hp & Hne)|Hz].
    + destruct (IH (fun k i => v (skip p k) i - v (skip p k) n / v p n * v p i)) as (c & (k0 & Hk0 & Hc0) & Hs).
      set (cp := - rsum (S n) (fun k => c k * (v (skip p k) n / v p n))).
      exists (fun k => if (k =? p)%nat then cp else if (k <? p)%nat then c k else c (k - 1)%nat).
      assert (forall k, (if (skip p k =? p)%nat then cp else if (skip p k <? p)%nat then c (skip p k) else c (skip p k - 1)%nat) = c k) as Hsk.
      { intros k. unfold skip. destruct (Nat.ltb_spec k p) as [H|H].
        - destruct (Nat.eqb_spec k p); [lia|]. destruct (Nat.ltb_spec k p); [reflexivity|lia].
        - destruct (Nat.eqb_spec (S k) p); [lia|]. destruct (Nat.ltb_spec (S k) p); [lia|]. f_equal. lia. }
      split.
      * exists (skip p k0). split; [unfold skip; destruct (k0 <? p)%nat; lia|]. rewrite Hsk. exact Hc0.
      * intros i Hi. rewrite (rsum_skip (S n) p) by lia. cbv beta. rewrite Nat.eqb_refl.
        rewrite (rsum_ext (S n) _ (fun k => c k * v (skip p k) i)) by (intros k _; rewrite Hsk; reflexivity).
        assert (rsum (S n) (fun k => c k * (v (skip p k) n / v p n) * v p i) = - cp * v p i) as Hcp.
        { rewrite rsum_scal_r. unfold cp. ring. }
        destruct (Nat.eq_dec i n) as [->|Hin].
        -- rewrite (rsum_ext (S n) _ (fun k => c k * v (skip p k) n)) in Hcp; [lra|]. intros k _. field. exact Hne.
        -- specialize (Hs i ltac:(lia)). cbv beta in Hs.
           rewrite (rsum_ext (S n) _ (fun k => c k * v (skip p k) i - c k * (v (skip p k) n / v p n) * v p i)) in Hs by (intros k _; ring).
           rewrite rsum_minus, Hcp in Hs. lra.
    + destruct (IH v) as (c & (k0 & Hk0 & Hc0) & Hs).
      exists (fun k => if (k =? S n)%nat then 0 else c k). split.
      * exists k0. split; [lia|]. destruct (Nat.eqb_spec k0 (S n)); [lia|exact Hc0].
      * intros i Hi. cbn [rsum]. rewrite Nat.eqb_refl. destruct (Nat.eq_dec i n) as [->|Hin].
        -- rewrite (rsum_zero n); [|intros k Hk; rewrite Hz by lia; ring].
           rewrite (Hz n) by lia. rewrite (Hz (S n)) by lia. ring.
        -- specialize (Hs i ltac:(lia)). cbn [rsum] in Hs.
           rewrite (rsum_ext n _ (fun k => c k * v k i)).
           ++ destruct (Nat.eqb_spec n (S n)); [lia|]. lra.
           ++ intros k Hk. destruct (Nat.eqb_spec k (S n)); [lia|reflexivity].
Qed.
Theorem inj_surj n (A : nat -> nat -> R) :
  (forall x, (forall i, (i < n)%nat -> rsum n (fun j => A i j * x j) = 0) -> forall i, (i < n)%nat -> x i = 0) ->
  forall b, exists x, forall i, (i < n)%nat -> rsum n (fun j => A i j * x j) = b i.
Proof.
  intros Hinj b. destruct (dependent n (fun k i => if (k =? n)%nat then b i else A i k)) as (c & (k0 & Hk0 & Hc0) & Hs).
  assert (forall i, (i < n)%nat -> rsum n (fun j => A i j * c j) + c n * b i = 0) as Hs'.
  { intros i Hi. specialize (Hs i Hi). cbn [rsum] in Hs. rewrite Nat.eqb_refl in Hs. rewrite <- Hs. f_equal.
    apply rsum_ext. intros k Hk. destruct (Nat.eqb_spec k n); [lia|ring]. }
  assert (c n <> 0) as Hcn.
  { intros E. apply Hc0. destruct (Nat.eq_dec k0 n) as [->|Hn]; [exact E|].
    apply Hinj; [|lia]. intros i Hi. specialize (Hs' i Hi). rewrite E in Hs'. lra. }
  exists (fun j => - c j / c n). intros i Hi. specialize (Hs' i Hi).
  rewrite (rsum_ext n _ (fun j => - / c n * (A i j * c j))) by (intros j _; field; exact Hcn).
  rewrite rsum_scal. assert (rsum n (fun j => A i j * c j) = - c n * b i) as -> by lra. field. exact Hcn.
Qed.
