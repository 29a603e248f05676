From Verif Require Import Model.SimpleModel Spec.ModelSpec Proofs.PyFacts Proofs.SumFacts Proofs.ModelFacts.
From Coq Require Import Lra Lia.
Notation length := List.length.
Open Scope R_scope.

Lemma zipw_nth {A B C} (f : A -> B -> C) da db dc a : forall b i, length b = length a -> (i < length a)%nat ->
  nth i (zipw f a b) dc = f (nth i a da) (nth i b db).
Proof. induction a as [|x a IH]; intros [|y b] [|i] H Hi; cbn in *; try lia; [reflexivity|]. apply IH; lia. Qed.
Lemma zipw_len {A B C} (f : A -> B -> C) a : forall b, length b = length a -> length (zipw f a b) = length a.
Proof. induction a as [|x a IH]; intros [|y b] H; cbn in *; try lia. rewrite IH; lia. Qed.
Lemma pyindex_pos {A} (l : list A) k d : (k < length l)%nat -> pyindex l (Z.of_nat k) = Ok (nth k l d).
Proof.
  intros H. unfold pyindex. destruct (Z.ltb_spec (Z.of_nat k) 0); [lia|].
  destruct (Z.ltb_spec (Z.of_nat k) 0); [lia|]. destruct (Z.leb_spec (Z.of_nat (length l)) (Z.of_nat k)); [lia|]. cbn [orb].
  rewrite Nat2Z.id, (nth_error_nth' l d H). reflexivity.
Qed.
Lemma first_above_spec z : forall i d, increasing z -> (S i < length z)%nat -> nth i z 0 <= d < nth (S i) z 0 -> first_above d z = Some (S i).
Proof.
  induction z as [|a z IH]; intros i d Hz Hi Hd; [cbn in Hi; lia|]. cbn [first_above].
  destruct i as [|i].
  - cbn in Hd. destruct (Rlt_dec d a); [lra|]. destruct z as [|b z]; [cbn in Hi; lia|]. cbn in *. destruct (Rlt_dec d b); [reflexivity | lra].
  - assert (a <= nth (S i) (a :: z) 0) as H by (apply (Hz 0%nat (S i)); [lia | exact (Nat.lt_trans _ _ _ (Nat.lt_succ_diag_r _) Hi)]).
    destruct (Rlt_dec d a); [lra|]. rewrite (IH i d); [reflexivity | | cbn in Hi; lia | exact Hd].
    intros p q Hpq Hq. apply (Hz (S p) (S q)); cbn; lia.
Qed.
Lemma first_above_none z d : (forall x, In x z -> x <= d) -> first_above d z = None.
Proof.
  induction z as [|a z IH]; intros H; [reflexivity|]. cbn. pose proof (H a ltac:(left; reflexivity)). destruct (Rlt_dec d a); [lra|].
  rewrite IH; [reflexivity|]. intros x Hx. apply H. right. exact Hx.
Qed.
Section P.
  Variable deg2km : R.
  Variable m : smodel.
  Hypothesis Hm : valid_model m.
  (** horizontal distance travelled in layer j *)
  Definition step (s : R) (q : nat -> R) (j : nat) : R := nth j (mdz m) 0 * (s / deg2km) / q j.
  Lemma x_entry s v q k : length v = layers m -> (k < layers m)%nat ->
    (forall j, (j < layers m)%nat -> 0 < nth j v 0) ->
    (forall j, (j <= k)%nat -> snell (nth j v 0) (s / deg2km) (q j) /\ 0 < q j) ->
    nth k (cumsum (zipw (fun dz q => odiv (dz * s / deg2km) q) (mdz m) (map (fun v => qvert v (s / deg2km)) v))) None = Some (rsum (S k) (step s q)).
  Proof.
    intros Lv Hk Hp Hq. apply cumsum_ok; [rewrite zipw_len; [exact Hk | rewrite map_length; exact Lv]|].
    intros j Hj. rewrite (zipw_nth _ 0 None) by (rewrite ?map_length; unfold layers in *; lia).
    rewrite (nth_map_in (fun v => qvert v (s / deg2km)) v j 0) by lia.
    destruct (Hq j Hj) as [H1 H2]. rewrite (proj2 (qvert_some _ _ _ (Hp j ltac:(lia))) H1). cbn.
    destruct (Req_EM_T (q j) 0); [lra|]. f_equal. unfold step, Rdiv. ring.
  Qed.
  Theorem ppoint_formula s phase qp qs i d : Nat.odd (String.length phase) = true -> ps_phase phase -> increasing (mz m) ->
    (S i < layers m)%nat -> nth i (mz m) 0 <= d < nth (S i) (mz m) 0 -> crosses deg2km m s phase qp qs (S i) ->
    ppoint_distance deg2km m d s phase =
      let np := INR (count_char "P" (upper phase)) in let ns := INR (count_char "S" (upper phase)) in
      let x k := np * rsum (S k) (step s qp) + ns * rsum (S k) (step s qs) in
      Ok (Some (x i + (x (S i) - x i) * (d - nth i (mz m) 0) / (nth (S i) (mz m) 0 - nth i (mz m) 0))).
  Proof.
    intros Hodd Hps Hz Hi Hd Hc. pose proof Hm as (Ha & Lz & Lp & Ls & Hv).
    unfold ppoint_distance. rewrite <- Nat.negb_odd, Hodd. cbn [negb].
    unfold vertical_slowness. rewrite upper_idem, Ha. cbn [negb]. rewrite andb_false_r. cbn [bind].
    rewrite (first_above_spec (mz m) i d) by (try assumption; lia).
    assert (char_in "P" (upper phase) || char_in "S" (upper phase) = true) as Hor.
    { destruct Hps as [Hne Hch]. destruct (upper phase) as [|c u] eqn:Eu; [destruct phase; [congruence | discriminate]|].
      destruct (Hch c) as [-> | ->]; [cbn; rewrite Ascii.eqb_refl; reflexivity | reflexivity |]. cbn. rewrite orb_true_r. reflexivity. }
    rewrite Hor. cbn [negb].
    set (xp := if char_in "P" (upper phase) then _ else _). set (xs := if char_in "S" (upper phase) then _ else _).
    set (np := INR (count_char "P" (upper phase))). set (ns := INR (count_char "S" (upper phase))).
    assert (forall k, (k <= S i)%nat -> oscale np (nth k xp None) = Some (np * rsum (S k) (step s qp))) as Ep.
    { intros k Hk. unfold xp, np. destruct (char_in "P" (upper phase)) eqn:EP.
      - rewrite (x_entry s (mvp m) qp k Lp ltac:(lia)); [reflexivity | intros j Hj; apply (Hv j Hj) |]. intros j Hj. apply (Hc j ltac:(lia)). exact EP.
      - rewrite (nth_map_in (fun _ => Some 0) (mdz m) k 0) by (unfold layers in *; lia). rewrite (count_zero _ _ EP). cbn. f_equal. ring. }
    assert (forall k, (k <= S i)%nat -> oscale ns (nth k xs None) = Some (ns * rsum (S k) (step s qs))) as Es.
    { intros k Hk. unfold xs, ns. destruct (char_in "S" (upper phase)) eqn:ES.
      - rewrite (x_entry s (mvs m) qs k Ls ltac:(lia)); [reflexivity | intros j Hj; apply (Hv j Hj) |]. intros j Hj. apply (Hc j ltac:(lia)). exact ES.
      - rewrite (nth_map_in (fun _ => Some 0) (mdz m) k 0) by (unfold layers in *; lia). rewrite (count_zero _ _ ES). cbn. f_equal. ring. }
    assert (length xp = layers m) as Lxp.
    { unfold xp. destruct (char_in "P" (upper phase)); [|rewrite map_length; reflexivity]. unfold cumsum. rewrite cumsum_from_length, zipw_len; [reflexivity|]. rewrite map_length. exact Lp. }
    assert (length xs = layers m) as Lxs.
    { unfold xs. destruct (char_in "S" (upper phase)); [|rewrite map_length; reflexivity]. unfold cumsum. rewrite cumsum_from_length, zipw_len; [reflexivity|]. rewrite map_length. exact Ls. }
    set (x := zipw (olift2 Rplus) (map (oscale np) xp) (map (oscale ns) xs)).
    assert (length x = layers m) as Lx by (unfold x; rewrite zipw_len; rewrite !map_length; lia).
    assert (forall k, (k <= S i)%nat -> nth k x None = Some (np * rsum (S k) (step s qp) + ns * rsum (S k) (step s qs))) as Ex.
    { intros k Hk. unfold x. rewrite (zipw_nth _ None None) by (rewrite ?map_length; lia).
      rewrite (nth_map_in (oscale np) xp k None) by lia. rewrite (nth_map_in (oscale ns) xs k None) by lia. rewrite Ep, Es by exact Hk. reflexivity. }
    replace (Z.of_nat (S i) - 1)%Z with (Z.of_nat i) by lia. replace (Z.of_nat i + 1)%Z with (Z.of_nat (S i)) by lia.
    rewrite !(pyindex_pos x _ None) by lia. cbn [bind]. rewrite !(pyindex_pos (mz m) _ 0) by lia. cbn [bind].
    destruct (Req_EM_T (nth (S i) (mz m) 0 - nth i (mz m) 0) 0); [lra|]. rewrite !Ex by lia. reflexivity.
  Qed.
End P.
