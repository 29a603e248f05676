From Verif Require Import Model.SimpleModel Spec.ModelSpec Proofs.PyFacts Proofs.SumFacts Proofs.InterpFacts Proofs.ModelFacts Proofs.MoveoutFacts.
From Coq Require Import Lra Lia.
Notation length := List.length.
Open Scope R_scope.

(** ** identity *)
Lemma interp1_id_clip T x : T <> [] -> increasing T -> nth 0 T 0 <= x ->
  interp1 (Some 0) None (combine T T) x = Rmin x (last T 0).
Proof.
  intros Hn Hi Hx. destruct (Rle_dec x (last T 0)) as [H|H].
  - rewrite Rmin_left by exact H. apply interp1_id; [assumption|exact Hi|lra].
  - rewrite Rmin_right by lra. apply interp1_right; try assumption; [reflexivity | lra].
Qed.
Lemma first_moved_same t T : first_moved t T T = onset_index t.
Proof. unfold first_moved. destruct (Rlt_dec (last T 0) (last T 0)); [lra | reflexivity]. Qed.
Theorem move_identity t T : (0 < x_delta t)%Z -> onset_inside t -> x_data t <> [] ->
  T <> [] -> increasing T -> nth 0 T 0 <= 0 <= last T 0 ->
  exists d, move_forward t (onset_index t) T T = Ok d /\ length d = length (x_data t) /\
    forall k, (k < length (x_data t))%nat ->
      (rel_time t k < last T 0 -> nth k d 0 = nth k (x_data t) 0) /\ (last T 0 < rel_time t k -> nth k d 0 = 0).
Proof.
  intros Hd Hon Hne Hn Hi [Hf Hl0]. destruct (onset_index_spec t Hd Hon Hne) as (Hk & Hr1 & Hr2).
  destruct (move_forward_spec t T T Hn eq_refl Hi) as (d & E & L & Hb & Ha).
  { rewrite first_moved_same. exact Hk. }
  { rewrite first_moved_same. apply moved_times_incr; try assumption; try lra; [reflexivity|]. intros x Hx0 Hx. rewrite interp1_id_clip by assumption. apply Rmin_glb; lra. }
  rewrite first_moved_same in Hb, Ha. exists d. split; [exact E|]. split; [exact L|]. intros k Hkn.
  set (k0 := onset_index t) in *. set (mt := moved_times t k0 T T) in *.
  assert (length mt = (length (x_data t) - k0)%nat) as Lm by apply moved_times_length.
  assert (increasing mt) as Hinc.
  { apply moved_times_incr; try assumption; try lra; [reflexivity|]. intros x Hx0 Hx. rewrite interp1_id_clip by assumption. apply Rmin_glb; lra. }
  assert (length (skipn k0 (x_data t)) = length mt) as Ls by (rewrite skipn_length; lia).
  assert (mt <> []) as Hmn by (intros E0; rewrite E0 in Lm; cbn in Lm; lia).
  destruct (Nat.lt_ge_cases k k0) as [Hlt|Hge].
  - pose proof (rel_time_mono t k k0 Hd ltac:(lia)). split; intros H'; [apply Hb; exact Hlt | lra].
  - rewrite Ha by lia. split; intros H'.
    + set (j := (k - k0)%nat). assert (k = k0 + j)%nat as Ek by lia.
      assert (nth j (skipn k0 (x_data t)) 0 = nth k (x_data t) 0) as Eold by (rewrite nth_skipn; f_equal; lia).
      destruct (Rlt_dec (rel_time t k) (nth 0 T 0)) as [Hx|Hx].
      * assert (j = 0)%nat as Ej.
        { destruct j as [|j']; [reflexivity|]. exfalso. rewrite Ek in Hx. replace (k0 + S j')%nat with (S (k0 + j')) in Hx by lia. rewrite rel_time_S in Hx.
          pose proof (rel_time_mono t k0 (k0 + j') Hd ltac:(lia)). lra. }
        rewrite interp1_left; [rewrite <- Eold, Ej; reflexivity | exact Ls | exact Hmn |].
        unfold mt. rewrite moved_times_nth by lia. replace (k0 + 0)%nat with k by lia.
        rewrite interp1_left by (try assumption; reflexivity). lra.
      * assert (nth j mt 0 = rel_time t k) as Ej.
        { unfold mt. rewrite moved_times_nth by lia. rewrite <- Ek, interp1_id_clip by (try assumption; lra). apply Rmin_left. lra. }
        rewrite <- Ej, <- Eold. apply interp1_node; try assumption; [lia|]. intros HSj.
        rewrite Ej. unfold mt. rewrite moved_times_nth by lia.
        assert (rel_time t k < rel_time t (k0 + S j)) as Hlt by (apply rel_time_lt; [assumption | lia]).
        rewrite interp1_id_clip by (try assumption; lra). apply Rmin_glb_lt; assumption.
    + apply interp1_beyond; [assumption|exact Ls|]. intros a Ha'. destruct (In_nth _ _ 0 Ha') as (j & Hj & <-).
      unfold mt. rewrite moved_times_nth by lia.
      assert (last T 0 = last T 0) by reflexivity.
      assert (0 <= last T 0) by assumption.
      eapply Rle_lt_trans; [|exact H'].
      apply (interp1_between (Some 0) None (combine T T) (rel_time t (k0 + j)) (Rmin 0 (nth 0 T 0)) (last T 0)).
      * destruct T; [congruence|discriminate].
      * intros r Er. inversion Er. split; [apply Rmin_l | assumption].
      * discriminate.
      * intros b fb Hbf. apply in_combine_r in Hbf. destruct (In_nth _ _ 0 Hbf) as (q & Hq & <-).
        split; [|apply nth_last_le; assumption]. eapply Rle_trans; [apply Rmin_r|]. apply Hi; lia.
Qed.
(** times after the last reference delay *)
Theorem move_beyond t T0 T1 d : (0 < x_delta t)%Z -> onset_inside t -> x_data t <> [] ->
  T0 <> [] -> length T0 = length T1 -> increasing T1 -> 0 <= last T1 0 ->
  move_forward t (onset_index t) T0 T1 = Ok d ->
  forall k, (k < length (x_data t))%nat -> last T1 0 < rel_time t k -> nth k d 0 = 0.
Proof.
  intros Hd Hon Hne Hn Hl Hi Hl0 E k Hk Hx. destruct (onset_index_spec t Hd Hon Hne) as (Hk0 & Hr1 & Hr2).
  assert (first_moved t T0 T1 <= S (onset_index t))%nat as Hfm by (unfold first_moved; destruct (Rlt_dec _ _); lia).
  destruct (Nat.lt_ge_cases (first_moved t T0 T1) (length (x_data t))) as [Hlt|Hge].
  2: { assert (first_moved t T0 T1 = length (x_data t)) as Ef by lia. rewrite move_forward_empty in E by assumption. discriminate. }
  destruct (move_forward_any t T0 T1 Hn Hl Hlt) as (d' & mt & E' & L & Hb & Lm & Hmt & _ & Ha). rewrite E in E'. inversion E'; subst d'.
  destruct (Nat.lt_ge_cases k (first_moved t T0 T1)) as [H1|H1].
  - pose proof (rel_time_mono t k (onset_index t) Hd ltac:(lia)). lra.
  - destruct (Ha k ltac:(lia)) as [g ->]. clear Ha. set (k0 := first_moved t T0 T1) in *.
    apply interp_value_beyond; [intros E0; rewrite E0 in Lm; cbn in Lm; lia |].
    intros a Ha'. destruct (Hmt a Ha') as (x & g' & ->).
    eapply Rle_lt_trans; [|exact Hx].
    apply (interp_value_between (Some 0) None T0 T1 x g' (Rmin 0 (nth 0 T1 0)) (last T1 0)); [lia | exact Hn | | |].
    + intros r Er. inversion Er. split; [apply Rmin_l | assumption].
    + discriminate.
    + intros fb Hbf. destruct (In_nth _ _ 0 Hbf) as (q & Hq & <-).
      split; [|apply nth_last_le; assumption]. eapply Rle_trans; [apply Rmin_r|]. apply Hi; lia.
Qed.

(** ** what moveout never does, for all models and phases *)
Definition same_header (a b : mtrace) : Prop :=
  x_start a = x_start b /\ x_onset a = x_onset b /\ x_delta a = x_delta b /\ x_slow a = x_slow b /\
  x_before a = x_before b /\ x_moveout a = x_moveout b.
Lemma in_combine_bounds (xp fp : list R) lo hi : (forall x, In x fp -> lo <= x <= hi) ->
  forall b fb, In (b, fb) (combine xp fp) -> lo <= fb <= hi.
Proof. intros H b fb Hb. apply in_combine_r in Hb. apply H, Hb. Qed.
Theorem move_forward_bounds t i T0 T1 d lo hi : move_forward t i T0 T1 = Ok d ->
  length d = length (x_data t) /\ (forall k, (k < i)%nat -> nth k d 0 = nth k (x_data t) 0) /\
  ((forall x, In x (x_data t) -> lo <= x <= hi) -> lo <= 0 <= hi -> forall x, In x d -> lo <= x <= hi).
Proof.
  unfold move_forward. destruct T0 as [|a T0]; [discriminate|]. destruct T1 as [|b T1]; [discriminate|].
  set (i' := if Rlt_dec _ _ then S i else i). assert (i <= i')%nat as Hi by (unfold i'; destruct (Rlt_dec _ _); lia).
  set (ts := map _ _). destruct (np_interp ts (a :: T0) (b :: T1) (Some 0) None) as [nt|] eqn:E1; [|discriminate]. cbn [bind].
  destruct (np_interp ts nt (skipn i' (x_data t)) None (Some 0)) as [r|] eqn:E2; [|discriminate]. cbn [bind]. intros E. inversion E; subst d. clear E.
  apply np_interp_inv in E1. destruct E1 as (_ & _ & ->). pose proof E2 as E3. apply np_interp_inv in E2. destruct E2 as (L2 & N2 & ->).
  rewrite interp_walk_length in L2. assert (length ts = (length (x_data t) - i')%nat) as Lt by (unfold ts; rewrite map_length, seq_length; reflexivity).
  assert (i' < length (x_data t))%nat as Hi'.
  { destruct ts; [cbn in N2; congruence|]. cbn in Lt. lia. }
  assert (length (firstn i' (x_data t)) = i') as Lf by (rewrite firstn_length; lia).
  split; [rewrite app_length, Lf, interp_walk_length; lia|]. split.
  - intros k Hk. rewrite app_nth1 by lia. rewrite <- (firstn_skipn i' (x_data t)) at 2. rewrite app_nth1 by lia. reflexivity.
  - intros Hx H0 x Hin. apply in_app_iff in Hin. destruct Hin as [Hin|Hin]; [apply Hx, (in_firstn i'), Hin|].
    apply (np_interp_range _ _ _ _ _ _ lo hi E3); [discriminate | | | exact Hin].
    + intros r Er. inversion Er; subst. exact H0.
    + intros z Hz. apply Hx, (in_skipn i'), Hz.
Qed.
Theorem move_backward_bounds t i T0 T1 d lo hi : (i <= length (x_data t))%nat -> move_backward t i T0 T1 = Ok d ->
  length d = length (x_data t) /\ (forall k, (i <= k)%nat -> nth k d 0 = nth k (x_data t) 0) /\
  ((forall x, In x (x_data t) -> lo <= x <= hi) -> lo <= 0 <= hi -> forall x, In x d -> lo <= x <= hi).
Proof.
  intros Hi. unfold move_backward. set (ts := map _ (seq 0 i)).
  destruct (np_interp (map Ropp ts) (map Ropp T0) (map Ropp T1) (Some 0) (Some 0)) as [nt|] eqn:E1; [|discriminate]. cbn [bind].
  destruct (np_interp (map Ropp ts) (map Ropp (map Ropp nt)) (rev (firstn i (x_data t))) (Some 0) (Some 0)) as [r|] eqn:E2; [|discriminate]. cbn [bind].
  intros E. inversion E; subst d. clear E. pose proof E2 as E3. apply np_interp_inv in E2. destruct E2 as (L2 & N2 & ->).
  assert (length ts = i) as Lt by (unfold ts; rewrite map_length, seq_length; reflexivity).
  set (r := interp_walk _ _ _ _ _ _) in *. assert (length (rev r) = i) as Lr by (unfold r; rewrite rev_length, interp_walk_length, !map_length; exact Lt).
  split; [rewrite app_length, Lr, skipn_length; lia|]. split.
  - intros k Hk. rewrite app_nth2 by lia. rewrite Lr, nth_skipn. f_equal. lia.
  - intros Hx H0 x Hin. apply in_app_iff in Hin. destruct Hin as [Hin|Hin]; [|apply Hx, (in_skipn i), Hin].
    apply in_rev in Hin. apply (np_interp_range _ _ _ _ _ _ lo hi E3); [| | | exact Hin].
    + intros r' Er. injection Er as <-. exact H0.
    + intros r' Er. injection Er as <-. exact H0.
    + intros z Hz. apply Hx, (in_firstn i), in_rev, Hz.
Qed.
Lemma moveout_trace_inv deg2km m phase ref t m' t' : moveout_trace deg2km m phase ref t = (m', Ok t') ->
  onset_inside t /\ exists T0 T1 d, (if s_multiple phase then move_backward else move_forward) t (onset_index t) T0 T1 = Ok d /\ t' = with_data t d.
Proof.
  unfold moveout_trace. destruct (negb _) eqn:Eo; [discriminate|]. apply onset_check in Eo.
  destruct (stretch_delay_times deg2km m (x_slow t) phase ref) as [m1 [[t0 t1]|e]]; [|discriminate].
  intros E. split; [exact Eo|]. inversion E as [[H1 H2]]. clear E. destruct (finite t0) as [T0|]; [|discriminate]. destruct (finite t1) as [T1|]; [|discriminate].
  exists T0, T1. fold (onset_index t) in H2.
  destruct ((if s_multiple phase then move_backward else move_forward) t (onset_index t) T0 T1) as [d|]; [|discriminate].
  exists d. split; [reflexivity|]. inversion H2. reflexivity.
Qed.

(** ** streams *)
Lemma moveout_layers deg2km phase ref : forall ts m m' ts' r, consistent deg2km m ref -> moveout deg2km m phase ref ts = (m', ts', r) ->
  same_layers m m' /\ consistent deg2km m' ref.
Proof.
  assert (forall t m m' r, consistent deg2km m ref -> moveout_trace deg2km m phase ref t = (m', r) -> same_layers m m' /\ consistent deg2km m' ref) as H1.
  { intros t m m' r Hc. unfold moveout_trace. destruct (negb _).
    - intros E. inversion E; subst. split; [apply same_layers_refl | exact Hc].
    - destruct (stretch_delay_times deg2km m (x_slow t) phase ref) as [m1 r1] eqn:Es.
      destruct (stretch_consistent deg2km m (x_slow t) phase ref m1 r1 Hc Es) as (A & B & _).
      destruct r1 as [[t0 t1]|e]; intros E; inversion E; subst; split; assumption. }
  induction ts as [|t ts IH]; intros m m' ts' r Hc E; cbn in E.
  - inversion E; subst. split; [apply same_layers_refl | exact Hc].
  - destruct (moveout_trace deg2km m phase ref t) as [m1 [t1|e]] eqn:Et; destruct (H1 _ _ _ _ Hc Et) as [A B].
    + destruct (moveout deg2km m1 phase ref ts) as [[m2 ts2] r2] eqn:Em. inversion E; subst.
      destruct (IH _ _ _ _ B Em) as [C D]. split; [eapply same_layers_trans; eassumption | exact D].
    + inversion E; subst. split; assumption.
Qed.
(** each trace is moved with the layers of the model, whatever was cached *)
Lemma moveout_trace_fresh deg2km m m1 phase ref t : same_layers m m1 -> consistent deg2km m ref -> consistent deg2km m1 ref ->
  snd (moveout_trace deg2km m phase ref t) = snd (moveout_trace deg2km m1 phase ref t).
Proof.
  intros Hs H H1. unfold moveout_trace. destruct (negb _); [reflexivity|].
  destruct (stretch_delay_times deg2km m (x_slow t) phase ref) as [m2 r2] eqn:E2.
  destruct (stretch_delay_times deg2km m1 (x_slow t) phase ref) as [m3 r3] eqn:E3.
  destruct (stretch_consistent deg2km _ _ _ _ _ _ H E2) as (_ & _ & ->).
  destruct (stretch_consistent deg2km _ _ _ _ _ _ H1 E3) as (_ & _ & ->).
  assert (stretch_fresh deg2km m (x_slow t) phase ref = stretch_fresh deg2km m1 (x_slow t) phase ref) as Ef.
  { unfold stretch_fresh. rewrite (delay_same deg2km m m1 _ _ Hs). destruct (Nat.odd _); [reflexivity|].
    destruct (delay_times deg2km m1 ref (upper phase)); [|reflexivity]. cbn [bind]. apply stretch_rest_same, Hs. }
  rewrite Ef. destruct (stretch_fresh deg2km m1 (x_slow t) phase ref) as [[t0 t1]|e]; reflexivity.
Qed.
Lemma moveout_ok_inv deg2km phase ref m0 : forall ts m m' ts', same_layers m0 m -> consistent deg2km m0 ref -> consistent deg2km m ref ->
  moveout deg2km m phase ref ts = (m', ts', Ok tt) ->
  Forall2 (fun t t' => snd (moveout_trace deg2km m0 phase ref t) = Ok t') ts ts'.
Proof.
  induction ts as [|t ts IH]; intros m m' ts' Hs H0 H E; cbn in E.
  - inversion E. constructor.
  - destruct (moveout_trace deg2km m phase ref t) as [m1 [t1|e]] eqn:Et; [|discriminate].
    destruct (moveout deg2km m1 phase ref ts) as [[m2 ts2] r2] eqn:Em. inversion E; subst.
    assert (same_layers m m1 /\ consistent deg2km m1 ref) as [A B].
    { apply (moveout_layers deg2km phase ref [t] m m1 [t1] (Ok tt) H). cbn. rewrite Et. reflexivity. }
    constructor.
    + rewrite (moveout_trace_fresh deg2km m0 m phase ref t Hs H0 H), Et. reflexivity.
    + apply (IH m1 m' ts2); try assumption. eapply same_layers_trans; eassumption.
Qed.
Lemma moveout_ok_build deg2km phase ref m0 : forall ts ts' m, same_layers m0 m -> consistent deg2km m0 ref -> consistent deg2km m ref ->
  Forall2 (fun t t' => snd (moveout_trace deg2km m0 phase ref t) = Ok t') ts ts' ->
  exists m', moveout deg2km m phase ref ts = (m', ts', Ok tt).
Proof.
  induction ts as [|t ts IH]; intros ts' m Hs H0 H F; inversion F as [|a t1 b ts1 Ft Fr]; subst; clear F.
  - exists m. reflexivity.
  - cbn. rewrite (moveout_trace_fresh deg2km m0 m phase ref t Hs H0 H) in Ft.
    destruct (moveout_trace deg2km m phase ref t) as [m1 r1] eqn:Et. cbn in Ft. subst r1.
    assert (same_layers m m1 /\ consistent deg2km m1 ref) as [A B].
    { apply (moveout_layers deg2km phase ref [t] m m1 [t1] (Ok tt) H). cbn. rewrite Et. reflexivity. }
    destruct (IH ts1 m1 (same_layers_trans _ _ _ Hs A) H0 B Fr) as (m2 & E). rewrite E. exists m2. reflexivity.
Qed.

(** a sample at exactly the largest delay *)
Theorem move_identity_exact t T d k : (0 < x_delta t)%Z -> onset_inside t -> x_data t <> [] ->
  T <> [] -> increasing T -> nth 0 T 0 <= 0 < last T 0 ->
  move_forward t (onset_index t) T T = Ok d -> (k < length (x_data t))%nat -> rel_time t k = last T 0 ->
  nth k d 0 = last (x_data t) 0.
Proof.
  intros Hd Hon Hne Hn Hi [Hf Hl0] E Hkn Hx. destruct (onset_index_spec t Hd Hon Hne) as (Hk & Hr1 & Hr2).
  destruct (move_forward_spec t T T Hn eq_refl Hi) as (d' & E' & L & Hb & Ha).
  { rewrite first_moved_same. exact Hk. }
  { rewrite first_moved_same. apply moved_times_incr; try assumption; try lra; [reflexivity|]. intros x Hx0 Hx'. rewrite interp1_id_clip by assumption. apply Rmin_glb; lra. }
  rewrite first_moved_same in Hb, Ha. rewrite E in E'. injection E' as <-.
  set (k0 := onset_index t) in *. set (mt := moved_times t k0 T T) in *.
  assert (length mt = (length (x_data t) - k0)%nat) as Lm by apply moved_times_length.
  assert (increasing mt) as Hinc.
  { apply moved_times_incr; try assumption; try lra; [reflexivity|]. intros x Hx0 Hx'. rewrite interp1_id_clip by assumption. apply Rmin_glb; lra. }
  assert (length (skipn k0 (x_data t)) = length mt) as Ls by (rewrite skipn_length; lia).
  assert (k0 < k)%nat as Hk0 by (destruct (Nat.le_gt_cases k k0) as [H|H]; [pose proof (rel_time_mono t k k0 Hd H); lra | exact H]).
  rewrite Ha by lia. set (j := (length mt - 1)%nat).
  assert (nth j mt 0 = rel_time t k) as Ej.
  { unfold mt, j. rewrite moved_times_nth by lia. pose proof (rel_time_mono t k (k0 + (length mt - 1)) Hd ltac:(lia)) as Hm.
    rewrite interp1_id_clip by (try assumption; lra). rewrite Hx. apply Rmin_right. lra. }
  rewrite <- Ej, interp1_node; try assumption; [|unfold j; lia | unfold j; intros; lia].
  rewrite nth_skipn. rewrite last_nth_R by exact Hne. f_equal. unfold j. lia.
Qed.
