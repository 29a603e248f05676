(** Moveout of S multiples, whose delays are looked up before the onset: C44, C45, C77. *)
From Verif Require Import Model.SimpleModel Spec.ModelSpec Proofs.PyFacts Proofs.SumFacts Proofs.InterpFacts
  Proofs.ModelFacts Proofs.MoveoutFacts Proofs.MoveoutMain Proofs.BackwardFacts Properties.ModelProps Properties.MoveoutProps.
From Coq Require Import Lra Lia.
Notation length := List.length.
Open Scope R_scope.

(** words of the letters P and S with S first, at least four letters and at least two S *)
Definition multiple (phase : string) : Prop :=
  ps_phase phase /\ (exists u, upper phase = String "S" u) /\ (4 <= String.length phase)%nat /\
  Nat.even (String.length phase) = true /\ (2 <= count_char "S" (upper phase))%nat.
Lemma multiple_s phase : multiple phase -> s_multiple phase = true.
Proof. intros (_ & [u E] & L & _). unfold s_multiple. rewrite E. apply Nat.ltb_lt. lia. Qed.

(** ** C44: identity *)
(** the trace does not begin earlier than the largest delay before the onset. The onset is a
    sample, or not farther from one than the delay of the tenth layer (the deepest one for
    models with less layers) *)
Definition covered (deg2km : R) (m : smodel) (ref : R) (phase : string) (c : nat) (t : mtrace) : Prop :=
  (exists k, (0 < k < length (x_data t))%nat /\ - secs (x_delta t) < rel_time t k <= 0 /\
     exists a, is_delay deg2km m ref phase (Nat.min 9 (c - 1)) a /\ - rel_time t k <= a) /\
  exists a, is_delay deg2km m ref phase (c - 1) a /\ - rel_time t 0 <= a.
Lemma onset_index_unique t k : (0 < x_delta t)%Z -> onset_inside t -> x_data t <> [] -> - secs (x_delta t) < rel_time t k <= 0 -> onset_index t = k.
Proof.
  intros Hd Hon Hne Hk. destruct (onset_index_spec t Hd Hon Hne) as (_ & H1). pose proof (secs_pos _ Hd) as Hs.
  destruct (Nat.lt_total (onset_index t) k) as [H|[H|H]]; [|exact H|]; exfalso.
  - pose proof (rel_time_mono t (S (onset_index t)) k Hd H) as Hm. rewrite rel_time_S in Hm. lra.
  - pose proof (rel_time_mono t (S k) (onset_index t) Hd H) as Hm. rewrite rel_time_S in Hm. lra.
Qed.
Theorem C44_s_multiple_partial deg2km m phase ref t c : valid_model m -> multiple phase -> consistent deg2km m ref -> good t ->
  x_slow t = ref -> (2 <= c)%nat -> used_layers deg2km m ref phase c -> covered deg2km m ref phase c t ->
  exists m', moveout_trace deg2km m phase ref t = (m', Ok t).
Proof.
  intros Hv Hm Hcons (Hd & Hon & Hne) Hs Hc Hu ((k & Hk & Hr & a & Da & Ha) & b & Db & Hb).
  pose proof (multiple_s phase Hm) as Hmul. destruct Hm as (Hps & _ & _ & Hev & H2).
  assert (propagates_to deg2km m ref phase c) as Hpr.
  { destruct Hu as [[_ H]|(_ & H & _)]; [exact H|]. intros i Hi. apply H. lia. }
  rewrite <- Hs in Hu. destruct (s_moveout deg2km m Hv phase Hps Hmul ref t c Hev Hcons Hon Hu Hpr) as (m' & l0 & l1 & O0 & O1 & Hcl & E).
  rewrite Hs in O0. pose proof (oriented_unique deg2km m ref phase c l0 l1 Hv Hps Hcl O0 O1) as ->.
  rewrite (onset_index_unique t k Hd Hon Hne Hr) in E.
  pose proof (s_table deg2km m Hv phase Hps Hmul ref c l1 H2 Hcl O1) as Hinc.
  destruct (s_oriented deg2km m phase Hps Hmul ref c l1 O1) as [L1 D1].
  assert (l1 <> []) as N1 by (intros ->; cbn in L1; lia).
  assert (map Ropp l1 <> []) as N1' by (destruct l1; [congruence | discriminate]).
  exists m'. rewrite E, move_backward_identity; [destruct t; reflexivity | exact Hd | lia | apply tab_nonempty; exact N1 | exact Hinc | |].
  - rewrite map_opp_tab, (tab_nth0 _ c L1 Hc). unfold back_time. cbn [INR].
    rewrite (is_delay_unique deg2km m ref phase (Nat.min 9 (c - 1)) _ _ Hv Hps ltac:(lia) (D1 (Nat.min 9 (c - 1)) ltac:(lia)) Da). lra.
  - rewrite map_opp_tab, tab_last by exact N1'. rewrite last_nth_R, L1 by exact N1'.
    rewrite (is_delay_unique deg2km m ref phase (c - 1) _ _ Hv Hps ltac:(lia) (D1 (c - 1)%nat ltac:(lia)) Db).
    unfold back_time. replace k with (0 + k)%nat in Hr by lia. rewrite rel_time_plus in Hr.
    rewrite minus_INR by lia. replace (rel_time t k) with (rel_time t (0 + k)) by (f_equal; lia). rewrite rel_time_plus.
    pose proof (secs_pos _ Hd). cbn [INR]. nra.
Qed.
Print Assumptions C44_s_multiple_partial.

(** ** C45: idempotence *)
Definition movable_before (deg2km : R) (m : smodel) (phase : string) (cref : nat) (ref : R) (t : mtrace) : Prop :=
  good t /\ covered deg2km m ref phase cref t.
Theorem C45_s_multiple_partial deg2km m phase ref cref method ts m1 ts1 : valid_model m -> multiple phase -> consistent deg2km m ref ->
  (2 <= cref)%nat -> used_layers deg2km m ref phase cref -> Forall (movable_before deg2km m phase cref ref) ts ->
  stream_moveout deg2km method m (Some phase) ref ts = (m1, ts1, Ok tt) ->
  exists m2 ts2, stream_moveout deg2km method m1 (Some phase) ref ts1 = (m2, ts2, Ok tt) /\
    map x_data ts2 = map x_data ts1 /\ length ts1 = length ts.
Proof.
  intros Hv Hm Hcons Hcr Hur Hts E. pose proof (multiple_s phase Hm) as Hmul.
  unfold stream_moveout in E. destruct (moveout deg2km m phase ref ts) as [[mm tm] [[]|e]] eqn:Em; [|discriminate].
  injection E as <- <-.
  pose proof (moveout_ok_inv deg2km phase ref m ts m mm tm (same_layers_refl m) Hcons Hcons Em) as F.
  destruct (moveout_layers deg2km phase ref ts m mm tm (Ok tt) Hcons Em) as [Hsame Hcons1].
  assert (Forall2 (fun t t' => snd (moveout_trace deg2km m phase ref t) = Ok t') (map (tag_moveout phase ref) tm) (map (tag_moveout phase ref) tm)) as F3.
  { clear Em Hsame Hcons1. revert Hts. induction F as [|t t' ts tm Ft F IH]; intros Hts; [constructor|].
    inversion Hts as [|? ? Ht Hts']; subst. constructor; [|apply IH; exact Hts'].
    destruct Ht as [(Hd & Hon & Hne) Hcov]. destruct (moveout_trace deg2km m phase ref t) as [m' r] eqn:Et. cbn [snd] in Ft. subst r.
    destruct (C46_frame deg2km m phase ref t m' t' 0 0 Hd Et) as ((A1 & A2 & A3 & A4 & A5 & A6) & L & _).
    set (t1 := tag_moveout phase ref t'). assert (length (x_data t1) = length (x_data t)) as L1 by exact L.
    assert (forall k, rel_time t1 k = rel_time t k) as Er by (intros k; unfold rel_time, t1; cbn [tag_moveout x_start x_onset x_delta]; rewrite A1, A2, A3; reflexivity).
    destruct (C44_s_multiple_partial deg2km m phase ref t1 cref Hv Hm Hcons) as (m2 & E2); try assumption; try reflexivity.
    - unfold good, onset_inside, x_end. rewrite L1. cbn [t1 tag_moveout x_start x_onset x_delta]. rewrite <- A1, <- A2, <- A3.
      split; [exact Hd|]. split; [exact Hon|]. intros E0. change (x_data (tag_moveout phase ref t') = []) in E0. fold t1 in E0. rewrite E0 in L1. cbn in L1. destruct (x_data t); [congruence | discriminate].
    - destruct Hcov as ((k & Hk & Hr & a & Da & Ha) & b & Db & Hb). split; [exists k | exists b]; rewrite ?L1, ?Er.
      + split; [exact Hk|]. split; [cbn [t1 tag_moveout x_delta]; rewrite <- A3; exact Hr|]. exists a. split; assumption.
      + split; assumption.
    - rewrite E2. reflexivity. }
  destruct (moveout_ok_build deg2km phase ref m _ _ mm Hsame Hcons Hcons1 F3) as (m2 & E2).
  exists m2, (map (tag_moveout phase ref) (map (tag_moveout phase ref) tm)). unfold stream_moveout. rewrite E2. split; [reflexivity|].
  split; [rewrite !map_map; reflexivity|]. rewrite map_length. symmetry. clear -F. induction F; cbn; congruence.
Qed.
Print Assumptions C45_s_multiple_partial.

(** a trace of four samples, the onset is the last but one *)
Definition back_trace (d : R) (data : list R) : mtrace := mkMT 0 2000000000 1000000000 data (0 * d) None None.
Lemma sspp_multiple : multiple "SSPP".
Proof. split; [phase_ok|]. split; [eexists; reflexivity|]. split; [cbn; lia|]. split; [reflexivity | vm_compute; repeat constructor]. Qed.
Lemma back_good d data : length data = 4%nat -> good (back_trace d data).
Proof. intros L. unfold good, onset_inside, x_end, back_trace. cbn [x_delta x_start x_onset x_data]. rewrite L. cbn. split; [lia|]. split; [lia|]. intros ->. discriminate. Qed.
Lemma back_covered d data : d <> 0 -> length data = 4%nat -> covered d demo4 (0 * d) "SSPP" 3 (back_trace d data).
Proof.
  intros Hd L. assert (snell (1 / 2) 0 2) as S2 by (split; [lra | field]). split.
  - exists 2%nat. cbn [back_trace x_data x_delta]. rewrite L. split; [lia|]. split; [unfold rel_time, secs; cbn; lra|].
    exists (INR 2 * 2). split; [apply (demo4_delay d 0 2 Hd S2 2); lia|]. unfold rel_time, secs. cbn. lra.
  - exists (INR 2 * 2). split; [apply (demo4_delay d 0 2 Hd S2 2); lia|]. unfold rel_time, secs. cbn. lra.
Qed.
Example C44_s_multiple_case d : d <> 0 -> let t := back_trace d [1; 2; 3; 4] in
  valid_model demo4 /\ multiple "SSPP" /\ consistent d demo4 (0 * d) /\ good t /\ x_slow t = 0 * d /\
  used_layers d demo4 (0 * d) "SSPP" 3 /\ covered d demo4 (0 * d) "SSPP" 3 t.
Proof.
  intros Hd t. split; [apply demo4_valid|]. split; [apply sspp_multiple|]. split; [intros ph u; discriminate|].
  split; [apply back_good; reflexivity|]. split; [reflexivity|]. split; [apply demo4_used; [exact Hd | lra] | apply back_covered; [exact Hd | reflexivity]].
Qed.
Example C45_s_multiple_case d : d <> 0 -> Forall (movable_before d demo4 "SSPP" 3 (0 * d)) [back_trace d [1; 2; 3; 4]; back_trace d [1; 0; 0; 4]] /\
  exists m1 ts1, stream_moveout d "S" demo4 (Some "SSPP") (0 * d) [back_trace d [1; 2; 3; 4]] = (m1, ts1, Ok tt).
Proof.
  intros Hd. split.
  - repeat constructor; try (apply back_good; reflexivity); apply back_covered; try reflexivity; exact Hd.
  - destruct (C44_s_multiple_case d Hd) as (H1 & H2 & H3 & H4 & H5 & H6 & H7).
    destruct (C44_s_multiple_partial d demo4 "SSPP" (0 * d) _ 3 H1 H2 H3 H4 H5 ltac:(lia) H6 H7) as (m' & E).
    unfold stream_moveout, moveout. rewrite E. eexists _, _. reflexivity.
Qed.

(** ** C44: the samples of a long trace are lost, whatever the slowness *)
Theorem C44_s_multiple_refuted deg2km m phase ref t c a : valid_model m -> multiple phase -> consistent deg2km m ref -> good t ->
  (1 <= c)%nat -> used_layers deg2km m (x_slow t) phase c -> propagates_to deg2km m ref phase c ->
  is_delay deg2km m (x_slow t) phase (c - 1) a -> rel_time t 0 < - (a + 3 * secs (x_delta t)) ->
  exists m' d, moveout_trace deg2km m phase ref t = (m', Ok (with_data t d)) /\ length d = length (x_data t) /\
    (forall k, rel_time t k <= - (2 * secs (x_delta t)) -> nth k d 0 = 0) /\
    (forall k, 0 <= rel_time t k -> nth k d 0 = nth k (x_data t) 0).
Proof.
  intros Hv Hm Hcons (Hd & Hon & Hne) Hc Hu Hpr Da Hlong. pose proof (multiple_s phase Hm) as Hmul. destruct Hm as (Hps & _ & _ & Hev & H2).
  destruct (s_moveout deg2km m Hv phase Hps Hmul ref t c Hev Hcons Hon Hu Hpr) as (m' & l0 & l1 & O0 & O1 & Hcl & E).
  destruct (s_oriented deg2km m phase Hps Hmul _ c l0 O0) as [L0 D0].
  assert (0 <= a) as Ha by (apply (s_delay_incr deg2km m Hv phase Hps Hmul (x_slow t) (c - 1) (c - 1) a a H2); (lia || assumption)).
  destruct (onset_index_spec t Hd Hon Hne) as (Hi & Hr). pose proof (secs_pos _ Hd) as Hs. set (i := onset_index t) in *.
  assert (rel_time t i = rel_time t 0 + INR i * secs (x_delta t)) as Ei by (replace i with (0 + i)%nat at 1 by lia; apply rel_time_plus).
  assert (0 < i)%nat as Hpos by (destruct i; [cbn [INR] in Ei; lra | lia]).
  assert (l0 <> []) as N0 by (intros ->; cbn in L0; lia).
  assert (map Ropp l0 <> []) as N0' by (destruct l0; [congruence | discriminate]).
  destruct (move_backward_lost t i (tab l0) (tab l1) Hd ltac:(lia)) as (d & Ed & Ld & Kz & Ks).
  - apply tab_nonempty, N0.
  - apply tab_length. destruct O0, O1. lia.
  - lra.
  - rewrite map_opp_tab, tab_last by exact N0'. rewrite last_nth_R, L0 by exact N0'.
    rewrite (is_delay_unique deg2km m _ phase (c - 1) _ _ Hv Hps ltac:(lia) (D0 (c - 1)%nat ltac:(lia)) Da).
    unfold back_time. rewrite minus_INR by lia. cbn [INR]. lra.
  - exists m', d. rewrite E, Ed. split; [reflexivity|]. split; [exact Ld|]. split.
    + intros k Hk. apply Kz. destruct (Nat.le_gt_cases (k + 2) i) as [|H]; [assumption|]. exfalso.
      assert (rel_time t i <= rel_time t (k + 1)) as Hm by (apply rel_time_mono; [exact Hd | lia]).
      rewrite rel_time_plus in Hm. cbn [INR] in Hm. lra.
    + intros k Hk. apply Ks. destruct (Nat.le_gt_cases i k) as [|H]; [assumption|]. exfalso.
      pose proof (rel_time_lt t k i Hd H). lra.
Qed.
Print Assumptions C44_s_multiple_refuted.
Example C44_s_multiple_lost d : d <> 0 -> let t := mkMT 0 8000000000 1000000000 [1; 2; 3; 4; 5; 6; 7; 8; 9; 10] (0 * d) None None in
  good t /\ used_layers d demo4 (x_slow t) "SSPP" 3 /\ propagates_to d demo4 (0 * d) "SSPP" 3 /\ is_delay d demo4 (x_slow t) "SSPP" (3 - 1) 4 /\
  rel_time t 0 < - (4 + 3 * secs (x_delta t)).
Proof.
  intros Hd t. split; [unfold good, onset_inside; cbn; split; [lia|]; split; [lia | discriminate]|].
  assert (snell (1 / 2) 0 2) as S2 by (split; [lra | field]). destruct (demo4_used d 0 Hd ltac:(lra)) as [U P].
  split; [exact U|]. split; [exact P|]. split; [|unfold rel_time, secs; cbn; lra].
  replace 4 with (INR 2 * 2) by (cbn; lra). apply (demo4_delay d 0 2 Hd S2 2). lia.
Qed.

(** ** C77: moveout accepts every onset inside the trace *)
(** S multiples: not if the onset belongs to the first sample *)
Theorem C77_first_sample_refuted deg2km m phase ref t c : valid_model m -> multiple phase -> consistent deg2km m ref -> good t ->
  (1 <= c)%nat -> used_layers deg2km m (x_slow t) phase c -> propagates_to deg2km m ref phase c ->
  - secs (x_delta t) < rel_time t 0 ->
  exists m', moveout_trace deg2km m phase ref t = (m', Err ValueError).
Proof.
  intros Hv Hm Hcons (Hd & Hon & Hne) Hc Hu Hpr H0. pose proof (multiple_s phase Hm) as Hmul. destruct Hm as (Hps & _ & _ & Hev & H2).
  destruct (s_moveout deg2km m Hv phase Hps Hmul ref t c Hev Hcons Hon Hu Hpr) as (m' & l0 & l1 & O0 & O1 & Hcl & E).
  assert (rel_time t 0 <= 0) as H0'.
  { unfold rel_time, secs. destruct Hon as [H _]. cbn [Z.of_nat]. rewrite Z.mul_0_l, Z.add_0_r. rewrite minus_IZR. apply IZR_le in H. lra. }
  rewrite (onset_index_unique t 0 Hd Hon Hne (conj H0 H0')) in E. exists m'. rewrite E, move_backward_empty; [reflexivity | |].
  - apply tab_nonempty. intros ->. destruct O0 as [L _]. cbn in L. lia.
  - apply tab_length. destruct O0, O1. lia.
Qed.
Print Assumptions C77_first_sample_refuted.
(** it accepts all others *)
Theorem C77_s_multiple_partial deg2km m phase ref t c : valid_model m -> multiple phase -> consistent deg2km m ref -> good t ->
  (1 <= c)%nat -> used_layers deg2km m (x_slow t) phase c -> propagates_to deg2km m ref phase c ->
  rel_time t 0 <= - secs (x_delta t) ->
  exists m' t', moveout_trace deg2km m phase ref t = (m', Ok t').
Proof.
  intros Hv Hm Hcons (Hd & Hon & Hne) Hc Hu Hpr H0. pose proof (multiple_s phase Hm) as Hmul. destruct Hm as (Hps & _ & _ & Hev & H2).
  destruct (s_moveout deg2km m Hv phase Hps Hmul ref t c Hev Hcons Hon Hu Hpr) as (m' & l0 & l1 & O0 & O1 & Hcl & E).
  destruct (onset_index_spec t Hd Hon Hne) as (Hi & Hr). rewrite E. unfold move_backward.
  assert (tab l0 <> []) as N0 by (apply tab_nonempty; intros ->; destruct O0 as [L _]; cbn in L; lia).
  assert (length (tab l0) = length (tab l1)) as Lt by (apply tab_length; destruct O0, O1; lia).
  rewrite np_interp_any by (try (destruct (tab l0); [congruence | discriminate]); rewrite !map_length; lia). cbn [bind].
  rewrite np_interp_any; [cbn [bind]; eexists _, _; reflexivity | rewrite !map_length, rev_length, interp_walk_length, firstn_length, !map_length, seq_length; lia |].
  intros E0. apply (f_equal (@List.length _)) in E0. rewrite !map_length, interp_walk_length, !map_length, seq_length in E0. cbn in E0.
  rewrite E0 in Hr. lra.
Qed.
Print Assumptions C77_s_multiple_partial.
Example C77_first_sample d : d <> 0 -> let t := mkMT 0 0 1000000000 [3; 4] (0 * d) None None in
  good t /\ - secs (x_delta t) < rel_time t 0 /\ exists m', moveout_trace d demo4 "SSPP" (0 * d) t = (m', Err ValueError).
Proof.
  intros Hd t. assert (good t) as Hg by (unfold good, onset_inside; cbn; split; [lia|]; split; [lia | discriminate]).
  assert (- secs (x_delta t) < rel_time t 0) as H by (unfold rel_time, secs; cbn; lra). split; [exact Hg|]. split; [exact H|].
  destruct (demo4_used d 0 Hd ltac:(lra)) as [U P].
  apply (C77_first_sample_refuted d demo4 "SSPP" (0 * d) t 3); try assumption; try lia; [apply demo4_valid | apply sspp_multiple | intros ph u; discriminate].
Qed.
