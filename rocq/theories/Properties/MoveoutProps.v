(** Moveout correction and piercing points: C44 - C49, C76 - C79. *)
From Verif Require Import Model.SimpleModel Spec.ModelSpec Proofs.PyFacts Proofs.SumFacts Proofs.InterpFacts
  Proofs.ModelFacts Proofs.MoveoutFacts Proofs.MoveoutMain Proofs.PpointFacts Properties.ModelProps.
From Coq Require Import Lra Lia.
Notation length := List.length.
Open Scope R_scope.

Definition good (t : mtrace) : Prop := (0 < x_delta t)%Z /\ onset_inside t /\ x_data t <> [].
(** what the theorems assume about model and phase *)
Definition suitable (deg2km : R) (m : smodel) (phase : string) (ref : R) : Prop :=
  valid_model m /\ s_slower m /\ ps_phase phase /\ forward phase /\ Nat.even (String.length phase) = true /\ consistent deg2km m ref.
(** ten second trace, onset 2 s after the start *)
Definition demo_trace (d : R) : mtrace :=
  mkMT 0 2000000000 1000000000 [0; 0; 1; 0; 3; 0; 0; 5; 0; 0] (1 * d) None None.
Lemma demo_good d : good (demo_trace d).
Proof. unfold good, onset_inside. cbn. split; [lia|]. split; [lia | discriminate]. Qed.
Lemma demo_suitable d ref : suitable d demo "Ps" ref.
Proof.
  destruct demo_valid as [A B]. split; [exact A|]. split; [exact B|]. split; [phase_ok|].
  split; [unfold forward; norm_upper; cbn; lia|]. split; [reflexivity|]. intros ph t; discriminate.
Qed.

(** ** C44: identity *)
Theorem C44_identity_partial deg2km m phase ref t c tmax : suitable deg2km m phase ref -> good t ->
  x_slow t = ref -> (2 <= c)%nat -> used_layers deg2km m ref phase c ->
  is_delay deg2km m ref phase (c - 1) (sgn_phase phase * tmax) ->
  exists m' d, moveout_trace deg2km m phase ref t = (m', Ok (with_data t d)) /\ length d = length (x_data t) /\
    forall k, (k < length (x_data t))%nat ->
      (rel_time t k < tmax -> nth k d 0 = nth k (x_data t) 0) /\ (tmax < rel_time t k -> nth k d 0 = 0).
Proof.
  intros (Hv & Hsl & Hps & Hf & Hev & Hcons) (Hd & Hon & Hne) Hs Hc Hu Hmax.
  assert (propagates_to deg2km m ref phase c) as Hr.
  { destruct Hu as [[_ H]|(_ & H & _)]; [exact H|]. intros i Hi. apply H. lia. }
  pose proof Hu as Hu'. rewrite <- Hs in Hu'.
  destruct (moveout_tables deg2km m Hv phase Hps Hf Hev ref Hcons t Hon c Hu' Hr) as (m' & l0 & l1 & [O0 O1] & _ & _ & Hcl & E).
  rewrite Hs in O0. pose proof (oriented_unique deg2km m ref phase c l0 l1 Hv Hps Hcl O0 O1) as ->.
  destruct (table_facts deg2km m Hv Hsl phase Hps Hf c ltac:(lia) ref l1 Hcl O1) as (T1 & T2 & T3 & T4 & T5).
  destruct (oriented_incr deg2km m ref phase c l1 Hv Hsl Hps Hf Hcl O1) as [_ Hp].
  pose proof (tab_first l1 ltac:(destruct O1; lia) Hp) as Tf.
  assert (last l1 0 = tmax) as Em.
  { pose proof (oriented_last deg2km m phase c ltac:(lia) ref l1 O1) as H.
    pose proof (is_delay_unique deg2km m ref phase (c - 1) _ _ Hv Hps ltac:(lia) H Hmax) as H2.
    apply (f_equal (Rmult (sgn_phase phase))) in H2. rewrite <- !Rmult_assoc, sgn_sq in H2. lra. }
  destruct (move_identity t (tab l1) Hd Hon Hne T2 T1 ltac:(lra)) as (d & Ed & L & K).
  exists m', d. rewrite E, Ed. split; [reflexivity|]. split; [exact L|]. rewrite T3, Em in K. exact K.
Qed.
Print Assumptions C44_identity_partial.
Example C44_case d : d <> 0 -> suitable d demo "Ps" (1 * d) /\ good (demo_trace d) /\ x_slow (demo_trace d) = 1 * d /\
  used_layers d demo (1 * d) "Ps" 2 /\ is_delay d demo (1 * d) "Ps" (2 - 1) (sgn_phase "Ps" * (2 * sqrt 3)) /\
  rel_time (demo_trace d) 5 < 2 * sqrt 3 < rel_time (demo_trace d) 6.
Proof.
  intros H. split; [apply demo_suitable|]. split; [apply demo_good|]. split; [reflexivity|]. split; [apply demo_used; [exact H | lra]|].
  destruct (demo_ps d 1 _ _ H snell_1_1 snell_2_1) as [_ D]. split.
  - unfold sgn_phase. norm_upper. cbv iota. replace (1 * (2 * sqrt 3)) with (2 * (sqrt 3 - 0)) by ring. exact D.
  - unfold rel_time, secs. cbn. pose proof (sqrt_sqrt 3 ltac:(lra)). pose proof (sqrt_pos 3). nra.
Qed.

(** ** C45: idempotence *)
(** samples at exactly the largest delay are excluded *)
Definition same_samples (tmax : R) (a b : mtrace) : Prop :=
  length (x_data a) = length (x_data b) /\
  forall k, (k < length (x_data a))%nat -> rel_time a k <> tmax -> nth k (x_data b) 0 = nth k (x_data a) 0.
Definition movable (deg2km : R) (m : smodel) (phase : string) (cref : nat) (t : mtrace) : Prop :=
  good t /\ exists c, (2 <= c <= cref)%nat /\ used_layers deg2km m (x_slow t) phase c.
Lemma Forall2_map_l {A B C} (f : A -> B) (P : B -> C -> Prop) l l' : Forall2 (fun a c => P (f a) c) l l' -> Forall2 P (map f l) l'.
Proof. induction 1; constructor; assumption. Qed.
Theorem C45_idempotent_partial deg2km m phase ref cref tmax method ts m1 ts1 : suitable deg2km m phase ref ->
  (2 <= cref)%nat -> used_layers deg2km m ref phase cref ->
  is_delay deg2km m ref phase (cref - 1) (sgn_phase phase * tmax) ->
  Forall (movable deg2km m phase cref) ts ->
  stream_moveout deg2km method m (Some phase) ref ts = (m1, ts1, Ok tt) ->
  exists m2 ts2, stream_moveout deg2km method m1 (Some phase) ref ts1 = (m2, ts2, Ok tt) /\ Forall2 (same_samples tmax) ts1 ts2.
Proof.
  intros Hsuit Hcr Hur Hmax Hts E. pose proof Hsuit as (Hv & Hsl & Hps & Hf & Hev & Hcons).
  assert (propagates_to deg2km m ref phase cref) as Hr.
  { destruct Hur as [[_ H]|(_ & H & _)]; [exact H|]. intros i Hi. apply H. lia. }
  unfold stream_moveout in E. destruct (moveout deg2km m phase ref ts) as [[mm tm] [[]|e]] eqn:Em; [|discriminate].
  injection E as <- <-.
  pose proof (moveout_ok_inv deg2km phase ref m ts m mm tm (same_layers_refl m) Hcons Hcons Em) as F.
  destruct (moveout_layers deg2km phase ref ts m mm tm (Ok tt) Hcons Em) as [Hsame Hcons1].
  assert (exists ts2, Forall2 (fun t t' => snd (moveout_trace deg2km m phase ref t) = Ok t' /\ same_samples tmax t t') (map (tag_moveout phase ref) tm) ts2) as (ts2 & F2).
  { clear Em Hsame Hcons1. revert Hts. induction F as [|t t' ts tm Ft F IH]; intros Hts; [exists []; constructor|].
    inversion Hts as [|? ? Ht Hts']; subst. destruct (IH Hts') as (ts2 & F2).
    destruct Ht as [(Hd & Hon & Hne) (c & Hc & Hu)].
    assert (propagates_to deg2km m ref phase c) as Hrc by (intros i Hi; apply Hr; lia).
    destruct (moveout_tables deg2km m Hv phase Hps Hf Hev ref Hcons t Hon c Hu Hrc) as (m' & l0 & l1 & [O0 O1] & _ & _ & Hcl & E).
    rewrite E in Ft. cbn [snd] in Ft.
    destruct (move_forward t (onset_index t) (tab l0) (tab l1)) as [d|e] eqn:Ed; [|discriminate]. cbn [bind] in Ft. injection Ft as <-.
    assert (length d = length (x_data t)) as Ld by (apply (move_forward_bounds t (onset_index t) (tab l0) (tab l1) d 0 0 Ed)).
    set (t' := tag_moveout phase ref (with_data t d)).
    assert (good t') as Hg.
    { unfold good, t', onset_inside, x_end. cbn [tag_moveout with_data x_delta x_start x_onset x_data]. rewrite Ld.
      split; [exact Hd|]. split; [exact Hon|]. intros ->. cbn in Ld. destruct (x_data t); [congruence | discriminate]. }
    destruct (C44_identity_partial deg2km m phase ref t' cref tmax Hsuit Hg eq_refl Hcr Hur Hmax) as (m2 & d2 & E2 & L2 & K2).
    exists (with_data t' d2 :: ts2). cbn [map]. fold t'. constructor; [|exact F2]. split; [rewrite E2; reflexivity|].
    split; [cbn [with_data x_data]; symmetry; exact L2|]. intros k Hk Hne'. cbn [with_data x_data].
    destruct (K2 k Hk) as [Ka Kb]. destruct (Rtotal_order (rel_time t' k) tmax) as [H|[H|H]]; [exact (Ka H) | congruence |].
    rewrite (Kb H). symmetry.
    destruct (table_facts deg2km m Hv Hsl phase Hps Hf c ltac:(lia) ref l1 Hcl O1) as (T1 & T2 & T3 & T4 & T5).
    destruct (table_facts deg2km m Hv Hsl phase Hps Hf c ltac:(lia) _ l0 Hcl O0) as (_ & T0 & _).
    apply (move_beyond t (tab l0) (tab l1) d); try assumption.
    - apply tab_length. destruct O0, O1. lia.
    - rewrite T3. exact T4.
    - cbn [t' tag_moveout with_data x_data] in Hk. rewrite <- Ld. exact Hk.
    - rewrite T3. change (rel_time t' k) with (rel_time t k) in H. eapply Rle_lt_trans; [|exact H].
      pose proof (oriented_last deg2km m phase c ltac:(lia) ref l1 O1) as Hl.
      assert (cref <= layers m)%nat by (destruct Hur as [[-> _]|(? & _)]; lia).
      destruct (is_delay_incr deg2km m ref phase (c - 1) (cref - 1) _ _ Hv Hsl Hps Hf ltac:(lia) ltac:(lia) Hl Hmax) as [_ Hle].
      rewrite <- !Rmult_assoc, !sgn_sq in Hle. lra. }
  assert (Forall2 (fun t t' => snd (moveout_trace deg2km m phase ref t) = Ok t') (map (tag_moveout phase ref) tm) ts2) as F3
    by (clear -F2; induction F2 as [|? ? ? ? [? ?] ? ?]; constructor; assumption).
  destruct (moveout_ok_build deg2km phase ref m _ _ mm Hsame Hcons Hcons1 F3) as (m2 & E2).
  exists m2, (map (tag_moveout phase ref) ts2). unfold stream_moveout. rewrite E2. split; [reflexivity|].
  clear -F2. induction F2 as [|a b la lb [_ H] F2 IH]; constructor; [exact H | exact IH].
Qed.
Print Assumptions C45_idempotent_partial.
Example C45_case d : d <> 0 -> suitable d demo "Ps" (0 * d) /\ used_layers d demo (0 * d) "Ps" 2 /\
  is_delay d demo (0 * d) "Ps" (2 - 1) (sgn_phase "Ps" * 2) /\ Forall (movable d demo "Ps" 2) [demo_trace d; demo_trace d].
Proof.
  intros H. split; [apply demo_suitable|]. split; [apply demo_used; [exact H | lra]|].
  destruct (demo_ps d 0 (/ 1) (/ (1 / 2)) H (snell_0 1 ltac:(lra)) (snell_0 (1 / 2) ltac:(lra))) as [_ D]. split.
  - unfold sgn_phase. norm_upper. cbv iota. replace (1 * 2) with (2 * (/ (1 / 2) - / 1)) by field. exact D.
  - repeat constructor; try apply demo_good; exists 2%nat; (split; [lia | apply demo_used; [exact H | lra]]).
Qed.

(** ** C46: what is never touched, for all models, phases and tables *)
Theorem C46_frame deg2km m phase ref t m' t' lo hi : (0 < x_delta t)%Z -> moveout_trace deg2km m phase ref t = (m', Ok t') ->
  same_header t t' /\ length (x_data t') = length (x_data t) /\
  (* samples at least one sampling interval before the onset, all samples after it for S multiples *)
  (forall k, (k < length (x_data t))%nat ->
     (if s_multiple phase then 0 <= rel_time t k else rel_time t k <= - secs (x_delta t)) ->
     nth k (x_data t') 0 = nth k (x_data t) 0) /\
  ((forall x, In x (x_data t) -> lo <= x <= hi) -> lo <= 0 <= hi -> forall x, In x (x_data t') -> lo <= x <= hi).
Proof.
  intros Hd E. destruct (moveout_trace_inv deg2km m phase ref t m' t' E) as (Hon & T0 & T1 & d & Em & ->).
  split; [repeat split|]. cbn [with_data x_data].
  destruct (Nat.eq_dec (length (x_data t)) 0) as [Hz|Hz].
  - assert (onset_index t = 0%nat) as Eo.
    { unfold onset_index. destruct Hon as [A B]. unfold x_end in B. rewrite Hz in B. cbn in B. replace (x_onset t - x_start t)%Z with 0%Z by lia. rewrite Z.div_0_l by lia. reflexivity. }
    rewrite Eo in Em. destruct (s_multiple phase).
    + destruct (move_backward_bounds t 0 T0 T1 d lo hi ltac:(lia) Em) as (L & _ & Hb). split; [exact L|]. split; [intros; lia|]. exact Hb.
    + destruct (move_forward_bounds t 0 T0 T1 d lo hi Em) as (L & _ & Hb). split; [exact L|]. split; [intros; lia|]. exact Hb.
  - assert (x_data t <> []) as Hne by (intros E0; rewrite E0 in Hz; cbn in Hz; lia).
    destruct (onset_index_spec t Hd Hon Hne) as (Hk & Hr1 & Hr2). destruct (s_multiple phase).
    + destruct (move_backward_bounds t (onset_index t) T0 T1 d lo hi ltac:(lia) Em) as (L & Hs & Hb). split; [exact L|]. split; [|exact Hb].
      intros k Hkn Hk0. apply Hs. destruct (Nat.le_gt_cases (onset_index t) k) as [|Hlt]; [assumption|].
      pose proof (rel_time_lt t k (onset_index t) Hd Hlt). lra.
    + destruct (move_forward_bounds t (onset_index t) T0 T1 d lo hi Em) as (L & Hs & Hb). split; [exact L|]. split; [|exact Hb].
      intros k Hkn Hk0. apply Hs. destruct (Nat.lt_ge_cases k (onset_index t)) as [|Hge]; [assumption|].
      pose proof (rel_time_mono t (onset_index t) k Hd Hge). lra.
Qed.
Print Assumptions C46_frame.
(** the whole stream *)
Theorem C46_streams deg2km m phase ref ts m' ts' : consistent deg2km m ref -> moveout deg2km m phase ref ts = (m', ts', Ok tt) ->
  Forall2 (fun t t' => snd (moveout_trace deg2km m phase ref t) = Ok t') ts ts'.
Proof. intros Hc. apply moveout_ok_inv; try assumption. apply same_layers_refl. Qed.
Print Assumptions C46_streams.
(** it does succeed *)
Theorem C46_succeeds deg2km m phase ref t c : suitable deg2km m phase ref -> good t -> (1 <= c)%nat ->
  used_layers deg2km m (x_slow t) phase c -> propagates_to deg2km m ref phase c ->
  0 < rel_time t (length (x_data t) - 1) ->
  exists m' t', moveout_trace deg2km m phase ref t = (m', Ok t').
Proof.
  intros (Hv & Hsl & Hps & Hf & Hev & Hcons) (Hd & Hon & Hne) Hc Hu Hr Hlast.
  destruct (moveout_tables deg2km m Hv phase Hps Hf Hev ref Hcons t Hon c Hu Hr) as (m' & l0 & l1 & [O0 O1] & _ & _ & Hcl & E).
  destruct (onset_index_spec t Hd Hon Hne) as (Hk & Hr1 & Hr2).
  assert (S (onset_index t) < length (x_data t))%nat as HS.
  { destruct (Nat.eq_dec (S (onset_index t)) (length (x_data t))) as [Eq|]; [|lia]. replace (length (x_data t) - 1)%nat with (onset_index t) in Hlast by lia. lra. }
  destruct (move_forward_any t (tab l0) (tab l1)) as (d & _ & Ed & _).
  - apply tab_nonempty. intros ->. destruct O0 as [L _]. cbn in L. lia.
  - apply tab_length. destruct O0, O1. lia.
  - unfold first_moved. destruct (Rlt_dec _ _); lia.
  - exists m', (with_data t d). rewrite E, Ed. reflexivity.
Qed.
Print Assumptions C46_succeeds.
Example C46_case d : d <> 0 -> exists m' t', moveout_trace d demo "Ps" (0 * d) (demo_trace d) = (m', Ok t').
Proof.
  intros H. apply (C46_succeeds d demo "Ps" (0 * d) (demo_trace d) 2); [apply demo_suitable | apply demo_good | lia | apply demo_used; [exact H | lra] | apply demo_used; [exact H | lra] |].
  unfold rel_time, secs. cbn. lra.
Qed.

(** ** C47: errors *)
Theorem C47_error_state_partial deg2km : forall ts m phase ref m' ts' e, moveout deg2km m phase ref ts = (m', ts', Err e) ->
  exists done t rest moved mm, ts = done ++ t :: rest /\ ts' = moved ++ t :: rest /\
    moveout deg2km m phase ref done = (mm, moved, Ok tt) /\ snd (moveout_trace deg2km mm phase ref t) = Err e.
Proof.
  induction ts as [|t ts IH]; intros m phase ref m' ts' e E; cbn in E; [discriminate|].
  destruct (moveout_trace deg2km m phase ref t) as [m1 [t1|e1]] eqn:Et.
  - destruct (moveout deg2km m1 phase ref ts) as [[m2 ts2] r2] eqn:Em. inversion E; subst.
    destruct (IH _ _ _ _ _ _ Em) as (dn & t' & rest & mv & mm & -> & -> & H1 & H2).
    exists (t :: dn), t', rest, (t1 :: mv), mm. split; [reflexivity|]. split; [reflexivity|]. split; [|exact H2]. cbn. rewrite Et, H1. reflexivity.
  - inversion E; subst. exists [], t, ts, [], m. split; [reflexivity|]. split; [reflexivity|]. split; [reflexivity|]. rewrite Et. reflexivity.
Qed.
Print Assumptions C47_error_state_partial.
(** a stream is untouched if its first trace is the one that fails *)
Theorem C47_first_trace_partial deg2km m phase ref t ts e : snd (moveout_trace deg2km m phase ref t) = Err e ->
  exists m', moveout deg2km m phase ref (t :: ts) = (m', t :: ts, Err e).
Proof. intros H. cbn. destruct (moveout_trace deg2km m phase ref t) as [m1 r]. cbn in H. subst r. exists m1. reflexivity. Qed.
Print Assumptions C47_first_trace_partial.
Theorem C47_onset_outside deg2km m phase ref t : ~ onset_inside t -> moveout_trace deg2km m phase ref t = (m, Err ValueError).
Proof.
  intros H. unfold moveout_trace. destruct (negb _) eqn:E; [reflexivity|]. apply onset_check in E. contradiction.
Qed.
Print Assumptions C47_onset_outside.

(** one trace moved with known delays: table positions *)
Lemma tab_pos l c i : length l = c -> (i < c)%nat -> (length (tab l) - c + i < length (tab l))%nat /\ nth (length (tab l) - c + i) (tab l) 0 = nth i l 0.
Proof.
  intros L Hi. unfold tab. rewrite app_length. split; [lia|]. rewrite app_nth2 by lia. f_equal. lia.
Qed.
Lemma oriented_at deg2km m s phase c l i a : valid_model m -> ps_phase phase -> (c <= layers m)%nat -> oriented deg2km m s phase c l -> (i < c)%nat ->
  is_delay deg2km m s phase i (sgn_phase phase * a) -> nth i l 0 = a.
Proof.
  intros Hv Hps Hcl [L H] Hi Ha. pose proof (is_delay_unique deg2km m s phase i _ _ Hv Hps ltac:(lia) (H i Hi) Ha) as E.
  apply (f_equal (Rmult (sgn_phase phase))) in E. rewrite <- !Rmult_assoc, sgn_sq in E. lra.
Qed.
Lemma zero_layer deg2km m s phase x : nth 0 (mdz m) 0 = 0 -> is_delay deg2km m s phase 0 x -> x = 0.
Proof. intros H (fp & fs & _ & ->). cbn [rsum]. unfold layer_delay. rewrite H. ring. Qed.

(** ** C76: converted phases are moved to the delay of the reference slowness *)
Theorem C76_arrivals deg2km m phase ref t c i a a' b b' k k' m' t' : suitable deg2km m phase ref -> good t ->
  used_layers deg2km m (x_slow t) phase c -> propagates_to deg2km m ref phase c ->
  nth 0 (mdz m) 0 = 0 ->
  (* delays at two neighbouring interfaces for the slowness of the trace and the reference *)
  (S i < c)%nat ->
  is_delay deg2km m (x_slow t) phase i (sgn_phase phase * a) -> is_delay deg2km m (x_slow t) phase (S i) (sgn_phase phase * a') ->
  is_delay deg2km m ref phase i (sgn_phase phase * b) -> is_delay deg2km m ref phase (S i) (sgn_phase phase * b') ->
  b < b' ->
  (* sample k lies between them, sample k' at the corresponding place of the new trace *)
  (k < length (x_data t))%nat -> (k' < length (x_data t))%nat -> 0 < rel_time t k -> 0 < rel_time t k' ->
  a <= rel_time t k < a' ->
  rel_time t k' = b + (b' - b) * ((rel_time t k - a) / (a' - a)) ->
  moveout_trace deg2km m phase ref t = (m', Ok t') ->
  nth k' (x_data t') 0 = nth k (x_data t) 0.
Proof.
  intros (Hv & Hsl & Hps & Hf & Hev & Hcons) (Hd & Hon & Hne) Hu Hr Hz Hi Ha Ha' Hb Hb' Hbb Hk Hk' Pk Pk' Hak Ek' E.
  destruct (moveout_tables deg2km m Hv phase Hps Hf Hev ref Hcons t Hon c Hu Hr) as (m1 & l0 & l1 & [O0 O1] & _ & _ & Hcl & E1).
  rewrite E1 in E. injection E as -> E. destruct (move_forward t (onset_index t) (tab l0) (tab l1)) as [d|] eqn:Ed; [|discriminate]. cbn [bind] in E. injection E as <-.
  cbn [with_data x_data].
  destruct (table_facts deg2km m Hv Hsl phase Hps Hf c ltac:(lia) ref l1 Hcl O1) as (I1 & N1 & _).
  destruct (table_facts deg2km m Hv Hsl phase Hps Hf c ltac:(lia) _ l0 Hcl O0) as (I0 & N0 & _).
  destruct (oriented_incr deg2km m _ phase c l0 Hv Hsl Hps Hf Hcl O0) as [_ P0].
  pose proof O0 as [L0 _]. pose proof O1 as [L1 _].
  assert (length (tab l0) = length (tab l1)) as Ltab by (apply tab_length; lia).
  destruct (onset_index_spec t Hd Hon Hne) as (Hk0 & Hr1 & Hr2).
  assert (onset_index t < k)%nat as Hok by (destruct (Nat.le_gt_cases k (onset_index t)) as [H|H]; [pose proof (rel_time_mono t k _ Hd H); lra | exact H]).
  assert (onset_index t < k')%nat as Hok' by (destruct (Nat.le_gt_cases k' (onset_index t)) as [H|H]; [pose proof (rel_time_mono t k' _ Hd H); lra | exact H]).
  set (k0 := first_moved t (tab l0) (tab l1)).
  assert (k0 <= S (onset_index t) /\ onset_index t <= k0)%nat as [Hk0' Hk0''] by (unfold k0, first_moved; destruct (Rlt_dec _ _); lia).
  set (mt := moved_times t k0 (tab l0) (tab l1)). assert (length mt = (length (x_data t) - k0)%nat) as Lm by apply moved_times_length.
  (* positions *)
  destruct (tab_pos l0 c i L0 ltac:(lia)) as [Q1 Q2]. destruct (tab_pos l0 c (S i) L0 Hi) as [Q3 Q4].
  destruct (tab_pos l1 c i L1 ltac:(lia)) as [Q5 Q6]. destruct (tab_pos l1 c (S i) L1 Hi) as [Q7 Q8].
  rewrite (oriented_at deg2km m _ phase c l0 i a Hv Hps Hcl O0 ltac:(lia) Ha) in Q2.
  rewrite (oriented_at deg2km m _ phase c l0 (S i) a' Hv Hps Hcl O0 Hi Ha') in Q4.
  rewrite (oriented_at deg2km m _ phase c l1 i b Hv Hps Hcl O1 ltac:(lia) Hb) in Q6.
  rewrite (oriented_at deg2km m _ phase c l1 (S i) b' Hv Hps Hcl O1 Hi Hb') in Q8.
  rewrite <- Ltab in *. set (p := (length (tab l0) - c + i)%nat) in *.
  replace (length (tab l0) - c + S i)%nat with (S p) in * by (unfold p; lia).
  (* new time of a sample between the interfaces *)
  assert (forall x, a <= x < a' -> interp1 (Some 0) None (combine (tab l0) (tab l1)) x = b + (b' - b) * ((x - a) / (a' - a))) as F.
  { intros x Hx. rewrite (interp1_at (Some 0) None x p (tab l0) (tab l1)) by (try lia; try exact I0; rewrite ?Q2, ?Q4; try lra; intros; lra).
    rewrite Q2. destruct (Req_EM_T x a) as [->|Hn].
    - rewrite Q6. replace (a - a) with 0 by ring. unfold Rdiv. ring.
    - destruct (Nat.ltb_spec (S p) (length (tab l0))) as [_|]; [|lia]. rewrite Q4, Q6, Q8. field. lra. }
  assert (nth (k - k0) mt 0 = rel_time t k') as Emk.
  { unfold mt. rewrite moved_times_nth by lia. replace (k0 + (k - k0))%nat with k by lia. rewrite F by exact Hak. symmetry. exact Ek'. }
  assert (increasing mt) as Hinc.
  { apply moved_times_incr; try assumption.
    - pose proof (rel_time_mono t _ _ Hd Hk0''). lra.
    - apply tab_first; [lia | exact P0].
    - intros x Hx _. 
      assert (forall l s, oriented deg2km m s phase c l -> nth 0 l 0 = 0) as Hzero.
      { intros l s [L H]. specialize (H 0%nat ltac:(lia)). apply zero_layer in H; [|exact Hz].
        apply (f_equal (Rmult (sgn_phase phase))) in H. rewrite <- Rmult_assoc, sgn_sq in H. lra. }
      destruct (tab_pos l0 c 0 L0 ltac:(lia)) as [Z1 Z2]. destruct (tab_pos l1 c 0 L1 ltac:(lia)) as [_ Z4].
      rewrite (Hzero l0 _ O0) in Z2. rewrite (Hzero l1 _ O1) in Z4. rewrite <- Ltab in Z4.
      rewrite <- Z4. apply interp1_ge_node; try assumption; [lia|]. rewrite Z2. exact Hx. }
  destruct (move_forward_spec t (tab l0) (tab l1) N0 Ltab I0) as (d' & Ed' & Ld & _ & Hd'). { fold k0. lia. } { exact Hinc. }
  rewrite Ed in Ed'. injection Ed' as <-. fold k0 mt in Hd'. rewrite Hd' by lia.
  rewrite <- Emk.
  rewrite interp1_node; [rewrite nth_skipn; f_equal; lia | rewrite skipn_length; lia | exact Hinc | lia |].
  intros HS. rewrite Emk, Ek'. unfold mt. rewrite moved_times_nth by lia.
  assert (rel_time t k < rel_time t (k0 + S (k - k0))) as Hlt by (apply rel_time_lt; [exact Hd | lia]).
  set (x2 := rel_time t (k0 + S (k - k0))) in *. assert (0 < / (a' - a)) as Hinv by (apply Rinv_0_lt_compat; lra).
  assert ((rel_time t k - a) / (a' - a) < 1) as Hth.
  { apply (Rmult_lt_reg_r (a' - a)); [lra|]. unfold Rdiv. rewrite Rmult_assoc, Rinv_l by lra. lra. }
  destruct (Rlt_dec x2 a') as [H2|H2].
  - rewrite F by lra. assert ((rel_time t k - a) / (a' - a) < (x2 - a) / (a' - a)) by (apply Rmult_lt_compat_r; lra). nra.
  - eapply Rlt_le_trans; [|apply (interp1_ge_node (Some 0) (tab l0) (tab l1) x2 (S p)); try assumption; try lia; rewrite Q4; lra].
    rewrite Q8. nra.
Qed.
Print Assumptions C76_arrivals.
(** a model in which delays for one slowness are exactly twice those of the reference *)
Definition demo3 : smodel := mkModel [0; 0; 1] [0; 1; 1] [1 / 13; 1 / 13; 1 / 13] [1 / 15; 1 / 15; 1 / 15] true [].
Lemma demo3_suitable d ref : suitable d demo3 "Ps" ref.
Proof.
  split; [|split; [|split; [phase_ok | split; [unfold forward; norm_upper; cbn; lia | split; [reflexivity | intros ph t; discriminate]]]]].
  - repeat split; destruct j as [|[|[|j]]]; cbn in *; try lra; unfold layers in *; cbn in *; lia.
  - intros [|[|[|j]]] Hj; cbn in *; lra.
Qed.
Lemma demo3_used d h : d <> 0 -> 0 <= h <= 13 -> used_layers d demo3 (h * d) "Ps" 3 /\ propagates_to d demo3 (h * d) "Ps" 3.
Proof.
  intros Hd Hh. assert (propagates_to d demo3 (h * d) "Ps" 3) as H.
  { intros [|[|[|j]]] Hj; [| | |lia]; rewrite div_deg by exact Hd; unfold evanescent; cbn; rewrite Rabs_pos_eq by lra; split; intros _; lra. }
  split; [left; split; [reflexivity | exact H] | exact H].
Qed.
Lemma demo3_delay d h q0 q1 : d <> 0 -> snell (1 / 13) h q0 -> snell (1 / 15) h q1 ->
  is_delay d demo3 (h * d) "Ps" 0 (sgn_phase "Ps" * 0) /\ is_delay d demo3 (h * d) "Ps" 1 (sgn_phase "Ps" * (q1 - q0)) /\
  is_delay d demo3 (h * d) "Ps" 2 (sgn_phase "Ps" * (2 * (q1 - q0))).
Proof.
  intros Hd S0 S1. unfold sgn_phase. norm_upper. cbv iota.
  assert (forall j, (j <= 2)%nat -> (char_in "P" (upper "Ps") = true -> snell (nth j (mvp demo3) 0) (h * d / d) q0) /\ (char_in "S" (upper "Ps") = true -> snell (nth j (mvs demo3) 0) (h * d / d) q1)) as H.
  { intros [|[|[|j]]] Hj; [| | |lia]; rewrite div_deg by exact Hd; split; intros _; assumption. }
  destruct (C41_phases q0 q1 0) as (E0 & _). destruct (C41_phases q0 q1 1) as (E1 & _).
  repeat apply conj; exists (fun _ => q0), (fun _ => q1); (split; [intros j Hj; apply H; lia|]);
    unfold rsum; cbn [demo3 mdz nth]; rewrite ?E0, ?E1; ring.
Qed.
Definition demo3_trace (d : R) : mtrace :=
  mkMT 0 2000000000 1000000000 [0; 0; 1; 0; 3; 0; 7; 5; 0; 0; 2; 0; 1] (12 * d) None None.
Example C76_case d : d <> 0 -> exists m' t', moveout_trace d demo3 "Ps" (0 * d) (demo3_trace d) = (m', Ok t') /\
  nth 4 (x_data t') 0 = 7 /\ nth 3 (x_data t') 0 = 3.
Proof.
  intros Hd. assert (good (demo3_trace d)) as Hg by (unfold good, onset_inside; cbn; split; [lia|]; split; [lia | discriminate]).
  destruct (C46_succeeds d demo3 "Ps" (0 * d) (demo3_trace d) 3) as (m' & t' & E);
    [apply demo3_suitable | exact Hg | lia | apply demo3_used; [exact Hd | lra] | apply demo3_used; [exact Hd | lra] | unfold rel_time, secs; cbn; lra |].
  exists m', t'. split; [exact E|].
  assert (snell (1 / 13) 12 5) as S1 by (split; [lra | field]). assert (snell (1 / 15) 12 9) as S2 by (split; [lra | field]).
  assert (snell (1 / 13) 0 13) as S3 by (split; [lra | field]). assert (snell (1 / 15) 0 15) as S4 by (split; [lra | field]).
  destruct (demo3_delay d 12 5 9 Hd S1 S2) as (A0 & A1 & A2). destruct (demo3_delay d 0 13 15 Hd S3 S4) as (B0 & B1 & B2).
  split.
  - apply (C76_arrivals d demo3 "Ps" (0 * d) (demo3_trace d) 3 1 (9 - 5) (2 * (9 - 5)) (15 - 13) (2 * (15 - 13)) 6 4 m' t'); try assumption;
      try (apply demo3_suitable); try (apply demo3_used; [exact Hd | lra]); try reflexivity; try lra; try (cbn; lia); unfold rel_time, secs; cbn; lra.
  - apply (C76_arrivals d demo3 "Ps" (0 * d) (demo3_trace d) 3 0 0 (9 - 5) 0 (15 - 13) 4 3 m' t'); try assumption;
      try (apply demo3_suitable); try (apply demo3_used; [exact Hd | lra]); try reflexivity; try lra; try (cbn; lia); unfold rel_time, secs; cbn; lra.
Qed.

(** ** C44, C45: samples at exactly the largest delay *)
(** such a sample is replaced by the last sample of the trace *)
Theorem C44_largest_delay_refuted deg2km m phase ref t c tmax k : suitable deg2km m phase ref -> good t ->
  x_slow t = ref -> (2 <= c)%nat -> used_layers deg2km m ref phase c ->
  is_delay deg2km m ref phase (c - 1) (sgn_phase phase * tmax) -> 0 < tmax ->
  (k < length (x_data t))%nat -> rel_time t k = tmax ->
  exists m' d, moveout_trace deg2km m phase ref t = (m', Ok (with_data t d)) /\ nth k d 0 = last (x_data t) 0.
Proof.
  intros Hsuit Hg Hs Hc Hu Hmax Hpos Hk Hx.
  destruct (C44_identity_partial deg2km m phase ref t c tmax Hsuit Hg Hs Hc Hu Hmax) as (m' & d & E & L & _).
  exists m', d. split; [exact E|].
  destruct Hsuit as (Hv & Hsl & Hps & Hf & Hev & Hcons). destruct Hg as (Hd & Hon & Hne).
  assert (propagates_to deg2km m ref phase c) as Hr.
  { destruct Hu as [[_ H]|(_ & H & _)]; [exact H|]. intros i Hi. apply H. lia. }
  pose proof Hu as Hu'. rewrite <- Hs in Hu'.
  destruct (moveout_tables deg2km m Hv phase Hps Hf Hev ref Hcons t Hon c Hu' Hr) as (m1 & l0 & l1 & [O0 O1] & _ & _ & Hcl & E1).
  rewrite Hs in O0. pose proof (oriented_unique deg2km m ref phase c l0 l1 Hv Hps Hcl O0 O1) as ->.
  rewrite E in E1. injection E1 as _ E1. destruct (move_forward t (onset_index t) (tab l1) (tab l1)) as [d1|] eqn:Ed; [|discriminate].
  cbn [bind] in E1. injection E1 as <-.
  destruct (table_facts deg2km m Hv Hsl phase Hps Hf c ltac:(lia) ref l1 Hcl O1) as (T1 & T2 & T3 & T4 & T5).
  destruct (oriented_incr deg2km m ref phase c l1 Hv Hsl Hps Hf Hcl O1) as [_ Hp].
  pose proof (tab_first l1 ltac:(destruct O1; lia) Hp) as Tf.
  assert (last l1 0 = tmax) as Em.
  { pose proof (oriented_last deg2km m phase c ltac:(lia) ref l1 O1) as H.
    pose proof (is_delay_unique deg2km m ref phase (c - 1) _ _ Hv Hps ltac:(lia) H Hmax) as H2.
    apply (f_equal (Rmult (sgn_phase phase))) in H2. rewrite <- !Rmult_assoc, sgn_sq in H2. lra. }
  apply (move_identity_exact t (tab l1) d k); try assumption; rewrite T3, Em; [lra | exact Hx].
Qed.
Print Assumptions C44_largest_delay_refuted.
(** witness, and the same for repeated moveout: 1 after the first time, 0 after the second *)
Theorem C45_largest_delay_refuted d : d <> 0 -> exists m phase ref t m1 m2 t1 t2 k,
  suitable d m phase ref /\ good t /\ (k < length (x_data t))%nat /\ x_slow t = ref /\ nth k (x_data t) 0 = 5 /\
  stream_moveout d "P" m (Some phase) ref [t] = (m1, [t1], Ok tt) /\ nth k (x_data t1) 0 = 1 /\
  stream_moveout d "P" m1 (Some phase) ref [t1] = (m2, [t2], Ok tt) /\ nth k (x_data t2) 0 = 0.
Proof.
  intros Hd. set (t := mkMT 0 2000000000 1000000000 [0; 0; 1; 0; 3; 0; 5; 7; 0; 0; 2; 0; 1] (0 * d) None None).
  assert (forall dd b mo, length dd = 13%nat -> good (mkMT 0 2000000000 1000000000 dd (0 * d) b mo)) as Hgood.
  { intros dd b mo L. unfold good, onset_inside, x_end. cbn [x_delta x_start x_onset x_data]. rewrite L. cbn. split; [lia|]. split; [lia|].
    intros ->. discriminate. }
  assert (snell (1 / 13) 0 13) as S3 by (split; [lra | field]). assert (snell (1 / 15) 0 15) as S4 by (split; [lra | field]).
  destruct (demo3_delay d 0 13 15 Hd S3 S4) as (_ & _ & B2).
  destruct (demo3_used d 0 Hd ltac:(lra)) as [U _].
  assert (is_delay d demo3 (0 * d) "Ps" (3 - 1) (sgn_phase "Ps" * 4)) as Hmax by (replace 4 with (2 * (15 - 13)) by lra; exact B2).
  pose proof (demo3_suitable d (0 * d)) as Hsuit. assert (good t) as Hg by (apply Hgood; reflexivity).
  destruct (C44_largest_delay_refuted d demo3 "Ps" (0 * d) t 3 4 6 Hsuit Hg eq_refl ltac:(lia) U Hmax ltac:(lra) ltac:(cbn; lia)) as (m1 & d1 & E1 & K1).
  { unfold rel_time, secs. cbn. lra. }
  destruct (C44_identity_partial d demo3 "Ps" (0 * d) t 3 4 Hsuit Hg eq_refl ltac:(lia) U Hmax) as (m1' & d1' & E1' & L1 & K1').
  rewrite E1 in E1'. injection E1' as <- <-.
  set (t1 := tag_moveout "Ps" (0 * d) (with_data t d1)).
  assert (good t1) as Hg1 by (apply Hgood; exact L1).
  assert (moveout d demo3 "Ps" (0 * d) [t] = (m1, [with_data t d1], Ok tt)) as Em by (cbn [moveout]; rewrite E1; reflexivity).
  pose proof Hsuit as (Hv & Hsl & Hps & Hf & Hev & Hcons).
  destruct (moveout_layers d "Ps" (0 * d) [t] demo3 m1 _ _ Hcons Em) as [Hsame Hcons1].
  destruct (C44_largest_delay_refuted d demo3 "Ps" (0 * d) t1 3 4 6 Hsuit Hg1 eq_refl ltac:(lia) U Hmax ltac:(lra)) as (m2 & d2 & E2 & K2).
  { cbn [t1 tag_moveout with_data x_data]. rewrite L1. cbn. lia. }
  { unfold rel_time, secs. cbn. lra. }
  destruct (moveout_trace d m1 "Ps" (0 * d) t1) as [m3 r3] eqn:E3.
  assert (r3 = Ok (with_data t1 d2)) as ->.
  { pose proof (moveout_trace_fresh d demo3 m1 "Ps" (0 * d) t1 Hsame Hcons Hcons1) as H. rewrite E2, E3 in H. cbn in H. congruence. }
  exists demo3, "Ps", (0 * d), t, m1, m3, t1, (tag_moveout "Ps" (0 * d) (with_data t1 d2)), 6%nat.
  split; [exact Hsuit|]. split; [exact Hg|]. split; [cbn; lia|]. split; [reflexivity|]. split; [reflexivity|].
  split; [unfold stream_moveout; rewrite Em; reflexivity|]. split; [exact K1|].
  split; [unfold stream_moveout; cbn [moveout]; rewrite E3; reflexivity|].
  cbn [tag_moveout with_data x_data]. rewrite K2. cbn [t1 tag_moveout with_data x_data].
  assert (d1 <> []) as Hn by (intros ->; discriminate).
  rewrite last_nth_R by exact Hn. rewrite L1. apply (K1' 12%nat); [cbn; lia|]. unfold rel_time, secs. cbn. lra.
Qed.
Print Assumptions C45_largest_delay_refuted.

(** ** C47 refuted: the first trace is corrected, its headers still claim the old slowness *)
Theorem C47_half_done_refuted d method : d <> 0 -> exists m phase ref t1 t2 m' t1' t2',
  suitable d m phase ref /\ good t1 /\
  stream_moveout d method m (Some phase) ref [t1; t2] = (m', [t1'; t2'], Err ValueError) /\
  x_data t1' <> x_data t1 /\ x_slow t1' = x_slow t1 /\ x_moveout t1' = None.
Proof.
  intros Hd. set (t2 := mkMT 0 (-1) 1000000000 [1; 2] (1 * d) None None).
  destruct (C44_case d Hd) as (Hs & Hg & Esl & Hu & Hmax & H5 & H6).
  destruct (C44_identity_partial d demo "Ps" (1 * d) (demo_trace d) 2 (2 * sqrt 3) Hs Hg Esl ltac:(lia) Hu Hmax) as (m1 & dd & E & L & K).
  exists demo, "Ps", (1 * d), (demo_trace d), t2, m1, (with_data (demo_trace d) dd), t2.
  split; [exact Hs|]. split; [exact Hg|]. split; [|split; [|split; reflexivity]].
  - unfold stream_moveout. cbn [moveout]. rewrite E. rewrite C47_onset_outside; [reflexivity|]. unfold onset_inside, t2. cbn. lia.
  - cbn [with_data x_data]. intros Ed. destruct (K 7%nat ltac:(cbn; lia)) as [_ K7].
    assert (rel_time (demo_trace d) 6 <= rel_time (demo_trace d) 7) as Hm by (apply rel_time_mono; [cbn; lia | lia]).
    specialize (K7 ltac:(lra)). rewrite Ed in K7. cbn in K7. lra.
Qed.
Print Assumptions C47_half_done_refuted.

(** ** C76 for S multiples: one sample off *)
Definition demo4 : smodel := mkModel [0; 0; 1 / 2] [0; 1 / 2; 1 / 2] [1 / 2; 1 / 2; 1 / 2] [1 / 2; 1 / 2; 1 / 2] true [].
Lemma demo4_valid : valid_model demo4.
Proof. repeat split; destruct j as [|[|[|j]]]; cbn in *; try lra; unfold layers in *; cbn in *; lia. Qed.
Lemma demo4_delay d h q : d <> 0 -> snell (1 / 2) h q ->
  forall i, (i < 3)%nat -> is_delay d demo4 (h * d) "SSPP" i (INR i * q).
Proof.
  intros Hd S0.
  assert (forall j, (j <= 2)%nat -> (char_in "P" (upper "SSPP") = true -> snell (nth j (mvp demo4) 0) (h * d / d) q) /\ (char_in "S" (upper "SSPP") = true -> snell (nth j (mvs demo4) 0) (h * d / d) q)) as H.
  { intros [|[|[|j]]] Hj; [| | |lia]; rewrite div_deg by exact Hd; split; intros _; assumption. }
  assert (forall dz, layer_delay "SSPP" q q dz = 2 * dz * q) as El by (intros dz; unfold layer_delay; norm_upper; cbn; ring).
  intros i Hi. exists (fun _ => q), (fun _ => q). split; [intros j Hj; apply H; lia|].
  destruct i as [|[|[|i]]]; [| | |lia]; unfold rsum; cbn [demo4 mdz nth]; rewrite ?El; cbn [INR]; field.
Qed.
Lemma demo4_used d h : d <> 0 -> 0 <= h <= 2 -> used_layers d demo4 (h * d) "SSPP" 3 /\ propagates_to d demo4 (h * d) "SSPP" 3.
Proof.
  intros Hd Hh. assert (propagates_to d demo4 (h * d) "SSPP" 3) as H.
  { intros [|[|[|j]]] Hj; [| | |lia]; rewrite div_deg by exact Hd; unfold evanescent; cbn; rewrite Rabs_pos_eq by lra; split; intros _; lra. }
  split; [left; split; [reflexivity | exact H] | exact H].
Qed.
Lemma oriented_is d h q l : d <> 0 -> snell (1 / 2) h q -> oriented d demo4 (h * d) "SSPP" 3 l -> l = [0; - q; - (2 * q)].
Proof.
  intros Hd S0 O. apply (oriented_unique d demo4 (h * d) "SSPP" 3); [apply demo4_valid | phase_ok | unfold layers; cbn; lia | exact O |].
  split; [reflexivity|]. intros i Hi. pose proof (demo4_delay d h q Hd S0 i Hi) as H.
  replace (sgn_phase "SSPP" * nth i [0; - q; - (2 * q)] 0) with (INR i * q); [exact H|].
  unfold sgn_phase. norm_upper. cbv iota. destruct i as [|[|[|i]]]; [| | |lia]; cbn; ring.
Qed.
Ltac rdec := repeat match goal with
  | |- context [Rle_dec ?a ?b] => destruct (Rle_dec a b) as [?|?]; [try (exfalso; lra)|try (exfalso; lra)]
  | |- context [Rlt_dec ?a ?b] => destruct (Rlt_dec a b) as [?|?]; [try (exfalso; lra)|try (exfalso; lra)]
  | |- context [Req_EM_T ?a ?b] => destruct (Req_EM_T a b) as [?|?]; [try (exfalso; lra)|try (exfalso; lra)]
  end.
(** the pulse one second before the S wave belongs to the conversion at 1 s. It must be
    moved to 2 s before the S wave *)
Theorem C76_s_multiple_refuted d : d <> 0 -> exists m phase ref t m' t',
  valid_model m /\ s_slower m /\ ps_phase phase /\ s_multiple phase = true /\ consistent d m ref /\ good t /\
  is_delay d m (x_slow t) phase 1 1 /\ is_delay d m ref phase 1 2 /\
  rel_time t 1 = - (1) /\ rel_time t 0 = - (2) /\
  moveout_trace d m phase ref t = (m', Ok t') /\ nth 1 (x_data t) 0 = 1 /\ nth 0 (x_data t') 0 = 1 / 2.
Proof.
  intros Hd. set (t := mkMT (-2000000000) 0 1000000000 [0; 1; 0] (sqrt 3 * d) None None).
  assert (snell (1 / 2) (sqrt 3) 1) as S1 by (split; [lra|]; rewrite sqrt_sqrt by lra; field).
  assert (snell (1 / 2) 0 2) as S2 by (split; [lra | field]).
  assert (ps_phase "SSPP") as Hps by phase_ok.
  assert (consistent d demo4 (0 * d)) as Hc by (intros ph u; discriminate).
  assert (0 <= sqrt 3 <= 2) as Hq by (pose proof (sqrt_pos 3); pose proof (sqrt_sqrt 3 ltac:(lra)); split; [assumption | nra]).
  destruct (demo4_used d (sqrt 3) Hd Hq) as [U1 _]. destruct (demo4_used d 0 Hd ltac:(lra)) as [_ P0].
  destruct (stretch_tables d demo4 (sqrt 3 * d) "SSPP" (0 * d) 3 demo4_valid Hps eq_refl U1 P0 Hc) as (m' & l0 & l1 & E & _ & _ & _ & O0 & O1).
  apply (oriented_is d (sqrt 3) 1 l0 Hd S1) in O0. apply (oriented_is d 0 2 l1 Hd S2) in O1. subst l0 l1.
  assert (exists dd, move_backward t 2 (tab [0; - (1); - (2 * 1)]) (tab [0; - (2); - (2 * 2)]) = Ok dd /\ nth 0 dd 0 = 1 / 2) as (dd & Ed & En).
  { unfold move_backward.
    assert (map Ropp (map (fun k => - secs (x_start t - x_onset t + Z.of_nat 2 * x_delta t) - INR k * secs (x_delta t)) (seq 0 2)) = [0; 1]) as Ets.
    { cbn -[secs]. unfold secs. repeat f_equal; lra. }
    rewrite Ets. clear Ets. cbn [tab app firstn skipn map rev t x_data].
    rewrite np_interp_ok; [| reflexivity | discriminate | intros [|[|[|[|[|?]]]]] [|[|[|[|[|?]]]]]; cbn; intros; (lra || lia)]. cbn [bind].
    assert (map (interp1 (Some 0) (Some 0) (combine [- - - (2 * 1); - - - (1); - 0; - - (1); - - (2 * 1)] [- - - (2 * 2); - - - (2); - 0; - - (2); - - (2 * 2)])) [0; 1] = [0; 2]) as En.
    { cbn. rdec. repeat f_equal; lra. }
    rewrite En. clear En. rewrite np_interp_ok; [| reflexivity | discriminate | intros [|[|?]] [|[|?]]; cbn; intros; (lra || lia)]. cbn [bind]. eexists. split; [reflexivity|].
    cbn. rdec. first [lra | (field; lra) | field]. }
  exists demo4, "SSPP", (0 * d), t, m', (with_data t dd).
  split; [apply demo4_valid|]. split; [intros [|[|[|j]]] Hj; cbn in *; lra|]. split; [exact Hps|]. split; [reflexivity|]. split; [exact Hc|].
  split; [unfold good, onset_inside; cbn; split; [lia|]; split; [lia | discriminate]|].
  split. { pose proof (demo4_delay d (sqrt 3) 1 Hd S1 1 ltac:(lia)) as H. cbn [INR] in H. rewrite Rmult_1_l in H. exact H. }
  split. { pose proof (demo4_delay d 0 2 Hd S2 1 ltac:(lia)) as H. cbn [INR] in H. rewrite Rmult_1_l in H. exact H. }
  split; [unfold rel_time, secs; cbn; lra|]. split; [unfold rel_time, secs; cbn; lra|].
  split; [|split; [reflexivity | exact En]].
  unfold moveout_trace. change (negb _) with false. cbv iota. change (x_slow t) with (sqrt 3 * d). rewrite E. cbv iota.
  rewrite !finite_some. change (s_multiple "SSPP") with true. cbv iota. change (Z.to_nat _) with 2%nat. rewrite Ed. reflexivity.
Qed.
Print Assumptions C76_s_multiple_refuted.

(** ** C77: moveout accepts every onset inside the trace *)
(** proved if there is a sample after the onset: C46_succeeds. Without one, moveout fails
    for slownesses with larger delays than the reference *)
Theorem C77_last_sample_refuted deg2km m phase ref t c a b : suitable deg2km m phase ref -> good t -> (1 <= c)%nat ->
  used_layers deg2km m (x_slow t) phase c -> propagates_to deg2km m ref phase c ->
  is_delay deg2km m (x_slow t) phase (c - 1) (sgn_phase phase * a) -> is_delay deg2km m ref phase (c - 1) (sgn_phase phase * b) ->
  rel_time t (length (x_data t) - 1) <= 0 -> b < a ->
  exists m', moveout_trace deg2km m phase ref t = (m', Err ValueError).
Proof.
  intros (Hv & Hsl & Hps & Hf & Hev & Hcons) (Hd & Hon & Hne) Hc Hu Hr Ha Hb Hlast Hab.
  destruct (moveout_tables deg2km m Hv phase Hps Hf Hev ref Hcons t Hon c Hu Hr) as (m' & l0 & l1 & [O0 O1] & _ & _ & Hcl & E).
  destruct (onset_index_spec t Hd Hon Hne) as (Hk & Hr1 & Hr2).
  assert (S (onset_index t) = length (x_data t)) as HS.
  { destruct (Nat.eq_dec (S (onset_index t)) (length (x_data t))) as [|Hn]; [assumption|]. exfalso.
    pose proof (rel_time_mono t (S (onset_index t)) (length (x_data t) - 1) Hd ltac:(lia)) as H. rewrite rel_time_S in H.
    pose proof (secs_pos _ Hd). lra. }
  exists m'. rewrite E.
  assert (l0 <> []) as N0 by (intros ->; destruct O0 as [L _]; cbn in L; lia). assert (l1 <> []) as N1 by (intros ->; destruct O1 as [L _]; cbn in L; lia).
  rewrite move_forward_empty; [reflexivity | apply tab_nonempty; exact N0 | apply tab_length; destruct O0, O1; lia |].
  unfold first_moved. rewrite !tab_last by assumption.
  assert (last l0 0 = a) as ->.
  { rewrite last_nth_R by exact N0. pose proof O0 as [L _]. rewrite L. apply (oriented_at deg2km m (x_slow t) phase c); try assumption. lia. }
  assert (last l1 0 = b) as ->.
  { rewrite last_nth_R by exact N1. pose proof O1 as [L _]. rewrite L. apply (oriented_at deg2km m ref phase c); try assumption. lia. }
  destruct (Rlt_dec b a); [exact HS | lra].
Qed.
Print Assumptions C77_last_sample_refuted.
Example C77_case d : d <> 0 -> let t := mkMT 0 1000000000 1000000000 [3; 4] (12 * d) None None in
  good t /\ rel_time t (length (x_data t) - 1) <= 0 /\ exists m', moveout_trace d demo3 "Ps" (0 * d) t = (m', Err ValueError).
Proof.
  intros Hd t. assert (good t) as Hg by (unfold good, onset_inside; cbn; split; [lia|]; split; [lia | discriminate]).
  assert (rel_time t (length (x_data t) - 1) <= 0) as Hl by (unfold rel_time, secs; cbn; lra).
  split; [exact Hg|]. split; [exact Hl|].
  assert (snell (1 / 13) 12 5) as S1 by (split; [lra | field]). assert (snell (1 / 15) 12 9) as S2 by (split; [lra | field]).
  assert (snell (1 / 13) 0 13) as S3 by (split; [lra | field]). assert (snell (1 / 15) 0 15) as S4 by (split; [lra | field]).
  destruct (demo3_delay d 12 5 9 Hd S1 S2) as (_ & _ & A2). destruct (demo3_delay d 0 13 15 Hd S3 S4) as (_ & _ & B2).
  apply (C77_last_sample_refuted d demo3 "Ps" (0 * d) t 3 (2 * (9 - 5)) (2 * (15 - 13))); try assumption; try lra; try lia;
    [apply demo3_suitable | apply demo3_used; [exact Hd | lra] | apply demo3_used; [exact Hd | lra]].
Qed.

(** ** C78: lists as arguments *)
(** lists are accepted without n, the instance cannot be used *)
Theorem C78_lists_refuted deg2km z vp vs m s phase : new_model false z vp vs None = Ok m -> ps_phase phase ->
  delay_times deg2km m s phase = Err TypeError.
Proof.
  unfold new_model. destruct (negb _); [discriminate|]. intros E Hps. injection E as <-.
  unfold delay_times, vertical_slowness. cbn [is_array negb]. rewrite upper_idem.
  assert (char_in "P" (upper phase) || char_in "S" (upper phase) = true) as Hor.
  { destruct Hps as [Hne Hch]. destruct (upper phase) as [|c u] eqn:Eu; [destruct phase; [congruence | discriminate]|].
    destruct (Hch c) as [-> | ->]; [cbn; rewrite Ascii.eqb_refl; reflexivity | reflexivity |]. cbn. rewrite orb_true_r. reflexivity. }
  rewrite Hor. reflexivity.
Qed.
Print Assumptions C78_lists_refuted.
Example C78_case : exists m, new_model false [0; 10; 20] [6; 7; 8] [3; 4; 5] None = Ok m.
Proof. eexists. reflexivity. Qed.
(** arrays, or lists together with n, give arrays *)
Theorem C78_arrays_partial arr z vp vs n m : (arr = true \/ n <> None) -> new_model arr z vp vs n = Ok m -> is_array m = true.
Proof.
  unfold new_model. destruct (negb _); [discriminate|]. intros H. destruct n as [n|].
  - destruct (interpolate_n z n); [|discriminate]. cbn [bind]. destruct (interpolate_n vp n); [|discriminate]. cbn [bind].
    destruct (interpolate_n vs n); [|discriminate]. cbn [bind]. intros E. injection E as <-. reflexivity.
  - intros E. injection E as <-. cbn. destruct H; congruence.
Qed.
Print Assumptions C78_arrays_partial.

(** ** C79: headers after RFStream.moveout *)
Theorem C79_headers deg2km method m phase ref ts m' ts' :
  stream_moveout deg2km method m phase ref ts = (m', ts', Ok tt) ->
  exists p, (phase = Some p \/ phase = None /\ (method = "P" /\ p = "Ps" \/ method = "S" /\ p = "Sp")) /\
    Forall2 (fun t t' => x_slow t' = ref /\ x_before t' = Some (x_slow t) /\ x_moveout t' = Some p /\
                         x_start t' = x_start t /\ x_onset t' = x_onset t /\ x_delta t' = x_delta t) ts ts'.
Proof.
  intros E. unfold stream_moveout in E.
  assert (forall p, (let '(m0, ts0, r) := moveout deg2km m p ref ts in match r with Ok _ => (m0, map (tag_moveout p ref) ts0, Ok tt) | Err e => (m0, ts0, Err e) end) = (m', ts', Ok tt) ->
     Forall2 (fun t t' => x_slow t' = ref /\ x_before t' = Some (x_slow t) /\ x_moveout t' = Some p /\
                         x_start t' = x_start t /\ x_onset t' = x_onset t /\ x_delta t' = x_delta t) ts ts') as H.
  { intros p. destruct (moveout deg2km m p ref ts) as [[m0 ts0] [[]|e]] eqn:Em; [|discriminate]. intros E'. injection E' as _ <-.
    clear E m'. revert m m0 ts0 Em. induction ts as [|t ts IH]; intros m m0 ts0 Em; cbn in Em.
    - injection Em as _ <-. constructor.
    - destruct (moveout_trace deg2km m p ref t) as [m1 [t1|e]] eqn:Et; [|discriminate].
      destruct (moveout deg2km m1 p ref ts) as [[m2 ts2] r2] eqn:Em2. inversion Em; subst. cbn [map]. constructor; [|apply (IH _ _ _ Em2)].
      destruct (moveout_trace_inv deg2km m p ref t m1 t1 Et) as (_ & _ & _ & d & _ & ->). repeat split. }
  destruct phase as [p|].
  - exists p. split; [left; reflexivity|]. apply H. destruct (moveout deg2km m p ref ts) as [[m0 ts0] [[]|e]]; exact E.
  - unfold default_phase in E. destruct (String.eqb_spec method "P") as [->|].
    + exists "Ps". split; [right; split; [reflexivity | left; auto]|]. apply H. destruct (moveout deg2km m "Ps" ref ts) as [[m0 ts0] [[]|e]]; exact E.
    + destruct (String.eqb_spec method "S") as [->|]; [|discriminate].
      exists "Sp". split; [right; split; [reflexivity | right; auto]|]. apply H. destruct (moveout deg2km m "Sp" ref ts) as [[m0 ts0] [[]|e]]; exact E.
Qed.
Print Assumptions C79_headers.
Example C79_case d : d <> 0 -> exists m' ts', stream_moveout d "P" demo3 None (0 * d) [demo3_trace d] = (m', ts', Ok tt).
Proof.
  intros Hd. destruct (C76_case d Hd) as (m' & t' & E & _). unfold stream_moveout. cbn [default_phase String.eqb Ascii.eqb Bool.eqb moveout]. 
  rewrite E. eexists. eexists. reflexivity.
Qed.

(** ** C48: piercing point distance *)
(** The code returns the distance for a point one layer too deep: at depth z_(i+1) plus
    the same fraction of the next layer. *)
Theorem C48_distance_partial deg2km m s phase qp qs i d : valid_model m -> contiguous m -> increasing (mz m) ->
  Nat.odd (String.length phase) = true -> ps_phase phase ->
  (S i < layers m)%nat -> nth i (mz m) 0 <= d < nth (S i) (mz m) 0 -> crosses deg2km m s phase qp qs (S i) ->
  let theta := (d - nth i (mz m) 0) / nth i (mdz m) 0 in
  ppoint_distance deg2km m d s phase =
    Ok (Some (leg_distance m phase (s / deg2km) qp qs (S i) (nth (S i) (mz m) 0 + theta * nth (S i) (mdz m) 0))).
Proof.
  intros Hv Hcon Hz Hodd Hps Hi Hd Hc theta.
  rewrite (ppoint_formula deg2km m Hv s phase qp qs i d Hodd Hps Hz Hi Hd Hc). cbv zeta. do 2 f_equal.
  unfold leg_distance, ray_distance. rewrite (Hcon i Hi) in *. set (np := INR (count_char "P" (upper phase))). set (ns := INR (count_char "S" (upper phase))).
  change (rsum (S (S i)) (step deg2km m s qp)) with (rsum (S i) (step deg2km m s qp) + step deg2km m s qp (S i)).
  change (rsum (S (S i)) (step deg2km m s qs)) with (rsum (S i) (step deg2km m s qs) + step deg2km m s qs (S i)).
  assert (nth i (mdz m) 0 <> 0) as Hdz by lra. unfold theta, step, Rdiv.
  set (A := rsum (S i) _). set (B := rsum (S i) _).
  replace (nth i (mz m) 0 + nth i (mdz m) 0 - nth i (mz m) 0) with (nth i (mdz m) 0) by ring.
  ring.
Qed.
Print Assumptions C48_distance_partial.
(** hence it is never too small, and too large for every inclined ray *)
Theorem C48_too_far_refuted deg2km m s q i d : valid_model m -> contiguous m -> increasing (mz m) ->
  (S i < layers m)%nat -> nth i (mz m) 0 <= d < nth (S i) (mz m) 0 -> 0 < s / deg2km ->
  crosses deg2km m s "S" q q (S i) -> 0 < nth i (mdz m) 0 ->
  exists x, ppoint_distance deg2km m d s "S" = Ok (Some x) /\ ray_distance m (s / deg2km) q i d < x.
Proof.
  intros Hv Hcon Hz Hi Hd Hh Hc Hdz.
  assert (forall j, (j <= S i)%nat -> 0 < q j) as Hq by (intros j Hj; destruct (Hc j Hj) as [_ H]; apply H; reflexivity).
  assert (ps_phase "S") as Hps by phase_ok.
  eexists. split; [apply (ppoint_formula deg2km m Hv s "S" q q i d eq_refl Hps Hz Hi Hd Hc)|].
  change (INR (count_char "P" (upper "S"))) with 0. change (INR (count_char "S" (upper "S"))) with 1.
  change (rsum (S (S i)) (step deg2km m s q)) with (rsum (S i) (step deg2km m s q) + step deg2km m s q (S i)).
  change (rsum (S i) (step deg2km m s q)) with (rsum i (step deg2km m s q) + step deg2km m s q i).
  unfold ray_distance. change (fun j => nth j (mdz m) 0 * (s / deg2km) / q j) with (step deg2km m s q).
  rewrite (Hcon i Hi) in *. replace (nth i (mz m) 0 + nth i (mdz m) 0 - nth i (mz m) 0) with (nth i (mdz m) 0) by ring.
  set (th := (d - nth i (mz m) 0) / nth i (mdz m) 0).
  assert (d - nth i (mz m) 0 = th * nth i (mdz m) 0) as Eth by (unfold th; field; lra).
  assert (0 <= th < 1) as Hth.
  { split; apply (Rmult_le_reg_r (nth i (mdz m) 0)) || apply (Rmult_lt_reg_r (nth i (mdz m) 0)); lra. }
  assert (0 < step deg2km m s q i) as Hs0.
  { unfold step. apply Rmult_lt_0_compat; [apply Rmult_lt_0_compat; assumption | apply Rinv_0_lt_compat, Hq; lia]. }
  assert (0 <= step deg2km m s q (S i)) as Hs1.
  { destruct Hv as (_ & _ & _ & _ & Hv). destruct (Hv (S i) Hi) as (_ & _ & H). unfold step.
    apply Rmult_le_pos; [apply Rmult_le_pos; lra | apply Rlt_le, Rinv_0_lt_compat, Hq; lia]. }
  assert ((d - nth i (mz m) 0) * (s / deg2km) / q i = th * step deg2km m s q i) as E1 by (rewrite Eth; unfold step, Rdiv; ring).
  rewrite E1. set (r := rsum i (step deg2km m s q)). set (a := step deg2km m s q i) in *. set (b := step deg2km m s q (S i)) in *.
  assert (rsum (S (S i)) (step deg2km m s q) = r + a + b) as -> by reflexivity. assert (rsum (S i) (step deg2km m s q) = r + a) as -> by reflexivity.
  replace ((0 * (r + a + b) + 1 * (r + a + b) - (0 * (r + a) + 1 * (r + a))) * (d - nth i (mz m) 0) / nth i (mdz m) 0) with (b * th) by (unfold th; field; lra).
  assert (th * a < a) by nra. assert (0 <= b * th) by nra. lra.
Qed.
Print Assumptions C48_too_far_refuted.
Example C48_case d : d <> 0 -> contiguous demo /\ increasing (mz demo) /\ crosses d demo (1 * d) "S" (fun _ => sqrt 3) (fun _ => sqrt 3) 1 /\ 0 < 1 * d / d.
Proof.
  intros H. split; [intros [|[|j]] Hj; unfold layers in Hj; cbn in *; try lia; lra|].
  split; [intros [|[|i]] [|[|j]] Hij Hj; cbn in *; try lia; lra|]. split.
  - intros j Hj. rewrite div_deg by exact H. split; [intros Hp; revert Hp; norm_upper; discriminate|]. intros _.
    split; [|apply sqrt_lt_R0; lra]. destruct j as [|[|j]]; [exact snell_2_1 | exact snell_2_1 | lia].
  - rewrite div_deg by exact H. lra.
Qed.

(** ** C49: depth range *)
Theorem C49_below_model_partial deg2km m s phase d : valid_model m -> Nat.odd (String.length phase) = true ->
  (forall z, In z (mz m) -> z <= d) -> ppoint_distance deg2km m d s phase = Err IndexError.
Proof.
  intros Hv Hodd Hd. destruct Hv as (Ha & _). unfold ppoint_distance. rewrite <- Nat.negb_odd, Hodd. cbn [negb].
  unfold vertical_slowness. rewrite Ha. cbn [negb]. rewrite andb_false_r. cbn [bind]. rewrite first_above_none by exact Hd. reflexivity.
Qed.
Print Assumptions C49_below_model_partial.
(** above the model: a number, by wrapping around to the last layer *)
Theorem C49_above_model_refuted : exists m d s phase x, valid_model m /\ contiguous m /\ increasing (mz m) /\
  (forall z, In z (mz m) -> d < z) /\ ppoint_distance 1 m d s phase = Ok (Some x).
Proof.
  exists demo, (-5), 1, "S". eexists. split; [apply demo_valid|]. destruct (C48_case 1 ltac:(lra)) as (A & B & C & _).
  split; [exact A|]. split; [exact B|]. split; [cbn; intros z [<-|[<-|[]]]; lra|].
  unfold ppoint_distance. change (Nat.even (String.length "S")) with false. cbv iota.
  unfold vertical_slowness. cbn [is_array demo negb]. rewrite andb_false_r. cbn [bind].
  cbn [mz demo first_above]. destruct (Rlt_dec (-5) 0) as [_|]; [|lra]. cbv iota. change (char_in "P" (upper "S")) with false. change (char_in "S" (upper "S")) with true.
  change (char_in "P" (upper (upper "S"))) with false. change (char_in "S" (upper (upper "S"))) with true. cbn [negb orb].
  assert (qvert (1 / 2) (1 / 1) = Some (sqrt 3)) as Eq by (apply qvert_some; [lra|]; replace (1 / 1) with 1 by field; exact snell_2_1).
  change (mvs demo) with [1 / 2; 1 / 2]. change (mdz demo) with [1; 1]. cbn [map mvs mdz]. rewrite Eq.
  assert (sqrt 3 <> 0) as Hs by (pose proof (sqrt_lt_R0 3 ltac:(lra)); lra).
  cbn [zipw odiv cumsum cumsum_from]. destruct (Req_EM_T (sqrt 3) 0); [contradiction|].
  assert (forall (A : Type) (a b : A), pyindex [a; b] (Z.of_nat 0 - 1) = Ok b) as P1 by reflexivity.
  assert (forall (A : Type) (a b : A), pyindex [a; b] (Z.of_nat 0 - 1 + 1) = Ok a) as P2 by reflexivity.
  cbn [olift2 oscale option_map map zipw]. rewrite !P1, !P2. cbn [bind].
  destruct (Req_EM_T (0 - 1) 0); [lra|]. reflexivity.
Qed.
Print Assumptions C49_above_model_refuted.
(** and inside the bottom layer of the model: no number *)
Theorem C49_bottom_layer_refuted deg2km m s phase d : valid_model m -> increasing (mz m) -> Nat.odd (String.length phase) = true ->
  (1 <= layers m)%nat -> nth (layers m - 1) (mz m) 0 <= d < nth (layers m - 1) (mz m) 0 + nth (layers m - 1) (mdz m) 0 ->
  ppoint_distance deg2km m d s phase = Err IndexError.
Proof.
  intros Hv Hz Hodd Hl Hd. apply C49_below_model_partial; [exact Hv | exact Hodd|]. intros z Hin. destruct (In_nth _ _ 0 Hin) as (k & Hk & <-).
  pose proof Hv as (_ & Lz & _). pose proof (Hz k (layers m - 1)%nat ltac:(lia) ltac:(lia)). lra.
Qed.
Print Assumptions C49_bottom_layer_refuted.
Example C49_case : valid_model demo /\ nth (layers demo - 1) (mz demo) 0 <= 3 / 2 < nth (layers demo - 1) (mz demo) 0 + nth (layers demo - 1) (mdz demo) 0.
Proof. split; [apply demo_valid|]. cbn. lra. Qed.
