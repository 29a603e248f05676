(** Velocity models, delay times, moveout and piercing points: C39 - C49, C76 - C79. *)
From Verif Require Import Model.SimpleModel Spec.ModelSpec Proofs.PyFacts Proofs.SumFacts Proofs.InterpFacts
  Proofs.ModelFacts Proofs.MoveoutFacts Proofs.MoveoutMain.
From Coq Require Import Lra Lia.
Notation length := List.length.
Open Scope R_scope.

Ltac norm_upper := repeat match goal with |- context [upper ?s] => let v := eval vm_compute in (upper s) in change (upper s) with v end.

(** ** C39: support points *)
(** position k of the i-th interval, n[i+1] points inside *)
Definition between (val : list R) (n : list nat) (i k : nat) : R :=
  nth i val 0 + INR k / INR (nth (S i) n 0%nat + 1) * (nth (S i) val 0 - nth i val 0).
Lemma knot_lt n i j : (i < j)%nat -> (knot n i + nth (S i) n 0%nat < knot n j)%nat.
Proof.
  intros H. induction H as [|j H IH].
  - change (knot n (S i)) with (knot n i + nth (S i) n 0 + 1)%nat. lia.
  - change (knot n (S j)) with (knot n j + nth (S j) n 0 + 1)%nat. lia.
Qed.
Theorem C39_interpolation arr z vp vs n : z <> [] -> length vp = length z -> length vs = length z -> (length z <= length n)%nat ->
  exists m, new_model arr z vp vs (Some n) = Ok m /\ is_array m = true /\
    (* number of support points: 1 + sum (n[1:] + 1), the last one is not in z *)
    layers m = knot n (length z - 1) /\ length (mz m) = layers m /\ length (mvp m) = layers m /\ length (mvs m) = layers m /\
    (* support points *)
    (forall i k, (S i < length z)%nat -> (k <= nth (S i) n 0%nat)%nat ->
       nth (knot n i + k) (mz m) 0 = between z n i k /\
       nth (knot n i + k) (mvp m) 0 = between vp n i k /\
       nth (knot n i + k) (mvs m) 0 = between vs n i k) /\
    (* the layers follow each other down to the last given depth *)
    (forall j, (S j < layers m)%nat -> nth j (mz m) 0 + nth j (mdz m) 0 = nth (S j) (mz m) 0) /\
    (forall j, S j = layers m -> nth j (mz m) 0 + nth j (mdz m) 0 = nth (length z - 1) z 0) /\
    (* depths stay in order *)
    (increasing z -> increasing (mz m) /\ forall j, (j < layers m)%nat -> 0 <= nth j (mdz m) 0).
Proof.
  intros Hz Hp Hs Hn.
  destruct (interpolate_spec z n Hz Hn) as (rz & Ez & Lz & Kz & Ez').
  destruct (interpolate_spec vp n) as (rp & Ep & Lp & Kp & _); [intros ->; destruct z; [congruence | cbn in Hp; lia] | lia |].
  destruct (interpolate_spec vs n) as (rs & Es & Ls & Ks & _); [intros ->; destruct z; [congruence | cbn in Hs; lia] | lia |].
  rewrite Hp in *. rewrite Hs in *.
  exists (mkModel (removelast rz) (diff rz) (removelast rp) (removelast rs) true []).
  split. { unfold new_model. rewrite Hp, Hs, !Nat.eqb_refl. cbn [negb andb]. rewrite Ez, Ep, Es. reflexivity. }
  unfold layers; cbn [is_array mdz mz mvp mvs]. rewrite !removelast_length, diff_length.
  split; [reflexivity|]. repeat (split; [lia|]). split; [|split; [|split]].
  - intros i k Hi Hk. assert (knot n i + k < knot n (length z - 1))%nat.
    { pose proof (knot_lt n i (length z - 1) ltac:(lia)). lia. }
    rewrite !removelast_nth by lia. rewrite Kz, Kp, Ks by assumption. repeat split; reflexivity.
  - intros j Hj. rewrite diff_nth, !removelast_nth by lia. ring.
  - intros j Hj. rewrite diff_nth, removelast_nth by lia. rewrite <- Ez'. replace (knot n (length z - 1)) with (S j) by lia. ring.
  - intros Hi. destruct (interpolate_incr z n rz Hi Ez) as (Hr & _ & _). split.
    + intros a b Hab Hb. rewrite removelast_length in Hb. rewrite !removelast_nth by lia. apply Hr; lia.
    + intros j Hj. rewrite diff_nth by lia. pose proof (Hr j (S j) ltac:(lia) ltac:(lia)). lra.
Qed.
Print Assumptions C39_interpolation.
(** values stay between their neighbours *)
Theorem C39_between val n i k lo hi : (k <= nth (S i) n 0%nat)%nat ->
  lo <= nth i val 0 <= hi -> lo <= nth (S i) val 0 <= hi -> lo <= between val n i k <= hi.
Proof.
  intros Hk A B. unfold between. set (w := INR k / INR (nth (S i) n 0%nat + 1)).
  assert (0 <= w <= 1) as [W0 W1].
  { unfold w. assert (0 < INR (nth (S i) n 0%nat + 1)) by (apply lt_0_INR; lia).
    assert (0 <= INR k <= INR (nth (S i) n 0%nat + 1)) by (split; [apply pos_INR | apply le_INR; lia]).
    split; [apply Rmult_le_pos; [lra | apply Rlt_le, Rinv_0_lt_compat; lra]|].
    apply (Rmult_le_reg_r (INR (nth (S i) n 0%nat + 1))); [lra|]. unfold Rdiv. rewrite Rmult_assoc, Rinv_l by lra. lra. }
  clearbody w. nra.
Qed.
Print Assumptions C39_between.
(** a user model gives a model as assumed in the theorems below *)
Lemma knot_split n : forall L j, (j < knot n L)%nat -> exists i k, (i < L)%nat /\ (k <= nth (S i) n 0%nat)%nat /\ j = (knot n i + k)%nat.
Proof.
  induction L as [|L IH]; intros j Hj; [cbn in Hj; lia|]. destruct (Nat.lt_ge_cases j (knot n L)) as [H|H].
  - destruct (IH j H) as (i & k & A & B & C). exists i, k. repeat split; [lia | assumption | assumption].
  - change (knot n (S L)) with (knot n L + nth (S L) n 0 + 1)%nat in Hj. exists L, (j - knot n L)%nat. repeat split; lia.
Qed.
Theorem C39_valid arr z vp vs n m : z <> [] -> length vp = length z -> length vs = length z -> (length z <= length n)%nat ->
  increasing z -> (forall v, In v vp -> 0 < v) -> (forall v, In v vs -> 0 < v) ->
  (forall i, (i < length z)%nat -> nth i vs 0 <= nth i vp 0) ->
  new_model arr z vp vs (Some n) = Ok m -> valid_model m /\ s_slower m.
Proof.
  intros Hz Hp Hs Hn Hi Pp Ps Hsl E. destruct (C39_interpolation arr z vp vs n Hz Hp Hs Hn) as (m' & E' & A1 & A2 & A3 & A4 & A5 & K & _ & _ & Hinc).
  rewrite E in E'. injection E' as <-. destruct (Hinc Hi) as [_ Hdz].
  assert (forall val i k, (forall v, In v val -> 0 < v) -> (S i < length val)%nat -> (k <= nth (S i) n 0%nat)%nat -> 0 < between val n i k) as Pos.
  { intros val i k P Hl Hk. set (lo := Rmin (nth i val 0) (nth (S i) val 0)). set (hi := Rmax (nth i val 0) (nth (S i) val 0)).
    destruct (C39_between val n i k lo hi Hk) as [B _].
    - split; [apply Rmin_l | apply Rmax_l].
    - split; [apply Rmin_r | apply Rmax_r].
    - eapply Rlt_le_trans; [|exact B]. apply Rmin_glb_lt; apply P, nth_In; lia. }
  assert (forall j, (j < layers m)%nat -> exists i k, (S i < length z)%nat /\ (k <= nth (S i) n 0%nat)%nat /\ j = (knot n i + k)%nat) as Sp.
  { intros j Hj. rewrite A2 in Hj. destruct (knot_split n _ _ Hj) as (i & k & B1 & B2 & B3). exists i, k. repeat split; [lia | assumption | assumption]. }
  split.
  - repeat (split; [assumption|]). intros j Hj. destruct (Sp j Hj) as (i & k & B1 & B2 & ->). destruct (K i k B1 B2) as (_ & -> & ->).
    split; [apply Pos; [assumption | lia | assumption]|]. split; [apply Pos; [assumption | lia | assumption]|]. apply Hdz, Hj.
  - intros j Hj. destruct (Sp j Hj) as (i & k & B1 & B2 & ->). destruct (K i k B1 B2) as (_ & -> & ->).
    pose proof (Hsl i ltac:(lia)) as H1. pose proof (Hsl (S i) ltac:(lia)) as H2.
    unfold between. set (w := INR k / INR (nth (S i) n 0%nat + 1)).
    assert (0 <= w <= 1) as [W0 W1].
    { unfold w. assert (0 < INR (nth (S i) n 0%nat + 1)) by (apply lt_0_INR; lia).
      assert (0 <= INR k <= INR (nth (S i) n 0%nat + 1)) by (split; [apply pos_INR | apply le_INR; lia]).
      split; [apply Rmult_le_pos; [lra | apply Rlt_le, Rinv_0_lt_compat; lra]|].
      apply (Rmult_le_reg_r (INR (nth (S i) n 0%nat + 1))); [lra|]. unfold Rdiv. rewrite Rmult_assoc, Rinv_l by lra. lra. }
    clearbody w. nra.
Qed.
Print Assumptions C39_valid.
Ltac incr_list := intros [|[|[|[|]]]] [|[|[|[|]]]] Hij Hj; cbn in *; try lia; lra.
(** depths 0, 0, 10 with 4 points in the last interval as in the iasp91 file *)
Example C39_case : exists m, new_model false [0; 0; 10] [6; 6; 6] [4; 4; 3] (Some [0; 0; 4]%nat) = Ok m /\
  layers m = 6%nat /\ nth 3 (mz m) 0 = 4 /\ nth 3 (mvs m) 0 = 4 - 2 / 5 /\ valid_model m /\ s_slower m.
Proof.
  destruct (C39_interpolation false [0; 0; 10] [6; 6; 6] [4; 4; 3] [0; 0; 4]%nat) as (m & E & _ & L & _ & _ & _ & K & _); try discriminate; try reflexivity.
  exists m. split; [exact E|]. split; [exact L|]. destruct (K 1%nat 2%nat) as (K1 & _ & K2); [cbn; lia | cbn; lia|].
  cbn [knot nth] in K1, K2. change (0 + 0 + 1 + 2)%nat with 3%nat in K1, K2. rewrite K1, K2.
  split; [unfold between; cbn [nth]; replace (INR (4 + 1)) with 5 by (cbn; ring); cbn [INR]; lra|].
  split; [unfold between; cbn [nth]; replace (INR (4 + 1)) with 5 by (cbn; ring); cbn [INR]; lra|].
  apply (C39_valid false [0; 0; 10] [6; 6; 6] [4; 4; 3] [0; 0; 4]%nat m); try discriminate; try reflexivity; try exact E.
  - incr_list.
  - cbn. intros v [<-|[<-|[<-|[]]]]; lra.
  - cbn. intros v [<-|[<-|[<-|[]]]]; lra.
  - intros [|[|[|i]]] Hi; cbn in *; try lia; lra.
Qed.

(** ** C40: Snell's law *)
Theorem C40_snell deg2km m s phase : valid_model m -> exists qp qs, vertical_slowness deg2km m s phase = Ok (qp, qs) /\
  length qp = layers m /\ length qs = layers m /\
  (char_in "P" (upper phase) = true -> forall j, (j < layers m)%nat ->
     (forall q, nth j qp None = Some q <-> snell (nth j (mvp m) 0) (s / deg2km) q) /\
     (nth j qp None = None <-> evanescent (nth j (mvp m) 0) (s / deg2km))) /\
  (char_in "S" (upper phase) = true -> forall j, (j < layers m)%nat ->
     (forall q, nth j qs None = Some q <-> snell (nth j (mvs m) 0) (s / deg2km) q) /\
     (nth j qs None = None <-> evanescent (nth j (mvs m) 0) (s / deg2km))).
Proof.
  intros Hv. destruct (vslow_ok deg2km m Hv s phase) as (qp & qs & E & Lp & Ls & K). exists qp, qs.
  split; [exact E|]. split; [exact Lp|]. split; [exact Ls|]. destruct Hv as (_ & _ & _ & _ & Hv).
  split; intros Hin j Hj; destruct (K j Hj) as [Kp Ks]; destruct (Hv j Hj) as (V1 & V2 & _); rewrite Hin in *.
  - rewrite Kp. split; [intros q; apply qvert_some, V1 | apply qvert_none, V1].
  - rewrite Ks. split; [intros q; apply qvert_some, V2 | apply qvert_none, V2].
Qed.
Print Assumptions C40_snell.
(** two layers *)
Definition demo : smodel := mkModel [0; 1] [1; 1] [1; 1] [1 / 2; 1 / 2] true [].
Lemma demo_valid : valid_model demo /\ s_slower demo.
Proof.
  split; [repeat split; destruct j as [|[|j]]; cbn in *; try lra; unfold layers in *; cbn in *; lia|].
  intros [|[|j]] Hj; cbn in *; lra.
Qed.
Lemma div_deg h d : d <> 0 -> h * d / d = h.
Proof. intros H. field. exact H. Qed.
Example C40_case d : d <> 0 -> exists q, snell (nth 1 (mvs demo) 0) (1 * d / d) q /\ q = sqrt 3 /\ ~ evanescent (nth 1 (mvp demo) 0) (1 * d / d).
Proof.
  intros H. rewrite div_deg by exact H. exists (sqrt 3). cbn. split; [|split; [reflexivity|]].
  - split; [apply sqrt_pos|]. rewrite sqrt_sqrt by lra. field.
  - unfold evanescent. rewrite Rabs_R1, Rinv_1. lra.
Qed.
Example C40_case_evanescent d : d <> 0 -> evanescent (nth 1 (mvp demo) 0) (2 * d / d).
Proof. intros H. rewrite div_deg by exact H. cbn. unfold evanescent. rewrite Rinv_1, Rabs_pos_eq; lra. Qed.

(** ** C41: delay times *)
Theorem C41_delay_times deg2km m s phase : valid_model m -> ps_phase phase ->
  exists t, delay_times deg2km m s phase = Ok t /\ length t = layers m /\
    (forall i x, (i < layers m)%nat -> (nth i t None = Some x <-> is_delay deg2km m s phase i x)) /\
    (forall i, (i < layers m)%nat -> (nth i t None = None <-> exists j, (j <= i)%nat /\ evan_layer deg2km m s phase j)).
Proof. intros Hv Hps. exact (delay_ok deg2km m Hv s phase Hps). Qed.
Print Assumptions C41_delay_times.
(** NaN persists below *)
Theorem C41_nan_below deg2km m s phase t i j : valid_model m -> ps_phase phase -> delay_times deg2km m s phase = Ok t ->
  (i <= j)%nat -> (j < layers m)%nat -> nth i t None = None -> nth j t None = None.
Proof.
  intros Hv Hps E Hij Hj H. destruct (delay_ok deg2km m Hv s phase Hps) as (t' & E' & L & _ & Hn). rewrite E in E'. injection E' as <-.
  apply Hn in H; [|lia]. apply Hn; [exact Hj|]. destruct H as (q & A & B). exists q. split; [lia | exact B].
Qed.
Print Assumptions C41_nan_below.
(** phases that arrive later than the direct wave are late, more so at depth *)
Theorem C41_monotone deg2km m s phase i j x y : valid_model m -> s_slower m -> ps_phase phase -> forward phase ->
  (i <= j)%nat -> (j < layers m)%nat -> is_delay deg2km m s phase i x -> is_delay deg2km m s phase j y ->
  0 <= sgn_phase phase * x <= sgn_phase phase * y.
Proof. apply is_delay_incr. Qed.
Print Assumptions C41_monotone.
(** the phases by name *)
Theorem C41_phases qp qs dz :
  layer_delay "Ps" qp qs dz = dz * (qs - qp) /\ layer_delay "Sp" qp qs dz = - (dz * (qs - qp)) /\
  layer_delay "Ppps" qp qs dz = dz * (qs + qp) /\ layer_delay "Ppss" qp qs dz = dz * (2 * qs) /\
  layer_delay "Pppp" qp qs dz = dz * (2 * qp) /\ layer_delay "Psss" qp qs dz = dz * (3 * qs - qp).
Proof. repeat apply conj; unfold layer_delay; norm_upper; cbn; ring. Qed.
Print Assumptions C41_phases.
Lemma ps_phase_of p : p <> "" -> (forall c, char_in c (upper p) = true -> c = "P"%char \/ c = "S"%char) -> ps_phase p.
Proof. split; assumption. Qed.
Ltac phase_ok := split; [discriminate|]; let c := fresh in intros c; norm_upper; cbn; rewrite ?Bool.orb_false_r;
  repeat (rewrite Bool.orb_true_iff || rewrite Ascii.eqb_eq); tauto.
Theorem C41_sp deg2km m s i x : is_delay deg2km m s "Ps" i x <-> is_delay deg2km m s "Sp" i (- x).
Proof.
  assert (forall fp fs, rsum (S i) (fun j => layer_delay "Sp" (fp j) (fs j) (nth j (mdz m) 0)) = - rsum (S i) (fun j => layer_delay "Ps" (fp j) (fs j) (nth j (mdz m) 0))) as Er.
  { intros fp fs. replace (- rsum (S i) (fun j => layer_delay "Ps" (fp j) (fs j) (nth j (mdz m) 0))) with (-1 * rsum (S i) (fun j => layer_delay "Ps" (fp j) (fs j) (nth j (mdz m) 0))) by ring.
    rewrite <- rsum_scal. apply rsum_ext. intros j _. destruct (C41_phases (fp j) (fs j) (nth j (mdz m) 0)) as (-> & -> & _). ring. }
  split; intros (fp & fs & H & E); exists fp, fs; (split; [exact H|]); [rewrite Er, <- E; reflexivity|]. rewrite Er in E. lra.
Qed.
Print Assumptions C41_sp.
Lemma demo_ps d h q0 q1 : d <> 0 -> snell 1 h q0 -> snell (1 / 2) h q1 ->
  is_delay d demo (h * d) "Ps" 0 (q1 - q0) /\ is_delay d demo (h * d) "Ps" 1 (2 * (q1 - q0)).
Proof.
  intros Hd S0 S1. split; exists (fun _ => q0), (fun _ => q1); (split; [|unfold rsum; destruct (C41_phases q0 q1 1) as (E & _); cbn [demo mdz nth]; rewrite ?E; ring]).
  - intros [|j] Hj; [|lia]. rewrite div_deg by exact Hd. cbn. split; intros _; assumption.
  - intros [|[|j]] Hj; [| |lia]; rewrite div_deg by exact Hd; cbn; split; intros _; assumption.
Qed.
Lemma snell_0 v : 0 < v -> snell v 0 (/ v).
Proof. intros H. split; [apply Rlt_le, Rinv_0_lt_compat, H | ring]. Qed.
Lemma snell_1_1 : snell 1 1 0. Proof. split; [lra | rewrite Rinv_1; ring]. Qed.
Lemma snell_2_1 : snell (1 / 2) 1 (sqrt 3).
Proof. split; [apply sqrt_pos|]. rewrite sqrt_sqrt by lra. field. Qed.
Example C41_case d : d <> 0 -> ps_phase "Ps" /\ forward "Ps" /\ is_delay d demo (1 * d) "Ps" 0 (sqrt 3 - 0) /\ is_delay d demo (1 * d) "Ps" 1 (2 * (sqrt 3 - 0)).
Proof. intros H. split; [phase_ok|]. split; [unfold forward; norm_upper; cbn; lia|]. apply demo_ps; [exact H | apply snell_1_1 | apply snell_2_1]. Qed.

(** ** C42: reference slowness *)
(** the result of a call on an instance nobody has used *)
Definition unused (m : smodel) : smodel := set_t_ref m [].
(** as long as all calls on the instance have the same reference *)
Theorem C42_same_reference_partial deg2km m s phase ref : consistent deg2km m ref ->
  snd (stretch_delay_times deg2km m s phase ref) = snd (stretch_delay_times deg2km (unused m) s phase ref) /\
  consistent deg2km (fst (stretch_delay_times deg2km m s phase ref)) ref.
Proof.
  intros Hc. destruct (stretch_delay_times deg2km m s phase ref) as [m1 r1] eqn:E1.
  destruct (stretch_delay_times deg2km (unused m) s phase ref) as [m2 r2] eqn:E2. cbn.
  destruct (stretch_consistent deg2km _ _ _ _ _ _ Hc E1) as (_ & H1 & ->).
  assert (consistent deg2km (unused m) ref) as Hu by (intros ph t; discriminate).
  destruct (stretch_consistent deg2km _ _ _ _ _ _ Hu E2) as (_ & _ & ->). split; [|exact H1]. reflexivity.
Qed.
Print Assumptions C42_same_reference_partial.
Theorem C42_unused_consistent deg2km m ref : consistent deg2km (unused m) ref.
Proof. intros ph t; discriminate. Qed.
Print Assumptions C42_unused_consistent.
(** once a phase was used with another reference, that reference is used silently *)
Theorem C42_stale_reference_refuted deg2km m s s' phase old ref m1 r1 : consistent deg2km m old ->
  stretch_delay_times deg2km m s' phase old = (m1, Ok r1) ->
  snd (stretch_delay_times deg2km m1 s phase ref) = snd (stretch_delay_times deg2km (unused m) s phase old).
Proof.
  intros Hc E. pose proof (stretch_consistent deg2km _ _ _ _ _ _ Hc E) as (Hs & Hc1 & _).
  assert (exists t, dget (t_ref m1) (upper phase) = Some t /\ Nat.odd (String.length phase) = false) as (t & Et & Eo).
  { revert E. unfold stretch_delay_times. destruct (Nat.odd (String.length phase)); [discriminate|].
    destruct (dget (t_ref m) (upper phase)) as [t|] eqn:Ed.
    - intros E. inversion E; subst. exists t. split; [exact Ed | reflexivity].
    - destruct (delay_times deg2km m old (upper phase)) as [t|]; [|discriminate]. intros E. inversion E; subst. cbn [t_ref set_t_ref].
      exists t. rewrite dget_dset, String.eqb_refl. split; reflexivity. }
  destruct (C42_same_reference_partial deg2km m1 s phase old Hc1) as [H _].
  transitivity (snd (stretch_delay_times deg2km m1 s phase old)).
  - unfold stretch_delay_times. rewrite Eo, Et. reflexivity.
  - rewrite H. destruct Hs as (A & B & C & D & F). unfold unused, set_t_ref. rewrite A, B, C, D, F. reflexivity.
Qed.
Print Assumptions C42_stale_reference_refuted.
Lemma demo_used d h : d <> 0 -> 0 <= h <= 1 -> used_layers d demo (h * d) "Ps" 2 /\ propagates_to d demo (h * d) "Ps" 2.
Proof.
  intros Hd Hh. assert (propagates_to d demo (h * d) "Ps" 2) as H.
  { intros [|[|j]] Hj; [| |lia]; rewrite div_deg by exact Hd; unfold evanescent; cbn; rewrite Rabs_pos_eq by lra; split; intros _; lra. }
  split; [left; split; [reflexivity | exact H] | exact H].
Qed.
(** the two results do differ *)
Theorem C42_witness_refuted d : d <> 0 -> exists m s phase old ref m1 r1,
  consistent d m old /\ stretch_delay_times d m s phase old = (m1, Ok r1) /\
  snd (stretch_delay_times d m1 s phase ref) <> snd (stretch_delay_times d (unused m) s phase ref).
Proof.
  intros Hd. exists demo, (0 * d), "Ps", (0 * d), (1 * d). destruct demo_valid as [Hv Hsl].
  assert (forall r, consistent d demo r) as Hc by (intros r ph t; discriminate).
  destruct (demo_used d 0 Hd ltac:(lra)) as [U0 P0]. destruct (demo_used d 1 Hd ltac:(lra)) as [U1 P1].
  assert (ps_phase "Ps") as Hps by phase_ok.
  destruct (stretch_tables d demo (0 * d) "Ps" (0 * d) 2 Hv Hps eq_refl U0 P0 (Hc _)) as (m1 & l0 & l1 & E & _ & _ & _ & O0 & O1).
  destruct (stretch_tables d demo (0 * d) "Ps" (1 * d) 2 Hv Hps eq_refl U0 P1 (Hc _)) as (m2 & k0 & k1 & E2 & _ & _ & _ & _ & O2).
  exists m1, (map Some (tab l0), map Some (tab l1)). split; [apply Hc|]. split; [exact E|].
  rewrite (C42_stale_reference_refuted d demo (0 * d) (0 * d) "Ps" (0 * d) (1 * d) m1 _ (Hc _) E).
  change (unused demo) with demo. rewrite E, E2. cbn [snd]. intros Heq.
  assert (l1 = k1) as El.
  { assert (map Some (tab l1) = map Some (tab k1)) as Et by congruence.
    apply (f_equal finite) in Et. rewrite !finite_some in Et. injection Et as Et. destruct O1 as [L1 _]. destruct O2 as [L2 _].
    destruct l1 as [|a [|b [|]]]; try discriminate. destruct k1 as [|a' [|b' [|]]]; try discriminate. cbn in Et. congruence. }
  destruct O1 as [_ O1]. destruct O2 as [_ O2]. specialize (O1 0%nat ltac:(lia)). specialize (O2 0%nat ltac:(lia)). rewrite El in O1.
  destruct (demo_ps d 0 (/ 1) (/ (1 / 2)) Hd (snell_0 1 ltac:(lra)) (snell_0 (1 / 2) ltac:(lra))) as [D0 _].
  destruct (demo_ps d 1 _ _ Hd snell_1_1 snell_2_1) as [D1 _].
  pose proof (is_delay_unique d demo _ _ 0 _ _ Hv Hps ltac:(unfold layers; cbn; lia) O1 D0) as A0.
  pose proof (is_delay_unique d demo _ _ 0 _ _ Hv Hps ltac:(unfold layers; cbn; lia) O2 D1) as A1.
  rewrite A0 in A1. assert (sqrt 3 = 1) as A2 by lra. pose proof (sqrt_sqrt 3 ltac:(lra)) as A3. rewrite A2 in A3. lra.
Qed.
Print Assumptions C42_witness_refuted.

(** ** C43: stretch tables *)
Theorem C43_tables_partial deg2km m s phase ref c : valid_model m -> ps_phase phase -> Nat.even (String.length phase) = true ->
  used_layers deg2km m s phase c -> propagates_to deg2km m ref phase c -> consistent deg2km m ref ->
  exists m' t0 t1, stretch_delay_times deg2km m s phase ref = (m', Ok (map Some t0, map Some t1)) /\ length t0 = length t1 /\
    (forall i, (i < c)%nat -> is_delay deg2km m s phase i (sgn_phase phase * nth (length t0 - c + i) t0 0) /\
                              is_delay deg2km m ref phase i (sgn_phase phase * nth (length t1 - c + i) t1 0)) /\
    (s_slower m -> forward phase -> increasing t0 /\ increasing t1).
Proof.
  intros Hv Hps Hev Hu Hr Hc. destruct (stretch_tables deg2km m s phase ref c Hv Hps Hev Hu Hr Hc) as (m' & l0 & l1 & E & _ & _ & Hcl & O0 & O1).
  exists m', (tab l0), (tab l1). split; [exact E|]. pose proof O0 as [L0 K0]. pose proof O1 as [L1 K1].
  split; [apply tab_length; lia|]. split.
  - assert (forall l i, length l = c -> (i < c)%nat -> nth (length (tab l) - c + i) (tab l) 0 = nth i l 0) as Hn.
    { intros l i L Hi. unfold tab. rewrite app_nth2; rewrite app_length; [f_equal; lia | lia]. }
    intros i Hi. rewrite !Hn by assumption. split; [apply K0 | apply K1]; exact Hi.
  - intros Hsl Hf. destruct (oriented_incr deg2km m s phase c l0 Hv Hsl Hps Hf Hcl O0). destruct (oriented_incr deg2km m ref phase c l1 Hv Hsl Hps Hf Hcl O1).
    split; apply tab_incr; assumption.
Qed.
Print Assumptions C43_tables_partial.
Example C43_case d : d <> 0 -> valid_model demo /\ used_layers d demo (1 * d) "Ps" 2 /\ propagates_to d demo (0 * d) "Ps" 2.
Proof. intros H. split; [apply demo_valid|]. split; apply demo_used; try exact H; lra. Qed.
Lemma in_mirror (t : list (option R)) : In None t -> In None (mirror_head t).
Proof. intros H. unfold mirror_head. apply in_app_iff. right. exact H. Qed.
Lemma in_neg (b : bool) (t : list (option R)) : In None t -> In None (if b then map (option_map Ropp) t else t).
Proof. intros H. destruct b; [|exact H]. apply in_map_iff. exists None. split; [reflexivity | exact H]. Qed.
(** a phase that cannot cross the first layer: NaN everywhere *)
Theorem C43_first_layer_refuted deg2km m s phase ref : valid_model m -> ps_phase phase -> Nat.even (String.length phase) = true ->
  (2 <= layers m)%nat -> evan_layer deg2km m s phase 0 ->
  exists m' t0 t1, stretch_delay_times deg2km (unused m) s phase ref = (m', Ok (t0, t1)) /\ In None t0.
Proof.
  intros Hv Hps Hev Hl He. set (u := unused m). assert (valid_model u) as Hvu by exact Hv.
  destruct (stretch_delay_times deg2km u s phase ref) as [m' r] eqn:E.
  destruct (stretch_consistent deg2km u s phase ref m' r (C42_unused_consistent deg2km m ref) E) as (_ & _ & ->).
  destruct (delay_ok deg2km u Hvu s phase Hps) as (t & Et & L & _ & Hn).
  destruct (delay_ok deg2km u Hvu ref phase Hps) as (tr & Etr & Lr & _ & _).
  assert (forall q w, delay_times deg2km u q phase = Ok w -> delay_times deg2km u q (upper phase) = Ok w) as Hup.
  { intros q w H. unfold delay_times in *. rewrite upper_idem. exact H. }
  apply Hup in Et. apply Hup in Etr. change (layers u) with (layers m) in *.
  unfold stretch_fresh. rewrite <- Nat.negb_even, Hev. cbn [negb]. rewrite Etr. cbn [bind]. unfold stretch_rest. rewrite Et. cbn [bind].
  rewrite first_nan_neg. assert (nth 0 t None = None) as H0 by (apply Hn; [lia | exists 0%nat; split; [lia | exact He]]).
  rewrite (first_nan_at t 0) by (try lia; exact H0).
  eexists _, _, _. split; [reflexivity|]. apply in_mirror.
  set (t' := if (match upper phase with String "S" _ => true | _ => false end) then map (option_map Ropp) t else t).
  assert (length t' = layers m) as L' by (unfold t'; destruct (match upper phase with String "S" _ => true | _ => false end); rewrite ?map_length; exact L).
  assert (nth 0 t' None = None) as H0'.
  { unfold t'. destruct (match upper phase with String "S" _ => true | _ => false end); [|exact H0].
    rewrite (nth_map_in (option_map Ropp) t 0 None) by lia. rewrite H0. reflexivity. }
  clearbody t'. destruct t' as [|a [|b t']]; try (cbn in L'; lia). cbn in H0'. subst a.
  unfold pyslice, slice_bound. change (Z.of_nat 0 - 1 <? 0)%Z with true. cbv iota.
  replace (Z.to_nat (Z.max 0 (Z.of_nat (List.length (None :: b :: t')) + (Z.of_nat 0 - 1)))) with (S (length t')) by (cbn [List.length]; lia).
  cbn [List.length]. left. reflexivity.
Qed.
Print Assumptions C43_first_layer_refuted.
(** a reference that cannot cross one of the layers *)
Theorem C43_reference_refuted deg2km m s phase ref c j : valid_model m -> ps_phase phase -> Nat.even (String.length phase) = true ->
  used_layers deg2km m s phase c -> (j < c)%nat -> evan_layer deg2km m ref phase j ->
  exists m' t0 t1, stretch_delay_times deg2km (unused m) s phase ref = (m', Ok (t0, t1)) /\ In None t1.
Proof.
  intros Hv Hps Hev Hu Hj He. set (u := unused m). assert (valid_model u) as Hvu by exact Hv.
  destruct (stretch_delay_times deg2km u s phase ref) as [m' r] eqn:E.
  destruct (stretch_consistent deg2km u s phase ref m' r (C42_unused_consistent deg2km m ref) E) as (_ & _ & ->).
  destruct (stretch_fresh_tables deg2km u s phase s c Hvu Hps Hev Hu) as (l0 & l1 & Ef & _).
  { destruct Hu as [[_ H]|(_ & H & _)]; [exact H|]. intros i Hi. apply H. lia. }
  destruct (delay_ok deg2km u Hvu s phase Hps) as (t & Et & L & _ & _).
  destruct (delay_ok deg2km u Hvu ref phase Hps) as (tr & Etr & Lr & _ & Hn).
  assert (forall q w, delay_times deg2km u q phase = Ok w -> delay_times deg2km u q (upper phase) = Ok w) as Hup.
  { intros q w H. unfold delay_times in *. rewrite upper_idem. exact H. }
  apply Hup in Et. apply Hup in Etr. change (layers u) with (layers m) in *.
  assert (c <= layers m)%nat as Hcl by (destruct Hu as [[-> _]|(? & _)]; lia).
  destruct (delays_list deg2km u s phase c Hvu Hps Hcl) as (t' & l & Et' & _ & Fc & Lc & _).
  { destruct Hu as [[_ H]|(_ & H & _)]; [exact H|]. intros i Hi. apply H. lia. }
  rewrite Et in Et'. injection Et' as <-.
  unfold stretch_fresh. rewrite <- Nat.negb_even, Hev. cbn [negb]. rewrite Etr. cbn [bind]. unfold stretch_rest. rewrite Et. cbn [bind].
  rewrite first_nan_neg. eexists _, _, _. split; [reflexivity|]. apply in_mirror.
  assert (match first_nan t with Some i => (Z.of_nat i - 1)%Z | None => Z.of_nat (length t) end = Z.of_nat c) as Ei.
  { destruct (delay_ok deg2km u Hvu s phase Hps) as (t2 & E2 & L2 & _ & Hn2). apply Hup in E2. rewrite Et in E2. injection E2 as <-.
    destruct Hu as [[Ec H]|(Hc' & H & Hev')].
    - rewrite first_nan_none; [rewrite L; f_equal; symmetry; exact Ec|]. intros q Hq Eq. apply Hn2 in Eq; [|change (layers u) with (layers m); lia].
      destruct Eq as (i & Hi & Hee). destruct (H i ltac:(lia)) as [P1 P2]. destruct Hee as [[A B]|[A B]]; [exact (P1 A B) | exact (P2 A B)].
    - rewrite (first_nan_at t (S c)); [lia | | lia | apply Hn2; [exact Hc' | exists (S c); split; [lia | exact Hev']]].
      intros q Hq Eq. apply Hn2 in Eq; [|change (layers u) with (layers m); lia].
      destruct Eq as (i & Hi & Hee). destruct (H i ltac:(lia)) as [P1 P2]. destruct Hee as [[A B]|[A B]]; [exact (P1 A B) | exact (P2 A B)]. }
  assert (forall b : bool, length (if b then map (option_map Ropp) t else t) = length t) as Ln by (intros []; [apply map_length | reflexivity]).
  assert (forall b : bool, length (if b then map (option_map Ropp) tr else tr) = length tr) as Lnr by (intros []; [apply map_length | reflexivity]).
  rewrite Ln, Ei, pyslice_firstn by (rewrite Lnr; lia). rewrite firstn_neg. apply in_neg.
  assert (nth j (firstn c tr) None = None) as Hx.
  { assert (nth j tr None = None) as Hx by (apply Hn; [lia | exists j; split; [lia | exact He]]).
    rewrite <- (firstn_skipn c tr) in Hx. rewrite app_nth1 in Hx by (rewrite firstn_length; lia). exact Hx. }
  rewrite <- Hx. apply nth_In. rewrite firstn_length. lia.
Qed.
Print Assumptions C43_reference_refuted.
Example C43_refuted_case d : d <> 0 -> evan_layer d demo (2 * d) "Ps" 0 /\ used_layers d demo (1 * d) "Ps" 2.
Proof. intros H. split; [left; split; [reflexivity | apply (C40_case_evanescent d H)] | apply demo_used; [exact H | lra]]. Qed.
