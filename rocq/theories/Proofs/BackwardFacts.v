From Verif Require Import Model.SimpleModel Spec.ModelSpec Proofs.PyFacts Proofs.SumFacts Proofs.InterpFacts Proofs.ModelFacts Proofs.MoveoutFacts Proofs.MoveoutMain.
From Coq Require Import Lra Lia.
Notation length := List.length.
Open Scope R_scope.

(** ** S multiples: the samples before the onset *)
Lemma map_opp_opp l : map Ropp (map Ropp l) = l.
Proof. rewrite map_map. rewrite <- (map_id l) at 2. apply map_ext. intros; lra. Qed.
Lemma map_opp_tab l : map Ropp (tab l) = tab (map Ropp l).
Proof. unfold tab. rewrite map_app, map_rev, skipn_map, firstn_map. reflexivity. Qed.
Lemma tab_nth0 u c : length u = c -> (2 <= c)%nat -> nth 0 (tab u) 0 = - nth (Nat.min 9 (c - 1)) u 0.
Proof.
  intros L Hc. unfold tab. set (w := map Ropp (firstn 9 (skipn 1 u))).
  assert (length w = Nat.min 9 (c - 1)) as Lw by (unfold w; rewrite map_length, firstn_length, skipn_length; lia).
  rewrite app_nth1 by (rewrite rev_length; lia). rewrite rev_nth by lia. rewrite Lw.
  unfold w. rewrite (nth_map_in Ropp _ _ 0) by (rewrite firstn_length, skipn_length; lia). f_equal.
  assert (forall A (l : list A) n i d, (i < n)%nat -> nth i (firstn n l) d = nth i l d) as Hfn.
  { intros A l. induction l as [|a l IH]; intros n i d H; [rewrite firstn_nil; reflexivity|]. destruct n; [lia|]. destruct i; [reflexivity|]. cbn. apply IH. lia. }
  rewrite Hfn by lia. rewrite nth_skipn. f_equal. lia.
Qed.
(** times of the samples before the onset as used by moveout *)
Definition back_time (t : mtrace) (i k : nat) : R := rel_time t i + INR k * secs (x_delta t).
Lemma back_times t i : map Ropp (map (fun k => - secs (x_start t - x_onset t + Z.of_nat i * x_delta t) - INR k * secs (x_delta t)) (seq 0 i))
  = map (back_time t i) (seq 0 i).
Proof. rewrite map_map. apply map_ext. intros k. unfold back_time, rel_time. ring. Qed.
Lemma nth_back t i k : (k < i)%nat -> nth k (map (back_time t i) (seq 0 i)) 0 = back_time t i k.
Proof. intros H. rewrite (nth_map_in _ _ k 0%nat) by (rewrite seq_length; lia). rewrite seq_nth by lia. reflexivity. Qed.
Theorem move_backward_identity t i T : (0 < x_delta t)%Z -> (0 < i <= length (x_data t))%nat -> T <> [] -> increasing (map Ropp T) ->
  nth 0 (map Ropp T) 0 <= back_time t i 0 -> back_time t i (i - 1) <= last (map Ropp T) 0 ->
  move_backward t i T T = Ok (x_data t).
Proof.
  intros Hd Hi Hn Hinc Hlo Hhi. unfold move_backward. rewrite back_times. set (xs := map (back_time t i) (seq 0 i)).
  pose proof (secs_pos _ Hd) as Hs.
  assert (length xs = i) as Lx by (unfold xs; rewrite map_length, seq_length; reflexivity).
  assert (xs <> []) as Nx by (intros E; rewrite E in Lx; cbn in Lx; lia).
  assert (forall k l, (k < l)%nat -> back_time t i k < back_time t i l) as Hlt.
  { intros k l H. unfold back_time. apply lt_INR in H. nra. }
  assert (map Ropp T <> []) as Nu by (destruct T; [congruence | discriminate]).
  rewrite np_interp_ok by (try assumption; reflexivity). cbn [bind].
  assert (map (interp1 (Some 0) (Some 0) (combine (map Ropp T) (map Ropp T))) xs = xs) as ->.
  { rewrite <- (map_id xs) at 2. apply map_ext_in. intros x Hx. destruct (In_nth xs x 0 Hx) as (k & Hk & <-).
    unfold xs. rewrite nth_back by lia. apply interp1_id; try assumption. split.
    - destruct k as [|k]; [exact Hlo|]. pose proof (Hlt 0%nat (S k) ltac:(lia)). lra.
    - destruct (Nat.eq_dec k (i - 1)) as [->|]; [exact Hhi|]. pose proof (Hlt k (i - 1)%nat ltac:(lia)). lra. }
  rewrite map_opp_opp.
  assert (incr xs) as Ix.
  { intros a b Hab Hb. unfold xs in *. rewrite !nth_back by lia. destruct (Nat.eq_dec a b) as [->|]; [lra|]. pose proof (Hlt a b ltac:(lia)). lra. }
  set (old := rev (firstn i (x_data t))). assert (length old = i) as Lo by (unfold old; rewrite rev_length, firstn_length; lia).
  rewrite np_interp_ok by (try assumption; lia). cbn [bind].
  assert (map (interp1 (Some 0) (Some 0) (combine xs old)) xs = old) as ->.
  { apply (nth_ext _ _ 0 0); [rewrite map_length; lia|]. intros k Hk. rewrite map_length in Hk.
    rewrite (nth_map_in _ xs k 0) by lia. apply interp1_node; try assumption; try lia.
    intros HS. unfold xs. rewrite !nth_back by lia. apply Hlt. lia. }
  unfold old. rewrite rev_involutive, firstn_skipn. reflexivity.
Qed.
(** the first sample is later than the largest delay: nothing is left *)
Theorem move_backward_lost t i T0 T1 : (0 < x_delta t)%Z -> (0 < i <= length (x_data t))%nat -> T0 <> [] -> length T0 = length T1 ->
  - secs (x_delta t) < rel_time t i -> last (map Ropp T0) 0 < back_time t i (i - 1) ->
  exists d, move_backward t i T0 T1 = Ok d /\ length d = length (x_data t) /\
    (forall k, (k + 2 <= i)%nat -> nth k d 0 = 0) /\ (forall k, (i <= k)%nat -> nth k d 0 = nth k (x_data t) 0).
Proof.
  intros Hd Hi Hn Hl Hr Hhi. unfold move_backward. rewrite back_times. set (xs := map (back_time t i) (seq 0 i)).
  assert (length xs = i) as Lx by (unfold xs; rewrite map_length, seq_length; reflexivity).
  assert (xs <> []) as Nx by (intros E; rewrite E in Lx; cbn in Lx; lia).
  assert (map Ropp T0 <> []) as Nu by (destruct T0; [congruence | discriminate]).
  rewrite np_interp_any by (try assumption; rewrite !map_length; lia). cbn [bind].
  set (nt := interp_walk _ _ _ _ _ xs). rewrite map_opp_opp.
  assert (length nt = i) as Ln by (unfold nt; rewrite interp_walk_length; exact Lx).
  assert (nt <> []) as Nn by (intros E; rewrite E in Ln; cbn in Ln; lia).
  assert (last nt 0 = 0) as El.
  { rewrite last_nth_R by exact Nn. rewrite Ln. unfold nt.
    destruct (interp_walk_nth (Some 0) (Some 0) (map Ropp T0) (map Ropp T1) xs 0 (i - 1) ltac:(lia)) as [g ->].
    unfold xs. rewrite nth_back by lia. unfold interp_value. destruct (search_spec (back_time t i (i - 1)) (map Ropp T0) g Nu) as [[-> _]|[(-> & _)|[_ H]]].
    - destruct (Z.eqb_spec (Z.of_nat (length (map Ropp T0))) (-1)); [lia|]. rewrite Z.eqb_refl. reflexivity.
    - reflexivity.
    - rewrite ati_last in H by exact Nu. lra. }
  set (old := rev (firstn i (x_data t))). assert (length old = i) as Lo by (unfold old; rewrite rev_length, firstn_length; lia).
  rewrite np_interp_any by (try assumption; lia). cbn [bind]. set (r := interp_walk _ _ _ _ _ xs).
  assert (length r = i) as Lr by (unfold r; rewrite interp_walk_length; exact Lx).
  eexists. split; [reflexivity|]. split; [rewrite app_length, rev_length, skipn_length; lia|]. split.
  - intros k Hk. rewrite app_nth1 by (rewrite rev_length; lia). rewrite rev_nth by lia. rewrite Lr.
    unfold r. destruct (interp_walk_nth (Some 0) (Some 0) nt old xs 0 (i - S k) ltac:(lia)) as [g ->].
    unfold xs. rewrite nth_back by lia.
    assert (last nt 0 < back_time t i (i - S k)) as Hpos.
    { rewrite El. unfold back_time. pose proof (secs_pos _ Hd). assert (1 <= INR (i - S k)) by (replace 1 with (INR 1) by reflexivity; apply le_INR; lia). nra. }
    unfold interp_value. destruct (search_spec (back_time t i (i - S k)) nt g Nn) as [[-> _]|[(-> & _)|[_ H]]].
    + destruct (Z.eqb_spec (Z.of_nat (length nt)) (-1)); [lia|]. rewrite Z.eqb_refl. reflexivity.
    + reflexivity.
    + rewrite ati_last in H by exact Nn. lra.
  - intros k Hk. rewrite app_nth2 by (rewrite rev_length; lia). rewrite rev_length, Lr, nth_skipn. f_equal. lia.
Qed.
(** the onset is the first sample *)
Theorem move_backward_empty t T0 T1 : T0 <> [] -> length T0 = length T1 -> move_backward t 0 T0 T1 = Err ValueError.
Proof.
  intros Hn Hl. unfold move_backward. cbn [seq map].
  rewrite np_interp_any by (try (destruct T0; [congruence | discriminate]); rewrite !map_length; lia). cbn [bind interp_walk]. reflexivity.
Qed.

(** ** delays of S multiples *)
Section S.
  Variables (deg2km : R) (m : smodel).
  Hypothesis Hv : valid_model m.
  Variable phase : string.
  Hypothesis Hps : ps_phase phase.
  Hypothesis Hmul : s_multiple phase = true.
  Lemma s_first : exists u, upper phase = String "S" u.
  Proof.
    unfold s_multiple in Hmul. destruct (upper phase) as [|c u] eqn:E; [discriminate|]. exists u. f_equal.
    destruct (proj2 Hps c) as [-> | ->]; [rewrite E; cbn; rewrite Ascii.eqb_refl; reflexivity | discriminate | reflexivity].
  Qed.
  Lemma s_sgn : sgn_phase phase = -1.
  Proof. unfold sgn_phase. destruct s_first as [u ->]. reflexivity. Qed.
  Lemma s_layer_pos j qp qs s : (2 <= count_char "S" (upper phase))%nat -> (j < layers m)%nat ->
    (char_in "P" (upper phase) = true -> snell (nth j (mvp m) 0) s qp) -> (char_in "S" (upper phase) = true -> snell (nth j (mvs m) 0) s qs) ->
    0 <= layer_delay phase qp qs (nth j (mdz m) 0).
  Proof.
    intros H2 Hj A B. destruct Hv as (_ & _ & _ & _ & H). destruct (H j Hj) as (_ & _ & Hz).
    unfold layer_delay. destruct s_first as [u Eu]. rewrite Eu in *.
    assert (0 <= qs) as Q by (apply B; reflexivity).
    assert (2 <= INR (count_char "S" (String "S" u))) by (replace 2 with (INR 2) by reflexivity; apply le_INR; exact H2).
    apply Rmult_le_pos; [exact Hz|].
    assert (0 <= INR (count_char "P" (String "S" u)) * qp).
    { destruct (char_in "P" (String "S" u)) eqn:EP; [apply Rmult_le_pos; [apply pos_INR | apply A; reflexivity]|].
      assert (count_char "P" (String "S" u) = 0%nat) as ->; [|cbn; lra].
      destruct (count_char "P" (String "S" u)) eqn:Ec; [reflexivity|]. exfalso.
      assert (char_in "P" (String "S" u) = true) by (apply count_in; lia). congruence. }
    cbv iota. nra.
  Qed.
  Lemma s_delay_incr s i j x y : (2 <= count_char "S" (upper phase))%nat -> (i <= j)%nat -> (j < layers m)%nat ->
    is_delay deg2km m s phase i x -> is_delay deg2km m s phase j y -> 0 <= x <= y.
  Proof.
    intros H2 Hij Hj Hx (fp & fs & H & ->).
    assert (x = rsum (S i) (fun j => layer_delay phase (fp j) (fs j) (nth j (mdz m) 0))) as ->.
    { apply (is_delay_unique deg2km m s phase i); try assumption; [lia|]. exists fp, fs. split; [|reflexivity]. intros q Hq. apply H. lia. }
    replace (S j) with (S i + (j - i))%nat by lia. rewrite rsum_split.
    assert (forall q, (q <= j)%nat -> 0 <= layer_delay phase (fp q) (fs q) (nth q (mdz m) 0)) as Hs.
    { intros q Hq. destruct (H q Hq). apply (s_layer_pos q _ _ (s / deg2km)); try assumption. lia. }
    assert (0 <= rsum (S i) (fun q => layer_delay phase (fp q) (fs q) (nth q (mdz m) 0))) by (apply rsum_nonneg; intros; apply Hs; lia).
    assert (0 <= rsum (j - i) (fun q => layer_delay phase (fp (S i + q)%nat) (fs (S i + q)%nat) (nth (S i + q) (mdz m) 0)))
      by (apply rsum_nonneg; intros q Hq; apply Hs; lia). lra.
  Qed.
  (** the table of moveout, turned around *)
  Lemma s_oriented s c l : oriented deg2km m s phase c l -> length (map Ropp l) = c /\
    forall i, (i < c)%nat -> is_delay deg2km m s phase i (nth i (map Ropp l) 0).
  Proof.
    intros [L H]. split; [rewrite map_length; exact L|]. intros i Hi. specialize (H i Hi). rewrite s_sgn in H.
    rewrite (nth_map_in Ropp l i 0) by lia. replace (- nth i l 0) with (-1 * nth i l 0) by ring. exact H.
  Qed.
  Lemma s_table s c l : (2 <= count_char "S" (upper phase))%nat -> (c <= layers m)%nat -> oriented deg2km m s phase c l ->
    increasing (map Ropp (tab l)).
  Proof.
    intros H2 Hc O. destruct (s_oriented s c l O) as [L H]. rewrite map_opp_tab. apply tab_incr.
    - intros i j Hij Hj. apply (s_delay_incr s i j); try assumption; try lia; apply H; lia.
    - intros x Hx. destruct (In_nth _ _ 0 Hx) as (k & Hk & <-). pose proof (H k ltac:(lia)) as D. apply (s_delay_incr s k k _ _ H2 ltac:(lia) ltac:(lia) D D).
  Qed.
  (** moveout of a trace in terms of the tables *)
  Lemma s_moveout ref t c : Nat.even (String.length phase) = true -> consistent deg2km m ref -> onset_inside t ->
    used_layers deg2km m (x_slow t) phase c -> propagates_to deg2km m ref phase c ->
    exists m' l0 l1, oriented deg2km m (x_slow t) phase c l0 /\ oriented deg2km m ref phase c l1 /\ (c <= layers m)%nat /\
      moveout_trace deg2km m phase ref t = (m', let! d := move_backward t (onset_index t) (tab l0) (tab l1) in Ok (with_data t d)).
  Proof.
    intros Hev Hcons Hon Hu Hr. destruct (stretch_tables deg2km m (x_slow t) phase ref c Hv Hps Hev Hu Hr Hcons) as (m' & l0 & l1 & E & _ & _ & Hc & O0 & O1).
    exists m', l0, l1. split; [exact O0|]. split; [exact O1|]. split; [exact Hc|]. unfold moveout_trace.
    destruct (negb _) eqn:En.
    { exfalso. destruct Hon as [A B]. apply Bool.negb_true_iff, Bool.andb_false_iff in En. destruct En as [En|En]; apply Z.leb_gt in En; lia. }
    rewrite E. rewrite !finite_some, Hmul. reflexivity.
  Qed.
End S.
