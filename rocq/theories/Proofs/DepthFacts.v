From Verif Require Import Model.DepthAxis Spec.ModelSpec Spec.DepthSpec Proofs.PyFacts Proofs.SumFacts Proofs.InterpFacts Proofs.ModelFacts Proofs.MoveoutFacts.
From Coq Require Import Lra Lia.
Notation length := List.length.
Open Scope R_scope.

Lemma nan_walk_length xp fp : forall xs g, length (interp_walk_nan xp fp g xs) = length xs.
Proof. induction xs as [|x xs IH]; intros g; [reflexivity|]. cbn [interp_walk_nan List.length]. rewrite IH. reflexivity. Qed.
Lemma nan_walk_nth xp fp : forall xs g k, (k < length xs)%nat ->
  exists g', nth k (interp_walk_nan xp fp g xs) None = interp_value_nan xp fp (nth k xs 0) (search (nth k xs 0) xp g').
Proof.
  induction xs as [|x xs IH]; intros g k Hk; [cbn in Hk; lia|]. cbn [interp_walk_nan]. destruct k as [|k].
  - exists g. reflexivity.
  - cbn [nth]. apply IH. cbn in Hk. lia.
Qed.
Lemma np_interp_nan_ok xs xp fp : length fp = length xp -> xp <> [] ->
  np_interp_nan xs xp fp = Ok (interp_walk_nan xp fp 0 xs).
Proof. intros Hl Hne. unfold np_interp_nan. rewrite Hl, Nat.eqb_refl. cbn [negb]. destruct xp; [congruence | reflexivity]. Qed.
Lemma ato_nth l i : ato l (Z.of_nat i) = nth i l None.
Proof. unfold ato. rewrite Nat2Z.id. reflexivity. Qed.

Lemma nan_inside xp fp x g i : incr xp -> (S i < length xp)%nat -> nth i xp 0 <= x < nth (S i) xp 0 ->
  interp_value_nan xp fp x (search x xp g) =
    if Req_EM_T (nth i xp 0) x then nth i fp None
    else match nth (S i) fp None, nth i fp None with
         | Some b, Some a => Some ((b - a) / (nth (S i) xp 0 - nth i xp 0) * (x - nth i xp 0) + a)
         | _, _ => None
         end.
Proof.
  intros Hinc Hi [H0 H1]. assert (xp <> []) as Hne by (intros ->; cbn in Hi; lia).
  destruct (search_spec x xp g Hne) as [[_ H]|[(_ & H & _)|[(Hb & Hb1 & Hb2) _]]].
  - exfalso. rewrite ati_last in H by exact Hne. pose proof (nth_last_le xp (S i) Hinc Hi). lra.
  - exfalso. change 0%Z with (Z.of_nat 0) in H. rewrite ati_nth in H. pose proof (Hinc 0%nat i ltac:(lia) ltac:(lia)). lra.
  - assert (search x xp g = Z.of_nat i) as ->.
    { set (j := search x xp g) in *. clearbody j. assert (exists k, j = Z.of_nat k) as [k ->] by (exists (Z.to_nat j); lia).
      replace (Z.of_nat k + 1)%Z with (Z.of_nat (S k)) in * by lia. rewrite !ati_nth in *.
      destruct (Nat.lt_trichotomy k i) as [H|[->|H]]; [|reflexivity|].
      - specialize (Hb2 ltac:(lia)). pose proof (Hinc (S k) i ltac:(lia) ltac:(lia)). lra.
      - pose proof (Hinc (S i) k ltac:(lia) ltac:(lia)). lra. }
    unfold interp_value_nan. destruct (Z.eqb_spec (Z.of_nat i) (-1)); [lia|].
    destruct (Z.eqb_spec (Z.of_nat i) (Z.of_nat (length xp))); [lia|]. destruct (Z.eqb_spec (Z.of_nat i) (Z.of_nat (length xp) - 1)); [lia|].
    replace (Z.of_nat i + 1)%Z with (Z.of_nat (S i)) by lia. rewrite !ati_nth, !ato_nth. reflexivity.
Qed.
Lemma nan_below xp fp x g : length fp = length xp -> incr xp -> xp <> [] -> last xp 0 <= x ->
  interp_value_nan xp fp x (search x xp g) = nth (length xp - 1) fp None.
Proof.
  intros Hl Hinc Hne Hx. assert (1 <= length xp)%nat by (destruct xp; [congruence | cbn; lia]).
  assert (ato fp (Z.of_nat (length xp) - 1) = nth (length xp - 1) fp None) as Ea.
  { replace (Z.of_nat (length xp) - 1)%Z with (Z.of_nat (length xp - 1)) by lia. apply ato_nth. }
  destruct (search_spec x xp g Hne) as [[-> H']|[(_ & H' & _)|[(Hb & Hb1 & Hb2) Hla]]].
  - unfold interp_value_nan. destruct (Z.eqb_spec (Z.of_nat (length xp)) (-1)); [lia|]. rewrite Z.eqb_refl. exact Ea.
  - exfalso. change 0%Z with (Z.of_nat 0) in H'. rewrite ati_nth in H'. pose proof (nth_last_le xp 0 Hinc ltac:(lia)). lra.
  - assert (search x xp g = Z.of_nat (length xp) - 1)%Z as ->.
    { set (j := search x xp g) in *. clearbody j. assert (exists k, j = Z.of_nat k) as [k ->] by (exists (Z.to_nat j); lia).
      replace (Z.of_nat k + 1)%Z with (Z.of_nat (S k)) in * by lia. rewrite !ati_nth in *.
      destruct (Nat.eq_dec k (length xp - 1)) as [->|]; [lia|]. exfalso. specialize (Hb2 ltac:(lia)).
      pose proof (nth_last_le xp (S k) Hinc ltac:(lia)). lra. }
    unfold interp_value_nan. destruct (Z.eqb_spec (Z.of_nat (length xp) - 1) (-1)); [lia|].
    destruct (Z.eqb_spec (Z.of_nat (length xp) - 1) (Z.of_nat (length xp))); [lia|]. rewrite Z.eqb_refl. exact Ea.
Qed.

Lemma contiguous_incr m : valid_model m -> contiguous m -> increasing (mz m).
Proof.
  intros (Ha & Lz & Lp & Ls & Hv) Hc i j Hij. induction Hij as [|j Hij IH]; intros Hj; [lra|].
  specialize (IH ltac:(lia)). rewrite Hc by (rewrite <- Lz; exact Hj). pose proof (Hv j ltac:(lia)) as (_ & _ & ?). lra.
Qed.
Lemma rsum_S n f : rsum (S n) f = rsum n f + f n.
Proof. reflexivity. Qed.
Lemma layer_delay_scale phase p q a b : layer_delay phase p q (a * b) = a * layer_delay phase p q b.
Proof. unfold layer_delay. ring. Qed.

Section Tick.
  Variable deg2km : R.
  (** value of a tick: one layer further down *)
  Theorem tick_at m s phase pd d g i : valid_model m -> contiguous m -> ps_phase phase -> propagates_to deg2km m s phase (S (S i)) ->
    delay_times deg2km m s phase = Ok pd -> (S i < layers m)%nat -> nth i (mz m) 0 <= d < nth (S i) (mz m) 0 ->
    exists x, interp_value_nan (mz m) pd d (search d (mz m) g) = Some x /\
      delay_at deg2km m s phase (S i)
        (nth (S i) (mz m) 0 + (d - nth i (mz m) 0) / nth i (mdz m) 0 * nth (S i) (mdz m) 0) x.
  Proof.
    intros Hv Hc Hps Hpr Epd Hi Hd. pose proof Hv as (_ & Lz & _ & _ & Hpos).
    rewrite nan_inside with (i := i) by (try apply contiguous_incr; try assumption; lia).
    destruct (delay_ok deg2km m Hv s phase Hps) as (t & E & L & Hs & Hn). rewrite E in Epd. inversion Epd; subst t. clear Epd E.
    assert (forall k, (k < S (S i))%nat -> nth k pd None <> None) as Hno.
    { intros k Hk Ek. apply Hn in Ek; [|lia]. destruct Ek as (j & Hj & He). destruct (Hpr j ltac:(lia)) as [P1 P2].
      destruct He as [[A B]|[A B]]; [exact (P1 A B) | exact (P2 A B)]. }
    destruct (nth i pd None) as [a|] eqn:Ea; [|exfalso; exact (Hno i ltac:(lia) Ea)].
    destruct (nth (S i) pd None) as [b|] eqn:Eb; [|exfalso; exact (Hno (S i) ltac:(lia) Eb)].
    pose proof (proj1 (Hs i a ltac:(lia)) Ea) as Da. pose proof (proj1 (Hs (S i) b ltac:(lia)) Eb) as Db.
    destruct Db as (qp & qs & Hq & Eqb).
    assert (a = rsum (S i) (fun j => layer_delay phase (qp j) (qs j) (nth j (mdz m) 0))) as Eqa.
    { apply (is_delay_unique deg2km m s phase i); try assumption; [lia|]. exists qp, qs. split; [|reflexivity]. intros j Hj. apply Hq. lia. }
    rewrite rsum_S in Eqb. rewrite <- Eqa in Eqb. pose proof (Hc i Hi) as Hci.
    assert (0 < nth i (mdz m) 0) as Hdz by lra. pose proof (Hpos (S i) Hi) as (_ & _ & Hdz').
    set (th := (d - nth i (mz m) 0) / nth i (mdz m) 0). 
    assert (0 <= th < 1) as Hth.
    { unfold th. split.
      - apply Rmult_le_pos; [lra | left; apply Rinv_0_lt_compat; lra].
      - apply (Rmult_lt_reg_r (nth i (mdz m) 0)); [lra|]. unfold Rdiv. rewrite Rmult_assoc, Rinv_l by lra. lra. }
    exists (a + th * layer_delay phase (qp (S i)) (qs (S i)) (nth (S i) (mdz m) 0)). split.
    - destruct (Req_EM_T (nth i (mz m) 0) d) as [Ed|Ed].
      + f_equal. unfold th. rewrite Ed. unfold Rdiv. ring.
      + f_equal. rewrite Eqb. unfold th. rewrite Hci.
        replace (nth i (mz m) 0 + nth i (mdz m) 0 - nth i (mz m) 0) with (nth i (mdz m) 0) by ring. field. lra.
    - split; [split; [exact Hi | split; nra]|]. exists qp, qs. split; [exact Hq|].
      rewrite Eqa. f_equal. rewrite <- layer_delay_scale. f_equal. ring.
  Qed.
  Theorem tick_bottom m s phase pd d g : valid_model m -> contiguous m -> ps_phase phase -> propagates_to deg2km m s phase (layers m) ->
    delay_times deg2km m s phase = Ok pd -> (0 < layers m)%nat -> nth (layers m - 1) (mz m) 0 <= d ->
    exists x, interp_value_nan (mz m) pd d (search d (mz m) g) = Some x /\
      delay_at deg2km m s phase (layers m - 1) (nth (layers m - 1) (mz m) 0 + nth (layers m - 1) (mdz m) 0) x.
  Proof.
    intros Hv Hc Hps Hpr Epd Hpl Hd. pose proof Hv as (_ & Lz & _ & _ & Hpos).
    destruct (delay_ok deg2km m Hv s phase Hps) as (t & E & L & Hs & Hn). rewrite E in Epd. inversion Epd; subst t. clear Epd E.
    assert (mz m <> []) as Hne by (intros H; rewrite H in Lz; cbn in Lz; lia).
    rewrite nan_below; [|lia|apply contiguous_incr; assumption|exact Hne|rewrite last_nth_R, Lz by exact Hne; exact Hd].
    rewrite Lz. destruct (nth (layers m - 1) pd None) as [a|] eqn:Ea.
    - exists a. split; [reflexivity|]. apply Hs in Ea; [|lia]. destruct Ea as (qp & qs & Hq & ->).
      pose proof (Hpos (layers m - 1)%nat ltac:(lia)) as (_ & _ & Hdz). split; [split; [lia | lra]|].
      exists qp, qs. split; [exact Hq|]. rewrite rsum_S. f_equal. f_equal. ring.
    - exfalso. apply Hn in Ea; [|lia]. destruct Ea as (j & Hj & He). destruct (Hpr j ltac:(lia)) as [P1 P2].
      destruct He as [[A B]|[A B]]; [exact (P1 A B) | exact (P2 A B)].
  Qed.
End Tick.

(** without NaN *)
Lemma nan_value_some xp l x g : length l = length xp -> xp <> [] ->
  interp_value_nan xp (map Some l) x (search x xp g) = Some (interp_value None None xp l x (search x xp g)).
Proof.
  intros Hl Hne. assert (1 <= Z.of_nat (length xp))%Z by (destruct xp; [congruence | cbn [List.length]; lia]).
  assert (forall i, (0 <= i < Z.of_nat (length xp))%Z -> ato (map Some l) i = Some (ati l i)) as Ha.
  { intros i Hi. unfold ato, ati. apply nth_map_in. lia. }
  assert (-1 <= search x xp g <= Z.of_nat (length xp))%Z as Hj.
  { destruct (search_spec x xp g Hne) as [[-> _]|[(-> & _)|[(Hb & _) _]]]; lia. }
  unfold interp_value_nan, interp_value. set (j := search x xp g) in *. clearbody j.
  destruct (Z.eqb_spec j (-1)); [apply Ha; lia|]. destruct (Z.eqb_spec j (Z.of_nat (length xp))); [apply Ha; lia|].
  destruct (Z.eqb_spec j (Z.of_nat (length xp) - 1)); [apply Ha; lia|]. destruct (Req_EM_T _ _); [apply Ha; lia|].
  rewrite !Ha by lia. reflexivity.
Qed.
Lemma nan_walk_some xp l : length l = length xp -> xp <> [] -> incr xp -> forall xs g,
  interp_walk_nan xp (map Some l) g xs = map (fun x => Some (interp1 None None (combine xp l) x)) xs.
Proof.
  intros Hl Hne Hi. induction xs as [|x xs IH]; intros g; [reflexivity|]. cbn [interp_walk_nan map].
  rewrite IH, nan_value_some, interp_value_sorted by assumption. reflexivity.
Qed.

Lemma bind_ok {A B} (r : res A) (f : A -> res B) y : bind r f = Ok y -> exists x, r = Ok x /\ f x = Ok y.
Proof. destruct r as [x|e]; cbn; [eauto | discriminate]. Qed.
From Verif Require Import Model.Imaging.
Lemma plot_no_top pr sc top p : plot_profile pr sc top = Ok (Some p) -> exists q, plot_profile pr sc None = Ok (Some q).
Proof.
  unfold plot_profile. destruct pr as [|t pr]; [discriminate|]. set (l := t :: pr).
  destruct (mapM (num_attr "box_length") l) as [widths|]; cbn [bind]; [|discriminate].
  destruct (py_min widths); cbn [bind]; [|discriminate].
  destruct (mapM (num_attr "box_pos") l) as [poss|]; cbn [bind]; [|discriminate].
  destruct (py_min poss); cbn [bind]; [|discriminate]. destruct (py_max poss); cbn [bind]; [|discriminate].
  destruct (mapM (fun t0 => max_abs (data t0)) l) as [maxs|]; cbn [bind]; [|discriminate].
  destruct (py_max maxs); cbn [bind]; [|discriminate]. destruct (mapM _ l) as [lines|]; cbn [bind]; [|discriminate].
  intros _. eexists. reflexivity.
Qed.
Lemma plot_onset first rest sc top p : plot_profile (first :: rest) sc top = Ok (Some p) -> exists o, onset_of first = Ok o.
Proof.
  unfold plot_profile. set (l := first :: rest).
  destruct (mapM (num_attr "box_length") l) as [widths|]; cbn [bind]; [|discriminate].
  destruct (py_min widths); cbn [bind]; [|discriminate].
  destruct (mapM (num_attr "box_pos") l) as [poss|]; cbn [bind]; [|discriminate].
  destruct (py_min poss); cbn [bind]; [|discriminate]. destruct (py_max poss); cbn [bind]; [|discriminate].
  destruct (mapM (fun t0 => max_abs (data t0)) l) as [maxs|]; cbn [bind]; [|discriminate].
  destruct (py_max maxs); cbn [bind]; [|discriminate]. unfold l at 1. cbn [mapM].
  destruct (num_attr "box_pos" first); cbn [bind]; [|discriminate]. unfold times_rel.
  destruct (onset_of first) as [o|]; cbn [bind]; [eauto | discriminate].
Qed.
