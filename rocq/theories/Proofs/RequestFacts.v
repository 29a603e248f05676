(** Lemmas for C138. *)
From Verif Require Import Model.LocalData Spec.TimeSpec Spec.LocalSpec Spec.RequestSpec Proofs.PyFacts Proofs.TimeFacts.
Notation length := List.length.
Local Open Scope Z_scope.

Lemma round_away_pos n d : 0 < d -> 0 <= n -> 2 * round_away n d * d - d <= 2 * n < 2 * round_away n d * d + d /\ 0 <= round_away n d.
Proof.
  intros Hd Hn. unfold round_away. rewrite Z.abs_eq by lia. destruct (Z.eq_dec n 0) as [->|Hz].
  - cbn [Z.sgn]. lia.
  - rewrite Z.sgn_pos by lia. pose proof (Z.div_mod (2 * n + d) (2 * d) ltac:(lia)). pose proof (Z.mod_pos_bound (2 * n + d) (2 * d) ltac:(lia)).
    pose proof (Z.div_pos (2 * n + d) (2 * d) ltac:(lia) ltac:(lia)). nia.
Qed.
Lemma round_away_neg n d : 0 < d -> n < 0 -> 2 * round_away n d * d - d < 2 * n <= 2 * round_away n d * d + d /\ round_away n d <= 0.
Proof.
  intros Hd Hn. unfold round_away. rewrite Z.abs_neq by lia. rewrite Z.sgn_neg by lia.
  pose proof (Z.div_mod (2 * - n + d) (2 * d) ltac:(lia)). pose proof (Z.mod_pos_bound (2 * - n + d) (2 * d) ltac:(lia)).
  pose proof (Z.div_pos (2 * - n + d) (2 * d) ltac:(lia) ltac:(lia)). nia.
Qed.
Lemma round_away_mult k d : 0 < d -> round_away (k * d) d = k.
Proof. intros Hd. apply Z.le_antisymm; [apply round_away_le | apply round_away_ge]; lia. Qed.

Lemma mul_lt d i j : 0 < d -> i * d < j * d -> i < j. Proof. intros; nia. Qed.
Lemma mul_le d i j : 0 < d -> i * d <= j * d -> i <= j. Proof. intros; nia. Qed.
Lemma half d k i : 0 < d -> 2 * (k * d) < 2 * (i * d) + 2 * d -> k * d <= i * d.
Proof. intros Hd H. apply Z.mul_le_mono_nonneg_r; [lia|]. assert (k < i + 1) by (apply (mul_lt d); lia). lia. Qed.
Lemma samples_in s d l x : 0 < d -> In x (samples_from s d l) -> exists i, 0 <= i < Z.of_nat (length l) /\ fst x = s + i * d.
Proof.
  intros Hd. revert s. induction l as [|y l IH]; intros s H; cbn [samples_from In] in H; [contradiction|]. destruct H as [<-|H].
  - exists 0. cbn [fst List.length]. split; lia.
  - destruct (IH _ H) as (i & Hi & E). exists (i + 1). cbn [List.length]. split; lia.
Qed.
Lemma samples_length s d l : length (samples_from s d l) = length l.
Proof. revert s. induction l as [|x l IH]; intros s; cbn [samples_from List.length]; [reflexivity | rewrite IH; reflexivity]. Qed.
Lemma filter_true {A} (f : A -> bool) l : (forall x, In x l -> f x = true) -> filter f l = l.
Proof. induction l as [|x l IH]; intros H; cbn [filter]; [reflexivity|]. rewrite H by (left; reflexivity). f_equal. apply IH. intros y Hy. apply H. right. exact Hy. Qed.
Lemma filter_false {A} (f : A -> bool) l : (forall x, In x l -> f x = false) -> filter f l = [].
Proof. induction l as [|x l IH]; intros H; cbn [filter]; [reflexivity|]. rewrite H by (left; reflexivity). apply IH. intros y Hy. apply H. right. exact Hy. Qed.
Lemma filter_filter {A} (f g : A -> bool) l : filter f (filter g l) = filter (fun x => g x && f x) l.
Proof. induction l as [|x l IH]; cbn [filter]; [reflexivity|]. destruct (g x); cbn [filter andb]; rewrite IH; reflexivity. Qed.
Lemma samples_skipn s d l k : 0 < d -> samples_from (s + Z.of_nat k * d) d (skipn k l) = filter (fun x => s + Z.of_nat k * d <=? fst x) (samples_from s d l).
Proof.
  intros Hd. revert s l. induction k as [|k IH]; intros s l.
  - cbn [skipn]. replace (s + Z.of_nat 0 * d) with s by lia. symmetry. apply filter_true. intros x Hx.
    destruct (samples_in _ _ _ _ Hd Hx) as (i & Hi & ->). apply Z.leb_le. nia.
  - destruct l as [|y l]; [reflexivity|]. cbn [skipn samples_from filter fst].
    destruct (Z.leb_spec (s + Z.of_nat (S k) * d) s); [nia|]. replace (s + Z.of_nat (S k) * d) with (s + d + Z.of_nat k * d) by lia. apply IH.
Qed.
Lemma samples_firstn s d l m : 0 < d -> samples_from s d (firstn m l) = filter (fun x => fst x <? s + Z.of_nat m * d) (samples_from s d l).
Proof.
  intros Hd. revert s l. induction m as [|m IH]; intros s l.
  - cbn [firstn samples_from]. symmetry. apply filter_false. intros x Hx. destruct (samples_in _ _ _ _ Hd Hx) as (i & Hi & ->). apply Z.ltb_ge. nia.
  - destruct l as [|y l]; [reflexivity|]. cbn [firstn samples_from filter fst].
    destruct (Z.ltb_spec s (s + Z.of_nat (S m) * d)); [|nia]. f_equal. rewrite IH. apply filter_ext. intros x. f_equal. lia.
Qed.

Definition reach (t : trace) (lo : Z) : Z := round_away (lo - starttime (st t)) (delta (st t)).
Lemma ltrim_samples t lo : 0 < delta (st t) ->
  samples (ltrim t lo) = filter (fun x => starttime (st t) + reach t lo * delta (st t) <=? fst x) (samples t) /\
  starttime (st (ltrim t lo)) = starttime (st t) + Z.max 0 (reach t lo) * delta (st t) /\ delta (st (ltrim t lo)) = delta (st t).
Proof.
  intros Hd. unfold ltrim. fold (reach t lo). destruct (Z.leb_spec (reach t lo) 0) as [Hk|Hk].
  - split; [|split; [rewrite Z.max_l by lia; lia | reflexivity]]. symmetry. apply filter_true. intros x Hx. destruct (samples_in _ _ _ _ Hd Hx) as (i & Hi & ->). apply Z.leb_le. nia.
  - split; [|split; [cbn; rewrite Z.max_r by lia; reflexivity | reflexivity]]. unfold samples. cbn [set_data set_starttime st data starttime delta].
    pose proof (samples_skipn (starttime (st t)) (delta (st t)) (data t) (Z.to_nat (reach t lo)) Hd) as H. rewrite Z2Nat.id in H by lia. exact H.
Qed.
Lemma rtrim_samples t hi : 0 < delta (st t) -> (starttime (st t) <= hi \/ reach t hi < 0) ->
  samples (rtrim t hi) = filter (fun x => fst x <=? starttime (st t) + reach t hi * delta (st t)) (samples t) /\
  (data (rtrim t hi) <> [] -> starttime (st (rtrim t hi)) = starttime (st t)) /\ delta (st (rtrim t hi)) = delta (st t).
Proof.
  intros Hd Hc. unfold rtrim. fold (reach t hi). unfold npts. destruct (Z.leb_spec 0 (reach t hi - (Z.of_nat (length (data t)) - 1))) as [Hk|Hk].
  - split; [|split; [reflexivity | reflexivity]]. symmetry. apply filter_true. intros x Hx. destruct (samples_in _ _ _ _ Hd Hx) as (i & Hi & ->). apply Z.leb_le. nia.
  - destruct (Z.ltb_spec hi (starttime (st t))) as [Hlt|Hge].
    + destruct Hc as [Hc|Hc]; [lia|]. split; [|split; [intros H; contradiction H; reflexivity | reflexivity]]. symmetry. apply filter_false. intros x Hx.
      destruct (samples_in _ _ _ _ Hd Hx) as (i & Hi & ->). apply Z.leb_gt. nia.
    + assert (0 <= reach t hi) as Hk0 by (apply round_away_ge; lia).
      assert (Z.to_nat (if hi =? starttime (st t) then 1 else Z.of_nat (length (data t)) + (reach t hi - (Z.of_nat (length (data t)) - 1))) = Z.to_nat (reach t hi + 1)) as ->.
      { destruct (Z.eqb_spec hi (starttime (st t))) as [E|E]; [|f_equal; lia].
        assert (reach t hi <= 0) by (apply round_away_le; lia). f_equal. lia. }
      split; [|split; reflexivity]. unfold samples. cbn [set_data st data starttime delta]. rewrite samples_firstn by exact Hd. apply filter_ext_in.
      intros x Hx. destruct (samples_in _ _ _ _ Hd Hx) as (i & Hi & ->). rewrite Z2Nat.id by lia.
      destruct (Z.ltb_spec (starttime (st t) + i * delta (st t)) (starttime (st t) + (reach t hi + 1) * delta (st t)));
        destruct (Z.leb_spec (starttime (st t) + i * delta (st t)) (starttime (st t) + reach t hi * delta (st t))); try reflexivity; exfalso;
        [assert (i < reach t hi + 1) by (apply (mul_lt (delta (st t))); lia); nia | assert (i <= reach t hi) by (apply (mul_le (delta (st t))); lia); nia].
Qed.

(** slice with the padded window, then trim with the times on samples of the trace *)
Lemma samples_ends s d x l : 0 < d -> filter (fun y : Z * Q => s <=? fst y) (samples_from s d (x :: l)) = samples_from s d (x :: l).
Proof. intros Hd. apply filter_true. intros y Hy. destruct (samples_in _ _ _ _ Hd Hy) as (i & Hi & ->). apply Z.leb_le. nia. Qed.

Section Cut.
  Variables (t : trace) (a b pad : Z).
  Hypothesis Hd : 0 < delta (st t).
  Hypothesis Hab : a < b.
  Hypothesis Hpad : delta (st t) <= 2 * pad.
  Let s := starttime (st t).
  Let d := delta (st t).
  Let k1 := round_away (a - pad - s) d.
  Let s1 := s + Z.max 0 k1 * d.
  Let t1 := rtrim (ltrim t (a - pad)) (b + pad).
  Lemma slice_ok : trim t (STime (a - pad)) (STime (b + pad)) = Ok t1.
  Proof. cbn [trim]. destruct (Z.ltb_spec (b + pad) (a - pad)); [lia | reflexivity]. Qed.
  (** the samples of the window survive the slice, and its times are known *)
  Lemma slice_samples :
    delta (st t1) = d /\ (data t1 <> [] -> exists j, 0 <= j /\ starttime (st t1) = s + j * d) /\
    (forall x, In x (samples t1) -> In x (samples t)) /\
    exists f, samples t1 = filter f (samples t) /\ forall x, In x (samples t) -> inside a b d x = true -> f x = true.
  Proof.
    destruct (ltrim_samples t (a - pad) Hd) as (L1 & L2 & L3). fold s d in L1, L2, L3. change (reach t (a - pad)) with k1 in L1, L2. fold s1 in L2.
    assert (0 < delta (st (ltrim t (a - pad)))) as Hd1 by (rewrite L3; exact Hd).
    set (u := ltrim t (a - pad)) in *.
    assert (delta (st t1) = d) as Hdel by (unfold t1; fold u; destruct (rtrim_window u (b + pad) Hd1) as [(_ & _ & _ & _ & H & _) _]; congruence).
    destruct (rtrim_window u (b + pad) Hd1) as [_ (m & Rm1 & Rm2 & Rm3 & _ & _)].
    assert (data t1 <> [] -> starttime (st t1) = s1) as Hst.
    { intros H. unfold t1. fold u. rewrite Rm3; [exact L2|]. intros ->. apply H. unfold t1. fold u. rewrite Rm1. reflexivity. }
    assert (d <= 2 * pad) as Hp by exact Hpad. assert (0 < d) as Hd' by exact Hd.
    assert (exists f, samples t1 = filter f (samples t) /\ forall x, In x (samples t) -> inside a b d x = true -> f x = true) as Hf.
    { destruct (Z_le_gt_dec s1 (b + pad)) as [Hc|Hc].
      - destruct (rtrim_samples u (b + pad) Hd1) as (R1 & _ & _); [left; rewrite L2; exact Hc|]. rewrite L1, filter_filter in R1. fold t1 in R1.
        eexists. split; [exact R1|]. intros x Hx Hi. cbv beta. destruct (samples_in _ _ _ _ Hd Hx) as (i & Hi' & E). fold s d in E. unfold inside in Hi. apply andb_true_iff in Hi. destruct Hi as [I1 I2].
        apply Z.ltb_lt in I1, I2. apply andb_true_iff. unfold reach. rewrite L2, L3. fold d. split; apply Z.leb_le.
        + rewrite E in *. destruct (Z_lt_le_dec (a - pad - s) 0) as [Hn|Hn]; [pose proof (round_away_neg _ _ Hd' Hn) as Hr | pose proof (round_away_pos _ _ Hd' Hn) as Hr]; fold k1 in Hr; (assert (k1 * d <= i * d) by (apply half; lia)); lia.
        + rewrite E in *. pose proof (round_away_pos (b + pad - s1) d Hd' ltac:(lia)) as Hr. set (k2 := round_away (b + pad - s1) d) in *. unfold s1 in *. set (j := Z.max 0 k1) in *. assert (i * d <= (j + k2) * d) by (apply half; lia). lia.
      - assert (k1 <= 0) as Hk.
        { destruct (Z_le_gt_dec k1 0) as [H|H]; [exact H | exfalso]. unfold s1 in Hc. rewrite Z.max_r in Hc by lia.
          destruct (Z_lt_le_dec (a - pad - s) 0) as [Hn|Hn]; [pose proof (round_away_neg _ _ Hd' Hn) as Hr | pose proof (round_away_pos _ _ Hd' Hn) as Hr]; fold k1 in Hr; lia. }
        assert (s1 = s) as Es by (unfold s1; rewrite Z.max_l by lia; lia).
        assert (forall x, In x (samples t) -> inside a b d x = false) as Hout.
        { intros x Hx. destruct (samples_in _ _ _ _ Hd Hx) as (i & Hi' & E). fold s d in E. unfold inside. apply andb_false_iff. right. apply Z.ltb_ge. nia. }
        destruct (rtrim_window u (b + pad) Hd1) as [_ (m' & Rm1' & _ & _ & _ & _)].
        exists (fun x => fst x <? s + Z.of_nat m' * d). split; [|intros x Hx Hi; rewrite Hout in Hi by exact Hx; discriminate].
        assert (u = t) as Eu by (unfold u, ltrim; fold s d k1; destruct (Z.leb_spec k1 0); [reflexivity | lia]).
        destruct (data t1) as [|q l] eqn:Ed.
        + unfold samples at 1. rewrite Ed. cbn [samples_from]. unfold samples. fold s d. rewrite <- (samples_firstn s d (data t) m' Hd'). rewrite <- Eu, <- Rm1'. fold t1. rewrite Ed. reflexivity.
        + unfold samples at 1. rewrite Hst by discriminate. rewrite Es, Hdel. unfold samples. fold s d. rewrite <- (samples_firstn s d (data t) m' Hd'). f_equal. unfold t1. fold u. rewrite Rm1', Eu. reflexivity. }
    split; [exact Hdel|]. split; [intros H; exists (Z.max 0 k1); split; [lia | exact (Hst H)]|]. split; [|exact Hf].
    destruct Hf as (f & Hf & _). intros x Hx. rewrite Hf in Hx. apply filter_In in Hx. apply Hx.
  Qed.
  Hypothesis Hne : data t1 <> [].
  Let a2 := snap_start t1 a.
  Let b2 := snap_end t1 b.
  Let t2 := rtrim (ltrim t1 a2) b2.
  Lemma snapped : 0 < delta (st t1) /\ a2 <= b2.
  Proof.
    destruct slice_samples as (E & _). assert (0 < delta (st t1)) as Hd1 by (rewrite E; exact Hd). split; [exact Hd1|].
    unfold a2, b2, snap_start, snap_end, endtime, npts. destruct (data t1) as [|q l] eqn:Ed; [contradiction|]. cbn [List.length].
    destruct (Z.eqb_spec (Z.of_nat (S (length l))) 0); [lia|].
    set (s' := starttime (st t1)). set (d' := delta (st t1)) in *. set (m := Z.of_nat (S (length l)) - 1). assert (0 <= m) by lia.
    destruct (Z_lt_le_dec (a - s') 0) as [Hn|Hn]; [pose proof (round_away_neg _ _ Hd1 Hn) as Hr | pose proof (round_away_pos _ _ Hd1 Hn) as Hr];
    (destruct (Z_lt_le_dec (b - (s' + m * d')) 0) as [Hn2|Hn2]; [pose proof (round_away_neg _ _ Hd1 Hn2) as Hr2 | pose proof (round_away_pos _ _ Hd1 Hn2) as Hr2]);
    set (x := round_away (a - s') d') in *; set (y := round_away (b - (s' + m * d')) d') in *; (assert (x * d' <= (m + y) * d') by (apply half; [exact Hd1|]; pose proof (Z.mul_nonneg_nonneg m d' ltac:(lia) ltac:(lia)); lia)); lia.
  Qed.
  Lemma trim_ok : trim t1 (STime a2) (STime b2) = Ok t2.
  Proof. cbn [trim]. destruct (Z.ltb_spec b2 a2); [pose proof snapped; lia | reflexivity]. Qed.
  Lemma trim_samples : samples t2 = filter (inside a b d) (samples t).
  Proof.
    destruct slice_samples as (Ed1 & Hj & Hin & f & Hf & Hff). destruct snapped as [Hd1 Hab2].
    assert (0 < d) as Hd' by exact Hd.
    transitivity (filter (inside a b d) (samples t1)).
    2:{ rewrite Hf, filter_filter. apply filter_ext_in. intros x Hx. destruct (inside a b d x) eqn:Ei; [rewrite (Hff _ Hx Ei); reflexivity | apply andb_false_r]. }
    clear f Hf Hff. destruct (Hj Hne) as (j & Hj0 & Ej).
    destruct (ltrim_samples t1 a2 Hd1) as (L1 & L2 & L3). set (u := ltrim t1 a2) in *.
    assert (reach t1 a2 = round_away (a - starttime (st t1)) d) as Er.
    { unfold reach, a2, snap_start. rewrite Ed1. rewrite Z.add_simpl_l. apply round_away_mult, Hd'. }
    assert (0 < delta (st u)) as Hdu by (rewrite L3; exact Hd1).
    set (s' := starttime (st t1)) in *. rewrite Ed1 in *. set (k3 := round_away (a - s') d) in *.
    set (n := Z.of_nat (length (data t1))). assert (0 < n) as Hn by (unfold n; destruct (data t1); [contradiction | cbn [List.length]; lia]).
    assert (endtime t1 = s' + (n - 1) * d) as Ee by (unfold endtime, npts; fold n s'; rewrite Ed1; destruct (Z.eqb_spec n 0); [lia | reflexivity]).
    set (k4 := round_away (b - (s' + (n - 1) * d)) d).
    assert (b2 = s' + (n - 1 + k4) * d) as Eb by (unfold b2, snap_end; rewrite Ee, Ed1; fold k4; lia).
    assert (a2 = s' + k3 * d) as Ea by (unfold a2, snap_start; fold s'; rewrite Ed1; reflexivity).
    rewrite Er in *.
    assert (reach u b2 = n - 1 + k4 - Z.max 0 k3) as Eru.
    { unfold reach. rewrite L3, L2, Eb. replace (s' + (n - 1 + k4) * d - (s' + Z.max 0 k3 * d)) with ((n - 1 + k4 - Z.max 0 k3) * d) by lia. apply round_away_mult, Hd'. }
    destruct (rtrim_samples u b2 Hdu) as (R1 & _ & _).
    { rewrite Eru, L2, Eb. destruct (Z_le_gt_dec (Z.max 0 k3) (n - 1 + k4)); [left; nia | right; lia]. }
    fold t2 in R1. rewrite L1, filter_filter, Eru, L2, L3 in R1. rewrite R1. apply filter_ext_in. intros x Hx.
    unfold samples in Hx. rewrite Ed1 in Hx. destruct (samples_in _ _ _ _ Hd1 Hx) as (i & Hi & E). fold s' n in E, Hi.
    replace (s' + Z.max 0 k3 * d + (n - 1 + k4 - Z.max 0 k3) * d) with (s' + (n - 1 + k4) * d) by lia.
    unfold inside. rewrite E.
    assert ((s' + k3 * d <= s' + i * d) <-> (2 * a - d < 2 * (s' + i * d))) as H1.
    { destruct (Z_lt_le_dec (a - s') 0) as [Hq|Hq]; [pose proof (round_away_neg _ _ Hd' Hq) as Hr | pose proof (round_away_pos _ _ Hd' Hq) as Hr]; fold k3 in Hr; (split; intros H; [lia|]).
      - pose proof (Z.mul_nonneg_nonneg i d ltac:(lia) ltac:(lia)). pose proof (Z.mul_nonneg_nonneg (- k3) d ltac:(lia) ltac:(lia)). lia.
      - assert (k3 * d <= i * d) by (apply half; lia). lia. }
    assert ((s' + i * d <= s' + (n - 1 + k4) * d) <-> (2 * (s' + i * d) < 2 * b + d)) as H2.
    { destruct (Z_lt_le_dec (b - (s' + (n - 1) * d)) 0) as [Hq|Hq]; [pose proof (round_away_neg _ _ Hd' Hq) as Hr | pose proof (round_away_pos _ _ Hd' Hq) as Hr]; fold k4 in Hr; split; intros H.
      - lia.
      - assert (i * d <= (n - 1 + k4) * d) by (apply half; lia). lia.
      - pose proof (Z.mul_nonneg_nonneg (n - 1 - i) d ltac:(lia) ltac:(lia)). lia.
      - pose proof (Z.mul_nonneg_nonneg (n - 1 - i) d ltac:(lia) ltac:(lia)). pose proof (Z.mul_nonneg_nonneg k4 d ltac:(lia) ltac:(lia)). lia. }
    f_equal; apply eq_true_iff_eq; rewrite Z.leb_le, Z.ltb_lt; [exact H1 | exact H2].
  Qed.
End Cut.

(** ** Records with samples at the same times *)
Definition first_cut (a b pad : Z) (t : trace) : trace := rtrim (ltrim t (a - pad)) (b + pad).
Definition last_cut (a b : Z) (t0 t : trace) : trace := rtrim (ltrim t (snap_start t0 a)) (snap_end t0 b).
Lemma same_ltrim t u a : same_times t u -> same_times (ltrim t a) (ltrim u a).
Proof.
  intros (H1 & H2 & H3). unfold ltrim. rewrite H1, H2. destruct (_ <=? 0); [repeat split; assumption|].
  split; [reflexivity|]. split; [exact H2|]. cbn [set_data set_starttime st data]. rewrite !skipn_length. lia.
Qed.
Lemma same_rtrim t u b : same_times t u -> same_times (rtrim t b) (rtrim u b).
Proof.
  intros (H1 & H2 & H3). unfold rtrim, endtime, npts. rewrite H1, H2, H3. destruct (0 <=? _); [repeat split; assumption|].
  destruct (b <? starttime (st u)); (split; [cbn; congruence|]); (split; [exact H2|]); cbn [set_data set_starttime st data]; [reflexivity | rewrite !firstn_length; lia].
Qed.
Lemma same_snap t u a : same_times t u -> snap_start t a = snap_start u a /\ snap_end t a = snap_end u a.
Proof. intros (H1 & H2 & H3). unfold snap_start, snap_end, endtime, npts. rewrite H1, H2, H3. split; reflexivity. Qed.
Lemma same_sym t u : same_times t u -> same_times u t. Proof. intros (?&?&?). repeat split; congruence. Qed.
Lemma same_trans t u v : same_times t u -> same_times u v -> same_times t v. Proof. intros (?&?&?) (?&?&?). repeat split; congruence. Qed.
Lemma mapM_ok {A B} (f : A -> res B) (g : A -> B) l : (forall x, In x l -> f x = Ok (g x)) -> mapM f l = Ok (map g l).
Proof. induction l as [|x l IH]; intros H; cbn [mapM map]; [reflexivity|]. rewrite H by (left; reflexivity). cbn [bind]. rewrite IH by (intros y Hy; apply H; right; exact Hy). reflexivity. Qed.
Lemma npts_nonempty t : negb (npts t =? 0) = match data t with [] => false | _ => true end.
Proof. unfold npts. destruct (data t); cbn [List.length]; [reflexivity|]. destruct (Z.eqb_spec (Z.of_nat (S (length l))) 0); [lia | reflexivity]. Qed.
Lemma same_empty ts : (forall t u, In t ts -> In u ts -> same_times t u) ->
  filter (fun t => negb (npts t =? 0)) ts = match ts with [] => [] | t :: _ => if npts t =? 0 then [] else ts end.
Proof.
  intros H. destruct ts as [|t ts]; [reflexivity|]. destruct (Z.eqb_spec (npts t) 0) as [E|E].
  - apply filter_false. intros u Hu. destruct (H t u (or_introl eq_refl) Hu) as (_ & _ & H3). unfold npts in *. rewrite <- H3, E. reflexivity.
  - apply filter_true. intros u Hu. destruct (H t u (or_introl eq_refl) Hu) as (_ & _ & H3). unfold npts in *. rewrite <- H3. destruct (Z.eqb_spec (Z.of_nat (length (data t))) 0); [contradiction | reflexivity].
Qed.

Section Request.
  Variables (a b pad d : Z).
  Hypothesis Hd : 0 < d.
  Hypothesis Hab : a < b.
  Hypothesis Hpad : d <= 2 * pad.
  Lemma request_cut (ts : list trace) : (forall t, In t ts -> delta (st t) = d) -> (forall t u, In t ts -> In u ts -> same_times t u) ->
    exists l1, cut_all (a - pad) (b + pad) ts = Ok l1 /\
    exists l2, (match l1 with [] => Ok [] | t0 :: _ => cut_all (snap_start t0 a) (snap_end t0 b) l1 end) = Ok l2 /\
    ((l2 = [] /\ forall t, In t ts -> filter (inside a b d) (samples t) = []) \/
     Forall2 (fun t r => same_header r t /\ samples r = filter (inside a b d) (samples t) /\ samples r <> []) ts l2).
  Proof.
    intros Hdel Hs. unfold cut_all. rewrite (mapM_ok _ (first_cut a b pad)).
    2:{ intros t Ht. apply slice_ok; [rewrite (Hdel t Ht); exact Hd | exact Hab | rewrite (Hdel t Ht); exact Hpad]. }
    cbn [bind]. assert (forall t u, In t (map (first_cut a b pad) ts) -> In u (map (first_cut a b pad) ts) -> same_times t u) as Hs1.
    { intros t u Ht Hu. apply in_map_iff in Ht, Hu. destruct Ht as (t' & <- & Ht). destruct Hu as (u' & <- & Hu). apply same_rtrim, same_ltrim, Hs; assumption. }
    rewrite (same_empty _ Hs1). destruct ts as [|t ts]; [cbn [map]; eexists; split; [reflexivity|]; eexists; split; [reflexivity|]; left; split; [reflexivity | intros t []]|].
    cbn [map]. set (t1 := first_cut a b pad t). destruct (Z.eqb_spec (npts t1) 0) as [E|E].
    - eexists. split; [reflexivity|]. eexists. split; [reflexivity|]. left. split; [reflexivity|]. intros u Hu.
      destruct (slice_samples u a b pad) as (_ & _ & _ & f & Hf & Hff); [rewrite (Hdel u Hu); exact Hd | exact Hab | rewrite (Hdel u Hu); exact Hpad|].
      rewrite (Hdel u Hu) in *. apply filter_false. intros x Hx. destruct (inside a b d x) eqn:Ei; [|reflexivity]. exfalso.
      assert (In x (samples (first_cut a b pad u))) as Hin by (unfold first_cut; rewrite Hf; apply filter_In; split; [exact Hx | exact (Hff x Hx Ei)]).
      assert (same_times t1 (first_cut a b pad u)) as (_ & _ & H3) by (apply Hs1; [left; reflexivity | apply (in_map (first_cut a b pad) (t :: ts)), Hu]).
      assert (length (samples (first_cut a b pad u)) = 0%nat) as Hl by (unfold samples; rewrite samples_length, <- H3; unfold npts in E; lia).
      destruct (samples (first_cut a b pad u)); [contradiction Hin | discriminate].
    - eexists. split; [reflexivity|]. cbv beta iota. change (t1 :: map (first_cut a b pad) ts) with (map (first_cut a b pad) (t :: ts)) in *.
      assert (forall u, In u (t :: ts) -> data (first_cut a b pad u) <> []) as Hne.
      { intros u Hu Hnil. assert (same_times t1 (first_cut a b pad u)) as (_ & _ & H3) by (apply Hs1; [left; reflexivity | apply (in_map (first_cut a b pad) (t :: ts)), Hu]).
        rewrite Hnil in H3. apply E. unfold npts. rewrite H3. reflexivity. }
      assert (forall u, In u (t :: ts) -> snap_start t1 a = snap_start (first_cut a b pad u) a /\ snap_end t1 b = snap_end (first_cut a b pad u) b) as Hsn.
      { intros u Hu. assert (same_times t1 (first_cut a b pad u)) as Hst by (apply Hs1; [left; reflexivity | apply (in_map (first_cut a b pad) (t :: ts)), Hu]).
        split; apply (same_snap _ _ _ Hst). }
      rewrite (mapM_ok _ (last_cut a b t1)).
      2:{ intros v Hv. apply in_map_iff in Hv. destruct Hv as (u & <- & Hu). destruct (Hsn u Hu) as [-> ->]. unfold last_cut. destruct (Hsn u Hu) as [-> ->].
          apply (trim_ok u a b pad); [rewrite (Hdel u Hu); exact Hd | exact Hab | rewrite (Hdel u Hu); exact Hpad | exact (Hne u Hu)]. }
      cbn [bind]. assert (forall u, In u (t :: ts) -> samples (last_cut a b t1 (first_cut a b pad u)) = filter (inside a b d) (samples u)) as Hsm.
      { intros u Hu. unfold last_cut. destruct (Hsn u Hu) as [-> ->]. rewrite <- (Hdel u Hu). apply (trim_samples u a b pad); [rewrite (Hdel u Hu); exact Hd | exact Hab | rewrite (Hdel u Hu); exact Hpad | exact (Hne u Hu)]. }
      rewrite map_map in *. rewrite same_empty.
      2:{ intros v v' Hv Hv'. apply in_map_iff in Hv, Hv'. destruct Hv as (u & <- & Hu). destruct Hv' as (u' & <- & Hu').
          apply same_rtrim, same_ltrim, same_rtrim, same_ltrim, Hs; assumption. }
      cbn [map]. set (t2 := last_cut a b t1 (first_cut a b pad t)). destruct (Z.eqb_spec (npts t2) 0) as [E2|E2].
      + eexists. split; [reflexivity|]. left. split; [reflexivity|]. intros u Hu. rewrite <- (Hsm u Hu).
        assert (same_times t2 (last_cut a b t1 (first_cut a b pad u))) as (_ & _ & H3) by (apply same_rtrim, same_ltrim, same_rtrim, same_ltrim, Hs; [left; reflexivity | exact Hu]).
        unfold samples. destruct (data (last_cut a b t1 (first_cut a b pad u))); [reflexivity | unfold npts in E2; cbn [List.length] in H3; lia].
      + eexists. split; [reflexivity|]. right. change (t2 :: map (fun x => last_cut a b t1 (first_cut a b pad x)) ts) with (map (fun x => last_cut a b t1 (first_cut a b pad x)) (t :: ts)).
        assert (forall l, incl l (t :: ts) -> Forall2 (fun t r => same_header r t /\ samples r = filter (inside a b d) (samples t) /\ samples r <> []) l (map (fun x => last_cut a b t1 (first_cut a b pad x)) l)) as HF; [|apply HF, incl_refl].
        induction l as [|u l IH]; intros Hl; cbn [map]; constructor; [|apply IH; intros y Hy; apply Hl; right; exact Hy].
        assert (In u (t :: ts)) as Hu by (apply Hl; left; reflexivity).
        split.
        { assert (forall v lo, 0 < delta (st v) -> same_header (ltrim v lo) v) as HL by (intros v lo Hv; apply (ltrim_window v lo Hv)).
          assert (forall v hi, 0 < delta (st v) -> same_header (rtrim v hi) v) as HR by (intros v hi Hv; apply (rtrim_window v hi Hv)).
          assert (0 < delta (st u)) as D0 by (rewrite (Hdel u Hu); exact Hd).
          assert (forall v w, same_header v w -> 0 < delta (st w) -> 0 < delta (st v)) as HD by (intros v w (_ & _ & _ & _ & H & _) Hw; rewrite H; exact Hw).
          unfold last_cut, first_cut. pose proof (HL u (a - pad) D0) as S1. pose proof (HD _ _ S1 D0) as D1. pose proof (HR _ (b + pad) D1) as S2. pose proof (HD _ _ S2 D1) as D2.
          pose proof (HL _ (snap_start t1 a) D2) as S3. pose proof (HD _ _ S3 D2) as D3. pose proof (HR _ (snap_end t1 b) D3) as S4.
          eapply same_header_trans; [exact S4|]. eapply same_header_trans; [exact S3|]. eapply same_header_trans; [exact S2 | exact S1]. }
        split; [apply Hsm, Hu|].
        assert (same_times t2 (last_cut a b t1 (first_cut a b pad u))) as (_ & _ & H3) by (apply same_rtrim, same_ltrim, same_rtrim, same_ltrim, Hs; [left; reflexivity | exact Hu]).
        unfold samples. destruct (data (last_cut a b t1 (first_cut a b pad u))); [unfold npts in E2; cbn [List.length] in H3; lia | discriminate].
  Qed.
End Request.
