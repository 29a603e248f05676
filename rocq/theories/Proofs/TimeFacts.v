From Verif Require Import Model.Times Spec.TimeSpec Proofs.PyFacts Proofs.StackFacts.
From Coq Require Import Lqa.

Lemma round_away_err n d : (0 < d)%Z -> (2 * Z.abs (d * round_away n d - n) <= d)%Z.
Proof.
  intros Hd. unfold round_away.
  pose proof (Z.div_mod (2 * Z.abs n + d) (2 * d) ltac:(lia)) as E.
  pose proof (Z.mod_pos_bound (2 * Z.abs n + d) (2 * d) ltac:(lia)) as B.
  set (q := ((2 * Z.abs n + d) / (2 * d))%Z) in *. set (r := ((2 * Z.abs n + d) mod (2 * d))%Z) in *.
  destruct (Z_lt_le_dec n 0) as [Hn|Hn].
  - rewrite Z.sgn_neg by lia. rewrite Z.abs_neq in E by lia.
    replace (d * (-1 * q))%Z with (- (d * q))%Z by ring. replace (2 * d * q)%Z with (2 * (d * q))%Z in E by ring. lia.
  - destruct (Z.eq_dec n 0) as [->|Hn0]; [change (Z.sgn 0) with 0%Z; rewrite Z.mul_0_l, Z.mul_0_r; simpl; lia|].
    rewrite Z.sgn_pos by lia. rewrite Z.abs_eq in E by lia.
    replace (d * (1 * q))%Z with (d * q)%Z by ring. replace (2 * d * q)%Z with (2 * (d * q))%Z in E by ring. lia.
Qed.
Lemma round_away_le n d a : (0 < d)%Z -> (n <= a * d)%Z -> (round_away n d <= a)%Z.
Proof. intros Hd H. pose proof (round_away_err n d Hd). nia. Qed.
Lemma round_away_ge n d a : (0 < d)%Z -> (a * d <= n)%Z -> (a <= round_away n d)%Z.
Proof. intros Hd H. pose proof (round_away_err n d Hd). nia. Qed.

Lemma firstn_skipn_firstn {A} (l : list A) k m n : firstn m (firstn n (skipn k l)) = firstn (Nat.min m n) (skipn k l).
Proof. apply firstn_firstn. Qed.

Definition lwindow (t t' : trace) (lo : Z) : Prop :=
  same_header t' t /\ exists k,
    data t' = skipn k (data t) /\ starttime (st t') = sample_time t k /\
    (forall i, i < List.length (data t) -> (lo <= sample_time t i)%Z -> k <= i) /\
    (forall i, k <= i -> (2 * (lo - sample_time t i) <= delta (st t))%Z).
Lemma same_header_refl t : same_header t t. Proof. repeat split. Qed.
Lemma same_header_trans a b c : same_header a b -> same_header b c -> same_header a c.
Proof. intros (?&?&?&?&?&?) (?&?&?&?&?&?). repeat split; congruence. Qed.

Lemma ltrim_window t lo : (0 < delta (st t))%Z -> lwindow t (ltrim t lo) lo.
Proof.
  intros Hd. unfold ltrim. set (k := round_away (lo - starttime (st t)) (delta (st t))).
  pose proof (round_away_err (lo - starttime (st t)) (delta (st t)) Hd) as He. fold k in He.
  destruct (Z.leb_spec k 0) as [Hk|Hk].
  - split; [apply same_header_refl|]. exists 0. split; [reflexivity|].
    split; [unfold sample_time; lia|]. split; [lia|].
    intros i _. unfold sample_time. nia.
  - split; [repeat split|]. exists (Z.to_nat k). split; [reflexivity|].
    split; [unfold sample_time; cbn; rewrite Z2Nat.id by lia; reflexivity|]. split.
    + intros i Hi Hlo. unfold sample_time in Hlo.
      assert (k <= Z.of_nat i)%Z; [|lia]. apply round_away_le; lia.
    + intros i Hi. unfold sample_time. assert (k <= Z.of_nat i)%Z by lia. nia.
Qed.
Lemma sample_time_nodelta a b i j : delta (st a) = delta (st b) -> starttime (st a) = sample_time b j ->
  sample_time a i = sample_time b (j + i).
Proof. intros H1 H2. unfold sample_time in *. rewrite H1, H2. lia. Qed.

Lemma rtrim_window t hi : (0 < delta (st t))%Z -> 
  same_header (rtrim t hi) t /\ exists m,
    data (rtrim t hi) = firstn m (data t) /\ List.length (data (rtrim t hi)) = m /\
    (m <> 0 -> starttime (st (rtrim t hi)) = starttime (st t)) /\
    (forall i, i < List.length (data t) -> (sample_time t i <= hi)%Z -> i < m) /\
    (forall i, i < m -> (2 * (sample_time t i - hi) <= delta (st t))%Z).
Proof.
  intros Hd. unfold rtrim. set (k := round_away (hi - starttime (st t)) (delta (st t))).
  pose proof (round_away_err (hi - starttime (st t)) (delta (st t)) Hd) as He. fold k in He.
  unfold npts. set (n := List.length (data t)).
  destruct (Z.leb_spec 0 (k - (Z.of_nat n - 1))) as [Hk|Hk].
  - split; [apply same_header_refl|]. exists n. split; [unfold n; rewrite firstn_all; reflexivity|].
    split; [reflexivity|]. split; [reflexivity|]. split; [auto|].
    intros i Hi. unfold sample_time. assert (Z.of_nat i <= k)%Z by lia. nia.
  - destruct (Z.ltb_spec hi (starttime (st t))) as [Hlt|Hge].
    + split; [repeat split|]. exists 0. split; [reflexivity|]. split; [reflexivity|]. split; [lia|]. split; [|lia].
      intros i Hi Hhi. unfold sample_time in Hhi. nia.
    + assert (0 <= k)%Z as Hk0 by (apply round_away_ge; lia).
      assert (Z.to_nat (if (hi =? starttime (st t))%Z then 1 else Z.of_nat n + (k - (Z.of_nat n - 1))) = Z.to_nat (k + 1)) as ->.
      { destruct (Z.eqb_spec hi (starttime (st t))) as [E|E]; [|f_equal; lia].
        assert (k <= 0)%Z by (apply round_away_le; lia). f_equal. lia. }
      split; [repeat split|]. exists (Z.to_nat (k + 1)). split; [reflexivity|].
      split; [cbn; rewrite firstn_length; fold n; lia|]. split; [reflexivity|]. split.
      * intros i Hi Hhi. unfold sample_time in Hhi. assert (Z.of_nat i <= k)%Z by (apply round_away_ge; lia). lia.
      * intros i Hi. unfold sample_time. assert (Z.of_nat i <= k)%Z by lia. nia.
Qed.

Lemma trim_window t lo hi t' : (0 < delta (st t))%Z -> trim t (STime lo) (STime hi) = Ok t' -> window_of t t' lo hi.
Proof.
  intros Hd. cbn [trim]. destruct (hi <? lo)%Z; [discriminate|]. intros H. inversion H; subst t'; clear H.
  destruct (ltrim_window t lo Hd) as [Hh (k & Hdat & Hst & Hl1 & Hl2)].
  assert (delta (st (ltrim t lo)) = delta (st t)) as Hdel by (destruct Hh as (_&_&_&_&H&_); exact H).
  destruct (rtrim_window (ltrim t lo) hi) as [Hh2 (m & Hr1 & Hr2 & Hr3 & Hr4 & Hr5)]; [rewrite Hdel; exact Hd|].
  split; [eapply same_header_trans; eassumption|]. exists k, m.
  rewrite Hdat in Hr1. split; [exact Hr1|]. split; [exact Hr2|]. split; [intros Hm; rewrite Hr3 by exact Hm; exact Hst|].
  assert (forall i, sample_time (ltrim t lo) i = sample_time t (k + i)) as Hti
    by (intros; apply sample_time_nodelta; assumption).
  split.
  - intros i Hi [Hlo Hhi]. assert (k <= i) as Hki by (apply Hl1; assumption).
    assert (i - k < m); [|lia]. apply Hr4.
    + rewrite Hdat, skipn_length. lia.
    + rewrite Hti. replace (k + (i - k)) with i by lia. exact Hhi.
  - intros i Hi. split; [apply Hl2; lia|].
    specialize (Hr5 (i - k)). rewrite Hti, Hdel in Hr5. replace (k + (i - k)) with i in Hr5 by lia. apply Hr5. lia.
Qed.
Lemma trim_total t lo hi : (lo <= hi)%Z -> exists t', trim t (STime lo) (STime hi) = Ok t'.
Proof. intros H. cbn [trim]. destruct (Z.ltb_spec hi lo); [lia|]. eauto. Qed.

(** ** seconds2utc *)
Lemma utc_add_int ref q n : (q * inject_Z 1000000000 == inject_Z n)%Q -> utc_add ref q = (ref + n)%Z.
Proof.
  intros H. unfold utc_add, e9. rewrite H. f_equal.
  unfold Qfloor, inject_Z, Qplus. simpl. symmetry. apply Z.div_unique with (r := 1%Z); lia.
Qed.
Lemma seconds2utc_list tr r l : seconds2utc tr r (SList l) = let! l' := mapM (seconds2utc tr r) l in Ok (SList l').
Proof.
  cbn [seconds2utc].
  assert ((fix go l := match l with [] => Ok [] | x :: xs => let! y := seconds2utc tr r x in let! ys := go xs in Ok (y :: ys) end) l
          = mapM (seconds2utc tr r) l) as ->; [|reflexivity].
  induction l as [|x l IH]; [reflexivity|]. cbn [mapM]. rewrite IH. reflexivity.
Qed.
Lemma resolves_ok tr r ref s s' : own_reference tr r ref -> resolves ref s s' -> seconds2utc tr r s = Ok s'.
Proof.
  intros Ho. induction 1 as [|t|q n H| |x y l m Hx IHx Hl IHl]; try reflexivity.
  - cbn [seconds2utc]. destruct Ho as [z|k z Hk].
    + rewrite (utc_add_int _ _ _ H). reflexivity.
    + rewrite Hk. cbn [val_add]. rewrite (utc_add_int _ _ _ H). reflexivity.
  - rewrite seconds2utc_list in *. cbn [mapM]. rewrite IHx. cbn [bind].
    apply bind_ok in IHl. destruct IHl as (l' & Hl' & E). inversion E; subst. rewrite Hl'. reflexivity.
Qed.
Lemma secs_resolves ref n : resolves ref (secs n) (STime (ref + n)).
Proof. constructor. field. Qed.
Lemma utc_add_nearest ref q :
  (- (1 # 2) < inject_Z (utc_add ref q - ref) - q * inject_Z 1000000000 <= 1 # 2)%Q.
Proof.
  unfold utc_add. replace (ref + Qfloor (q * e9 + (1 # 2)) - ref)%Z with (Qfloor (q * e9 + (1 # 2))) by lia.
  unfold e9. set (x := (q * inject_Z 1000000000)%Q).
  pose proof (Qfloor_le (x + (1 # 2))) as H1. pose proof (Qlt_floor (x + (1 # 2))) as H2.
  rewrite inject_Z_plus in H2. change (inject_Z 1) with 1%Q in H2.
  set (y := inject_Z (Qfloor (x + (1 # 2)))) in *. split; lra.
Qed.

(** ** trim2 and slice2 *)
Lemma hset_eq h l t : hset h l t l = t.
Proof. unfold hset. rewrite Nat.eqb_refl. reflexivity. Qed.
Lemma hset_ne h l l2 t : l <> l2 -> hset h l t l2 = h l2.
Proof. unfold hset. intros H. destruct (Nat.eqb_spec l2 l); [congruence|reflexivity]. Qed.
Lemma trim_loop_ok a b r ls h : NoDup ls -> (forall l, In l ls -> exists t, trim_rel a b r (h l) = Ok t) ->
  exists h', trim_loop a b r ls h = (h', Ok tt) /\
    (forall l, In l ls -> trim_rel a b r (h l) = Ok (h' l)) /\ (forall l, ~ In l ls -> h' l = h l).
Proof.
  revert h. induction ls as [|l ls IH]; intros h Hnd Hok; cbn [trim_loop].
  - exists h. split; [reflexivity|]. split; [intros ? []|reflexivity].
  - inversion Hnd as [|? ? Hn Hnd']; subst. destruct (Hok l (or_introl eq_refl)) as [t Ht]. rewrite Ht.
    destruct (IH (hset h l t) Hnd') as (h' & H1 & H2 & H3).
    { intros l2 Hl2. rewrite hset_ne by (intros ->; contradiction). apply Hok. right; exact Hl2. }
    exists h'. split; [exact H1|]. split.
    + intros l2 [<-|Hl2].
      * rewrite H3 by exact Hn. rewrite hset_eq. exact Ht.
      * specialize (H2 l2 Hl2). rewrite hset_ne in H2 by (intros ->; contradiction). exact H2.
    + intros l2 Hl2. rewrite H3 by (intros H; apply Hl2; right; exact H).
      apply hset_ne. intros ->. apply Hl2. left; reflexivity.
Qed.
Lemma trim_rel_secs t r ref a b : own_reference t r ref ->
  trim_rel (secs a) (secs b) r t = trim t (STime (ref + a)) (STime (ref + b)).
Proof.
  intros Ho. unfold trim_rel. rewrite (resolves_ok t r ref _ _ Ho (secs_resolves ref a)).
  rewrite (resolves_ok t r ref _ _ Ho (secs_resolves ref b)). reflexivity.
Qed.
Lemma npts_zero t : (npts t =? 0)%Z = true <-> data t = [].
Proof. unfold npts. rewrite Z.eqb_eq. destruct (data t); simpl; split; intros; try congruence; try lia. Qed.

Theorem trim2_spec (a b : Z) (r : reft) (ls : list loc) (h : heap) (ref : loc -> Z) :
  NoDup ls -> (a <= b)%Z ->
  (forall l, In l ls -> (0 < delta (st (h l)))%Z /\ own_reference (h l) r (ref l)) ->
  exists h' ls', trim2 (secs a) (secs b) r ls h = (h', Ok ls') /\
    (forall l, In l ls -> window_of (h l) (h' l) (ref l + a) (ref l + b)) /\
    (forall l, ~ In l ls -> h' l = h l) /\
    (exists p : loc -> bool, ls' = filter p ls /\ forall l, p l = true <-> data (h' l) <> []).
Proof.
  intros Hnd Hab Hh.
  destruct (trim_loop_ok (secs a) (secs b) r ls h Hnd) as (h' & H1 & H2 & H3).
  { intros l Hl. destruct (Hh l Hl) as [_ Ho]. rewrite (trim_rel_secs _ _ _ _ _ Ho). apply trim_total. lia. }
  exists h'. eexists. split; [unfold trim2; rewrite H1; reflexivity|]. split; [|split; [exact H3|]].
  - intros l Hl. destruct (Hh l Hl) as [Hd Ho]. specialize (H2 l Hl).
    rewrite (trim_rel_secs _ _ _ _ _ Ho) in H2. apply trim_window; assumption.
  - eexists. split; [reflexivity|]. intros l. cbn beta. rewrite negb_true_iff. 
    pose proof (npts_zero (h' l)) as Hz. destruct (npts (h' l) =? 0)%Z; split; intros H; try congruence.
    + exfalso. apply H. apply Hz. reflexivity.
    + intros E. apply Hz in E. discriminate.
Qed.
Theorem trim2_reversed (a b : Z) (r : reft) (l0 : loc) (ls : list loc) (h : heap) (ref : Z) :
  (b < a)%Z -> own_reference (h l0) r ref ->
  trim2 (secs a) (secs b) r (l0 :: ls) h = (h, Err ValueError).
Proof.
  intros Hab Ho. unfold trim2. cbn [trim_loop]. rewrite (trim_rel_secs _ _ _ _ _ Ho). cbn [trim].
  destruct (Z.ltb_spec (ref + b) (ref + a)); [reflexivity | lia].
Qed.

Lemma mapM_map_ok {A B C} (f : A -> res B) (g : C -> A) (k : C -> B) l :
  (forall x, In x l -> f (g x) = Ok (k x)) -> mapM f (map g l) = Ok (map k l).
Proof.
  induction l as [|x l IH]; simpl; intros H; [reflexivity|]. rewrite (H x (or_introl eq_refl)). cbn [bind].
  rewrite IH by (intros; apply H; right; assumption). reflexivity.
Qed.
Lemma filter_map {A B} (f : A -> B) p l : filter p (map f l) = map f (filter (fun x => p (f x)) l).
Proof. induction l as [|x l IH]; simpl; [reflexivity|]. destruct (p (f x)); simpl; rewrite IH; reflexivity. Qed.
Theorem slice2_trim2 a b r ls h h' ls' : NoDup ls ->
  trim2 a b r ls h = (h', Ok ls') ->
  slice2 a b r false ls h = Ok (map h' ls') /\ slice2 a b r true ls h = Ok (map h' ls).
Proof.
  intros Hnd H. unfold trim2 in H. destruct (trim_loop a b r ls h) as [h1 [[]|e]] eqn:E; [|discriminate].
  assert (h1 = h') as -> by congruence. assert (ls' = filter (fun l => negb (npts (h' l) =? 0)%Z) ls) as -> by congruence.
  clear H.
  assert (forall ls h h', trim_loop a b r ls h = (h', Ok tt) -> NoDup ls -> forall l, In l ls -> exists t, trim_rel a b r (h l) = Ok t) as Hall.
  { clear. induction ls as [|l0 ls IH]; intros h h' E Hnd l Hl; [destruct Hl|].
    cbn [trim_loop] in E. inversion Hnd as [|? ? Hn Hnd']; subst.
    destruct (trim_rel a b r (h l0)) as [t|e] eqn:Et; [|discriminate].
    destruct Hl as [<-|Hl]; [eauto|]. destruct (IH _ _ E Hnd' l Hl) as [t2 Ht2].
    rewrite hset_ne in Ht2 by (intros ->; contradiction). eauto. }
  destruct (trim_loop_ok a b r ls h Hnd (Hall ls h h' E Hnd)) as (h2 & E2 & H2 & H3).
  rewrite E in E2. assert (h2 = h') as -> by congruence.
  assert (mapM (fun l => trim_rel a b r (h l)) ls = Ok (map h' ls)) as Hm.
  { rewrite <- (map_id ls) at 1. apply mapM_map_ok. exact H2. }
  unfold slice2. rewrite Hm. cbn [bind]. split; f_equal; rewrite filter_map; cbn [orb]; [reflexivity|].
  f_equal. clear. induction ls as [|x l IH]; simpl; [reflexivity|]. f_equal. exact IH.
Qed.
Theorem slice2_fails a b r ls h h' e : NoDup ls -> trim2 a b r ls h = (h', Err e) ->
  forall k, slice2 a b r k ls h = Err e.
Proof.
  intros Hnd H k. unfold trim2 in H. destruct (trim_loop a b r ls h) as [h1 [[]|e1]] eqn:E; [discriminate|].
  assert (e1 = e) as -> by congruence. clear H. unfold slice2.
  assert (mapM (fun l => trim_rel a b r (h l)) ls = Err e) as ->; [|reflexivity].
  clear h' k. revert h E. induction ls as [|l0 ls IH]; intros h E; cbn [trim_loop] in E; [discriminate|].
  inversion Hnd as [|? ? Hn Hnd']; subst. cbn [mapM].
  destruct (trim_rel a b r (h l0)) as [t|e1]; [|inversion E; reflexivity]. cbn [bind].
  assert (mapM (fun l => trim_rel a b r (h l)) ls = mapM (fun l => trim_rel a b r (hset h l0 t l)) ls) as ->.
  { clear -Hn. induction ls as [|x ls IHl]; [reflexivity|]. cbn [mapM].
    rewrite hset_ne by (intros ->; apply Hn; left; reflexivity). rewrite IHl; [reflexivity|].
    intros H; apply Hn; right; exact H. }
  rewrite (IH Hnd' _ E). reflexivity.
Qed.
