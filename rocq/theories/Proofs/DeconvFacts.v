From Verif Require Import Model.Deconv Spec.RfSpec Spec.TimeSpec Spec.DeconvSpec Proofs.PyFacts Proofs.TimeFacts Proofs.RfFacts.

(** ** nearest sample *)
Lemma searchsorted_spec d v n : (0 < d)%Z -> (0 <= v <= (Z.of_nat n - 1) * d)%Z ->
  searchsorted (map (fun i => Z.of_nat i * d)%Z (seq 0 n)) v = Z.to_nat ((v + d - 1) / d).
Proof.
  intros Hd Hv. unfold searchsorted.
  set (c := ((v + d - 1) / d)%Z).
  assert (d * c <= v + d - 1 < d * (c + 1))%Z as Hc.
  { unfold c. pose proof (Z.div_mod (v + d - 1) d ltac:(lia)). pose proof (Z.mod_pos_bound (v + d - 1) d Hd). nia. }
  assert (0 <= c <= Z.of_nat n - 1)%Z as Hcn by nia.
  replace n with (Z.to_nat c + (n - Z.to_nat c)) by lia. rewrite seq_app, map_app, filter_app, app_length.
  assert (forall m k, (forall i, k <= i < k + m -> (Z.of_nat i * d < v)%Z) ->
    List.length (filter (fun x => (x <? v)%Z) (map (fun i => Z.of_nat i * d)%Z (seq k m))) = m) as A.
  { induction m as [|m IH]; intros k H; cbn; [reflexivity|].
    destruct (Z.ltb_spec (Z.of_nat k * d) v) as [_|Hn]; [|specialize (H k); lia].
    cbn. f_equal. apply IH. intros i Hi. apply H. lia. }
  assert (forall m k, (forall i, k <= i < k + m -> (v <= Z.of_nat i * d)%Z) ->
    List.length (filter (fun x => (x <? v)%Z) (map (fun i => Z.of_nat i * d)%Z (seq k m))) = 0) as B.
  { induction m as [|m IH]; intros k H; cbn; [reflexivity|].
    destruct (Z.ltb_spec (Z.of_nat k * d) v) as [Hn|_]; [specialize (H k); lia|].
    apply IH. intros i Hi. apply H. lia. }
  rewrite A, B; [lia| |].
  - intros i Hi. nia.
  - intros i Hi. nia.
Qed.
Lemma nth_error_times d n i : i < n ->
  nth_error (map (fun i => Z.of_nat i * d)%Z (seq 0 n)) i = Some (Z.of_nat i * d)%Z.
Proof.
  intros H. erewrite map_nth_error; [reflexivity|]. 
  rewrite (nth_error_nth' _ 0) by (rewrite seq_length; exact H). rewrite seq_nth by exact H. reflexivity.
Qed.
Lemma pyindex_times d n i : i < n -> pyindex (map (fun i => Z.of_nat i * d)%Z (seq 0 n)) (Z.of_nat i) = Ok (Z.of_nat i * d)%Z.
Proof.
  intros H. unfold pyindex. rewrite map_length, seq_length.
  destruct (Z.ltb_spec (Z.of_nat i) 0); [lia|]. destruct (Z.ltb_spec (Z.of_nat i) 0); [lia|].
  destruct (Z.leb_spec (Z.of_nat n) (Z.of_nat i)); [lia|]. cbn [orb]. rewrite Nat2Z.id, nth_error_times by exact H. reflexivity.
Qed.
Lemma pyindex_times_last d n : 0 < n -> exists x, pyindex (map (fun i => Z.of_nat i * d)%Z (seq 0 n)) (-1) = Ok x.
Proof.
  intros H. unfold pyindex. rewrite map_length, seq_length. cbn [Z.ltb Z.compare].
  destruct (Z.ltb_spec (Z.of_nat n + -1) 0); [lia|]. destruct (Z.leb_spec (Z.of_nat n) (Z.of_nat n + -1)); [lia|].
  cbn [orb]. rewrite nth_error_times by lia. eexists; reflexivity.
Qed.
Theorem find_nearest_spec d v n : (0 < d)%Z -> (0 <= v <= (Z.of_nat n - 1) * d)%Z ->
  exists i, find_nearest (map (fun i => Z.of_nat i * d)%Z (seq 0 n)) v = Ok i /\ i < n /\
    (2 * (Z.of_nat i * d - v) <= d)%Z /\ (2 * (v - Z.of_nat i * d) < d)%Z.
Proof.
  intros Hd Hv. unfold find_nearest. rewrite searchsorted_spec by assumption.
  set (c := ((v + d - 1) / d)%Z).
  assert (d * c <= v + d - 1 < d * (c + 1))%Z as Hc.
  { unfold c. pose proof (Z.div_mod (v + d - 1) d ltac:(lia)). pose proof (Z.mod_pos_bound (v + d - 1) d Hd). nia. }
  assert (0 <= c <= Z.of_nat n - 1)%Z as Hcn by nia.
  destruct (Z.eq_dec c 0) as [E0|E0].
  - rewrite E0. cbn [Z.to_nat Z.of_nat Z.sub Z.add Z.opp]. 
    destruct (pyindex_times_last d n) as [x Hx]; [lia|]. rewrite Hx. cbn [bind].
    pose proof (pyindex_times d n 0 ltac:(lia)) as P0. cbn [Z.of_nat] in P0. rewrite P0. cbn [bind]. exists 0. split; [reflexivity|]. split; [lia|]. nia.
  - clearbody c. assert (exists k, Z.to_nat c = S k) as [k Ek] by (exists (Z.to_nat c - 1); lia).
    assert (c = Z.of_nat (S k)) as -> by lia. rewrite Ek.
    replace (Z.of_nat (S k) - 1)%Z with (Z.of_nat k) by lia.
    rewrite (pyindex_times d n k) by lia. cbn [bind].
    rewrite (pyindex_times d n (S k)) by lia. cbn [bind].
    destruct (Nat.ltb_spec 0 (S k)); [|lia]. rewrite map_length, seq_length.
    destruct (Nat.eqb_spec (S k) n); [lia|]. cbn [andb orb]. replace (S k - 1) with k by lia.
    destruct (Z.ltb_spec (Z.abs (v - Z.of_nat k * d)) (Z.abs (v - Z.of_nat (S k) * d))) as [Hl|Hl];
      [exists k | exists (S k)]; (split; [reflexivity|]; split; [lia|]); rewrite Nat2Z.inj_succ in *; nia.
Qed.
Theorem find_nearest_after d v n : (0 < d)%Z -> ((Z.of_nat n - 1) * d < v)%Z ->
  find_nearest (map (fun i => Z.of_nat i * d)%Z (seq 0 n)) v = Err IndexError.
Proof.
  intros Hd Hv. unfold find_nearest.
  assert (searchsorted (map (fun i => Z.of_nat i * d)%Z (seq 0 n)) v = n) as ->.
  { unfold searchsorted. assert (forall m k, k + m <= n ->
      List.length (filter (fun x => (x <? v)%Z) (map (fun i => Z.of_nat i * d)%Z (seq k m))) = m) as A.
    { induction m as [|m IH]; intros k H; cbn; [reflexivity|].
      destruct (Z.ltb_spec (Z.of_nat k * d) v) as [_|Hn]; [|nia]. cbn. f_equal. apply IH. lia. }
    apply A. lia. }
  assert (pyindex (map (fun i => Z.of_nat i * d)%Z (seq 0 n)) (Z.of_nat n) = Err IndexError) as E.
  { unfold pyindex. rewrite map_length, seq_length. destruct (Z.ltb_spec (Z.of_nat n) 0); [lia|].
    rewrite Z.leb_refl, orb_true_r. reflexivity. }
  rewrite E. unfold pyindex at 1. rewrite map_length, seq_length.
  destruct n as [|n]; [reflexivity|]. 
  replace (Z.of_nat (S n) - 1)%Z with (Z.of_nat n) by lia. 
  destruct (Z.ltb_spec (Z.of_nat n) 0); [lia|]. destruct (Z.ltb_spec (Z.of_nat n) 0); [lia|].
  destruct (Z.leb_spec (Z.of_nat (S n)) (Z.of_nat n)); [lia|]. cbn [orb]. 
  rewrite Nat2Z.id, nth_error_times by lia. reflexivity.
Qed.
Theorem find_nearest_before d v n : (0 < d)%Z -> (v < 0)%Z -> 0 < n ->
  find_nearest (map (fun i => Z.of_nat i * d)%Z (seq 0 n)) v = Ok 0.
Proof.
  intros Hd Hv Hn. unfold find_nearest.
  assert (searchsorted (map (fun i => Z.of_nat i * d)%Z (seq 0 n)) v = 0) as ->.
  { unfold searchsorted. generalize (seq 0 n). clear Hn n. induction l as [|i l IH]; cbn; [reflexivity|].
    destruct (Z.ltb_spec (Z.of_nat i * d) v); [nia|exact IH]. }
  destruct (pyindex_times_last d n Hn) as [x Hx]. cbn [Z.of_nat Z.sub Z.add Z.opp]. rewrite Hx. cbn [bind].
  pose proof (pyindex_times d n 0 ltac:(lia)) as P0. cbn [Z.of_nat] in P0. rewrite P0. reflexivity.
Qed.

(** ** selection *)
Definition selp (h : heap) (comps : string) (l : loc) : bool :=
  match last_char (channel (st (h l))) with Some c => char_in c comps | None => false end.
Lemma selp_spec h comps l : selp h comps l = true <-> has_component h comps l.
Proof.
  unfold selp, has_component. destruct (last_char _) as [c|].
  - split; [intros H; exists c; auto | intros (c' & E & H); congruence].
  - split; [discriminate | intros (c' & E & H); discriminate].
Qed.
Lemma last_char_none s : last_char s = None -> s = "".
Proof.
  induction s as [|a s IH]; [reflexivity|]. destruct s as [|b s]; [discriminate|]. intros H.
  change (last_char (String b s) = None) in H. specialize (IH H). discriminate.
Qed.
Lemma filterM_sel h comps ls : channels_set h ls -> filterM (has_comp h comps) ls = Ok (filter (selp h comps) ls).
Proof.
  induction ls as [|l ls IH]; intros Hc; cbn [filterM filter]; [reflexivity|].
  assert (has_comp h comps l = Ok (selp h comps l)) as ->.
  { unfold has_comp, selp, comp. destruct (last_char (channel (st (h l)))) as [c|] eqn:E; [reflexivity|].
    apply last_char_none in E. exfalso. apply (Hc l); [left; reflexivity | exact E]. }
  cbn [bind]. rewrite IH by (intros x Hx; apply Hc; right; exact Hx). reflexivity.
Qed.
Lemma selected_eq h comps ls sel : selected h comps ls sel -> sel = filter (selp h comps) ls.
Proof. intros (p & H & ->). apply filter_ext_iff. intros x. rewrite H, selp_spec. tauto. Qed.
Lemma responses_eq h comps ls rsp : channels_set h ls -> responses h comps ls rsp ->
  match comps with None => Ok ls | Some r => filterM (has_comp h r) ls end = Ok rsp.
Proof.
  intros Hc. destruct comps as [c|]; cbn; intros H.
  - rewrite filterM_sel by exact Hc. rewrite (selected_eq _ _ _ _ H). reflexivity.
  - rewrite H. reflexivity.
Qed.
Lemma index_of_none l ls : index_of l ls = None <-> ~ In l ls.
Proof.
  induction ls as [|x xs IH]; cbn; [split; [intros _ []|reflexivity]|].
  destruct (Nat.eqb_spec l x) as [->|Hn].
  - split; [discriminate|]. intros H. exfalso. apply H. left; reflexivity.
  - destruct (index_of l xs); cbn; split; intros H; try discriminate.
    + exfalso. apply H. right. destruct (in_dec Nat.eq_dec l xs); [assumption|]. apply IH in n0. discriminate.
    + intros [E|E]; [congruence|]. apply IH in E; [exact E|reflexivity].
    + reflexivity.
Qed.
Lemma index_of_some l ls i : index_of l ls = Some i <-> nth_error ls i = Some l /\ (forall j, j < i -> nth_error ls j <> Some l).
Proof.
  revert i. induction ls as [|x xs IH]; intros i; cbn.
  - split; [discriminate|]. intros [H _]. destruct i; discriminate.
  - destruct (Nat.eqb_spec l x) as [->|Hn].
    + split.
      * intros E. inversion E; subst i. split; [reflexivity|]. intros j Hj. lia.
      * intros [H1 H2]. destruct i as [|i]; [reflexivity|]. exfalso. apply (H2 0); [lia|reflexivity].
    + split.
      * destruct (index_of l xs) as [k|] eqn:E; cbn; [|discriminate]. intros E2. inversion E2; subst i.
        destruct (proj1 (IH k) eq_refl) as [A B]. split; [exact A|]. intros [|j] Hj; cbn; [congruence|]. apply B. lia.
      * intros [H1 H2]. destruct i as [|i]; cbn in H1; [congruence|].
        assert (index_of l xs = Some i) as ->; [|reflexivity]. apply IH. split; [exact H1|].
        intros j Hj. apply (H2 (S j)). lia.
Qed.

(** ** heap updates *)
Lemma deconvolved_refl t : deconvolved t t.
Proof. split; [apply same_frame_refl | intros k _; reflexivity]. Qed.
Lemma deconvolved_trans a b c : deconvolved a b -> deconvolved b c -> deconvolved a c.
Proof.
  intros [A1 A2] [B1 B2]. split; [eapply same_frame_trans; eassumption|].
  intros k Hk. rewrite B2, A2 by exact Hk. reflexivity.
Qed.
Lemma deconvolved_extra t k v : In k ["onset"; "iterations"] -> deconvolved t (set_extra t k v).
Proof.
  intros Hk. split; [unfold same_frame; cbn; tauto|]. intros k' Hk'. cbn [set_extra st extra]. apply dget_dset_ne.
  intros ->. contradiction.
Qed.
Lemma deconvolved_data t d : deconvolved t (set_data t d).
Proof. split; [unfold same_frame; cbn; tauto | intros k _; reflexivity]. Qed.

(** only locations of [ls] change, and only as [deconvolved] allows *)
Definition only (ls : list loc) (h h' : heap) : Prop :=
  (forall l, ~ In l ls -> h' l = h l) /\ (forall l, deconvolved (h l) (h' l)).
Lemma only_refl ls h : only ls h h.
Proof. split; [reflexivity | intros; apply deconvolved_refl]. Qed.
Lemma only_trans ls h1 h2 h3 : only ls h1 h2 -> only ls h2 h3 -> only ls h1 h3.
Proof.
  intros [A1 A2] [B1 B2]. split.
  - intros l Hl. rewrite B1, A1 by exact Hl. reflexivity.
  - intros l. eapply deconvolved_trans; [apply A2 | apply B2].
Qed.
Lemma only_hset ls h l t : In l ls -> deconvolved (h l) t -> only ls h (hset h l t).
Proof.
  intros Hl Ht. split.
  - intros l2 Hl2. apply hset_ne. intros ->. contradiction.
  - intros l2. destruct (Nat.eq_dec l l2) as [<-|Hn]; [rewrite hset_eq; exact Ht|].
    rewrite hset_ne by exact Hn. apply deconvolved_refl.
Qed.
Lemma only_sub ls ls' h h' : (forall l, In l ls -> In l ls') -> only ls h h' -> only ls' h h'.
Proof. intros Hs [A B]. split; [intros l Hl; apply A; intros H; apply Hl, Hs, H | exact B]. Qed.
Lemma only_store rsp ds h : only rsp h (store rsp ds h).
Proof.
  revert ds h. induction rsp as [|l rsp IH]; intros ds h; cbn [store]; [apply only_refl|].
  destruct ds as [|d ds]; [apply only_refl|].
  eapply only_trans; [|eapply only_sub; [|apply IH]; intros x Hx; right; exact Hx].
  apply only_hset; [left; reflexivity | apply deconvolved_data].
Qed.
Lemma only_store_it rsp its h : only rsp h (store_it rsp its h).
Proof.
  revert its h. induction rsp as [|l rsp IH]; intros its h; cbn [store_it]; [apply only_refl|].
  destruct its as [|d its]; [apply only_refl|].
  eapply only_trans; [|eapply only_sub; [|apply IH]; intros x Hx; right; exact Hx].
  apply only_hset; [left; reflexivity | apply deconvolved_extra; cbn; tauto].
Qed.
Lemma only_onsets rsp o h : only rsp h (set_onsets rsp o h).
Proof.
  revert h. induction rsp as [|l rsp IH]; intros h; cbn [set_onsets]; [apply only_refl|].
  eapply only_trans; [|eapply only_sub; [|apply IH]; intros x Hx; right; exact Hx].
  apply only_hset; [left; reflexivity | apply deconvolved_extra; cbn; tauto].
Qed.
(** onsets *)
Definition keep_onset (h h' : heap) : Prop := forall l o, onset_of (h l) o -> onset_of (h' l) o.
Lemma keep_hset h l t : (forall o, onset_of (h l) o -> onset_of t o) -> keep_onset h (hset h l t).
Proof.
  intros H l2 o Ho. destruct (Nat.eq_dec l l2) as [<-|Hn]; [rewrite hset_eq; apply H, Ho|].
  rewrite hset_ne by exact Hn. exact Ho.
Qed.
Lemma keep_store rsp ds h : keep_onset h (store rsp ds h).
Proof.
  revert ds h. induction rsp as [|l rsp IH]; intros ds h; cbn [store]; [intros ? ? H; exact H|].
  destruct ds as [|d ds]; [intros ? ? H; exact H|]. intros l2 o Ho. apply IH. apply keep_hset; [|exact Ho]. intros ? H; exact H.
Qed.
Lemma keep_store_it rsp its h : keep_onset h (store_it rsp its h).
Proof.
  revert its h. induction rsp as [|l rsp IH]; intros ds h; cbn [store_it]; [intros ? ? H; exact H|].
  destruct ds as [|d ds]; [intros ? ? H; exact H|]. intros l2 o Ho. apply IH. apply keep_hset; [|exact Ho].
  intros o' H. unfold onset_of in *. cbn [set_extra st extra]. rewrite dget_dset_ne by discriminate. exact H.
Qed.
Lemma onsets_keep rsp o h l : onset_of (h l) o -> onset_of (set_onsets rsp o h l) o.
Proof.
  revert h. induction rsp as [|x rsp IH]; intros h Ho; cbn [set_onsets]; [exact Ho|]. apply IH.
  destruct (Nat.eq_dec x l) as [<-|Hn]; [|rewrite hset_ne by exact Hn; exact Ho].
  rewrite hset_eq. unfold onset_of. cbn [set_extra st extra]. apply dget_dset_eq.
Qed.
Lemma onsets_set rsp o h l : In l rsp -> onset_of (set_onsets rsp o h l) o.
Proof.
  revert h. induction rsp as [|x rsp IH]; intros h; [intros []|]. intros [->|Hl]; cbn [set_onsets]; [|apply IH, Hl].
  apply onsets_keep. rewrite hset_eq. unfold onset_of. cbn [set_extra st extra]. apply dget_dset_eq.
Qed.

Section D.
  Variable kernel : kcall -> res (list (list Q) * list Z).
  Variable taper : Z -> trace -> trace.
  Notation deconvolve := (deconvolve kernel taper).

  Lemma known_supported m : known_method (if String.eqb m "freq" then "waterlevel" else m) = true <-> supported m.
  Proof.
    unfold supported, known_method. destruct (String.eqb_spec m "freq") as [->|Hn].
    - split; [intros _; cbn; tauto | reflexivity].
    - cbn [existsb]. rewrite !orb_true_iff, !String.eqb_eq. cbn. intuition congruence.
  Qed.
  Theorem dec_unknown m source response w norm ls h : ~ supported m ->
    deconvolve m source response w norm ls h = (h, Err NotImplementedError).
  Proof.
    intros H. unfold Deconv.deconvolve, Deconv.deconvolve_given, noise_for. destruct (known_method _) eqn:E; [|reflexivity].
    apply known_supported in E. contradiction.
  Qed.
  Theorem dec_sources m source response w norm ls h sel : supported m -> channels_set h ls ->
    selected h source ls sel -> List.length sel <> 1 ->
    deconvolve m source response w norm ls h = (h, Err ValueError).
  Proof.
    intros Hm Hc Hs Hl. unfold Deconv.deconvolve, Deconv.deconvolve_given, noise_for. rewrite (proj2 (known_supported m) Hm). cbn [negb].
    rewrite filterM_sel by exact Hc. rewrite <- (selected_eq _ _ _ _ Hs).
    destruct sel as [|a [|b sel]]; [reflexivity| |reflexivity]. exfalso. apply Hl. reflexivity.
  Qed.
  Theorem dec_responses m source response w norm ls h src rsp : supported m -> channels_set h ls ->
    selected h source ls [src] -> responses h response ls rsp -> ~ (1 <= List.length rsp <= 3) ->
    deconvolve m source response w norm ls h = (h, Err ValueError).
  Proof.
    intros Hm Hc Hs Hr Hl. unfold Deconv.deconvolve, Deconv.deconvolve_given, noise_for. rewrite (proj2 (known_supported m) Hm). cbn [negb].
    rewrite filterM_sel by exact Hc. rewrite <- (selected_eq _ _ _ _ Hs). rewrite (responses_eq _ _ _ _ Hc Hr).
    destruct (Nat.ltb_spec 0 (List.length rsp)); destruct (Nat.ltb_spec (List.length rsp) 4); cbn [andb negb]; try reflexivity. lia.
  Qed.

  Lemma index_of_in l ls : In l ls -> exists i, index_of l ls = Some i.
  Proof. intros H. destruct (index_of l ls) as [i|] eqn:E; [exists i; reflexivity|]. apply index_of_none in E. contradiction. Qed.

  Theorem dec_only m source response w norm ls h src rsp : channels_set h ls ->
    selected h source ls [src] -> responses h response ls rsp -> In src rsp ->
    only rsp h (fst (deconvolve m source response w norm ls h)).
  Proof.
    intros Hc Hs Hr Hin. unfold Deconv.deconvolve, Deconv.deconvolve_given, noise_for. destruct (known_method _); cbn [negb]; [|apply only_refl].
    rewrite filterM_sel by exact Hc. rewrite <- (selected_eq _ _ _ _ Hs). rewrite (responses_eq _ _ _ _ Hc Hr).
    destruct (index_of_in src rsp Hin) as [i Ei]. rewrite Ei.
    destruct (negb _); [apply only_refl|].
    destruct (dget (extra (st (h src))) "onset") as [[]|]; try apply only_refl.
    destruct (find_nearest _ _) as [idx|]; [|apply only_refl].
    match goal with |- context [set_onsets rsp ?o ?h1] => set (on := o); set (hh := h1) end.
    assert (only rsp h (set_onsets rsp on hh)) as H2.
    { eapply only_trans; [|apply only_onsets]. apply only_hset; [exact Hin | apply deconvolved_extra; cbn; tauto]. }
    destruct (source_window _ _ _ _) as [[[w0 w1] w2]|]; [|exact H2].
    destruct (trim_pad _ _ _) as [ts|]; [|exact H2].
    destruct (noise_data _ _ _ _ _) as [nz|]; [|exact H2].
    match goal with |- context [kernel ?c] => destruct (kernel c) as [[ds its]|] end; [|exact H2].
    cbn [fst]. destruct (String.eqb _ "iterative").
    - eapply only_trans; [exact H2|]. eapply only_trans; [apply only_store | apply only_store_it].
    - eapply only_trans; [exact H2 | apply only_store].
  Qed.
  Theorem dec_result m source response w norm ls h src rsp h' r : channels_set h ls ->
    selected h source ls [src] -> responses h response ls rsp ->
    deconvolve m source response w norm ls h = (h', Ok r) -> r = rsp.
  Proof.
    intros Hc Hs Hr. unfold Deconv.deconvolve, Deconv.deconvolve_given, noise_for. destruct (known_method _); cbn [negb]; [|discriminate].
    rewrite filterM_sel by exact Hc. rewrite <- (selected_eq _ _ _ _ Hs). rewrite (responses_eq _ _ _ _ Hc Hr).
    destruct (negb _); [discriminate|].
    destruct (dget (extra (st (h src))) "onset") as [[]|]; try discriminate.
    destruct (find_nearest _ _) as [idx|]; [|discriminate].
    destruct (source_window _ _ _ _) as [[[w0 w1] w2]|]; [|discriminate].
    destruct (trim_pad _ _ _) as [ts|]; [|discriminate].
    destruct (noise_data _ _ _ _ _) as [nz|]; [|discriminate].
    match goal with |- context [kernel ?c] => destruct (kernel c) as [[ds its]|] end; [|discriminate].
    intros E. inversion E; reflexivity.
  Qed.
  Theorem dec_onset m source response w norm ls h src rsp h' r o : channels_set h ls ->
    (forall w t, st (taper w t) = st t) ->
    selected h source ls [src] -> responses h response ls rsp ->
    (0 < delta (st (h src)))%Z -> onset_of (h src) o -> (starttime (st (h src)) <= o <= endtime (h src))%Z ->
    data (h src) <> [] ->
    deconvolve m source response w norm ls h = (h', Ok r) ->
    exists o', nearest_sample (h src) o o' /\ onset_of (h' src) o' /\ (forall l, In l rsp -> onset_of (h' l) o').
  Proof.
    intros Hc Ht Hs Hr Hd Ho Hb Hne. unfold Deconv.deconvolve, Deconv.deconvolve_given, noise_for. destruct (known_method _); cbn [negb]; [|discriminate].
    rewrite filterM_sel by exact Hc. rewrite <- (selected_eq _ _ _ _ Hs). rewrite (responses_eq _ _ _ _ Hc Hr).
    destruct (negb _); [discriminate|]. unfold onset_of in Ho. rewrite Ho. unfold times.
    destruct (find_nearest_spec (delta (st (h src))) (o - starttime (st (h src))) (List.length (data (h src))) Hd) as (idx & -> & Hi & A & B).
    { unfold endtime, npts in Hb. destruct (data (h src)); [congruence|]. 
      destruct (Z.eqb_spec (Z.of_nat (List.length (q :: l))) 0); [cbn in *; lia|]. lia. }
    set (o' := (starttime (st (h src)) + Z.of_nat idx * delta (st (h src)))%Z).
    assert (nearest_sample (h src) o o') as Hnear by (exists idx; unfold o', sample_time; split; [exact Hi|]; split; [reflexivity|]; lia).
    set (h2 := set_onsets rsp o' (hset h src (set_extra (h src) "onset" (VTime o')))).
    assert (onset_of (h2 src) o') as Hsrc.
    { apply onsets_keep. rewrite hset_eq. unfold onset_of. cbn [set_extra st extra]. apply dget_dset_eq. }
    assert (forall l, In l rsp -> onset_of (h2 l) o') as Hrsp by (intros l Hl; apply onsets_set, Hl).
    destruct (source_window _ _ _ _) as [[[w0 w1] w2]|]; [|discriminate].
    destruct (trim_pad _ _ _) as [ts|] eqn:Etp; [|discriminate].
    destruct (noise_data _ _ _ _ _) as [nz|]; [|discriminate].
    match goal with |- context [kernel ?c] => destruct (kernel c) as [[ds its]|] end; [|discriminate].
    set (h3 := match index_of src rsp with Some _ => h2 | None => hset h2 src (taper w2 ts) end).
    assert (keep_onset h2 h3) as K3.
    { unfold h3. destruct (index_of src rsp); [intros ? ? H; exact H|]. apply keep_hset. intros o2 H2.
      unfold onset_of in *. rewrite Ht. unfold trim_pad in Etp. destruct (_ <? _)%Z; [discriminate|]. inversion Etp.
      unfold rtrim_pad. repeat match goal with |- context [if ?b then _ else _] => destruct b end; exact H2. }
    assert (keep_onset h3 (if String.eqb (if String.eqb m "freq" then "waterlevel" else m) "iterative" 
        then store_it rsp its (store rsp ds h3) else store rsp ds h3)) as K4.
    { destruct (String.eqb _ "iterative"); intros l o2 H2; [apply keep_store_it|]; apply keep_store, H2. }
    intros E. inversion E; subst. exists o'. split; [exact Hnear|]. split; [apply K4, K3, Hsrc|].
    intros l Hl. apply K4, K3, Hrsp, Hl.
  Qed.
End D.
Theorem dec_normalize kernel kernel' taper m source response w ls h src rsp i : channels_set h ls ->
  selected h source ls [src] -> responses h response ls rsp -> NoDup rsp -> nth_error rsp i = Some src ->
  (forall c, k_norm c = Some (Some i) -> kernel c = kernel' c) ->
  deconvolve kernel taper m source response w None ls h = deconvolve kernel' taper m source response w None ls h.
Proof.
  intros Hc Hs Hr Hnd Hi Hk. unfold deconvolve, deconvolve_given, noise_for. destruct (known_method _); cbn [negb]; [|reflexivity].
  rewrite filterM_sel by exact Hc. rewrite <- (selected_eq _ _ _ _ Hs). rewrite (responses_eq _ _ _ _ Hc Hr).
  assert (index_of src rsp = Some i) as ->.
  { apply index_of_some. split; [exact Hi|]. intros j Hj E. 
    rewrite NoDup_nth_error in Hnd. assert (j = i); [|lia]. apply Hnd; [|congruence]. apply nth_error_Some. congruence. }
  destruct (negb _); [reflexivity|].
  destruct (dget (extra (st (h src))) "onset") as [[]|]; try reflexivity.
  destruct (find_nearest _ _) as [idx|]; [|reflexivity].
  destruct (source_window _ _ _ _) as [[[w0 w1] w2]|]; [|reflexivity].
  destruct (trim_pad _ _ _) as [ts|]; [|reflexivity].
  destruct (noise_data _ _ _ _ _) as [nz|]; [|reflexivity].
  rewrite Hk by reflexivity. reflexivity.
Qed.

(** ** the source window *)
Lemma round_up_err n d : (0 < d)%Z -> (2 * Z.abs (d * round_up n d - n) <= d)%Z.
Proof.
  intros Hd. unfold round_up. pose proof (Z.div_mod (2 * n + d) (2 * d) ltac:(lia)).
  pose proof (Z.mod_pos_bound (2 * n + d) (2 * d) ltac:(lia)). nia.
Qed.
Lemma padded_app_zeros (l : list Q) m i : nth i (l ++ repeat 0%Q m) 0%Q = nth i l 0%Q.
Proof.
  destruct (Nat.lt_ge_cases i (List.length l)) as [H|H]; [apply app_nth1, H|].
  rewrite app_nth2, nth_repeat by exact H. symmetry. apply nth_overflow, H.
Qed.
Lemma nth_firstn_q (l : list Q) m i : i < m -> nth i (firstn m l) 0%Q = nth i l 0%Q.
Proof. revert m i. induction l as [|x l IH]; intros [|m] [|i] H; cbn; try lia; try reflexivity. apply IH. lia. Qed.
Lemma nth_skipn_q (l : list Q) m i : nth i (skipn m l) 0%Q = nth (m + i) l 0%Q.
Proof. revert l. induction m as [|m IH]; intros [|x l]; cbn; try reflexivity; [destruct i; reflexivity|]. apply IH. Qed.
Lemma ltrim_pad_spec t lo : (0 < delta (st t))%Z -> exists k,
  starttime (st (ltrim_pad t lo)) = (starttime (st t) + k * delta (st t))%Z /\ delta (st (ltrim_pad t lo)) = delta (st t) /\
  (2 * Z.abs (starttime (st (ltrim_pad t lo)) - lo) <= delta (st t))%Z /\
  forall i, nth i (data (ltrim_pad t lo)) 0%Q = padded t (k + Z.of_nat i).
Proof.
  intros Hd. set (k0 := round_away (lo - starttime (st t)) (delta (st t))).
  set (k := if (k0 <? 0)%Z then round_up (lo - starttime (st t)) (delta (st t)) else k0).
  exists k. unfold ltrim_pad. cbv zeta. fold k0. fold k. cbn [set_data set_starttime st starttime delta data].
  split; [reflexivity|]. split; [reflexivity|]. split.
  - assert (2 * Z.abs (delta (st t) * k - (lo - starttime (st t))) <= delta (st t))%Z as H.
    { unfold k. destruct (k0 <? 0)%Z; [apply round_up_err, Hd | apply round_away_err, Hd]. }
    replace (starttime (st t) + k * delta (st t) - lo)%Z with (delta (st t) * k - (lo - starttime (st t)))%Z by ring. exact H.
  - intros i. unfold padded. destruct (Z.leb_spec 0 (k + Z.of_nat i)) as [H|H].
    + destruct (Z.le_gt_cases 0 k) as [K|K].
      * replace (Z.to_nat (- k)) with 0 by lia. cbn [repeat app]. rewrite nth_skipn_q. f_equal. lia.
      * replace (Z.to_nat k) with 0 by lia. cbn [skipn]. rewrite app_nth2; rewrite repeat_length; [f_equal; lia | lia].
    + rewrite app_nth1 by (rewrite repeat_length; lia). apply nth_repeat.
Qed.
Lemma round_away_pos n d : (0 < d)%Z -> (d <= 2 * n)%Z -> (1 <= round_away n d)%Z.
Proof.
  intros Hd Hn. unfold round_away. rewrite Z.sgn_pos, Z.mul_1_l, Z.abs_eq by lia. apply Z.div_le_lower_bound; lia.
Qed.
Theorem trim_pad_spec t lo hi t' : (0 < delta (st t))%Z -> (lo + delta (st t) <= hi)%Z ->
  trim_pad t lo hi = Ok t' -> cut_padded t t' lo hi.
Proof.
  intros Hd Hlen. unfold trim_pad. destruct (Z.ltb_spec hi lo); [discriminate|]. intros [= <-].
  destruct (ltrim_pad_spec t lo Hd) as (k & S & D & N & V). set (u := ltrim_pad t lo) in *.
  set (n := round_away (hi - starttime (st u)) (delta (st u))).
  assert (Hn : (1 <= n)%Z).
  { unfold n. rewrite D. apply round_away_pos; [exact Hd | lia]. }
  assert (Hlen' : List.length (data (rtrim_pad u hi)) = Z.to_nat (n + 1) /\ starttime (st (rtrim_pad u hi)) = starttime (st u) /\
     delta (st (rtrim_pad u hi)) = delta (st u) /\ forall i, i < Z.to_nat (n + 1) -> nth i (data (rtrim_pad u hi)) 0%Q = nth i (data u) 0%Q).
  { unfold rtrim_pad. cbv zeta. fold n. unfold npts. set (L := List.length (data u)).
    destruct (Z.leb_spec 0 (n - Z.of_nat L + 1)) as [A|A].
    - cbn [set_data st data starttime delta]. rewrite app_length, repeat_length. fold L. repeat split; [lia|]. intros i _. apply padded_app_zeros.
    - destruct (Z.ltb_spec hi (starttime (st u))) as [B|B]; [exfalso; lia|].
      destruct (Z.eqb_spec hi (starttime (st u))) as [B2|B2].
      { exfalso. lia. }
      cbn [set_data st data starttime delta].
      rewrite firstn_length. fold L. repeat split; [lia|]. intros i Hi. apply nth_firstn_q. lia. }
  destruct Hlen' as (L1 & S1 & D1 & V1). unfold cut_padded.
  split; [rewrite D1; exact D|]. split; [rewrite L1; lia|].
  exists k. rewrite S1. split; [exact S|]. split; [exact N|]. split.
  - unfold endtime, npts. rewrite L1, S1, D1. destruct (Z.eqb_spec (Z.of_nat (Z.to_nat (n + 1))) 0); [lia|].
    pose proof (round_away_err (hi - starttime (st u)) (delta (st u)) ltac:(lia)) as R. fold n in R. rewrite D in *.
    replace (starttime (st u) + (Z.of_nat (Z.to_nat (n + 1)) - 1) * delta (st t) - hi)%Z with (delta (st t) * n - (hi - starttime (st u)))%Z by lia.
    exact R.
  - intros i Hi. rewrite V1 by lia. apply V.
Qed.
Lemma source_window_spec w m len onset a b c : supported m ->
  source_window w (if String.eqb m "freq" then "waterlevel" else m) len onset = Ok (a, b, c) ->
  window_for m onset (len - onset) w a b c.
Proof.
  intros Hm. destruct w as [p|a' b' c']; cbn [source_window]; [|intros [= <- <- <-]; constructor].
  unfold supported in Hm. cbn in Hm.
  destruct Hm as [<-|[<-|[<-|[<-|[<-|[<-|[]]]]]]]; cbn [String.eqb Ascii.eqb Bool.eqb existsb orb andb];
    destruct (String.eqb_spec p "P") as [->|]; try destruct (String.eqb_spec p "S") as [->|]; cbn [andb orb String.eqb Ascii.eqb Bool.eqb]; try discriminate;
    intros [= <- <- <-]; constructor; cbn; tauto.
Qed.
(** data and start times are not changed by the onsets *)
Lemma set_onsets_data rsp o h l : data (set_onsets rsp o h l) = data (h l) /\ starttime (st (set_onsets rsp o h l)) = starttime (st (h l)) /\
  delta (st (set_onsets rsp o h l)) = delta (st (h l)) /\ channel (st (set_onsets rsp o h l)) = channel (st (h l)).
Proof.
  revert h. induction rsp as [|x rsp IH]; intros h; cbn [set_onsets]; [auto|].
  destruct (IH (hset h x (set_extra (h x) "onset" (VTime o)))) as (A & B & D & F).
  rewrite A, B, D, F. destruct (Nat.eq_dec x l) as [<-|N]; [rewrite hset_eq | rewrite hset_ne by exact N]; auto.
Qed.
Lemma store_data rsp : forall ds h, NoDup rsp -> forall i l d, nth_error rsp i = Some l -> nth_error ds i = Some d -> data (store rsp ds h l) = d.
Proof.
  induction rsp as [|x rsp IH]; intros ds h Hn i l d Hl Hd; [destruct i; discriminate|].
  inversion Hn; subst. destruct ds as [|d0 ds]; [destruct i; discriminate|]. cbn [store].
  destruct i as [|i]; cbn in Hl, Hd; [|eapply IH; eassumption].
  injection Hl as ->. injection Hd as ->.
  assert (forall ds h, store rsp ds h l = h l) as K.
  { clear - H1. induction rsp as [|x rsp IH]; intros ds h; cbn [store]; [reflexivity|]. destruct ds as [|d0 ds]; [reflexivity|].
    rewrite IH by (intros F; apply H1; right; exact F). apply hset_ne. intros ->. apply H1. left; reflexivity. }
  rewrite K, hset_eq. reflexivity.
Qed.
Lemma store_it_get rsp : forall its h, NoDup rsp -> forall i l n, nth_error rsp i = Some l -> nth_error its i = Some n ->
  dget (extra (st (store_it rsp its h l))) "iterations" = Some (VNum (inject_Z n)).
Proof.
  induction rsp as [|x rsp IH]; intros its h Hn i l n Hl Hd; [destruct i; discriminate|].
  inversion Hn; subst. destruct its as [|d0 its]; [destruct i; discriminate|]. cbn [store_it].
  destruct i as [|i]; cbn in Hl, Hd; [|eapply IH; eassumption].
  injection Hl as ->. injection Hd as ->.
  assert (forall its h, store_it rsp its h l = h l) as K.
  { clear - H1. induction rsp as [|x rsp IH]; intros its h; cbn [store_it]; [reflexivity|]. destruct its as [|d0 its]; [reflexivity|].
    rewrite IH by (intros F; apply H1; right; exact F). apply hset_ne. intros ->. apply H1. left; reflexivity. }
  rewrite K, hset_eq. unfold set_extra. cbn [Trace.st extra]. apply dget_dset_eq.
Qed.
Lemma store_it_data rsp : forall its h l, data (store_it rsp its h l) = data (h l).
Proof.
  induction rsp as [|x rsp IH]; intros its h l; cbn [store_it]; [reflexivity|]. destruct its as [|i its]; [reflexivity|].
  rewrite IH. destruct (Nat.eq_dec x l) as [<-|N]; [rewrite hset_eq | rewrite hset_ne by exact N]; reflexivity.
Qed.
Lemma cut_padded_ext t u t' lo hi : data u = data t -> starttime (st u) = starttime (st t) -> delta (st u) = delta (st t) ->
  cut_padded u t' lo hi -> cut_padded t t' lo hi.
Proof.
  intros A B D (P1 & P2 & k & P3 & P4 & P5 & P6). rewrite D in *. split; [exact P1|]. split; [exact P2|]. exists k. rewrite <- B. 
  repeat split; try assumption. intros i Hi. rewrite P6 by exact Hi. unfold padded. rewrite A. reflexivity.
Qed.
Lemma round_even_near n d : (0 < d)%Z -> (2 * Z.abs (round_even n d * d - n) <= d)%Z.
Proof.
  intros Hd. unfold round_even. pose proof (Z.div_mod n d ltac:(lia)) as E. pose proof (Z.mod_pos_bound n d Hd) as B.
  set (q := (n / d)%Z) in *. set (r := (n mod d)%Z) in *.
  destruct (Z.ltb_spec (2 * r) d); [|destruct (Z.ltb_spec d (2 * r)); [|destruct (Z.even q)]]; nia.
Qed.
Theorem dec_call kernel taper m source response w norm ls h src rsp h' r o : channels_set h ls ->
  selected h source ls [src] -> responses h response ls rsp -> NoDup rsp ->
  (0 < delta (st (h src)))%Z -> onset_of (h src) o -> (starttime (st (h src)) <= o <= endtime (h src))%Z -> List.length (data (h src)) <> 0 ->
  deconvolve kernel taper m source response w norm ls h = (h', Ok r) ->
  exists o' a b tap cut c ds its,
    nearest_sample (h src) o o' /\
    window_for m (o' - starttime (st (h src))) (endtime (h src) - o') w a b tap /\
    ((a + delta (st (h src)) <= b)%Z -> cut_padded (h src) cut (o' + a) (o' + b)) /\
    k_method c = (if String.eqb m "freq" then "waterlevel" else m) /\
    k_rsp c = map (fun l => data (h l)) rsp /\ k_src c = data (taper tap cut) /\ k_tshift c = (if String.eqb m "multitaper" then a else - a)%Z /\
    (2 * Z.abs (k_shift c * delta (st (h src)) - (- a - Z.of_nat (List.length (k_src c)) / 2 * delta (st (h src)))) <= delta (st (h src)))%Z /\
    match norm with
    | Some n => k_norm c = Some n
    | None => (forall i, nth_error rsp i = Some src -> k_norm c = Some (Some i)) /\ (~ In src rsp -> k_norm c = None)
    end /\
    kernel c = Ok (ds, its) /\
    (forall i l d, nth_error rsp i = Some l -> nth_error ds i = Some d -> data (h' l) = d) /\
    (m = "iterative" -> forall i l n, nth_error rsp i = Some l -> nth_error its i = Some n -> dget (extra (st (h' l))) "iterations" = Some (VNum (inject_Z n))).
Proof.
  intros Hc Hs Hr Hnd Hd Ho Hb Hne. unfold deconvolve, deconvolve_given, noise_for. destruct (known_method _) eqn:Hm; cbn [negb]; [|discriminate].
  apply known_supported in Hm.
  rewrite filterM_sel by exact Hc. rewrite <- (selected_eq _ _ _ _ Hs). rewrite (responses_eq _ _ _ _ Hc Hr).
  destruct (negb _); [discriminate|]. unfold onset_of in Ho. rewrite Ho. unfold times.
  destruct (find_nearest_spec (delta (st (h src))) (o - starttime (st (h src))) (List.length (data (h src))) Hd) as (idx & -> & Hi & A & B).
  { unfold endtime, npts in Hb. destruct (Z.eqb_spec (Z.of_nat (List.length (data (h src)))) 0); lia. }
  set (o' := (starttime (st (h src)) + Z.of_nat idx * delta (st (h src)))%Z).
  assert (nearest_sample (h src) o o') as Hnear by (exists idx; unfold o', sample_time; split; [exact Hi|]; split; [reflexivity|]; lia).
  set (h2 := set_onsets rsp o' (hset h src (set_extra (h src) "onset" (VTime o')))).
  assert (K2 : forall l, data (h2 l) = data (h l) /\ starttime (st (h2 l)) = starttime (st (h l)) /\ delta (st (h2 l)) = delta (st (h l))).
  { intros l. destruct (set_onsets_data rsp o' (hset h src (set_extra (h src) "onset" (VTime o'))) l) as (K1 & K2 & K3 & _).
    unfold h2. rewrite K1, K2, K3. destruct (Nat.eq_dec src l) as [<-|N]; [rewrite hset_eq | rewrite hset_ne by exact N]; auto. }
  destruct (source_window _ _ _ _) as [[[a b] tap]|] eqn:Ew; [|discriminate].
  apply (source_window_spec _ _ _ _ _ _ _ Hm) in Ew.
  destruct (trim_pad _ _ _) as [ts|] eqn:Etp; [|discriminate].
  destruct (noise_data _ _ _ _ _) as [nz|]; [|discriminate].
  match goal with |- context [kernel ?c0] => set (c := c0) in *; destruct (kernel c) as [[ds its]|] eqn:Ek; [|discriminate] end.
  set (h3 := match index_of src rsp with Some _ => h2 | None => hset h2 src (taper tap ts) end) in *.
  intros E. injection E as E1 <-. exists o', a, b, tap, ts, c, ds, its.
  split; [exact Hnear|]. split.
  { replace (endtime (h src) - o')%Z with (endtime (h src) - starttime (st (h src)) - (o' - starttime (st (h src))))%Z by lia. exact Ew. }
  split.
  { intros Hlen. destruct (K2 src) as (X1 & X2 & X3). apply (cut_padded_ext _ (h2 src)); [exact X1 | exact X2 | exact X3|].
    apply trim_pad_spec; [rewrite X3; exact Hd | rewrite X3; lia | exact Etp]. }
  split; [reflexivity|]. split.
  { unfold c. cbn [k_rsp]. apply map_ext_in. intros l Hl. unfold h3. destruct (index_of src rsp) eqn:Ei; [apply K2|].
    apply index_of_none in Ei. rewrite hset_ne by (intros ->; contradiction). apply K2. }
  split; [reflexivity|]. split.
  { unfold c. cbn [k_tshift]. destruct (String.eqb_spec m "freq") as [->|]; reflexivity. }
  split.
  { unfold c. cbn [k_shift k_src]. apply round_even_near, Hd. }
  split.
  { unfold c. cbn [k_norm]. destruct norm as [n|]; [reflexivity|]. split.
    - intros i Hix. rewrite (proj2 (index_of_some src rsp i)); [reflexivity|]. split; [exact Hix|].
      intros j Hj F. pose proof (proj1 (NoDup_nth_error rsp) Hnd) as Hnd2. specialize (Hnd2 j i ltac:(apply nth_error_Some; congruence)). rewrite F, Hix in Hnd2. specialize (Hnd2 eq_refl). lia.
    - intros Hn. apply index_of_none in Hn. rewrite Hn. reflexivity. }
  split; [exact Ek|]. split.
  - intros i l d Hl Hdd. subst h'. destruct (String.eqb _ "iterative"); [rewrite store_it_data|]; eapply store_data; eassumption.
  - intros -> i l n Hl Hn. subst h'. cbn [String.eqb Ascii.eqb Bool.eqb]. eapply store_it_get; eassumption.
Qed.

(** ** noise for multitaper deconvolution *)
Lemma between_until t hi d : (starttime (st t) <= hi)%Z -> (0 < delta (st t))%Z -> List.length (data t) <> 0 ->
  samples_between t (starttime (st t)) hi d -> samples_until t hi d /\ (List.length d =? 0) = false.
Proof.
  intros Hhi Hd Hne (k & m & E & L & A & B).
  assert (k <= 0 < k + m) as K.
  { apply A; [lia|]. unfold sample_time. cbn [Z.of_nat]. lia. }
  assert (k = 0) as -> by lia. cbn [skipn Nat.add] in *. split.
  - exists m. split; [exact E|]. split; [exact L|]. split.
    + intros i Hi Ht. apply A; [exact Hi|]. split; [|exact Ht]. unfold sample_time. nia.
    + intros i Hi. apply B. lia.
  - rewrite L. apply Nat.eqb_neq. lia.
Qed.
Lemma trim_channel t a b t' : trim t a b = Ok t' -> channel (st t') = channel (st t).
Proof.
  unfold trim. assert (P : forall t x, channel (st (ltrim t x)) = channel (st t)).
  { intros t0 x. unfold ltrim. cbv zeta. destruct (_ <=? 0)%Z; reflexivity. }
  assert (P2 : forall t x, channel (st (rtrim t x)) = channel (st t)).
  { intros t0 x. unfold rtrim. cbv zeta. destruct (0 <=? _)%Z; [reflexivity|]. destruct (_ <? _)%Z; reflexivity. }
  destruct a; destruct b; try discriminate; try (destruct (_ <? _)%Z; [discriminate|]); intros [= <-]; rewrite ?P2, ?P; reflexivity.
Qed.
Lemma trim_pad_channel t a b t' : trim_pad t a b = Ok t' -> channel (st t') = channel (st t).
Proof.
  unfold trim_pad. destruct (_ <? _)%Z; [discriminate|]. intros [= <-]. unfold rtrim_pad. cbv zeta.
  destruct (0 <=? _)%Z; [reflexivity|]. destruct (_ <? _)%Z; reflexivity.
Qed.
Lemma filter_all {A} (l : list A) : filter (fun _ => true) l = l.
Proof. induction l as [|x l IH]; cbn; congruence. Qed.
Definition tsel (r : string) (t : trace) : bool := match comp t with Some c => char_in c r | None => false end.
Lemma filterM_tsel r ts sel : filterM (fun t => match comp t with Some c => Ok (char_in c r) | None => Err IndexError end) ts = Ok sel -> sel = filter (tsel r) ts.
Proof.
  revert sel. induction ts as [|t ts IH]; intros sel; cbn [filterM filter]; [intros [= <-]; reflexivity|].
  unfold tsel at 1. destruct (comp t) as [c|]; [|discriminate]. cbn [bind]. destruct (filterM _ ts) as [l|]; [|discriminate].
  cbn [bind]. intros [= <-]. rewrite (IH l eq_refl). reflexivity.
Qed.
Lemma noise_select (Q1 : loc -> trace -> Prop) (p : loc -> bool) (q : trace -> bool) : forall ls ts,
  Forall2 (fun l t => q t = p l /\ (p l = true -> Q1 l t)) ls ts -> Forall2 Q1 (filter p ls) (filter q ts).
Proof.
  induction ls as [|l ls IH]; intros ts F; inversion F as [|? t ? ts' [E H] F']; subst; [constructor|]. cbn [filter]. rewrite E.
  specialize (IH ts' F'). destruct (p l); [constructor; auto | exact IH].
Qed.
Lemma filter_comm {A} (p q : A -> bool) l : filter p (filter q l) = filter q (filter p l).
Proof. induction l as [|x l IH]; [reflexivity|]. cbn [filter]. destruct (q x) eqn:Q, (p x) eqn:P; cbn [filter]; rewrite ?P, ?Q, IH; reflexivity. Qed.
Theorem dec_noise_window kernel taper source response w norm ls h src rsp r0 h' r o : channels_set h ls ->
  (forall w t, st (taper w t) = st t) ->
  selected h source ls [src] -> responses h response ls rsp -> nth_error rsp 0 = Some r0 ->
  (forall l, In l rsp -> (0 < delta (st (h l)))%Z) ->
  (0 < delta (st (h src)))%Z -> onset_of (h src) o -> (starttime (st (h src)) <= o <= endtime (h src))%Z -> List.length (data (h src)) <> 0 ->
  deconvolve kernel taper "multitaper" source response w norm ls h = (h', Ok r) ->
  exists o' c ds its, nearest_sample (h src) o o' /\ kernel c = Ok (ds, its) /\
    (starttime (st (h r0)) <= o' - 5000000000)%Z /\
    (exists ws, Forall2 (fun l d => samples_between (h l) (starttime (st (h r0))) (o' - 5000000000) d) rsp ws /\
       k_noise c = filter (fun d => negb (List.length d =? 0)) ws) /\
    forall i l d, NoDup rsp -> nth_error rsp i = Some l -> nth_error ds i = Some d -> data (h' l) = d.
Proof.
  intros Hc Hta Hs Hr H0 Hall Hd Ho Hb Hne. unfold deconvolve, deconvolve_given, noise_for. change (String.eqb "multitaper" "freq") with false. cbv iota.
  change (known_method "multitaper") with true. cbn [negb].
  rewrite filterM_sel by exact Hc. rewrite <- (selected_eq _ _ _ _ Hs). rewrite (responses_eq _ _ _ _ Hc Hr).
  destruct (negb _); [discriminate|]. unfold onset_of in Ho. rewrite Ho. unfold times.
  destruct (find_nearest_spec (delta (st (h src))) (o - starttime (st (h src))) (List.length (data (h src))) Hd) as (idx & -> & Hi & A & B).
  { unfold endtime, npts in Hb. destruct (Z.eqb_spec (Z.of_nat (List.length (data (h src)))) 0); lia. }
  set (o' := (starttime (st (h src)) + Z.of_nat idx * delta (st (h src)))%Z).
  assert (nearest_sample (h src) o o') as Hnear by (exists idx; unfold o', sample_time; split; [exact Hi|]; split; [reflexivity|]; lia).
  set (h2 := set_onsets rsp o' (hset h src (set_extra (h src) "onset" (VTime o')))).
  assert (K2 : forall l, data (h2 l) = data (h l) /\ starttime (st (h2 l)) = starttime (st (h l)) /\ delta (st (h2 l)) = delta (st (h l)) /\ channel (st (h2 l)) = channel (st (h l))).
  { intros l. destruct (set_onsets_data rsp o' (hset h src (set_extra (h src) "onset" (VTime o'))) l) as (K1 & K2 & K3 & K4).
    unfold h2. rewrite K1, K2, K3, K4. destruct (Nat.eq_dec src l) as [<-|N]; [rewrite hset_eq | rewrite hset_ne by exact N]; auto. }
  destruct (source_window _ _ _ _) as [[[a b] tap]|] eqn:Ew; [|discriminate].
  destruct (trim_pad _ _ _) as [ts|] eqn:Etp; [|discriminate].
  set (h3 := match index_of src rsp with Some _ => h2 | None => hset h2 src (taper tap ts) end).
  assert (K3 : forall l, In l rsp -> h3 l = h2 l).
  { intros l Hl. unfold h3. destruct (index_of src rsp) eqn:Ei; [reflexivity|]. apply index_of_none in Ei. apply hset_ne. intros ->. contradiction. }
  assert (K4 : forall l, channel (st (h3 l)) = channel (st (h l))).
  { intros l. unfold h3. destruct (index_of src rsp); [apply K2|]. destruct (Nat.eq_dec src l) as [<-|N]; [|rewrite hset_ne by exact N; apply K2].
    rewrite hset_eq, Hta, (trim_pad_channel _ _ _ _ Etp). apply K2. }
  destruct (noise_data _ _ _ _ _) as [nz|] eqn:En; [|discriminate].
  match goal with |- context [kernel ?c0] => set (c := c0) in *; destruct (kernel c) as [[ds its]|] eqn:Ek; [|discriminate] end.
  intros E. injection E as E1 <-. exists o', c, ds, its. split; [exact Hnear|]. split; [exact Ek|]. rewrite <- and_assoc. split.
  2:{ intros i l d Hn Hl Hdd. subst h'. cbn [String.eqb Ascii.eqb Bool.eqb]. eapply store_data; eassumption. }
  unfold c. cbn [k_noise]. clear c Ek E1.
  unfold noise_data in En. change (String.eqb "multitaper" "multitaper") with true in En. cbn [negb] in En.
  destruct rsp as [|r1 rsp']; [discriminate|]. cbn in H0. injection H0 as ->. set (rsp := r0 :: rsp') in *.
  assert (On : forall l, In l rsp -> dget (extra (st (h3 l))) "onset" = Some (VTime o')).
  { intros l Hl. rewrite (K3 l Hl). apply (onsets_set rsp o'), Hl. }
  assert (I0 : In r0 rsp) by (left; reflexivity).
  rewrite (On r0 I0) in En. destruct (slice2 _ _ _ _ _ _) as [noise|] eqn:Es; [|discriminate]. cbn [bind] in En.
  unfold slice2 in Es. destruct (mapM _ ls) as [sl|] eqn:Em; [|discriminate]. cbn [bind] in Es. injection Es as <-.
  apply mapM_ok_Forall2 in Em.
  set (pp := match response with None => fun _ : loc => true | Some rr => selp h rr end).
  set (qq := match response with None => fun _ : trace => true | Some rr => tsel rr end).
  assert (Er : rsp = filter pp ls).
  { unfold pp. destruct response as [rr|]; cbn in Hr; [apply (selected_eq _ _ _ _ Hr)|]. rewrite Hr. clear. induction ls as [|x ls IH]; cbn; congruence. }
  assert (En' : nz = map data (filter qq (filter (fun t => false || negb (npts t =? 0)%Z) sl))).
  { unfold qq. destruct response as [rr|].
    - destruct (filterM _ _) as [sel|] eqn:Ef; [|discriminate]. cbn [bind] in En. injection En as <-. rewrite (filterM_tsel _ _ _ Ef). reflexivity.
    - cbn [bind] in En. injection En as <-. rewrite filter_all. reflexivity. }
  assert (Hin : forall l, In l ls -> pp l = true -> In l rsp) by (intros l Hl Hp; rewrite Er; apply filter_In; auto).
  assert (G0 : Forall2 (fun l t => qq t = pp l /\ (pp l = true -> (starttime (st (h r0)) <= o' - 5000000000)%Z /\ samples_between (h l) (starttime (st (h r0))) (o' - 5000000000) (data t))) ls sl).
  { clear - Em Hin On K2 K3 K4 Hall I0. induction Em as [|l t ls sl Ht Em IH]; constructor.
    2:{ apply IH. intros x Hx. apply Hin. right; exact Hx. }
    unfold trim_rel in Ht. destruct (seconds2utc (h3 l) _ (SNum (_ / _))) as [t1|] eqn:E1; [|discriminate]. cbn [bind] in Ht.
    destruct (seconds2utc (h3 l) _ (SNum (-5))) as [t2|] eqn:E2; [|discriminate]. cbn [bind] in Ht.
    split.
    - unfold qq, pp. destruct response as [rr|]; [|reflexivity]. unfold tsel, selp, comp. rewrite (trim_channel _ _ _ _ Ht), K4. reflexivity.
    - intros Hp. assert (Hl : In l rsp) by (apply Hin; [left; reflexivity | exact Hp]).
      pose proof (Hall l Hl) as D. destruct (K2 l) as (X1 & X2 & X3 & _).
      assert (Own : own_reference (h3 l) (RKey "onset") o').
      { constructor. unfold tr_get. specialize (On l Hl). cbn. exact On. }
      pose proof (resolves_ok _ _ _ _ _ Own (secs_resolves o' (- (o' - starttime (st (h3 r0)))))) as R1. unfold secs in R1. rewrite R1 in E1. injection E1 as <-.
      assert (R2 : resolves o' (SNum (-5)) (STime (o' + -5000000000))) by (constructor; reflexivity).
      rewrite (resolves_ok _ _ _ _ _ Own R2) in E2. injection E2 as <-.
      rewrite (K3 l Hl) in *. rewrite (K3 r0 I0) in Ht. destruct (K2 r0) as (_ & Y2 & _). rewrite Y2 in Ht.
      replace (o' + - (o' - starttime (st (h r0))))%Z with (starttime (st (h r0))) in Ht by ring.
      split.
      { unfold trim in Ht. destruct (Z.ltb_spec (o' + -5000000000) (starttime (st (h r0)))); [discriminate|]. lia. }
      apply trim_window in Ht; [|rewrite X3; exact D]. destruct Ht as (_ & k & m & W1 & W2 & _ & W3 & W4). exists k, m.
      assert (T : forall i, sample_time (h2 l) i = sample_time (h l) i) by (intros i; unfold sample_time; rewrite X2, X3; reflexivity).
      rewrite X1, X3 in *. split; [exact W1|]. split; [exact W2|]. split.
      + intros i Hi Ht2. apply W3; [exact Hi | rewrite T; exact Ht2].
      + intros i Hi. specialize (W4 i Hi). rewrite T in W4. exact W4. }
  apply noise_select in G0. rewrite <- Er in G0. split.
  { inversion G0 as [|? ? ? ? [X _] _]. exact X. }
  exists (map data (filter qq sl)). split.
  { clear - G0. induction G0 as [|? ? ? ? [_ H] _ IH]; constructor; assumption. }
  rewrite En', filter_comm, filter_map. f_equal. apply filter_ext. intros t. cbn [orb]. unfold npts. f_equal. destruct (data t); reflexivity.
Qed.
Theorem dec_noise kernel taper source response w norm ls h src rsp r0 h' r o : channels_set h ls ->
  (forall w t, st (taper w t) = st t) ->
  selected h source ls [src] -> responses h response ls rsp -> nth_error rsp 0 = Some r0 ->
  (forall l, In l rsp -> starttime (st (h l)) = starttime (st (h r0)) /\ (0 < delta (st (h l)))%Z /\ List.length (data (h l)) <> 0) ->
  (0 < delta (st (h src)))%Z -> onset_of (h src) o -> (starttime (st (h src)) <= o <= endtime (h src))%Z -> List.length (data (h src)) <> 0 ->
  deconvolve kernel taper "multitaper" source response w norm ls h = (h', Ok r) ->
  exists o' c ds its, nearest_sample (h src) o o' /\ kernel c = Ok (ds, its) /\
    Forall2 (fun l d => samples_until (h l) (o' - 5000000000) d) rsp (k_noise c) /\
    forall i l d, NoDup rsp -> nth_error rsp i = Some l -> nth_error ds i = Some d -> data (h' l) = d.
Proof.
  intros Hc Hta Hs Hr H0 Hall Hd Ho Hb Hne E.
  destruct (dec_noise_window kernel taper source response w norm ls h src rsp r0 h' r o Hc Hta Hs Hr H0 ltac:(intros l Hl; apply Hall, Hl) Hd Ho Hb Hne E)
    as (o' & c & ds & its & Hn & Hk & Hle & (ws & F & En) & Hst).
  exists o', c, ds, its. split; [exact Hn|]. split; [exact Hk|]. split; [|exact Hst]. rewrite En. clear - F Hall Hle.
  induction F as [|l d ls ws Hld _ IH]; [constructor|]. destruct (Hall l (or_introl eq_refl)) as (S & D & N). rewrite <- S in Hld.
  destruct (between_until (h l) (o' - 5000000000) d ltac:(lia) D N Hld) as [U V]. cbn [filter]. rewrite V. cbn [negb]. constructor; [exact U|].
  apply IH. intros x Hx. apply Hall. right; exact Hx.
Qed.
