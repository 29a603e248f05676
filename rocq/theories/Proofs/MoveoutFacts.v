From Verif Require Import Model.SimpleModel Spec.ModelSpec Proofs.PyFacts Proofs.SumFacts Proofs.InterpFacts Proofs.ModelFacts.
From Coq Require Import Lra Lia.
Notation length := List.length.
Open Scope R_scope.

(** ** slices *)
Lemma pyslice_all {A} (t : list A) : pyslice t None (Some (Z.of_nat (length t))) = t.
Proof.
  unfold pyslice, slice_bound. destruct (Z.ltb_spec (Z.of_nat (length t)) 0); [lia|].
  rewrite Nat2Z.id, Nat.min_id, Nat.sub_0_r. cbn [skipn]. apply firstn_all.
Qed.
Lemma pyslice_all_eq {A} (t : list A) n : n = length t -> pyslice t None (Some (Z.of_nat n)) = t.
Proof. intros ->. apply pyslice_all. Qed.
Lemma pyslice_1_10 {A} (t : list A) : pyslice t (Some 1%Z) (Some 10%Z) = firstn 9 (skipn 1 t).
Proof.
  unfold pyslice, slice_bound. change (1 <? 0)%Z with false. change (10 <? 0)%Z with false. cbv iota.
  change (Z.to_nat 1) with 1%nat. change (Z.to_nat 10) with 10%nat.
  destruct t as [|a t]; [reflexivity|]. cbn [List.length]. replace (Nat.min (S (length t)) 1) with 1%nat by lia. cbn [skipn].
  destruct (Nat.le_gt_cases (length t) 9).
  - rewrite !firstn_all2 by lia. reflexivity.
  - replace (Nat.min (S (length t)) 10 - 1)%nat with 9%nat by lia. reflexivity.
Qed.
(** mirrored table *)
Definition tab (l : list R) : list R := rev (map Ropp (firstn 9 (skipn 1 l))) ++ l.
Lemma mirror_some l : mirror_head (map Some l) = map Some (tab l).
Proof.
  unfold mirror_head, tab. rewrite pyslice_1_10, map_app. f_equal. rewrite skipn_map, firstn_map, map_map.
  rewrite map_rev, map_map. reflexivity.
Qed.
Lemma finite_some l : finite (map Some l) = Some l.
Proof. induction l as [|x l IH]; cbn; [reflexivity|]. rewrite IH. reflexivity. Qed.
Lemma first_nan_some l : first_nan (map Some l) = None.
Proof. induction l as [|x l IH]; cbn; [reflexivity|]. rewrite IH. reflexivity. Qed.
Lemma tab_length l l' : length l = length l' -> length (tab l) = length (tab l').
Proof. intros H. unfold tab. rewrite !app_length, !rev_length, !map_length, !firstn_length, !skipn_length, H. reflexivity. Qed.
Lemma tab_last l : l <> [] -> last (tab l) 0 = last l 0.
Proof.
  intros H. unfold tab. destruct (exists_last H) as (l' & x & ->). rewrite app_assoc, !last_last. reflexivity.
Qed.
Lemma tab_nonempty l : l <> [] -> tab l <> [].
Proof. intros H E. unfold tab in E. apply app_eq_nil in E. tauto. Qed.
Lemma increasing_rev_opp l : increasing l -> increasing (rev (map Ropp l)).
Proof.
  intros H i j Hij Hj. rewrite rev_length, map_length in Hj. rewrite !rev_nth by (rewrite map_length; lia).
  rewrite !map_length. rewrite !(nth_map_in Ropp l _ 0) by lia. apply Ropp_le_contravar. apply H; lia.
Qed.
Lemma increasing_firstn l k : increasing l -> increasing (firstn k l).
Proof.
  intros H i j Hij Hj. rewrite firstn_length in Hj.
  assert (forall i, (i < Nat.min k (length l))%nat -> nth i (firstn k l) 0 = nth i l 0) as E.
  { intros q Hq. rewrite <- (firstn_skipn k l) at 2. rewrite app_nth1; [reflexivity|]. rewrite firstn_length. exact Hq. }
  rewrite !E by lia. apply H; lia.
Qed.
Lemma increasing_skipn l k : increasing l -> increasing (skipn k l).
Proof. intros H i j Hij Hj. rewrite skipn_length in Hj. rewrite !nth_skipn. apply H; lia. Qed.
Lemma in_firstn {A} k (l : list A) x : In x (firstn k l) -> In x l.
Proof. intros H. rewrite <- (firstn_skipn k l). apply in_app_iff. left. exact H. Qed.
Lemma in_skipn {A} k (l : list A) x : In x (skipn k l) -> In x l.
Proof. intros H. rewrite <- (firstn_skipn k l). apply in_app_iff. right. exact H. Qed.
Lemma tab_incr l : increasing l -> (forall x, In x l -> 0 <= x) -> increasing (tab l).
Proof.
  intros H Hp. unfold tab. apply incr_app; [|exact H|].
  - apply increasing_rev_opp, increasing_firstn, increasing_skipn, H.
  - intros x y Hx Hy. apply in_rev in Hx. apply in_map_iff in Hx. destruct Hx as (z & <- & Hz).
    apply in_firstn, in_skipn in Hz. specialize (Hp z Hz) as H1. specialize (Hp y Hy). lra.
Qed.
Lemma tab_first l : (2 <= length l)%nat -> (forall x, In x l -> 0 <= x) -> nth 0 (tab l) 0 <= 0.
Proof.
  intros Hl Hp. unfold tab. destruct l as [|a [|b l]]; try (cbn in Hl; lia).
  set (w := firstn 9 (skipn 1 (a :: b :: l))).
  assert (w <> []) as Hw by discriminate.
  assert (forall x, In x w -> 0 <= x) as Hpw by (intros x Hx; apply Hp, (in_skipn 1), (in_firstn 9), Hx).
  clearbody w. destruct (exists_last Hw) as (w' & x & ->). rewrite map_app, rev_app_distr. cbn.
  specialize (Hpw x ltac:(apply in_app_iff; right; left; reflexivity)). lra.
Qed.

(** ** delays and the cache *)
Definition some_or0 (o : option R) : R := match o with Some x => x | None => 0 end.
Lemma list_of_some (t : list (option R)) : (forall i, (i < length t)%nat -> nth i t None <> None) -> t = map Some (map some_or0 t).
Proof.
  induction t as [|o t IH]; intros H; [reflexivity|]. cbn. rewrite <- IH.
  - f_equal. specialize (H 0%nat ltac:(cbn; lia)). cbn in H. destruct o; [reflexivity | congruence].
  - intros i Hi. apply (H (S i)). cbn. lia.
Qed.
Section D.
  Variable deg2km : R.
  Notation consistent := (consistent deg2km).
  Definition same_layers (m m' : smodel) : Prop :=
    mz m = mz m' /\ mdz m = mdz m' /\ mvp m = mvp m' /\ mvs m = mvs m' /\ is_array m = is_array m'.
  Lemma same_layers_refl m : same_layers m m. Proof. repeat split. Qed.
  Lemma same_layers_trans a b c : same_layers a b -> same_layers b c -> same_layers a c.
  Proof. unfold same_layers. intros (A1 & A2 & A3 & A4 & A5) (B1 & B2 & B3 & B4 & B5). repeat split; congruence. Qed.
  Lemma delay_same m m' s ph : same_layers m m' -> delay_times deg2km m s ph = delay_times deg2km m' s ph.
  Proof. intros (A & B & C & D & E). unfold delay_times, vertical_slowness. rewrite B, C, D, E. reflexivity. Qed.
  Lemma valid_same m m' : same_layers m m' -> valid_model m -> valid_model m'.
  Proof. intros (A & B & C & D & E). unfold valid_model, layers. rewrite A, B, C, D, E. auto. Qed.

  (** the part of stretch_delay_times after the lookup *)
  Definition stretch_rest (m : smodel) (s : R) (phase : string) (tref : list (option R)) : res (list (option R) * list (option R)) :=
    let! t := delay_times deg2km m s (upper phase) in
    let neg := match upper phase with String "S" _ => true | _ => false end in
    let tref := if neg then map (option_map Ropp) tref else tref in
    let t := if neg then map (option_map Ropp) t else t in
    let index := match first_nan t with Some i => (Z.of_nat i - 1)%Z | None => Z.of_nat (length t) end in
    Ok (mirror_head (pyslice t None (Some index)), mirror_head (pyslice tref None (Some index))).
  Lemma stretch_rest_same m m' s ph t : same_layers m m' -> stretch_rest m s ph t = stretch_rest m' s ph t.
  Proof. intros H. unfold stretch_rest. rewrite (delay_same m m' _ _ H). reflexivity. Qed.
  (** result without a cache *)
  Definition stretch_fresh (m : smodel) (s : R) (phase : string) (ref : R) : res (list (option R) * list (option R)) :=
    if Nat.odd (String.length phase) then Err ValueError
    else let! tref := delay_times deg2km m ref (upper phase) in stretch_rest m s phase tref.
  Lemma set_t_ref_same m d : same_layers m (set_t_ref m d). Proof. repeat split. Qed.
  Lemma stretch_consistent m s phase ref m' r : consistent m ref ->
    stretch_delay_times deg2km m s phase ref = (m', r) ->
    same_layers m m' /\ consistent m' ref /\ r = stretch_fresh m s phase ref.
  Proof.
    intros Hc. unfold stretch_delay_times, stretch_fresh. destruct (Nat.odd (String.length phase)).
    - intros E. inversion E; subst. split; [apply same_layers_refl|]. auto.
    - destruct (dget (t_ref m) (upper phase)) as [t|] eqn:Ed.
      + intros E. inversion E; subst. split; [apply same_layers_refl|]. split; [exact Hc|].
        rewrite (Hc _ _ Ed). reflexivity.
      + destruct (delay_times deg2km m ref (upper phase)) as [t|e] eqn:Et.
        * intros E. assert (same_layers m (set_t_ref m (dset (t_ref m) (upper phase) t))) as Hs by apply set_t_ref_same.
          inversion E; subst m' r. split; [exact Hs|]. split.
          -- intros ph u Hu. rewrite <- (delay_same _ _ _ _ Hs). cbn [t_ref set_t_ref] in Hu.
             rewrite dget_dset in Hu. destruct (String.eqb (upper phase) ph) eqn:Eq.
             ++ apply String.eqb_eq in Eq. subst ph. inversion Hu; subst. exact Et.
             ++ apply Hc, Hu.
          -- cbn [bind]. symmetry. apply stretch_rest_same, Hs.
        * intros E. inversion E; subst. split; [apply same_layers_refl|]. split; [exact Hc | reflexivity].
  Qed.

  (** delays of a propagating phase *)
  Theorem delays_list m s phase c : valid_model m -> ps_phase phase -> (c <= layers m)%nat -> propagates_to deg2km m s phase c ->
    exists t l, delay_times deg2km m s (upper phase) = Ok t /\ length t = layers m /\ firstn c t = map Some l /\ length l = c /\
      (forall i x, (i < c)%nat -> (nth i l 0 = x <-> is_delay deg2km m s phase i x)).
  Proof.
    intros Hv Hps Hc Hpr. destruct (delay_ok deg2km m Hv s phase Hps) as (t & E & L & Hs & Hn).
    assert (delay_times deg2km m s (upper phase) = Ok t) as E'.
    { unfold delay_times in *. rewrite upper_idem. exact E. }
    assert (forall i, (i < c)%nat -> nth i (firstn c t) None = nth i t None) as Ef.
    { intros i Hi. rewrite <- (firstn_skipn c t) at 2. rewrite app_nth1; [reflexivity|]. rewrite firstn_length. lia. }
    assert (length (firstn c t) = c) as Lc by (rewrite firstn_length; lia).
    assert (forall i, (i < c)%nat -> nth i t None <> None) as Hno.
    { intros i Hi Ei. apply Hn in Ei; [|lia]. destruct Ei as (j & Hj & He). destruct (Hpr j ltac:(lia)) as [P1 P2].
      destruct He as [[A B]|[A B]]; [exact (P1 A B) | exact (P2 A B)]. }
    exists t, (map some_or0 (firstn c t)). split; [exact E'|]. split; [exact L|].
    split; [apply list_of_some; intros i Hi; rewrite Ef by lia; apply Hno; lia|].
    split; [rewrite map_length; exact Lc|].
    intros i x Hi. rewrite <- Hs by lia. rewrite (nth_map_in some_or0 (firstn c t) i None) by lia. rewrite Ef by exact Hi.
    specialize (Hno i Hi). destruct (nth i t None); [|congruence]. cbn. split; intros H; [congruence | inversion H; reflexivity].
  Qed.
  Lemma first_nan_at (t : list (option R)) : forall i, (forall j, (j < i)%nat -> nth j t None <> None) -> (i < length t)%nat -> nth i t None = None ->
    first_nan t = Some i.
  Proof.
    induction t as [|o t IH]; intros i Hb Hi Hn; [cbn in Hi; lia|]. destruct i as [|i].
    - cbn in Hn. subst. reflexivity.
    - pose proof (Hb 0%nat ltac:(lia)) as H0. cbn in H0. destruct o as [x|]; [|congruence]. cbn [first_nan].
      rewrite (IH i); [reflexivity | | cbn in Hi; lia | exact Hn]. intros j Hj. apply (Hb (S j)). lia.
  Qed.
  Lemma first_nan_none (t : list (option R)) : (forall j, (j < length t)%nat -> nth j t None <> None) -> first_nan t = None.
  Proof. intros H. rewrite (list_of_some t H). apply first_nan_some. Qed.
  Lemma is_delay_unique m s phase i x y : valid_model m -> ps_phase phase -> (i < layers m)%nat ->
    is_delay deg2km m s phase i x -> is_delay deg2km m s phase i y -> x = y.
  Proof.
    intros Hv Hps Hi Hx Hy. destruct (delay_ok deg2km m Hv s phase Hps) as (t & _ & _ & Hs & _).
    apply Hs in Hx; [|exact Hi]. apply Hs in Hy; [|exact Hi]. congruence.
  Qed.
  Theorem is_delay_incr m s phase i j x y : valid_model m -> s_slower m -> ps_phase phase -> forward phase ->
    (i <= j)%nat -> (j < layers m)%nat -> is_delay deg2km m s phase i x -> is_delay deg2km m s phase j y ->
    0 <= sgn_phase phase * x <= sgn_phase phase * y.
  Proof.
    intros Hv Hsl Hps Hf Hij Hj Hx (fp & fs & H & ->).
    assert (x = rsum (S i) (fun j => layer_delay phase (fp j) (fs j) (nth j (mdz m) 0))) as ->.
    { apply (is_delay_unique m s phase i); try assumption; [lia|]. exists fp, fs. split; [|reflexivity]. intros q Hq. apply H. lia. }
    replace (S j) with (S i + (j - i))%nat by lia. rewrite rsum_split.
    assert (forall q, (q <= j)%nat -> 0 <= sgn_phase phase * layer_delay phase (fp q) (fs q) (nth q (mdz m) 0)) as Hs.
    { intros q Hq. apply (layer_delay_sign deg2km m Hv phase q _ _ s); try assumption; [lia|]. apply H, Hq. }
    assert (0 <= rsum (S i) (fun q => sgn_phase phase * layer_delay phase (fp q) (fs q) (nth q (mdz m) 0))) as H1
      by (apply rsum_nonneg; intros; apply Hs; lia).
    assert (0 <= rsum (j - i) (fun q => sgn_phase phase * layer_delay phase (fp (S i + q)%nat) (fs (S i + q)%nat) (nth (S i + q) (mdz m) 0))) as H2
      by (apply rsum_nonneg; intros q Hq; apply Hs; lia).
    rewrite rsum_scal in H1, H2. rewrite Rmult_plus_distr_l. lra.
  Qed.

  (** delays with the orientation used for stretching *)
  Definition oriented (m : smodel) (s : R) (phase : string) (c : nat) (l : list R) : Prop :=
    length l = c /\ forall i, (i < c)%nat -> is_delay deg2km m s phase i (sgn_phase phase * nth i l 0).
  Lemma sgn_sq phase : sgn_phase phase * sgn_phase phase = 1.
  Proof. unfold sgn_phase. destruct (upper phase) as [|c u]; [ring|]. destruct c as [[] [] [] [] [] [] [] []]; ring. Qed.
  Lemma neg_sgn phase l : (if (match upper phase with String "S" _ => true | _ => false end) then map (option_map Ropp) (map Some l) else map Some l)
    = map Some (scale (sgn_phase phase) l).
  Proof.
    unfold sgn_phase, scale. assert (map Some l = map Some (map (Rmult 1) l)) as H1.
    { rewrite map_map. apply map_ext. intros x. f_equal. ring. }
    assert (map (option_map Ropp) (map Some l) = map Some (map (Rmult (-1)) l)) as H2.
    { rewrite !map_map. apply map_ext. intros x. cbn. f_equal. ring. }
    destruct (upper phase) as [|c u]; [exact H1|]. destruct c as [[] [] [] [] [] [] [] []]; (exact H1 || exact H2).
  Qed.
  Lemma firstn_neg (b : bool) c (t : list (option R)) :
    firstn c (if b then map (option_map Ropp) t else t) = if b then map (option_map Ropp) (firstn c t) else firstn c t.
  Proof. destruct b; [apply firstn_map | reflexivity]. Qed.
  Lemma first_nan_neg (b : bool) (t : list (option R)) : first_nan (if b then map (option_map Ropp) t else t) = first_nan t.
  Proof. destruct b; [|reflexivity]. induction t as [|[x|] t IH]; cbn; [reflexivity | rewrite IH; reflexivity | reflexivity]. Qed.
  Lemma pyslice_firstn {A} (t : list A) c : (c <= length t)%nat -> pyslice t None (Some (Z.of_nat c)) = firstn c t.
  Proof.
    intros H. unfold pyslice, slice_bound. destruct (Z.ltb_spec (Z.of_nat c) 0); [lia|].
    rewrite Nat2Z.id, Nat.sub_0_r. cbn [skipn]. f_equal. lia.
  Qed.
  Theorem stretch_fresh_tables m s phase ref c : valid_model m -> ps_phase phase -> Nat.even (String.length phase) = true ->
    used_layers deg2km m s phase c -> propagates_to deg2km m ref phase c ->
    exists l0 l1, stretch_fresh m s phase ref = Ok (map Some (tab l0), map Some (tab l1)) /\
      oriented m s phase c l0 /\ oriented m ref phase c l1.
  Proof.
    intros Hv Hps Hev H0 H1.
    assert ((c <= layers m)%nat /\ propagates_to deg2km m s phase c) as [Hc H0'].
    { destruct H0 as [[-> H]|(Hc & H & _)]; [split; [lia | exact H]|]. split; [lia|]. intros j Hj. apply H. lia. }
    destruct (delays_list m s phase c Hv Hps Hc H0') as (t & l0 & E0 & Lt & F0 & L0 & K0).
    destruct (delays_list m ref phase c Hv Hps Hc H1) as (tr & l1 & E1 & Ltr & F1 & L1 & K1).
    assert (match first_nan t with Some i => (Z.of_nat i - 1)%Z | None => Z.of_nat (length t) end = Z.of_nat c) as Ei.
    { destruct (delay_ok deg2km m Hv s phase Hps) as (t' & E & L & Hs & Hn).
      assert (t' = t). { unfold delay_times in *. rewrite upper_idem in E0. rewrite E in E0. inversion E0. reflexivity. } subst t'.
      destruct H0 as [[Ec H]|(Hc' & H & Hev')].
      - rewrite first_nan_none; [rewrite Lt, <- Ec; reflexivity|]. intros j Hj Ej. apply Hn in Ej; [|lia].
        destruct Ej as (i & Hi & He). destruct (H i ltac:(lia)) as [P1 P2]. destruct He as [[A B]|[A B]]; [exact (P1 A B) | exact (P2 A B)].
      - rewrite (first_nan_at t (S c)); [lia | | lia | apply Hn; [lia | exists (S c); split; [lia | exact Hev']]].
        intros j Hj Ej. apply Hn in Ej; [|lia].
        destruct Ej as (i & Hi & He). destruct (H i ltac:(lia)) as [P1 P2]. destruct He as [[A B]|[A B]]; [exact (P1 A B) | exact (P2 A B)]. }
    unfold stretch_fresh. rewrite <- Nat.negb_even, Hev. cbn [negb]. rewrite E1. cbn [bind]. unfold stretch_rest. rewrite E0. cbn [bind].
    rewrite first_nan_neg.
    assert (forall b : bool, length (if b then map (option_map Ropp) t else t) = length t) as Ln by (intros []; [apply map_length | reflexivity]).
    assert (forall b : bool, length (if b then map (option_map Ropp) tr else tr) = length tr) as Lnr by (intros []; [apply map_length | reflexivity]).
    rewrite Ln, Ei, !pyslice_firstn by (rewrite ?Ln, ?Lnr; lia). rewrite !firstn_neg, F0, F1, !neg_sgn, !mirror_some.
    exists (scale (sgn_phase phase) l0), (scale (sgn_phase phase) l1). split; [reflexivity|].
    assert (forall q l, length l = c -> (forall i x, (i < c)%nat -> nth i l 0 = x <-> is_delay deg2km m q phase i x) -> 
       oriented m q phase c (scale (sgn_phase phase) l)) as Ho.
    { intros q l L K. split; [rewrite scale_length; exact L|]. intros i Hi.
      replace (nth i (scale (sgn_phase phase) l) 0) with (sgn_phase phase * nth i l 0).
      - rewrite <- Rmult_assoc, sgn_sq, Rmult_1_l. apply K; [exact Hi | reflexivity].
      - rewrite <- !smp_nth, smp_scale. reflexivity. }
    split; apply Ho; assumption.
  Qed.
  Lemma oriented_unique m s phase c l l' : valid_model m -> ps_phase phase -> (c <= layers m)%nat -> oriented m s phase c l -> oriented m s phase c l' -> l = l'.
  Proof.
    intros Hv Hps Hc [L H] [L' H']. apply (nth_ext _ _ 0 0); [lia|]. intros i Hi.
    pose proof (is_delay_unique m s phase i _ _ Hv Hps ltac:(lia) (H i ltac:(lia)) (H' i ltac:(lia))) as E.
    apply (f_equal (Rmult (sgn_phase phase))) in E. rewrite <- !Rmult_assoc, sgn_sq in E. lra.
  Qed.
  Lemma oriented_incr m s phase c l : valid_model m -> s_slower m -> ps_phase phase -> forward phase -> (c <= layers m)%nat -> oriented m s phase c l ->
    increasing l /\ (forall x, In x l -> 0 <= x).
  Proof.
    intros Hv Hsl Hps Hf Hc [L H]. 
    assert (forall i j, (i <= j)%nat -> (j < length l)%nat -> 0 <= nth i l 0 <= nth j l 0) as K.
    { intros i j Hij Hj. pose proof (is_delay_incr m s phase i j _ _ Hv Hsl Hps Hf Hij ltac:(lia) (H i ltac:(lia)) (H j ltac:(lia))) as E.
      rewrite <- !Rmult_assoc, !sgn_sq in E. lra. }
    split; [intros i j Hij Hj; apply K; assumption|].
    intros x Hx. destruct (In_nth l x 0 Hx) as (k & Hk & <-). apply (K k k); lia.
  Qed.
  (** tables returned by stretch_delay_times *)
  Theorem stretch_tables m s phase ref c : valid_model m -> ps_phase phase -> Nat.even (String.length phase) = true ->
    used_layers deg2km m s phase c -> propagates_to deg2km m ref phase c -> consistent m ref ->
    exists m' l0 l1, stretch_delay_times deg2km m s phase ref = (m', Ok (map Some (tab l0), map Some (tab l1))) /\
      same_layers m m' /\ consistent m' ref /\ (c <= layers m)%nat /\
      oriented m s phase c l0 /\ oriented m ref phase c l1.
  Proof.
    intros Hv Hps Hev H0 H1 Hc. destruct (stretch_fresh_tables m s phase ref c Hv Hps Hev H0 H1) as (l0 & l1 & E & O0 & O1).
    destruct (stretch_delay_times deg2km m s phase ref) as [m' r] eqn:Es.
    destruct (stretch_consistent m s phase ref m' r Hc Es) as (S1 & S2 & S3). rewrite E in S3. subst r.
    exists m', l0, l1. repeat (split; [first [reflexivity | assumption]|]).
    split; [destruct H0 as [[-> _]|(? & _)]; lia|]. split; assumption.
  Qed.
End D.

(** ** one trace *)
Lemma secs_plus a b : secs (a + b) = secs a + secs b.
Proof. unfold secs. rewrite plus_IZR. field. Qed.
Lemma secs_mul k d : secs (Z.of_nat k * d) = INR k * secs d.
Proof. unfold secs. rewrite mult_IZR, <- INR_IZR_INZ. field. Qed.
Lemma secs_pos d : (0 < d)%Z -> 0 < secs d.
Proof. intros H. unfold secs. apply IZR_lt in H. lra. Qed.
Lemma rel_time_S t k : rel_time t (S k) = rel_time t k + secs (x_delta t).
Proof. unfold rel_time. rewrite Nat2Z.inj_succ, <- secs_plus. f_equal. lia. Qed.
Lemma rel_time_plus t k j : rel_time t (k + j) = rel_time t k + INR j * secs (x_delta t).
Proof. unfold rel_time. rewrite <- secs_mul, <- secs_plus. f_equal. lia. Qed.
Lemma rel_time_mono t i j : (0 < x_delta t)%Z -> (i <= j)%nat -> rel_time t i <= rel_time t j.
Proof.
  intros Hd H. replace j with (i + (j - i))%nat by lia. rewrite rel_time_plus.
  pose proof (secs_pos _ Hd). pose proof (pos_INR (j - i)). nra.
Qed.
Lemma rel_time_lt t i j : (0 < x_delta t)%Z -> (i < j)%nat -> rel_time t i < rel_time t j.
Proof.
  intros Hd H. replace j with (i + (j - i))%nat by lia. rewrite rel_time_plus.
  pose proof (secs_pos _ Hd). assert (0 < INR (j - i)) by (apply lt_0_INR; lia). nra.
Qed.
Definition onset_index (t : mtrace) : nat := Z.to_nat ((x_onset t - x_start t) / x_delta t).
Lemma onset_index_spec t : (0 < x_delta t)%Z -> onset_inside t -> x_data t <> [] ->
  (onset_index t < length (x_data t))%nat /\ - secs (x_delta t) < rel_time t (onset_index t) <= 0.
Proof.
  intros Hd [H1 H2] Hne. unfold onset_index, x_end in *.
  assert (1 <= length (x_data t))%nat by (destruct (x_data t); [congruence | cbn; lia]).
  destruct (Nat.eqb_spec (length (x_data t)) 0); [lia|].
  pose proof (Z.div_mod (x_onset t - x_start t) (x_delta t) ltac:(lia)) as E.
  pose proof (Z.mod_pos_bound (x_onset t - x_start t) (x_delta t) Hd) as B.
  set (q := ((x_onset t - x_start t) / x_delta t)%Z) in *. 
  assert (0 <= q)%Z by (apply Z.div_pos; lia).
  assert (q <= Z.of_nat (length (x_data t)) - 1)%Z by (apply Z.div_le_upper_bound; lia).
  split; [lia|]. unfold rel_time. rewrite Z2Nat.id by lia. unfold secs.
  assert (- x_delta t < x_start t - x_onset t + q * x_delta t <= 0)%Z as [A C] by lia.
  apply IZR_lt in A. apply IZR_le in C. rewrite opp_IZR in A. lra.
Qed.
Definition first_moved (t : mtrace) (t0 t1 : list R) : nat :=
  if Rlt_dec (last t1 0) (last t0 0) then S (onset_index t) else onset_index t.
Definition moved_times (t : mtrace) (k0 : nat) (t0 t1 : list R) : list R :=
  map (fun j => interp1 (Some 0) None (combine t0 t1) (rel_time t (k0 + j))) (seq 0 (length (x_data t) - k0)).
(** for tables in any order *)
Theorem move_forward_any t t0 t1 : t0 <> [] -> length t0 = length t1 ->
  let k0 := first_moved t t0 t1 in
  (k0 < length (x_data t))%nat ->
  exists d mt, move_forward t (onset_index t) t0 t1 = Ok d /\ length d = length (x_data t) /\
    (forall k, (k < k0)%nat -> nth k d 0 = nth k (x_data t) 0) /\
    length mt = (length (x_data t) - k0)%nat /\
    (forall a, In a mt -> exists x g, a = interp_value (Some 0) None t0 t1 x (search x t0 g)) /\
    (increasing t0 -> mt = moved_times t k0 t0 t1) /\
    (forall k, (k0 <= k < length (x_data t))%nat -> exists g,
       nth k d 0 = interp_value None (Some 0) mt (skipn k0 (x_data t)) (rel_time t k) (search (rel_time t k) mt g)).
Proof.
  intros Hne Hl k0 Hk0. unfold move_forward. destruct t0 as [|a t0]; [congruence|]. destruct t1 as [|b t1]; [cbn in Hl; lia|].
  fold (first_moved t (a :: t0) (b :: t1)). fold k0.
  set (ts := map _ (seq 0 (length (x_data t) - k0))).
  assert (ts = map (fun j => rel_time t (k0 + j)) (seq 0 (length (x_data t) - k0))) as Ets.
  { unfold ts. apply map_ext. intros j. rewrite rel_time_plus. reflexivity. }
  assert (length ts = (length (x_data t) - k0)%nat) as Lts by (rewrite Ets, map_length, seq_length; reflexivity).
  rewrite np_interp_any by (try discriminate; lia). cbn [bind].
  set (mt := interp_walk (Some 0) None (a :: t0) (b :: t1) 0 ts).
  assert (length mt = (length (x_data t) - k0)%nat) as Lm by (unfold mt; rewrite interp_walk_length; exact Lts).
  rewrite np_interp_any; [| rewrite skipn_length; lia | intros E; rewrite E in Lm; cbn in Lm; lia]. cbn [bind].
  eexists. exists mt. split; [reflexivity|].
  assert (length (firstn k0 (x_data t)) = k0) as Lf by (rewrite firstn_length; lia).
  split; [|split; [|split; [exact Lm | split; [|split]]]].
  - rewrite app_length, Lf, interp_walk_length, Lts. lia.
  - intros k Hk. rewrite app_nth1 by lia. rewrite <- (firstn_skipn k0 (x_data t)) at 2. rewrite app_nth1 by lia. reflexivity.
  - intros v Hv. exact (interp_walk_in _ _ _ _ _ _ _ Hv).
  - intros Hi. unfold mt. rewrite interp_walk_sorted by (try discriminate; try exact Hi; cbn in *; lia). rewrite Ets, map_map. reflexivity.
  - intros k Hk. rewrite app_nth2 by lia. rewrite Lf.
    destruct (interp_walk_nth None (Some 0) mt (skipn k0 (x_data t)) ts 0 (k - k0)%nat ltac:(lia)) as [g Eg]. exists g. rewrite Eg.
    replace (nth (k - k0) ts 0) with (rel_time t k); [reflexivity|].
    rewrite Ets. rewrite (nth_map_in _ _ (k - k0) 0%nat) by (rewrite seq_length; lia).
    rewrite seq_nth by lia. f_equal. lia.
Qed.
(** tables in increasing order *)
Theorem move_forward_spec t t0 t1 : t0 <> [] -> length t0 = length t1 -> increasing t0 ->
  let k0 := first_moved t t0 t1 in
  (k0 < length (x_data t))%nat -> increasing (moved_times t k0 t0 t1) ->
  exists d, move_forward t (onset_index t) t0 t1 = Ok d /\ length d = length (x_data t) /\
    (forall k, (k < k0)%nat -> nth k d 0 = nth k (x_data t) 0) /\
    (forall k, (k0 <= k < length (x_data t))%nat ->
       nth k d 0 = interp1 None (Some 0) (combine (moved_times t k0 t0 t1) (skipn k0 (x_data t))) (rel_time t k)).
Proof.
  intros Hne Hl Hi k0 Hk0 Hm. destruct (move_forward_any t t0 t1 Hne Hl Hk0) as (d & mt & E & L & Hb & Lm & _ & Em & Ha).
  specialize (Em Hi). fold k0 in Em, Lm, Hb, Ha. subst mt. exists d. split; [exact E|]. split; [exact L|]. split; [exact Hb|].
  intros k Hk. destruct (Ha k Hk) as [g ->]. apply interp_value_sorted; [rewrite skipn_length; lia | intros E0; rewrite E0 in Lm; cbn in Lm; lia | exact Hm].
Qed.
(** the last sample is the onset and would be the first one moved *)
Lemma move_forward_empty t t0 t1 : t0 <> [] -> length t0 = length t1 -> first_moved t t0 t1 = length (x_data t) ->
  move_forward t (onset_index t) t0 t1 = Err ValueError.
Proof.
  intros Hne Hl Hk. unfold move_forward. destruct t0 as [|a t0]; [congruence|]. destruct t1 as [|b t1]; [cbn in Hl; lia|].
  fold (first_moved t (a :: t0) (b :: t1)). rewrite Hk, Nat.sub_diag. cbn [seq map].
  rewrite np_interp_any by (try discriminate; lia). cbn [bind interp_walk]. unfold np_interp. rewrite skipn_all. reflexivity.
Qed.
Lemma moved_times_nth t k0 t0 t1 j : (j < length (x_data t) - k0)%nat ->
  nth j (moved_times t k0 t0 t1) 0 = interp1 (Some 0) None (combine t0 t1) (rel_time t (k0 + j)).
Proof. intros H. unfold moved_times. rewrite (nth_map_in _ _ j 0%nat) by (rewrite seq_length; lia). rewrite seq_nth by lia. reflexivity. Qed.
Lemma moved_times_length t k0 t0 t1 : length (moved_times t k0 t0 t1) = (length (x_data t) - k0)%nat.
Proof. unfold moved_times. rewrite map_length, seq_length. reflexivity. Qed.

(** moved sample times are in increasing order *)
Lemma moved_times_incr t k0 t0 t1 : (0 < x_delta t)%Z -> - secs (x_delta t) < rel_time t k0 ->
  length t0 = length t1 -> t0 <> [] -> increasing t0 -> increasing t1 -> nth 0 t0 0 <= 0 -> 
  (forall x, 0 <= x -> nth 0 t0 0 <= x -> 0 <= interp1 (Some 0) None (combine t0 t1) x) ->
  increasing (moved_times t k0 t0 t1).
Proof.
  intros Hd Hr Hl Hne H0 H1 Hf Hpos i j Hij Hj. rewrite moved_times_length in Hj. rewrite !moved_times_nth by lia.
  destruct (Nat.eq_dec i j) as [->|Hnij]; [lra|].
  pose proof (rel_time_mono t (k0 + i) (k0 + j) Hd ltac:(lia)) as Hm.
  assert (0 <= rel_time t (k0 + j)) as Hj0.
  { replace (k0 + j)%nat with (k0 + 1 + (j - 1))%nat by lia. rewrite rel_time_plus, rel_time_plus.
    pose proof (secs_pos _ Hd). pose proof (pos_INR (j - 1)). cbn [INR]. nra. }
  destruct (Rlt_dec (rel_time t (k0 + i)) (nth 0 t0 0)) as [Hlt|Hge].
  - rewrite (interp1_left _ _ (rel_time t (k0 + i)) t0 t1) by (try assumption; lia). cbn. apply Hpos; lra.
  - apply interp1_mono; try assumption; try lia; try lra. reflexivity.
Qed.

(** ** interpolation without order of the nodes *)
Lemma interp_go_beyond r x : forall rest a fa, a < x -> (forall b fb, In (b, fb) rest -> b < x) ->
  interp_go (Some r) x a fa rest = r.
Proof.
  induction rest as [|[b fb] rest IH]; intros a fa Ha H; cbn [interp_go].
  - destruct (Req_EM_T x a); [lra|]. reflexivity.
  - pose proof (H b fb ltac:(left; reflexivity)) as Hb. destruct (Rle_dec b x); [|lra].
    apply IH; [exact Hb | intros b0 fb0 H0; apply (H b0 fb0); right; exact H0].
Qed.
Lemma interp1_beyond left r x xp fp : xp <> [] -> length fp = length xp -> (forall a, In a xp -> a < x) ->
  interp1 left (Some r) (combine xp fp) x = r.
Proof.
  intros Hne Hl H. destruct xp as [|a xp]; [congruence|]. destruct fp as [|fa fp]; [cbn in Hl; lia|]. cbn.
  pose proof (H a ltac:(left; reflexivity)). destruct (Rlt_dec x a); [lra|]. apply interp_go_beyond; [assumption|].
  intros b fb Hb. apply in_combine_l in Hb. apply H. right. exact Hb.
Qed.
(** lower bound by a node to the left *)
Lemma interp1_ge_node left xp fp x p : length fp = length xp -> incr xp -> incr fp -> (p < length xp)%nat ->
  nth p xp 0 <= x -> nth p fp 0 <= interp1 left None (combine xp fp) x.
Proof.
  intros Hl Hx Hf Hp Hpx. assert (xp <> []) as Hne by (destruct xp; [cbn in Hp; lia | discriminate]).
  assert (nth 0 xp 0 <= x) by (pose proof (Hx 0%nat p ltac:(lia) Hp); lra).
  destruct (locate xp x Hne Hx H) as (j & A & B & C).
  assert (p <= j)%nat as Hpj.
  { destruct (Nat.le_gt_cases p j); [assumption|]. specialize (C ltac:(lia)). pose proof (Hx (S j) p ltac:(lia) Hp). lra. }
  rewrite (interp1_at left None x j xp fp Hl Hx A B C).
  pose proof (Hf p j Hpj ltac:(lia)) as Hpf. destruct (Req_EM_T x (nth j xp 0)); [lra|].
  destruct (Nat.ltb_spec (S j) (length xp)) as [Hj|Hj].
  - specialize (C Hj). pose proof (Hf j (S j) ltac:(lia) ltac:(lia)) as Hff.
    assert (0 <= (nth (S j) fp 0 - nth j fp 0) / (nth (S j) xp 0 - nth j xp 0) * (x - nth j xp 0)).
    { apply Rmult_le_pos; [|lra]. apply Rmult_le_pos; [lra|]. apply Rlt_le, Rinv_0_lt_compat. lra. }
    lra.
  - lra.
Qed.

(** ** phases *)
Lemma length_upper s : String.length (upper s) = String.length s.
Proof. induction s as [|a s IH]; cbn; [reflexivity|]. rewrite IH. reflexivity. Qed.
Lemma forward_not_multiple phase : forward phase -> s_multiple phase = false.
Proof.
  intros H. unfold s_multiple. destruct (forward_cases phase H) as [(u & -> & _)|E]; [reflexivity|].
  rewrite E, <- length_upper, E. reflexivity.
Qed.
Lemma onset_check t : onset_inside t <-> negb ((x_start t <=? x_onset t)%Z && (x_onset t <=? x_end t)%Z) = false.
Proof. unfold onset_inside. rewrite Bool.negb_false_iff, andb_true_iff, !Z.leb_le. tauto. Qed.

(** ** one trace *)
Section T.
  Variable deg2km : R.
  Variable m : smodel.
  Hypothesis Hv : valid_model m.
  Hypothesis Hsl : s_slower m.
  Variable phase : string.
  Hypothesis Hps : ps_phase phase.
  Hypothesis Hfw : forward phase.
  Hypothesis Hev : Nat.even (String.length phase) = true.
  Variable ref : R.
  Hypothesis Hcons : consistent deg2km m ref.
  Variable t : mtrace.
  Hypothesis Hd : (0 < x_delta t)%Z.
  Hypothesis Hon : onset_inside t.
  Hypothesis Hne : x_data t <> [].
  Variable c : nat.
  Hypothesis Hc : (1 <= c)%nat.
  Hypothesis Hu : used_layers deg2km m (x_slow t) phase c.
  Hypothesis Hr : propagates_to deg2km m ref phase c.

  Definition tables l0 l1 : Prop := oriented deg2km m (x_slow t) phase c l0 /\ oriented deg2km m ref phase c l1.
  Theorem moveout_tables : exists m' l0 l1, tables l0 l1 /\ same_layers m m' /\ consistent deg2km m' ref /\ (c <= layers m)%nat /\
    moveout_trace deg2km m phase ref t = (m', let! d := move_forward t (onset_index t) (tab l0) (tab l1) in Ok (with_data t d)).
  Proof.
    destruct (stretch_tables deg2km m (x_slow t) phase ref c Hv Hps Hev Hu Hr Hcons) as (m' & l0 & l1 & E & S1 & S2 & S3 & O0 & O1).
    exists m', l0, l1. split; [split; assumption|]. repeat (split; [assumption|]).
    unfold moveout_trace. rewrite (proj1 (onset_check t) Hon). rewrite E, !finite_some, (forward_not_multiple phase Hfw). reflexivity.
  Qed.
  Lemma oriented_nonempty s l : oriented deg2km m s phase c l -> l <> [].
  Proof. intros [L _] ->. cbn in L. lia. Qed.
  Lemma oriented_last s l : oriented deg2km m s phase c l -> is_delay deg2km m s phase (c - 1) (sgn_phase phase * last l 0).
  Proof. intros [L H]. rewrite last_nth_R, L by (intros ->; cbn in L; lia). apply H. lia. Qed.
  Lemma table_facts s l : (c <= layers m)%nat -> oriented deg2km m s phase c l ->
    increasing (tab l) /\ tab l <> [] /\ last (tab l) 0 = last l 0 /\ 0 <= last l 0 /\ (forall x, In x (tab l) -> x <= last l 0).
  Proof.
    intros Hcl H. pose proof (oriented_nonempty s l H) as Hn. destruct (oriented_incr deg2km m s phase c l Hv Hsl Hps Hfw Hcl H) as [Hi Hp].
    pose proof (tab_incr l Hi Hp) as Hti. split; [exact Hti|]. split; [apply tab_nonempty, Hn|]. split; [apply tab_last, Hn|].
    split. { apply Hp. destruct (exists_last Hn) as (l' & x & ->). rewrite last_last. apply in_app_iff. right. left. reflexivity. }
    intros x Hx. rewrite <- (tab_last l Hn). destruct (In_nth _ _ 0 Hx) as (k & Hk & <-). apply nth_last_le; assumption.
  Qed.
End T.
