From Verif Require Import Model.SimpleModel Spec.ModelSpec Proofs.PyFacts Proofs.SumFacts Proofs.InterpFacts.
From Coq Require Import Lra Lia.
Notation length := List.length.
Open Scope R_scope.

(** ** interpolation of the model *)
Lemma knot_cons n0 n1 ns i : knot (n0 :: n1 :: ns) (S i) = (n1 + 1 + knot (n1 :: ns) i)%nat.
Proof.
  induction i as [|i IH]; [cbn; lia|].
  change (knot (n0 :: n1 :: ns) (S (S i))) with (knot (n0 :: n1 :: ns) (S i) + nth (S (S i)) (n0 :: n1 :: ns) 0 + 1)%nat.
  rewrite IH. change (knot (n1 :: ns) (S i)) with (knot (n1 :: ns) i + nth (S i) (n1 :: ns) 0 + 1)%nat. cbn [nth]. lia.
Qed.
Lemma linspace_length a b k : length (linspace a b k) = k.
Proof. unfold linspace. rewrite map_length, seq_length. reflexivity. Qed.
Lemma linspace_nth a b k i : (i < k)%nat -> nth i (linspace a b k) 0 = a + INR i * ((b - a) / INR k).
Proof.
  intros H. unfold linspace. set (f := fun k0 => a + INR k0 * ((b - a) / INR k)).
  rewrite (nth_indep _ 0 (f 0%nat)) by (rewrite map_length, seq_length; exact H).
  rewrite map_nth, seq_nth by exact H. reflexivity.
Qed.
Theorem interpolate_spec val : forall n, val <> [] -> (length val <= length n)%nat ->
  exists r, interpolate_n val n = Ok r /\ length r = (knot n (length val - 1) + 1)%nat /\
    (forall i k, (S i < length val)%nat -> (k <= nth (S i) n 0%nat)%nat ->
       nth (knot n i + k) r 0 = nth i val 0 + INR k / INR (nth (S i) n 0%nat + 1) * (nth (S i) val 0 - nth i val 0)) /\
    nth (knot n (length val - 1)) r 0 = nth (length val - 1) val 0.
Proof.
  induction val as [|a val IH]; [congruence|]. intros n _ Hn. destruct val as [|b val].
  - exists [a]. split; [reflexivity|]. cbn. split; [reflexivity|]. split; [intros; lia | reflexivity].
  - destruct n as [|n0 [|n1 ns]]; try (cbn in Hn; lia).
    destruct (IH (n1 :: ns)) as (r & E & L & K & La); [discriminate | cbn in *; lia|].
    exists (linspace a b (n1 + 1) ++ r).
    change (interpolate_n (a :: b :: val) (n0 :: n1 :: ns)) with (let! l := interpolate_n (b :: val) (n1 :: ns) in Ok (linspace a b (n1 + 1) ++ l)).
    rewrite E. cbn [bind]. split; [reflexivity|].
    cbn [List.length] in *. replace (S (length val) - 1)%nat with (length val) in * by lia.
    replace (S (S (length val)) - 1)%nat with (S (length val)) by lia.
    rewrite knot_cons. split; [|split].
    + rewrite app_length, linspace_length, L. lia.
    + intros [|i] k Hi Hk.
      * cbn [knot nth] in *. rewrite Nat.add_0_l. rewrite app_nth1 by (rewrite linspace_length; lia). rewrite linspace_nth by lia.
        unfold Rdiv. ring.
      * rewrite knot_cons. rewrite app_nth2 by (rewrite linspace_length; lia). rewrite linspace_length.
        replace (n1 + 1 + knot (n1 :: ns) i + k - (n1 + 1))%nat with (knot (n1 :: ns) i + k)%nat by lia.
        cbn [nth] in *. apply K; lia.
    + rewrite app_nth2 by (rewrite linspace_length; lia). rewrite linspace_length.
      replace (n1 + 1 + knot (n1 :: ns) (length val) - (n1 + 1))%nat with (knot (n1 :: ns) (length val)) by lia.
      cbn [nth]. exact La.
Qed.
Lemma incr_app l1 l2 : increasing l1 -> increasing l2 -> (forall x y, In x l1 -> In y l2 -> x <= y) -> increasing (l1 ++ l2).
Proof.
  intros H1 H2 H i j Hij Hj. rewrite app_length in Hj.
  destruct (Nat.lt_ge_cases j (length l1)) as [Hj1|Hj1].
  - rewrite !app_nth1 by lia. apply H1; lia.
  - rewrite (app_nth2 l1 l2 0 Hj1). destruct (Nat.lt_ge_cases i (length l1)).
    + rewrite app_nth1 by lia. apply H; apply nth_In; lia.
    + rewrite app_nth2 by lia. apply H2; lia.
Qed.
Lemma linspace_between a b k x : a <= b -> In x (linspace a b k) -> a <= x <= b.
Proof.
  intros Hab Hx. unfold linspace in Hx. apply in_map_iff in Hx. destruct Hx as (i & <- & Hi). apply in_seq in Hi.
  assert (0 < INR k) by (apply lt_0_INR; lia). assert (0 <= INR i <= INR k) by (split; [apply pos_INR | apply le_INR; lia]).
  set (l := INR i / INR k). replace (INR i * ((b - a) / INR k)) with (l * (b - a)) by (unfold l; field; lra).
  assert (0 <= l <= 1).
  { unfold l. split; [apply Rmult_le_pos; [lra | left; apply Rinv_0_lt_compat; lra]|].
    apply (Rmult_le_reg_r (INR k)); [lra|]. unfold Rdiv. rewrite Rmult_assoc, Rinv_l by lra. lra. }
  split; nra.
Qed.
Lemma linspace_incr a b k : a <= b -> increasing (linspace a b k).
Proof.
  intros Hab i j Hij Hj. rewrite linspace_length in Hj. rewrite !linspace_nth by lia.
  apply Rplus_le_compat_l, Rmult_le_compat_r; [|apply le_INR; exact Hij].
  apply Rmult_le_pos; [lra|]. left. apply Rinv_0_lt_compat, lt_0_INR. lia.
Qed.
Theorem interpolate_incr val : forall n r, increasing val -> interpolate_n val n = Ok r ->
  increasing r /\ nth 0 r 0 = nth 0 val 0 /\ (forall x, In x r -> nth 0 val 0 <= x).
Proof.
  induction val as [|a val IH]; intros n r Hv E; [discriminate|]. destruct val as [|b val].
  - cbn in E. inversion E. split; [exact Hv|]. split; [reflexivity|]. intros x [<-|[]]. cbn. lra.
  - destruct n as [|n0 [|n1 ns]]; try discriminate.
    change (interpolate_n (a :: b :: val) (n0 :: n1 :: ns)) with (let! l := interpolate_n (b :: val) (n1 :: ns) in Ok (linspace a b (n1 + 1) ++ l)) in E.
    destruct (interpolate_n (b :: val) (n1 :: ns)) as [l|] eqn:El; cbn [bind] in E; [|discriminate]. inversion E; subst r.
    assert (a <= b) as Hab by (apply (Hv 0%nat 1%nat); cbn; lia).
    destruct (IH (n1 :: ns) l) as (A & B & D); [intros i j Hij Hj; apply (Hv (S i) (S j)); cbn in *; lia | exact El|].
    cbn [nth] in *. split; [|split].
    + apply incr_app; [apply linspace_incr, Hab | exact A|]. intros x y Hx Hy.
      pose proof (linspace_between a b _ x Hab Hx). specialize (D y Hy). lra.
    + rewrite app_nth1 by (rewrite linspace_length; lia). rewrite linspace_nth by lia. cbn. ring.
    + intros x Hx. apply in_app_iff in Hx. destruct Hx as [Hx|Hx]; [apply (linspace_between a b _ x Hab Hx)|].
      specialize (D x Hx). lra.
Qed.

(** ** lists *)
Lemma diff_length l : length (diff l) = (length l - 1)%nat.
Proof. induction l as [|a [|b l] IH]; [reflexivity | reflexivity|]. change (diff (a :: b :: l)) with (b - a :: diff (b :: l)). cbn [List.length] in *. rewrite IH. lia. Qed.
Lemma diff_nth l i : (S i < length l)%nat -> nth i (diff l) 0 = nth (S i) l 0 - nth i l 0.
Proof.
  revert i. induction l as [|a [|b l] IH]; intros i Hi; [cbn in Hi; lia | cbn in Hi; lia|].
  change (diff (a :: b :: l)) with (b - a :: diff (b :: l)). destruct i as [|i]; [reflexivity|].
  change (nth i (diff (b :: l)) 0 = nth (S i) (b :: l) 0 - nth i (b :: l) 0). apply IH. cbn in *. lia.
Qed.
Lemma removelast_length {A} (l : list A) : length (removelast l) = (length l - 1)%nat.
Proof. induction l as [|a [|b l] IH]; [reflexivity | reflexivity|]. change (removelast (a :: b :: l)) with (a :: removelast (b :: l)). cbn [List.length] in *. rewrite IH. lia. Qed.
Lemma removelast_nth {A} (l : list A) i d : (S i < length l)%nat -> nth i (removelast l) d = nth i l d.
Proof.
  revert i. induction l as [|a [|b l] IH]; intros i Hi; [cbn in Hi; lia | cbn in Hi; lia|].
  change (removelast (a :: b :: l)) with (a :: removelast (b :: l)). destruct i as [|i]; [reflexivity|]. cbn [nth]. apply IH. cbn in *. lia.
Qed.
Lemma zipw3_length {A B C D} (f : A -> B -> C -> D) a : forall b c, length b = length a -> length c = length a ->
  length (zipw3 f a b c) = length a.
Proof. induction a as [|x a IH]; intros [|y b] [|z c] H1 H2; try (cbn in *; lia); try reflexivity. cbn in *. rewrite IH; lia. Qed.
Lemma zipw3_nth {A B C D} (f : A -> B -> C -> D) da db dc dd a : forall b c i, length b = length a -> length c = length a ->
  (i < length a)%nat -> nth i (zipw3 f a b c) dd = f (nth i a da) (nth i b db) (nth i c dc).
Proof.
  induction a as [|x a IH]; intros [|y b] [|z c] [|i] H1 H2 Hi; try (cbn in *; lia); [reflexivity|].
  cbn in *. apply IH; lia.
Qed.
Lemma nth_map_in {A B} (f : A -> B) l i d d' : (i < length l)%nat -> nth i (map f l) d' = f (nth i l d).
Proof. intros H. rewrite (nth_indep _ d' (f d)) by (rewrite map_length; exact H). apply map_nth. Qed.

(** ** cumulative sums *)
Lemma cumsum_from_length l : forall acc, length (cumsum_from acc l) = length l.
Proof. induction l as [|x l IH]; intros acc; cbn; [reflexivity|]. rewrite IH. reflexivity. Qed.
Lemma cumsum_from_none l : forall i, nth i (cumsum_from None l) None = None.
Proof. induction l as [|x l IH]; intros [|i]; cbn; try reflexivity. apply IH. Qed.
Lemma cumsum_from_ok l : forall a i f, (i < length l)%nat -> (forall j, (j <= i)%nat -> nth j l None = Some (f j)) ->
  nth i (cumsum_from (Some a) l) None = Some (a + rsum (S i) f).
Proof.
  induction l as [|x l IH]; intros a i f Hi Hf; [cbn in Hi; lia|]. cbn [cumsum_from].
  pose proof (Hf 0%nat ltac:(lia)) as H0. cbn in H0. subst x. cbn [olift2]. destruct i as [|i].
  - cbn. f_equal. ring.
  - cbn [nth]. rewrite (IH _ i (fun j => f (S j))); [|cbn in Hi; lia|].
    + rewrite (rsum_S_l (S i) f). f_equal. ring.
    + intros j Hj. specialize (Hf (S j) ltac:(lia)). exact Hf.
Qed.
Lemma cumsum_from_bad l : forall a i j, (j <= i)%nat -> (i < length l)%nat -> nth j l None = None ->
  nth i (cumsum_from a l) None = None.
Proof.
  induction l as [|x l IH]; intros a i j Hj Hi Hn; [cbn in Hi; lia|]. cbn [cumsum_from]. destruct j as [|j].
  - cbn in Hn. subst x. destruct a; cbn [olift2]; (destruct i; [reflexivity | apply cumsum_from_none]).
  - destruct i as [|i]; [lia|]. cbn [nth] in *. apply (IH _ i j); [lia | cbn in Hi; lia | exact Hn].
Qed.
Lemma cumsum_length l : length (cumsum l) = length l. Proof. apply cumsum_from_length. Qed.
Lemma cumsum_ok l i f : (i < length l)%nat -> (forall j, (j <= i)%nat -> nth j l None = Some (f j)) ->
  nth i (cumsum l) None = Some (rsum (S i) f).
Proof. intros Hi Hf. unfold cumsum. rewrite (cumsum_from_ok l 0 i f Hi Hf). f_equal. ring. Qed.
Lemma cumsum_bad l i j : (j <= i)%nat -> (i < length l)%nat -> nth j l None = None -> nth i (cumsum l) None = None.
Proof. apply cumsum_from_bad. Qed.

(** ** vertical slowness *)
Lemma qvert_some v h q : 0 < v -> (qvert v h = Some q <-> snell v h q).
Proof.
  intros Hv. unfold qvert, snell. destruct (Rle_dec 0 ((/ v) ^ 2 - h ^ 2)) as [H|H].
  - split.
    + intros E. inversion E. split; [apply sqrt_pos|]. rewrite sqrt_sqrt by exact H. ring.
    + intros [Hq E]. f_equal. replace ((/ v) ^ 2 - h ^ 2) with (q * q) by (cbn; lra). apply sqrt_square, Hq.
  - split; [discriminate|]. intros [Hq E]. exfalso. apply H. assert (0 <= q * q) by apply Rle_0_sqr. cbn. lra.
Qed.
Lemma qvert_none v h : 0 < v -> (qvert v h = None <-> evanescent v h).
Proof.
  intros Hv. unfold qvert, evanescent. assert (0 < / v) by (apply Rinv_0_lt_compat, Hv).
  assert (h ^ 2 = Rabs h * Rabs h) as Eh. { rewrite <- Rabs_mult. rewrite Rabs_pos_eq by apply Rle_0_sqr. ring. }
  pose proof (Rabs_pos h). rewrite Eh. destruct (Rle_dec 0 ((/ v) ^ 2 - Rabs h * Rabs h)) as [E|E]; cbn in E.
  - split; [discriminate|]. intros Hlt. exfalso. nra.
  - split; [|reflexivity]. intros _. apply Rnot_le_lt. intros Hle. apply E. nra.
Qed.
Lemma qvert_dec v h : 0 < v -> (exists q, snell v h q /\ qvert v h = Some q) \/ (evanescent v h /\ qvert v h = None).
Proof.
  intros Hv. destruct (qvert v h) as [q|] eqn:E.
  - left. exists q. split; [apply qvert_some; assumption | reflexivity].
  - right. split; [apply qvert_none; assumption | reflexivity].
Qed.
Lemma snell_unique v h q q' : snell v h q -> snell v h q' -> q = q'.
Proof. intros [A B] [A' B']. apply Rsqr_inj; try assumption. unfold Rsqr. lra. Qed.
Lemma snell_mono v v' h q q' : 0 < v -> v <= v' -> snell v h q -> snell v' h q' -> q' <= q.
Proof.
  intros Hv Hvv [A B] [A' B']. apply Rsqr_incr_0_var; [|exact A]. unfold Rsqr.
  assert (/ v' <= / v) by (apply Rinv_le_contravar; assumption). assert (0 < / v') by (apply Rinv_0_lt_compat; lra).
  assert (/ v' * / v' <= / v * / v) by (apply Rmult_le_compat; lra). lra.
Qed.
Lemma evanescent_mono v v' h : 0 < v -> v <= v' -> evanescent v h -> evanescent v' h.
Proof. unfold evanescent. intros Hv Hvv H. assert (/ v' <= / v) by (apply Rinv_le_contravar; assumption). lra. Qed.
Lemma snell_not_evan v h q : 0 < v -> snell v h q -> ~ evanescent v h.
Proof. intros Hv H1 H2. apply qvert_some in H1; [|exact Hv]. apply qvert_none in H2; [|exact Hv]. congruence. Qed.

Lemma upper_idem s : upper (upper s) = upper s.
Proof.
  induction s as [|a s IH]; cbn; [reflexivity|]. rewrite IH. f_equal.
  unfold upper_char. destruct ((97 <=? nat_of_ascii a)%nat && (nat_of_ascii a <=? 122)%nat) eqn:E; [|rewrite E; reflexivity].
  apply andb_true_iff in E. destruct E as [E1 E2]. apply Nat.leb_le in E1. apply Nat.leb_le in E2.
  rewrite nat_ascii_embedding by lia. destruct (Nat.leb_spec 97 (nat_of_ascii a - 32)); [lia|]. reflexivity.
Qed.

Section M.
  Variable deg2km : R.
  Variable m : smodel.
  Hypothesis Hm : valid_model m.

  Lemma vslow_ok s phase : exists qp qs, vertical_slowness deg2km m s phase = Ok (qp, qs) /\
    length qp = layers m /\ length qs = layers m /\
    (forall j, (j < layers m)%nat ->
       nth j qp None = (if char_in "P" (upper phase) then qvert (nth j (mvp m) 0) (s / deg2km) else Some 0) /\
       nth j qs None = (if char_in "S" (upper phase) then qvert (nth j (mvs m) 0) (s / deg2km) else Some 0)).
  Proof.
    destruct Hm as (Ha & Hz & Hp & Hs & _). unfold vertical_slowness. rewrite Ha. cbn [negb]. rewrite andb_false_r.
    eexists. eexists. split; [reflexivity|]. repeat split.
    - destruct (char_in "P" (upper phase)); rewrite map_length; [exact Hp | reflexivity].
    - destruct (char_in "S" (upper phase)); rewrite map_length; [exact Hs | reflexivity].
    - destruct (char_in "P" (upper phase)).
      + rewrite (nth_map_in (fun v => qvert v (s / deg2km)) (mvp m) j 0) by lia. reflexivity.
      + rewrite (nth_map_in (fun _ => Some 0) (mdz m) j 0) by exact H. reflexivity.
    - destruct (char_in "S" (upper phase)).
      + rewrite (nth_map_in (fun v => qvert v (s / deg2km)) (mvs m) j 0) by lia. reflexivity.
      + rewrite (nth_map_in (fun _ => Some 0) (mdz m) j 0) by exact H. reflexivity.
  Qed.

  (** entry j before summation *)
  Definition dt_entry (c : ascii) (ph : string) (p s : option R) (dz : R) : option R :=
    oscale dz (olift2 Rminus (olift2 Rplus (oscale (INR (count_char "P" ph)) p) (oscale (INR (count_char "S" ph)) s))
                             (oscale 2 (if Ascii.eqb c "P" then p else s))).
  Lemma count_zero ch st : char_in ch st = false -> count_char ch st = 0%nat.
  Proof. induction st as [|a st IH]; cbn; [reflexivity|]. destruct (Ascii.eqb ch a); cbn; [discriminate | exact IH]. Qed.
  Lemma first_is_P c u {A} (x y : A) : match String c u with String "P" _ => x | _ => y end = if Ascii.eqb c "P" then x else y.
  Proof. destruct (Ascii.eqb_spec c "P") as [->|Hc]; [reflexivity|]. destruct c as [[] [] [] [] [] [] [] []]; try reflexivity. congruence. Qed.
  Notation evan_layer := (evan_layer deg2km m).
  Definition snell_layer s phase j qp qs :=
    (char_in "P" (upper phase) = true -> snell (nth j (mvp m) 0) (s / deg2km) qp) /\
    (char_in "S" (upper phase) = true -> snell (nth j (mvs m) 0) (s / deg2km) qs).
  Lemma layer_dec s phase j : (j < layers m)%nat -> (exists qp qs, snell_layer s phase j qp qs) \/ evan_layer s phase j.
  Proof.
    intros Hj. destruct Hm as (_ & _ & _ & _ & Hv). destruct (Hv j Hj) as (V1 & V2 & _).
    unfold snell_layer, ModelSpec.evan_layer.
    destruct (qvert_dec _ (s / deg2km) V1) as [(q1 & A1 & _)|[A1 _]]; destruct (qvert_dec _ (s / deg2km) V2) as [(q2 & A2 & _)|[A2 _]];
      destruct (char_in "P" (upper phase)); destruct (char_in "S" (upper phase));
      try (right; tauto); left.
    all: try (exists q1, q2; tauto). 
    - exists q1, 0. split; [tauto | discriminate].
    - exists q1, 0. split; [tauto | discriminate].
    - exists 0, q2. split; [discriminate | tauto].
    - exists 0, q2. split; [discriminate | tauto].
    - exists 0, 0. split; discriminate.
  Qed.
  Lemma snell_layer_unique s phase j qp qs qp' qs' : snell_layer s phase j qp qs -> snell_layer s phase j qp' qs' ->
    (char_in "P" (upper phase) = true -> qp = qp') /\ (char_in "S" (upper phase) = true -> qs = qs').
  Proof. intros [A B] [A' B']. split; intros H; [eapply snell_unique; [apply A | apply A'] | eapply snell_unique; [apply B | apply B']]; exact H. Qed.
  Lemma layer_delay_ext phase p s p' s' dz : ps_phase phase ->
    (char_in "P" (upper phase) = true -> p = p') -> (char_in "S" (upper phase) = true -> s = s') ->
    layer_delay phase p s dz = layer_delay phase p' s' dz.
  Proof.
    intros [Hne Hps] HP HS. unfold layer_delay. destruct (upper phase) as [|c u] eqn:Eu; [destruct phase; [congruence | discriminate]|].
    assert (char_in c (String c u) = true) as Hc by (cbn; rewrite Ascii.eqb_refl; reflexivity).
    rewrite !(first_is_P c u). destruct (Hps c Hc) as [->| ->].
    - rewrite (HP eq_refl). cbn [Ascii.eqb Bool.eqb]. destruct (char_in "S" (String "P" u)) eqn:ES; [rewrite HS by reflexivity; reflexivity|].
      rewrite (count_zero "S" _ ES). cbn [INR]. f_equal. change (Ascii.eqb "P" "P") with true. cbv iota. ring.
    - rewrite HS by reflexivity. change (Ascii.eqb "S" "P") with false. cbv iota.
      destruct (char_in "P" (String "S" u)) eqn:EP; [rewrite HP by reflexivity; reflexivity|].
      rewrite (count_zero "P" _ EP). cbn [INR]. f_equal. ring.
  Qed.
  Lemma dt_entry_some phase j qp qs s : ps_phase phase -> (j < layers m)%nat -> snell_layer s phase j qp qs ->
    forall c u, upper phase = String c u ->
    dt_entry c (upper phase) (if char_in "P" (upper phase) then qvert (nth j (mvp m) 0) (s / deg2km) else Some 0)
      (if char_in "S" (upper phase) then qvert (nth j (mvs m) 0) (s / deg2km) else Some 0) (nth j (mdz m) 0)
    = Some (layer_delay phase qp qs (nth j (mdz m) 0)).
  Proof.
    intros Hph Hj [A B] c u Eu. destruct Hm as (_ & _ & _ & _ & Hv). destruct (Hv j Hj) as (V1 & V2 & _).
    assert (exists p' s', (if char_in "P" (upper phase) then qvert (nth j (mvp m) 0) (s / deg2km) else Some 0) = Some p' /\
      (if char_in "S" (upper phase) then qvert (nth j (mvs m) 0) (s / deg2km) else Some 0) = Some s' /\
      (char_in "P" (upper phase) = true -> p' = qp) /\ (char_in "S" (upper phase) = true -> s' = qs)) as (p' & s' & E1 & E2 & E3 & E4).
    { destruct (char_in "P" (upper phase)); destruct (char_in "S" (upper phase)).
      - exists qp, qs. rewrite !(proj2 (qvert_some _ _ _ V1) (A eq_refl)), (proj2 (qvert_some _ _ _ V2) (B eq_refl)). auto.
      - exists qp, 0. rewrite !(proj2 (qvert_some _ _ _ V1) (A eq_refl)). repeat split; auto; discriminate.
      - exists 0, qs. rewrite (proj2 (qvert_some _ _ _ V2) (B eq_refl)). repeat split; auto; discriminate.
      - exists 0, 0. repeat split; auto; discriminate. }
    rewrite E1, E2, (layer_delay_ext phase qp qs p' s') by (try assumption; intros; symmetry; auto).
    unfold dt_entry, layer_delay. rewrite Eu, (first_is_P c u). destruct (Ascii.eqb c "P"); reflexivity.
  Qed.
  Lemma dt_entry_none phase j s : (j < layers m)%nat -> evan_layer s phase j -> forall c u, upper phase = String c u ->
    dt_entry c (upper phase) (if char_in "P" (upper phase) then qvert (nth j (mvp m) 0) (s / deg2km) else Some 0)
      (if char_in "S" (upper phase) then qvert (nth j (mvs m) 0) (s / deg2km) else Some 0) (nth j (mdz m) 0)
    = None.
  Proof.
    intros Hj He c u Eu. destruct Hm as (_ & _ & _ & _ & Hv). destruct (Hv j Hj) as (V1 & V2 & _).
    unfold dt_entry. destruct He as [[E H]|[E H]]; rewrite E; (rewrite (proj2 (qvert_none _ _ V1) H) || rewrite (proj2 (qvert_none _ _ V2) H)).
    - reflexivity.
    - destruct (if char_in "P" (upper phase) then _ else _); destruct (Ascii.eqb c "P"); reflexivity.
  Qed.
  Theorem delay_ok s phase : ps_phase phase -> exists t, delay_times deg2km m s phase = Ok t /\ length t = layers m /\
    (forall i x, (i < layers m)%nat -> (nth i t None = Some x <-> is_delay deg2km m s phase i x)) /\
    (forall i, (i < layers m)%nat -> (nth i t None = None <-> exists j, (j <= i)%nat /\ evan_layer s phase j)).
  Proof.
    intros Hps. unfold delay_times. destruct (vslow_ok s (upper phase)) as (qp & qs & E & Lp & Ls & Hq). rewrite upper_idem in Hq.
    rewrite E. cbn [bind]. destruct (upper phase) as [|c u] eqn:Eu; [destruct Hps as [Hps _]; destruct phase; [congruence | discriminate]|].
    rewrite <- Eu in *. 
    set (z := zipw3 (dt_entry c (upper phase)) qp qs (mdz m)). exists (cumsum z). split; [reflexivity|].
    assert (length z = layers m) as Lz.
    { unfold z. rewrite zipw3_length; unfold layers in *; lia. }
    split; [rewrite cumsum_length; exact Lz|].
    assert (forall j, (j < layers m)%nat -> nth j z None
        = dt_entry c (upper phase) (nth j qp None) (nth j qs None) (nth j (mdz m) 0)) as Hz.
    { intros j Hj. apply zipw3_nth; unfold layers in *; lia. }
    assert (forall i, (i < layers m)%nat -> (exists fp fs, forall j, (j <= i)%nat -> snell_layer s phase j (fp j) (fs j)) \/ (exists j, (j <= i)%nat /\ evan_layer s phase j)) as Hdec.
    { induction i as [|i IH]; intros Hi.
      - destruct (layer_dec s phase 0 Hi) as [(a & b & H)|H]; [left; exists (fun _ => a), (fun _ => b) | right; exists 0%nat; auto].
        intros j Hj. assert (j = 0)%nat as -> by lia. exact H.
      - destruct (IH ltac:(lia)) as [(fp & fs & H)|(j & Hj & H)]; [|right; exists j; split; [lia | exact H]].
        destruct (layer_dec s phase (S i) Hi) as [(a & b & H2)|H2]; [left | right; exists (S i); auto].
        exists (fun j => if (j =? S i)%nat then a else fp j), (fun j => if (j =? S i)%nat then b else fs j).
        intros j Hj. destruct (Nat.eqb_spec j (S i)) as [->|Hne]; [exact H2 | apply H; lia]. }
    assert (forall i fp fs, (i < layers m)%nat -> (forall j, (j <= i)%nat -> snell_layer s phase j (fp j) (fs j)) ->
      nth i (cumsum z) None = Some (rsum (S i) (fun j => layer_delay phase (fp j) (fs j) (nth j (mdz m) 0)))) as Hgood.
    { intros i fp fs Hi Hf. apply cumsum_ok; [lia|]. intros j Hj. rewrite Hz by lia.
      destruct (Hq j ltac:(lia)) as [Q1 Q2]. rewrite Q1, Q2. apply (dt_entry_some phase j _ _ s Hps ltac:(lia) (Hf j Hj) c u Eu). }
    assert (forall i j, (i < layers m)%nat -> (j <= i)%nat -> evan_layer s phase j -> nth i (cumsum z) None = None) as Hbad.
    { intros i j Hi Hj He. apply (cumsum_bad z i j Hj); [lia|]. rewrite Hz by lia. destruct (Hq j ltac:(lia)) as [Q1 Q2].
      rewrite Q1, Q2. apply (dt_entry_none phase j s ltac:(lia) He c u Eu). }
    assert (forall j a b, (j < layers m)%nat -> snell_layer s phase j a b -> ~ evan_layer s phase j) as Hexcl.
    { intros j a b Hj [A B] [[E1 H]|[E1 H]]; destruct Hm as (_ & _ & _ & _ & Hv); destruct (Hv j Hj) as (V1 & V2 & _).
      - exact (snell_not_evan _ _ _ V1 (A E1) H).
      - exact (snell_not_evan _ _ _ V2 (B E1) H). }
    split.
    - intros i x Hi. split.
      + intros Hx. destruct (Hdec i Hi) as [(fp & fs & H)|(j & Hj & H)].
        * rewrite (Hgood i fp fs Hi H) in Hx. inversion Hx. exists fp, fs. split; [exact H | reflexivity].
        * rewrite (Hbad i j Hi Hj H) in Hx. discriminate.
      + intros (fp & fs & H & ->). apply Hgood; assumption.
    - intros i Hi. split.
      + intros Hx. destruct (Hdec i Hi) as [(fp & fs & H)|H]; [|exact H]. rewrite (Hgood i fp fs Hi H) in Hx. discriminate.
      + intros (j & Hj & H). exact (Hbad i j Hi Hj H).
  Qed.

  (** ** sign of the delays *)
  Lemma count_in ch st : char_in ch st = true <-> (1 <= count_char ch st)%nat.
  Proof.
    split.
    - induction st as [|a st IH]; cbn; [discriminate|]. destruct (Ascii.eqb ch a); cbn; [lia | exact IH].
    - intros H. destruct (char_in ch st) eqn:E; [reflexivity|]. rewrite (count_zero ch st E) in H. lia.
  Qed.
  Lemma forward_cases phase : forward phase ->
    (exists u, upper phase = String "P" u /\ ((2 <= count_char "P" (upper phase))%nat \/ (1 <= count_char "S" (upper phase))%nat)) \/
    upper phase = "SP".
  Proof.
    unfold forward. destruct (upper phase) as [|c u] eqn:Eu; [discriminate|].
    intros H. destruct (Ascii.ascii_dec c "P") as [->|Hc]; [left; exists u; auto|]. right.
    destruct c as [[] [] [] [] [] [] [] []]; try exact H. congruence.
  Qed.
  (** orientation used by stretch_delay_times: Sp delays are negated *)
  Lemma layer_delay_sign phase j qp qs s : s_slower m -> ps_phase phase -> forward phase -> (j < layers m)%nat ->
    snell_layer s phase j qp qs -> 0 <= sgn_phase phase * layer_delay phase qp qs (nth j (mdz m) 0).
  Proof.
    intros Hslow Hps Hf Hj [A B]. destruct Hm as (_ & _ & _ & _ & Hv). destruct (Hv j Hj) as (V1 & V2 & V3).
    specialize (Hslow j Hj). unfold sgn_phase, layer_delay.
    destruct (forward_cases phase Hf) as [(u & Eu & Hc)|Eu].
    - rewrite Eu in *. assert (char_in "P" (String "P" u) = true) as EP by reflexivity.
      specialize (A EP). apply count_in in EP. destruct A as [A1 A2].
      rewrite Rmult_1_l. apply Rmult_le_pos; [exact V3|].
      assert (1 <= INR (count_char "P" (String "P" u))) by (replace 1 with (INR 1) by reflexivity; apply le_INR; exact EP).
      destruct (char_in "S" (String "P" u)) eqn:ES.
      + specialize (B eq_refl). pose proof (snell_mono _ _ _ _ _ V2 Hslow B (conj A1 A2)) as Hqq. destruct B as [B1 B2].
        apply count_in in ES. assert (1 <= INR (count_char "S" (String "P" u))) by (replace 1 with (INR 1) by reflexivity; apply le_INR; exact ES).
        nra.
      + rewrite (count_zero _ _ ES). cbn [INR]. destruct Hc as [Hc|Hc]; [|apply count_in in Hc; congruence].
        assert (2 <= INR (count_char "P" (String "P" u))) by (replace 2 with (INR 2) by (cbn; ring); apply le_INR; exact Hc).
        nra.
    - rewrite Eu in *. specialize (A eq_refl). specialize (B eq_refl).
      pose proof (snell_mono _ _ _ _ _ V2 Hslow B A). destruct A, B. cbn. nra.
  Qed.
End M.
