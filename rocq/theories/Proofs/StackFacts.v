(** Proofs about means and RFStream.stack. *)
From Verif Require Import Model.Stack Spec.MeanSpec Spec.TraceSpec Proofs.PyFacts Proofs.IterFacts.
From Coq Require Import Setoid Morphisms.

Lemma zipw_length {A B C} (f : A -> B -> C) a b :
  List.length (zipw f a b) = Nat.min (List.length a) (List.length b).
Proof. revert b; induction a as [|x a IH]; intros [|y b]; simpl; auto. Qed.
Lemma zipw_nth (a b : list Q) k :
  List.length a = List.length b -> (nth k (zipw Qplus a b) 0 == nth k a 0 + nth k b 0)%Q.
Proof.
  revert b k; induction a as [|x a IH]; intros [|y b] k; simpl; try discriminate.
  - intros _. destruct k; simpl; ring.
  - intros H. destruct k; simpl; [reflexivity|]. apply IH. lia.
Qed.
Lemma nth_map_div (l : list Q) k c : (nth k (map (fun x => x / c) l) 0 == nth k l 0 / c)%Q.
Proof.
  revert k; induction l as [|x l IH]; intros [|k]; simpl; try reflexivity;
    try (unfold Qdiv; ring). apply IH.
Qed.
Lemma fold_zipw rs (r : list Q) :
  Forall (fun x => List.length x = List.length r) rs ->
  List.length (fold_left (zipw Qplus) rs r) = List.length r /\
  forall k, (nth k (fold_left (zipw Qplus) rs r) 0 ==
             nth k r 0 + fold_right Qplus 0 (map (fun x => nth k x 0) rs))%Q.
Proof.
  revert r; induction rs as [|x rs IH]; simpl; intros r H.
  - split; [reflexivity | intros; ring].
  - inversion H as [|? ? Hx Hrs]; subst.
    assert (List.length (zipw Qplus r x) = List.length r) as Hl by (rewrite zipw_length; lia).
    destruct (IH (zipw Qplus r x)) as [H1 H2].
    + rewrite Forall_forall in *. intros y Hy. rewrite Hl. auto.
    + split; [congruence|]. intros k. rewrite H2, zipw_nth by lia. ring.
Qed.
Lemma same_length_Forall {A} (r : list A) rs :
  same_length (r :: rs) = true <-> Forall (fun x => List.length x = List.length r) (r :: rs).
Proof.
  simpl. rewrite forallb_forall, Forall_forall. split.
  - intros H x [->|Hx]; [reflexivity|]. apply Nat.eqb_eq, H, Hx.
  - intros H x Hx. apply Nat.eqb_eq, H. right; exact Hx.
Qed.
Lemma Qdiv_mult_id a b : ~ (b == 0)%Q -> (a / b * b == a)%Q.
Proof. intros H. field. exact H. Qed.
Lemma inject_pos n : ~ (inject_Z (Z.of_nat (S n)) == 0)%Q.
Proof. unfold inject_Z, Qeq. simpl. lia. Qed.

Lemma np_mean0_ok rows :
  rows <> [] -> same_length rows = true ->
  exists m, np_mean0 rows = Ok m /\ is_mean rows m.
Proof.
  destruct rows as [|r rs]; [congruence|]. intros _ H. unfold np_mean0. rewrite H.
  eexists; split; [reflexivity|]. apply same_length_Forall in H.
  inversion H as [|? ? _ Hrs]; subst.
  destruct (fold_zipw rs r Hrs) as [H1 H2]. unfold is_mean. rewrite map_length, H1.
  split; [exact H|]. intros k Hk. rewrite nth_map_div, H2. rewrite Qdiv_mult_id.
  - reflexivity.
  - cbn [List.length]. apply inject_pos.
Qed.
Lemma np_mean0_err rows : rows <> [] -> same_length rows = false -> np_mean0 rows = Err ValueError.
Proof. destruct rows; [congruence|]. intros _ H. unfold np_mean0. rewrite H. reflexivity. Qed.

Lemma fold_Qplus_perm l1 l2 : Permutation l1 l2 -> (fold_right Qplus 0 l1 == fold_right Qplus 0 l2)%Q.
Proof.
  induction 1 as [|x a b H IH|x y l|a b c H1 IH1 H2 IH2]; simpl; try reflexivity.
  - rewrite IH. reflexivity.
  - ring.
  - rewrite IH1, IH2. reflexivity.
Qed.
(** two means of permuted rows agree *)
Lemma is_mean_perm rows1 rows2 m1 m2 :
  rows1 <> [] -> Permutation rows1 rows2 -> is_mean rows1 m1 -> is_mean rows2 m2 -> Forall2 Qeq m1 m2.
Proof.
  intros Hne Hp [L1 M1] [L2 M2].
  assert (List.length m1 = List.length m2) as HL.
  { destruct rows1 as [|r rs]; [congruence|].
    rewrite Forall_forall in *. rewrite <- (L1 r (or_introl eq_refl)).
    apply L2. eapply Permutation_in; [exact Hp | left; reflexivity]. }
  assert (forall k, k < List.length m1 -> (nth k m1 0 == nth k m2 0)%Q) as Hk.
  { intros k Hk. specialize (M1 k Hk). rewrite HL in Hk. specialize (M2 k Hk).
    rewrite <- (Permutation_length Hp) in M2.
    rewrite (fold_Qplus_perm _ _ (Permutation_map (fun r => nth k r 0%Q) Hp)) in M1.
    rewrite <- M2 in M1. destruct rows1 as [|r rs]; [congruence|]. cbn [List.length] in M1.
    apply Qmult_inj_r in M1; [exact M1 | apply inject_pos]. }
  clear - HL Hk. revert m2 HL Hk. induction m1 as [|x m1 IH]; intros [|y m2] HL Hk; try discriminate; constructor.
  - apply (Hk 0). simpl; lia.
  - apply IH; [simpl in HL; lia|]. intros k H. apply (Hk (S k)). simpl; lia.
Qed.

(** ** ids *)
Lemma split_id t : no_dots t ->
  split_on "." (tr_id t) = [network (st t); station (st t); location (st t); channel (st t)].
Proof.
  intros (H1 & H2 & H3 & H4). unfold tr_id, stats_id.
  change (network (st t) ++ "." ++ station (st t) ++ "." ++ location (st t) ++ "." ++ channel (st t))%string
    with (network (st t) ++ String "." (station (st t) ++ String "." (location (st t) ++ String "." (channel (st t)))))%string.
  rewrite !split_on_sep by assumption. rewrite split_on_no by assumption. reflexivity.
Qed.

Lemma copy_onset_ok tr tr2 r : copy_onset tr tr2 = Ok r ->
  tr_id r = tr_id tr2 /\ data r = data tr2 /\ delta (st r) = delta (st tr2) /\ starttime (st r) = starttime (st tr2) /\
  (forall e, e <> "onset" -> dget (extra (st r)) e = dget (extra (st tr2)) e) /\
  match dget (extra (st tr)) "onset" with
  | Some (VTime o) => dget (extra (st r)) "onset" = Some (VTime (starttime (st tr2) + (o - starttime (st tr))))
  | Some _ => False
  | None => r = tr2
  end.
Proof.
  unfold copy_onset. destruct (dget (extra (st tr)) "onset") as [[| |o| |]|]; intros H; inversion H; subst; clear H;
    repeat split; auto.
  - simpl. intros e He. apply dget_dset_ne. congruence.
  - simpl. apply dget_dset_eq.
Qed.

Lemma copy_entries_get entries from to e :
  dget (copy_entries entries from to) e =
    if existsb (String.eqb e) entries then match dget from e with Some v => Some v | None => dget to e end
    else dget to e.
Proof.
  unfold copy_entries. revert to. induction entries as [|x xs IH]; simpl; intros to; [reflexivity|].
  rewrite IH. destruct (String.eqb_spec e x) as [->|Hne]; simpl.
  - destruct (existsb (String.eqb x) xs); destruct (dget from x); try reflexivity; rewrite dget_dset_eq; reflexivity.
  - destruct (existsb (String.eqb e) xs).
    + destruct (dget from e); [reflexivity|]. destruct (dget from x); [apply dget_dset_ne; congruence | reflexivity].
    + destruct (dget from x); [apply dget_dset_ne; congruence | reflexivity].
Qed.

Section StackSec.
  Variables (s : list trace) (tr : trace) (rest : list trace).
  Hypothesis Hs : s = tr :: rest.
  Hypothesis Hnd : Forall no_dots s.
  Hypothesis Honset : forall v, dget (extra (st tr)) "onset" = Some v -> exists o, v = VTime o.
  Let rows id := map data (filter (fun t => String.eqb (tr_id t) id) s).

  Lemma rows_nonempty id : In id (map tr_id s) -> rows id <> [].
  Proof.
    intros H. apply in_map_iff in H. destruct H as [t [Ht Hin]]. unfold rows.
    assert (In t (filter (fun t => String.eqb (tr_id t) id) s)) as Hf.
    { apply filter_In. split; [exact Hin|]. apply String.eqb_eq, Ht. }
    destruct (filter (fun t0 => String.eqb (tr_id t0) id) s); [contradiction | discriminate].
  Qed.
  Lemma stack_one_ok id : In id (map tr_id s) -> same_length (rows id) = true ->
    exists o, stack_one s tr id = Ok o /\ tr_id o = id /\ is_mean (rows id) (data o) /\
      delta (st o) = delta (st tr) /\ starttime (st o) = 0%Z /\
      (forall e, In e stack_entries -> dget (extra (st o)) e = dget (extra (st tr)) e) /\
      match dget (extra (st tr)) "onset" with
      | Some (VTime t) => dget (extra (st o)) "onset" = Some (VTime (t - starttime (st tr)))
      | _ => dget (extra (st o)) "onset" = None
      end.
  Proof.
    intros Hin Hlen. unfold stack_one.
    pose proof Hin as Hin'. apply in_map_iff in Hin'. destruct Hin' as [t [Ht Htin]].
    rewrite Forall_forall in Hnd. specialize (Hnd t Htin). subst id. rewrite (split_id t Hnd).
    destruct (np_mean0_ok (rows (tr_id t)) (rows_nonempty _ Hin) Hlen) as [m [Hm Hmean]].
    unfold rows in Hm. rewrite Hm. cbn [bind].
    set (tr2 := mkTrace _ m).
    destruct (copy_onset tr tr2) as [o|e] eqn:E.
    2:{ unfold copy_onset in E. destruct (dget (extra (st tr)) "onset") as [v|]; [|discriminate].
        destruct (Honset v eq_refl) as [o ->]. discriminate. }
    exists o. split; [reflexivity|]. apply copy_onset_ok in E. destruct E as (E1 & E2 & E3 & E4 & E5 & E6).
    split; [rewrite E1; reflexivity|]. split; [rewrite E2; exact Hmean|].
    split; [exact E3|]. split; [exact E4|]. split.
    - intros e He. rewrite E5 by (intros ->; simpl in He; intuition discriminate).
      unfold tr2. cbn [st extra]. rewrite copy_entries_get.
      replace (existsb (String.eqb e) stack_entries) with true.
      + destruct (dget (extra (st tr)) e); reflexivity.
      + symmetry. apply existsb_exists. exists e. split; [exact He | apply String.eqb_refl].
    - destruct (dget (extra (st tr)) "onset") as [[| |t0| |]|] eqn:F; try contradiction.
      + rewrite E6. f_equal. 
      + subst o. unfold tr2. cbn [st extra]. rewrite copy_entries_get. reflexivity.
  Qed.
  Lemma stack_one_err id : In id (map tr_id s) -> same_length (rows id) = false ->
    stack_one s tr id = Err ValueError.
  Proof.
    intros Hin Hlen. unfold stack_one.
    pose proof Hin as Hin'. apply in_map_iff in Hin'. destruct Hin' as [t [Ht Htin]].
    rewrite Forall_forall in Hnd. specialize (Hnd t Htin). subst id. rewrite (split_id t Hnd).
    fold (rows (tr_id t)).
    rewrite (np_mean0_err _ (rows_nonempty _ Hin) Hlen). reflexivity.
  Qed.
End StackSec.

Lemma mapM_err_in {A B} (f : A -> res B) l x e :
  In x l -> f x = Err e -> (forall y, In y l -> (exists b, f y = Ok b) \/ f y = Err e) -> mapM f l = Err e.
Proof.
  induction l as [|y ys IH]; simpl; intros Hin Hx Hall; [contradiction|].
  destruct (Hall y (or_introl eq_refl)) as [[b Hb]|He].
  - rewrite Hb. simpl. destruct Hin as [->|Hin]; [congruence|].
    rewrite IH; auto.
  - rewrite He. reflexivity.
Qed.
Lemma mapM_ok_all {A B} (f : A -> res B) l (P : A -> B -> Prop) :
  (forall x, In x l -> exists y, f x = Ok y /\ P x y) -> exists r, mapM f l = Ok r /\ Forall2 P l r.
Proof.
  induction l as [|x xs IH]; simpl; intros H; [exists []; auto|].
  destruct (H x (or_introl eq_refl)) as [y [Hy Py]]. rewrite Hy. simpl.
  destruct IH as [r [Hr HP]]; [auto|]. rewrite Hr. simpl. exists (y :: r). auto.
Qed.

Lemma filter_id_len s : 
  (forall t u, In t s -> In u s -> tr_id t = tr_id u -> List.length (data t) = List.length (data u)) ->
  forall id, same_length (map data (filter (fun t => String.eqb (tr_id t) id) s)) = true.
Proof.
  intros H id. destruct (map data (filter (fun t => String.eqb (tr_id t) id) s)) as [|r rs] eqn:E; [reflexivity|].
  apply same_length_Forall. rewrite <- E. rewrite Forall_forall. intros x Hx.
  assert (In r (map data (filter (fun t => String.eqb (tr_id t) id) s))) as Hr by (rewrite E; left; reflexivity).
  apply in_map_iff in Hx, Hr. destruct Hx as [t [<- Ht]], Hr as [u [<- Hu]].
  apply filter_In in Ht, Hu. destruct Ht as [Ht1 Ht2], Hu as [Hu1 Hu2].
  apply String.eqb_eq in Ht2, Hu2. apply H; congruence.
Qed.

Definition rows_of (id : string) (s : list trace) : list (list Q) :=
  map data (filter (fun t => String.eqb (tr_id t) id) s).

Theorem stack_spec s ids :
  s <> [] -> set_order ids s -> Forall no_dots s -> Forall onset_is_time s ->
  ((forall t u, In t s -> In u s -> tr_id t = tr_id u -> List.length (data t) = List.length (data u)) ->
   exists out, stack ids s = Ok out /\ map tr_id out = ids /\
     forall o, In o out -> is_mean (map data (filter (fun t => String.eqb (tr_id t) (tr_id o)) s)) (data o)) /\
  ((exists t u, In t s /\ In u s /\ tr_id t = tr_id u /\ List.length (data t) <> List.length (data u)) ->
   stack ids s = Err ValueError).
Proof.
  intros Hne [Hn Hids] Hdots Hon.
  destruct s as [|tr rest] eqn:Es; [congruence|]. rewrite <- Es in *.
  assert (onset_is_time tr) as Htr. { rewrite Forall_forall in Hon. apply Hon. rewrite Es. left; reflexivity. }
  assert (stack ids s = mapM (stack_one s tr) ids) as Hst by (rewrite Es; reflexivity).
  rewrite Hst. split.
  - intros Hlen.
    destruct (mapM_ok_all (stack_one s tr) ids
      (fun id o => tr_id o = id /\ is_mean (rows_of id s) (data o))) as [out [Ho HF]].
    { intros id Hid. apply Hids in Hid.
      destruct (stack_one_ok s tr Hdots Htr id Hid (filter_id_len s Hlen id)) as [o (H1 & H2 & H3 & _)].
      exists o. auto. }
    exists out. split; [exact Ho|]. clear Ho. split.
    + clear - HF. induction HF as [|id o ids out [H _] HF IH]; simpl; [reflexivity|]. congruence.
    + clear - HF. induction HF as [|id o' ids out [H1 H2] HF IH]; simpl; intros o; [contradiction|].
      intros [<-|Hin]; [rewrite H1; exact H2 | apply IH, Hin].
  - intros (t & u & Ht & Hu & Heq & Hlen).
    assert (In (tr_id t) (map tr_id s)) as Hin by (apply in_map; exact Ht).
    apply (mapM_err_in _ _ (tr_id t)).
    + apply Hids. exact Hin.
    + apply (stack_one_err s tr Hdots _ Hin).
      destruct (same_length (map data (filter (fun t0 => String.eqb (tr_id t0) (tr_id t)) s))) eqn:E; [|reflexivity].
      exfalso. apply Hlen.
      destruct (map data (filter (fun t0 => String.eqb (tr_id t0) (tr_id t)) s)) as [|r rs] eqn:F.
      * exfalso. refine (rows_nonempty s _ Hin _). exact F.
      * apply same_length_Forall in E. rewrite <- F in E. rewrite Forall_forall in E.
        rewrite (E (data t)), (E (data u)); [reflexivity| |].
        -- apply in_map_iff. exists u. split; [reflexivity|]. apply filter_In. split; [exact Hu|]. apply String.eqb_eq; congruence.
        -- apply in_map_iff. exists t. split; [reflexivity|]. apply filter_In. split; [exact Ht|]. apply String.eqb_eq; congruence.
    + intros id Hid. apply Hids in Hid.
      destruct (same_length (map data (filter (fun t0 => String.eqb (tr_id t0) id) s))) eqn:E.
      * left. destruct (stack_one_ok s tr Hdots Htr id Hid E) as [o [Ho _]]. eauto.
      * right. apply stack_one_err; assumption.
Qed.

Lemma filter_perm {A} (p : A -> bool) l1 l2 : Permutation l1 l2 -> Permutation (filter p l1) (filter p l2).
Proof.
  induction 1 as [|x a b H IH|x y l|a b c H1 IH1 H2 IH2]; simpl.
  - constructor.
  - destruct (p x); [constructor|]; exact IH.
  - destruct (p x), (p y); try constructor; reflexivity.
  - etransitivity; eassumption.
Qed.

Theorem stack_perm s1 s2 ids1 ids2 out1 out2 :
  Permutation s1 s2 -> set_order ids1 s1 -> set_order ids2 s2 -> Forall no_dots s1 -> Forall onset_is_time s1 ->
  stack ids1 s1 = Ok out1 -> stack ids2 s2 = Ok out2 ->
  (forall i, In i (map tr_id out1) <-> In i (map tr_id out2)) /\
  forall o1 o2, In o1 out1 -> In o2 out2 -> tr_id o1 = tr_id o2 -> Forall2 Qeq (data o1) (data o2).
Proof.
  intros Hp Ho1 Ho2 Hd1 Hn1 H1 H2.
  assert (s1 <> []) as Hne1. { intros ->. discriminate. }
  assert (s2 <> []) as Hne2. { intros ->. discriminate. }
  assert (Forall no_dots s2) as Hd2. { eapply Permutation_Forall; eassumption. }
  assert (Forall onset_is_time s2) as Hn2. { eapply Permutation_Forall; eassumption. }
  destruct (stack_spec s1 ids1 Hne1 Ho1 Hd1 Hn1) as [A1 B1].
  destruct (stack_spec s2 ids2 Hne2 Ho2 Hd2 Hn2) as [A2 B2].
  assert (forall s (B : (exists t u, In t s /\ In u s /\ tr_id t = tr_id u /\ List.length (data t) <> List.length (data u)) -> False) t u,
     In t s -> In u s -> tr_id t = tr_id u -> List.length (data t) = List.length (data u)) as Hdec.
  { intros s B t u Ht Hu Heq. destruct (Nat.eq_dec (List.length (data t)) (List.length (data u))) as [E|E]; [exact E|].
    exfalso. apply B. exists t, u. auto. }
  destruct A1 as (out1' & E1 & I1 & M1). { apply Hdec. intros B. rewrite (B1 B) in H1. discriminate. }
  destruct A2 as (out2' & E2 & I2 & M2). { apply Hdec. intros B. rewrite (B2 B) in H2. discriminate. }
  assert (out1' = out1) by congruence. assert (out2' = out2) by congruence. subst out1' out2'.
  split.
  - intros i. rewrite I1, I2. destruct Ho1 as [_ Ho1], Ho2 as [_ Ho2]. rewrite Ho1, Ho2.
    split; apply Permutation_in, Permutation_map; [exact Hp | symmetry; exact Hp].
  - intros o1 o2 Hi1 Hi2 Heq. eapply is_mean_perm; [| |apply M1, Hi1|apply M2, Hi2].
    + intros E. refine (rows_nonempty s1 (tr_id o1) _ E). apply Ho1. rewrite <- I1. apply in_map, Hi1.
    + rewrite Heq. apply Permutation_map, filter_perm, Hp.
Qed.

Theorem stack_header tr rest ids out :
  set_order ids (tr :: rest) -> Forall no_dots (tr :: rest) -> stack ids (tr :: rest) = Ok out ->
  forall o, In o out ->
    delta (st o) = delta (st tr) /\
    (forall e, In e stack_entries -> dget (extra (st o)) e = dget (extra (st tr)) e) /\
    match dget (extra (st tr)) "onset" with
    | Some (VTime t) => exists t', dget (extra (st o)) "onset" = Some (VTime t') /\
                                   (t' - starttime (st o) = t - starttime (st tr))%Z
    | _ => dget (extra (st o)) "onset" = None
    end.
Proof.
  intros [_ Hids] Hd Hst o Ho. cbn [stack] in Hst.
  apply mapM_ok_Forall2 in Hst.
  assert (exists id, In id ids /\ stack_one (tr :: rest) tr id = Ok o) as [id [Hid Hone]].
  { clear -Hst Ho. induction Hst as [|id o' ids out H HF IH]; [contradiction|].
    destruct Ho as [<-|Ho]; [exists id; split; [left; reflexivity | exact H]|].
    destruct (IH Ho) as [id' [Hi H']]. exists id'. split; [right; exact Hi | exact H']. }
  assert (onset_is_time tr) as Hon.
  { intros v Hv. unfold stack_one in Hone. destruct (split_on "." id) as [|a [|b [|c [|d [|]]]]]; try discriminate.
    destruct (np_mean0 _); cbn [bind] in Hone; [|discriminate]. unfold copy_onset in Hone. rewrite Hv in Hone.
    destruct v; try discriminate. eauto. }
  apply Hids in Hid.
  destruct (same_length (map data (filter (fun t0 => String.eqb (tr_id t0) id) (tr :: rest)))) eqn:E.
  2:{ rewrite (stack_one_err _ tr Hd id Hid E) in Hone. discriminate. }
  destruct (stack_one_ok _ tr Hd Hon id Hid E) as (o' & H1 & _ & _ & H2 & H3 & H4 & H5).
  assert (o' = o) by congruence. subst o'. split; [exact H2|]. split; [exact H4|].
  destruct (dget (extra (st tr)) "onset") as [[| |t| |]|]; try exact H5.
  eexists. split; [exact H5|]. rewrite H3. lia.
Qed.
