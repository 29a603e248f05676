(** Facts about names of files and about operations on files. *)
From Verif Require Import Model.Batch Spec.BatchSpec Proofs.PyFacts.
Notation length := List.length.
Notation la := list_ascii_of_string.

Lemma la_app a b : la (a ++ b)%string = la a ++ la b.
Proof. induction a as [|c a IH]; [reflexivity|]. cbn. rewrite IH. reflexivity. Qed.
Lemma la_inj a b : la a = la b -> a = b.
Proof.
  intros H. rewrite <- (string_of_list_ascii_of_string a), <- (string_of_list_ascii_of_string b), H. reflexivity.
Qed.
Lemma la_length s : length (la s) = String.length s.
Proof. induction s; cbn; congruence. Qed.
Lemma char_in_la c s : char_in c s = false <-> ~ In c (la s).
Proof.
  induction s as [|a s IH]; [cbn; tauto|]. cbn [char_in la list_ascii_of_string In].
  rewrite Bool.orb_false_iff, IH. destruct (Ascii.eqb_spec c a) as [->|H]; split.
  - intros [H _]; discriminate.
  - intros H. exfalso. apply H. left. reflexivity.
  - intros [_ H2] [H3|H3]; [congruence | contradiction].
  - intros H2. split; [reflexivity|]. intros H3. apply H2. right. exact H3.
Qed.

(** ** splitting at separators *)
Lemma split_sep {A} (c : A) a b x y : ~ In c a -> ~ In c b -> a ++ c :: x = b ++ c :: y -> a = b /\ x = y.
Proof.
  revert b. induction a as [|u a IH]; intros [|v b] Ha Hb H; cbn in H; inversion H; subst.
  - auto.
  - exfalso. apply Hb. left. reflexivity.
  - exfalso. apply Ha. left. reflexivity.
  - destruct (IH b) as [-> ->]; [intros Hi; apply Ha; right; exact Hi | intros Hi; apply Hb; right; exact Hi | assumption | auto].
Qed.
(** ... from the end *)
Lemma split_sep_last {A} (c : A) a b x y : ~ In c x -> ~ In c y -> a ++ c :: x = b ++ c :: y -> a = b /\ x = y.
Proof.
  intros Hx Hy H. apply (f_equal (@rev A)) in H. rewrite !rev_app_distr in H. cbn [rev] in H. rewrite <- !app_assoc in H. cbn [app] in H.
  apply split_sep in H; try (rewrite <- in_rev; assumption). destruct H as [H1 H2].
  apply (f_equal (@rev A)) in H1, H2. rewrite !rev_involutive in H1, H2. auto.
Qed.
Lemma app_cancel_len {A} (a b x y : list A) : length x = length y -> a ++ x = b ++ y -> a = b /\ x = y.
Proof.
  intros Hl H. apply (f_equal (@rev A)) in H. rewrite !rev_app_distr in H.
  assert (forall (u v p q : list A), length u = length v -> u ++ p = v ++ q -> u = v /\ p = q) as Hc.
  { induction u as [|s u IH]; intros [|t v] p q E H0; try discriminate; [auto|]. cbn in H0. inversion H0; subst.
    destruct (IH v p q) as [-> ->]; [cbn in E; lia | assumption | auto]. }
  apply Hc in H; [|rewrite !rev_length; exact Hl]. destruct H as [H1 H2].
  apply (f_equal (@rev A)) in H1, H2. rewrite !rev_involutive in H1, H2. auto.
Qed.

(** ** wildcards *)
Definition plain (l : list ascii) : Prop := ~ In "*"%char l /\ ~ In "?"%char l.
Lemma no_wild_plain s : no_wild s <-> plain (la s).
Proof. unfold no_wild, plain. rewrite !char_in_la. tauto. Qed.
Lemma plain_app a b : plain (a ++ b) <-> plain a /\ plain b.
Proof. unfold plain. rewrite !in_app_iff. tauto. Qed.
Lemma glob_lit l p s : plain l -> (glob (l ++ p) s = true <-> exists s', s = l ++ s' /\ glob p s' = true).
Proof.
  revert s. induction l as [|a l IH]; intros s [H1 H2].
  - cbn. split; [intros H; eauto | intros (s' & -> & H); exact H].
  - cbn [app glob]. destruct (Ascii.eqb_spec a "*") as [->|Ha]; [exfalso; apply H1; left; reflexivity|].
    destruct (Ascii.eqb_spec a "?") as [->|Hb]; [exfalso; apply H2; left; reflexivity|].
    destruct s as [|c s]; [split; [discriminate | intros (s' & E & _); discriminate]|].
    rewrite Bool.andb_true_iff, IH by (split; intros Hi; [apply H1 | apply H2]; right; exact Hi).
    destruct (Ascii.eqb_spec a c) as [->|Hc]; split.
    + intros [_ (s' & -> & H)]. eauto.
    + intros (s' & E & H). inversion E; subst. eauto.
    + intros [H _]; discriminate.
    + intros (s' & E & _). inversion E; subst. congruence.
Qed.
Lemma glob_exact l s : plain l -> (glob l s = true <-> s = l).
Proof.
  intros H. rewrite <- (app_nil_r l) at 1. rewrite glob_lit by exact H. split.
  - intros (s' & -> & E). destruct s'; [apply app_nil_r | discriminate].
  - intros ->. exists []. split; [symmetry; apply app_nil_r | reflexivity].
Qed.
Lemma glob_q p s : glob ("?"%char :: p) s = true <-> exists c s', s = c :: s' /\ c <> "/"%char /\ glob p s' = true.
Proof.
  cbn [glob]. change (Ascii.eqb "?" "*") with false. change (Ascii.eqb "?" "?") with true. cbv iota.
  destruct s as [|c s]; [split; [discriminate | intros (c & s' & E & _); discriminate]|].
  unfold noslash. rewrite Bool.andb_true_iff, Bool.negb_true_iff. split.
  - intros [H1 H2]. exists c, s. split; [reflexivity|]. split; [|exact H2]. intros ->. discriminate.
  - intros (c' & s' & E & H1 & H2). inversion E; subst. split; [|exact H2]. apply Ascii.eqb_neq. exact H1.
Qed.
Lemma glob_star p s : glob ("*"%char :: p) s = true <-> exists w s', s = w ++ s' /\ ~ In "/"%char w /\ glob p s' = true.
Proof.
  cbn [glob]. change (Ascii.eqb "*" "*") with true. cbv iota.
  set (star := fix star (s : list ascii) : bool := glob p s || match s with [] => false | c :: s' => noslash c && star s' end).
  change (star s = true <-> exists w s', s = w ++ s' /\ ~ In "/"%char w /\ glob p s' = true).
  induction s as [|c s IH].
  - cbn. rewrite Bool.orb_false_r. split.
    + intros H. exists [], []. auto.
    + intros (w & s' & E & _ & H). destruct w; [cbn in E; subst s'; exact H | discriminate].
  - cbn [star]. change (star (c :: s)) with (glob p (c :: s) || (noslash c && star s)).
    rewrite Bool.orb_true_iff, Bool.andb_true_iff, IH. split.
    + intros [H|[H1 (w & s' & -> & H2 & H3)]]; [exists [], (c :: s); auto|].
      exists (c :: w), s'. split; [reflexivity|]. split; [|exact H3]. intros [->|Hi]; [discriminate | contradiction].
    + intros (w & s' & E & H1 & H2). destruct w as [|d w]; [left; cbn in E; rewrite E; exact H2|].
      inversion E; subst. right. split.
      * unfold noslash. rewrite Bool.negb_true_iff. apply Ascii.eqb_neq. intros ->. apply H1. left. reflexivity.
      * exists w, s'. split; [reflexivity|]. split; [intros Hi; apply H1; right; exact Hi | exact H2].
Qed.

(** ** names *)
Definition lid (p : spair) : list ascii := la (nsl (p_net p) (p_sta p) (p_loc p)).
Lemma lid_inj p q : char_in "." (p_net p) = false -> char_in "." (p_sta p) = false ->
  char_in "." (p_net q) = false -> char_in "." (p_sta q) = false -> lid p = lid q -> same_station p q.
Proof.
  unfold lid, nsl, same_station. intros H1 H2 H3 H4 H. rewrite !la_app in H. cbn [la list_ascii_of_string app] in H.
  apply char_in_la in H1, H2, H3, H4.
  apply split_sep in H; try assumption. destruct H as [E1 H]. apply split_sep in H; try assumption. destruct H as [E2 E3].
  apply la_inj in E1, E2, E3. auto.
Qed.
Lemma lid_slash p : slash_free (p_net p) -> slash_free (p_sta p) -> slash_free (p_loc p) -> ~ In "/"%char (lid p).
Proof.
  unfold slash_free, lid, nsl. rewrite !char_in_la, !la_app, !in_app_iff. cbn. intros H1 H2 H3 H. 
  destruct H as [H|[[H|[]]|[H|[[H|[]]|H]]]]; first [contradiction | discriminate].
Qed.
Lemma lid_plain p : no_wild (p_net p) -> no_wild (p_sta p) -> no_wild (p_loc p) -> plain (lid p).
Proof.
  rewrite !no_wild_plain. unfold lid, nsl. rewrite !la_app, !plain_app. intros H1 H2 H3. repeat (split; [first [assumption | split; cbn; intuition discriminate]|]).
  assumption.
Qed.

(** ** operations on files *)
Lemma aset_new {A} (d : dict A) k v : ~ In k (map fst d) -> dset d k v = d ++ [(k, v)].
Proof.
  unfold dset. induction d as [|[k0 v0] d IH]; intros H; [reflexivity|]. cbn [aset]. destruct (String.eqb_spec k k0) as [->|Hne].
  - exfalso. apply H. left. reflexivity.
  - cbn. rewrite IH; [reflexivity|]. intros Hi. apply H. right. exact Hi.
Qed.
Lemma dget_notin {A} (d : dict A) k : ~ In k (map fst d) -> dget d k = None.
Proof.
  unfold dget. induction d as [|[k0 v0] d IH]; intros H; [reflexivity|]. cbn [aget]. destruct (String.eqb_spec k k0) as [->|Hne].
  - exfalso. apply H. left. reflexivity.
  - apply IH. intros Hi. apply H. right. exact Hi.
Qed.
Lemma do_ops_app fs a b : do_ops fs (a ++ b) = do_ops (do_ops fs a) b.
Proof. apply fold_left_app. Qed.
Lemma puts_new l fs : NoDup (map fst l) -> (forall n, In n (map fst l) -> ~ In n (map fst fs)) ->
  do_ops fs (map (fun p => Put (fst p) (snd p)) l) = fs ++ map (fun p => (fst p, [("", snd p)])) l.
Proof.
  revert fs. induction l as [|[n t] l IH]; intros fs Hn Hf; [symmetry; apply app_nil_r|]. cbn [map] in *. inversion Hn as [|? ? H1 H2]; subst.
  unfold do_ops. cbn [fold_left do_op fst snd]. fold (do_ops (dset fs n [("", t)]) (map (fun p => Put (fst p) (snd p)) l)).
  rewrite aset_new by (apply Hf; left; reflexivity). rewrite IH; [rewrite <- app_assoc; reflexivity | exact H2|].
  intros m Hm. rewrite map_app, in_app_iff. cbn. intros [H|[<-|[]]]; [apply (Hf m); [right; exact Hm | exact H] | contradiction].
Qed.
Lemma appends_new l fs : NoDup (map fst l) -> (forall n, In n (map fst l) -> ~ In n (map fst fs)) ->
  do_ops fs (map (fun p => Append (fst p) (snd p)) l) = fs ++ map (fun p => (fst p, map (pair "") (snd p))) l.
Proof.
  revert fs. induction l as [|[n t] l IH]; intros fs Hn Hf; [symmetry; apply app_nil_r|]. cbn [map] in *. inversion Hn as [|? ? H1 H2]; subst.
  unfold do_ops. cbn [fold_left do_op fst snd].
  assert (~ In n (map fst fs)) as Hnf by (apply Hf; left; reflexivity).
  unfold contents. rewrite dget_notin by exact Hnf. cbn [app].
  rewrite aset_new by exact Hnf. change (fold_left do_op ?a ?b) with (do_ops b a). rewrite IH; [rewrite <- app_assoc; reflexivity | exact H2|].
  intros m Hm. rewrite map_app, in_app_iff. cbn. intros [H|[<-|[]]]; [apply (Hf m); [right; exact Hm | exact H] | contradiction].
Qed.
Lemma datasets_new name l fs old : NoDup (map fst l) -> (forall k, In k (map fst l) -> ~ In k (map fst old)) -> l <> [] -> contents fs name = old ->
  do_ops fs (map (fun p => Dataset name (fst p) (snd p)) l) = dset fs name (old ++ l).
Proof.
  revert fs old. induction l as [|[k t] l IH]; intros fs old Hn Hf Hne Hold; [congruence|]. cbn [map] in *. inversion Hn as [|? ? H1 H2]; subst.
  unfold do_ops. cbn [fold_left do_op fst snd]. change (fold_left do_op ?a ?b) with (do_ops b a).
  rewrite (aset_new (contents fs name)) by (apply Hf; left; reflexivity).
  destruct l as [|x l]; [reflexivity|].
  assert (forall (d : files) k v v', dset (dset d k v) k v' = dset d k v') as Hss.
  { unfold dset. clear. induction d as [|[k0 v0] d IH]; intros k v v'; cbn [aset].
    - rewrite String.eqb_refl. reflexivity.
    - destruct (String.eqb_spec k k0) as [->|H]; cbn [aset]; [rewrite String.eqb_refl; reflexivity|].
      destruct (String.eqb_spec k k0); [contradiction|]. rewrite IH. reflexivity. }
  rewrite (IH _ (contents fs name ++ [(k, t)])).
  - rewrite Hss, <- app_assoc. reflexivity.
  - exact H2.
  - intros m Hm. rewrite map_app, in_app_iff. cbn [map fst In]. intros [H|[<-|[]]]; [apply (Hf m); [right; exact Hm | exact H] | contradiction].
  - discriminate.
  - unfold contents. rewrite dget_dset_eq. reflexivity.
Qed.
