(** Proofs about IterMultipleComponents (Model/Iter.v). *)
From Verif Require Import Model.Iter Spec.IterSpec Proofs.PyFacts.

Lemma ostr_eqb_spec a b : ostr_eqb a b = true <-> a = b.
Proof.
  destruct a as [a|], b as [b|]; simpl; try (split; congruence).
  rewrite String.eqb_eq. split; congruence.
Qed.
Lemma gkey_eqb_spec a b : gkey_eqb a b = true <-> a = b.
Proof.
  destruct a as [a1 a2], b as [b1 b2]. unfold gkey_eqb; simpl.
  rewrite andb_true_iff, String.eqb_eq, ostr_eqb_spec. split; [intros [-> ->]; reflexivity | intros H; inversion H; auto].
Qed.
Lemma gkey_leb_total a b : gkey_leb a b = true \/ gkey_leb b a = true.
Proof.
  destruct a as [a1 a2], b as [b1 b2]. unfold gkey_leb; simpl.
  rewrite (String.compare_antisym b1 a1). destruct (String.compare a1 b1); simpl; auto.
  destruct a2, b2; auto. apply String.leb_total.
Qed.
Lemma gkey_leb_trans a b c : gkey_leb a b = true -> gkey_leb b c = true -> gkey_leb a c = true.
Proof.
  destruct a as [a1 a2], b as [b1 b2], c as [c1 c2]. unfold gkey_leb; simpl.
  destruct (String.compare a1 b1) eqn:E1; try discriminate; intros H1;
  destruct (String.compare b1 c1) eqn:E2; try discriminate; intros H2.
  - apply String.compare_eq_iff in E1, E2. subst. rewrite str_compare_refl.
    destruct a2, b2, c2; try discriminate; auto. eapply str_leb_trans; eassumption.
  - apply String.compare_eq_iff in E1. subst. rewrite E2. reflexivity.
  - apply String.compare_eq_iff in E2. subst. rewrite E1. reflexivity.
  - rewrite (str_compare_lt_trans _ _ _ E1 E2). reflexivity.
Qed.

Section Facts.
  Context {T : Type} (look : T -> trace) (str_of : value -> string).
  Variable key : option string.
  Let gk (x : T) : gkey := (droplast (tr_id (look x)), printed str_of key (look x)).

  Lemma group_key_ok x : has_entry key (look x) -> group_key look str_of key x = Ok (gk x).
  Proof.
    unfold has_entry, group_key, gk, printed. destruct key as [k|]; [|reflexivity].
    destruct (tr_get (look x) k); [reflexivity | congruence].
  Qed.
  Lemma group_key_err x : ~ has_entry key (look x) -> group_key look str_of key x = Err KeyError.
  Proof.
    unfold has_entry, group_key. destruct key as [k|]; [|tauto].
    destruct (tr_get (look x) k) eqn:E; [|reflexivity]. intros H. exfalso. apply H. congruence.
  Qed.
  Lemma has_entry_dec x : has_entry key (look x) \/ ~ has_entry key (look x).
  Proof. unfold has_entry. destruct key; [|auto]. destruct (tr_get (look x) s); [left; congruence | right; congruence]. Qed.

  Definition grp (k : gkey) (l : list T) := filter (fun x => gkey_eqb (gk x) k) l.

  (** invariant of the grouping loop *)
  Definition ginv (l : list T) (d : list (gkey * list T)) : Prop :=
    NoDup (map fst d) /\
    (forall k, aget gkey_eqb d k = match grp k l with [] => None | g => Some g end).

  Lemma ginv_step l d x : ginv l d -> ginv (l ++ [x]) (add_to d (gk x) x).
  Proof.
    intros [Hnd Hg]. unfold add_to. split.
    - destruct (aget gkey_eqb d (gk x)); apply aset_NoDup; auto using gkey_eqb_spec.
    - intros k. unfold grp in *. rewrite filter_app. simpl.
      destruct (gkey_eqb (gk x) k) eqn:E.
      + apply gkey_eqb_spec in E. subst k. rewrite Hg.
        destruct (filter (fun x0 => gkey_eqb (gk x0) (gk x)) l) as [|y ys] eqn:F;
          rewrite aget_aset_eq by apply gkey_eqb_spec; reflexivity.
      + assert (gk x <> k) as Hne.
        { intros H. apply gkey_eqb_spec in H. congruence. }
        rewrite app_nil_r, <- Hg.
        destruct (aget gkey_eqb d (gk x)); rewrite aget_aset_ne; auto using gkey_eqb_spec.
  Qed.
  Lemma ginv_loop s l d :
    ginv l d -> Forall (fun x => has_entry key (look x)) s ->
    exists d', foldM (fun d x => let! k := group_key look str_of key x in Ok (add_to d k x)) s d = Ok d' /\
               ginv (l ++ s) d'.
  Proof.
    revert l d. induction s as [|x xs IH]; intros l d Hi Hf; simpl.
    - exists d. rewrite app_nil_r. auto.
    - inversion Hf as [|? ? Hx Hxs]; subst. rewrite group_key_ok by assumption. simpl.
      destruct (IH (l ++ [x]) _ (ginv_step l d x Hi)) as [d' [H1 H2]]; [assumption|].
      exists d'. rewrite <- app_assoc in H2. auto.
  Qed.
  Lemma loop_err s d :
    ~ Forall (fun x => has_entry key (look x)) s ->
    foldM (fun d x => let! k := group_key look str_of key x in Ok (add_to d k x)) s d = Err KeyError.
  Proof.
    revert d. induction s as [|x xs IH]; intros d Hf; simpl; [exfalso; apply Hf; constructor|].
    destruct (has_entry_dec x) as [H|H].
    - rewrite group_key_ok by exact H. simpl. apply IH. intros H2. apply Hf. constructor; auto.
    - rewrite group_key_err by exact H. reflexivity.
  Qed.

  Lemma ginv_in l d k g : ginv l d -> In (k, g) d -> g = grp k l /\ g <> [].
  Proof.
    intros [Hnd Hg] H. apply (in_aget gkey_eqb gkey_eqb_spec) in H; [|exact Hnd].
    rewrite Hg in H. destruct (grp k l); [discriminate|]. inversion H. split; [reflexivity | discriminate].
  Qed.
  Lemma ginv_perm l d : ginv l d -> Permutation (List.concat (map snd d)) l.
  Proof.
    revert l. induction d as [|[k g] d IH]; intros l H.
    - destruct l as [|x l]; [constructor|]. exfalso. destruct H as [_ H]. specialize (H (gk x)).
      unfold grp in H. simpl in H. rewrite (proj2 (gkey_eqb_spec _ _) eq_refl) in H. discriminate.
    - pose proof (ginv_in _ _ _ _ H (or_introl eq_refl)) as [Hg _].
      destruct H as [Hnd Hget]. simpl in *. inversion Hnd as [|? ? Hn Hnd']; subst.
      assert (ginv (filter (fun x => negb (gkey_eqb (gk x) k)) l) d) as Hi.
      { split; [exact Hnd'|]. intros k2.
        destruct (gkey_eqb k2 k) eqn:E.
        - apply gkey_eqb_spec in E; subst k2.
          rewrite (proj2 (aget_None_notin gkey_eqb gkey_eqb_spec d k) Hn).
          assert (grp k (filter (fun x => negb (gkey_eqb (gk x) k)) l) = []) as ->; [|reflexivity].
          unfold grp. clear. induction l as [|x l IH]; simpl; [reflexivity|].
          destruct (gkey_eqb (gk x) k) eqn:E; simpl; [exact IH | rewrite E; exact IH].
        - specialize (Hget k2). rewrite E in Hget. rewrite Hget.
          assert (grp k2 (filter (fun x => negb (gkey_eqb (gk x) k)) l) = grp k2 l) as ->; [|reflexivity].
          unfold grp. clear -E. induction l as [|x l IH]; simpl; [reflexivity|].
          destruct (gkey_eqb (gk x) k) eqn:E1; simpl.
          + apply gkey_eqb_spec in E1. rewrite E1.
            destruct (gkey_eqb k k2) eqn:E2; [|exact IH].
            apply gkey_eqb_spec in E2. subst. rewrite (proj2 (gkey_eqb_spec _ _) eq_refl) in E. discriminate.
          + destruct (gkey_eqb (gk x) k2); [f_equal|]; exact IH. }
      rewrite (IH _ Hi). unfold grp. clear.
      induction l as [|x l IH]; simpl; [constructor|].
      destruct (gkey_eqb (gk x) k); simpl.
      + constructor. exact IH.
      + rewrite <- Permutation_middle. constructor. exact IH.
  Qed.

  Lemma same_gk x y : gk x = gk y <-> same_group str_of key (look x) (look y).
  Proof.
    unfold gk, same_group. split; [intros H; inversion H; auto | intros [-> ->]; reflexivity].
  Qed.

  Lemma gk_before x y :
    gkey_leb (gk x) (gk y) = true -> gk x <> gk y ->
    has_entry key (look x) -> has_entry key (look y) ->
    group_before str_of key (look x) (look y).
  Proof.
    unfold gkey_leb, gk, group_before. simpl.
    destruct (String.compare (droplast (tr_id (look x))) (droplast (tr_id (look y)))) eqn:E;
      intros H Hne Hx Hy; [|auto|discriminate].
    right. apply String.compare_eq_iff in E. split; [exact E|].
    unfold printed, has_entry in *. destruct key as [k|]; [|exfalso; apply Hne; rewrite E; reflexivity].
    destruct (tr_get (look x) k) as [a|]; [|congruence].
    destruct (tr_get (look y) k) as [b|]; [|congruence]. simpl in *.
    exists (str_of a), (str_of b). repeat split.
    unfold String.leb in H. destruct (String.compare (str_of a) (str_of b)) eqn:E2; try discriminate; auto.
    apply String.compare_eq_iff in E2. exfalso. apply Hne. congruence.
  Qed.

  Theorem iter_multiple_spec (s : list T) :
    Forall (fun x => has_entry key (look x)) s ->
    exists gs, iter_multiple look str_of s key NAny = Ok gs /\
      (* every trace in exactly one group *)
      Permutation (List.concat gs) s /\
      (* groups are the non-empty classes, in stream order *)
      (forall g, In g gs -> exists x, In x g /\
          exists p : T -> bool, (forall y, p y = true <-> same_group str_of key (look x) (look y)) /\ g = filter p s) /\
      (* groups in strictly increasing key order *)
      StronglySorted (fun g h => forall x y, In x g -> In y h -> group_before str_of key (look x) (look y)) gs.
  Proof.
    intros Hf. unfold iter_multiple.
    assert (ginv [] []) as Hi0. { split; [constructor | reflexivity]. }
    destruct (ginv_loop s [] [] Hi0 Hf) as [d [Hd Hi]]. rewrite Hd. simpl in *.
    set (ds := sort (fun a b : gkey * list T => gkey_leb (fst a) (fst b)) d).
    assert (Permutation ds d) as Hp by apply sort_perm.
    assert (filter (fun kv : gkey * list T => true) ds = ds) as Hfil.
    { clear. induction ds; simpl; congruence. }
    rewrite Hfil. eexists; split; [reflexivity|]. split; [|split].
    - rewrite <- (ginv_perm s d Hi).
      clear -Hp. induction Hp; simpl; try rewrite IHHp; auto.
      + rewrite !app_assoc. apply Permutation_app_tail, Permutation_app_comm.
      + etransitivity; eassumption.
    - intros g Hg. apply in_map_iff in Hg. destruct Hg as [[k g'] [Hs Hin]]. simpl in Hs; subst g'.
      apply (Permutation_in _ Hp) in Hin. apply (ginv_in _ _ _ _ Hi) in Hin. destruct Hin as [Hg Hne].
      destruct g as [|x g]; [congruence|].
      assert (gk x = k) as Hk.
      { assert (In x (grp k s)) as H by (rewrite <- Hg; left; reflexivity).
        apply filter_In in H. apply gkey_eqb_spec, H. }
      exists x. split; [left; reflexivity|].
      exists (fun y => gkey_eqb (gk y) k). split; [|exact Hg].
      intros y. rewrite gkey_eqb_spec, <- same_gk, Hk. split; congruence.
    - assert (StronglySorted (fun a b : gkey * list T => gkey_leb (fst a) (fst b) = true) ds) as Hsorted.
      { apply (sort_sorted (fun a b : gkey * list T => gkey_leb (fst a) (fst b))).
        - intros; apply gkey_leb_total.
        - intros a b c. apply gkey_leb_trans. }
      assert (NoDup (map fst ds)) as Hnd.
      { eapply Permutation_NoDup; [apply Permutation_map; symmetry; exact Hp | apply Hi]. }
      assert (forall k g x, In (k, g) ds -> In x g -> gk x = k /\ In x s) as Hel.
      { intros k g x H Hx. apply (Permutation_in _ Hp) in H. apply (ginv_in _ _ _ _ Hi) in H.
        destruct H as [-> _]. apply filter_In in Hx. split; [apply gkey_eqb_spec, Hx | apply Hx]. }
      rewrite Forall_forall in Hf.
      clearbody ds. clear -Hsorted Hnd Hel Hf.
      induction Hsorted as [|[k g] ds Hs IH Hall]; simpl; [constructor|].
      inversion Hnd as [|? ? Hn Hnd']; subst. constructor.
      + apply IH; [exact Hnd'|]. intros k2 g2 x H Hx. apply (Hel k2 g2); [right; exact H | exact Hx].
      + rewrite Forall_forall in *. intros h Hh x y Hx Hy.
        apply in_map_iff in Hh. destruct Hh as [[k2 h'] [E Hin]]. simpl in E; subst h'.
        destruct (Hel k g x (or_introl eq_refl) Hx) as [Ex Hxs].
        destruct (Hel k2 h y (or_intror Hin) Hy) as [Ey Hys].
        specialize (Hall _ Hin). simpl in Hall. subst k k2.
        apply gk_before; auto. intros Heq. apply Hn. rewrite Heq.
        apply in_map_iff. exists (gk y, h). auto.
  Qed.

  Theorem iter_multiple_missing (s : list T) n :
    ~ Forall (fun x => has_entry key (look x)) s ->
    iter_multiple look str_of s key n = Err KeyError.
  Proof. intros H. unfold iter_multiple. rewrite loop_err by exact H. reflexivity. Qed.

  Theorem iter_multiple_filter (s : list T) n gs :
    iter_multiple look str_of s key NAny = Ok gs ->
    iter_multiple look str_of s key n = Ok (filter (fun g => n_matches n (List.length g)) gs).
  Proof.
    unfold iter_multiple. destruct (foldM _ s []) as [d|e]; simpl; [|discriminate].
    intros H. inversion H as [H1]. f_equal.
    generalize (sort (fun a b : gkey * list T => gkey_leb (fst a) (fst b)) d). clear.
    intros l. induction l as [|[k g] l IH]; simpl; [reflexivity|].
    destruct (n_matches n (List.length g)); simpl; [f_equal|]; exact IH.
  Qed.
End Facts.

(** ids determine the codes *)
Lemma dot_app (a b : string) : (a ++ "." ++ b)%string = (a ++ String "." b)%string.
Proof. reflexivity. Qed.
Lemma id_prefix_inj (s t : stats) :
  char_in "." (network s) = false -> char_in "." (station s) = false -> char_in "." (location s) = false ->
  char_in "." (network t) = false -> char_in "." (station t) = false -> char_in "." (location t) = false ->
  channel s <> "" -> channel t <> "" ->
  droplast (stats_id s) = droplast (stats_id t) ->
  network s = network t /\ station s = station t /\ location s = location t /\
  droplast (channel s) = droplast (channel t).
Proof.
  intros H1 H2 H3 H4 H5 H6 H7 H8 H. unfold stats_id in H.
  assert (forall u, channel u <> "" ->
    droplast (network u ++ "." ++ station u ++ "." ++ location u ++ "." ++ channel u)%string =
    (network u ++ String "." (station u ++ String "." (location u ++ String "." (droplast (channel u)))))%string) as Hd.
  { intros u Hu.
    replace (network u ++ "." ++ station u ++ "." ++ location u ++ "." ++ channel u)%string
      with ((network u ++ "." ++ station u ++ "." ++ location u ++ ".") ++ channel u)%string
      by (rewrite !sapp_assoc; reflexivity).
    rewrite droplast_app by exact Hu. rewrite !sapp_assoc. reflexivity. }
  rewrite !Hd in H by assumption.
  apply sep_inj in H; auto. destruct H as [Hn H].
  apply sep_inj in H; auto. destruct H as [Hs H].
  apply sep_inj in H; auto.
Qed.
Lemma existsb_eqb_in n l : existsb (Nat.eqb n) l = true <-> In n l.
Proof.
  rewrite existsb_exists. split.
  - intros [x [Hx E]]. apply Nat.eqb_eq in E. subst. exact Hx.
  - intros H. exists n. split; [exact H | apply Nat.eqb_refl].
Qed.
