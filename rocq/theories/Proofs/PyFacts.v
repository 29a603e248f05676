(** Facts about the Python vocabulary. *)
From Verif Require Export Model.Py.

(** ** res *)
Lemma bind_ok {A B} (m : res A) (f : A -> res B) b :
  bind m f = Ok b -> exists a, m = Ok a /\ f a = Ok b.
Proof. destruct m as [a|e]; simpl; intros H; [eauto | discriminate]. Qed.

Lemma mapM_ok_length {A B} (f : A -> res B) l r : mapM f l = Ok r -> List.length r = List.length l.
Proof.
  revert r; induction l as [|x xs IH]; simpl; intros r H.
  - inversion H; reflexivity.
  - destruct (f x) as [y|e]; simpl in H; [|discriminate].
    destruct (mapM f xs) as [ys|e]; simpl in H; [|discriminate].
    inversion H; subst; simpl. f_equal. apply IH. reflexivity.
Qed.

Lemma mapM_ok_Forall2 {A B} (f : A -> res B) l r :
  mapM f l = Ok r <-> Forall2 (fun x y => f x = Ok y) l r.
Proof.
  revert r; induction l as [|x xs IH]; simpl; intros r; split; intros H.
  - inversion H; constructor.
  - inversion H; reflexivity.
  - destruct (f x) as [y|e] eqn:E; simpl in H; [|discriminate].
    destruct (mapM f xs) as [ys|e] eqn:E2; simpl in H; [|discriminate].
    inversion H; subst. constructor; [assumption|]. apply IH; reflexivity.
  - inversion H as [|? y ? ys Hy Hys]; subst. rewrite Hy. simpl.
    apply IH in Hys. rewrite Hys. reflexivity.
Qed.

Lemma mapM_map {A B} (f : A -> B) l : mapM (fun x => Ok (f x)) l = Ok (map f l).
Proof. induction l as [|x xs IH]; simpl; [reflexivity|]. rewrite IH. reflexivity. Qed.

Lemma foldM_app {A S} (f : S -> A -> res S) l1 l2 s :
  foldM f (l1 ++ l2) s = let! s' := foldM f l1 s in foldM f l2 s'.
Proof.
  revert s; induction l1 as [|x xs IH]; simpl; intros s; [reflexivity|].
  destruct (f s x); simpl; [apply IH | reflexivity].
Qed.

Lemma foldM_ok_fold {A S} (f : S -> A -> S) l s :
  foldM (fun s x => Ok (f s x)) l s = Ok (fold_left f l s).
Proof. revert s; induction l as [|x xs IH]; simpl; intros; [reflexivity | apply IH]. Qed.

(** ** dictionaries *)
Section DictFacts.
  Context {K A : Type} (eqb : K -> K -> bool).
  Hypothesis eqb_spec : forall a b, eqb a b = true <-> a = b.

  Lemma eqb_refl' a : eqb a a = true. Proof. apply eqb_spec; reflexivity. Qed.
  Lemma eqb_neq a b : a <> b -> eqb a b = false.
  Proof. intros H. destruct (eqb a b) eqn:E; [apply eqb_spec in E; contradiction | reflexivity]. Qed.

  Lemma aget_aset_eq (d : list (K * A)) k v : aget eqb (aset eqb d k v) k = Some v.
  Proof.
    induction d as [|[k' v'] d IH]; simpl.
    - rewrite eqb_refl'. reflexivity.
    - destruct (eqb k k') eqn:E; simpl; rewrite E; [reflexivity | exact IH].
  Qed.
  Lemma aget_aset_ne (d : list (K * A)) k k2 v : k <> k2 -> aget eqb (aset eqb d k v) k2 = aget eqb d k2.
  Proof.
    intros Hne. induction d as [|[k' v'] d IH]; simpl.
    - rewrite (eqb_neq k2 k) by congruence. reflexivity.
    - destruct (eqb k k') eqn:E; simpl.
      + apply eqb_spec in E; subst k'. rewrite (eqb_neq k2 k) by congruence. reflexivity.
      + destruct (eqb k2 k'); [reflexivity | exact IH].
  Qed.
  Lemma aget_None_notin (d : list (K * A)) k : aget eqb d k = None <-> ~ In k (map fst d).
  Proof.
    induction d as [|[k' v'] d IH]; simpl.
    - split; auto.
    - destruct (eqb k k') eqn:E.
      + apply eqb_spec in E; subst. split; [discriminate | intros H; exfalso; apply H; auto].
      + rewrite IH. split; intros H; [intros [H1|H1]; [subst; rewrite eqb_refl' in E; discriminate | auto] | tauto].
  Qed.
  Lemma aget_Some_in (d : list (K * A)) k v : aget eqb d k = Some v -> In (k, v) d.
  Proof.
    induction d as [|[k' v'] d IH]; simpl; intros H; [discriminate|].
    destruct (eqb k k') eqn:E.
    - apply eqb_spec in E; subst. inversion H; auto.
    - auto.
  Qed.
  Lemma in_aget (d : list (K * A)) k v : NoDup (map fst d) -> In (k, v) d -> aget eqb d k = Some v.
  Proof.
    induction d as [|[k' v'] d IH]; simpl; intros Hnd H; [contradiction|].
    inversion Hnd as [|? ? Hnin Hnd']; subst.
    destruct H as [H|H].
    - inversion H; subst. rewrite eqb_refl'. reflexivity.
    - rewrite eqb_neq; [apply IH; assumption|].
      intros ->. apply Hnin. apply in_map_iff. exists (k', v); auto.
  Qed.
  Lemma aset_fst_mem (d : list (K * A)) k v : In k (map fst d) -> map fst (aset eqb d k v) = map fst d.
  Proof.
    induction d as [|[k' v'] d IH]; simpl; intros H; [contradiction|].
    destruct (eqb k k') eqn:E; simpl; [reflexivity|].
    f_equal. apply IH. destruct H as [H|H]; [subst; rewrite eqb_refl' in E; discriminate | exact H].
  Qed.
  Lemma aset_fst_new (d : list (K * A)) k v : ~ In k (map fst d) -> aset eqb d k v = d ++ [(k, v)].
  Proof.
    induction d as [|[k' v'] d IH]; simpl; intros H; [reflexivity|].
    rewrite eqb_neq by (intros ->; apply H; auto). f_equal. apply IH. tauto.
  Qed.
  Lemma aset_NoDup (d : list (K * A)) k v : NoDup (map fst d) -> NoDup (map fst (aset eqb d k v)).
  Proof.
    intros H. destruct (aget eqb d k) eqn:E.
    - rewrite aset_fst_mem; [exact H|]. apply aget_Some_in in E. apply in_map_iff. exists (k, a); auto.
    - apply aget_None_notin in E. rewrite aset_fst_new by exact E. rewrite map_app. simpl.
      clear -H E. induction (map fst d) as [|x xs IH]; simpl.
      + constructor; [auto | constructor].
      + inversion H; subst. constructor.
        * rewrite in_app_iff. simpl in *. intros [H1|[H1|[]]]; [contradiction | subst; apply E; auto].
        * apply IH; [assumption | simpl in E; tauto].
  Qed.
  Lemma in_fst_aset (d : list (K * A)) k v k2 :
    In k2 (map fst (aset eqb d k v)) <-> k2 = k \/ In k2 (map fst d).
  Proof.
    destruct (aget eqb d k) eqn:E.
    - assert (In k (map fst d)) as Hin.
      { apply aget_Some_in in E. apply in_map_iff. exists (k, a); auto. }
      rewrite aset_fst_mem by exact Hin. split; [auto | intros [->|]; assumption].
    - apply aget_None_notin in E. rewrite aset_fst_new by exact E. rewrite map_app, in_app_iff. simpl.
      split; intros H; [destruct H as [H|[H|[]]]; auto | destruct H; auto].
  Qed.
  Lemma aget_adel_ne (d : list (K * A)) k k2 : k <> k2 -> aget eqb (adel eqb d k) k2 = aget eqb d k2.
  Proof.
    intros Hne. induction d as [|[k' v'] d IH]; simpl; [reflexivity|].
    destruct (eqb k k') eqn:E; simpl.
    - apply eqb_spec in E; subst k'. rewrite (eqb_neq k2 k) by congruence. reflexivity.
    - destruct (eqb k2 k'); [reflexivity | exact IH].
  Qed.
  Lemma aget_adel_eq (d : list (K * A)) k : NoDup (map fst d) -> aget eqb (adel eqb d k) k = None.
  Proof.
    induction d as [|[k' v'] d IH]; simpl; intros H; [reflexivity|].
    inversion H as [|? ? Hn Hnd]; subst.
    destruct (eqb k k') eqn:E; simpl.
    - apply eqb_spec in E; subst. apply aget_None_notin. exact Hn.
    - rewrite E. apply IH. exact Hnd.
  Qed.
  Lemma aupdate_get (d u : list (K * A)) k :
    NoDup (map fst u) ->
    aget eqb (aupdate eqb d u) k = match aget eqb u k with Some v => Some v | None => aget eqb d k end.
  Proof.
    unfold aupdate. revert d. induction u as [|[k' v'] u IH]; simpl; intros d H; [reflexivity|].
    inversion H as [|? ? Hn Hnd]; subst. rewrite IH by exact Hnd.
    destruct (eqb k k') eqn:E.
    - apply eqb_spec in E; subst. apply aget_None_notin in Hn. rewrite Hn. apply aget_aset_eq.
    - destruct (aget eqb u k); [reflexivity|]. apply aget_aset_ne. intros ->. rewrite eqb_refl' in E; discriminate.
  Qed.
End DictFacts.

Lemma str_eqb_spec a b : String.eqb a b = true <-> a = b.
Proof. apply String.eqb_eq. Qed.
Lemma dget_dset_eq {A} (d : dict A) k v : dget (dset d k v) k = Some v.
Proof. apply aget_aset_eq, str_eqb_spec. Qed.
Lemma dget_dset_ne {A} (d : dict A) k k2 v : k <> k2 -> dget (dset d k v) k2 = dget d k2.
Proof. apply aget_aset_ne, str_eqb_spec. Qed.
Lemma dget_dset {A} (d : dict A) k k2 v :
  dget (dset d k v) k2 = if String.eqb k k2 then Some v else dget d k2.
Proof.
  destruct (String.eqb_spec k k2); [subst; apply dget_dset_eq | apply dget_dset_ne; assumption].
Qed.
Lemma dget_ddel_ne {A} (d : dict A) k k2 : k <> k2 -> dget (ddel d k) k2 = dget d k2.
Proof. apply aget_adel_ne, str_eqb_spec. Qed.
Lemma dget_ddel_eq {A} (d : dict A) k : NoDup (map fst d) -> dget (ddel d k) k = None.
Proof. apply aget_adel_eq, str_eqb_spec. Qed.
Lemma dupdate_get {A} (d u : dict A) k :
  NoDup (map fst u) -> dget (dupdate d u) k = match dget u k with Some v => Some v | None => dget d k end.
Proof. apply aupdate_get, str_eqb_spec. Qed.
Lemma dset_NoDup {A} (d : dict A) k v : NoDup (map fst d) -> NoDup (map fst (dset d k v)).
Proof. apply aset_NoDup, str_eqb_spec. Qed.

(** ** sort *)
Section SortFacts.
  Context {A : Type} (leb : A -> A -> bool).
  Lemma insert_perm x l : Permutation (insert_sorted leb x l) (x :: l).
  Proof.
    induction l as [|y ys IH]; simpl; [reflexivity|].
    destruct (leb x y); [reflexivity|]. rewrite IH. apply perm_swap.
  Qed.
  Lemma sort_perm l : Permutation (sort leb l) l.
  Proof. induction l as [|x xs IH]; simpl; [reflexivity|]. rewrite insert_perm, IH. reflexivity. Qed.
  Hypothesis leb_total : forall a b, leb a b = true \/ leb b a = true.
  Hypothesis leb_trans : forall a b c, leb a b = true -> leb b c = true -> leb a c = true.
  Lemma insert_sorted_ok x l :
    StronglySorted (fun a b => leb a b = true) l ->
    StronglySorted (fun a b => leb a b = true) (insert_sorted leb x l).
  Proof.
    induction 1 as [|y ys Hs IH Hf]; simpl.
    - constructor; constructor.
    - destruct (leb x y) eqn:E.
      + constructor; [constructor; assumption|]. constructor; [exact E|].
        rewrite Forall_forall in *. intros z Hz. eapply leb_trans; [exact E | apply Hf, Hz].
      + constructor; [exact IH|]. rewrite Forall_forall in *. intros z Hz.
        apply (Permutation_in z (insert_perm x ys)) in Hz. destruct Hz as [Hz|Hz]; [subst z | auto].
        destruct (leb_total x y) as [H|H]; [rewrite H in E; discriminate | exact H].
  Qed.
  Lemma sort_sorted l : StronglySorted (fun a b => leb a b = true) (sort leb l).
  Proof. induction l as [|x xs IH]; simpl; [constructor | apply insert_sorted_ok, IH]. Qed.

  (** a sorted list is determined by its elements if leb is antisymmetric *)
  Hypothesis leb_antisym : forall a b, leb a b = true -> leb b a = true -> a = b.
  Lemma sorted_perm_eq l1 l2 :
    StronglySorted (fun a b => leb a b = true) l1 ->
    StronglySorted (fun a b => leb a b = true) l2 ->
    Permutation l1 l2 -> l1 = l2.
  Proof.
    intros H1. revert l2. induction H1 as [|x xs Hs IH Hf]; intros l2 H2 Hp.
    - apply Permutation_nil in Hp. auto.
    - destruct l2 as [|y ys]; [apply Permutation_sym, Permutation_nil in Hp; discriminate|].
      inversion H2 as [|? ? Hs2 Hf2]; subst.
      assert (x = y) as ->.
      { rewrite Forall_forall in *.
        assert (In y (x :: xs)) as Hy by (eapply Permutation_in; [symmetry; exact Hp | left; reflexivity]).
        assert (In x (y :: ys)) as Hx by (eapply Permutation_in; [exact Hp | left; reflexivity]).
        destruct Hy as [Hy|Hy]; [auto|]. destruct Hx as [Hx|Hx]; [auto|].
        apply leb_antisym; auto. }
      f_equal. apply IH; [assumption|]. eapply Permutation_cons_inv; exact Hp.
  Qed.
  Lemma sort_unique l1 l2 : Permutation l1 l2 -> sort leb l1 = sort leb l2.
  Proof.
    intros H. apply sorted_perm_eq; try apply sort_sorted.
    rewrite !sort_perm. exact H.
  Qed.
End SortFacts.

(** ** string order *)
Lemma ascii_compare_refl a : Ascii.compare a a = Eq.
Proof. unfold Ascii.compare. apply N.compare_refl. Qed.
Lemma str_compare_refl s : String.compare s s = Eq.
Proof. induction s as [|a s IH]; simpl; [reflexivity|]. rewrite ascii_compare_refl. exact IH. Qed.
Lemma ascii_compare_lt_trans a b c : Ascii.compare a b = Lt -> Ascii.compare b c = Lt -> Ascii.compare a c = Lt.
Proof. unfold Ascii.compare. rewrite !N.compare_lt_iff. lia. Qed.
Lemma str_compare_lt_trans s t u : String.compare s t = Lt -> String.compare t u = Lt -> String.compare s u = Lt.
Proof.
  revert t u. induction s as [|a s IH]; intros [|b t] [|c u]; simpl; try congruence.
  destruct (Ascii.compare a b) eqn:E1; try congruence; intros H1;
  destruct (Ascii.compare b c) eqn:E2; try congruence; intros H2.
  - apply Ascii.compare_eq_iff in E1, E2. subst. rewrite ascii_compare_refl. eauto.
  - apply Ascii.compare_eq_iff in E1. subst. rewrite E2. reflexivity.
  - apply Ascii.compare_eq_iff in E2. subst. rewrite E1. reflexivity.
  - rewrite (ascii_compare_lt_trans _ _ _ E1 E2). reflexivity.
Qed.
Lemma str_leb_refl s : String.leb s s = true.
Proof. unfold String.leb. rewrite str_compare_refl. reflexivity. Qed.
Lemma str_leb_trans s t u : String.leb s t = true -> String.leb t u = true -> String.leb s u = true.
Proof.
  unfold String.leb.
  destruct (String.compare s t) eqn:E1; try discriminate; intros _;
  destruct (String.compare t u) eqn:E2; try discriminate; intros _.
  - apply String.compare_eq_iff in E1, E2. subst. rewrite str_compare_refl. reflexivity.
  - apply String.compare_eq_iff in E1. subst. rewrite E2. reflexivity.
  - apply String.compare_eq_iff in E2. subst. rewrite E1. reflexivity.
  - rewrite (str_compare_lt_trans _ _ _ E1 E2). reflexivity.
Qed.

(** ** dedup *)
Section DedupFacts.
  Context {A : Type} (eqb : A -> A -> bool).
  Hypothesis eqb_spec : forall a b, eqb a b = true <-> a = b.
  Lemma dedup_in x l : In x (dedup eqb l) <-> In x l.
  Proof.
    induction l as [|y ys IH]; simpl; [tauto|].
    destruct (existsb (eqb y) (dedup eqb ys)) eqn:E.
    - rewrite IH. split; [auto|]. intros [->|H]; [|exact H].
      apply existsb_exists in E. destruct E as [z [Hz Heq]]. apply eqb_spec in Heq. subst. apply IH, Hz.
    - simpl. rewrite IH. tauto.
  Qed.
  Lemma dedup_NoDup l : NoDup (dedup eqb l).
  Proof.
    induction l as [|y ys IH]; simpl; [constructor|].
    destruct (existsb (eqb y) (dedup eqb ys)) eqn:E; [exact IH|].
    constructor; [|exact IH]. intros H.
    assert (existsb (eqb y) (dedup eqb ys) = true) as H2.
    { apply existsb_exists. exists y. split; [exact H | apply eqb_spec; reflexivity]. }
    congruence.
  Qed.
End DedupFacts.

(** ** string facts *)
Lemma sapp_assoc (a b c : string) : ((a ++ b) ++ c = a ++ (b ++ c))%string.
Proof. induction a as [|x a IH]; simpl; [reflexivity|]. now rewrite IH. Qed.
Lemma sapp_nil (a : string) : (a ++ "" = a)%string.
Proof. induction a as [|x a IH]; simpl; [reflexivity|]. now rewrite IH. Qed.
Lemma sapp_inj_l (a b c : string) : (a ++ b = a ++ c -> b = c)%string.
Proof. induction a as [|x a IH]; simpl; intros H; [exact H|]. inversion H; auto. Qed.
Lemma char_in_app c (a b : string) : char_in c (a ++ b)%string = char_in c a || char_in c b.
Proof. induction a as [|x a IH]; simpl; [reflexivity|]. rewrite IH, orb_assoc. reflexivity. Qed.
Lemma ascii_eqb_eq a b : Ascii.eqb a b = true <-> a = b.
Proof. destruct (Ascii.eqb_spec a b); split; congruence. Qed.
(** splitting at the first separator is unique *)
Lemma sep_inj c (a b x y : string) :
  char_in c a = false -> char_in c b = false ->
  (a ++ String c x = b ++ String c y)%string -> a = b /\ x = y.
Proof.
  revert b. induction a as [|p a IH]; intros [|q b]; simpl; intros Ha Hb H.
  - inversion H; auto.
  - inversion H; subst. rewrite Ascii.eqb_refl in Hb. discriminate.
  - inversion H; subst. rewrite Ascii.eqb_refl in Ha. discriminate.
  - inversion H; subst. apply orb_false_iff in Ha, Hb.
    destruct (IH b) as [-> ->]; tauto.
Qed.
Lemma droplast_app (a b : string) : b <> "" -> droplast (a ++ b)%string = (a ++ droplast b)%string.
Proof.
  intros Hb. induction a as [|x a IH]; simpl; [reflexivity|].
  destruct (a ++ b)%string eqn:E.
  - destruct a; simpl in E; [contradiction | discriminate].
  - rewrite IH. reflexivity.
Qed.
Lemma split_on_no c s : char_in c s = false -> split_on c s = [s].
Proof.
  induction s as [|a s IH]; simpl; [reflexivity|]. intros H. apply orb_false_iff in H. destruct H as [H1 H2].
  destruct (Ascii.eqb_spec a c) as [->|Hne]; [rewrite Ascii.eqb_refl in H1; discriminate|].
  rewrite IH by exact H2. reflexivity.
Qed.
Lemma split_on_sep c a s : char_in c a = false -> split_on c (a ++ String c s)%string = a :: split_on c s.
Proof.
  induction a as [|x a IH]; simpl; intros H.
  - rewrite Ascii.eqb_refl. reflexivity.
  - apply orb_false_iff in H. destruct H as [H1 H2].
    destruct (Ascii.eqb_spec x c) as [->|Hne]; [rewrite Ascii.eqb_refl in H1; discriminate|].
    rewrite IH by exact H2. reflexivity.
Qed.
Lemma split_on_nonempty c s : split_on c s <> [].
Proof.
  destruct s as [|a s]; simpl; [discriminate|].
  destruct (Ascii.eqb a c); [discriminate|]. destruct (split_on c s); discriminate.
Qed.
Lemma str_join_cons sep x xs : xs <> [] -> str_join sep (x :: xs) = (x ++ sep ++ str_join sep xs)%string.
Proof. destruct xs; [contradiction | reflexivity]. Qed.
Lemma split_join c s : str_join (char_str c) (split_on c s) = s.
Proof.
  induction s as [|a s IH]; [reflexivity|]. cbn [split_on].
  destruct (Ascii.eqb_spec a c) as [->|Hne].
  - rewrite str_join_cons by apply split_on_nonempty. rewrite IH. reflexivity.
  - destruct (split_on c s) as [|w ws] eqn:E; [exfalso; eapply split_on_nonempty; exact E|].
    destruct ws as [|w2 ws]; cbn [str_join] in *; simpl in *; rewrite IH; reflexivity.
Qed.

(** ** lists *)
Lemma Forall2_impl {A B} (P Q : A -> B -> Prop) l r :
  (forall a b, P a b -> Q a b) -> Forall2 P l r -> Forall2 Q l r.
Proof. intros H. induction 1; constructor; auto. Qed.
Lemma Forall2_in_r {A B} (P : A -> B -> Prop) l r b :
  Forall2 P l r -> In b r -> exists a, In a l /\ P a b.
Proof.
  induction 1 as [|x y l r Hxy HF IH]; simpl; intros Hin; [contradiction|].
  destruct Hin as [<-|Hin]; [eauto|]. destruct (IH Hin) as [a [Ha Hab]]. eauto.
Qed.
Lemma Forall2_in_l {A B} (P : A -> B -> Prop) l r a :
  Forall2 P l r -> In a l -> exists b, In b r /\ P a b.
Proof.
  induction 1 as [|x y l r Hxy HF IH]; simpl; intros Hin; [contradiction|].
  destruct Hin as [<-|Hin]; [eauto|]. destruct (IH Hin) as [b [Hb Hab]]. eauto.
Qed.
Lemma StronglySorted_NoDup {A B} (R : A -> A -> Prop) (f : A -> B) l :
  StronglySorted R l -> NoDup (map f l) -> StronglySorted (fun a b => R a b /\ f a <> f b) l.
Proof.
  induction 1 as [|x l Hs IH Hf]; simpl; intros Hnd; constructor; inversion Hnd as [|? ? Hn Hnd']; subst; auto.
  rewrite Forall_forall in *. intros y Hy. split; [auto|]. intros E. apply Hn. rewrite E. apply in_map, Hy.
Qed.
Lemma StronglySorted_impl {A} (R S : A -> A -> Prop) l :
  (forall a b, In a l -> In b l -> R a b -> S a b) -> StronglySorted R l -> StronglySorted S l.
Proof.
  intros H Hs. induction Hs as [|x l Hs IH Hf]; constructor.
  - apply IH. intros a b Ha Hb. apply H; right; assumption.
  - rewrite Forall_forall in *. intros y Hy. apply H; [left; reflexivity | right; exact Hy | auto].
Qed.
(** stability: sorting a list that is sorted by R keeps R among equals *)
Section Stable.
  Context {A : Type} (leb : A -> A -> bool) (R : A -> A -> Prop).
  Hypothesis leb_total : forall a b, leb a b = true \/ leb b a = true.
  Hypothesis leb_trans : forall a b c, leb a b = true -> leb b c = true -> leb a c = true.
  Let L a b := leb a b = true /\ (leb b a = true -> R a b).
  Lemma insert_stable x l :
    StronglySorted L l -> Forall (R x) l -> StronglySorted L (insert_sorted leb x l).
  Proof.
    intros Hs. induction Hs as [|y l Hs IH Hf]; simpl; intros HR.
    - constructor; constructor.
    - inversion HR as [|? ? Hxy Hxl]; subst. destruct (leb x y) eqn:E.
      + constructor; [constructor; assumption|].
        rewrite Forall_forall in *. intros z [<-|Hz]; [split; auto|].
        split; [eapply leb_trans; [exact E | apply Hf, Hz] | intros _; apply HR; right; exact Hz].
      + constructor; [apply IH, Hxl|]. rewrite Forall_forall in *. intros z Hz.
        apply (Permutation_in z (insert_perm leb x l)) in Hz. destruct Hz as [<-|Hz]; [|auto].
        split; [destruct (leb_total x y); congruence | congruence].
  Qed.
  Lemma sort_stable l : StronglySorted R l -> StronglySorted L (sort leb l).
  Proof.
    induction 1 as [|x l Hs IH Hf]; simpl; [constructor|].
    apply insert_stable; [exact IH|]. rewrite Forall_forall in *. intros y Hy.
    apply Hf. eapply Permutation_in; [apply sort_perm | exact Hy].
  Qed.
End Stable.
Lemma strict_sorted_ext {A} (lt : A -> A -> Prop) l1 l2 :
  (forall a, ~ lt a a) -> (forall a b c, lt a b -> lt b c -> lt a c) ->
  StronglySorted lt l1 -> StronglySorted lt l2 -> (forall x, In x l1 <-> In x l2) -> l1 = l2.
Proof.
  intros Hirr Htr H1. revert l2. induction H1 as [|x l1 Hs1 IH Hf1]; intros l2 H2 Hin.
  - destruct l2 as [|y l2]; [reflexivity|]. exfalso. apply (Hin y). left; reflexivity.
  - inversion H2 as [|y l2' Hs2 Hf2]; subst.
    + exfalso. apply (Hin x). left; reflexivity.
    + rewrite Forall_forall in *.
      assert (x = y) as ->.
      { destruct (proj1 (Hin x) (or_introl eq_refl)) as [E|Hx]; [auto|].
        destruct (proj2 (Hin y) (or_introl eq_refl)) as [E|Hy]; [auto|].
        exfalso. apply (Hirr x). eapply Htr; [apply Hf1, Hy | apply Hf2, Hx]. }
      f_equal. apply IH; [exact Hs2|]. intros z. split; intros Hz.
      * destruct (proj1 (Hin z) (or_intror Hz)) as [<-|H]; [|exact H]. exfalso. apply (Hirr y), Hf1, Hz.
      * destruct (proj2 (Hin z) (or_intror Hz)) as [<-|H]; [|exact H]. exfalso. apply (Hirr y), Hf2, Hz.
Qed.
Lemma StronglySorted_map {A B} (R : B -> B -> Prop) (f : A -> B) l :
  StronglySorted (fun a b => R (f a) (f b)) l -> StronglySorted R (map f l).
Proof.
  induction 1 as [|x l Hs IH Hf]; simpl; constructor; [exact IH|].
  rewrite Forall_forall in *. intros y Hy. apply in_map_iff in Hy. destruct Hy as [z [<- Hz]]. auto.
Qed.
Lemma map_eq_Forall2 {A B} (f : A -> B) l1 l2 :
  map f l1 = map f l2 -> Forall2 (fun a b => In a l1 /\ In b l2 /\ f a = f b) l1 l2.
Proof.
  revert l2. induction l1 as [|x l1 IH]; intros [|y l2]; simpl; intros H; try discriminate; constructor.
  - inversion H; auto.
  - inversion H. eapply Forall2_impl; [|apply IH; assumption]. intros a b (H3 & H4 & H5). auto.
Qed.
