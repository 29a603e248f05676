(** Rotation and deconvolution of the groups of rf(). *)
From Verif Require Import Model.Rotate Spec.TimeSpec Spec.IterSpec Spec.RfSpec Spec.DeconvSpec Spec.RotateSpec
  Proofs.PyFacts Proofs.RfFacts Proofs.IterFacts Proofs.DeconvFacts Proofs.EventFacts Proofs.TimeFacts.
From Coq Require Import Lia Permutation Sorted.
Notation length := List.length.

(** ** groups are treated independently *)
(** f changes traces of the group only *)
Definition confined (f : list loc -> heap -> heap * res unit) (ok : list loc -> heap -> Prop) : Prop :=
  forall g h h1, ok g h -> f g h = (h1, Ok tt) -> forall l, ~ In l g -> h1 l = h l.
Lemma scompare_irr s : String.compare s s <> Lt.
Proof. intros H. pose proof (String.compare_antisym s s) as A. rewrite H in A. discriminate. Qed.
Lemma before_irr str_of key t : ~ group_before str_of key t t.
Proof. intros [H|(_ & a & b & A & B & H)]; [exact (scompare_irr _ H)|]. rewrite A in B. injection B as ->. exact (scompare_irr _ H). Qed.
Lemma sorted_disjoint str_of (h : heap) (gs : list (list loc)) g : StronglySorted (fun g g' => forall x y, In x g -> In y g' -> group_before str_of (Some "onset") (h x) (h y)) (g :: gs) ->
  forall g' x, In g' gs -> In x g' -> ~ In x g.
Proof.
  intros S g' x Hg Hx Hin. apply StronglySorted_inv in S. destruct S as [_ F]. rewrite Forall_forall in F.
  exact (before_irr _ _ _ (F g' Hg x x Hin Hx)).
Qed.
Lemma applied_local str_of f ok (h0 : heap) gs : forall h h',
  confined f ok -> (forall g h h1, (forall l, In l g -> h1 l = h l) -> ok g h -> ok g h1) -> (forall g, In g gs -> ok g h) ->
  StronglySorted (fun g g' => forall x y, In x g -> In y g' -> group_before str_of (Some "onset") (h0 x) (h0 y)) gs ->
  applied f gs h h' ->
  (forall g, In g gs -> exists h1 h2, (forall l, In l g -> h1 l = h l) /\ f g h1 = (h2, Ok tt) /\ forall l, In l g -> h' l = h2 l) /\
  (forall l, (forall g, In g gs -> ~ In l g) -> h' l = h l).
Proof.
  induction gs as [|g gs IH]; intros h h' Hc Hok Hall Hs Ha; inversion Ha as [?|? ? ? h1 ? E A]; subst.
  - split; [intros g []|reflexivity].
  - pose proof (sorted_disjoint _ _ _ _ Hs) as Dis. pose proof (proj1 (StronglySorted_inv Hs)) as Hs'.
    assert (Fr : forall g' l, In g' gs -> In l g' -> h1 l = h l).
    { intros g' l Hg Hl. apply (Hc g h h1); [apply Hall; left; reflexivity|exact E|]. exact (Dis g' l Hg Hl). }
    destruct (IH h1 h' Hc Hok) as [I1 I2]; [|exact Hs'|exact A|].
    { intros g' Hg. apply (Hok g' h h1); [intros l Hl; exact (Fr g' l Hg Hl)|]. apply Hall. right; exact Hg. }
    split.
    + intros g' [<-|Hg].
      * exists h, h1. split; [reflexivity|]. split; [exact E|]. intros l Hl. apply I2. intros g' Hg Hl'. exact (Dis g' l Hg Hl' Hl).
      * destruct (I1 g' Hg) as (x & y & X1 & X2 & X3). exists x, y. split; [|split; assumption].
        intros l Hl. rewrite X1 by exact Hl. exact (Fr g' l Hg Hl).
    + intros l Hl. rewrite I2 by (intros g' Hg; apply Hl; right; exact Hg).
      apply (Hc g h h1); [apply Hall; left; reflexivity|exact E|]. apply Hl. left; reflexivity.
Qed.

(** ** rotation *)
Lemma endswith_last s c : endswith_char s c = true <-> last_char s = Some c.
Proof.
  unfold endswith_char. destruct (last_char s) as [a|]; [|split; discriminate].
  rewrite Ascii.eqb_eq. split; [intros ->; reflexivity | intros [= ->]; reflexivity].
Qed.
Lemma zip3_length f a b c n : length a = n -> length b = n -> length c = n -> length (zip3 f a b c) = n.
Proof. intros A B C. unfold zip3. rewrite map_length, !combine_length. lia. Qed.
Lemma zip2_length f a b n : length a = n -> length b = n -> length (zip2 f a b) = n.
Proof. intros A B. unfold zip2. rewrite map_length, combine_length. lia. Qed.
Lemma zip3_nth f a b c n j : length a = n -> length b = n -> length c = n -> j < n ->
  nth j (zip3 f a b c) 0%Q = f (nth j a 0%Q) (nth j b 0%Q) (nth j c 0%Q).
Proof.
  intros A B C Hj. unfold zip3.
  set (F := fun x : Q * (Q * Q) => _). rewrite (nth_indep _ 0%Q (F (0%Q, (0%Q, 0%Q)))) by (rewrite map_length, !combine_length; lia).
  rewrite map_nth. rewrite combine_nth by (rewrite combine_length; lia). rewrite combine_nth by lia. reflexivity.
Qed.
Lemma zip2_nth f a b n j : length a = n -> length b = n -> j < n -> nth j (zip2 f a b) 0%Q = f (nth j a 0%Q) (nth j b 0%Q).
Proof.
  intros A B Hj. unfold zip2.
  set (F := fun x : Q * Q => _). rewrite (nth_indep _ 0%Q (F (0%Q, 0%Q))) by (rewrite map_length, combine_length; lia).
  rewrite map_nth. rewrite combine_nth by lia. reflexivity.
Qed.
(** the traces of a group which end in c *)
Lemma filter_perm_single {A} (p : A -> bool) l x : (forall y, In y l -> p y = true <-> y = x) -> In x l -> NoDup l -> filter p l = [x].
Proof.
  induction l as [|a l IH]; intros H Hin Hnd; [destruct Hin|]. inversion Hnd as [|? ? Hn Hnd']; subst. cbn [filter].
  destruct Hin as [->|Hin].
  - rewrite (proj2 (H x (or_introl eq_refl)) eq_refl). f_equal.
    destruct (filter p l) as [|y l'] eqn:E; [reflexivity|exfalso].
    assert (Hy : In y (filter p l)) by (rewrite E; left; reflexivity). apply filter_In in Hy. destruct Hy as [Hy Py].
    apply (H y (or_intror Hy)) in Py. subst. contradiction.
  - destruct (p a) eqn:Pa; [exfalso; apply (H a (or_introl eq_refl)) in Pa; subst; contradiction|].
    apply IH; [intros y Hy; apply H; right; exact Hy|exact Hin|exact Hnd'].
Qed.
Lemma with_comp_single h c g x : (forall y, In y g -> endswith_char (channel (st (h y))) c = true <-> y = x) -> In x g -> NoDup g -> with_comp h c g = [x].
Proof. intros H. apply filter_perm_single. exact H. Qed.
Lemma dget_same {V} (d : dict V) k v k' : dget d k = Some v -> dget (dset d k v) k' = dget d k'.
Proof.
  intros H. destruct (String.eqb_spec k k') as [<-|N]; [rewrite dget_dset_eq; symmetry; exact H|]. apply dget_dset_ne. congruence.
Qed.
(** what is the same after rotation *)
Definition kept (t t' : trace) : Prop :=
  droplast (tr_id t') = droplast (tr_id t) /\ (channel (st t) <> "" -> channel (st t') <> "") /\
  same_entries_but ["back_azimuth"; "inclination"] t' t.
Lemma kept_refl t : kept t t. Proof. split; [reflexivity|]. split; [auto|]. intros k _. reflexivity. Qed.
Lemma kept_trans a b c : kept a b -> kept b c -> kept a c.
Proof.
  intros (A1 & A2 & A3) (B1 & B2 & B3). split; [congruence|]. split; [auto|]. intros k Hk. rewrite B3, A3 by exact Hk. reflexivity.
Qed.
Lemma sapp_nonempty a b : b <> "" -> (a ++ b)%string <> "". Proof. destruct a; [auto|discriminate]. Qed.
Lemma stats_id_relabel t c d : channel (st t) <> "" -> c <> "" -> droplast c = "" -> droplast (tr_id (relabel c d t)) = droplast (tr_id t).
Proof.
  intros Hc Hn Hd. unfold tr_id, stats_id, relabel. cbn [st network station location channel].
  repeat (rewrite droplast_app by (repeat (apply sapp_nonempty); first [assumption | discriminate])).
  rewrite Hd. rewrite sapp_nil. reflexivity.
Qed.
Lemma with_comp_in h c g l : In l (with_comp h c g) -> In l g /\ endswith_char (channel (st (h l))) c = true.
Proof. apply filter_In. Qed.
Lemma endswith_nonempty s c : endswith_char s c = true -> s <> "".
Proof. intros H ->. discriminate. Qed.
Lemma kept_relabel t c d b : endswith_char (channel (st t)) b = true -> c <> "" -> droplast c = "" -> kept t (relabel c d t).
Proof.
  intros Hb Hc Hd. pose proof (endswith_nonempty _ _ Hb) as Hn. split; [apply stats_id_relabel; assumption|]. split.
  - intros _. apply sapp_nonempty, Hc.
  - intros k _. reflexivity.
Qed.
Lemma kept_angle t k v : In k ["back_azimuth"; "inclination"] -> kept t (set_extra t k v).
Proof.
  intros Hk. split; [reflexivity|]. split; [auto|]. intros k' Hk'. unfold set_extra. cbn [st extra]. apply dget_dset_ne. intros ->. contradiction.
Qed.
Section Rot.
  Variables cosd sind : Q -> Q.
  Variable inc : list trace -> res unit.
  Lemma lqt_frame g h h1 r : rotate_lqt cosd sind inc g h = (h1, r) -> (forall l, ~ In l g -> h1 l = h l) /\ (forall l, kept (h l) (h1 l)).
  Proof.
    assert (Same : (forall l, ~ In l g -> h l = h l) /\ (forall l, kept (h l) (h l))) by (split; [reflexivity|]; intros; apply kept_refl).
    unfold rotate_lqt. destruct (with_comp h "Z" g) as [|z [|]] eqn:Ez; try (intros [= <- <-]; exact Same).
    destruct (with_comp h "N" g) as [|n [|]] eqn:En; try (intros [= <- <-]; exact Same).
    destruct (with_comp h "E" g) as [|e [|]] eqn:Ee; try (intros [= <- <-]; exact Same).
    assert (Z1 : In z g /\ endswith_char (channel (st (h z))) "Z" = true) by (apply with_comp_in; rewrite Ez; left; reflexivity).
    assert (N1 : In n g /\ endswith_char (channel (st (h n))) "N" = true) by (apply with_comp_in; rewrite En; left; reflexivity).
    assert (E1 : In e g /\ endswith_char (channel (st (h e))) "E" = true) by (apply with_comp_in; rewrite Ee; left; reflexivity).
    destruct g as [|l0 g]; [intros [= <- <-]; exact Same|].
    destruct (dget (extra (st (h l0))) "back_azimuth") as [[]|]; try (intros [= <- <-]; exact Same).
    destruct (dget (extra (st (h l0))) "inclination") as [[]|]; try (intros [= <- <-]; exact Same).
    destruct (_ && _); [|intros [= <- <-]; exact Same]. cbv zeta. intros [= <- <-]. split.
    - intros l Hl. rewrite !hset_ne; [reflexivity|..]; intros ->; tauto.
    - intros l. unfold hset.
      destruct (Nat.eqb_spec l e) as [->|]; [|destruct (Nat.eqb_spec l n) as [->|]; [|destruct (Nat.eqb_spec l z) as [->|]; [|apply kept_refl]]];
        (eapply kept_trans; [|apply kept_angle; right; left; reflexivity]; eapply kept_trans; [|apply kept_angle; left; reflexivity];
         eapply kept_relabel; [eassumption || apply E1 || apply N1 || apply Z1|discriminate|reflexivity]).
  Qed.
  Lemma rt_frame g h h1 r : rotate_rt cosd sind inc g h = (h1, r) -> (forall l, ~ In l g -> h1 l = h l) /\ (forall l, kept (h l) (h1 l)).
  Proof.
    assert (Same : (forall l, ~ In l g -> h l = h l) /\ (forall l, kept (h l) (h l))) by (split; [reflexivity|]; intros; apply kept_refl).
    unfold rotate_rt.
    destruct (with_comp h "N" g) as [|n [|]] eqn:En; try (intros [= <- <-]; exact Same).
    destruct (with_comp h "E" g) as [|e [|]] eqn:Ee; try (intros [= <- <-]; exact Same).
    assert (N1 : In n g /\ endswith_char (channel (st (h n))) "N" = true) by (apply with_comp_in; rewrite En; left; reflexivity).
    assert (E1 : In e g /\ endswith_char (channel (st (h e))) "E" = true) by (apply with_comp_in; rewrite Ee; left; reflexivity).
    destruct g as [|l0 g]; [intros [= <- <-]; exact Same|].
    destruct (dget (extra (st (h l0))) "back_azimuth") as [[]|]; try (intros [= <- <-]; exact Same).
    destruct (same_span _ _); [|intros [= <- <-]; exact Same]. cbv zeta. intros [= <- <-]. split.
    - intros l Hl. rewrite !hset_ne; [reflexivity|..]; intros ->; tauto.
    - intros l. unfold hset.
      destruct (Nat.eqb_spec l e) as [->|]; [|destruct (Nat.eqb_spec l n) as [->|]; [|apply kept_refl]];
        (eapply kept_trans; [|apply kept_angle; left; reflexivity]; eapply kept_relabel; [apply E1 || apply N1|discriminate|reflexivity]).
  Qed.
End Rot.

(** ** the samples after rotation *)
Lemma ends_unique s a b : endswith_char s a = true -> endswith_char s b = true -> a = b.
Proof. rewrite !endswith_last. congruence. Qed.
(** a group of three traces *)
Definition triple (h : heap) (g : list loc) (z n e : loc) (b i : Q) : Prop :=
  Permutation g [z; n; e] /\ NoDup g /\
  endswith_char (channel (st (h z))) "Z" = true /\ endswith_char (channel (st (h n))) "N" = true /\
  endswith_char (channel (st (h e))) "E" = true /\
  forall l, In l [z; n; e] ->
    dget (extra (st (h l))) "back_azimuth" = Some (VNum b) /\ dget (extra (st (h l))) "inclination" = Some (VNum i) /\
    starttime (st (h l)) = starttime (st (h z)) /\ delta (st (h l)) = delta (st (h z)) /\
    length (data (h l)) = length (data (h z)).
Lemma triple_comps h g z n e b i : triple h g z n e b i -> with_comp h "Z" g = [z] /\ with_comp h "N" g = [n] /\ with_comp h "E" g = [e].
Proof.
  intros (P & Nd & Cz & Cn & Ce & _).
  assert (In1 : forall y, In y g -> y = z \/ y = n \/ y = e).
  { intros y Hy. apply (Permutation_in y P) in Hy. cbn in Hy. intuition. }
  assert (Hin : forall y, In y [z; n; e] -> In y g) by (intros y; apply Permutation_in, Permutation_sym, P).
  repeat split; apply with_comp_single; try exact Nd; try (apply Hin; cbn; tauto);
    intros y Hy; (split; [|intros ->; assumption]); intros Hc; destruct (In1 y Hy) as [->|[->| ->]]; try reflexivity; exfalso;
    match goal with A : endswith_char ?s ?a = true, B : endswith_char ?s ?b = true |- _ => pose proof (ends_unique s a b A B); discriminate end.
Qed.
Lemma triple_head h g z n e b i : triple h g z n e b i -> exists l0 g', g = l0 :: g' /\ In l0 [z; n; e].
Proof.
  intros (P & _). destruct g as [|l0 g']; [apply Permutation_nil in P; discriminate|]. exists l0, g'. split; [reflexivity|].
  eapply Permutation_in; [exact P|]. left; reflexivity.
Qed.
Lemma triple_span h g z n e b i l m : (0 <= delta (st (h z)))%Z -> triple h g z n e b i -> In l [z; n; e] -> In m [z; n; e] -> same_span (h l) (h m) = true.
Proof.
  intros Hd (_ & _ & _ & _ & _ & H) Hl Hm. destruct (H l Hl) as (_ & _ & A1 & A2 & A3), (H m Hm) as (_ & _ & B1 & B2 & B3).
  unfold same_span. rewrite A1, A2, A3, B1, B2, B3, Nat.eqb_refl, Z.eqb_refl, Z.sub_diag. cbn [Z.abs]. rewrite Z.mul_0_r.
  rewrite (proj2 (Z.leb_le _ _) Hd). reflexivity.
Qed.
Lemma triple_distinct h g z n e b i : triple h g z n e b i -> z <> n /\ z <> e /\ n <> e.
Proof.
  intros (P & Nd & _). assert (N : NoDup [z; n; e]) by (eapply Permutation_NoDup; eassumption).
  inversion N as [|? ? A N']; subst. inversion N' as [|? ? B _]; subst. cbn in A, B. intuition.
Qed.
Lemma turned_relabel t c d b i f : 
  dget (extra (st t)) "back_azimuth" = Some (VNum b) -> dget (extra (st t)) "inclination" = Some (VNum i) ->
  length d = length (data t) -> (forall j, j < length (data t) -> (nth j d 0 == f j)%Q) ->
  turned [] t (set_extra (set_extra (relabel (String c "") d t) "back_azimuth" (VNum b)) "inclination" (VNum i)) c f.
Proof.
  intros Hb Hi Hl Hf. unfold turned, set_extra, relabel. cbn [st network station location channel starttime delta extra data]. repeat (split; [reflexivity|]). split; [|split; assumption].
  intros k _. cbn [st extra]. rewrite dget_same; [apply dget_same, Hb|]. rewrite dget_dset_ne by discriminate. exact Hi.
Qed.
Lemma turned_relabel1 t c d b f : 
  dget (extra (st t)) "back_azimuth" = Some (VNum b) ->
  length d = length (data t) -> (forall j, j < length (data t) -> (nth j d 0 == f j)%Q) ->
  turned [] t (set_extra (relabel (String c "") d t) "back_azimuth" (VNum b)) c f.
Proof.
  intros Hb Hl Hf. unfold turned, set_extra, relabel. cbn [st network station location channel starttime delta extra data]. repeat (split; [reflexivity|]). split; [|split; assumption].
  intros k _. cbn [st extra]. apply dget_same, Hb.
Qed.
Section Rot2.
  Variables cosd sind : Q -> Q.
  Variable inc : list trace -> res unit.
  Lemma lqt_group h g z n e b i : (0 <= delta (st (h z)))%Z -> triple h g z n e b i ->
    exists h1, rotate_lqt cosd sind inc g h = (h1, Ok tt) /\
      let Z_ j := nth j (data (h z)) 0%Q in
      let R_ j := away (cosd b) (sind b) (nth j (data (h n)) 0%Q) (nth j (data (h e)) 0%Q) in
      let T_ j := across (cosd b) (sind b) (nth j (data (h n)) 0%Q) (nth j (data (h e)) 0%Q) in
      turned [] (h z) (h1 z) "L" (fun j => Z_ j * cosd i + R_ j * sind i)%Q /\
      turned [] (h n) (h1 n) "Q" (fun j => - (R_ j * cosd i - Z_ j * sind i))%Q /\
      turned [] (h e) (h1 e) "T" T_.
  Proof.
    intros Hd Ht. destruct (triple_comps _ _ _ _ _ _ _ Ht) as (Cz & Cn & Ce). destruct (triple_head _ _ _ _ _ _ _ Ht) as (l0 & g' & Eg & Hl0).
    pose proof (triple_span _ _ _ _ _ _ _ z n Hd Ht ltac:(cbn; tauto) ltac:(cbn; tauto)) as S1.
    pose proof (triple_span _ _ _ _ _ _ _ z e Hd Ht ltac:(cbn; tauto) ltac:(cbn; tauto)) as S2.
    destruct (triple_distinct _ _ _ _ _ _ _ Ht) as (D1 & D2 & D3).
    destruct Ht as (_ & _ & _ & _ & _ & H). destruct (H l0 Hl0) as (Hb & Hi & _).
    destruct (H z ltac:(cbn; tauto)) as (Bz & Iz & _). destruct (H n ltac:(cbn; tauto)) as (Bn & In_ & _ & _ & Ln).
    destruct (H e ltac:(cbn; tauto)) as (Be & Ie & _ & _ & Le).
    unfold rotate_lqt. rewrite Cz, Cn, Ce. subst g. rewrite Hb, Hi, S1, S2. cbv zeta. cbn [andb]. eexists. split; [reflexivity|].
    rewrite !(hset_ne _ e), !(hset_ne _ n z) by congruence. rewrite !hset_eq. split; [|split].
    - apply turned_relabel; [assumption|assumption|apply zip3_length; congruence|].
      intros j Hj. rewrite (zip3_nth _ _ _ _ (length (data (h z)))) by (try assumption; reflexivity). unfold away. ring.
    - apply turned_relabel; [assumption|assumption|apply zip3_length; congruence|].
      intros j Hj. rewrite (zip3_nth _ _ _ _ (length (data (h z)))) by (try assumption; try reflexivity; lia). unfold away. ring.
    - apply turned_relabel; [assumption|assumption|apply zip3_length; congruence|].
      intros j Hj. rewrite (zip3_nth _ _ _ _ (length (data (h z)))) by (try assumption; try reflexivity; lia). unfold across. ring.
  Qed.
  Lemma rt_group h g z n e b i : (0 <= delta (st (h z)))%Z -> triple h g z n e b i ->
    exists h1, rotate_rt cosd sind inc g h = (h1, Ok tt) /\ h1 z = h z /\
      turned [] (h n) (h1 n) "R" (fun j => away (cosd b) (sind b) (nth j (data (h n)) 0%Q) (nth j (data (h e)) 0%Q)) /\
      turned [] (h e) (h1 e) "T" (fun j => across (cosd b) (sind b) (nth j (data (h n)) 0%Q) (nth j (data (h e)) 0%Q)).
  Proof.
    intros Hd Ht. destruct (triple_comps _ _ _ _ _ _ _ Ht) as (Cz & Cn & Ce). destruct (triple_head _ _ _ _ _ _ _ Ht) as (l0 & g' & Eg & Hl0).
    pose proof (triple_span _ _ _ _ _ _ _ n e Hd Ht ltac:(cbn; tauto) ltac:(cbn; tauto)) as S1.
    destruct (triple_distinct _ _ _ _ _ _ _ Ht) as (D1 & D2 & D3).
    destruct Ht as (_ & _ & _ & _ & _ & H). destruct (H l0 Hl0) as (Hb & Hi & _).
    destruct (H n ltac:(cbn; tauto)) as (Bn & In_ & _ & _ & Ln). destruct (H e ltac:(cbn; tauto)) as (Be & Ie & _ & _ & Le).
    unfold rotate_rt. rewrite Cn, Ce. subst g. rewrite Hb, S1. cbv zeta. eexists. split; [reflexivity|].
    rewrite !(hset_ne _ e), !(hset_ne _ n z) by congruence. rewrite !hset_eq. split; [reflexivity|]. split.
    - apply turned_relabel1; [assumption|apply zip2_length; congruence|].
      intros j Hj. rewrite (zip2_nth _ _ _ (length (data (h z)))) by (try assumption; try reflexivity; lia). unfold away. ring.
    - apply turned_relabel1; [assumption|apply zip2_length; congruence|].
      intros j Hj. rewrite (zip2_nth _ _ _ (length (data (h z)))) by (try assumption; try reflexivity; lia). unfold across. ring.
  Qed.
End Rot2.

(** ** the stages of rf() *)
Definition framed (f : list loc -> heap -> heap * res unit) : Prop :=
  forall g h h1 r, f g h = (h1, r) -> (forall l, ~ In l g -> h1 l = h l) /\ (forall l, kept (h l) (h1 l)).
Lemma applied_kept f gs h h' : framed f -> applied f gs h h' -> forall l, kept (h l) (h' l).
Proof.
  intros Hf. induction 1 as [h|g gs h h1 h2 E A IH]; intros l; [apply kept_refl|].
  eapply kept_trans; [apply (Hf _ _ _ _ E)|apply IH].
Qed.
Lemma class_in str_of key h ls x g : In x ls -> class_of str_of key h ls x g -> In x g /\ (forall y, In y g -> In y ls) /\ (NoDup ls -> NoDup g).
Proof.
  intros Hx (p & Hp & ->). split; [|split].
  - apply filter_In. split; [exact Hx|]. apply Hp. split; reflexivity.
  - intros y Hy. apply filter_In in Hy. apply Hy.
  - intros H. apply NoDup_filter, H.
Qed.
Lemma stage_group str_of f ok ls h h1 : confined f ok -> (forall g h h1, (forall l, In l g -> h1 l = h l) -> ok g h -> ok g h1) ->
  (forall l, In l ls -> exists o, onset_of (h l) o) ->
  (forall g, (forall l, In l g -> In l ls) -> ok g h) ->
  group_stage str_of true f ls h = (h1, Ok tt) ->
  (forall x g, In x ls -> class_of str_of (Some "onset") h ls x g -> length g = 2 \/ length g = 3 ->
    exists ha hb, (forall l, In l g -> ha l = h l) /\ f g ha = (hb, Ok tt) /\ forall l, In l g -> h1 l = hb l) /\
  (forall l, ~ In l ls -> h1 l = h l) /\
  exists gs, applied f gs h h1.
Proof.
  intros Hc Hok Ho Hall E. destruct (group_stage_spec str_of f ls h h1 Ho E) as (gs & (G1 & G2 & G3) & A).
  assert (Sub : forall g l, In g gs -> In l g -> In l ls).
  { intros g l Hg Hl. destruct (G1 g Hg) as (_ & x & _ & p & _ & ->). apply filter_In in Hl. apply Hl. }
  destruct (applied_local str_of f ok h gs h h1 Hc Hok) as [A1 A2]; [intros g Hg; apply Hall; intros l; apply Sub, Hg|exact G3|exact A|].
  split; [|split].
  - intros x g Hx Hg Hl. apply A1. exact (G2 x g Hx Hg Hl).
  - intros l Hl. apply A2. intros g Hg Hin. exact (Hl (Sub g l Hg Hin)).
  - exists gs. exact A.
Qed.
Lemma triple_ext h h1 g z n e b i : (forall l, In l g -> h1 l = h l) -> triple h g z n e b i -> triple h1 g z n e b i.
Proof.
  intros E (P & Nd & Cz & Cn & Ce & H).
  assert (E' : forall l, In l [z; n; e] -> h1 l = h l) by (intros l Hl; apply E; eapply Permutation_in; [apply Permutation_sym, P|exact Hl]).
  unfold triple. rewrite !E' by (cbn; tauto). repeat (split; [assumption|]). intros l Hl. rewrite E' by exact Hl. apply H, Hl.
Qed.
Lemma three_triple str_of h ls z n e b i : NoDup ls -> In z ls -> three_components str_of h ls z n e b i ->
  exists g, class_of str_of (Some "onset") h ls z g /\ length g = 3 /\ triple h g z n e b i /\ (forall l, In l [z; n; e] -> In l g) /\ (forall l, In l g -> In l ls).
Proof.
  intros Nd Hz ((g & Hg & P) & R). destruct (class_in _ _ _ _ _ _ Hz Hg) as (_ & S & N). exists g. split; [exact Hg|].
  split; [rewrite (Permutation_length P); reflexivity|]. split; [split; [exact P|split; [apply N, Nd|exact R]]|].
  split; [|exact S]. intros l. apply Permutation_in, Permutation_sym, P.
Qed.
Lemma triple_other h h1 g z n e b i : triple h g z n e b i -> (forall l, In l g -> h1 l = h l) -> forall l, In l [z; n; e] -> h1 l = h l.
Proof. intros (P & _) H l Hl. apply H. eapply Permutation_in; [apply Permutation_sym, P|exact Hl]. Qed.
Lemma ends_append a c c' : endswith_char (a ++ String c "")%string c' = Ascii.eqb c c'.
Proof.
  unfold endswith_char. assert (E : last_char (a ++ String c "")%string = Some c); [|rewrite E; reflexivity].
  induction a as [|x a IH]; [reflexivity|]. cbn [append]. destruct (a ++ String c "")%string eqn:F; [destruct a; discriminate|]. exact IH.
Qed.
Lemma turned_ends ks t t' c f c' : turned ks t t' c f -> endswith_char (channel (st t')) c' = Ascii.eqb c c'.
Proof. intros (_ & _ & _ & -> & _). apply ends_append. Qed.
Lemma turned_opposite ks t t' t2 c f : turned ks t t' c f -> opposite t' t2 -> turned ks t t2 c (fun j => - f j)%Q.
Proof.
  intros (A1 & A2 & A3 & A4 & A5 & A6 & A7 & A8 & A9) [B1 B2]. unfold turned. rewrite B1.
  repeat (split; [assumption|]). split; [intros k Hk; unfold same_entries_but in A7; rewrite B1; apply A7, Hk|].
  split; [rewrite <- A8; symmetry; clear - B2; induction B2; cbn; congruence|].
  intros j Hj. rewrite <- A9 by exact Hj. rewrite <- A8 in Hj. clear - B2 Hj. revert j Hj. induction B2 as [|x y l m H B2 IH]; intros j Hj; [cbn in Hj; lia|].
  destruct j as [|j]; cbn [nth]; [exact H|]. apply IH. cbn in Hj. lia.
Qed.
Lemma turned_ext ks t t' c f g : (forall j, j < length (data t) -> (f j == g j)%Q) -> turned ks t t' c f -> turned ks t t' c g.
Proof.
  intros E (A1 & A2 & A3 & A4 & A5 & A6 & A7 & A8 & A9). unfold turned. repeat (split; [assumption|]).
  intros j Hj. rewrite A9 by exact Hj. apply E, Hj.
Qed.
Lemma turned_finished m t t' t2 c f : turned [] t t' c f -> finished m t' t2 -> turned ["type"; "phase"] t t2 c f.
Proof.
  intros (A1 & A2 & A3 & A4 & A5 & A6 & A7 & A8 & A9) ((F1 & F2 & F3 & F4 & F5 & F6) & B & D & _). unfold turned. rewrite D.
  repeat (split; [congruence|]). split; [|split; assumption]. intros k Hk. rewrite B by exact Hk. apply A7. intros [].
Qed.
(** rf() without filter, trim and downsample *)
Lemma rf_stages str_of filt lowpass rot dec rotate d m ls h h' r : m = "P" \/ m = "S" ->
  rf str_of filt lowpass rot dec (mkArgs (Some m) false None None rotate d) ls h = (h', Ok r) ->
  r = ls /\ exists h1 h3, group_stage str_of rotate rot ls h = (h1, Ok tt) /\
    group_stage str_of d (dec m) ls (fst (for_locs negate_q ls h1)) = (h3, Ok tt) /\
    rf_finish m ls h3 = (h', Ok tt).
Proof.
  intros Hm. unfold rf, rf_method. cbn [a_method bind]. assert (E : str_in m "PS" = true) by (apply str_in_PS; tauto). rewrite E.
  unfold rf_deconvolved, rf_prepare. cbn [a_filter a_trim a_downsample a_rotate a_deconvolve].
  destruct (group_stage str_of rotate rot ls h) as [h1 [[]|]]; [|discriminate].
  set (h2 := fst (for_locs negate_q ls h1)). destruct (group_stage str_of d (dec m) ls h2) as [h3 [[]|]] eqn:E3; [|discriminate].
  destruct (rf_finish m ls h3) as [h4 [[]|]] eqn:E4; [|discriminate]. intros [= <- <-]. split; [reflexivity|]. exists h1, h3. auto.
Qed.
Lemma negate_kept ls h : NoDup ls -> forall l, st (fst (for_locs negate_q ls h) l) = st (h l).
Proof.
  intros Nd l. destruct (negate_spec ls h Nd) as [A B]. destruct (in_dec Nat.eq_dec l ls) as [Hl|Hl]; [|rewrite B by exact Hl; reflexivity].
  destruct (A l Hl) as [A1 A2]. destruct (endswith_char (channel (st (h l))) "Q"); [apply A1; reflexivity|rewrite A2; reflexivity].
Qed.
Lemma kept_st t t' t2 : st t2 = st t' -> kept t t' -> kept t t2.
Proof. intros E (A & B & D). split; [unfold tr_id in *; rewrite E; exact A|]. split; [rewrite E; exact B|]. intros k Hk. rewrite E. apply D, Hk. Qed.
Section Stage.
  Variables cosd sind : Q -> Q.
  Variable inc : list trace -> res unit.
  Variable str_of : value -> string.
  Lemma framed_confined f : framed f -> confined f (fun _ _ => True).
  Proof. intros Hf g h h1 _ E l Hl. apply (Hf g h h1 _ E), Hl. Qed.
  (** rotation and sign *)
  Lemma lqt_stage ls h h1 z n e b i : NoDup ls -> (forall l, In l ls -> exists o, onset_of (h l) o) ->
    In z ls -> (0 <= delta (st (h z)))%Z -> three_components str_of h ls z n e b i ->
    group_stage str_of true (rotate_lqt cosd sind inc) ls h = (h1, Ok tt) ->
    let h2 := fst (for_locs negate_q ls h1) in
    (forall l, kept (h l) (h2 l)) /\
    let Z_ j := nth j (data (h z)) 0%Q in
    let R_ j := away (cosd b) (sind b) (nth j (data (h n)) 0%Q) (nth j (data (h e)) 0%Q) in
    let T_ j := across (cosd b) (sind b) (nth j (data (h n)) 0%Q) (nth j (data (h e)) 0%Q) in
    turned [] (h z) (h2 z) "L" (fun j => Z_ j * cosd i + R_ j * sind i)%Q /\
    turned [] (h n) (h2 n) "Q" (fun j => R_ j * cosd i - Z_ j * sind i)%Q /\
    turned [] (h e) (h2 e) "T" T_.
  Proof.
    intros Nd Ho Hz Hd H3 E h2. destruct (three_triple _ _ _ _ _ _ _ _ Nd Hz H3) as (g & Hg & Lg & Ht & Sub & Sub').
    assert (Fr : framed (rotate_lqt cosd sind inc)) by (intros g' h' h1' r; apply lqt_frame).
    destruct (stage_group str_of _ (fun _ _ => True) ls h h1 (framed_confined _ Fr) (fun _ _ _ _ _ => I) Ho (fun _ _ => I) E) as (S1 & _ & gs & A).
    destruct (S1 z g Hz Hg (or_intror Lg)) as (ha & hb & Ha & Eb & Hb).
    pose proof (triple_ext _ ha _ _ _ _ _ _ Ha Ht) as Hta.
    destruct (lqt_group cosd sind inc ha g z n e b i) as (hb' & Eb' & L1 & L2 & L3); [|exact Hta|].
    { rewrite Ha by (apply Sub; cbn; tauto). exact Hd. }
    rewrite Eb in Eb'. injection Eb' as <-.
    pose proof (Ha z ltac:(apply Sub; cbn; tauto)) as Az. pose proof (Ha n ltac:(apply Sub; cbn; tauto)) as An. pose proof (Ha e ltac:(apply Sub; cbn; tauto)) as Ae.
    cbv zeta in L1, L2, L3. rewrite ?Az, ?An, ?Ae in L1. rewrite ?Az, ?An, ?Ae in L2. rewrite ?Az, ?An, ?Ae in L3.
    rewrite <- Hb in L1, L2, L3 by (apply Sub; cbn; tauto).
    destruct (negate_spec ls h1 Nd) as [N1 N2]. fold h2 in N1, N2.
    split; [intros l; eapply kept_st; [apply (negate_kept ls h1 Nd)|]; eapply applied_kept; eassumption|]. cbv zeta.
    split; [|split].
    - destruct (N1 z Hz) as [_ B]. rewrite B; [exact L1|]. rewrite (turned_ends _ _ _ _ _ _ L1). reflexivity.
    - destruct (N1 n) as [B _]; [apply Sub', Sub; cbn; tauto|]. eapply turned_ext; [|eapply turned_opposite; [exact L2|apply B; rewrite (turned_ends _ _ _ _ _ _ L2); reflexivity]].
      intros j _. cbv beta. ring.
    - destruct (N1 e) as [_ B]; [apply Sub', Sub; cbn; tauto|]. rewrite B; [exact L3|]. rewrite (turned_ends _ _ _ _ _ _ L3). reflexivity.
  Qed.
  Lemma rt_stage ls h h1 z n e b i : NoDup ls -> (forall l, In l ls -> exists o, onset_of (h l) o) ->
    In z ls -> (0 <= delta (st (h z)))%Z -> three_components str_of h ls z n e b i ->
    group_stage str_of true (rotate_rt cosd sind inc) ls h = (h1, Ok tt) ->
    let h2 := fst (for_locs negate_q ls h1) in
    (forall l, kept (h l) (h2 l)) /\ h2 z = h z /\
    turned [] (h n) (h2 n) "R" (fun j => away (cosd b) (sind b) (nth j (data (h n)) 0%Q) (nth j (data (h e)) 0%Q)) /\
    turned [] (h e) (h2 e) "T" (fun j => across (cosd b) (sind b) (nth j (data (h n)) 0%Q) (nth j (data (h e)) 0%Q)).
  Proof.
    intros Nd Ho Hz Hd H3 E h2. destruct (three_triple _ _ _ _ _ _ _ _ Nd Hz H3) as (g & Hg & Lg & Ht & Sub & Sub').
    assert (Fr : framed (rotate_rt cosd sind inc)) by (intros g' h' h1' r; apply rt_frame).
    destruct (stage_group str_of _ (fun _ _ => True) ls h h1 (framed_confined _ Fr) (fun _ _ _ _ _ => I) Ho (fun _ _ => I) E) as (S1 & _ & gs & A).
    destruct (S1 z g Hz Hg (or_intror Lg)) as (ha & hb & Ha & Eb & Hb).
    pose proof (triple_ext _ ha _ _ _ _ _ _ Ha Ht) as Hta.
    destruct (rt_group cosd sind inc ha g z n e b i) as (hb' & Eb' & L1 & L2 & L3); [|exact Hta|].
    { rewrite Ha by (apply Sub; cbn; tauto). exact Hd. }
    rewrite Eb in Eb'. injection Eb' as <-.
    pose proof (Ha z ltac:(apply Sub; cbn; tauto)) as Az. pose proof (Ha n ltac:(apply Sub; cbn; tauto)) as An. pose proof (Ha e ltac:(apply Sub; cbn; tauto)) as Ae.
    cbv zeta in L1, L2, L3. rewrite ?Az, ?An, ?Ae in L1. rewrite ?Az, ?An, ?Ae in L2. rewrite ?Az, ?An, ?Ae in L3.
    rewrite <- Hb in L1, L2, L3 by (apply Sub; cbn; tauto).
    destruct (negate_spec ls h1 Nd) as [N1 N2]. fold h2 in N1, N2.
    split; [intros l; eapply kept_st; [apply (negate_kept ls h1 Nd)|]; eapply applied_kept; eassumption|].
    split; [|split].
    - destruct (N1 z Hz) as [_ B]. rewrite B; [exact L1|]. rewrite L1. destruct Ht as (_ & _ & Cz & _).
      destruct (endswith_char (channel (st (h z))) "Q") eqn:F; [|reflexivity]. pose proof (ends_unique _ _ _ F Cz). discriminate.
    - destruct (N1 n) as [_ B]; [apply Sub', Sub; cbn; tauto|]. rewrite B; [exact L2|]. rewrite (turned_ends _ _ _ _ _ _ L2). reflexivity.
    - destruct (N1 e) as [_ B]; [apply Sub', Sub; cbn; tauto|]. rewrite B; [exact L3|]. rewrite (turned_ends _ _ _ _ _ _ L3). reflexivity.
  Qed.
End Stage.
Lemma kept_phases (ls : list loc) (h h2 : heap) : (forall l, kept (h l) (h2 l)) -> phases_are_texts (map h ls) -> phases_are_texts (map h2 ls).
Proof.
  intros K H t Ht. apply in_map_iff in Ht. destruct Ht as (l & <- & Hl). destruct (K l) as (_ & _ & K3).
  rewrite K3 by (cbn; intuition discriminate). apply H, in_map, Hl.
Qed.
Lemma kept_onset (h h2 : heap) l o : (forall l, kept (h l) (h2 l)) -> onset_of (h l) o -> onset_of (h2 l) o.
Proof. intros K H. destruct (K l) as (_ & _ & K3). unfold onset_of. rewrite K3 by (cbn; intuition discriminate). exact H. Qed.
Lemma kept_class str_of ls (h h2 : heap) x g : (forall l, kept (h l) (h2 l)) -> class_of str_of (Some "onset") h ls x g -> class_of str_of (Some "onset") h2 ls x g.
Proof.
  intros K (p & P1 & P2). exists p. split; [|exact P2]. intros y. rewrite P1.
  assert (Pr : forall l, printed str_of (Some "onset") (h2 l) = printed str_of (Some "onset") (h l)).
  { intros l. unfold printed. change (tr_get (h2 l) "onset") with (dget (extra (st (h2 l))) "onset").
    change (tr_get (h l) "onset") with (dget (extra (st (h l))) "onset"). destruct (K l) as (_ & _ & K3). rewrite K3 by (cbn; intuition discriminate). reflexivity. }
  unfold same_group. rewrite !Pr. destruct (K x) as (-> & _). destruct (K y) as (-> & _). reflexivity.
Qed.
Lemma dec_confined kernel taper kind m : confined (rf_dec kernel taper kind m) (fun g h => channels_set h g).
Proof.
  intros g h h1 Hc E l Hl. unfold rf_dec in E. set (src := if String.eqb m "P" then "LZ" else "QR") in *.
  destruct (deconvolve kernel taper kind src None (WStr m) None g h) as [h' [r|]] eqn:D; [|discriminate]. injection E as <-.
  assert (S : exists x, selected h src g [x]).
  { pose proof D as D'. unfold deconvolve, deconvolve_given in D'. destruct (negb _) in D'; [discriminate|]. rewrite filterM_sel in D' by exact Hc.
    destruct (filter (selp h src) g) as [|x [|]] eqn:F; [discriminate| |discriminate].
    exists x. exists (selp h src). split; [intros; apply selp_spec | symmetry; exact F]. }
  destruct S as (x & S).
  assert (In x g) as Hx. { destruct S as (p & _ & Ep). assert (In x (filter p g)) as Hin by (rewrite <- Ep; left; reflexivity). apply filter_In in Hin. apply Hin. }
  pose proof (dec_only kernel taper kind src None (WStr m) None g h x g Hc S eq_refl Hx) as [A _]. rewrite D in A. apply A, Hl.
Qed.
