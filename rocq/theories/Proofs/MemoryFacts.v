(** Facts about arrays, views and trace objects. *)
From Coq Require Import FunctionalExtensionality.
From Verif Require Import Model.Memory Spec.TimeSpec Spec.IterSpec Spec.RfSpec Spec.MemorySpec Proofs.PyFacts Proofs.IterFacts Proofs.TimeFacts Proofs.RfFacts.
Notation length := List.length.

(** ** objects *)
Lemma oset_same o l t : oset o l t l = t.
Proof. unfold oset. rewrite Nat.eqb_refl. reflexivity. Qed.
Lemma oset_other o l t l' : l' <> l -> oset o l t l' = o l'.
Proof. intros H. unfold oset. apply Nat.eqb_neq in H. rewrite H. reflexivity. Qed.
Lemma oset_list_other ls : forall o ts l, ~ In l ls -> oset_list o ls ts l = o l.
Proof.
  induction ls as [|x ls IH]; intros o ts l Hl; [reflexivity|]. destruct ts as [|t ts]; [reflexivity|]. cbn [oset_list]. rewrite IH by (intros H; apply Hl; right; exact H).
  apply oset_other. intros ->. apply Hl. left. reflexivity.
Qed.
Lemma oset_list_in ls : forall o ts l, oset_list o ls ts l = o l \/ In (oset_list o ls ts l) ts.
Proof.
  induction ls as [|x ls IH]; intros o ts l; [left; reflexivity|]. destruct ts as [|t ts]; [left; reflexivity|]. cbn [oset_list]. destruct (IH (oset o x t) ts l) as [->|H]; [|right; right; exact H].
  unfold oset. destruct (Nat.eqb l x); [right; left; reflexivity | left; reflexivity].
Qed.

(** ** arrays *)
Lemma array_app m ext v : v_buf v < length m -> array (m ++ ext) v = array m v.
Proof. intros H. unfold array. rewrite app_nth1 by exact H. reflexivity. Qed.
Lemma array_new m d : array (m ++ [d]) (mkView (length m) 0 (length d)) = d.
Proof. unfold array. cbn [v_buf v_off v_len skipn]. rewrite app_nth2, Nat.sub_diag by lia. cbn [nth]. apply firstn_all. Qed.
Lemma store_length m v d : v_buf v < length m -> length (store m v d) = length m.
Proof. intros H. unfold store. rewrite !app_length, firstn_length, skipn_length. cbn [length]. lia. Qed.
Lemma store_nth m v d b : v_buf v < length m -> nth b (store m v d) [] =
  if Nat.eqb b (v_buf v) then firstn (v_off v) (nth b m []) ++ d ++ skipn (v_off v + length d) (nth b m []) else nth b m [].
Proof.
  intros H. unfold store. destruct (Nat.eqb_spec b (v_buf v)) as [->|Hb].
  - rewrite app_nth2 by (rewrite firstn_length; lia). rewrite firstn_length, Nat.min_l, Nat.sub_diag by lia. reflexivity.
  - destruct (Nat.lt_ge_cases b (v_buf v)) as [Hl|Hl].
    + rewrite app_nth1 by (rewrite firstn_length; lia). rewrite <- (firstn_skipn (v_buf v) m) at 2. rewrite app_nth1 by (rewrite firstn_length; lia). reflexivity.
    + rewrite app_nth2 by (rewrite firstn_length; lia). rewrite firstn_length, Nat.min_l by lia.
      destruct (b - v_buf v) as [|k] eqn:E; [lia|]. cbn [app nth]. rewrite <- (firstn_skipn (S (v_buf v)) m) at 2.
      rewrite app_nth2 by (rewrite firstn_length; lia). rewrite firstn_length, Nat.min_l by lia. f_equal. lia.
Qed.
Lemma nth_firstn_lt {A} (l : list A) i n d : i < n -> nth i (firstn n l) d = nth i l d.
Proof. revert i n. induction l as [|x l IH]; intros i n H; [destruct i, n; reflexivity|]. destruct n; [lia|]. destruct i; [reflexivity|]. cbn. apply IH. lia. Qed.
Lemma nth_skipn_plus {A} (l : list A) i n d : nth i (skipn n l) d = nth (n + i) l d.
Proof. revert l. induction n as [|n IH]; intros l; [reflexivity|]. destruct l as [|x l]; [destruct i; reflexivity|]. cbn. apply IH. Qed.
Lemma array_length m v : v_off v + v_len v <= length (nth (v_buf v) m []) -> length (array m v) = v_len v.
Proof. intros H. unfold array. rewrite firstn_length, skipn_length. lia. Qed.
Lemma array_nth m v i : i < v_len v -> nth i (array m v) 0%Q = nth (v_off v + i) (nth (v_buf v) m []) 0%Q.
Proof. intros H. unfold array. rewrite nth_firstn_lt by exact H. apply nth_skipn_plus. Qed.
Lemma overwrite_nth (b d : list Q) off i : off + length d <= length b ->
  nth i (firstn off b ++ d ++ skipn (off + length d) b) 0%Q = if (off <=? i) && (i <? off + length d) then nth (i - off) d 0%Q else nth i b 0%Q.
Proof.
  intros H. destruct (Nat.leb_spec off i) as [H1|H1]; cbn [andb].
  - rewrite app_nth2 by (rewrite firstn_length; lia). rewrite firstn_length, Nat.min_l by lia. destruct (Nat.ltb_spec i (off + length d)) as [H2|H2].
    + rewrite app_nth1 by lia. reflexivity.
    + rewrite app_nth2 by lia. rewrite nth_skipn_plus. f_equal. lia.
  - rewrite app_nth1 by (rewrite firstn_length; lia). apply nth_firstn_lt. lia.
Qed.
Lemma overwrite_length (b d : list Q) off : off + length d <= length b -> length (firstn off b ++ d ++ skipn (off + length d) b) = length b.
Proof. intros H. rewrite !app_length, firstn_length, skipn_length. lia. Qed.

Definition inside_mem (m : mem) (v : view) : Prop := v_buf v < length m /\ v_off v + v_len v <= length (nth (v_buf v) m []).
Lemma store_same m v d : inside_mem m v -> length d = v_len v -> array (store m v d) v = d.
Proof.
  intros [H1 H2] Hd. unfold array. rewrite store_nth, Nat.eqb_refl by exact H1. rewrite skipn_app, skipn_all2, firstn_length by (rewrite firstn_length; lia).
  replace (v_off v - Nat.min (v_off v) (length (nth (v_buf v) m []))) with 0 by lia. cbn [skipn app]. rewrite firstn_app. rewrite <- Hd, firstn_all, Nat.sub_diag. cbn [firstn]. apply app_nil_r.
Qed.
Lemma store_inside m v d u : inside_mem m v -> length d = v_len v -> inside_mem m u -> inside_mem (store m v d) u.
Proof.
  intros [H1 H2] Hd [H3 H4]. split; [rewrite store_length by exact H1; exact H3|]. rewrite store_nth by exact H1. destruct (Nat.eqb_spec (v_buf u) (v_buf v)) as [E|_]; [|exact H4].
  rewrite overwrite_length by (rewrite E; lia). exact H4.
Qed.
Lemma store_apart m v d u : inside_mem m v -> inside_mem m u -> length d = v_len v ->
  ~ (exists i j, i < v_len v /\ j < v_len u /\ v_buf v = v_buf u /\ v_off v + i = v_off u + j) -> array (store m v d) u = array m u.
Proof.
  intros Hv Hu Hd Hs. destruct (store_inside m v d u Hv Hd Hu) as [_ Hu'].
  apply nth_ext with (d := 0%Q) (d' := 0%Q); [rewrite !array_length; [reflexivity | exact (proj2 Hu) | exact Hu']|].
  intros i Hi. rewrite array_length in Hi by exact Hu'. rewrite !array_nth by exact Hi. destruct Hv as [V1 V2]. rewrite store_nth by exact V1.
  destruct (Nat.eqb_spec (v_buf u) (v_buf v)) as [E|_]; [|reflexivity]. rewrite overwrite_nth by (rewrite E; lia).
  destruct (Nat.leb_spec (v_off v) (v_off u + i)) as [A|A]; [|reflexivity]. destruct (Nat.ltb_spec (v_off u + i) (v_off v + length d)) as [B|B]; [|reflexivity].
  exfalso. apply Hs. exists (v_off u + i - v_off v), i. split; [lia|]. split; [exact Hi|]. split; [symmetry; exact E | lia].
Qed.

(** ** new arrays *)
Lemma seen_assign w l t l' : allocated w -> seen (assign w l t) l' = if Nat.eqb l' l then t else seen w l'.
Proof.
  intros Ha. unfold seen, assign, look. cbn [w_mem w_obj]. unfold oset. destruct (Nat.eqb_spec l' l) as [->|_].
  - cbn [v_st v_arr]. rewrite array_new. destruct t; reflexivity.
  - rewrite array_app by apply (Ha l'). reflexivity.
Qed.
Lemma allocated_assign w l t : allocated w -> allocated (assign w l t).
Proof.
  intros Ha l'. unfold assign. cbn [w_obj w_mem]. unfold oset. rewrite app_length. cbn [length]. destruct (Nat.eqb l' l).
  - cbn [v_arr v_buf v_off v_len]. split; [lia|]. rewrite app_nth2, Nat.sub_diag by lia. cbn [nth]. lia.
  - destruct (Ha l') as [H1 H2]. split; [lia|]. rewrite app_nth1 by exact H1. exact H2.
Qed.
Lemma seen_restat w l s l' : seen (restat w l s) l' = if Nat.eqb l' l then mkTrace s (data (seen w l)) else seen w l'.
Proof. unfold seen, restat, look. cbn [w_mem w_obj]. unfold oset. destruct (Nat.eqb_spec l' l) as [->|_]; reflexivity. Qed.
Lemma allocated_restat w l s : allocated w -> allocated (restat w l s).
Proof. intros Ha l'. unfold restat. cbn [w_obj w_mem]. unfold oset. destruct (Nat.eqb_spec l' l) as [->|_]; apply Ha. Qed.

(** later states of a program which has not written into existing arrays *)
Definition grows (S : list loc) (w w' : world) : Prop :=
  (allocated w -> allocated w') /\ (exists ext, w_mem w' = w_mem w ++ ext) /\ (forall l, ~ In l S -> w_obj w' l = w_obj w l).
Lemma grows_refl S w : grows S w w.
Proof. split; [auto|]. split; [exists []; symmetry; apply app_nil_r | auto]. Qed.
Lemma grows_trans S w1 w2 w3 : grows S w1 w2 -> grows S w2 w3 -> grows S w1 w3.
Proof.
  intros (A1 & [e1 M1] & O1) (A2 & [e2 M2] & O2). split; [auto|]. split; [exists (e1 ++ e2); rewrite M2, M1, app_assoc; reflexivity|]. intros l Hl. rewrite O2, O1 by exact Hl. reflexivity.
Qed.
Lemma grows_incl S S' w w' : incl S S' -> grows S w w' -> grows S' w w'.
Proof. intros Hi (A & M & O). split; [exact A|]. split; [exact M|]. intros l Hl. apply O. intros H. apply Hl, Hi, H. Qed.
Lemma grows_assign S w l t : In l S -> grows S w (assign w l t).
Proof.
  intros Hl. split; [apply allocated_assign|]. split; [exists [data t]; reflexivity|]. intros l' Hl'. cbn [assign w_obj]. apply oset_other. intros ->. contradiction.
Qed.
Lemma grows_restat S w l s : In l S -> grows S w (restat w l s).
Proof. intros Hl. split; [apply allocated_restat|]. split; [exists []; symmetry; apply app_nil_r|]. intros l' Hl'. cbn [restat w_obj]. apply oset_other. intros ->. contradiction. Qed.
Lemma grows_seen S w w' l : allocated w -> grows S w w' -> ~ In l S -> seen w' l = seen w l.
Proof. intros Ha (_ & [e M] & O) Hl. unfold seen, look. rewrite O, M by exact Hl. rewrite array_app by apply Ha. reflexivity. Qed.
Lemma grows_fold_assign (h : heap) S ls : forall w, incl ls S -> grows S w (fold_left (fun w l => assign w l (h l)) ls w).
Proof.
  induction ls as [|l ls IH]; intros w Hi; [apply grows_refl|]. cbn [fold_left]. eapply grows_trans; [apply grows_assign, Hi; left; reflexivity | apply IH; intros x Hx; apply Hi; right; exact Hx].
Qed.
Lemma grows_fold_restat (g : world -> loc -> stats) S ls : forall w, incl ls S -> grows S w (fold_left (fun w l => restat w l (g w l)) ls w).
Proof.
  induction ls as [|l ls IH]; intros w Hi; [apply grows_refl|]. cbn [fold_left]. eapply grows_trans; [apply grows_restat, Hi; left; reflexivity | apply IH; intros x Hx; apply Hi; right; exact Hx].
Qed.
Lemma renew_grows F kept fresh S w : incl kept S -> incl fresh S -> grows S w (fst (renew F kept fresh w)).
Proof.
  intros H1 H2. unfold renew. destruct (F (seen w)) as [h r]. cbn [fst]. eapply grows_trans; [apply (grows_fold_restat (fun _ l => st (h l))), H1 | apply grows_fold_assign, H2].
Qed.

(** the values after [renew] *)
Lemma fold_assign_seen (h : heap) ls : forall w l, allocated w -> seen (fold_left (fun w l => assign w l (h l)) ls w) l = if in_dec Nat.eq_dec l ls then h l else seen w l.
Proof.
  induction ls as [|x ls IH]; intros w l Ha; [reflexivity|]. cbn [fold_left]. rewrite IH by (apply allocated_assign, Ha). rewrite seen_assign by exact Ha.
  destruct (in_dec Nat.eq_dec l ls) as [Hl|Hl], (in_dec Nat.eq_dec l (x :: ls)) as [Hx|Hx]; try reflexivity.
  - exfalso. apply Hx. right. exact Hl.
  - destruct Hx as [->|Hx]; [rewrite Nat.eqb_refl; reflexivity | contradiction].
  - destruct (Nat.eqb_spec l x) as [->|_]; [exfalso; apply Hx; left; reflexivity | reflexivity].
Qed.
Lemma fold_restat_seen (h : heap) ls : forall w l, seen (fold_left (fun w l => restat w l (st (h l))) ls w) l = if in_dec Nat.eq_dec l ls then mkTrace (st (h l)) (data (seen w l)) else seen w l.
Proof.
  induction ls as [|x ls IH]; intros w l; [reflexivity|]. cbn [fold_left]. rewrite IH, seen_restat.
  destruct (in_dec Nat.eq_dec l ls) as [Hl|Hl], (in_dec Nat.eq_dec l (x :: ls)) as [Hx|Hx]; try reflexivity.
  - destruct (Nat.eqb_spec l x) as [->|_]; reflexivity.
  - exfalso. apply Hx. right. exact Hl.
  - destruct Hx as [->|Hx]; [rewrite Nat.eqb_refl; reflexivity | contradiction].
  - destruct (Nat.eqb_spec l x) as [->|_]; [exfalso; apply Hx; left; reflexivity | reflexivity].
Qed.
Lemma renew_seen F kept fresh w : allocated w ->
  (forall l, ~ In l kept -> ~ In l fresh -> fst (F (seen w)) l = seen w l) ->
  (forall l, ~ In l fresh -> data (fst (F (seen w)) l) = data (seen w l)) ->
  seen (fst (renew F kept fresh w)) = fst (F (seen w)) /\ snd (renew F kept fresh w) = snd (F (seen w)).
Proof.
  intros Ha H1 H2. unfold renew. destruct (F (seen w)) as [h r]. cbn [fst snd] in *. split; [|reflexivity]. apply functional_extensionality. intros l.
  rewrite fold_assign_seen.
  2:{ apply (grows_fold_restat (fun _ l => st (h l)) kept kept w (incl_refl _)), Ha. }
  destruct (in_dec Nat.eq_dec l fresh) as [Hf|Hf]; [reflexivity|]. rewrite fold_restat_seen. destruct (in_dec Nat.eq_dec l kept) as [Hk|Hk].
  - rewrite <- (H2 l Hf). destruct (h l); reflexivity.
  - symmetry. apply H1; assumption.
Qed.

(** ** trim *)
Lemma skipn_array k n off (b : list Q) : skipn k (firstn n (skipn off b)) = firstn (n - k) (skipn (off + k) b).
Proof.
  rewrite skipn_firstn_comm. f_equal. revert b. induction off as [|o IH]; intros b; [reflexivity|]. destruct b as [|x b]; [cbn [skipn]; rewrite !skipn_nil; reflexivity|]. cbn [skipn plus]. apply IH.
Qed.
Lemma look_cut_left m v t1 : look m (cut_left m v t1) = ltrim (look m v) t1.
Proof.
  unfold cut_left, ltrim. set (k := round_away _ _). destruct (k <=? 0)%Z eqn:E; [reflexivity|]. unfold look at 1. cbn [v_st v_arr st set_data set_starttime]. unfold array. cbn [v_buf v_off v_len].
  rewrite <- skipn_array. unfold set_data, look. cbn [st data]. f_equal. unfold array. destruct (Nat.le_gt_cases (Z.to_nat k) (v_len (v_arr v))) as [H|H]; [rewrite Nat.min_l by exact H; reflexivity|].
  rewrite Nat.min_r by lia. rewrite !skipn_all2 by (rewrite firstn_length; lia). reflexivity.
Qed.
Lemma look_cut_right m v t2 : look m (cut_right m v t2) = rtrim (look m v) t2.
Proof.
  unfold cut_right, rtrim. set (d := (round_away _ _ - _)%Z). destruct (0 <=? d)%Z eqn:E; [reflexivity|]. destruct (_ <? _)%Z; [unfold look; cbn [v_st v_arr st set_data set_starttime]; reflexivity|].
  set (n := Z.to_nat _). unfold look at 1. cbn [v_st v_arr st set_data]. unfold set_data, look. cbn [st data]. f_equal. unfold array. cbn [v_buf v_off v_len]. rewrite firstn_firstn. reflexivity.
Qed.
Lemma look_cut m v t1 t2 : match cut m v t1 t2, trim (look m v) t1 t2 with
  | Ok v', Ok t => look m v' = t | Err e, Err e' => e = e' | _, _ => False end.
Proof.
  unfold cut, trim. destruct t1, t2; try reflexivity; try apply look_cut_left; try apply look_cut_right. destruct (_ <? _)%Z; [reflexivity|]. rewrite look_cut_right, look_cut_left. reflexivity.
Qed.
Lemma look_cut_rel m a b r v : match cut_rel m a b r v, trim_rel a b r (look m v) with
  | Ok v', Ok t => look m v' = t | Err e, Err e' => e = e' | _, _ => False end.
Proof.
  unfold cut_rel, trim_rel. destruct (seconds2utc (look m v) r a) as [t1|]; [|reflexivity]. cbn [bind]. destruct (seconds2utc (look m v) r b) as [t2|]; [|reflexivity]. cbn [bind]. apply look_cut.
Qed.
(** a part of a view *)
Definition part_of (v u : view) : Prop := v_buf v = v_buf u /\ v_off u <= v_off v /\ v_off v + v_len v <= v_off u + v_len u.
Lemma part_refl v : part_of v v.
Proof. unfold part_of. lia. Qed.
Lemma part_trans u v w : part_of u v -> part_of v w -> part_of u w.
Proof. unfold part_of. lia. Qed.
Lemma part_inside m v u : part_of v u -> inside_mem m u -> inside_mem m v.
Proof. unfold part_of, inside_mem. intros (-> & H1 & H2) [H3 H4]. lia. Qed.
Lemma cut_left_part m v t : part_of (v_arr (cut_left m v t)) (v_arr v).
Proof. unfold cut_left. destruct (_ <=? 0)%Z; [apply part_refl|]. unfold part_of. cbn [v_arr v_buf v_off v_len]. lia. Qed.
Lemma cut_right_part m v t : part_of (v_arr (cut_right m v t)) (v_arr v).
Proof.
  unfold cut_right. destruct (0 <=? _)%Z; [apply part_refl|]. destruct (_ <? _)%Z; unfold part_of; cbn [v_arr v_buf v_off v_len]; [lia|].
  set (n := Z.to_nat _). lia.
Qed.
Lemma cut_part m v t1 t2 v' : cut m v t1 t2 = Ok v' -> part_of (v_arr v') (v_arr v).
Proof.
  unfold cut. destruct t1, t2; intros E; try discriminate; try (destruct (_ <? _)%Z; [discriminate|]); inversion E; subst; clear E;
    [apply part_refl | apply cut_right_part | apply cut_left_part | eapply part_trans; [apply cut_right_part | apply cut_left_part]].
Qed.
Lemma cut_rel_part m a b r v v' : cut_rel m a b r v = Ok v' -> part_of (v_arr v') (v_arr v).
Proof.
  unfold cut_rel. destruct (seconds2utc (look m v) r a) as [t1|]; [|discriminate]. cbn [bind]. destruct (seconds2utc (look m v) r b) as [t2|]; [|discriminate]. cbn [bind]. apply cut_part.
Qed.

(** ** a program which has hold of [S] only *)
(** arrays are new, or have been used by [S] *)
Definition stays (S : list loc) (w w' : world) : Prop :=
  grows S w w' /\ forall l, In l S -> length (w_mem w) <= v_buf (v_arr (w_obj w' l)) \/ exists l0, In l0 S /\ v_buf (v_arr (w_obj w' l)) = v_buf (v_arr (w_obj w l0)).
Lemma stays_refl S w : stays S w w.
Proof. split; [apply grows_refl|]. intros l Hl. right. exists l. auto. Qed.
Lemma grows_length S w w' : grows S w w' -> length (w_mem w) <= length (w_mem w').
Proof. intros (_ & [e ->] & _). rewrite app_length. lia. Qed.
Lemma stays_trans S w1 w2 w3 : stays S w1 w2 -> stays S w2 w3 -> stays S w1 w3.
Proof.
  intros [G1 B1] [G2 B2]. split; [eapply grows_trans; eassumption|]. intros l Hl. destruct (B2 l Hl) as [H|(l0 & Hl0 & E)].
  - left. pose proof (grows_length _ _ _ G1). lia.
  - rewrite E. apply B1, Hl0.
Qed.
Lemma stays_incl S S' w w' : incl S S' -> stays S w w' -> stays S' w w'.
Proof.
  intros Hi [G B]. split; [eapply grows_incl; eassumption|]. intros l Hl. destruct (in_dec Nat.eq_dec l S) as [H|H].
  - destruct (B l H) as [Hb|(l0 & Hl0 & E)]; [left; exact Hb | right; exists l0; split; [apply Hi, Hl0 | exact E]].
  - right. exists l. split; [exact Hl|]. destruct G as (_ & _ & O). rewrite O by exact H. reflexivity.
Qed.
Lemma stays_assign S w l t : In l S -> stays S w (assign w l t).
Proof.
  intros Hl. split; [apply grows_assign, Hl|]. intros l' Hl'. cbn [assign w_obj]. unfold oset. destruct (Nat.eqb l' l); [left; cbn [v_arr v_buf]; lia | right; exists l'; auto].
Qed.
Lemma stays_restat S w l s : In l S -> stays S w (restat w l s).
Proof.
  intros Hl. split; [apply grows_restat, Hl|]. intros l' Hl'. right. exists l'. split; [exact Hl'|]. cbn [restat w_obj]. unfold oset. destruct (Nat.eqb_spec l' l) as [->|_]; reflexivity.
Qed.
Lemma stays_fold {A} (f : world -> A -> world) S (xs : list A) : (forall w x, In x xs -> stays S w (f w x)) -> forall w, stays S w (fold_left f xs w).
Proof.
  induction xs as [|x xs IH]; intros H w; [apply stays_refl|]. cbn [fold_left]. eapply stays_trans; [apply H; left; reflexivity | apply IH]. intros w' y Hy. apply H. right. exact Hy.
Qed.
Lemma stays_renew F kept fresh S w : incl kept S -> incl fresh S -> stays S w (fst (renew F kept fresh w)).
Proof.
  intros H1 H2. unfold renew. destruct (F (seen w)) as [h r]. cbn [fst]. eapply stays_trans; [apply (stays_fold (fun w l => restat w l (st (h l)))) | apply (stays_fold (fun w l => assign w l (h l)))]; intros w' x Hx; [apply stays_restat, H1, Hx | apply stays_assign, H2, Hx].
Qed.
Lemma stays_views S w o : (forall l, ~ In l S -> o l = w_obj w l) -> (forall l, In l S -> exists l0, In l0 S /\ part_of (v_arr (o l)) (v_arr (w_obj w l0))) -> stays S w (mkWorld (w_mem w) o).
Proof.
  intros H1 H2. split; [split; [|split]|].
  - intros Ha l. cbn [w_mem w_obj]. destruct (in_dec Nat.eq_dec l S) as [Hl|Hl].
    + destruct (H2 l Hl) as (l0 & _ & Hp). exact (part_inside (w_mem w) _ _ Hp (Ha l0)).
    + rewrite H1 by exact Hl. apply Ha.
  - exists []. symmetry. apply app_nil_r.
  - exact H1.
  - intros l Hl. cbn [w_obj]. destruct (H2 l Hl) as (l0 & Hl0 & Hp & _). right. exists l0. auto.
Qed.
Lemma stays_trim_loop a b r S ls : incl ls S -> forall w, stays S w (fst (v_trim_loop a b r ls w)).
Proof.
  induction ls as [|l ls IH]; intros Hi w; [apply stays_refl|]. cbn [v_trim_loop]. destruct (cut_rel _ _ _ _ _) as [t|e] eqn:E; [|apply stays_refl].
  eapply stays_trans; [|apply IH; intros x Hx; apply Hi; right; exact Hx]. apply stays_views.
  - intros l' Hl'. apply oset_other. intros ->. apply Hl', Hi. left. reflexivity.
  - intros l' Hl'. unfold oset. destruct (Nat.eqb_spec l' l) as [->|_]; [exists l | exists l'; split; [exact Hl' | apply part_refl]].
    split; [exact Hl'|]. eapply cut_rel_part, E.
Qed.
Lemma stays_trim2 a b r S ls w : incl ls S -> stays S w (fst (v_trim2 a b r ls w)).
Proof. intros Hi. unfold v_trim2. pose proof (stays_trim_loop a b r S ls Hi w) as H. destruct (v_trim_loop a b r ls w) as [w' [u|e]]; exact H. Qed.

(** ** groups *)
Lemma Forall_or_not {A} (P : A -> Prop) l : (forall x, P x \/ ~ P x) -> Forall P l \/ ~ Forall P l.
Proof.
  intros Hd. induction l as [|x l [IH|IH]]; [left; constructor | destruct (Hd x) as [H|H]; [left; constructor; assumption|] | ]; right; intros Hf; inversion Hf; contradiction.
Qed.
Lemma iter_multiple_in (h : heap) str_of (ls : list loc) key n gs : iter_multiple h str_of ls key n = Ok gs -> incl (List.concat gs) ls.
Proof.
  intros H. destruct (Forall_or_not (fun x => has_entry key (h x)) ls (has_entry_dec h str_of key)) as [Hf|Hf].
  - destruct (iter_multiple_spec h str_of key ls Hf) as (gs' & E & Hp & _). rewrite (iter_multiple_filter h str_of key ls n gs' E) in H. inversion H; subst; clear H.
    intros x Hx. apply (Permutation_in _ Hp). apply in_concat in Hx. destruct Hx as (g & Hg & Hx). apply filter_In in Hg. apply in_concat. exists g. tauto.
  - rewrite iter_multiple_missing in H by exact Hf. discriminate.
Qed.

Section Methods.
  Variable str_of : value -> string.
  Variable filt : act.
  Variable lowpass : Z -> list Q -> list Q.
  Variable rot : list loc -> heap -> heap * res unit.
  Variable rot_new : list loc -> list loc.
  Variable dec : string -> list loc -> heap -> heap * res unit.
  Variable dec_new : list loc -> list loc.
  Variable mo : trace -> res (list Q).
  Variable mark : stats -> stats.
  Hypothesis Hrot : group_method rot rot_new.
  Hypothesis Hdec : forall m, group_method (dec m) dec_new.
  Hypothesis Hmo : keeps_length mo.
  Notation vprepare := (v_prepare str_of filt lowpass rot rot_new).
  Notation vdeconvolved := (v_deconvolved str_of filt lowpass rot rot_new dec dec_new).
  Notation vrf := (v_rf str_of filt lowpass rot rot_new dec dec_new).
  Notation step := (do_call str_of filt lowpass rot rot_new dec dec_new mo mark).

  Lemma flat_map_new f new gs S : group_method f new -> incl (List.concat gs) S -> incl (flat_map new gs) S.
  Proof.
    intros Hf Hi x Hx. apply in_flat_map in Hx. destruct Hx as (g & Hg & Hx). apply Hi. apply in_concat. exists g. split; [exact Hg|].
    destruct (Hf g (fun _ => mkTrace (mkStats "" "" "" "" 0 1 []) [])) as (_ & Hn & _). apply Hn, Hx.
  Qed.
  Lemma stays_filter S ls w : incl ls S -> stays S w (fst (v_filter filt ls w)).
  Proof. intros Hi. apply stays_renew; [intros x [] | exact Hi]. Qed.
  Lemma stays_groups on f new S ls w : group_method f new -> incl ls S -> stays S w (fst (v_groups str_of on f new ls w)).
  Proof.
    intros Hf Hi. unfold v_groups. destruct on; [|apply stays_refl]. destruct (iter3c str_of ls (seen w)) as [gs|e] eqn:E; [|apply stays_refl].
    assert (incl (List.concat gs) S) as Hg by (eapply incl_tran; [eapply iter_multiple_in, E | exact Hi]). apply stays_renew; [exact Hg | eapply flat_map_new; eassumption].
  Qed.
  Lemma trim2_sub a b r ls w w' ls' : v_trim2 a b r ls w = (w', Ok ls') -> incl ls' ls.
  Proof. unfold v_trim2. destruct (v_trim_loop a b r ls w) as [w1 [u|e]]; intros E; inversion E; subst. intros x Hx. apply filter_In in Hx. apply Hx. Qed.

  Lemma stays_after_filter a S ls w1 : incl ls S ->
    let r := match (match a_trim a with
                    | Some (x, y) => v_trim2 (SNum (inject_Z x / e9)) (SNum (inject_Z y / e9)) (RKey "onset") ls w1
                    | None => (w1, Ok ls)
                    end) with
             | (w2, Err e) => (w2, Err e)
             | (w2, Ok ls2) =>
                 match (match a_downsample a with
                        | Some d => renew (for_locs (downsample_one lowpass d) ls2) [] (filter (fun l => Qle_bool (freq_q d) (rate (seen w2 l))) ls2) w2
                        | None => (w2, Ok tt)
                        end) with
                 | (w3, Err e) => (w3, Err e)
                 | (w3, Ok _) => match v_groups str_of (a_rotate a) rot rot_new ls2 w3 with
                                 | (w4, Err e) => (w4, Err e)
                                 | (w4, Ok _) => (w4, Ok ls2)
                                 end
                 end
             end in
    stays S w1 (fst r) /\ incl (returned (snd r)) ls.
  Proof.
    intros Hi. cbv zeta.
    set (B := match a_trim a with Some (x, y) => _ | None => _ end).
    assert (stays S w1 (fst B) /\ incl (returned (snd B)) ls) as [SB IB].
    { unfold B. destruct (a_trim a) as [[x y]|]; [|split; [apply stays_refl | apply incl_refl]]. split; [apply stays_trim2, Hi|].
      destruct (v_trim2 _ _ _ ls w1) as [w2 [l|e]] eqn:E; [|intros z []]. eapply trim2_sub, E. }
    clearbody B. destruct B as [w2 [ls2|e]]; cbn [fst snd returned] in *; [|split; [exact SB | intros z []]].
    set (C := match a_downsample a with Some d => _ | None => _ end).
    assert (stays S w2 (fst C)) as SC.
    { unfold C. destruct (a_downsample a) as [d|]; [|apply stays_refl]. apply stays_renew; [intros z [] | intros z Hz; apply filter_In in Hz; apply Hi, IB, Hz]. }
    clearbody C. destruct C as [w3 [[]|e]]; cbn [fst snd returned] in *; [|split; [eapply stays_trans; eassumption | intros z []]].
    pose proof (stays_groups (a_rotate a) rot rot_new S ls2 w3 Hrot (incl_tran IB Hi)) as SD.
    destruct (v_groups str_of (a_rotate a) rot rot_new ls2 w3) as [w4 [[]|e]]; cbn [fst snd returned] in *; (split; [eapply stays_trans; [eapply stays_trans; eassumption | exact SD]|]); [exact IB | intros z []].
  Qed.
  (** the first stage of [rf] leads to w1; then *)
  Lemma prepare_stages a ls w : exists w1, (w1 = if a_filter a then fst (v_filter filt ls w) else w) /\
    forall S, incl ls S -> stays S w1 (fst (vprepare a ls w)) /\ incl (returned (snd (vprepare a ls w))) ls.
  Proof.
    eexists. split; [reflexivity|]. intros S Hi. unfold v_prepare.
    destruct (a_filter a); [destruct (v_filter filt ls w) as [w1 [[]|e]]|]; cbn [fst].
    - apply (stays_after_filter a S ls w1 Hi).
    - split; [apply stays_refl | intros z []].
    - apply (stays_after_filter a S ls w Hi).
  Qed.
  Lemma deconvolved_stages a m ls w : exists w1, (w1 = if a_filter a then fst (v_filter filt ls w) else w) /\
    forall S, incl ls S -> stays S w1 (fst (vdeconvolved a m ls w)) /\ incl (returned (snd (vdeconvolved a m ls w))) ls.
  Proof.
    destruct (prepare_stages a ls w) as (w1 & E & H). exists w1. split; [exact E|]. intros S Hi. destruct (H S Hi) as [H1 H2]. unfold v_deconvolved.
    destruct (vprepare a ls w) as [w2 [ls1|e]]; cbn [fst snd returned] in *; [|split; [exact H1 | intros z []]].
    set (w3 := fst (renew _ _ _ w2)). assert (stays S w2 w3) as H3 by (apply stays_renew; [intros z [] | intros z Hz; apply filter_In in Hz; apply Hi, H2, Hz]).
    pose proof (stays_groups (a_deconvolve a) (dec m) dec_new S ls1 w3 (Hdec m) (incl_tran H2 Hi)) as H4.
    destruct (v_groups str_of (a_deconvolve a) (dec m) dec_new ls1 w3) as [w4 [[]|e]]; cbn [fst snd returned] in *; (split; [eapply stays_trans; [exact H1 | eapply stays_trans; [exact H3 | exact H4]]|]); [exact H2 | intros z []].
  Qed.
  Lemma stays_finish m S ls w : incl ls S -> stays S w (fst (v_finish m ls w)).
  Proof.
    intros Hi. unfold v_finish. set (A := if String.eqb m "S" then _ else _).
    assert (stays S w (fst A)) as SA. { unfold A. destruct (String.eqb m "S"); [apply stays_renew; [intros z [] | exact Hi] | apply stays_refl]. }
    clearbody A. destruct A as [w1 [[]|e]]; cbn [fst] in *; [|exact SA].
    set (w2 := fst (renew _ ls [] w1)). assert (stays S w1 w2) as S2 by (apply stays_renew; [exact Hi | intros z []]).
    assert (stays S w2 (fst (renew (for_locs (set_phase m) ls) ls [] w2))) as S3 by (apply stays_renew; [exact Hi | intros z []]).
    pose proof (stays_trans _ _ _ _ SA S2) as S4. pose proof (stays_trans _ _ _ _ S4 S3) as S5.
    destruct (stream_method (map (seen w2) ls)) as [[m'|]|e]; [destruct (String.eqb m' m) | |]; assumption.
  Qed.
  Lemma rf_stages a ls w : exists w1, (w1 = if a_filter a then fst (v_filter filt ls w) else w) /\
    forall S, incl ls S -> (stays S w1 (fst (vrf a ls w)) \/ fst (vrf a ls w) = w) /\ incl (returned (snd (vrf a ls w))) ls.
  Proof.
    unfold v_rf. destruct (rf_method a (map (seen w) ls)) as [m|e].
    2:{ eexists. split; [reflexivity|]. intros S Hi. cbn [fst snd returned]. split; [right; reflexivity | intros z []]. }
    destruct (deconvolved_stages a m ls w) as (w1 & E & H). exists w1. split; [exact E|]. intros S Hi. destruct (H S Hi) as [H1 H2].
    destruct (vdeconvolved a m ls w) as [w3 [ls1|e]]; cbn [fst snd returned] in *; [|split; [left; exact H1 | intros z []]].
    pose proof (stays_finish m S ls1 w3 (incl_tran H2 Hi)) as H3.
    destruct (v_finish m ls1 w3) as [w4 [[]|e]]; cbn [fst snd returned] in *; (split; [left; eapply stays_trans; eassumption|]); [exact H2 | intros z []].
  Qed.
  Lemma stays_rf S a ls w : incl ls S -> stays S w (fst (vrf a ls w)) /\ incl (returned (snd (vrf a ls w))) ls.
  Proof.
    intros Hi. destruct (rf_stages a ls w) as (w1 & E & H). destruct (H S Hi) as [[H1|H1] H2]; (split; [|exact H2]).
    - eapply stays_trans; [|exact H1]. rewrite E. destruct (a_filter a); [apply stays_filter, Hi | apply stays_refl].
    - rewrite H1. apply stays_refl.
  Qed.

  (** ** new traces *)
  Lemma oset_list_set ls : forall o ts l, In l (firstn (length ts) ls) -> In (oset_list o ls ts l) ts.
  Proof.
    induction ls as [|x ls IH]; intros o ts l Hl; [destruct ts; destruct Hl|]. destruct ts as [|t ts]; [destruct Hl|]. cbn [length firstn] in Hl. cbn [oset_list].
    destruct Hl as [<-|Hl]; [|right; apply IH, Hl]. destruct (oset_list_in ls (oset o x t) ts x) as [->|H]; [left; symmetry; apply oset_same | right; exact H].
  Qed.
  Lemma firstn_incl {A} n (l : list A) : incl (firstn n l) l.
  Proof. intros x Hx. rewrite <- (firstn_skipn n l). apply in_or_app. left. exact Hx. Qed.
  (** [w'] arises from [w] by creation of traces at [new] out of traces of [ls]; [made] are the new traces *)
  Definition created (ls new made : list loc) (w w' : world) : Prop :=
    grows new w w' /\ incl made new /\
    (forall l, w_obj w' l = w_obj w l \/ length (w_mem w) <= v_buf (v_arr (w_obj w' l)) \/ exists l0, In l0 ls /\ v_buf (v_arr (w_obj w' l)) = v_buf (v_arr (w_obj w l0))) /\
    (forall l, In l made -> length (w_mem w) <= v_buf (v_arr (w_obj w' l)) \/ exists l0, In l0 ls /\ v_buf (v_arr (w_obj w' l)) = v_buf (v_arr (w_obj w l0))).
  Lemma created_views ls new ts w : (forall t, In t ts -> exists l0, In l0 ls /\ part_of (v_arr t) (v_arr (w_obj w l0))) ->
    created ls new (firstn (length ts) new) w (mkWorld (w_mem w) (oset_list (w_obj w) new ts)).
  Proof.
    intros Hts. split; [split; [|split]|split; [apply firstn_incl | split]].
    - intros Ha l. cbn [w_mem w_obj]. destruct (oset_list_in new (w_obj w) ts l) as [->|H]; [apply Ha|]. destruct (Hts _ H) as (l0 & _ & Hp). exact (part_inside (w_mem w) _ _ Hp (Ha l0)).
    - exists []. symmetry. apply app_nil_r.
    - intros l Hl. apply oset_list_other, Hl.
    - intros l. cbn [w_mem w_obj]. destruct (oset_list_in new (w_obj w) ts l) as [->|H]; [left; reflexivity|]. destruct (Hts _ H) as (l0 & Hl0 & Hp & _). right. right. exists l0. auto.
    - intros l Hl. cbn [w_mem w_obj]. destruct (Hts _ (oset_list_set new (w_obj w) ts l Hl)) as (l0 & Hl0 & Hp & _). right. exists l0. auto.
  Qed.
  Lemma mapM_in {A B} (f : A -> res B) l : forall l', mapM f l = Ok l' -> forall y, In y l' -> exists x, In x l /\ f x = Ok y.
  Proof.
    induction l as [|x l IH]; intros l' E y Hy; cbn [mapM] in E; [inversion E; subst; destruct Hy|].
    destruct (f x) as [z|] eqn:Ef; cbn [bind] in E; [|discriminate]. destruct (mapM f l) as [zs|] eqn:Em; cbn [bind] in E; [|discriminate]. inversion E; subst.
    destruct Hy as [<-|Hy]; [exists x; split; [left; reflexivity | exact Ef]|]. destruct (IH zs eq_refl y Hy) as (x' & H1 & H2). exists x'. split; [right; exact H1 | exact H2].
  Qed.
  Lemma created_slice a b r k ls new w : created ls new (returned (snd (v_slice2 a b r k ls new w))) w (fst (v_slice2 a b r k ls new w)).
  Proof.
    unfold v_slice2. destruct (mapM _ ls) as [ts|e] eqn:E; cbn [fst snd returned].
    - apply created_views. intros t Ht. apply filter_In in Ht. destruct (mapM_in _ _ _ E _ (proj1 Ht)) as (l & Hl & Ec). exists l. split; [exact Hl | eapply cut_rel_part, Ec].
    - split; [apply grows_refl|]. split; [intros z []|]. split; [left; reflexivity | intros l []].
  Qed.
  Lemma created_init ls new w : created ls new (returned (snd (v_init ls new w))) w (fst (v_init ls new w)).
  Proof.
    cbn [v_init fst snd returned]. rewrite <- (map_length (w_obj w) ls). apply created_views. intros t Ht. apply in_map_iff in Ht. destruct Ht as (l & <- & Hl). exists l. split; [exact Hl | apply part_refl].
  Qed.
  Lemma copy_loop_facts ls : forall new w, grows new w (v_copy_loop ls new w) /\
    (forall l, w_obj (v_copy_loop ls new w) l = w_obj w l \/ length (w_mem w) <= v_buf (v_arr (w_obj (v_copy_loop ls new w) l))) /\
    (forall l, In l (firstn (length ls) new) -> length (w_mem w) <= v_buf (v_arr (w_obj (v_copy_loop ls new w) l))).
  Proof.
    induction ls as [|x ls IH]; intros new w.
    - cbn [v_copy_loop length firstn]. split; [apply grows_refl|]. split; [left; reflexivity | intros l []].
    - destruct new as [|n new]; cbn [v_copy_loop length firstn]; [split; [apply grows_refl|]; split; [left; reflexivity | intros l []]|].
      destruct (IH new (assign w n (seen w x))) as (G & H1 & H2). assert (length (w_mem w) <= length (w_mem (assign w n (seen w x)))) as Hlen by (cbn [assign w_mem]; rewrite app_length; lia).
      assert (forall l, w_obj (assign w n (seen w x)) l = w_obj w l /\ l <> n \/ length (w_mem w) <= v_buf (v_arr (w_obj (assign w n (seen w x)) l))) as Hn.
      { intros l. cbn [assign w_obj]. unfold oset. destruct (Nat.eqb_spec l n) as [->|Hl]; [right; cbn [v_arr v_buf]; lia | left; auto]. }
      split; [|split].
      + eapply grows_trans; [apply grows_assign; left; reflexivity|]. eapply grows_incl; [|exact G]. intros z Hz. right. exact Hz.
      + intros l. destruct (H1 l) as [->|H]; [|right; lia]. destruct (Hn l) as [[-> _]|H]; [left; reflexivity | right; exact H].
      + intros l [<-|Hl]; [|specialize (H2 l Hl); lia]. destruct (H1 n) as [->|H]; [|lia]. destruct (Hn n) as [[_ Hc]|H]; [congruence | exact H].
  Qed.
  Lemma created_copy ls new w : created ls new (returned (snd (v_copy ls new w))) w (fst (v_copy ls new w)).
  Proof.
    cbn [v_copy fst snd returned]. destruct (copy_loop_facts ls new w) as (G & H1 & H2). split; [exact G|]. split; [apply firstn_incl|]. split.
    - intros l. destruct (H1 l) as [->|H]; [left; reflexivity | right; left; exact H].
    - intros l Hl. left. apply H2, Hl.
  Qed.

  (** ** the moveout correction *)
  Lemma seen_length w l : allocated w -> length (data (seen w l)) = v_len (v_arr (w_obj w l)).
  Proof. intros Ha. cbn [seen look data]. apply array_length, Ha. Qed.
  Lemma allocated_store w l d : allocated w -> length d = v_len (v_arr (w_obj w l)) -> allocated (mkWorld (store (w_mem w) (v_arr (w_obj w l)) d) (w_obj w)).
  Proof. intros Ha Hd l'. cbn [w_mem w_obj]. apply (store_inside (w_mem w) (v_arr (w_obj w l)) d (v_arr (w_obj w l')) (Ha l) Hd (Ha l')). Qed.
  Lemma seen_store w l d l' : allocated w -> length d = v_len (v_arr (w_obj w l)) -> ~ share_sample (w_obj w l) (w_obj w l') ->
    seen (mkWorld (store (w_mem w) (v_arr (w_obj w l)) d) (w_obj w)) l' = seen w l'.
  Proof. intros Ha Hd Hs. unfold seen, look. cbn [w_mem w_obj]. f_equal. apply store_apart; [apply Ha | apply Ha | exact Hd | exact Hs]. Qed.
  Lemma seen_stored w l d : allocated w -> length d = v_len (v_arr (w_obj w l)) ->
    seen (mkWorld (store (w_mem w) (v_arr (w_obj w l)) d) (w_obj w)) l = mkTrace (st (seen w l)) d.
  Proof. intros Ha Hd. unfold seen, look. cbn [w_mem w_obj st]. f_equal. apply store_same; [apply Ha | exact Hd]. Qed.
  Lemma apart_no_share w ls E l l' : apart w ls E -> In l ls -> E l' -> ~ share_sample (w_obj w l) (w_obj w l').
  Proof. intros Ha Hl Hl' (i & j & _ & _ & Eb & _). exact (Ha l l' Hl Hl' Eb). Qed.
  Lemma moveout_loop_frame ls : forall w, allocated w ->
    allocated (fst (v_moveout_loop mo ls w)) /\ w_obj (fst (v_moveout_loop mo ls w)) = w_obj w /\ length (w_mem (fst (v_moveout_loop mo ls w))) = length (w_mem w) /\
    (forall l', (forall l, In l ls -> ~ share_sample (w_obj w l) (w_obj w l')) -> seen (fst (v_moveout_loop mo ls w)) l' = seen w l').
  Proof.
    induction ls as [|l ls IH]; intros w Ha; cbn [v_moveout_loop fst]; [auto|]. destruct (mo (seen w l)) as [d|e] eqn:E; cbn [fst]; [|auto].
    assert (length d = v_len (v_arr (w_obj w l))) as Hd by (rewrite (Hmo _ _ E); apply seen_length, Ha).
    set (w1 := mkWorld (store (w_mem w) (v_arr (w_obj w l)) d) (w_obj w)). assert (allocated w1) as Ha1 by (apply allocated_store; assumption).
    destruct (IH w1 Ha1) as (A & O & L & F). split; [exact A|]. split; [exact O|]. split; [rewrite L; cbn [w1 w_mem]; apply store_length, Ha|].
    intros l' Hl'. rewrite F by (intros l0 Hl0; apply Hl'; right; exact Hl0). apply seen_store; [exact Ha | exact Hd | apply Hl'; left; reflexivity].
  Qed.
  Lemma moveout_frame ls w : allocated w ->
    allocated (fst (v_moveout mo mark ls w)) /\ length (w_mem (fst (v_moveout mo mark ls w))) = length (w_mem w) /\
    (forall l, v_arr (w_obj (fst (v_moveout mo mark ls w)) l) = v_arr (w_obj w l)) /\
    (forall l', ~ In l' ls -> (forall l, In l ls -> ~ share_sample (w_obj w l) (w_obj w l')) -> seen (fst (v_moveout mo mark ls w)) l' = seen w l').
  Proof.
    intros Ha. unfold v_moveout. destruct (moveout_loop_frame ls w Ha) as (A & O & L & F). destruct (v_moveout_loop mo ls w) as [w1 [[]|e]]; cbn [fst] in *.
    2:{ split; [exact A|]. split; [exact L|]. split; [intros l; rewrite O; reflexivity | intros l' _; apply F]. }
    assert (forall xs w, w_mem (fold_left (fun w l => restat w l (mark (v_st (w_obj w l)))) xs w) = w_mem w /\ (forall l, v_arr (w_obj (fold_left (fun w l => restat w l (mark (v_st (w_obj w l)))) xs w) l) = v_arr (w_obj w l))) as Hf.
    { induction xs as [|x xs IHx]; intros w0; [auto|]. cbn [fold_left]. destruct (IHx (restat w0 x (mark (v_st (w_obj w0 x))))) as [M V]. split; [exact M|]. intros l. rewrite V. cbn [restat w_obj]. unfold oset. destruct (Nat.eqb_spec l x) as [->|_]; reflexivity. }
    destruct (Hf ls w1) as [M V]. pose proof (grows_fold_restat (fun w l => mark (v_st (w_obj w l))) ls ls w1 (incl_refl _)) as G.
    split; [apply G, A|]. split; [rewrite M; exact L|]. split; [intros l; rewrite V, O; reflexivity|].
    intros l' Hl' Hs. rewrite (grows_seen _ _ _ _ A G Hl'). apply F, Hs.
  Qed.

  (** ** programs *)
  Lemma call_grows c w : ~ is_moveout c -> grows (arguments c ++ creates c) w (fst (step c w)) /\ incl (returned (snd (step c w))) (arguments c ++ creates c).
  Proof.
    assert (forall l1 l2 : list loc, incl l1 (l1 ++ l2)) as I1 by (intros; apply incl_appl, incl_refl).
    assert (forall l1 l2 : list loc, incl l2 (l1 ++ l2)) as I2 by (intros; apply incl_appr, incl_refl).
    destruct c as [ls|a b r ls|a ls|ls|a b r k ls new|ls new|ls new]; intros Hc; cbn [do_call arguments creates].
    - pose proof (stays_filter (ls ++ []) ls w (I1 _ _)) as [G _]. destruct (v_filter filt ls w) as [w' [[]|e]]; cbn [fst snd bind returned] in *; (split; [exact G|]); [apply I1 | intros z []].
    - pose proof (stays_trim2 a b r (ls ++ []) ls w (I1 _ _)) as [G _]. split; [exact G|]. destruct (v_trim2 a b r ls w) as [w' [l|e]] eqn:E; [|intros z []]. eapply incl_tran; [eapply trim2_sub, E | apply I1].
    - destruct (stays_rf (ls ++ []) a ls w (I1 _ _)) as [[G _] H]. split; [exact G | eapply incl_tran; [exact H | apply I1]].
    - exfalso. apply Hc. exact I.
    - destruct (created_slice a b r k ls new w) as (G & H & _). split; [eapply grows_incl; [apply I2 | exact G] | eapply incl_tran; [exact H | apply I2]].
    - destruct (created_init ls new w) as (G & H & _). split; [eapply grows_incl; [apply I2 | exact G] | eapply incl_tran; [exact H | apply I2]].
    - destruct (created_copy ls new w) as (G & H & _). split; [eapply grows_incl; [apply I2 | exact G] | eapply incl_tran; [exact H | apply I2]].
  Qed.
  Lemma program_no_moveout E ls w w' : program step (fun c => ~ is_moveout c) E ls w w' -> allocated w -> (forall l, In l ls -> ~ E l) ->
    allocated w' /\ forall l, E l -> seen w' l = seen w l.
  Proof.
    induction 1 as [ls w|ls w c w' Hc Hi Hn Hp IH]; intros Ha Hd; [auto|]. destruct (call_grows c w Hc) as [G R].
    assert (forall l, E l -> ~ In l (arguments c ++ creates c)) as Hx.
    { intros l Hl H. apply in_app_or in H. destruct H as [H|H]; [exact (Hd l (Hi l H) Hl) | exact (Hn l H Hl)]. }
    destruct IH as [A F].
    - apply G, Ha.
    - intros l Hl HE. apply in_app_or in Hl. destruct Hl as [Hl|Hl]; [exact (Hx l HE (R l Hl)) | exact (Hd l Hl HE)].
    - split; [exact A|]. intros l HE. rewrite F by exact HE. apply (grows_seen _ _ _ _ Ha G), Hx, HE.
  Qed.
  Lemma apart_disjoint w ls (E : loc -> Prop) l : apart w ls E -> In l ls -> ~ E l.
  Proof. intros Ha Hl HE. exact (Ha l l Hl HE eq_refl). Qed.
  Lemma stays_apart S ls E w w' : allocated w -> stays S w w' -> apart w S E -> incl ls S -> apart w' ls E.
  Proof.
    intros Ha [G B] Hp Hi l l' Hl Hl'. assert (~ In l' S) as Hn by (intros H; exact (apart_disjoint _ _ _ _ Hp H Hl')). destruct G as (_ & _ & O). rewrite (O l' Hn).
    destruct (B l (Hi l Hl)) as [H|(l0 & Hl0 & ->)]; [pose proof (proj1 (Ha l')); lia | apply Hp; assumption].
  Qed.
  Lemma created_apart S ls new made E w w' : allocated w -> created ls new made w w' -> incl ls S -> apart w S E -> (forall l, In l new -> ~ E l) -> apart w' (made ++ S) E.
  Proof.
    intros Ha (G & Hm & H1 & H2) Hi Hp Hn l l' Hl Hl'. destruct G as (_ & _ & O). rewrite (O l') by (intros H; exact (Hn l' H Hl')).
    assert (length (w_mem w) <= v_buf (v_arr (w_obj w' l)) \/ (exists l0, In l0 S /\ v_buf (v_arr (w_obj w' l)) = v_buf (v_arr (w_obj w l0)))) as H.
    { apply in_app_or in Hl. destruct Hl as [Hl|Hl].
      - destruct (H2 l Hl) as [H|(l0 & Hl0 & Eb)]; [left; exact H | right; exists l0; split; [apply Hi, Hl0 | exact Eb]].
      - destruct (H1 l) as [->|[H|(l0 & Hl0 & Eb)]]; [right; exists l; auto | left; exact H | right; exists l0; split; [apply Hi, Hl0 | exact Eb]]. }
    destruct H as [H|(l0 & Hl0 & ->)]; [pose proof (proj1 (Ha l')); lia | apply Hp; assumption].
  Qed.
  Lemma call_apart c w S E : allocated w -> apart w S E -> incl (arguments c) S -> (forall l, In l (creates c) -> ~ E l) ->
    allocated (fst (step c w)) /\ apart (fst (step c w)) (returned (snd (step c w)) ++ S) E /\ forall l, E l -> seen (fst (step c w)) l = seen w l.
  Proof.
    intros Ha Hp Hi Hn.
    assert (forall w' made, stays S w w' -> incl made S -> allocated w' /\ apart w' (made ++ S) E /\ forall l, E l -> seen w' l = seen w l) as Hs.
    { intros w' made Hst Hm. split; [apply Hst, Ha|]. split; [eapply stays_apart; [exact Ha | exact Hst | exact Hp | apply incl_app; [exact Hm | apply incl_refl]]|].
      intros l HE. apply (grows_seen _ _ _ _ Ha (proj1 Hst)). intros H. exact (apart_disjoint _ _ _ _ Hp H HE). }
    assert (forall w' ls new made, created ls new made w w' -> incl ls S -> (forall l, In l new -> ~ E l) -> allocated w' /\ apart w' (made ++ S) E /\ forall l, E l -> seen w' l = seen w l) as Hcr.
    { intros w' ls new made Hc Hl Hne. split; [apply Hc, Ha|]. split; [eapply created_apart; eassumption|]. intros l HE. apply (grows_seen _ _ _ _ Ha (proj1 Hc)). intros H. exact (Hne l H HE). }
    destruct c as [ls|a b r ls|a ls|ls|a b r k ls new|ls new|ls new]; cbn [do_call arguments creates] in *.
    - pose proof (stays_filter S ls w Hi) as G. destruct (v_filter filt ls w) as [w' [[]|e]]; cbn [fst snd bind returned] in *; (apply Hs; [exact G|]); [exact Hi | intros z []].
    - apply Hs; [apply stays_trim2, Hi|]. destruct (v_trim2 a b r ls w) as [w' [l|e]] eqn:Et; [|intros z []]. eapply incl_tran; [eapply trim2_sub, Et | exact Hi].
    - destruct (stays_rf S a ls w Hi) as [G H]. apply Hs; [exact G | eapply incl_tran; [exact H | exact Hi]].
    - destruct (moveout_frame ls w Ha) as (A & L & V & F). destruct (v_moveout mo mark ls w) as [w' r]; cbn [fst snd] in *. split; [exact A|]. split.
      + intros l l' Hl Hl'. rewrite !V. apply Hp; [|exact Hl']. apply in_app_or in Hl. destruct Hl as [Hl|Hl]; [|exact Hl]. destruct r as [[]|e]; [apply Hi, Hl | destruct Hl].
      + intros l HE. apply F; [intros H; exact (apart_disjoint _ _ _ _ Hp (Hi l H) HE) | intros l0 Hl0; apply (apart_no_share w S E); [exact Hp | apply Hi, Hl0 | exact HE]].
    - eapply Hcr; [apply created_slice | exact Hi | exact Hn].
    - eapply Hcr; [apply created_init | exact Hi | exact Hn].
    - eapply Hcr; [apply created_copy | exact Hi | exact Hn].
  Qed.
  Lemma program_apart allowed E S w w' : program step allowed E S w w' -> allocated w -> apart w S E ->
    allocated w' /\ forall l, E l -> seen w' l = seen w l.
  Proof.
    induction 1 as [ls w|ls w c w' Hc Hi Hn Hp IH]; intros Ha Hd; [auto|]. destruct (call_apart c w ls E Ha Hd Hi Hn) as (A & P & F).
    destruct (IH A P) as [A' F']. split; [exact A'|]. intros l HE. rewrite F', F by exact HE. reflexivity.
  Qed.
  (** all traces of a copy, and of a stream which has been filtered, have their own arrays *)
  Lemma copy_apart ls new E w : allocated w -> (forall l, In l new -> ~ E l) -> apart (fst (v_copy ls new w)) (firstn (length ls) new) E.
  Proof.
    intros Ha Hn l l' Hl Hl'. destruct (copy_loop_facts ls new w) as ((_ & _ & O) & _ & H). cbn [v_copy fst]. rewrite (O l') by (intros H'; exact (Hn l' H' Hl')).
    specialize (H l Hl). pose proof (proj1 (Ha l')). lia.
  Qed.
  Lemma fold_assign_new (h : heap) ls : forall w l, In l ls -> length (w_mem w) <= v_buf (v_arr (w_obj (fold_left (fun w l => assign w l (h l)) ls w) l)).
  Proof.
    assert (forall ls w l, w_obj (fold_left (fun w l => assign w l (h l)) ls w) l = w_obj w l \/ length (w_mem w) <= v_buf (v_arr (w_obj (fold_left (fun w l => assign w l (h l)) ls w) l))) as Hk.
    { induction ls0 as [|x xs IH]; intros w l; [left; reflexivity|]. cbn [fold_left]. destruct (IH (assign w x (h x)) l) as [->|H].
      - cbn [assign w_obj]. unfold oset. destruct (Nat.eqb l x); [right; cbn [v_arr v_buf]; lia | left; reflexivity].
      - right. cbn [assign w_mem] in H. rewrite app_length in H. lia. }
    induction ls as [|x xs IH]; intros w l Hl; [destruct Hl|]. cbn [fold_left]. destruct (in_dec Nat.eq_dec l xs) as [Hx|Hx].
    - specialize (IH (assign w x (h x)) l Hx). cbn [assign w_mem] in IH. rewrite app_length in IH. lia.
    - destruct Hl as [->|Hl]; [|contradiction]. destruct (Hk xs (assign w l (h l)) l) as [->|H]; [cbn [assign w_obj]; rewrite oset_same; cbn [v_arr v_buf]; lia|].
      cbn [assign w_mem] in H. rewrite app_length in H. lia.
  Qed.
  Lemma filter_apart ls E w : allocated w -> (forall l, In l ls -> ~ E l) -> apart (fst (v_filter filt ls w)) ls E.
  Proof.
    intros Ha Hn l l' Hl Hl'. destruct (stays_filter ls ls w (incl_refl _)) as [(_ & _ & O) _]. rewrite (O l') by (intros H'; exact (Hn l' H' Hl')).
    unfold v_filter, renew. destruct (for_locs filt ls (seen w)) as [h r]. cbn [fst fold_left]. pose proof (fold_assign_new h ls w l Hl). pose proof (proj1 (Ha l')). lia.
  Qed.
  Lemma rf_filter_apart a ls E w : allocated w -> (forall l, In l ls -> ~ E l) -> a_filter a = true -> (exists m, rf_method a (map (seen w) ls) = Ok m) ->
    allocated (fst (vrf a ls w)) /\ apart (fst (vrf a ls w)) ls E /\ forall l, E l -> seen (fst (vrf a ls w)) l = seen w l.
  Proof.
    intros Ha Hn Hf [m Hm]. assert (stays ls (fst (v_filter filt ls w)) (fst (vrf a ls w))) as Hs.
    { unfold v_rf. rewrite Hm. destruct (deconvolved_stages a m ls w) as (w1 & E1 & H). rewrite Hf in E1. subst w1. destruct (H ls (incl_refl _)) as [H1 H2].
      destruct (vdeconvolved a m ls w) as [w3 [ls1|e]]; cbn [fst snd returned] in *; [|exact H1].
      pose proof (stays_finish m ls ls1 w3 H2) as H3. destruct (v_finish m ls1 w3) as [w4 [[]|e]]; cbn [fst] in *; eapply stays_trans; eassumption. }
    destruct (stays_filter ls ls w (incl_refl _)) as [G _]. assert (allocated (fst (v_filter filt ls w))) as Ha1 by (apply G, Ha).
    split; [apply Hs, Ha1|]. split; [eapply stays_apart; [exact Ha1 | exact Hs | apply filter_apart; assumption | apply incl_refl]|].
    intros l HE. rewrite (grows_seen _ _ _ _ Ha1 (proj1 Hs)) by (intros H; exact (Hn l H HE)). apply (grows_seen _ _ _ _ Ha G). intros H; exact (Hn l H HE).
  Qed.

  Lemma rf_rotate_apart a ls gs E w : allocated w -> (forall l, In l ls -> ~ E l) -> a_filter a = false -> a_trim a = None -> a_downsample a = None -> a_rotate a = true ->
    (exists m, rf_method a (map (seen w) ls) = Ok m) -> iter3c str_of ls (seen w) = Ok gs -> incl ls (flat_map rot_new gs) ->
    allocated (fst (vrf a ls w)) /\ apart (fst (vrf a ls w)) ls E /\ forall l, E l -> seen (fst (vrf a ls w)) l = seen w l.
  Proof.
    intros Ha Hn Hf Ht Hd Hr [m Hm] Hg Hall. set (w1 := fst (renew (for_groups rot gs) (List.concat gs) (flat_map rot_new gs) w)).
    assert (incl (List.concat gs) ls) as Hgi by (eapply iter_multiple_in, Hg).
    assert (stays ls w w1) as S1 by (apply stays_renew; [exact Hgi | eapply flat_map_new; [exact Hrot | exact Hgi]]).
    assert (allocated w1) as Ha1 by (apply S1, Ha).
    assert (apart w1 ls E) as P1.
    { intros l l' Hl Hl'. destruct S1 as [(_ & _ & O) _]. rewrite (O l') by (intros H'; exact (Hn l' H' Hl')). unfold w1, renew. destruct (for_groups rot gs (seen w)) as [h r]. cbn [fst].
      match goal with |- context [fold_left (fun w l => assign w l (h l)) _ ?w2] => pose proof (fold_assign_new h (flat_map rot_new gs) w2 l (Hall l Hl)) as Hb; assert (w_mem w2 = w_mem w) as Em end.
      { generalize (List.concat gs). intros xs. generalize w. induction xs as [|x xs IH]; intros w0; [reflexivity|]. cbn [fold_left]. rewrite IH. reflexivity. }
      rewrite Em in Hb. pose proof (proj1 (Ha l')). lia. }
    assert (vprepare a ls w = (w1, let! _ := snd (renew (for_groups rot gs) (List.concat gs) (flat_map rot_new gs) w) in Ok ls)) as Ep.
    { unfold v_prepare. rewrite Hf, Ht, Hd, Hr. unfold v_groups. rewrite Hg. unfold w1. destruct (renew _ _ _ w) as [w' [[]|e]]; reflexivity. }
    assert (stays ls w1 (fst (vrf a ls w))) as Hs.
    { unfold v_rf. rewrite Hm. unfold v_deconvolved. rewrite Ep. destruct (snd (renew _ _ _ w)) as [[]|e]; cbn [bind fst]; [|apply stays_refl].
      set (w2 := fst (renew _ _ _ w1)). assert (stays ls w1 w2) as S2 by (apply stays_renew; [intros z [] | intros z Hz; apply filter_In in Hz; apply Hz]).
      pose proof (stays_groups (a_deconvolve a) (dec m) dec_new ls ls w2 (Hdec m) (incl_refl _)) as S3.
      destruct (v_groups str_of (a_deconvolve a) (dec m) dec_new ls w2) as [w3 [[]|e]]; cbn [fst] in *; [|eapply stays_trans; eassumption].
      pose proof (stays_finish m ls ls w3 (incl_refl _)) as S4. destruct (v_finish m ls w3) as [w4 [[]|e]]; cbn [fst] in *; (eapply stays_trans; [eapply stays_trans; eassumption | exact S4]). }
    split; [apply Hs, Ha1|]. split; [eapply stays_apart; [exact Ha1 | exact Hs | exact P1 | apply incl_refl]|].
    intros l HE. rewrite (grows_seen _ _ _ _ Ha1 (proj1 Hs)) by (intros H; exact (Hn l H HE)). apply (grows_seen _ _ _ _ Ha (proj1 S1)). intros H; exact (Hn l H HE).
  Qed.

  (** ** the same values as without sharing *)
  Lemma hset_same h l t : hset h l t l = t.
  Proof. apply hset_eq. Qed.
  Lemma for_locs_frame f ls : forall h l, ~ In l ls -> fst (for_locs f ls h) l = h l.
  Proof.
    induction ls as [|x ls IH]; intros h l Hl; [reflexivity|]. cbn [for_locs]. assert (l <> x) as Hx by (intros ->; apply Hl; left; reflexivity).
    destruct (f (h x)) as [t [[]|e]]; cbn [fst]; [rewrite IH by (intros H; apply Hl; right; exact H)|]; apply hset_ne; intros ->; congruence.
  Qed.
  Lemma for_locs_fixed f ls : forall h l, fst (f (h l)) = h l -> fst (for_locs f ls h) l = h l.
  Proof.
    induction ls as [|x ls IH]; intros h l Hl; [reflexivity|]. cbn [for_locs].
    assert (hset h x (fst (f (h x))) l = h l) as Hh.
    { destruct (Nat.eq_dec l x) as [->|Hx]; [rewrite hset_eq; exact Hl | apply hset_ne; congruence]. }
    destruct (f (h x)) as [t [[]|e]]; cbn [fst] in *; [rewrite IH; rewrite Hh; [reflexivity | exact Hl] | exact Hh].
  Qed.
  Lemma for_locs_data f ls : (forall t, data (fst (f t)) = data t) -> forall h l, data (fst (for_locs f ls h) l) = data (h l).
  Proof.
    intros Hf. induction ls as [|x ls IH]; intros h l; [reflexivity|]. cbn [for_locs].
    assert (data (hset h x (fst (f (h x))) l) = data (h l)) as Hh.
    { destruct (Nat.eq_dec l x) as [->|Hx]; [rewrite hset_eq; apply Hf | rewrite hset_ne by congruence; reflexivity]. }
    destruct (f (h x)) as [t [[]|e]]; cbn [fst] in *; [rewrite IH|]; exact Hh.
  Qed.
  Lemma for_groups_frame f new gs : group_method f new -> forall h, (forall l, ~ In l (List.concat gs) -> fst (for_groups f gs h) l = h l) /\
    (forall l, ~ In l (flat_map new gs) -> data (fst (for_groups f gs h) l) = data (h l)).
  Proof.
    intros Hf. induction gs as [|g gs IH]; intros h; [split; reflexivity|]. cbn [for_groups]. destruct (Hf g h) as (H1 & _ & H3).
    cbn [List.concat flat_map]. destruct (f g h) as [h' [[]|e]]; cbn [fst] in *.
    - destruct (IH h') as [I1 I2]. split; intros l Hl.
      + rewrite I1, H1; [reflexivity | |]; intros H; apply Hl, in_or_app; [left | right]; exact H.
      + rewrite I2, H3; [reflexivity | |]; intros H; apply Hl, in_or_app; [left | right]; exact H.
    - split; intros l Hl; [apply H1 | apply H3]; intros H; apply Hl, in_or_app; left; exact H.
  Qed.
  Lemma groups_seen on f new ls w : group_method f new -> allocated w ->
    seen (fst (v_groups str_of on f new ls w)) = fst (group_stage str_of on f ls (seen w)) /\ snd (v_groups str_of on f new ls w) = snd (group_stage str_of on f ls (seen w)).
  Proof.
    intros Hf Ha. unfold v_groups, group_stage. destruct on; [|auto]. destruct (iter3c str_of ls (seen w)) as [gs|e]; [|auto].
    destruct (for_groups_frame f new gs Hf (seen w)) as [H1 H2]. apply renew_seen; [exact Ha | |]; [intros l Hl _; apply H1, Hl | exact H2].
  Qed.
  Lemma seen_oset m o l t : seen (mkWorld m (oset o l t)) = hset (seen (mkWorld m o)) l (look m t).
  Proof. apply functional_extensionality. intros l'. unfold seen, hset, oset. cbn [w_mem w_obj]. destruct (Nat.eqb l' l); reflexivity. Qed.
  Lemma trim_loop_seen a b r ls : forall w, seen (fst (v_trim_loop a b r ls w)) = fst (trim_loop a b r ls (seen w)) /\ snd (v_trim_loop a b r ls w) = snd (trim_loop a b r ls (seen w)).
  Proof.
    induction ls as [|l ls IH]; intros w; [split; reflexivity|]. cbn [v_trim_loop trim_loop]. pose proof (look_cut_rel (w_mem w) a b r (w_obj w l)) as H. change (look (w_mem w) (w_obj w l)) with (seen w l) in H.
    destruct (cut_rel (w_mem w) a b r (w_obj w l)) as [t|e], (trim_rel a b r (seen w l)) as [t'|e']; try contradiction; [|subst; split; reflexivity].
    destruct (IH (mkWorld (w_mem w) (oset (w_obj w) l t))) as [I1 I2]. rewrite seen_oset, H in I1, I2. destruct w as [m o]. split; [exact I1 | exact I2].
  Qed.
  Lemma trim2_seen a b r ls w : seen (fst (v_trim2 a b r ls w)) = fst (trim2 a b r ls (seen w)) /\ snd (v_trim2 a b r ls w) = snd (trim2 a b r ls (seen w)).
  Proof.
    unfold v_trim2, trim2. destruct (trim_loop_seen a b r ls w) as [H1 H2]. destruct (v_trim_loop a b r ls w) as [w' r1], (trim_loop a b r ls (seen w)) as [h' r2]. cbn [fst snd] in *. subst r2 h'.
    destruct r1 as [[]|e]; split; reflexivity.
  Qed.
  (** two runs, with and without sharing *)
  Definition agree {A} (r : world * res A) (q : heap * res A) : Prop := allocated (fst r) /\ seen (fst r) = fst q /\ snd r = snd q.
  Lemma agree_bind {A B} (r : world * res A) (q : heap * res A) (f : world -> A -> world * res B) (g : heap -> A -> heap * res B) :
    agree r q -> (forall w x, allocated w -> agree (f w x) (g (seen w) x)) ->
    agree (match r with (w, Err e) => (w, Err e) | (w, Ok x) => f w x end) (match q with (h, Err e) => (h, Err e) | (h, Ok x) => g h x end).
  Proof.
    intros (Ha & Hs & He) Hf. destruct r as [w o], q as [h o']. cbn [fst snd] in *. subst h o'. destruct o as [x|e]; [apply Hf, Ha | split; [exact Ha | split; reflexivity]].
  Qed.
  Lemma agree_ret {A} w (x : A) : allocated w -> agree (w, Ok x) (seen w, Ok x).
  Proof. intros Ha. split; [exact Ha | split; reflexivity]. Qed.
  Lemma agree_err {A} w e : allocated w -> @agree A (w, Err e) (seen w, Err e).
  Proof. intros Ha. split; [exact Ha | split; reflexivity]. Qed.
  Lemma agree_renew F kept fresh w : allocated w ->
    (forall l, ~ In l kept -> ~ In l fresh -> fst (F (seen w)) l = seen w l) -> (forall l, ~ In l fresh -> data (fst (F (seen w)) l) = data (seen w l)) ->
    agree (renew F kept fresh w) (F (seen w)).
  Proof.
    intros Ha H1 H2. destruct (renew_seen F kept fresh w Ha H1 H2) as [E1 E2]. split; [|split; [exact E1 | exact E2]].
    destruct (renew_grows F kept fresh (kept ++ fresh) w) as (A & _); [apply incl_appl, incl_refl | apply incl_appr, incl_refl | apply A, Ha].
  Qed.
  Lemma agree_groups on f new ls w : group_method f new -> allocated w -> agree (v_groups str_of on f new ls w) (group_stage str_of on f ls (seen w)).
  Proof.
    intros Hf Ha. destruct (groups_seen on f new ls w Hf Ha) as [H1 H2]. split; [|split; assumption]. apply (stays_groups on f new ls ls w Hf (incl_refl _)), Ha.
  Qed.
  Lemma agree_fresh f ls w : allocated w -> agree (renew (for_locs f ls) [] ls w) (for_locs f ls (seen w)).
  Proof. intros Ha. apply agree_renew; [exact Ha | |]; intros l; [intros _ Hl | intros Hl; f_equal]; apply for_locs_frame, Hl. Qed.
  Lemma agree_tag f ls w : (forall t, data (fst (f t)) = data t) -> allocated w -> agree (renew (for_locs f ls) ls [] w) (for_locs f ls (seen w)).
  Proof. intros Hf Ha. apply agree_renew; [exact Ha | |]; intros l; [intros Hl _; apply for_locs_frame, Hl | intros _; apply for_locs_data, Hf]. Qed.
  Lemma agree_some f p ls w : (forall t, p t = false -> fst (f t) = t) -> allocated w ->
    agree (renew (for_locs f ls) [] (filter (fun l => p (seen w l)) ls) w) (for_locs f ls (seen w)).
  Proof.
    intros Hf Ha.
    assert (forall l, ~ In l (filter (fun l => p (seen w l)) ls) -> fst (for_locs f ls (seen w)) l = seen w l) as Hx.
    { intros l Hl. destruct (in_dec Nat.eq_dec l ls) as [Hi|Hi]; [|apply for_locs_frame, Hi]. apply for_locs_fixed, Hf. destruct (p (seen w l)) eqn:E; [|reflexivity]. exfalso. apply Hl, filter_In. auto. }
    apply agree_renew; [exact Ha | |]; intros l; [intros _ Hl | intros Hl; f_equal]; apply Hx, Hl.
  Qed.
  Lemma agree_prepare a ls w : allocated w -> agree (vprepare a ls w) (rf_prepare str_of filt lowpass rot a ls (seen w)).
  Proof.
    intros Ha. unfold v_prepare, rf_prepare. apply (agree_bind (A := unit)).
    { destruct (a_filter a); [apply agree_fresh, Ha | apply agree_ret, Ha]. }
    clear w Ha. intros w _ Ha. apply (agree_bind (A := list loc)).
    { destruct (a_trim a) as [[x y]|]; [|apply agree_ret, Ha]. split; [apply (stays_trim2 _ _ _ ls ls w (incl_refl _)), Ha | apply trim2_seen]. }
    clear w Ha. intros w ls2 Ha. apply (agree_bind (A := unit)).
    { destruct (a_downsample a) as [d|]; [|apply agree_ret, Ha]. apply (agree_some (downsample_one lowpass d) (fun t => Qle_bool (freq_q d) (rate t))); [|exact Ha].
      intros t Ht. unfold downsample_one. rewrite Ht. reflexivity. }
    clear w Ha. intros w _ Ha. apply (agree_bind (A := unit)); [apply agree_groups; [exact Hrot | exact Ha] | intros w' _ Ha'; apply agree_ret, Ha'].
  Qed.
  Lemma agree_deconvolved a m ls w : allocated w -> agree (vdeconvolved a m ls w) (rf_deconvolved str_of filt lowpass rot dec a m ls (seen w)).
  Proof.
    intros Ha. unfold v_deconvolved, rf_deconvolved. apply (agree_bind (A := list loc)); [apply agree_prepare, Ha|]. clear w Ha ls. intros w ls Ha. cbv zeta.
    assert (agree (renew (for_locs negate_q ls) [] (filter (fun l => endswith_char (channel (st (seen w l))) "Q") ls) w) (for_locs negate_q ls (seen w))) as (A & E & _).
    { apply (agree_some negate_q (fun t => endswith_char (channel (st t)) "Q")); [|exact Ha]. intros t Ht. unfold negate_q. rewrite Ht. reflexivity. }
    rewrite <- E. apply (agree_bind (A := unit)); [apply agree_groups; [apply Hdec | exact A] | intros w' _ Ha'; apply agree_ret, Ha'].
  Qed.
  Lemma agree_finish m ls w : allocated w -> agree (v_finish m ls w) (rf_finish m ls (seen w)).
  Proof.
    intros Ha. unfold v_finish, rf_finish. apply (agree_bind (A := unit)).
    { destruct (String.eqb m "S"); [apply agree_fresh, Ha | apply agree_ret, Ha]. }
    clear w Ha. intros w _ Ha. cbv zeta. destruct (agree_tag tag_type ls w (fun t => eq_refl) Ha) as (A & E & _). rewrite <- E.
    assert (agree (renew (for_locs (set_phase m) ls) ls [] (fst (renew (for_locs tag_type ls) ls [] w))) (for_locs (set_phase m) ls (seen (fst (renew (for_locs tag_type ls) ls [] w))))) as H by (apply agree_tag; [reflexivity | exact A]).
    destruct (stream_method _) as [[m'|]|e]; [destruct (String.eqb m' m) | |]; [apply agree_ret, A | exact H | exact H | apply agree_err, A].
  Qed.
  Lemma agree_rf a ls w : allocated w -> agree (vrf a ls w) (rf str_of filt lowpass rot dec a ls (seen w)).
  Proof.
    intros Ha. unfold v_rf, rf. destruct (rf_method a (map (seen w) ls)) as [m|e]; [|apply agree_err, Ha].
    apply (agree_bind (A := list loc)); [apply agree_deconvolved, Ha|]. clear w Ha. intros w ls1 Ha. apply (agree_bind (A := unit)); [apply agree_finish, Ha | intros w' _ Ha'; apply agree_ret, Ha'].
  Qed.

  (** the moveout correction of traces without common samples *)
  Lemma moveout_loop_separate ls : forall w, allocated w -> separate w ls -> (forall l, In l ls -> exists d, mo (seen w l) = Ok d) ->
    snd (v_moveout_loop mo ls w) = Ok tt /\ forall l, In l ls -> exists d, mo (seen w l) = Ok d /\ seen (fst (v_moveout_loop mo ls w)) l = mkTrace (st (seen w l)) d.
  Proof.
    induction ls as [|x ls IH]; intros w Ha [Hnd Hs] Hm; cbn [v_moveout_loop]; [split; [reflexivity | intros l []]|]. destruct (Hm x (or_introl eq_refl)) as [d E]. rewrite E.
    inversion Hnd as [|? ? Hx Hnd']; subst. assert (length d = v_len (v_arr (w_obj w x))) as Hd by (rewrite (Hmo _ _ E); apply seen_length, Ha).
    set (w1 := mkWorld (store (w_mem w) (v_arr (w_obj w x)) d) (w_obj w)). assert (allocated w1) as Ha1 by (apply allocated_store; assumption).
    assert (forall l, In l ls -> seen w1 l = seen w l) as Hw.
    { intros l Hl. apply seen_store; [exact Ha | exact Hd|]. apply Hs; [left; reflexivity | right; exact Hl | intros ->; contradiction]. }
    destruct (IH w1 Ha1) as [E1 E2].
    - split; [exact Hnd'|]. intros l l' Hl Hl'. apply Hs; right; assumption.
    - intros l Hl. rewrite Hw by exact Hl. apply Hm. right. exact Hl.
    - split; [exact E1|]. intros l [<-|Hl].
      + exists d. split; [exact E|]. destruct (moveout_loop_frame ls w1 Ha1) as (_ & _ & _ & F). rewrite F; [apply seen_stored; assumption|].
        intros l Hl. apply Hs; [right; exact Hl | left; reflexivity | intros ->; contradiction].
      + destruct (E2 l Hl) as (d' & H1 & H2). rewrite Hw in H1, H2 by exact Hl. exists d'. auto.
  Qed.
  Lemma fold_mark_seen ls : forall w, NoDup ls -> forall l, seen (fold_left (fun w l => restat w l (mark (v_st (w_obj w l)))) ls w) l =
    if in_dec Nat.eq_dec l ls then mkTrace (mark (st (seen w l))) (data (seen w l)) else seen w l.
  Proof.
    induction ls as [|x ls IH]; intros w Hnd l; [reflexivity|]. inversion Hnd as [|? ? Hx Hnd']; subst. cbn [fold_left]. rewrite IH by exact Hnd'. rewrite !seen_restat.
    destruct (Nat.eqb_spec l x) as [->|Hl].
    - destruct (in_dec Nat.eq_dec x ls) as [Hi|_]; [contradiction|]. destruct (in_dec Nat.eq_dec x (x :: ls)) as [_|Hi]; [reflexivity | exfalso; apply Hi; left; reflexivity].
    - destruct (in_dec Nat.eq_dec l ls) as [Hi|Hi], (in_dec Nat.eq_dec l (x :: ls)) as [Hj|Hj]; try reflexivity; exfalso; [apply Hj; right; exact Hi | destruct Hj as [Hj|Hj]; [congruence | contradiction]].
  Qed.
  Lemma moveout_separate ls w : allocated w -> separate w ls -> (forall l, In l ls -> exists d, mo (seen w l) = Ok d) ->
    snd (v_moveout mo mark ls w) = Ok tt /\ forall l, In l ls -> exists d, mo (seen w l) = Ok d /\ seen (fst (v_moveout mo mark ls w)) l = mkTrace (mark (st (seen w l))) d.
  Proof.
    intros Ha Hs Hm. unfold v_moveout. destruct (moveout_loop_separate ls w Ha Hs Hm) as [E1 E2]. destruct (v_moveout_loop mo ls w) as [w1 [[]|e]]; cbn [fst snd] in *; [|discriminate].
    split; [reflexivity|]. intros l Hl. destruct (E2 l Hl) as (d & H1 & H2). exists d. split; [exact H1|]. rewrite fold_mark_seen by apply Hs. destruct (in_dec Nat.eq_dec l ls) as [_|Hn]; [|contradiction]. rewrite H2. reflexivity.
  Qed.
End Methods.
