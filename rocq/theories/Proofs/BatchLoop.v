(** The loop over streams: failures and repeated runs. *)
From Verif Require Import Model.Batch Spec.BatchSpec Proofs.PyFacts Proofs.BatchFacts.
Notation length := List.length.
Notation la := list_ascii_of_string.

Lemma do_op_other fs o n : op_name o <> n -> dget (do_op fs o) n = dget fs n.
Proof. intros H. destruct o; cbn [do_op op_name] in *; rewrite dget_dset_ne; auto. Qed.
Lemma do_ops_other ops n : forall fs, ~ In n (map op_name ops) -> dget (do_ops fs ops) n = dget fs n.
Proof.
  induction ops as [|o ops IH]; intros fs H; [reflexivity|]. cbn [do_ops fold_left] in *. cbn in H.
  change (fold_left do_op ops (do_op fs o)) with (do_ops (do_op fs o) ops). rewrite IH by tauto. apply do_op_other. tauto.
Qed.

(** ** SAC: only files are overwritten *)
Definition is_put (o : wop) : Prop := match o with Put _ _ => True | _ => False end.
Lemma puts_agree ops n : forall fs fs', Forall is_put ops -> In n (map op_name ops) \/ dget fs n = dget fs' n -> dget (do_ops fs ops) n = dget (do_ops fs' ops) n.
Proof.
  induction ops as [|o ops IH]; intros fs fs' HF H.
  - destruct H as [[]|H]. exact H.
  - inversion HF as [|? ? Ho HF']; subst. cbn [do_ops fold_left].
    change (fold_left do_op ops (do_op fs o)) with (do_ops (do_op fs o) ops). change (fold_left do_op ops (do_op fs' o)) with (do_ops (do_op fs' o) ops).
    apply IH; [exact HF'|]. destruct o as [m t| |]; try contradiction. cbn [do_op op_name map In] in *.
    destruct (string_dec m n) as [->|Hne].
    + right. rewrite !dget_dset_eq. reflexivity.
    + rewrite !dget_dset_ne by auto. destruct H as [[H|H]|H]; [congruence | left; exact H | right; exact H].
Qed.
Lemma firstn_names {A B} (f : A -> B) k l x : In x (map f (firstn k l)) -> In x (map f l).
Proof. intros H. rewrite <- (firstn_skipn k l), map_app, in_app_iff. left. exact H. Qed.
Lemma crashed_names fs ops fs1 : crashed fs ops fs1 -> forall n, In n (map op_name ops) \/ dget fs1 n = dget fs n.
Proof.
  intros H n. destruct (in_dec string_dec n (map op_name ops)) as [Hi|Hi]; [left; exact Hi|]. right. destruct H as [k | k m t rest torn Hk].
  - apply do_ops_other. intros Hin. apply Hi. eapply firstn_names, Hin.
  - rewrite dget_dset_ne.
    + apply do_ops_other. intros Hin. apply Hi. eapply firstn_names, Hin.
    + intros ->. apply Hi. rewrite <- (firstn_skipn k ops), map_app, in_app_iff. right. rewrite Hk. left. reflexivity.
Qed.

(** ** H5: only datasets are written *)
Definition is_dataset (o : wop) : Prop := match o with Dataset _ _ _ => True | _ => False end.
Definition op_key (o : wop) : string * string := match o with Dataset n k _ => (n, k) | Put n _ => (n, "") | Append n _ => (n, "") end.
Lemma contents_dset fs n f m : contents (dset fs n f) m = if String.eqb n m then f else contents fs m.
Proof.
  unfold contents. destruct (String.eqb n m) eqn:E.
  - apply String.eqb_eq in E. subst. rewrite dget_dset_eq. reflexivity.
  - apply String.eqb_neq in E. rewrite dget_dset_ne by auto. reflexivity.
Qed.
Lemma entry_dataset fs n k t m j : entry (do_op fs (Dataset n k t)) m j = if String.eqb n m && String.eqb k j then Some t else entry fs m j.
Proof.
  unfold entry. cbn [do_op]. rewrite contents_dset. destruct (String.eqb n m) eqn:E; [|reflexivity]. apply String.eqb_eq in E. subst. cbn.
  destruct (String.eqb k j) eqn:E2.
  - apply String.eqb_eq in E2. subst. apply dget_dset_eq.
  - apply String.eqb_neq in E2. apply dget_dset_ne. auto.
Qed.
Lemma datasets_agree ops m j : forall fs fs', Forall is_dataset ops -> In (m, j) (map op_key ops) \/ entry fs m j = entry fs' m j ->
  entry (do_ops fs ops) m j = entry (do_ops fs' ops) m j.
Proof.
  induction ops as [|o ops IH]; intros fs fs' HF H.
  - destruct H as [[]|H]. exact H.
  - inversion HF as [|? ? Ho HF']; subst. cbn [do_ops fold_left].
    change (fold_left do_op ops (do_op fs o)) with (do_ops (do_op fs o) ops). change (fold_left do_op ops (do_op fs' o)) with (do_ops (do_op fs' o) ops).
    apply IH; [exact HF'|]. destruct o as [ | |n k t]; try contradiction. rewrite !entry_dataset.
    destruct (String.eqb n m && String.eqb k j) eqn:E; [right; reflexivity|]. destruct H as [[H|H]|H]; [|left; exact H | right; exact H].
    exfalso. cbn in H. inversion H; subst. rewrite !String.eqb_refl in E. discriminate.
Qed.
Lemma datasets_other ops m j : forall fs, Forall is_dataset ops -> ~ In (m, j) (map op_key ops) -> entry (do_ops fs ops) m j = entry fs m j.
Proof.
  induction ops as [|o ops IH]; intros fs HF H; [reflexivity|]. inversion HF as [|? ? Ho HF']; subst. cbn [do_ops fold_left].
  change (fold_left do_op ops (do_op fs o)) with (do_ops (do_op fs o) ops). cbn in H. rewrite IH by tauto. destruct o as [ | |n k t]; try contradiction. rewrite entry_dataset.
  destruct (String.eqb n m && String.eqb k j) eqn:E; [|reflexivity]. exfalso. apply Bool.andb_true_iff in E. destruct E as [E1 E2].
  apply String.eqb_eq in E1, E2. subst. apply H. left. reflexivity.
Qed.
Lemma Forall_firstn {A} (P : A -> Prop) k l : Forall P l -> Forall P (firstn k l).
Proof. revert l. induction k; intros l H; [constructor|]. destruct H; constructor; auto. Qed.
Lemma Forall_skipn {A} (P : A -> Prop) k l : Forall P l -> Forall P (skipn k l).
Proof. revert l. induction k; intros l H; [exact H|]. destruct H; [constructor | cbn; auto]. Qed.
Lemma crashed_entries fs ops fs1 : Forall is_dataset ops -> crashed fs ops fs1 -> forall m j, In (m, j) (map op_key ops) \/ entry fs1 m j = entry fs m j.
Proof.
  intros HF H m j. destruct H as [k | k n t rest torn Hk].
  - assert ({In (m, j) (map op_key (firstn k ops))} + {~ In (m, j) (map op_key (firstn k ops))}) as [Hi|Hi].
    { apply in_dec. intros [a b] [c d]. destruct (string_dec a c), (string_dec b d); subst; auto; right; congruence. }
    + left. eapply firstn_names, Hi.
    + right. apply datasets_other; [apply Forall_firstn, HF | exact Hi].
  - exfalso. apply (Forall_skipn is_dataset k) in HF. rewrite Hk in HF. inversion HF. contradiction.
Qed.

(** ** files without those which are written *)
Definition others (nameb : string -> bool) (fs : files) : files := filter (fun f => negb (nameb (fst f))) fs.
Lemma others_dset nameb fs n v : nameb n = true -> others nameb (dset fs n v) = others nameb fs.
Proof.
  intros H. unfold others, dset. induction fs as [|[m f] fs IH]; cbn.
  - rewrite H. reflexivity.
  - destruct (String.eqb_spec n m) as [->|Hne]; cbn.
    + rewrite H. reflexivity.
    + rewrite IH. reflexivity.
Qed.
Lemma others_ops nameb ops : forall fs, (forall n, In n (map op_name ops) -> nameb n = true) -> others nameb (do_ops fs ops) = others nameb fs.
Proof.
  induction ops as [|o ops IH]; intros fs H; [reflexivity|]. cbn [do_ops fold_left].
  change (fold_left do_op ops (do_op fs o)) with (do_ops (do_op fs o) ops). rewrite IH by (intros n Hi; apply H; right; exact Hi).
  assert (nameb (op_name o) = true) as Ho by (apply H; left; reflexivity). destruct o; cbn [do_op op_name] in *; apply others_dset, Ho.
Qed.
Lemma others_crashed nameb fs ops fs1 : (forall n, In n (map op_name ops) -> nameb n = true) -> crashed fs ops fs1 -> others nameb fs1 = others nameb fs.
Proof.
  intros H Hc. destruct Hc as [k | k n t rest torn Hk].
  - apply others_ops. intros n Hi. apply H. eapply firstn_names, Hi.
  - rewrite others_dset.
    + apply others_ops. intros m Hi. apply H. eapply firstn_names, Hi.
    + apply H. rewrite <- (firstn_skipn k ops), map_app, in_app_iff. right. rewrite Hk. left. reflexivity.
Qed.

Section L.
  Variable fmt_time : Z -> string.
  Variable str_of : value -> string.
  Variable h5key : trace -> string.
  Variable writer : string -> list trace -> option exn.
  Notation write := (write fmt_time str_of h5key writer).
  Notation run_loop := (run_loop fmt_time str_of h5key writer).
  Context {I : Type}.
  Variable get : files -> I -> res (option (list trace)).
  Variable process : list trace -> res (list trace).
  Variables (root fmt : string) (ty : wtype).

  Lemma loop_parts items fin : forall fs ops r, run_loop get process root fmt ty items fin fs = (ops, r) ->
    exists before after ops1 ops2 fs1, items = before ++ after /\ ops = ops1 ++ ops2 /\
      succeeded get process (fun s => write s root fmt ty) fs before ops1 fs1 /\
      match after with
      | [] => ops2 = [] /\ r = fin
      | i :: _ => exists e, r = Some e /\ fails get process (fun s => write s root fmt ty) fs1 i ops2 e
      end.
  Proof.
    induction items as [|i items IH]; intros fs ops r H; cbn [Batch.run_loop] in H.
    - inversion H; subst. exists [], [], [], [], fs. repeat split. constructor.
    - destruct (get fs i) as [[stream|]|e] eqn:Eg.
      + destruct (process stream) as [out|e] eqn:Ep.
        * destruct (write out root fmt ty) as [ops1 [e|]] eqn:Ew.
          -- inversion H; subst. exists [], (i :: items), [], ops, fs. repeat split; [constructor|]. exists e. split; [reflexivity | eapply f_write; eassumption].
          -- destruct (run_loop get process root fmt ty items fin (do_ops fs ops1)) as [ops' e'] eqn:Er. inversion H; subst.
             destruct (IH _ _ _ Er) as (before & after & o1 & o2 & fs1 & -> & -> & Hs & Ha).
             exists (i :: before), after, (ops1 ++ o1), o2, fs1. rewrite app_assoc. repeat split; [eapply s_write; eassumption | exact Ha].
        * inversion H; subst. exists [], (i :: items), [], [], fs. repeat split; [constructor|]. exists e. split; [reflexivity | eapply f_process; eassumption].
      + destruct (IH _ _ _ H) as (before & after & o1 & o2 & fs1 & -> & -> & Hs & Ha).
        exists (i :: before), after, o1, o2, fs1. repeat split; [apply s_skip; assumption | exact Ha].
      + inversion H; subst. exists [], (i :: items), [], [], fs. repeat split; [constructor|]. exists e. split; [reflexivity | apply f_get, Eg].
  Qed.
  Lemma succeeded_ops fs items ops fs' : succeeded get process (fun s => write s root fmt ty) fs items ops fs' -> fs' = do_ops fs ops.
  Proof. induction 1; [reflexivity | assumption | rewrite do_ops_app; assumption]. Qed.

  (** files which are not written *)
  Lemma loop_same items fin : forall (fs fs' : files) (nameb : string -> bool) ops r, run_loop get process root fmt ty items fin fs = (ops, r) ->
    (forall n, In n (map op_name ops) -> nameb n = true) ->
    (forall a b : files, others nameb a = others nameb b -> forall i, In i items -> get a i = get b i) ->
    others nameb fs = others nameb fs' ->
    run_loop get process root fmt ty items fin fs' = (ops, r).
  Proof.
    induction items as [|i items IH]; intros fs fs' nameb ops r H Hn Hg Ha; cbn [Batch.run_loop] in *; [exact H|].
    rewrite <- (Hg fs fs' Ha i (or_introl eq_refl)).
    assert (forall a b, others nameb a = others nameb b -> forall j, In j items -> get a j = get b j) as Hg' by (intros; apply Hg; [assumption | right; assumption]).
    destruct (get fs i) as [[stream|]|e] eqn:Eg.
    - destruct (process stream) as [out|e] eqn:Ep; [|exact H].
      destruct (write out root fmt ty) as [ops1 [e|]] eqn:Ew; [exact H|].
      destruct (run_loop get process root fmt ty items fin (do_ops fs ops1)) as [ops' e'] eqn:Er. inversion H; subst.
      assert (run_loop get process root fmt ty items fin (do_ops fs' ops1) = (ops', r)) as ->; [|reflexivity].
      apply (IH _ (do_ops fs' ops1) nameb _ _ Er); [intros n Hi; apply Hn; rewrite map_app, in_app_iff; right; exact Hi | exact Hg' |].
      rewrite !others_ops; [exact Ha| |]; intros n Hi; apply Hn; rewrite map_app, in_app_iff; left; exact Hi.
    - apply (IH _ fs' nameb _ _ H Hn Hg' Ha).
    - exact H.
  Qed.
  (** what the operations are *)
  Lemma loop_ops (P : wop -> Prop) items fin : (forall s ops r, write s root fmt ty = (ops, r) -> (exists s0, process s0 = Ok s) -> Forall P ops) ->
    forall fs ops r, run_loop get process root fmt ty items fin fs = (ops, r) -> Forall P ops.
  Proof.
    intros HP. induction items as [|i items IH]; intros fs ops r H; cbn [Batch.run_loop] in *; [inversion H; constructor|].
    destruct (get fs i) as [[stream|]|e] eqn:Eg; [|eapply IH, H | inversion H; constructor].
    destruct (process stream) as [out|e] eqn:Ep; [|inversion H; constructor].
    destruct (write out root fmt ty) as [ops1 [e|]] eqn:Ew; [inversion H; subst; eapply HP; [exact Ew | eauto]|].
    destruct (run_loop get process root fmt ty items fin (do_ops fs ops1)) as [ops' e'] eqn:Er. inversion H; subst.
    apply Forall_app. split; [eapply HP; [exact Ew | eauto] | eapply IH, Er].
  Qed.
End L.

Section W.
  Variable fmt_time : Z -> string.
  Variable str_of : value -> string.
  Variable h5key : trace -> string.
  Variable writer : string -> list trace -> option exn.
  Notation write := (write fmt_time str_of h5key writer).
  Hypothesis Hclock : forall t, slash_free (fmt_time t).

  Lemma write_puts s root ops r : write s root "SAC" TRf = (ops, r) -> Forall is_put ops.
  Proof.
    unfold Batch.write. change (upper "SAC") with "SAC". destruct s as [|t s]; [intros H; inversion H; constructor|].
    destruct (trace_fname fmt_time str_of TRf "SAC" root t); [|intros H; inversion H; constructor].
    change (("SAC" =? "H5")%string) with false. change (("SAC" =? "Q")%string) with false. change (("SAC" =? "SAC")%string) with true. cbv iota.
    generalize (t :: s). clear. intros l. revert ops r. induction l as [|t l IH]; intros ops r H; cbn [write_sac] in H; [inversion H; constructor|].
    destruct (trace_fname fmt_time str_of TRf "SAC" root t); [|inversion H; constructor]. destruct (writer "SAC" [t]); [inversion H; constructor|].
    destruct (write_sac fmt_time str_of writer TRf root l) as [ops' e']. inversion H; subst. constructor; [exact Logic.I | eapply IH; reflexivity].
  Qed.
  Lemma write_datasets s root ops r : write s root "H5" TRf = (ops, r) -> Forall (fun o => is_dataset o /\ op_name o = (root ++ ".h5")%string) ops.
  Proof.
    unfold Batch.write. change (upper "H5") with "H5". destruct s as [|t s]; [intros H; inversion H; constructor|].
    change (trace_fname fmt_time str_of TRf "H5" root t) with (Ok (root ++ ".h5")%string).
    change (("H5" =? "H5")%string) with true. cbv iota. destruct (writer "H5" (t :: s)); intros H; inversion H; [constructor|].
    apply Forall_forall. intros o Ho. change (Dataset (root ++ ".h5") (h5key t) t :: map (fun t0 => Dataset (root ++ ".h5") (h5key t0) t0) s) with (map (fun t0 => Dataset (root ++ ".h5") (h5key t0) t0) (t :: s)) in Ho.
    apply in_map_iff in Ho. destruct Ho as (t' & <- & _). split; [exact Logic.I | reflexivity].
  Qed.

  Definition below (root n : string) : Prop := exists x y, slash_free x /\ slash_free y /\ n = (root ++ "/" ++ x ++ "/" ++ y)%string.
  Lemma slash_app a b : slash_free (a ++ b) <-> slash_free a /\ slash_free b.
  Proof. unfold slash_free. rewrite !char_in_la, la_app, in_app_iff. tauto. Qed.
  Lemma fname_below t root n : slashless t -> trace_fname fmt_time str_of TRf "SAC" root t = Ok n -> below root n.
  Proof.
    intros (H1 & H2 & H3 & H4) H. unfold trace_fname in H. destruct (tr_get t "event_time") as [v|]; [|discriminate H]. destruct v; try discriminate H.
    cbn [format_time] in H. unfold fname in H. change (("SAC" =? "Q")%string) with false in H. change (("SAC" =? "SAC")%string) with true in H. cbv iota in H. cbn [bind] in H.
    match type of H with Ok ?a = Ok ?b => assert (a = b) as E by congruence end. rewrite <- E. clear E H. unfold nsl.
    eexists; eexists. split; [|split]; [| |reflexivity]; rewrite ?slash_app; repeat split; try assumption; try reflexivity. apply Hclock.
  Qed.
  Lemma write_below s root ops r : write s root "SAC" TRf = (ops, r) -> Forall slashless s -> Forall (fun o => below root (op_name o)) ops.
  Proof.
    intros H Hs. unfold Batch.write in H. change (upper "SAC") with "SAC" in H. destruct s as [|t s]; [inversion H; constructor|].
    destruct (trace_fname fmt_time str_of TRf "SAC" root t); [|inversion H; constructor].
    change (("SAC" =? "H5")%string) with false in H. change (("SAC" =? "Q")%string) with false in H. change (("SAC" =? "SAC")%string) with true in H. cbv iota in H.
    revert H Hs. generalize (t :: s). intros l. revert ops r. induction l as [|t' l IH]; intros ops r H Hs; cbn [write_sac] in H; [inversion H; constructor|].
    inversion Hs; subst. destruct (trace_fname fmt_time str_of TRf "SAC" root t') eqn:E; [|inversion H; constructor]. destruct (writer "SAC" [t']); [inversion H; constructor|].
    destruct (write_sac fmt_time str_of writer TRf root l) as [ops' e']. inversion H; subst. constructor; [cbn; eapply fname_below; eassumption | eapply IH; [reflexivity | assumption]].
  Qed.

  (** reading from another directory *)
  Variable load : string -> list trace -> res (list trace).
  Notation fetch := (fetch fmt_time load).

  (** a pattern without further "/" only matches such names *)
  Lemma glob_slashless p : ~ In "/"%char p -> forall s, glob p s = true -> ~ In "/"%char s.
  Proof.
    induction p as [|a p IH]; intros Hp s H; [destruct s; [intros [] | discriminate]|]. cbn in Hp.
    destruct (ascii_dec a "*") as [->|Ha].
    - apply glob_star in H. destruct H as (w & s' & -> & Hw & H). rewrite in_app_iff. intros [Hi|Hi]; [contradiction|]. apply IH in H; tauto.
    - cbn [glob] in H. apply Ascii.eqb_neq in Ha. rewrite Ha in H. destruct s as [|c s']; [discriminate|]. apply Bool.andb_true_iff in H. destruct H as [H1 H2].
      intros [->|Hi]; [|apply IH in H2; tauto]. destruct (Ascii.eqb a "?"); [discriminate|]. apply Ascii.eqb_eq in H1. subst. tauto.
  Qed.
  Lemma glob_split p q s : ~ In "/"%char p -> glob (p ++ "/"%char :: q) s = true -> exists x y, s = x ++ "/"%char :: y /\ ~ In "/"%char x /\ glob q y = true.
  Proof.
    revert s. induction p as [|a p IH]; intros s Hp H.
    - cbn [glob app] in H. change (Ascii.eqb "/" "*") with false in H. cbv iota in H. destruct s as [|c s]; [discriminate|]. apply Bool.andb_true_iff in H. destruct H as [H1 H2].
      change (Ascii.eqb "/" "?") with false in H1. cbv iota in H1. apply Ascii.eqb_eq in H1. subst. exists [], s. auto.
    - cbn in Hp. destruct (ascii_dec a "*") as [->|Ha].
      + cbn [app] in H. apply glob_star in H. destruct H as (w & s' & -> & Hw & H). apply IH in H; [|tauto]. destruct H as (x & y & -> & Hx & Hy).
        exists (w ++ x), y. rewrite <- app_assoc. split; [reflexivity|]. rewrite in_app_iff. tauto.
      + cbn [glob app] in H. apply Ascii.eqb_neq in Ha. rewrite Ha in H. destruct s as [|c s']; [discriminate|]. apply Bool.andb_true_iff in H. destruct H as [H1 H2].
        apply IH in H2; [|tauto]. destruct H2 as (x & y & -> & Hx & Hy). exists (c :: x), y. split; [reflexivity|]. split; [|exact Hy].
        intros [->|Hi]; [|contradiction]. destruct (Ascii.eqb a "?"); [discriminate|]. apply Ascii.eqb_eq in H1. subst. tauto.
  Qed.
  Lemma other_root pin root px py n : no_wild pin -> pin <> root -> slash_free px -> slash_free py -> below root n ->
    glob_str (pin ++ "/" ++ px ++ "/" ++ py) n = false.
  Proof.
    intros Hw Hne Hx Hy (x & y & Sx & Sy & ->). destruct (glob_str _ _) eqn:E; [|reflexivity]. exfalso. apply Hne. unfold glob_str in E.
    rewrite !la_app in E. cbn [list_ascii_of_string app] in E. apply glob_lit in E; [|apply no_wild_plain, Hw]. destruct E as (s' & E & Hg).
    cbn [glob] in Hg. change (Ascii.eqb "/" "*") with false in Hg. change (Ascii.eqb "/" "?") with false in Hg. cbv iota in Hg.
    destruct s' as [|c s']; [discriminate|]. apply Bool.andb_true_iff in Hg. destruct Hg as [Hc Hg]. apply Ascii.eqb_eq in Hc. subst c.
    apply glob_split in Hg; [|apply char_in_la, Hx]. destruct Hg as (u & v & -> & Hu & Hv). apply glob_slashless in Hv; [|apply char_in_la, Hy].
    change (la root ++ "/"%char :: la x ++ "/"%char :: la y = la pin ++ "/"%char :: u ++ "/"%char :: v) in E.
    assert ((la root ++ "/"%char :: la x) ++ "/"%char :: la y = (la pin ++ "/"%char :: u) ++ "/"%char :: v) as E1 by (rewrite <- !app_assoc; exact E).
    apply split_sep_last in E1; [|apply char_in_la, Sy | exact Hv]. destruct E1 as [E1 _].
    apply split_sep_last in E1; [|apply char_in_la, Sx | exact Hu]. destruct E1 as [E1 _]. apply la_inj. symmetry. exact E1.
  Qed.
  Lemma read_glob_others nameb a b format pat : others nameb a = others nameb b -> (forall n, nameb n = true -> glob_str pat n = false) ->
    read_glob load a format pat = read_glob load b format pat.
  Proof.
    intros H Hn. unfold read_glob.
    assert (forall fs : files, filter (fun f => glob_str pat (fst f)) fs = filter (fun f => glob_str pat (fst f)) (others nameb fs)) as E.
    { clear - Hn. induction fs as [|[n f] fs IH]; [reflexivity|]. cbn [filter others fst]. unfold others. cbn [filter fst]. fold (others nameb fs). destruct (nameb n) eqn:En; cbn [negb].
      - rewrite (Hn n En). exact IH.
      - cbn [filter fst]. destruct (glob_str pat n); rewrite IH; reflexivity. }
    rewrite (E a), (E b), H. reflexivity.
  Qed.
  Lemma read_h5_others nameb a b name m : others nameb a = others nameb b -> nameb name = false -> read_h5 fmt_time load a name m = read_h5 fmt_time load b name m.
  Proof.
    intros H Hn. unfold read_h5.
    assert (forall fs : files, dget fs name = dget (others nameb fs) name) as E.
    { clear - Hn. induction fs as [|[n f] fs IH]; [reflexivity|]. unfold others. cbn [filter fst]. fold (others nameb fs). destruct (nameb n) eqn:En; cbn [negb].
      - rewrite <- IH. unfold dget. cbn. destruct (String.eqb_spec name n) as [->|]; [congruence | reflexivity].
      - unfold dget in *. cbn. rewrite IH. reflexivity. }
    rewrite (E a), (E b), H. reflexivity.
  Qed.
  Lemma fetch_others nameb a b pin root format m : In format ["SAC"; "H5"] -> no_wild pin -> pin <> root -> meta_ok m ->
    (forall n, nameb n = true -> (format = "SAC" /\ below root n) \/ (format = "H5" /\ n = (root ++ ".h5")%string)) ->
    others nameb a = others nameb b -> fetch pin format a m = fetch pin format b m.
  Proof.
    intros Hf Hw Hne (M1 & M2 & M3) Hn H. destruct Hf as [<-|[<-|[]]]; unfold Batch.fetch, fname.
    - change (("SAC" =? "Q")%string) with false. change (("SAC" =? "SAC")%string) with true. change (("SAC" =? "H5")%string) with false. cbv iota.
      assert (forall t : string, slash_free t ->
        read_glob load a "SAC" (pin ++ "/" ++ nsl (meta_str m "network") (meta_str m "station") (meta_str m "location") ++ "/" ++ nsl (meta_str m "network") (meta_str m "station") (meta_str m "location") ++ "." ++ "???" ++ "_" ++ t ++ ".SAC") =
        read_glob load b "SAC" (pin ++ "/" ++ nsl (meta_str m "network") (meta_str m "station") (meta_str m "location") ++ "/" ++ nsl (meta_str m "network") (meta_str m "station") (meta_str m "location") ++ "." ++ "???" ++ "_" ++ t ++ ".SAC")) as Hr.
      { intros t Ht. apply (read_glob_others nameb); [exact H|]. intros n Hi. destruct (Hn n Hi) as [[_ Hb]|[D _]]; [|discriminate].
        apply (other_root pin root _ _ n Hw Hne); [| |exact Hb]; unfold nsl; rewrite ?slash_app; repeat split; try assumption; try reflexivity. }
      destruct (dget m "event_time") as [[]|]; cbn [format_time bind]; try reflexivity; rewrite Hr; try reflexivity. apply Hclock.
    - change (("H5" =? "Q")%string) with false. change (("H5" =? "SAC")%string) with false. change (("H5" =? "H5")%string) with true. cbv iota. cbn [bind].
      rewrite (read_h5_others nameb a b); [reflexivity | exact H|]. destruct (nameb (pin ++ ".h5")%string) eqn:E; [|reflexivity]. exfalso.
      destruct (Hn _ E) as [[D _]|[_ E2]]; [discriminate|]. apply Hne. apply la_inj. apply (f_equal la) in E2. rewrite !la_app in E2. apply app_inv_tail in E2. exact E2.
  Qed.
End W.
