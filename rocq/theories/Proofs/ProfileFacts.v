(** Proofs about profile stacking. *)
From Verif Require Import Model.Profile Spec.MeanSpec Spec.ProfileSpec Proofs.PyFacts Proofs.StackFacts.

Lemma Qeqb_spec a b : Qeqb a b = true <-> a = b.
Proof.
  unfold Qeqb. rewrite andb_true_iff, Z.eqb_eq, Pos.eqb_eq. destruct a, b; simpl.
  split; [intros [-> ->]; reflexivity | intros H; inversion H; auto].
Qed.
Lemma pkey_eqb_spec a b : pkey_eqb a b = true <-> a = b.
Proof.
  unfold pkey_eqb. rewrite andb_true_iff, Qeqb_spec, ascii_eqb_eq. destruct a, b; simpl.
  split; [intros [-> ->]; reflexivity | intros H; inversion H; auto].
Qed.
Lemma pkey_eqb_refl k : pkey_eqb k k = true. Proof. apply pkey_eqb_spec; reflexivity. Qed.
Lemma Qred_eq_iff p q : Qred p = Qred q <-> (p == q)%Q.
Proof.
  split; [|apply Qred_complete]. intros H. rewrite <- (Qred_correct p), <- (Qred_correct q), H. reflexivity.
Qed.

Definition is_sum (rows : list (list Q)) (m : list Q) : Prop :=
  Forall (fun r => List.length r = List.length m) rows /\
  forall k, k < List.length m ->
    (nth k m 0 == fold_right Qplus 0 (map (fun r => nth k r 0%Q) rows))%Q.
Lemma is_sum_single d : is_sum [d] d.
Proof. split; [repeat constructor|]. intros k _. simpl. ring. Qed.
Lemma fold_Qplus_app l1 l2 :
  (fold_right Qplus 0 (l1 ++ l2) == fold_right Qplus 0 l1 + fold_right Qplus 0 l2)%Q.
Proof. induction l1 as [|x l IH]; simpl; [ring|]. rewrite IH. ring. Qed.
Lemma is_sum_add rows m d :
  is_sum rows m -> List.length m = List.length d -> is_sum (rows ++ [d]) (zipw Qplus m d).
Proof.
  intros [H1 H2] Hl.
  assert (List.length (zipw Qplus m d) = List.length m) as HL by (rewrite zipw_length; lia).
  split.
  - rewrite Forall_forall in *. intros r Hr. rewrite HL. apply in_app_iff in Hr.
    destruct Hr as [Hr|[<-|[]]]; auto.
  - rewrite HL. intros k Hk. rewrite zipw_nth by exact Hl. rewrite map_app, fold_Qplus_app. simpl.
    rewrite H2 by exact Hk. ring.
Qed.
Lemma is_sum_mean rows m : rows <> [] -> is_sum rows m ->
  is_mean rows (np_div m (inject_Z (Z.of_nat (List.length rows)))).
Proof.
  intros Hne [H1 H2]. unfold is_mean, np_div. rewrite map_length. split; [exact H1|].
  intros k Hk. rewrite nth_map_div, Qdiv_mult_id.
  - apply H2, Hk.
  - destruct rows; [congruence|]. cbn [List.length]. apply inject_pos.
Qed.

Lemma rd_app1 m d b : b < List.length m -> rd (m ++ [d]) b = rd m b.
Proof. intros H. unfold rd. apply app_nth1. exact H. Qed.
Lemma rd_new m d : rd (m ++ [d]) (List.length m) = d.
Proof. unfold rd. rewrite app_nth2 by lia. rewrite Nat.sub_diag. reflexivity. Qed.

Lemma selects_filter {A} (P : A -> Prop) (p : A -> bool) l :
  (forall x, In x l -> (p x = true <-> P x)) -> selects P l (filter p l).
Proof.
  induction l as [|x l IH]; intros H; simpl; [constructor|].
  destruct (p x) eqn:E.
  - constructor; [apply (H x (or_introl eq_refl)), E | apply IH; intros y Hy; apply H; right; exact Hy].
  - apply sel_out; [|apply IH; intros y Hy; apply H; right; exact Hy].
    intros HP. apply (H x (or_introl eq_refl)) in HP. congruence.
Qed.
Lemma selects_in {A} (P : A -> Prop) l r : selects P l r -> forall x, In x r <-> In x l /\ P x.
Proof.
  induction 1 as [|x l r HP HS IH|x l r HP HS IH]; simpl; intros y.
  - tauto.
  - rewrite IH. split; [intros [<-|[? ?]]; auto | intros [[<-|?] ?]; auto].
  - rewrite IH. split; [intros [? ?]; auto | intros [[<-|?] ?]; [contradiction | auto]].
Qed.
Lemma find_split {A} (p : A -> bool) l x :
  find p l = Some x <-> exists b a, l = b ++ x :: a /\ p x = true /\ Forall (fun y => p y = false) b.
Proof.
  induction l as [|y l IH]; simpl.
  - split; [discriminate | intros (b & a & H & _); destruct b; discriminate].
  - destruct (p y) eqn:E.
    + split.
      * intros H; inversion H; subst. exists [], l. auto.
      * intros (b & a & H & Hp & Hf). destruct b as [|z b]; inversion H; subst; [reflexivity|].
        inversion Hf; congruence.
    + rewrite IH. split.
      * intros (b & a & -> & Hp & Hf). exists (y :: b), a. auto.
      * intros (b & a & H & Hp & Hf). destruct b as [|z b]; inversion H; subst; [congruence|].
        inversion Hf; subst. exists b, a. auto.
Qed.

Section PF.
  Variable within : Q * Q -> box -> bool.
  Variable crs : bool.
  Variable boxes : list box.
  Variable m0 : mem.
  Variable stream : list ptrace.
  Hypothesis Hbuf : Forall (fun t => p_buf t < List.length m0) stream.
  Hypothesis Hready : Forall profile_ready stream.
  Variables (b0 : box) (plat plon pazi plen w : Q).
  Hypothesis Hb0 : hd_error boxes = Some b0.
  Hypothesis Hprof : b_profile b0 = Some (plat, plon, pazi, plen, w).
  Hypothesis Hlen : forall t u pos c, In t stream -> In u stream ->
    hits within boxes t pos c -> hits within boxes u pos c ->
    List.length (rd m0 (p_buf t)) = List.length (rd m0 (p_buf u)).

  (** key of a trace *)
  Definition tbox (t : ptrace) : option box :=
    match ppoint t with Ok p => find (within p) boxes | Err _ => None end.
  Definition tkey (t : ptrace) : option pkey :=
    match tbox t, last_char (channel (p_st t)) with
    | Some b, Some c => Some (Qred (b_pos b), c)
    | _, _ => None
    end.
  Definition okey_is (k : pkey) (t : ptrace) : bool :=
    match tkey t with Some k' => pkey_eqb k' k | None => false end.
  Definition sel (k : pkey) (l : list ptrace) := filter (okey_is k) l.

  Lemma okey_is_spec k t : okey_is k t = true <-> tkey t = Some k.
  Proof.
    unfold okey_is. destruct (tkey t) as [k'|]; [|split; discriminate].
    rewrite pkey_eqb_spec. split; congruence.
  Qed.
  Lemma ready_ppoint t : profile_ready t -> exists la lo, ppoint t = Ok (la, lo) /\
    dget (extra (p_st t)) "pp_latitude" = Some (VNum la) /\
    dget (extra (p_st t)) "pp_longitude" = Some (VNum lo).
  Proof.
    intros [(la & lo & H1 & H2) _]. exists la, lo. unfold ppoint. rewrite H1, H2. auto.
  Qed.
  Lemma ready_char t : profile_ready t -> exists c, last_char (channel (p_st t)) = Some c.
  Proof.
    intros (_ & H & _). destruct (channel (p_st t)) as [|a s]; [congruence|]. clear H.
    revert a. induction s as [|b s IH]; intros a; simpl; [eauto | apply IH].
  Qed.
  Lemma tkey_hits t pos c : profile_ready t ->
    (tkey t = Some (Qred pos, c) <-> hits within boxes t pos c).
  Proof.
    intros Hr. destruct (ready_ppoint t Hr) as (la & lo & Hp & H1 & H2).
    unfold tkey, tbox. rewrite Hp. split.
    - intros H. destruct (find (within (la, lo)) boxes) as [b|] eqn:F; [|discriminate].
      destruct (last_char (channel (p_st t))) as [c'|] eqn:G; [|discriminate]. inversion H as [[Hq Hc]]; subst c'.
      apply find_split in F. destruct F as (bb & aa & E & Hw & Hf).
      exists la, lo, bb, b, aa. repeat split; auto. apply Qred_eq_iff, Hq.
    - intros (la' & lo' & bb & b & aa & H1' & H2' & E & Hw & Hf & Hq & Hc).
      rewrite H1 in H1'. rewrite H2 in H2'. inversion H1'; inversion H2'; subst la' lo'.
      assert (find (within (la, lo)) boxes = Some b) as ->. { apply find_split. eauto. }
      rewrite Hc. apply Qred_eq_iff in Hq. rewrite Hq. reflexivity.
  Qed.

  (** header facts of a new entry *)
  Definition hdr_ok (k : pkey) (first : ptrace) (s : stats) : Prop :=
    channel s = ("??" ++ char_str (snd k))%string /\ delta s = delta (p_st first) /\ starttime s = 0%Z /\
    (forall e, In e ["slowness"; "phase"; "moveout"; "processing"] ->
       dget (extra s) e = dget (extra (p_st first)) e) /\
    (forall t0, dget (extra (p_st first)) "onset" = Some (VTime t0) ->
       dget (extra s) "onset" = Some (VTime (0 + (t0 - starttime (p_st first))))) /\
    (exists b, In b boxes /\ Qred (b_pos b) = fst k /\
       dget (extra s) "box_pos" = Some (VNum (b_pos b)) /\
       dget (extra s) "box_length" = Some (VNum (b_len b)) /\
       dget (extra s) "box_latitude" = Some (VNum (b_lat b)) /\
       dget (extra s) "box_longitude" = Some (VNum (b_lon b))) /\
    dget (extra s) "profile_latitude" = Some (VNum plat) /\
    dget (extra s) "profile_longitude" = Some (VNum plon) /\
    dget (extra s) "profile_azimuth" = Some (VNum pazi) /\
    dget (extra s) "profile_length" = Some (VNum plen).

  Lemma new_stats_ok t b c : profile_ready t -> In b boxes ->
    exists s, new_stats t b boxes c = Ok s /\ hdr_ok (Qred (b_pos b), c) t s.
  Proof.
    intros Hr Hin. unfold new_stats.
    assert (exists bs, boxes = b0 :: bs) as [bs Hbx].
    { destruct boxes as [|bb0 bs]; inversion Hb0; eauto. }
    rewrite Hbx. cbv iota beta. rewrite Hprof.
    set (hdr0 := [("box_pos", VNum (b_pos b)); ("box_length", VNum (b_len b));
                        ("box_latitude", VNum (b_lat b)); ("box_longitude", VNum (b_lon b));
                        ("profile_latitude", VNum plat); ("profile_longitude", VNum plon);
                        ("profile_azimuth", VNum pazi); ("profile_length", VNum plen)]).
    set (hdr := copy_entries _ _ hdr0).
    assert (forall e, In e ["slowness"; "phase"; "moveout"; "processing"] ->
              dget hdr e = dget (extra (p_st t)) e) as He1.
    { intros e He. unfold hdr. rewrite copy_entries_get.
      replace (existsb _ _) with true.
      - destruct (dget (extra (p_st t)) e); [reflexivity|].
        simpl in He. destruct He as [<-|[<-|[<-|[<-|[]]]]]; reflexivity.
      - symmetry. apply existsb_exists. exists e. split; [exact He | apply String.eqb_refl]. }
    assert (forall e, existsb (String.eqb e) ["slowness"; "phase"; "moveout"; "processing"] = false ->
              dget hdr e = dget hdr0 e) as He2.
    { intros e He. unfold hdr. rewrite copy_entries_get, He. reflexivity. }
    destruct Hr as (_ & _ & Hon).
    destruct (dget (extra (p_st t)) "onset") as [v|] eqn:E.
    - destruct (Hon v eq_refl) as [o ->]. eexists. split; [reflexivity|].
      unfold hdr_ok. cbn [channel delta starttime extra fst snd].
      repeat split.
      + intros e He. rewrite dget_dset_ne; [apply He1, He|]. intros <-. simpl in He. intuition discriminate.
      + intros t0 Ht0. rewrite Ht0 in E. inversion E; subst o. apply dget_dset_eq.
      + exists b. split; [exact Hin|]. split; [reflexivity|].
        repeat split; rewrite dget_dset_ne by discriminate; rewrite He2 by reflexivity; reflexivity.
      + rewrite dget_dset_ne by discriminate; rewrite He2 by reflexivity; reflexivity.
      + rewrite dget_dset_ne by discriminate; rewrite He2 by reflexivity; reflexivity.
      + rewrite dget_dset_ne by discriminate; rewrite He2 by reflexivity; reflexivity.
      + rewrite dget_dset_ne by discriminate; rewrite He2 by reflexivity; reflexivity.
    - eexists. split; [reflexivity|].
      unfold hdr_ok. cbn [channel delta starttime extra fst snd].
      repeat split.
      + exact He1.
      + intros t0 Ht0. congruence.
      + exists b. split; [exact Hin|]. split; [reflexivity|].
        repeat split; rewrite He2 by reflexivity; reflexivity.
      + rewrite He2 by reflexivity; reflexivity.
      + rewrite He2 by reflexivity; reflexivity.
      + rewrite He2 by reflexivity; reflexivity.
      + rewrite He2 by reflexivity; reflexivity.
  Qed.

  Definition ent_ok (m : mem) (k : pkey) (l : list ptrace) (e : pentry) : Prop :=
    exists first rest, sel k l = first :: rest /\ e_num e = List.length (sel k l) /\
      e_buf e < List.length m /\
      is_sum (map (fun t => rd m0 (p_buf t)) (sel k l)) (rd m (e_buf e)) /\
      hdr_ok k first (e_st e).
  Definition pinv (l : list ptrace) (s : mem * list (pkey * pentry)) : Prop :=
    (exists extra_bufs, fst s = m0 ++ extra_bufs) /\
    NoDup (map fst (snd s)) /\
    forall k, match aget pkey_eqb (snd s) k with
              | None => sel k l = []
              | Some e => ent_ok (fst s) k l e
              end.

  Lemma sel_app k l t : sel k (l ++ [t]) = sel k l ++ (if okey_is k t then [t] else []).
  Proof. unfold sel. rewrite filter_app. simpl. destruct (okey_is k t); reflexivity. Qed.

  Lemma boxes_ne : negb crs && Nat.eqb (List.length boxes) 0 = false.
  Proof. destruct boxes; [discriminate | apply andb_false_r]. Qed.

  Lemma ent_ok_skip m d k l t e : okey_is k t = false -> ent_ok m k l e -> ent_ok (m ++ d) k (l ++ [t]) e.
  Proof.
    intros Hk (f & r & H1 & H2 & H3 & H4 & H5). exists f, r.
    rewrite sel_app, Hk, app_nil_r. split; [exact H1|]. split; [exact H2|].
    split; [rewrite app_length; lia|]. split; [|exact H5].
    unfold rd in *. rewrite app_nth1 by exact H3. apply H4.
  Qed.

  Lemma profile_step_ok l t s : (exists r, stream = l ++ t :: r) -> pinv l s ->
    exists s', profile_step within crs boxes s t = Ok s' /\ pinv (l ++ [t]) s'.
  Proof.
    intros [r Hstream] Hinv. destruct s as [m d]. destruct Hinv as ([ex Hex] & Hnd & Hget). simpl in Hex, Hnd, Hget.
    assert (In t stream) as Hint by (rewrite Hstream; apply in_app_iff; right; left; reflexivity).
    assert (forall u, In u l -> In u stream) as Hinl by (intros u Hu; rewrite Hstream; apply in_app_iff; left; exact Hu).
    pose proof (proj1 (Forall_forall _ _) Hready t Hint) as Hrt.
    pose proof (proj1 (Forall_forall _ _) Hbuf t Hint) as Hbt. cbv beta in Hbt.
    destruct (ready_ppoint t Hrt) as (la & lo & Hp & Hla & Hlo).
    destruct (ready_char t Hrt) as [c Hc].
    unfold profile_step. rewrite Hp. cbn [bind]. unfold find_box. rewrite boxes_ne. cbn [bind].
    destruct (find (within (la, lo)) boxes) as [b|] eqn:F.
    2:{ exists (m, d). split; [reflexivity|]. split; [exists ex; exact Hex|]. split; [exact Hnd|].
        intros k. specialize (Hget k). cbn [fst snd] in *.
        assert (okey_is k t = false) as Hk. { unfold okey_is, tkey, tbox. rewrite Hp, F. reflexivity. }
        destruct (aget pkey_eqb d k) as [e|].
        - rewrite <- (app_nil_r m). apply ent_ok_skip; assumption.
        - rewrite sel_app, Hk, Hget. reflexivity. }
    rewrite Hc.
    set (key := (Qred (b_pos b), c)).
    assert (tkey t = Some key) as Htk. { unfold tkey, tbox. rewrite Hp, F, Hc. reflexivity. }
    assert (forall k, k <> key -> okey_is k t = false) as Hother.
    { intros k Hk. unfold okey_is. rewrite Htk. apply eqb_neq; [apply pkey_eqb_spec | congruence]. }
    assert (okey_is key t = true) as Hself by (apply okey_is_spec; exact Htk).
    assert (In b boxes) as Hinb by (apply find_some in F; apply F).
    assert (rd m (p_buf t) = rd m0 (p_buf t)) as Hrd.
    { rewrite Hex. unfold rd. apply app_nth1. exact Hbt. }
    pose proof (Hget key) as Hkey.
    destruct (aget pkey_eqb d key) as [e|] eqn:G.
    - destruct Hkey as (f & rs & E1 & E2 & E3 & E4 & E5).
      assert (List.length (rd m (e_buf e)) = List.length (rd m (p_buf t))) as HL.
      { destruct E4 as [E4 _]. rewrite E1 in E4. cbn [map] in E4. inversion E4 as [|? ? Hf _]; subst.
        rewrite <- Hf, Hrd.
        assert (In f (sel key l)) as Hfin by (rewrite E1; left; reflexivity).
        apply filter_In in Hfin. destruct Hfin as [Hfl Hfk]. apply okey_is_spec in Hfk.
        apply (Hlen f t (b_pos b) c); auto.
        - apply tkey_hits; [|exact Hfk]. apply (proj1 (Forall_forall _ _) Hready), Hinl, Hfl.
        - apply tkey_hits; [exact Hrt | exact Htk]. }
      unfold np_add. rewrite HL, Nat.eqb_refl. cbn [bind alloc].
      eexists. split; [reflexivity|].
      assert (forall bb, bb < List.length m -> rd (m ++ [zipw Qplus (rd m (e_buf e)) (rd m (p_buf t))]) bb = rd m bb) as Hrd1.
      { intros bb Hbb. apply rd_app1, Hbb. }
      split; [exists (ex ++ [zipw Qplus (rd m (e_buf e)) (rd m (p_buf t))]); cbn [fst]; rewrite Hex at 1; rewrite <- app_assoc; reflexivity|].
      split; [apply aset_NoDup; [apply pkey_eqb_spec | exact Hnd]|].
      intros k. cbn [fst snd].
      destruct (pkey_eqb k key) eqn:K.
      + apply pkey_eqb_spec in K. subst k. rewrite aget_aset_eq by apply pkey_eqb_spec.
        exists f, (rs ++ [t]). rewrite sel_app, Hself, E1. split; [reflexivity|].
        cbn [e_num e_buf e_st]. split; [rewrite E2, E1, app_length; simpl; lia|].
        split; [rewrite app_length; simpl; lia|]. split; [|exact E5].
        rewrite rd_new. rewrite map_app. rewrite <- E1. cbn [map]. rewrite <- Hrd.
        apply is_sum_add; [exact E4 | exact HL].
      + assert (k <> key) as Hne. { intros ->. rewrite pkey_eqb_refl in K. discriminate. }
        rewrite aget_aset_ne by (auto using pkey_eqb_spec). specialize (Hget k).
        destruct (aget pkey_eqb d k) as [e2|].
        * apply ent_ok_skip; [apply Hother, Hne | exact Hget].
        * rewrite sel_app, Hother, Hget by exact Hne. reflexivity.
    - destruct (new_stats_ok t b c Hrt Hinb) as [s2 [Hs2 Hh]]. rewrite Hs2. cbn [bind].
      eexists. split; [reflexivity|]. split; [exists ex; exact Hex|].
      split; [apply aset_NoDup; [apply pkey_eqb_spec | exact Hnd]|].
      intros k. cbn [fst snd].
      destruct (pkey_eqb k key) eqn:K.
      + apply pkey_eqb_spec in K. subst k. rewrite aget_aset_eq by apply pkey_eqb_spec.
        exists t, []. rewrite sel_app, Hself, Hkey. split; [reflexivity|].
        cbn [e_num e_buf e_st app List.length map]. split; [reflexivity|].
        split; [rewrite Hex, app_length; lia|]. split; [|exact Hh].
        rewrite Hrd. apply is_sum_single.
      + assert (k <> key) as Hne. { intros ->. rewrite pkey_eqb_refl in K. discriminate. }
        rewrite aget_aset_ne by (auto using pkey_eqb_spec). specialize (Hget k).
        destruct (aget pkey_eqb d k) as [e2|].
        * rewrite <- (app_nil_r m). apply ent_ok_skip; [apply Hother, Hne | exact Hget].
        * rewrite sel_app, Hother, Hget by exact Hne. reflexivity.
  Qed.

  Lemma profile_loop_ok r : forall l s, stream = l ++ r -> pinv l s ->
    exists s', foldM (profile_step within crs boxes) r s = Ok s' /\ pinv stream s'.
  Proof.
    induction r as [|t r IH]; intros l s Hst Hinv; cbn [foldM].
    - exists s. rewrite app_nil_r in Hst. subst l. auto.
    - destruct (profile_step_ok l t s) as [s1 [H1 H2]]; [exists r; exact Hst | exact Hinv|].
      rewrite H1. cbn [bind]. apply (IH (l ++ [t])); [rewrite <- app_assoc; exact Hst | exact H2].
  Qed.

  (** the finishing loop *)
  Definition fin_ok (m1 m2 : mem) (e : pentry) (o : ptrace) : Prop :=
    List.length m1 <= p_buf o /\ p_buf o < List.length m2 /\
    rd m2 (p_buf o) = np_div (rd m1 (e_buf e)) (inject_Z (Z.of_nat (e_num e))) /\
    channel (p_st o) = channel (e_st e) /\ delta (p_st o) = delta (e_st e) /\
    starttime (p_st o) = starttime (e_st e) /\
    dget (extra (p_st o)) "type" = Some (VStr "profile") /\
    dget (extra (p_st o)) "num" = Some (VNum (inject_Z (Z.of_nat (e_num e)))) /\
    forall k, k <> "type" -> k <> "num" -> dget (extra (p_st o)) k = dget (extra (e_st e)) k.
  Lemma finish_ok m1 es : Forall (fun e => e_buf e < List.length m1) es ->
    forall done m out, (exists x, m = m1 ++ x) -> Forall2 (fin_ok m1 m) done out -> NoDup (map p_buf out) ->
    exists m2 out2, fold_left finish es (m, out) = (m2, out2) /\ (exists x, m2 = m1 ++ x) /\
      Forall2 (fin_ok m1 m2) (done ++ es) out2 /\ NoDup (map p_buf out2).
  Proof.
    induction es as [|e es IH]; intros Hb done m out [x Hx] HF Hnd; cbn [fold_left].
    - exists m, out. rewrite app_nil_r. eauto.
    - inversion Hb as [|? ? He Hes]; subst. unfold finish at 2. cbn [alloc].
      set (d := np_div _ _). set (o := mkPT _ _).
      replace (done ++ e :: es) with ((done ++ [e]) ++ es) by (rewrite <- app_assoc; reflexivity).
      apply IH; [exact Hes| | |].
      + exists (x ++ [d]). rewrite app_assoc. reflexivity.
      + apply Forall2_app.
        * eapply Forall2_impl; [|exact HF]. intros e' o' (H1 & H2 & H3 & H4).
          split; [exact H1|]. split; [rewrite app_length; cbn [List.length]; lia|].
          split; [|exact H4]. rewrite rd_app1 by exact H2. exact H3.
        * constructor; [|constructor]. unfold o, fin_ok. cbn [p_buf p_st channel delta starttime extra].
          split; [rewrite app_length; lia|]. split; [rewrite !app_length; simpl; lia|].
          split; [rewrite rd_new; unfold d; f_equal; unfold rd; rewrite app_nth1 by exact He; reflexivity|].
          repeat split.
          -- apply dget_dset_eq.
          -- rewrite dget_dset_ne by discriminate. apply dget_dset_eq.
          -- intros k Hk1 Hk2. rewrite !dget_dset_ne by congruence. reflexivity.
      + rewrite map_app. cbn [map]. apply NoDup_Add with (a := p_buf o) (l := map p_buf out).
        * rewrite <- (app_nil_r (map p_buf out)) at 1. apply Add_app.
        * split; [exact Hnd|]. intros Hin. apply in_map_iff in Hin. destruct Hin as [o' [Ho' Hin]].
          assert (forall o', In o' out -> p_buf o' < List.length (m1 ++ x)) as Hlt.
          { clear - HF. induction HF as [|e o es out H HF IH]; [contradiction|].
            intros o' [<-|H']; [apply H | apply IH, H']. }
          specialize (Hlt o' Hin). rewrite Ho' in Hlt. unfold o in Hlt. cbn [p_buf] in Hlt. lia.
  Qed.

  Lemma last_char_qq c : last_char ("??" ++ char_str c)%string = Some c.
  Proof. reflexivity. Qed.
  Definition okey (o : ptrace) : Q * option ascii := (Qred (pos_of o), last_char (channel (p_st o))).

  Lemma sort_profile_perm l : Permutation (sort_profile l) l.
  Proof. unfold sort_profile. rewrite !sort_perm. reflexivity. Qed.
  Lemma Qle_bool_total a b : Qle_bool a b = true \/ Qle_bool b a = true.
  Proof. rewrite !Qle_bool_iff. destruct (Qlt_le_dec a b) as [H|H]; [left; apply Qlt_le_weak, H | right; exact H]. Qed.
  Lemma Qle_bool_trans a b c : Qle_bool a b = true -> Qle_bool b c = true -> Qle_bool a c = true.
  Proof. rewrite !Qle_bool_iff. apply Qle_trans. Qed.
  Lemma sort_profile_sorted l :
    StronglySorted (fun a b => String.leb (channel (p_st a)) (channel (p_st b)) = true /\
       (String.leb (channel (p_st b)) (channel (p_st a)) = true -> Qle_bool (pos_of a) (pos_of b) = true))
      (sort_profile l).
  Proof.
    unfold sort_profile.
    apply (sort_stable (fun a b => String.leb (channel (p_st a)) (channel (p_st b)))
                       (fun a b => Qle_bool (pos_of a) (pos_of b) = true)).
    - intros; apply String.leb_total.
    - intros a b c. apply str_leb_trans.
    - apply (sort_sorted (fun a b => Qle_bool (pos_of a) (pos_of b))).
      + intros; apply Qle_bool_total.
      + intros a b c. apply Qle_bool_trans.
  Qed.

  Theorem profile_spec :
    exists m2 out, rf_profile within crs m0 stream boxes = Ok (m2, out) /\
      (* arrays that existed before are unchanged, the result has its own arrays *)
      (forall b, b < List.length m0 -> rd m2 b = rd m0 b) /\
      Forall (fun o => List.length m0 <= p_buf o) out /\ NoDup (map p_buf out) /\
      (forall o, In o out -> profile_trace_ok within boxes m0 stream m2 o) /\
      (forall t pos c, In t stream -> hits within boxes t pos c ->
         exists o, In o out /\ channel (p_st o) = ("??" ++ char_str c)%string /\ num_entry "box_pos" o pos) /\
      StronglySorted before_in_profile out.
  Proof.
    assert (pinv [] (m0, [])) as Hinv0.
    { split; [exists []; rewrite app_nil_r; reflexivity|]. split; [constructor|]. intros k. reflexivity. }
    destruct (profile_loop_ok stream [] (m0, []) eq_refl Hinv0) as [[m1 d] [Hloop Hinv]].
    unfold rf_profile. rewrite Hloop. cbn [bind]. destruct Hinv as ([ex Hex] & Hnd & Hget). cbn [fst snd] in *.
    assert (forall k e, In (k, e) d -> ent_ok m1 k stream e) as Hent.
    { intros k e Hin. apply (in_aget pkey_eqb pkey_eqb_spec) in Hin; [|exact Hnd].
      specialize (Hget k). rewrite Hin in Hget. exact Hget. }
    assert (Forall (fun e => e_buf e < List.length m1) (map snd d)) as Hbufs.
    { rewrite Forall_forall. intros e He. apply in_map_iff in He. destruct He as [[k e'] [E He]]. simpl in E; subst e'.
      destruct (Hent k e He) as (f & rr & _ & _ & H & _). exact H. }
    destruct (finish_ok m1 (map snd d) Hbufs [] m1 []) as (m2 & out2 & Hfin & [x Hx] & HF & Hndb);
      [exists []; rewrite app_nil_r; reflexivity | constructor | constructor |].
    change (@pair (list (list Q)) (list ptrace) m1 []) with (@pair mem (list ptrace) m1 []) in Hfin. rewrite Hfin. cbn [app] in HF.
    assert (Forall2 (fun ke o => fin_ok m1 m2 (snd ke) o) d out2) as HF'.
    { clear - HF. revert out2 HF. induction d as [|ke d IH]; intros out2 HF; inversion HF; subst; constructor; auto. }
    assert (forall k e o, In (k, e) d -> fin_ok m1 m2 e o ->
              profile_trace_ok within boxes m0 stream m2 o /\ pos_of o = pos_of o /\
      okey o = (fst k, Some (snd k)) /\ channel (p_st o) = ("??" ++ char_str (snd k))%string /\
      num_entry "box_pos" o (pos_of o)) as Hout.
    { intros [q c] e o Hin (F1 & F2 & F3 & F4 & F5 & F6 & F7 & F8 & F9).
      destruct (Hent _ _ Hin) as (f & rr & E1 & E2 & E3 & E4 & H1 & H2 & H3 & H4 & H5 & (b & B1 & B2 & B3 & B4 & B5 & B6) & P1 & P2 & P3 & P4).
      cbn [fst snd] in *.
      assert (dget (extra (p_st o)) "box_pos" = Some (VNum (b_pos b))) as Hbp by (rewrite F9 by discriminate; exact B3).
      assert (pos_of o = b_pos b) as Hpos by (unfold pos_of; rewrite Hbp; reflexivity).
      assert (sel (q, c) stream <> []) as Hsel by (rewrite E1; discriminate).
      split.
      - exists (b_pos b), c, f, rr.
        split.
        { rewrite <- E1. apply selects_filter. intros t Ht. rewrite okey_is_spec. rewrite <- B2.
          apply tkey_hits. apply (proj1 (Forall_forall _ _) Hready), Ht. }
        split; [rewrite F4; exact H1|].
        split; [exists (b_pos b); split; [exact Hbp | reflexivity]|].
        split; [exists (inject_Z (Z.of_nat (e_num e))); split; [exact F8 | rewrite E2, E1; reflexivity]|].
        split. { rewrite F3, E2, <- E1. rewrite <- (map_length (fun t => rd m0 (p_buf t)) (sel (q, c) stream)) at 1.
                 apply is_sum_mean; [intros E; apply map_eq_nil in E; contradiction | exact E4]. }
        split; [exact F7|]. split; [rewrite F5; exact H2|].
        split. { intros e' He'. rewrite F9; [apply H4, He' | |];
                 simpl in He'; destruct He' as [<-|[<-|[<-|[<-|[]]]]]; discriminate. }
        split. { intros t0 Ht0. rewrite F9 by discriminate. rewrite F6, H3. apply H5, Ht0. }
        split. { exists b. split; [exact B1|]. split; [reflexivity|].
                 rewrite !F9 by discriminate. auto. }
        exists b0, plat, plon, pazi, plen, w. split; [exact Hb0|]. split; [exact Hprof|].
        rewrite !F9 by discriminate. auto.
      - split; [reflexivity|]. split; [|split].
        + unfold okey. rewrite Hpos, B2, F4, H1. reflexivity.
        + rewrite F4; exact H1.
        + exists (b_pos b). rewrite Hpos. split; [exact Hbp | reflexivity]. }
    pose proof (sort_profile_perm out2) as Hperm.
    exists m2, (sort_profile out2). split; [reflexivity|].
    assert (forall o, In o (sort_profile out2) -> exists ke, In ke d /\ fin_ok m1 m2 (snd ke) o) as Hback.
    { intros o Ho. apply (Permutation_in _ Hperm) in Ho. apply (Forall2_in_r _ _ _ _ HF' Ho). }
    split.
    { intros b Hb. rewrite Hx, Hex. unfold rd. rewrite <- app_assoc. apply app_nth1. exact Hb. }
    split.
    { rewrite Forall_forall. intros o Ho. destruct (Hback o Ho) as [[k e] [_ H]]. destruct H as [H _].
      rewrite Hex, app_length in H. lia. }
    split.
    { eapply Permutation_NoDup; [apply Permutation_map; symmetry; exact Hperm | exact Hndb]. }
    split.
    { intros o Ho. destruct (Hback o Ho) as [[k e] [Hin H]]. apply (Hout k e o Hin H). }
    split.
    { intros t pos c Ht Hh. pose proof (proj1 (Forall_forall _ _) Hready t Ht) as Hrt.
      apply tkey_hits in Hh; [|exact Hrt].
      specialize (Hget (Qred pos, c)).
      destruct (aget pkey_eqb d (Qred pos, c)) as [e|] eqn:G.
      - apply aget_Some_in in G; [|apply pkey_eqb_spec].
        destruct (Forall2_in_l _ _ _ _ HF' G) as [o [Ho Hf]]. cbn [snd] in Hf.
        destruct (Hout _ _ _ G Hf) as (_ & _ & K & C & N). exists o.
        split; [apply (Permutation_in o (Permutation_sym Hperm)); exact Ho|]. split; [exact C|].
        destruct N as [v [Hv Hq]]. exists v. split; [exact Hv|]. rewrite Hq.
        unfold okey in K. inversion K as [[K1 K2]]. apply Qred_eq_iff. rewrite K1. reflexivity.
      - exfalso. assert (In t (sel (Qred pos, c) stream)) as Hin.
        { apply filter_In. split; [exact Ht|]. apply okey_is_spec, Hh. }
        rewrite Hget in Hin. exact Hin. }
    assert (map okey out2 = map (fun ke => (fst (fst ke), Some (snd (fst ke)))) d) as Hkeys.
    { assert (forall d' out', Forall2 (fun ke o => fin_ok m1 m2 (snd ke) o) d' out' ->
                (forall ke, In ke d' -> In ke d) ->
                map okey out' = map (fun ke => (fst (fst ke), Some (snd (fst ke)))) d') as Hgen; [|apply Hgen; auto].
      intros d' out' HF''. induction HF'' as [|ke o d'' out'' H HF'' IH]; intros Hsub; [reflexivity|].
      cbn [map]. f_equal.
      - destruct ke as [k e]. apply (Hout k e o); [apply Hsub; left; reflexivity | exact H].
      - apply IH. intros ke' Hke'. apply Hsub. right; exact Hke'. }
    assert (NoDup (map okey (sort_profile out2))) as Hndk.
    { eapply Permutation_NoDup; [apply Permutation_map; symmetry; exact Hperm|].
      rewrite Hkeys. clear - Hnd. induction d as [|[[q c] e] d IH]; cbn [map] in *; [constructor|].
      inversion Hnd as [|? ? Hn Hnd']; subst. constructor; [|auto].
      intros Hin. apply Hn. apply in_map_iff in Hin. destruct Hin as [[[q' c'] e'] [E Hin]]. cbn [fst snd] in *.
      inversion E; subst. apply in_map_iff. exists ((q, c), e'). auto. }
    pose proof (StronglySorted_NoDup _ okey _ (sort_profile_sorted out2) Hndk) as Hss.
    eapply StronglySorted_impl; [|exact Hss]. cbv beta.
    intros a b Ha Hb [[Hle Heq] Hne].
    destruct (Hback a Ha) as [[ka ea] [Hka Hfa]]. destruct (Hback b Hb) as [[kb eb] [Hkb Hfb]].
    destruct (Hout _ _ _ Hka Hfa) as (_ & _ & Ka & Ca & Na). destruct (Hout _ _ _ Hkb Hfb) as (_ & _ & Kb & Cb & Nb).
    unfold before_in_profile. unfold String.leb in Hle.
    destruct (String.compare (channel (p_st a)) (channel (p_st b))) eqn:E; try discriminate; [|left; reflexivity].
    right. apply String.compare_eq_iff in E. split; [exact E|].
    exists (pos_of a), (pos_of b). split; [exact Na|]. split; [exact Nb|].
    rewrite E in Heq. specialize (Heq (str_leb_refl _)). apply Qle_bool_iff in Heq.
    apply Qle_lteq in Heq. destruct Heq as [Heq|Heq]; [exact Heq|].
    exfalso. apply Hne. unfold okey. rewrite E. f_equal. apply Qred_complete, Heq.
  Qed.
End PF.

Lemma selects_unique {A} (P : A -> Prop) l r1 r2 : selects P l r1 -> selects P l r2 -> r1 = r2.
Proof.
  intros H. revert r2. induction H as [|x l r HP HS IH|x l r HP HS IH]; intros r2 H2; inversion H2; subst; try contradiction; auto.
  f_equal; auto.
Qed.
Lemma num_entry_pos o q : num_entry "box_pos" o q -> (pos_of o == q)%Q.
Proof. intros [v [H1 H2]]. unfold pos_of. rewrite H1. exact H2. Qed.

Section Perm.
  Variable within : Q * Q -> box -> bool.
  Variable boxes : list box.
  Variable m0 : mem.
  Variables s1 s2 : list ptrace.
  Hypothesis Hp : Permutation s1 s2.
  Hypothesis Hready : Forall profile_ready s1.

  Definition pk (o : ptrace) : string * Q := (channel (p_st o), Qred (pos_of o)).
  Definition klt (a b : string * Q) : Prop :=
    String.compare (fst a) (fst b) = Lt \/ (fst a = fst b /\ (snd a < snd b)%Q).
  Lemma klt_irr a : ~ klt a a.
  Proof. intros [H|[_ H]]; [rewrite str_compare_refl in H; discriminate | apply (Qlt_irrefl _ H)]. Qed.
  Lemma klt_trans a b c : klt a b -> klt b c -> klt a c.
  Proof.
    unfold klt. intros [H|[H1 H2]] [H'|[H1' H2']].
    - left. eapply str_compare_lt_trans; eassumption.
    - left. rewrite <- H1'. exact H.
    - left. rewrite H1. exact H'.
    - right. split; [congruence | eapply Qlt_trans; eassumption].
  Qed.
  Lemma before_klt a b : before_in_profile a b -> klt (pk a) (pk b).
  Proof.
    intros [H|[H (p & q & Hp' & Hq & Hlt)]]; [left; exact H|].
    right. split; [exact H|]. cbn [snd pk]. unfold pk; cbn [snd].
    rewrite !Qred_correct. rewrite (num_entry_pos _ _ Hp'), (num_entry_pos _ _ Hq). exact Hlt.
  Qed.
  Lemma okq_inj c c' : ("??" ++ char_str c)%string = ("??" ++ char_str c')%string -> c = c'.
  Proof. intros H. inversion H. reflexivity. Qed.

  Lemma hits_compat t p q c : (p == q)%Q -> hits within boxes t p c -> hits within boxes t q c.
  Proof.
    intros E (la & lo & bb & b & aa & H1 & H2 & H3 & H4 & H5 & H6 & H7).
    exists la, lo, bb, b, aa. repeat (split; [assumption|]). split; [rewrite H6; exact E | exact H7].
  Qed.

  Lemma perm_incl (A B : list ptrace) (ma mb : mem) sa sb :
    Permutation sa sb ->
    (forall o, In o A -> profile_trace_ok within boxes m0 sa ma o) ->
    (forall t pos c, In t sb -> hits within boxes t pos c ->
         exists o, In o B /\ channel (p_st o) = ("??" ++ char_str c)%string /\ num_entry "box_pos" o pos) ->
    forall k, In k (map pk A) -> In k (map pk B).
  Proof.
    intros HP HA HB k Hk. apply in_map_iff in Hk. destruct Hk as [o [<- Ho]].
    destruct (HA o Ho) as (pos & c & f & r & Hsel & Hc & Hpos & _).
    assert (In f sa /\ hits within boxes f pos c) as [Hf Hh].
    { apply (selects_in _ _ _ Hsel). left; reflexivity. }
    destruct (HB f pos c (Permutation_in _ HP Hf) Hh) as (o2 & Ho2 & Hc2 & Hpos2).
    apply in_map_iff. exists o2. split; [|exact Ho2]. unfold pk. rewrite Hc, Hc2. f_equal.
    apply Qred_complete. rewrite (num_entry_pos _ _ Hpos), (num_entry_pos _ _ Hpos2). reflexivity.
  Qed.

  Theorem profile_perm_facts out1 out2 m1 m2 :
    (forall o, In o out1 -> profile_trace_ok within boxes m0 s1 m1 o) ->
    (forall t pos c, In t s1 -> hits within boxes t pos c ->
         exists o, In o out1 /\ channel (p_st o) = ("??" ++ char_str c)%string /\ num_entry "box_pos" o pos) ->
    StronglySorted before_in_profile out1 ->
    (forall o, In o out2 -> profile_trace_ok within boxes m0 s2 m2 o) ->
    (forall t pos c, In t s2 -> hits within boxes t pos c ->
         exists o, In o out2 /\ channel (p_st o) = ("??" ++ char_str c)%string /\ num_entry "box_pos" o pos) ->
    StronglySorted before_in_profile out2 ->
    Forall2 (fun o1 o2 =>
      channel (p_st o1) = channel (p_st o2) /\
      (exists pos, num_entry "box_pos" o1 pos /\ num_entry "box_pos" o2 pos) /\
      (exists n, num_entry "num" o1 n /\ num_entry "num" o2 n) /\
      Forall2 Qeq (rd m1 (p_buf o1)) (rd m2 (p_buf o2))) out1 out2.
  Proof.
    intros A1 B1 S1 A2 B2 S2.
    assert (map pk out1 = map pk out2) as Hk.
    { apply (strict_sorted_ext klt); try apply klt_irr; try apply klt_trans.
      - apply StronglySorted_map. eapply StronglySorted_impl; [|exact S1]. intros; apply before_klt; assumption.
      - apply StronglySorted_map. eapply StronglySorted_impl; [|exact S2]. intros; apply before_klt; assumption.
      - intros k. split.
        + apply (perm_incl out1 out2 m1 m2 s1 s2); assumption.
        + apply (perm_incl out2 out1 m2 m1 s2 s1); [symmetry; exact Hp | assumption | assumption]. }
    apply map_eq_Forall2 in Hk. eapply Forall2_impl; [|exact Hk]. clear Hk.
    intros o1 o2 (H1 & H2 & Hk). pose proof (f_equal fst Hk) as Hc. pose proof (f_equal snd Hk) as Hq. cbn [pk fst snd] in Hc, Hq.
    destruct (A1 o1 H1) as (p1 & c1 & f1 & r1 & Hs1 & Hc1 & Hp1 & Hn1 & Hm1 & _).
    destruct (A2 o2 H2) as (p2 & c2 & f2 & r2 & Hs2 & Hc2 & Hp2 & Hn2 & Hm2 & _).
    assert (c1 = c2) by (apply okq_inj; congruence). subst c2.
    assert (p1 == p2)%Q as Ep.
    { rewrite <- (num_entry_pos _ _ Hp1), <- (num_entry_pos _ _ Hp2). apply Qred_eq_iff, Hq. }
    assert (Permutation (f1 :: r1) (f2 :: r2)) as Hperm.
    { pose (q := okey_is within boxes (Qred p1, c1)).
      assert (Forall profile_ready s2) as Hready2 by (eapply Permutation_Forall; eassumption).
      assert (selects (fun t => hits within boxes t p1 c1) s1 (filter q s1)) as G1.
      { apply selects_filter. intros t Ht. unfold q. rewrite okey_is_spec. apply tkey_hits.
        apply (proj1 (Forall_forall _ _) Hready), Ht. }
      assert (selects (fun t => hits within boxes t p2 c1) s2 (filter q s2)) as G2.
      { apply selects_filter. intros t Ht. unfold q. rewrite okey_is_spec. rewrite tkey_hits.
        - split; apply hits_compat; [exact Ep | symmetry; exact Ep].
        - apply (proj1 (Forall_forall _ _) Hready2), Ht. }
      rewrite (selects_unique _ _ _ _ Hs1 G1), (selects_unique _ _ _ _ Hs2 G2). apply filter_perm, Hp. }
    split; [exact Hc|]. split; [|split].
    - exists p1. split; [exact Hp1|]. destruct Hp2 as [v [V1 V2]]. exists v. split; [exact V1|]. rewrite V2. symmetry; exact Ep.
    - eexists. split; [exact Hn1|]. rewrite (Permutation_length Hperm). exact Hn2.
    - eapply is_mean_perm; [| |exact Hm1|exact Hm2]; [discriminate|]. apply Permutation_map, Hperm.
  Qed.
End Perm.

Theorem profile_perm within crs boxes m0 s1 s2 b0 pp m1 out1 m2 out2 :
  Permutation s1 s2 ->
  Forall (fun t => p_buf t < List.length m0) s1 -> Forall profile_ready s1 ->
  hd_error boxes = Some b0 -> b_profile b0 = Some pp ->
  (forall t u pos c, In t s1 -> In u s1 -> hits within boxes t pos c -> hits within boxes u pos c ->
     List.length (rd m0 (p_buf t)) = List.length (rd m0 (p_buf u))) ->
  rf_profile within crs m0 s1 boxes = Ok (m1, out1) ->
  rf_profile within crs m0 s2 boxes = Ok (m2, out2) ->
  Forall2 (fun o1 o2 =>
      channel (p_st o1) = channel (p_st o2) /\
      (exists pos, num_entry "box_pos" o1 pos /\ num_entry "box_pos" o2 pos) /\
      (exists n, num_entry "num" o1 n /\ num_entry "num" o2 n) /\
      Forall2 Qeq (rd m1 (p_buf o1)) (rd m2 (p_buf o2))) out1 out2.
Proof.
  intros Hp Hb Hr Hb0 Hpp Hlen H1 H2. destruct pp as [[[[plat plon] pazi] plen] w].
  assert (Forall (fun t => p_buf t < List.length m0) s2) as Hb2 by (eapply Permutation_Forall; eassumption).
  assert (Forall profile_ready s2) as Hr2 by (eapply Permutation_Forall; eassumption).
  destruct (profile_spec within crs boxes m0 s1 Hb Hr b0 plat plon pazi plen w Hb0 Hpp Hlen)
    as (m1' & out1' & E1 & _ & _ & _ & A1 & B1 & S1).
  destruct (profile_spec within crs boxes m0 s2 Hb2 Hr2 b0 plat plon pazi plen w Hb0 Hpp)
    as (m2' & out2' & E2 & _ & _ & _ & A2 & B2 & S2).
  { intros t u pos c Ht Hu. apply Hlen; (eapply Permutation_in; [symmetry; exact Hp | assumption]). }
  rewrite H1 in E1. rewrite H2 in E2. inversion E1; inversion E2; subst.
  apply (profile_perm_facts within boxes m0 s1 s2 Hp Hr); assumption.
Qed.

Theorem find_box_spec within crs p (boxes : list box) : boxes <> [] ->
  exists r, find_box within crs p boxes = Ok r /\
    (forall b, r = Some b <->
       exists before after, boxes = before ++ b :: after /\ within p b = true /\
                            Forall (fun b' => within p b' = false) before) /\
    (r = None <-> forall b, In b boxes -> within p b = false).
Proof.
  intros Hne. unfold find_box.
  replace (negb crs && Nat.eqb (List.length boxes) 0) with false
    by (destruct boxes; [congruence | symmetry; apply andb_false_r]).
  exists (find (within p) boxes). split; [reflexivity|]. split.
  - intros b. apply find_split.
  - split; [intros H b Hb; apply (find_none _ _ H b Hb)|].
    intros H. destruct (find (within p) boxes) as [b|] eqn:E; [|reflexivity].
    apply find_some in E. destruct E as [E1 E2]. rewrite (H b E1) in E2. discriminate.
Qed.
