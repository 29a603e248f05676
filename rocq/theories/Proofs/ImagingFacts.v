(** Facts about the plots. *)
From Verif Require Import Model.Imaging Spec.ImagingSpec Proofs.PyFacts.
From Coq Require Import Qabs Lqa.
Open Scope nat_scope.

(** ** labels *)
Lemma dedup_single {A} eqb (H : forall a b : A, eqb a b = true <-> a = b) l x :
  dedup eqb l = [x] <-> (l <> [] /\ forall y, In y l -> y = x).
Proof.
  split.
  - intros E. split.
    + intros ->. discriminate.
    + intros y Hy. apply (dedup_in eqb H) in Hy. rewrite E in Hy. destruct Hy as [<-|[]]. reflexivity.
  - intros (N & E). destruct l as [|y l]; [congruence|].
    assert (Hx : In x (dedup eqb (y :: l))).
    { apply (dedup_in eqb H). rewrite <- (E y (or_introl eq_refl)). now left. }
    assert (Hall : forall z, In z (dedup eqb (y :: l)) -> z = x).
    { intros z Hz. apply E. now apply (dedup_in eqb H). }
    assert (Nd : NoDup (dedup eqb (y :: l))) by now apply dedup_NoDup.
    destruct (dedup eqb (y :: l)) as [|a [|b r]].
    + destruct Hx.
    + now rewrite (Hall a (or_introl eq_refl)).
    + exfalso. inversion Nd as [|? ? Ha _]; subst. apply Ha. left.
      rewrite (Hall a), (Hall b); [reflexivity | right; now left | now left].
Qed.

Lemma label_step (f : trace -> string) s :
  (exists x, dedup String.eqb (map f s) = [x] /\ common f s x) \/
  ((forall x, dedup String.eqb (map f s) <> [x]) /\ forall x, ~ common f s x).
Proof.
  assert (Hc : forall x, dedup String.eqb (map f s) = [x] <-> common f s x).
  { intros x. rewrite (dedup_single String.eqb str_eqb_spec). unfold common. split.
    - intros (N & H). split.
      + intros ->. now apply N.
      + intros t Ht. apply H. now apply in_map.
    - intros (N & H). split.
      + destruct s; [congruence|discriminate].
      + intros y Hy. apply in_map_iff in Hy. destruct Hy as (t & <- & Ht). now apply H. }
  destruct (dedup String.eqb (map f s)) as [|x [|y r]] eqn:E.
  - right. split; [discriminate|]. intros x Hx. apply Hc in Hx. discriminate.
  - left. exists x. split; [reflexivity|]. now apply Hc.
  - right. split; [discriminate|]. intros z Hz. apply Hc in Hz. discriminate.
Qed.
Lemma common_unique f s x y : common f s x -> common f s y -> x = y.
Proof.
  intros (N & H) (_ & H2). destruct s as [|t s]; [congruence|].
  rewrite <- (H t (or_introl eq_refl)). apply H2. now left.
Qed.

Lemma label_spec s :
  (forall x, common full_id s x -> label s = x) /\
  ((forall y, ~ common full_id s y) -> forall x, common band_id s x -> label s = x) /\
  ((forall y, ~ common full_id s y) -> (forall y, ~ common band_id s y) ->
     forall x, common station_id s x -> label s = x) /\
  ((forall y, ~ common full_id s y) -> (forall y, ~ common band_id s y) ->
     (forall y, ~ common station_id s y) -> label s = "").
Proof.
  change (label s) with
    (match dedup String.eqb (map full_id s) with
     | [x] => x
     | _ => match dedup String.eqb (map band_id s) with
            | [x] => x
            | _ => match dedup String.eqb (map station_id s) with [x] => x | _ => "" end
            end
     end).
  destruct (label_step full_id s) as [(x & -> & C1)|(N1 & F1)].
  { repeat split.
    - intros y Hy. eapply common_unique; eassumption.
    - intros H. destruct (H x C1).
    - intros H. destruct (H x C1).
    - intros H. destruct (H x C1). }
  assert (E1 : forall (r : string), match dedup String.eqb (map full_id s) with [x] => x | _ => r end = r).
  { intros r. destruct (dedup String.eqb (map full_id s)) as [|x [|y l]]; try reflexivity. now elim (N1 x). }
  rewrite E1.
  destruct (label_step band_id s) as [(x & -> & C2)|(N2 & F2)].
  { repeat split.
    - intros y Hy. destruct (F1 y Hy).
    - intros _ y Hy. eapply common_unique; eassumption.
    - intros _ H. destruct (H x C2).
    - intros _ H. destruct (H x C2). }
  assert (E2 : forall (r : string), match dedup String.eqb (map band_id s) with [x] => x | _ => r end = r).
  { intros r. destruct (dedup String.eqb (map band_id s)) as [|x [|y l]]; try reflexivity. now elim (N2 x). }
  rewrite E2.
  destruct (label_step station_id s) as [(x & -> & C3)|(N3 & F3)].
  { repeat split.
    - intros y Hy. destruct (F1 y Hy).
    - intros _ y Hy. destruct (F2 y Hy).
    - intros _ _ y Hy. eapply common_unique; eassumption.
    - intros _ _ H. destruct (H x C3). }
  assert (E3 : forall (r : string), match dedup String.eqb (map station_id s) with [x] => x | _ => r end = r).
  { intros r. destruct (dedup String.eqb (map station_id s)) as [|x [|y l]]; try reflexivity. now elim (N3 x). }
  rewrite E3.
  split; [intros x H; destruct (F1 x H)|]. split; [intros _ x H; destruct (F2 x H)|].
  split; [intros _ _ x H; destruct (F3 x H)|reflexivity].
Qed.

(** ** maxima *)
Lemma fold_max l x : (x <= fold_left Qmax l x)%Q /\ (forall y, In y l -> y <= fold_left Qmax l x)%Q /\
  In (fold_left Qmax l x) (x :: l).
Proof.
  revert x. induction l as [|z l IH]; intros x; simpl.
  - split; [apply Qle_refl|]. split; [contradiction|now left].
  - destruct (IH (Qmax x z)) as (H1 & H2 & H3).
    assert (Hm : (x <= Qmax x z /\ z <= Qmax x z)%Q /\ (Qmax x z = x \/ Qmax x z = z)).
    { unfold Qmax. destruct (Qle_bool x z) eqn:E.
      - apply Qle_bool_iff in E. split; [split; [exact E|apply Qle_refl]|now right].
      - split; [split; [apply Qle_refl|]|now left].
        destruct (Qlt_le_dec z x) as [L|L]; [now apply Qlt_le_weak|].
        apply Qle_bool_iff in L. congruence. }
    destruct Hm as ((M1 & M2) & M3). split; [eapply Qle_trans; eassumption|]. split.
    + intros y [<-|Hy]; [eapply Qle_trans; eassumption | now apply H2].
    + simpl in H3. destruct H3 as [H3|H3]; [|tauto].
      destruct M3 as [M3|M3]; rewrite M3 in *; tauto.
Qed.
Lemma py_max_spec l m : py_max l = Ok m -> (forall y, In y l -> (y <= m)%Q) /\ In m l.
Proof.
  destruct l as [|x l]; [discriminate|]. intros H. injection H as <-.
  destruct (fold_max l x) as (H1 & H2 & H3). split; [|exact H3].
  intros y [<-|Hy]; [exact H1 | now apply H2].
Qed.
Lemma fold_min l x : (fold_left Qmin l x <= x)%Q /\ (forall y, In y l -> fold_left Qmin l x <= y)%Q /\
  In (fold_left Qmin l x) (x :: l).
Proof.
  revert x. induction l as [|z l IH]; intros x; simpl.
  - split; [apply Qle_refl|]. split; [contradiction|now left].
  - destruct (IH (Qmin x z)) as (H1 & H2 & H3).
    assert (Hm : (Qmin x z <= x /\ Qmin x z <= z)%Q /\ (Qmin x z = x \/ Qmin x z = z)).
    { unfold Qmin. destruct (Qle_bool x z) eqn:E.
      - apply Qle_bool_iff in E. split; [split; [apply Qle_refl|exact E]|now left].
      - split; [split; [|apply Qle_refl]|now right].
        destruct (Qlt_le_dec z x) as [L|L]; [now apply Qlt_le_weak|].
        apply Qle_bool_iff in L. congruence. }
    destruct Hm as ((M1 & M2) & M3). split; [eapply Qle_trans; eassumption|]. split.
    + intros y [<-|Hy]; [eapply Qle_trans; eassumption | now apply H2].
    + simpl in H3. destruct H3 as [H3|H3]; [|tauto].
      destruct M3 as [M3|M3]; rewrite M3 in *; tauto.
Qed.
Lemma py_min_spec l m : py_min l = Ok m -> (forall y, In y l -> (m <= y)%Q) /\ In m l.
Proof.
  destruct l as [|x l]; [discriminate|]. intros H. injection H as <-.
  destruct (fold_min l x) as (H1 & H2 & H3). split; [|exact H3].
  intros y [<-|Hy]; [exact H1 | now apply H2].
Qed.
Lemma max_abs_peak d m : max_abs d = Ok m -> is_peak d m.
Proof.
  intros H. apply py_max_spec in H. destruct H as (H1 & H2). split.
  - intros x Hx. apply H1. now apply in_map.
  - apply in_map_iff in H2. destruct H2 as (x & <- & Hx). exists x. split; [exact Hx|reflexivity].
Qed.
Lemma peak_nonneg d m : is_peak d m -> (0 <= m)%Q.
Proof. intros (_ & x & _ & H). rewrite <- H. apply Qabs_nonneg. Qed.

Lemma peak_concat (s : list trace) maxs m :
  mapM (fun t => max_abs (data t)) s = Ok maxs -> py_max maxs = Ok m ->
  is_peak (List.concat (map data s)) m.
Proof.
  intros H1 H2. apply py_max_spec in H2. destruct H2 as (H2 & H3).
  apply mapM_ok_Forall2 in H1. split.
  - intros x Hx. apply in_concat in Hx. destruct Hx as (d & Hd & Hx).
    apply in_map_iff in Hd. destruct Hd as (t & <- & Ht).
    destruct (Forall2_in_l _ _ _ t H1 Ht) as (m1 & Hm1 & E).
    apply max_abs_peak in E. destruct E as (E & _).
    eapply Qle_trans; [apply E; exact Hx | now apply H2].
  - destruct (Forall2_in_r _ _ _ m H1 H3) as (t & Ht & E).
    apply max_abs_peak in E. destruct E as (_ & x & Hx & E). exists x. split; [|exact E].
    apply in_concat. exists (data t). split; [now apply in_map|exact Hx].
Qed.

(** dividing by a bound *)
Lemma qdiv_within d m : (0 < m)%Q -> (forall x, In x d -> (Qabs x <= m)%Q) ->
  drawn_within 1 (map (fun x => qdiv x m) d).
Proof.
  intros Hm H o Ho. apply in_map_iff in Ho. destruct Ho as (x & <- & Hx).
  unfold qdiv. destruct (Qeq_bool m 0) eqn:E.
  { apply Qeq_bool_iff in E. rewrite E in Hm. discriminate. }
  eexists. split; [reflexivity|]. unfold Qdiv. rewrite Qabs_Qmult.
  rewrite (Qabs_pos (/ m)) by (apply Qlt_le_weak, Qinv_lt_0_compat, Hm).
  apply (Qmult_le_r _ _ m Hm). rewrite <- Qmult_assoc, (Qmult_comm (/ m)), Qmult_inv_r.
  - rewrite Qmult_1_r, Qmult_1_l. now apply H.
  - intros E2. rewrite E2 in Hm. discriminate.
Qed.

(** ** harmonics *)
Lemma ref_fold hd r r' : foldM ref_step hd r = Ok r' ->
  (r <= r')%Q /\ (forall t x, In t hd -> In x (data t) -> (Qabs x <= r')%Q) /\
  (r' = r \/ exists t, In t hd /\ is_peak (data t) r').
Proof.
  revert r. induction hd as [|t hd IH]; intros r H.
  - injection H as <-. split; [apply Qle_refl|]. split; [contradiction|now left].
  - cbn [foldM] in H. unfold ref_step at 1 in H.
    destruct (max_abs (data t)) as [m|e] eqn:E; [|discriminate]. cbn [bind] in H.
    apply IH in H. destruct H as (H1 & H2 & H3). apply max_abs_peak in E.
    assert (Hb : (r <= (if Qle_bool m r then r else m))%Q /\ (m <= (if Qle_bool m r then r else m))%Q).
    { destruct (Qle_bool m r) eqn:B.
      - apply Qle_bool_iff in B. split; [apply Qle_refl|exact B].
      - split; [|apply Qle_refl]. destruct (Qlt_le_dec r m) as [L|L]; [now apply Qlt_le_weak|].
        apply Qle_bool_iff in L. congruence. }
    destruct Hb as (B1 & B2). split; [eapply Qle_trans; eassumption|]. split.
    + intros u x [<-|Hu] Hx; [|eapply H2; eassumption].
      destruct E as (E & _). eapply Qle_trans; [apply E; exact Hx|]. eapply Qle_trans; eassumption.
    + destruct H3 as [H3|(u & Hu & Hp)].
      * destruct (Qle_bool m r); [now left|]. right. exists t. split; [now left|]. now rewrite H3.
      * right. exists u. split; [now right|exact Hp].
Qed.

Lemma select_in loc s t : In t (select_loc loc s) -> In t s.
Proof. intros H. apply filter_In in H. tauto. Qed.
Lemma select_cha_in c s t : In t (select_cha c s) -> In t s.
Proof. intros H. apply filter_In in H. tauto. Qed.
Lemma pyindex_in {A} (l : list A) i x : pyindex l i = Ok x -> In x l.
Proof.
  unfold pyindex. destruct (_ || _)%bool; [discriminate|].
  destruct (nth_error l _) eqn:E; [|discriminate]. intros H. injection H as <-.
  eapply nth_error_In; exact E.
Qed.
Lemma pyindex_nat {A} (l : list A) i x : pyindex l (Z.of_nat i) = Ok x -> nth_error l i = Some x.
Proof.
  unfold pyindex. replace (Z.of_nat i <? 0)%Z with false by (symmetry; apply Z.ltb_ge; lia).
  destruct (_ || _)%bool; [discriminate|]. rewrite Nat2Z.id.
  destruct (nth_error l i) eqn:E; [|discriminate]. congruence.
Qed.

Lemma ref0_peak hd r ref0 :
  head_ref (select_cha "0" (select_loc "mod" hd)) = Ok r -> foldM ref_step hd r = Ok ref0 ->
  is_peak (List.concat (map data hd)) ref0.
Proof.
  intros H1 H2. unfold head_ref in H1.
  destruct (pyindex (select_cha "0" (select_loc "mod" hd)) 0) as [t|] eqn:E; [|discriminate].
  cbn [bind] in H1. apply pyindex_in, select_cha_in, select_in in E. apply max_abs_peak in H1.
  apply ref_fold in H2. destruct H2 as (A & B & C). split.
  - intros x Hx. apply in_concat in Hx. destruct Hx as (d & Hd & Hx).
    apply in_map_iff in Hd. destruct Hd as (u & <- & Hu). eapply B; eassumption.
  - assert (Hu : exists u, In u hd /\ is_peak (data u) ref0).
    { destruct C as [->|C]; [exists t; tauto|exact C]. }
    destruct Hu as (u & Hu & _ & x & Hx & Ex). exists x. split; [|exact Ex].
    apply in_concat. exists (data u). split; [now apply in_map|exact Hx].
Qed.

(** the lines of both panels *)
Definition harm_fun ref0 ref1 (modl unmod : list trace)
  (lr : list (Z * list Z * list (option Q)) * list (Z * list Z * list (option Q))) (i : nat) :=
    let '(lhs, rhs) := lr in
    let! t := pyindex modl (Z.of_nat i) in
    let! l := harm_line ref0 t in
    match unmod with
    | [] => Ok (lhs ++ [l], rhs)
    | _ => let! u := pyindex unmod (Z.of_nat i) in
           let! r := harm_line ref1 u in
           Ok (lhs ++ [l], rhs ++ [r])
    end.
Lemma harm_loop ref0 ref1 modl unmod n : forall k lhs rhs l r,
  foldM (harm_fun ref0 ref1 modl unmod) (seq k n) (lhs, rhs) = Ok (l, r) ->
  exists l1 r1, l = lhs ++ l1 /\ r = rhs ++ r1 /\
    Forall2 (fun i line => exists t, nth_error modl i = Some t /\ harm_line ref0 t = Ok line) (seq k n) l1 /\
    match unmod with
    | [] => r1 = []
    | _ => Forall2 (fun i line => exists t, nth_error unmod i = Some t /\ harm_line ref1 t = Ok line) (seq k n) r1
    end.
Proof.
  induction n as [|n IH]; intros k lhs rhs l r H.
  - injection H as <- <-. exists [], []. rewrite !app_nil_r. repeat split; [constructor|].
    destruct unmod; constructor.
  - cbn [seq foldM] in H. unfold harm_fun at 1 in H.
    destruct (pyindex modl (Z.of_nat k)) as [t|] eqn:Et; [|discriminate]. cbn [bind] in H.
    destruct (harm_line ref0 t) as [ln|] eqn:El; [|discriminate]. cbn [bind] in H.
    apply pyindex_nat in Et.
    destruct unmod as [|u0 us] eqn:Eu.
    + cbn [bind] in H. apply IH in H. destruct H as (l1 & r1 & -> & -> & H1 & H2).
      exists (ln :: l1), r1. rewrite <- app_assoc. repeat split; [|exact H2].
      constructor; [exists t; tauto|exact H1].
    + rewrite <- Eu in *.
      destruct (pyindex unmod (Z.of_nat k)) as [u|] eqn:Et2; [|discriminate]. cbn [bind] in H.
      destruct (harm_line ref1 u) as [rn|] eqn:Er; [|discriminate]. cbn [bind] in H.
      apply pyindex_nat in Et2. apply IH in H. destruct H as (l1 & r1 & -> & -> & H1 & H2).
      exists (ln :: l1), (rn :: r1). rewrite <- !app_assoc. repeat split.
      * constructor; [exists t; tauto|exact H1].
      * constructor; [exists u; tauto|exact H2].
Qed.

Lemma times_rel_spec t l : times_rel t = Ok l ->
  exists o, has_onset t o /\ l = map (sample_time t o) (seq 0 (List.length (data t))).
Proof.
  unfold times_rel, onset_of, has_onset.
  destruct (dget (extra (st t)) "onset") as [[| |o| |]|]; try discriminate.
  cbn [bind]. intros H. injection H as <-. exists o. split; [reflexivity|].
  apply map_ext. intros i. unfold sample_time. lia.
Qed.

Lemma harm_line_spec ref t line : harm_line ref t = Ok line ->
  exists o c, has_onset t o /\ py_int (channel (st t)) = Ok c /\
    line = ((4 - c)%Z, map (sample_time t o) (seq 0 (List.length (data t))), map (fun d => qdiv d ref) (data t)).
Proof.
  unfold harm_line. destruct (times_rel t) as [ts|] eqn:E; [|discriminate]. cbn [bind].
  destruct (py_int (channel (st t))) as [c|] eqn:Ec; [|discriminate]. cbn [bind].
  intros H. injection H as <-. apply times_rel_spec in E. destruct E as (o & Ho & ->).
  exists o, c. repeat split; assumption.
Qed.

Lemma harm_unfold hd hd2 : plot_harmonics hd hd2 =
  (let! r := head_ref (select_cha "0" (select_loc "mod" hd)) in
  let! ref0 := foldM ref_step hd r in
  let! (ref1, unmod) :=
    (match hd2 with
     | Some (t2 :: ts2) =>
         let! r := head_ref (select_cha "0" (select_loc "mod" (t2 :: ts2))) in
         let! ref1 := foldM (ref1_step ref0) (select_loc "mod" (t2 :: ts2)) r in
         Ok (ref1, select_loc "mod" (t2 :: ts2))
     | _ => Ok (ref0, select_loc "unmod" hd)
     end) in
  foldM (harm_fun ref0 ref1 (select_loc "mod" hd) unmod) (seq 0 5) ([], [])).
Proof. reflexivity. Qed.

Lemma harm_main hd hd2 l r :
  plot_harmonics hd hd2 = Ok (l, r) ->
  exists ref0 ref1 unmod,
    is_peak (List.concat (map data hd)) ref0 /\
    Forall2 (fun i line => exists t, nth_error (select_loc "mod" hd) i = Some t /\ harm_line ref0 t = Ok line) (seq 0 5) l /\
    match unmod with
    | [] => r = []
    | _ => Forall2 (fun i line => exists t, nth_error unmod i = Some t /\ harm_line ref1 t = Ok line) (seq 0 5) r
    end /\
    match hd2 with
    | None | Some [] => ref1 = ref0 /\ unmod = select_loc "unmod" hd
    | Some hd2 => unmod = select_loc "mod" hd2 /\
        exists c, head_ref (select_cha "0" (select_loc "mod" hd2)) = Ok c /\
          foldM (ref1_step ref0) (select_loc "mod" hd2) c = Ok ref1
    end.
Proof.
  rewrite harm_unfold. intros H.
  destruct (head_ref (select_cha "0" (select_loc "mod" hd))) as [r0|] eqn:E1; [|discriminate].
  cbn [bind] in H. destruct (foldM ref_step hd r0) as [ref0|] eqn:E2; [|discriminate].
  cbn [bind] in H. generalize (ref0_peak hd r0 ref0 E1 E2). intros Hp.
  destruct hd2 as [[|t2 ts2]|].
  - cbn [bind] in H. apply harm_loop in H. destruct H as (l1 & r1 & -> & -> & H1 & H2).
    exists ref0, ref0, (select_loc "unmod" hd). tauto.
  - set (h2 := t2 :: ts2) in *.
    destruct (head_ref (select_cha "0" (select_loc "mod" h2))) as [c|] eqn:E3; [|discriminate].
    cbn [bind] in H. destruct (foldM (ref1_step ref0) (select_loc "mod" h2) c) as [ref1|] eqn:E4; [|discriminate].
    cbn [bind] in H. apply harm_loop in H. destruct H as (l1 & r1 & -> & -> & H1 & H2).
    exists ref0, ref1, (select_loc "mod" h2). split; [exact Hp|]. split; [exact H1|]. split; [exact H2|].
    split; [reflexivity|]. exists c. tauto.
  - cbn [bind] in H. apply harm_loop in H. destruct H as (l1 & r1 & -> & -> & H1 & H2).
    exists ref0, ref0, (select_loc "unmod" hd). tauto.
Qed.

(** ** plot_rf *)
Lemma map_nth_error_seq {A} (f : nat -> A) n i : i < n -> nth_error (map f (seq 0 n)) i = Some (f i).
Proof.
  intros H. rewrite nth_error_map, nth_error_nth' with (d := 0) by (rewrite seq_length; exact H).
  rewrite seq_nth by exact H. reflexivity.
Qed.

Definition line_ok (trace_scale : bool) (scale_factor max_ : Q) (i : nat) (t : trace)
  (line : nat * list Z * list (option Q)) : Prop :=
  exists o m, has_onset t o /\
    (if trace_scale then is_peak (data t) m else m = max_) /\
    line = (i + 1, map (sample_time t o) (seq 0 (List.length (data t))),
            map (fun d => option_map (fun x => x * scale_factor)%Q (qdiv d m)) (data t)).

Lemma plot_rf_loop sc f mx s : forall lines x0 x1 ts i lines' x0' x1' ts' i',
  foldM (plot_rf_step true sc f mx) s (lines, (x0, x1), ts, i) = Ok (lines', (x0', x1'), ts', i') ->
  Forall (fun t => 0 < delta (st t))%Z s ->
  exists l, lines' = lines ++ l /\ List.length l = List.length s /\
    (forall j t, nth_error s j = Some t -> exists line, nth_error l j = Some line /\ line_ok sc f mx (i + j) t line) /\
    (x0' <= x0 /\ x1 <= x1')%Z /\
    (forall lv tms amps x, In (lv, tms, amps) l -> In x tms -> (x0' <= x <= x1')%Z).
Proof.
  induction s as [|t s IH]; intros lines x0 x1 ts i lines' x0' x1' ts' i' H Hd.
  - injection H as <- <- <- <- <-. exists []. rewrite app_nil_r. repeat split; try lia.
    + intros j t E. destruct j; discriminate.
    + contradiction.
    + contradiction.
  - cbn [foldM] in H. unfold plot_rf_step at 1 in H.
    destruct (times_rel t) as [tms|] eqn:Et; [|discriminate]. cbn [bind] in H.
    apply times_rel_spec in Et. destruct Et as (o & Ho & Et).
    destruct tms as [|t0 tms']; [discriminate|].
    assert (Hm : exists m, (if sc then max_abs (data t) else Ok mx) = Ok m /\ (if sc then is_peak (data t) m else m = mx)).
    { destruct sc; [|exists mx; tauto]. destruct (max_abs (data t)) as [m|] eqn:E; [|discriminate].
      exists m. split; [reflexivity|]. now apply max_abs_peak. }
    destruct Hm as (m & Hm1 & Hm2). rewrite Hm1 in H. cbn [bind] in H.
    inversion Hd as [|? ? Hdt Hds]; subst.
    apply IH in H; [|exact Hds]. destruct H as (l & -> & L & H1 & H2 & H3).
    set (tms := t0 :: tms') in *.
    set (line := (i + 1, tms, map (fun d => option_map (fun x => x * f)%Q (qdiv d m)) (data t))) in *.
    exists (line :: l). rewrite <- app_assoc. split; [reflexivity|]. split; [simpl; now rewrite L|].
    split; [|split].
    + intros j u E. destruct j as [|j].
      * injection E as <-. exists line. split; [reflexivity|]. exists o, m.
        split; [exact Ho|]. split; [exact Hm2|]. unfold line. now rewrite Et, Nat.add_0_r.
      * simpl in E. destruct (H1 j u E) as (ln & Hn & Hl). exists ln. split; [exact Hn|].
        replace (i + S j) with (i + 1 + j) by lia. exact Hl.
    + lia.
    + intros lv tms2 amps x [E|Hin] Hx; [|eapply H3; eassumption].
      injection E as <- <- <-.
      assert (Hb : (t0 <= x <= last tms t0)%Z).
      { clear -Et Hx Hdt. rewrite Et in *.
        set (n := List.length (data t)) in *.
        destruct n as [|n]; [contradiction|].
        assert (E0 : t0 = sample_time t o 0) by (unfold tms in Et; simpl in Et; congruence).
        assert (E1 : last (map (sample_time t o) (seq 0 (S n))) t0 = sample_time t o n).
        { rewrite seq_S, map_app. simpl. apply last_last. }
        rewrite E1, E0. apply in_map_iff in Hx. destruct Hx as (k & <- & Hk).
        apply in_seq in Hk. unfold sample_time. nia. }
      lia.
Qed.

Lemma plot_info_spec s info pts : plot_info s info = Ok pts ->
  map fst pts = info /\
  forall h points i t, In (h, points) pts -> nth_error s i = Some t ->
    exists v, tr_get t h = Some v /\ nth_error points i = Some (v, i + 1).
Proof.
  unfold plot_info. destruct (Nat.ltb 2 (List.length info)); [discriminate|]. intros H.
  apply mapM_ok_Forall2 in H. split.
  - clear -H. induction H as [|h p info pts H1 H2 IH]; [reflexivity|]. simpl. rewrite IH. f_equal.
    destruct (mapM _ s); [|discriminate]. cbn [bind] in H1. now injection H1 as <-.
  - intros h points i t Hin Ht. destruct (Forall2_in_r _ _ _ _ H Hin) as (h' & _ & E).
    destruct (mapM _ s) as [vals|] eqn:V; [|discriminate]. cbn [bind] in E.
    injection E as E1 E2. subst h'. apply mapM_ok_Forall2 in V.
    assert (Hv : exists v, nth_error vals i = Some v /\ tr_get t h = Some v).
    { clear -V Ht. revert i Ht. induction V as [|a b s vals H V IH]; intros i Ht; [destruct i; discriminate|].
      destruct i as [|i]; simpl in *.
      - injection Ht as ->. exists b. split; [reflexivity|]. destruct (tr_get t h); [congruence|discriminate].
      - now apply IH. }
    destruct Hv as (v & Hn & Hg). exists v. split; [exact Hg|]. subst points.
    assert (L : i < List.length s) by (apply nth_error_Some; congruence).
    assert (Hs : nth_error (map S (seq 0 (List.length s))) i = Some (i + 1))
      by (rewrite map_nth_error_seq by exact L; f_equal; lia).
    revert Hn Hs. generalize (map S (seq 0 (List.length s))) (i + 1). clear. intros m k. revert m i.
    induction vals as [|a vals IH]; intros m i H1 H2; [destruct i; discriminate|].
    destruct m as [|b m]; [destruct i; discriminate|]. destruct i as [|i]; simpl in *; [congruence|].
    now apply IH.
Qed.

(** ** plot_profile *)
Lemma mapM_nth {A B} (f : A -> res B) l r i x :
  mapM f l = Ok r -> nth_error l i = Some x -> exists y, f x = Ok y /\ nth_error r i = Some y.
Proof.
  revert r i. induction l as [|a l IH]; intros r i H Hx; [destruct i; discriminate|].
  simpl in H. destruct (f a) as [b|] eqn:E; [|discriminate]. cbn [bind] in H.
  destruct (mapM f l) as [bs|] eqn:Es; [|discriminate]. cbn [bind] in H. injection H as <-.
  destruct i as [|i]; simpl in *.
  - injection Hx as <-. exists b. tauto.
  - now apply IH.
Qed.
Lemma nth_error_combine {A B} (l : list A) (m : list B) i x y :
  nth_error l i = Some x -> nth_error m i = Some y -> nth_error (combine l m) i = Some (x, y).
Proof.
  revert m i. induction l as [|a l IH]; intros m i H1 H2; [destruct i; discriminate|].
  destruct m as [|b m]; [destruct i; discriminate|]. destruct i as [|i]; simpl in *; [congruence|].
  now apply IH.
Qed.

Definition profile_lines (minw max_ scale : Q) (tr : trace) : res (Q * list (option Q) * list Z) :=
  let! pos := num_attr "box_pos" tr in
  let! y := times_rel tr in
  Ok (pos, map (fun d => option_map (fun x => pos + x * minw)%Q (qdiv (scale * d)%Q max_)) (data tr), y).

Lemma profile_main profile scale top p :
  plot_profile profile scale top = Ok (Some p) ->
  exists widths minw poss lo hi max_,
    mapM (num_attr "box_length") profile = Ok widths /\ py_min widths = Ok minw /\
    mapM (num_attr "box_pos") profile = Ok poss /\ py_min poss = Ok lo /\ py_max poss = Ok hi /\
    is_peak (List.concat (map data profile)) max_ /\
    mapM (profile_lines minw max_ scale) profile = Ok (pp_lines p) /\
    pp_xlim p = (lo - Qmax 1 scale * minw, hi + Qmax 1 scale * minw)%Q /\
    match top with
    | None => pp_bars p = None
    | Some tp => tp = "hist" /\ exists height,
        mapM (num_attr "num") profile = Ok height /\
        pp_bars p = Some (map (fun p => let '(x, h, w) := p in bar x h w)
          (combine (combine (map (fun pw => fst pw - snd pw / 2)%Q (combine poss widths)) height) widths))
    end.
Proof.
  unfold plot_profile. destruct profile as [|t0 ts] eqn:Ep; [discriminate|]. rewrite <- Ep in *. clear Ep.
  intros H.
  destruct (mapM (num_attr "box_length") profile) as [widths|] eqn:E1; [|discriminate]. cbn [bind] in H.
  destruct (py_min widths) as [minw|] eqn:E2; [|discriminate]. cbn [bind] in H.
  destruct (mapM (num_attr "box_pos") profile) as [poss|] eqn:E3; [|discriminate]. cbn [bind] in H.
  destruct (py_min poss) as [lo|] eqn:E4; [|discriminate]. cbn [bind] in H.
  destruct (py_max poss) as [hi|] eqn:E5; [|discriminate]. cbn [bind] in H.
  destruct (mapM (fun t => max_abs (data t)) profile) as [maxs|] eqn:E6; [|discriminate]. cbn [bind] in H.
  destruct (py_max maxs) as [max_|] eqn:E7; [|discriminate]. cbn [bind] in H.
  change ((let! lines := mapM (profile_lines minw max_ scale) profile in
    let! bars :=
        (match top with
         | None => Ok None
         | Some tp =>
             if negb (String.eqb tp "hist") then Err NotImplementedError else
             let left := map (fun pw => fst pw - snd pw / 2)%Q (combine poss widths) in
             let! height := mapM (num_attr "num") profile in
             Ok (Some (map (fun p => let '(x, h, w) := p in bar x h w) (combine (combine left height) widths)))
         end) in
      Ok (Some (mkProfilePlot lines (lo - Qmax 1 scale * minw, hi + Qmax 1 scale * minw)%Q bars))) = Ok (Some p)) in H.
  destruct (mapM (profile_lines minw max_ scale) profile) as [lines|] eqn:E8; [|discriminate]. cbn [bind] in H.
  exists widths, minw, poss, lo, hi, max_.
  split; [reflexivity|]. split; [exact E2|]. split; [reflexivity|]. split; [exact E4|]. split; [exact E5|].
  split; [eapply peak_concat; eassumption|].
  destruct top as [tp|].
  - destruct (String.eqb_spec tp "hist") as [->|Ne]; [|discriminate H]. cbn [negb] in H.
    destruct (mapM (num_attr "num") profile) as [height|] eqn:E9; [|discriminate]. cbn [bind] in H.
    injection H as <-. split; [exact E8|]. split; [reflexivity|]. split; [reflexivity|].
    exists height. split; reflexivity.
  - cbn [bind] in H. injection H as <-. split; [exact E8|]. split; reflexivity.
Qed.

Lemma num_attr_spec k t q : num_attr k t = Ok q <-> dget (extra (st t)) k = Some (VNum q).
Proof.
  unfold num_attr. destruct (dget (extra (st t)) k) as [[| | | |]|]; split; intros H; congruence.
Qed.

(** ** stations *)
Lemma dedup_sub {A} (eqb : A -> A -> bool) l x : In x (dedup eqb l) -> In x l.
Proof.
  induction l as [|a l IH]; simpl; [tauto|].
  destruct (existsb (eqb a) (dedup eqb l)); simpl; tauto.
Qed.
Lemma dedup_cover {A} (eqb : A -> A -> bool) l x : (forall a, eqb a a = true) ->
  In x l -> exists y, In y (dedup eqb l) /\ eqb x y = true.
Proof.
  intros R. induction l as [|a l IH]; [contradiction|]. simpl. intros [->|H].
  - destruct (existsb (eqb x) (dedup eqb l)) eqn:E.
    + apply existsb_exists in E. exact E.
    + exists x. split; [now left|apply R].
  - destruct (IH H) as (y & Hy & E). exists y. split; [|exact E].
    destruct (existsb (eqb a) (dedup eqb l)); [exact Hy|now right].
Qed.
Lemma dedup_pairs {A} (eqb : A -> A -> bool) l : ForallOrdPairs (fun a b => eqb a b = false) (dedup eqb l).
Proof.
  induction l as [|a l IH]; simpl; [constructor|].
  destruct (existsb (eqb a) (dedup eqb l)) eqn:E; [exact IH|]. constructor; [|exact IH].
  apply Forall_forall. intros y Hy. destruct (eqb a y) eqn:B; [|reflexivity].
  assert (existsb (eqb a) (dedup eqb l) = true) by (apply existsb_exists; exists y; tauto). congruence.
Qed.
Lemma sta_eqb_spec a b : sta_eqb a b = true <->
  (fst (fst a) == fst (fst b) /\ snd (fst a) == snd (fst b))%Q /\ snd a = snd b.
Proof.
  unfold sta_eqb. rewrite !andb_true_iff, !Qeq_bool_iff, String.eqb_eq. tauto.
Qed.
Lemma Forall2_len {A B} (R : A -> B -> Prop) l m : Forall2 R l m -> List.length l = List.length m.
Proof. induction 1; simpl; congruence. Qed.
