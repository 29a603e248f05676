(** Facts about the command data with a local file. *)
From Verif Require Import Model.LocalData Spec.TimeSpec Spec.IterSpec Spec.RfSpec Spec.MemorySpec Spec.LocalSpec Proofs.PyFacts Proofs.IterFacts Proofs.TimeFacts Proofs.RfFacts Proofs.MemoryFacts.
Notation length := List.length.

Lemma filter_seen (p : trace -> bool) (f : loc -> trace) ls : map f (filter (fun l => p (f l)) ls) = filter p (map f ls).
Proof. induction ls as [|l ls IH]; [reflexivity|]. cbn [map filter]. destruct (p (f l)); cbn [map]; rewrite IH; reflexivity. Qed.
Lemma filter_length_le' {A} (p : A -> bool) l : length (filter p l) <= length l.
Proof. induction l as [|x l IH]; cbn [filter length]; [lia|]. destruct (p x); cbn [length]; lia. Qed.
Lemma firstn_seq n a b : n <= b -> firstn n (seq a b) = seq a n.
Proof. revert a b. induction n as [|n IH]; intros a b H; [reflexivity|]. destruct b; [lia|]. cbn [seq firstn]. rewrite IH by lia. reflexivity. Qed.

Lemma mapM_len {A B} (f : A -> res B) l : forall l', mapM f l = Ok l' -> length l' = length l.
Proof.
  induction l as [|x l IH]; intros l' E; cbn [mapM] in E; [inversion E; reflexivity|]. destruct (f x) as [y|]; cbn [bind] in E; [|discriminate]. destruct (mapM f l) as [ys|]; cbn [bind] in E; [|discriminate].
  inversion E; subst. cbn [length]. rewrite (IH ys eq_refl). reflexivity.
Qed.
(** ** slices *)
Lemma oset_list_seq ts : forall a n o, length ts <= n -> map (oset_list o (seq a n) ts) (seq a (length ts)) = ts.
Proof.
  induction ts as [|t ts IH]; intros a n o Hn; [reflexivity|]. cbn [length] in *. destruct n; [lia|]. cbn [seq oset_list map]. f_equal.
  - rewrite oset_list_other by (rewrite in_seq; lia). apply oset_same.
  - apply IH. lia.
Qed.
Lemma mapM_look (f : vtrace -> res vtrace) (g : trace -> res trace) m ls : 
  (forall v, match f v, g (look m v) with Ok v', Ok t => look m v' = t | Err e, Err e' => e = e' | _, _ => False end) ->
  match mapM f ls, mapM g (map (look m) ls) with Ok vs, Ok ts => map (look m) vs = ts | Err e, Err e' => e = e' | _, _ => False end.
Proof.
  intros H. induction ls as [|v ls IH]; cbn [map mapM]; [reflexivity|]. specialize (H v). destruct (f v) as [v'|e], (g (look m v)) as [t|e']; try contradiction; cbn [bind]; [|exact H].
  destruct (mapM f ls) as [vs|e], (mapM g (map (look m) ls)) as [ts|e']; try contradiction; cbn [bind]; [|exact IH]. cbn [map]. rewrite H, IH. reflexivity.
Qed.
Lemma slice_facts a b (sel : list loc) (next : nat) w : (forall l : loc, In l sel -> l < next) ->
  grows (seq next (length sel)) w (fst (v_slice a b sel (seq next (length sel)) w)) /\
  match snd (v_slice a b sel (seq next (length sel)) w), cut_all a b (map (seen w) sel) with
  | Ok ls, Ok ts => map (seen (fst (v_slice a b sel (seq next (length sel)) w))) ls = ts /\ ls = seq next (length ls) /\ length ls <= length sel
  | Err e, Err e' => e = e' | _, _ => False end.
Proof.
  intros Hsel. unfold v_slice, cut_all. pose proof (mapM_look (fun v => cut (w_mem w) v (STime a) (STime b)) (fun t => trim t (STime a) (STime b)) (w_mem w) (map (w_obj w) sel) (fun v => look_cut (w_mem w) v _ _)) as H.
  rewrite map_map in H. change (map (fun x => look (w_mem w) (w_obj w x)) sel) with (map (seen w) sel) in H.
  assert (mapM (fun l => cut (w_mem w) (w_obj w l) (STime a) (STime b)) sel = mapM (fun v => cut (w_mem w) v (STime a) (STime b)) (map (w_obj w) sel)) as Em.
  { clear. induction sel as [|l ls IH]; cbn [map mapM]; [reflexivity|]. rewrite IH. reflexivity. }
  rewrite Em. destruct (mapM (fun v => cut (w_mem w) v (STime a) (STime b)) (map (w_obj w) sel)) as [vs|e] eqn:E, (mapM _ (map (seen w) sel)) as [ts|e']; try contradiction; cbn [fst snd bind]; [|split; [apply grows_refl | exact H]].
  set (us := filter _ vs). assert (length us <= length sel) as Hu.
  { unfold us. eapply Nat.le_trans; [apply filter_length_le'|]. rewrite (mapM_len _ _ _ E), map_length. apply le_n. }
  split.
  - apply (created_views sel (seq next (length sel)) us w). intros t Ht. apply filter_In in Ht. destruct (mapM_in _ _ _ E _ (proj1 Ht)) as (v & Hv & Ec). apply in_map_iff in Hv. destruct Hv as (l & <- & Hl). exists l. split; [exact Hl | eapply cut_part, Ec].
  - rewrite firstn_seq by exact Hu. rewrite seq_length. split; [|split; [reflexivity | exact Hu]].
    unfold seen. cbn [w_mem w_obj]. rewrite <- (map_map (oset_list (w_obj w) (seq next (length sel)) us) (look (w_mem w))). rewrite oset_list_seq by exact Hu. subst ts. unfold us. clear.
    induction vs as [|v vs IH]; [reflexivity|]. cbn [map filter]. destruct (negb _); cbn [map]; rewrite IH; reflexivity.
Qed.

(** ** trim *)
Lemma cut_loop_mem a b ls : forall w, w_mem (fst (v_cut_loop a b ls w)) = w_mem w.
Proof. induction ls as [|l ls IH]; intros w; cbn [v_cut_loop fst]; [reflexivity|]. destruct (cut _ _ _ _); [rewrite IH|]; reflexivity. Qed.
Lemma cut_loop_facts a b ls : forall w, NoDup ls -> grows ls w (fst (v_cut_loop a b ls w)) /\
  match snd (v_cut_loop a b ls w), mapM (fun t => trim t (STime a) (STime b)) (map (seen w) ls) with
  | Ok _, Ok ts => map (seen (fst (v_cut_loop a b ls w))) ls = ts | Err e, Err e' => e = e' | _, _ => False end.
Proof.
  induction ls as [|l ls IH]; intros w Hnd; cbn [v_cut_loop map mapM]; [split; [apply grows_refl | reflexivity]|]. inversion Hnd as [|? ? Hl Hnd']; subst.
  pose proof (look_cut (w_mem w) (w_obj w l) (STime a) (STime b)) as H. change (look (w_mem w) (w_obj w l)) with (seen w l) in H.
  destruct (cut (w_mem w) (w_obj w l) (STime a) (STime b)) as [v|e] eqn:E, (trim (seen w l) (STime a) (STime b)) as [t|e']; try contradiction; cbn [bind fst snd]; [|split; [apply grows_refl | exact H]].
  set (w1 := mkWorld (w_mem w) (oset (w_obj w) l v)). destruct (IH w1 Hnd') as [G F].
  assert (grows [l] w w1) as G1.
  { refine (proj1 (stays_views [l] w (oset (w_obj w) l v) _ _)); [intros l' Hl'; apply oset_other; intros ->; apply Hl'; left; reflexivity|].
    intros l' [<-|[]]. exists l. split; [left; reflexivity|]. rewrite oset_same. eapply cut_part, E. }
  assert (map (seen w1) ls = map (seen w) ls) as Em.
  { apply map_ext_in. intros l' Hl'. unfold seen, w1. cbn [w_mem w_obj]. rewrite oset_other by (intros ->; contradiction). reflexivity. }
  rewrite Em in F. split.
  - eapply grows_trans; [eapply grows_incl; [|exact G1]; intros z [<-|[]]; left; reflexivity | eapply grows_incl; [|exact G]; intros z Hz; right; exact Hz].
  - destruct (v_cut_loop a b ls w1) as [w' [[]|e]] eqn:El, (mapM _ (map (seen w) ls)) as [ts|e']; try contradiction; cbn [fst snd bind] in *; [|exact F]. f_equal; [|exact F].
    assert (w_obj w' l = v) as Eo by (destruct G as (_ & _ & O); rewrite (O l Hl); cbn [w1 w_obj]; apply oset_same).
    pose proof (cut_loop_mem a b ls w1) as Eme. rewrite El in Eme. cbn [fst w1 w_mem] in Eme. unfold seen. rewrite Eo, Eme. exact H.
Qed.

Lemma stream_trim_facts a b ls w : NoDup ls -> grows ls w (fst (v_stream_trim a b ls w)) /\
  match snd (v_stream_trim a b ls w), (match map (seen w) ls with [] => Ok [] | t0 :: _ => cut_all (snap_start t0 a) (snap_end t0 b) (map (seen w) ls) end) with
  | Ok ls', Ok ts => map (seen (fst (v_stream_trim a b ls w))) ls' = ts /\ incl ls' ls /\ NoDup ls' | Err e, Err e' => e = e' | _, _ => False end.
Proof.
  intros Hnd. unfold v_stream_trim. destruct ls as [|l0 ls]; [split; [apply grows_refl | split; [reflexivity | split; [apply incl_refl | constructor]]]|].
  change (map (seen w) (l0 :: ls)) with (seen w l0 :: map (seen w) ls). cbv iota. change (seen w l0 :: map (seen w) ls) with (map (seen w) (l0 :: ls)).
  destruct (cut_loop_facts (snap_start (seen w l0) a) (snap_end (seen w l0) b) (l0 :: ls) w Hnd) as [G F]. unfold cut_all.
  destruct (v_cut_loop _ _ (l0 :: ls) w) as [w' [[]|e]], (mapM _ (map (seen w) (l0 :: ls))) as [ts|e']; try contradiction; cbn [fst snd bind] in *; (split; [exact G|]); [|exact F].
  split; [rewrite <- F; apply (filter_seen (fun t => negb (npts t =? 0)%Z))|]. split; [intros z Hz; apply filter_In in Hz; apply Hz | apply NoDup_filter, Hnd].
Qed.

(** ** merge *)
Lemma merge_facts p (ls : list loc) : forall (next : nat) w, allocated w -> (forall l : loc, In l ls -> l < next) -> NoDup ls -> NoDup (kept p) ->
  let r := v_merge p ls next w in
  grows (seq next (length p)) w (fst r) /\
  map (fun x => (seen (fst r) (fst x), snd x)) (snd r) = merged p (map (seen w) ls) /\
  NoDup (map fst (snd r)) /\ (forall l, In l (map fst (snd r)) -> (exists i, In i (kept p) /\ nth_error ls i = Some l) \/ next <= l < next + length p).
Proof.
  induction p as [|[i|[t m]] p IH]; intros next w Ha Hlt Hnd Hk; cbn [v_merge merged kept length].
  - split; [apply grows_refl|]. split; [reflexivity|]. split; [constructor | intros l []].
  - inversion Hk as [|? ? Hi Hk']; subst. destruct (IH next w Ha Hlt Hnd Hk') as (G & V & N & I). destruct (v_merge p ls next w) as [w' r]. cbn [fst snd] in *.
    split; [eapply grows_incl; [|exact G]; intros z Hz; apply in_seq in Hz; apply in_seq; lia|].
    rewrite nth_error_map. destruct (nth_error ls i) as [l|] eqn:E; cbn [option_map].
    + assert (l < next) as Hl by (apply Hlt; eapply nth_error_In, E). split; [|split].
      * cbn [map fst snd]. f_equal; [|exact V]. f_equal. apply (grows_seen _ _ _ _ Ha G). rewrite in_seq. lia.
      * cbn [map fst]. constructor; [|exact N]. intros H. destruct (I l H) as [(j & Hj & Ej)|H']; [|lia]. apply Hi. replace i with j; [exact Hj|].
        apply (proj1 (NoDup_nth_error ls) Hnd); [apply nth_error_Some; congruence | congruence].
      * cbn [map fst]. intros l' [<-|H]; [left; exists i; split; [left; reflexivity | exact E]|]. destruct (I l' H) as [(j & Hj & Ej)|H']; [left; exists j; split; [right; exact Hj | exact Ej] | right; lia].
    + split; [exact V|]. split; [exact N|]. intros l H. destruct (I l H) as [(j & Hj & Ej)|H']; [left; exists j; split; [right; exact Hj | exact Ej] | right; lia].
  - assert (forall l, In l ls -> l < S next) as Hlt' by (intros l Hl; specialize (Hlt l Hl); lia).
    destruct (IH (S next) (assign w next t) (allocated_assign w next t Ha) Hlt' Hnd Hk) as (G & V & N & I). destruct (v_merge p ls (S next) (assign w next t)) as [w' r]. cbn [fst snd] in *.
    assert (map (seen (assign w next t)) ls = map (seen w) ls) as Em.
    { apply map_ext_in. intros l Hl. rewrite seen_assign by exact Ha. destruct (Nat.eqb_spec l next) as [->|_]; [specialize (Hlt next Hl); lia | reflexivity]. }
    rewrite Em in V. split; [|split; [|split]].
    + eapply grows_trans; [apply (grows_assign _ w next t); apply in_seq; lia | eapply grows_incl; [|exact G]; intros z Hz; apply in_seq in Hz; apply in_seq; lia].
    + cbn [map fst snd]. f_equal; [|exact V]. f_equal. rewrite (grows_seen _ _ _ _ (allocated_assign w next t Ha) G) by (rewrite in_seq; lia). rewrite seen_assign by exact Ha. rewrite Nat.eqb_refl. reflexivity.
    + cbn [map fst]. constructor; [|exact N]. intros H. destruct (I next H) as [(j & _ & Ej)|H']; [|lia]. specialize (Hlt next (nth_error_In _ _ Ej)). lia.
    + cbn [map fst]. intros l [<-|H]; [right; lia|]. destruct (I l H) as [H'|H']; [left; exact H' | right; lia].
Qed.
Lemma fold_update_seen (d : dict value) ls : forall w, NoDup ls -> forall l, seen (fold_left (fun w l => restat w l (update_stats (v_st (w_obj w l)) d)) ls w) l =
  if in_dec Nat.eq_dec l ls then mkTrace (update_stats (st (seen w l)) d) (data (seen w l)) else seen w l.
Proof. intros w Hnd l. exact (fold_mark_seen (fun s => update_stats s d) ls w Hnd l). Qed.

(** ** one event and station *)
Lemma local_stream_facts merge (file : list loc) it w (next : nat) : merges merge -> allocated w -> (forall l : loc, In l file -> l < next) ->
  let '(w', n, r) := local_stream merge file it w next in
  next <= n /\ grows (seq next (n - next)) w w' /\
  match r, event_stream merge (map (seen w) file) it with
  | Ok None, Ok None => True
  | Ok (Some ls), Ok (Some ts) => map (seen w') ls = ts /\ NoDup ls /\ (forall l, In l ls -> next <= l < n)
  | Err e, Err e' => e = e'
  | _, _ => False
  end.
Proof.
  intros Hm Ha Hf. unfold local_stream, event_stream. set (sel := filter (fun l => selects (i_req it) (seen w l)) file).
  assert (map (seen w) sel = filter (selects (i_req it)) (map (seen w) file)) as Es by apply filter_seen. rewrite <- Es.
  assert (forall l, In l sel -> l < next) as Hs by (intros l Hl; apply filter_In in Hl; apply Hf, Hl).
  destruct (slice_facts (q_start (i_req it)) (q_end (i_req it)) sel next w Hs) as [G1 F1].
  destruct (v_slice _ _ sel _ w) as [w1 [ls|e]], (cut_all _ _ (map (seen w) sel)) as [l1|e']; try contradiction; cbn [fst snd] in *.
  2:{ subst e'. split; [lia|]. replace (next + length sel - next) with (length sel) by lia. split; [exact G1 | reflexivity]. }
  destruct F1 as (V1 & L1 & N1). assert (NoDup ls) as Nd1 by (rewrite L1; apply seq_NoDup).
  assert (incl ls (seq next (length sel))) as I1 by (rewrite L1; intros z Hz; apply in_seq in Hz; apply in_seq; lia).
  assert (allocated w1) as A1 by (apply G1, Ha).
  destruct (stream_trim_facts (i_start it) (i_stop it) ls w1 Nd1) as [G2 F2]. rewrite V1 in F2.
  destruct (v_stream_trim _ _ ls w1) as [w2 [ls2|e]], (match l1 with [] => _ | _ => _ end) as [l2|e']; try contradiction; cbn [fst snd bind] in *.
  2:{ split; [lia|]. replace (next + length sel - next) with (length sel) by lia. split; [eapply grows_trans; [exact G1 | eapply grows_incl; [exact I1 | exact G2]] | exact F2]. }
  destruct F2 as (V2 & I2 & Nd2). assert (allocated w2) as A2 by (apply G2, A1). rewrite V2.
  assert (forall l, In l ls2 -> next <= l < next + length sel) as R2 by (intros l Hl; apply I2, I1, in_seq in Hl; exact Hl).
  destruct (merge_facts (merge l2) ls2 (next + length sel) w2 A2 (fun l Hl => proj2 (R2 l Hl)) Nd2 (Hm l2)) as (G3 & V3 & Nd3 & I3). rewrite V2 in V3.
  destruct (v_merge (merge l2) ls2 (next + length sel) w2) as [w3 ms]. cbn [fst snd] in *. set (n2 := next + length sel + length (merge l2)) in *.
  assert (length ms = length (merged (merge l2) l2)) as Lm by (rewrite <- V3, map_length; reflexivity).
  assert (existsb snd ms = existsb snd (merged (merge l2) l2)) as Ex by (rewrite <- V3; clear; induction ms as [|x ms IH]; [reflexivity | cbn [map existsb snd]; rewrite IH; reflexivity]).
  assert (grows (seq next (n2 - next)) w w3) as G03.
  { eapply grows_trans; [eapply grows_incl; [|exact G1]; intros z Hz; apply in_seq in Hz; apply in_seq; unfold n2; lia|].
    eapply grows_trans; [eapply grows_incl; [|exact G2]; intros z Hz; apply I1, in_seq in Hz; apply in_seq; unfold n2; lia|].
    eapply grows_incl; [|exact G3]. intros z Hz. apply in_seq in Hz. apply in_seq. unfold n2. lia. }
  rewrite <- Lm, <- Ex. destruct (length ms =? 3) eqn:E3; cbn [negb andb]; [|split; [unfold n2; lia | split; [exact G03 | exact I]]].
  destruct (existsb snd ms) eqn:Eb; cbn [negb]; [split; [unfold n2; lia | split; [exact G03 | exact I]]|].
  apply Nat.eqb_eq in E3. set (ls3 := map fst ms) in *. set (w4 := fold_left _ ls3 w3).
  assert (forall l, In l ls3 -> next <= l < n2) as R3.
  { intros l Hl. destruct (I3 l Hl) as [(i & _ & Ei)|H]; [apply nth_error_In in Ei; specialize (R2 l Ei); unfold n2; lia | unfold n2; lia]. }
  assert (grows ls3 w3 w4) as G4 by (apply (grows_fold_restat (fun w l => update_stats (v_st (w_obj w l)) (i_stats it)) ls3 ls3 w3 (incl_refl _))).
  cbn [v_init]. rewrite (map_length fst ms : length ls3 = length ms), E3. cbn [firstn seq bind].
  change (seq n2 3) with [n2; S n2; S (S n2)]. cbn [firstn bind].
  destruct (created_init ls3 (seq n2 3) w4) as (G5 & _). cbn [v_init fst] in G5.
  split; [unfold n2; lia|]. split.
  { eapply grows_trans; [eapply grows_incl; [|exact G03]; intros z Hz; apply in_seq in Hz; apply in_seq; lia|].
    eapply grows_trans; [eapply grows_incl; [|exact G4]; intros z Hz; apply R3 in Hz; apply in_seq; lia|].
    eapply grows_incl; [|exact G5]. intros z Hz. apply in_seq in Hz. apply in_seq. lia. }
  split; [|split; [apply (seq_NoDup 3 n2) | intros l Hl; apply (in_seq 3 n2) in Hl; unfold n2 in *; lia]].
  assert (map (oset_list (w_obj w4) (seq n2 3) (map (w_obj w4) ls3)) (seq n2 3) = map (w_obj w4) ls3) as Eo.
  { assert (length (map (w_obj w4) ls3) = 3) as El by (rewrite map_length; unfold ls3; rewrite map_length; exact E3). rewrite <- El at 2. apply oset_list_seq. lia. }
  change [n2; S n2; S (S n2)] with (seq n2 3). unfold seen at 1. cbn [w_mem w_obj]. rewrite <- (map_map (oset_list (w_obj w4) (seq n2 3) (map (w_obj w4) ls3)) (look (w_mem w4))). rewrite Eo, map_map.
  change (map (fun x => look (w_mem w4) (w_obj w4 x)) ls3) with (map (seen w4) ls3). rewrite <- V3, map_map. cbn [fst]. unfold ls3 at 1. rewrite map_map. apply map_ext_in. intros x Hx. unfold w4. rewrite fold_update_seen by exact Nd3.
  destruct (in_dec Nat.eq_dec (fst x) ls3) as [_|Hn]; [reflexivity | exfalso; apply Hn, in_map, Hx].
Qed.

Lemma together_groups str_of (h : heap) (ls : list loc) : together str_of (map h ls) -> iter_multiple h str_of ls (Some "onset") (NTuple [2; 3]) = Ok [ls].
Proof.
  intros (Hl & He & Hg). rewrite map_length in Hl.
  assert (Forall (fun x => has_entry (Some "onset") (h x)) ls) as Hf by (apply Forall_forall; intros x Hx; apply He, in_map, Hx).
  destruct (iter_multiple_spec h str_of (Some "onset") ls Hf) as (gs & E & Hp & Hc & _). rewrite (iter_multiple_filter h str_of (Some "onset") ls _ gs E).
  assert (forall g, In g gs -> g = ls) as Hgs.
  { intros g Hgi. destruct (Hc g Hgi) as (x & Hx & p & Hpx & Eg). rewrite Eg. assert (In x ls) as Hxl by (rewrite Eg in Hx; apply filter_In in Hx; apply Hx). clear - Hpx Hg Hxl.
    assert (forall y, In y ls -> p y = true) as Hy by (intros y Hy; apply Hpx, Hg; apply in_map; assumption). clear - Hy. induction ls as [|y ls IH]; [reflexivity|]. cbn [filter]. rewrite (Hy y (or_introl eq_refl)). f_equal. apply IH. intros z Hz. apply Hy. right. exact Hz. }
  assert (gs = [ls]) as ->.
  { pose proof (Permutation_length Hp) as Hlen. destruct gs as [|g [|g' gs]].
    - cbn in Hlen. rewrite Hl in Hlen. discriminate.
    - rewrite (Hgs g (or_introl eq_refl)). reflexivity.
    - exfalso. cbn [List.concat] in Hlen. rewrite !app_length in Hlen. rewrite (Hgs g (or_introl eq_refl)), (Hgs g' (or_intror (or_introl eq_refl))) in Hlen. lia. }
  cbn [filter]. unfold n_matches. rewrite Hl. reflexivity.
Qed.

Section Local.
  Variable str_of : value -> string.
  Variable filt : act.
  Variable lowpass : Z -> list Q -> list Q.
  Variable rot : list loc -> heap -> heap * res unit.
  Variable rot_new : list loc -> list loc.
  Variable dec : string -> list loc -> heap -> heap * res unit.
  Variable dec_new : list loc -> list loc.
  Variable mo : trace -> res (list Q).
  Variable mark : stats -> stats.
  Variable merge : list trace -> plan.
  Hypothesis Hrot : group_method rot rot_new.
  Hypothesis Hdec : forall m, group_method (dec m) dec_new.
  Hypothesis Hmo : keeps_length mo.
  Hypothesis Hmerge : merges merge.
  Notation cmd := (v_commands str_of filt lowpass rot rot_new dec dec_new mo mark).
  Notation run := (local_run str_of filt lowpass rot rot_new dec dec_new mo mark merge).
  Definition safe (E : loc -> Prop) (w w' : world) : Prop := allocated w' /\ forall l, E l -> seen w' l = seen w l.

  Lemma commands_plain E cmds : forall ls w, Forall (fun c => c <> CMoveout) cmds -> allocated w -> (forall l, In l ls -> ~ E l) -> safe E w (fst (cmd cmds ls w)).
  Proof.
    induction cmds as [|c cmds IH]; intros ls w Hc Ha Hd; cbn [v_commands fst]; [split; auto|]. inversion Hc as [|? ? Hc1 Hc2]; subst. destruct c as [|a|]; [apply IH; assumption | | congruence].
    destruct (stays_rf str_of filt lowpass rot rot_new dec dec_new Hrot Hdec ls a ls w (incl_refl _)) as [[G _] I].
    assert (safe E w (fst (v_rf str_of filt lowpass rot rot_new dec dec_new a ls w))) as [A F] by (split; [apply G, Ha | intros l HE; apply (grows_seen _ _ _ _ Ha G); intros H; exact (Hd l H HE)]).
    destruct (v_rf str_of filt lowpass rot rot_new dec dec_new a ls w) as [w1 [ls1|e]]; cbn [fst snd returned] in *; [|split; assumption].
    destruct (IH ls1 w1 Hc2 A) as [A2 F2]; [intros l Hl; apply Hd, I, Hl|]. split; [exact A2|]. intros l HE. rewrite F2, F by exact HE. reflexivity.
  Qed.
  Lemma commands_apart E S cmds : forall ls w, allocated w -> apart w S E -> incl ls S -> safe E w (fst (cmd cmds ls w)).
  Proof.
    induction cmds as [|c cmds IH]; intros ls w Ha Hp Hi; cbn [v_commands fst]; [split; auto|]. destruct c as [|a|]; [apply IH; assumption | |].
    - destruct (call_apart str_of filt lowpass rot rot_new dec dec_new mo mark Hrot Hdec Hmo (KRf a ls) w S E Ha Hp Hi) as (A & P & F); [intros l []|]. cbn [do_call] in A, P, F.
      destruct (stays_rf str_of filt lowpass rot rot_new dec dec_new Hrot Hdec S a ls w Hi) as [_ I].
      destruct (v_rf str_of filt lowpass rot rot_new dec dec_new a ls w) as [w1 [ls1|e]]; cbn [fst snd returned] in *; [|split; assumption].
      destruct (IH ls1 w1 A) as [A2 F2]; [intros l l' Hl; apply P, in_or_app; right; exact Hl | intros l Hl; apply Hi, I, Hl|]. split; [exact A2|]. intros l HE. rewrite F2, F by exact HE. reflexivity.
    - destruct (call_apart str_of filt lowpass rot rot_new dec dec_new mo mark Hrot Hdec Hmo (KMoveout ls) w S E Ha Hp Hi) as (A & P & F); [intros l []|]. cbn [do_call] in A, P, F.
      destruct (v_moveout mo mark ls w) as [w1 [[]|e]]; cbn [fst snd returned bind] in *; [|split; assumption].
      destruct (IH ls w1 A) as [A2 F2]; [intros l l' Hl; apply P, in_or_app; right; exact Hl | exact Hi|]. split; [exact A2|]. intros l HE. rewrite F2, F by exact HE. reflexivity.
  Qed.
  Lemma commands_careful E cmds ls w : careful ((forall g, length g = 3 -> incl g (rot_new g)) /\ together str_of (map (seen w) ls)) cmds ->
    allocated w -> (forall l, In l ls -> ~ E l) -> safe E w (fst (cmd cmds ls w)).
  Proof.
    intros Hc Ha Hd. destruct Hc as [Hc|(k & a & cs & -> & Hr)]; [apply commands_plain; assumption|].
    induction k as [|k IH]; [|cbn [repeat app v_commands]; exact IH]. cbn [repeat app v_commands].
    destruct (rf_method a (map (seen w) ls)) as [m|e] eqn:Em.
    2:{ unfold v_rf. rewrite Em. split; [exact Ha | reflexivity]. }
    assert (allocated (fst (v_rf str_of filt lowpass rot rot_new dec dec_new a ls w)) /\ apart (fst (v_rf str_of filt lowpass rot rot_new dec dec_new a ls w)) ls E /\ forall l, E l -> seen (fst (v_rf str_of filt lowpass rot rot_new dec dec_new a ls w)) l = seen w l) as (A & P & F).
    { destruct Hr as [Hf|(Hf & Ht & Hds & Hro & Hn & Htg)].
      - apply rf_filter_apart; try assumption. exists m. exact Em.
      - eapply rf_rotate_apart; try eassumption; [exists m; exact Em | apply (together_groups str_of (seen w) ls Htg)|].
        cbn [flat_map]. rewrite app_nil_r. apply Hn. destruct Htg as (Hl & _). rewrite map_length in Hl. exact Hl. }
    destruct (stays_rf str_of filt lowpass rot rot_new dec dec_new Hrot Hdec ls a ls w (incl_refl _)) as [_ I].
    destruct (v_rf str_of filt lowpass rot rot_new dec dec_new a ls w) as [w1 [ls1|e]]; cbn [fst snd returned] in *; [|split; assumption].
    destruct (commands_apart E ls cs ls1 w1 A P I) as [A2 F2]. split; [exact A2|]. intros l HE. rewrite F2, F by exact HE. reflexivity.
  Qed.
  Lemma careful_mono (P R : Prop) cmds : (P -> R) -> careful P cmds -> careful R cmds.
  Proof.
    intros H [Hc|(k & a & cs & E & Hr)]; [left; exact Hc|]. right. exists k, a, cs. split; [exact E|]. destruct Hr as [Hf|(H1 & H2 & H3 & H4 & H5)]; [left; exact Hf | right; auto 10].
  Qed.
  Lemma local_run_facts cmds (file : list loc) items : forall w (next : nat), allocated w -> (forall l : loc, In l file -> l < next) ->
    careful ((forall g, length g = 3 -> incl g (rot_new g)) /\ Forall (together str_of) (event_streams merge (map (seen w) file) items)) cmds ->
    (exists rest, event_streams merge (map (seen w) file) items = fst (fst (run cmds file items w next)) ++ rest) /\
    (snd (run cmds file items w next) = None -> event_streams merge (map (seen w) file) items = fst (fst (run cmds file items w next))).
  Proof.
    induction items as [|it items IH]; intros w next Ha Hf Hc; cbn [local_run event_streams]; [split; [exists []; reflexivity | reflexivity]|].
    pose proof (local_stream_facts merge file it w next Hmerge Ha Hf) as H. cbn [event_streams] in Hc.
    destruct (local_stream merge file it w next) as [[w1 n1] r]. destruct H as (Hn & G & V). assert (allocated w1) as A1 by (apply G, Ha).
    assert (forall l : loc, In l file -> l < n1) as Hf1 by (intros l Hl; specialize (Hf l Hl); lia).
    assert (map (seen w1) file = map (seen w) file) as Em1 by (apply map_ext_in; intros l Hl; apply (grows_seen _ _ _ _ Ha G); rewrite in_seq; specialize (Hf l Hl); lia).
    destruct r as [[ls|]|e], (event_stream merge (map (seen w) file) it) as [[ts|]|e']; try contradiction.
    - destruct V as (V & Nd & R).
      assert (safe (fun l => In l file) w1 (fst (cmd cmds ls w1))) as [A2 F2].
      { apply commands_careful; [|exact A1 | intros l Hl Hlf; specialize (R l Hl); specialize (Hf l Hlf); lia].
        eapply careful_mono; [|exact Hc]. intros [H1 H2]. split; [exact H1|]. rewrite V. inversion H2. assumption. }
      destruct (cmd cmds ls w1) as [w2 [ls'|e]]; cbn [fst] in *; [|cbn [fst snd]; rewrite V; split; [eexists; reflexivity | discriminate]].
      assert (map (seen w2) file = map (seen w) file) as Em2 by (rewrite <- Em1; apply map_ext_in; intros l Hl; apply F2, Hl).
      destruct (IH w2 n1 A2 Hf1) as [I1 I2]; [rewrite Em2; eapply careful_mono; [|exact Hc]; intros [H1 H2]; split; [exact H1 | inversion H2; assumption]|].
      rewrite Em2 in I1, I2. destruct (run cmds file items w2 n1) as [[ys ws] e]. cbn [fst snd] in *. rewrite V. split.
      + destruct I1 as [rest ->]. exists rest. reflexivity.
      + intros He. rewrite (I2 He). reflexivity.
    - rewrite <- Em1. apply IH; [exact A1 | exact Hf1 | rewrite Em1; exact Hc].
    - cbn [fst snd]. split; [exists []; reflexivity | reflexivity].
  Qed.
  (** without commands the streams are written as they are *)
  Lemma local_run_data k (file : list loc) items : forall w (next : nat), fst (fst (run (repeat CData k) file items w next)) = snd (fst (run (repeat CData k) file items w next)).
  Proof.
    assert (forall ls w, cmd (repeat CData k) ls w = (w, Ok ls)) as Hc by (intros ls w; induction k as [|k' IH]; [reflexivity | exact IH]).
    induction items as [|it items IH]; intros w next; [reflexivity|]. cbn [local_run]. destruct (local_stream merge file it w next) as [[w1 n1] [[ls|]|e]]; [|apply IH | reflexivity].
    rewrite Hc. specialize (IH w1 n1). destruct (run (repeat CData k) file items w1 n1) as [[ys ws] e]. cbn [fst snd] in *. rewrite IH. reflexivity.
  Qed.
End Local.
