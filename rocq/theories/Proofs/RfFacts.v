From Verif Require Import Model.Rf Spec.TimeSpec Spec.IterSpec Spec.RfSpec Proofs.PyFacts Proofs.IterFacts Proofs.TimeFacts.

Lemma for_locs_ok f ls h : NoDup ls -> (forall l, In l ls -> snd (f (h l)) = Ok tt) ->
  exists h', for_locs f ls h = (h', Ok tt) /\
    (forall l, In l ls -> h' l = fst (f (h l))) /\ (forall l, ~ In l ls -> h' l = h l).
Proof.
  revert h. induction ls as [|l ls IH]; intros h Hnd Hok; cbn [for_locs].
  - exists h. split; [reflexivity|]. split; [intros ? []|reflexivity].
  - inversion Hnd as [|? ? Hn Hnd']; subst. pose proof (Hok l (or_introl eq_refl)) as Ht.
    destruct (f (h l)) as [t r] eqn:Ef. cbn in Ht. subst r.
    destruct (IH (hset h l t) Hnd') as (h' & H1 & H2 & H3).
    { intros l2 Hl2. rewrite hset_ne by (intros ->; contradiction). apply Hok. right; exact Hl2. }
    exists h'. split; [exact H1|]. split.
    + intros l2 [<-|Hl2].
      * rewrite H3 by exact Hn. rewrite hset_eq, Ef. reflexivity.
      * specialize (H2 l2 Hl2). rewrite hset_ne in H2 by (intros ->; contradiction). exact H2.
    + intros l2 Hl2. rewrite H3 by (intros H; apply Hl2; right; exact H).
      apply hset_ne. intros ->. apply Hl2. left; reflexivity.
Qed.
Lemma for_locs_inv f ls h h' : NoDup ls -> for_locs f ls h = (h', Ok tt) -> 
  (forall l, In l ls -> snd (f (h l)) = Ok tt).
Proof.
  revert h. induction ls as [|l ls IH]; intros h Hnd; cbn [for_locs]; [intros _ ? []|].
  inversion Hnd as [|? ? Hn Hnd']; subst.
  destruct (f (h l)) as [t [[]|e]] eqn:Ef; [|discriminate].
  intros H l2 [<-|Hl2]; [rewrite Ef; reflexivity|].
  specialize (IH _ Hnd' H l2 Hl2). rewrite hset_ne in IH by (intros ->; contradiction). exact IH.
Qed.

Lemma for_groups_applied f gs h h' : for_groups f gs h = (h', Ok tt) <-> applied f gs h h'.
Proof.
  split.
  - revert h. induction gs as [|g gs IH]; intros h; cbn [for_groups].
    + intros E. inversion E; subst. constructor.
    + destruct (f g h) as [h1 [[]|e]] eqn:Ef; [|discriminate]. intros E. econstructor; [exact Ef|]. apply IH, E.
  - induction 1; cbn [for_groups]; [reflexivity|]. rewrite H. exact IHapplied.
Qed.

(** ** method *)
Lemma str_in_PS m : str_in m "PS" = true <-> (m = "" \/ m = "P" \/ m = "S" \/ m = "PS").
Proof.
  split.
  - destruct m as [|a [|b [|c m]]]; [tauto| | |];
    unfold str_in, String.prefix; intros H.
    + destruct (ascii_dec a "P") as [->|]; [tauto|]. destruct (ascii_dec a "S") as [->|]; [tauto|]. discriminate.
    + destruct (ascii_dec a "P") as [->|].
      * destruct (ascii_dec b "S") as [->|]; [tauto|]. destruct (ascii_dec "P" "S"); [discriminate|]. discriminate.
      * destruct (ascii_dec a "S"); discriminate.
    + destruct (ascii_dec a "P"); destruct (ascii_dec b "S"); destruct (ascii_dec a "S"); discriminate.
  - intros [->|[->|[->| ->]]]; reflexivity.
Qed.

(** ** mirroring *)
Lemma nth_error_rev {A} (l : list A) i x : nth_error l i = Some x -> nth_error (rev l) (List.length l - S i) = Some x.
Proof.
  intros H. assert (i < List.length l) as Hi by (apply nth_error_Some; congruence).
  rewrite (nth_error_nth' _ x) by (rewrite rev_length; lia).
  rewrite rev_nth by lia. replace (List.length l - S (List.length l - S i)) with i by lia.
  erewrite nth_error_nth; eauto.
Qed.
Lemma mirror_ok t o : onset_of t o -> snd (mirror t) = Ok tt.
Proof. unfold onset_of, mirror. intros ->. reflexivity. Qed.
Lemma mirror_frame t : same_frame (fst (mirror t)) t /\ same_entries_but ["onset"] (fst (mirror t)) t.
Proof.
  unfold mirror. destruct (dget (extra (st t)) "onset") as [[]|] eqn:E; cbn; (split; [unfold same_frame; cbn; tauto|]);
    intros k Hk; cbn; try reflexivity.
  apply dget_dset_ne. intros <-. apply Hk. left; reflexivity.
Qed.
Lemma mirror_mirrored t o : onset_of t o -> mirrored t (fst (mirror t)).
Proof.
  intros Ho. unfold mirrored. unfold onset_of in Ho. 
  exists o, (starttime (st t) + (endtime (set_data t (rev (data t))) - o))%Z.
  unfold mirror. rewrite Ho. cbn [fst]. unfold onset_of. cbn [set_extra set_data st data extra].
  split; [exact Ho|]. split; [apply dget_dset_eq|]. split; [apply rev_length|].
  intros i x Hx. exists (List.length (data t) - S i). split; [apply nth_error_rev, Hx|].
  assert (i < List.length (data t)) as Hi by (apply nth_error_Some; congruence).
  unfold sample_time, endtime, npts. cbn [set_extra set_data st data starttime delta]. rewrite rev_length.
  destruct (Z.eqb_spec (Z.of_nat (List.length (data t))) 0); [lia|].
  rewrite Nat2Z.inj_sub by lia. rewrite Nat2Z.inj_succ. lia.
Qed.
Lemma mirror_twice t o : onset_of t o -> data t <> [] ->
  data (fst (mirror (fst (mirror t)))) = data t /\ onset_of (fst (mirror (fst (mirror t)))) o.
Proof.
  intros Ho Hne.
  set (T := set_extra (set_data t (rev (data t))) "onset" (VTime (starttime (st t) + (endtime (set_data t (rev (data t))) - o)))).
  assert (mirror t = (T, Ok tt)) as E1 by (unfold mirror; rewrite Ho; reflexivity).
  rewrite E1. cbn [fst].
  assert (mirror T = (set_extra (set_data T (rev (data T))) "onset" (VTime (starttime (st T) + (endtime (set_data T (rev (data T))) - 
    (starttime (st t) + (endtime (set_data t (rev (data t))) - o))))), Ok tt)) as E2.
  { unfold mirror. replace (dget (extra (st T)) "onset") with (Some (VTime (starttime (st t) + (endtime (set_data t (rev (data t))) - o)))); [reflexivity|].
    symmetry. apply dget_dset_eq. }
  rewrite E2. cbn [fst]. split; [cbn; apply rev_involutive|].
  unfold onset_of. cbn [set_extra st extra]. rewrite dget_dset_eq. f_equal. f_equal.
  unfold T, endtime, npts. cbn [st data set_data set_extra starttime delta]. rewrite !rev_length.
  destruct (Z.eqb_spec (Z.of_nat (List.length (data t))) 0) as [E|E]; lia.
Qed.

(** ** the last part *)
Lemma stream_phase_ext l1 l2 : Forall2 (fun a b => dget (extra (st a)) "phase" = dget (extra (st b)) "phase") l1 l2 ->
  stream_phase l1 = stream_phase l2.
Proof.
  intros H. unfold stream_phase.
  assert (flat_map (fun t => match dget (extra (st t)) "phase" with
     | Some (VStr p) => [p] | Some _ => ["?"] | None => [] end) l1 =
     flat_map (fun t => match dget (extra (st t)) "phase" with
     | Some (VStr p) => [p] | Some _ => ["?"] | None => [] end) l2) as ->; [|reflexivity].
  induction H; cbn; [reflexivity|]. rewrite H, IHForall2. reflexivity.
Qed.
Lemma stream_phase_const l m : l <> [] -> (forall t, In t l -> dget (extra (st t)) "phase" = Some (VStr m)) ->
  stream_phase l = Some m.
Proof.
  intros Hne H. unfold stream_phase.
  assert (dedup String.eqb (flat_map (fun t => match dget (extra (st t)) "phase" with
     | Some (VStr p) => [p] | Some _ => ["?"] | None => [] end) l) = [m]) as ->; [|reflexivity].
  induction l as [|t l IH]; [congruence|]. cbn. rewrite (H t (or_introl eq_refl)).
  destruct l as [|t2 l]; [reflexivity|]. cbn [app dedup].
  rewrite IH; [|discriminate|intros; apply H; right; assumption]. cbn. rewrite String.eqb_refl. reflexivity.
Qed.
Lemma stream_method_texts l : phases_are_texts l -> exists r, stream_method l = Ok r.
Proof.
  intros H. unfold stream_method. destruct (stream_phase l) as [p|] eqn:E; [|eexists; reflexivity].
  assert (p <> "") as Hp.
  { unfold stream_phase in E.
    destruct (dedup _ _) as [|v [|]] eqn:Ed; try discriminate. inversion E; subst v.
    assert (In p [p]) as Hin by (left; reflexivity). rewrite <- Ed in Hin.
    apply dedup_in in Hin; [|intros; apply String.eqb_eq]. apply in_flat_map in Hin.
    destruct Hin as (t & Ht & Hin). specialize (H t Ht).
    destruct (dget (extra (st t)) "phase") as [[[|a s]| | | |]|]; try contradiction; cbn in Hin; destruct Hin as [<-|[]]; discriminate. }
  destruct (last_char p) as [a|] eqn:El; [eexists; reflexivity|]. exfalso.
  clear -Hp El. induction p as [|a p IH]; [congruence|]. destruct p as [|b p]; cbn in *; [discriminate|].
  apply IH; [discriminate|exact El].
Qed.

Definition finished (m : string) (t t' : trace) : Prop :=
  same_frame t' t /\ same_entries_but ["type"; "phase"] t' t /\ data t' = data t /\
  dget (extra (st t')) "type" = Some (VStr "rf").

Lemma same_frame_refl t : same_frame t t. Proof. unfold same_frame; tauto. Qed.
Lemma same_frame_trans a b c : same_frame a b -> same_frame b c -> same_frame a c.
Proof. unfold same_frame. intuition congruence. Qed.

Lemma tag_phase m ls h : NoDup ls -> m = "P" \/ m = "S" -> phases_are_texts (map h ls) ->
  exists h', (let h2 := fst (for_locs tag_type ls h) in
        match stream_method (map h2 ls) with
        | Err e => (h2, Err e)
        | Ok (Some m') => if String.eqb m' m then (h2, Ok tt) else for_locs (set_phase m) ls h2
        | Ok None => for_locs (set_phase m) ls h2
        end) = (h', Ok tt) /\
    (forall l, In l ls -> finished m (h l) (h' l)) /\ (forall l, ~ In l ls -> h' l = h l) /\
    (ls <> [] -> stream_method (map h' ls) = Ok (Some m)).
Proof.
  intros Hnd Hm Hph.
  destruct (for_locs_ok tag_type ls h Hnd) as (h2 & E2 & H2 & H2n); [reflexivity|].
  rewrite E2. cbn [fst]. cbv zeta.
  assert (stream_phase (map h2 ls) = stream_phase (map h ls)) as Eph.
  { apply stream_phase_ext. clear -H2. induction ls as [|l ls IH]; cbn; constructor.
    - rewrite H2 by (left; reflexivity). cbn [set_extra set_data set_phase tag_type fst st extra data]. apply dget_dset_ne. discriminate.
    - apply IH. intros; apply H2; right; assumption. }
  assert (stream_method (map h2 ls) = stream_method (map h ls)) as Em by (unfold stream_method; rewrite Eph; reflexivity).
  assert (forall l, In l ls -> finished m (h l) (h2 l)) as Hf.
  { intros l Hl. rewrite H2 by exact Hl. unfold finished, tag_type. cbn.
    split; [unfold same_frame; cbn; tauto|]. split; [|split; [reflexivity | apply dget_dset_eq]].
    intros k Hk. cbn [set_extra set_data set_phase tag_type fst st extra data]. apply dget_dset_ne. intros <-. apply Hk. left; reflexivity. }
  destruct (for_locs_ok (set_phase m) ls h2 Hnd) as (h3 & E3 & H3 & H3n); [reflexivity|].
  assert (for_locs (set_phase m) ls h2 = (h3, Ok tt) /\
    (forall l, In l ls -> finished m (h l) (h3 l)) /\ (forall l, ~ In l ls -> h3 l = h l) /\
    (ls <> [] -> stream_method (map h3 ls) = Ok (Some m))) as Hset.
  { split; [exact E3|]. split; [|split].
    - intros l Hl. destruct (Hf l Hl) as (F1 & F2 & F3 & F4).
      rewrite H3 by exact Hl. unfold set_phase. cbn [fst]. unfold finished.
      split; [|split; [|split]].
      + eapply same_frame_trans; [|exact F1]. unfold same_frame; cbn; tauto.
      + intros k Hk. cbn [set_extra set_data set_phase tag_type fst st extra data]. rewrite dget_dset_ne; [apply F2, Hk|]. intros <-. apply Hk. right; left; reflexivity.
      + exact F3.
      + cbn [set_extra set_data set_phase tag_type fst st extra data]. rewrite dget_dset_ne by discriminate. exact F4.
    - intros l Hl. rewrite H3n, H2n by exact Hl. reflexivity.
    - intros Hne. unfold stream_method. rewrite (stream_phase_const _ m).
      + destruct Hm as [-> | ->]; reflexivity.
      + destruct ls; [congruence|discriminate].
      + intros t Ht. apply in_map_iff in Ht. destruct Ht as (l & <- & Hl). rewrite H3 by exact Hl.
        cbn [set_extra set_data set_phase tag_type fst st extra data]. apply dget_dset_eq. }
  rewrite Em. destruct (stream_method_texts _ Hph) as [[m'|] Er]; rewrite Er.
  - destruct (String.eqb_spec m' m) as [->|].
    + exists h2. split; [reflexivity|]. split; [exact Hf|]. split; [exact H2n|].
      intros _. rewrite Em. exact Er.
    + exists h3. exact Hset.
  - exists h3. exact Hset.
Qed.

(** what the last part of rf does *)
Theorem finish_P ls h : NoDup ls -> phases_are_texts (map h ls) ->
  exists h', rf_finish "P" ls h = (h', Ok tt) /\
    (forall l, In l ls -> finished "P" (h l) (h' l)) /\ (forall l, ~ In l ls -> h' l = h l) /\
    (ls <> [] -> stream_method (map h' ls) = Ok (Some "P")).
Proof. intros Hnd Hp. unfold rf_finish. cbn [String.eqb Ascii.eqb Bool.eqb]. apply tag_phase; auto. Qed.
Theorem finish_S ls h : NoDup ls -> phases_are_texts (map h ls) ->
  (forall l, In l ls -> exists o, onset_of (h l) o) ->
  exists h', rf_finish "S" ls h = (h', Ok tt) /\
    (forall l, In l ls -> mirrored (h l) (h' l) /\ same_frame (h' l) (h l) /\
       same_entries_but ["type"; "phase"; "onset"] (h' l) (h l) /\
       dget (extra (st (h' l))) "type" = Some (VStr "rf")) /\
    (forall l, ~ In l ls -> h' l = h l) /\
    (ls <> [] -> stream_method (map h' ls) = Ok (Some "S")).
Proof.
  intros Hnd Hp Ho. unfold rf_finish. cbn [String.eqb Ascii.eqb Bool.eqb].
  destruct (for_locs_ok mirror ls h Hnd) as (h1 & E1 & H1 & H1n).
  { intros l Hl. destruct (Ho l Hl) as [o Hlo]. eapply mirror_ok; eassumption. }
  rewrite E1.
  destruct (tag_phase "S" ls h1 Hnd) as (h' & E & Hf & Hn & Hm); [auto| |].
  { intros t Ht. apply in_map_iff in Ht. destruct Ht as (l & <- & Hl). rewrite H1 by exact Hl.
    destruct (mirror_frame (h l)) as [_ Hen]. rewrite (Hen "phase").
    - apply Hp. apply in_map, Hl.
    - intros [E|[]]. discriminate. }
  exists h'. split; [exact E|]. split; [|split; [|exact Hm]].
  - intros l Hl. destruct (Hf l Hl) as (F1 & F2 & F3 & F4). rewrite H1 in F1, F2, F3 by exact Hl.
    destruct (Ho l Hl) as [o Hlo]. destruct (mirror_frame (h l)) as [M1 M2].
    split; [|split; [|split; [|exact F4]]].
    + destruct (mirror_mirrored (h l) o Hlo) as (o1 & o2 & A & B & C & D).
      exists o1, o2. split; [exact A|]. split.
      { unfold onset_of. rewrite F2; [exact B|]. intros [X|[X|[]]]; discriminate. }
      rewrite F3. split; [exact C|]. intros i x Hx. destruct (D i x Hx) as (j & D1 & D2).
      exists j. split; [exact D1|]. rewrite <- D2. unfold sample_time.
      destruct F1 as (_ & _ & _ & _ & -> & ->). reflexivity.
    + eapply same_frame_trans; eassumption.
    + intros k Hk. rewrite F2, M2; [reflexivity| |].
      * intros [X|[]]. apply Hk. right; right; left; exact X.
      * intros [X|[X|[]]]; apply Hk; [left; exact X | right; left; exact X].
  - intros l Hl. rewrite Hn, H1n by exact Hl. reflexivity.
Qed.

(** ** groups *)
Lemma same_group_sym str_of key a b : same_group str_of key a b -> same_group str_of key b a.
Proof. unfold same_group. intuition. Qed.
Lemma same_group_trans str_of key a b c : same_group str_of key a b -> same_group str_of key b c -> same_group str_of key a c.
Proof. unfold same_group. intuition congruence. Qed.
Lemma filter_ext_iff {A} (p q : A -> bool) l : (forall x, p x = true <-> q x = true) -> filter p l = filter q l.
Proof.
  intros H. apply filter_ext. intros x. specialize (H x). destruct (p x), (q x); try reflexivity.
  - symmetry. apply H. reflexivity.
  - apply H. reflexivity.
Qed.
Lemma SS_filter {A} (R : A -> A -> Prop) p l : StronglySorted R l -> StronglySorted R (filter p l).
Proof.
  induction 1 as [|x l Hs IH Ha]; cbn; [constructor|]. destruct (p x); [|exact IH].
  constructor; [exact IH|]. rewrite Forall_forall in *. intros y Hy. apply filter_In in Hy. apply Ha, Hy.
Qed.
Lemma iter3c_groups str_of ls h : (forall l, In l ls -> exists o, onset_of (h l) o) ->
  exists gs, iter3c str_of ls h = Ok gs /\ groups_2_3 str_of h ls gs.
Proof.
  intros Ho.
  destruct (iter_multiple_spec h str_of (Some "onset") ls) as (gs & E & Hp & Hc & Hs).
  { apply Forall_forall. intros l Hl. destruct (Ho l Hl) as [o Hlo]. unfold has_entry.
    unfold onset_of in Hlo. change (tr_get (h l) "onset") with (dget (extra (st (h l))) "onset"). congruence. }
  unfold iter3c. rewrite (iter_multiple_filter _ _ _ _ (NTuple [2; 3]) _ E).
  eexists. split; [reflexivity|]. split; [|split].
  - intros g Hg. apply filter_In in Hg. destruct Hg as [Hg Hl]. apply existsb_eqb_in in Hl.
    split; [destruct Hl as [|[|[]]]; auto|]. destruct (Hc g Hg) as (x & Hx & p & Hpp & Eg).
    exists x. split; [exact Hx|]. exists p. auto.
  - intros x g Hx (p & Hpp & Eg) Hl. apply filter_In. split.
    + apply (Permutation_in x (Permutation_sym Hp)) in Hx. apply in_concat in Hx.
      destruct Hx as (g' & Hg' & Hx). destruct (Hc g' Hg') as (x' & Hx' & p' & Hpp' & Eg').
      assert (g = g') as ->; [|exact Hg']. rewrite Eg, Eg'. apply filter_ext_iff.
      intros y. rewrite Hpp, Hpp'.
      assert (same_group str_of (Some "onset") (h x') (h x)) as Hxx.
      { rewrite Eg' in Hx. apply filter_In in Hx. apply Hpp'. apply Hx. }
      split; intros H; eapply same_group_trans; try eassumption. apply same_group_sym. exact Hxx.
    + apply existsb_eqb_in. destruct Hl as [->| ->]; cbn; tauto.
  - apply SS_filter, Hs.
Qed.
Theorem group_stage_spec str_of f ls h h' :
  (forall l, In l ls -> exists o, onset_of (h l) o) ->
  group_stage str_of true f ls h = (h', Ok tt) ->
  exists gs, groups_2_3 str_of h ls gs /\ applied f gs h h'.
Proof.
  intros Ho. destruct (iter3c_groups str_of ls h Ho) as (gs & E & Hg). unfold group_stage. rewrite E.
  intros H. exists gs. split; [exact Hg|]. apply for_groups_applied, H.
Qed.

(** ** sign *)
Lemma negate_spec ls h : NoDup ls ->
  (forall l, In l ls -> (endswith_char (channel (st (h l))) "Q" = true -> opposite (h l) (fst (for_locs negate_q ls h) l)) /\
     (endswith_char (channel (st (h l))) "Q" = false -> fst (for_locs negate_q ls h) l = h l)) /\
  (forall l, ~ In l ls -> fst (for_locs negate_q ls h) l = h l).
Proof.
  intros Hnd. destruct (for_locs_ok negate_q ls h Hnd) as (h' & E & H1 & H2); [reflexivity|]. rewrite E. cbn [fst].
  split; [|exact H2]. intros l Hl. rewrite H1 by exact Hl. unfold negate_q. cbn [fst]. split; intros ->.
  - split; [reflexivity|]. cbn. clear. induction (data (h l)); constructor; [reflexivity|assumption].
  - reflexivity.
Qed.

(** ** downsampling *)
Lemma every_nth_nth k s l i : 0 < k -> nth_error (every_nth k s l) i = nth_error l (s + i * k).
Proof.
  intros Hk. revert s i. induction l as [|x l IH]; intros s i; cbn [every_nth].
  - destruct i, (s + _); reflexivity.
  - destruct s as [|s].
    + destruct i as [|i]; [reflexivity|]. cbn [nth_error]. rewrite IH.
      replace (0 + S i * k) with (S (k - 1 + i * k)) by lia. reflexivity.
    + rewrite IH. reflexivity.
Qed.
From Coq Require Import Lqa.
Lemma rate_pos t : (0 < delta (st t))%Z -> (0 < rate t)%Q.
Proof.
  intros H. unfold rate, Qdiv. apply Qmult_lt_0_compat; [reflexivity|]. apply Qinv_lt_0_compat.
  rewrite <- (Zlt_Qlt 0). exact H.
Qed.
Lemma rate_scaled t n s l c x f e d : (0 < delta (st t))%Z -> (0 < f)%Z ->
  (rate (mkTrace (mkStats n s l c x (delta (st t) * f) e) d) * inject_Z f == rate t)%Q.
Proof.
  intros Hd Hf. unfold rate. cbn [st delta]. rewrite inject_Z_mult.
  assert (~ inject_Z (delta (st t)) == 0)%Q by (intros H; change 0%Q with (inject_Z 0) in H; rewrite inject_Z_injective in H; lia).
  assert (~ inject_Z f == 0)%Q by (intros H'; change 0%Q with (inject_Z 0) in H'; rewrite inject_Z_injective in H'; lia).
  field. split; assumption.
Qed.
Lemma inject_Z_lt a b : (inject_Z a < inject_Z b)%Q <-> (a < b)%Z.
Proof. rewrite <- Zlt_Qlt. tauto. Qed.
Lemma inject_Z_le a b : (inject_Z a <= inject_Z b)%Q <-> (a <= b)%Z.
Proof. rewrite <- Zle_Qle. tauto. Qed.

(** the factor for an integer target d <= rate: f*d <= rate < (f+1)*d *)
Lemma factor_bounds d t : (0 < d)%Z -> (inject_Z d <= rate t)%Q ->
  let f := downsample_factor (FInt d) t in
  (1 <= f)%Z /\ (inject_Z (f * d) <= rate t)%Q /\ (rate t < inject_Z ((f + 1) * d))%Q.
Proof.
  intros Hd Hle f. unfold f, downsample_factor. set (r := Qfloor (rate t)).
  assert (d <= r)%Z as Hr. { unfold r. rewrite <- (Qfloor_Z d). apply Qfloor_resp_le, Hle. }
  assert (inject_Z r <= rate t)%Q as H1 by apply Qfloor_le.
  assert (rate t < inject_Z (r + 1))%Q as H2 by apply Qlt_floor.
  pose proof (Z.div_mod r d ltac:(lia)) as Hdm. pose proof (Z.mod_pos_bound r d Hd) as Hb.
  assert (1 <= r / d)%Z by (apply Z.div_le_lower_bound; lia).
  split; [assumption|]. split.
  - eapply Qle_trans; [|exact H1]. apply inject_Z_le. nia.
  - eapply Qlt_le_trans; [exact H2|]. apply inject_Z_le. nia.
Qed.
Lemma downsample_ok lowpass d t : (0 < d)%Z -> (0 < delta (st t))%Z -> (rate t < inject_Z (17 * d))%Q ->
  exists t', downsample_one lowpass (FInt d) t = (t', Ok tt) /\
    ((rate t < inject_Z d)%Q -> t' = t) /\
    ((inject_Z d <= rate t)%Q ->
       (inject_Z d <= rate t')%Q /\ (rate t' < inject_Z (2 * d))%Q /\
       (forall k, (rate t == inject_Z (k * d))%Q -> (rate t' == inject_Z d)%Q) /\
       starttime (st t') = starttime (st t) /\ channel (st t') = channel (st t) /\ extra (st t') = extra (st t) /\
       exists f : nat, 0 < f /\ forall i, nth_error (data t') i = nth_error (lowpass (Z.of_nat f) (data t)) (i * f)).
Proof.
  intros Hd Hdel H17. unfold downsample_one. cbn [freq_q].
  destruct (Qle_bool (inject_Z d) (rate t)) eqn:E.
  - apply Qle_bool_iff in E. destruct (factor_bounds d t Hd E) as (F1 & F2 & F3).
    set (f := downsample_factor (FInt d) t) in *. 
    assert (f <= 16)%Z as F16.
    { assert (inject_Z (f * d) < inject_Z (17 * d))%Q as H by (eapply Qle_lt_trans; eassumption). rewrite inject_Z_lt in H. nia. }
    unfold decimate. destruct (Z.ltb_spec 16 f); [lia|]. destruct (Z.leb_spec f 0); [lia|].
    eexists. split; [reflexivity|]. split; [intros Hc; lra|]. intros _.
    pose proof (rate_scaled t (network (st t)) (station (st t)) (location (st t)) (channel (st t)) (starttime (st t)) f (extra (st t)) (every_nth (Z.to_nat f) 0 (lowpass f (data t))) Hdel ltac:(lia)) as Hs.
    set (r' := rate _) in Hs |- *. 
    assert (0 < inject_Z f)%Q as Hf by (apply (inject_Z_lt 0); lia).
    rewrite inject_Z_mult in F2, F3. rewrite inject_Z_plus in F3. rewrite <- Hs in F2, F3. change (inject_Z 1) with 1%Q in F3.
    split; [|split; [|split; [|split; [|split; [|split]]]]].
    + apply (Qmult_le_r _ _ (inject_Z f) Hf). lra.
    + apply (Qmult_lt_r _ _ (inject_Z f) Hf). 
      assert (inject_Z d <= inject_Z d * inject_Z f)%Q as Hdf.
      { rewrite <- inject_Z_mult. apply inject_Z_le. nia. }
      rewrite inject_Z_mult. change (inject_Z 2) with 2%Q. lra.
    + intros k Hk. assert (f = k) as ->.
      { rewrite <- Hs in Hk.
        assert (inject_Z (f * d) <= inject_Z (k * d))%Q as A by (rewrite inject_Z_mult; lra).
        assert (inject_Z (k * d) < inject_Z ((f + 1) * d))%Q as B by (rewrite (inject_Z_mult (f + 1)), inject_Z_plus; change (inject_Z 1) with 1%Q; lra).
        rewrite inject_Z_le in A. rewrite inject_Z_lt in B. nia. }
      rewrite <- Hs, inject_Z_mult in Hk. 
      assert (r' * inject_Z k == inject_Z d * inject_Z k)%Q as Hk' by (rewrite Hk; ring).
      apply Qmult_inj_r in Hk'; [exact Hk'|]. intros H'. rewrite H' in Hf. apply (Qlt_irrefl 0), Hf.
    + reflexivity.
    + reflexivity.
    + reflexivity.
    + exists (Z.to_nat f). split; [lia|]. intros i. cbn [data]. rewrite every_nth_nth by lia.
      rewrite Z2Nat.id by lia. reflexivity.
  - eexists. split; [reflexivity|]. split; [reflexivity|]. intros H. apply Qle_bool_iff in H. congruence.
Qed.
