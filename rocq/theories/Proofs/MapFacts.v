(** Maps. *)
From Verif Require Import Model.Maps Spec.MapSpec Proofs.PyFacts Proofs.ImagingFacts.
From Coq Require Import Lqa.
Notation length := List.length.

(** * Medians *)
Lemma filter_perm {A} (f : A -> bool) l m : Permutation l m -> Permutation (filter f l) (filter f m).
Proof.
  intros H. induction H as [|x l m H IH|x y l|l m n _ IH1 _ IH2]; cbn [filter]; [constructor | destruct (f x); [constructor|]; exact IH | | eapply perm_trans; eassumption].
  destruct (f x), (f y); try apply Permutation_refl. apply perm_swap.
Qed.
Definition sortedQ := StronglySorted (fun a b : Q => Qle_bool a b = true).
Lemma sortQ l : sortedQ (sort Qle_bool l).
Proof.
  apply sort_sorted.
  - intros a b. rewrite !Qle_bool_iff. destruct (Qlt_le_dec a b); [left; lra | right; exact q].
  - intros a b c. rewrite !Qle_bool_iff. lra.
Qed.
Lemma sorted_nth (s : list Q) i j : sortedQ s -> i <= j < length s -> (nth i s 0 <= nth j s 0)%Q.
Proof.
  intros H. revert i j. induction H as [|x s Hs IH Hf]; intros i j Hij; [cbn in Hij; lia|]. destruct i as [|i], j as [|j]; cbn [nth length] in *; try lia; try lra.
  - rewrite Forall_forall in Hf. apply Qle_bool_iff, Hf, nth_In. lia.
  - apply IH. lia.
Qed.
(** the numbers on one side of a number *)
Lemma below_count (s : list Q) (m : Q) k : sortedQ s -> (forall i, k <= i < length s -> (m <= nth i s 0)%Q) -> length (filter (fun x => negb (Qle_bool m x)) s) <= k.
Proof.
  intros Hs H. revert k H. induction s as [|x s IH]; intros k H; [cbn; lia|]. inversion Hs as [|? ? Hs' Hf]; subst. cbn [filter].
  destruct k as [|k].
  - assert (m <= x)%Q as Hx by (apply (H 0); cbn [length]; lia). apply Qle_bool_iff in Hx. rewrite Hx. cbn [negb]. apply IH; [exact Hs'|]. intros i Hi. apply (H (S i)). cbn [length]. lia.
  - assert (length (filter (fun x => negb (Qle_bool m x)) s) <= k) as IH' by (apply IH; [exact Hs'|]; intros i Hi; apply (H (S i)); cbn [length]; lia).
    destruct (negb (Qle_bool m x)); cbn [length]; lia.
Qed.
Lemma above_count (s : list Q) (m : Q) k : (forall i, i < k -> i < length s -> (nth i s 0 <= m)%Q) -> length (filter (fun x => negb (Qle_bool x m)) s) <= length s - k.
Proof.
  revert k. induction s as [|x s IH]; intros k H; [cbn; lia|]. cbn [filter length]. destruct k as [|k].
  - assert (length (filter (fun x => negb (Qle_bool x m)) s) <= length s - 0) by (apply IH; lia). destruct (negb (Qle_bool x m)); cbn [length]; lia.
  - assert (x <= m)%Q as Hx by (apply (H 0); cbn [length]; lia). apply Qle_bool_iff in Hx. rewrite Hx. cbn [negb]. change (S (length s) - S k) with (length s - k). apply IH.
    intros i Hi Hl. apply (H (S i)); cbn [length]; lia.
Qed.
Lemma median_middle l : l <> [] -> exists m, np_median l = Ok m /\ middle l m.
Proof.
  intros Hne. unfold np_median. pose proof (sort_perm Qle_bool l) as P. pose proof (sortQ l) as Hs. set (s := sort Qle_bool l) in *. pose proof (Permutation_length P) as Hl.
  destruct (length l) as [|n] eqn:En; [destruct l; [congruence | discriminate En]|]. rewrite <- En in *. clear Hne.
  assert (forall m, 2 * length (filter (fun x => negb (Qle_bool m x)) s) <= length s -> 2 * length (filter (fun x => negb (Qle_bool x m)) s) <= length s -> middle l m) as Hm.
  { intros m H1 H2. unfold middle. rewrite <- (Permutation_length (filter_perm _ _ _ P)), <- (Permutation_length (filter_perm (fun x => negb (Qle_bool x m)) _ _ P)), <- Hl. auto. }
  pose proof (Nat.div_mod (length l) 2 ltac:(lia)) as Hd. pose proof (Nat.mod_upper_bound (length l) 2 ltac:(lia)) as Hmod.
  destruct (Nat.even (length l)) eqn:Ee.
  - apply Nat.even_spec in Ee. destruct Ee as [h Eh]. assert (length l / 2 = h) as -> by (rewrite Eh, Nat.mul_comm; apply Nat.div_mul; lia).
    eexists. split; [reflexivity|]. assert (nth (h - 1) s 0 <= nth h s 0)%Q as Hlo by (apply sorted_nth; [exact Hs | lia]).
    set (a := nth (h - 1) s 0%Q) in *. set (b := nth h s 0%Q) in *. assert (a <= (a + b) / 2 /\ (a + b) / 2 <= b)%Q as [Ha Hb].
    { assert ((a + b) / 2 == (a + b) * (1 # 2))%Q as E by field. rewrite E. lra. }
    apply Hm.
    + assert (length (filter (fun x => negb (Qle_bool ((a + b) / 2) x)) s) <= h); [|lia]. apply below_count; [exact Hs|]. intros i Hi. assert (b <= nth i s 0)%Q by (apply sorted_nth; [exact Hs | lia]). lra.
    + assert (length (filter (fun x => negb (Qle_bool x ((a + b) / 2))) s) <= length s - h); [|lia]. apply above_count. intros i Hi Hil. assert (nth i s 0 <= a)%Q by (apply sorted_nth; [exact Hs | lia]). lra.
  - eexists. split; [reflexivity|]. set (h := length l / 2) in *. assert (length l = 2 * h + 1) as Eh.
    { destruct (Nat.eq_dec (length l mod 2) 0) as [E|E]; [|lia]. assert (Nat.even (length l) = true) by (apply Nat.even_spec; exists h; lia). congruence. }
    apply Hm.
    + assert (length (filter (fun x => negb (Qle_bool (nth h s 0%Q) x)) s) <= h); [|lia]. apply below_count; [exact Hs|]. intros i Hi. apply sorted_nth; [exact Hs | lia].
    + assert (length (filter (fun x => negb (Qle_bool x (nth h s 0%Q))) s) <= length s - (h + 1)); [|lia]. apply above_count. intros i Hi Hil. apply sorted_nth; [exact Hs | lia].
Qed.

(** * Stations *)
Lemma sta_eqb_spec' a b : sta_eqb a b = true <-> (fst (fst a) == fst (fst b))%Q /\ (snd (fst a) == snd (fst b))%Q /\ snd a = snd b.
Proof. unfold sta_eqb. rewrite !Bool.andb_true_iff, !Qeq_bool_iff, String.eqb_eq. tauto. Qed.
Lemma station_data_spec inv d : station_data inv = Ok d ->
  forall name lon lat, (exists x, In x d /\ snd x = name /\ same_point (snd (fst x), fst (fst x)) (lon, lat)) <-> station_at inv name lon lat.
Proof.
  intros H name lon lat. destruct inv as [s|i]; cbn [station_data station_at] in *.
  - destruct (mapM _ s) as [data|] eqn:E; [|discriminate]. cbn [bind] in H. injection H as <-. apply mapM_ok_Forall2 in E. split.
    + intros (x & Hx & <- & Hp). apply dedup_sub in Hx. destruct (Forall2_in_r _ _ _ _ E Hx) as (t & Ht & Ex).
      destruct (num_attr "station_latitude" t) as [la|] eqn:A; [|discriminate]. cbn [bind] in Ex. destruct (num_attr "station_longitude" t) as [lo|] eqn:B; [|discriminate]. cbn [bind] in Ex.
      injection Ex as <-. apply num_attr_spec in A, B. exists t, lo, la. destruct Hp. cbn in *. auto 8.
    + intros (t & lo & la & Ht & Hn & B & A & H1 & H2). destruct (Forall2_in_l _ _ _ _ E Ht) as (x & Hx & Ex). apply num_attr_spec in A, B. rewrite A, B in Ex. cbn [bind] in Ex. injection Ex as <-.
      destruct (dedup_cover sta_eqb data ((la, lo), station (st t))) as (y & Hy & Ey); [intros [[? ?] ?]; apply sta_eqb_spec'; repeat split; reflexivity | exact Hx|].
      apply sta_eqb_spec' in Ey. cbn in Ey. destruct Ey as (E1 & E2 & E3). exists y. split; [exact Hy|]. split; [congruence|]. split; cbn [fst snd]; [rewrite <- E2; exact H1 | rewrite <- E1; exact H2].
  - injection H as <-. split.
    + intros (x & Hx & <- & Hp). apply in_concat in Hx. destruct Hx as (l & Hl & Hx). apply in_map_iff in Hl. destruct Hl as (net & <- & Hnet). apply in_map_iff in Hx. destruct Hx as ([[c la] lo] & <- & Hs).
      exists net, lo, la. destruct Hp. cbn in *. auto.
    + intros (net & lo & la & Hnet & Hs & H1 & H2). exists ((la, lo), name). split; [|split; [reflexivity | split; assumption]].
      apply in_concat. eexists. split; [apply in_map, Hnet|]. apply in_map_iff. exists (name, la, lo). auto.
Qed.
Lemma station_data_ok inv : locatable inv <-> exists x d, station_data inv = Ok (x :: d).
Proof.
  split.
  - intros [(name & lon & lat & Hat) Hc]. assert (exists d, station_data inv = Ok d) as [d Hd].
    { destruct inv as [s|i]; [|eexists; reflexivity]. cbn [station_data]. destruct (mapM _ s) as [data|] eqn:E; [eexists; reflexivity|]. exfalso. clear Hat. revert e E. induction Hc as [|t s [[lo B] [la A]] Hc IH]; intros e; [discriminate|].
      cbn [mapM]. apply num_attr_spec in A, B. rewrite A, B. cbn [bind]. destruct (mapM _ s) as [|e'] eqn:E; [discriminate|]. intros _. apply (IH e' eq_refl). }
    apply (station_data_spec inv d Hd) in Hat. destruct Hat as (x & Hx & _). destruct d as [|y d]; [destruct Hx|]. eauto.
  - intros (x & d & Hd). split.
    + exists (snd x), (snd (fst x)), (fst (fst x)). apply (station_data_spec inv _ Hd). exists x. split; [left; reflexivity|]. repeat split; reflexivity.
    + destruct inv as [s|i]; [|exact I]. cbn [station_data] in Hd. destruct (mapM _ s) as [data|] eqn:E; [|discriminate]. apply mapM_ok_Forall2 in E. clear Hd. induction E as [|t y s data Ht HF IH]; constructor; [|exact IH].
      destruct (num_attr "station_latitude" t) as [la|] eqn:A; [|discriminate]. cbn [bind] in Ht. destruct (num_attr "station_longitude" t) as [lo|] eqn:B; [|discriminate]. apply num_attr_spec in A, B. eauto.
Qed.

Section M.
  Context {P : Type}.
  Implicit Types m : geomap P.
  (** the content added by scatter *)
  Lemma scatter_spec ll m m' : scatter ll m = Ok m' ->
    ll <> [] /\ m_centre m' = m_centre m /\ m_labels m' = m_labels m /\ m_polys m' = m_polys m /\
    forall lon lat, shown m' lon lat <-> shown m lon lat \/ exists p, In p ll /\ same_point (snd p, fst p) (lon, lat).
  Proof.
    unfold scatter. destruct ll as [|p ll]; [discriminate|]. intros H. injection H as <-. split; [discriminate|]. repeat (split; [reflexivity|]). intros lon lat. unfold shown. cbn [m_scatter]. split.
    - intros (l & q & Hl & Hq & Hs). apply in_app_or in Hl. destruct Hl as [Hl|[<-|[]]]; [left; exists l, q; auto|]. right. change ((snd p, fst p) :: map (fun p => (snd p, fst p)) ll) with (map (fun p : Q * Q => (snd p, fst p)) (p :: ll)) in Hq.
      apply in_map_iff in Hq. destruct Hq as (r & <- & Hr). exists r. auto.
    - intros [(l & q & Hl & Hq & Hs)|(r & Hr & Hs)]; [exists l, q; split; [apply in_or_app; left; exact Hl | auto]|].
      exists (map (fun p => (snd p, fst p)) (p :: ll)), (snd r, fst r). split; [apply in_or_app; right; left; reflexivity|]. split; [apply in_map_iff; exists r; auto | exact Hs].
  Qed.
  Lemma stations_spec inv label ax crs m : plot_stations inv label ax crs = Ok m ->
    exists m0, axes ax crs (match station_data inv with Ok d => map fst d | Err _ => [] end) = Ok m0 /\ locatable inv /\ m_centre m = m_centre m0 /\ m_polys m = m_polys m0 /\
      (forall lon lat, shown m lon lat <-> shown m0 lon lat \/ exists name, station_at inv name lon lat) /\
      (forall name lon lat, labelled m name lon lat <-> labelled m0 name lon lat \/ (label = true /\ station_at inv name lon lat)).
  Proof.
    unfold plot_stations. destruct (station_data inv) as [[|x d]|] eqn:Ed; try discriminate. cbn [bind]. destruct (axes ax crs (map fst (x :: d))) as [m0|] eqn:Ea; [|discriminate]. cbn [bind].
    destruct (scatter (map fst (x :: d)) m0) as [m1|] eqn:Es; [|discriminate]. cbn [bind]. intros H. injection H as <-. exists m0. split; [reflexivity|].
    split; [apply station_data_ok; eauto|]. apply scatter_spec in Es. destruct Es as (_ & E1 & E2 & E3 & Hsh).
    pose proof (station_data_spec inv _ Ed) as Hst.
    split; [destruct label; exact E1|]. split; [destruct label; exact E3|]. split.
    - intros lon lat. assert (shown (if label then mkMap (m_centre m1) (m_scatter m1) (m_labels m1 ++ map (fun d => (snd d, (snd (fst d), fst (fst d)))) (x :: d)) (m_polys m1) else m1) lon lat <-> shown m1 lon lat) as -> by (destruct label; reflexivity).
      rewrite Hsh. apply or_iff_compat_l. split.
      + intros (p & Hp & Hs). apply in_map_iff in Hp. destruct Hp as (y & <- & Hy). exists (snd y). apply Hst. exists y. auto.
      + intros (name & Hat). apply Hst in Hat. destruct Hat as (y & Hy & _ & Hs). exists (fst y). split; [apply in_map, Hy | exact Hs].
    - intros name lon lat. destruct label.
      + unfold labelled. cbn [m_labels]. rewrite E2. split.
        * intros (p & Hp & Hs). apply in_app_or in Hp. destruct Hp as [Hp|Hp]; [left; exists p; auto|]. right. split; [reflexivity|].
          change (In (name, p) (map (fun d : Q * Q * string => (snd d, (snd (fst d), fst (fst d)))) (x :: d))) in Hp. apply in_map_iff in Hp. destruct Hp as (y & Ey & Hy). injection Ey as <- <-. apply Hst. exists y. auto.
        * intros [(p & Hp & Hs)|[_ Hat]]; [exists p; split; [apply in_or_app; left; exact Hp | exact Hs]|]. apply Hst in Hat. destruct Hat as (y & Hy & <- & Hs). eexists. split; [|exact Hs]. apply in_or_app. right.
          change (In (snd y, (snd (fst y), fst (fst y))) (map (fun d : Q * Q * string => (snd d, (snd (fst d), fst (fst d)))) (x :: d))). apply in_map_iff. exists y. auto.
      + unfold labelled. rewrite E2. split; [auto | intros [H|[H _]]; [exact H | discriminate]].
  Qed.
  Lemma stations_succeed inv label ax crs : locatable inv -> exists m : geomap P, plot_stations inv label ax crs = Ok m.
  Proof.
    intros H. apply station_data_ok in H. destruct H as (x & d & Hd). unfold plot_stations. rewrite Hd. cbn [bind].
    assert (exists m0 : geomap P, axes ax crs (map fst (x :: d)) = Ok m0) as [m0 ->].
    { unfold axes, get_geoaxes. destruct ax as [m|]; [eauto|]. destruct crs; [eauto|].
      destruct (median_middle (map fst (map fst (x :: d)))) as (a & -> & _); [discriminate|]. cbn [bind].
      destruct (median_middle (map snd (map fst (x :: d)))) as (b & -> & _); [discriminate|]. cbn [bind]. eauto. }
    cbn [bind]. cbn [map scatter]. cbn [bind]. destruct label; eauto.
  Qed.
End M.
