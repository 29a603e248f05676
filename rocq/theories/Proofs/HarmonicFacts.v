(** The harmonic decomposition: what is fitted, and how the result is laid out. *)
From Verif Require Import Model.Harmonics Spec.HarmonicSpec Proofs.PyFacts Proofs.SumFacts Proofs.CplxFacts Proofs.LstsqFacts Proofs.TrigPolyFacts Proofs.WaterFacts.
From Verif Require Import Proofs.DeconvTimeFacts.
From Coq Require Import Lra Lia.
Notation length := List.length.
Open Scope R_scope.

(** ** selecting and sorting *)
Lemma last_char_upper s : last_char (upper s) = option_map upper_char (last_char s).
Proof.
  induction s as [|a s IH]; [reflexivity|]. cbn [upper]. cbn [last_char]. destruct s as [|b s]; [reflexivity|].
  rewrite <- IH. reflexivity.
Qed.
Lemma select_rfs c s : upper_char c = c -> select_comp c s = rfs c s.
Proof.
  intros Hc. unfold select_comp, rfs. apply filter_ext. intros t. unfold endswith_char, is_comp. rewrite last_char_upper, Hc.
  destruct (last_char (channel (ht_st t))); reflexivity.
Qed.
Definition tkey (t : htrace) : Z := match time_of t with Some (VTime z) => z | _ => 0%Z end.
Definition timed (t : htrace) : Prop := time_of t = Some (VTime (tkey t)).
Definition tleb (a b : htrace) : bool := Z.leb (tkey a) (tkey b).
Lemma event_time_ok t z : event_time t = Ok z <-> timed t /\ z = tkey t.
Proof.
  unfold event_time, timed, tkey, time_of. destruct (dget (extra (ht_st t)) "event_time") as [[]|]; split; intros H;
    try (destruct H; discriminate); try discriminate.
  - inversion H. auto.
  - destruct H as [_ ->]. reflexivity.
Qed.
Lemma mapM_event_time s keys : mapM event_time s = Ok keys <-> Forall timed s /\ keys = map tkey s.
Proof.
  rewrite mapM_Forall2. split.
  - induction 1 as [|t z s keys H HF [IH1 IH2]]; [split; [constructor | reflexivity]|].
    apply event_time_ok in H. destruct H as [H1 ->]. split; [constructor; assumption|]. cbn. f_equal. exact IH2.
  - intros [HF ->]. induction HF; cbn; constructor; [|assumption]. apply event_time_ok. auto.
Qed.
Lemma sort_combine (s : list htrace) : map snd (sort (fun a b => Z.leb (fst a) (fst b)) (combine (map tkey s) s)) = sort tleb s.
Proof.
  assert (forall l, Forall (fun p => fst p = tkey (snd p)) (sort (fun a b => Z.leb (fst a) (fst b)) (combine (map tkey l) l))) as Hf.
  { intros l. rewrite Forall_forall. intros p Hp. apply (Permutation_in p (sort_perm _ _)) in Hp.
    clear -Hp. induction l as [|t l IH]; [destruct Hp|]. destruct Hp as [<-|Hp]; [reflexivity | auto]. }
  induction s as [|t s IH]; [reflexivity|]. cbn [map combine sort fold_right].
  change (fold_right (insert_sorted (fun a b => Z.leb (fst a) (fst b))) [] (combine (map tkey s) s))
    with (sort (fun a b : Z * htrace => Z.leb (fst a) (fst b)) (combine (map tkey s) s)).
  change (fold_right (insert_sorted tleb) [] s) with (sort tleb s). rewrite <- IH. clear IH.
  specialize (Hf s). induction Hf as [|[z u] l H HF IH2]; [reflexivity|]. cbn [fst snd] in H. subst z.
  cbn [insert_sorted map fst snd]. unfold tleb at 1. destruct (Z.leb (tkey t) (tkey u)); [reflexivity|].
  cbn [map snd]. f_equal. exact IH2.
Qed.
Lemma sort_time_ok s l : sort_time s = Ok l <-> Forall timed s /\ l = sort tleb s.
Proof.
  unfold sort_time. split.
  - destruct (mapM event_time s) as [keys|] eqn:E; [|discriminate]. cbn [bind]. apply mapM_event_time in E. destruct E as [H1 ->].
    rewrite sort_combine. intros H. inversion H. auto.
  - intros [H1 ->]. rewrite (proj2 (mapM_event_time s (map tkey s)) (conj H1 eq_refl)). cbn [bind]. rewrite sort_combine. reflexivity.
Qed.
Lemma tleb_total a b : tleb a b = true \/ tleb b a = true.
Proof. unfold tleb. rewrite !Z.leb_le. lia. Qed.
Lemma tleb_trans a b c : tleb a b = true -> tleb b c = true -> tleb a c = true.
Proof. unfold tleb. rewrite !Z.leb_le. lia. Qed.
Lemma sorted_keys s : Forall timed s -> NoDup (map time_of s) -> StronglySorted Z.lt (map tkey (sort tleb s)).
Proof.
  intros Ht Hn. assert (NoDup (map tkey (sort tleb s))) as Hnd.
  { apply (Permutation_NoDup (l := map tkey s)); [apply Permutation_map, Permutation_sym, sort_perm|].
    clear -Ht Hn. induction Ht as [|t s H HF IH]; cbn [map] in *; [constructor|]. inversion Hn as [|? ? Hni Hn']; subst.
    constructor; [|apply IH, Hn']. intros Hin. apply Hni. apply in_map_iff in Hin. destruct Hin as (u & Hu & Hin).
    rewrite Forall_forall in HF. pose proof (HF u Hin) as Hu'. unfold timed in H, Hu'. rewrite H, <- Hu, <- Hu'. apply in_map, Hin. }
  pose proof (sort_sorted tleb tleb_total tleb_trans s) as Hs.
  induction Hs as [|t l Hs IH Hf]; cbn [map]; [constructor|]. inversion Hnd as [|? ? Hni Hnd']; subst.
  constructor; [apply IH, Hnd'|]. rewrite Forall_forall in *. intros z Hz. apply in_map_iff in Hz. destruct Hz as (u & <- & Hu).
  specialize (Hf u Hu). unfold tleb in Hf. apply Z.leb_le in Hf. destruct (Z.eq_dec (tkey t) (tkey u)) as [E|E]; [|lia].
  exfalso. apply Hni. rewrite E. apply in_map, Hu.
Qed.
Lemma sorted_ext_time s s' : Forall timed s -> Forall timed s' -> NoDup (map time_of s) -> NoDup (map time_of s') ->
  (forall k, In k (map time_of s) <-> In k (map time_of s')) -> map tkey (sort tleb s) = map tkey (sort tleb s').
Proof.
  intros H1 H2 H3 H4 H. apply (strict_sorted_ext Z.lt); [intros; lia | intros; lia | apply sorted_keys; assumption | apply sorted_keys; assumption|].
  assert (forall l, Forall timed l -> forall z, In z (map tkey (sort tleb l)) <-> In (Some (VTime z)) (map time_of l)) as Hk.
  { intros l Hl z. rewrite !in_map_iff. rewrite Forall_forall in Hl. split; intros (t & Ht & Hin).
    - apply (Permutation_in t (sort_perm _ _)) in Hin. exists t. split; [rewrite <- Ht; apply Hl, Hin | exact Hin].
    - exists t. split; [pose proof (Hl t Hin) as E; unfold timed in E; congruence | apply (Permutation_in t (Permutation_sym (sort_perm _ _))), Hin]. }
  intros z. rewrite (Hk s H1), (Hk s' H2). apply H.
Qed.
Lemma sort_perm_eq s s' : Forall timed s -> NoDup (map time_of s) -> Permutation s s' -> sort tleb s = sort tleb s'.
Proof.
  intros Ht Hn Hp.
  assert (Permutation (sort tleb s) (sort tleb s')) as Hp2 by (rewrite !sort_perm; exact Hp).
  pose proof (sorted_keys s Ht Hn) as Hs1.
  assert (StronglySorted Z.lt (map tkey (sort tleb s'))) as Hs2.
  { apply sorted_keys; [rewrite Forall_forall in *; intros; apply Ht, (Permutation_in _ (Permutation_sym Hp)); assumption|].
    apply (Permutation_NoDup (Permutation_map time_of Hp) Hn). }
  clear Ht Hn Hp. revert Hs1 Hs2 Hp2. generalize (sort tleb s) (sort tleb s'). intros l. induction l as [|x l IH]; intros l' H1 H2 Hp.
  - apply Permutation_nil in Hp. auto.
  - destruct l' as [|y l']; [apply Permutation_sym, Permutation_nil in Hp; discriminate|].
    cbn [map] in *. inversion H1 as [|? ? Hs1 Hf1]; subst. inversion H2 as [|? ? Hs2 Hf2]; subst.
    assert (x = y) as ->.
    { assert (In y (x :: l)) as Hy by (eapply Permutation_in; [symmetry; exact Hp | left; reflexivity]).
      assert (In x (y :: l')) as Hx by (eapply Permutation_in; [exact Hp | left; reflexivity]).
      destruct Hy as [Hy|Hy]; [auto|]. destruct Hx as [Hx|Hx]; [auto|]. rewrite Forall_forall in *.
      pose proof (Hf1 (tkey y) (in_map _ _ _ Hy)). pose proof (Hf2 (tkey x) (in_map _ _ _ Hx)). lia. }
    f_equal. apply IH; [assumption | assumption|]. eapply Permutation_cons_inv; exact Hp.
Qed.

(** ** the matrix and the columns *)
Lemma back_azimuth_ok t b : back_azimuth t = Ok b <-> has_baz t b.
Proof.
  unfold back_azimuth, has_baz. destruct (dget (extra (ht_st t)) "back_azimuth") as [[]|]; split; intros H;
    try (destruct H as (q & H & _); discriminate); try discriminate.
  - inversion H. eauto.
  - destruct H as (q' & H & ->). inversion H. reflexivity.
Qed.
Lemma has_baz_of t b : has_baz t b -> baz_of t = b.
Proof. intros (q & H & ->). unfold baz_of. rewrite H. reflexivity. Qed.
Lemma mapM_baz s l : mapM back_azimuth s = Ok l -> l = map baz_of s /\ Forall (fun t => has_baz t (baz_of t)) s.
Proof.
  intros H. apply mapM_Forall2 in H. induction H as [|t b s l H HF [IH1 IH2]]; [split; [reflexivity | constructor]|].
  apply back_azimuth_ok in H. pose proof (has_baz_of _ _ H) as E. rewrite <- E in H. split; [cbn; congruence | constructor; assumption].
Qed.
Lemma column_ok {A} (d : A) rows i r : column rows i = Ok r <-> r = map (fun row => nth i row d) rows /\ Forall (fun row => (i < length row)%nat) rows.
Proof.
  unfold column. rewrite mapM_Forall2. split.
  - induction 1 as [|row x rows r H HF [IH1 IH2]]; [split; [reflexivity | constructor]|].
    destruct (nth_error row i) as [y|] eqn:E; [|discriminate]. inversion H; subst y. cbn. split.
    + rewrite (nth_error_nth _ _ d E). f_equal. exact IH1.
    + constructor; [apply nth_error_Some; congruence | exact IH2].
  - intros [-> HF]. induction HF as [|row rows H HF IH]; cbn; constructor; [|exact IH].
    destruct (nth_error row i) as [y|] eqn:E; [rewrite (nth_error_nth _ _ d E); reflexivity|]. apply nth_error_None in E. lia.
Qed.
Lemma fit_ok {A} (d : A) lstsq jac rows rowsT npts cols :
  fit lstsq jac rows rowsT npts = Ok cols ->
  cols = map (fun i => lstsq jac (map (fun row => nth i row d) (rows ++ rowsT))) (seq 0 npts) /\
  forall i, (i < npts)%nat -> length (rows ++ rowsT) = length jac /\ Forall (fun row => (i < length row)%nat) (rows ++ rowsT).
Proof.
  unfold fit. intros H. apply mapM_Forall2 in H.
  assert (forall i, In i (seq 0 npts) -> (i < npts)%nat) as Hseq by (intros i Hi; apply in_seq in Hi; lia).
  assert (forall l (f : nat -> res (list A)) g P, Forall2 (fun i c => f i = Ok c) l cols ->
    (forall i c, In i l -> f i = Ok c -> c = g i /\ P i) -> cols = map g l /\ forall i, In i l -> P i) as Hg.
  { clear. intros l f g P H Hf. induction H as [|i c l cols H HF IH]; [split; [reflexivity | intros i []]|].
    destruct (Hf i c (or_introl eq_refl) H) as [-> HP]. destruct IH as [-> IH2]; [intros; apply Hf; [right|]; assumption|].
    split; [reflexivity|]. intros j [<-|Hj]; auto. }
  apply (Hg _ _ (fun i => lstsq jac (map (fun row => nth i row d) (rows ++ rowsT)))
    (fun i => length (rows ++ rowsT) = length jac /\ Forall (fun row => (i < length row)%nat) (rows ++ rowsT))) in H.
  - destruct H as [-> H]. split; [reflexivity|]. intros i Hi. apply H, in_seq. lia.
  - intros i c Hi E. destruct (column rows i) as [r|] eqn:Er; [|discriminate]. cbn [bind] in E.
    destruct (column rowsT i) as [t|] eqn:Et; [|discriminate]. cbn [bind] in E.
    destruct (length (r ++ t) =? length jac)%nat eqn:El; [|discriminate]. apply Nat.eqb_eq in El. inversion E; subst c.
    apply (column_ok d) in Er, Et. destruct Er as [-> Hr], Et as [-> Ht]. rewrite <- map_app in *. rewrite map_length in El.
    split; [reflexivity|]. split; [exact El|]. apply Forall_app. auto.
Qed.

(** the rows of hd *)
Lemma hd_rows_length {A} (d : A) n cols : length (hd_rows d n cols) = n.
Proof. unfold hd_rows. rewrite map_length, seq_length. reflexivity. Qed.
Lemma hd_column n cols i : (i < length cols)%nat -> length (nth i cols []) = n ->
  map (fun row => nth i row 0) (hd_rows 0 n cols) = nth i cols [].
Proof.
  intros Hi Hn. unfold hd_rows. rewrite map_map.
  assert (forall j, nth i (map (fun col => nth j col 0) cols) 0 = nth j (nth i cols []) 0) as E.
  { intros j. rewrite (nth_indep _ 0 ((fun col => nth j col 0) [])) by (rewrite map_length; exact Hi).
    rewrite (map_nth (fun col => nth j col 0)). reflexivity. }
  rewrite (map_ext _ _ E). symmetry. rewrite <- Hn. rewrite (list_tabulate (nth i cols []) 0) at 1. reflexivity.
Qed.

(** ** layout of the result *)
Lemma upd_length {A} (l : list A) i f : length (upd l i f) = length l.
Proof.
  unfold upd. destruct (skipn i l) as [|x r] eqn:E; [reflexivity|]. rewrite <- (firstn_skipn i l) at 2. rewrite E, !app_length. reflexivity.
Qed.
Lemma upd_data l i f : (forall t, ht_data (f t) = ht_data t) -> map ht_data (upd l i f) = map ht_data l.
Proof.
  intros H. unfold upd. destruct (skipn i l) as [|x r] eqn:E; [reflexivity|]. rewrite <- (firstn_skipn i l) at 2.
  rewrite E, !map_app. cbn [map]. rewrite H. reflexivity.
Qed.
Lemma harm_out_data first hd comps two : map ht_data (harm_out first hd comps two) = hd.
Proof.
  unfold harm_out. cbv zeta.
  assert (map ht_data (map (mkHT (clean first)) hd) = hd) as H0 by (rewrite map_map; apply map_id).
  assert (forall l out (f : nat -> htrace -> htrace), (forall i t, ht_data (f i t) = ht_data t) -> map ht_data out = hd ->
    map ht_data (fold_left (fun out i => upd out i (f i)) l out) = hd) as Hl.
  { induction l as [|i l IH]; intros out f Hf Ho; [exact Ho|]. cbn [fold_left]. apply IH; [exact Hf|]. rewrite upd_data; [exact Ho | apply Hf]. }
  destruct two.
  - rewrite upd_data by reflexivity. apply (Hl _ _ (fun i t => _)); [reflexivity|]. apply (Hl _ _ (fun i t => _)); [reflexivity | exact H0].
  - apply (Hl _ _ (fun i t => _)); [reflexivity | exact H0].
Qed.
Lemma coefficients_rows out i : coefficients i out = map (fun row => nth i row 0) (map ht_data out).
Proof. unfold coefficients, sample. rewrite map_map. reflexivity. Qed.

(** ** everything that is read of the stream *)
Definition default_scalars (sc : option (R * R)) : R * R := match sc with Some s => s | None => (3, 3 / 10) end.
Definition inputs (stream : list htrace) (comps : string) (azim : R) (sc : option (R * R)) (two : bool) (trs trsT : list htrace) (jac : list (list R)) : Prop :=
  exists c0, In c0 ["R"; "Q"; "T"]%char /\ trs = sort tleb (rfs c0 stream) /\ Forall timed (rfs c0 stream) /\ rfs c0 stream <> [] /\
    Forall (fun t => has_baz t (baz_of t)) (rfs c0 stream) /\
    ((two = false /\ comps = String c0 "" /\ sc = None /\ trsT = [] /\ jac = decomp_one (map baz_of trs) azim) \/
     (two = true /\ comps = String c0 "T" /\ c0 <> "T"%char /\ trsT = sort tleb (rfs "T" stream) /\ Forall timed (rfs "T" stream) /\
      jac = decomp_two (map baz_of trs) azim (default_scalars sc))).
Definition nharm (two : bool) : nat := if two then 10 else 5.

Section H.
  Variable lstsq : list (list R) -> list R -> list R.
  Variable clstsq : list (list R) -> list cplx -> list cplx.
  Notation harmonics := (harmonics lstsq clstsq).

  Lemma harm_unfold stream comps azim method sc out :
    harmonics stream comps azim method sc = Ok out ->
    exists two trs trsT jac first rest hd,
      inputs stream comps azim sc two trs trsT jac /\ stream = first :: rest /\
      out = harm_out (ht_st first) hd comps two /\
      let npts := length (ht_data first) in let rows := map ht_data trs in let rowsT := map ht_data trsT in
      ((method = "time" /\ exists cols, fit lstsq jac rows rowsT npts = Ok cols /\ hd = hd_rows 0 (nharm two) cols) \/
       (method = "freq" /\ (0 < npts)%nat /\ exists fR fT cols, mapM fft_row rows = Ok fR /\ mapM fft_row rowsT = Ok fT /\
          fit clstsq jac fR fT npts = Ok cols /\
          hd = map (fun row => map fst (ifft row npts)) (hd_rows Czero (nharm two) cols))).
  Proof.
    unfold Harmonics.harmonics. destruct (existsb (String.eqb comps) _) eqn:Ec; [|discriminate]. cbn [negb].
    apply existsb_exists in Ec. destruct Ec as (x & Hx & E). apply String.eqb_eq in E. subst x.
    destruct (list_ascii_of_string comps) as [|c0 cs] eqn:El; [discriminate|].
    destruct (existsb (fun c => _) (c0 :: cs)) eqn:Ez; [discriminate|].
    destruct (existsb (String.eqb method) _) eqn:Em; [|discriminate]. cbn [negb].
    assert (method = "time" \/ method = "freq") as Hm.
    { apply existsb_exists in Em. destruct Em as (x & Hxm & E). apply String.eqb_eq in E. subst x. simpl in Hxm. destruct Hxm as [H|[H|[]]]; auto. }
    set (two := match cs with [] => false | _ => true end).
    destruct (sort_time (select_comp c0 stream)) as [trs|] eqn:Es; [|discriminate]. cbn [bind].
    destruct (mapM back_azimuth trs) as [baz|] eqn:Eb; [|discriminate]. cbn [bind].
    destruct (stack_rows trs) as [rfR|] eqn:Er; [|discriminate]. cbn [bind].
    destruct (if two then _ else _) as [rfT|] eqn:Et; [|discriminate]. cbn [bind].
    destruct stream as [|first rest] eqn:Estr; [discriminate|]. rewrite <- Estr in *. cbv zeta.
    assert (In c0 ["R"; "Q"; "T"]%char /\ ((cs = [] /\ comps = String c0 "") \/ (cs = ["T"]%char /\ comps = String c0 "T" /\ c0 <> "T"%char))) as [Hc0 Hcs].
    { simpl in Hx. repeat (destruct Hx as [<-|Hx]; [inversion El; subst; split;
        [simpl; tauto | first [left; split; reflexivity | right; split; [reflexivity | split; [reflexivity | discriminate]]]]|]). destruct Hx. }
    assert (upper_char c0 = c0) as Hup by (simpl in Hc0; repeat (destruct Hc0 as [<-|Hc0]; [reflexivity|]); destruct Hc0).
    rewrite (select_rfs c0 stream Hup) in Es. apply sort_time_ok in Es. destruct Es as [Htimed ->].
    apply mapM_baz in Eb. destruct Eb as [-> Hbaz].
    assert (Forall (fun t => has_baz t (baz_of t)) (rfs c0 stream)) as Hbaz2.
    { rewrite Forall_forall in *. intros t Ht. apply Hbaz, (Permutation_in t (Permutation_sym (sort_perm _ _))), Ht. }
    assert (rfs c0 stream <> []) as Hne.
    { cbn [existsb] in Ez. apply orb_false_iff in Ez. destruct Ez as [Ez _]. rewrite (select_rfs c0 stream Hup) in Ez.
      intros E. rewrite E in Ez. discriminate. }
    unfold stack_rows in Er. destruct (same_length (map ht_data (sort tleb (rfs c0 stream)))); [|discriminate].
    assert (rfR = map ht_data (sort tleb (rfs c0 stream))) as -> by congruence. clear Er.
    intros H.
    assert (exists trsT jac, inputs stream comps azim sc two (sort tleb (rfs c0 stream)) trsT jac /\ rfT = map ht_data trsT /\
      (if two then Ok (decomp_two (map baz_of (sort tleb (rfs c0 stream))) azim (match sc with Some s => s | None => (3, 3 / 10) end))
       else match sc with Some _ => Err TypeError | None => Ok (decomp_one (map baz_of (sort tleb (rfs c0 stream))) azim) end) = Ok jac) as (trsT & jac & Hin & HrT & Hjac).
    { destruct Hcs as [[-> Hcomps]|(-> & Hcomps & Hc0T)]; unfold two in *.
      - assert (rfT = []) as -> by congruence. destruct sc as [s|].
        + exfalso. cbn [bind] in H. destruct (String.eqb method "time"); [discriminate|].
          destruct (mapM fft_row (map ht_data (sort tleb (rfs c0 stream)))); discriminate.
        + exists [], (decomp_one (map baz_of (sort tleb (rfs c0 stream))) azim). split; [|auto].
          exists c0. repeat (split; [assumption || reflexivity|]). left. repeat split; auto.
      - rewrite (select_rfs "T" stream eq_refl) in Et.
        destruct (sort_time (rfs "T" stream)) as [trsT|] eqn:Es; [|discriminate]. cbn [bind] in Et.
        apply sort_time_ok in Es. destruct Es as [HtT ->]. unfold stack_rows in Et. destruct (same_length (map ht_data (sort tleb (rfs "T" stream)))); [|discriminate].
        exists (sort tleb (rfs "T" stream)), (decomp_two (map baz_of (sort tleb (rfs c0 stream))) azim (default_scalars sc)).
        split; [|split; [congruence | reflexivity]].
        exists c0. repeat (split; [assumption || reflexivity|]). right. repeat split; auto. }
    rewrite Hjac in H. exists two, (sort tleb (rfs c0 stream)), trsT, jac, first, rest. subst rfT.
    destruct Hm as [-> | ->]; cbn [String.eqb Ascii.eqb Bool.eqb] in H; cbn [bind] in H.
    - destruct (fit lstsq jac _ _ _) as [cols|] eqn:Ef; [|discriminate]. cbn [bind] in H. inversion H; subst out. clear H.
      eexists. split; [exact Hin|]. split; [exact Estr|]. split; [reflexivity|]. left. split; [reflexivity|].
      exists cols. split; reflexivity.
    - destruct (mapM fft_row (map ht_data (sort tleb (rfs c0 stream)))) as [fR|] eqn:EfR; [|discriminate]. cbn [bind] in H.
      destruct (mapM fft_row (map ht_data trsT)) as [fT|] eqn:EfT; [|discriminate]. cbn [bind] in H.
      destruct (fit clstsq jac _ _ _) as [cols|] eqn:Ef; [|discriminate]. cbn [bind] in H.
      destruct (length (ht_data first)) as [|n] eqn:En; [discriminate|]. inversion H; subst out. clear H.
      eexists. split; [exact Hin|]. split; [exact Estr|]. split; [reflexivity|]. right. split; [reflexivity|]. split; [lia|].
      exists fR, fT, cols. repeat split; reflexivity || assumption.
  Qed.
End H.
