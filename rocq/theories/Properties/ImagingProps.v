(** C67-C69, C88-C91: plots. *)
From Verif Require Import Model.Imaging Spec.ImagingSpec Proofs.PyFacts Proofs.ImagingFacts.
From Coq Require Import Qabs Lqa.
Open Scope nat_scope.

(** C67: the label is the first of the patterns NET.STA.LOC.CHA, NET.STA.LOC.CH? and
    NET.STA which gives the same text for all traces, else it is empty. *)
Theorem C67_label (s : list trace) :
  (forall x, common full_id s x -> label s = x) /\
  ((forall y, ~ common full_id s y) -> forall x, common band_id s x -> label s = x) /\
  ((forall y, ~ common full_id s y) -> (forall y, ~ common band_id s y) ->
     forall x, common station_id s x -> label s = x) /\
  ((forall y, ~ common full_id s y) -> (forall y, ~ common band_id s y) ->
     (forall y, ~ common station_id s y) -> label s = "").
Proof. exact (label_spec s). Qed.
Print Assumptions C67_label.

Definition tr67 (sta cha : string) : trace := mkTrace (mkStats "CX" sta "" cha 0 1 []) [].
Example C67_nonvacuous :
  label [tr67 "PB01" "BHQ"; tr67 "PB01" "BHQ"] = "CX.PB01..BHQ" /\
  label [tr67 "PB01" "BHQ"; tr67 "PB01" "BHT"] = "CX.PB01..BH?" /\
  label [tr67 "PB01" "BHQ"; tr67 "PB01" "HHT"] = "CX.PB01" /\
  label [tr67 "PB01" "BHQ"; tr67 "PB02" "BHQ"] = "" /\ label [] = "".
Proof. repeat split. Qed.

(** C68: the wiggles of the left panel, and of the right panel if it shows unmodeled
    components, are scaled by the largest amplitude of hd, hence at most 1.
    Missing: the right panel for a second stream, see C68_refuted. *)
Theorem C68_scaled_partial hd hd2 l r :
  plot_harmonics hd hd2 = Ok (l, r) ->
  (exists t x, In t hd /\ In x (data t) /\ ~ (x == 0)%Q) ->
  exists peak, is_peak (List.concat (map data hd)) peak /\ (0 < peak)%Q /\
    List.length l = 5 /\
    (forall row times amps, In (row, times, amps) l ->
       drawn_within 1 amps /\
       exists t, In t hd /\ Forall2 (fun x o => exists q, o = Some q /\ q == x / peak)%Q (data t) amps) /\
    ((hd2 = None \/ hd2 = Some []) -> forall row times amps, In (row, times, amps) r ->
       drawn_within 1 amps /\
       exists t, In t hd /\ Forall2 (fun x o => exists q, o = Some q /\ q == x / peak)%Q (data t) amps).
Proof.
  intros H (t & x & Ht & Hx & Hne). apply harm_main in H.
  destruct H as (ref0 & ref1 & unmod & Hp & Hl & Hr & H2). exists ref0. split; [exact Hp|].
  assert (Hpos : (0 < ref0)%Q).
  { destruct Hp as (Hb & _). apply Qlt_le_trans with (Qabs x).
    - destruct (Qlt_le_dec 0 (Qabs x)) as [L|L]; [exact L|]. exfalso. apply Hne.
      apply Qle_antisym; [|].
      + eapply Qle_trans; [apply Qle_Qabs|exact L].
      + assert (0 <= Qabs x)%Q by apply Qabs_nonneg.
        assert (E : (Qabs x == 0)%Q) by (apply Qle_antisym; assumption).
        assert (- x <= 0)%Q by (rewrite <- E; rewrite <- Qabs_opp; apply Qle_Qabs). lra.
    - apply Hb. apply in_concat. exists (data t). split; [now apply in_map|exact Hx]. }
  split; [exact Hpos|]. split; [generalize (Forall2_len _ _ _ Hl); rewrite seq_length; congruence|].
  assert (Hline : forall u line, In u hd -> harm_line ref0 u = Ok line ->
     drawn_within 1 (snd line) /\
     exists t, In t hd /\ Forall2 (fun x o => exists q, o = Some q /\ q == x / ref0)%Q (data t) (snd line)).
  { intros u line Hu E. apply harm_line_spec in E. destruct E as (o & c & _ & _ & ->). cbn [snd]. split.
    - apply qdiv_within; [exact Hpos|]. intros y Hy. apply Hp. apply in_concat.
      exists (data u). split; [now apply in_map|exact Hy].
    - exists u. split; [exact Hu|]. generalize (data u). intros d. induction d as [|y d IH]; constructor; [|exact IH].
      unfold qdiv. destruct (Qeq_bool ref0 0) eqn:E.
      + apply Qeq_bool_iff in E. rewrite E in Hpos. discriminate.
      + eexists. split; reflexivity. }
  split.
  - intros row times amps Hin. destruct (Forall2_in_r _ _ _ _ Hl Hin) as (i & _ & u & Hu & E).
    apply nth_error_In, select_in in Hu. exact (Hline u _ Hu E).
  - intros Hno row times amps Hin.
    assert (E2 : ref1 = ref0 /\ unmod = select_loc "unmod" hd) by (destruct Hno as [-> | ->]; exact H2).
    destruct E2 as (-> & Eu). destruct unmod as [|u0 us]; [subst r; destruct Hin|].
    destruct (Forall2_in_r _ _ _ _ Hr Hin) as (i & _ & u & Hu & E).
    rewrite Eu in Hu. apply nth_error_In, select_in in Hu. exact (Hline u _ Hu E).
Qed.
Print Assumptions C68_scaled_partial.

(** C68: with a second stream the right panel is scaled by the constant component of
    the second stream if no component of it exceeds the largest amplitude of hd. *)
Theorem C68_second_partial hd hd2 l r peak :
  hd2 <> [] -> plot_harmonics hd (Some hd2) = Ok (l, r) ->
  is_peak (List.concat (map data hd)) peak ->
  (forall t x, In t (select_loc "mod" hd2) -> In x (data t) -> Qabs x <= peak)%Q ->
  exists t c, nth_error (select_cha "0" (select_loc "mod" hd2)) 0 = Some t /\ is_peak (data t) c /\
    ((0 < c)%Q -> (forall u x, In u (select_loc "mod" hd2) -> In x (data u) -> Qabs x <= c)%Q ->
     forall row times amps, In (row, times, amps) r -> drawn_within 1 amps).
Proof.
  intros Hne H Hpk Hle. apply harm_main in H.
  destruct H as (ref0 & ref1 & unmod & Hp & _ & Hr & H2).
  destruct hd2 as [|t2 ts2]; [congruence|]. set (h2 := t2 :: ts2) in *.
  destruct H2 as (Eu & c & Hc & Hf). unfold head_ref in Hc.
  destruct (pyindex (select_cha "0" (select_loc "mod" h2)) 0) as [t|] eqn:Et; [|discriminate].
  cbn [bind] in Hc. apply (pyindex_nat _ 0) in Et. apply max_abs_peak in Hc.
  exists t, c. split; [exact Et|]. split; [exact Hc|]. intros Hpos Hall.
  assert (Eq : (peak == ref0)%Q).
  { destruct Hp as (B1 & x1 & I1 & E1). destruct Hpk as (B2 & x2 & I2 & E2).
    apply Qle_antisym; [rewrite <- E2; now apply B1 | rewrite <- E1; now apply B2]. }
  assert (E : ref1 = c).
  { clear -Hf Hle Eq. revert Hle Hf. generalize (select_loc "mod" h2). intros m. induction m as [|u m IH]; intros Hle Hf.
    - now injection Hf as <-.
    - cbn [foldM] in Hf. unfold ref1_step at 1 in Hf.
      destruct (max_abs (data u)) as [mu|] eqn:Em; [|discriminate]. cbn [bind] in Hf.
      apply max_abs_peak in Em. destruct Em as (_ & x & Hx & Ex).
      assert (L : Qle_bool mu ref0 = true).
      { apply Qle_bool_iff. rewrite <- Ex, <- Eq. apply (Hle u x); [now left|exact Hx]. }
      rewrite L in Hf. apply IH; [|exact Hf]. intros u' x' Hu'. apply Hle. now right. }
  subst ref1. intros row times amps Hin.
  destruct unmod as [|u0 us]; [subst r; destruct Hin|].
  destruct (Forall2_in_r _ _ _ _ Hr Hin) as (i & _ & u & Hu & El).
  rewrite Eu in Hu. apply nth_error_In in Hu. apply harm_line_spec in El.
  destruct El as (o & ch & _ & _ & E). injection E as -> -> ->.
  apply qdiv_within; [exact Hpos|]. intros y Hy. eapply Hall; eassumption.
Qed.
Print Assumptions C68_second_partial.

Definition tr68 (loc cha : string) (d : list Q) : trace :=
  mkTrace (mkStats "CX" "PB01" loc cha 0 1 [("onset", VTime 0)]) d.
Definition hd68 (a : Q) : list trace :=
  [tr68 "mod" "0" [1; a]; tr68 "mod" "1" [a; a]; tr68 "mod" "2" [0; 0]; tr68 "mod" "3" [0; 1]; tr68 "mod" "4" [0; -1]]%Q.
Example C68_nonvacuous : exists l r, plot_harmonics (hd68 (-2)) (Some (hd68 1)) = Ok (l, r) /\
  map (fun x => fst (fst x)) l = [4; 3; 2; 1; 0]%Z /\ List.length r = 5.
Proof. do 2 eexists. vm_compute. repeat split. Qed.

(** C68 does not hold: the amplitudes of the second stream are compared with the
    largest amplitude of the first one. Here hd has amplitudes up to 10, the second
    stream up to 5 in a component which is not the constant one, so that its
    wiggle has an amplitude of 5 instead of 1. *)
Theorem C68_refuted : exists hd hd2 l r row times amps,
  plot_harmonics hd (Some hd2) = Ok (l, r) /\ In (row, times, amps) r /\ ~ drawn_within 1 amps.
Proof.
  exists (hd68 10), [tr68 "mod" "0" [1; 1]; tr68 "mod" "1" [5; 5]; tr68 "mod" "2" [0; 0]; tr68 "mod" "3" [0; 1];
                     tr68 "mod" "4" [0; -1]]%Q.
  do 5 eexists. split; [vm_compute; reflexivity|]. split; [right; left; reflexivity|].
  intros H. destruct (H _ (or_introl eq_refl)) as (x & E & L). injection E as <-. now apply L.
Qed.
Print Assumptions C68_refuted.

(** C91: the row labelled with a function shows the coefficient of this function. *)
Theorem C91_rows hd hd2 l r row times amps :
  plot_harmonics hd hd2 = Ok (l, r) -> In (row, times, amps) l ->
  exists t o, In t hd /\ has_onset t o /\ upper (location (st t)) = "MOD" /\
    times = map (sample_time t o) (seq 0 (List.length (data t))) /\
    List.length amps = List.length (data t) /\
    (channel (st t) = "0" -> row = 4%Z /\ nth_error row_labels 4 = Some "constant") /\
    (channel (st t) = "1" -> row = 3%Z /\ nth_error row_labels 3 = Some "cos($\theta$)") /\
    (channel (st t) = "2" -> row = 2%Z /\ nth_error row_labels 2 = Some "sin($\theta$)") /\
    (channel (st t) = "3" -> row = 1%Z /\ nth_error row_labels 1 = Some "cos($2\theta$)") /\
    (channel (st t) = "4" -> row = 0%Z /\ nth_error row_labels 0 = Some "sin($2\theta$)").
Proof.
  intros H Hin. apply harm_main in H. destruct H as (ref0 & ref1 & unmod & _ & Hl & _).
  destruct (Forall2_in_r _ _ _ _ Hl Hin) as (i & _ & t & Ht & E).
  apply nth_error_In in Ht. apply harm_line_spec in E. destruct E as (o & c & Ho & Hc & E).
  injection E as -> -> ->. exists t, o. apply filter_In in Ht. destruct Ht as (Ht & Hloc).
  apply String.eqb_eq in Hloc. split; [exact Ht|]. split; [exact Ho|]. split; [exact Hloc|].
  split; [reflexivity|]. split; [apply map_length|].
  repeat match goal with |- _ /\ _ => split end; intros Ech; rewrite Ech in Hc; cbn in Hc; injection Hc as <-;
    split; reflexivity.
Qed.
Print Assumptions C91_rows.

(** C69: the bars of the histogram have the width of the boxes and the number of
    receiver functions as height, but each bar ends at the center of its box.
    Missing: they span the boxes, see C69_refuted. *)
Theorem C69_hist_partial profile scale p :
  plot_profile profile scale (Some "hist") = Ok (Some p) ->
  exists bars, pp_bars p = Some bars /\ List.length bars = List.length profile /\
  forall i t, nth_error profile i = Some t ->
  exists pos len num lo hi h,
    dget (extra (st t)) "box_pos" = Some (VNum pos) /\
    dget (extra (st t)) "box_length" = Some (VNum len) /\
    dget (extra (st t)) "num" = Some (VNum num) /\
    nth_error bars i = Some (lo, hi, h) /\ h = num /\
    (lo == pos - len)%Q /\ (hi == pos)%Q.
Proof.
  intros H. apply profile_main in H.
  destruct H as (widths & minw & poss & lo & hi & mx & E1 & _ & E3 & _ & _ & _ & _ & _ & _ & height & E9 & ->).
  eexists. split; [reflexivity|]. split.
  { rewrite map_length, !combine_length, map_length, combine_length.
    apply mapM_ok_length in E1, E3, E9. lia. }
  intros i t Ht.
  destruct (mapM_nth _ _ _ _ _ E1 Ht) as (len & G1 & N1).
  destruct (mapM_nth _ _ _ _ _ E3 Ht) as (pos & G2 & N2).
  destruct (mapM_nth _ _ _ _ _ E9 Ht) as (num & G3 & N3).
  apply num_attr_spec in G1, G2, G3.
  exists pos, len, num. do 3 eexists. split; [exact G2|]. split; [exact G1|]. split; [exact G3|].
  split.
  - rewrite nth_error_map. rewrite (nth_error_combine _ _ i (pos - len / 2, num)%Q len); [reflexivity| |exact N1].
    apply nth_error_combine; [|exact N3]. rewrite nth_error_map, (nth_error_combine _ _ i pos len N2 N1). reflexivity.
  - split; [reflexivity|]. split; field.
Qed.
Print Assumptions C69_hist_partial.

Definition tr69 (pos len num : Q) (d : list Q) : trace :=
  mkTrace (mkStats "" "" "" "??Q" 0 1
    [("box_pos", VNum pos); ("box_length", VNum len); ("num", VNum num); ("onset", VTime 0)]) d.
Example C69_nonvacuous : exists p,
  plot_profile [tr69 5 10 3 [1; -2]; tr69 15 10 1 [0; 1]]%Q 1 (Some "hist") = Ok (Some p).
Proof. eexists. vm_compute. reflexivity. Qed.

(** C69 does not hold: the bar of a box from 0 to 10 km spans -5 to 5 km. *)
Theorem C69_refuted : exists profile p bars t pos len lo hi h,
  plot_profile profile 1 (Some "hist") = Ok (Some p) /\ pp_bars p = Some bars /\
  nth_error profile 0 = Some t /\ nth_error bars 0 = Some (lo, hi, h) /\
  dget (extra (st t)) "box_pos" = Some (VNum pos) /\ dget (extra (st t)) "box_length" = Some (VNum len) /\
  ~ (lo == pos - len / 2)%Q /\ ~ (hi == pos + len / 2)%Q.
Proof.
  exists [tr69 5 10 3 [1; -2]]%Q. do 8 eexists. split; [vm_compute; reflexivity|].
  split; [reflexivity|]. split; [reflexivity|]. split; [reflexivity|].
  split; [reflexivity|]. split; [reflexivity|]. split; discriminate.
Qed.
Print Assumptions C69_refuted.

(** C88: plot_rf draws trace i at level i + 1 over its times relative to the onset,
    scaled by the largest amplitude of the trace or of all traces; the limits contain
    all times and the onset; additional information is drawn at the level of its
    trace; the title counts the traces. *)
Theorem C88_plot_rf ids s trace_scale scale_factor info p :
  plot_rf ids s trace_scale scale_factor info true = Ok (Some p) ->
  Forall (fun t => 0 < delta (st t))%Z s ->
  List.length (rp_lines p) = List.length s /\
  (forall i t, nth_error s i = Some t ->
     exists o m times amps,
       has_onset t o /\
       is_peak (if trace_scale then data t else List.concat (map data s)) m /\
       nth_error (rp_lines p) i = Some (i + 1, times, amps) /\
       times = map (sample_time t o) (seq 0 (List.length (data t))) /\
       ((0 < m)%Q -> Forall2 (fun x y => exists q, y = Some q /\ q == x / m * scale_factor)%Q (data t) amps) /\
       (forall x, In x times -> (fst (rp_xlim p) <= x <= snd (rp_xlim p))%Z) /\
       (fst (rp_ylim p) < inject_Z (Z.of_nat (i + 1)) < snd (rp_ylim p))%Q) /\
  (fst (rp_xlim p) <= 0 <= snd (rp_xlim p))%Z /\
  map fst (rp_info p) = info /\
  (forall h points i t, In (h, points) (rp_info p) -> nth_error s i = Some t ->
     exists v, tr_get t h = Some v /\ nth_error points i = Some (v, i + 1)) /\
  rp_title p = (List.length s, label s).
Proof.
  unfold plot_rf. destruct s as [|t0 ts] eqn:Es; [discriminate|]. rewrite <- Es in *. clear Es.
  cbv zeta. cbv iota. intros H Hd.
  destruct (mapM (fun t => max_abs (data t)) s) as [maxs|] eqn:E1; [|discriminate]. cbn [bind] in H.
  destruct (py_max maxs) as [mx|] eqn:E2; [|discriminate]. cbn [bind] in H.
  destruct (foldM _ s _) as [[[[lines [x0 x1]] times] n]|] eqn:E3; [|discriminate]. cbn [bind] in H.
  destruct (plot_info s info) as [pts|] eqn:E4; [|discriminate]. cbn [bind] in H.
  destruct (plot_stack ids s times) as [stk|] eqn:E5; [|discriminate]. cbn [bind] in H.
  injection H as <-. cbn [rp_lines rp_info rp_xlim rp_ylim rp_title fst snd].
  apply plot_rf_loop in E3; [|exact Hd]. destruct E3 as (l & -> & L & Hl & Hx & Hx2).
  apply plot_info_spec in E4. destruct E4 as (I1 & I2).
  cbn [app]. split; [exact L|]. split; [|split; [lia|split; [exact I1|split; [exact I2|reflexivity]]]].
  intros i t Ht. destruct (Hl i t Ht) as (line & Hn & o & m & Ho & Hm & ->).
  exists o, m. do 2 eexists. split; [exact Ho|]. split.
  { destruct trace_scale; [exact Hm|]. subst m. eapply peak_concat; eassumption. }
  split; [exact Hn|]. split; [reflexivity|]. split; [|split].
  - intros Hpos. generalize (data t). intros d. induction d as [|y d IH]; constructor; [|exact IH].
    unfold qdiv. destruct (Qeq_bool m 0) eqn:E.
    + apply Qeq_bool_iff in E. rewrite E in Hpos. discriminate.
    + eexists. split; reflexivity.
  - intros x Hxin. eapply Hx2; [|exact Hxin]. eapply nth_error_In. exact Hn.
  - assert (Li : i < List.length s) by (apply nth_error_Some; congruence).
    assert (A1 : (inject_Z 1 <= inject_Z (Z.of_nat (i + 1)))%Q) by (rewrite <- Zle_Qle; lia).
    assert (A2 : (inject_Z (Z.of_nat (i + 1)) <= inject_Z (Z.of_nat (List.length s)))%Q) by (rewrite <- Zle_Qle; lia).
    change (inject_Z 1) with 1%Q in A1. split; lra.
Qed.
Print Assumptions C88_plot_rf.

Definition tr88 (baz : Q) (o : Z) (d : list Q) : trace :=
  mkTrace (mkStats "CX" "PB01" "" "BHQ" 0 1 [("onset", VTime o); ("back_azimuth", VNum baz)]) d.
Example C88_nonvacuous : exists p,
  plot_rf ["CX.PB01..BHQ"] [tr88 90 1 [1; -2; 1]; tr88 45 2 [0; 4; 0]]%Q false 1 ["back_azimuth"] true = Ok (Some p) /\
  rp_stack p <> None.
Proof. eexists. split; [vm_compute; reflexivity|]. discriminate. Qed.

(** C89: the traces of a profile are drawn around the positions of their boxes with a
    common scale, and stay inside the limits of the plot.
    Missing: negative scales, see C89_refuted. *)
Theorem C89_profile_limits_partial profile scale top p :
  plot_profile profile scale top = Ok (Some p) -> (0 <= scale)%Q ->
  (forall t w, In t profile -> dget (extra (st t)) "box_length" = Some (VNum w) -> (0 <= w)%Q) ->
  exists peak minw, is_peak (List.concat (map data profile)) peak /\
    (exists t, In t profile /\ dget (extra (st t)) "box_length" = Some (VNum minw)) /\
    (forall t w, In t profile -> dget (extra (st t)) "box_length" = Some (VNum w) -> (minw <= w)%Q) /\
    List.length (pp_lines p) = List.length profile /\
    forall i t, nth_error profile i = Some t -> (0 < peak)%Q ->
    exists pos o xs, dget (extra (st t)) "box_pos" = Some (VNum pos) /\ has_onset t o /\
      nth_error (pp_lines p) i = Some (pos, xs, map (sample_time t o) (seq 0 (List.length (data t)))) /\
      Forall2 (fun d ox => exists x, ox = Some x /\ (x == pos + scale * d / peak * minw)%Q /\
                 (fst (pp_xlim p) <= x <= snd (pp_xlim p))%Q) (data t) xs.
Proof.
  intros H Hs Hw. apply profile_main in H.
  destruct H as (widths & minw & poss & lo & hi & mx & E1 & E2 & E3 & E4 & E5 & Hp & E8 & Ex & _).
  exists mx, minw. split; [exact Hp|].
  apply py_min_spec in E2. destruct E2 as (M1 & M2).
  apply py_min_spec in E4. apply py_max_spec in E5. destruct E4 as (L1 & _), E5 as (U1 & _).
  assert (HF := proj1 (mapM_ok_Forall2 _ _ _) E1).
  assert (Hmin : exists t, In t profile /\ dget (extra (st t)) "box_length" = Some (VNum minw)).
  { destruct (Forall2_in_r _ _ _ _ HF M2) as (t & Ht & E). exists t. split; [exact Ht|]. now apply num_attr_spec. }
  split; [exact Hmin|]. split.
  { intros t w Ht Hwt. destruct (Forall2_in_l _ _ _ _ HF Ht) as (w2 & Hw2 & E).
    apply num_attr_spec in E. rewrite E in Hwt. injection Hwt as ->. now apply M1. }
  assert (Hnn : (0 <= minw)%Q) by (destruct Hmin as (t & Ht & E); eapply Hw; eassumption).
  split; [eapply mapM_ok_length; exact E8|].
  intros i t Ht Hpos.
  destruct (mapM_nth _ _ _ _ _ E8 Ht) as (line & G & N). unfold profile_lines in G.
  destruct (num_attr "box_pos" t) as [pos|] eqn:Epos; [|discriminate]. cbn [bind] in G.
  destruct (times_rel t) as [y|] eqn:Ey; [|discriminate]. cbn [bind] in G. injection G as <-.
  apply times_rel_spec in Ey. destruct Ey as (o & Ho & ->).
  destruct (mapM_nth _ _ _ _ _ E3 Ht) as (pos2 & G2 & N2). rewrite Epos in G2. injection G2 as <-.
  exists pos, o. eexists. split; [now apply num_attr_spec|]. split; [exact Ho|]. split; [exact N|].
  assert (Hin : forall d, In d (data t) -> (Qabs d <= mx)%Q).
  { intros d Hd. apply Hp. apply in_concat. exists (data t). split; [|exact Hd]. apply in_map.
    eapply nth_error_In; exact Ht. }
  assert (Lp : (lo <= pos <= hi)%Q) by (apply nth_error_In in N2; split; [now apply L1 | now apply U1]).
  rewrite Ex. cbn [fst snd].
  assert (Hq : (scale <= Qmax 1 scale)%Q).
  { unfold Qmax. destruct (Qle_bool 1 scale) eqn:B; [apply Qle_refl|].
    destruct (Qlt_le_dec scale 1) as [L|L]; [now apply Qlt_le_weak|]. apply Qle_bool_iff in L. congruence. }
  clear -Hin Lp Hq Hs Hnn Hpos. induction (data t) as [|d ds IH]; constructor.
  - unfold qdiv. destruct (Qeq_bool mx 0) eqn:E.
    { apply Qeq_bool_iff in E. rewrite E in Hpos. discriminate. }
    eexists. split; [reflexivity|]. split; [reflexivity|].
    assert (Hd := Hin d (or_introl eq_refl)). apply Qabs_Qle_condition in Hd.
    set (u := (d / mx)%Q).
    assert (Hu : (-1 <= u <= 1)%Q).
    { unfold u. split.
      - apply Qle_shift_div_l; [exact Hpos|]. lra.
      - apply Qle_shift_div_r; [exact Hpos|]. lra. }
    assert (Eu : (scale * d / mx == scale * u)%Q) by (unfold u; field; intros E0; rewrite E0 in Hpos; discriminate).
    rewrite Eu. set (q := Qmax 1 scale) in *.
    assert (B1 : (scale * u * minw <= q * minw)%Q).
    { apply Qmult_le_compat_r; [|exact Hnn]. nra. }
    assert (B2 : (- (q * minw) <= scale * u * minw)%Q).
    { assert (C : (- q * minw <= scale * u * minw)%Q) by (apply Qmult_le_compat_r; [nra|exact Hnn]). lra. }
    lra.
  - apply IH. intros x Hx. apply Hin. now right.
Qed.
Print Assumptions C89_profile_limits_partial.
Theorem C89_refuted : exists profile scale p base xs times x,
  plot_profile profile scale None = Ok (Some p) /\ In (base, xs, times) (pp_lines p) /\
  In (Some x) xs /\ (snd (pp_xlim p) < x)%Q.
Proof.
  exists [tr69 5 10 3 [1; -2]]%Q, (-3)%Q. do 5 eexists. split; [vm_compute; reflexivity|].
  split; [left; reflexivity|]. split; [right; left; reflexivity|]. reflexivity.
Qed.
Print Assumptions C89_refuted.

(** C90: plot_stations draws each station of a stream once, at (longitude, latitude),
    labelled with its own name. *)
Theorem C90_stations s pts labels :
  plot_stations_stream s true = Ok (pts, labels) ->
  pts = map snd labels /\
  (forall name lo la, In (name, (lo, la)) labels -> exists t, In t s /\ station (st t) = name /\
     dget (extra (st t)) "station_latitude" = Some (VNum la) /\
     dget (extra (st t)) "station_longitude" = Some (VNum lo)) /\
  (forall t la lo, In t s -> dget (extra (st t)) "station_latitude" = Some (VNum la) ->
     dget (extra (st t)) "station_longitude" = Some (VNum lo) ->
     exists lo' la', In (station (st t), (lo', la')) labels /\ (lo' == lo)%Q /\ (la' == la)%Q) /\
  ForallOrdPairs (fun a b => ~ (fst a = fst b /\ fst (snd a) == fst (snd b) /\ snd (snd a) == snd (snd b))%Q) labels.
Proof.
  unfold plot_stations_stream. destruct (mapM _ s) as [d|] eqn:E; [|discriminate]. cbn [bind].
  intros H. assert (HF := proj1 (mapM_ok_Forall2 _ _ _) E). clear E.
  assert (Hd : forall x, In x d -> exists t, In t s /\ station (st t) = snd x /\
     dget (extra (st t)) "station_latitude" = Some (VNum (fst (fst x))) /\
     dget (extra (st t)) "station_longitude" = Some (VNum (snd (fst x)))).
  { intros x Hx. destruct (Forall2_in_r _ _ _ _ HF Hx) as (t & Ht & E). exists t. split; [exact Ht|].
    destruct (num_attr "station_latitude" t) as [la|] eqn:A; [|discriminate]. cbn [bind] in E.
    destruct (num_attr "station_longitude" t) as [lo|] eqn:B; [|discriminate]. cbn [bind] in E.
    injection E as <-. apply num_attr_spec in A, B. simpl. tauto. }
  unfold plot_points in H. set (u := dedup sta_eqb d) in *.
  assert (Hsub : forall x, In x u -> In x d) by (intros x; apply dedup_sub).
  assert (Hcov : forall x, In x d -> exists y, In y u /\ sta_eqb x y = true).
  { intros x. apply dedup_cover. intros a. apply sta_eqb_spec. repeat split. }
  assert (Hpair : ForallOrdPairs (fun a b => sta_eqb a b = false) u) by apply dedup_pairs.
  clearbody u. destruct u as [|u0 us] eqn:Eu; [discriminate|]. rewrite <- Eu in *. clear Eu.
  injection H as Hpts Hlab.
  assert (El : labels = map (fun x => (snd x, (snd (fst x), fst (fst x)))) u).
  { subst labels. clear. induction u as [|x u IH]; [reflexivity|]. simpl. now rewrite IH. }
  assert (Ep : pts = map (fun x => (snd (fst x), fst (fst x))) u).
  { subst pts. now rewrite map_map. }
  clear Hpts Hlab. subst labels pts. split; [now rewrite map_map|]. split; [|split].
  - intros name lo la Hin. apply in_map_iff in Hin. destruct Hin as (x & Ex & Hx).
    injection Ex as <- <- <-. now apply Hd, Hsub.
  - intros t la lo Ht Ela Elo. destruct (Forall2_in_l _ _ _ _ HF Ht) as (x & Hx & E).
    apply num_attr_spec in Ela, Elo. rewrite Ela, Elo in E. cbn [bind] in E. injection E as <-.
    destruct (Hcov _ Hx) as (y & Hy & Ey). apply sta_eqb_spec in Ey. simpl in Ey.
    destruct Ey as ((E1 & E2) & E3). exists (snd (fst y)), (fst (fst y)). split.
    + apply in_map_iff. exists y. split; [now rewrite E3|exact Hy].
    + split; symmetry; assumption.
  - clear -Hpair. induction Hpair as [|a l Ha _ IH]; simpl; constructor; [|exact IH].
    apply Forall_forall. intros b Hb. apply in_map_iff in Hb. destruct Hb as (x & <- & Hx).
    rewrite Forall_forall in Ha. specialize (Ha x Hx). simpl. intros (E1 & E2 & E3).
    assert (sta_eqb a x = true) by (apply sta_eqb_spec; tauto). congruence.
Qed.
Print Assumptions C90_stations.
(** Stations of an inventory: one point for each entry, in its order, with the label if asked for. An
    inventory without stations raises an exception. *)
Definition drawn_at (s : string * Q * Q) (p : Q * Q) : Prop := let '(code, la, lo) := s in p = (lo, la).
Definition labelled (s : string * Q * Q) (n : string * (Q * Q)) : Prop := let '(code, la, lo) := s in n = (code, (lo, la)).
Theorem C90_inventory inv label :
  (List.concat inv = [] -> plot_stations_inventory inv label = Err ValueError) /\
  (List.concat inv <> [] -> exists pts labels, plot_stations_inventory inv label = Ok (pts, labels) /\
     Forall2 drawn_at (List.concat inv) pts /\ (label = true -> Forall2 labelled (List.concat inv) labels) /\ (label = false -> labels = [])).
Proof.
  unfold plot_stations_inventory. rewrite <- concat_map. generalize (List.concat inv). intros l. split.
  - intros ->. reflexivity.
  - intros Hl. unfold plot_points. destruct l as [|s l]; [congruence|]. clear Hl.
    assert (forall l : list (string * Q * Q), Forall2 drawn_at l (map (fun p => (snd p, fst p)) (map fst (map (fun s => let '(code, la, lo) := s in ((la, lo), code)) l)))) as H1.
    { induction l0 as [|[[c la] lo] l0 IH]; simpl; constructor; [reflexivity | exact IH]. }
    assert (forall l : list (string * Q * Q), let d := map (fun s => let '(code, la, lo) := s in ((la, lo), code)) l in
      Forall2 labelled l (map (fun ln => (snd ln, (snd (fst ln), fst (fst ln)))) (combine (map fst d) (map snd d)))) as H2.
    { cbv zeta. induction l0 as [|[[c la] lo] l0 IH]; simpl; constructor; [reflexivity | exact IH]. }
    destruct (map _ (s :: l)) as [|x y] eqn:E; [discriminate|]. specialize (H1 (s :: l)). specialize (H2 (s :: l)). cbv zeta in H2. rewrite E in H1, H2.
    do 2 eexists. split; [reflexivity|]. split; [exact H1|]. split; intros ->; [exact H2 | reflexivity].
Qed.
Print Assumptions C90_inventory.
Example C90_inventory_nonvacuous :
  plot_stations_inventory [[("PB01", -21, -69); ("PB02", -22, -70)]; [("ABC", 50, 10)]]%Q true =
    Ok ([(-69, -21); (-70, -22); (10, 50)], [("PB01", (-69, -21)); ("PB02", (-70, -22)); ("ABC", (10, 50))])%Q.
Proof. reflexivity. Qed.
Definition tr90 (sta : string) (la lo : Q) : trace :=
  mkTrace (mkStats "CX" sta "" "BHQ" 0 1 [("station_latitude", VNum la); ("station_longitude", VNum lo)]) [].
Example C90_nonvacuous : exists pts labels,
  plot_stations_stream [tr90 "PB01" (-21) (-69); tr90 "PB02" (-22) (-69); tr90 "PB01" (-21) (-69)]%Q true = Ok (pts, labels) /\
  map fst labels = ["PB02"; "PB01"].
Proof. do 2 eexists. split; [vm_compute; reflexivity|]. reflexivity. Qed.
