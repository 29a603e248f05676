(** C110-C112: the commands plot, plot-profile and profile. *)
From Verif Require Import Model.Figures Spec.BatchSpec Spec.FigureSpec Properties.BatchProps Proofs.PyFacts Proofs.BatchFacts Proofs.BatchRead Proofs.BatchLoop Proofs.OnceFacts Proofs.FigureFacts.
Notation length := List.length.

(** * C110 *)
(** rf plot for streams of different stations: for each station and channel a file with its code
    shows exactly the traces of this channel, sorted by back azimuth; there are no other files. *)
Theorem C110_figures D (draw : list trace -> res D) channel_set root items figs :
  sets channel_set -> Forall (fun x => station_stream (fst x) (snd x)) items ->
  ForallOrdPairs (fun a b => ~ same_station (fst a) (fst b)) items ->
  plot_command draw channel_set root (map snd items) None = (figs, None) ->
  (forall p s t, In (p, s) items -> In t s ->
     exists l d, Permutation l (of_channel (channel (st t)) s) /\ by_azimuth l /\ draw l = Ok d /\
       dget (save_all figs) (figure_name root p (channel (st t))) = Some d) /\
  (forall n d, dget (save_all figs) n = Some d -> exists p s t, In (p, s) items /\ In t s /\ n = figure_name root p (channel (st t))).
Proof.
  intros Hset Hst Hdiff H. destruct (plot_spec draw channel_set root _ _ H) as (figss & -> & HF).
  pose (one := fun (x : spair * list trace) (f : list (string * D)) => Forall2 (fun c y => exists l, Permutation l (of_channel c (snd x)) /\ by_azimuth l /\ draw l = Ok (snd y) /\
      fst y = figure_name root (fst x) c) (channel_set (snd x)) f).
  assert (Forall2 one items figss) as HF2.
  { revert HF Hst. clear - Hset. revert figss. induction items as [|[p s] items IH]; intros figss HF Hst; inversion HF as [|? f ? fs H1 H2]; subst; [constructor|].
    inversion Hst as [|? ? Hp Hst']; subst. constructor; [|apply IH; assumption]. cbn [fst snd] in *. apply figures_spec in H1. unfold one. cbn [fst snd].
    destruct Hp as (C1 & C2 & C3 & Hs). destruct (Hset s) as [_ Hc].
    assert (Forall (fun t => channel_ok (channel (st t))) s) as Hok by (eapply Forall_impl; [|exact Hs]; cbn; tauto).
    assert (forall c, In c (channel_set s) -> channel_ok c) as Hco.
    { intros c Hin. apply Hc in Hin. destruct Hin as (t & Ht & <-). rewrite Forall_forall in Hok. apply Hok, Ht. }
    revert Hco H1. clear - Hok Hs. generalize (channel_set s). intros chans Hco H1. induction H1 as [|c y chans f Hy HF IH]; [constructor|]. constructor; [|apply IH; intros; apply Hco; right; assumption].
    destruct Hy as (first & rest & l & E1 & E2 & E3 & E4). pose proof (Hco c (or_introl eq_refl)) as Hcc. rewrite select_exact in E1 by assumption.
    destruct (sort_azimuth_ok _ _ E3) as [P Hsrt]. exists l. split; [rewrite E1; exact P|]. split; [exact Hsrt|]. split; [exact E4|].
    assert (In first (of_channel c s)) as Hin by (rewrite E1; left; reflexivity). unfold of_channel in Hin. apply filter_In in Hin. destruct Hin as [Hin Ec]. apply String.eqb_eq in Ec.
    rewrite Forall_forall in Hs. destruct (Hs first Hin) as (N1 & N2 & N3 & _). unfold pdf_name in E2. injection E2 as <-. rewrite N1, N2, N3, Ec. unfold nsl, figure_name. rewrite !sapp_assoc. reflexivity. }
  assert (NoDup (map fst (List.concat figss))) as Hnd.
  { clear H HF. revert Hst Hdiff HF2. clear - Hset. revert figss. induction items as [|[p s] items IH]; intros figss Hst Hdiff HF; inversion HF as [|? f ? fs H1 H2]; subst; [constructor|].
    inversion Hst as [|? ? Hp Hst']; subst. inversion Hdiff as [|? ? Hx Hd']; subst. clear HF. cbn [List.concat]. rewrite map_app. apply NoDup_app_intro; [|apply IH; assumption|].
    - unfold one in H1. cbn [fst snd] in *. destruct (Hset s) as [Hnd Hc]. destruct Hp as (C1 & C2 & C3 & Hs).
      assert (forall c, In c (channel_set s) -> code c) as Hco.
      { intros c Hin. apply Hc in Hin. destruct Hin as (t & Ht & <-). rewrite Forall_forall in Hs. apply (Hs t Ht). }
      revert Hnd Hco H1. generalize (channel_set s). intros chans Hnd Hco H1. induction H1 as [|c y chans f (l & _ & _ & _ & Ey) HF' IH']; [constructor|]. inversion Hnd; subst. cbn [map]. constructor; [|apply IH'; [assumption | intros; apply Hco; right; assumption]].
      intros Hin. apply in_map_iff in Hin. destruct Hin as (z & Ez & Hz). destruct (F2_in_r _ _ _ _ HF' Hz) as (c' & Hc' & l' & _ & _ & _ & Ez'). rewrite Ez', Ey in Ez.
      apply figure_name_inj in Ez; [|repeat (split; try assumption) | repeat (split; try assumption) | apply Hco; right; exact Hc' | apply Hco; left; reflexivity]. destruct Ez as [_ ->]. contradiction.
    - intros n H3 H4. apply in_map_iff in H3. destruct H3 as (y & <- & Hy). unfold one in H1. destruct (F2_in_r _ _ _ _ H1 Hy) as (c & Hc & l & _ & _ & _ & Ey). cbn [fst snd] in *.
      apply in_map_iff in H4. destruct H4 as (z & Ez & Hz). apply in_concat in Hz. destruct Hz as (f' & Hf' & Hz). destruct (F2_in_r _ _ _ _ H2 Hf') as ([q s'] & Hq & Hone). unfold one in Hone.
      destruct (F2_in_r _ _ _ _ Hone Hz) as (c' & Hc' & l' & _ & _ & _ & Ez'). cbn [fst snd] in *. rewrite Ey, Ez' in Ez. rewrite Forall_forall in Hx, Hst'. pose proof (Hst' _ Hq) as (D1 & D2 & D3 & Hs'). destruct Hp as (C1 & C2 & C3 & Hs). cbn [fst snd] in *.
      apply Hset in Hc, Hc'. destruct Hc as (t & Ht & <-), Hc' as (t' & Ht' & <-). rewrite Forall_forall in Hs, Hs'.
      apply figure_name_inj in Ez; [|repeat (split; try assumption) | repeat (split; try assumption) | apply (Hs' t' Ht') | apply (Hs t Ht)].
      destruct Ez as [(S1 & S2 & S3) _]. apply (Hx (q, s') Hq). repeat split; cbn [fst]; congruence. }
  rewrite save_all_spec by exact Hnd. split.
  - intros p s t Hin Ht. destruct (F2_in_l _ _ _ _ HF2 Hin) as (f & Hf & Hone). unfold one in Hone. cbn [fst snd] in Hone.
    destruct (F2_in_l _ _ _ (channel (st t)) Hone) as (y & Hy & l & P & S & Dr & E); [apply Hset; exists t; auto|].
    exists l, (snd y). split; [exact P|]. split; [exact S|]. split; [exact Dr|]. apply dget_in; [exact Hnd|]. rewrite <- E. apply in_concat. exists f. destruct y; auto.
  - intros n d Hn. apply dget_in in Hn; [|exact Hnd]. apply in_concat in Hn. destruct Hn as (f & Hf & Hn). destruct (F2_in_r _ _ _ _ HF2 Hf) as ([p s] & Hin & Hone). unfold one in Hone.
    destruct (F2_in_r _ _ _ _ Hone Hn) as (c & Hc & l & _ & _ & _ & E). cbn [fst snd] in *. apply Hset in Hc. destruct Hc as (t & Ht & <-). exists p, s, t. auto.
Qed.
Print Assumptions C110_figures.
(** The command succeeds if all traces have a back azimuth and figures can be drawn. *)
Theorem C110_succeeds D (draw : list trace -> res D) channel_set root streams :
  sets channel_set -> Forall (Forall (fun t => baz t <> None /\ channel_ok (channel (st t)))) streams -> (forall l, l <> [] -> exists d, draw l = Ok d) ->
  exists figs, plot_command draw channel_set root streams None = (figs, None).
Proof.
  intros Hset Hs Hd. induction Hs as [|s streams Hs _ [figs IH]]; [exists []; reflexivity|]. cbn [plot_command]. rewrite IH.
  assert (exists f, figures draw (pdf_name root) sort_azimuth (channel_set s) s = (f, None)) as [f ->]; [|eauto].
  assert (forall l, Forall (fun t => baz t <> None) l -> exists l', sort_azimuth l = Ok l') as Hsort.
  { intros l Hl. unfold sort_azimuth. assert (exists az, mapM azimuth l = Ok az) as [az ->]; [|cbn [bind]; eauto].
    induction Hl as [|t l Ht Hl [az IH']]; [exists []; reflexivity|]. cbn [mapM]. destruct (baz t) as [q|] eqn:E; [|congruence]. apply azimuth_baz in E. rewrite E. cbn [bind]. rewrite IH'. cbn [bind]. eauto. }
  destruct (Hset s) as [_ Hc]. assert (forall c, In c (channel_set s) -> exists t, In t s /\ channel (st t) = c) as Hc' by (intros; apply Hc; assumption).
  revert Hc'. generalize (channel_set s). intros chans Hc'. clear Hc IH. induction chans as [|c chans IH]; [exists []; reflexivity|]. cbn [figures].
  destruct (Hc' c (or_introl eq_refl)) as (t & Ht & <-).
  assert (Forall (fun t => channel_ok (channel (st t))) s) as Hok by (eapply Forall_impl; [|exact Hs]; cbn; tauto).
  rewrite select_exact; [|rewrite Forall_forall in Hok; apply Hok, Ht | exact Hok].
  assert (In t (of_channel (channel (st t)) s)) as Hin by (unfold of_channel; apply filter_In; split; [exact Ht | apply String.eqb_refl]).
  destruct (of_channel (channel (st t)) s) as [|first rest] eqn:Eo; [destruct Hin|]. assert (exists n, pdf_name root first = Ok n) as [n ->] by (eexists; reflexivity). cbn [bind].
  destruct (Hsort (first :: rest)) as [l Hl].
  { rewrite <- Eo. apply Forall_forall. intros u Hu. unfold of_channel in Hu. apply filter_In in Hu. rewrite Forall_forall in Hs. apply (Hs u). apply Hu. }
  rewrite Hl. cbn [bind]. destruct (sort_azimuth_ok _ _ Hl) as [P _]. destruct (Hd l) as [d Hd']; [intros ->; apply Permutation_nil in P; discriminate|]. rewrite Hd'. cbn [bind].
  destruct IH as [f Hf]; [intros; apply Hc'; right; assumption|]. rewrite Hf. eauto.
Qed.
Print Assumptions C110_succeeds.

(** a case *)
Definition rf_e (sta cha : string) (a x : Q) : trace :=
  mkTrace (mkStats "CX" sta "" cha 0 100000000 [("back_azimuth", VNum a)]) [x].
Definition plot_e : list (spair * list trace) :=
  [(mkPair "CX" "PB01" "" 0, [rf_e "PB01" "BHQ" 200 1; rf_e "PB01" "BHL" 200 2; rf_e "PB01" "BHQ" 30 3; rf_e "PB01" "BHL" 30 4]); (mkPair "CX" "PB02" "" 0, [rf_e "PB02" "BHQ" 7 5])].
Definition draw_e (l : list trace) : res (list (list Q)) := Ok (map data l).
Definition set_e (s : list trace) : list string := dedup String.eqb (map (fun t => channel (st t)) s).
Lemma set_e_ok : sets set_e.
Proof.
  intros s. unfold set_e. rewrite <- (map_id (dedup _ _)) at 1.
  assert (forall l : list string, NoDup (dedup String.eqb l) /\ forall c, In c (dedup String.eqb l) <-> In c l) as H.
  { induction l as [|x l [IH1 IH2]]; [split; [constructor | tauto]|]. cbn [dedup]. destruct (existsb (String.eqb x) (dedup String.eqb l)) eqn:E.
    - apply existsb_exists in E. destruct E as (y & Hy & E). apply String.eqb_eq in E. subst y. split; [exact IH1|]. intros c. rewrite IH2. cbn [In]. apply IH2 in Hy.
      split; [auto | intros [<-|Hc]; assumption].
    - split.
      + constructor; [|exact IH1]. intros Hin. assert (existsb (String.eqb x) (dedup String.eqb l) = true) as Ht by (apply existsb_exists; exists x; split; [exact Hin | apply String.eqb_refl]). congruence.
      + intros c. cbn [In]. rewrite IH2. tauto. }
  rewrite map_id. destruct (H (map (fun t => channel (st t)) s)) as [H1 H2]. split; [exact H1|]. intros c. rewrite H2, in_map_iff. split; intros (t & Ha & Hb); exists t; auto.
Qed.
Example C110_nonvacuous :
  sets set_e /\ Forall (fun x => station_stream (fst x) (snd x)) plot_e /\ ForallOrdPairs (fun a b => ~ same_station (fst a) (fst b)) plot_e /\
  Forall (Forall (fun t => baz t <> None /\ channel_ok (channel (st t)))) (map snd plot_e) /\
  exists figs, plot_command draw_e set_e "figs" (map snd plot_e) None = (figs, None) /\ length figs = 3 /\
    dget (save_all figs) "figs/CX.PB01..BHQ.pdf" = Some [[3]; [1]]%Q.
Proof.
  split; [exact set_e_ok|]. split; [|split; [|split]].
  - repeat constructor.
  - repeat constructor. intros (_ & E & _). discriminate E.
  - repeat constructor; cbn; discriminate.
  - eexists. split; [vm_compute; reflexivity|]. split; reflexivity.
Qed.

(** * C111 *)
(** rf plot-profile: for each component of a profile the file profile_<component>.pdf shows exactly
    the traces of this component in the order of the profile; there are no other files. *)
Definition component_channel (c : ascii) : string := String "?" (String "?" (String c "")).
Definition profile_figure (root : string) (c : ascii) : string := (root ++ "/profile_" ++ String c "" ++ ".pdf")%string.
Lemma select_component c s : Forall (fun t => exists c', channel (st t) = component_channel c' /\ upper_char c' = c' /\ c' <> "*"%char /\ c' <> "?"%char) s ->
  upper_char c = c -> c <> "*"%char -> c <> "?"%char -> select_channel (component_channel c) s = of_channel (component_channel c) s.
Proof.
  intros Hs Hu H1 H2. unfold select_channel, of_channel. apply filter_ext_in'. intros t Ht. rewrite Forall_forall in Hs. destruct (Hs t Ht) as (c' & -> & Hu' & H3 & H4).
  apply Bool.eq_iff_eq_true. rewrite String.eqb_eq. unfold component_channel. cbn [upper list_ascii_of_string]. change (upper_char "?") with "?"%char. rewrite Hu, Hu'.
  rewrite fnmatch_q. split.
  - intros (x & s' & E & H). injection E as <- <-. apply fnmatch_q in H. destruct H as (x & s' & E & H). injection E as <- <-. apply fnmatch_exact in H; [congruence|].
    split; cbn; intuition congruence.
  - intros E. injection E as ->. eexists _, _. split; [reflexivity|]. apply fnmatch_q. eexists _, _. split; [reflexivity|]. apply fnmatch_exact; [|reflexivity]. split; cbn; intuition congruence.
Qed.
Theorem C111_figures D (draw : list trace -> res D) channel_set root profile figs :
  sets channel_set ->
  Forall (fun t => exists c, channel (st t) = component_channel c /\ upper_char c = c /\ c <> "*"%char /\ c <> "?"%char) profile ->
  plot_profile_command draw channel_set root profile = (figs, None) ->
  (forall t c, In t profile -> channel (st t) = component_channel c ->
     exists d, draw (of_channel (component_channel c) profile) = Ok d /\ dget (save_all figs) (profile_figure root c) = Some d) /\
  (forall n d, dget (save_all figs) n = Some d -> exists t c, In t profile /\ channel (st t) = component_channel c /\ n = profile_figure root c).
Proof.
  intros Hset Hp H. unfold plot_profile_command in H. apply figures_spec in H. destruct (Hset profile) as [Hnd Hc].
  assert (Forall2 (fun c f => exists k, c = component_channel k /\ draw (of_channel (component_channel k) profile) = Ok (snd f) /\ fst f = profile_figure root k) (channel_set profile) figs) as HF.
  { assert (forall c, In c (channel_set profile) -> exists k, c = component_channel k /\ upper_char k = k /\ k <> "*"%char /\ k <> "?"%char) as Hk.
    { intros c Hin. apply Hc in Hin. destruct Hin as (t & Ht & <-). rewrite Forall_forall in Hp. exact (Hp t Ht). }
    revert Hk H. clear - Hp. generalize (channel_set profile). intros chans Hk H. induction H as [|c f chans figs (first & rest & l & E1 & E2 & E3 & E4) HF IH]; [constructor|].
    constructor; [|apply IH; intros; apply Hk; right; assumption]. destruct (Hk c (or_introl eq_refl)) as (k & -> & U & W1 & W2). exists k. split; [reflexivity|].
    rewrite select_component in E1 by assumption. injection E3 as <-. rewrite E1. split; [exact E4|].
    assert (In first (of_channel (component_channel k) profile)) as Hin by (rewrite E1; left; reflexivity). unfold of_channel in Hin. apply filter_In in Hin. destruct Hin as [_ Ec]. apply String.eqb_eq in Ec.
    unfold profile_pdf in E2. rewrite Ec in E2. cbn [String.get component_channel] in E2. injection E2 as <-. reflexivity. }
  assert (NoDup (map fst figs)) as Hn.
  { clear - HF Hnd. induction HF as [|c f chans figs (k & -> & _ & E) HF IH]; [constructor|]. inversion Hnd; subst. cbn [map]. constructor; [|apply IH; assumption].
    intros Hin. apply in_map_iff in Hin. destruct Hin as (g & Eg & Hg). destruct (F2_in_r _ _ _ _ HF Hg) as (c & Hc & k' & -> & _ & E'). rewrite E, E' in Eg.
    apply (f_equal la) in Eg. unfold profile_figure in Eg. rewrite !la_app in Eg. apply app_inv_head, app_inv_head in Eg. injection Eg as ->. contradiction. }
  rewrite save_all_spec by exact Hn. split.
  - intros t c Ht Ec. destruct (F2_in_l _ _ _ (component_channel c) HF) as (f & Hf & k & Ek & Hd & E); [apply Hc; exists t; auto|]. injection Ek as <-.
    exists (snd f). split; [exact Hd|]. apply dget_in; [exact Hn|]. rewrite <- E. destruct f; exact Hf.
  - intros n d Hd. apply dget_in in Hd; [|exact Hn]. destruct (F2_in_r _ _ _ _ HF Hd) as (c & Hin & k & -> & _ & E). apply Hc in Hin. destruct Hin as (t & Ht & Et).
    exists t, k. auto.
Qed.
Print Assumptions C111_figures.
Definition prof_tr (c : ascii) (pos x : Q) : trace := mkTrace (mkStats "" "" "" (component_channel c) 0 100000000 [("box_pos", VNum pos)]) [x].
Definition prof_e : list trace := [prof_tr "Q" 10 1; prof_tr "L" 10 2; prof_tr "Q" 30 3].
Example C111_nonvacuous :
  sets set_e /\ Forall (fun t => exists c, channel (st t) = component_channel c /\ upper_char c = c /\ c <> "*"%char /\ c <> "?"%char) prof_e /\
  exists figs, plot_profile_command draw_e set_e "figs" prof_e = (figs, None) /\ length figs = 2 /\ dget (save_all figs) "figs/profile_Q.pdf" = Some [[1]; [3]]%Q.
Proof.
  split; [exact set_e_ok|]. split.
  - repeat constructor; eexists; (split; [reflexivity|]; split; [reflexivity|]; split; discriminate).
  - eexists. split; [vm_compute; reflexivity|]. split; reflexivity.
Qed.

(** * C112 *)
(** rf profile writes a profile; rf plot-profile reads exactly its traces. Guard: there are no
    files of an earlier profile at this path. *)
Definition position (str_of : value -> string) (t : trace) : option string := option_map str_of (dget (extra (st t)) "box_pos").
Definition profile_ok (str_of : value -> string) (profile : list trace) : Prop :=
  profile <> [] /\
  Forall (fun t => exists c b, channel (st t) = component_channel c /\ c <> "/"%char /\ position str_of t = Some b /\ slash_free b) profile /\
  NoDup (map (fun t => (channel (st t), position str_of t)) profile).
Theorem C112_read_back_partial fmt_time str_of h5key writer load root fmt fs0 profile ops :
  no_wild root -> unrelated root fs0 -> ~ In (root ++ ".QHD")%string (map fst fs0) -> In fmt ["Q"; "SAC"; "H5"] ->
  profile_ok str_of profile -> (fmt = "H5" -> NoDup (map h5key profile)) ->
  write fmt_time str_of h5key writer profile root fmt TProfile = (ops, None) ->
  exists l, Permutation l profile /\ iter_profile load root fmt (do_ops fs0 ops) = load fmt l.
Proof.
  intros Hr Hu Hq Hf (Hne & Hp & Hnd) Hk Hw. destruct Hf as [<-|[<-|[<-|[]]]].
  - destruct profile as [|t profile]; [congruence|]. unfold write in Hw. change (upper "Q") with "Q" in Hw.
    change (trace_fname fmt_time str_of TProfile "Q" root t) with (@Ok string (root ++ ".QHD")%string) in Hw. change (("Q" =? "H5")%string) with false in Hw. change (("Q" =? "Q")%string) with true in Hw. cbv iota in Hw.
    destruct (writer "Q" (t :: profile)); [discriminate Hw|]. injection Hw as <-. exists (t :: profile). split; [reflexivity|].
    change (iter_profile load root "Q" (do_ops fs0 [Append (root ++ ".QHD") (t :: profile)])) with (read_glob load (do_op fs0 (Append (root ++ ".QHD") (t :: profile))) "Q" (root ++ ".QHD")).
    cbn [do_op]. unfold contents. rewrite dget_notin by exact Hq. cbn [app]. rewrite aset_new by exact Hq. unfold read_glob. rewrite filter_app.
    assert (plain (la (root ++ ".QHD"))) as Hpl by (rewrite la_app, plain_app; split; [apply no_wild_plain, Hr | split; cbn; intuition discriminate]).
    assert (filter (fun f : string * file => glob_str (root ++ ".QHD") (fst f)) fs0 = []) as ->.
    { clear - Hq Hpl. induction fs0 as [|[n f] fs IH]; [reflexivity|]. cbn [filter fst]. destruct (glob_str (root ++ ".QHD") n) eqn:E.
      - exfalso. unfold glob_str in E. apply glob_exact in E; [|exact Hpl]. apply la_inj in E. apply Hq. left. exact E.
      - apply IH. intros Hi. apply Hq. right. exact Hi. }
    cbn [app filter fst]. assert (glob_str (root ++ ".QHD") (root ++ ".QHD") = true) as -> by (unfold glob_str; apply glob_exact; [exact Hpl | reflexivity]).
    cbn [sort fold_right insert_sorted map List.concat]. cbn [snd]. rewrite ?app_nil_r. cbn [map snd]. rewrite map_map. cbn [snd]. rewrite map_id. reflexivity.
  - pose (name := fun t => match channel (st t) with String _ (String _ (String c _)) => (root ++ "/profile_" ++ String c "" ++ "_" ++ match position str_of t with Some b => b | None => "" end ++ ".SAC")%string | _ => "" end).
    assert (forall t, In t profile -> trace_fname fmt_time str_of TProfile "SAC" root t = Ok (name t)) as Hname.
    { intros t Ht. rewrite Forall_forall in Hp. destruct (Hp t Ht) as (c & b & E1 & _ & E2 & _). unfold name. rewrite E1. cbn [component_channel]. unfold position in *.
      unfold trace_fname, profile_fname. change (("SAC" =? "Q")%string) with false. change (("SAC" =? "SAC")%string) with true. cbv iota. rewrite E1. cbn [String.get component_channel].
      change (tr_get t "box_pos") with (dget (extra (st t)) "box_pos"). destruct (dget (extra (st t)) "box_pos") as [v|]; [|discriminate E2]. reflexivity. }
    assert (ops = map (fun x => Put (fst x) (snd x)) (map (fun t => (name t, t)) profile)) as ->.
    { rewrite map_map. cbn [fst snd]. assert (write_sac fmt_time str_of writer TProfile root profile = (ops, None)) as Hws.
      { destruct profile as [|t profile]; [congruence|]. unfold write in Hw. change (upper "SAC") with "SAC" in Hw. rewrite (Hname t (or_introl eq_refl)) in Hw. exact Hw. }
      clear - Hws Hname. revert ops Hws. induction profile as [|t profile IH]; intros ops Hws; cbn [write_sac] in Hws; [injection Hws as <-; reflexivity|].
      rewrite (Hname t (or_introl eq_refl)) in Hws. destruct (writer "SAC" [t]); [discriminate Hws|]. destruct (write_sac fmt_time str_of writer TProfile root profile) as [o e] eqn:E. injection Hws as <- ->.
      cbn [map]. f_equal. apply IH; [intros; apply Hname; right; assumption | reflexivity]. }
    rewrite puts_new.
    + rewrite map_map. cbn [fst snd].
      assert (forall t, In t profile -> exists c b, channel (st t) = component_channel c /\ position str_of t = Some b /\ c <> "/"%char /\ slash_free b /\
        la (name t) = (la root ++ la "/profile_") ++ c :: "_"%char :: la b ++ la ".SAC") as Hla.
      { intros t Ht. rewrite Forall_forall in Hp. destruct (Hp t Ht) as (c & b & E1 & E2 & E3 & E4). exists c, b. repeat (split; [assumption|]). unfold name. rewrite E1, E3. cbn [component_channel].
        rewrite !la_app. cbn [list_ascii_of_string app]. rewrite <- app_assoc. reflexivity. }
      pose (pat := (root ++ "/profile_" ++ "?" ++ "_" ++ "*" ++ ".SAC")%string).
      destruct (read_files writer load root Hr (fun t => (name t, [("", t)])) fs0 profile pat (la "profile_?_*.SAC") "SAC" (fun _ => true) Hu) as (l & P & E).
      * unfold pat. rewrite la_app. rewrite <- app_assoc. reflexivity.
      * intros t Ht. destruct (Hla t Ht) as (c & b & _ & _ & Hc & Hb & El). cbn [fst]. unfold glob_str. rewrite El. assert (la pat = (la root ++ la "/profile_") ++ "?"%char :: "_"%char :: "*"%char :: la ".SAC") as -> by (unfold pat; rewrite !la_app; rewrite <- app_assoc; reflexivity).
        apply glob_lit; [apply plain_app; split; [apply no_wild_plain, Hr | split; cbn; intuition discriminate]|]. eexists. split; [reflexivity|].
        apply glob_q. exists c, ("_"%char :: la b ++ la ".SAC"). split; [reflexivity|]. split; [exact Hc|].
        change ("_"%char :: "*"%char :: la ".SAC") with (["_"%char] ++ "*"%char :: la ".SAC"). apply glob_lit; [split; cbn; intuition discriminate|]. exists (la b ++ la ".SAC"). split; [reflexivity|].
        apply glob_star. exists (la b), (la ".SAC"). split; [reflexivity|]. split; [apply char_in_la, Hb|]. apply glob_exact; [split; cbn; intuition discriminate | reflexivity].
      * exists l. assert (forall A (l : list A), filter (fun _ => true) l = l) as Hft by (induction l0 as [|x l0 IH]; cbn; congruence). rewrite Hft in *. split.
        -- refine (Permutation_trans P _). clear. induction profile as [|t p IH]; [constructor | cbn; constructor; exact IH].
        -- change (iter_profile load root "SAC" (fs0 ++ map (fun x => (name x, [("", x)])) profile)) with (read_glob load (fs0 ++ map (fun x => (name x, [("", x)])) profile) "SAC" pat).
           refine (eq_trans E _). destruct profile; [congruence | reflexivity].
    + rewrite map_map. cbn [fst]. clear - Hp Hnd. induction profile as [|t profile IH]; [constructor|]. inversion Hp as [|? ? (c & b & E1 & _ & E3 & _) Hp']; subst. inversion Hnd as [|? ? Hni Hn]; subst. cbn [map]. constructor; [|apply IH; assumption].
      intros Hin. apply in_map_iff in Hin. destruct Hin as (u & Eu & Hu). apply Hni. rewrite Forall_forall in Hp'. destruct (Hp' u Hu) as (c' & b' & F1 & _ & F3 & _).
      apply in_map_iff. exists u. split; [|exact Hu]. unfold name in Eu. rewrite E1, E3, F1, F3 in *. cbn [component_channel] in Eu. apply (f_equal la) in Eu. rewrite !la_app in Eu. apply app_inv_head, app_inv_head in Eu. cbn [list_ascii_of_string app] in Eu.
      injection Eu as -> Eu. apply app_inv_tail in Eu. apply la_inj in Eu. subst. reflexivity.
    + intros n Hn Hin. rewrite map_map in Hn. apply in_map_iff in Hn. destruct Hn as (t & <- & Ht). cbn [fst] in Hin. apply in_map_iff in Hin. destruct Hin as ([m f] & E & Hin). cbn [fst] in E.
      rewrite Forall_forall in Hp. destruct (Hp t Ht) as (c & b & E1 & _ & E3 & _). destruct (Hu m f Hin) as [Hx _]. unfold name in E. rewrite E1, E3 in E. cbn [component_channel] in E.
      apply (Hx ("profile_" ++ String c "" ++ "_" ++ b ++ ".SAC")%string). exact E.
  - destruct profile as [|t profile]; [congruence|]. unfold write in Hw. change (upper "H5") with "H5" in Hw.
    change (trace_fname fmt_time str_of TProfile "H5" root t) with (@Ok string (root ++ ".h5")%string) in Hw. change (("H5" =? "H5")%string) with true in Hw. cbv iota in Hw.
    destruct (writer "H5" (t :: profile)); [discriminate Hw|]. injection Hw as <-. exists (t :: profile). split; [reflexivity|].
    change (Dataset (root ++ ".h5") (h5key t) t :: map (fun t0 => Dataset (root ++ ".h5") (h5key t0) t0) profile) with (map (fun t0 => Dataset (root ++ ".h5") (h5key t0) t0) (t :: profile)).
    rewrite <- (map_map (fun t0 => (h5key t0, t0)) (fun x => Dataset (root ++ ".h5") (fst x) (snd x))).
    rewrite (datasets_new (root ++ ".h5") _ fs0 []).
    + unfold iter_profile. change (profile_fname "H5" root "???" (Ok "*")) with (@Ok string (root ++ ".h5")%string). change (("H5" =? "H5")%string) with true. cbn [bind]. cbv iota. rewrite dget_dset_eq. cbn [app].
      rewrite map_map. cbn [snd]. rewrite map_id. reflexivity.
    + rewrite map_map. cbn [fst]. apply Hk. reflexivity.
    + intros k _ [].
    + discriminate.
    + unfold contents. rewrite dget_notin; [reflexivity|]. intros Hin. apply in_map_iff in Hin. destruct Hin as ([m f] & E & Hin). cbn [fst] in E. destruct (Hu m f Hin) as [_ Hx]. exact (Hx E).
Qed.
Print Assumptions C112_read_back_partial.
Definition num_e (v : value) : string := match v with VNum q => if Qeq_bool q 10 then "10.0" else "30.0" | _ => "" end.
Definition pkey_e (t : trace) : string := (channel (st t) ++ match position num_e t with Some b => b | None => "" end)%string.
Definition pwrite_e := write clock_e num_e pkey_e (fun _ _ => None).
Definition read_e := iter_profile (fun _ l => Ok l).
Example C112_nonvacuous :
  no_wild "prof" /\ unrelated "prof" [] /\ profile_ok num_e prof_e /\ NoDup (map pkey_e prof_e) /\
  forall fmt, In fmt ["Q"; "SAC"; "H5"] ->
    snd (pwrite_e prof_e "prof" fmt TProfile) = None /\
    exists l, Permutation l prof_e /\ read_e "prof" fmt (do_ops [] (fst (pwrite_e prof_e "prof" fmt TProfile))) = Ok l.
Proof.
  split; [repeat split|]. split; [intros ? ? []|]. assert (profile_ok num_e prof_e) as Hok.
  { split; [discriminate|]. split.
    - repeat constructor; eexists _, _; (split; [reflexivity|]; split; [discriminate|]; split; reflexivity).
    - repeat constructor; cbn; intuition discriminate. }
  split; [exact Hok|]. assert (NoDup (map pkey_e prof_e)) as Hk by (repeat constructor; cbn; intuition discriminate). split; [exact Hk|].
  intros fmt Hf. assert (snd (pwrite_e prof_e "prof" fmt TProfile) = None) as Hn by (destruct Hf as [<-|[<-|[<-|[]]]]; reflexivity). split; [exact Hn|].
  apply (C112_read_back_partial clock_e num_e pkey_e (fun _ _ => None) (fun _ l => Ok l) "prof" fmt [] prof_e); auto.
  - repeat split.
  - intros ? ? [].
  - unfold pwrite_e in *. destruct (write clock_e num_e pkey_e (fun _ _ => None) prof_e "prof" fmt TProfile) as [ops e]. cbn [snd fst] in *. subst. reflexivity.
Qed.
(** A second profile written to the same path with fewer boxes: the boxes of the first profile are
    read back as part of the second one, in each format. *)
Theorem C112_earlier_profile_refuted : exists first second,
  profile_ok num_e first /\ profile_ok num_e second /\
  forall fmt, In fmt ["Q"; "SAC"; "H5"] ->
    exists fs1 fs2 l, fs1 = do_ops [] (fst (pwrite_e first "prof" fmt TProfile)) /\ fs2 = do_ops fs1 (fst (pwrite_e second "prof" fmt TProfile)) /\
      read_e "prof" fmt fs2 = Ok l /\ exists t, In t l /\ In t first /\ ~ In t second.
Proof.
  exists [prof_tr "Q" 10 1; prof_tr "Q" 30 3], [prof_tr "Q" 10 2].
  split; [split; [discriminate|]; split; [repeat constructor; eexists _, _; (split; [reflexivity|]; split; [discriminate|]; split; reflexivity) | repeat constructor; cbn; intuition discriminate]|].
  split; [split; [discriminate|]; split; [repeat constructor; eexists _, _; (split; [reflexivity|]; split; [discriminate|]; split; reflexivity) | repeat constructor; cbn; intuition discriminate]|].
  intros fmt Hf. destruct Hf as [<-|[<-|[<-|[]]]]; eexists _, _, _; (split; [reflexivity|]; split; [reflexivity|]; split; [vm_compute; reflexivity|]; exists (prof_tr "Q" 30 3); split; [cbn; tauto|]; split; [cbn; tauto|]; cbn; intros [E|[]]; discriminate E).
Qed.
Print Assumptions C112_earlier_profile_refuted.
