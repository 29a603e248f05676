(** C142: rf profile and rf plot-profile as a whole. *)
From Coq Require Import Permutation.
From Verif Require Import Model.ProfileCommand Spec.EventSpec Spec.BatchSpec Spec.OnceSpec Spec.FigureSpec Spec.MeanSpec Spec.ProfileSpec Spec.ConfigSpec Spec.CliSpec Spec.DispatchSpec Spec.ProfileCmdSpec
  Proofs.PyFacts Proofs.ConfigFacts Proofs.CliFacts Proofs.BatchFacts Proofs.BatchRead Proofs.BatchLoop Proofs.OnceFacts Proofs.FigureFacts Proofs.StackArchiveFacts Proofs.DispatchFacts Proofs.ProfileCmdFacts
  Properties.ConfigProps Properties.CliProps Properties.BatchProps Properties.OnceProps Properties.FigureProps Properties.EventProps Properties.StackCmdProps Properties.StackArchiveProps Properties.PlotArchiveProps Properties.DispatchProps Spec.CliSpec.
Notation length := List.length.

Lemma map_flat_map {A B C} (g : B -> C) (f : A -> list B) l : flat_map (fun x => map g (f x)) l = map g (flat_map f l).
Proof. induction l as [|x l IH]; [reflexivity|]. cbn [flat_map]. rewrite map_app, IH. reflexivity. Qed.

Section ProfileProgram.
  Context {D W : Type}.
  Variable fmt_time : Z -> string.
  Variable str_of : value -> string.
  Variable h5key : trace -> string.
  Variable writer : string -> list trace -> option exn.
  Variable load : string -> list trace -> res (list trace).
  Variable id_set channel_set : list trace -> list string.
  Variable read_events : string -> option string -> res (list event).
  Variable read_inventory : string -> option string -> res (list string).
  Variable loads : string -> res json.
  Variable linspace : json -> res json.
  Variable init : option json -> json -> option json -> res W.
  Variable data_streams : json -> W -> list event -> list string -> list (list trace) * option exn.
  Variable rf moveout : json -> list trace -> res (list trace).
  Variable plot_rf plot_profile : json -> list trace -> res D.
  Variable get_boxes : json -> res (list box).
  Variable within : Q * Q -> box -> bool.
  Variable show : dict json -> option exn.
  Notation program := (program fmt_time str_of h5key writer load id_set channel_set read_events read_inventory loads linspace init data_streams rf moveout plot_rf plot_profile get_boxes (profile_traces within) show).
  Notation program_call := (program_call fmt_time str_of h5key writer load id_set channel_set read_events read_inventory loads linspace init data_streams rf moveout plot_rf plot_profile get_boxes (profile_traces within) show).

  Section Run.
  Variable file : string -> option string.
  Variables (l : list string) (d : list (string * string)) (conf : dict json).
  Variables (inv ev fmt : string) (invf evf : option string) (channels : list string) (events : list event).
  Hypothesis Ho : options l d.
  Hypothesis Hcf : configured loads file d conf.
  Hypothesis Hok : options_ok loads linspace (setting d conf).
  Hypothesis Hev : names_file (setting d conf "events") ev evf.
  Hypothesis Re : read_events ev evf = Ok events.
  Hypothesis Hi : names_file (setting d conf "inventory") inv invf.
  Hypothesis Ri : read_inventory inv invf = Ok channels.
  Hypothesis Hfm : format_is (setting d conf "format") fmt.

  Lemma profile_call pin pout boxes before :
    plain pin -> plain pout -> is_value loads (setting d conf "profile") (JObj []) (JObj []) ->
    (forall bw, box_options loads linspace (setting d conf) bw -> get_boxes bw = Ok boxes) ->
    program file (l ++ ["profile"; pin; pout]) before =
      match iter_processed_traces fmt_time load (Some events) channels pin fmt before with
      | (_, Some e) => Did [] [] (Some e)
      | (traces, None) => match profile_traces within (JObj []) boxes traces with
                          | Err e => Did [] [] (Some e)
                          | Ok p => let r := write fmt_time str_of h5key writer p pout fmt TProfile in Did (fst r) [] (snd r)
                          end
      end.
  Proof using All.
    intros Pi Po Hw Hb.
    assert (positional "profile" [pin; pout] [("path_in", JStr pin); ("path_out", JStr pout)]) as Hp by (apply path_args; cbn; tauto).
    destruct (program_call file l d "profile" [pin; pout] _ conf before Ho Hp) as (args & kw & Ha & Ek & ->); try assumption; try discriminate; [repeat constructor; assumption|].
    assert (forall k, dget [("path_in", JStr pin); ("path_out", JStr pout)] k = None -> k <> "conf" -> dget args k = setting d conf k) as Hs by (intros k H1 H2; rewrite Ha; apply setting_value; assumption).
    unfold input. change (inb "profile" ["stack"; "plot"]) with false. cbv iota. unfold load_input.
    rewrite (events_names _ _ ev evf), Re by (rewrite Hs by (reflexivity || discriminate); exact Hev).
    rewrite (inventory_names _ _ inv invf), Ri by (rewrite Hs by (reflexivity || discriminate); exact Hi). cbn [bind].
    unfold perform. cbn [String.eqb Ascii.eqb Bool.eqb]. rewrite (format_value (dget args "format") fmt) by (rewrite Hs by (reflexivity || discriminate); exact Hfm).
    rewrite !Ha. change (path_arg (value_of [("path_in", JStr pin); ("path_out", JStr pout)] d conf "path_in")) with pin. change (path_arg (value_of [("path_in", JStr pin); ("path_out", JStr pout)] d conf "path_out")) with pout.
    destruct (C63_options loads linspace args kw Ek) as (_ & _ & b & bins & _ & _ & B1 & B2 & Hopt & _ & _ & _ & _ & B3 & B4). rewrite Hs in B1, B2 by (reflexivity || discriminate).
    destruct (Hopt "profile") as (w & Hw' & Ew); [cbn; tauto|]. rewrite Hs in Hw' by (reflexivity || discriminate). rewrite (is_value_fun _ _ _ _ _ Hw' Hw) in Ew.
    assert (get_boxes (option_of kw "boxes") = Ok boxes) as ->.
    { apply Hb. exists b, bins. split; [exact B1|]. split; [exact B2|]. split.
      - intros E. unfold option_of. rewrite (B3 E). reflexivity.
      - intros E. destruct (B4 E) as (b' & l' & L & Eb & We). exists l'. split; [exact L|]. unfold option_of. rewrite Eb. exact We. }
    assert (option_of kw "profile" = JObj []) as -> by (unfold option_of; rewrite Ew; reflexivity).
    destruct (iter_event_metadata (Some events) channels) as [metas fin]. reflexivity.
  Qed.
  Lemma plot_profile_call pin pout w before :
    plain pin -> plain pout -> is_value loads (setting d conf "plot_profile") (JObj []) w ->
    program file (l ++ ["plot-profile"; pin; pout]) before =
      match iter_profile load pin fmt before with
      | Err e => Did [] [] (Some e)
      | Ok p => let r := plot_profile_command (plot_profile w) channel_set pout p in Did [] (fst r) (snd r)
      end.
  Proof using All.
    intros Pi Po Hw.
    assert (positional "plot-profile" [pin; pout] [("path_in", JStr pin); ("path_out", JStr pout)]) as Hp by (apply path_args; cbn; tauto).
    destruct (program_call file l d "plot-profile" [pin; pout] _ conf before Ho Hp) as (args & kw & Ha & Ek & ->); try assumption; try discriminate; [repeat constructor; assumption|].
    assert (forall k, dget [("path_in", JStr pin); ("path_out", JStr pout)] k = None -> k <> "conf" -> dget args k = setting d conf k) as Hs by (intros k H1 H2; rewrite Ha; apply setting_value; assumption).
    unfold input. change (inb "plot-profile" ["stack"; "plot"]) with false. cbv iota. unfold load_input.
    rewrite (events_names _ _ ev evf), Re by (rewrite Hs by (reflexivity || discriminate); exact Hev).
    rewrite (inventory_names _ _ inv invf), Ri by (rewrite Hs by (reflexivity || discriminate); exact Hi). cbn [bind].
    unfold perform. cbn [String.eqb Ascii.eqb Bool.eqb]. rewrite (format_value (dget args "format") fmt) by (rewrite Hs by (reflexivity || discriminate); exact Hfm).
    rewrite !Ha. change (path_arg (value_of [("path_in", JStr pin); ("path_out", JStr pout)] d conf "path_in")) with pin. change (path_arg (value_of [("path_in", JStr pin); ("path_out", JStr pout)] d conf "path_out")) with pout.
    destruct (C63_options loads linspace args kw Ek) as (_ & _ & b & bins & _ & _ & _ & _ & Hopt & _).
    destruct (Hopt "plot_profile") as (w' & Hw' & Ew); [cbn; tauto|]. rewrite Hs in Hw' by (reflexivity || discriminate). rewrite (is_value_fun _ _ _ _ _ Hw' Hw) in Ew.
    assert (option_of kw "plot_profile" = w) as -> by (unfold option_of; rewrite Ew; reflexivity). reflexivity.
  Qed.
  End Run.

  (** rf [options] profile IN OUT, then rf [options] plot-profile OUT FIGS: the profile of the
      requested streams as they are read ([rd]), and a figure for each of its components. *)
  Theorem C142_profile_partial rd file l d conf pin pout pfig inv invf ev evf fmt year streams req before channels events boxes b0 pp w :
    options l d -> plain pin -> plain pout -> plain pfig -> configured loads file d conf -> options_ok loads linspace (setting d conf) ->
    names_file (setting d conf "events") ev evf -> read_events ev evf = Ok events ->
    names_file (setting d conf "inventory") inv invf -> read_inventory inv invf = Ok channels -> format_is (setting d conf "format") fmt ->
    is_value loads (setting d conf "profile") (JObj []) (JObj []) -> is_value loads (setting d conf "plot_profile") (JObj []) w ->
    (forall bw, box_options loads linspace (setting d conf) bw -> get_boxes bw = Ok boxes) -> hd_error boxes = Some b0 -> b_profile b0 = Some pp ->
    stored fmt_time year str_of h5key writer pin fmt streams before -> reads (load fmt) rd -> (forall f l, writer f l = None) ->
    inventory_ok channels -> one_group channels -> events_ok year events -> sets channel_set ->
    no_wild pout -> unrelated pout before -> ~ In (pout ++ ".QHD")%string (map fst before) -> box_names str_of h5key ->
    selects (fun x => requested events channels (fst x)) streams req ->
    Forall usable (map rd (flat_map snd req)) ->
    (forall t u pos c, In t (map rd (flat_map snd req)) -> In u (map rd (flat_map snd req)) -> in_box within boxes t pos c -> in_box within boxes u pos c -> length (data t) = length (data u)) ->
    (exists t pos c, In t (map rd (flat_map snd req)) /\ in_box within boxes t pos c) ->
    (forall l, l <> [] -> exists f, plot_profile w l = Ok f) ->
    exists ops figs traces prof,
      program file (l ++ ["profile"; pin; pout]) before = Did ops [] None /\
      Permutation traces (map rd (flat_map snd req)) /\ profile_of within boxes traces prof /\
      program file (l ++ ["plot-profile"; pout; pfig]) (do_ops before ops) = Did [] figs None /\
      (forall t c, In t prof -> channel (st t) = component_channel c ->
         exists s f, Permutation s (map rd (of_channel (component_channel c) prof)) /\ plot_profile w s = Ok f /\ dget (save_all figs) (profile_figure pfig c) = Some f) /\
      (forall n f, dget (save_all figs) n = Some f -> exists t c, In t prof /\ channel (st t) = component_channel c /\ n = profile_figure pfig c).
  Proof.
    intros Ho Pi Po Pf Hcf Hok Hev Re Hi Ri Hfm Hp Hw Hbx Hb0 Hpp (Hc & Hpw & Hf & Hg & Hd & Hk & fs0 & opss & Hu & HW & ->) [Hl Hcd] Hwr Hinv Hone Hevs Hset Hwild Hu2 Hq (N1 & N2 & N3) Hreq Hus Hlen Hin Hdraw.
    set (before := do_ops fs0 (List.concat opss)) in *.
    destruct (C108_events_partial fmt_time year str_of h5key writer load pin fs0 streams opss fmt events channels) as (out & order & E & Hnd & Hord & HF); try assumption; [intros x; eexists; apply Hl|].
    assert (Permutation (List.concat out) (map rd (flat_map snd req))) as P.
    { eapply perm_trans; [eapply (concat_perm _ (fun x => map rd (snd x)) order out); [|exact HF]|].
      - intros x s (k & Pk & Lk). rewrite Hl in Lk. injection Lk as <-. apply Permutation_map, Pk.
      - rewrite map_flat_map. apply Permutation_map, Permutation_flat_map. apply NoDup_Permutation; [exact Hnd | exact (selects_NoDup _ _ _ Hreq (streams_NoDup _ Hd))|]. intros x. rewrite Hord, (selects_in _ _ _ Hreq x). reflexivity. }
    set (traces := List.concat out) in *.
    assert (forall t, In t traces <-> In t (map rd (flat_map snd req))) as Pin by (intros t; split; apply Permutation_in; [exact P | apply Permutation_sym, P]).
    destruct (profile_traces_spec within boxes b0 pp traces Hb0 Hpp) as (prof & Epf & Hprof).
    { apply Forall_forall. intros t Ht. rewrite Forall_forall in Hus. apply Hus, Pin, Ht. }
    { intros t u pos c Ht Hu' H1 H2. apply (Hlen t u pos c); try assumption; apply Pin; assumption. }
    pose proof (profile_call file l d conf inv ev fmt invf evf channels events Ho Hcf Hok Hev Re Hi Ri Hfm pin pout boxes before Pi Po Hp Hbx) as EP.
    unfold iter_processed_traces in EP. unfold before in EP at 2. rewrite E in EP. fold traces in EP. rewrite Epf in EP.
    assert (Forall (fun t => exists c, channel (st t) = component_channel c /\ upper_char c = c /\ ~ In c ["*"; "?"; "/"]%char) prof) as Hcomp.
    { apply Forall_forall. intros o Hio. destruct Hprof as (H1 & _). destruct (H1 o Hio) as (pos & c & sel & S1 & S2 & S3 & _). exists c. split; [exact S3|]. destruct sel as [|t sel]; [congruence|].
      assert (In t (t :: sel)) as Hts by (left; reflexivity). apply (selects_in _ _ _ S1) in Hts. destruct Hts as [Hts (la & lo & bf & b & af & _ & _ & _ & _ & _ & _ & Hlc)].
      rewrite Forall_forall in Hus. destruct (Hus t) as (_ & (c' & C1 & C2 & C3) & _); [apply Pin, Hts|]. rewrite Hlc in C1. injection C1 as <-. auto. }
    assert (profile_ok str_of prof) as Hpok.
    { destruct Hprof as (H1 & H2 & H3). split; [|split].
      - destruct Hin as (t & pos & c & Ht & Hbx'). destruct (H2 t pos c) as (o & Hio & _); [apply Pin, Ht | exact Hbx'|]. intros ->. destruct Hio.
      - apply Forall_forall. intros o Hio. rewrite Forall_forall in Hcomp. destruct (Hcomp o Hio) as (c & C1 & _ & C3). destruct (H1 o Hio) as (pos & _ & _ & _ & _ & _ & (v & V1 & _) & _).
        exists c, (str_of (VNum v)). split; [exact C1|]. split; [intros ->; apply C3; cbn; tauto|]. split; [unfold position; rewrite V1; reflexivity | apply N1].
      - clear - H1 H3 N2. induction H3 as [|o prof Hx H3 IH]; cbn [map]; constructor; [|apply IH; intros; apply H1; right; assumption].
        intros Hi. apply in_map_iff in Hi. destruct Hi as (o' & Eo & Ho'). injection Eo as E1 E2. rewrite Forall_forall in Hx. apply (Hx o' Ho').
        destruct (H1 o (or_introl eq_refl)) as (pos & _ & _ & _ & _ & _ & (v & V1 & V2) & _). destruct (H1 o' (or_intror Ho')) as (pos' & _ & _ & _ & _ & _ & (v' & V1' & V2') & _).
        split; [congruence|]. unfold position in E2. rewrite V1, V1' in E2. cbn [option_map] in E2. injection E2 as E2. apply N2 in E2. exists pos. split; [exists v; auto | exists v'; split; [exact V1'|]]. rewrite E2. exact V2. }
    assert (fmt = "H5" -> NoDup (map h5key prof)) as Hkey.
    { intros _. destruct Hprof as (H1 & _ & H3). clear - H1 H3 N3. induction H3 as [|o prof Hx H3 IH]; cbn [map]; constructor; [|apply IH; intros; apply H1; right; assumption].
      intros Hi. apply in_map_iff in Hi. destruct Hi as (o' & Eo & Ho'). rewrite Forall_forall in Hx. apply (Hx o' Ho').
      destruct (H1 o (or_introl eq_refl)) as (pos & _ & _ & _ & _ & _ & V & _). destruct (H1 o' (or_intror Ho')) as (pos' & _ & _ & _ & _ & _ & V' & _).
      destruct (N3 o' o pos' pos V' V Eo) as [K1 K2]. split; [congruence|]. exists pos. split; [exact V|]. destruct V' as (v & V1 & V2). exists v. split; [exact V1|]. rewrite V2. exact K2. }
    assert (exists ops, write fmt_time str_of h5key writer prof pout fmt TProfile = (ops, None)) as [ops Ew].
    { destruct Hpok as (Hne & Hpo & _). destruct prof as [|o prof]; [congruence|].
      assert (forall t, In t (o :: prof) -> exists n, trace_fname fmt_time str_of TProfile fmt pout t = Ok n) as Hn.
      { intros t Ht. rewrite Forall_forall in Hpo. destruct (Hpo t Ht) as (c & b & C1 & _ & C3 & _). unfold position in C3. destruct (dget (extra (st t)) "box_pos") as [v|] eqn:Ev; [|discriminate].
        unfold trace_fname, profile_fname. destruct Hf as [<-|[<-|[<-|[]]]]; cbn [String.eqb Ascii.eqb Bool.eqb]; [eauto| |eauto]. rewrite C1. cbn [String.get component_channel bind]. change (tr_get t "box_pos") with (dget (extra (st t)) "box_pos"). rewrite Ev. cbn [bind]. eauto. }
      unfold write. assert (upper fmt = fmt) as -> by (destruct Hf as [<-|[<-|[<-|[]]]]; reflexivity). destruct (Hn o (or_introl eq_refl)) as [n ->].
      rewrite Hwr. destruct (fmt =? "H5")%string; [eauto|]. destruct (fmt =? "Q")%string; [eauto|]. destruct (String.eqb_spec fmt "SAC") as [->|]; [|eauto].
      clear - Hn Hwr. induction (o :: prof) as [|t s IH]; [exists []; reflexivity|]. cbn [write_sac]. destruct (Hn t (or_introl eq_refl)) as [n ->]. rewrite Hwr.
      destruct IH as [ops ->]; [intros; apply Hn; right; assumption|]. eauto. }
    rewrite Ew in EP. cbn [fst snd] in EP.
    destruct (C112_read_back_partial fmt_time str_of h5key writer load pout fmt before prof ops) as (k & Pk & Ek); try assumption. rewrite Hl in Ek.
    pose proof (plot_profile_call file l d conf inv ev fmt invf evf channels events Ho Hcf Hok Hev Re Hi Ri Hfm pout pfig w (do_ops before ops) Po Pf Hw) as EQ. rewrite Ek in EQ.
    assert (Forall (fun t => exists c, channel (st t) = component_channel c /\ upper_char c = c /\ c <> "*"%char /\ c <> "?"%char) (map rd k)) as Hk2.
    { apply Forall_forall. intros t' Ht'. apply in_map_iff in Ht'. destruct Ht' as (t & <- & Ht). destruct (Hcd t) as (_ & _ & _ & ->). rewrite Forall_forall in Hcomp. destruct (Hcomp t) as (c & C1 & C2 & C3); [exact (Permutation_in _ Pk Ht)|]. exists c. split; [exact C1|]. split; [exact C2|].
      split; intros ->; apply C3; cbn; tauto. }
    destruct (plot_profile_succeeds (plot_profile w) channel_set pfig (map rd k)) as [figs Efig]; [apply (Hset (map rd k))| | |exact Hdraw|].
    { eapply Forall_impl; [|exact Hk2]. intros t (c & C1 & _). exists c. exact C1. }
    { intros c Hc0. destruct (Hset (map rd k)) as [_ Hs]. apply Hs in Hc0. destruct Hc0 as (t & Ht & <-). rewrite Forall_forall in Hk2. destruct (Hk2 t Ht) as (c & -> & C2 & C3 & C4).
      apply select_component; try assumption. apply Forall_forall. exact Hk2. }
    rewrite Efig in EQ. cbn [fst snd] in EQ.
    destruct (C111_figures D (plot_profile w) channel_set pfig (map rd k) figs Hset Hk2 Efig) as [F1 F2].
    exists ops, figs, traces, prof. split; [exact EP|]. split; [exact P|]. split; [exact Hprof|]. split; [exact EQ|]. split.
    - intros t c Ht Hct. destruct (F1 (rd t) c) as (f & D1 & D2); [apply in_map; exact (Permutation_in _ (Permutation_sym Pk) Ht) | destruct (Hcd t) as (_ & _ & _ & ->); exact Hct|]. exists (of_channel (component_channel c) (map rd k)), f.
      split; [rewrite (channel_map rd _ _ Hcd); apply Permutation_map; unfold of_channel; apply perm_filter, Pk|]. auto.
    - intros n f Hn. destruct (F2 n f Hn) as (t' & c & Ht' & Hct & En). apply in_map_iff in Ht'. destruct Ht' as (t & <- & Ht). destruct (Hcd t) as (_ & _ & _ & C4). rewrite C4 in Hct. exists t, c. split; [exact (Permutation_in _ Pk Ht)|]. auto.
  Qed.
End ProfileProgram.
Print Assumptions C142_profile_partial.

(** ** a case: three streams, two boxes *)
Fixpoint pos_str (p : positive) (s : string) : string :=
  match p with xI p' => String "I" (pos_str p' s) | xO p' => String "O" (pos_str p' s) | xH => String "H" s end.
Definition q_str (q : Q) (s : string) : string :=
  let r := Qred q in
  match Qnum r with Z0 => String "0" (pos_str (Qden r) s) | Zpos n => String "+" (pos_str n (pos_str (Qden r) s)) | Zneg n => String "-" (pos_str n (pos_str (Qden r) s)) end.
Lemma pos_str_inj p : forall q s u, pos_str p s = pos_str q u -> p = q /\ s = u.
Proof.
  induction p as [p IH|p IH|]; intros [q|q|] s u H; cbn in H; try discriminate; injection H as H; auto; destruct (IH _ _ _ H) as [-> ->]; auto.
Qed.
Lemma q_str_inj p q s u : q_str p s = q_str q u -> (p == q)%Q /\ s = u.
Proof.
  unfold q_str. intros H. assert (Qred p = Qred q /\ s = u) as [E ->].
  - destruct (Qred p) as [[|n|n] e], (Qred q) as [[|m|m] f]; cbn in H; try discriminate; injection H as H.
    + apply pos_str_inj in H. destruct H as [-> ->]. auto.
    + apply pos_str_inj in H. destruct H as [-> H]. apply pos_str_inj in H. destruct H as [-> ->]. auto.
    + apply pos_str_inj in H. destruct H as [-> H]. apply pos_str_inj in H. destruct H as [-> ->]. auto.
  - split; [|reflexivity]. rewrite <- (Qred_correct p), <- (Qred_correct q), E. reflexivity.
Qed.
Definition box_str (v : value) : string := match v with VNum q => q_str q "" | _ => "" end.
Definition box_key (t : trace) : string := match dget (extra (st t)) "box_pos" with Some (VNum q) => q_str q (channel (st t)) | _ => key19 t end.
Lemma box_names_e : box_names box_str box_key.
Proof.
  assert (forall p s, slash_free s -> slash_free (pos_str p s)) as Hs by (unfold slash_free in *; induction p; intros s H; cbn; auto).
  split; [|split].
  - intros p. cbn [box_str]. unfold q_str. destruct (Qnum (Qred p)); unfold slash_free in *; cbn; repeat apply Hs; reflexivity.
  - intros p q H. apply (q_str_inj p q "" "" H).
  - intros t u p q (v & V1 & V2) (x & X1 & X2) H. unfold box_key in H. rewrite V1, X1 in H. apply q_str_inj in H. destruct H as [H1 H2]. split; [exact H2|]. rewrite <- V2, <- X2. exact H1.
Qed.
Definition pp_tr (p : spair) (lat : Q) (cha : string) (x : Q) : trace :=
  mkTrace (mkStats (p_net p) (p_sta p) (p_loc p) cha 0 100000000 [("event_time", VTime (p_time p)); ("pp_latitude", VNum lat); ("pp_longitude", VNum 0); ("onset", VTime 7)]) [x].
Definition pp_s (p : spair) (lat x : Q) : spair * list trace := (p, [pp_tr p lat "BHQ" x; pp_tr p lat "BHL" (x + 1)]).
Definition pp_streams : list (spair * list trace) := [pp_s (pair_e "PB01" 5) 3 1; pp_s (pair_e "PB01" 1000000007) 4 10; pp_s (pair_e "PB02" 5) 12 20].
Definition pp_write (fmt : string) (s : list trace) := write clock_e box_str box_key (fun _ _ => None) s "in" fmt TRf.
Definition pp_arch (fmt : string) : files := do_ops [] (flat_map (fun ps => fst (pp_write fmt (snd ps))) pp_streams).
Definition pp_within (p : Q * Q) (b : box) : bool := (negb (Qle_bool (fst p) (b_pos b - b_len b / 2)) && negb (Qle_bool (b_pos b + b_len b / 2) (fst p)))%Q.
Definition pp_boxes : list box := [mkBox 5 10 5 0 (Some (0, 0, 0, 20, 2000)); mkBox 15 10 15 0 None]%Q.
Definition pp_conf : dict json := [("events", JStr "ev.xml"); ("inventory", JStr "sta.xml"); ("boxbins", JStr "bins")].
Definition pp_loads (s : string) : res json := if String.eqb s "conf" then Ok (JObj pp_conf) else if String.eqb s "bins" then Ok (JList [JNum 0; JNum 20; JNum 3]) else Err ValueError.
Definition pp_get_boxes (w : json) : res (list box) := match w with JObj d => match dget d "bins" with Some _ => Ok pp_boxes | None => Err TypeError end | _ => Err TypeError end.
Definition pp_events : list event := [event_e 40 7; event_e 60 1000000000].
Definition pp_program (inv : list string) (argv : list string) (fs : files) : effect (list trace) :=
  program clock_e box_str box_key (fun _ _ => None) (fun _ l => Ok l) idset_e set_e
    (fun n _ => if String.eqb n "ev.xml" then Ok pp_events else Err OtherError) (fun n _ => if String.eqb n "sta.xml" then Ok inv else Err OtherError) pp_loads (fun b => Ok b)
    (fun _ _ _ => Err (A := unit) OtherError) (fun _ _ _ _ => ([], None)) (fun _ s => Ok s) (fun _ s => Ok s) (fun _ s => Ok s) (fun _ s => Ok s)
    pp_get_boxes (profile_traces pp_within) (fun _ => None) file_d argv fs.
Lemma good_pp sta t a x : code sta -> year_e t -> good year_e (pp_s (pair_e sta t) a x).
Proof.
  intros Hs Ht. unfold good. cbn [fst snd pp_s]. split; [|split; [|split; [discriminate|]]].
  - unfold proper, pair_e. cbn. split; [repeat split|]. split; [exact Hs|]. split; [repeat split | exact Ht].
  - repeat (constructor; [repeat split; eexists; split; reflexivity|]). constructor.
  - unfold channels_ok. cbn. split; [|repeat constructor]. constructor; [intros [H|[]]; discriminate H|]. constructor; [intros []|constructor].
Qed.
(** rf profile in prof, rf plot-profile prof figs *)
Example C142_nonvacuous :
  stored clock_e year_e box_str box_key (fun _ _ => None) "in" "Q" pp_streams (pp_arch "Q") /\ box_names box_str box_key /\
  (forall bw, box_options pp_loads (fun b => Ok b) (setting [] pp_conf) bw -> pp_get_boxes bw = Ok pp_boxes) /\
  Forall usable (flat_map snd pp_streams) /\ (exists t, In t (flat_map snd pp_streams) /\ in_box pp_within pp_boxes t 15 "Q") /\
  exists ops figs k, pp_program inv_e ["profile"; "in"; "prof"] (pp_arch "Q") = Did ops [] None /\
    pp_program inv_e ["plot-profile"; "prof"; "figs"] (do_ops (pp_arch "Q") ops) = Did [] figs None /\ length (save_all figs) = 2 /\
    dget (save_all figs) "figs/profile_Q.pdf" = Some k /\ Forall2 (Forall2 Qeq) (map data k) [[11 # 2]; [20 # 1]]%Q.
Proof.
  split; [|split; [exact box_names_e|split; [|split; [|split]]]].
  - split; [exact clock_e_ok|]. split; [repeat split|]. split; [cbn; tauto|]. split; [repeat (constructor; [apply good_pp; [repeat split | unfold year_e; lia]|]); constructor|].
    split; [repeat constructor; intros [(H1 & H2 & H3) H4]; cbn in *; try discriminate; vm_compute in H4; discriminate|]. split; [discriminate|].
    exists [], (map (fun ps => fst (pp_write "Q" (snd ps))) pp_streams). split; [intros n f []|]. split; [|unfold pp_arch; rewrite flat_map_concat_map; reflexivity].
    repeat (constructor; [reflexivity|]); constructor.
  - intros bw (b & bins & B1 & B2 & B3 & B4). cbn in B1, B2. destruct (B4 ltac:(congruence)) as (x & _ & d & d' & _ & -> & E & _). unfold pp_get_boxes. rewrite E. reflexivity.
  - repeat (constructor; [split; [eexists _, _; split; reflexivity|]; split; [eexists; split; [reflexivity|]; split; [reflexivity|]; cbn; intuition discriminate | intros v E; injection E as <-; eauto]|]). constructor.
  - eexists. split; [cbn; right; right; right; right; left; reflexivity|]. eexists _, _, [_], _, []. split; [reflexivity|]. split; [reflexivity|]. split; [reflexivity|]. split; [reflexivity|].
    split; [repeat constructor|]. split; [reflexivity | reflexivity].
  - eexists _, _, _. split; [vm_compute; reflexivity|]. split; [vm_compute; reflexivity|]. split; [reflexivity|]. split; [vm_compute; reflexivity|]. repeat constructor.
Qed.
(** The full C142 does not hold. With channels of two bands in the inventory the traces of a station
    are counted twice. *)
Theorem C142_bands_refuted :
  exists ops a b, pp_program ["CX.PB01..BHZ"; "CX.PB01..HHZ"; "CX.PB02..BHZ"] ["profile"; "in"; "prof"] (pp_arch "Q") = Did ops [] None /\
    dget (do_ops (pp_arch "Q") ops) "prof.QHD" = Some a /\ In ("", b) a /\ channel (st b) = "??Q" /\ entry_is "box_pos" b 5 /\ entry_is "num" b 4.
Proof.
  eexists _, _, _. split; [vm_compute; reflexivity|]. split; [vm_compute; reflexivity|]. split; [right; right; left; reflexivity|]. split; [reflexivity|].
  split; eexists; (split; [reflexivity | reflexivity]).
Qed.
(** If there is no trace in a box then rf profile succeeds without writing a file and rf plot-profile
    raises an exception. *)
Definition far_arch : files := do_ops [] (fst (pp_write "Q" (snd (pp_s (pair_e "PB01" 5) 77 1)))).
Theorem C142_empty_refuted :
  pp_program inv_e ["profile"; "in"; "prof"] far_arch = Did [] [] None /\ exists e, pp_program inv_e ["plot-profile"; "prof"; "figs"] far_arch = Did [] [] (Some e).
Proof. split; [vm_compute; reflexivity | eexists; vm_compute; reflexivity]. Qed.
Print Assumptions C142_bands_refuted.
Print Assumptions C142_empty_refuted.
