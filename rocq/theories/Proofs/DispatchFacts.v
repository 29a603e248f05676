(** Facts about run_commands as a whole. *)
From Verif Require Import Model.Dispatch Spec.BatchSpec Spec.ConfigSpec Spec.DispatchSpec Proofs.PyFacts Proofs.ConfigFacts Proofs.CliFacts Proofs.BatchFacts Proofs.BatchRead Proofs.BatchLoop Properties.ConfigProps Properties.CliProps Spec.CliSpec.
Notation length := List.length.

Lemma sapp_assoc (a b c : string) : ((a ++ b) ++ c = a ++ (b ++ c))%string.
Proof. induction a as [|x a IH]; cbn; [reflexivity | f_equal; exact IH]. Qed.

Section Names.
  Variable fmt_time : Z -> string.
  Variable str_of : value -> string.
  Variable h5key : trace -> string.
  Variable writer : string -> list trace -> option exn.
  Lemma fname_inside format root net sta loc cha time n : fname format root net sta loc cha time = Ok n -> inside root n.
  Proof.
    unfold fname. destruct (format =? "Q")%string; [|destruct (format =? "SAC")%string; [|destruct (format =? "H5")%string; [|discriminate]]].
    - destruct time; [|discriminate]. intros H. injection H as <-. left. eexists. reflexivity.
    - destruct time; [|discriminate]. intros H. injection H as <-. left. eexists. reflexivity.
    - intros H. injection H as <-. right. left. reflexivity.
  Qed.
  Lemma trace_fname_inside ty format root t n : trace_fname fmt_time str_of ty format root t = Ok n -> inside root n.
  Proof.
    destruct ty; cbn [trace_fname]; [apply fname_inside| |].
    - unfold stack_fname. destruct (format =? "Q")%string; [|destruct (format =? "SAC")%string; [|destruct (format =? "H5")%string; [|discriminate]]]; intros H; injection H as <-;
        [left; eexists; reflexivity | left; eexists; reflexivity | right; left; reflexivity].
    - unfold profile_fname. destruct (format =? "Q")%string; [|destruct (format =? "SAC")%string; [|destruct (format =? "H5")%string; [|discriminate]]].
      + intros H. injection H as <-. right. right. reflexivity.
      + destruct (String.get 2 _); [|discriminate]. destruct (match tr_get t "box_pos" with Some _ => _ | None => _ end); [|discriminate]. cbn [bind]. intros H. injection H as <-.
        left. exists ("profile_" ++ char_str a ++ "_" ++ a0 ++ ".SAC")%string. reflexivity.
      + intros H. injection H as <-. right. left. reflexivity.
  Qed.
  Lemma write_inside s root fmt ty ops e : write fmt_time str_of h5key writer s root fmt ty = (ops, e) -> Forall (fun o => inside root (op_name o)) ops.
  Proof.
    unfold write. destruct s as [|t s]; [intros H; injection H as <- <-; constructor|].
    destruct (trace_fname _ _ _ _ _ _) as [n|] eqn:En; [|intros H; injection H as <- <-; constructor]. apply trace_fname_inside in En.
    destruct (upper fmt =? "H5")%string; [|destruct (upper fmt =? "Q")%string; [|destruct (upper fmt =? "SAC")%string]].
    - destruct (writer _ _); intros H; injection H as <- <-; [constructor|]. apply Forall_forall. intros o [<-|Ho]; [exact En|]. apply in_map_iff in Ho. destruct Ho as (x & <- & _). exact En.
    - destruct (writer _ _); intros H; injection H as <- <-; [constructor|]. constructor; [exact En | constructor].
    - generalize (t :: s). clear En n t s. intros l. revert ops e. induction l as [|t l IH]; intros ops e; cbn [write_sac]; [intros H; injection H as <- <-; constructor|].
      destruct (trace_fname _ _ _ _ _ _) as [n|] eqn:En; [|intros H; injection H as <- <-; constructor]. apply trace_fname_inside in En.
      destruct (writer _ _); [intros H; injection H as <- <-; constructor|]. destruct (write_sac _ _ _ _ _ l) as [o x]. intros H. injection H as <- <-. constructor; [exact En | exact (IH _ _ eq_refl)].
    - intros H. injection H as <- <-. constructor.
  Qed.
  Lemma loop_inside {I} (get : files -> I -> res (option (list trace))) process root fmt ty items : forall fin fs ops e,
    run_loop fmt_time str_of h5key writer get process root fmt ty items fin fs = (ops, e) -> Forall (fun o => inside root (op_name o)) ops.
  Proof.
    induction items as [|i items IH]; intros fin fs ops e; cbn [run_loop]; [intros H; injection H as <- <-; constructor|].
    destruct (get fs i) as [[s|]|]; [| apply IH | intros H; injection H as <- <-; constructor].
    destruct (process s) as [out|]; [|intros H; injection H as <- <-; constructor].
    destruct (write _ _ _ _ _ _ _ _) as [o [x|]] eqn:Ew; apply write_inside in Ew; [intros H; injection H as <- <-; exact Ew|].
    destruct (run_loop _ _ _ _ _ _ _ _ _ _ _ _) as [o' x] eqn:El. intros H. injection H as <- <-. apply Forall_app. split; [exact Ew | exact (IH _ _ _ _ El)].
  Qed.
  Lemma loop_fails {I} (get : files -> I -> res (option (list trace))) process root fmt ty items : (forall s, exists e, process s = Err e) -> forall fin fs,
    fst (run_loop fmt_time str_of h5key writer get process root fmt ty items fin fs) = [].
  Proof.
    intros Hp. induction items as [|i items IH]; intros fin fs; cbn [run_loop]; [reflexivity|].
    destruct (get fs i) as [[s|]|]; [| apply IH | reflexivity]. destruct (Hp s) as [e ->]. reflexivity.
  Qed.
End Names.
Section Figs.
  Context {D : Type}.
  Variable draw : list trace -> res D.
  Variable channel_set : list trace -> list string.
  Lemma figures_inside name arrange root s : (forall t n, name t = Ok n -> inside root n) -> forall chans, Forall (fun f : string * D => inside root (fst f)) (fst (figures draw name arrange chans s)).
  Proof.
    intros Hn. induction chans as [|c chans IH]; cbn [figures]; [constructor|].
    destruct (select_channel c s) as [|t l]; [constructor|]. destruct (name t) as [n|] eqn:En; [|constructor]. cbn [bind].
    destruct (arrange (t :: l)) as [l'|]; [|constructor]. cbn [bind]. destruct (draw l') as [d|]; [|constructor]. cbn [bind].
    destruct (figures _ _ _ chans s) as [fs e]. cbn [fst] in *. constructor; [exact (Hn _ _ En) | exact IH].
  Qed.
  Lemma pdf_inside root t n : pdf_name root t = Ok n -> inside root n.
  Proof. unfold pdf_name. intros H. injection H as <-. left. eexists. reflexivity. Qed.
  Lemma profile_pdf_inside root t n : profile_pdf root t = Ok n -> inside root n.
  Proof. unfold profile_pdf. destruct (String.get _ _) as [a|]; [|discriminate]. intros H. injection H as <-. left. exists ("profile_" ++ char_str a ++ ".pdf")%string. reflexivity. Qed.
  Lemma plot_inside root streams : forall fin, Forall (fun f : string * D => inside root (fst f)) (fst (plot_command draw channel_set root streams fin)).
  Proof.
    induction streams as [|s streams IH]; intros fin; cbn [plot_command]; [constructor|].
    pose proof (figures_inside (pdf_name root) sort_azimuth root s (pdf_inside root) (channel_set s)) as Hf.
    destruct (figures _ _ _ _ s) as [f [e|]]; [exact Hf|]. specialize (IH fin). destruct (plot_command _ _ _ _ _) as [fs e]. apply Forall_app. split; assumption.
  Qed.
End Figs.

(** operations on other files do not change a file *)
Lemma do_ops_other (ops : list wop) n : (forall o, In o ops -> op_name o <> n) -> forall fs, dget (do_ops fs ops) n = dget fs n.
Proof.
  intros H. induction ops as [|o ops IH]; intros fs; [reflexivity|]. change (do_ops fs (o :: ops)) with (do_ops (do_op fs o) ops). rewrite IH by (intros; apply H; right; assumption).
  specialize (H o (or_introl eq_refl)). destruct o; cbn [do_op op_name] in *; apply dget_dset_ne; congruence.
Qed.

(** options are found if the configuration is well-formed *)
Lemma fill_option_ok loads kw opt : (forall s, dget kw opt = Some (JStr s) -> exists v, loads s = Ok v) -> exists kw', fill_option loads kw opt = Ok kw'.
Proof.
  intros H. unfold fill_option. destruct (dget kw opt) as [v|] eqn:E.
  - cbv zeta. rewrite E. destruct v; eauto. destruct (H s eq_refl) as [v ->]. cbn [bind]. eauto.
  - cbv zeta. rewrite dget_dset_eq. unfold default_option. destruct (opt =? "boxbins")%string; eauto.
Qed.
Lemma fill_option_frame loads kw opt kw' k : fill_option loads kw opt = Ok kw' -> k <> opt -> dget kw' k = dget kw k.
Proof.
  unfold fill_option. cbv zeta. intros H Hk. destruct (dget kw opt) as [v|] eqn:E.
  - rewrite E in H. destruct v; try (injection H as <-; reflexivity). destruct (loads s); [|discriminate]. injection H as <-. apply dget_dset_ne. congruence.
  - rewrite dget_dset_eq in H. unfold default_option in H. destruct (opt =? "boxbins")%string; injection H as <-; apply dget_dset_ne; congruence.
Qed.
Lemma fill_all_ok loads opts : NoDup opts -> forall kw, (forall opt s, In opt opts -> dget kw opt = Some (JStr s) -> exists v, loads s = Ok v) -> exists kw', foldM (fill_option loads) opts kw = Ok kw'.
Proof.
  induction 1 as [|opt opts Hni _ IH]; intros kw H; [eexists; reflexivity|]. cbn [foldM].
  destruct (fill_option_ok loads kw opt (fun s => H opt s (or_introl eq_refl))) as [kw' E]. rewrite E. cbn [bind]. apply IH.
  intros o s Ho. rewrite (fill_option_frame _ _ _ _ o E) by (intros ->; contradiction). apply H. right. exact Ho.
Qed.
Lemma is_value_fun loads v x a b : is_value loads v x a -> is_value loads v x b -> a = b.
Proof. unfold is_value. destruct v as [[]|]; congruence. Qed.
Lemma resolve_ok loads linspace args : (forall k v, In (k, v) args -> known k) -> options_ok loads linspace (dget args) -> exists kw, resolve loads linspace args = Ok kw.
Proof.
  intros Hk [Ho (b & Hb & Hlin)]. unfold resolve. set (kw0 := filter (fun e => negb (inb (fst e) NAMED)) args).
  assert (existsb (fun e : string * json => negb (inb (fst e) DICT_OPTIONS)) kw0 = false) as ->.
  { apply Bool.not_true_is_false. intros H. apply existsb_exists in H. destruct H as ([k v] & Hin & H). unfold kw0 in Hin. apply filter_In in Hin. destruct Hin as [Hin H2]. cbn [fst] in *.
    apply Bool.negb_true_iff in H, H2. specialize (Hk k v Hin). unfold known in Hk.
    assert (In k NAMED \/ In k DICT_OPTIONS) as [C|C] by (unfold NAMED, DICT_OPTIONS; cbn [In] in *; tauto); apply inb_spec in C; congruence. }
  assert (NoDup DICT_OPTIONS) as Hnd by (unfold DICT_OPTIONS; repeat (constructor; [cbn; intuition discriminate|]); constructor).
  assert (forall opt, In opt DICT_OPTIONS -> dget kw0 opt = dget args opt) as H0.
  { intros opt Hin. apply dget_filter. intros v. cbn [fst]. destruct (inb opt NAMED) eqn:E; [|reflexivity]. exfalso. apply inb_spec in E.
    unfold DICT_OPTIONS, NAMED in *. cbn [In] in *. intuition congruence. }
  destruct (fill_all_ok loads DICT_OPTIONS Hnd kw0) as [kw1 E1].
  { intros opt s Hin Hs. rewrite (H0 opt Hin) in Hs. assert (opt = "boxbins" \/ In opt ["client_options"; "options"; "rf"; "moveout"; "boxes"; "profile"; "plot"; "plot_profile"]) as [->|Hi]
      by (unfold DICT_OPTIONS in Hin; cbn [In] in *; intuition congruence).
    - rewrite Hs in Hb. exists b. exact Hb.
    - destruct (Ho opt Hi) as [o H]. rewrite Hs in H. eexists. exact H. }
  rewrite E1. cbn [bind]. destruct (fill_all loads _ _ _ Hnd E1) as [HF _].
  assert (forall opt, In opt ["options"; "moveout"; "boxes"] -> exists o, dget kw1 opt = Some (JObj o)) as HV.
  { intros opt Hin. destruct (HF opt) as (w & Hw & E); [unfold DICT_OPTIONS; cbn [In] in *; tauto|]. rewrite H0 in Hw by (unfold DICT_OPTIONS; cbn [In] in *; tauto).
    destruct (Ho opt) as [o H]; [cbn [In] in *; tauto|]. assert (default_option opt = JObj []) as Ed by (cbn [In] in Hin; destruct Hin as [<-|[<-|[<-|[]]]]; reflexivity). rewrite Ed in Hw.
    rewrite (is_value_fun _ _ _ _ _ Hw H) in E. eauto. }
  assert (dget kw1 "boxbins" = Some b) as Eb.
  { destruct (HF "boxbins") as (w & Hw & E); [unfold DICT_OPTIONS; cbn [In]; tauto|]. rewrite H0 in Hw by (unfold DICT_OPTIONS; cbn [In]; tauto). change (default_option "boxbins") with JNull in Hw.
    rewrite (is_value_fun _ _ _ _ _ Hw Hb) in E. exact E. }
  assert (forall kw opt k x o, dget kw opt = Some (JObj o) -> exists kw', set_in kw opt k x = Ok kw' /\ (exists o', dget kw' opt = Some (JObj o')) /\ forall k', k' <> opt -> dget kw' k' = dget kw k') as HS.
  { intros kw opt k x o E. unfold set_in. rewrite E. cbn [set_item bind]. eexists. split; [reflexivity|]. split; [rewrite dget_dset_eq; eauto | intros; apply dget_dset_ne; congruence]. }
  assert (exists kw2, match given (dget args "phase") with Some p => set_in kw1 "options" "phase" p | None => Ok kw1 end = Ok kw2 /\ (exists o, dget kw2 "moveout" = Some (JObj o)) /\
    (exists o, dget kw2 "boxes" = Some (JObj o)) /\ dget kw2 "boxbins" = Some b) as (kw2 & -> & M2 & B2 & E2).
  { destruct (given (dget args "phase")) as [p|]; [|eexists; split; [reflexivity|]; split; [apply HV; cbn; tauto | split; [apply HV; cbn; tauto | exact Eb]]].
    destruct (HV "options") as [o E]; [cbn; tauto|]. destruct (HS kw1 "options" "phase" p o E) as (kw2 & -> & _ & F). exists kw2. split; [reflexivity|]. rewrite !F by discriminate.
    split; [apply HV; cbn; tauto | split; [apply HV; cbn; tauto | exact Eb]]. }
  cbn [bind]. assert (exists kw3, match given (dget args "moveout_phase") with Some p => set_in kw2 "moveout" "phase" p | None => Ok kw2 end = Ok kw3 /\
    (exists o, dget kw3 "boxes" = Some (JObj o)) /\ dget kw3 "boxbins" = Some b) as (kw3 & -> & B3 & E3).
  { destruct (given (dget args "moveout_phase")) as [p|]; [|eauto]. destruct M2 as [o E]. destruct (HS kw2 "moveout" "phase" p o E) as (kw3 & -> & _ & F). exists kw3. split; [reflexivity|]. rewrite !F by discriminate. auto. }
  cbn [bind]. rewrite E3. destruct b; cbn [given]; eauto; (destruct Hlin as [C|[lx El]]; [discriminate|]; rewrite El; cbn [bind]; destruct B3 as [ox E]; destruct (HS kw3 "boxes" "bins" lx ox E) as (kw4 & -> & _); eauto).
Qed.

(** a command of the command line is called with its arguments, the options and the configuration *)
Lemma called loads file l d c pos a conf : options l d -> positional c pos a -> Forall plain pos -> c <> "print" -> configured loads file d conf ->
  exists args, run_cli loads file (l ++ c :: pos) = Run (Some c) (Call args) /\ forall k, dget args k = value_of a d conf k.
Proof.
  intros Ho Hp Hpl Hc [[Hn ->]|(Hn & text & Hf & Hl & Hk)]; [apply C116_no_config; assumption|].
  apply (C116_config loads file l d c pos a text conf); try assumption. destruct (dget conf "command") as [v|] eqn:E; [|reflexivity]. exfalso.
  apply (aget_Some_in String.eqb String.eqb_eq) in E. specialize (Hk _ _ E). unfold known in Hk. cbn in Hk. intuition discriminate.
Qed.

(** ** Reading is not disturbed by files written elsewhere *)
Lemma slash_prefix (a b x y : list ascii) : a ++ "/"%char :: x = b ++ "/"%char :: y -> a = b \/ (exists s, b = a ++ "/"%char :: s) \/ (exists s, a = b ++ "/"%char :: s).
Proof.
  revert b. induction a as [|c a IH]; intros [|d b] H; cbn [app] in H.
  - left. reflexivity.
  - injection H as -> H. right. left. exists b. reflexivity.
  - injection H as -> H. right. right. exists a. reflexivity.
  - injection H as -> H. destruct (IH b H) as [->|[[s ->]|[s ->]]]; [left; reflexivity | right; left; exists s; reflexivity | right; right; exists s; reflexivity].
Qed.
Lemma slash_within (a b x t : list ascii) : ~ In "/"%char t -> a ++ "/"%char :: x = b ++ t -> exists s, b = a ++ "/"%char :: s.
Proof.
  intros Ht. revert b. induction a as [|c a IH]; intros [|d b] H; cbn [app] in H.
  - exfalso. apply Ht. rewrite <- H. left. reflexivity.
  - injection H as -> H. exists b. reflexivity.
  - exfalso. apply Ht. rewrite <- H. right. apply in_or_app. right. left. reflexivity.
  - injection H as -> H. destruct (IH b H) as [s ->]. exists s. reflexivity.
Qed.
Lemma la_slash a (s : list ascii) b : la b = la a ++ "/"%char :: s -> exists s', b = (a ++ "/" ++ s')%string.
Proof.
  intros H. exists (string_of_list_ascii s). apply la_inj. rewrite !la_app, list_ascii_of_string_of_list_ascii. exact H.
Qed.
Lemma inside_apart pin root n s : apart pin root -> inside root n -> la n <> la pin ++ "/"%char :: s.
Proof.
  intros (H1 & H2 & H3) [[s' ->]|[->| ->]] E; rewrite ?la_app in E; cbn [list_ascii_of_string app] in E.
  - apply slash_prefix in E. destruct E as [E|[[u E]|[u E]]]; [apply H1; symmetry; apply la_inj, E | |].
    + apply la_slash in E. destruct E as [w E]. apply (H2 w E).
    + apply la_slash in E. destruct E as [w E]. apply (H3 w E).
  - symmetry in E. apply slash_within in E; [|cbn; intuition discriminate]. destruct E as [u E]. apply la_slash in E. destruct E as [w E]. apply (H3 w E).
  - symmetry in E. apply slash_within in E; [|cbn; intuition discriminate]. destruct E as [u E]. apply la_slash in E. destruct E as [w E]. apply (H3 w E).
Qed.
Lemma inside_h5 pin root : apart pin root -> ~ inside root (pin ++ ".h5").
Proof.
  intros (H1 & H2 & H3) [[s E]|[E|E]]; apply (f_equal la) in E; rewrite !la_app in E.
  - cbn [list_ascii_of_string app] in E. symmetry in E. apply slash_within in E; [|cbn; intuition discriminate]. destruct E as [u E]. apply la_slash in E. destruct E as [w E]. apply (H2 w E).
  - apply app_inv_tail in E. apply H1, la_inj, E.
  - apply (f_equal (@rev ascii)) in E. rewrite !rev_app_distr in E. discriminate E.
Qed.
Lemma glob_prefix pin rest n : no_wild pin -> glob_str (pin ++ "/" ++ rest) n = true -> exists s, la n = la pin ++ "/"%char :: s.
Proof.
  intros Hw E. unfold glob_str in E. rewrite !la_app in E. cbn [list_ascii_of_string app] in E. apply glob_lit in E; [|apply no_wild_plain, Hw]. destruct E as (s' & E & Hg).
  cbn [glob] in Hg. change (Ascii.eqb "/" "*") with false in Hg. change (Ascii.eqb "/" "?") with false in Hg. cbv iota in Hg.
  destruct s' as [|c s']; [discriminate|]. apply Bool.andb_true_iff in Hg. destruct Hg as [Hc _]. apply Ascii.eqb_eq in Hc. subst c. exists s'. exact E.
Qed.
Section Apart.
  Variable fmt_time : Z -> string.
  Variable str_of : value -> string.
  Variable h5key : trace -> string.
  Variable writer : string -> list trace -> option exn.
  Variable load : string -> list trace -> res (list trace).
  Lemma fetch_apart pin root fmt fs ops m : no_wild pin -> apart pin root -> Forall (fun o => inside root (op_name o)) ops ->
    fetch fmt_time load pin fmt (do_ops fs ops) m = fetch fmt_time load pin fmt fs m.
  Proof.
    intros Hw Ha Hi. set (nameb := fun n => if in_dec string_dec n (map op_name ops) then true else false).
    assert (forall n, In n (map op_name ops) -> nameb n = true) as Hn by (intros n H; unfold nameb; destruct (in_dec _ _ _); [reflexivity | contradiction]).
    assert (forall n, nameb n = true -> inside root n) as Hb.
    { intros n H. unfold nameb in H. destruct (in_dec string_dec n (map op_name ops)) as [Hin|]; [|discriminate]. apply in_map_iff in Hin. destruct Hin as (o & <- & Ho). rewrite Forall_forall in Hi. apply Hi, Ho. }
    pose proof (others_ops nameb ops fs Hn) as Ho.
    unfold fetch. set (time := match dget m "event_time" with None => Ok "*" | v => format_time fmt_time v end). unfold fname.
    assert (forall f rest, read_glob load (do_ops fs ops) f (pin ++ "/" ++ rest) = read_glob load fs f (pin ++ "/" ++ rest)) as Hg.
    { intros f rest. apply (read_glob_others load nameb); [exact Ho|]. intros n H. destruct (glob_str _ _) eqn:E; [|reflexivity]. exfalso. apply glob_prefix in E; [|exact Hw]. destruct E as [s E].
      exact (inside_apart pin root n s Ha (Hb n H) E). }
    destruct (String.eqb_spec fmt "Q") as [->|_]; [|destruct (String.eqb_spec fmt "SAC") as [->|_]; [|destruct (String.eqb_spec fmt "H5") as [->|_]; [|reflexivity]]].
    - destruct time as [t|]; [|reflexivity]. cbn [bind]. change (("Q" =? "H5")%string) with false. cbv iota. rewrite Hg. reflexivity.
    - destruct time as [t|]; [|reflexivity]. cbn [bind]. change (("SAC" =? "H5")%string) with false. cbv iota. rewrite Hg. reflexivity.
    - cbn [bind]. change (("H5" =? "H5")%string) with true. cbv iota. rewrite (read_h5_others fmt_time load nameb (do_ops fs ops) fs); [reflexivity | exact Ho|].
      destruct (nameb (pin ++ ".h5")%string) eqn:E; [|reflexivity]. exfalso. exact (inside_h5 pin root Ha (Hb _ E)).
  Qed.
  Lemma stack_inside id_set root fmt streams : forall fin ops e, stack_command fmt_time str_of h5key writer id_set root fmt streams fin = (ops, e) -> Forall (fun o => inside root (op_name o)) ops.
  Proof.
    induction streams as [|s streams IH]; intros fin ops e; cbn [stack_command]; [intros H; injection H as <- <-; constructor|].
    destruct (stack (id_set s) s) as [out|]; [|intros H; injection H as <- <-; constructor].
    destruct (write _ _ _ _ _ _ _ _) as [o [x|]] eqn:Ew; apply write_inside in Ew; [intros H; injection H as <- <-; exact Ew|].
    destruct (stack_command _ _ _ _ _ _ _ _ _) as [o' x] eqn:El. intros H. injection H as <- <-. apply Forall_app. split; [exact Ew | exact (IH _ _ _ El)].
  Qed.
  Lemma loop_stack id_set pin root fmt before metas : no_wild pin -> apart pin root -> forall fin done, Forall (fun o => inside root (op_name o)) done ->
    run_loop fmt_time str_of h5key writer (fetch fmt_time load pin fmt) (fun s => stack (id_set s) s) root fmt TStack metas fin (do_ops before done) =
    let (out, e) := processed (fetch fmt_time load pin fmt before) metas fin in stack_command fmt_time str_of h5key writer id_set root fmt out e.
  Proof.
    intros Hw Ha. induction metas as [|m metas IH]; intros fin dn Hd; cbn [run_loop processed]; [reflexivity|].
    rewrite (fetch_apart pin root fmt before dn m Hw Ha Hd). destruct (fetch _ _ _ _ _ _) as [[s|]|e]; [| apply IH, Hd | reflexivity].
    specialize (IH fin). destruct (processed _ metas fin) as [out e]. cbn [stack_command]. destruct (stack (id_set s) s) as [o|]; [|reflexivity].
    destruct (write _ _ _ _ _ _ _ _) as [ops [x|]] eqn:Ew; [reflexivity|]. rewrite <- do_ops_app. rewrite (IH (dn ++ ops)); [reflexivity|]. apply Forall_app. split; [exact Hd | eapply write_inside; exact Ew].
  Qed.
End Apart.
