(** C126-C130: the program as a whole. *)
From Verif Require Import Model.Dispatch Spec.EventSpec Spec.BatchSpec Spec.OnceSpec Spec.FigureSpec Spec.MeanSpec Spec.StackSpec Spec.ConfigSpec Spec.DispatchSpec Proofs.PyFacts Proofs.ConfigFacts Proofs.CliFacts
  Proofs.BatchFacts Proofs.BatchRead Proofs.BatchLoop Proofs.OnceFacts Proofs.FigureFacts Proofs.StackCmdFacts Proofs.StackArchiveFacts Proofs.PlotArchiveFacts Proofs.ConvertFacts
  Properties.ConfigProps Properties.CliProps Properties.ConvertProps Properties.BatchProps Properties.OnceProps Properties.FigureProps Properties.EventProps Properties.StackCmdProps Properties.StackArchiveProps Properties.PlotArchiveProps Spec.CliSpec Proofs.DispatchFacts.
Notation length := List.length.

Section Program.
  Context {D W B : Type}.
  Variable fmt_time : Z -> string.
  Variable str_of : value -> string.
  Variable h5key : trace -> string.
  Variable writer : string -> list trace -> option exn.
  Variable load : string -> list trace -> res (list trace).
  Variable id_set channel_set : list trace -> list string.
  Variable read_events : string -> option string -> res (list event).
  Variable read_inventory : string -> option string -> res (list string).
  Variable loads : string -> res json.
  Variable linspace : json -> res json.
  Variable init : option json -> json -> option json -> res W.
  Variable data_streams : json -> W -> list event -> list string -> list (list trace) * option exn.
  Variable rf moveout : json -> list trace -> res (list trace).
  Variable plot_rf plot_profile : json -> list trace -> res D.
  Variable get_boxes : json -> res B.
  Variable profile : json -> B -> list trace -> res (list trace).
  Variable show : dict json -> option exn.
  Notation run_commands := (run_commands fmt_time str_of h5key writer load id_set channel_set read_events read_inventory loads linspace init data_streams rf moveout plot_rf plot_profile get_boxes profile show).
  Notation program := (program fmt_time str_of h5key writer load id_set channel_set read_events read_inventory loads linspace init data_streams rf moveout plot_rf plot_profile get_boxes profile show).

  (** * C126: what is written where *)
  (** Whatever happens, only files of the output path are written. *)
  Theorem C126_paths command args fs ops figs e pout :
    dget args "path_out" = Some (JStr pout) -> run_commands command args fs = Did ops figs e ->
    (forall o, In o ops -> inside pout (op_name o)) /\ (forall n d, In (n, d) figs -> inside pout n) /\
    (forall n, ~ inside pout n -> dget (do_ops fs ops) n = dget fs n).
  Proof.
    intros Hp H.
    assert (Forall (fun o => inside pout (op_name o)) ops /\ Forall (fun f => inside pout (fst f)) figs) as [H1 H2].
    2: { rewrite Forall_forall in H1, H2. split; [exact H1|]. split; [intros n d Hin; exact (H2 _ Hin)|]. intros n Hn. apply do_ops_other. intros o Ho <-. exact (Hn (H1 o Ho)). }
    assert (forall x, Did [] [] x = Did ops figs e -> Forall (fun o => inside pout (op_name o)) ops /\ Forall (fun f : string * D => inside pout (fst f)) figs) as H0.
    { intros x E. injection E as <- <- _. split; constructor. }
    unfold Dispatch.run_commands in H. destruct (resolve loads linspace args) as [kw|]; [|exact (H0 _ H)]. cbn [bind] in H. destruct (check_arg _ _); [|exact (H0 _ H)]. cbn [bind] in H.
    destruct (command =? "print")%string; [exact (H0 _ H)|]. destruct (input _ _ _ _) as [[events channels]|]; [|discriminate]. unfold perform in H. rewrite Hp in H. cbn [path_arg] in H.
    assert (forall r : list wop * option exn, Forall (fun o => inside pout (op_name o)) (fst r) -> Did (fst r) [] (snd r) = Did ops figs e ->
      Forall (fun o => inside pout (op_name o)) ops /\ Forall (fun f : string * D => inside pout (fst f)) figs) as HL.
    { intros r Hr E. injection E as <- <- _. split; [exact Hr | constructor]. }
    assert (forall r : list (string * D) * option exn, Forall (fun o => inside pout (fst o)) (fst r) -> Did [] (fst r) (snd r) = Did ops figs e ->
      Forall (fun o => inside pout (op_name o)) ops /\ Forall (fun f : string * D => inside pout (fst f)) figs) as HD.
    { intros r Hr E. injection E as <- <- _. split; [constructor | exact Hr]. }
    assert (forall I (get : files -> I -> res (option (list trace))) process fmt ty items fin, Forall (fun o => inside pout (op_name o)) (fst (run_loop fmt_time str_of h5key writer get process pout fmt ty items fin fs))) as HI.
    { intros. destruct (run_loop _ _ _ _ _ _ _ _ _ _ _ _) as [o x] eqn:E. eapply loop_inside. exact E. }
    destruct (command =? "data")%string.
    { destruct (init _ _ _); [|discriminate]. destruct (data_streams _ _ _ _) as [streams fin]. destruct (commands_arg _); [|exact (H0 _ H)]. exact (HL _ (HI _ _ _ _ _ _ _) H). }
    destruct (command =? "plot-profile")%string.
    { destruct (iter_profile _ _ _ _) as [p|]; [|exact (H0 _ H)]. exact (HD _ (figures_inside _ _ _ _ _ (profile_pdf_inside pout) _) H). }
    destruct (iter_event_metadata _ _) as [metas fin].
    destruct (command =? "convert")%string; [exact (HL _ (HI _ _ _ _ _ _ _) H)|].
    destruct (command =? "plot")%string; [destruct (processed _ _ _) as [streams fin']; exact (HD _ (plot_inside _ _ _ _ _) H)|].
    destruct (command =? "stack")%string; [exact (HL _ (HI _ _ _ _ _ _ _) H)|].
    destruct (command =? "profile")%string.
    { destruct (get_boxes _) as [boxes|]; [|exact (H0 _ H)]. destruct (iter_processed_traces _ _ _ _ _ _ _) as [traces [x|]]; [exact (H0 _ H)|]. destruct (profile _ _ _) as [p|]; [|exact (H0 _ H)].
      refine (HL _ _ H). destruct (write _ _ _ _ _ _ _ _) as [o x] eqn:E. eapply write_inside. exact E. }
    destruct (commands_arg _); [|exact (H0 _ H)]. exact (HL _ (HI _ _ _ _ _ _ _) H).
  Qed.
  (** For every command line: if something is written then there is an output path at the end of the
      command line (before the new format for convert) and only its files are written. *)
  Theorem C126_program file argv fs ops figs e :
    program file argv fs = Did ops figs e ->
    (ops = [] /\ figs = []) \/
    exists l c pos a pout, argv = l ++ c :: pos /\ positional c pos a /\ dget a "path_out" = Some (JStr pout) /\
      (forall o, In o ops -> inside pout (op_name o)) /\ (forall n d, In (n, d) figs -> inside pout n) /\
      (forall n, ~ inside pout n -> dget (do_ops fs ops) n = dget fs n).
  Proof.
    unfold Dispatch.program. destruct (run_cli loads file argv) as [| |command o] eqn:E; [discriminate..|]. destruct o as [|x|args]; [discriminate | intros H; injection H as <- <- _; left; auto|].
    destruct command as [c|].
    - destruct (C117_shape_partial loads file argv c (Call args) E) as (l & pos & a & -> & Hp & Ha). intros H.
      assert (c = "print" \/ exists pout, dget a "path_out" = Some (JStr pout)) as [->|[pout Ho]] by (destruct Hp; [right; eexists; reflexivity..|left; reflexivity]).
      + left. unfold Dispatch.run_commands in H. destruct (let! _ := _ in _) in H; [|injection H as <- <- _; auto]. cbn [String.eqb Ascii.eqb Bool.eqb] in H. injection H as <- <- _. auto.
      + right. exists l, c, pos, a, pout. split; [reflexivity|]. split; [exact Hp|]. split; [exact Ho|]. apply (C126_paths c args fs ops figs e pout); [|exact H]. exact (Ha args eq_refl _ _ Ho).
    - intros H. left. unfold Dispatch.run_commands in H. destruct (let! _ := _ in _) as [kw|] in H; [|injection H as <- <- _; auto]. cbn [String.eqb Ascii.eqb Bool.eqb] in H.
      destruct (input _ _ _ _) as [[events channels]|]; [|discriminate]. unfold perform in H. cbn [String.eqb Ascii.eqb Bool.eqb] in H.
      destruct (iter_event_metadata _ _) as [metas fin]. destruct (commands_arg _) as [cmds|]; [|injection H as <- <- _; auto].
      injection H as H <- _. split; [|reflexivity]. rewrite <- H. apply loop_fails. intros s. exists NotImplementedError. reflexivity.
  Qed.

  (** * C127: commands need their inputs, and only these *)
  (** Nothing is written if the inventory cannot be read, or (but for stack and plot) the events. *)
  Theorem C127_missing_partial command args fs :
    command <> "print" ->
    (exists n f x, names_file (dget args "inventory") n f /\ read_inventory n f = Err x) \/
    (dget args "inventory" = None) \/
    (~ In command ["stack"; "plot"] /\ ((exists n f x, names_file (dget args "events") n f /\ read_events n f = Err x) \/ dget args "events" = None)) ->
    run_commands command args fs = Nothing \/ exists x, run_commands command args fs = Did [] [] (Some x).
  Proof.
    intros Hc H. unfold Dispatch.run_commands. destruct (let! _ := _ in _) as [kw|x] in |- *; [|right; eauto]. left. apply String.eqb_neq in Hc. rewrite Hc.
    assert (forall n f, names_file (dget args "inventory") n f -> load_inventory (list string) read_inventory (inventory_of (dget args "inventory")) = read_inventory n f) as HI.
    { intros n [f|] Hn; cbn [names_file] in Hn; [rewrite Hn; reflexivity|]. destruct Hn as [->| ->]; reflexivity. }
    assert (forall n f, names_file (dget args "events") n f -> load_events event read_events (events_of (dget args "events")) = read_events n f) as HE.
    { intros n [f|] Hn; cbn [names_file] in Hn; [rewrite Hn; reflexivity|]. destruct Hn as [->| ->]; reflexivity. }
    unfold input, load_input. destruct H as [(n & f & x & Hn & Hx)|[Hn|[Hsp H]]].
    - rewrite (HI n f Hn), Hx. destruct (inb command _); [reflexivity|]. destruct (load_events _ _ _); reflexivity.
    - rewrite Hn. cbn [inventory_of load_inventory]. destruct (inb command _); [reflexivity|]. destruct (load_events _ _ _); reflexivity.
    - destruct (inb command ["stack"; "plot"]) eqn:Ei; [apply inb_spec in Ei; contradiction|]. destruct H as [(n & f & x & Hn & Hx)|Hn]; [rewrite (HE n f Hn), Hx; reflexivity|].
      rewrite Hn. reflexivity.
  Qed.
  (** The commands stack and plot do not depend on events. *)
  Theorem C127_no_events_partial command args v fs :
    In command ["stack"; "plot"] -> run_commands command (dset args "events" v) fs = run_commands command args fs.
  Proof.
    intros Hc. unfold Dispatch.run_commands.
    assert (forall k, k <> "events" -> dget (dset args "events" v) k = dget args k) as Hk by (intros; apply dget_dset_ne; congruence).
    assert (filter (fun e => negb (inb (fst e) NAMED)) (dset args "events" v) = filter (fun e => negb (inb (fst e) NAMED)) args) as Hf.
    { unfold dset. induction args as [|[k x] args IH]; [reflexivity|]. cbn [aset]. destruct (String.eqb_spec "events" k) as [<-|N]; [reflexivity|]. cbn [filter fst]. rewrite IH; [reflexivity|].
      intros k' Hk'. unfold dget, dset in *. apply aget_aset_ne; [exact String.eqb_eq | congruence]. }
    assert (resolve loads linspace (dset args "events" v) = resolve loads linspace args) as ->.
    { unfold resolve. rewrite Hf, !Hk by discriminate. reflexivity. }
    rewrite (Hk "commands") by discriminate. destruct (let! _ := _ in _) as [kw|x] in |- *; [|reflexivity].
    assert ((command =? "print")%string = false) as -> by (destruct Hc as [<-|[<-|[]]]; reflexivity).
    unfold input. apply inb_spec in Hc. rewrite Hc, (Hk "inventory") by discriminate. destruct (load_inventory _ _ _) as [i|]; [|reflexivity]. unfold perform. rewrite !Hk by discriminate. reflexivity.
  Qed.

  (** * C128-C130: whole runs *)
  Lemma keys_known l d c pos a conf file args : options l d -> positional c pos a -> configured loads file d conf -> (forall k, dget args k = value_of a d conf k) -> forall k v, In (k, v) args -> known k.
  Proof.
    intros Ho Hp Hcf Ha k v Hin. assert (dget args k <> None) as Hn.
    { unfold dget. rewrite aget_None_notin by exact String.eqb_eq. intros H. apply H. apply in_map_iff. exists (k, v). auto. }
    rewrite Ha in Hn. unfold value_of in Hn. destruct (dget a k) as [x|] eqn:Ea.
    - apply (arg_keys _ _ _ Hp) in Ea. unfold known. cbn in *. tauto.
    - destruct (k =? "conf")%string eqn:Ek.
      + destruct Hcf as [[_ ->]|(_ & text & _ & _ & Hk)]; [contradiction Hn; reflexivity|]. destruct (dget conf k) as [x|] eqn:Ec; [|congruence]. apply (aget_Some_in _ String.eqb_eq) in Ec. exact (Hk _ _ Ec).
      + destruct (last_given d k) as [x|] eqn:El.
        * destruct (in_dec string_dec k option_keys) as [Hi|Hi]; [|rewrite (options_keys _ _ Ho k Hi) in El; discriminate]. apply String.eqb_neq in Ek. unfold option_keys in Hi. unfold known. cbn in *. intuition congruence.
        * destruct Hcf as [[_ ->]|(_ & text & _ & _ & Hk)]; [contradiction Hn; reflexivity|]. destruct (dget conf k) as [x|] eqn:Ec; [|congruence]. apply (aget_Some_in _ String.eqb_eq) in Ec. exact (Hk _ _ Ec).
  Qed.
  Lemma setting_value a d conf k : dget a k = None -> k <> "conf" -> value_of a d conf k = setting d conf k.
  Proof. intros H1 H2. unfold value_of, setting. apply String.eqb_neq in H2. rewrite H1, H2. destruct (last_given d k); reflexivity. Qed.
  (** the call of a command: its options, and the rest of run_commands *)
  Lemma program_call file l d c pos a conf fs : options l d -> positional c pos a -> Forall plain pos -> c <> "print" -> configured loads file d conf -> options_ok loads linspace (setting d conf) ->
    (c = "calc" -> exists cmds, dget a "commands" = Some (JList (map JStr cmds)) /\ length cmds <= 1) ->
    exists args kw, (forall k, dget args k = value_of a d conf k) /\ resolve loads linspace args = Ok kw /\
      program file (l ++ c :: pos) fs =
        match input read_events read_inventory c args with
        | None => Nothing
        | Some (events, channels) => perform fmt_time str_of h5key writer load id_set channel_set init data_streams rf moveout plot_rf plot_profile get_boxes profile c (commands_arg (dget args "commands")) args kw events channels fs
        end.
  Proof.
    intros Ho Hp Hpl Hc Hcf Hok Hcalc. destruct (called loads file l d c pos a conf Ho Hp Hpl Hc Hcf) as (args & E & Ha).
    assert (forall k, In k ["client_options"; "options"; "rf"; "moveout"; "boxes"; "profile"; "plot"; "plot_profile"; "boxbins"] -> dget args k = setting d conf k) as Hs.
    { intros k Hk. rewrite Ha. apply setting_value; [|cbn in Hk; intuition congruence]. destruct (dget a k) as [v|] eqn:Ea; [|reflexivity]. exfalso. apply (arg_keys _ _ _ Hp) in Ea. cbn in *. intuition congruence. }
    destruct (resolve_ok loads linspace args) as [kw Ek].
    { exact (keys_known l d c pos a conf file args Ho Hp Hcf Ha). }
    { destruct Hok as [H1 (b & Hb & H2)]. split; [|exists b; rewrite Hs by (cbn; tauto); auto]. intros k Hk. rewrite Hs by (cbn in *; tauto). apply H1, Hk. }
    exists args, kw. split; [exact Ha|]. split; [exact Ek|]. unfold Dispatch.program. rewrite E. unfold Dispatch.run_commands. rewrite Ek. cbn [bind].
    apply String.eqb_neq in Hc. assert (check_arg c (commands_arg (dget args "commands")) = Ok tt) as ->; [|cbn [bind]; rewrite Hc; reflexivity].
    destruct (String.eqb_spec c "calc") as [->|N].
    - destruct (Hcalc eq_refl) as (cmds & Hcm & Hlen). rewrite Ha. unfold value_of. rewrite Hcm. cbn [commands_arg check_arg]. unfold check_commands. cbn [String.eqb Ascii.eqb Bool.eqb]. rewrite !map_length.
      destruct cmds as [|x [|y cmds]]; [reflexivity..|cbn in Hlen; lia].
    - unfold check_arg. destruct (commands_arg _); unfold check_commands; apply String.eqb_neq in N; rewrite N; reflexivity.
  Qed.
  Lemma inventory_names v n f : names_file v n f -> load_inventory (list string) read_inventory (inventory_of v) = read_inventory n f.
  Proof. destruct f as [f|]; cbn [names_file]; [intros ->; reflexivity|]. intros [->| ->]; reflexivity. Qed.
  Lemma events_names v n f : names_file v n f -> load_events event read_events (events_of v) = read_events n f.
  Proof. destruct f as [f|]; cbn [names_file]; [intros ->; reflexivity|]. intros [->| ->]; reflexivity. Qed.
  Lemma format_value v fmt : format_is v fmt -> format_arg v = fmt.
  Proof. intros [->|[-> ->]]; reflexivity. Qed.

  (** rf [options] stack IN OUT: for each stored channel of the stations of the inventory OUT gets
      the mean of its receiver functions, and nothing else. *)
  Theorem C128_stack_partial rd file l d conf pin pout inv invf fmt year streams before channels :
    options l d -> plain pin -> plain pout -> configured loads file d conf -> options_ok loads linspace (setting d conf) ->
    names_file (setting d conf "inventory") inv invf -> read_inventory inv invf = Ok channels -> format_is (setting d conf "format") fmt ->
    stored fmt_time year str_of h5key writer pin fmt streams before -> (exists t, year t) ->
    (forall f l, writer f l = None) -> reads (load fmt) rd -> id_sets id_set -> (forall t u, h5key t = h5key u -> tr_id t = tr_id u) ->
    inventory_ok channels -> one_group channels ->
    (forall p s t, In (p, s) streams -> In t s -> channel_ok (channel (st t))) ->
    (forall p s, In (p, s) streams -> stackable (map rd (of_station p streams))) ->
    apart pin pout -> unrelated pout before ->
    exists ops, program file (l ++ ["stack"; pin; pout]) before = Did ops [] None /\
      let after := do_ops before ops in
      let stacked p t := In t (of_station p streams) /\ exists cha, in_inventory channels (p_net p) (p_sta p) (p_loc p) cha in
      (forall p s t, In (p, s) streams -> stacked p t ->
         exists r, holds after (stack_file fmt pout p (channel (st t))) r /\ stack_of p (channel (st t)) (map rd (of_station p streams)) r) /\
      (forall n r, holds after n r -> holds before n r \/
         exists p t, stacked p t /\ n = stack_file fmt pout p (channel (st t)) /\ stack_of p (channel (st t)) (map rd (of_station p streams)) r) /\
      (forall n f, dget before n = Some f -> dget after n = Some f).
  Proof.
    intros Ho Pi Po Hcf Hok Hi Ri Hfm (Hc & Hw & Hf & Hg & Hd & Hk & fs0 & opss & Hu & HW & ->) Hy Hwr Hl Hid Hkey Hinv Hone Hch Hst Hap Hu2.
    destruct (C120_archive_partial fmt_time year str_of h5key writer load rd id_set pin pout fs0 streams opss fmt channels) as (out & fin & ops & E1 & E2 & H1 & H2 & _ & H3); try assumption.
    exists ops. split; [|split; [exact H1 | split; [exact H2 | exact H3]]].
    assert (positional "stack" [pin; pout] [("path_in", JStr pin); ("path_out", JStr pout)]) as Hp by (apply path_args; cbn; tauto).
    destruct (program_call file l d "stack" [pin; pout] _ conf (do_ops fs0 (List.concat opss)) Ho Hp) as (args & kw & Ha & Ek & ->); try assumption; try discriminate; [repeat constructor; assumption|].
    unfold input. change (inb "stack" ["stack"; "plot"]) with true. cbv iota. rewrite (inventory_names _ inv invf), Ri by (rewrite Ha, setting_value by (reflexivity || discriminate); exact Hi).
    unfold perform. cbn [String.eqb Ascii.eqb Bool.eqb]. rewrite !Ha. rewrite (format_value _ fmt) by (rewrite setting_value by (reflexivity || discriminate); exact Hfm).
    change (path_arg (value_of [("path_in", JStr pin); ("path_out", JStr pout)] d conf "path_in")) with pin. change (path_arg (value_of [("path_in", JStr pin); ("path_out", JStr pout)] d conf "path_out")) with pout.
    unfold iter_processed in E1. destruct (iter_event_metadata None channels) as [metas fin0].
    pose proof (loop_stack fmt_time str_of h5key writer load id_set pin pout fmt (do_ops fs0 (List.concat opss)) metas Hw Hap fin0 [] (Forall_nil _)) as EL. cbn [do_ops fold_left] in EL.
    change (do_ops (do_ops fs0 (List.concat opss)) []) with (do_ops fs0 (List.concat opss)) in EL. rewrite EL, E1, E2. reflexivity.
  Qed.

  (** rf [options] plot IN OUT: a figure for each station and channel of the inventory *)
  Theorem C129_plot rd file l d conf pin pout inv invf fmt year streams before channels w :
    options l d -> plain pin -> plain pout -> configured loads file d conf -> options_ok loads linspace (setting d conf) ->
    names_file (setting d conf "inventory") inv invf -> read_inventory inv invf = Ok channels -> format_is (setting d conf "format") fmt -> is_value loads (setting d conf "plot") (JObj []) w ->
    stored fmt_time year str_of h5key writer pin fmt streams before -> (exists t, year t) ->
    reads (load fmt) rd -> inventory_ok channels -> sets channel_set ->
    (forall p s t, In (p, s) streams -> In t s -> channel_ok (channel (st t)) /\ baz (rd t) <> None) ->
    (forall l, l <> [] -> exists f, plot_rf w l = Ok f) ->
    exists figs, program file (l ++ ["plot"; pin; pout]) before = Did [] figs None /\
      let plotted p t := In t (of_station p streams) /\ exists cha, in_inventory channels (p_net p) (p_sta p) (p_loc p) cha in
      (forall p s t, In (p, s) streams -> plotted p t ->
         exists l f, Permutation l (map rd (of_channel (channel (st t)) (of_station p streams))) /\ by_azimuth l /\ plot_rf w l = Ok f /\
           dget (save_all figs) (figure_name pout p (channel (st t))) = Some f) /\
      (forall n f, dget (save_all figs) n = Some f -> exists p t, plotted p t /\ n = figure_name pout p (channel (st t))).
  Proof.
    intros Ho Pi Po Hcf Hok Hi Ri Hfm Hw (Hc & Hpw & Hf & Hg & Hd & Hk & fs0 & opss & Hu & HW & ->) Hy Hl Hinv Hset Hch Hdraw.
    destruct (C122_archive D (plot_rf w) channel_set fmt_time year str_of h5key writer load rd pin pout fs0 streams opss fmt channels) as (out & fin & figs & E1 & E2 & H1 & H2); try assumption.
    exists figs. split; [|split; [exact H1 | exact H2]].
    assert (positional "plot" [pin; pout] [("path_in", JStr pin); ("path_out", JStr pout)]) as Hp by (apply path_args; cbn; tauto).
    destruct (program_call file l d "plot" [pin; pout] _ conf (do_ops fs0 (List.concat opss)) Ho Hp) as (args & kw & Ha & Ek & ->); try assumption; try discriminate; [repeat constructor; assumption|].
    unfold input. change (inb "plot" ["stack"; "plot"]) with true. cbv iota. rewrite (inventory_names _ inv invf), Ri by (rewrite Ha, setting_value by (reflexivity || discriminate); exact Hi).
    unfold perform. cbn [String.eqb Ascii.eqb Bool.eqb]. rewrite !Ha. rewrite (format_value _ fmt) by (rewrite setting_value by (reflexivity || discriminate); exact Hfm).
    change (path_arg (value_of [("path_in", JStr pin); ("path_out", JStr pout)] d conf "path_in")) with pin. change (path_arg (value_of [("path_in", JStr pin); ("path_out", JStr pout)] d conf "path_out")) with pout.
    destruct (C63_options loads linspace args kw Ek) as (_ & _ & _ & _ & _ & _ & _ & _ & Hopt & _). destruct (Hopt "plot") as (w' & Hw' & Ew); [cbn; tauto|].
    rewrite Ha, setting_value in Hw' by (reflexivity || discriminate). rewrite (is_value_fun _ _ _ _ _ Hw' Hw) in Ew. unfold option_of. rewrite Ew.
    unfold iter_processed in E1. destruct (iter_event_metadata None channels) as [metas fin0]. rewrite E1, E2. reflexivity.
  Qed.

  (** the call of calc, moveout or convert: the processing of streams and the loop *)
  Lemma calc_call file l d conf pin pout c cmds inv invf ev evf fmt newfmt before channels events w :
    let argv := if String.eqb c "convert" then l ++ ["convert"; pin; pout; newfmt] else l ++ c :: (cmds ++ [pin; pout]) in
    options l d -> plain pin -> plain pout -> plain newfmt -> configured loads file d conf -> options_ok loads linspace (setting d conf) ->
    ((c = "calc" /\ (cmds = [] \/ cmds = ["moveout"]) /\ newfmt = fmt) \/ (c = "moveout" /\ cmds = [] /\ newfmt = fmt) \/ (c = "convert" /\ cmds = [])) ->
    (c = "moveout" -> match setting d conf "commands" with None | Some (JList []) => True | _ => False end) ->
    names_file (setting d conf "events") ev evf -> read_events ev evf = Ok events ->
    names_file (setting d conf "inventory") inv invf -> read_inventory inv invf = Ok channels -> format_is (setting d conf "format") fmt ->
    is_value loads (setting d conf "rf") (JObj []) w ->
    exists mw process, moveout_options loads (setting d conf) mw /\
      (forall s out, process s = Ok out <-> apply_all (fun c => if String.eqb c "calc" then rf w else moveout mw) (if String.eqb c "convert" then [] else c :: cmds) s out) /\
      program file argv before = (let (metas, fin) := iter_event_metadata (Some events) channels in let (ops, e) := run_loop fmt_time str_of h5key writer (fetch fmt_time load pin fmt) process pout newfmt TRf metas fin before in Did ops [] e).
  Proof.
    intros argv Ho Pi Po Pn Hcf Hok Hcmd Hmc Hev Re Hi Ri Hfm Hw.
    assert (exists pos a, argv = l ++ c :: pos /\ positional c pos a /\ Forall plain pos /\ dget a "path_in" = Some (JStr pin) /\ dget a "path_out" = Some (JStr pout) /\
      dget a "commands" = (if String.eqb c "calc" then Some (JList (map JStr cmds)) else None) /\ dget a "newformat" = (if String.eqb c "convert" then Some (JStr newfmt) else None) /\
      dget a "events" = None /\ dget a "inventory" = None /\ dget a "format" = None /\ dget a "rf" = None /\ dget a "moveout" = None /\ dget a "moveout_phase" = None) as (pos & a & -> & Hp & Hpl & A1 & A2 & A3 & A4 & A5 & A6 & A7 & A8 & A9 & A10).
    { unfold argv. destruct Hcmd as [(-> & Hx & _)|[(-> & -> & _)|(-> & ->)]].
      - eexists _, _. split; [reflexivity|]. split; [apply (calc_args cmds); destruct Hx as [->| ->]; cbn; intros x Hx; intuition congruence|]. split; [|repeat split].
        destruct Hx as [->| ->]; repeat constructor; assumption.
      - eexists _, _. split; [reflexivity|]. split; [apply path_args; cbn; tauto|]. split; [repeat constructor; assumption | repeat split].
      - eexists _, _. split; [reflexivity|]. split; [apply convert_args|]. split; [repeat constructor; assumption | repeat split]. }
    assert (c <> "print" /\ inb c ["stack"; "plot"] = false /\ (c =? "data")%string = false /\ (c =? "plot-profile")%string = false /\ (c =? "plot")%string = false /\ (c =? "stack")%string = false /\ (c =? "profile")%string = false) as (Hnp & C1 & C2 & C3 & C4 & C5 & C6)
      by (destruct Hcmd as [(-> & _)|[(-> & _)|(-> & _)]]; (split; [discriminate | repeat split])).
    destruct (program_call file l d c pos a conf before Ho Hp Hpl Hnp Hcf Hok) as (args & kw & Ha & Ek & ->).
    { intros ->. exists cmds. split; [exact A3|]. destruct Hcmd as [(_ & [->| ->] & _)|[(E & _)|(E & _)]]; try discriminate; cbn; lia. }
    assert (forall k, dget a k = None -> k <> "conf" -> dget args k = setting d conf k) as Hs by (intros k H1 H2; rewrite Ha; apply setting_value; assumption).
    destruct (C63_options loads linspace args kw Ek) as (_ & m & _ & _ & _ & Hm & _ & _ & Hopt & _ & _ & Hm1 & Hm2 & _).
    rewrite Hs in Hm by (assumption || discriminate). rewrite Hs in Hm1, Hm2 by (assumption || discriminate).
    destruct (Hopt "rf") as (w' & Hw' & Ew); [cbn; tauto|]. rewrite Hs in Hw' by (assumption || discriminate). rewrite (is_value_fun _ _ _ _ _ Hw' Hw) in Ew.
    assert (moveout_options loads (setting d conf) (option_of kw "moveout")) as Hmw.
    { exists m. split; [exact Hm|]. split; [intros H; unfold option_of; rewrite (Hm1 H); reflexivity|]. intros p H. destruct (Hm2 p H) as (m' & E & H'). unfold option_of. rewrite E. exact H'. }
    unfold input. rewrite C1. unfold load_input. rewrite (events_names _ ev evf), Re by (rewrite Hs by (assumption || discriminate); exact Hev).
    rewrite (inventory_names _ inv invf), Ri by (rewrite Hs by (assumption || discriminate); exact Hi). cbn [bind].
    unfold perform. rewrite C2, C3, C4, C5, C6. rewrite (format_value (dget args "format") fmt) by (rewrite Hs by (assumption || discriminate); exact Hfm).
    assert (path_arg (dget args "path_in") = pin) as -> by (rewrite Ha; unfold value_of; rewrite A1; reflexivity).
    assert (path_arg (dget args "path_out") = pout) as -> by (rewrite Ha; unfold value_of; rewrite A2; reflexivity).
    assert (option_of kw "rf" = w) as -> by (unfold option_of; rewrite Ew; reflexivity). set (mw := option_of kw "moveout").
    destruct (iter_event_metadata (Some events) channels) as [metas fin] eqn:Em.
    assert (exists process, (forall s out, process s = Ok out <-> apply_all (fun c => if String.eqb c "calc" then rf w else moveout mw) (if String.eqb c "convert" then [] else c :: cmds) s out) /\
      (if (c =? "convert")%string
       then Did (fst (run_loop fmt_time str_of h5key writer (fetch fmt_time load pin fmt) (fun s => match given (dget args "newformat") with Some _ => Ok s | None => Err AttributeError end) pout (format_arg (dget args "newformat")) TRf metas fin before)) []
                (snd (run_loop fmt_time str_of h5key writer (fetch fmt_time load pin fmt) (fun s => match given (dget args "newformat") with Some _ => Ok s | None => Err AttributeError end) pout (format_arg (dget args "newformat")) TRf metas fin before))
       else match commands_arg (dget args "commands") with
            | Ok l0 => Did (fst (run_loop fmt_time str_of h5key writer (fetch fmt_time load pin fmt) (process_commands (rf w) (moveout mw) (c :: l0)) pout fmt TRf metas fin before)) []
                           (snd (run_loop fmt_time str_of h5key writer (fetch fmt_time load pin fmt) (process_commands (rf w) (moveout mw) (c :: l0)) pout fmt TRf metas fin before))
            | Err e => Did [] [] (Some e)
            end) =
       Did (D := D) (fst (run_loop fmt_time str_of h5key writer (fetch fmt_time load pin fmt) process pout newfmt TRf metas fin before)) []
           (snd (run_loop fmt_time str_of h5key writer (fetch fmt_time load pin fmt) process pout newfmt TRf metas fin before))) as (process & Hpr & EP).
    { destruct (String.eqb_spec c "convert") as [->|Nc].
      - assert (dget args "newformat" = Some (JStr newfmt)) as -> by (rewrite Ha; unfold value_of; rewrite A4; reflexivity). exists (fun s => Ok s). split; [|reflexivity].
        intros s out. cbn [apply_all]. split; [intros H; injection H as <-; reflexivity | intros ->; reflexivity].
      - assert (newfmt = fmt) as -> by (destruct Hcmd as [(_ & _ & E)|[(_ & _ & E)|(E & _)]]; congruence).
        assert (commands_arg (dget args "commands") = Ok cmds) as ->.
        { rewrite Ha. destruct Hcmd as [(-> & Hx & _)|[(-> & -> & _)|(E & _)]]; [| |contradiction].
          - unfold value_of. rewrite A3. cbn [String.eqb Ascii.eqb Bool.eqb commands_arg]. rewrite map_map, map_id. reflexivity.
          - rewrite setting_value by (exact A3 || discriminate). specialize (Hmc eq_refl). destruct (setting d conf "commands") as [[| | | |[|]|]|]; try (destruct Hmc; fail); reflexivity. }
        exists (process_commands (rf w) (moveout mw) (c :: cmds)). split; [|reflexivity].
        assert (forall x, In x (c :: cmds) -> x = "calc" \/ x = "moveout") as Hx.
        { destruct Hcmd as [(-> & [->| ->] & _)|[(-> & -> & _)|(E & _)]]; [| | |contradiction]; cbn; intros x Hx; intuition congruence. }
        revert Hx. generalize (c :: cmds). intros l0. induction l0 as [|x l0 IH]; intros Hx s out.
        + cbn. split; [intros H; injection H as <-; reflexivity | intros ->; reflexivity].
        + unfold process_commands. cbn [foldM apply_all]. assert ((x =? "data")%string = false /\ ((x =? "calc")%string = false -> (x =? "moveout")%string = true)) as [X1 X2]
            by (destruct (Hx x (or_introl eq_refl)) as [->| ->]; (split; [reflexivity|]); intros H; first [reflexivity | discriminate H]). rewrite X1.
          specialize (fun s => IH (fun y Hy => Hx y (or_intror Hy)) s out). unfold process_commands in IH.
          destruct (x =? "calc")%string; [|rewrite X2 by reflexivity].
          * destruct (rf w s) as [s1|] eqn:Es; cbn [bind]; [|split; [discriminate | intros (s' & H & _); discriminate]]. rewrite IH. split; [intros H; exists s1; auto | intros (s' & H & H'); injection H as <-; exact H'].
          * destruct (moveout mw s) as [s1|] eqn:Es; cbn [bind]; [|split; [discriminate | intros (s' & H & _); discriminate]]. rewrite IH. split; [intros H; exists s1; auto | intros (s' & H & H'); injection H as <-; exact H']. }
    exists mw, process. split; [exact Hmw|]. split; [exact Hpr|]. rewrite EP. destruct (run_loop _ _ _ _ _ process _ _ _ _ _ _); reflexivity.
  Qed.
  (** rf [options] calc IN OUT, rf calc moveout IN OUT, rf moveout IN OUT, rf convert IN OUT FORMAT: if
      the call succeeds then OUT contains the processed streams of the events and stations. *)
  Theorem C130_results_partial file l d conf pin pout c cmds inv invf ev evf fmt newfmt year streams before channels events w :
    let argv := if String.eqb c "convert" then l ++ ["convert"; pin; pout; newfmt] else l ++ c :: (cmds ++ [pin; pout]) in
    options l d -> plain pin -> plain pout -> plain newfmt -> configured loads file d conf -> options_ok loads linspace (setting d conf) ->
    ((c = "calc" /\ (cmds = [] \/ cmds = ["moveout"]) /\ newfmt = fmt) \/ (c = "moveout" /\ cmds = [] /\ newfmt = fmt) \/ (c = "convert" /\ cmds = [])) ->
    (c = "moveout" -> match setting d conf "commands" with None | Some (JList []) => True | _ => False end) ->
    names_file (setting d conf "events") ev evf -> read_events ev evf = Ok events ->
    names_file (setting d conf "inventory") inv invf -> read_inventory inv invf = Ok channels -> format_is (setting d conf "format") fmt -> In newfmt ["Q"; "SAC"; "H5"] ->
    is_value loads (setting d conf "rf") (JObj []) w ->
    stored fmt_time year str_of h5key writer pin fmt streams before ->
    (forall l, exists s, load fmt l = Ok s) -> inventory_ok channels -> one_group channels -> events_ok year events -> no_wild pout -> pin <> pout -> unrelated pout before ->
    (newfmt = "H5" -> forall p q t u, proper year p -> proper year q -> trace_of p t -> trace_of q u ->
       three_letters (channel (st t)) -> three_letters (channel (st u)) -> h5key t = h5key u -> same_pair p q /\ channel (st t) = channel (st u)) ->
    (forall mw p s l s' out, In (p, s) streams -> Permutation l s -> load fmt l = Ok s' ->
       apply_all (fun c => if String.eqb c "calc" then rf w else moveout mw) (if String.eqb c "convert" then [] else c :: cmds) s' out -> good year (p, out)) ->
    exists mw, moveout_options loads (setting d conf) mw /\
    exists ops e, program file argv before = Did ops [] e /\
    (e = None ->
      let after := do_ops before ops in
      forall p cha, proper year p ->
      (forall s, In (p, s) streams -> requested events channels p ->
         exists l s' out l', Permutation l s /\ load fmt l = Ok s' /\
           apply_all (fun c => if String.eqb c "calc" then rf w else moveout mw) (if String.eqb c "convert" then [] else c :: cmds) s' out /\ Permutation l' out /\
           fetch fmt_time load pout newfmt after (meta p cha) = read_result (load newfmt l')) /\
      ((forall q s, In (q, s) streams -> same_pair p q -> ~ requested events channels q) -> fetch fmt_time load pout newfmt after (meta p cha) = Ok None) /\
      fetch fmt_time load pin fmt after (meta p cha) = fetch fmt_time load pin fmt before (meta p cha)).
  Proof.
    intros argv Ho Pi Po Pn Hcf Hok Hcmd Hmc Hev Re Hi Ri Hfm Hnf Hw (Hc & Hpw & Hf & Hg & Hd & Hk & fs0 & opss & Hu & HW & ->) Hl Hinv Hone Hevs Hpo Hne Hu2 Hk2 Hproc.
    set (before := do_ops fs0 (List.concat opss)).
    destruct (calc_call file l d conf pin pout c cmds inv invf ev evf fmt newfmt before channels events w Ho Pi Po Pn Hcf Hok Hcmd Hmc Hev Re Hi Ri Hfm Hw) as (mw & process & Hmw & Hpr & EP).
    exists mw. split; [exact Hmw|]. fold argv in EP. destruct (iter_event_metadata (Some events) channels) as [metas fin] eqn:Em.
    destruct (run_loop _ _ _ _ _ process _ _ _ _ _ _) as [ops e] eqn:Er. exists ops, e. split; [exact EP|]. intros He. rewrite He in Er. clear He. intros after p cha Hpp.
    destruct (C109_results_partial fmt_time year str_of h5key writer load pin pout fs0 streams opss fmt newfmt events channels process metas fin ops p cha) as (R1 & R2 & R3); try assumption.
    { intros q s l0 s' out Hin P L Pr. apply (Hproc mw q s l0 s' out Hin P L). apply Hpr, Pr. }
    split; [|split; [exact R2 | exact R3]]. intros s Hin Hr. destruct (R1 s Hin Hr) as (l0 & s' & out & l' & P & L & Pr & P' & E). exists l0, s', out, l'. apply Hpr in Pr. auto 10.
  Qed.
End Program.
Print Assumptions C126_paths.
Print Assumptions C126_program.
Print Assumptions C127_missing_partial.
Print Assumptions C127_no_events_partial.
Print Assumptions C128_stack_partial.
Print Assumptions C129_plot.
Print Assumptions C130_results_partial.

(** ** a case: the archive of two stations, with a configuration *)
Definition conf_d : dict json := [("events", JStr "ev.xml"); ("inventory", JList [JStr "sta.xml"; JStr "STATIONXML"]); ("rf", JObj [("deconvolve", JStr "time")]); ("format", JStr "Q")].
Definition loads_d (s : string) : res json := if String.eqb s "conf" then Ok (JObj conf_d) else Err ValueError.
Definition file_d (n : string) : option string := if String.eqb n "conf.json" then Some "conf# my configuration" else None.
Definition program_d (read_events : string -> option string -> res (list event)) (argv : list string) (fs : files) : effect (list trace) :=
  program clock_e (fun _ => "") key19 (fun _ _ => None) (fun _ l => Ok l) idset_e (fun s => nodup string_dec (map (fun t => channel (st t)) s))
    read_events (fun n _ => if String.eqb n "sta.xml" then Ok inv_e else Err OtherError) loads_d (fun b => Ok b)
    (fun _ _ _ => Err (A := unit) OtherError) (fun _ _ _ _ => ([], None)) (fun _ s => twice_e s) (fun _ s => Ok s) (fun _ s => Ok s) (fun _ s => Ok s)
    (fun _ => Ok tt) (fun _ _ l => Ok l) (fun _ => None) file_d argv fs.
Definition events_d (n : string) (f : option string) : res (list event) := if String.eqb n "ev.xml" then Ok [event_e 40 7] else Err OtherError.
Lemma stored_d fmt : In fmt ["Q"; "SAC"; "H5"] -> stored clock_e year_e (fun _ => "") key19 (fun _ _ => None) "in" fmt streams_e (in_arch fmt).
Proof.
  intros Hf. split; [exact clock_e_ok|]. split; [repeat split|]. split; [exact Hf|]. split; [repeat (constructor; [apply good_e; [repeat split | unfold year_e; lia]|]); constructor|].
  split; [repeat constructor; intros [(H1 & H2 & H3) H4]; cbn in *; try discriminate; vm_compute in H4; discriminate|].
  split; [intros _; match goal with |- NoDup ?l => let v := eval vm_compute in l in change (NoDup v) end; repeat (constructor; [cbn; intuition discriminate|]); constructor|].
  exists [], (map (fun ps => fst (arch_write (snd ps) "in" fmt TRf)) streams_e). split; [intros n f []|]. split; [|unfold in_arch; rewrite flat_map_concat_map; reflexivity].
  destruct Hf as [<-|[<-|[<-|[]]]]; repeat (constructor; [reflexivity|]); constructor.
Qed.
Lemma configured_d : configured loads_d file_d [("format", "SAC")] conf_d /\ options_ok loads_d (fun b => Ok b) (setting [("format", "SAC")] conf_d) /\ apart "in" "out".
Proof.
  split; [|split].
  - right. split; [cbn; intuition discriminate|]. exists "conf# my configuration". split; [reflexivity|]. split; [reflexivity|]. intros k v Hin. cbn in Hin. repeat (destruct Hin as [E|Hin]; [injection E as <- _; cbn; tauto|]). destruct Hin.
  - split; [|exists JNull; split; [reflexivity | left; reflexivity]]. intros k Hk. cbn in Hk. repeat (destruct Hk as [<-|Hk]; [eexists; reflexivity|]). destruct Hk.
  - split; [discriminate|]. split; intros s E; discriminate E.
Qed.
(** rf --format SAC stack in out; without readable events *)
Example C128_nonvacuous :
  options ["--format"; "SAC"] [("format", "SAC")] /\ plain "in" /\ plain "out" /\ format_is (setting [("format", "SAC")] conf_d "format") "SAC" /\
  names_file (setting [("format", "SAC")] conf_d "inventory") "sta.xml" (Some "STATIONXML") /\
  exists ops r, program_d (fun _ _ => Err OtherError) ["--format"; "SAC"; "stack"; "in"; "out"] (in_arch "SAC") = Did ops [] None /\ length ops = 4 /\
    dget (do_ops (in_arch "SAC") ops) "out/CX.PB01..BHQ.SAC" = Some [("", r)] /\ Forall2 Qeq (data r) [11 # 2]%Q.
Proof.
  split; [apply separate; [cbn; tauto | reflexivity | constructor]|]. split; [reflexivity|]. split; [reflexivity|]. split; [left; reflexivity|]. split; [reflexivity|].
  eexists _, _. split; [vm_compute; reflexivity|]. split; [reflexivity|]. split; [vm_compute; reflexivity|]. repeat constructor.
Qed.
(** rf plot in figs *)
Definition baz_arch : files := do_ops [] (flat_map (fun ps => fst (arch_write (snd ps) "in" "Q" TRf)) baz_streams).
Example C129_nonvacuous :
  stored clock_e year_e (fun _ => "") key19 (fun _ _ => None) "in" "Q" baz_streams baz_arch /\ is_value loads_d (setting [] conf_d "plot") (JObj []) (JObj []) /\
  exists figs l, program_d (fun _ _ => Err OtherError) ["plot"; "in"; "figs"] baz_arch = Did [] figs None /\ length (save_all figs) = 4 /\
    dget (save_all figs) "figs/CX.PB01..BHQ.pdf" = Some l /\ map data l = [[10]; [1]]%Q.
Proof.
  split; [|split; [reflexivity|]].
  - split; [exact clock_e_ok|]. split; [repeat split|]. split; [cbn; tauto|]. split; [repeat (constructor; [apply good_baz; [repeat split | unfold year_e; lia]|]); constructor|].
    split; [repeat constructor; intros [(H1 & H2 & H3) H4]; cbn in *; try discriminate; vm_compute in H4; discriminate|]. split; [discriminate|].
    exists [], (map (fun ps => fst (arch_write (snd ps) "in" "Q" TRf)) baz_streams). split; [intros n f []|]. split; [|unfold baz_arch; rewrite flat_map_concat_map; reflexivity].
    repeat (constructor; [reflexivity|]); constructor.
  - eexists _, _. split; [vm_compute; reflexivity|]. split; [reflexivity|]. split; [vm_compute; reflexivity|]. reflexivity.
Qed.
(** rf calc moveout in out, rf convert in out H5 *)
Example C130_nonvacuous :
  (exists ops t u, program_d events_d ["calc"; "moveout"; "in"; "out"] (in_arch "Q") = Did ops [] None /\ length ops = 2 /\
     fetch_e "out" "Q" (do_ops (in_arch "Q") ops) (meta (pair_e "PB02" 5) "BH?") = Ok (Some [t; u]) /\ data u = [21 + 21]%Q) /\
  (exists ops l, program_d events_d ["-c"; "conf.json"; "convert"; "in"; "out"; "H5"] (in_arch "Q") = Did ops [] None /\ length ops = 4 /\
     fetch_e "out" "H5" (do_ops (in_arch "Q") ops) (meta (pair_e "PB02" 5) "BH?") = Ok (Some l) /\ length l = 2).
Proof.
  split.
  - eexists _, _, _. split; [vm_compute; reflexivity|]. split; [reflexivity|]. split; [vm_compute; reflexivity|]. reflexivity.
  - eexists _, _. split; [vm_compute; reflexivity|]. split; [reflexivity|]. split; [vm_compute; reflexivity|]. reflexivity.
Qed.
Example C126_nonvacuous :
  exists ops, program_d events_d ["calc"; "in"; "out"] (in_arch "Q") = Did ops [] None /\ map op_name ops = ["out/CX.PB01./CX.PB01._1970-01-01T00:00:00.QHD"; "out/CX.PB02./CX.PB02._1970-01-01T00:00:00.QHD"].
Proof. eexists. split; vm_compute; reflexivity. Qed.
(** The full C127 does not hold: rf plot-profile reads events and inventory, which it does not need,
    and does nothing without them. *)
Definition profile_d : files := [("prof.QHD", [("", baz_tr (pair_e "PB01" 5) "BHQ" 0 1)])].
Theorem C127_plot_profile_refuted :
  (exists figs, program_d events_d ["plot-profile"; "prof"; "figs"] profile_d = Did [] figs None /\ map fst figs = ["figs/profile_Q.pdf"]) /\
  program_d (fun _ _ => Err OtherError) ["plot-profile"; "prof"; "figs"] profile_d = Nothing.
Proof. split; [eexists; split; vm_compute; reflexivity | vm_compute; reflexivity]. Qed.
Print Assumptions C127_plot_profile_refuted.
Example C127_nonvacuous :
  program_d (fun _ _ => Err OtherError) ["calc"; "in"; "out"] (in_arch "Q") = Nothing /\ program_d events_d ["--inventory"; "other.xml"; "stack"; "in"; "out"] (in_arch "Q") = Nothing.
Proof. split; vm_compute; reflexivity. Qed.
