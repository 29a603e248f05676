(** C116-C119: the command line. *)
From Verif Require Import Model.Cli Spec.ConfigSpec Spec.CliSpec Proofs.PyFacts Proofs.ConfigFacts Proofs.CliFacts Properties.ConfigProps.

(** * C116: the meaning of a command line *)
(** Options, a command and its arguments: the command is called with its arguments, the options (the
    last one, if repeated), and for everything else with the entries of the configuration file. *)
Theorem C116_config loads file l d c pos a text conf :
  options l d -> positional c pos a -> Forall plain pos -> c <> "print" ->
  ~ In (conf_name d) ["None"; "none"; "null"; ""] -> file (conf_name d) = Some text -> loads (strip_comments text) = Ok (JObj conf) -> dget conf "command" = None ->
  exists args, run_cli loads file (l ++ c :: pos) = Run (Some c) (Call args) /\ forall k, dget args k = value_of a d conf k.
Proof.
  intros Ho Hp Hpl Hc Hn Hf Hl Hk. destruct (run_cli_args loads file l d c pos a Ho Hp Hpl) as (kw & E & Hd & G).
  assert (dget a "command" = None) as Ac by (destruct (dget a "command") as [v|] eqn:Ea; [|reflexivity]; apply (arg_keys _ _ _ Hp) in Ea; cbn in Ea; intuition discriminate).
  assert (last_given d "command" = None) as Lc by (apply (options_keys _ _ Ho); cbn; intuition discriminate).
  destruct (C63_merged loads file c (conf_name d) text conf kw Hn Hc Hf Hl Hd) as (args & Er & Ga).
  { unfold chosen. rewrite G. unfold value_of. rewrite Ac. cbn [String.eqb Ascii.eqb Bool.eqb]. rewrite Lc. exact Hk. }
  exists args. split; [rewrite E, Er; reflexivity|]. intros k. rewrite Ga. unfold chosen. rewrite G. unfold value_of.
  destruct (dget a k); [reflexivity|]. destruct (if (k =? "conf")%string then None else last_given d k); reflexivity.
Qed.
Print Assumptions C116_config.
(** With -c None only the command line counts. *)
Theorem C116_no_config loads file l d c pos a :
  options l d -> positional c pos a -> Forall plain pos -> In (conf_name d) ["None"; "none"; "null"; ""] ->
  exists args, run_cli loads file (l ++ c :: pos) = Run (Some c) (Call args) /\ forall k, dget args k = value_of a d [] k.
Proof.
  intros Ho Hp Hpl Hn. destruct (run_cli_args loads file l d c pos a Ho Hp Hpl) as (kw & E & Hd & G).
  assert (dget a "command" = None) as Ac by (destruct (dget a "command") as [v|] eqn:Ea; [|reflexivity]; apply (arg_keys _ _ _ Hp) in Ea; cbn in Ea; intuition discriminate).
  assert (last_given d "command" = None) as Lc by (apply (options_keys _ _ Ho); cbn; intuition discriminate).
  exists kw. split; [|exact G]. rewrite E. rewrite C63_no_file; [reflexivity|right; eauto|]. rewrite G. unfold value_of. rewrite Ac. cbn [String.eqb Ascii.eqb Bool.eqb]. rewrite Lc. reflexivity.
Qed.
Print Assumptions C116_no_config.
(** Without the configuration file nothing but print of files is run. *)
Theorem C116_missing_config loads file l d c pos a :
  options l d -> positional c pos a -> Forall plain pos -> c <> "print" ->
  ~ In (conf_name d) ["None"; "none"; "null"; ""] -> file (conf_name d) = None ->
  run_cli loads file (l ++ c :: pos) = Run (Some c) Message.
Proof.
  intros Ho Hp Hpl Hc Hn Hf. destruct (run_cli_args loads file l d c pos a Ho Hp Hpl) as (kw & E & Hd & G). rewrite E. unfold run_config.
  destruct (inb (conf_name d) _) eqn:Ei; [apply inb_spec in Ei; contradiction|]. apply String.eqb_neq in Hc. rewrite Hc, Hf. reflexivity.
Qed.
Print Assumptions C116_missing_config.
(** a case *)
Example C116_nonvacuous :
  let loads s := if String.eqb s "{}" then Ok (JObj [("events", JStr "e.xml"); ("phase", JStr "P")]) else Err ValueError in
  let file n := if String.eqb n "my.json" then Some "{}" else None in
  exists l d pos a args, options l d /\ positional "calc" pos a /\ Forall plain pos /\ ~ In (conf_name d) ["None"; "none"; "null"; ""] /\
    l ++ "calc" :: pos = ["--phase"; "PP"; "-c"; "my.json"; "--moveout-phase=Ppps"; "--phase=S"; "calc"; "moveout"; "data"; "rf"] /\
    run_cli loads file (l ++ "calc" :: pos) = Run (Some "calc") (Call args) /\
    dget args "phase" = Some (JStr "S") /\ dget args "events" = Some (JStr "e.xml") /\ dget args "moveout_phase" = Some (JStr "Ppps") /\
    dget args "commands" = Some (JList [JStr "moveout"]) /\ dget args "path_in" = Some (JStr "data") /\ dget args "path_out" = Some (JStr "rf").
Proof.
  intros loads file. exists ["--phase"; "PP"; "-c"; "my.json"; "--moveout-phase=Ppps"; "--phase=S"], [("phase", "PP"); ("conf", "my.json"); ("moveout_phase", "Ppps"); ("phase", "S")].
  exists ["moveout"; "data"; "rf"]. eexists. eexists. split.
  { apply separate; [cbn; tauto|reflexivity|]. apply separate; [cbn; tauto|reflexivity|]. apply (joined "--moveout-phase" "moveout_phase" "Ppps"); [cbn; tauto|].
    apply (joined "--phase" "phase" "S"); [cbn; tauto|]. apply no_options. }
  split; [apply (calc_args ["moveout"]); intros c [<-|[]]; reflexivity|]. split; [repeat constructor|]. split; [cbn; intuition discriminate|]. split; [reflexivity|].
  split; [vm_compute; reflexivity|]. repeat split.
Qed.

(** * C117: only complete command lines are run *)
(** If a command is run then it is a documented one, it is followed by its documented arguments (with
    all paths, and nothing else), and it gets them. *)
Theorem C117_shape_partial loads file argv c o :
  run_cli loads file argv = Run (Some c) o ->
  exists l pos a, argv = l ++ c :: pos /\ positional c pos a /\
    forall args, o = Call args -> forall k v, dget a k = Some v -> dget args k = Some v.
Proof.
  unfold run_cli. destruct (parse_args _ argv) as [[[command b] ns]|] eqn:E; [|discriminate].
  set (args := match dget ns "commands" with Some (JStr s) => if (s =? "moveout")%string then dset ns "commands" (JList []) else ns | _ => ns end).
  destruct (String.eqb_spec (match command with Some c0 => c0 | None => "" end) "create") as [Ec|Ec]; [discriminate|].
  intros H. injection H as -> Ho.
  assert (forall k, In k ["commands"; "path_in"; "path_out"; "newformat"; "objects"] -> dget [("conf", JStr "conf.json")] k = None) as H0.
  { intros k Hk. unfold dget. cbn [aget]. destruct (String.eqb_spec k "conf") as [->|]; [cbn in Hk; intuition discriminate|reflexivity]. }
  destruct (parse_args_inv argv _ _ _ _ H0 E)
    as (l & toks & pos & a' & ns' & -> & Hs & Ep & Ea & -> & Hn').
  destruct (parse_sub_other _ _ _ _ Ec Ep) as [-> ->]. destruct (arguments_inv _ _ _ Hs Ec Ea) as (a & Hp & Hf).
  destruct (arguments_ok _ _ _ Hp) as (_ & _ & a2 & Ea2 & Hd & _). assert (a2 = a') by congruence. subst a2.
  exists l, toks, a. split; [reflexivity|]. split; [exact Hp|]. intros args' -> k v Hk.
  assert (In k ["commands"; "path_in"; "path_out"; "newformat"; "objects"]) as Ik by (eapply arg_keys; eauto).
  assert (dget (ddel args "conf") k = Some v) as G.
  { rewrite dget_ddel_ne by (intros <-; cbn in Ik; intuition discriminate). rewrite Hf in Hk.
    assert (forall k, dget (dupdate ns' a') k = match dget a' k with Some v => Some v | None => dget ns' k end) as Ga by (intros k0; apply dupdate_get, Hd).
    unfold args. rewrite (Ga "commands"), (Hn' "commands" ltac:(cbn; tauto)). unfold fixed in Hk.
    destruct (String.eqb_spec k "commands") as [->|N].
    - destruct (dget a' "commands") as [w|] eqn:Ew; [|discriminate]. destruct w; try (rewrite Ga, Ew; exact Hk). cbn [andb] in Hk. destruct (_ =? _)%string; [rewrite dget_dset_eq; exact Hk|rewrite Ga, Ew; exact Hk].
    - cbn [andb] in Hk. assert (dget a' k = Some v) as Hk' by (destruct (dget a' k) as [[]|]; exact Hk).
      assert (dget (dupdate ns' a') k = Some v) as G by (rewrite Ga, Hk'; reflexivity).
      destruct (dget a' "commands") as [[]|]; try exact G. destruct (_ =? _)%string; [rewrite dget_dset_ne by congruence|]; exact G. }
  assert (NoDup (map fst (ddel args "conf"))) as Nd.
  { apply ddel_NoDup. assert (forall t ns l b x, NoDup (map fst ns) -> parse_args ns l = Some (t, b, x) -> NoDup (map fst x)) as P.
    { clear. intros t ns l b x Hd H. revert ns Hd H. remember (List.length l) as n eqn:En. assert (List.length l <= n)%nat as Hl by lia. clear En. revert l Hl.
      induction n as [|n IH]; intros [|w l] Hl ns Hd H; cbn [List.length] in Hl; try lia; cbn [parse_args] in H; try (injection H as <- <- <-; exact Hd).
      destruct (classify main_flags w) as [|key v|]; [| |discriminate].
      - destruct (inb w subcommands); [|discriminate]. destruct (parse_sub w l) as [[]|]; [|discriminate]. destruct (arguments _ _) as [a|]; [|discriminate]. injection H as <- <- <-. apply dupdate_NoDup, Hd.
      - destruct (inb key _); [discriminate|]. destruct v as [v|]; [exact (IH l ltac:(lia) _ (dset_NoDup _ _ _ Hd) H)|]. destruct l as [|w2 l]; [discriminate|].
        destruct (classify main_flags w2); try discriminate. cbn [List.length] in Hl. exact (IH l ltac:(lia) _ (dset_NoDup _ _ _ Hd) H). }
    assert (NoDup (map fst (dupdate ns' a'))) as N by (eapply P; [|exact E]; repeat constructor; cbn; tauto).
    unfold args. destruct (dget _ "commands") as [[]|]; try exact N. destruct (_ =? _)%string; [apply dset_NoDup|]; exact N. }
  assert (forall args0, (match dget args0 "command" with Some _ => Raise TypeError | None => Call args0 end) = Call args' -> args0 = args') as Cl by (intros x; destruct (dget x "command"); congruence).
  unfold run_config in Ho. destruct (dget args "conf") as [[| | |s| |]|]; try (apply Cl in Ho; subst args'; exact G).
  destruct (inb s _); [apply Cl in Ho; subst args'; exact G|].
  destruct (if (c =? "print")%string then _ else _) as [[]|] in Ho; [|apply Cl in Ho; subst args'; exact G|discriminate].
  destruct (file s) as [text|]; [|discriminate]. destruct (loads (strip_comments text)) as [[| | | | |conf]|e]; try discriminate; [|destruct e; discriminate].
  apply Cl in Ho. subst args'. rewrite dupdate_get by exact Nd. rewrite G. reflexivity.
Qed.
Print Assumptions C117_shape_partial.
Example C117_nonvacuous :
  run_cli (fun _ => Err ValueError) (fun _ => None) ["-cnone"; "data"; "calc"; "moveout"; "out"] =
    Run (Some "data") (Call [("commands", JList [JStr "calc"; JStr "moveout"]); ("path_out", JStr "out")]) /\
  run_cli (fun _ => Err ValueError) (fun _ => None) ["-cnone"; "data"; "clac"; "out"] = Stop /\
  run_cli (fun _ => Err ValueError) (fun _ => None) ["-cnone"; "convert"; "in"; "out"] = Stop /\
  run_cli (fun _ => Err ValueError) (fun _ => None) ["-cnone"; "stack"; "in"; "out"; "--format"; "Q"] = Stop.
Proof. vm_compute. repeat split. Qed.
(** A command line without command is not refused: the configuration is loaded and run_commands is
    called without command. *)
Theorem C117_no_command_refuted loads file l d text conf :
  options l d -> ~ In (conf_name d) ["None"; "none"; "null"; ""] -> file (conf_name d) = Some text -> loads (strip_comments text) = Ok (JObj conf) -> dget conf "command" = None ->
  exists args, run_cli loads file l = Run None (Call args).
Proof.
  intros Ho Hn Hf Hl Hk. unfold run_cli. rewrite <- (app_nil_r l), (parse_options _ _ Ho). cbn [parse_args].
  set (ns := set_opts d _). assert (dget ns "commands" = None) as ->.
  { unfold ns. rewrite set_opts_get, (options_keys _ _ Ho) by (cbn; intuition discriminate). reflexivity. }
  cbn [String.eqb]. assert (dget ns "conf" = Some (JStr (conf_name d))) as ->.
  { unfold ns. rewrite set_opts_get. unfold conf_name. destruct (last_given d "conf"); reflexivity. }
  assert (NoDup (map fst ns)) as Nn by (apply set_opts_NoDup; repeat constructor; cbn; tauto).
  destruct (C63_merged loads file "" (conf_name d) text conf (ddel ns "conf") Hn ltac:(discriminate) Hf Hl (ddel_NoDup _ _ Nn)) as (args & Er & _).
  - unfold chosen. rewrite dget_ddel_ne by discriminate. unfold ns. rewrite set_opts_get, (options_keys _ _ Ho) by (cbn; intuition discriminate). exact Hk.
  - exists args. rewrite Er. reflexivity.
Qed.
Print Assumptions C117_no_command_refuted.
Example C117_no_command_nonvacuous : exists l d, options l d /\ conf_name d = "conf.json" /\ l = [].
Proof. exists [], []. repeat split. constructor. Qed.
(** The words calc and moveout are taken for paths if a path is missing: rf data moveout writes to
    moveout, rf calc moveout data reads from moveout and writes to data. *)
Theorem C117_word_as_path_refuted loads file out :
  plain out ->
  run_cli loads file ["-c"; "none"; "data"; "moveout"] = Run (Some "data") (Call [("commands", JList []); ("path_out", JStr "moveout")]) /\
  run_cli loads file ["-c"; "none"; "calc"; "moveout"; out] = Run (Some "calc") (Call [("commands", JList []); ("path_in", JStr "moveout"); ("path_out", JStr out)]).
Proof.
  intros H. split; [vm_compute; reflexivity|]. unfold run_cli. 
  change (parse_args [("conf", JStr "conf.json")] ["-c"; "none"; "calc"; "moveout"; out]) with
    (match parse_sub "calc" ["moveout"; out] with
     | Some (tutorial, pos) => match arguments "calc" pos with Some a => Some (Some "calc", tutorial, dupdate [("conf", JStr "none")] a) | None => None end
     | None => None end).
  rewrite parse_sub_plain by (repeat constructor; exact H). reflexivity.
Qed.
Print Assumptions C117_word_as_path_refuted.

(** * C118: rf create *)
(** rf create writes the configuration file to the given name and, with --tutorial or -t, the three
    example files to the same directory. *)
Theorem C118_create loads file l d flags : options l d -> Forall (fun f => In f ["-t"; "--tutorial"]) flags ->
  run_cli loads file (l ++ "create" :: flags) =
    Create (("conf.json", conf_name d) ::
            match flags with
            | [] => []
            | _ => map (fun n => (n, path_join (dirname (conf_name d)) n)) ["example_events.xml"; "example_inventory.xml"; "example_data.mseed"]
            end).
Proof.
  intros Ho Hf. unfold run_cli. rewrite (parse_options _ _ Ho). cbn [parse_args].
  change (classify main_flags "create") with Pos. change (inb "create" subcommands) with true. cbv iota.
  assert (parse_sub "create" flags = Some (match flags with [] => false | _ => true end, [])) as ->.
  { induction Hf as [|f fl Hin _ IH]; [reflexivity|]. cbn [parse_sub].
    assert (classify (sub_flags "create") f = Opt "tutorial" None) as ->.
    { cbn in Hin. destruct Hin as [<-|[<-|[]]]; vm_compute; reflexivity. }
    cbn [String.eqb Ascii.eqb Bool.eqb]. rewrite IH. reflexivity. }
  change (arguments "create" []) with (Some ([] : dict json)). cbv iota. unfold dupdate, aupdate. cbn [fold_left].
  set (ns := set_opts d _). assert (dget ns "commands" = None) as ->.
  { unfold ns. rewrite set_opts_get, (options_keys _ _ Ho) by (cbn; intuition discriminate). reflexivity. }
  assert (dget ns "conf" = Some (JStr (conf_name d))) as ->.
  { unfold ns. rewrite set_opts_get. unfold conf_name. destruct (last_given d "conf"); reflexivity. }
  cbn [String.eqb Ascii.eqb Bool.eqb]. unfold create_files. destruct flags; reflexivity.
Qed.
Print Assumptions C118_create.
(** The same directory: *)
Theorem C118_directory f : 
  (forall base, char_in "/" base = false -> path_join (dirname base) f = f) /\
  (forall dir base, char_in "/" base = false -> dir <> "" -> endswith_char dir "/" = false -> path_join (dirname (dir ++ "/" ++ base)) f = (dir ++ "/" ++ f)%string) /\
  (forall base, char_in "/" base = false -> path_join (dirname ("/" ++ base)) f = ("/" ++ f)%string).
Proof.
  assert (forall base acc best, char_in "/" base = false -> before_last_slash base acc best = best) as B.
  { induction base as [|a base IH]; intros acc best H; [reflexivity|]. cbn [before_last_slash char_in] in *. apply Bool.orb_false_iff in H. destruct H as [H1 H2]. rewrite IH by exact H2.
    rewrite Ascii.eqb_sym, H1. reflexivity. }
  assert (forall dir base acc best, char_in "/" base = false -> before_last_slash (dir ++ String "/" base) acc best = (acc ++ dir ++ "/")%string) as D.
  { induction dir as [|a dir IH]; intros base acc best H.
    - cbn [append before_last_slash]. rewrite B by exact H. reflexivity.
    - cbn [append before_last_slash]. rewrite IH by exact H. rewrite sapp_assoc. reflexivity. }
  assert (forall s, s <> "" -> endswith_char s "/" = false -> strip_slashes (s ++ "/") = s) as S.
  { induction s as [|a s IH]; intros Hn He; [congruence|]. cbn [append strip_slashes]. destruct s as [|b s].
    - cbn. unfold endswith_char in He. cbn in He. rewrite He. reflexivity.
    - rewrite IH; [reflexivity|discriminate|]. exact He. }
  repeat split.
  - intros base H. unfold dirname. rewrite B by exact H. reflexivity.
  - intros dir base H Hn He. unfold dirname. change ("/" ++ base)%string with (String "/" base). rewrite D by exact H. change ("" ++ dir ++ "/")%string with (dir ++ "/")%string. cbv zeta. rewrite S by assumption. unfold path_join.
    destruct dir as [|a dir]; [congruence|]. cbn [String.eqb]. rewrite He. reflexivity.
  - intros base H. unfold dirname. change ("/" ++ base)%string with ("" ++ String "/" base)%string. rewrite D by exact H. reflexivity.
Qed.
Print Assumptions C118_directory.
Example C118_nonvacuous : run_cli (fun _ => Err ValueError) (fun _ => None) ["-c"; "my/test/conf.json"; "create"; "-t"] =
  Create [("conf.json", "my/test/conf.json"); ("example_events.xml", "my/test/example_events.xml"); ("example_inventory.xml", "my/test/example_inventory.xml"); ("example_data.mseed", "my/test/example_data.mseed")].
Proof. vm_compute. reflexivity. Qed.

(** * C119: rf print *)
(** Files: printed are the traces of all files in the order of the files; configuration file, events
    and inventory are not needed. *)
Theorem C119_files {Ev In Tr} loads file l d o objs (read_rf : string -> res (list Tr)) read_events read_inventory (ev : events_arg Ev) (inv : inv_arg In) trs :
  options l d -> Forall plain (o :: objs) -> o <> "events" -> o <> "stations" ->
  (exists args, run_cli loads file (l ++ "print" :: o :: objs) = Run (Some "print") (Call args) /\ dget args "objects" = Some (JList (map JStr (o :: objs)))) /\
  (Forall2 (fun f tr => read_rf f = Ok tr) (o :: objs) trs ->
     print_command read_rf read_events read_inventory (o :: objs) ev inv = Ok (Some (PTraces (List.concat trs)))) /\
  (forall f e, List.In f (o :: objs) -> read_rf f = Err e -> exists e', print_command read_rf read_events read_inventory (o :: objs) ev inv = Err e').
Proof.
  intros Ho Hpl H1 H2. apply String.eqb_neq in H1, H2. split; [|split].
  - destruct (run_cli_args loads file l d "print" (o :: objs) _ Ho (print_args (o :: objs) ltac:(discriminate)) Hpl) as (kw & E & _ & G). rewrite E. clear E.
    assert (dget kw "objects" = Some (JList (map JStr (o :: objs)))) as E1 by (rewrite G; reflexivity).
    assert (dget kw "command" = None) as E2.
    { rewrite G. unfold value_of. cbn [dget aget String.eqb Ascii.eqb Bool.eqb]. unfold dget. cbn [aget String.eqb Ascii.eqb Bool.eqb]. rewrite (options_keys _ _ Ho) by (cbn; intuition discriminate). reflexivity. }
    exists kw. split; [|exact E1]. f_equal. unfold run_config. rewrite E2. destruct (inb (conf_name d) _); [reflexivity|]. unfold objects0. rewrite E1. cbn [map bind String.eqb Ascii.eqb Bool.eqb].
    unfold inb. cbn [existsb]. rewrite H1, H2. reflexivity.
  - intros HF. unfold print_command. rewrite H1, H2. 
    assert (mapM read_rf (o :: objs) = Ok trs) as ->; [|reflexivity]. revert HF. generalize (o :: objs). clear. intros fs HF.
    induction HF as [|f tr fs trs Hf _ IH]; [reflexivity|]. cbn [mapM]. rewrite Hf. cbn [bind]. rewrite IH. reflexivity.
  - intros f e Hin Hf. unfold print_command. rewrite H1, H2. destruct (mapM read_rf (o :: objs)) as [r|e'] eqn:E; [|exists e'; reflexivity]. exfalso.
    apply mapM_ok_Forall2 in E. destruct (Forall2_in_l _ _ _ _ E Hin) as (y & _ & Hy). congruence.
Qed.
Print Assumptions C119_files.
(** Events and stations are those of the configuration (or of the options). *)
Theorem C119_events {Ev In Tr} (read_rf : string -> res (list Tr)) (read_events : string -> option string -> res (list Ev)) (read_inventory : string -> option string -> res In) objs name fmt inv ev :
  (forall l, read_events name fmt = Ok l ->
    print_command read_rf read_events read_inventory ("events" :: objs) (match fmt with None => EvName name | Some f => EvPair name f end) inv = Ok (Some (PEvents l))) /\
  (forall i, read_inventory name fmt = Ok i ->
    print_command read_rf read_events read_inventory ("stations" :: objs) ev (match fmt with None => InvName name | Some f => InvPair name f end) = Ok (Some (PInventory i))).
Proof. unfold print_command, load_events, load_inventory. split; intros x Hx; destruct fmt; cbn; rewrite Hx; reflexivity. Qed.
Print Assumptions C119_events.
(** rf print inventory, which is in the help of the command, does not print the inventory: it is the
    name of a file. *)
Theorem C119_inventory_refuted {Ev In Tr} (read_rf : string -> res (list Tr)) (read_events : string -> option string -> res (list Ev)) (read_inventory : string -> option string -> res In) ev inv x :
  print_command read_rf read_events read_inventory ["inventory"] ev inv = Ok (Some x) -> exists tr, read_rf "inventory" = Ok tr /\ x = PTraces tr.
Proof.
  unfold print_command. cbn [String.eqb Ascii.eqb Bool.eqb mapM bind]. destruct (read_rf "inventory") as [tr|]; cbn [bind]; [|discriminate]. intros H. injection H as <-. exists tr. split; [reflexivity|].
  cbn [List.concat]. rewrite app_nil_r. reflexivity.
Qed.
Print Assumptions C119_inventory_refuted.
Example C119_nonvacuous :
  print_command (Ev := nat) (In := nat) (fun f => if String.eqb f "a.h5" then Ok [1; 2] else Ok [3]) (fun _ _ => Err OtherError) (fun _ _ => Err OtherError) ["a.h5"; "b.h5"; "a.h5"] EvNone InvNone
    = Ok (Some (PTraces [1; 2; 3; 1; 2])).
Proof. reflexivity. Qed.
