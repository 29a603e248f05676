(** C63, C86: configuration of batch mode. *)
From Verif Require Import Model.Config Spec.ConfigSpec Proofs.PyFacts Proofs.ConfigFacts.

(** * C63: comments *)
(** Comments are removed, and nothing else, if there is no # in a string. *)
Theorem C63_comments_partial s : hash_in_string Outside s = false -> strip_comments s = uncomment Outside s.
Proof. intros H. rewrite strip_cut. apply (cut_uncomment s Outside H). Qed.
Print Assumptions C63_comments_partial.
Example C63_comments_nonvacuous :
  let s := ("{  # ""a"" comment" ++ char_str newline ++ " ""data"" : ""a\""b"" # ""x" ++ char_str newline ++ "}")%string in
  hash_in_string Outside s = false /\ strip_comments s = ("{  " ++ char_str newline ++ " ""data"" : ""a\""b"" " ++ char_str newline ++ "}")%string.
Proof. vm_compute. split; reflexivity. Qed.
(** The full statement does not hold: a string which contains # is cut. *)
Theorem C63_comments_refuted :
  strip_comments "{""data"": ""data#1.mseed""}" = "{""data"": ""data" /\ uncomment Outside "{""data"": ""data#1.mseed""}" = "{""data"": ""data#1.mseed""}".
Proof. vm_compute. split; reflexivity. Qed.
Print Assumptions C63_comments_refuted.

(** * C63: options *)
(** What run passes on: each option of the command line, and the options of the configuration file
    which are not given there. *)
Theorem C63_merged loads file command name text conf cli :
  ~ In name ["None"; "none"; "null"; ""] -> command <> "print" -> file name = Some text -> loads (strip_comments text) = Ok (JObj conf) ->
  NoDup (map fst cli) -> chosen cli conf "command" = None ->
  exists args, run_config loads file command (Some name) cli = Call args /\ forall k, dget args k = chosen cli conf k.
Proof.
  intros Hn Hp Hf Hl Hd Hc. exists (dupdate conf cli). unfold run_config.
  destruct (inb name ["None"; "none"; "null"; ""]) eqn:E; [apply inb_spec in E; contradiction|].
  apply String.eqb_neq in Hp. rewrite Hp, Hf, Hl. unfold chosen in *.
  assert (forall k, dget (dupdate conf cli) k = match dget cli k with Some v => Some v | None => dget conf k end) as Hg by (intros k; apply dupdate_get, Hd).
  rewrite Hg, Hc. auto.
Qed.
Print Assumptions C63_merged.
(** Without configuration file only those of the command line. *)
Theorem C63_no_file loads file command conf cli : (conf = None \/ exists c, conf = Some c /\ In c ["None"; "none"; "null"; ""]) -> dget cli "command" = None ->
  run_config loads file command conf cli = Call cli.
Proof.
  intros [->|(c & -> & Hc)] H; unfold run_config.
  - rewrite H. reflexivity.
  - assert (inb c ["None"; "none"; "null"; ""] = true) as -> by (apply inb_spec, Hc). rewrite H. reflexivity.
Qed.
Print Assumptions C63_no_file.
(** Unknown options, and only these, are rejected by a ParseError. *)
Theorem C63_unknown loads linspace args :
  (forall s, loads s <> Err ParseError) -> (forall b, linspace b <> Err ParseError) ->
  (resolve loads linspace args = Err ParseError <-> exists k v, In (k, v) args /\ ~ known k).
Proof.
  intros Hl Hs. unfold resolve.
  set (kw := filter (fun e => negb (inb (fst e) NAMED)) args).
  assert (existsb (fun e : string * json => negb (inb (fst e) DICT_OPTIONS)) kw = true <-> exists k v, In (k, v) args /\ ~ known k) as Hu.
  { rewrite existsb_exists. split.
    - intros ([k v] & Hin & H). unfold kw in Hin. apply filter_In in Hin. destruct Hin as [Hin H2]. cbn [fst] in *. exists k, v. split; [exact Hin|].
      apply Bool.negb_true_iff in H, H2. intros Hk. unfold known in Hk.
      assert (In k NAMED \/ In k DICT_OPTIONS) as [C|C] by (unfold NAMED, DICT_OPTIONS; cbn [In] in *; tauto); apply inb_spec in C; congruence.
    - intros (k & v & Hin & Hk). exists (k, v). cbn [fst].
      assert (~ In k NAMED /\ ~ In k DICT_OPTIONS) as [C1 C2] by (unfold known in Hk; unfold NAMED, DICT_OPTIONS; cbn [In] in *; tauto).
      assert (inb k NAMED = false) as E1 by (destruct (inb k NAMED) eqn:E; [apply inb_spec in E; contradiction | reflexivity]).
      assert (inb k DICT_OPTIONS = false) as E2 by (destruct (inb k DICT_OPTIONS) eqn:E; [apply inb_spec in E; contradiction | reflexivity]).
      split; [|rewrite E2; reflexivity]. unfold kw. apply filter_In. split; [exact Hin | cbn [fst]; rewrite E1; reflexivity]. }
  rewrite <- Hu. destruct (existsb _ kw); [split; reflexivity|]. split; [|discriminate]. intros H. exfalso.
  assert (forall opts kw0, foldM (fill_option loads) opts kw0 <> Err ParseError) as Hfill.
  { clear - Hl. induction opts as [|o opts IH]; intros kw0 C; [discriminate C|]. cbn [foldM] in C. destruct (fill_option loads kw0 o) as [kw1|e] eqn:E; cbn [bind] in C.
    - exact (IH _ C).
    - unfold fill_option in E. set (d := match dget kw0 o with Some _ => kw0 | None => dset kw0 o (default_option o) end) in E.
      destruct (dget d o) as [[]|]; try discriminate E. destruct (loads s) as [x|e'] eqn:Es; cbn [bind] in E; [discriminate E|]. apply (Hl s). rewrite Es. congruence. }
  assert (forall a o k v, set_in a o k v <> Err ParseError) as Hset.
  { intros a o k v C. unfold set_in in C. destruct (dget a o) as [[]|]; discriminate C. }
  destruct (foldM (fill_option loads) DICT_OPTIONS kw) as [kw1|e] eqn:E1; cbn [bind] in H; [|apply (Hfill DICT_OPTIONS kw); congruence].
  destruct (match given (dget args "phase") with Some p => set_in kw1 "options" "phase" p | None => Ok kw1 end) as [kw2|e] eqn:E2; cbn [bind] in H.
  2:{ destruct (given (dget args "phase")); [|discriminate E2]. apply (Hset kw1 "options" "phase" j). congruence. }
  destruct (match given (dget args "moveout_phase") with Some p => set_in kw2 "moveout" "phase" p | None => Ok kw2 end) as [kw3|e] eqn:E3; cbn [bind] in H.
  2:{ destruct (given (dget args "moveout_phase")); [|discriminate E3]. apply (Hset kw2 "moveout" "phase" j). congruence. }
  destruct (given (dget kw3 "boxbins")) as [b|]; [|discriminate H]. destruct (linspace b) as [bins|e] eqn:E4; cbn [bind] in H; [apply (Hset _ _ _ _ H) | apply (Hs b); congruence].
Qed.
Print Assumptions C63_unknown.

(** The options after all: those given, or read from the given texts, or empty; with phase in
    options, moveout_phase in moveout and boxbins in boxes. *)
Theorem C63_options loads linspace args kw :
  resolve loads linspace args = Ok kw ->
  exists o m b bins,
    is_value loads (dget args "options") (JObj []) o /\ is_value loads (dget args "moveout") (JObj []) m /\
    is_value loads (dget args "boxes") (JObj []) b /\ is_value loads (dget args "boxbins") JNull bins /\
    (forall opt, In opt ["client_options"; "rf"; "profile"; "plot"; "plot_profile"] ->
       exists w, is_value loads (dget args opt) (JObj []) w /\ dget kw opt = Some w) /\
    (not_set (dget args "phase") -> dget kw "options" = Some o) /\
    (forall p, set_to (dget args "phase") p -> exists o', dget kw "options" = Some o' /\ with_entry o o' "phase" p) /\
    (not_set (dget args "moveout_phase") -> dget kw "moveout" = Some m) /\
    (forall p, set_to (dget args "moveout_phase") p -> exists m', dget kw "moveout" = Some m' /\ with_entry m m' "phase" p) /\
    (bins = JNull -> dget kw "boxes" = Some b) /\
    (bins <> JNull -> exists b' l, linspace bins = Ok l /\ dget kw "boxes" = Some b' /\ with_entry b b' "bins" l).
Proof.
  unfold resolve. set (kw0 := filter (fun e => negb (inb (fst e) NAMED)) args). destruct (existsb _ kw0); [discriminate|].
  destruct (foldM (fill_option loads) DICT_OPTIONS kw0) as [kw1|] eqn:E1; cbn [bind]; [|discriminate].
  assert (NoDup DICT_OPTIONS) as Hnd by (unfold DICT_OPTIONS; repeat (constructor; [cbn; intuition discriminate|]); constructor).
  destruct (fill_all loads _ _ _ Hnd E1) as [HF _].
  assert (forall opt, In opt DICT_OPTIONS -> dget kw0 opt = dget args opt) as H0.
  { intros opt Ho. apply dget_filter. intros v. cbn [fst]. destruct (inb opt NAMED) eqn:E; [|reflexivity]. exfalso. apply inb_spec in E.
    unfold DICT_OPTIONS, NAMED in *. cbn [In] in *. intuition congruence. }
  assert (forall opt, In opt DICT_OPTIONS -> exists w, is_value loads (dget args opt) (default_option opt) w /\ dget kw1 opt = Some w) as HV.
  { intros opt Ho. destruct (HF opt Ho) as (w & Hw & E). rewrite H0 in Hw by exact Ho. eauto. }
  clear HF H0 E1.
  destruct (HV "options") as (o & Ho & Eo); [cbn; tauto|]. destruct (HV "moveout") as (m & Hm & Em); [cbn; tauto|].
  destruct (HV "boxes") as (b & Hb & Eb); [cbn; tauto|]. destruct (HV "boxbins") as (bins & Hbins & Ebins); [cbn; tauto|].
  change (default_option "options") with (JObj []) in Ho. change (default_option "moveout") with (JObj []) in Hm. change (default_option "boxes") with (JObj []) in Hb. change (default_option "boxbins") with JNull in Hbins.
  intros H.
  destruct (match given (dget args "phase") with Some p => set_in kw1 "options" "phase" p | None => Ok kw1 end) as [kw2|] eqn:E2; cbn [bind] in H; [|discriminate].
  destruct (match given (dget args "moveout_phase") with Some p => set_in kw2 "moveout" "phase" p | None => Ok kw2 end) as [kw3|] eqn:E3; cbn [bind] in H; [|discriminate].
  assert (forall k, k <> "options" -> dget kw2 k = dget kw1 k) as F2 by (destruct (given (dget args "phase")); [apply (set_in_spec _ _ _ _ _ E2) | intros; congruence]).
  assert (forall k, k <> "moveout" -> dget kw3 k = dget kw2 k) as F3 by (destruct (given (dget args "moveout_phase")); [apply (set_in_spec _ _ _ _ _ E3) | intros; congruence]).
  assert (dget kw3 "boxbins" = Some bins) as E3b by (rewrite F3, F2 by discriminate; exact Ebins). rewrite E3b in H.
  assert (forall k, k <> "boxes" -> dget kw k = dget kw3 k) as F4.
  { destruct (given (Some bins)) as [j|]; [|intros; congruence]. destruct (linspace j) as [l|]; [|discriminate H]. cbn [bind] in H. apply (set_in_spec _ _ _ _ _ H). }
  exists o, m, b, bins. do 4 (split; [assumption|]). split; [|split; [|split; [|split; [|split; [|split]]]]].
  - intros opt Hopt. destruct (HV opt) as (w & Hw & Ew); [cbn in *; tauto|]. exists w.
    assert (opt <> "options" /\ opt <> "moveout" /\ opt <> "boxes" /\ default_option opt = JObj []) as (D1 & D2 & D3 & D4).
    { cbn in Hopt. repeat (destruct Hopt as [<-|Hopt]; [repeat split; discriminate|]). destruct Hopt. }
    rewrite D4 in Hw. split; [exact Hw|]. rewrite F4, F3, F2 by assumption. exact Ew.
  - intros Hn. rewrite F4, F3 by discriminate. assert (given (dget args "phase") = None) as E by (destruct Hn as [->| ->]; reflexivity). rewrite E in E2. congruence.
  - intros p [Hp Hnn]. rewrite F4, F3 by discriminate. assert (given (dget args "phase") = Some p) as E by (rewrite Hp; destruct p; [congruence|reflexivity..]). rewrite E in E2.
    destruct (set_in_spec _ _ _ _ _ E2) as [(x & y & X & Y & W) _]. exists y. split; [exact Y|]. replace o with x by congruence. exact W.
  - intros Hn. rewrite F4 by discriminate. assert (given (dget args "moveout_phase") = None) as E by (destruct Hn as [->| ->]; reflexivity). rewrite E in E3.
    injection E3 as <-. rewrite F2 by discriminate. exact Em.
  - intros p [Hp Hnn]. rewrite F4 by discriminate. assert (given (dget args "moveout_phase") = Some p) as E by (rewrite Hp; destruct p; [congruence|reflexivity..]). rewrite E in E3.
    destruct (set_in_spec _ _ _ _ _ E3) as [(x & y & X & Y & W) _]. exists y. split; [exact Y|]. rewrite F2 in X by discriminate. replace m with x by congruence. exact W.
  - intros ->. cbn [given] in H. injection H as <-. rewrite F3, F2 by discriminate. exact Eb.
  - intros Hne. assert (given (Some bins) = Some bins) as E by (destruct bins; [congruence|reflexivity..]). rewrite E in H.
    destruct (linspace bins) as [l|] eqn:El; [|discriminate H]. cbn [bind] in H. destruct (set_in_spec _ _ _ _ _ H) as [(x & y & X & Y & W) _].
    exists y, l. split; [reflexivity|]. split; [exact Y|]. rewrite F3, F2 in X by discriminate. replace b with x by congruence. exact W.
Qed.
Print Assumptions C63_options.

(** a case *)
Definition loads_e (s : string) : res json := if String.eqb s "{""phase"": ""P""}" then Ok (JObj [("phase", JStr "P")]) else Err ValueError.
Example C63_nonvacuous :
  (forall s, loads_e s <> Err ParseError) /\ (forall b, Ok (A := json) b <> Err ParseError) /\
  (exists kw, resolve loads_e (fun b => Ok b) [("events", JStr "e.xml"); ("options", JObj [("pp_depth", JNum 50)]); ("phase", JStr "S"); ("boxbins", JList [JNum 0; JNum 10; JNum 5])] = Ok kw /\
     dget kw "options" = Some (JObj [("pp_depth", JNum 50); ("phase", JStr "S")]) /\ dget kw "boxes" = Some (JObj [("bins", JList [JNum 0; JNum 10; JNum 5])]) /\ dget kw "rf" = Some (JObj [])) /\
  resolve loads_e (fun b => Ok b) [("evens", JStr "e.xml")] = Err ParseError.
Proof.
  split; [intros s; unfold loads_e; destruct (_ =? _)%string; discriminate|]. split; [discriminate|]. split; [|reflexivity].
  eexists. split; [vm_compute; reflexivity|]. repeat split.
Qed.
(** That the command line has precedence does not hold for entries of options which have their own
    name in the configuration: the phase of the configuration file replaces that of --options. *)
Theorem C63_precedence_refuted :
  exists conf cli kw args, conf = [("phase", JStr "S")] /\ cli = [("options", JStr "{""phase"": ""P""}")] /\
    (forall k, dget args k = chosen cli conf k) /\ resolve loads_e (fun b => Ok b) args = Ok kw /\ dget kw "options" = Some (JObj [("phase", JStr "S")]).
Proof.
  exists [("phase", JStr "S")], [("options", JStr "{""phase"": ""P""}")]. eexists. exists [("phase", JStr "S"); ("options", JStr "{""phase"": ""P""}")].
  split; [reflexivity|]. split; [reflexivity|]. split.
  - intros k. unfold chosen, dget. cbn. destruct (String.eqb_spec k "phase") as [->|]; [reflexivity|]. destruct (String.eqb k "options"); reflexivity.
  - split; [vm_compute; reflexivity | reflexivity].
Qed.
Print Assumptions C63_precedence_refuted.

(** * C86: objects instead of file names *)
(** File names (with or without format) and inventories are fine. *)
Theorem C86_input_partial E I (read_events : string -> option string -> res (list E)) (read_inventory : string -> option string -> res I) name format events inv :
  read_events name format = Ok events ->
  let ev := match format with None => EvName name | Some f => EvPair name f end in
  load_input E read_events I read_inventory ev (InvObject inv) = Some (events, inv) /\
  (forall n f, load_input E read_events I read_inventory ev (match f with None => InvName n | Some f => InvPair n f end) =
     match read_inventory n f with Ok i => Some (events, i) | Err _ => None end).
Proof.
  intros H ev. unfold load_input, load_events, ev. destruct format as [f|]; cbn; rewrite H; cbn; (split; [reflexivity|]); intros n [g|]; cbn; destruct (read_inventory n _); reflexivity.
Qed.
Print Assumptions C86_input_partial.
Example C86_nonvacuous : load_input nat (fun n f => if String.eqb n "e.xml" then Ok [1; 2] else Err OtherError) string (fun n f => Ok n) (EvPair "e.xml" "QUAKEML") (InvName "i.xml") = Some ([1; 2], "i.xml").
Proof. reflexivity. Qed.
(** But every catalog is refused: the condition in run_commands is always true, and a Catalog cannot
    be unpacked to file name and format. *)
Theorem C86_refuted E I (read_events : string -> option string -> res (list E)) (read_inventory : string -> option string -> res I) (events : list E) inv :
  load_input E read_events I read_inventory (EvCatalog events) inv = None /\ load_input E read_events I read_inventory (EvList events) inv = None.
Proof. unfold load_input, load_events. cbn. destruct events as [|a [|b [|c l]]]; split; reflexivity. Qed.
Print Assumptions C86_refuted.
