(** C143, C144: rf data with its options, the source of the waveforms and the iteration over events
    and stations. *)
From Verif Require Import Model.DataCommand Spec.StatsSpec Spec.EventSpec Spec.BatchSpec Spec.OnceSpec Spec.ConfigSpec Spec.DispatchSpec Spec.PipelineSpec Spec.DataCmdSpec
  Proofs.PyFacts Proofs.RfstatsFacts Proofs.EventFacts Proofs.OnceFacts Proofs.DataCmdFacts
  Properties.BatchProps Properties.OnceProps Properties.EventProps Properties.FigureProps Properties.StackCmdProps Properties.StackArchiveProps Properties.DispatchProps Properties.PipelineProps Spec.CliSpec.
Notation length := List.length.

Section Data.
  Context {D B F : Type}.
  Variable fmt_time : Z -> string.
  Variable str_of : value -> string.
  Variable h5key : trace -> string.
  Variable writer : string -> list trace -> option exn.
  Variable load : string -> list trace -> res (list trace).
  Variable id_set channel_set : list trace -> list string.
  Variable read_events : string -> option string -> res (list event).
  Variable read_inventory : string -> option string -> res (list string).
  Variable loads : string -> res json.
  Variable linspace : json -> res json.
  Variable rf moveout : json -> list trace -> res (list trace).
  Variable plot_rf plot_profile : json -> list trace -> res D.
  Variable get_boxes : json -> res B.
  Variable profile : json -> B -> list trace -> res (list trace).
  Variable show : dict json -> option exn.
  (** the source of the waveforms *)
  Variable clients : string -> option (json -> res (dict value -> res (option F))).
  Variable load_func : string -> string -> res (dict value -> res (option F)).
  Variable read_data : option string -> res F.
  Variable pick : F -> dict value -> res F.
  (** the iteration *)
  Variable gps : Q -> Q -> Q -> Q -> res (Q * Q * Q).
  Variable taup_load : string -> res unit.
  Variable taup : string -> Q -> Q -> string -> res (list arrival).
  Variable ppoint : string -> dict value -> Q -> string -> res (dict value).
  Variable coordinates : string -> option Z -> res station_d.
  Variable trim : Z -> Z -> F -> res F.
  Variable merge : F -> res F.
  Variable components : F -> list wtrace.
  Variable sampling : hst -> Z.
  Variable samples : hst -> list Q.
  Notation init := (init_data clients load_func read_data pick).
  Notation streams := (event_streams gps taup_load taup ppoint str_of coordinates F trim merge components sampling samples).
  Notation program := (program fmt_time str_of h5key writer load id_set channel_set read_events read_inventory loads linspace init streams rf moveout plot_rf plot_profile get_boxes profile show).
  Notation call a := (call_rfstats gps taup_load taup ppoint a).
  Notation tr := (as_trace sampling samples).

  (** rf [options] data [calc] [moveout] OUT. If the call succeeds then OUT contains the results for
      the complete streams of the data source, each under its own event and station, and for all other
      pairs of the catalogue and the inventory there is no complete stream. Commands which read OUT
      with the same catalogue and inventory ask for all of these streams. The call succeeds if the
      data source and the commands do. *)
  Theorem C143_data_partial file l d conf cmds pout inv invf ev evf fmt year before channels events w :
    options l d -> plain pout -> configured loads file d conf -> options_ok loads linspace (setting d conf) ->
    (forall c, In c cmds -> c = "calc" \/ c = "moveout") ->
    names_file (setting d conf "events") ev evf -> read_events ev evf = Ok events ->
    names_file (setting d conf "inventory") inv invf -> read_inventory inv invf = Ok channels ->
    format_is (setting d conf "format") fmt -> In fmt ["Q"; "SAC"; "H5"] -> is_value loads (setting d conf "rf") (JObj []) w ->
    clock fmt_time year -> no_wild pout -> unrelated pout before -> (fmt = "H5" -> keys_differ year h5key) ->
    sets_ppoint ppoint -> inventory_ok channels -> one_group channels -> events_ok year events ->
    exists mw opt cl, moveout_options loads (setting d conf) mw /\ data_options loads (setting d conf) opt /\ is_value loads (setting d conf "client_options") (JObj []) cl /\
    forall get a window pad,
      init (setting d conf "data") cl (setting d conf "plugin") = Ok get -> documented opt a window pad ->
      answers F trim merge components get ->
      let f := fun c => if String.eqb c "calc" then rf w else moveout mw in
      (forall p s out, good year (p, s) -> apply_all f cmds s out -> good year (p, out)) ->
      exists ops e, program file (l ++ "data" :: cmds ++ [pout]) before = Did ops [] e /\
        (forall n, ~ inside pout n -> dget (do_ops before ops) n = dget before n) /\
        (e = None -> exists wn items results, window_of (r_phase a) window wn /\
           Forall2 (after_commands f cmds) (map (fun y => (fst y, map tr (snd y))) items) results /\
           stored fmt_time year str_of h5key writer pout fmt results (do_ops before ops) /\
           (forall p l, In (p, l) items -> requested events channels p /\ good year (p, map tr l) /\
              exists ev id, In ev events /\ In id (station_ids channels) /\ pair_of ev id p /\
                delivered (call a) coordinates F trim merge components get channels wn pad ev id l) /\
           (forall ev id, In ev events -> In id (station_ids channels) ->
              (exists p l, In (p, l) items /\ pair_of ev id p) \/
              missing (call a) coordinates F trim merge components get channels wn pad ev id)) /\
        ((forall f l, writer f l = None) -> r_phase a <> "" ->
         (forall id t, coordinates id t <> Err KeyboardInterrupt) -> (forall ev sta, call a ev sta <> Err KeyboardInterrupt) ->
         (forall q, exists st, get q = Ok (Some st)) ->
         (forall x y st, exists st', trim x y st = Ok st') -> (forall st, exists st', merge st = Ok st') ->
         (forall st t, In t (components st) -> plain_format (w_h t)) ->
         (forall p s, good year (p, s) -> exists out, apply_all f cmds s out) -> e = None).
  Proof.
    intros Ho Po Hcf Hok Hcm Hev Re Hi Ri Hfm Hf Hw Hc Hpw Hu Hk Hpp Hinv Hone Hevs.
    destruct (C131_data_partial fmt_time str_of h5key writer load id_set channel_set read_events read_inventory loads linspace init streams rf moveout plot_rf plot_profile get_boxes profile show
      file l d conf cmds pout inv invf ev evf fmt year before channels events w Ho Po Hcf Hok Hcm Hev Re Hi Ri Hfm Hf Hw Hc Hpw Hu Hk) as (mw & opt & cl & Hmw & Hopt & Hcl & _ & Hrun).
    exists mw, opt, cl. split; [exact Hmw|]. split; [exact Hopt|]. split; [exact Hcl|].
    intros get a window pad Hin Hdoc Hans f Hgood.
    destruct (iter_event_data gps taup_load taup ppoint str_of coordinates F trim merge components get a window pad events channels) as [acts fin] eqn:Eit.
    destruct (iteration_items gps taup_load taup ppoint str_of coordinates F trim merge components get sampling samples a window pad events channels year Hpp Hinv Hone Hevs Hans acts fin Eit)
      as (wn & items & Hwn & Hy & Hd & Hof & Hall).
    set (its := map (fun y : spair * list hst => (fst y, map tr (snd y))) items).
    assert (forall p s, In (p, s) its -> good year (p, s)) as Hg.
    { intros p s Hx. apply in_map_iff in Hx. destruct Hx as (y & E & Hx). injection E as <- <-. destruct (Hof y Hx) as (e0 & id & _ & _ & _ & _ & _ & G). exact G. }
    destruct (Hrun get its fin Hin) as (ops & e & E1 & E2 & E3 & E4).
    { unfold event_streams. rewrite (documented_iterate _ _ _ _ _ _ _ _ _ _ _ _ _ _ _ _ _ Hdoc), Eit, Hy. f_equal. unfold its. rewrite !map_map. reflexivity. }
    { unfold different, its. refine (FOP_Forall2 _ _ (fun x y => fst y = fst x) items _ _ Hd _).
      - intros x y u v H -> ->. exact H.
      - clear. induction items as [|x l IH]; constructor; [reflexivity | exact IH]. }
    { intros p s out Hx Ha. exact (Hgood p s out (Hg p s Hx) Ha). }
    exists ops, e. split; [exact E1|]. split; [exact E2|]. split.
    - intros He. destruct (E3 He) as (Ef & results & HF & Hst). exists wn, items, results. split; [exact Hwn|]. split; [exact HF|]. split; [exact Hst|]. split.
      + intros p l0 Hx. destruct (Hof (p, l0) Hx) as (ev0 & id & H1 & H2 & H3 & H4 & H5 & H6). cbn [fst snd] in *.
        split; [|split; [exact H6 | exists ev0, id; auto]]. destruct H4 as (C1 & C2 & C3 & _). exact (pair_requested events channels ev0 id p Hinv H1 H2 H3 C1 C2 C3).
      + intros ev0 id H1 H2. destruct (Hall Ef ev0 id H1 H2) as [([p l0] & Hx & H3 & _)|Hm]; [left; exists p, l0; auto | right; exact Hm].
    - intros Hwr Hph Hki1 Hki2 Hget Htrim Hmerge Hplain Happ. rewrite (E4 Hwr) by (intros p s Hx; exact (Happ p s (Hg p s Hx))).
      destruct (C53_isolation_partial gps taup_load taup ppoint str_of coordinates F trim merge components get a window pad events channels) as (w' & actss & _ & Eis & _); try assumption.
      { intros e0 Hin0. destruct (proj1 Hevs e0 Hin0) as (t & Ht & _). unfold has_origin, time_of in *. destruct (e_pref e0); [left; discriminate|]. destruct (e_origins e0); [discriminate | right; discriminate]. }
      { exact (inventory_ids channels Hinv). }
      { intros q H. destruct (Hget q) as [st0 E]. congruence. }
      { intros q H. destruct (Hget q) as [st0 E]. congruence. }
      unfold iteration in Eis. rewrite Eit in Eis. congruence.
  Qed.
End Data.
Print Assumptions C143_data_partial.

(** ** plugins *)
Lemma blank_spec c : blank c = true <-> In c [" "; "009"; "010"; "011"; "012"; "013"]%char.
Proof. unfold blank. rewrite existsb_exists. split; [intros (x & H & E); apply Ascii.eqb_eq in E; subst; exact H | intros H; exists c; split; [exact H | apply Ascii.eqb_refl]]. Qed.
Lemma lstrip_app l m : (forall c, In c l -> blank c = true) -> (forall c r, m = c :: r -> blank c = false) -> lstrip (l ++ m) = m.
Proof.
  induction l as [|c l IH]; intros H1 H2; cbn [app lstrip].
  - destruct m as [|c m]; [reflexivity|]. cbn [lstrip]. rewrite (H2 c m eq_refl). reflexivity.
  - rewrite H1 by (left; reflexivity). apply IH; [intros; apply H1; right; assumption | exact H2].
Qed.
Lemma lstrip_all l : (forall c, In c l -> blank c = true) -> lstrip l = [].
Proof. induction l as [|c l IH]; intros H; [reflexivity|]. cbn [lstrip]. rewrite H by (left; reflexivity). apply IH. intros; apply H; right; assumption. Qed.
Lemma last_char_rev s : last_char s = hd_error (rev (list_ascii_of_string s)).
Proof.
  induction s as [|c s IH]; [reflexivity|]. cbn [list_ascii_of_string rev]. destruct s as [|c' s]; [reflexivity|].
  change (last_char (String c (String c' s))) with (last_char (String c' s)). rewrite IH. 
  destruct (rev (list_ascii_of_string (String c' s))) as [|x l] eqn:E; [|reflexivity].
  apply (f_equal (@List.length ascii)) in E. rewrite rev_length in E. discriminate.
Qed.
Lemma list_ascii_of_app a b : list_ascii_of_string (a ++ b) = (list_ascii_of_string a ++ list_ascii_of_string b)%list.
Proof. induction a as [|c a IH]; [reflexivity|]. cbn [append list_ascii_of_string app]. rewrite IH. reflexivity. Qed.
Lemma strip_padded s name : padded s name -> strip s = name.
Proof.
  intros (l & r & -> & Hb & Hf & Hl). unfold strip. rewrite !list_ascii_of_app.
  assert (forall c, In c (list_ascii_of_string l) -> blank c = true) as Bl.
  { intros c Hc. apply blank_spec, Hb. rewrite list_ascii_of_app. apply in_app_iff. left. exact Hc. }
  assert (forall c, In c (list_ascii_of_string r) -> blank c = true) as Br.
  { intros c Hc. apply blank_spec, Hb. rewrite list_ascii_of_app. apply in_app_iff. right. exact Hc. }
  assert (forall c, ~ In c [" "; "009"; "010"; "011"; "012"; "013"]%char -> blank c = false) as Hn.
  { intros c Hc. destruct (blank c) eqn:E; [apply blank_spec in E; contradiction | reflexivity]. }
  destruct name as [|c name].
  - cbn [list_ascii_of_string app]. rewrite (lstrip_all (_ ++ _)); [reflexivity|]. intros c Hc. apply in_app_iff in Hc. destruct Hc; auto.
  - rewrite lstrip_app; [|exact Bl|]. 2: { intros c' r' E. cbn in E. injection E as <- _. exact (Hn c (Hf c name eq_refl)). }
    rewrite rev_app_distr, lstrip_app.
    + rewrite rev_involutive. apply string_of_list_ascii_of_string.
    + intros x Hx. apply in_rev in Hx. auto.
    + intros x r' E. apply Hn, Hl. rewrite last_char_rev, E. reflexivity.
Qed.
Lemma kws_arguments q : arguments_of q (kws q).
Proof.
  repeat (split; [reflexivity|]). intros k Hk. unfold kws, dget. cbn [aget].
  repeat match goal with |- context [String.eqb k ?x] => destruct (String.eqb_spec k x) as [E|_]; [exfalso; apply Hk; rewrite E; cbn; tauto|] end. reflexivity.
Qed.
(** C144: the function of a plugin is called with codes and times of each request; its errors are
    reported. *)
Theorem C144_plugin_partial {F : Type} (clients : string -> option (json -> res (dict value -> res (option F)))) load_func read_data pick cl s m f modulename funcname :
  clients "plugin" = None -> s = (m ++ ":" ++ f)%string -> char_in ":" m = false -> char_in ":" f = false -> padded m modulename -> padded f funcname ->
  (forall e, load_func modulename funcname = Err e -> init_data clients load_func read_data pick (Some (JStr "plugin")) cl (Some (JStr s)) = Err e) /\
  (forall func, load_func modulename funcname = Ok func -> exists get, init_data clients load_func read_data pick (Some (JStr "plugin")) cl (Some (JStr s)) = Ok get /\
     forall q, exists kw, arguments_of q kw /\
       (forall st, func kw = Ok st -> get q = Ok st) /\ (forall e, func kw = Err e -> e <> KeyboardInterrupt -> get q = Ok None) /\
       (func kw = Err KeyboardInterrupt -> get q = Err KeyboardInterrupt)).
Proof.
  intros Hc -> N1 N2 P1 P2. unfold init_data. rewrite Hc. cbn [String.eqb Ascii.eqb Bool.eqb]. cbn [append].
  rewrite split_on_sep by exact N1. rewrite split_on_no by exact N2. rewrite (strip_padded _ _ P1), (strip_padded _ _ P2). split.
  - intros e ->. reflexivity.
  - intros func ->. cbn [bind]. eexists. split; [reflexivity|]. intros q. exists (kws q). split; [|split; [|split]].
    + apply kws_arguments.
    + intros st E. unfold wrapper. rewrite E. reflexivity.
    + intros e E Hne. unfold wrapper. rewrite E. destruct e; try reflexivity. congruence.
    + intros E. unfold wrapper. rewrite E. reflexivity.
Qed.
Print Assumptions C144_plugin_partial.

(** C145: clients are made with the options of the configuration and get each request unchanged;
    of a local file the requested codes and times are used. *)
Theorem C145_client {F : Type} (clients : string -> option (json -> res (dict value -> res (option F)))) load_func read_data pick name client cl plugin :
  clients name = Some client ->
  (forall e, client cl = Err e -> init_data clients load_func read_data pick (Some (JStr name)) cl plugin = Err e) /\
  (forall waveforms, client cl = Ok waveforms -> exists get, init_data clients load_func read_data pick (Some (JStr name)) cl plugin = Ok get /\
     forall q, exists kw, arguments_of q kw /\
       (forall st, waveforms kw = Ok st -> get q = Ok st) /\ (forall e, waveforms kw = Err e -> e <> KeyboardInterrupt -> get q = Ok None) /\
       (waveforms kw = Err KeyboardInterrupt -> get q = Err KeyboardInterrupt)).
Proof.
  intros Hc. unfold init_data. rewrite Hc. split.
  - intros e ->. reflexivity.
  - intros func ->. cbn [bind]. eexists. split; [reflexivity|]. intros q. exists (kws q). split; [apply kws_arguments|]. split; [|split].
    + intros st E. unfold wrapper. rewrite E. reflexivity.
    + intros e E Hne. unfold wrapper. rewrite E. destruct e; try reflexivity. congruence.
    + intros E. unfold wrapper. rewrite E. reflexivity.
Qed.
Print Assumptions C145_client.
Theorem C145_file {F : Type} (clients : string -> option (json -> res (dict value -> res (option F)))) load_func read_data (pick : F -> dict value -> res F) name cl plugin :
  clients name = None -> name <> "plugin" ->
  (forall e, read_data (Some name) = Err e -> init_data clients load_func read_data pick (Some (JStr name)) cl plugin = Err e) /\
  (forall stream, read_data (Some name) = Ok stream -> exists get, init_data clients load_func read_data pick (Some (JStr name)) cl plugin = Ok get /\
     forall q, exists kw, arguments_of q kw /\
       (forall st, pick stream kw = Ok st -> get q = Ok (Some st)) /\ (forall e, pick stream kw = Err e -> e <> KeyboardInterrupt -> get q = Ok None)).
Proof.
  intros Hc Hn. unfold init_data. rewrite Hc. destruct (String.eqb_spec name "plugin") as [E|_]; [contradiction|]. split.
  - intros e ->. reflexivity.
  - intros stream ->. cbn [bind]. eexists. split; [reflexivity|]. intros q. exists (kws q). split; [apply kws_arguments|]. split.
    + intros st E. unfold wrapper. rewrite E. reflexivity.
    + intros e E Hne. unfold wrapper. rewrite E. cbn [bind]. destruct e; try reflexivity. congruence.
Qed.
Print Assumptions C145_file.
(** The full C145 does not hold: without a data source in the configuration the example data of ObsPy,
    obspy.read(None), are used. *)
Theorem C145_null_refuted : exists (read_data : option string -> res string) get,
  read_data None = Ok "example data" /\ (forall name, read_data (Some name) = Err OtherError) /\
  init_data (fun _ => None) (fun _ _ => Err OtherError) read_data (fun st _ => Ok st) None (JObj []) None = Ok get /\
  forall q, get q = Ok (Some "example data").
Proof. exists (fun n => match n with None => Ok "example data" | Some _ => Err OtherError end). eexists. repeat split. Qed.
Print Assumptions C145_null_refuted.
(** a client with the options {"base_url": "IRIS"} *)
Example C145_nonvacuous : exists get,
  init_data (fun n => if String.eqb n "fdsn" then Some (fun o => match o with JObj [("base_url", JStr u)] => Ok (fun kw => Ok (Some (u, match dget kw "station" with Some (VStr s) => s | _ => "" end))) | _ => Err TypeError end) else None)
    (fun _ _ => Err OtherError) (fun _ => Err OtherError) (fun st _ => Ok st) (Some (JStr "fdsn")) (JObj [("base_url", JStr "IRIS")]) None = Ok get /\
  get (mkReq "CX" "PB01" "" "BH?" 0 1) = Ok (Some ("IRIS", "PB01")).
Proof. eexists. split; reflexivity. Qed.

(** ** a case: a plugin for two stations and two events; one of the streams is not complete *)
Definition conf_c : dict json := conf_d ++ [("data", JStr "plugin"); ("plugin", JStr "module : func"); ("options", JObj [("request_window", JList [JNum (-5); JNum 20])])].
Definition loads_c (s : string) : res json := if String.eqb s "conf" then Ok (JObj conf_c) else Err ValueError.
Definition string_c (kw : dict value) (k : string) : string := match dget kw k with Some (VStr s) => s | _ => "" end.
Definition trace_c (fmt : option string) (kw : dict value) (cha : string) : wtrace :=
  mkW (mkH (string_c kw "network") (string_c kw "station") (string_c kw "location") cha 5 [] (Some [("nz", FV (VTime 0)); ("o", FV (VNum 70))]) None fmt) false.
Definition func_c (fmt : option string) (kw : dict value) : res (option (list wtrace)) :=
  Ok (Some (map (trace_c fmt kw) (if String.eqb (string_c kw "station") "PB02" && match dget kw "starttime" with Some (VTime t) => (t <? 500000000000)%Z | _ => false end
                                  then ["BHE"; "BHN"] else ["BHE"; "BHN"; "BHZ"]))).
Definition init_c (func : dict value -> res (option (list wtrace))) : option json -> json -> option json -> res (request -> res (option (list wtrace))) :=
  init_data (fun _ => None) (fun m f => if String.eqb m "module" && String.eqb f "func" then Ok func else Err OtherError) (fun _ => Err OtherError) (fun st _ => Ok st).
Lemma init_c_ok func cl : init_c func (Some (JStr "plugin")) cl (Some (JStr "module : func")) = Ok (wrapper (fun q => func (kws q))).
Proof. reflexivity. Qed.
Definition streams_c :=
  event_streams gps_e (fun _ => Ok tt) taup_e ppoint_e (fun _ => "") coords_e (list wtrace) (fun _ _ st => Ok st) (fun st => Ok st) (fun st => st) (fun _ => 1000000000%Z) (fun h => [1%Q]).
Definition program_c (clock : Z -> string) (func : dict value -> res (option (list wtrace))) (argv : list string) (fs : files) : effect (list trace) :=
  program clock (fun _ => "") key19 (fun _ _ => None) (fun _ l => Ok l) idset_e (fun s => nodup string_dec (map (fun t => channel (st t)) s))
    (fun _ _ => Ok events_p) (fun n _ => if String.eqb n "sta.xml" then Ok inv_e else Err OtherError) loads_c (fun b => Ok b)
    (init_c func) streams_c (fun _ s => twice_e s) (fun _ s => Ok s) (fun _ s => Ok s) (fun _ s => Ok s)
    (fun _ => Ok tt) (fun _ _ l => Ok l) (fun _ => None) file_d argv fs.
Definition opt_c : json := JObj [("request_window", JList [JNum (-5); JNum 20])].
Definition args_c : rs_args := mkRs None None "P" DDefault "iasp91" None None "iasp91".
Lemma answers_c : answers (list wtrace) (fun _ _ st => Ok st) (fun st => Ok st) (fun st => st) (wrapper (fun q => func_c None (kws q))).
Proof.
  intros q st a b st1 st2 H E1 E2. injection E1 as <-. injection E2 as <-.
  unfold wrapper, func_c in H.
  assert (exists c, incl c ["BHE"; "BHN"; "BHZ"] /\ NoDup c /\ st = map (trace_c None (kws q)) c) as (c & Hc & Hn & ->).
  { match type of H with context [if ?b then _ else _] => destruct b end; injection H as <-; [exists ["BHE"; "BHN"] | exists ["BHE"; "BHN"; "BHZ"]]; (split; [intros x Hx; cbn in *; tauto | split; [repeat (apply NoDup_cons; [cbn; intuition discriminate|]); apply NoDup_nil | reflexivity]]). }
  assert (map (fun t => h_cha (w_h t)) (map (trace_c None (kws q)) c) = c) as -> by (rewrite map_map; apply map_id). split; [exact Hn|].
  intros t Ht. apply in_map_iff in Ht. destruct Ht as (x & <- & Hx). apply Hc in Hx. cbn [trace_c w_h h_net h_sta h_loc h_cha].
  split; [reflexivity|]. split; [reflexivity|]. split; [reflexivity|].
  split; [|intros g Hg; discriminate Hg]. destruct Hx as [<-|[<-|[<-|[]]]]; (split; [reflexivity | repeat split]).
Qed.
Example C143_nonvacuous :
  documented opt_c args_c (Some (-5, 20)%Q) 10 /\ sets_ppoint ppoint_e /\ inventory_ok inv_e /\ one_group inv_e /\ events_ok year_e events_p /\
  (exists get, init_c (func_c None) (Some (JStr "plugin")) (JObj []) (Some (JStr "module : func")) = Ok get /\
     answers (list wtrace) (fun _ _ st => Ok st) (fun st => Ok st) (fun st => st) get) /\
  (exists ops ops2 s, program_c clock_e (func_c None) ["data"; "raw"] before_p = Did ops [] None /\
     map op_name ops = ["raw/CX.PB01./CX.PB01._1970-01-01T00:00:00.QHD"; "raw/CX.PB01./CX.PB01._1970-01-01T00:00:01.QHD"; "raw/CX.PB02./CX.PB02._1970-01-01T00:00:01.QHD"] /\
     program_c clock_e (func_c None) ["calc"; "raw"; "rf"] (do_ops before_p ops) = Did ops2 [] None /\ length ops2 = 3 /\
     fetch_e "rf" "Q" (do_ops (do_ops before_p ops) ops2) (meta (pair_e "PB02" 1000000000) "BH?") = Ok (Some s) /\ map data s = [[1 + 1]; [1 + 1]; [1 + 1]]%Q /\
     map (fun t => dget (extra (st t)) "event_time") s = [Some (VTime 1000000000); Some (VTime 1000000000); Some (VTime 1000000000)]).
Proof.
  split; [|split; [|split; [|split; [|split; [|split]]]]].
  - eexists. split; [reflexivity|]. split; [intros k v [E|[]]; injection E as <- _; cbn; tauto|]. repeat (split; [reflexivity|]). reflexivity.
  - intros m s d p s' Hn H. inversion H; subst; auto.
  - exact inv_e_ok.
  - exact inv_e_one.
  - exact (proj1 (proj2 (proj2 (proj2 C108_nonvacuous)))).
  - exists (wrapper (fun q => func_c None (kws q))). split; [apply init_c_ok | exact answers_c].
  - eexists _, _, _. split; [vm_compute; reflexivity|]. split; [vm_compute; reflexivity|]. split; [vm_compute; reflexivity|]. split; [vm_compute; reflexivity|]. split; [vm_compute; reflexivity|].
    split; reflexivity.
Qed.
(** The full C143 does not hold: if the data come from SAC files with the header o (origin time) then
    streams are stored under the time of the header, and rf calc finds none of them. *)
Definition digits_c (n : Z) : string := char_str (ascii_of_nat (48 + Z.to_nat (n / 10))) ++ char_str (ascii_of_nat (48 + Z.to_nat (n mod 10))).
Definition clock_c (t : Z) : string := "1970-01-01T00:" ++ digits_c (t / 1000000000 / 60) ++ ":" ++ digits_c (t / 1000000000 mod 60).   (* times of the first hour *)
Theorem C143_sac_refuted :
  exists ops, program_c clock_c (func_c (Some "SAC")) ["data"; "raw"] before_p = Did ops [] None /\
    map op_name ops = ["raw/CX.PB01./CX.PB01._1970-01-01T00:01:10.QHD"; "raw/CX.PB01./CX.PB01._1970-01-01T00:01:10.QHD"; "raw/CX.PB02./CX.PB02._1970-01-01T00:01:10.QHD"] /\
    program_c clock_c (func_c (Some "SAC")) ["calc"; "raw"; "rf"] (do_ops before_p ops) = Did [] [] None.
Proof. eexists. split; [vm_compute; reflexivity|]. split; [vm_compute; reflexivity|]. vm_compute. reflexivity. Qed.
Print Assumptions C143_sac_refuted.

(** The full C144 does not hold: plugins do not get the argument event which the configuration file
    documents. The documented example, which removes this argument, fails for each request, and rf data
    ends with an exception at the first station in range; without kwargs.pop('event') it delivers data. *)
Definition documented_plugin (client : dict value -> res (option (list wtrace))) (kw : dict value) : res (option (list wtrace)) :=
  match dget kw "event" with None => Err KeyError | Some _ => client (filter (fun kv => negb (String.eqb (fst kv) "event")) kw) end.
Theorem C144_event_refuted client :
  program_c clock_e (documented_plugin client) ["data"; "raw"] before_p = Did [] [] (Some AttributeError) /\
  forall get q, init_c (documented_plugin client) (Some (JStr "plugin")) (JObj []) (Some (JStr "module : func")) = Ok get -> get q = Ok None.
Proof.
  split; [vm_compute; reflexivity|]. intros get q E. rewrite init_c_ok in E. injection E as <-. reflexivity.
Qed.
Print Assumptions C144_event_refuted.
Example C144_nonvacuous : padded "module " "module" /\ padded " func" "func" /\ "module : func" = ("module " ++ ":" ++ " func")%string.
Proof.
  split; [|split; [|reflexivity]].
  - exists "", " ". split; [reflexivity|]. split; [intros c Hc; cbn in *; intuition congruence|]. split; [intros c r E; injection E as <- _; cbn; intuition discriminate|].
    intros c E. cbn in E. injection E as <-. cbn. intuition discriminate.
  - exists " ", "". split; [reflexivity|]. split; [intros c Hc; cbn in *; intuition congruence|]. split; [intros c r E; injection E as <- _; cbn; intuition discriminate|].
    intros c E. cbn in E. injection E as <-. cbn. intuition discriminate.
Qed.
