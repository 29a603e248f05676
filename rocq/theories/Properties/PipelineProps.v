(** C131-C133: rf data as a whole, and several calls one after the other. *)
From Verif Require Import Model.Dispatch Spec.EventSpec Spec.BatchSpec Spec.OnceSpec Spec.FigureSpec Spec.MeanSpec Spec.TraceSpec Spec.StackSpec Spec.ConfigSpec Spec.DispatchSpec Spec.PipelineSpec Proofs.PyFacts Proofs.ConfigFacts Proofs.CliFacts
  Proofs.BatchFacts Proofs.BatchRead Proofs.BatchLoop Proofs.OnceFacts Proofs.FigureFacts Proofs.StackCmdFacts Proofs.StackArchiveFacts Proofs.PlotArchiveFacts Proofs.ConvertFacts
  Properties.ConfigProps Properties.CliProps Properties.ConvertProps Properties.BatchProps Properties.OnceProps Properties.FigureProps Properties.EventProps Properties.StackCmdProps Properties.StackArchiveProps Properties.PlotArchiveProps
  Properties.DispatchProps Spec.CliSpec Proofs.DispatchFacts.
Notation length := List.length.

Lemma keys_nodup year h5key rs : keys_differ year h5key -> Forall (good year) rs -> different rs -> NoDup (map h5key (flat_map snd rs)).
Proof.
  intros Hk2 Hg2 Hd2. induction rs as [|[q o] rs IH]; [constructor|]. inversion Hg2 as [|? ? (Q & T & _ & N & L) Hg']; subst. inversion Hd2 as [|? ? Hx Hd']; subst.
  cbn [flat_map snd fst] in *. rewrite map_app. apply NoDup_app_intro; [|apply IH; assumption|].
  - clear - T N L Q Hk2. induction o as [|t o IH]; [constructor|]. inversion T as [|? ? T1 T2]; inversion N as [|? ? N1 N2]; inversion L as [|? ? L1 L2]; subst. cbn [map] in *. constructor; [|apply IH; assumption].
    intros Hin. apply in_map_iff in Hin. destruct Hin as (u & Eu & Hu). apply N1. rewrite Forall_forall in T2, L2.
    destruct (Hk2 q q u t Q Q (T2 u Hu) T1 (L2 u Hu) L1 Eu) as [_ E]. rewrite <- E. apply (in_map (fun t => channel (st t)) o u Hu).
  - intros k H1 H2. apply in_map_iff in H1. destruct H1 as (t & <- & Ht). apply in_map_iff in H2. destruct H2 as (u & Eu & Hu). apply in_flat_map in Hu. destruct Hu as (r & Hr & Hu).
    rewrite Forall_forall in Hx, Hg', T, L. apply (Hx r Hr). destruct (Hg' r Hr) as (Q2 & T2 & _ & _ & L2). rewrite Forall_forall in T2, L2.
    apply (Hk2 q (fst r) t u Q Q2 (T t Ht) (T2 u Hu) (L t Ht) (L2 u Hu)). symmetry. exact Eu.
Qed.
Lemma Forall2_perm {A B} (R : A -> B -> Prop) l1 l2 l2' : Forall2 R l1 l2 -> Permutation l2 l2' -> exists l1', Permutation l1 l1' /\ Forall2 R l1' l2'.
Proof.
  intros H P. revert l1 H. induction P as [|y l l' P IH|y z l|a b c P1 IH1 P2 IH2]; intros l1 H.
  - inversion H; subst. exists []. split; constructor.
  - inversion H as [|x ? k ? Hx Hk]; subst. destruct (IH k Hk) as (k' & Pk & Fk). exists (x :: k'). split; [constructor; exact Pk | constructor; assumption].
  - inversion H as [|x ? k ? Hx Hk]; subst. inversion Hk as [|x' ? k' ? Hx' Hk']; subst. exists (x' :: x :: k'). split; [apply perm_swap | repeat constructor; assumption].
  - destruct (IH1 l1 H) as (m & Pm & Fm). destruct (IH2 m Fm) as (n & Pn & Fn). exists n. split; [exact (perm_trans Pm Pn) | exact Fn].
Qed.
Lemma Forall2_In_r {A B} (R : A -> B -> Prop) l1 l2 y : Forall2 R l1 l2 -> In y l2 -> exists x, In x l1 /\ R x y.
Proof. induction 1 as [|a b l l' H F IH]; intros Hin; [destruct Hin|]. destruct Hin as [->|Hin]; [exists a; cbn; auto|]. destruct (IH Hin) as (x & H1 & H2). exists x. cbn. auto. Qed.
Lemma different_nodup items : different items -> NoDup items.
Proof.
  induction 1 as [|x l Hx H IH]; constructor; [|exact IH]. intros Hin. rewrite Forall_forall in Hx. apply (Hx x Hin). repeat split.
Qed.
Lemma commands_process (rf moveout : list trace -> res (list trace)) cmds : (forall c, In c cmds -> c = "calc" \/ c = "moveout") ->
  forall s out, process_commands rf moveout cmds s = Ok out <-> apply_all (fun c => if String.eqb c "calc" then rf else moveout) cmds s out.
Proof.
  induction cmds as [|x l0 IH]; intros Hx s out.
  - cbn. split; [intros H; injection H as <-; reflexivity | intros ->; reflexivity].
  - unfold process_commands. cbn [foldM apply_all]. assert ((x =? "data")%string = false /\ ((x =? "calc")%string = false -> (x =? "moveout")%string = true)) as [X1 X2]
      by (destruct (Hx x (or_introl eq_refl)) as [->| ->]; (split; [reflexivity|]); intros H; first [reflexivity | discriminate H]). rewrite X1.
    specialize (fun s => IH (fun y Hy => Hx y (or_intror Hy)) s out). unfold process_commands in IH.
    destruct (x =? "calc")%string; [|rewrite X2 by reflexivity].
    * destruct (rf s) as [s1|] eqn:Es; cbn [bind]; [|split; [discriminate | intros (s' & H & _); discriminate]]. rewrite IH. split; [intros H; exists s1; auto | intros (s' & H & H'); injection H as <-; exact H'].
    * destruct (moveout s) as [s1|] eqn:Es; cbn [bind]; [|split; [discriminate | intros (s' & H & _); discriminate]]. rewrite IH. split; [intros H; exists s1; auto | intros (s' & H & H'); injection H as <-; exact H'].
Qed.

Lemma unrelated_apart a b fs fs' : apart a b -> unrelated a fs -> (forall n, ~ inside b n -> dget fs' n = dget fs n) -> unrelated a fs'.
Proof.
  intros Ha Hu Hn n f Hin. assert (~ inside b n -> exists g, In (n, g) fs) as Hx.
  { intros Hi. specialize (Hn n Hi). assert (dget fs' n <> None) as Hd by (unfold dget; rewrite aget_None_notin by exact String.eqb_eq; intros H; apply H; apply in_map_iff; exists (n, f); auto).
    rewrite Hn in Hd. destruct (dget fs n) as [g|] eqn:E; [|congruence]. exists g. apply (aget_Some_in _ String.eqb_eq), E. }
  split.
  - intros s E. destruct Hx as [g Hg]; [|exact (proj1 (Hu n g Hg) s E)]. intros Hi. apply (inside_apart a b n (la s) Ha Hi). rewrite E, !la_app. reflexivity.
  - intros ->. destruct Hx as [g Hg]; [exact (inside_h5 a b Ha)|]. exact (proj2 (Hu _ g Hg) eq_refl).
Qed.

Section Pipeline.
  Context {D W B : Type}.
  Variable fmt_time : Z -> string.
  Variable str_of : value -> string.
  Variable h5key : trace -> string.
  Variable writer : string -> list trace -> option exn.
  Variable load : string -> list trace -> res (list trace).
  Variable id_set channel_set : list trace -> list string.
  Variable read_events : string -> option string -> res (list event).
  Variable read_inventory : string -> option string -> res (list string).
  Variable loads : string -> res json.
  Variable linspace : json -> res json.
  Variable init : option json -> json -> option json -> res W.
  Variable data_streams : json -> W -> list event -> list string -> list (list trace) * option exn.
  Variable rf moveout : json -> list trace -> res (list trace).
  Variable plot_rf plot_profile : json -> list trace -> res D.
  Variable get_boxes : json -> res B.
  Variable profile : json -> B -> list trace -> res (list trace).
  Variable show : dict json -> option exn.
  Notation program := (program fmt_time str_of h5key writer load id_set channel_set read_events read_inventory loads linspace init data_streams rf moveout plot_rf plot_profile get_boxes profile show).
  Notation write := (write fmt_time str_of h5key writer).
  Notation stored := (stored fmt_time).

  (** without an error of the writer every good stream is written *)
  Lemma write_total year root fmt ps : (forall f l, writer f l = None) -> In fmt ["Q"; "SAC"; "H5"] -> good year ps -> exists ops, write (snd ps) root fmt TRf = (ops, None).
  Proof.
    intros Hw Hf (_ & Ht & Hne & _). unfold Batch.write. destruct (snd ps) as [|t s] eqn:Es; [congruence|]. clear Hne.
    assert (forall f u, In f ["Q"; "SAC"; "H5"] -> In u (t :: s) -> exists n, trace_fname fmt_time str_of TRf f root u = Ok n) as Hn.
    { intros f u Hf' Hu. rewrite Forall_forall in Ht. destruct (Ht u Hu) as (_ & _ & _ & e & E & _). cbn [trace_fname]. change (tr_get u "event_time") with (dget (extra (st u)) "event_time"). rewrite E.
      cbn [format_time]. destruct Hf' as [<-|[<-|[<-|[]]]]; eexists; reflexivity. }
    assert (upper fmt = fmt) as -> by (destruct Hf as [<-|[<-|[<-|[]]]]; reflexivity).
    destruct (Hn fmt t Hf (or_introl eq_refl)) as [n ->]. rewrite !Hw.
    destruct (fmt =? "H5")%string; [eauto|]. destruct (fmt =? "Q")%string; [eauto|]. destruct (fmt =? "SAC")%string; [|eauto].
    assert (forall l, (forall u, In u l -> In u (t :: s)) -> exists ops, write_sac fmt_time str_of writer TRf root l = (ops, None)) as H; [|apply H; auto].
    induction l as [|u l IH]; intros Hl; [eexists; reflexivity|]. cbn [write_sac]. destruct (Hn "SAC" u) as [m ->]; [cbn; tauto | apply Hl; left; reflexivity|]. rewrite Hw.
    destruct IH as [o ->]; [intros v Hv; apply Hl; right; exact Hv | eexists; reflexivity].
  Qed.
  Lemma loop_elsewhere {I} (get : files -> I -> res (option (list trace))) process root fmt ty items fin fs0 fs ops e :
    run_loop fmt_time str_of h5key writer get process root fmt ty items fin fs0 = (ops, e) -> forall n, ~ inside root n -> dget (do_ops fs ops) n = dget fs n.
  Proof.
    intros H n Hn. pose proof (loop_inside fmt_time str_of h5key writer get process root fmt ty items fin fs0 ops e H) as Hi. apply do_ops_other. intros o Ho <-. rewrite Forall_forall in Hi. exact (Hn (Hi o Ho)).
  Qed.
  (** the loop over streams which are not read from files *)
  Lemma data_loop process root fmt items : forall fin fs ops,
    run_loop fmt_time str_of h5key writer (fun _ s => Ok (Some s)) process root fmt TRf (map snd items) fin fs = (ops, None) ->
    fin = None /\ exists (rs : list (spair * list trace)) opss, ops = List.concat opss /\ Forall2 (fun r o => write (snd r) root fmt TRf = (o, None)) rs opss /\
      Forall2 (fun x r : spair * list trace => fst r = fst x /\ process (snd x) = Ok (snd r)) items rs.
  Proof.
    induction items as [|x items IH]; intros fin fs ops H; cbn [map run_loop] in H.
    - injection H as <- ->. split; [reflexivity|]. exists [], []. repeat split; constructor.
    - destruct (process (snd x)) as [out|] eqn:Ep; [|discriminate]. destruct (write out root fmt TRf) as [o1 [e|]] eqn:Ew; [discriminate|].
      destruct (run_loop _ _ _ _ _ _ _ _ _ _ _ _) as [o2 e2] eqn:Er in H. injection H as <- ->. destruct (IH _ _ _ Er) as (E1 & rs & opss & -> & E2 & E3).
      split; [exact E1|]. exists ((fst x, out) :: rs), (o1 :: opss). split; [reflexivity|]. split; constructor; auto.
  Qed.
  Lemma data_loop_total year process root fmt items : (forall f l, writer f l = None) -> In fmt ["Q"; "SAC"; "H5"] ->
    (forall p s, In (p, s) items -> exists out, process s = Ok out /\ good year (p, out)) ->
    forall fin fs, snd (run_loop fmt_time str_of h5key writer (fun _ s => Ok (Some s)) process root fmt TRf (map snd items) fin fs) = fin.
  Proof.
    intros Hw Hf. induction items as [|[p s] items IH]; intros Hp fin fs; cbn [map run_loop snd]; [reflexivity|].
    destruct (Hp p s (or_introl eq_refl)) as (out & -> & Hg). destruct (write_total year root fmt (p, out) Hw Hf Hg) as [ops E]. cbn [snd] in E. rewrite E.
    specialize (IH (fun q u Hu => Hp q u (or_intror Hu)) fin (do_ops fs ops)). destruct (run_loop _ _ _ _ _ _ _ _ _ _ _ _). exact IH.
  Qed.

  (** * C131: rf data *)
  (** rf [options] data [calc] [moveout] OUT. If the call succeeds then OUT contains what the commands
      make of the streams of the iteration, one for each event and station. The call succeeds if
      the streams can be processed and written. *)
  Theorem C131_data_partial file l d conf cmds pout inv invf ev evf fmt year before channels events w :
    options l d -> plain pout -> configured loads file d conf -> options_ok loads linspace (setting d conf) ->
    (forall c, In c cmds -> c = "calc" \/ c = "moveout") ->
    names_file (setting d conf "events") ev evf -> read_events ev evf = Ok events ->
    names_file (setting d conf "inventory") inv invf -> read_inventory inv invf = Ok channels ->
    format_is (setting d conf "format") fmt -> In fmt ["Q"; "SAC"; "H5"] -> is_value loads (setting d conf "rf") (JObj []) w ->
    clock fmt_time year -> no_wild pout -> unrelated pout before -> (fmt = "H5" -> keys_differ year h5key) ->
    exists mw opt cl, moveout_options loads (setting d conf) mw /\ data_options loads (setting d conf) opt /\ is_value loads (setting d conf "client_options") (JObj []) cl /\
    (forall x, init (setting d conf "data") cl (setting d conf "plugin") = Err x -> program file (l ++ "data" :: cmds ++ [pout]) before = Nothing) /\
    (forall wf items fin, init (setting d conf "data") cl (setting d conf "plugin") = Ok wf -> data_streams opt wf events channels = (map snd items, fin) ->
       let f := fun c => if String.eqb c "calc" then rf w else moveout mw in
       different items -> (forall p s out, In (p, s) items -> apply_all f cmds s out -> good year (p, out)) ->
       exists ops e, program file (l ++ "data" :: cmds ++ [pout]) before = Did ops [] e /\ (forall n, ~ inside pout n -> dget (do_ops before ops) n = dget before n) /\
         (e = None -> fin = None /\ exists results, Forall2 (after_commands f cmds) items results /\ stored year str_of h5key writer pout fmt results (do_ops before ops)) /\
         ((forall f l, writer f l = None) -> (forall p s, In (p, s) items -> exists out, apply_all f cmds s out) -> e = fin)).
  Proof.
    intros Ho Po Hcf Hok Hcm Hev Re Hi Ri Hfm Hf Hw Hc Hpw Hu Hk.
    pose proof (data_args cmds pout Hcm) as Hp.
    assert (Forall plain (cmds ++ [pout])) as Hpl.
    { apply Forall_app. split; [|repeat constructor; exact Po]. apply Forall_forall. intros c Hin. destruct (Hcm c Hin) as [->| ->]; reflexivity. }
    destruct (program_call fmt_time str_of h5key writer load id_set channel_set read_events read_inventory loads linspace init data_streams rf moveout plot_rf plot_profile get_boxes profile show
      file l d "data" (cmds ++ [pout]) _ conf before Ho Hp Hpl) as (args & kw & Ha & Ek & E); try assumption; try discriminate.
    set (a := [("commands", JList (map JStr cmds)); ("path_out", JStr pout)]) in *.
    assert (forall k, dget a k = None -> k <> "conf" -> dget args k = setting d conf k) as Hs by (intros k H1 H2; rewrite Ha; apply setting_value; assumption).
    destruct (C63_options loads linspace args kw Ek) as (o & m & _ & _ & Hoo & Hm & _ & _ & Hopt & Ho1 & Ho2 & Hm1 & Hm2 & _).
    rewrite Hs in Hm, Hm1, Hm2, Hoo, Ho1, Ho2 by (reflexivity || discriminate).
    destruct (Hopt "rf") as (w' & Hw' & Ew); [cbn; tauto|]. rewrite Hs in Hw' by (reflexivity || discriminate). rewrite (is_value_fun _ _ _ _ _ Hw' Hw) in Ew.
    destruct (Hopt "client_options") as (cl & Hcl & Ecl); [cbn; tauto|]. rewrite Hs in Hcl by (reflexivity || discriminate).
    exists (option_of kw "moveout"), (option_of kw "options"), cl.
    split. { exists m. split; [exact Hm|]. split; [intros H; unfold option_of; rewrite (Hm1 H); reflexivity|]. intros p H. destruct (Hm2 p H) as (m' & E' & H'). unfold option_of. rewrite E'. exact H'. }
    split. { exists o. split; [exact Hoo|]. split; [intros H; unfold option_of; rewrite (Ho1 H); reflexivity|]. intros p H. destruct (Ho2 p H) as (m' & E' & H'). unfold option_of. rewrite E'. exact H'. }
    split; [exact Hcl|]. rewrite E. clear E.
    unfold input. change (inb "data" ["stack"; "plot"]) with false. cbv iota. unfold load_input.
    rewrite (events_names _ _ ev evf), Re by (rewrite Hs by (reflexivity || discriminate); exact Hev).
    rewrite (inventory_names _ _ inv invf), Ri by (rewrite Hs by (reflexivity || discriminate); exact Hi). cbn [bind].
    unfold perform. cbn [String.eqb Ascii.eqb Bool.eqb]. rewrite (format_value (dget args "format") fmt) by (rewrite Hs by (reflexivity || discriminate); exact Hfm).
    assert (path_arg (dget args "path_out") = pout) as -> by (rewrite Ha; reflexivity).
    assert (option_of kw "rf" = w) as -> by (unfold option_of; rewrite Ew; reflexivity). set (mw := option_of kw "moveout").
    assert (option_of kw "client_options" = cl) as -> by (unfold option_of; rewrite Ecl; reflexivity). set (opt := option_of kw "options").
    rewrite (Hs "data"), (Hs "plugin") by (reflexivity || discriminate).
    assert (commands_arg (dget args "commands") = Ok cmds) as -> by (rewrite Ha; unfold value_of, a; cbn [dget aget String.eqb Ascii.eqb Bool.eqb commands_arg]; rewrite map_map, map_id; reflexivity).
    split; [intros x ->; reflexivity|]. intros wf items fin -> Eds. rewrite Eds. cbv zeta. set (f := fun c => if String.eqb c "calc" then rf w else moveout mw). intros Hd Hgood.
    assert (forall s out, process_commands (rf w) (moveout mw) ("data" :: cmds) s = Ok out <-> apply_all f cmds s out) as Hpr by (intros s out; exact (commands_process (rf w) (moveout mw) cmds Hcm s out)).
    destruct (run_loop _ _ _ _ _ _ _ _ _ _ _ _) as [ops e] eqn:Er. exists ops, e. split; [reflexivity|]. split; [exact (loop_elsewhere _ _ _ _ _ _ _ _ _ _ _ Er)|]. split.
    - intros ->. destruct (data_loop _ _ _ _ _ _ _ Er) as (Ef & rs & opss & -> & E2 & E3). split; [exact Ef|]. exists rs.
      assert (Forall2 (after_commands f cmds) items rs) as HF.
      { eapply Forall2_impl; [|exact E3]. intros x r [H1 H2]. split; [exact H1 | apply Hpr, H2]. }
      split; [exact HF|].
      assert (Forall (good year) rs) as Hg2.
      { apply Forall_forall. intros [q out] Hr. destruct (F2_in_r _ _ _ _ HF Hr) as ([p s] & Hx & E & H). cbn [fst snd] in *. subst q. exact (Hgood p s out Hx H). }
      assert (different rs) as Hd2.
      { refine (FOP_Forall2 _ _ _ _ rs _ Hd HF). intros x y u v H [Ea _] [Eb _]. rewrite Ea, Eb. exact H. }
      split; [exact Hc|]. split; [exact Hpw|]. split; [exact Hf|]. split; [exact Hg2|]. split; [exact Hd2|]. split; [intros H; apply (keys_nodup year); auto|].
      exists before, opss. auto.
    - intros Hwr Hall. pose proof (data_loop_total year (process_commands (rf w) (moveout mw) ("data" :: cmds)) pout fmt items Hwr Hf) as H. specialize (fun H' => H H' fin before). rewrite Er in H. apply H.
      intros p s Hin. destruct (Hall p s Hin) as [out Hout]. exists out. split; [apply Hpr, Hout | exact (Hgood p s out Hin Hout)].
  Qed.
  (** the loop over stored streams does not fail *)
  Lemma fetch_loop_total year (Hc : clock fmt_time year) pin root fmt fmt2 fs streams process : no_wild pin -> pin <> root -> In fmt ["Q"; "SAC"; "H5"] -> In fmt2 ["Q"; "SAC"; "H5"] ->
    Forall (good year) streams -> different streams -> (forall p cha, proper year p -> found load streams fmt (pairb p) (fetch fmt_time load pin fmt fs (meta p cha))) ->
    (forall l, exists s, load fmt l = Ok s) -> (forall f l, writer f l = None) ->
    forall ps, (forall y, In y ps -> proper year (fst y)) ->
    (forall p s l s', In (p, s) streams -> (exists y, In y ps /\ same_pair (fst y) p) -> Permutation l s -> load fmt l = Ok s' -> exists out, process s' = Ok out /\ good year (p, out)) ->
    forall done, Forall (fun o => mine root (op_name o)) done ->
    snd (run_loop fmt_time str_of h5key writer (fetch fmt_time load pin fmt) process root fmt2 TRf (map (fun y => meta (fst y) (snd y)) ps) None (do_ops fs done)) = None.
  Proof.
    intros Hpin Hne Hf Hf2 Hg Hd Hread Hload Hwr. induction ps as [|y ps IH]; intros Hps Hproc dn Hdn; [reflexivity|]. cbn [map run_loop].
    rewrite (unchanged fmt_time year Hc writer load pin root fmt fs Hpin Hne Hf dn (fst y) (snd y) Hdn (Hps y (or_introl eq_refl))).
    specialize (IH (fun z Hz => Hps z (or_intror Hz))). assert (forall p s l s', In (p, s) streams -> (exists y, In y ps /\ same_pair (fst y) p) -> Permutation l s -> load fmt l = Ok s' -> exists out, process s' = Ok out /\ good year (p, out)) as Hproc'.
    { intros p s l s' H1 (z & Hz & H2). apply (Hproc p s l s' H1). exists z. split; [right; exact Hz | exact H2]. }
    destruct (Hread (fst y) (snd y) (Hps y (or_introl eq_refl))) as (l & P & E). rewrite E. unfold traces_of in *.
    destruct (filter_pair (fst y) streams Hd) as [Hn|[x Hx]].
    - rewrite Hn in *. cbn [flat_map app] in *. apply IH; assumption.
    - rewrite Hx in *. cbn [flat_map] in *. rewrite app_nil_r in *.
      assert (In x streams /\ pairb (fst y) (fst x) = true) as [Hin Hpx] by (apply (filter_In (fun z => pairb (fst y) (fst z))); rewrite Hx; left; reflexivity).
      destruct (proj1 (Forall_forall _ _) Hg x Hin) as (_ & _ & Hnx & _). destruct (Hload l) as [s' Hs']. destruct (snd x) as [|t ts] eqn:Es; [congruence|].
      rewrite Hs'. cbn [read_result]. destruct (Hproc (fst x) (snd x) l s') as (out & -> & Hgo); [destruct x; exact Hin | exists y; split; [left; reflexivity | apply pairb_spec, Hpx] | rewrite Es; exact P | exact Hs'|].
      destruct (write_total year root fmt2 (fst x, out) Hwr Hf2 Hgo) as [o1 Ew]. cbn [snd] in Ew. rewrite Ew.
      pose proof (write_mine fmt_time year Hc str_of h5key writer load root fmt2 (fst x, out) o1 Hf2 Hgo Ew) as Hm.
      specialize (IH Hproc' (dn ++ o1)). rewrite do_ops_app in IH. destruct (run_loop _ _ _ _ _ _ _ _ _ _ _ _). apply IH. apply Forall_app. split; assumption.
  Qed.

  (** * C132: archives for the next command *)
  (** rf [options] calc IN OUT, rf calc moveout IN OUT, rf moveout IN OUT, rf convert IN OUT FORMAT: if the
      call succeeds then OUT is an archive of the results for the requested events and stations, in
      the given format. It succeeds if the streams can be processed and written. *)
  Theorem C132_archive_partial file l d conf pin pout c cmds inv invf ev evf fmt newfmt year streams before channels events w :
    let argv := if String.eqb c "convert" then l ++ ["convert"; pin; pout; newfmt] else l ++ c :: (cmds ++ [pin; pout]) in
    let todo := if String.eqb c "convert" then [] else c :: cmds in
    options l d -> plain pin -> plain pout -> plain newfmt -> configured loads file d conf -> options_ok loads linspace (setting d conf) ->
    ((c = "calc" /\ (cmds = [] \/ cmds = ["moveout"]) /\ newfmt = fmt) \/ (c = "moveout" /\ cmds = [] /\ newfmt = fmt) \/ (c = "convert" /\ cmds = [])) ->
    (c = "moveout" -> match setting d conf "commands" with None | Some (JList []) => True | _ => False end) ->
    names_file (setting d conf "events") ev evf -> read_events ev evf = Ok events ->
    names_file (setting d conf "inventory") inv invf -> read_inventory inv invf = Ok channels -> format_is (setting d conf "format") fmt -> In newfmt ["Q"; "SAC"; "H5"] ->
    is_value loads (setting d conf "rf") (JObj []) w ->
    stored year str_of h5key writer pin fmt streams before ->
    (forall l, exists s, load fmt l = Ok s) -> inventory_ok channels -> one_group channels -> events_ok year events -> no_wild pout -> pin <> pout -> unrelated pout before ->
    (newfmt = "H5" -> keys_differ year h5key) ->
    exists mw, moveout_options loads (setting d conf) mw /\
    let f := fun c => if String.eqb c "calc" then rf w else moveout mw in
    ((forall x r, In x streams -> reread f (load fmt) todo x r -> good year r) ->
     exists ops e, program file argv before = Did ops [] e /\ (forall n, ~ inside pout n -> dget (do_ops before ops) n = dget before n) /\
       (e = None -> exists order results, NoDup order /\ (forall x, In x order <-> In x streams /\ requested events channels (fst x)) /\
          Forall2 (reread f (load fmt) todo) order results /\ stored year str_of h5key writer pout newfmt results (do_ops before ops)) /\
       ((forall f l, writer f l = None) -> (forall p s l s', In (p, s) streams -> requested events channels p -> Permutation l s -> load fmt l = Ok s' -> exists out, apply_all f todo s' out) -> e = None)).
  Proof.
    intros argv todo Ho Pi Po Pn Hcf Hok Hcmd Hmc Hev Re Hi Ri Hfm Hnf Hw (Hc & Hpw & Hf & Hg & Hd & Hk & fs0 & opss & Hu & HW & ->) Hl Hinv Hone Hevs Hpo Hne Hu2 Hk2.
    set (before := do_ops fs0 (List.concat opss)) in *.
    destruct (calc_call fmt_time str_of h5key writer load id_set channel_set read_events read_inventory loads linspace init data_streams rf moveout plot_rf plot_profile get_boxes profile show
      file l d conf pin pout c cmds inv invf ev evf fmt newfmt before channels events w Ho Pi Po Pn Hcf Hok Hcmd Hmc Hev Re Hi Ri Hfm Hw) as (mw & process & Hmw & Hpr & EP).
    exists mw. split; [exact Hmw|]. fold argv in EP. fold todo in Hpr. intros f Hgood. fold f in Hpr.
    destruct (metas_pairs year events channels Hinv Hone Hevs) as (ps & Em & Hpp & Hpd & Hrq). rewrite Em in EP.
    destruct (run_loop _ _ _ _ _ process _ _ _ _ _ _) as [ops e] eqn:Er. exists ops, e. split; [exact EP|]. split; [exact (loop_elsewhere _ _ _ _ _ _ _ _ _ _ _ Er)|].
    assert (forall p cha, proper year p -> found load streams fmt (pairb p) (fetch fmt_time load pin fmt before (meta p cha))) as Hread.
    { intros q ch Hq. exact (proj1 (fetch_eq fmt_time year Hc str_of h5key writer load pin Hpw fs0 Hu streams Hg Hd fmt before q ch opss Hf Hk HW eq_refl Hq)). }
    assert (forall p s l s' out, In (p, s) streams -> Permutation l s -> load fmt l = Ok s' -> process s' = Ok out -> good year (p, out)) as Hproc.
    { intros p s l0 s' out Hin P L Pr. apply (Hgood (p, s) (p, out) Hin). split; [reflexivity|]. exists l0, s'. cbn [snd]. apply Hpr in Pr. auto. }
    assert (forall x, In x streams -> (requested events channels (fst x) <-> exists y, In y ps /\ same_pair (fst y) (fst x))) as Hreq.
    { intros x Hx. destruct (proj1 (Forall_forall _ _) Hg x Hx) as ((K1 & K2 & K3 & _) & _). symmetry. apply (Hrq (fst x) K1 K2 K3). }
    split.
    - intros ->. destruct (loop_results fmt_time year Hc str_of h5key writer load pin pout fmt newfmt before streams process Hpw Hne Hf Hnf Hg Hd Hread Hl Hproc ps Hpp [] ops (Forall_nil _) Er)
        as (rs & opss2 & -> & Hw2 & Hfrom & Hmine).
      exists (visited streams ps), rs. split; [apply visited_NoDup; [apply streams_NoDup, Hd | exact Hpd]|]. split.
      { intros x. rewrite visited_in. split; intros [Hx H]; (split; [exact Hx|]); apply (Hreq x Hx); exact H. }
      assert (Forall2 (reread f (load fmt) todo) (visited streams ps) rs) as HF.
      { eapply Forall2_impl; [|exact Hfrom]. intros x r (H1 & l0 & s' & P & L & Pr). split; [exact H1|]. exists l0, s'. apply Hpr in Pr. auto. }
      split; [exact HF|].
      assert (different rs) as Hd2.
      { refine (FOP_Forall2 _ _ _ _ rs _ (visited_FOP streams ps Hd Hpd) Hfrom). intros x y u v H [Ea _] [Eb _]. rewrite Ea, Eb. exact H. }
      assert (Forall (good year) rs) as Hg2.
      { apply Forall_forall. intros r Hr. destruct (F2_in_r _ _ _ _ HF Hr) as (x & Hx & H). apply visited_in in Hx. exact (Hgood x r (proj1 Hx) H). }
      split; [exact Hc|]. split; [exact Hpo|]. split; [exact Hnf|]. split; [exact Hg2|]. split; [exact Hd2|]. split; [intros H; apply (keys_nodup year); auto|].
      exists before, opss2. auto.
    - intros Hwr Hall. pose proof (fetch_loop_total year Hc pin pout fmt newfmt before streams process Hpw Hne Hf Hnf Hg Hd Hread Hl Hwr ps Hpp) as H.
      specialize (fun H' => H H' [] (Forall_nil _)). change (do_ops before []) with before in H. rewrite Er in H. apply H.
      intros p s l0 s' Hin Hy P L. destruct (Hall p s l0 s' Hin) as [out Hout]; [apply (Hreq (p, s) Hin), Hy | exact P | exact L|].
      exists out. apply Hpr in Hout. split; [exact Hout|]. exact (Hproc p s l0 s' out Hin P L Hout).
  Qed.
  (** * C133: several calls *)
  (** rf data RAW; rf calc RAW RF (or calc moveout, moveout); rf stack RF OUT, with one configuration:
      all calls succeed, and OUT holds for each channel of each station the mean of the results of
      all events, and nothing else. *)
  Theorem C133_pipeline_partial rd file l d conf cmds0 raw rfs out c cmds inv invf ev evf fmt year before channels events w items :
    options l d -> plain raw -> plain rfs -> plain out -> configured loads file d conf -> options_ok loads linspace (setting d conf) ->
    (forall c, In c cmds0 -> c = "calc" \/ c = "moveout") -> (c = "calc" /\ (cmds = [] \/ cmds = ["moveout"])) \/ (c = "moveout" /\ cmds = []) ->
    (c = "moveout" -> match setting d conf "commands" with None | Some (JList []) => True | _ => False end) ->
    names_file (setting d conf "events") ev evf -> read_events ev evf = Ok events ->
    names_file (setting d conf "inventory") inv invf -> read_inventory inv invf = Ok channels ->
    format_is (setting d conf "format") fmt -> In fmt ["Q"; "SAC"; "H5"] -> is_value loads (setting d conf "rf") (JObj []) w ->
    clock fmt_time year -> (exists t, year t) -> no_wild raw -> no_wild rfs -> no_wild out -> apart raw rfs -> apart raw out -> apart rfs out ->
    unrelated raw before -> unrelated rfs before -> unrelated out before ->
    (fmt = "H5" -> keys_differ year h5key) -> (forall t u, h5key t = h5key u -> tr_id t = tr_id u) -> id_sets id_set ->
    (forall f l, writer f l = None) -> reads (load fmt) rd -> inventory_ok channels -> one_group channels -> events_ok year events ->
    (forall opt cl, data_options loads (setting d conf) opt -> is_value loads (setting d conf "client_options") (JObj []) cl ->
       exists wf, init (setting d conf "data") cl (setting d conf "plugin") = Ok wf /\ data_streams opt wf events channels = (map snd items, None)) ->
    different items -> (forall x, In x items -> requested events channels (fst x)) ->
    let f mw := fun c => if String.eqb c "calc" then rf w else moveout mw in
    let ready mw := moveout_options loads (setting d conf) mw in
    (forall mw x, ready mw -> In x items -> exists s, apply_all (f mw) cmds0 (snd x) s) ->
    (forall mw x r, ready mw -> In x items -> after_commands (f mw) cmds0 x r -> good year r) ->
    (forall mw1 mw2 x s l, ready mw1 -> ready mw2 -> In x items -> apply_all (f mw1) cmds0 (snd x) s -> Permutation l s -> exists o, apply_all (f mw2) (c :: cmds) (map rd l) o) ->
    (forall mw1 mw2 x r, ready mw1 -> ready mw2 -> In x items -> after_both rd (f mw1) (f mw2) cmds0 (c :: cmds) x r ->
       good year r /\ forall t, In t (snd r) -> channel_ok (channel (st t)) /\ onset_is_time (rd t)) ->
    (forall mw1 mw2 x y r q t u, ready mw1 -> ready mw2 -> In x items -> In y items -> same_station (fst x) (fst y) ->
       after_both rd (f mw1) (f mw2) cmds0 (c :: cmds) x r -> after_both rd (f mw1) (f mw2) cmds0 (c :: cmds) y q ->
       In t (snd r) -> In u (snd q) -> channel (st t) = channel (st u) -> length (data (rd t)) = length (data (rd u))) ->
    exists mw1 mw2 ops1 ops2 ops3 order results, ready mw1 /\ ready mw2 /\
      let fs1 := do_ops before ops1 in let fs2 := do_ops fs1 ops2 in let fs3 := do_ops fs2 ops3 in
      program file (l ++ "data" :: cmds0 ++ [raw]) before = Did ops1 [] None /\
      program file (l ++ c :: cmds ++ [raw; rfs]) fs1 = Did ops2 [] None /\
      program file (l ++ ["stack"; rfs; out]) fs2 = Did ops3 [] None /\
      Permutation order items /\ Forall2 (after_both rd (f mw1) (f mw2) cmds0 (c :: cmds)) order results /\
      (forall p s t, In (p, s) results -> In t (of_station p results) ->
         exists r, holds fs3 (stack_file fmt out p (channel (st t))) r /\ stack_of p (channel (st t)) (map rd (of_station p results)) r) /\
      (forall n r, (exists s, n = (out ++ "/" ++ s)%string) \/ n = (out ++ ".h5")%string -> holds fs3 n r ->
         exists p t, In t (of_station p results) /\ n = stack_file fmt out p (channel (st t)) /\ stack_of p (channel (st t)) (map rd (of_station p results)) r) /\
      (forall n g, ~ inside raw n -> ~ inside rfs n -> dget before n = Some g -> dget fs3 n = Some g).
  Proof.
    intros Ho P1 P2 P3 Hcf Hok Hcm0 Hcmd Hmc Hev Re Hi Ri Hfm Hf Hw Hc Hy W1 W2 W3 A12 A13 A23 U1 U2 U3 Hk Hid Hset Hwr [Hl Hcd] Hinv Hone Hevs Hin Hd Hrq f ready T1 G1 T2 G2 Hlen.
    assert (plain fmt) as Pf by (cbn in Hf; destruct Hf as [<-|[<-|[<-|[]]]]; reflexivity).
    destruct (C131_data_partial file l d conf cmds0 raw inv invf ev evf fmt year before channels events w Ho P1 Hcf Hok Hcm0 Hev Re Hi Ri Hfm Hf Hw Hc W1 U1 Hk) as (mw1 & opt & cl & Hmw1 & Hopt & Hcl & _ & Hrun1).
    destruct (Hin opt cl Hopt Hcl) as (wf & Ei & Es).
    destruct (Hrun1 wf items None Ei Es Hd) as (ops1 & e1 & E1 & O1 & S1 & D1).
    { intros p s o Hx Ha. apply (G1 mw1 (p, s) (p, o) Hmw1 Hx). split; [reflexivity | exact Ha]. }
    rewrite (D1 Hwr) in E1, S1 by (intros p s Hx; exact (T1 mw1 (p, s) Hmw1 Hx)).
    destruct (S1 eq_refl) as (_ & res1 & F1 & St1). set (fs1 := do_ops before ops1) in *.
    assert (forall r, In r res1 -> exists x, In x items /\ after_commands (f mw1) cmds0 x r) as R1 by (intros r Hr; exact (Forall2_In_r _ _ _ r F1 Hr)).
    assert (raw <> rfs) as Hne by (intros ->; destruct A12 as [H _]; congruence).
    assert (apart rfs raw) as A21 by (destruct A12 as (H1 & H2 & H3); repeat split; auto).
    assert (apart out raw) as A31 by (destruct A13 as (H1 & H2 & H3); repeat split; auto).
    assert (apart out rfs) as A32 by (destruct A23 as (H1 & H2 & H3); repeat split; auto).
    assert (unrelated rfs fs1) as U2' by exact (unrelated_apart rfs raw before fs1 A21 U2 O1).
    assert (String.eqb c "convert" = false) as Ec by (destruct Hcmd as [[-> _]|[-> _]]; reflexivity).
    destruct (C132_archive_partial file l d conf raw rfs c cmds inv invf ev evf fmt fmt year res1 fs1 channels events w Ho P1 P2 Pf Hcf Hok) as (mw2 & Hmw2 & Hrun2); try assumption.
    { destruct Hcmd as [[-> H]|[-> H]]; [left | right; left]; repeat split; assumption. }
    { intros l0. eexists. apply Hl. }
    rewrite Ec in Hrun2. cbv iota in Hrun2.
    assert (forall x r, In x res1 -> reread (fun c => if String.eqb c "calc" then rf w else moveout mw2) (load fmt) (c :: cmds) x r ->
      exists x0, In x0 items /\ after_commands (f mw1) cmds0 x0 x /\ after_both rd (f mw1) (f mw2) cmds0 (c :: cmds) x0 r) as R2.
    { intros x r Hx [Hr1 (l0 & s & Hp & Hls & Ha)]. destruct (R1 x Hx) as (x0 & Hx0 & Hac). exists x0. split; [exact Hx0|]. split; [exact Hac|]. destruct Hac as [H1 H2].
      rewrite Hl in Hls. injection Hls as <-. split; [congruence|]. exists (snd x), l0. auto. }
    destruct Hrun2 as (ops2 & e2 & E2 & O2 & S2 & D2).
    { intros x r Hx Hr. destruct (R2 x r Hx Hr) as (x0 & Hx0 & _ & Hab). exact (proj1 (G2 mw1 mw2 x0 r Hmw1 Hmw2 Hx0 Hab)). }
    assert (e2 = None) as Ee2.
    { apply (D2 Hwr). intros p s l0 s' Hx _ Hp Hls. rewrite Hl in Hls. injection Hls as <-. destruct (R1 _ Hx) as (x0 & Hx0 & Hac). exact (T2 mw1 mw2 x0 s l0 Hmw1 Hmw2 Hx0 (proj2 Hac) Hp). }
    rewrite Ee2 in E2, S2.
    destruct (S2 eq_refl) as (order1 & results & Nd & Hor & F2 & St2). set (fs2 := do_ops fs1 ops2) in *.
    assert (Permutation res1 order1) as Po.
    { apply NoDup_Permutation; [|exact Nd|].
      - apply different_nodup. destruct St1 as (_ & _ & _ & _ & H & _). exact H.
      - intros x. rewrite Hor. split; [|tauto]. intros Hx. split; [exact Hx|]. destruct (R1 x Hx) as (x0 & Hx0 & [-> _]). exact (Hrq x0 Hx0). }
    destruct (Forall2_perm _ _ _ _ F1 Po) as (order & Pi & F1').
    assert (Forall2 (after_both rd (f mw1) (f mw2) cmds0 (c :: cmds)) order results) as F.
    { clear - F1' F2 Hl. revert results F2. induction F1' as [|x y k k' [H1 H2] _ IH]; intros results F2; inversion F2 as [|? r ? rs [H3 (l0 & s & Hp & Hls & Ha)] F]; subst; constructor; [|apply IH; exact F].
      rewrite Hl in Hls. injection Hls as <-. split; [congruence|]. exists (snd y), l0. auto. }
    assert (forall r, In r results -> exists x, In x items /\ after_both rd (f mw1) (f mw2) cmds0 (c :: cmds) x r) as R.
    { intros r Hr. destruct (Forall2_In_r _ _ _ r F Hr) as (x & Hx & Ha). exists x. split; [exact (Permutation_in _ (Permutation_sym Pi) Hx) | exact Ha]. }
    assert (forall p t, In t (of_station p results) -> exists r, In r results /\ same_station p (fst r) /\ In t (snd r)) as Hof.
    { intros p t Ht. apply in_flat_map in Ht. destruct Ht as (r & Hr & Ht). apply filter_In in Hr. destruct Hr as [Hr E]. apply andb_prop in E. destruct E as [E E3]. apply andb_prop in E. destruct E as [E4 E5].
      apply String.eqb_eq in E3, E4, E5. exists r. repeat split; assumption. }
    assert (unrelated out fs2) as U3'.
    { apply (unrelated_apart out rfs fs1 fs2 A32); [|exact O2]. exact (unrelated_apart out raw before fs1 A31 U3 O1). }
    assert (apart rfs out) as A23' by exact A23.
    destruct (C128_stack_partial fmt_time str_of h5key writer load id_set channel_set read_events read_inventory loads linspace init data_streams rf moveout plot_rf plot_profile get_boxes profile show
      rd file l d conf rfs out inv invf fmt year results fs2 channels Ho P2 P3 Hcf Hok Hi Ri Hfm St2 Hy Hwr (conj Hl Hcd) Hset Hid Hinv Hone) as (ops3 & E3 & H1 & H2 & H3); try assumption.
    { intros p s t Hr Ht. destruct (R _ Hr) as (x & Hx & Ha). exact (proj1 (proj2 (G2 mw1 mw2 x _ Hmw1 Hmw2 Hx Ha) t Ht)). }
    { intros p s Hr. split; [|split].
      - destruct (R _ Hr) as (x & Hx & Ha). destruct (G2 mw1 mw2 x _ Hmw1 Hmw2 Hx Ha) as [(_ & _ & Hs & _) _]. cbn [snd] in Hs. intros E. apply map_eq_nil in E. apply Hs. destruct s as [|t s]; [reflexivity|exfalso].
        assert (In t (of_station p results)) as Hin2; [|rewrite E in Hin2; destruct Hin2].
        apply in_flat_map. exists (p, t :: s). split; [apply filter_In; split; [exact Hr | cbn [fst]; rewrite !String.eqb_refl; reflexivity] | left; reflexivity].
      - apply Forall_forall. intros t' Ht'. apply in_map_iff in Ht'. destruct Ht' as (t & <- & Ht). destruct (Hof p t Ht) as (r & Hr' & _ & Ht'). destruct (R r Hr') as (x & Hx & Ha). exact (proj2 (proj2 (G2 mw1 mw2 x r Hmw1 Hmw2 Hx Ha) t Ht')).
      - intros t' u' Ht' Hu' Hch. apply in_map_iff in Ht', Hu'. destruct Ht' as (t & <- & Ht). destruct Hu' as (u & <- & Hu0).
        destruct (Hcd t) as (_ & _ & _ & Ct). destruct (Hcd u) as (_ & _ & _ & Cu). rewrite Ct, Cu in Hch. destruct (Hof p t Ht) as (r & Hr' & S & Ht'). destruct (Hof p u Hu0) as (q & Hq & S' & Hu1). destruct (R r Hr') as (x & Hx & Ha). destruct (R q Hq) as (y & Hy0 & Hb).
        apply (Hlen mw1 mw2 x y r q t u); try assumption. destruct Ha as [<- _], Hb as [<- _]. destruct S as (? & ? & ?), S' as (? & ? & ?). repeat split; congruence. }
    assert (forall p t, In t (of_station p results) -> exists cha, in_inventory channels (p_net p) (p_sta p) (p_loc p) cha) as Hinp.
    { intros p t Ht. destruct (Hof p t Ht) as (r & Hr & (-> & -> & ->) & _). destruct (R r Hr) as (x & Hx & [-> _]). exact (proj2 (Hrq x Hx)). }
    exists mw1, mw2, ops1, ops2, ops3, order, results. split; [exact Hmw1|]. split; [exact Hmw2|]. cbv zeta. fold fs1. fold fs2.
    split; [exact E1|]. split; [exact E2|]. split; [exact E3|]. split; [exact (Permutation_sym Pi)|]. split; [exact F|]. split; [|split].
    - intros p s t Hr Ht. apply (H1 p s t Hr). split; [exact Ht | exact (Hinp p t Ht)].
    - intros n r Hn Hh. destruct (H2 n r Hh) as [Hb|(p & t & [Ht _] & En & Hs)]; [exfalso|exists p, t; auto].
      destruct Hb as (g & k & Eg & _). apply (aget_Some_in _ String.eqb_eq) in Eg. destruct (U3' n g Eg) as [N1 N2]. destruct Hn as [[s Hn]|Hn]; [exact (N1 s Hn) | exact (N2 Hn)].
    - intros n g N1 N2 Hg. apply H3. rewrite (O2 n N2), (O1 n N1). exact Hg.
  Qed.
End Pipeline.
Print Assumptions C131_data_partial.
Print Assumptions C132_archive_partial.
Print Assumptions C133_pipeline_partial.

(** ** a case: two stations and two events *)
Definition program_p (events : list event) (items : list (spair * list trace)) (argv : list string) (fs : files) : effect (list trace) :=
  program clock_e (fun _ => "") key19 (fun _ _ => None) (fun _ l => Ok l) idset_e (fun s => nodup string_dec (map (fun t => channel (st t)) s))
    (fun _ _ => Ok events) (fun n _ => if String.eqb n "sta.xml" then Ok inv_e else Err OtherError) loads_d (fun b => Ok b)
    (fun _ _ _ => Ok tt) (fun _ _ _ _ => (map snd items, None)) (fun _ s => twice_e s) (fun _ s => Ok s) (fun _ s => Ok s) (fun _ s => Ok s)
    (fun _ => Ok tt) (fun _ _ l => Ok l) (fun _ => None) file_d argv fs.
Definition events_p : list event := [event_e 40 7; event_e 60 1000000000].
Definition before_p : files := [("conf.json", [])].
Definition f_p (mw : json) (c : string) (s : list trace) : res (list trace) := if String.eqb c "calc" then twice_e s else Ok s.
Lemma good_twice sta t x s : code sta -> year_e t -> Permutation s (stream_e (pair_e sta t) x) -> forall o, twice_e s = Ok o -> good year_e (pair_e sta t, o).
Proof.
  intros Hs Ht Hp o E. injection E as <-. destruct (good_e sta t x Hs Ht) as (G1 & G2 & G3 & G4 & G5). cbn [fst snd] in *. split; [exact G1|]. split; [|split; [|split]]; cbn [fst snd].
  - apply Forall_map. apply Forall_forall. intros u Hu. rewrite Forall_forall in G2. exact (G2 u (Permutation_in _ Hp Hu)).
  - destruct s; [|discriminate]. apply Permutation_nil in Hp. discriminate.
  - rewrite map_map. cbn [st]. refine (Permutation_NoDup _ G4). apply Permutation_map, Permutation_sym, Hp.
  - apply Forall_map. apply Forall_forall. intros u Hu. rewrite Forall_forall in G5. exact (G5 u (Permutation_in _ Hp Hu)).
Qed.
Lemma item_p x : In x streams_e -> exists sta t y, code sta /\ year_e t /\ x = (pair_e sta t, stream_e (pair_e sta t) y) /\ (sta = "PB01" \/ sta = "PB02") /\ (sec t = 0 \/ sec t = 1)%Z.
Proof.
  intros [<-|[<-|[<-|[]]]]; eexists _, _, _; (split; [|split; [|split; [reflexivity|]]]); try (repeat split); try (unfold year_e; lia); cbn; auto.
Qed.
Lemma configured_p : configured loads_d file_d [] conf_d /\ options_ok loads_d (fun b => Ok b) (setting [] conf_d).
Proof.
  split.
  - right. split; [cbn; intuition discriminate|]. exists "conf# my configuration". split; [reflexivity|]. split; [reflexivity|]. intros k v Hin. cbn in Hin. repeat (destruct Hin as [E|Hin]; [injection E as <- _; cbn; tauto|]). destruct Hin.
  - split; [|exists JNull; split; [reflexivity | left; reflexivity]]. intros k Hk. cbn in Hk. repeat (destruct Hk as [<-|Hk]; [eexists; reflexivity|]). destruct Hk.
Qed.
(** rf data raw; rf calc raw rf; rf stack rf stk: the hypotheses hold, and the stacks are the means of the doubled values *)
Example C133_nonvacuous :
  (exists ops1 ops2 ops3 results order,
     program_p events_p streams_e ["data"; "raw"] before_p = Did ops1 [] None /\
     program_p events_p streams_e ["calc"; "raw"; "rf"] (do_ops before_p ops1) = Did ops2 [] None /\
     program_p events_p streams_e ["stack"; "rf"; "stk"] (do_ops (do_ops before_p ops1) ops2) = Did ops3 [] None /\
     Permutation order streams_e /\ Forall2 (after_both (fun t => t) (f_p (JObj [])) (f_p (JObj [])) [] ["calc"]) order results /\
     forall p s t, In (p, s) results -> In t (of_station p results) ->
       exists r, holds (do_ops (do_ops (do_ops before_p ops1) ops2) ops3) (stack_file "Q" "stk" p (channel (st t))) r /\ stack_of p (channel (st t)) (map (fun t => t) (of_station p results)) r) /\
  (exists ops1 ops2 ops3 r u, program_p events_p streams_e ["data"; "raw"] before_p = Did ops1 [] None /\ length ops1 = 3 /\
     program_p events_p streams_e ["calc"; "raw"; "rf"] (do_ops before_p ops1) = Did ops2 [] None /\
     program_p events_p streams_e ["stack"; "rf"; "stk"] (do_ops (do_ops before_p ops1) ops2) = Did ops3 [] None /\
     dget (do_ops (do_ops (do_ops before_p ops1) ops2) ops3) "stk/CX.PB01..QHD" = Some [("", r); ("", u)] /\ Forall2 Qeq (data r) [11 # 1]%Q).
Proof.
  split.
  - assert (forall mw, moveout_options loads_d (setting [] conf_d) mw -> mw = JObj []) as Hm.
    { intros mw (m & H1 & H2 & _). rewrite H2 by (left; reflexivity). cbn in H1. exact H1. }
    destruct (configured_p) as [Hcf Hok].
    pose proof (C133_pipeline_partial clock_e (fun _ => "") key19 (fun _ _ => None) (fun _ l => Ok l) idset_e (fun s => nodup string_dec (map (fun t => channel (st t)) s))
      (fun _ _ => Ok events_p) (fun n _ => if String.eqb n "sta.xml" then Ok inv_e else Err OtherError) loads_d (fun b => Ok b)
      (fun _ _ _ => Ok tt) (fun _ _ _ _ => (map snd streams_e, None)) (fun _ s => twice_e s) (fun _ s => Ok s) (fun _ s => Ok s) (fun _ s => Ok s)
      (fun _ => Ok tt) (fun _ _ l => Ok l) (fun _ => None) (fun t => t) file_d [] [] conf_d [] "raw" "rf" "stk" "calc" [] "sta.xml" (Some "STATIONXML") "ev.xml" None "Q" year_e before_p inv_e events_p
      (JObj [("deconvolve", JStr "time")]) streams_e) as H. cbv zeta in H.
    assert (forall a b, a <> b -> (forall s, a <> (b ++ "/" ++ s)%string) -> (forall s, b <> (a ++ "/" ++ s)%string) -> apart a b) as Hap by (intros; repeat split; assumption).
    assert (forall r, In r ["raw"; "rf"; "stk"] -> unrelated r before_p) as Hun.
    { intros r Hr n g [E|[]]. injection E as <- _. destruct Hr as [<-|[<-|[<-|[]]]]; (split; [intros s E; discriminate E | discriminate]). }
    assert (forall mw1 mw2 x r, In x streams_e -> after_both (fun t => t) (f_p mw1) (f_p mw2) [] ["calc"] x r ->
      fst r = fst x /\ good year_e r /\ forall t, In t (snd r) -> channel_ok (channel (st t)) /\ onset_is_time t /\ length (data t) = 1) as Hab.
    { intros mw1 mw2 x r Hx [E1 (s & l0 & -> & Hp & (o & Eo & Eo'))]. destruct (item_p x Hx) as (sta & t & y & C & Y & -> & _). destruct r as [p o']. cbn [fst snd apply_all] in *. subst p o'. rewrite map_id in Eo.
      split; [reflexivity|]. split; [exact (good_twice sta t y l0 C Y Hp o Eo)|]. intros u Hu. cbn in Eo. injection Eo as <-. apply in_map_iff in Hu. destruct Hu as (v & <- & Hv).
      apply (Permutation_in _ Hp) in Hv. destruct Hv as [<-|[<-|[]]]; (split; [repeat split | split; [intros w H0; discriminate H0 | reflexivity]]). }
    destruct H as (mw1 & mw2 & ops1 & ops2 & ops3 & order & results & Hm1 & Hm2 & H1 & H2 & H3 & H4 & H5 & H6 & _); try reflexivity; try assumption.
    { constructor. }
    { intros c []. }
    { left. split; [reflexivity | left; reflexivity]. }
    { left. reflexivity. }
    { left. reflexivity. }
    { left. reflexivity. }
    { exact clock_e_ok. }
    { exists 5%Z. unfold year_e. lia. }
    { repeat split. }
    { repeat split. }
    { repeat split. }
    { apply Hap; [discriminate| |]; intros s E; discriminate E. }
    { apply Hap; [discriminate| |]; intros s E; discriminate E. }
    { apply Hap; [discriminate| |]; intros s E; discriminate E. }
    { apply Hun. cbn. tauto. }
    { apply Hun. cbn. tauto. }
    { apply Hun. cbn. tauto. }
    { discriminate. }
    { exact key19_id. }
    { exact idset_e_ok. }
    { split; [intros l0; rewrite map_id; reflexivity | intros t; repeat split]. }
    { exact inv_e_ok. }
    { exact inv_e_one. }
    { exact (proj1 (proj2 (proj2 (proj2 C108_nonvacuous)))). }
    { intros opt cl _ _. exists tt. split; reflexivity. }
    { repeat constructor; intros [(H1 & H2 & H3) H4]; cbn in *; try discriminate; vm_compute in H4; discriminate. }
    { intros x Hx. split.
      - destruct Hx as [<-|[<-|[<-|[]]]]; [exists (event_e 40 7), 7%Z | exists (event_e 60 1000000000), 1000000000%Z | exists (event_e 40 7), 7%Z]; (split; [cbn; tauto|]); split; reflexivity.
      - exists "BHZ". destruct Hx as [<-|[<-|[<-|[]]]]; (split; [discriminate|]; split; [reflexivity|]; vm_compute; tauto). }
    { intros mw x _ _. exists (snd x). reflexivity. }
    { intros mw x [p o] _ Hx [E1 E2]. destruct (item_p x Hx) as (sta & t & y & C & Y & -> & _). cbn [fst snd apply_all] in *. subst p o. exact (good_e sta t y C Y). }
    { intros m1 m2 x s l0 _ _ _ _ _. eexists. cbn. rewrite map_id. exists (map (fun t => mkTrace (st t) (map (fun x => x + x)%Q (data t))) l0). split; reflexivity. }
    { intros m1 m2 x r _ _ Hx Hr. destruct (Hab m1 m2 x r Hx Hr) as (_ & G & T). split; [exact G|]. intros t Ht. destruct (T t Ht) as (T1 & T2 & _). auto. }
    { intros m1 m2 x y r q t u _ _ Hx Hy _ Hr Hq Ht Hu _. destruct (Hab m1 m2 x r Hx Hr) as (_ & _ & T). destruct (Hab m1 m2 y q Hy Hq) as (_ & _ & T').
      destruct (T t Ht) as (_ & _ & ->), (T' u Hu) as (_ & _ & ->). reflexivity. }
    exists ops1, ops2, ops3, results, order. apply Hm in Hm1, Hm2. subst mw1 mw2. auto 10.
  - eexists _, _, _, _, _. split; [vm_compute; reflexivity|]. split; [reflexivity|]. split; [vm_compute; reflexivity|]. split; [vm_compute; reflexivity|]. split; [vm_compute; reflexivity|]. repeat constructor.
Qed.
(** rf data calc raw *)
Example C131_nonvacuous :
  different streams_e /\
  exists ops s, program_p events_p streams_e ["data"; "calc"; "raw"] before_p = Did ops [] None /\ length ops = 3 /\
    fetch_e "raw" "Q" (do_ops before_p ops) (meta (pair_e "PB02" 5) "BH?") = Ok (Some s) /\ map data s = [[20 + 20]; [21 + 21]]%Q.
Proof.
  split; [repeat constructor; intros [(H1 & H2 & H3) H4]; cbn in *; try discriminate; vm_compute in H4; discriminate|].
  eexists _, _. split; [vm_compute; reflexivity|]. split; [reflexivity|]. split; [vm_compute; reflexivity|]. reflexivity.
Qed.
(** The full C131 does not hold: streams of two events in the same second end up in one file, and
    with Q a second run of rf data adds all traces again. *)
Theorem C131_same_second_refuted :
  exists ops s, let items := [(pair_e "PB01" 5, stream_e (pair_e "PB01" 5) 1); (pair_e "PB01" 6, stream_e (pair_e "PB01" 6) 10)] in
    program_p events_p items ["data"; "raw"] [] = Did ops [] None /\ map fst (do_ops [] ops) = ["raw/CX.PB01./CX.PB01._1970-01-01T00:00:00.QHD"] /\
    fetch_e "raw" "Q" (do_ops [] ops) (meta (pair_e "PB01" 5) "BH?") = Ok (Some s) /\ map data s = [[1]; [1 + 1]; [10]; [10 + 1]]%Q.
Proof. eexists _, _. cbv zeta. split; [vm_compute; reflexivity|]. split; [reflexivity|]. split; [vm_compute; reflexivity|]. reflexivity. Qed.
Theorem C131_again_refuted :
  exists ops1 ops2 s, let fs1 := do_ops [] ops1 in
    program_p events_p streams_e ["data"; "raw"] [] = Did ops1 [] None /\ program_p events_p streams_e ["data"; "raw"] fs1 = Did ops2 [] None /\
    fetch_e "raw" "Q" (do_ops fs1 ops2) (meta (pair_e "PB02" 5) "BH?") = Ok (Some s) /\ map data s = [[20]; [20 + 1]; [20]; [20 + 1]]%Q.
Proof. eexists _, _, _. cbv zeta. split; [vm_compute; reflexivity|]. split; [vm_compute; reflexivity|]. split; [vm_compute; reflexivity|]. reflexivity. Qed.
Print Assumptions C131_again_refuted.
Print Assumptions C131_same_second_refuted.
(** rf calc moveout in out and back again *)
Example C132_nonvacuous :
  stored clock_e year_e (fun _ => "") key19 (fun _ _ => None) "in" "Q" streams_e (in_arch "Q") /\
  exists ops1 ops2 s, program_p events_p [] ["calc"; "moveout"; "in"; "out"] (in_arch "Q") = Did ops1 [] None /\
    program_p events_p [] ["calc"; "out"; "out2"] (do_ops (in_arch "Q") ops1) = Did ops2 [] None /\
    fetch_e "out2" "Q" (do_ops (do_ops (in_arch "Q") ops1) ops2) (meta (pair_e "PB01" 1000000000) "BH?") = Ok (Some s) /\
    map data s = [[10 + 10 + (10 + 10)]; [10 + 1 + (10 + 1) + (10 + 1 + (10 + 1))]]%Q.
Proof.
  split; [apply stored_d; cbn; tauto|]. eexists _, _, _. split; [vm_compute; reflexivity|]. split; [vm_compute; reflexivity|]. split; [vm_compute; reflexivity|]. reflexivity.
Qed.
(** The full C132 and C133 do not hold: if the output path has been used before, results of events
    which are no longer in the catalogue stay in the archive, and rf stack uses them. *)
Theorem C133_stale_refuted :
  exists ops1 ops2 ops3 ops4 r u, let fs1 := do_ops (in_arch "Q") ops1 in let fs2 := do_ops fs1 ops2 in
    program_p [event_e 60 1000000000] [] ["moveout"; "in"; "rf"] (in_arch "Q") = Did ops1 [] None /\
    program_p [event_e 40 7] [] ["calc"; "in"; "rf"] fs1 = Did ops2 [] None /\
    program_p [event_e 40 7] [] ["stack"; "rf"; "stk"] fs2 = Did ops3 [] None /\
    dget (do_ops fs2 ops3) "stk/CX.PB01..QHD" = Some [("", r); ("", u)] /\ Forall2 Qeq (data r) [6 # 1]%Q /\
    program_p [event_e 40 7] [] ["calc"; "in"; "rf2"] fs1 = Did ops4 [] None /\
    exists ops5 r' u', program_p [event_e 40 7] [] ["stack"; "rf2"; "stk"] (do_ops fs1 ops4) = Did ops5 [] None /\
      dget (do_ops (do_ops fs1 ops4) ops5) "stk/CX.PB01..QHD" = Some [("", r'); ("", u')] /\ Forall2 Qeq (data r') [2 # 1]%Q.
Proof.
  eexists _, _, _, _, _, _. cbv zeta. split; [vm_compute; reflexivity|]. split; [vm_compute; reflexivity|]. split; [vm_compute; reflexivity|]. split; [vm_compute; reflexivity|]. split; [repeat constructor|].
  split; [vm_compute; reflexivity|]. eexists _, _, _. split; [vm_compute; reflexivity|]. split; [vm_compute; reflexivity|]. repeat constructor.
Qed.
Print Assumptions C133_stale_refuted.
