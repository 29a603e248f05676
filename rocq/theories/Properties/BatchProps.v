(** C60-C62, C87: files, commands and interrupted runs in batch mode. *)
From Verif Require Import Model.Batch Spec.BatchSpec Proofs.PyFacts Proofs.BatchFacts Proofs.BatchRead Proofs.BatchLoop Properties.EventProps.
Notation length := List.length.

(** * C60 *)
(** Two traces get the same file name exactly if station, second of the event and (SAC) channel
    are the same. *)
Theorem C60_names fmt_time year str_of root p q t u :
  clock fmt_time year -> proper year p -> proper year q -> trace_of p t -> trace_of q u ->
  three_letters (channel (st t)) -> three_letters (channel (st u)) ->
  exists nq mq ns ms : string,
    trace_fname fmt_time str_of TRf "Q" root t = Ok nq /\ trace_fname fmt_time str_of TRf "Q" root u = Ok mq /\ (nq = mq <-> same_pair p q) /\
    trace_fname fmt_time str_of TRf "SAC" root t = Ok ns /\ trace_fname fmt_time str_of TRf "SAC" root u = Ok ms /\
    (ns = ms <-> same_pair p q /\ channel (st t) = channel (st u)).
Proof.
  intros Hc Hp Hq Ht Hu Lt Lu.
  exists (qname fmt_time root p), (qname fmt_time root q), (sname fmt_time root p (channel (st t))), (sname fmt_time root q (channel (st u))).
  split; [apply (trace_qname _ year Hc), Ht|]. split; [apply (trace_qname _ year Hc), Hu|]. split; [apply (qname_inj fmt_time year Hc (fun _ _ => None) (fun _ l => Ok l)); assumption|].
  split; [apply (trace_sname _ year Hc), Ht|]. split; [apply (trace_sname _ year Hc), Hu|]. apply (sname_inj fmt_time year Hc (fun _ _ => None) (fun _ l => Ok l)); assumption.
Qed.
Print Assumptions C60_names.

(** Streams of different station-event pairs are written; afterwards exactly the traces of a pair
    are read for this pair, nothing for other pairs, and all traces of a station for this
    station. *)
Theorem C60_read_back_partial fmt_time year str_of h5key writer load root fs0 streams opss fmt p cha :
  clock fmt_time year -> no_wild root -> unrelated root fs0 ->
  Forall (good year) streams -> ForallOrdPairs (fun a b => ~ same_pair (fst a) (fst b)) streams ->
  In fmt ["Q"; "SAC"; "H5"] -> (fmt = "H5" -> NoDup (map h5key (flat_map snd streams))) ->
  Forall2 (fun ps ops => write fmt_time str_of h5key writer (snd ps) root fmt TRf = (ops, None)) streams opss ->
  proper year p ->
  let fs := do_ops fs0 (List.concat opss) in
  (forall s, In (p, s) streams -> exists l, Permutation l s /\ fetch fmt_time load root fmt fs (meta p cha) = read_result (load fmt l)) /\
  ((forall q s, In (q, s) streams -> ~ same_pair p q) -> fetch fmt_time load root fmt fs (meta p cha) = Ok None) /\
  (forall q s, In (q, s) streams -> same_station p q ->
     exists l, Permutation l (of_station p streams) /\ fetch fmt_time load root fmt fs (station_meta p cha) = read_result (load fmt l)) /\
  ((forall q s, In (q, s) streams -> ~ same_station p q) -> fetch fmt_time load root fmt fs (station_meta p cha) = Ok None).
Proof.
  intros Hc Hr Hu Hg Hd Hf Hk Hw Hp fs.
  destruct (fetch_eq fmt_time year Hc str_of h5key writer load root Hr fs0 Hu streams Hg Hd fmt fs p cha opss Hf Hk Hw eq_refl Hp) as [(l1 & P1 & E1) (l2 & P2 & E2)].
  split; [|split; [|split]].
  - intros s Hin. assert (traces_of streams (pairb p) = s) as T by (apply (traces_pair writer load root); assumption). rewrite T in *.
    exists l1. split; [exact P1|]. rewrite E1. destruct s; [|reflexivity]. exfalso.
    rewrite Forall_forall in Hg. destruct (Hg _ Hin) as (_ & _ & Hne & _). apply Hne. reflexivity.
  - intros Hn. assert (traces_of streams (pairb p) = []) as T.
    { apply traces_none. intros q s Hin. destruct (pairb p q) eqn:E; [|reflexivity]. exfalso. apply (Hn q s Hin), pairb_spec, E. }
    rewrite E1, T. reflexivity.
  - intros q s Hin Hs. exists l2. change (of_station p streams) with (traces_of streams (stationb p)). split; [exact P2|]. rewrite E2.
    destruct (traces_of streams (stationb p)) eqn:T; [|reflexivity]. exfalso.
    apply (traces_nil year streams Hg) in T.
    assert (In (q, s) (filter (fun ps => stationb p (fst ps)) streams)) as Hi by (apply filter_In; split; [exact Hin | apply stationb_spec, Hs]).
    rewrite T in Hi. destruct Hi.
  - intros Hn. assert (traces_of streams (stationb p) = []) as T.
    { apply traces_none. intros q s Hin. destruct (stationb p q) eqn:E; [|reflexivity]. exfalso. apply (Hn q s Hin), stationb_spec, E. }
    rewrite E2, T. reflexivity.
Qed.
Print Assumptions C60_read_back_partial.

(** a case *)
Definition clock_e (t : Z) : string := if (t / 1000000000 =? 0)%Z then "1970-01-01T00:00:00" else "1970-01-01T00:00:01".
Definition year_e (t : Z) : Prop := (0 <= t < 2000000000)%Z.
Lemma clock_e_ok : clock clock_e year_e.
Proof.
  split.
  - intros t. unfold clock_e. destruct (_ =? _)%Z; repeat split.
  - intros t t'. split; [intros H; unfold clock_e; rewrite H; reflexivity|]. intros Ht Ht'. unfold clock_e, year_e in *.
    assert (0 <= t / 1000000000 < 2)%Z by (split; [apply Z.div_pos; lia | apply Z.div_lt_upper_bound; lia]).
    assert (0 <= t' / 1000000000 < 2)%Z by (split; [apply Z.div_pos; lia | apply Z.div_lt_upper_bound; lia]).
    destruct (Z.eqb_spec (t / 1000000000) 0), (Z.eqb_spec (t' / 1000000000) 0); intros; try discriminate; lia.
Qed.
Definition pair_e (sta : string) (t : Z) : spair := mkPair "CX" sta "" t.
Definition tr_e (p : spair) (cha : string) (x : Q) : trace :=
  mkTrace (mkStats (p_net p) (p_sta p) (p_loc p) cha 0 100000000 [("event_time", VTime (p_time p))]) [x].
Definition stream_e (p : spair) (x : Q) : list trace := [tr_e p "BHQ" x; tr_e p "BHL" (x + 1)].
Definition streams_e : list (spair * list trace) :=
  [(pair_e "PB01" 5, stream_e (pair_e "PB01" 5) 1); (pair_e "PB01" 1000000007, stream_e (pair_e "PB01" 1000000007) 10); (pair_e "PB02" 5, stream_e (pair_e "PB02" 5) 20)].
Definition key_e (t : trace) : string :=
  (station (st t) ++ channel (st t) ++ match dget (extra (st t)) "event_time" with Some (VTime z) => clock_e z | _ => "" end)%string.
Definition write_e := write clock_e (fun _ => "") key_e (fun _ _ => None).
Definition fetch_e := fetch clock_e (fun _ l => Ok l).
Lemma good_e sta t x : code sta -> year_e t -> good year_e (pair_e sta t, stream_e (pair_e sta t) x).
Proof.
  intros Hs Ht. unfold good. cbn [fst snd]. split; [|split; [|split; [discriminate|]]].
  - unfold proper, pair_e. cbn. split; [repeat split|]. split; [exact Hs|]. split; [repeat split | exact Ht].
  - repeat (constructor; [repeat split; eexists; split; reflexivity|]). constructor.
  - unfold channels_ok. cbn. split; [|repeat constructor]. constructor; [intros [H|[]]; discriminate H|]. constructor; [intros []|constructor].
Qed.
Example C60_nonvacuous :
  clock clock_e year_e /\ no_wild "out" /\ unrelated "out" [("conf.json", []); ("data/x.QHD", [])] /\
  Forall (good year_e) streams_e /\ ForallOrdPairs (fun a b => ~ same_pair (fst a) (fst b)) streams_e /\
  NoDup (map key_e (flat_map snd streams_e)) /\
  (forall fmt, In fmt ["Q"; "SAC"; "H5"] -> exists opss, Forall2 (fun ps ops => write_e (snd ps) "out" fmt TRf = (ops, None)) streams_e opss /\
     exists l, fetch_e "out" fmt (do_ops [("conf.json", []); ("data/x.QHD", [])] (List.concat opss)) (meta (pair_e "PB01" 999999999) "???") = Ok (Some l) /\
       Permutation l (stream_e (pair_e "PB01" 5) 1)).
Proof.
  split; [exact clock_e_ok|]. split; [split; reflexivity|]. split.
  { intros n f [E|[E|[]]]; inversion E; subst; split; try discriminate; intros s H; discriminate H. }
  split. { repeat (constructor; [apply good_e; [repeat split | unfold year_e; lia]|]). constructor. }
  split. { repeat constructor; intros [(H1 & H2 & H3) H4]; cbn in *; try discriminate; vm_compute in H4; discriminate. }
  split.
  { assert (map key_e (flat_map snd streams_e) = ["PB01BHQ1970-01-01T00:00:00"; "PB01BHL1970-01-01T00:00:00"; "PB01BHQ1970-01-01T00:00:01"; "PB01BHL1970-01-01T00:00:01"; "PB02BHQ1970-01-01T00:00:00"; "PB02BHL1970-01-01T00:00:00"]) as -> by reflexivity.
    repeat (constructor; [cbn; intuition discriminate|]). constructor. }
  intros fmt [<-|[<-|[<-|[]]]].
  - eexists. split; [repeat (constructor; [reflexivity|]); constructor|]. eexists. split; [vm_compute; reflexivity|]. reflexivity.
  - eexists. split; [repeat (constructor; [reflexivity|]); constructor|]. eexists. split; [vm_compute; reflexivity|]. apply perm_swap.
  - eexists. split; [repeat (constructor; [reflexivity|]); constructor|]. eexists. split; [vm_compute; reflexivity|]. reflexivity.
Qed.

(** The full C60 does not hold: the format may be given in lower case for writing, but reading
    with this format ends with a KeyError. *)
Theorem C60_lower_case_refuted :
  exists opss, Forall2 (fun ps ops => write_e (snd ps) "out" "sac" TRf = (ops, None)) streams_e opss /\ List.concat opss <> [] /\
    forall fs p cha, fetch_e "out" "sac" fs (meta p cha) = Err KeyError.
Proof.
  eexists. split; [repeat (constructor; [reflexivity|]); constructor|]. split; [discriminate|]. intros. reflexivity.
Qed.
Print Assumptions C60_lower_case_refuted.

(** * C61 *)
(** The commands after calc are calc or moveout. With moveout twice there is an error and no file
    is written. *)
Theorem C61_moveout_twice_partial fmt_time str_of h5key writer I (get : files -> I -> res (option (list trace))) rf moveout commands root fmt items fin fs :
  (2 <= count_occ string_dec commands "moveout")%nat -> Forall (fun c => c = "calc" \/ c = "moveout") commands ->
  run_processing fmt_time str_of h5key writer get rf moveout "calc" commands root fmt items fin fs = ([], Some ParseError).
Proof.
  intros H HF. unfold run_processing, check_commands. change (("calc" =? "calc")%string) with true. cbv iota.
  destruct commands as [|a [|b [|c commands]]].
  - cbn in H. lia.
  - exfalso. change (count_occ string_dec [a] "moveout") with (if string_dec a "moveout" then 1 else 0) in H. destruct (string_dec a "moveout"); lia.
  - assert (a = "moveout" /\ b = "moveout") as [-> ->].
    { change (count_occ string_dec [a; b] "moveout") with (if string_dec a "moveout" then S (if string_dec b "moveout" then 1 else 0) else (if string_dec b "moveout" then 1 else 0)) in H.
      destruct (string_dec a "moveout"), (string_dec b "moveout"); try lia. auto. }
    reflexivity.
  - reflexivity.
Qed.
Print Assumptions C61_moveout_twice_partial.
(** The full C61 does not hold: calc twice is accepted (after calc with at most one further
    command, or always after data), and the receiver functions are calculated twice. *)
Definition twice_e (s : list trace) : res (list trace) := Ok (map (fun t => mkTrace (st t) (map (fun x => x + x)%Q (data t))) s).
Theorem C61_refuted :
  forall commands, In commands [("data", ["calc"; "calc"]); ("data", ["calc"; "moveout"; "moveout"]); ("calc", ["calc"]); ("calc", ["calc"; "moveout"])] ->
  exists ops, run_processing clock_e (fun _ => "") key_e (fun _ _ => None) (fun _ (s : list trace) => Ok (Some s)) twice_e twice_e
    (fst commands) (snd commands) "out" "Q" [[tr_e (pair_e "PB01" 5) "BHZ" 1]] None [] = (ops, None) /\
    forall n l, In (Append n l) ops -> Forall (fun t => Forall (fun x => (x == 4)%Q \/ (x == 8)%Q) (data t)) l /\ l <> [].
Proof.
  intros commands [<-|[<-|[<-|[<-|[]]]]]; eexists; (split; [vm_compute; reflexivity|]); intros n l [E|[]]; inversion E; subst; (split; [|discriminate]);
    constructor; try constructor; constructor; try constructor; first [left; reflexivity | right; reflexivity].
Qed.
Print Assumptions C61_refuted.

(** * C62 *)
(** A run consists of items which are finished one after the other; if it does not get to the end
    the next item failed, and only what the writer did for it before the failure follows. *)
Theorem C62_failure fmt_time str_of h5key writer I (get : files -> I -> res (option (list trace))) process root fmt ty items fin fs ops r :
  run_loop fmt_time str_of h5key writer get process root fmt ty items fin fs = (ops, r) ->
  exists before after ops1 ops2, items = before ++ after /\ ops = ops1 ++ ops2 /\
    succeeded get process (fun s => write fmt_time str_of h5key writer s root fmt ty) fs before ops1 (do_ops fs ops1) /\
    match after with
    | [] => ops2 = [] /\ r = fin
    | i :: _ => exists e, r = Some e /\ fails get process (fun s => write fmt_time str_of h5key writer s root fmt ty) (do_ops fs ops1) i ops2 e
    end.
Proof.
  intros H. destruct (loop_parts _ _ _ _ _ _ _ _ _ _ _ _ _ _ H) as (b & a & o1 & o2 & fs1 & E1 & E2 & Hs & Ha).
  exists b, a, o1, o2. pose proof (succeeded_ops _ _ _ _ _ _ _ _ _ _ _ _ _ Hs) as E. subst fs1. auto.
Qed.
Print Assumptions C62_failure.
(** For Q and H5 files nothing is written for the failed item. *)
Theorem C62_failed_writer fmt_time str_of h5key writer s root fmt ty ops e :
  In fmt ["Q"; "H5"] -> write fmt_time str_of h5key writer s root fmt ty = (ops, Some e) -> ops = [].
Proof.
  intros [<-|[<-|[]]] H; destruct s as [|t s]; [discriminate H| |discriminate H|]; unfold write in H.
  - change (upper "Q") with "Q" in H. destruct (trace_fname _ _ _ _ _ _); [|inversion H; reflexivity].
    change (("Q" =? "H5")%string) with false in H. change (("Q" =? "Q")%string) with true in H. cbv iota in H. destruct (writer "Q" (t :: s)); [inversion H; reflexivity | discriminate H].
  - change (upper "H5") with "H5" in H. destruct (trace_fname _ _ _ _ _ _); [|inversion H; reflexivity].
    change (("H5" =? "H5")%string) with true in H. cbv iota in H. destruct (writer "H5" (t :: s)); [inversion H; reflexivity | discriminate H].
Qed.
Print Assumptions C62_failed_writer.

(** A run is interrupted at any point -- a SAC file which was being written may have any content
    -- and repeated: it writes the same, and afterwards all files (SAC), respectively all datasets
    (H5), are the same as after an uninterrupted run. First for streams which do not depend on
    the files (command data). *)
Lemma rerun_ops fmt_time str_of h5key writer I (get : files -> I -> res (option (list trace))) process root fmt items fin fs ops r fs1 :
  In fmt ["SAC"; "H5"] -> run_loop fmt_time str_of h5key writer get process root fmt TRf items fin fs = (ops, r) -> crashed fs ops fs1 ->
  same_result fmt (do_ops fs1 ops) (do_ops fs ops).
Proof.
  intros Hf H Hc. split; intros ->.
  - intros n. apply puts_agree; [|apply crashed_names, Hc].
    eapply loop_ops; [|exact H]. intros s o r' Hw _. eapply write_puts, Hw.
  - assert (Forall is_dataset ops) as HF.
    { eapply loop_ops; [|exact H]. intros s o r' Hw _. eapply Forall_impl; [|eapply write_datasets, Hw]. cbn. tauto. }
    intros n k. apply datasets_agree; [exact HF | apply crashed_entries; assumption].
Qed.
Theorem C62_rerun_data_partial fmt_time str_of h5key writer I (get : I -> res (option (list trace))) process root fmt items fin fs ops r fs1 :
  In fmt ["SAC"; "H5"] -> run_loop fmt_time str_of h5key writer (fun _ => get) process root fmt TRf items fin fs = (ops, r) -> crashed fs ops fs1 ->
  run_loop fmt_time str_of h5key writer (fun _ => get) process root fmt TRf items fin fs1 = (ops, r) /\
  same_result fmt (do_ops fs1 ops) (do_ops fs ops).
Proof.
  intros Hf H Hc. split; [|eapply rerun_ops; eassumption].
  apply (loop_same fmt_time str_of h5key writer _ process root fmt TRf items fin fs fs1 (fun _ => true) ops r H); [reflexivity | reflexivity|].
  assert (forall x : files, others (fun _ => true) x = []) as E by (intros x; unfold others; cbn; induction x as [|? ? IH]; [reflexivity | exact IH]).
  rewrite !E. reflexivity.
Qed.
Print Assumptions C62_rerun_data_partial.
(** Then for streams which are read from files at another path (calc and moveout). *)
Theorem C62_rerun_partial fmt_time str_of h5key writer load pin root process fmt metas fin fs ops r fs1 :
  In fmt ["SAC"; "H5"] -> (forall t, slash_free (fmt_time t)) -> no_wild pin -> pin <> root ->
  Forall meta_ok metas -> (forall s out, process s = Ok out -> Forall slashless out) ->
  run_loop fmt_time str_of h5key writer (fetch fmt_time load pin fmt) process root fmt TRf metas fin fs = (ops, r) -> crashed fs ops fs1 ->
  run_loop fmt_time str_of h5key writer (fetch fmt_time load pin fmt) process root fmt TRf metas fin fs1 = (ops, r) /\
  same_result fmt (do_ops fs1 ops) (do_ops fs ops).
Proof.
  intros Hf Ht Hw Hne Hm Hp H Hc. split; [|eapply rerun_ops; eassumption].
  set (nameb := fun n => if in_dec string_dec n (map op_name ops) then true else false).
  assert (forall n, In n (map op_name ops) -> nameb n = true) as Hn by (intros n Hi; unfold nameb; destruct (in_dec _ _ _); [reflexivity | contradiction]).
  apply (loop_same fmt_time str_of h5key writer _ process root fmt TRf metas fin fs fs1 nameb ops r H Hn).
  - intros a b E m Hi. apply (fetch_others fmt_time writer Ht load nameb a b pin root fmt m Hf Hw Hne); [rewrite Forall_forall in Hm; apply Hm, Hi | | exact E].
    intros n Hb. unfold nameb in Hb. destruct (in_dec string_dec n (map op_name ops)) as [Hin|]; [|discriminate]. apply in_map_iff in Hin. destruct Hin as (o & <- & Ho).
    destruct Hf as [<-|[<-|[]]].
    + left. split; [reflexivity|].
      assert (Forall (fun o => below root (op_name o)) ops) as HF.
      { eapply loop_ops; [|exact H]. intros s o' r' Hwr (s0 & Hs0). eapply write_below; [exact Ht | exact Hwr | eapply Hp, Hs0]. }
      rewrite Forall_forall in HF. apply HF, Ho.
    + right. split; [reflexivity|].
      assert (Forall (fun o => is_dataset o /\ op_name o = (root ++ ".h5")%string) ops) as HF.
      { eapply loop_ops; [|exact H]. intros s o' r' Hwr _. eapply write_datasets, Hwr. }
      rewrite Forall_forall in HF. apply HF, Ho.
  - symmetry. apply others_crashed with (ops := ops); assumption.
Qed.
Print Assumptions C62_rerun_partial.

(** a case: two pairs are read from "in", the run stops while the second file is written *)
Definition in_e (fmt : string) : files := do_ops [] (flat_map (fun ps => fst (write_e (snd ps) "in" fmt TRf)) streams_e).
Definition run_e (fmt pin root : string) (fs : files) : list wop * option exn :=
  run_loop clock_e (fun _ => "") key_e (fun _ _ => None) (fetch_e pin fmt) twice_e root fmt TRf
    [meta (pair_e "PB01" 5) "BH?"; meta (pair_e "PB02" 5) "BH?"; meta (pair_e "PB03" 5) "BH?"] None fs.
Example C62_nonvacuous :
  (forall t, slash_free (clock_e t)) /\ Forall meta_ok [meta (pair_e "PB01" 5) "BH?"; meta (pair_e "PB02" 5) "BH?"; meta (pair_e "PB03" 5) "BH?"] /\
  (exists ops, run_e "SAC" "in" "out" (in_e "SAC") = (ops, None) /\ length ops = 4 /\
     exists n t rest, skipn 1 ops = Put n t :: rest /\ crashed (in_e "SAC") ops (dset (do_ops (in_e "SAC") (firstn 1 ops)) n [])) /\
  (exists ops, run_e "H5" "in" "out" (in_e "H5") = (ops, None) /\ length ops = 4 /\ crashed (in_e "H5") ops (do_ops (in_e "H5") (firstn 3 ops))).
Proof.
  split; [intros t; apply clock_e_ok|]. split; [repeat constructor|]. split.
  - eexists. split; [vm_compute; reflexivity|]. split; [reflexivity|]. do 3 eexists. split; [reflexivity|]. eapply crash_during. reflexivity.
  - eexists. split; [vm_compute; reflexivity|]. split; [reflexivity|]. apply crash_between.
Qed.

(** The full C62 does not hold for Q files: traces are appended to existing files, so a pair is
    there twice after the repeated run. *)
Theorem C62_Q_refuted :
  exists ops fs1, run_e "Q" "in" "out" (in_e "Q") = (ops, None) /\ crashed (in_e "Q") ops fs1 /\ run_e "Q" "in" "out" fs1 = (ops, None) /\
    (exists l, fetch_e "out" "Q" (do_ops (in_e "Q") ops) (meta (pair_e "PB01" 5) "BH?") = Ok (Some l) /\ length l = 2) /\
    (exists l, fetch_e "out" "Q" (do_ops fs1 ops) (meta (pair_e "PB01" 5) "BH?") = Ok (Some l) /\ length l = 4).
Proof.
  destruct (run_e "Q" "in" "out" (in_e "Q")) as [ops r] eqn:E. vm_compute in E. injection E as <- <-.
  eexists. exists (do_ops (in_e "Q") (firstn 1 (fst (run_e "Q" "in" "out" (in_e "Q"))))).
  split; [reflexivity|]. split; [vm_compute (fst _); apply crash_between|]. split; [vm_compute; reflexivity|].
  split; eexists; (split; [vm_compute; reflexivity | reflexivity]).
Qed.
Print Assumptions C62_Q_refuted.
(** ... nor if the results are written to the path from which is read: finished pairs are processed
    again. *)
Theorem C62_in_place_refuted :
  exists ops fs1 ops', run_e "SAC" "in" "in" (in_e "SAC") = (ops, None) /\ crashed (in_e "SAC") ops fs1 /\ run_e "SAC" "in" "in" fs1 = (ops', None) /\
    exists n t t', dget (do_ops (in_e "SAC") ops) n = Some [("", t)] /\ dget (do_ops fs1 ops') n = Some [("", t')] /\
      data t = [2%Q] /\ data t' = [4%Q].
Proof.
  exists (fst (run_e "SAC" "in" "in" (in_e "SAC"))), (do_ops (in_e "SAC") (firstn 2 (fst (run_e "SAC" "in" "in" (in_e "SAC"))))).
  eexists. split; [vm_compute; reflexivity|]. split; [apply crash_between|]. split; [vm_compute; reflexivity|].
  exists "in/CX.PB01./CX.PB01..BHQ_1970-01-01T00:00:00.SAC". do 2 eexists. split; [vm_compute; reflexivity|]. split; [vm_compute; reflexivity|]. split; reflexivity.
Qed.
Print Assumptions C62_in_place_refuted.

(** * C87 *)
(** Without failing requests the function around get_waveforms changes nothing. *)
Lemma one_pair_ext gps tl tp pp so co W tr me cm (w w' : request -> res (option W)) a w0 w1 pad stations ev id :
  (forall q, w q = w' q) -> one_pair gps tl tp pp so co W tr me cm w a w0 w1 pad stations ev id = one_pair gps tl tp pp so co W tr me cm w' a w0 w1 pad stations ev id.
Proof.
  intros H. unfold one_pair. destruct (origin_time ev); [|reflexivity]. destruct (match dget stations id with Some c => _ | None => _ end); [|reflexivity].
  destruct (rfstats_new _ _ _ _ _) as [[[|x s]|]|]; try reflexivity. destruct (let! ids := split4 id in _) as [[[[[net sta] loc] cha] onset]|]; [|reflexivity].
  rewrite H. reflexivity.
Qed.
Theorem C87_wrapper_partial gps tl tp pp so co W tr me cm (w : request -> res (option W)) a window pad events channels :
  (forall q e, w q = Err e -> e = KeyboardInterrupt) ->
  iter_event_data gps tl tp pp so co W tr me cm (wrapper w) a window pad events channels =
  iter_event_data gps tl tp pp so co W tr me cm w a window pad events channels.
Proof.
  intros H. unfold iter_event_data. destruct (last_char (r_phase a)); [|reflexivity]. destruct (match window with Some _ => _ | None => _ end) as [w0 w1].
  destruct (get_stations channels) as [stations|]; [|reflexivity]. generalize (list_prod events (map fst stations)). intros l.
  induction l as [|[ev id] l IH]; [reflexivity|]. cbn [run_pairs].
  rewrite (one_pair_ext gps tl tp pp so co W tr me cm (wrapper w) w).
  - destruct (one_pair gps tl tp pp so co W tr me cm w a w0 w1 pad stations ev id) as [acts [e|]]; [reflexivity|]. rewrite IH. reflexivity.
  - intros q. unfold wrapper. destruct (w q) as [x|e] eqn:E; [reflexivity|]. rewrite (H q e E). reflexivity.
Qed.
Print Assumptions C87_wrapper_partial.
Example C87_nonvacuous :
  let w := fun q => Ok (Some (map (wtrace_e None q) ["E"; "N"; "Z"])) in
  (forall q e, w q = Err e -> e = KeyboardInterrupt) /\ length (yields (iteration_e (wrapper w) (fun st => Ok st) [event_e 40 0; event_e 60 0])) = 4.
Proof. split; [discriminate | vm_compute; reflexivity]. Qed.
(** The full C87 does not hold: one failing request (PB02) ends the run, and nothing is yielded for
    the remaining pairs. The same function without wrapper lets the iteration continue. *)
Theorem C87_refuted :
  let events := [event_e 40 0; event_e 60 0] in
  length (yields (iteration_e (waveforms_e None) (fun st => Ok st) events)) = 3 /\ snd (iteration_e (waveforms_e None) (fun st => Ok st) events) = None /\
  length (yields (iteration_e (wrapper (waveforms_e None)) (fun st => Ok st) events)) = 1 /\ snd (iteration_e (wrapper (waveforms_e None)) (fun st => Ok st) events) = Some AttributeError.
Proof. vm_compute. repeat split. Qed.
Print Assumptions C87_refuted.
