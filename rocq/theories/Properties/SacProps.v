(** C146-C148: times in SAC, Q and H5 files. *)
From Verif Require Import Model.SacFile Model.Iter Model.Dispatch Spec.EventSpec Spec.BatchSpec Spec.OnceSpec Spec.ConfigSpec Spec.DispatchSpec Spec.PipelineSpec Spec.SacSpec Proofs.PyFacts Proofs.SacFacts Proofs.BatchFacts
  Properties.ConfigProps Properties.BatchProps Properties.OnceProps Properties.EventProps Properties.StackCmdProps Properties.StackArchiveProps Properties.PlotArchiveProps Properties.DispatchProps Properties.PipelineProps Proofs.EventFacts Spec.CliSpec.
From Flocq Require Import Core.
Notation length := List.length.

(** * C146: accuracy of times in SAC files *)
(** The times onset and event_time are read with an error of at most 1 microsecond and 1/8000000 of the
    distance to the reference time, whether numpy multiplies in float32 or in float64. *)
Theorem C146_time prod ref t : prod = rnd \/ prod = f32 -> (Z.abs (t - ref) <= 1000000 * 1000000000)%Z ->
  (Z.abs (sac_time prod ref t - t) <= 1000 + Z.abs (t - ref) / 8000000)%Z.
Proof. intros Hp H. apply sac_err; assumption. Qed.
Print Assumptions C146_time.
(** Other numbers have a relative error of 2^-24. *)
Theorem C146_number x : (Rabs (f32 x - x) <= / 2 ^ 24 * Rabs x + / 2 ^ 60)%R.
Proof. apply f32_err. Qed.
Print Assumptions C146_number.
(** Any number of further cycles of writing and reading changes nothing if numpy multiplies in float64. *)
Theorem C146_cycles_partial ref t n : (Z.abs (t - ref) <= 100000 * 1000000000)%Z ->
  Nat.iter (S n) (sac_time rnd ref) t = sac_time rnd ref t.
Proof.
  intros H. induction n as [|n IH]; [reflexivity|]. change (Nat.iter (S (S n)) (sac_time rnd ref) t) with (sac_time rnd ref (Nat.iter (S n) (sac_time rnd ref) t)). rewrite IH. apply sac_again. exact H.
Qed.
Print Assumptions C146_cycles_partial.
(** The full C146 does not hold: in float32 (numpy 2) times drift from cycle to cycle. *)
Theorem C146_drift_refuted : exists ref t, (Z.abs (t - ref) <= 10 * 1000000000)%Z /\
  sac_time f32 ref t = (t + 640)%Z /\ sac_time f32 ref (sac_time f32 ref t) = (t + 1664)%Z.
Proof. exists 0%Z, 8270000000%Z. destruct (time_827 0) as [E1 E2]. cbn [Z.add] in *. split; [lia|]. rewrite E1. split; [reflexivity|]. rewrite E2. reflexivity. Qed.
Print Assumptions C146_drift_refuted.
(** 700.002 s before the reference time *)
Example C146_nonvacuous : (sac_time rnd 701002000000 1000000000 = 1000000000 - 14160 /\ sac_time f32 701002000000 1000000000 = 1000000000 - 9088 /\
  1000 + Z.abs (1000000000 - 701002000000) / 8000000 = 88500)%Z.
Proof.
  destruct (time_700 701002000000) as [E1 E2]. pose proof (sac_time_neg rnd 701002000000 700002000000 (or_introl eq_refl)) as N1. pose proof (sac_time_neg f32 701002000000 700002000000 (or_intror eq_refl)) as N2.
  rewrite E1 in N1. rewrite E2 in N2. cbn [Z.sub Z.add Z.opp Z.pos_sub] in *. split; [exact N1|]. split; [exact N2 | reflexivity].
Qed.

(** * C147: files keep events apart and found *)
(** Reading keeps the second of event_time, which makes the names of files: always for Q and H5, for SAC
    if event_time has room to the next full seconds. *)
Theorem C147_second_partial prod ref fmt p t : prod = rnd \/ prod = f32 ->
  (fmt = "SAC" -> forall e, dget (extra (st t)) "event_time" = Some (VTime e) -> room ref t e) ->
  trace_of p t -> trace_of p (read_trace prod ref fmt t).
Proof. intros Hp Hr. apply read_trace_of; [exact Hp|]. intros E e He. exact (Hr E e He). Qed.
Print Assumptions C147_second_partial.
Lemma read_good prod ref fmt year p s l : prod = rnd \/ prod = f32 ->
  (fmt = "SAC" -> forall t e, In t s -> dget (extra (st t)) "event_time" = Some (VTime e) -> room ref t e) ->
  good year (p, s) -> Permutation l s -> good year (p, map (read_trace prod ref fmt) l).
Proof.
  intros Hp Hr (G1 & G2 & G3 & G4 & G5) P. cbn [fst snd] in *. assert (forall t, channel (st (read_trace prod ref fmt t)) = channel (st t)) as Hc by (intros t; apply (proj2 (read_file_reads prod ref fmt) t)).
  split; [exact G1|]. split; [|split; [|split]]; cbn [fst snd].
  - apply Forall_map. apply Forall_forall. intros t Ht. apply (Permutation_in _ P) in Ht. rewrite Forall_forall in G2. apply C147_second_partial; [exact Hp | intros E e He; exact (Hr E t e Ht He) | exact (G2 t Ht)].
  - intros E. apply map_eq_nil in E. subst l. apply G3. apply Permutation_nil. exact P.
  - rewrite map_map. erewrite map_ext by (intros t; apply Hc). refine (Permutation_NoDup _ G4). apply Permutation_map, Permutation_sym, P.
  - apply Forall_map. apply Forall_forall. intros t Ht. rewrite Hc. rewrite Forall_forall in G5. exact (G5 t (Permutation_in _ P Ht)).
Qed.
Lemma tidy_all year f cmds p : (forall c, In c cmds -> tidy year (f c)) -> forall s out, good year (p, s) -> apply_all f cmds s out -> good year (p, out).
Proof.
  induction cmds as [|c cmds IH]; intros Ht s out Hg Ha; cbn [apply_all] in Ha; [subst out; exact Hg|]. destruct Ha as (s' & E & Ha).
  apply (IH (fun d Hd => Ht d (or_intror Hd)) s' out); [|exact Ha]. exact (Ht c (or_introl eq_refl) p s s' Hg E).
Qed.

Section Sac.
  Context {D W B : Type}.
  Variable fmt_time : Z -> string.
  Variable str_of : value -> string.
  Variable h5key : trace -> string.
  Variable writer : string -> list trace -> option exn.
  Variable prod : R -> R.
  Variable ref : trace -> Z.
  Variable id_set channel_set : list trace -> list string.
  Variable read_events : string -> option string -> res (list event).
  Variable read_inventory : string -> option string -> res (list string).
  Variable loads : string -> res json.
  Variable linspace : json -> res json.
  Variable init : option json -> json -> option json -> res W.
  Variable data_streams : json -> W -> list event -> list string -> list (list trace) * option exn.
  Variable rf moveout : json -> list trace -> res (list trace).
  Variable plot_rf plot_profile : json -> list trace -> res D.
  Variable get_boxes : json -> res B.
  Variable profile : json -> B -> list trace -> res (list trace).
  Variable show : dict json -> option exn.
  Notation program := (program fmt_time str_of h5key writer (read_file prod ref) id_set channel_set read_events read_inventory loads linspace init data_streams rf moveout plot_rf plot_profile get_boxes profile show).

  (** rf calc, rf moveout and rf convert with files whose times are rounded: the results are an archive for
      the next command, with all streams of requested events and stations, if the functions rf and moveout
      keep codes and events. For SAC files event times need room. *)
  Theorem C147_archive_partial file l d conf pin pout c cmds inv invf ev evf fmt newfmt year streams before channels events w :
    let argv := if String.eqb c "convert" then l ++ ["convert"; pin; pout; newfmt] else l ++ c :: (cmds ++ [pin; pout]) in
    let todo := if String.eqb c "convert" then [] else c :: cmds in
    options l d -> plain pin -> plain pout -> plain newfmt -> configured loads file d conf -> options_ok loads linspace (setting d conf) ->
    ((c = "calc" /\ (cmds = [] \/ cmds = ["moveout"]) /\ newfmt = fmt) \/ (c = "moveout" /\ cmds = [] /\ newfmt = fmt) \/ (c = "convert" /\ cmds = [])) ->
    (c = "moveout" -> match setting d conf "commands" with None | Some (JList []) => True | _ => False end) ->
    names_file (setting d conf "events") ev evf -> read_events ev evf = Ok events ->
    names_file (setting d conf "inventory") inv invf -> read_inventory inv invf = Ok channels -> format_is (setting d conf "format") fmt -> In newfmt ["Q"; "SAC"; "H5"] ->
    is_value loads (setting d conf "rf") (JObj []) w ->
    stored fmt_time year str_of h5key writer pin fmt streams before ->
    inventory_ok channels -> one_group channels -> events_ok year events -> no_wild pout -> pin <> pout -> unrelated pout before ->
    (newfmt = "H5" -> keys_differ year h5key) ->
    prod = rnd \/ prod = f32 -> tidy year (rf w) -> (forall mw, moveout_options loads (setting d conf) mw -> tidy year (moveout mw)) ->
    (fmt = "SAC" -> event_times (room ref) streams) ->
    exists mw, moveout_options loads (setting d conf) mw /\
    let f := fun c => if String.eqb c "calc" then rf w else moveout mw in
    exists ops e, program file argv before = Did ops [] e /\ (forall n, ~ inside pout n -> dget (do_ops before ops) n = dget before n) /\
      (e = None -> exists order results, NoDup order /\ (forall x, In x order <-> In x streams /\ requested events channels (fst x)) /\
         Forall2 (reread f (read_file prod ref fmt) todo) order results /\ stored fmt_time year str_of h5key writer pout newfmt results (do_ops before ops)) /\
      ((forall f l, writer f l = None) -> (forall p s l, In (p, s) streams -> requested events channels p -> Permutation l s -> exists out, apply_all f todo (map (read_trace prod ref fmt) l) out) -> e = None).
  Proof.
    intros argv todo Ho Pi Po Pn Hcf Hok Hcmd Hmc Hev Re Hi Ri Hfm Hnf Hw Hst Hinv Hone Hevs Hpo Hne Hu Hk Hp Htr Htm Hroom.
    destruct (C132_archive_partial fmt_time str_of h5key writer (read_file prod ref) id_set channel_set read_events read_inventory loads linspace init data_streams rf moveout plot_rf plot_profile get_boxes profile show
      file l d conf pin pout c cmds inv invf ev evf fmt newfmt year streams before channels events w Ho Pi Po Pn Hcf Hok Hcmd Hmc Hev Re Hi Ri Hfm Hnf Hw Hst) as (mw & Hmw & H); try assumption.
    { intros l0. eexists. reflexivity. }
    exists mw. split; [exact Hmw|]. intros f. destruct H as (ops & e & H1 & H2 & H3 & H4).
    { intros x r Hx [E (l0 & s & P & L & A)]. injection L as <-. destruct x as [p s0], r as [q out]. cbn [fst snd] in *. subst q.
      destruct Hst as (_ & _ & _ & Hg & _). rewrite Forall_forall in Hg.
      refine (tidy_all year f _ p _ _ _ (read_good prod ref fmt year p s0 l0 Hp _ (Hg _ Hx) P) A).
      - intros c0 _. unfold f. destruct (String.eqb c0 "calc"); [exact Htr | exact (Htm mw Hmw)].
      - intros E0 t e Ht He. exact (Hroom E0 p s0 t e Hx Ht He). }
    exists ops, e. split; [exact H1|]. split; [exact H2|]. split; [exact H3|]. intros Hwr Htot. apply (H4 Hwr). intros p s l0 s' Hin Hreq P L. injection L as <-. exact (Htot p s l0 Hin Hreq P).
  Qed.
End Sac.
Print Assumptions C147_archive_partial.

(** ** a case: an earthquake at a full second, records which start 700.002 s later *)
Definition pair_s : spair := pair_e "PB01" 1000000000.
Definition tr_s (cha : string) : trace := mkTrace (mkStats "CX" "PB01" "" cha 701002000000 100000000 [("event_time", VTime 1000000000)]) [1%Q].
Definition stream_s : list trace := [tr_s "BHQ"; tr_s "BHL"].
Definition arch_s (fmt : string) : files := do_ops [] (fst (arch_write stream_s "in" fmt TRf)).
Definition start_ref (t : trace) : Z := sac_ref (starttime (st t)).
Definition program_s (load : string -> list trace -> res (list trace)) (argv : list string) (fs : files) : effect (list trace) :=
  program clock_e (fun _ => "") key19 (fun _ _ => None) load idset_e (fun s => nodup string_dec (map (fun t => channel (st t)) s))
    (fun _ _ => Ok [event_e 60 1000000000]) (fun n _ => if String.eqb n "sta.xml" then Ok inv_e else Err OtherError) loads_d (fun b => Ok b)
    (fun _ _ _ => Ok tt) (fun _ _ _ _ => ([], None)) (fun _ s => twice_e s) (fun _ s => Ok s) (fun _ s => Ok s) (fun _ s => Ok s)
    (fun _ => Ok tt) (fun _ _ l => Ok l) (fun _ => None) file_d argv fs.
Lemma stored_s fmt : In fmt ["Q"; "SAC"; "H5"] -> stored clock_e year_e (fun _ => "") key19 (fun _ _ => None) "in" fmt [(pair_s, stream_s)] (arch_s fmt).
Proof.
  intros Hf. split; [exact clock_e_ok|]. split; [repeat split|]. split; [exact Hf|]. split.
  { constructor; [|constructor]. unfold good. cbn [fst snd]. split; [|split; [|split; [discriminate|]]].
    - unfold proper, pair_s, pair_e, year_e. cbn. repeat split; lia.
    - repeat (constructor; [repeat split; eexists; split; reflexivity|]). constructor.
    - unfold channels_ok. cbn. split; [|repeat constructor]. constructor; [intros [H|[]]; discriminate H|]. constructor; [intros []|constructor]. }
  split; [repeat constructor|].
  split; [intros _; match goal with |- NoDup ?l => let v := eval vm_compute in l in change (NoDup v) end; repeat (constructor; [cbn; intuition discriminate|]); constructor|].
  exists [], [fst (arch_write stream_s "in" fmt TRf)]. split; [intros n f []|]. split; [|cbn [List.concat]; rewrite app_nil_r; reflexivity].
  destruct Hf as [<-|[<-|[<-|[]]]]; repeat (constructor; [reflexivity|]); constructor.
Qed.
(** The full C147 does not hold: rf calc reads the SAC file, event_time is now before the full second, and
    the results get the name of another second: the next command does not find them. *)
Theorem C147_second_refuted : forall prod, prod = rnd \/ prod = f32 -> exists load ops s,
  (forall l, incl l stream_s -> load "SAC" l = read_file prod start_ref "SAC" l) /\
  stored clock_e year_e (fun _ => "") key19 (fun _ _ => None) "in" "SAC" [(pair_s, stream_s)] (arch_s "SAC") /\
  program_s load ["--format"; "SAC"; "calc"; "in"; "out"] (arch_s "SAC") = Did ops [] None /\
  program_s load ["--format"; "SAC"; "moveout"; "out"; "out2"] (do_ops (arch_s "SAC") ops) = Did [] [] None /\
  fetch clock_e load "out" "SAC" (do_ops (arch_s "SAC") ops) (meta pair_s "BH?") = Ok None /\
  fetch clock_e load "out" "SAC" (do_ops (arch_s "SAC") ops) (meta (pair_e "PB01" 0) "BH?") = Ok (Some s) /\ length s = 2.
Proof.
  intros prod Hp. assert (exists d, (sac_time prod 701002000000 1000000000 = 1000000000 - d /\ (d = 14160 \/ d = 9088))%Z) as (d & Ed & Hd).
  { destruct C146_nonvacuous as (E1 & E2 & _). destruct Hp as [->| ->]; eexists; (split; [eassumption|]); tauto. }
  exists (fun _ l => Ok (map (with_times (fun z => if (z =? 1000000000)%Z then (1000000000 - d)%Z else z)) l)).
  assert (forall l, incl l stream_s -> Ok (map (with_times (fun z => if (z =? 1000000000)%Z then (1000000000 - d)%Z else z)) l) = read_file prod start_ref "SAC" l) as Hl.
  { intros l Hl. unfold read_file. f_equal. apply map_ext_in. intros t Ht. apply Hl in Ht. unfold read_trace. cbn [String.eqb Ascii.eqb Bool.eqb].
    destruct Ht as [<-|[<-|[]]]; unfold with_times, start_ref, tr_s; cbn [st extra starttime map snd fst]; change (sac_ref 701002000000) with 701002000000%Z; rewrite Ed; reflexivity. }
  destruct Hd as [-> | ->]; eexists _, _; (split; [exact Hl|]); (split; [apply stored_s; cbn; tauto|]); (split; [vm_compute; reflexivity|]); (split; [vm_compute; reflexivity|]);
    (split; [vm_compute; reflexivity|]); (split; [vm_compute; reflexivity|]); reflexivity.
Qed.
Print Assumptions C147_second_refuted.
(** with Q files the same commands find it; half a second later there is room in SAC files, too *)
Example C147_nonvacuous :
  stored clock_e year_e (fun _ => "") key19 (fun _ _ => None) "in" "Q" [(pair_s, stream_s)] (arch_s "Q") /\
  tidy year_e twice_e /\
  room start_ref (mkTrace (mkStats "CX" "PB01" "" "BHQ" 701002000000 100000000 [("event_time", VTime 1500000000)]) [1%Q]) 1500000000 /\
  exists ops1 ops2 s, program_s (fun _ l => Ok (map (with_times q_time) l)) ["calc"; "in"; "out"] (arch_s "Q") = Did ops1 [] None /\
    program_s (fun _ l => Ok (map (with_times q_time) l)) ["moveout"; "out"; "out2"] (do_ops (arch_s "Q") ops1) = Did ops2 [] None /\
    fetch clock_e (fun _ l => Ok (map (with_times q_time) l)) "out2" "Q" (do_ops (do_ops (arch_s "Q") ops1) ops2) (meta pair_s "BH?") = Ok (Some s) /\ length s = 2.
Proof.
  split; [apply stored_s; cbn; tauto|]. split.
  { intros p s out (G1 & G2 & G3 & G4 & G5) E. injection E as <-. split; [exact G1|]. cbn [fst snd] in *. split; [|split; [|split]]; cbn [fst snd].
    - apply Forall_map. exact G2.
    - destruct s; [contradiction | discriminate].
    - rewrite map_map. exact G4.
    - apply Forall_map. exact G5. }
  split; [split; [vm_compute; discriminate | split; [vm_compute; discriminate | reflexivity]]|].
  eexists _, _, _. split; [vm_compute; reflexivity|]. split; [vm_compute; reflexivity|]. split; [vm_compute; reflexivity|]. reflexivity.
Qed.

(** * C148: components of a record stay together *)
Lemma one_key str_of (l : list trace) k : Forall (fun t => group_key (fun t => t) str_of (Some "onset") t = Ok k) l -> forall acc, acc <> [] ->
  foldM (fun d x => let! k := group_key (fun t => t) str_of (Some "onset") x in Ok (add_to d k x)) l [(k, acc)] = Ok [(k, acc ++ l)].
Proof.
  assert (gkey_eqb k k = true) as Hkk by (unfold gkey_eqb, ostr_eqb; rewrite String.eqb_refl; destruct (snd k); rewrite ?String.eqb_refl; reflexivity).
  induction 1 as [|t l Ht F IH]; intros acc Ha; [rewrite app_nil_r; reflexivity|]. cbn [foldM]. rewrite Ht. cbn [bind]. unfold add_to. cbn [aget]. rewrite Hkk. cbn [aset]. rewrite Hkk. cbn [bind].
  rewrite IH by (intros E; apply app_eq_nil in E; destruct E as [_ E]; discriminate E). rewrite <- app_assoc. reflexivity.
Qed.
(** After reading the components of a record are iterated over together, as they were before: always for Q
    and H5; for SAC if the reference times, i.e. start times, are the same. *)
Theorem C148_together_partial prod ref str_of fmt id onset l : record id onset l -> length l = 2 \/ length l = 3 ->
  (fmt = "SAC" -> forall t u, In t l -> In u l -> ref t = ref u) ->
  iter_multiple (fun t => t) str_of l (Some "onset") (NTuple [2; 3]) = Ok [l] /\
  iter_multiple (fun t => t) str_of (map (read_trace prod ref fmt) l) (Some "onset") (NTuple [2; 3]) = Ok [map (read_trace prod ref fmt) l].
Proof.
  assert (forall k (l : list trace), length l = 2 \/ length l = 3 -> Forall (fun t => group_key (fun t => t) str_of (Some "onset") t = Ok k) l ->
    iter_multiple (fun t => t) str_of l (Some "onset") (NTuple [2; 3]) = Ok [l]) as K.
  { intros k m Hm F. unfold iter_multiple. destruct m as [|t m]; [destruct Hm; discriminate|]. inversion F as [|? ? Ht F']; subst. cbn [foldM]. rewrite Ht. cbn [bind].
    change (add_to [] k t) with [(k, [t])]. rewrite (one_key str_of m k F' [t]) by discriminate. destruct m as [|x [|y [|z m]]]; try reflexivity; cbn in Hm; destruct Hm as [Hm|Hm]; discriminate Hm. }
  intros Hrec Hl Hr. unfold record in Hrec. rewrite Forall_forall in Hrec. split.
  - apply (K (id, Some (str_of (VTime onset))) l Hl). apply Forall_forall. intros t Ht. destruct (Hrec t Ht) as [(comp & Ei) Eo]. unfold group_key. rewrite Eo, Ei, droplast_snoc. reflexivity.
  - destruct l as [|t0 l0]; [destruct Hl; discriminate|]. set (l := t0 :: l0) in *.
    set (f := if String.eqb fmt "SAC" then sac_time prod (ref t0) else if String.eqb fmt "Q" then q_time else h5_time).
    apply (K (id, Some (str_of (VTime (f onset))))); [rewrite map_length; exact Hl|]. apply Forall_map. apply Forall_forall. intros t Ht. destruct (Hrec t Ht) as [(comp & Ei) Eo].
    assert (read_trace prod ref fmt t = with_times f t) as ->.
    { unfold read_trace, f. destruct (String.eqb_spec fmt "SAC") as [E|_]; [rewrite (Hr E t t0 Ht (or_introl eq_refl))|destruct (String.eqb fmt "Q")]; reflexivity. }
    unfold group_key. assert (tr_get (with_times f t) "onset" = Some (VTime (f onset))) as ->.
    { change (dget (extra (st t)) "onset" = Some (VTime onset)) in Eo. change (dget (extra (st (with_times f t))) "onset" = Some (VTime (f onset))). rewrite dget_times, Eo. reflexivity. }
    change (tr_id (with_times f t)) with (tr_id t). rewrite Ei, droplast_snoc. reflexivity.
Qed.
Print Assumptions C148_together_partial.
(** The full C148 does not hold: the third component starts 10 ms later; after reading, its onset has
    another text and it is left out, i.e. not rotated and not deconvolved. *)
Definition tr_o (cha : string) (start : Z) : trace := mkTrace (mkStats "CX" "PB01" "" cha start 10000000 [("onset", VTime 20000000000)]) [1%Q; 2%Q].
Theorem C148_split_refuted : forall prod str_of, prod = rnd \/ prod = f32 -> micro_text str_of ->
  let l := [tr_o "BHE" 0; tr_o "BHN" 0; tr_o "BHZ" 10000000] in
  record "CX.PB01..BH" 20000000000 l /\
  iter_multiple (fun t => t) str_of l (Some "onset") (NTuple [2; 3]) = Ok [l] /\
  exists e n, iter_multiple (fun t => t) str_of (map (read_trace prod start_ref "SAC") l) (Some "onset") (NTuple [2; 3]) = Ok [[e; n]] /\ channel (st e) = "BHE" /\ channel (st n) = "BHN".
Proof.
  intros prod str_of Hp Hm l. assert (record "CX.PB01..BH" 20000000000 l) as Hrec.
  { repeat (constructor; [split; [eexists; reflexivity | reflexivity]|]). constructor. }
  split; [exact Hrec|]. split; [exact (proj1 (C148_together_partial prod (fun _ => 0%Z) str_of "Q" _ _ l Hrec (or_intror eq_refl) (fun E => ltac:(discriminate E))))|].
  assert (exists z, sac_time prod 10000000 20000000000 = z /\ str_of (VTime 20000000000) <> str_of (VTime z)) as (z & Ez & Hz).
  { eexists. split; [reflexivity|]. intros E. apply Hm in E. revert E. destruct (time_1999 10000000) as [E1 E2]. change (10000000 + 19990000000)%Z with 20000000000%Z in E1, E2. destruct Hp as [->| ->]; rewrite ?E1, ?E2; vm_compute; discriminate. }
  pose proof (time_20 prod 0 Hp) as E20. cbn [Z.add] in E20.
  set (o := VTime 20000000000) in *. set (o' := VTime z) in *.
  assert (map (read_trace prod start_ref "SAC") l = [tr_o "BHE" 0; tr_o "BHN" 0; mkTrace (mkStats "CX" "PB01" "" "BHZ" 10000000 10000000 [("onset", o')]) [1%Q; 2%Q]]) as ->.
  { unfold l, read_trace. cbn [map String.eqb Ascii.eqb Bool.eqb]. unfold with_times, tr_o, start_ref. cbn [st extra map snd fst starttime network station location channel delta data String.eqb Ascii.eqb Bool.eqb orb].
    change (sac_ref 0) with 0%Z. change (sac_ref 10000000) with 10000000%Z. rewrite E20, Ez. reflexivity. }
  exists (tr_o "BHE" 0), (tr_o "BHN" 0). split; [|split; reflexivity]. unfold iter_multiple. cbn [foldM bind].
  assert (forall c s, group_key (fun t => t) str_of (Some "onset") (tr_o c s) = Ok (droplast (tr_id (tr_o c s)), Some (str_of o))) as G by reflexivity.
  assert (group_key (fun t => t) str_of (Some "onset") (mkTrace (mkStats "CX" "PB01" "" "BHZ" 10000000 10000000 [("onset", o')]) [1%Q; 2%Q]) = Ok ("CX.PB01..BH", Some (str_of o'))) as G' by reflexivity.
  rewrite !G, G'. cbn [bind]. change (droplast (tr_id (tr_o "BHE" 0))) with "CX.PB01..BH". change (droplast (tr_id (tr_o "BHN" 0))) with "CX.PB01..BH".
  set (a := str_of o) in *. set (b := str_of o') in *. unfold add_to. cbn [aget aset].
  assert (forall x, gkey_eqb ("CX.PB01..BH", Some x) ("CX.PB01..BH", Some x) = true) as Hxx by (intros x; unfold gkey_eqb; cbn [fst snd ostr_eqb]; rewrite String.eqb_refl; apply String.eqb_refl).
  assert (gkey_eqb ("CX.PB01..BH", Some b) ("CX.PB01..BH", Some a) = false) as Hba.
  { unfold gkey_eqb. cbn [fst snd ostr_eqb]. destruct (String.eqb_spec b a) as [E|_]; [congruence | apply andb_false_r]. }
  repeat (rewrite ?Hxx, ?Hba; cbn [aget aset app bind]). unfold sort. cbn [fold_right insert_sorted fst].
  destruct (gkey_leb _ _); reflexivity.
Qed.
Print Assumptions C148_split_refuted.
Example C148_nonvacuous : record "CX.PB01..BH" 20000000000 [tr_o "BHE" 0; tr_o "BHN" 0; tr_o "BHZ" 0].
Proof. repeat (constructor; [split; [eexists; reflexivity | reflexivity]|]). constructor. Qed.
