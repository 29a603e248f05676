(** C113: the command stack. *)
From Verif Require Import Model.Figures Spec.BatchSpec Spec.FigureSpec Spec.MeanSpec Spec.TraceSpec Spec.StackSpec Proofs.PyFacts Proofs.StackFacts Proofs.BatchFacts Proofs.BatchRead Proofs.OnceFacts Proofs.FigureFacts Proofs.StackCmdFacts.
Notation length := List.length.

(** rf stack for streams of different stations and a new output path: for each station and each of
    its channels the file of this station holds one trace, the mean of the traces of this channel;
    nothing else is written. [h5key]: the index of obspyh5 contains the codes. *)
Theorem C113_stacks fmt_time str_of h5key writer id_set root fmt fs0 items :
  id_sets id_set -> (forall f l, writer f l = None) -> (forall t u, h5key t = h5key u -> tr_id t = tr_id u) ->
  unrelated root fs0 -> In fmt ["Q"; "SAC"; "H5"] ->
  Forall (fun x => station_stream (fst x) (snd x) /\ stackable (snd x)) items ->
  ForallOrdPairs (fun a b => ~ same_station (fst a) (fst b)) items ->
  exists ops fs, stack_command fmt_time str_of h5key writer id_set root fmt (map snd items) None = (ops, None) /\ fs = do_ops fs0 ops /\
    (forall p s t, In (p, s) items -> In t s -> exists r, holds fs (stack_file fmt root p (channel (st t))) r /\ stack_of p (channel (st t)) s r) /\
    (forall n r, holds fs n r -> holds fs0 n r \/
       exists p s t, In (p, s) items /\ In t s /\ n = stack_file fmt root p (channel (st t)) /\ stack_of p (channel (st t)) s r) /\
    (forall n f, dget fs n = Some f -> dget fs0 n = None -> NoDup (map (fun x => tr_id (snd x)) f)) /\
    (forall n f, dget fs0 n = Some f -> dget fs n = Some f).
Proof.
  intros Hid Hw Hkey Hu Hf Hit Hdiff.
  destruct (command_run fmt_time str_of h5key writer id_set Hw root fmt items Hid Hf Hit) as (outs & HF & E).
  assert (Forall (fun x => station_stream (fst x) (snd x)) items) as Hst by (eapply Forall_impl; [|exact Hit]; cbn; tauto).
  destruct (new_files h5key root fs0 Hu items outs Hst Hdiff HF Hkey fmt Hf) as (new & En & Hnd & Hfr & H1 & H2 & H3).
  eexists _, _. split; [exact E|]. split; [reflexivity|]. rewrite En.
  assert (forall n f, dget fs0 n = Some f -> dget (fs0 ++ new) n = Some f) as Hold.
  { intros n f. unfold dget. clear. induction fs0 as [|[m g] l IH]; [discriminate|]. cbn [app aget]. destruct (String.eqb n m); [auto | exact IH]. }
  assert (forall n, dget fs0 n = None -> dget (fs0 ++ new) n = dget new n) as Hnew.
  { intros n. unfold dget. clear. induction fs0 as [|[m g] l IH]; [reflexivity|]. cbn [app aget]. destruct (String.eqb n m); [discriminate | exact IH]. }
  assert (forall t x, In x items -> stack_of (fst x) (channel (st t)) (snd x) t -> file_of fmt root t = stack_file fmt root (fst x) (channel (st t))) as Hfile.
  { intros t x _ (E1 & E2 & E3 & _). unfold file_of, stack_file. cbn [p_net p_sta p_loc]. rewrite E1, E2, E3. reflexivity. }
  split; [|split; [|split]].
  - intros p s t Hin Ht. destruct (F2_in_l _ _ _ _ HF Hin) as (out & Ho & (_ & _ & Hc & Hs)). cbn [fst snd] in *. assert (In (channel (st t)) (map (fun t => channel (st t)) out)) as Hct by (apply Hc; exists t; auto).
    apply in_map_iff in Hct. destruct Hct as (r & Er & Hr). rewrite Forall_forall in Hs. pose proof (Hs r Hr) as Hsr. exists r. rewrite <- Er. split; [|exact Hsr].
    destruct (H1 r) as (f & k & Hf1 & Hk); [apply in_concat; exists out; auto|]. exists f, k. split; [|exact Hk]. rewrite (Hfile r (p, s) Hin Hsr) in Hf1. cbn [fst] in Hf1.
    rewrite Hnew; [apply dget_in; assumption|]. apply dget_notin. apply Hfr. apply in_map_iff. eexists. split; [|exact Hf1]. reflexivity.
  - intros n r (f & k & Hg & Hk). destruct (dget fs0 n) as [f0|] eqn:E0.
    + left. exists f, k. rewrite (Hold n f0 E0) in Hg. injection Hg as ->. auto.
    + right. rewrite Hnew in Hg by exact E0. apply dget_in in Hg; [|exact Hnd]. destruct (H2 n f k r Hg Hk) as [Ha ->].
      apply in_concat in Ha. destruct Ha as (out & Ho & Hr). destruct (F2_in_r _ _ _ _ HF Ho) as ([p s] & Hin & (_ & _ & Hc & Hs)). cbn [fst snd] in *. rewrite Forall_forall in Hs.
      assert (In (channel (st r)) (map (fun t => channel (st t)) out)) as Hct by (apply in_map_iff; exists r; auto). apply Hc in Hct. destruct Hct as (t & Ht & Et).
      exists p, s, t. rewrite Et. repeat (split; [assumption|]). split; [exact (Hfile r (p, s) Hin (Hs r Hr)) | exact (Hs r Hr)].
  - intros n f Hg E0. rewrite Hnew in Hg by exact E0. apply dget_in in Hg; [|exact Hnd]. exact (H3 n f Hg).
  - exact Hold.
Qed.
Print Assumptions C113_stacks.
(** two stations, one of them with two channels and two events *)
Definition stk_tr (sta cha : string) (o : Z) (d : list Z) : trace := mkTrace (mkStats "CX" sta "" cha (o - 5) 100000000 [("onset", VTime o)]) (map inject_Z d).
Definition stk_e : list (spair * list trace) :=
  [(mkPair "CX" "PB01" "" 0, [stk_tr "PB01" "BHL" 100 [1; 2]%Z; stk_tr "PB01" "BHQ" 100 [3; 4]%Z; stk_tr "PB01" "BHQ" 900 [5; 8]%Z]);
   (mkPair "CX" "PB02" "" 0, [stk_tr "PB02" "BHQ" 100 [7; 7; 7]%Z])].
Definition idset_e (s : list trace) : list string := nodup string_dec (map tr_id s).
Example C113_nonvacuous :
  id_sets idset_e /\ unrelated "out" [("data/CX.PB01.", [])] /\
  Forall (fun x => station_stream (fst x) (snd x) /\ stackable (snd x)) stk_e /\
  ForallOrdPairs (fun a b => ~ same_station (fst a) (fst b)) stk_e /\
  exists ops r, stack_command (fun _ => "") (fun _ => "") tr_id (fun _ _ => None) idset_e "out" "SAC" (map snd stk_e) None = (ops, None) /\ length ops = 3 /\
    dget (do_ops [] ops) "out/CX.PB01..BHQ.SAC" = Some [("", r)] /\ Forall2 Qeq (data r) [4; 6]%Q.
Proof.
  split; [|split; [|split; [|split]]].
  - intros s. split; [apply NoDup_nodup|]. intros i. apply nodup_In.
  - intros n f [E|[]]. injection E as <- <-. split; [intros s E; discriminate E | discriminate].
  - repeat constructor; cbn; try discriminate; try (intros v E; injection E as <-; eexists; reflexivity).
    + intros t u Ht Hu E. destruct Ht as [<-|[<-|[<-|[]]]], Hu as [<-|[<-|[<-|[]]]]; try reflexivity; discriminate E.
    + intros t u Ht Hu E. destruct Ht as [<-|[]], Hu as [<-|[]]; reflexivity.
  - repeat constructor. intros (_ & E & _). discriminate E.
  - eexists _, _. split; [vm_compute; reflexivity|]. split; [reflexivity|]. split; [vm_compute; reflexivity|]. repeat constructor.
Qed.
