(** C120: the command stack on an archive; C121: stations do not affect each other. *)
From Verif Require Import Model.Figures Spec.EventSpec Spec.BatchSpec Spec.OnceSpec Spec.FigureSpec Spec.MeanSpec Spec.TraceSpec Spec.StackSpec Proofs.PyFacts Proofs.StackFacts Proofs.BatchFacts Proofs.BatchRead Proofs.OnceFacts Proofs.FigureFacts Proofs.StackCmdFacts Proofs.StackArchiveFacts Properties.EventProps Properties.BatchProps Properties.OnceProps Properties.StackCmdProps.
Notation length := List.length.

(** * C120 *)
(** Streams of different station-event pairs were written to an archive. rf stack reads the archive
    and writes to a new path: for each station of the inventory with data and each channel the
    new path holds one trace, the mean of all traces of this station and channel, over all events,
    as they are read ([rd]).
    Nothing else is written and the archive is not changed. *)
Theorem C120_archive_partial fmt_time year str_of h5key writer load rd id_set pin root fs0 streams opss fmt channels :
  clock fmt_time year -> no_wild pin -> unrelated pin fs0 -> (exists t, year t) ->
  Forall (good year) streams -> ForallOrdPairs (fun a b => ~ same_pair (fst a) (fst b)) streams ->
  In fmt ["Q"; "SAC"; "H5"] -> (fmt = "H5" -> NoDup (map h5key (flat_map snd streams))) ->
  (forall f l, writer f l = None) -> (forall t u, h5key t = h5key u -> tr_id t = tr_id u) ->
  Forall2 (fun ps ops => write fmt_time str_of h5key writer (snd ps) pin fmt TRf = (ops, None)) streams opss ->
  reads (load fmt) rd -> id_sets id_set ->
  inventory_ok channels -> one_group channels ->
  (forall p s t, In (p, s) streams -> In t s -> channel_ok (channel (st t))) ->
  (forall p s, In (p, s) streams -> stackable (map rd (of_station p streams))) ->
  let before := do_ops fs0 (List.concat opss) in
  unrelated root before ->
  exists out fin ops,
    iter_processed fmt_time load None channels pin fmt before = (out, fin) /\
    stack_command fmt_time str_of h5key writer id_set root fmt out fin = (ops, None) /\
    let after := do_ops before ops in
    let stacked p t := In t (of_station p streams) /\ exists cha, in_inventory channels (p_net p) (p_sta p) (p_loc p) cha in
    (forall p s t, In (p, s) streams -> stacked p t ->
       exists r, holds after (stack_file fmt root p (channel (st t))) r /\ stack_of p (channel (st t)) (map rd (of_station p streams)) r) /\
    (forall n r, holds after n r -> holds before n r \/
       exists p t, stacked p t /\ n = stack_file fmt root p (channel (st t)) /\ stack_of p (channel (st t)) (map rd (of_station p streams)) r) /\
    (forall n f, dget after n = Some f -> dget before n = None -> NoDup (map (fun x => tr_id (snd x)) f)) /\
    (forall n f, dget before n = Some f -> dget after n = Some f).
Proof.
  intros Hc Hr Hu [t0 Ht0] Hg Hd Hf Hk Hwr Hkey Hw [Hl Hcd] Hid Hinv Hone Hch Hst before Hu2.
  destruct (C108_stations_partial fmt_time year str_of h5key writer load pin fs0 streams opss fmt channels t0 Hc Hr Hu Ht0 Hg Hd Hf Hk Hw) as (out & order & E & Hnd & Hor & HF);
    [intros l; eexists; apply Hl | exact Hinv | exact Hone|].
  set (pr := fun x : string * string * string => mkPair (fst (fst x)) (snd (fst x)) (snd x) t0).
  set (items := combine (map pr order) out).
  assert (length out = length order) as Hlen by (clear - HF; induction HF; cbn [length]; congruence).
  assert (map snd items = out) as Esnd.
  { unfold items. clear - Hlen. revert out Hlen. induction order as [|x order IH]; intros [|s out] Hlen; try discriminate; [reflexivity|]. cbn. f_equal. apply IH. injection Hlen. auto. }
  assert (forall p s, In (p, s) items -> exists x, In x order /\ p = pr x /\ Permutation s (map rd (of_station p streams))) as Hitems.
  { unfold items. clear - HF Hl. induction HF as [|x s order out (l & P & E) HF IH]; [intros p s []|]. intros p s'. cbn [map combine]. intros [Hin|Hin].
    - injection Hin as <- <-. exists x. split; [left; reflexivity|]. split; [reflexivity|]. rewrite Hl in E. injection E as <-. apply Permutation_map, P.
    - destruct (IH p s' Hin) as (y & Hy & Ey & Py). exists y. split; [right; exact Hy|]. auto. }
  assert (forall x, In x order -> exists s, In (pr x, s) items) as Hback.
  { unfold items. clear - HF. induction HF as [|x s order out _ HF IH]; intros y; [intros []|]. cbn [map combine]. intros [->|Hy]; [exists s; left; reflexivity|]. destruct (IH y Hy) as [s' Hs]. exists s'. right. exact Hs. }
  assert (forall x, In x order -> exists p s, In (p, s) streams /\ same_station (pr x) p) as Hhas.
  { intros [[n s] lo] Hx. apply Hor in Hx. destruct Hx as [_ (p & s' & Hin & E1 & E2 & E3)]. exists p, s'. split; [exact Hin|]. repeat split; cbn; congruence. }
  assert (Forall (fun x => station_stream (fst x) (snd x) /\ stackable (snd x)) items) as Hst2.
  { apply Forall_forall. intros [p s] Hin. cbn [fst snd]. destruct (Hitems p s Hin) as (x & Hx & -> & P). apply Permutation_sym in P. destruct (Hhas x Hx) as (q & s' & Hq & Hs). split.
    - eapply perm_station; [exact P|]. rewrite Forall_forall in Hg. destruct Hs as (E1 & E2 & E3). destruct (Hg _ Hq) as ((K1 & K2 & K3 & _) & _). cbn [fst] in *.
      unfold station_stream. rewrite E1, E2, E3. repeat (split; [assumption|]). apply Forall_forall. intros t' Ht'. apply in_map_iff in Ht'. destruct Ht' as (t & <- & Ht). apply of_station_in in Ht. destruct Ht as (q' & s2 & Hq' & (F1 & F2 & F3) & Ht).
      destruct (Hg _ Hq') as (_ & Htr & _). cbn [fst snd] in Htr. rewrite Forall_forall in Htr. destruct (Htr t Ht) as (G1 & G2 & G3 & _). destruct (Hcd t) as (C1 & C2 & C3 & C4). repeat (split; [congruence|]). rewrite C4. exact (Hch q' s2 t Hq' Ht).
    - eapply perm_stackable; [exact P|]. rewrite (of_station_same _ q streams Hs). exact (Hst q s' Hq). }
  assert (ForallOrdPairs (fun a b => ~ same_station (fst a) (fst b)) items) as Hdf.
  { unfold items. clear - Hnd Hlen. revert out Hlen. induction Hnd as [|x order Hx Hnd IH]; intros [|s out] Hlen; try discriminate; [constructor|]. cbn [map combine]. constructor; [|apply IH; injection Hlen; auto].
    apply Forall_forall. intros [p s'] Hin. apply in_combine_l in Hin. apply in_map_iff in Hin. destruct Hin as (y & <- & Hy). intros (E1 & E2 & E3). cbn in E1, E2, E3. apply Hx.
    destruct x as [[? ?] ?], y as [[? ?] ?]. cbn in *. subst. exact Hy. }
  destruct (C113_stacks fmt_time str_of h5key writer id_set root fmt before items Hid Hwr Hkey Hu2 Hf Hst2 Hdf) as (ops & fs & Es & -> & H1 & H2 & H3 & H4). rewrite Esnd in Es.
  exists out, None, ops. split; [exact E|]. split; [exact Es|]. cbv zeta. split; [|split; [|split; [exact H3 | exact H4]]].
  - intros p s t Hin [Ht (cha & Hi)].
    assert (In (p_net p, p_sta p, p_loc p) order) as Ho.
    { apply Hor. split; [|exists p, s; auto]. exists cha. rewrite Forall_forall in Hg. destruct (Hg _ Hin) as ((K1 & K2 & K3 & _) & _). auto. }
    destruct (Hback _ Ho) as (s' & Hs'). destruct (Hitems _ _ Hs') as (_ & _ & _ & P).
    assert (same_station (pr (p_net p, p_sta p, p_loc p)) p) as Hsame by (repeat split).
    rewrite (of_station_same _ _ streams Hsame) in P.
    destruct (Hcd t) as (_ & _ & _ & C4). destruct (H1 _ s' (rd t) Hs') as (r & Hr1 & Hr2); [eapply Permutation_in; [apply Permutation_sym, P | apply in_map, Ht]|]. rewrite C4 in Hr1, Hr2. exists r. split; [exact Hr1|].
    eapply perm_stack_of; [exact P | exact Hr2].
  - intros n r Hh. destruct (H2 n r Hh) as [H|(p & s & t & Hin & Ht & En & Hs)]; [left; exact H | right]. destruct (Hitems p s Hin) as (x & Hx & Ep & P).
    pose proof (Permutation_in _ P Ht) as Ht'. apply in_map_iff in Ht'. destruct Ht' as (u & Eu & Ht'). destruct (Hcd u) as (_ & _ & _ & C4). subst t. rewrite C4 in En, Hs.
    exists p, u. split; [|split; [exact En | eapply perm_stack_of; [exact P | exact Hs]]]. split; [exact Ht'|].
    subst p. destruct x as [[a b] c]. apply Hor in Hx. destruct Hx as [(cha & _ & _ & _ & Hi) _]. exists cha. exact Hi.
Qed.
Print Assumptions C120_archive_partial.

(** a case: two stations, one of them with two events *)
Definition key19 (t : trace) : string :=
  (match dget (extra (st t)) "event_time" with Some (VTime z) => clock_e z | _ => "-------------------" end ++ tr_id t)%string.
Lemma key19_id t u : key19 t = key19 u -> tr_id t = tr_id u.
Proof.
  unfold key19. intros E. apply (f_equal la) in E. rewrite !la_app in E. apply la_inj.
  assert (forall v : option value, length (la (match v with Some (VTime z) => clock_e z | _ => "-------------------" end)) = 19) as Hl.
  { intros [[]|]; try reflexivity. unfold clock_e. destruct (_ =? _)%Z; reflexivity. }
  assert (forall a b c d : list ascii, length a = length c -> a ++ b = c ++ d -> b = d) as Happ.
  { induction a as [|x a IH]; intros b [|y c] d Hab Hcd; try discriminate; [exact Hcd|]. injection Hcd as _ Hcd. apply (IH b c d); [injection Hab; auto | exact Hcd]. }
  eapply Happ; [|exact E]. rewrite !Hl. reflexivity.
Qed.
Definition arch_write := write clock_e (fun _ => "") key19 (fun _ _ => None).
(** rf stack *)
Definition arch_stack (pin root fmt : string) (channels : list string) (fs : files) : list wop * option exn :=
  let (out, fin) := iter_processed clock_e (fun _ l => Ok l) None channels pin fmt fs in
  stack_command clock_e (fun _ => "") key19 (fun _ _ => None) idset_e root fmt out fin.
Lemma idset_e_ok : id_sets idset_e.
Proof. intros s. split; [apply NoDup_nodup|]. intros i. apply nodup_In. Qed.
Example C120_nonvacuous :
  clock clock_e year_e /\ year_e 5 /\ Forall (good year_e) streams_e /\ ForallOrdPairs (fun a b => ~ same_pair (fst a) (fst b)) streams_e /\
  NoDup (map key19 (flat_map snd streams_e)) /\ (forall t u, key19 t = key19 u -> tr_id t = tr_id u) /\ id_sets idset_e /\ inventory_ok inv_e /\ one_group inv_e /\
  (forall p s t, In (p, s) streams_e -> In t s -> channel_ok (channel (st t))) /\
  (forall p s, In (p, s) streams_e -> stackable (of_station p streams_e)) /\
  exists opss, Forall2 (fun ps ops => arch_write (snd ps) "in" "SAC" TRf = (ops, None)) streams_e opss /\
    let before := do_ops [] (List.concat opss) in
    unrelated "out" before /\
    exists ops r, arch_stack "in" "out" "SAC" inv_e before = (ops, None) /\ length ops = 4 /\
      dget (do_ops before ops) "out/CX.PB01..BHQ.SAC" = Some [("", r)] /\ Forall2 Qeq (data r) [11 # 2]%Q.
Proof.
  split; [exact clock_e_ok|]. split; [unfold year_e; lia|].
  split; [repeat (constructor; [apply good_e; [repeat split | unfold year_e; lia]|]); constructor|].
  split; [repeat constructor; intros [(H1 & H2 & H3) H4]; cbn in *; try discriminate; vm_compute in H4; discriminate|].
  split.
  { match goal with |- NoDup ?l => let v := eval vm_compute in l in change (NoDup v) end. repeat (constructor; [cbn; intuition discriminate|]). constructor. }
  split; [exact key19_id|]. split; [exact idset_e_ok|]. split; [exact inv_e_ok|]. split; [exact inv_e_one|].
  split.
  { intros p s t Hin Ht. cbn in Hin. destruct Hin as [E|[E|[E|[]]]]; injection E as <- <-; cbn in Ht; destruct Ht as [<-|[<-|[]]]; repeat split. }
  split.
  { intros p s Hin. assert (Forall (fun x => stackable (of_station (fst x) streams_e)) streams_e) as H; [|rewrite Forall_forall in H; exact (H _ Hin)].
    repeat constructor; cbn; try discriminate.
    all: intros t u Ht Hu _; repeat (destruct Ht as [<-|Ht]; [repeat (destruct Hu as [<-|Hu]; [reflexivity|]); destruct Hu|]); destruct Ht. }
  eexists. split; [repeat (constructor; [reflexivity|]); constructor|]. split.
  { assert (forall fs, (forall n f, In (n, f) fs -> exists s, n = String "i" s) -> unrelated "out" fs) as H.
    { intros fs H n f Hin. destruct (H n f Hin) as [s ->]. split; [intros s' E; discriminate E | discriminate]. }
    apply H. vm_compute. intros n f Hin. repeat (destruct Hin as [E|Hin]; [injection E as <- _; eexists; reflexivity|]). destruct Hin. }
  eexists _, _. split; [vm_compute; reflexivity|]. split; [reflexivity|]. split; [vm_compute; reflexivity|]. repeat constructor.
Qed.

(** The full C120 does not hold. If a station has channels of two bands at the same location, its
    stacks are written twice into the Q file. If the stacks are written to the path of the archive
    with H5, the archive contains the stacks as if they were receiver functions. *)
Definition in_arch (fmt : string) : files := do_ops [] (flat_map (fun ps => fst (arch_write (snd ps) "in" fmt TRf)) streams_e).
Theorem C120_bands_refuted :
  exists channels ops f, inventory_ok channels /\ arch_stack "in" "out" "Q" channels (in_arch "Q") = (ops, None) /\
    dget (do_ops (in_arch "Q") ops) "out/CX.PB01..QHD" = Some f /\ map (fun x => tr_id (snd x)) f = ["CX.PB01..BHQ"; "CX.PB01..BHL"; "CX.PB01..BHQ"; "CX.PB01..BHL"].
Proof.
  exists ["CX.PB01..BHZ"; "CX.PB01..HHZ"]. eexists _, _. split; [|split; [vm_compute; reflexivity|split; vm_compute; reflexivity]].
  intros ch [<-|[<-|[]]]; [exists "CX", "PB01", "", "BHZ" | exists "CX", "PB01", "", "HHZ"]; (split; [reflexivity|]; repeat (split; try reflexivity); discriminate).
Qed.
Print Assumptions C120_bands_refuted.
Theorem C120_in_place_refuted :
  exists ops l m, arch_stack "in" "in" "H5" inv_e (in_arch "H5") = (ops, None) /\
    fst (iter_processed clock_e (fun _ l => Ok l) None inv_e "in" "H5" (in_arch "H5")) = l /\ map (@length trace) l = [4; 2] /\
    fst (iter_processed clock_e (fun _ l => Ok l) None inv_e "in" "H5" (do_ops (in_arch "H5") ops)) = m /\ map (@length trace) m = [6; 4].
Proof. eexists _, _, _. split; [vm_compute; reflexivity|]. split; [reflexivity|]. split; [vm_compute; reflexivity|]. split; [reflexivity|]. vm_compute. reflexivity. Qed.
Print Assumptions C120_in_place_refuted.

(** * C121 *)
(** The stations before one which cannot be stacked are written as if it were not there, and the
    command ends with its error. *)
Theorem C121_before_partial fmt_time str_of h5key writer id_set root fmt streams s rest fin ops e :
  stack_command fmt_time str_of h5key writer id_set root fmt streams None = (ops, None) ->
  stack (id_set s) s = Err e ->
  stack_command fmt_time str_of h5key writer id_set root fmt (streams ++ s :: rest) fin = (ops, Some e).
Proof.
  intros H Hs. revert ops H. induction streams as [|x streams IH]; intros ops H; cbn [app stack_command] in *.
  - injection H as <-. rewrite Hs. reflexivity.
  - destruct (stack (id_set x) x) as [out|]; [|discriminate]. destruct (write fmt_time str_of h5key writer out root fmt TStack) as [o [e'|]]; [discriminate|].
    destruct (stack_command fmt_time str_of h5key writer id_set root fmt streams None) as [o' [e'|]]; [discriminate|]. rewrite (IH o' eq_refl). injection H as <-. reflexivity.
Qed.
Print Assumptions C121_before_partial.
(** The full C121 does not hold: after a station with traces of different lengths no station is
    stacked. *)
Definition uneven_e : list trace := [stk_tr "PB01" "BHQ" 100 [1; 2; 3]%Z; stk_tr "PB01" "BHQ" 900 [5; 8]%Z].
Theorem C121_later_refuted :
  exists e, stack_command (fun _ => "") (fun _ => "") tr_id (fun _ _ => None) idset_e "out" "SAC" [uneven_e; [stk_tr "PB02" "BHQ" 100 [7; 7]%Z]] None = ([], Some e) /\
    exists ops, stack_command (fun _ => "") (fun _ => "") tr_id (fun _ _ => None) idset_e "out" "SAC" [[stk_tr "PB02" "BHQ" 100 [7; 7]%Z]] None = (ops, None) /\ length ops = 1.
Proof. eexists. split; [vm_compute; reflexivity|]. eexists. split; [vm_compute; reflexivity | reflexivity]. Qed.
Print Assumptions C121_later_refuted.
(** a case of the theorem *)
Example C121_nonvacuous :
  exists ops e, stack_command (fun _ => "") (fun _ => "") tr_id (fun _ _ => None) idset_e "out" "SAC" (map snd stk_e) None = (ops, None) /\ length ops = 3 /\
    stack (idset_e uneven_e) uneven_e = Err e.
Proof. eexists _, _. split; [vm_compute; reflexivity|]. split; [reflexivity | vm_compute; reflexivity]. Qed.
