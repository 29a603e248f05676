(** The command stack. *)
From Verif Require Import Model.Figures Spec.BatchSpec Spec.FigureSpec Spec.MeanSpec Spec.TraceSpec Spec.StackSpec Proofs.PyFacts Proofs.StackFacts Proofs.BatchFacts Proofs.BatchRead Proofs.OnceFacts Proofs.FigureFacts.
Notation length := List.length.

Lemma NoDup_parts {A} (l m : list A) : NoDup (l ++ m) -> NoDup l /\ NoDup m.
Proof.
  induction l as [|x l IH]; cbn [app]; intros H; [split; [constructor | exact H]|]. inversion H; subst. destruct (IH H3) as [H4 H5]. split; [|exact H5].
  constructor; [|exact H4]. intros Hin. apply H2, in_or_app. left. exact Hin.
Qed.
Lemma mapM_F2 {A B} (f : A -> res B) l out : mapM f l = Ok out -> Forall2 (fun x y => f x = Ok y) l out.
Proof.
  revert out. induction l as [|x l IH]; intros out H; cbn in H; [injection H as <-; constructor|].
  destruct (f x) eqn:E; [|discriminate]. cbn [bind] in H. destruct (mapM f l); [|discriminate]. cbn [bind] in H. injection H as <-. constructor; auto.
Qed.
Lemma copy_onset_codes tr a b : copy_onset tr a = Ok b ->
  network (st b) = network (st a) /\ station (st b) = station (st a) /\ location (st b) = location (st a) /\ channel (st b) = channel (st a).
Proof.
  unfold copy_onset. destruct (dget (extra (st tr)) "onset") as [[]|]; intros H; try discriminate; injection H as <-; repeat split.
Qed.
Lemma stack_one_codes s tr id o : stack_one s tr id = Ok o -> split_on "." id = [network (st o); station (st o); location (st o); channel (st o)].
Proof.
  unfold stack_one. destruct (split_on "." id) as [|net [|sta [|loc [|cha [|]]]]]; try discriminate.
  destruct (np_mean0 _); [|discriminate]. cbn [bind]. intros H. apply copy_onset_codes in H. cbn in H. destruct H as (-> & -> & -> & ->). reflexivity.
Qed.

(** the stacks of one station *)
Lemma stack_station ids p s : set_order ids s -> station_stream p s -> stackable s ->
  exists out, stack ids s = Ok out /\ NoDup (map (fun t => channel (st t)) out) /\
    (forall c, In c (map (fun t => channel (st t)) out) <-> exists t, In t s /\ channel (st t) = c) /\
    Forall (fun t => stack_of p (channel (st t)) s t) out.
Proof.
  intros Hid (C1 & C2 & C3 & Hs) (Hne & Hon & Hlen). assert (Forall no_dots s) as Hnd.
  { eapply Forall_impl; [|exact Hs]. cbn. intros t (E1 & E2 & E3 & (_ & _ & Hc) & _). unfold no_dots. rewrite E1, E2, E3. destruct C1 as (_ & _ & ?), C2 as (_ & _ & ?), C3 as (_ & _ & ?). repeat split; assumption. }
  assert (forall t, In t s -> tr_id t = (p_net p ++ "." ++ p_sta p ++ "." ++ p_loc p ++ "." ++ channel (st t))%string) as Htid.
  { intros t Ht. rewrite Forall_forall in Hs. destruct (Hs t Ht) as (E1 & E2 & E3 & _). unfold tr_id, stats_id. rewrite E1, E2, E3. reflexivity. }
  assert (forall t c, In t s -> (tr_id t = (p_net p ++ "." ++ p_sta p ++ "." ++ p_loc p ++ "." ++ c)%string <-> channel (st t) = c)) as Hti.
  { intros t c Ht. rewrite (Htid t Ht). split; [|intros ->; reflexivity]. intros E. apply (f_equal la) in E. rewrite !la_app in E.
    do 6 apply app_inv_head in E. apply la_inj. exact E. }
  destruct (stack_spec s ids Hne Hid Hnd Hon) as [Hok _]. destruct Hok as (out & Eo & Em & Hmean).
  { intros t u Ht Hu E. apply Hlen; [assumption..|]. symmetry. apply (Hti u); [assumption|]. rewrite <- E. apply Htid, Ht. }
  exists out. split; [exact Eo|].
  assert (forall o, In o out -> network (st o) = p_net p /\ station (st o) = p_sta p /\ location (st o) = p_loc p /\
    tr_id o = (p_net p ++ "." ++ p_sta p ++ "." ++ p_loc p ++ "." ++ channel (st o))%string) as Hcodes.
  { intros o Ho. destruct s as [|tr s']; [congruence|]. cbn [stack] in Eo. apply mapM_F2 in Eo. destruct (F2_in_r _ _ _ _ Eo Ho) as (id & Hidin & E1). apply stack_one_codes in E1.
    apply Hid in Hidin. apply in_map_iff in Hidin. destruct Hidin as (t & Et & Ht). rewrite Forall_forall in Hnd. rewrite <- Et, (split_id t (Hnd t Ht)) in E1.
    rewrite Forall_forall in Hs. destruct (Hs t Ht) as (F1 & F2 & F3 & _). injection E1 as E1 E2 E3 E4. rewrite F1 in E1. rewrite F2 in E2. rewrite F3 in E3.
    rewrite <- E1, <- E2, <- E3. repeat split. unfold tr_id, stats_id. rewrite <- E1, <- E2, <- E3. reflexivity. }
  destruct Hid as [Hidn Hidi]. split; [|split].
  - rewrite <- Em in Hidn. clear - Hidn Hcodes. induction out as [|o out IH]; [constructor|]. cbn [map] in *. inversion Hidn as [|? ? H1 H2]; subst. constructor; [|apply IH; [exact H2 | intros; apply Hcodes; right; assumption]].
    intros Hin. apply H1. apply in_map_iff in Hin. destruct Hin as (u & E & Hu). apply in_map_iff. exists u. split; [|exact Hu].
    destruct (Hcodes u (or_intror Hu)) as (_ & _ & _ & ->). destruct (Hcodes o (or_introl eq_refl)) as (_ & _ & _ & ->). rewrite E. reflexivity.
  - intros c. rewrite in_map_iff. split.
    + intros (o & <- & Ho). assert (In (tr_id o) ids) as Hin by (rewrite <- Em; apply in_map, Ho). apply Hidi in Hin. apply in_map_iff in Hin. destruct Hin as (t & E & Ht). exists t. split; [exact Ht|].
      apply (Hti t); [exact Ht|]. rewrite E. apply Hcodes, Ho.
    + intros (t & Ht & <-). assert (In (tr_id t) (map tr_id out)) as Hin by (rewrite Em; apply Hidi, in_map, Ht). apply in_map_iff in Hin. destruct Hin as (o & E & Ho). exists o. split; [|exact Ho].
      symmetry. apply (Hti t); [exact Ht|]. rewrite <- E. apply Hcodes, Ho.
  - apply Forall_forall. intros o Ho. destruct (Hcodes o Ho) as (E1 & E2 & E3 & E4). unfold stack_of. repeat (split; [assumption || reflexivity|]).
    specialize (Hmean o Ho). rewrite E4 in Hmean. unfold of_channel. erewrite filter_ext_in'; [exact Hmean|]. intros t Ht. cbn. apply Bool.eq_iff_eq_true. rewrite !String.eqb_eq. symmetry. apply Hti, Ht.
Qed.

Section S.
  Variable fmt_time : Z -> string.
  Variable str_of : value -> string.
  Variable h5key : trace -> string.
  Variable writer : string -> list trace -> option exn.
  Variable id_set : list trace -> list string.
  Hypothesis Hw : forall f l, writer f l = None.
  Definition file_of (fmt root : string) (t : trace) : string := stack_file fmt root (mkPair (network (st t)) (station (st t)) (location (st t)) 0) (channel (st t)).
  Lemma tname fmt root t : In fmt ["Q"; "SAC"; "H5"] -> trace_fname fmt_time str_of TStack fmt root t = Ok (file_of fmt root t).
  Proof.
    intros Hf. unfold file_of, stack_file, trace_fname, stack_fname, nsl. cbn [p_net p_sta p_loc].
    destruct Hf as [<-|[<-|[<-|[]]]]; cbn [String.eqb Ascii.eqb Bool.eqb]; f_equal; apply la_inj; rewrite !la_app, <- ?app_assoc; reflexivity.
  Qed.
  Definition wops (fmt root : string) (out : list trace) : list wop :=
    if String.eqb fmt "Q" then match out with [] => [] | t :: _ => [Append (file_of fmt root t) out] end
    else if String.eqb fmt "SAC" then map (fun t => Put (file_of fmt root t) t) out
    else map (fun t => Dataset (root ++ ".h5")%string (h5key t) t) out.
  Lemma write_stack fmt root out : In fmt ["Q"; "SAC"; "H5"] -> write fmt_time str_of h5key writer out root fmt TStack = (wops fmt root out, None).
  Proof.
    intros Hf. destruct out as [|t out]; [destruct Hf as [<-|[<-|[<-|[]]]]; reflexivity|].
    destruct Hf as [<-|[<-|[<-|[]]]]; unfold write.
    - change (upper "Q") with "Q". rewrite tname by (cbn; tauto). cbn [String.eqb Ascii.eqb Bool.eqb]. rewrite Hw. reflexivity.
    - change (upper "SAC") with "SAC". rewrite tname by (cbn; tauto). cbn [String.eqb Ascii.eqb Bool.eqb]. change (wops "SAC" root (t :: out)) with (map (fun t => Put (file_of "SAC" root t) t) (t :: out)).
      generalize (t :: out). clear t out. intros out. induction out as [|t out IH]; [reflexivity|]. cbn [write_sac map]. rewrite tname by (cbn; tauto). rewrite Hw, IH. reflexivity.
    - change (upper "H5") with "H5". rewrite tname by (cbn; tauto). cbn [String.eqb Ascii.eqb Bool.eqb]. rewrite Hw. reflexivity.
  Qed.

  Definition stacked (x : spair * list trace) (out : list trace) : Prop :=
    out <> [] /\ NoDup (map (fun t => channel (st t)) out) /\
    (forall c, In c (map (fun t => channel (st t)) out) <-> exists t, In t (snd x) /\ channel (st t) = c) /\
    Forall (fun t => stack_of (fst x) (channel (st t)) (snd x) t) out.
  Lemma command_run root fmt items : id_sets id_set -> In fmt ["Q"; "SAC"; "H5"] ->
    Forall (fun x => station_stream (fst x) (snd x) /\ stackable (snd x)) items ->
    exists outs, Forall2 stacked items outs /\
      stack_command fmt_time str_of h5key writer id_set root fmt (map snd items) None = (List.concat (map (wops fmt root) outs), None).
  Proof.
    intros Hid Hf. induction items as [|[p s] items IH]; intros H; [exists []; split; [constructor | reflexivity]|].
    inversion H as [|? ? [H1 H2] H3]; subst. cbn [fst snd] in *. destruct (IH H3) as (outs & HF & E). destruct (stack_station _ p s (Hid s) H1 H2) as (out & Eo & Hn & Hc & Ho).
    exists (out :: outs). split.
    - constructor; [|exact HF]. split; [|auto]. destruct H2 as (Hne & _). destruct s as [|t s]; [congruence|]. intros ->. apply (proj2 (Hc (channel (st t)))). exists t. split; [left|]; reflexivity.
    - cbn [map stack_command snd]. rewrite Eo, write_stack by exact Hf. rewrite E. reflexivity.
  Qed.

  (** the new files *)
  Variable root : string.
  Variable fs0 : files.
  Hypothesis Hu : unrelated root fs0.
  Variable items : list (spair * list trace).
  Variable outs : list (list trace).
  Hypothesis Hst : Forall (fun x => station_stream (fst x) (snd x)) items.
  Hypothesis Hdiff : ForallOrdPairs (fun a b => ~ same_station (fst a) (fst b)) items.
  Hypothesis HF : Forall2 stacked items outs.
  Let all := List.concat outs.
  Lemma all_in t : In t all -> exists x out, In x items /\ In out outs /\ In t out /\ stacked x out.
  Proof.
    unfold all. rewrite in_concat. intros (out & Ho & Ht). destruct (F2_in_r _ _ _ _ HF Ho) as (x & Hx & Hs). exists x, out. auto.
  Qed.
  Lemma all_ids : NoDup (map tr_id all).
  Proof.
    unfold all. revert HF Hdiff Hst. clear. revert outs. generalize items. intros l. induction l as [|x l IH]; intros outs0 HF Hdiff Hst; inversion HF as [|? out ? outs' H1 H2]; subst; [constructor|].
    inversion Hdiff as [|? ? H3 H4]; subst. inversion Hst as [|? ? H5 H6]; subst. cbn [List.concat]. rewrite map_app. destruct H1 as (_ & Hn & Hc & Ho). rewrite Forall_forall in Ho. apply NoDup_app_intro.
    - clear - Hn Ho. induction out as [|t out IH]; [constructor|]. cbn [map] in *. inversion Hn; subst. constructor; [|apply IH; [assumption | intros; apply Ho; right; assumption]].
      intros Hin. apply in_map_iff in Hin. destruct Hin as (u & E & Huu). apply H1. apply in_map_iff. exists u. split; [|exact Huu]. destruct (Ho t (or_introl eq_refl)) as (T1 & T2 & T3 & _).
      destruct (Ho u (or_intror Huu)) as (U1 & U2 & U3 & _). unfold tr_id, stats_id in E. rewrite T1, T2, T3, U1, U2, U3 in E. apply (f_equal la) in E. rewrite !la_app in E. do 6 apply app_inv_head in E. apply la_inj, E.
    - apply IH; assumption.
    - intros i Hi Hj. apply in_map_iff in Hi. destruct Hi as (t & Et & Ht). apply in_map_iff in Hj. destruct Hj as (u & Eu & Huu). apply in_concat in Huu. destruct Huu as (out' & Hout' & Huu).
      destruct (F2_in_r _ _ _ _ H2 Hout') as (y & Hy & (_ & _ & _ & Ho')). rewrite Forall_forall in Ho', H3. apply (H3 y Hy). destruct (Ho t Ht) as (T1 & T2 & T3 & _). destruct (Ho' u Huu) as (U1 & U2 & U3 & _).
      destruct H5 as ((_ & _ & D1) & (_ & _ & D2) & (_ & _ & D3) & _). rewrite Forall_forall in H6. destruct (H6 y Hy) as ((_ & _ & F1) & (_ & _ & F2) & (_ & _ & F3) & _).
      rewrite <- Eu in Et. unfold tr_id, stats_id in Et. rewrite T1, T2, T3, U1, U2, U3 in Et. apply (f_equal la) in Et. rewrite !la_app in Et. change (la ".") with ["."%char] in Et. cbn [app] in Et.
      apply char_in_la in D1, D2, D3, F1, F2, F3. apply split_sep in Et; [|assumption..]. destruct Et as [E1 Et]. apply split_sep in Et; [|assumption..]. destruct Et as [E2 Et]. apply split_sep in Et; [|assumption..]. destruct Et as [E3 _].
      repeat split; apply la_inj; assumption.
  Qed.
  Hypothesis Hkey : forall t u, h5key t = h5key u -> tr_id t = tr_id u.
  Lemma NoDup_map_by {A B C} (f : A -> B) (g : A -> C) l : (forall x y, In x l -> In y l -> f x = f y -> g x = g y) -> NoDup (map g l) -> NoDup (map f l).
  Proof.
    induction l as [|x l IH]; intros H Hn; [constructor|]. cbn [map] in *. inversion Hn; subst. constructor; [|apply IH; [intros; apply H; [right; assumption..|assumption] | assumption]].
    intros Hin. apply in_map_iff in Hin. destruct Hin as (y & E & Hy). apply H2. apply in_map_iff. exists y. split; [|exact Hy]. apply H; [right; exact Hy | left; reflexivity | exact E].
  Qed.
  Lemma new_files fmt : In fmt ["Q"; "SAC"; "H5"] -> exists new : files,
    do_ops fs0 (List.concat (map (wops fmt root) outs)) = fs0 ++ new /\ NoDup (map fst new) /\ (forall n, In n (map fst new) -> ~ In n (map fst fs0)) /\
    (forall t, In t all -> exists f k, In (file_of fmt root t, f) new /\ In (k, t) f) /\
    (forall n f k t, In (n, f) new -> In (k, t) f -> In t all /\ n = file_of fmt root t) /\
    (forall n f, In (n, f) new -> NoDup (map (fun x => tr_id (snd x)) f)).
  Proof.
    intros Hf. destruct Hf as [<-|[<-|[<-|[]]]].
    - pose (name := fun out => match out with [] => "" | t :: _ => file_of "Q" root t end).
      assert (forall out t, In out outs -> In t out -> name out = file_of "Q" root t) as Hname.
      { intros out t Ho Ht. destruct (F2_in_r _ _ _ _ HF Ho) as (x & _ & (_ & _ & _ & Hs)). rewrite Forall_forall in Hs. destruct out as [|u out]; [destruct Ht|]. cbn [name].
        destruct (Hs t Ht) as (E1 & E2 & E3 & _). destruct (Hs u (or_introl eq_refl)) as (F1 & F2 & F3 & _). unfold file_of, stack_file. cbn. rewrite E1, E2, E3, F1, F2, F3. reflexivity. }
      assert (Forall2 (fun x out => name out = (root ++ "/" ++ p_net (fst x) ++ "." ++ p_sta (fst x) ++ "." ++ p_loc (fst x) ++ ".QHD")%string) items outs) as HN.
      { clear Hname Hu. revert HF. clear. generalize items outs. intros l m HG. induction HG as [|x out l m (Hne & _ & _ & Hs) HG IH]; constructor; [|exact IH].
        destruct out as [|t out]; [congruence|]. inversion Hs as [|? ? (E1 & E2 & E3 & _) _]; subst. cbn [name]. unfold file_of, stack_file. cbn. rewrite E1, E2, E3. reflexivity. }
      assert (List.concat (map (wops "Q" root) outs) = map (fun p => Append (fst p) (snd p)) (map (fun out => (name out, out)) outs)) as ->.
      { rewrite map_map. cbn [fst snd]. revert HF. clear. generalize items outs. intros l m HG. induction HG as [|x out l m (Hne & _) HG IH]; [reflexivity|]. cbn [map List.concat]. rewrite IH.
        destruct out as [|t out]; [congruence|]. reflexivity. }
      assert (NoDup (map fst (map (fun out => (name out, out)) outs))) as Hnd.
      { rewrite map_map. cbn [fst]. revert HN Hdiff Hst. clear. generalize items outs. intros l m HN. induction HN as [|x out l m E HN IH]; intros Hd Hs; [constructor|].
        inversion Hd as [|? ? D1 D2]; subst. inversion Hs as [|? ? S1 S2]; subst. cbn [map]. constructor; [|apply IH; assumption]. intros Hin. apply in_map_iff in Hin. destruct Hin as (o & Eo & Ho).
        destruct (F2_in_r _ _ _ _ HN Ho) as (y & Hy & Ey). rewrite Forall_forall in D1, S2. apply (D1 y Hy). rewrite E, Ey in Eo. apply (f_equal la) in Eo. rewrite !la_app in Eo. do 2 apply app_inv_head in Eo.
        change (la ".") with ["."%char] in Eo. cbn [app] in Eo. destruct S1 as ((_ & _ & D3) & (_ & _ & D4) & (_ & _ & D5) & _). destruct (S2 y Hy) as ((_ & _ & F3) & (_ & _ & F4) & (_ & _ & F5) & _).
        apply char_in_la in D3, D4, D5, F3, F4, F5. apply split_sep in Eo; [|assumption..]. destruct Eo as [E1 Eo]. apply split_sep in Eo; [|assumption..]. destruct Eo as [E2 Eo]. apply app_inv_tail in Eo.
        repeat split; apply la_inj; congruence. }
      assert (forall n, In n (map fst (map (fun out => (name out, out)) outs)) -> ~ In n (map fst fs0)) as Hfr.
      { intros n Hn Hin. rewrite map_map in Hn. apply in_map_iff in Hn. destruct Hn as (out & <- & Ho). cbn [fst] in Hin. destruct (F2_in_r _ _ _ _ HN Ho) as (x & _ & E).
        apply in_map_iff in Hin. destruct Hin as ([m f] & Em & Hin). cbn [fst] in Em. destruct (Hu m f Hin) as [Hx _]. eapply Hx. rewrite Em. exact E. }
      eexists. split; [apply appends_new; assumption|]. rewrite !map_map in *. cbn [fst snd] in *. split; [exact Hnd|]. split; [exact Hfr|]. split; [|split].
      + intros t Ht. unfold all in Ht. apply in_concat in Ht. destruct Ht as (out & Ho & Ht). exists (map (pair "") out), "". split; [|apply in_map, Ht].
        apply in_map_iff. exists out. rewrite (Hname out t Ho Ht). auto.
      + intros n f k t Hin Hk. apply in_map_iff in Hin. destruct Hin as (out & E & Ho). injection E as <- <-. apply in_map_iff in Hk. destruct Hk as (u & E & Ht). injection E as _ ->.
        split; [unfold all; apply in_concat; exists out; auto | apply Hname; assumption].
      + intros n f Hin. apply in_map_iff in Hin. destruct Hin as (out & E & Ho). injection E as <- <-. rewrite map_map. cbn [snd]. pose proof all_ids as Hi. unfold all in Hi. clear - Ho Hi.
        induction outs as [|o l IH]; [destruct Ho|]. cbn [List.concat] in Hi. rewrite map_app in Hi. apply NoDup_parts in Hi. destruct Ho as [->|Ho]; [apply Hi | apply IH; [exact Ho | apply Hi]].
    - assert (forall t, la (file_of "SAC" root t) = la (root ++ "/")%string ++ la (tr_id t) ++ la ".SAC") as Hla.
      { intros t. unfold file_of, stack_file, tr_id, stats_id. cbn [String.eqb Ascii.eqb Bool.eqb p_net p_sta p_loc]. rewrite !la_app, <- !app_assoc. reflexivity. }
      assert (List.concat (map (wops "SAC" root) outs) = map (fun p => Put (fst p) (snd p)) (map (fun t => (file_of "SAC" root t, t)) all)) as ->.
      { rewrite map_map. cbn [fst snd]. unfold all. clear. induction outs as [|o l IH]; [reflexivity|]. cbn [map List.concat]. rewrite map_app, IH. reflexivity. }
      assert (NoDup (map fst (map (fun t => (file_of "SAC" root t, t)) all))) as Hnd.
      { rewrite map_map. cbn [fst]. apply (NoDup_map_by _ tr_id); [|exact all_ids]. intros x y _ _ E. apply (f_equal la) in E. rewrite !Hla in E. apply app_inv_head, app_inv_tail in E. apply la_inj, E. }
      assert (forall n, In n (map fst (map (fun t => (file_of "SAC" root t, t)) all)) -> ~ In n (map fst fs0)) as Hfr.
      { intros n Hn Hin. rewrite map_map in Hn. apply in_map_iff in Hn. destruct Hn as (t & <- & Ho). cbn [fst] in Hin.
        apply in_map_iff in Hin. destruct Hin as ([m f] & Em & Hin). cbn [fst] in Em. destruct (Hu m f Hin) as [Hx _]. eapply Hx. rewrite Em. reflexivity. }
      eexists. split; [apply puts_new; assumption|]. rewrite !map_map in *. cbn [fst snd] in *. split; [exact Hnd|]. split; [exact Hfr|]. split; [|split].
      + intros t Ht. exists [("", t)], "". split; [|left; reflexivity]. apply in_map_iff. exists t. auto.
      + intros n f k t Hin Hk. apply in_map_iff in Hin. destruct Hin as (u & E & Ho). injection E as <- <-. destruct Hk as [E|[]]. injection E as _ ->. auto.
      + intros n f Hin. apply in_map_iff in Hin. destruct Hin as (u & E & Ho). injection E as <- <-. cbn. constructor; [intros [] | constructor].
    - assert (List.concat (map (wops "H5" root) outs) = map (fun p => Dataset (root ++ ".h5") (fst p) (snd p)) (map (fun t => (h5key t, t)) all)) as ->.
      { rewrite map_map. cbn [fst snd]. unfold all. clear. induction outs as [|o l IH]; [reflexivity|]. cbn [map List.concat]. rewrite map_app, IH. reflexivity. }
      assert (~ In (root ++ ".h5")%string (map fst fs0)) as Hni.
      { intros Hin. apply in_map_iff in Hin. destruct Hin as ([m f] & Em & Hin). cbn [fst] in Em. destruct (Hu m f Hin) as [_ Hx]. exact (Hx Em). }
      pose proof all_ids as Hids. destruct all as [|t0 l] eqn:Eall.
      { exists []. cbn [map]. split; [symmetry; apply app_nil_r|]. split; [constructor|]. split; [intros n []|]. split; [intros t []|]. split; [intros n f k t []|intros n f []]. }
      exists [((root ++ ".h5")%string, map (fun t => (h5key t, t)) (t0 :: l))]. split.
      { rewrite (datasets_new _ _ fs0 []).
        - cbn [app]. apply aset_new, Hni.
        - rewrite map_map. cbn [fst]. apply (NoDup_map_by _ tr_id); [intros; apply Hkey; assumption | exact Hids].
        - intros k _ [].
        - discriminate.
        - unfold contents. rewrite dget_notin by exact Hni. reflexivity. }
      split; [constructor; [intros [] | constructor]|]. split; [intros n [<-|[]]; exact Hni|]. split; [|split].
      + intros t Ht. eexists _, (h5key t). split; [left; reflexivity|]. apply (in_map (fun t => (h5key t, t))), Ht.
      + intros n f k t [E|[]] Hk. injection E as <- <-. change (In (k, t) (map (fun t => (h5key t, t)) (t0 :: l))) in Hk. apply in_map_iff in Hk. destruct Hk as (u & E & Ht). injection E as _ ->. split; [exact Ht | reflexivity].
      + intros n f [E|[]]. injection E as <- <-. change ((h5key t0, t0) :: map (fun t => (h5key t, t)) l) with (map (fun t => (h5key t, t)) (t0 :: l)). rewrite map_map. exact Hids.
  Qed.
End S.
