(** C134-C136: streams which share arrays. *)
From Verif Require Import Model.Memory Spec.TimeSpec Spec.RfSpec Spec.MemorySpec Proofs.PyFacts Proofs.TimeFacts Proofs.RfFacts Proofs.MemoryFacts.
Notation length := List.length.

Section Props.
  Variable str_of : value -> string.
  Variable filt : act.
  Variable lowpass : Z -> list Q -> list Q.
  Variable rot : list loc -> heap -> heap * res unit.
  Variable rot_new : list loc -> list loc.
  Variable dec : string -> list loc -> heap -> heap * res unit.
  Variable dec_new : list loc -> list loc.
  Variable mo : trace -> res (list Q).
  Variable mark : stats -> stats.
  Hypothesis Hrot : group_method rot rot_new.
  Hypothesis Hdec : forall m, group_method (dec m) dec_new.
  Hypothesis Hmo : keeps_length mo.
  Let step := do_call str_of filt lowpass rot rot_new dec dec_new mo mark.

  (** ** C134: a copy is independent *)
  (** A program which has hold of traces that have no array in common with the traces elsewhere never
      changes what is seen of those, whatever it calls. *)
  Theorem C134_independent elsewhere ls w w' :
    allocated w -> apart w ls elsewhere -> program step anything elsewhere ls w w' ->
    forall l, elsewhere l -> seen w' l = seen w l.
  Proof. intros Ha Hp Hr. exact (proj2 (program_apart str_of filt lowpass rot rot_new dec dec_new mo mark Hrot Hdec Hmo anything elsewhere ls w w' Hr Ha Hp)). Qed.
  (** stream.copy(), and then anything with the copy *)
  Theorem C134_copy elsewhere ls new w : allocated w -> (forall l, In l new -> ~ elsewhere l) -> length new = length ls ->
    exists w1, step (KCopy ls new) w = (w1, Ok new) /\
      forall w', program step anything elsewhere new w1 w' -> forall l, elsewhere l -> seen w' l = seen w l.
  Proof.
    intros Ha Hn Hl. exists (fst (v_copy ls new w)). split; [unfold step, do_call, v_copy; cbn [fst]; rewrite <- Hl, firstn_all; reflexivity|].
    intros w' Hp l HE. pose proof (copy_apart ls new elsewhere w Ha Hn) as Hap. rewrite <- Hl, firstn_all in Hap. destruct (created_copy ls new w) as (G & _).
    destruct (program_apart str_of filt lowpass rot rot_new dec dec_new mo mark Hrot Hdec Hmo _ _ _ _ _ Hp (proj1 G Ha) Hap) as [_ F].
    rewrite F by exact HE. apply (grows_seen _ _ _ _ Ha G). intros H. exact (Hn l H HE).
  Qed.

  (** ** C135: parts of a stream *)
  (** Without the moveout correction, no method changes traces elsewhere, even if arrays are shared. *)
  Theorem C135_no_moveout_partial elsewhere ls w w' :
    allocated w -> (forall l, In l ls -> ~ elsewhere l) -> program step (fun c => ~ is_moveout c) elsewhere ls w w' ->
    forall l, elsewhere l -> seen w' l = seen w l.
  Proof. intros Ha Hd Hr. exact (proj2 (program_no_moveout str_of filt lowpass rot rot_new dec dec_new mo mark Hrot Hdec elsewhere ls w w' Hr Ha Hd)). Qed.
  (** After a filter, anything is possible. *)
  Theorem C135_filtered_partial elsewhere ls w w' :
    allocated w -> (forall l, In l ls -> ~ elsewhere l) -> program step anything elsewhere ls (fst (step (KFilter ls) w)) w' ->
    forall l, elsewhere l -> seen w' l = seen w l.
  Proof.
    intros Ha Hd Hp l HE. assert (fst (step (KFilter ls) w) = fst (v_filter filt ls w)) as E0 by (unfold step; cbn [do_call]; destruct (v_filter filt ls w); reflexivity). rewrite E0 in Hp.
    destruct (stays_filter filt ls ls w (incl_refl _)) as [G _].
    destruct (program_apart str_of filt lowpass rot rot_new dec dec_new mo mark Hrot Hdec Hmo _ _ _ _ _ Hp (proj1 G Ha) (filter_apart filt ls elsewhere w Ha Hd)) as [_ F].
    rewrite F by exact HE. apply (grows_seen _ _ _ _ Ha G). intros H. exact (Hd l H HE).
  Qed.
  (** The same after rf, if it filters, or if it rotates all traces. *)
  Theorem C135_rf_partial elsewhere a ls w w' :
    allocated w -> (forall l, In l ls -> ~ elsewhere l) -> (exists m, rf_method a (map (seen w) ls) = Ok m) ->
    (a_filter a = true \/
     a_filter a = false /\ a_trim a = None /\ a_downsample a = None /\ a_rotate a = true /\
       exists gs, iter3c str_of ls (seen w) = Ok gs /\ incl ls (flat_map rot_new gs)) ->
    program step anything elsewhere ls (fst (step (KRf a ls) w)) w' ->
    forall l, elsewhere l -> seen w' l = seen w l.
  Proof.
    intros Ha Hd Hm Hc Hp l HE.
    assert (allocated (fst (step (KRf a ls) w)) /\ apart (fst (step (KRf a ls) w)) ls elsewhere /\ forall l, elsewhere l -> seen (fst (step (KRf a ls) w)) l = seen w l) as (A & P & F).
    { unfold step. cbn [do_call]. destruct Hc as [Hf|(Hf & Ht & Hds & Hr & gs & Hg & Hi)].
      - apply rf_filter_apart; assumption.
      - eapply rf_rotate_apart; eassumption. }
    destruct (program_apart str_of filt lowpass rot rot_new dec dec_new mo mark Hrot Hdec Hmo _ _ _ _ _ Hp A P) as [_ F']. rewrite F', F by exact HE. reflexivity.
  Qed.
  (** A moveout correction of a slice replaces the samples of this window in the original. *)
  Theorem C135_slice_writes a b r keep l0 n w w1 w2 d : allocated w -> n <> l0 ->
    step (KSlice a b r keep [l0] [n]) w = (w1, Ok [n]) -> mo (seen w1 n) = Ok d -> step (KMoveout [n]) w1 = (w2, Ok [n]) ->
    exists k, data (seen w1 n) = firstn (length d) (skipn k (data (seen w l0))) /\
      data (seen w2 l0) = firstn k (data (seen w l0)) ++ d ++ skipn (k + length d) (data (seen w l0)).
  Proof.
    intros Ha Hne E1 Em E2. unfold step in E1. cbn [do_call v_slice2] in E1. unfold v_slice2 in E1. cbn [mapM] in E1. destruct (cut_rel (w_mem w) a b r (w_obj w l0)) as [t|] eqn:Ec; cbn [bind] in E1; [|discriminate].
    cbn [filter] in E1. destruct (keep || _) in E1; cbn [length firstn oset_list] in E1; [|discriminate]. inversion E1; subst w1; clear E1.
    pose proof (cut_rel_part _ _ _ _ _ _ Ec) as (Hb & Ho & Hl). set (u := v_arr t) in *. set (v := v_arr (w_obj w l0)) in *. destruct (Ha l0) as [V1 V2]. fold v in V1, V2.
    assert (seen (mkWorld (w_mem w) (oset (w_obj w) n t)) n = look (w_mem w) t) as En by (unfold seen; cbn [w_mem w_obj]; rewrite oset_same; reflexivity). rewrite En in *.
    assert (length d = v_len u) as Hd. { rewrite (Hmo _ _ Em). cbn [look data]. apply array_length. fold u. rewrite Hb. lia. }
    exists (v_off u - v_off v). split.
    - cbn [seen look data]. fold u v. rewrite Hd. unfold array. rewrite skipn_array, firstn_firstn, Nat.min_l by lia. rewrite Hb. f_equal. f_equal. lia.
    - unfold step in E2. cbn [do_call v_moveout v_moveout_loop] in E2. unfold v_moveout in E2. cbn [v_moveout_loop] in E2. rewrite En, Em in E2. cbn [bind fold_left] in E2. inversion E2; subst w2; clear E2.
      cbn [seen look data restat w_obj w_mem]. rewrite !(oset_other _ n _ l0) by congruence. rewrite !oset_same. fold u v.
      assert (inside_mem (w_mem w) u) as Hu by (split; rewrite Hb; [exact V1 | lia]).
      pose proof (store_inside (w_mem w) u d v Hu Hd (conj V1 V2)) as [_ Hv].
      assert (length (array (w_mem w) v) = v_len v) as HL by (apply array_length, V2).
      apply nth_ext with (d := 0%Q) (d' := 0%Q).
      + rewrite overwrite_length by (rewrite HL; lia). rewrite HL. apply array_length, Hv.
      + intros i Hi. rewrite array_length in Hi by exact Hv. rewrite overwrite_nth by (rewrite HL; lia). rewrite array_nth by exact Hi. rewrite store_nth by apply Hu. rewrite <- Hb, Nat.eqb_refl.
        rewrite overwrite_nth by (rewrite Hb; lia). rewrite array_nth by exact Hi. rewrite <- Hb.
        destruct (Nat.leb_spec (v_off u) (v_off v + i)), (Nat.leb_spec (v_off u - v_off v) i); try lia; cbn [andb]; [|reflexivity].
        destruct (Nat.ltb_spec (v_off v + i) (v_off u + length d)), (Nat.ltb_spec i (v_off u - v_off v + length d)); try lia; [f_equal; lia | reflexivity].
  Qed.
  (** Hence the claim is false: whenever the correction changes a trace, it also changes the stream
      from which this trace has been made by RFStream(stream) or slice2. *)
  Theorem C135_shared_refuted t d : mo t = Ok d -> d <> data t ->
    exists w, allocated w /\ seen w 0 = t /\
      (exists w', program step anything (fun l => l = 0) [1] (fst (step (KInit [0] [1]) w)) w' /\ data (seen w' 0) = d) /\
      (exists w', program step anything (fun l => l = 0) [1] (fst (step (KSlice SNone SNone (RKey "onset") false [0] [1]) w)) w' /\ (data t <> [] -> data (seen w' 0) = d)).
  Proof.
    intros Em Hd. set (v := mkVT (st t) (mkView 0 0 (length (data t)))). set (w := mkWorld [data t] (fun _ => v)).
    assert (allocated w) as Ha by (intros l; cbn; lia). assert (forall l, seen w l = t) as Hs.
    { intros l. unfold seen, look. cbn [w w_mem w_obj v v_st v_arr]. unfold array. cbn [v_buf v_off v_len nth skipn]. rewrite firstn_all. destruct t; reflexivity. }
    assert (length d = length (data t)) as Hl by apply (Hmo _ _ Em).
    assert (forall w1, w_mem w1 = [data t] -> w_obj w1 0 = v -> w_obj w1 1 = v -> data (seen (fst (step (KMoveout [1]) w1)) 0) = d) as Hmv.
    { intros w1 E1 E2 E3. unfold step. cbn [do_call v_moveout v_moveout_loop]. unfold v_moveout. cbn [v_moveout_loop].
      assert (seen w1 1 = t) as Et by (rewrite <- (Hs 1); unfold seen; rewrite E1, E3; reflexivity). rewrite Et, Em. cbn [fold_left fst seen look data restat w_obj w_mem]. rewrite oset_other by discriminate. rewrite E1, E2, E3.
      unfold store, array. cbn [v v_arr v_buf v_off v_len nth firstn skipn app]. rewrite skipn_all2 by lia. rewrite app_nil_r, <- Hl. apply firstn_all. }
    exists w. split; [exact Ha|]. split; [apply Hs|]. split.
    - eexists. split; [eapply prog_call with (c := KMoveout [1]); [exact I | intros x Hx; exact Hx | intros x [] | apply prog_end]|]. apply Hmv; reflexivity.
    - eexists. split; [eapply prog_call with (c := KMoveout [1]); [exact I | intros x Hx; exact Hx | intros x [] | apply prog_end]|].
      intros Hne. unfold step at 2. cbn [do_call v_slice2]. unfold v_slice2. cbn [mapM]. unfold cut_rel. change (look (w_mem w) (w_obj w 0)) with (seen w 0). rewrite Hs. cbn [seconds2utc bind].
      unfold cut. cbn [bind filter orb]. replace (npts (look (w_mem w) (w_obj w 0))) with (npts t) by (change (look (w_mem w) (w_obj w 0)) with (seen w 0); rewrite Hs; reflexivity).
      assert ((npts t =? 0)%Z = false) as En. { apply Z.eqb_neq. unfold npts. destruct (data t); [contradiction | cbn [length]; lia]. } rewrite En. cbn [negb]. apply Hmv; reflexivity.
  Qed.

  (** ** C136: sharing has no influence on results *)
  (** rf gives the same as for traces without common arrays (the value model of the other theorems). *)
  Theorem C136_rf a ls w : allocated w ->
    seen (fst (step (KRf a ls) w)) = fst (rf str_of filt lowpass rot dec a ls (seen w)) /\
    snd (step (KRf a ls) w) = snd (rf str_of filt lowpass rot dec a ls (seen w)).
  Proof. intros Ha. exact (proj2 (agree_rf str_of filt lowpass rot rot_new dec dec_new Hrot Hdec a ls w Ha)). Qed.
  (** The moveout correction does, if no samples are shared. *)
  Theorem C136_moveout_partial ls w : allocated w -> separate w ls -> (forall l, In l ls -> exists d, mo (seen w l) = Ok d) ->
    exists w', step (KMoveout ls) w = (w', Ok ls) /\
      forall l, In l ls -> exists d, mo (seen w l) = Ok d /\ seen w' l = mkTrace (mark (st (seen w l))) d.
  Proof.
    intros Ha Hs Hm. destruct (moveout_separate mo mark Hmo ls w Ha Hs Hm) as [E H]. unfold step. cbn [do_call]. destruct (v_moveout mo mark ls w) as [w' r]. cbn [fst snd] in *. subst r.
    exists w'. split; [reflexivity | exact H].
  Qed.
  (** Otherwise samples are corrected more than once. *)
  Theorem C136_twice_refuted t d d2 : mo t = Ok d -> mo (mkTrace (st t) d) = Ok d2 -> d2 <> d ->
    exists w, allocated w /\ seen w 0 = t /\ seen w 1 = t /\ exists w', step (KMoveout [0; 1]) w = (w', Ok [0; 1]) /\ data (seen w' 0) = d2.
  Proof.
    intros E1 E2 Hne. set (v := mkVT (st t) (mkView 0 0 (length (data t)))). set (w := mkWorld [data t] (fun _ => v)).
    assert (forall l, seen w l = t) as Hs.
    { intros l. unfold seen, look. cbn [w w_mem w_obj v v_st v_arr]. unfold array. cbn [v_buf v_off v_len nth skipn]. rewrite firstn_all. destruct t; reflexivity. }
    pose proof (Hmo _ _ E1) as L1. pose proof (Hmo _ _ E2) as L2. cbn [data] in L2.
    exists w. split; [intros l; cbn; lia|]. split; [apply Hs|]. split; [apply Hs|]. unfold step. cbn [do_call]. unfold v_moveout. cbn [v_moveout_loop]. rewrite Hs, E1.
    set (w1 := mkWorld (store (w_mem w) (v_arr (w_obj w 0)) d) (w_obj w)).
    assert (seen w1 1 = mkTrace (st t) d) as S1.
    { unfold seen, look, w1. cbn [w w_mem w_obj v v_st v_arr]. f_equal. unfold store, array. cbn [v_buf v_off v_len nth firstn skipn app]. rewrite skipn_all2 by lia. rewrite app_nil_r, <- L1. apply firstn_all. }
    rewrite S1, E2. eexists. split; [reflexivity|]. cbn [fold_left seen look data restat w_obj w_mem w1 w v_st v_arr v]. rewrite oset_other by discriminate. rewrite !oset_same. cbn [v_arr].
    unfold store, array. cbn [v_buf v_off v_len nth firstn skipn app]. rewrite skipn_all2 by (rewrite app_length, skipn_length; lia). rewrite app_nil_r, <- L1, <- L2. apply firstn_all.
  Qed.
  (** slice2 gives the samples of the window at the time of the call. *)
  Theorem C136_slice a b r keep ls new w : NoDup new -> length ls <= length new ->
    match slice2 a b r keep ls (seen w) with
    | Ok ts => exists w', step (KSlice a b r keep ls new) w = (w', Ok (firstn (length ts) new)) /\ map (seen w') (firstn (length ts) new) = ts
    | Err e => step (KSlice a b r keep ls new) w = (w, Err e)
    end.
  Proof.
    intros Hnd Hlen. unfold step. cbn [do_call]. unfold v_slice2, slice2.
    assert (match mapM (fun l => cut_rel (w_mem w) a b r (w_obj w l)) ls, mapM (fun l => trim_rel a b r (seen w l)) ls with
            | Ok vs, Ok ts => map (look (w_mem w)) vs = ts /\ length vs = length ls | Err e, Err e' => e = e' | _, _ => False end) as H.
    { clear Hlen. induction ls as [|l ls IH]; cbn [mapM]; [split; reflexivity|]. pose proof (look_cut_rel (w_mem w) a b r (w_obj w l)) as H. change (look (w_mem w) (w_obj w l)) with (seen w l) in H.
      destruct (cut_rel _ _ _ _ _) as [v|e], (trim_rel a b r (seen w l)) as [t|e']; try contradiction; cbn [bind]; [|exact H].
      destruct (mapM _ ls) as [vs|e] in IH |- *, (mapM (fun l => trim_rel a b r (seen w l)) ls) as [ts|e'] in IH |- *; try contradiction; cbn [bind]; [|exact IH]. destruct IH as [<- IH]. cbn [map length]. rewrite H, IH. auto. }
    destruct (mapM _ ls) as [vs|e] in H |- *, (mapM (fun l => trim_rel a b r (seen w l)) ls) as [ts|e'] in H |- *; try contradiction; cbn [bind]; [|subst; reflexivity].
    destruct H as [<- Hv]. set (p := fun t => keep || negb (npts t =? 0)%Z). change (fun t => keep || negb (npts (look (w_mem w) t) =? 0)%Z) with (fun t => p (look (w_mem w) t)).
    assert (map (look (w_mem w)) (filter (fun t => p (look (w_mem w) t)) vs) = filter p (map (look (w_mem w)) vs)) as Hf.
    { clear. induction vs as [|v vs IH]; [reflexivity|]. cbn [map filter]. destruct (p (look (w_mem w) v)); cbn [map]; rewrite IH; reflexivity. }
    assert (length (filter (fun t => p (look (w_mem w) t)) vs) <= length new) as Hle.
    { eapply Nat.le_trans; [|rewrite <- Hv in Hlen; exact Hlen]. clear. induction vs as [|v vs IH]; cbn [filter length]; [lia|]. destruct (p _); cbn [length]; lia. }
    rewrite <- Hf. set (us := filter (fun t => p (look (w_mem w) t)) vs) in *. clearbody us. rewrite map_length. eexists. split; [reflexivity|].
    unfold seen. cbn [w_mem w_obj]. rewrite <- (map_map (oset_list (w_obj w) new us) (look (w_mem w))). f_equal. clear - Hnd Hle. generalize (w_obj w) as o. revert us Hle.
    induction new as [|n new IH]; intros us Hle o; [destruct us; [reflexivity | cbn [length] in Hle; lia]|]. destruct us as [|u us]; [reflexivity|]. inversion Hnd; subst. cbn [length firstn map oset_list] in *. f_equal.
    - rewrite oset_list_other by assumption. apply oset_same.
    - apply IH; [assumption | lia].
  Qed.
End Props.

(** ** Cases *)
  Definition strv (v : value) : string := match v with VStr s => s | _ => "t" end.
  Definition s3 (cha : string) (t0 : Z) : stats := mkStats "CX" "PB01" "" cha (t0 * 1000000000) 1000000000 [("onset", VTime (3 * 1000000000)); ("phase", VStr "P")].
  (** a record of ten samples, a part of it (seconds 2 to 6), and another record *)
  Definition m0 : mem := [map inject_Z [1; 2; 3; 4; 5; 6; 7; 8; 9; 10]%Z; map inject_Z [4; 4; 4]%Z].
  Definition o0 (l : loc) : vtrace :=
    if Nat.eqb l 0 then mkVT (s3 "BHQ" 0) (mkView 0 0 10) else if Nat.eqb l 1 then mkVT (s3 "BHQ" 2) (mkView 0 2 5) else mkVT (s3 "BHL" 0) (mkView 1 0 3).
  Definition w0 : world := mkWorld m0 o0.
  Definition neg : act := fun t => (set_data t (map Qopp (data t)), Ok tt).
  (** samples after the first are halved *)
  Definition mo0 (t : trace) : res (list Q) := Ok (match data t with [] => [] | x :: xs => x :: map (fun q => Qred (q / 2)) xs end).
  Definition nothing (g : list loc) (h : heap) : heap * res unit := (h, Ok tt).
  Definition step := do_call strv neg (fun _ d => d) nothing (fun g => g) (fun _ => nothing) (fun g => g) mo0 (fun s => s).
  Example contracts : group_method nothing (fun g => g) /\ keeps_length mo0 /\ allocated w0.
  Proof.
    split; [intros g h; split; [reflexivity | split; [apply incl_refl | reflexivity]]|]. split.
    - intros t d E. inversion E; subst. destruct (data t); cbn [length]; [reflexivity|]. rewrite map_length. reflexivity.
    - intros l. unfold w0. cbn [w_obj w_mem]. unfold o0. destruct (Nat.eqb l 0); [cbn; lia|]. destruct (Nat.eqb l 1); cbn; lia.
  Qed.
  (** a copy of the part is corrected: the record stays; the part itself: it does not *)
  Definition copied : world := fst (step (KMoveout [5]) (fst (step (KCopy [1] [5]) w0))).
  Definition direct : world := fst (step (KMoveout [1]) w0).
  Example C134_nonvacuous :
    program step anything (fun l => l < 5) [5] (fst (step (KCopy [1] [5]) w0)) copied /\
    data (seen copied 5) = [3; 2; 5 # 2; 3; 7 # 2]%Q /\ data (seen copied 0) = map inject_Z [1; 2; 3; 4; 5; 6; 7; 8; 9; 10]%Z.
  Proof.
    split; [|split; vm_compute; reflexivity]. eapply prog_call with (c := KMoveout [5]); [exact I | intros x Hx; exact Hx | intros x [] | apply prog_end].
  Qed.
  Example C135_direct : data (seen direct 1) = [3; 2; 5 # 2; 3; 7 # 2]%Q /\ data (seen direct 0) = [1; 2; 3; 2; 5 # 2; 3; 7 # 2; 8; 9; 10]%Q.
  Proof. split; vm_compute; reflexivity. Qed.
  (** slice, filter, moveout; the record stays *)
  Definition w_slice := step (KSlice (SNum (-1)) (SNum 3) (RKey "onset") false [0] [7]) w0.
  Definition moved : world := fst (step (KMoveout [7]) (fst (step (KFilter [7]) (fst w_slice)))).
  Example C135_nonvacuous : snd w_slice = Ok [7] /\ data (seen (fst w_slice) 7) = map inject_Z [3; 4; 5; 6; 7]%Z /\
    v_buf (v_arr (w_obj (fst w_slice) 7)) = v_buf (v_arr (w_obj (fst w_slice) 0)) /\
    program step anything (fun l => l < 5) [7] (fst (step (KFilter [7]) (fst w_slice))) moved /\
    data (seen moved 7) = [-3; -2; -5 # 2; -3; -7 # 2]%Q /\ data (seen moved 0) = data (seen w0 0).
  Proof.
    split; [vm_compute; reflexivity|]. split; [vm_compute; reflexivity|]. split; [vm_compute; reflexivity|]. split; [|split; vm_compute; reflexivity].
    eapply prog_call with (c := KMoveout [7]); [exact I | intros x Hx; exact Hx | intros x [] | apply prog_end].
  Qed.
  (** rf for the record and its part, which share samples: each is filtered and negated once *)
  Definition args0 : rf_args := mkArgs (Some "P") true None None false false.
  Example C136_nonvacuous : let w := fst (step (KRf args0 [0; 1]) w0) in
    snd (step (KRf args0 [0; 1]) w0) = Ok [0; 1] /\ data (seen w 0) = map inject_Z [1; 2; 3; 4; 5; 6; 7; 8; 9; 10]%Z /\ data (seen w 1) = map inject_Z [3; 4; 5; 6; 7]%Z /\ separate w [0; 1].
  Proof.
    split; [vm_compute; reflexivity|]. split; [vm_compute; reflexivity|]. split; [vm_compute; reflexivity|].
    split; [repeat constructor; cbn; lia|]. intros l l' [<-|[<-|[]]] [<-|[<-|[]]] Hn (i & j & _ & _ & E & _); try congruence; vm_compute in E; discriminate.
  Qed.

Print Assumptions C134_independent.
Print Assumptions C134_copy.
Print Assumptions C135_no_moveout_partial.
Print Assumptions C135_filtered_partial.
Print Assumptions C135_rf_partial.
Print Assumptions C135_slice_writes.
Print Assumptions C135_shared_refuted.
Print Assumptions C136_rf.
Print Assumptions C136_moveout_partial.
Print Assumptions C136_twice_refuted.
Print Assumptions C136_slice.
