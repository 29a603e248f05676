(** C139: the keyword noise of deconvolve(). Kernels and tapering are arbitrary. *)
From Verif Require Import Model.Deconv Spec.RfSpec Spec.TimeSpec Spec.DeconvSpec Spec.NoiseSpec Proofs.TimeFacts Proofs.DeconvFacts.

Definition picks (response : option string) (t : trace) : bool := match response with None => true | Some r => tsel r t end.
Lemma picks_spec response t : picks response t = true <-> match response with None => True | Some s => exists c, letter t = Some c /\ char_in c s = true end.
Proof.
  destruct response as [r|]; cbn [picks]; [|tauto]. unfold tsel, comp, letter. destruct (last_char (channel (st t))) as [c|].
  - split; [intros H; exists c; auto | intros (c' & [= <-] & H); exact H].
  - split; [discriminate | intros (c' & H & _); discriminate].
Qed.
Lemma filter_picks response (p : trace -> bool) l : (forall t, p t = true <-> match response with None => True | Some s => exists c, letter t = Some c /\ char_in c s = true end) ->
  filter p l = filter (picks response) l.
Proof. intros H. apply filter_ext. intros t. apply Bool.eq_true_iff_eq. rewrite H, picks_spec. tauto. Qed.
Lemma noise_for_eq nz method response rsp ls h ds : noise_for (Some nz) method response rsp ls h = Ok ds -> method = "multitaper" -> ds = map data (filter (picks response) nz).
Proof.
  intros E ->. unfold noise_for in E. cbn [String.eqb Ascii.eqb Bool.eqb] in E. destruct response as [r|]; cbn [bind] in E.
  - destruct (filterM _ nz) as [sel|] eqn:Ef; [|discriminate]. cbn [bind] in E. injection E as <-. rewrite (filterM_tsel _ _ _ Ef). reflexivity.
  - injection E as <-. f_equal. symmetry. clear. induction nz as [|t nz IH]; cbn [filter picks]; [reflexivity | f_equal; exact IH].
Qed.

(** Which noise the kernel gets: that of the response components, in the order of the noise. *)
Theorem C139_given kernel taper noise source response w norm ls h src rsp h' r : channels_set h ls ->
  selected h source ls [src] -> responses h response ls rsp ->
  deconvolve_given kernel taper (Some noise) "multitaper" source response w norm ls h = (h', Ok r) ->
  r = rsp /\ exists c ds its, kernel c = Ok (ds, its) /\ k_rsp c = map (fun l => data (h l)) rsp /\ noise_of response noise (k_noise c) /\
    forall i l d, NoDup rsp -> nth_error rsp i = Some l -> nth_error ds i = Some d -> data (h' l) = d.
Proof.
  intros Hc Hs Hr. unfold deconvolve_given. change (String.eqb "multitaper" "freq") with false. cbv iota. change (known_method "multitaper") with true. cbn [negb].
  rewrite filterM_sel by exact Hc. rewrite <- (selected_eq _ _ _ _ Hs). rewrite (responses_eq _ _ _ _ Hc Hr).
  destruct (negb _); [discriminate|]. destruct (dget (extra (st (h src))) "onset") as [[]|]; try discriminate.
  destruct (find_nearest _ _) as [idx|]; [|discriminate]. destruct (source_window _ _ _ _) as [[[w0 w1] w2]|]; [|discriminate].
  destruct (trim_pad _ _ _) as [ts|]; [|discriminate].
  set (o' := (starttime (st (h src)) + Z.of_nat idx * delta (st (h src)))%Z).
  set (h2 := set_onsets rsp o' (hset h src (set_extra (h src) "onset" (VTime o')))).
  set (h3 := match index_of src rsp with Some _ => h2 | None => hset h2 src (taper w2 ts) end).
  destruct (noise_for _ _ _ _ _ _) as [nz|] eqn:En; [|discriminate].
  match goal with |- context [kernel ?c0] => set (c := c0) in *; destruct (kernel c) as [[ds its]|] eqn:Ek; [|discriminate] end.
  intros E. injection E as E1 <-. split; [reflexivity|]. exists c, ds, its. split; [exact Ek|]. split.
  - unfold c. cbn [k_rsp]. apply map_ext_in. intros l Hl. unfold h3.
    assert (data (h2 l) = data (h l)) as Hd by (unfold h2; destruct (set_onsets_data rsp o' (hset h src (set_extra (h src) "onset" (VTime o'))) l) as (-> & _); destruct (Nat.eq_dec src l) as [<-|N]; [rewrite hset_eq; reflexivity | rewrite hset_ne by exact N; reflexivity]).
    destruct (index_of src rsp) eqn:Ei; [exact Hd|]. apply index_of_none in Ei. rewrite hset_ne; [exact Hd|]. intros ->. contradiction.
  - split.
    + unfold c. cbn [k_noise]. exists (picks response). split; [apply picks_spec|]. exact (noise_for_eq _ _ _ _ _ _ _ En eq_refl).
    + intros i l d Hn Hl Hdd. subst h'. cbn [String.eqb Ascii.eqb Bool.eqb]. eapply store_data; eassumption.
Qed.
(** If noise and responses have the components in the same order, each response gets the noise of its component. *)
Theorem C139_own_partial kernel taper noise source response w norm ls h src rsp h' r : channels_set h ls ->
  selected h source ls [src] -> responses h response ls rsp -> in_order response noise (map (fun l => letter (h l)) rsp) ->
  deconvolve_given kernel taper (Some noise) "multitaper" source response w norm ls h = (h', Ok r) ->
  exists c ds its, kernel c = Ok (ds, its) /\
    Forall2 (fun l d => exists t, In t noise /\ letter t = letter (h l) /\ data t = d) rsp (k_noise c) /\
    forall i l d, NoDup rsp -> nth_error rsp i = Some l -> nth_error ds i = Some d -> data (h' l) = d.
Proof.
  intros Hc Hs Hr (p & Hp & Ho) E. destruct (C139_given _ _ _ _ _ _ _ _ _ _ _ _ _ Hc Hs Hr E) as (_ & c & ds & its & Ek & _ & (q & Hq & En) & Hst).
  exists c, ds, its. split; [exact Ek|]. split; [|exact Hst]. rewrite En. rewrite (filter_picks response p noise Hp) in Ho. rewrite (filter_picks response q noise Hq).
  assert (forall t, In t (filter (picks response) noise) -> In t noise) as Hin by (intros t Ht; apply filter_In in Ht; apply Ht).
  revert Ho Hin. generalize (filter (picks response) noise) as ns. clear. induction rsp as [|l rsp IH]; intros [|t ns] Ho Hin; try discriminate; cbn [map] in *; constructor.
  - injection Ho as H1 H2. exists t. split; [apply Hin; left; reflexivity|]. split; [exact H1 | reflexivity].
  - injection Ho as H1 H2. apply IH; [exact H2|]. intros u Hu. apply Hin. right. exact Hu.
Qed.
(** With noise no data before the onset are needed, compare C97_refuted. *)
Theorem C139_no_window kernel taper noise source response a b c0 norm ls h src rsp o : channels_set h ls ->
  selected h source ls [src] -> responses h response ls rsp -> 1 <= List.length rsp <= 3 -> (a <= b)%Z ->
  (forall t, In t noise -> channel (st t) <> "") -> (forall c, exists x, kernel c = Ok x) ->
  (0 < delta (st (h src)))%Z -> onset_of (h src) o -> (starttime (st (h src)) <= o <= endtime (h src))%Z -> List.length (data (h src)) <> 0 ->
  exists h', deconvolve_given kernel taper (Some noise) "multitaper" source response (WTuple a b c0) norm ls h = (h', Ok rsp).
Proof.
  intros Hc Hs Hr Hl Hab Hn Hk Hd Ho Hb Hne. unfold deconvolve_given. change (String.eqb "multitaper" "freq") with false. cbv iota. change (known_method "multitaper") with true. cbn [negb].
  rewrite filterM_sel by exact Hc. rewrite <- (selected_eq _ _ _ _ Hs). rewrite (responses_eq _ _ _ _ Hc Hr).
  assert ((0 <? List.length rsp) && (List.length rsp <? 4) = true) as -> by (apply andb_true_intro; split; apply Nat.ltb_lt; lia). cbn [negb].
  unfold onset_of in Ho. rewrite Ho. unfold times.
  destruct (find_nearest_spec (delta (st (h src))) (o - starttime (st (h src))) (List.length (data (h src))) Hd) as (idx & -> & Hi & A & B).
  { unfold endtime, npts in Hb. destruct (Z.eqb_spec (Z.of_nat (List.length (data (h src)))) 0); lia. }
  cbn [source_window]. unfold trim_pad. destruct (Z.ltb_spec (starttime (st (h src)) + Z.of_nat idx * delta (st (h src)) + b) (starttime (st (h src)) + Z.of_nat idx * delta (st (h src)) + a)); [lia|].
  match goal with |- context [noise_for ?x1 ?x2 ?x3 ?x4 ?x5 ?x6] => assert (exists ds, noise_for x1 x2 x3 x4 x5 x6 = Ok ds) as (ds & ->) end.
  { unfold noise_for. cbn [String.eqb Ascii.eqb Bool.eqb]. destruct response as [r|]; cbn [bind]; [|eexists; reflexivity].
    assert (exists sel, filterM (fun t => match comp t with Some c => Ok (char_in c r) | None => Err IndexError end) noise = Ok sel) as (sel & ->); [|eexists; reflexivity].
    clear - Hn. induction noise as [|t noise IH]; [eexists; reflexivity|]. cbn [filterM]. unfold comp at 1. destruct (last_char (channel (st t))) as [c|] eqn:E.
    - cbn [bind]. destruct IH as (sel & ->); [intros u Hu; apply Hn; right; exact Hu|]. eexists. reflexivity.
    - apply last_char_none in E. exfalso. apply (Hn t); [left; reflexivity | exact E]. }
  match goal with |- context [kernel ?c] => destruct (Hk c) as ([ds' its] & ->) end. eexists. reflexivity.
Qed.
(** The other methods do not accept noise. *)
Theorem C139_methods kernel taper noise m source response w norm ls h h' r : In m ["time"; "waterlevel"; "freq"; "iterative"] ->
  deconvolve_given kernel taper (Some noise) m source response w norm ls h <> (h', Ok r).
Proof.
  intros Hm. unfold deconvolve_given.
  assert (forall rsp h3, noise_for (Some noise) (if String.eqb m "freq" then "waterlevel" else m) response rsp ls h3 = Err TypeError) as Hn by (intros rsp h3; destruct Hm as [<-|[<-|[<-|[<-|[]]]]]; reflexivity).
  destruct (negb (known_method _)); [discriminate|]. destruct (filterM (has_comp h source) ls) as [[|src [|]]|]; try discriminate.
  destruct (match response with None => Ok ls | Some r => filterM (has_comp h r) ls end) as [rsp|]; [|discriminate].
  destruct (negb _); [discriminate|]. destruct (dget _ "onset") as [[]|]; try discriminate.
  destruct (find_nearest _ _) as [idx|]; [|discriminate]. destruct (source_window _ _ _ _) as [[[w0 w1] w2]|]; [|discriminate].
  destruct (trim_pad _ _ _) as [ts|]; [|discriminate]. rewrite Hn. discriminate.
Qed.

(** ** Cases *)
Definition no_kernel (c : kcall) : res (list (list Q) * list Z) := Ok (k_noise c, []).
Definition no_trace (cha : string) (n : Z) : trace :=
  mkTrace (mkStats "CX" "PB01" "" cha 0 1000000000 [("onset", VTime 2000000000)]) (map (fun i => inject_Z (n + Z.of_nat i)) (seq 0 6)).
Definition no_heap : heap := fun l => match l with 0 => no_trace "BHL" 0 | 1 => no_trace "BHQ" 10 | _ => no_trace "BHT" 20 end.
Definition no_window : winsrc_arg := WTuple (-1000000000) 2000000000 0.
(** 2 s before the onset; the component T is not a response *)
Example C139_nonvacuous :
  channels_set no_heap [0; 1; 2] /\ selected no_heap "LZ" [0; 1; 2] [0] /\ responses no_heap (Some "LQ") [0; 1; 2] [0; 1] /\
  in_order (Some "LQ") [no_trace "XXT" 70; no_trace "XXL" 50; no_trace "XXQ" 60] (map (fun l => letter (no_heap l)) [0; 1]) /\
  exists h', deconvolve_given no_kernel (fun _ t => t) (Some [no_trace "XXT" 70; no_trace "XXL" 50; no_trace "XXQ" 60]) "multitaper" "LZ" (Some "LQ") no_window None [0; 1; 2] no_heap = (h', Ok [0; 1]) /\
    data (h' 0) = map inject_Z [50; 51; 52; 53; 54; 55]%Z /\ data (h' 1) = map inject_Z [60; 61; 62; 63; 64; 65]%Z.
Proof.
  assert (forall s l, selp no_heap s l = true <-> has_component no_heap s l) as Hsel by (intros s l; apply selp_spec).
  split; [intros l [<-|[<-|[<-|[]]]]; discriminate|]. split; [exists (selp no_heap "LZ"); split; [apply Hsel | reflexivity]|].
  split; [exists (selp no_heap "LQ"); split; [apply Hsel | reflexivity]|]. split; [exists (picks (Some "LQ")); split; [apply picks_spec | reflexivity]|].
  eexists. split; [vm_compute; reflexivity|]. split; reflexivity.
Qed.
(** Refuted: with the noise in another order the component L gets the noise of the component Q. *)
Theorem C139_order_refuted :
  ~ (forall kernel taper noise source response w norm ls h src rsp h' r, channels_set h ls ->
       selected h source ls [src] -> responses h response ls rsp ->
       (forall l, In l rsp -> exists t, In t noise /\ letter t = letter (h l)) ->
       deconvolve_given kernel taper (Some noise) "multitaper" source response w norm ls h = (h', Ok r) ->
       exists c ds its, kernel c = Ok (ds, its) /\
         Forall2 (fun l d => exists t, In t noise /\ letter t = letter (h l) /\ data t = d) rsp (k_noise c) /\
         forall i l d, NoDup rsp -> nth_error rsp i = Some l -> nth_error ds i = Some d -> data (h' l) = d).
Proof.
  intros H. destruct C139_nonvacuous as (Hc & Hs & Hr & _).
  destruct (deconvolve_given no_kernel (fun _ t => t) (Some [no_trace "XXQ" 60; no_trace "XXL" 50]) "multitaper" "LZ" (Some "LQ") no_window None [0; 1; 2] no_heap) as [h' [r|e]] eqn:E.
  2:{ apply (f_equal snd) in E. vm_compute in E. discriminate. }
  assert (forall l, In l [0; 1] -> exists t, In t [no_trace "XXQ" 60; no_trace "XXL" 50] /\ letter t = letter (no_heap l)) as Hn.
  { intros l [<-|[<-|[]]]; [exists (no_trace "XXL" 50) | exists (no_trace "XXQ" 60)]; (split; [cbn [In]; auto | reflexivity]). }
  destruct (H _ _ _ _ _ _ _ _ _ _ _ _ _ Hc Hs Hr Hn E) as (c & ds & its & Ek & F & Hd). injection Ek as <- _.
  assert (NoDup [0; 1]) as Nd by (repeat constructor; cbn [In]; intuition discriminate).
  inversion F as [|l1 d1 ls1 ds1 (t & Ht & El & Et) F2 E1 E2]; subst. symmetry in E2.
  specialize (Hd 0 0 (data t) Nd eq_refl). rewrite E2 in Hd. specialize (Hd eq_refl).
  apply (f_equal (fun x => data (fst x 0))) in E. cbn [fst] in E. rewrite Hd in E.
  cbn [In] in Ht. destruct Ht as [<-|[<-|[]]]; [vm_compute in El; discriminate | vm_compute in E; discriminate].
Qed.

Print Assumptions C139_given.
Print Assumptions C139_own_partial.
Print Assumptions C139_no_window.
Print Assumptions C139_methods.
Print Assumptions C139_order_refuted.
