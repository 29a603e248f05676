(** C17 - C20, C66, C72: RFStream.rf. Filter, low pass, rotation and deconvolution
    are arbitrary functions on traces / groups of traces. *)
From Verif Require Import Model.Rf Spec.TimeSpec Spec.IterSpec Spec.RfSpec Proofs.RfFacts Proofs.TimeFacts.

(** C17 (part): a method which is not a piece of the text PS is rejected with all
    traces unchanged, also if it is taken from the phases; so is a missing method.
    Missing: the full claim is false for the methods '' and 'PS', see below. *)
Theorem C17_method_partial str_of filt lowpass rot dec (a : rf_args) ls h m :
  (a_method a = Some m \/ (a_method a = None /\ stream_method (map h ls) = Ok (Some m))) ->
  ~ In m [""; "P"; "S"; "PS"] -> rf str_of filt lowpass rot dec a ls h = (h, Err ValueError).
Proof.
  intros Hm Hn. unfold rf, rf_method.
  assert (str_in m "PS" = false) as E.
  { destruct (str_in m "PS") eqn:E; [|reflexivity]. apply str_in_PS in E. exfalso. apply Hn. cbn. intuition. }
  destruct Hm as [-> | [-> ->]]; cbn [bind]; rewrite E; reflexivity.
Qed.
Print Assumptions C17_method_partial.
Theorem C17_no_method str_of filt lowpass rot dec (a : rf_args) ls h :
  a_method a = None -> stream_method (map h ls) = Ok None ->
  rf str_of filt lowpass rot dec a ls h = (h, Err ValueError).
Proof. intros Hm Hs. unfold rf, rf_method. rewrite Hm, Hs. reflexivity. Qed.
Print Assumptions C17_no_method.
(** P and S are accepted: the rest of rf is run with exactly this method. *)
Theorem C17_accepted a tr m : (m = "P" \/ m = "S") ->
  (a_method a = Some m \/ (a_method a = None /\ stream_method tr = Ok (Some m))) -> rf_method a tr = Ok m.
Proof. intros [-> | ->] [H | [H1 H2]]; unfold rf_method; rewrite ?H, ?H1, ?H2; reflexivity. Qed.
Print Assumptions C17_accepted.

Definition ex_t (cha : string) : trace :=
  mkTrace (mkStats "CX" "PB01" "" cha 0 500000000
    [("onset", VTime 1000000000); ("phase", VStr "P")]) [1; 2; 3; 4]%Q.
Definition ex_rf_heap : heap := fun l => ex_t (match l with 0 => "BHZ" | 1 => "BHQ" | _ => "BHT" end).
Definition nop : list loc -> heap -> heap * res unit := fun _ h => (h, Ok tt).
Definition ex_rf (m : option string) (d : option freq) :=
  rf (fun _ => "x") (fun t => (t, Ok tt)) (fun _ d => d) nop (fun _ => nop) (mkArgs m false None d false false) [0; 1] ex_rf_heap.
(** Refuted: '' and 'PS' are accepted and the stream is turned into receiver
    functions of that "method". *)
Theorem C17_substring_refuted : forall m, m = "" \/ m = "PS" ->
  exists h', ex_rf (Some m) None = (h', Ok [0; 1]) /\
    dget (extra (st (h' 0))) "type" = Some (VStr "rf") /\ dget (extra (st (h' 0))) "phase" = Some (VStr m).
Proof. intros m [-> | ->]; eexists; vm_compute; auto. Qed.
Print Assumptions C17_substring_refuted.
Example C17_nonvacuous : ex_rf (Some "Q") None = (ex_rf_heap, Err ValueError) /\
  ~ In "Q" [""; "P"; "S"; "PS"].
Proof. split; [reflexivity|]. intros H. cbn in H. intuition discriminate. Qed.

(** C18: for method S every trace is mirrored about its onset after the
    deconvolution; time axis, codes and other entries stay. *)
Theorem C18_S_mirrored str_of filt lowpass rot dec (a : rf_args) ls h h3 ls1 :
  rf_method a (map h ls) = Ok "S" ->
  rf_deconvolved str_of filt lowpass rot dec a "S" ls h = (h3, Ok ls1) ->
  NoDup ls1 -> phases_are_texts (map h3 ls1) -> (forall l, In l ls1 -> exists o, onset_of (h3 l) o) ->
  exists h', rf str_of filt lowpass rot dec a ls h = (h', Ok ls1) /\
    (forall l, In l ls1 -> mirrored (h3 l) (h' l) /\ same_frame (h' l) (h3 l) /\
       same_entries_but ["type"; "phase"; "onset"] (h' l) (h3 l)) /\
    (forall l, ~ In l ls1 -> h' l = h3 l).
Proof.
  intros Hm Hd Hnd Hp Ho. destruct (finish_S ls1 h3 Hnd Hp Ho) as (h' & E & H1 & H2 & _).
  exists h'. unfold rf. rewrite Hm, Hd, E. split; [reflexivity|]. split; [|exact H2].
  intros l Hl. destruct (H1 l Hl) as (A & B & C & _). auto.
Qed.
Print Assumptions C18_S_mirrored.
(** Without other processing this is what the user sees. *)
Theorem C18_S_alone str_of filt lowpass rot dec ls h :
  NoDup ls -> phases_are_texts (map h ls) -> (forall l, In l ls -> exists o, onset_of (h l) o) ->
  (forall l, In l ls -> endswith_char (channel (st (h l))) "Q" = false) ->
  exists h', rf str_of filt lowpass rot dec (mkArgs (Some "S") false None None false false) ls h = (h', Ok ls) /\
    (forall l, In l ls -> mirrored (h l) (h' l) /\ same_frame (h' l) (h l) /\
       same_entries_but ["type"; "phase"; "onset"] (h' l) (h l)) /\
    (forall l, ~ In l ls -> h' l = h l).
Proof.
  intros Hnd Hp Ho Hq. destruct (negate_spec ls h Hnd) as [N1 N2].
  set (h3 := fst (for_locs negate_q ls h)) in *.
  assert (forall l, In l ls -> h3 l = h l) as E3 by (intros l Hl; apply N1; auto).
  destruct (C18_S_mirrored str_of filt lowpass rot dec (mkArgs (Some "S") false None None false false) ls h h3 ls)
    as (h' & E & H1 & H2); try assumption.
  - reflexivity.
  - reflexivity.
  - rewrite (map_ext_in h3 h) by assumption. exact Hp.
  - intros l Hl. rewrite E3 by exact Hl. apply Ho, Hl.
  - exists h'. split; [exact E|]. split.
    + intros l Hl. rewrite <- E3 by exact Hl. apply H1, Hl.
    + intros l Hl. rewrite H2, N2 by exact Hl. reflexivity.
Qed.
Print Assumptions C18_S_alone.
(** Mirroring twice is the identity on samples and onset. *)
Theorem C18_twice t o : onset_of t o -> data t <> [] ->
  data (fst (mirror (fst (mirror t)))) = data t /\ onset_of (fst (mirror (fst (mirror t)))) o.
Proof. exact (mirror_twice t o). Qed.
Print Assumptions C18_twice.
Example C18_nonvacuous : exists h', ex_rf (Some "S") None = (h', Ok [0; 1]) /\ data (h' 0) = [4; 3; 2; 1]%Q /\
  onset_of (h' 0) 500000000 /\ onset_of (ex_rf_heap 0) 1000000000 /\ phases_are_texts (map ex_rf_heap [0; 1]).
Proof.
  eexists. split; [vm_compute; reflexivity|]. split; [reflexivity|]. split; [reflexivity|]. split; [reflexivity|].
  intros t [<-|[<-|[]]]; cbn; exact I.
Qed.

(** C19: between rotation and deconvolution exactly the traces whose channel ends
    in Q change sign. *)
Theorem C19_sign str_of filt lowpass rot dec (a : rf_args) m ls h h1 ls1 :
  rf_prepare str_of filt lowpass rot a ls h = (h1, Ok ls1) -> NoDup ls1 ->
  exists h2,
    (forall l, In l ls1 ->
       (endswith_char (channel (st (h1 l))) "Q" = true -> opposite (h1 l) (h2 l)) /\
       (endswith_char (channel (st (h1 l))) "Q" = false -> h2 l = h1 l)) /\
    (forall l, ~ In l ls1 -> h2 l = h1 l) /\
    rf_deconvolved str_of filt lowpass rot dec a m ls h =
      match group_stage str_of (a_deconvolve a) (dec m) ls1 h2 with
      | (h3, Err e) => (h3, Err e)
      | (h3, Ok _) => (h3, Ok ls1)
      end.
Proof.
  intros Hp Hnd. exists (fst (for_locs negate_q ls1 h1)).
  destruct (negate_spec ls1 h1 Hnd) as [N1 N2]. split; [exact N1|]. split; [exact N2|].
  unfold rf_deconvolved. rewrite Hp. reflexivity.
Qed.
Print Assumptions C19_sign.
(** rf() without deconvolution shows it directly. *)
Theorem C19_sign_visible str_of filt lowpass rot dec ls h :
  NoDup ls -> phases_are_texts (map h ls) ->
  exists h', rf str_of filt lowpass rot dec (mkArgs (Some "P") false None None false false) ls h = (h', Ok ls) /\
    forall l, In l ls ->
      (endswith_char (channel (st (h l))) "Q" = true -> Forall2 (fun x y => (y == - x)%Q) (data (h l)) (data (h' l))) /\
      (endswith_char (channel (st (h l))) "Q" = false -> data (h' l) = data (h l)).
Proof.
  intros Hnd Hp. destruct (negate_spec ls h Hnd) as [N1 N2].
  set (h3 := fst (for_locs negate_q ls h)) in *.
  assert (phases_are_texts (map h3 ls)) as Hp3.
  { intros t Ht. apply in_map_iff in Ht. destruct Ht as (l & <- & Hl). destruct (N1 l Hl) as [A B].
    destruct (endswith_char (channel (st (h l))) "Q") eqn:E.
    - destruct (A eq_refl) as [-> _]. apply Hp, in_map, Hl.
    - rewrite B by reflexivity. apply Hp, in_map, Hl. }
  destruct (finish_P ls h3 Hnd Hp3) as (h' & E & H1 & H2 & _).
  exists h'. split.
  - unfold rf. change (rf_method _ _) with (@Ok string "P"). cbv iota.
    change (rf_deconvolved str_of filt lowpass rot dec (mkArgs (Some "P") false None None false false) "P" ls h) with (h3, @Ok (list loc) ls).
    cbv iota. rewrite E. reflexivity.
  - intros l Hl. destruct (H1 l Hl) as (_ & _ & -> & _). destruct (N1 l Hl) as [A B].
    split; intros Hq; [apply A, Hq | rewrite (B Hq); reflexivity].
Qed.
Print Assumptions C19_sign_visible.
Example C19_nonvacuous : exists h', ex_rf (Some "P") None = (h', Ok [0; 1]) /\
  data (h' 0) = [1; 2; 3; 4]%Q /\ data (h' 1) = [-1; -2; -3; -4]%Q.
Proof. eexists. split; [vm_compute; reflexivity|]. split; reflexivity. Qed.

(** C20 (part): the deconvolution is applied exactly once to every group of 2 or 3
    traces with common id prefix and onset, in key order, and to nothing else.
    Missing: traces outside such groups are tagged too, see below. *)
Theorem C20_groups_partial str_of filt lowpass rot dec (a : rf_args) m ls h h1 ls1 h3 :
  a_deconvolve a = true ->
  rf_prepare str_of filt lowpass rot a ls h = (h1, Ok ls1) ->
  (forall l, In l ls1 -> exists o, onset_of (h1 l) o) -> NoDup ls1 ->
  rf_deconvolved str_of filt lowpass rot dec a m ls h = (h3, Ok ls1) ->
  exists h2 gs,
    (forall l, st (h2 l) = st (h1 l)) /\
    groups_2_3 str_of h1 ls1 gs /\ applied (dec m) gs h2 h3.
Proof.
  intros Hd Hp Ho Hnd Hr. destruct (negate_spec ls1 h1 Hnd) as [N1 N2].
  unfold rf_deconvolved in Hr. rewrite Hp, Hd in Hr. set (h2 := fst (for_locs negate_q ls1 h1)) in *.
  assert (forall l, st (h2 l) = st (h1 l)) as Hst.
  { intros l. destruct (in_dec Nat.eq_dec l ls1) as [Hl|Hl]; [|rewrite N2 by exact Hl; reflexivity].
    destruct (N1 l Hl) as [A B]. destruct (endswith_char (channel (st (h1 l))) "Q") eqn:E; [apply A; reflexivity|].
    rewrite B by reflexivity. reflexivity. }
  destruct (group_stage str_of true (dec m) ls1 h2) as [h3' [[]|e]] eqn:Eg; [|discriminate].
  inversion Hr; subst h3'.
  destruct (group_stage_spec str_of (dec m) ls1 h2 h3) as (gs & G1 & G2); [|exact Eg|].
  { intros l Hl. unfold onset_of. rewrite Hst. apply Ho, Hl. }
  exists h2, gs. split; [exact Hst|]. split; [|exact G2].
  assert (forall x, tr_id (h2 x) = tr_id (h1 x)) as Hid by (intros x; unfold tr_id; rewrite Hst; reflexivity).
  assert (forall x, printed str_of (Some "onset") (h2 x) = printed str_of (Some "onset") (h1 x)) as Hpr.
  { intros x. unfold printed. change (tr_get (h2 x) "onset") with (dget (extra (st (h2 x))) "onset"). rewrite Hst. reflexivity. }
  assert (forall x y, same_group str_of (Some "onset") (h2 x) (h2 y) <-> same_group str_of (Some "onset") (h1 x) (h1 y)) as Hsg.
  { intros x y. unfold same_group. rewrite !Hid, !Hpr. tauto. }
  assert (forall x g, class_of str_of (Some "onset") h2 ls1 x g <-> class_of str_of (Some "onset") h1 ls1 x g) as Hcl.
  { intros x g. unfold class_of. split; intros (p & P1 & P2); exists p; (split; [intros y; rewrite P1|exact P2]); [|symmetry]; apply Hsg. }
  destruct G1 as (C1 & C2 & C3). split; [|split].
  - intros g Hg. destruct (C1 g Hg) as (L & x & Hx & Hc). split; [exact L|]. exists x. split; [exact Hx|]. apply Hcl, Hc.
  - intros x g Hx Hc. apply C2 with x; [exact Hx|]. apply Hcl, Hc.
  - eapply Proofs.PyFacts.StronglySorted_impl; [|exact C3]. intros g g' _ _ Hb x y Hx Hy. specialize (Hb x y Hx Hy).
    unfold group_before in *. rewrite !Hid, !Hpr in Hb. exact Hb.
Qed.
Print Assumptions C20_groups_partial.
(** Refuted: a trace alone in its group is tagged as receiver function although the
    deconvolution, whatever it does, never sees it. *)
Theorem C20_single_refuted : forall dec : string -> list loc -> heap -> heap * res unit,
  exists h', rf (fun _ => "x") (fun t => (t, Ok tt)) (fun _ d => d) nop dec
               (mkArgs (Some "P") false None None true true) [0] ex_rf_heap = (h', Ok [0]) /\
    dget (extra (st (h' 0))) "type" = Some (VStr "rf") /\ data (h' 0) = data (ex_rf_heap 0).
Proof. intros dec. eexists. split; [vm_compute; reflexivity|]. split; reflexivity. Qed.
Print Assumptions C20_single_refuted.
Definition ex_dec : string -> list loc -> heap -> heap * res unit := fun _ g h =>
  (fold_left (fun h l => hset h l (set_data (h l) [0%Q])) g h, Ok tt).
Example C20_nonvacuous : exists h', rf_deconvolved (fun _ => "x") (fun t => (t, Ok tt)) (fun _ d => d) nop ex_dec
               (mkArgs (Some "P") false None None true true) "P" [0; 1] ex_rf_heap = (h', Ok [0; 1]) /\ data (h' 1) = [0%Q].
Proof. eexists. split; [vm_compute; reflexivity|]. reflexivity. Qed.

(** C66 (part): for an int d, sampling rates below 17 d end up in [d, 2d), exactly at
    d if d divides the rate; slower traces are not changed. The data are every f-th
    sample of the low pass filtered data. Missing: see the refutations. *)
Theorem C66_rate_partial str_of filt lowpass rot dec (d : Z) ls h :
  (0 < d)%Z -> NoDup ls -> phases_are_texts (map h ls) ->
  (forall l, In l ls -> (0 < delta (st (h l)))%Z /\ (rate (h l) < inject_Z (17 * d))%Q /\
                        endswith_char (channel (st (h l))) "Q" = false) ->
  exists h', rf str_of filt lowpass rot dec (mkArgs (Some "P") false None (Some (FInt d)) false false) ls h = (h', Ok ls) /\
    forall l, In l ls ->
      ((rate (h l) < inject_Z d)%Q -> data (h' l) = data (h l) /\ same_frame (h' l) (h l)) /\
      ((inject_Z d <= rate (h l))%Q ->
         (inject_Z d <= rate (h' l))%Q /\ (rate (h' l) < inject_Z (2 * d))%Q /\
         (forall k, (rate (h l) == inject_Z (k * d))%Q -> (rate (h' l) == inject_Z d)%Q) /\
         starttime (st (h' l)) = starttime (st (h l)) /\
         exists f : nat, 0 < f /\ forall i, nth_error (data (h' l)) i = nth_error (lowpass (Z.of_nat f) (data (h l))) (i * f)).
Proof.
  intros Hd Hnd Hp Hl.
  destruct (for_locs_ok (downsample_one lowpass (FInt d)) ls h Hnd) as (h2 & E2 & H2 & _).
  { intros l Hi. destruct (Hl l Hi) as (A & B & _). destruct (downsample_ok lowpass d (h l) Hd A B) as (t' & -> & _). reflexivity. }
  assert (forall l, In l ls -> channel (st (h2 l)) = channel (st (h l)) /\ extra (st (h2 l)) = extra (st (h l))) as Hce.
  { intros l Hi. destruct (Hl l Hi) as (A & B & _). destruct (downsample_ok lowpass d (h l) Hd A B) as (t' & E & C & D).
    rewrite H2, E by exact Hi. cbn [fst]. destruct (Qlt_le_dec (rate (h l)) (inject_Z d)) as [Hlt|Hle].
    - rewrite C by exact Hlt. auto.
    - apply D in Hle. tauto. }
  destruct (negate_spec ls h2 Hnd) as [N1 N2]. set (h3 := fst (for_locs negate_q ls h2)) in *.
  assert (forall l, In l ls -> h3 l = h2 l) as E3.
  { intros l Hi. apply N1; [exact Hi|]. destruct (Hce l Hi) as [-> _]. apply Hl, Hi. }
  destruct (finish_P ls h3 Hnd) as (h' & E & H1 & _ & _).
  { intros t Ht. apply in_map_iff in Ht. destruct Ht as (l & <- & Hi). rewrite E3 by exact Hi.
    destruct (Hce l Hi) as [_ ->]. apply Hp, in_map, Hi. }
  exists h'. split.
  - unfold rf. change (rf_method _ _) with (@Ok string "P"). cbv iota.
    unfold rf_deconvolved, rf_prepare. cbn [a_filter a_trim a_downsample a_rotate a_deconvolve]. rewrite E2.
    cbn [group_stage]. fold h3. rewrite E. reflexivity.
  - intros l Hi. destruct (Hl l Hi) as (A & B & _). destruct (downsample_ok lowpass d (h l) Hd A B) as (t' & Et & C & D).
    destruct (H1 l Hi) as (F1 & _ & F3 & _). rewrite E3 in F1, F3 by exact Hi. rewrite H2 in F1, F3 by exact Hi.
    rewrite Et in F1, F3. cbn [fst] in F1, F3.
    assert (rate (h' l) = rate t') as Hr. { unfold rate. destruct F1 as (_ & _ & _ & _ & _ & ->). reflexivity. }
    split; intros Hc.
    + rewrite (C Hc) in F1, F3. auto.
    + destruct (D Hc) as (D1 & D2 & D3 & D4 & _ & _ & D7). rewrite Hr, F3. 
      split; [exact D1|]. split; [exact D2|]. split; [exact D3|]. split; [|exact D7].
      destruct F1 as (_ & _ & _ & _ & -> & _). exact D4.
Qed.
Print Assumptions C66_rate_partial.
(** Refuted: a float d (as documented) raises TypeError, a rate of 17 d or more
    ArithmeticError. *)
Theorem C66_float_refuted : exists h', ex_rf (Some "P") (Some (FFloat 1)) = (h', Err TypeError).
Proof. eexists. vm_compute. reflexivity. Qed.
Theorem C66_float_always lowpass q t : (0 < q)%Q -> (q <= rate t)%Q -> exists t' e, downsample_one lowpass (FFloat q) t = (t', Err e).
Proof.
  intros Hq Hle. unfold downsample_one. cbn [freq_q]. apply Qle_bool_iff in Hle. rewrite Hle. unfold decimate.
  destruct (16 <? _)%Z; [do 2 eexists; reflexivity|]. destruct (_ <=? 0)%Z; do 2 eexists; reflexivity.
Qed.
Theorem C66_factor_refuted : rf (fun _ => "x") (fun t => (t, Ok tt)) (fun _ d => d) nop (fun _ => nop)
    (mkArgs (Some "P") false None (Some (FInt 1)) false false) [0] (fun _ => set_data (mkTrace (mkStats "" "" "" "Z" 0 50000000 []) []) [1%Q])
  = (hset (fun _ => set_data (mkTrace (mkStats "" "" "" "Z" 0 50000000 []) []) [1%Q]) 0
          (set_data (mkTrace (mkStats "" "" "" "Z" 0 50000000 []) []) [1%Q]), Err OtherError).
Proof. vm_compute. reflexivity. Qed.
Print Assumptions C66_factor_refuted.
Example C66_nonvacuous : exists h', ex_rf (Some "P") (Some (FInt 1)) = (h', Ok [0; 1]) /\
  Qeq (rate (h' 0)) 1 /\ data (h' 0) = [1; 3]%Q /\ Qlt (rate (ex_rf_heap 0)) (inject_Z (17 * 1)).
Proof. eexists. split; [vm_compute; reflexivity|]. repeat split. Qed.

(** C72: after success all traces are tagged as receiver functions, the stream
    reports the requested method. *)
Theorem C72_tags str_of filt lowpass rot dec (a : rf_args) ls h h3 ls1 m :
  (m = "P" \/ m = "S") -> rf_method a (map h ls) = Ok m ->
  rf_deconvolved str_of filt lowpass rot dec a m ls h = (h3, Ok ls1) ->
  NoDup ls1 -> phases_are_texts (map h3 ls1) -> (forall l, In l ls1 -> exists o, onset_of (h3 l) o) ->
  exists h', rf str_of filt lowpass rot dec a ls h = (h', Ok ls1) /\
    (forall l, In l ls1 -> dget (extra (st (h' l))) "type" = Some (VStr "rf")) /\
    (ls1 <> [] -> stream_method (map h' ls1) = Ok (Some m)).
Proof.
  intros Hm Hr Hd Hnd Hp Ho. unfold rf. rewrite Hr, Hd. destruct Hm as [-> | ->].
  - destruct (finish_P ls1 h3 Hnd Hp) as (h' & -> & H1 & _ & H3). exists h'. split; [reflexivity|]. split; [|exact H3].
    intros l Hl. apply (H1 l Hl).
  - destruct (finish_S ls1 h3 Hnd Hp Ho) as (h' & -> & H1 & _ & H3). exists h'. split; [reflexivity|]. split; [|exact H3].
    intros l Hl. apply (H1 l Hl).
Qed.
Print Assumptions C72_tags.
Example C72_nonvacuous : exists h', ex_rf (Some "S") None = (h', Ok [0; 1]) /\
  stream_method (map h' [0; 1]) = Ok (Some "S") /\ stream_method (map ex_rf_heap [0; 1]) = Ok (Some "P").
Proof. eexists. split; [vm_compute; reflexivity|]. split; reflexivity. Qed.
