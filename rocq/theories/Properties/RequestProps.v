(** C138: rf data with a local file gives the samples of the window, whatever the padding is. *)
From Verif Require Import Model.LocalData Spec.TimeSpec Spec.IterSpec Spec.RfSpec Spec.MemorySpec Spec.LocalSpec Spec.RequestSpec Proofs.PyFacts Proofs.TimeFacts Proofs.MemoryFacts Proofs.LocalFacts Proofs.RequestFacts.
Notation length := List.length.

Section Props.
  Variable str_of : value -> string.
  Variable filt : act.
  Variable lowpass : Z -> list Q -> list Q.
  Variable rot : list loc -> heap -> heap * res unit.
  Variable rot_new : list loc -> list loc.
  Variable dec : string -> list loc -> heap -> heap * res unit.
  Variable dec_new : list loc -> list loc.
  Variable mo : trace -> res (list Q).
  Variable mark : stats -> stats.
  Variable merge : list trace -> plan.
  Hypothesis Hmerge : merges merge.
  (** nothing to merge for different channels *)
  Hypothesis Hkeep : forall ts, NoDup (map tr_id ts) -> merge ts = map inl (seq 0 (length ts)).

  Lemma merged_all ts (pre : list trace) : merged (map inl (seq (length pre) (length ts))) (pre ++ ts) = map (fun t => (t, false)) ts.
  Proof.
    revert pre. induction ts as [|t ts IH]; intros pre; cbn [List.length seq map merged]; [reflexivity|].
    rewrite nth_error_app2, Nat.sub_diag by lia. cbn [nth_error]. f_equal.
    specialize (IH (pre ++ [t])). rewrite app_length, Nat.add_1_r, <- app_assoc in IH. exact IH.
  Qed.
  Lemma stream_answer (pad d : Z) (file : list trace) it : (0 < d)%Z -> (d <= 2 * pad)%Z -> padded pad it -> three_records d file it -> NoDup (map fst (i_stats it)) ->
    exists r, event_stream merge file it = Ok r /\ answers d file it r.
  Proof.
    intros Hd Hp (Q1 & Q2 & Hw) (H3 & Hid & Hdel & Hs) Hst. unfold event_stream, answers. rewrite Q1, Q2. set (ts := filter (selects (i_req it)) file) in *.
    destruct (request_cut (i_start it) (i_stop it) pad d Hd Hw Hp ts Hdel Hs) as (l1 & -> & l2 & -> & [[-> H]|H]); cbn [bind].
    - rewrite Hkeep by constructor. cbn. exists None. split; [reflexivity|]. intros t x Ht Hx. specialize (H t Ht).
      destruct (inside (i_start it) (i_stop it) d x) eqn:E; [|reflexivity]. exfalso.
      assert (In x (filter (inside (i_start it) (i_stop it) d) (samples t))) as Hin by (apply filter_In; split; assumption). rewrite H in Hin. contradiction.
    - assert (map tr_id l2 = map tr_id ts) as Ei.
      { clear - H. induction H as [|t u ts l2 (Hh & _) _ IH]; cbn [map]; [reflexivity|]. rewrite IH. f_equal. destruct Hh as (E1 & E2 & E3 & E4 & _). unfold tr_id, stats_id. rewrite E1, E2, E3, E4. reflexivity. }
      rewrite Hkeep by (rewrite Ei; exact Hid). pose proof (merged_all l2 []) as Hm. cbn [app List.length] in Hm. rewrite Hm. clear Hm.
      rewrite map_length. assert (length l2 = 3) as -> by (rewrite <- (map_length tr_id l2), Ei, map_length; exact H3).
      assert (existsb snd (map (fun t : trace => (t, false)) l2) = false) as -> by (induction l2; [reflexivity | cbn [map existsb snd orb]; assert (forall l : list trace, existsb snd (map (fun t : trace => (t, false)) l) = false) as -> by (induction l; [reflexivity | assumption]); reflexivity]).
      cbn [Nat.eqb negb andb]. eexists. split; [reflexivity|]. cbv beta iota. rewrite map_map. cbn [fst].
      clear - H Hst. induction H as [|t u ts l2 (Hh & Hx & Hn) _ IH]; cbn [map]; constructor; [|exact IH].
      destruct Hh as (E1 & E2 & E3 & E4 & E5 & E6). split; [unfold tr_id, stats_id; cbn [st update_stats network station location channel]; rewrite E1, E2, E3, E4; reflexivity|]. split; [exact E5|]. split; [exact Hx|]. split; [exact Hn|].
      intros k. cbn [st extra update_stats]. rewrite dupdate_get by exact Hst. rewrite E6. reflexivity.
  Qed.

  (** for each event and station, the samples less than half a sampling interval outside of the window,
      for any padding of at least half a sampling interval; nothing raises *)
  Theorem C138_window (pad d : Z) (file : list loc) items w next yielded written e :
    (0 < d)%Z -> (d <= 2 * pad)%Z -> allocated w -> (forall l : loc, In l file -> l < next) ->
    (forall it, In it items -> padded pad it /\ three_records d (map (seen w) file) it /\ NoDup (map fst (i_stats it))) ->
    local_run str_of filt lowpass rot rot_new dec dec_new mo mark merge [CData] file items w next = (yielded, written, e) ->
    e = None /\ exists rs, Forall2 (answers d (map (seen w) file)) items rs /\ written = given rs.
  Proof.
    intros Hd Hp Ha Hf. revert w next yielded written e Ha Hf. induction items as [|it items IH]; intros w next yielded written e Ha Hf Hi E; cbn [local_run] in E.
    - inversion E; subst. split; [reflexivity|]. exists []. split; [constructor | reflexivity].
    - destruct (Hi it (or_introl eq_refl)) as (I1 & I2 & I3). destruct (stream_answer pad d _ it Hd Hp I1 I2 I3) as (r & Er & Hr).
      pose proof (local_stream_facts merge file it w next Hmerge Ha Hf) as H. rewrite Er in H.
      destruct (local_stream merge file it w next) as [[w1 n1] r1]. destruct H as (Hn & G & V).
      assert (allocated w1) as A1 by (apply G, Ha). assert (forall l : loc, In l file -> l < n1) as Hf1 by (intros l Hl; specialize (Hf l Hl); lia).
      assert (map (seen w1) file = map (seen w) file) as Em1 by (apply map_ext_in; intros l Hl; apply (grows_seen _ _ _ _ Ha G); rewrite in_seq; specialize (Hf l Hl); lia).
      assert (forall it', In it' items -> padded pad it' /\ three_records d (map (seen w1) file) it' /\ NoDup (map fst (i_stats it'))) as Hi1 by (intros it' H'; rewrite Em1; apply Hi; right; exact H').
      destruct r1 as [[ls|]|e1], r as [ts|]; try contradiction.
      + cbn [v_commands] in E. destruct (local_run _ _ _ _ _ _ _ _ _ _ [CData] file items w1 n1) as [[ys ws] e'] eqn:El. inversion E; subst; clear E.
        destruct (IH w1 n1 ys ws e A1 Hf1 Hi1 El) as (-> & rs & F & ->). split; [reflexivity|]. rewrite Em1 in F. exists (Some (map (seen w1) ls) :: rs). split; [constructor; [|exact F] | reflexivity].
        destruct V as (<- & _). exact Hr.
      + destruct (IH w1 n1 yielded written e A1 Hf1 Hi1 E) as (-> & rs & F & ->). split; [reflexivity|]. rewrite Em1 in F. exists (None :: rs). split; [constructor; [exact Hr | exact F] | reflexivity].
  Qed.
End Props.

(** ** Cases *)
Definition rq_stats (cha : string) : stats := mkStats "CX" "PB01" "" cha 0 1000000000 [("sensor", VStr "x")].
Definition rq_mem : mem := [map inject_Z [1; 2; 3; 4; 5; 6; 7; 8]%Z; map inject_Z [8; 7; 6; 5; 4; 3; 2; 1]%Z; map inject_Z [2; 2; 2; 2; 2; 2; 2; 2]%Z; map inject_Z [9; 9]%Z].
Definition rq_obj (l : loc) : vtrace :=
  match l with
  | 0 => mkVT (rq_stats "BHZ") (mkView 0 0 8) | 1 => mkVT (rq_stats "BHN") (mkView 1 0 8) | 2 => mkVT (rq_stats "BHE") (mkView 2 0 8)
  | _ => mkVT (rq_stats "LHZ") (mkView 3 0 2)
  end.
Definition rq_world : world := mkWorld rq_mem rq_obj.
(** from [a] to [b] half seconds *)
Definition rq_item (pad a b : Z) : item :=
  mkItem (mkReq "CX" "PB01" "" "BH?" (a * 500000000 - pad) (b * 500000000 + pad)) (a * 500000000) (b * 500000000) [("onset", VTime (a * 500000000)); ("phase", VStr "P")].
Definition rq_nothing (g : list loc) (h : heap) : heap * res unit := (h, Ok tt).
Definition rq_run (pad : Z) (items : list item) := local_run (fun _ => "") (fun t => (t, Ok tt)) (fun _ d => d) rq_nothing (fun g => g) (fun _ => rq_nothing) (fun g => g) (fun t => Ok (data t)) (fun s => s) (fun ts => map inl (seq 0 (List.length ts))) [CData] [0; 1; 2; 3] items rq_world 4.
Definition rq_items (pad : Z) : list item := [rq_item pad 3 9; rq_item pad 40 50; rq_item pad 4 8; rq_item pad 12 30].
(** a window between samples, one outside of the record, one on samples, and one beyond the end *)
Example C138_nonvacuous :
  (forall it, In it (rq_items 10000000000) -> padded 10000000000 it /\ three_records 1000000000 (map (seen rq_world) [0; 1; 2; 3]) it /\ NoDup (map fst (i_stats it))) /\
  allocated rq_world /\
  (forall pad, In pad [500000000; 1300000000; 10000000000]%Z ->
    (let '(_, ws, e) := rq_run pad (rq_items pad) in (map (map (fun t => (starttime (st t), data t))) ws, e)) =
    ([[(2000000000, map inject_Z [3; 4; 5]); (2000000000, map inject_Z [6; 5; 4]); (2000000000, map inject_Z [2; 2; 2])];
      [(2000000000, map inject_Z [3; 4; 5]); (2000000000, map inject_Z [6; 5; 4]); (2000000000, map inject_Z [2; 2; 2])];
      [(6000000000, map inject_Z [7; 8]); (6000000000, map inject_Z [2; 1]); (6000000000, map inject_Z [2; 2])]]%Z, None)).
Proof.
  split; [|split].
  - assert (forall t u, In t (map (seen rq_world) [0; 1; 2]) -> In u (map (seen rq_world) [0; 1; 2]) -> same_times t u) as Hs.
    { intros t u Ht Hu. cbn [map In] in Ht, Hu. destruct Ht as [<-|[<-|[<-|[]]]]; destruct Hu as [<-|[<-|[<-|[]]]]; repeat split. }
    assert (forall it, In it (rq_items 10000000000) -> filter (selects (i_req it)) (map (seen rq_world) [0; 1; 2; 3]) = map (seen rq_world) [0; 1; 2]) as Hf.
    { intros it [<-|[<-|[<-|[<-|[]]]]]; vm_compute; reflexivity. }
    intros it Hin. split; [|split].
    + destruct Hin as [<-|[<-|[<-|[<-|[]]]]]; repeat split.
    + unfold three_records. rewrite (Hf it Hin). split; [reflexivity|]. split; [|split; [intros t Ht; cbn [map In] in Ht; destruct Ht as [<-|[<-|[<-|[]]]]; reflexivity | exact Hs]].
      vm_compute. repeat constructor; cbn [In]; intuition discriminate.
    + destruct Hin as [<-|[<-|[<-|[<-|[]]]]]; cbn; repeat constructor; cbn [In]; intuition discriminate.
  - intros l. destruct l as [|[|[|l]]]; cbn; lia.
  - intros pad [<-|[<-|[<-|[]]]]; vm_compute; reflexivity.
Qed.

Print Assumptions C138_window.
