(** C137: the command data with a local file. *)
From Verif Require Import Model.LocalData Spec.TimeSpec Spec.IterSpec Spec.RfSpec Spec.MemorySpec Spec.LocalSpec Proofs.PyFacts Proofs.TimeFacts Proofs.RfFacts Proofs.MemoryFacts Proofs.LocalFacts.
Notation length := List.length.

Section Props.
  Variable str_of : value -> string.
  Variable filt : act.
  Variable lowpass : Z -> list Q -> list Q.
  Variable rot : list loc -> heap -> heap * res unit.
  Variable rot_new : list loc -> list loc.
  Variable dec : string -> list loc -> heap -> heap * res unit.
  Variable dec_new : list loc -> list loc.
  Variable mo : trace -> res (list Q).
  Variable mark : stats -> stats.
  Variable merge : list trace -> plan.
  Hypothesis Hrot : group_method rot rot_new.
  Hypothesis Hdec : forall m, group_method (dec m) dec_new.
  Hypothesis Hmo : keeps_length mo.
  Hypothesis Hmerge : merges merge.
  Let run := local_run str_of filt lowpass rot rot_new dec dec_new mo mark merge.

  (** Every stream which is processed consists of the samples of the file, whatever has been done to
      the streams before; [next]: places of the file are used only for the file. *)
  Theorem C137_file_partial cmds (file : list loc) items w next yielded written e :
    allocated w -> (forall l : loc, In l file -> l < next) ->
    careful ((forall g, length g = 3 -> incl g (rot_new g)) /\ Forall (together str_of) (event_streams merge (map (seen w) file) items)) cmds ->
    run cmds file items w next = (yielded, written, e) ->
    (exists rest, event_streams merge (map (seen w) file) items = yielded ++ rest) /\
    (e = None -> event_streams merge (map (seen w) file) items = yielded).
  Proof.
    intros Ha Hf Hc E. pose proof (local_run_facts str_of filt lowpass rot rot_new dec dec_new mo mark merge Hrot Hdec Hmo Hmerge cmds file items w next Ha Hf Hc) as H.
    change (local_run _ _ _ _ _ _ _ _ _ _) with run in H. rewrite E in H. exact H.
  Qed.
  (** rf data: exactly these streams are written *)
  Theorem C137_data (file : list loc) items w next yielded written :
    allocated w -> (forall l : loc, In l file -> l < next) -> run [CData] file items w next = (yielded, written, None) ->
    written = event_streams merge (map (seen w) file) items.
  Proof.
    intros Ha Hf E. destruct (C137_file_partial [CData] file items w next yielded written None Ha Hf) as [_ H]; [left; repeat constructor; discriminate | exact E|].
    rewrite (H eq_refl). pose proof (local_run_data str_of filt lowpass rot rot_new dec dec_new mo mark merge 1 file items w next) as Hd. cbn [repeat] in Hd. change (local_run _ _ _ _ _ _ _ _ _ _) with run in Hd. rewrite E in Hd. symmetry. exact Hd.
  Qed.
  (** rf data calc: a receiver function (of the model on values) for each of these streams *)
  Theorem C137_calc a (file : list loc) items w next yielded written :
    allocated w -> (forall l : loc, In l file -> l < next) -> run [CData; CCalc a] file items w next = (yielded, written, None) ->
    Forall2 (fun s r => exists (h : heap) ls h' ls', NoDup ls /\ map h ls = s /\ rf str_of filt lowpass rot dec a ls h = (h', Ok ls') /\ map h' ls' = r)
      (event_streams merge (map (seen w) file) items) written.
  Proof.
    intros Ha Hf E. destruct (C137_file_partial [CData; CCalc a] file items w next yielded written None Ha Hf) as [_ H]; [left; repeat constructor; discriminate | exact E|].
    rewrite (H eq_refl). clear H. revert w next yielded written Ha Hf E. induction items as [|it items IH]; intros w next yielded written Ha Hf E; unfold run in E; cbn [local_run] in E.
    - inversion E; subst. constructor.
    - pose proof (local_stream_facts merge file it w next Hmerge Ha Hf) as H. destruct (local_stream merge file it w next) as [[w1 n1] r]. destruct H as (Hn & G & V).
      assert (allocated w1) as A1 by (apply G, Ha). assert (forall l : loc, In l file -> l < n1) as Hf1 by (intros l Hl; specialize (Hf l Hl); lia).
      destruct r as [[ls|]|e]; [|eapply IH; eassumption | discriminate].
      cbn [v_commands] in E. pose proof (agree_rf str_of filt lowpass rot rot_new dec dec_new Hrot Hdec a ls w1 A1) as (A2 & S2 & R2).
      destruct (v_rf _ _ _ _ _ _ _ a ls w1) as [w2 [ls'|e]]; cbn [fst snd] in *; [|discriminate].
      fold run in E. destruct (run [CData; CCalc a] file items w2 n1) as [[ys ws] e] eqn:Er. inversion E; subst; clear E. constructor; [|eapply IH; eassumption].
      exists (seen w1), ls, (seen w2), ls'. split.
      { destruct (event_stream merge (map (seen w) file) it) as [[ts|]|e']; try contradiction. apply V. }
      split; [reflexivity|]. split; [|reflexivity]. destruct (rf _ _ _ _ _ a ls (seen w1)) as [h' r']. cbn [fst snd] in *. subst. reflexivity.
  Qed.
End Props.

(** ** Cases *)
Definition ld_str (v : value) : string := match v with VStr s => s | _ => "t" end.
Definition ld_stats (cha : string) : stats := mkStats "CX" "PB01" "" cha 0 1000000000 [].
Definition ld_mem : mem := [map inject_Z [1; 2; 3; 4; 5; 6; 7; 8]%Z; map inject_Z [8; 7; 6; 5; 4; 3; 2; 1]%Z; map inject_Z [2; 2; 2; 2; 2; 2; 2; 2]%Z; map inject_Z [9; 9]%Z].
Definition ld_obj (l : loc) : vtrace :=
  match l with
  | 0 => mkVT (ld_stats "BHZ") (mkView 0 0 8) | 1 => mkVT (ld_stats "BHN") (mkView 1 0 8) | 2 => mkVT (ld_stats "BHE") (mkView 2 0 8)
  | _ => mkVT (ld_stats "LHZ") (mkView 3 0 2)
  end.
Definition ld_world : world := mkWorld ld_mem ld_obj.
Definition ld_neg : act := fun t => (set_data t (map Qopp (data t)), Ok tt).
Definition ld_mo (t : trace) : res (list Q) := Ok (match data t with [] => [] | x :: xs => x :: map (fun q => Qred (q / 2)) xs end).
Definition ld_nothing (g : list loc) (h : heap) : heap * res unit := (h, Ok tt).
Definition ld_run := local_run ld_str ld_neg (fun _ d => d) ld_nothing (fun g => g) (fun _ => ld_nothing) (fun g => g) ld_mo (fun s => s) (fun ts => map inl (seq 0 (List.length ts))).
(** two events with windows which overlap *)
Definition ld_item (a b o : Z) : item :=
  mkItem (mkReq "CX" "PB01" "" "BH?" ((a - 1) * 1000000000) ((b + 1) * 1000000000)) (a * 1000000000) (b * 1000000000) [("onset", VTime (o * 1000000000)); ("phase", VStr "P")].
Definition ld_items : list item := [ld_item 1 4 2; ld_item 3 6 4].
Definition ld_samples (x : list (list trace) * list (list trace) * option exn) : list (list (list Q)) * list (list (list Q)) * option exn :=
  let '(a, b, e) := x in (map (map data) a, map (map data) b, e).
Example C137_nonvacuous :
  allocated ld_world /\ keeps_length ld_mo /\ merges (fun ts => map inl (seq 0 (List.length ts))) /\
  ld_samples (ld_run [CData] [0; 1; 2; 3] ld_items ld_world 4) =
    (let s := [[map inject_Z [2; 3; 4; 5]; map inject_Z [7; 6; 5; 4]; map inject_Z [2; 2; 2; 2]]; [map inject_Z [4; 5; 6; 7]; map inject_Z [5; 4; 3; 2]; map inject_Z [2; 2; 2; 2]]]%Z in (s, s, None)) /\
  ld_samples (ld_run [CData; CCalc (mkArgs None true None None false false); CMoveout] [0; 1; 2; 3] ld_items ld_world 4) =
    ([[map inject_Z [2; 3; 4; 5]; map inject_Z [7; 6; 5; 4]; map inject_Z [2; 2; 2; 2]]; [map inject_Z [4; 5; 6; 7]; map inject_Z [5; 4; 3; 2]; map inject_Z [2; 2; 2; 2]]]%Z,
     [[[-2; -3 # 2; -2; -5 # 2]; [-7; -3; -5 # 2; -2]; [-2; -1; -1; -1]]; [[-4; -5 # 2; -3; -7 # 2]; [-5; -2; -3 # 2; -1]; [-2; -1; -1; -1]]]%Q, None).
Proof.
  split; [intros l; destruct l as [|[|[|l]]]; cbn; lia|]. split.
  - intros t d E. inversion E; subst. destruct (data t); cbn [List.length]; [reflexivity|]. rewrite map_length. reflexivity.
  - split; [|split; vm_compute; reflexivity]. intros ts. assert (forall l, kept (map inl l) = l) as H by (induction l as [|x l IH]; cbn [map kept]; [reflexivity | rewrite IH; reflexivity]). rewrite H. apply seq_NoDup.
Qed.
(** rf data moveout: the stream of the second event has been corrected, partly, with the first one *)
Theorem C137_moveout_refuted :
  ~ (forall str_of filt lowpass rot rot_new dec dec_new mo mark merge cmds file items w next yielded written,
       group_method rot rot_new -> (forall m, group_method (dec m) dec_new) -> keeps_length mo -> merges merge -> allocated w -> (forall l : loc, In l file -> l < next) ->
       local_run str_of filt lowpass rot rot_new dec dec_new mo mark merge cmds file items w next = (yielded, written, None) ->
       yielded = event_streams merge (map (seen w) file) items).
Proof.
  intros H. destruct C137_nonvacuous as (Ha & Hm & Hme & _).
  destruct (ld_run [CData; CMoveout] [0; 1; 2; 3] ld_items ld_world 4) as [[ys ws] e] eqn:E.
  assert (e = None) as -> by (apply (f_equal snd) in E; vm_compute in E; symmetry; exact E).
  assert (group_method ld_nothing (fun g => g)) as Hg by (intros g h; split; [reflexivity | split; [apply incl_refl | reflexivity]]).
  pose proof (H _ _ _ _ _ _ _ _ _ _ _ [0; 1; 2; 3] _ _ 4 ys ws Hg (fun _ => Hg) Hm Hme Ha ltac:(cbn; lia) E) as Hy.
  apply (f_equal (fun x => fst (fst x))) in E. cbn [fst] in E. rewrite <- E in Hy. apply (f_equal (map (map data))) in Hy. vm_compute in Hy. discriminate.
Qed.

Print Assumptions C137_file_partial.
Print Assumptions C137_data.
Print Assumptions C137_calc.
Print Assumptions C137_moveout_refuted.
