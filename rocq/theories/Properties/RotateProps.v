(** C149: rotation in rf(). *)
From Verif Require Import Model.Rotate Spec.TimeSpec Spec.IterSpec Spec.RfSpec Spec.RotateSpec Proofs.PyFacts Proofs.RfFacts Proofs.RotateFacts.
From Coq Require Import Lia Permutation.
Notation length := List.length.

(** rf(rotate='ZNE->LQT', deconvolve=None): L is the motion along the ray (up and away from the event), Q the motion at
    right angles to it in the plane of the ray (away from the event for a vertical ray), T the motion at right angles to
    this plane. Headers are as before except for the component letter, type and phase. *)
Theorem C149_ray cosd sind incomplete str_of filt lowpass dec ls h h' r z n e b i :
  NoDup ls -> (forall l, In l ls -> exists o, onset_of (h l) o) -> phases_are_texts (map h ls) ->
  In z ls -> (0 <= delta (st (h z)))%Z -> three_components str_of h ls z n e b i ->
  rf str_of filt lowpass (rotate_lqt cosd sind incomplete) dec (mkArgs (Some "P") false None None true false) ls h = (h', Ok r) ->
  let up j := nth j (data (h z)) 0%Q in
  let out j := away (cosd b) (sind b) (nth j (data (h n)) 0%Q) (nth j (data (h e)) 0%Q) in
  turned ["type"; "phase"] (h z) (h' z) "L" (fun j => up j * cosd i + out j * sind i)%Q /\
  turned ["type"; "phase"] (h n) (h' n) "Q" (fun j => out j * cosd i - up j * sind i)%Q /\
  turned ["type"; "phase"] (h e) (h' e) "T" (fun j => across (cosd b) (sind b) (nth j (data (h n)) 0%Q) (nth j (data (h e)) 0%Q)).
Proof.
  intros Nd Ho Hph Hz Hd H3 E. destruct (rf_stages _ _ _ _ _ _ _ _ _ _ _ _ (or_introl eq_refl) E) as (_ & h1 & h3 & E1 & E2 & E3).
  destruct (lqt_stage cosd sind incomplete str_of ls h h1 z n e b i Nd Ho Hz Hd H3 E1) as (K & L1 & L2 & L3).
  set (h2 := fst (for_locs negate_q ls h1)) in *. cbn [group_stage] in E2. injection E2 as <-.
  destruct (finish_P ls h2 Nd (kept_phases ls h h2 K Hph)) as (h4 & E4 & F & _). rewrite E3 in E4. injection E4 as <-.
  destruct (three_triple _ _ _ _ _ _ _ _ Nd Hz H3) as (g & _ & _ & _ & Sub & Sub').
  cbv zeta. split; [|split]; (eapply turned_finished; [eassumption|]); apply F, Sub', Sub; cbn; tauto.
Qed.
Print Assumptions C149_ray.
(** rf(rotate='NE->RT', deconvolve=None): R is the horizontal motion away from the event *)
Theorem C149_horizontal cosd sind incomplete str_of filt lowpass dec ls h h' r z n e b i :
  NoDup ls -> (forall l, In l ls -> exists o, onset_of (h l) o) -> phases_are_texts (map h ls) ->
  In z ls -> (0 <= delta (st (h z)))%Z -> three_components str_of h ls z n e b i ->
  rf str_of filt lowpass (rotate_rt cosd sind incomplete) dec (mkArgs (Some "P") false None None true false) ls h = (h', Ok r) ->
  data (h' z) = data (h z) /\ channel (st (h' z)) = channel (st (h z)) /\
  turned ["type"; "phase"] (h n) (h' n) "R" (fun j => away (cosd b) (sind b) (nth j (data (h n)) 0%Q) (nth j (data (h e)) 0%Q)) /\
  turned ["type"; "phase"] (h e) (h' e) "T" (fun j => across (cosd b) (sind b) (nth j (data (h n)) 0%Q) (nth j (data (h e)) 0%Q)).
Proof.
  intros Nd Ho Hph Hz Hd H3 E. destruct (rf_stages _ _ _ _ _ _ _ _ _ _ _ _ (or_introl eq_refl) E) as (_ & h1 & h3 & E1 & E2 & E3).
  destruct (rt_stage cosd sind incomplete str_of ls h h1 z n e b i Nd Ho Hz Hd H3 E1) as (K & L1 & L2 & L3).
  set (h2 := fst (for_locs negate_q ls h1)) in *. cbn [group_stage] in E2. injection E2 as <-.
  destruct (finish_P ls h2 Nd (kept_phases ls h h2 K Hph)) as (h4 & E4 & F & _). rewrite E3 in E4. injection E4 as <-.
  destruct (three_triple _ _ _ _ _ _ _ _ Nd Hz H3) as (g & _ & _ & _ & Sub & Sub').
  destruct (F z Hz) as ((_ & _ & _ & Fc & _) & _ & Fd & _). rewrite L1 in Fc, Fd.
  split; [exact Fd|]. split; [exact Fc|]. split; (eapply turned_finished; [eassumption|]); apply F, Sub', Sub; cbn; tauto.
Qed.
Print Assumptions C149_horizontal.
(** Rotation to the ray keeps the energy of every sample *)
Theorem C149_energy cosd sind incomplete str_of filt lowpass dec ls h h' r z n e b i j :
  unit_circle cosd sind ->
  NoDup ls -> (forall l, In l ls -> exists o, onset_of (h l) o) -> phases_are_texts (map h ls) ->
  In z ls -> (0 <= delta (st (h z)))%Z -> three_components str_of h ls z n e b i ->
  rf str_of filt lowpass (rotate_lqt cosd sind incomplete) dec (mkArgs (Some "P") false None None true false) ls h = (h', Ok r) ->
  (j < length (data (h z)))%nat ->
  let energy (h : heap) := (nth j (data (h z)) 0 * nth j (data (h z)) 0 + nth j (data (h n)) 0 * nth j (data (h n)) 0 + nth j (data (h e)) 0 * nth j (data (h e)) 0)%Q in
  (energy h' == energy h)%Q.
Proof.
  intros U Nd Ho Hph Hz Hd H3 E Hj. destruct (C149_ray _ _ _ _ _ _ _ _ _ _ _ _ _ _ _ _ Nd Ho Hph Hz Hd H3 E) as (L1 & L2 & L3).
  destruct H3 as (_ & _ & _ & _ & H). destruct (H n ltac:(cbn; tauto)) as (_ & _ & _ & _ & Ln). destruct (H e ltac:(cbn; tauto)) as (_ & _ & _ & _ & Le).
  cbv zeta. destruct L1 as (_ & _ & _ & _ & _ & _ & _ & _ & L1), L2 as (_ & _ & _ & _ & _ & _ & _ & _ & L2), L3 as (_ & _ & _ & _ & _ & _ & _ & _ & L3).
  rewrite L1, L2, L3 by lia. unfold away, across.
  generalize (nth j (data (h z)) 0%Q) (nth j (data (h n)) 0%Q) (nth j (data (h e)) 0%Q). intros x y w.
  pose proof (U i) as Ui. pose proof (U b) as Ub.
  transitivity (x * x * (cosd i * cosd i + sind i * sind i) + (cosd i * cosd i + sind i * sind i) * ((y * cosd b + w * sind b) * (y * cosd b + w * sind b))
                + (y * sind b - w * cosd b) * (y * sind b - w * cosd b))%Q; [ring|]. rewrite Ui.
  transitivity (x * x + (y * y + w * w) * (cosd b * cosd b + sind b * sind b))%Q; [ring|]. rewrite Ub. ring.
Qed.
Print Assumptions C149_energy.
(** The polarities of the two kinds of rotation agree: T is the same, and Q is R for a vertical ray *)
Theorem C149_polarity cosd sind incomplete str_of filt lowpass dec ls h h1 h2 r1 r2 z n e b i j :
  NoDup ls -> (forall l, In l ls -> exists o, onset_of (h l) o) -> phases_are_texts (map h ls) ->
  In z ls -> (0 <= delta (st (h z)))%Z -> three_components str_of h ls z n e b i ->
  rf str_of filt lowpass (rotate_lqt cosd sind incomplete) dec (mkArgs (Some "P") false None None true false) ls h = (h1, Ok r1) ->
  rf str_of filt lowpass (rotate_rt cosd sind incomplete) dec (mkArgs (Some "P") false None None true false) ls h = (h2, Ok r2) ->
  (j < length (data (h z)))%nat ->
  (nth j (data (h1 n)) 0 == nth j (data (h2 n)) 0 * cosd i - nth j (data (h2 z)) 0 * sind i)%Q /\
  (nth j (data (h1 z)) 0 == nth j (data (h2 n)) 0 * sind i + nth j (data (h2 z)) 0 * cosd i)%Q /\
  (nth j (data (h1 e)) 0 == nth j (data (h2 e)) 0)%Q.
Proof.
  intros Nd Ho Hph Hz Hd H3 E1 E2 Hj. destruct (C149_ray _ _ _ _ _ _ _ _ _ _ _ _ _ _ _ _ Nd Ho Hph Hz Hd H3 E1) as (L1 & L2 & L3).
  destruct (C149_horizontal _ _ _ _ _ _ _ _ _ _ _ _ _ _ _ _ Nd Ho Hph Hz Hd H3 E2) as (M1 & _ & M2 & M3).
  destruct H3 as (_ & _ & _ & _ & H). destruct (H n ltac:(cbn; tauto)) as (_ & _ & _ & _ & Ln). destruct (H e ltac:(cbn; tauto)) as (_ & _ & _ & _ & Le).
  destruct L1 as (_ & _ & _ & _ & _ & _ & _ & _ & L1), L2 as (_ & _ & _ & _ & _ & _ & _ & _ & L2), L3 as (_ & _ & _ & _ & _ & _ & _ & _ & L3),
    M2 as (_ & _ & _ & _ & _ & _ & _ & _ & M2), M3 as (_ & _ & _ & _ & _ & _ & _ & _ & M3).
  rewrite M1, L1, L2, L3, M2, M3 by lia. split; [reflexivity|]. split; [ring|reflexivity].
Qed.
Print Assumptions C149_polarity.

(** cosine and sine of 53.13 and 36.87 degrees *)
Definition ex_cos (a : Q) : Q := if Qeq_bool a (5313 # 100) then 3 # 5 else if Qeq_bool a (3687 # 100) then 4 # 5 else 1.
Definition ex_sin (a : Q) : Q := if Qeq_bool a (5313 # 100) then 4 # 5 else if Qeq_bool a (3687 # 100) then 3 # 5 else 0.
Lemma ex_circle : unit_circle ex_cos ex_sin.
Proof. intros a. unfold ex_cos, ex_sin. destruct (Qeq_bool a (5313 # 100)); [reflexivity|]. destruct (Qeq_bool a (3687 # 100)); reflexivity. Qed.
Definition samples_of (n : nat) (f : Z -> Q) : list Q := map (fun j => f (Z.of_nat j)) (seq 0 n).
(** n samples of the motion l along the ray, q and t at right angles to it, for back azimuth 53.13 and inclination 36.87 *)
Definition ex_rays (n : nat) (l q t : Z -> Q) : heap := fun x =>
  let out j := (l j * (3 # 5) + q j * (4 # 5))%Q in
  let tr c d := mkTrace (mkStats "CX" "PB01" "" c 0 1000000000
    [("onset", VTime 10300000000); ("back_azimuth", VNum (5313 # 100)); ("inclination", VNum (3687 # 100))]) d in
  match x with
  | O => tr "BHE" (samples_of n (fun j => - (out j * (4 # 5)) - t j * (3 # 5))%Q)
  | 1%nat => tr "BHN" (samples_of n (fun j => t j * (4 # 5) - out j * (3 # 5))%Q)
  | _ => tr "BHZ" (samples_of n (fun j => l j * (4 # 5) - q j * (3 # 5))%Q)
  end.
Lemma ex_samples n f j : (j < n)%nat -> nth j (samples_of n f) 0%Q = f (Z.of_nat j).
Proof.
  intros H. unfold samples_of. rewrite (nth_indep _ 0%Q (f (Z.of_nat 0))) by (rewrite map_length, seq_length; exact H).
  rewrite (map_nth (fun j => f (Z.of_nat j))), seq_nth by exact H. reflexivity.
Qed.
Lemma ex_motion n l q t : motion (ex_cos (5313 # 100)) (ex_sin (5313 # 100)) (ex_cos (3687 # 100)) (ex_sin (3687 # 100)) (ex_rays n l q t) 2 1 0 l q t.
Proof.
  intros j Hj. unfold ex_rays in Hj. cbn [data] in Hj. unfold samples_of in Hj. rewrite map_length, seq_length in Hj.
  unfold ex_rays. cbn [data]. rewrite !ex_samples by exact Hj. unfold away, across.
  change (ex_cos (5313 # 100)) with (3 # 5). change (ex_sin (5313 # 100)) with (4 # 5). change (ex_cos (3687 # 100)) with (4 # 5). change (ex_sin (3687 # 100)) with (3 # 5).
  split; [reflexivity|]. split; field.
Qed.
Lemma ex_three n l q t : three_components (fun _ => "t") (ex_rays n l q t) [0; 1; 2]%nat 2 1 0 (5313 # 100) (3687 # 100).
Proof.
  split.
  - exists [0; 1; 2]%nat. split; [|apply (perm_trans (perm_swap 1 0 [2])%nat); apply (perm_trans (perm_skip 1 (perm_swap 2 0 []))%nat); apply perm_swap].
    exists (fun _ => true). split; [|reflexivity]. intros y. split; [|reflexivity]. intros _. split; destruct y as [|[|y]]; reflexivity.
  - do 3 (split; [reflexivity|]). intros x [<-|[<-|[<-|[]]]]; repeat (split; [reflexivity|]); unfold ex_rays; cbn [data]; unfold samples_of; rewrite !map_length; reflexivity.
Qed.
Lemma ex_onsets n l q t x : onset_of (ex_rays n l q t x) 10300000000. Proof. destruct x as [|[|x]]; reflexivity. Qed.
Lemma ex_phases n l q t ls : phases_are_texts (map (ex_rays n l q t) ls).
Proof. intros u Hu. apply in_map_iff in Hu. destruct Hu as (x & <- & _). destruct x as [|[|x]]; exact I. Qed.
Lemma ex_nodup : NoDup [0; 1; 2]%nat. Proof. repeat constructor; cbn; lia. Qed.
Example C149_nonvacuous : exists h',
  rf (fun _ => "t") (fun t => (t, Ok tt)) (fun _ d => d) (rotate_lqt ex_cos ex_sin (fun _ => Ok tt)) (fun _ _ h => (h, Ok tt)) (mkArgs (Some "P") false None None true false)
    [0; 1; 2]%nat (ex_rays 3 (fun j => inject_Z (j + 1)) (fun j => inject_Z (j * j)) (fun _ => 1%Q)) = (h', Ok [0; 1; 2]%nat) /\
  map (fun t => (channel (st t), map Qred (data t))) (map h' [2; 1; 0]%nat) = [("BHL", [1; 2; 3]); ("BHQ", [0; 1; 4]); ("BHT", [1; 1; 1])]%Q.
Proof. eexists. split; vm_compute; reflexivity. Qed.
