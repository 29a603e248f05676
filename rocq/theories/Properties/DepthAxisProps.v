(** C114, C115: the axis of depths of a profile plot. *)
From Verif Require Import Model.Imaging Model.DepthAxis Spec.ModelSpec Spec.DepthSpec Proofs.PyFacts Proofs.SumFacts
  Proofs.InterpFacts Proofs.ModelFacts Proofs.MoveoutFacts Proofs.DepthFacts.
From Coq Require Import Lra Lia Qreals.
Notation length := List.length.
Open Scope R_scope.

(** the headers the axis is made of *)
Definition axis_headers (t : trace) (phase : string) (slowness : Q) : Prop :=
  dget (extra (st t)) "moveout" = Some (VStr phase) /\ dget (extra (st t)) "slowness" = Some (VNum slowness).

Lemma ticks_inv deg2km m first phase s a : axis_headers first phase s -> valid_model m -> contiguous m -> ps_phase phase ->
  depth_ticks deg2km m first = Ok a -> exists pd o, delay_times deg2km m (Q2R s) phase = Ok pd /\ onset_of first = Ok o /\
    length pd = length (mz m) /\ mz m <> [] /\
    let dkm := if (50 * 1000000000 <? endtime first - o)%Z then 200%Z else 50%Z in
    labels a = major_depths dkm /\
    major a = interp_walk_nan (mz m) pd 0 (map IZR (major_depths dkm)) /\
    minor a = interp_walk_nan (mz m) pd 0 (minor_depths dkm).
Proof.
  intros [H1 H2] Hv Hc Hps. unfold depth_ticks, str_attr, num_attr. rewrite H1, H2. cbn [bind].
  destruct (delay_ok deg2km m Hv (Q2R s) phase Hps) as (pd & E & L & _). rewrite E. cbn [bind].
  destruct (onset_of first) as [o|] eqn:Eo; cbn [bind]; [|discriminate]. pose proof Hv as (_ & Lz & _).
  unfold np_interp_nan. replace (length pd) with (length (mz m)) by lia. rewrite Nat.eqb_refl. cbn [negb].
  destruct (mz m) as [|z zs] eqn:Ez; cbn [bind]; [discriminate|]. rewrite <- Ez in *. intros H. inversion H. clear H.
  exists pd, o. cbv zeta. cbn [labels major minor]. rewrite Ez.
  repeat (split; [first [reflexivity | congruence | rewrite <- Ez; lia]|]). reflexivity.
Qed.
Lemma plot_inv deg2km iasp91 s first rest sc top f s' p a :
  plot_profile_axis deg2km iasp91 s (first :: rest) sc top (Some f) = (s', Ok (Some (p, Some a))) ->
  exists m, load_model iasp91 s f = (s', Ok m) /\ depth_ticks deg2km m first = Ok a.
Proof.
  unfold plot_profile_axis. destruct (plot_profile (first :: rest) sc None); [|discriminate].
  destruct (load_model iasp91 s f) as [s1 [m|e]]; cbn [bind]; [|discriminate].
  destruct (depth_ticks deg2km m first) as [b|] eqn:Ed; cbn [bind]; [|discriminate].
  destruct (plot_profile (first :: rest) sc top) as [[q|]|]; cbn [bind option_map]; intros H; try discriminate. inversion H; subst. eauto.
Qed.

(** C114: the tick of depth d stands at the delay of a conversion at the depth at the same
    relative position of the next layer below. Depths below the top of the last layer: bottom
    of the model.
    Missing: d itself, see C114_ticks_refuted. *)
Theorem C114_ticks_partial deg2km iasp91 s first rest scale top f s' p a m phase slow :
  plot_profile_axis deg2km iasp91 s (first :: rest) scale top (Some f) = (s', Ok (Some (p, Some a))) ->
  load_model iasp91 s f = (s', Ok m) -> axis_headers first phase slow ->
  valid_model m -> contiguous m -> ps_phase phase ->
  length (major a) = length (labels a) /\ length (minor a) = 100%nat /\
  (forall k d t, (d = IZR (nth k (labels a) 0%Z) /\ (k < length (labels a))%nat /\ t = nth k (major a) None) \/
                 (* four unlabelled ticks between two labels *)
                 (d = INR k * IZR (nth 1 (labels a) 0%Z) / 5 /\ (k < 100)%nat /\ t = nth k (minor a) None) ->
     (forall i, (S i < layers m)%nat -> nth i (mz m) 0 <= d < nth (S i) (mz m) 0 -> propagates_to deg2km m (Q2R slow) phase (S (S i)) ->
        exists x, t = Some x /\
          delay_at deg2km m (Q2R slow) phase (S i)
            (nth (S i) (mz m) 0 + (d - nth i (mz m) 0) / nth i (mdz m) 0 * nth (S i) (mdz m) 0) x) /\
     (nth (layers m - 1) (mz m) 0 <= d -> propagates_to deg2km m (Q2R slow) phase (layers m) ->
        exists x, t = Some x /\
          delay_at deg2km m (Q2R slow) phase (layers m - 1) (nth (layers m - 1) (mz m) 0 + nth (layers m - 1) (mdz m) 0) x)).
Proof.
  intros Hp Hl Hh Hv Hc Hps. destruct (plot_inv _ _ _ _ _ _ _ _ _ _ _ Hp) as (m' & E & Hd). rewrite Hl in E. inversion E; subst m'. clear E.
  destruct (ticks_inv _ _ _ _ _ _ Hh Hv Hc Hps Hd) as (pd & o & Epd & Eo & Lpd & Hne & Ea). cbv zeta in Ea.
  set (dkm := if (50 * 1000000000 <? endtime first - o)%Z then 200%Z else 50%Z) in *. destruct Ea as (-> & -> & ->).
  rewrite !nan_walk_length, map_length. split; [reflexivity|]. split; [unfold minor_depths; rewrite map_length, seq_length; reflexivity|].
  assert (0 < layers m)%nat as Hlay.
  { pose proof Hv as (_ & Lz & _). destruct (mz m); [congruence | cbn in Lz; lia]. }
  intros k d t Hk.
  assert (exists g, t = interp_value_nan (mz m) pd d (search d (mz m) g)) as [g ->].
  { destruct Hk as [(Ed & Hk & ->)|(Ed & Hk & ->)].
    - destruct (nan_walk_nth (mz m) pd (map IZR (major_depths dkm)) 0 k) as [g E]; [rewrite map_length; exact Hk|]. exists g. rewrite E.
      assert (nth k (map IZR (major_depths dkm)) 0 = d) as ->; [|reflexivity].
      rewrite (nth_map_in IZR (major_depths dkm) k 0%Z) by exact Hk. symmetry. exact Ed.
    - destruct (nan_walk_nth (mz m) pd (minor_depths dkm) 0 k) as [g E]; [unfold minor_depths; rewrite map_length, seq_length; exact Hk|]. exists g. rewrite E.
      assert (nth k (minor_depths dkm) 0 = d) as ->; [|reflexivity].
      unfold minor_depths. rewrite (nth_map_in _ (seq 0 100) k 0%nat) by (rewrite seq_length; exact Hk). rewrite seq_nth by exact Hk.
      rewrite Ed. change (nth 1 (major_depths dkm) 0%Z) with (Z.of_nat 1 * dkm)%Z. rewrite Nat.add_0_l. f_equal. f_equal. f_equal. lia. }
  clear Hk. split.
  - intros i Hi Hdi Hpr. exact (tick_at deg2km m (Q2R slow) phase pd d g i Hv Hc Hps Hpr Epd Hi Hdi).
  - intros Hdi Hpr. exact (tick_bottom deg2km m (Q2R slow) phase pd d g Hv Hc Hps Hpr Epd Hlay Hdi).
Qed.
Print Assumptions C114_ticks_partial.

Lemma snell_strict v v' h q q' : 0 < v -> v < v' -> snell v h q -> snell v' h q' -> q' < q.
Proof.
  intros Hv Hlt [H1 H2] [H3 H4]. assert (/ v' < / v) as Hi by (apply Rinv_lt_contravar; [nra | exact Hlt]).
  assert (0 < / v') as Hp by (apply Rinv_0_lt_compat; lra). destruct (Rlt_le_dec q' q); [assumption|]. exfalso. nra.
Qed.
(** Ps: every tick above the last layer is later than the conversion at the depth it is
    labelled with *)
Theorem C114_ticks_refuted deg2km iasp91 s first rest scale top f s' p a m phase slow :
  plot_profile_axis deg2km iasp91 s (first :: rest) scale top (Some f) = (s', Ok (Some (p, Some a))) ->
  load_model iasp91 s f = (s', Ok m) -> axis_headers first phase slow ->
  valid_model m -> contiguous m -> s_strictly_slower m -> upper phase = "PS" ->
  forall k i x y, (k < length (labels a))%nat -> (S i < layers m)%nat ->
    nth i (mz m) 0 <= IZR (nth k (labels a) 0%Z) < nth (S i) (mz m) 0 ->
    propagates_to deg2km m (Q2R slow) phase (S (S i)) ->
    nth k (major a) None = Some x -> delay_at deg2km m (Q2R slow) phase i (IZR (nth k (labels a) 0%Z)) y ->
    y < x.
Proof.
  intros Hp Hl Hh Hv Hc Hsl Hup k i x y Hk Hi Hd Hpr Ex Hy. set (d := IZR (nth k (labels a) 0%Z)) in *.
  assert (ps_phase phase) as Hps.
  { split; [intros ->; discriminate|]. rewrite Hup. intros c. cbn. destruct (Ascii.eqb_spec c "P"); [auto|].
    destruct (Ascii.eqb_spec c "S"); [auto|]. discriminate. }
  destruct (C114_ticks_partial _ _ _ _ _ _ _ _ _ _ _ _ _ _ Hp Hl Hh Hv Hc Hps) as (_ & _ & H).
  destruct (H k d (nth k (major a) None) (or_introl (conj eq_refl (conj Hk eq_refl)))) as [H1 _].
  destruct (H1 i Hi Hd Hpr) as (x' & Ex' & Hx). rewrite Ex in Ex'. inversion Ex'; subst x'. clear H H1 Ex'.
  destruct Hx as (_ & qp & qs & Hq & ->). destruct Hy as (_ & qp' & qs' & Hq' & ->).
  rewrite Hup in Hq, Hq'.
  assert (forall j, (j <= i)%nat -> qp' j = qp j /\ qs' j = qs j) as Eq.
  { intros j Hj. destruct (Hq j ltac:(lia)) as [A B]. destruct (Hq' j Hj) as [A' B'].
    split; [exact (snell_unique _ _ _ _ (A' eq_refl) (A eq_refl)) | exact (snell_unique _ _ _ _ (B' eq_refl) (B eq_refl))]. }
  assert (forall p q dz, layer_delay phase p q dz = dz * (q - p)) as Eld.
  { intros p0 q0 dz. unfold layer_delay. rewrite Hup. cbn. ring. }
  rewrite !rsum_S, !Eld. destruct (Eq i ltac:(lia)) as [-> ->].
  replace (rsum i (fun j => layer_delay phase (qp' j) (qs' j) (nth j (mdz m) 0)))
    with (rsum i (fun j => layer_delay phase (qp j) (qs j) (nth j (mdz m) 0))).
  2:{ apply rsum_ext. intros j Hj. destruct (Eq j ltac:(lia)) as [-> ->]. reflexivity. }
  pose proof Hv as (_ & Lz & _ & _ & Hpos). pose proof (Hc i Hi) as Hci.
  destruct (Hpos i ltac:(lia)) as (P1 & P2 & P3). destruct (Hpos (S i) Hi) as (P4 & P5 & P6).
  destruct (Hq i ltac:(lia)) as [A B]. destruct (Hq (S i) ltac:(lia)) as [A' B'].
  pose proof (snell_strict _ _ _ _ _ P2 (Hsl i ltac:(lia)) (B eq_refl) (A eq_refl)) as Q1.
  pose proof (snell_strict _ _ _ _ _ P5 (Hsl (S i) Hi) (B' eq_refl) (A' eq_refl)) as Q2.
  set (S0 := rsum i _). set (th := (d - nth i (mz m) 0) / nth i (mdz m) 0).
  assert (0 <= th * nth (S i) (mdz m) 0) as Hth.
  { apply Rmult_le_pos; [|exact P6]. unfold th. apply Rmult_le_pos; [lra | left; apply Rinv_0_lt_compat; lra]. }
  replace (nth (S i) (mz m) 0 + th * nth (S i) (mdz m) 0 - nth (S i) (mz m) 0) with (th * nth (S i) (mdz m) 0) by ring.
  assert (0 <= th * nth (S i) (mdz m) 0 * (qs (S i) - qp (S i))) by (apply Rmult_le_pos; lra).
  assert ((d - nth i (mz m) 0) * (qs i - qp i) < nth i (mdz m) 0 * (qs i - qp i)) by (apply Rmult_lt_compat_r; lra). lra.
Qed.
Print Assumptions C114_ticks_refuted.

(** C115: labels and order of the ticks; headers needed *)
Theorem C115_axis deg2km iasp91 s first rest scale top f s' p m phase slow :
  plot_profile (first :: rest) scale top = Ok (Some p) ->
  load_model iasp91 s f = (s', Ok m) -> axis_headers first phase slow ->
  valid_model m -> contiguous m -> (0 < layers m)%nat -> ps_phase phase ->
  exists a o, plot_profile_axis deg2km iasp91 s (first :: rest) scale top (Some f) = (s', Ok (Some (p, Some a))) /\
    dget (extra (st first)) "onset" = Some (VTime o) /\
    (* 0 km, 50 km, ..., 950 km or, if the trace ends more than 50 s after the onset, 0 km, 200 km, ..., 3800 km *)
    length (labels a) = 20%nat /\ length (major a) = 20%nat /\ length (minor a) = 100%nat /\
    ((endtime first <= o + 50000000000)%Z -> forall k, (k < 20)%nat -> nth k (labels a) 0%Z = (50 * Z.of_nat k)%Z) /\
    ((o + 50000000000 < endtime first)%Z -> forall k, (k < 20)%nat -> nth k (labels a) 0%Z = (200 * Z.of_nat k)%Z) /\
    (* phases after P: no tick of a larger depth is above a tick of a smaller depth *)
    (forward phase -> (exists u, upper phase = String "P" u) -> s_slower m -> nth 0 (mz m) 0 <= 0 ->
     propagates_to deg2km m (Q2R slow) phase (layers m) ->
       exists t1 t2, major a = map Some t1 /\ minor a = map Some t2 /\ increasing t1 /\ increasing t2 /\
         (* every fifth small tick is at the label *)
         forall k, (k < 20)%nat -> nth (5 * k) t2 0 = nth k t1 0).
Proof.
  intros Hpl Hl Hh Hv Hc Hlay Hps. pose proof Hv as (_ & Lz & _ & _ & Hpos).
  destruct (plot_no_top _ _ _ _ Hpl) as [q Eq]. destruct (plot_onset _ _ _ _ _ Hpl) as [o Eo].
  assert (mz m <> []) as Hne by (intros H; rewrite H in Lz; cbn in Lz; lia).
  destruct (delay_ok deg2km m Hv (Q2R slow) phase Hps) as (pd & E & L & Hs & Hn).
  assert (exists a, depth_ticks deg2km m first = Ok a) as [a Ea].
  { destruct Hh as [H1 H2]. unfold depth_ticks, str_attr, num_attr. rewrite H1, H2. cbn [bind]. rewrite E. cbn [bind]. rewrite Eo. cbn [bind].
    rewrite !np_interp_nan_ok by (try assumption; lia). cbn [bind]. eexists. reflexivity. }
  exists a, o. split.
  { unfold plot_profile_axis. rewrite Eq, Hl. cbn [bind]. rewrite Ea. cbn [bind]. rewrite Hpl. reflexivity. }
  split. { unfold onset_of in Eo. destruct (dget (extra (st first)) "onset") as [[]|]; try discriminate. inversion Eo. reflexivity. }
  destruct (ticks_inv _ _ _ _ _ _ Hh Hv Hc Hps Ea) as (pd' & o' & E' & Eo' & _ & _ & Ha). rewrite E in E'. rewrite Eo in Eo'.
  inversion E'; subst pd'. inversion Eo'; subst o'. clear E' Eo'. cbv zeta in Ha.
  assert (forall k dkm, (k < 20)%nat -> nth k (major_depths dkm) 0%Z = (Z.of_nat k * dkm)%Z) as Hmaj.
  { intros k dkm Hk. unfold major_depths. rewrite (nth_map_in _ (seq 0 20) k 0%nat) by (rewrite seq_length; exact Hk). rewrite seq_nth by exact Hk. reflexivity. }
  assert (0 < (if (50 * 1000000000 <? endtime first - o)%Z then 200 else 50))%Z as Hdk by (destruct (_ <? _)%Z; lia).
  destruct Ha as (A1 & A2 & A3).
  split; [rewrite A1; reflexivity|]. split; [rewrite A2, nan_walk_length; reflexivity|]. split; [rewrite A3, nan_walk_length; reflexivity|].
  split. { intros Ho k Hk. rewrite A1, Hmaj by exact Hk. destruct (Z.ltb_spec (50 * 1000000000) (endtime first - o)); lia. }
  split. { intros Ho k Hk. rewrite A1, Hmaj by exact Hk. destruct (Z.ltb_spec (50 * 1000000000) (endtime first - o)); lia. }
  set (dkm := if (50 * 1000000000 <? endtime first - o)%Z then 200%Z else 50%Z) in *. clearbody dkm.
  intros Hf [u Hu] Hsl Hz0 Hpr.
  assert (forall k, (k < layers m)%nat -> nth k pd None <> None) as Hno.
  { intros k Hk Ek. apply Hn in Ek; [|lia]. destruct Ek as (j & Hj & He). destruct (Hpr j ltac:(lia)) as [P1 P2].
    destruct He as [[A B]|[A B]]; [exact (P1 A B) | exact (P2 A B)]. }
  set (l := map some_or0 pd). assert (pd = map Some l) as El by (apply list_of_some; intros i Hi; apply Hno; lia).
  assert (length l = length (mz m)) as Ll by (unfold l; rewrite map_length; lia).
  assert (increasing l) as Hil.
  { intros i j Hij Hj. rewrite Ll, Lz in Hj.
    assert (forall k, (k < layers m)%nat -> is_delay deg2km m (Q2R slow) phase k (nth k l 0)) as Hdl.
    { intros k Hk. apply Hs; [exact Hk|]. rewrite El. apply nth_map_in. lia. }
    pose proof (is_delay_incr deg2km m (Q2R slow) phase i j _ _ Hv Hsl Hps Hf Hij Hj (Hdl i ltac:(lia)) (Hdl j Hj)) as Hi.
    assert (sgn_phase phase = 1) as Esg by (unfold sgn_phase; rewrite Hu; reflexivity). rewrite Esg in Hi. lra. }
  pose proof (contiguous_incr m Hv Hc) as Hzi.
  set (F := interp1 None None (combine (mz m) l)).
  assert (forall xs, interp_walk_nan (mz m) pd 0 xs = map Some (map F xs)) as Ew.
  { intros xs. rewrite El, nan_walk_some by assumption. unfold F. rewrite map_map. reflexivity. }
  assert (forall xs, increasing xs -> (forall x, In x xs -> 0 <= x) -> increasing (map F xs)) as Hmono.
  { intros xs Hx H0 i j Hij Hj. rewrite map_length in Hj. rewrite !(nth_map_in F xs _ 0) by lia. unfold F.
    apply interp1_mono; try assumption; [reflexivity | | apply Hx; assumption].
    pose proof (H0 (nth i xs 0) (@nth_In R i xs 0 ltac:(lia))). lra. }
  assert (forall k, (k < 100)%nat -> nth k (minor_depths dkm) 0 = INR k * IZR dkm / 5) as Hmin.
  { intros k Hk. unfold minor_depths. rewrite (nth_map_in _ (seq 0 100) k 0%nat) by (rewrite seq_length; exact Hk). rewrite seq_nth by exact Hk. reflexivity. }
  assert (length (minor_depths dkm) = 100%nat) as Lmin by (unfold minor_depths; rewrite map_length, seq_length; reflexivity).
  assert (length (major_depths dkm) = 20%nat) as Lmaj by reflexivity.
  assert (0 < IZR dkm) as Hdr by (apply IZR_lt; exact Hdk).
  exists (map F (map IZR (major_depths dkm))), (map F (minor_depths dkm)). rewrite A2, A3, !Ew.
  split; [reflexivity|]. split; [reflexivity|]. split; [|split].
  - apply Hmono.
    + intros i j Hij Hj. rewrite map_length, Lmaj in Hj. rewrite !(nth_map_in IZR (major_depths dkm) _ 0%Z), !Hmaj by lia. apply IZR_le. nia.
    + intros x Hx. apply in_map_iff in Hx. destruct Hx as (z & <- & Hz). unfold major_depths in Hz. apply in_map_iff in Hz.
      destruct Hz as (k & <- & _). apply IZR_le. lia.
  - apply Hmono.
    + intros i j Hij Hj. rewrite Lmin in Hj. rewrite !Hmin by lia. apply le_INR in Hij. unfold Rdiv. nra.
    + intros x Hx. unfold minor_depths in Hx. apply in_map_iff in Hx. destruct Hx as (k & <- & _). pose proof (pos_INR k). unfold Rdiv. nra.
  - intros k Hk. rewrite (nth_map_in F (minor_depths dkm) (5 * k) 0) by lia.
    rewrite (nth_map_in F (map IZR (major_depths dkm)) k 0) by (rewrite map_length; lia).
    rewrite (nth_map_in IZR (major_depths dkm) k 0%Z), Hmaj, Hmin by lia. f_equal. rewrite mult_INR, mult_IZR, <- INR_IZR_INZ.
    replace (INR 5) with 5 by (cbn; lra). field.
Qed.
Print Assumptions C115_axis.
(** a profile of traces without moveout correction: the axis, drawn by default, cannot be made *)
Theorem C115_needs_moveout deg2km iasp91 s first rest scale top f s' p m :
  plot_profile (first :: rest) scale top = Ok (Some p) -> load_model iasp91 s f = (s', Ok m) ->
  dget (extra (st first)) "moveout" = None ->
  plot_profile_axis deg2km iasp91 s (first :: rest) scale top (Some f) = (s', Err AttributeError) /\
  plot_profile_axis deg2km iasp91 s (first :: rest) scale top None = (s, Ok (Some (p, None))).
Proof.
  intros Hpl Hl Hm. destruct (plot_no_top _ _ _ _ Hpl) as [q Eq]. unfold plot_profile_axis. rewrite Eq, Hl. cbn [bind].
  unfold depth_ticks, str_attr. rewrite Hm. cbn [bind]. rewrite Hpl. split; reflexivity.
Qed.
Print Assumptions C115_needs_moveout.

Ltac norm_upper114 := repeat match goal with |- context [upper ?s] => let v := eval vm_compute in (upper s) in change (upper s) with v end.
(** two layers of 40 km, P at 4 km/s, S at 2 km/s: 10 s of delay in each; slowness 0 *)
Definition tr114 : trace :=
  mkTrace (mkStats "" "" "" "??Q" 0 1000000000
    [("box_pos", VNum 0); ("box_length", VNum 10); ("moveout", VStr "Ps"); ("slowness", VNum 0); ("onset", VTime 5000000000)]) [1; 0; 0; 0; 0; 2; 0; 1]%Q.
Definition rows114 : rows := [[0; 4; 2]; [40; 4; 2]; [80; 4; 2]].
Definition session114 : session := mkSession (fun f => if String.eqb f "two.dat" then Some rows114 else None) [].
Definition m114 : smodel := mkModel [0; 40] [40 - 0; 80 - 40] [4; 4] [2; 2] true [].
Lemma load114 iasp91 : exists s', load_model iasp91 session114 "two.dat" = (s', Ok m114).
Proof. eexists. reflexivity. Qed.
Lemma valid114 : valid_model m114 /\ contiguous m114 /\ s_strictly_slower m114.
Proof.
  split; [|split].
  - split; [reflexivity|]. repeat (split; [reflexivity|]). intros [|[|j]]; cbn; intros; try lia; lra.
  - intros [|[|j]]; cbn; intros; try lia; lra.
  - intros [|[|j]]; cbn; intros; try lia; lra.
Qed.
Lemma prop114 c : (c <= 2)%nat -> propagates_to 111 m114 (Q2R 0) "Ps" c.
Proof.
  intros Hc j Hj. assert (Q2R 0 / 111 = 0) as -> by (unfold Q2R; cbn; lra).
  unfold evanescent. rewrite Rabs_R0. destruct j as [|[|j]]; [| |lia]; cbn; split; intros _ H; lra.
Qed.
Example C114_case iasp91 : exists s' p a,
  plot_profile_axis 111 iasp91 session114 [tr114] 1 None (Some "two.dat") = (s', Ok (Some (p, Some a))) /\
  nth 0 (labels a) 1%Z = 0%Z /\ nth 1 (labels a) 0%Z = 50%Z /\
  (* 0 km: 10 s instead of 0 s; 50 km: 20 s instead of 12.5 s *)
  nth 0 (major a) None = Some 10 /\ delay_at 111 m114 (Q2R 0) "Ps" 0 0 0 /\
  nth 1 (major a) None = Some 20 /\ delay_at 111 m114 (Q2R 0) "Ps" 1 50 (25/2).
Proof.
  destruct (load114 iasp91) as [s' El]. destruct valid114 as (Hv & Hc & Hsl).
  assert (ps_phase "Ps") as Hps.
  { split; [discriminate|]. intros c. norm_upper114. cbn. destruct (Ascii.eqb_spec c "P"); [auto|]. destruct (Ascii.eqb_spec c "S"); [auto|]. discriminate. }
  assert (axis_headers tr114 "Ps" 0) as Hh by (split; reflexivity).
  destruct (C115_axis 111 iasp91 session114 tr114 [] 1 None "two.dat" s' (mkProfilePlot
     [(0, [Some (0 + 1*1/2*10); Some (0 + 1*0/2*10); Some (0+1*0/2*10); Some (0+1*0/2*10); Some (0+1*0/2*10); Some (0+1*2/2*10); Some (0+1*0/2*10); Some (0+1*1/2*10)],
       [-5000000000; -4000000000; -3000000000; -2000000000; -1000000000; 0; 1000000000; 2000000000]%Z)]%Q (0 - 1 * 10, 0 + 1 * 10)%Q None)
     m114 "Ps" 0%Q) as (a & o & E & Eo & L1 & L2 & L3 & H1 & H2 & _); try assumption; try reflexivity; [cbn; lia|].
  inversion Eo; subst o. specialize (H1 ltac:(cbn; lia)).
  eexists s', _, a. split; [exact E|].
  assert (nth 0 (labels a) 0%Z = 0%Z) as N0 by (apply (H1 0%nat); lia).
  assert (nth 1 (labels a) 0%Z = 50%Z) as N1 by (apply (H1 1%nat); lia).
  split; [rewrite (nth_indep _ 1%Z 0%Z) by lia; exact N0|]. split; [exact N1|].
  destruct (C114_ticks_partial _ _ _ _ _ _ _ _ _ _ _ _ _ _ E El Hh Hv Hc Hps) as (_ & _ & H).
  assert (forall d x, delay_at 111 m114 (Q2R 0) "Ps" 1 d x <-> 40 <= d <= 80 /\ x = 10 + (d - 40) / 4) as D1.
  { intros d x. assert (Q2R 0 / 111 = 0) as Hh0 by (unfold Q2R; cbn; lra). split.
    - intros ([_ Hd] & qp & qs & Hq & ->). cbn in Hd. split; [lra|]. rewrite Hh0 in Hq. cbn [rsum]. unfold layer_delay. cbn [nth mdz m114 mz]. norm_upper114.
      destruct (Hq 0%nat ltac:(lia)) as [A B]. destruct (Hq 1%nat ltac:(lia)) as [A' B']. cbn [nth mvp mvs m114] in *.
      assert (snell 4 0 (/4)) as S4 by (split; lra). assert (snell 2 0 (/2)) as S2 by (split; lra).
      rewrite (snell_unique _ _ _ _ (A eq_refl) S4), (snell_unique _ _ _ _ (B eq_refl) S2), (snell_unique _ _ _ _ (A' eq_refl) S4), (snell_unique _ _ _ _ (B' eq_refl) S2).
      cbn. lra.
    - intros [Hd ->]. split; [split; [cbn; lia | cbn; lra]|]. exists (fun _ => /4), (fun _ => /2). split.
      + intros j Hj. rewrite Hh0. destruct j as [|[|j]]; [| |lia]; cbn; split; intros _; split; lra.
      + cbn [rsum]. unfold layer_delay. cbn [nth mdz m114 mz]. norm_upper114. cbn. lra. }
  split; [|split; [|split]].
  - destruct (H 0%nat 0 (nth 0 (major a) None)) as [K _]; [left; rewrite N0; split; [reflexivity|]; split; [lia | reflexivity]|].
    destruct (K 0%nat) as (x & -> & Hx); [cbn; lia | cbn; lra | apply prop114; lia |]. apply D1 in Hx. f_equal. destruct Hx as [_ ->]. cbn. lra.
  - split; [split; [cbn; lia | cbn; lra]|]. exists (fun _ => /4), (fun _ => /2). split.
    + intros j Hj. assert (Q2R 0 / 111 = 0) as -> by (unfold Q2R; cbn; lra). assert (j = 0)%nat as -> by lia. cbn; split; intros _; split; lra.
    + cbn [rsum]. unfold layer_delay. cbn [nth mdz m114 mz]. lra.
  - destruct (H 1%nat 50 (nth 1 (major a) None)) as [_ K]; [left; rewrite N1; split; [reflexivity|]; split; [lia | reflexivity]|].
    destruct K as (x & -> & Hx); [cbn; lra | apply prop114; cbn; lia |]. apply D1 in Hx. f_equal. destruct Hx as [_ ->]. cbn. lra.
  - apply D1. lra.
Qed.
