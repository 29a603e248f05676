(** Model files, the cache of models and piercing points of streams: C103 - C107. *)
From Verif Require Import Model.ModelFile Spec.ModelSpec Spec.ModelFileSpec Proofs.PyFacts Proofs.ModelFacts
  Proofs.MoveoutFacts Proofs.MoveoutMain Proofs.ModelFileFacts Properties.ModelProps Properties.MoveoutProps.
From Coq Require Import Lra Lia.
Notation length := List.length.
Open Scope R_scope.

(** ** C103: reading of model files *)
Definition col (j : nat) (c : rows) : list R := map (fun r => nth j r 0) c.
(** four columns: depth, velocities, number of additional layers, which may have decimals *)
Theorem C103_four_columns iasp91 s f c n : dget (s_cache s) f = None -> content iasp91 s f = Some c ->
  (2 <= length c)%nat -> (forall r, In r c -> length r = 4%nat) -> length n = length c ->
  (forall i, (0 < i < length c)%nat -> INR (nth i n 0%nat) <= nth 3 (nth i c []) 0 < INR (nth i n 0%nat) + 1) ->
  exists s' m, load_model iasp91 s f = (s', Ok m) /\ is_array m = true /\
    layers m = knot n (length c - 1) /\ length (mz m) = layers m /\ length (mvp m) = layers m /\ length (mvs m) = layers m /\
    (forall i k, (S i < length c)%nat -> (k <= nth (S i) n 0%nat)%nat ->
       nth (knot n i + k) (mz m) 0 = between (col 0 c) n i k /\
       nth (knot n i + k) (mvp m) 0 = between (col 1 c) n i k /\
       nth (knot n i + k) (mvs m) 0 = between (col 2 c) n i k) /\
    (forall j, (S j < layers m)%nat -> nth j (mz m) 0 + nth j (mdz m) 0 = nth (S j) (mz m) 0) /\
    (forall j, S j = layers m -> nth j (mz m) 0 + nth j (mdz m) 0 = nth 0 (nth (length c - 1) c []) 0) /\
    (* a sound file gives a sound model *)
    (increasing (col 0 c) -> (forall r, In r c -> 0 < nth 2 r 0 <= nth 1 r 0) -> valid_model m /\ s_slower m).
Proof.
  intros Hc Hf H2 Hw Hn HI. destruct n as [|n0 n]; [cbn in Hn; lia|].
  assert (read_model c = new_model true (column c 0) (column c 1) (column c 2) (Some (0%nat :: n))) as Er.
  { apply read_four; [exact H2 | exact Hw | exact Hn|]. intros i Hi. exact (HI (S i) ltac:(cbn in Hn; lia)). }
  assert (forall i, nth (S i) (0%nat :: n) 0%nat = nth (S i) (n0 :: n) 0%nat) as En by reflexivity.
  assert (forall i, knot (0%nat :: n) i = knot (n0 :: n) i) as Ek by (induction i as [|i IH]; cbn; [reflexivity | rewrite IH; reflexivity]).
  assert (column c 0 <> []) as Hne by (destruct c; [cbn in H2; lia | discriminate]).
  destruct (C39_interpolation true (column c 0) (column c 1) (column c 2) (0%nat :: n)) as (m & Em & A1 & A2 & A3 & A4 & A5 & A6 & A7 & A8 & A9); rewrite ?column_length; try reflexivity; [exact Hne | cbn in *; lia|].
  rewrite column_length in A2, A6, A8. rewrite Ek in A2.
  exists (mkSession (s_files s) (dset (s_cache s) f m)), m. split.
  { unfold load_model. rewrite Hc. unfold content in Hf. rewrite Hf, Er, Em. reflexivity. }
  split; [exact A1|]. split; [exact A2|]. split; [exact A3|]. split; [exact A4|]. split; [exact A5|]. split.
  { intros i k Hi Hk. rewrite <- Ek. rewrite <- En in Hk. exact (A6 i k Hi Hk). }
  split; [exact A7|]. split.
  { intros j Hj. rewrite (A8 j Hj). rewrite column_nth by lia. reflexivity. }
  intros Hinc Hv. apply (C39_valid true (column c 0) (column c 1) (column c 2) (0%nat :: n) m); rewrite ?column_length; try assumption; try reflexivity.
  - cbn in *; lia.
  - intros v Hin. apply in_map_iff in Hin. destruct Hin as (r & <- & Hr). specialize (Hv r Hr). lra.
  - intros v Hin. apply in_map_iff in Hin. destruct Hin as (r & <- & Hr). specialize (Hv r Hr). lra.
  - intros i Hi. rewrite !column_nth by exact Hi. apply Hv, nth_In, Hi.
Qed.
Print Assumptions C103_four_columns.
(** three columns: the lines are the support points *)
Theorem C103_three_columns iasp91 s f c : dget (s_cache s) f = None -> content iasp91 s f = Some c ->
  (2 <= length c)%nat -> (forall r, In r c -> length r = 3%nat) ->
  exists s' m, load_model iasp91 s f = (s', Ok m) /\ is_array m = true /\
    layers m = (length c - 1)%nat /\ length (mz m) = layers m /\ length (mvp m) = layers m /\ length (mvs m) = layers m /\
    (forall i, (S i < length c)%nat ->
       nth i (mz m) 0 = nth 0 (nth i c []) 0 /\ nth i (mvp m) 0 = nth 1 (nth i c []) 0 /\ nth i (mvs m) 0 = nth 2 (nth i c []) 0 /\
       nth i (mz m) 0 + nth i (mdz m) 0 = nth 0 (nth (S i) c []) 0).
Proof.
  intros Hc Hf H2 Hw. exists (mkSession (s_files s) (dset (s_cache s) f (mkModel (removelast (column c 0)) (diff (column c 0)) (removelast (column c 1)) (removelast (column c 2)) true []))).
  eexists. split.
  { unfold load_model. rewrite Hc. unfold content in Hf. rewrite Hf, (read_three c H2 Hw). unfold new_model. rewrite !column_length, Nat.eqb_refl. reflexivity. }
  unfold layers; cbn [is_array mz mdz mvp mvs]. rewrite !removelast_length, diff_length, !column_length.
  split; [reflexivity|]. repeat (split; [reflexivity|]). intros i Hi.
  rewrite diff_nth, !removelast_nth, !column_nth by (rewrite ?column_length; lia). repeat split. ring.
Qed.
Print Assumptions C103_three_columns.
(** everything else is refused, and the process does not change: the file can be repaired *)
Theorem C103_refused iasp91 s f : dget (s_cache s) f = None ->
  (forall c, content iasp91 s f = Some c -> ~ ((2 <= length c)%nat /\
     ((forall r, In r c -> length r = 3%nat) \/ (forall r, In r c -> length r = 4%nat)))) ->
  exists e, load_model iasp91 s f = (s, Err e).
Proof.
  intros Hc H. unfold load_model. rewrite Hc. unfold content in H. destruct (if String.eqb f "iasp91" then _ else _) as [c|]; [|eexists; reflexivity].
  destruct (read_model c) as [m|e] eqn:Er; [|exists e; reflexivity]. exfalso. exact (H c eq_refl (read_ok_shape c m Er)).
Qed.
Print Assumptions C103_refused.
Theorem C103_failure_unchanged iasp91 s f s' e : load_model iasp91 s f = (s', Err e) -> s' = s.
Proof. apply load_fail. Qed.
Print Assumptions C103_failure_unchanged.
Definition demo_rows : rows := [[0; 1; 1 / 2]; [1; 1; 1 / 2]; [2; 1; 1 / 2]].
Definition demo_files (f : string) : option rows :=
  if String.eqb f "a" then Some demo_rows else if String.eqb f "b" then Some [[0; 6; 3; 0]; [10; 6; 3; 3 / 2]; [20; 8; 4; 0]]
  else if String.eqb f "c" then Some [[0; 6]; [10; 6]] else None.
Example C103_case iasp91 : exists s' m, load_model iasp91 (mkSession demo_files []) "b" = (s', Ok m) /\
  layers m = 3%nat /\ nth 1 (mz m) 0 = 5 /\ valid_model m /\ s_slower m.
Proof.
  destruct (C103_four_columns iasp91 (mkSession demo_files []) "b" [[0; 6; 3; 0]; [10; 6; 3; 3 / 2]; [20; 8; 4; 0]] [0; 1; 0]%nat) as (s' & m & E & _ & L & _ & _ & _ & K & _ & _ & V); try reflexivity.
  - cbn; lia.
  - intros r [<-|[<-|[<-|[]]]]; reflexivity.
  - intros [|[|[|i]]] Hi; cbn in *; try lia; lra.
  - exists s', m. split; [exact E|]. split; [exact L|]. split.
    + destruct (K 0%nat 1%nat) as (K1 & _); [cbn; lia | cbn; lia|]. cbn [knot Nat.add] in K1. rewrite K1. unfold between. cbn. lra.
    + apply V; [intros [|[|[|]]] [|[|[|]]] Hij Hj; cbn in *; try lia; lra|]. intros r [<-|[<-|[<-|[]]]]; cbn; lra.
Qed.
Example C103_refused_case iasp91 : exists e, load_model iasp91 (mkSession demo_files []) "c" = (mkSession demo_files [], Err e).
Proof.
  apply C103_refused; [reflexivity|]. intros c E. cbv in E. injection E as <-. intros (_ & [H | H]); specialize (H _ (or_introl eq_refl)); discriminate.
Qed.

(** ** C104: the model is that of the file *)
(** once a file was loaded it is never read again, even if it is written or removed *)
Theorem C104_rewritten_refuted deg2km iasp91 geodesic s f s1 m c :
  load_model iasp91 s f = (s1, Ok m) ->
  let s2 := step deg2km iasp91 geodesic s1 (OpWrite f c) in load_model iasp91 s2 f = (s2, Ok m).
Proof.
  intros E s2. pose proof (load_ok_cached _ _ _ _ _ E) as H. unfold load_model. unfold s2 at 1. cbn [step s_cache]. rewrite H. reflexivity.
Qed.
Print Assumptions C104_rewritten_refuted.
Theorem C104_witness_refuted deg2km iasp91 geodesic : exists s0 h f, s_cache s0 = [] /\
  let s := run deg2km iasp91 geodesic s0 h in
  ~ same_load (snd (load_model iasp91 s f)) (snd (load_model iasp91 (restarted s) f)).
Proof.
  exists (mkSession demo_files []), [OpLoad "a"; OpWrite "a" (Some [[0; 8; 4]; [10; 8; 4]])], "a". split; [reflexivity|]. cbn. intros (E & _). discriminate E.
Qed.
Print Assumptions C104_witness_refuted.
(** If the file was not written after its first use, every later use gives what a new
    process would give. Loads and piercing points do not depend on earlier moveouts, *)
Theorem C104_current_partial deg2km iasp91 geodesic s0 h1 h2 f : s_cache s0 = [] ->
  Forall (fun o => ~ uses f o) h1 -> Forall (fun o => ~ writes f o) h2 ->
  let s := run deg2km iasp91 geodesic s0 (h1 ++ h2) in
  same_load (snd (load_model iasp91 s f)) (snd (load_model iasp91 (restarted s) f)) /\
  forall method depth phase ts,
    let a := stream_ppoints deg2km iasp91 geodesic s f method depth phase ts in
    let b := stream_ppoints deg2km iasp91 geodesic (restarted s) f method depth phase ts in
    snd (fst a) = snd (fst b) /\ snd a = snd b.
Proof.
  intros H0 H1 H2 s.
  assert (fresh_enough iasp91 (fun _ => True) s f) as Hf.
  { unfold s. rewrite run_app. apply (fresh_run deg2km iasp91 geodesic (fun _ => True) (fun _ => True)).
    - intros; exact I.
    - intros; exact I.
    - eapply Forall_impl; [|exact H2]. intros o Ho. split; [right; exact Ho|]. destruct o; cbn; trivial.
    - intros m Hm. rewrite (unused_run deg2km iasp91 geodesic f h1 s0 H1) in Hm by (rewrite H0; reflexivity). discriminate. }
  pose proof (load_as_new iasp91 _ s f Hf) as HL. split.
  - unfold same_load. destruct (snd (load_model iasp91 s f)), (snd (load_model iasp91 (restarted s) f)); try exact HL.
    destruct HL as ((A & B & C0 & D & _) & _). repeat split; congruence.
  - intros method depth phase ts a b. unfold a, b, stream_ppoints. destruct (match phase with Some p => _ | None => _ end) as [p|e]; [|split; reflexivity].
    destruct (load_model iasp91 s f) as [sa [ma|ea]]; destruct (load_model iasp91 (restarted s) f) as [sb [mb|eb]]; cbn [snd] in HL; try contradiction.
    + destruct HL as (Hs & _). rewrite (ppoint_all_same deg2km geodesic mb ma depth p Hs). destruct (ppoint_all deg2km geodesic ma depth p ts) as [t2 [u|e2]]; split; reflexivity.
    + subst eb. split; reflexivity.
Qed.
Print Assumptions C104_current_partial.
(** moveouts do if their reference was another one (see C42) *)
Theorem C104_moveout_partial deg2km iasp91 geodesic s0 h1 h2 f ref : s_cache s0 = [] ->
  Forall (fun o => ~ uses f o) h1 -> Forall (fun o => ~ writes f o) h2 -> Forall (refers f (fun r => r = ref)) h2 ->
  let s := run deg2km iasp91 geodesic s0 (h1 ++ h2) in
  forall method phase ts,
    let a := file_moveout deg2km iasp91 s f method phase ref ts in
    let b := file_moveout deg2km iasp91 (restarted s) f method phase ref ts in
    snd (fst a) = snd (fst b) /\ snd a = snd b.
Proof.
  intros H0 H1 H2 H3 s. set (P := fun m => consistent deg2km m ref).
  assert (forall m, t_ref m = [] -> P m) as HP by (intros m Hm ph t Ht; rewrite Hm in Ht; discriminate).
  assert (fresh_enough iasp91 P s f) as Hf.
  { unfold s. rewrite run_app. apply (fresh_run deg2km iasp91 geodesic P (fun r => r = ref)).
    - exact HP.
    - intros p r ts m m2 t2 r2 -> Hm Em. exact (proj2 (moveout_layers deg2km p ref ts m m2 t2 r2 Hm Em)).
    - rewrite Forall_forall in *. intros o Ho. split; [right; exact (H2 o Ho) | exact (H3 o Ho)].
    - intros m Hm. rewrite (unused_run deg2km iasp91 geodesic f h1 s0 H1) in Hm by (rewrite H0; reflexivity). discriminate. }
  pose proof (load_as_new iasp91 _ s f Hf) as HL.
  intros method phase ts a b. unfold a, b, file_moveout. destruct (match phase with Some p => _ | None => _ end) as [p|e]; [|split; reflexivity].
  destruct (load_model iasp91 s f) as [sa [ma|ea]]; destruct (load_model iasp91 (restarted s) f) as [sb [mb|eb]]; cbn [snd] in HL; try contradiction.
  - destruct HL as (Hs & Ha & Hb). assert (P ma) as Pa by (destruct Ha as [Ha|Ha]; [exact Ha | apply HP, Ha]).
    unfold stream_moveout. destruct (moveout_same_results deg2km p ref ts mb ma Hs (HP _ Hb) Pa) as [E1 E2].
    destruct (moveout deg2km ma p ref ts) as [[m2 t2] [u2|e2]]; destruct (moveout deg2km mb p ref ts) as [[m3 t3] [u3|e3]]; cbn [fst snd] in *; try discriminate; subst; split; congruence.
  - subst eb. split; reflexivity.
Qed.
Print Assumptions C104_moveout_partial.
(** the name of the default model always means the file of the package *)
Theorem C104_default_partial deg2km iasp91 geodesic s0 h m : s_cache s0 = [] -> read_model iasp91 = Ok m ->
  exists m', snd (load_model iasp91 (run deg2km iasp91 geodesic s0 h) "iasp91") = Ok m' /\ same_earth m m'.
Proof.
  intros H0 Em. set (s := run deg2km iasp91 geodesic s0 h).
  assert (fresh_enough iasp91 (fun _ => True) s "iasp91") as Hf.
  { apply (fresh_run deg2km iasp91 geodesic (fun _ => True) (fun _ => True)).
    - intros; exact I.
    - intros; exact I.
    - apply Forall_forall. intros o _. split; [left; reflexivity|]. destruct o; cbn; trivial.
    - intros m1 Hm. rewrite H0 in Hm. discriminate. }
  pose proof (load_as_new iasp91 _ s "iasp91" Hf) as HL. destruct (snd (load_model iasp91 s "iasp91")) as [m1|e]; revert HL;
    unfold load_model, restarted; cbn [s_cache dget]; rewrite String.eqb_refl, Em; cbn [snd].
  - intros ((A & B & C0 & D & _) & _). exists m1. split; [reflexivity|]. repeat split; congruence.
  - intros [].
Qed.
Print Assumptions C104_default_partial.
(** a failed attempt is forgotten: the repaired file is read *)
Theorem C104_repaired_partial deg2km iasp91 geodesic s f c s1 e : f <> "iasp91"%string -> load_model iasp91 s f = (s1, Err e) ->
  let s2 := step deg2km iasp91 geodesic s1 (OpWrite f (Some c)) in
  forall m, read_model c = Ok m -> snd (load_model iasp91 s2 f) = Ok m.
Proof.
  intros Hn E s2 m Em. pose proof (load_fail _ _ _ _ _ E). subst s1. revert E. unfold load_model, s2. cbn [step s_cache s_files]. destruct (dget (s_cache s) f); [discriminate|].
  intros _. destruct (String.eqb_spec f "iasp91") as [|_]; [contradiction|]. rewrite String.eqb_refl, Em. reflexivity.
Qed.
Print Assumptions C104_repaired_partial.
(** writing before, moveouts and piercing points with other models in between *)
Example C104_case d iasp91 geodesic ts pts : let h1 := [OpWrite "a" (Some [[0; 8; 4]; [10; 8; 4]]); OpMoveout "b" "P" None (2 * d) ts; OpWrite "a" (Some demo_rows)] in
  let h2 := [OpLoad "a"; OpWrite "b" None; OpMoveout "a" "P" None (0 * d) ts; OpPpoints "a" "P" (1 / 2) None pts] in
  let s := run d iasp91 geodesic (mkSession demo_files []) (h1 ++ h2) in
  same_load (snd (load_model iasp91 s "a")) (snd (load_model iasp91 (restarted s) "a")) /\
  forall method phase ts, snd (file_moveout d iasp91 s "a" method phase (0 * d) ts) = snd (file_moveout d iasp91 (restarted s) "a" method phase (0 * d) ts).
Proof.
  intros h1 h2 s. assert (Forall (fun o => ~ uses "a" o) h1) as H1 by (repeat constructor; cbn; intros H; try discriminate; exact H).
  assert (Forall (fun o => ~ writes "a" o) h2) as H2 by (repeat constructor; cbn; intros H; try discriminate; exact H).
  assert (Forall (refers "a" (fun r => r = 0 * d)) h2) as H3 by (repeat constructor; cbn; intros; reflexivity).
  split; [exact (proj1 (C104_current_partial d iasp91 geodesic (mkSession demo_files []) h1 h2 "a" eq_refl H1 H2))|].
  intros method phase ts0. exact (proj2 (C104_moveout_partial d iasp91 geodesic (mkSession demo_files []) h1 h2 "a" (0 * d) eq_refl H1 H2 H3 method phase ts0)).
Qed.

(** ** C105: piercing points of a stream *)
Definition chosen (method : string) (pp_phase : option string) (p : string) : Prop :=
  pp_phase = Some p \/ pp_phase = None /\ (method = "P" /\ p = "S" \/ method = "S" /\ p = "P")%string.
Lemma F2_length {A B} (Q : A -> B -> Prop) l l' : Forall2 Q l l' -> length l = length l'.
Proof. induction 1; cbn; congruence. Qed.
Theorem C105_points deg2km iasp91 geodesic s f method depth pp_phase ts s' ts' pts :
  stream_ppoints deg2km iasp91 geodesic s f method depth pp_phase ts = (s', ts', Ok pts) ->
  exists p m, chosen method pp_phase p /\ snd (load_model iasp91 s f) = Ok m /\ length ts' = length ts /\ length pts = length ts /\
    forall k t, nth_error ts k = Some t -> exists t' lat lon az x,
      nth_error ts' k = Some t' /\ same_but_pp t t' /\
      p_lat t = Some lat /\ p_lon t = Some lon /\ p_baz t = Some az /\
      ppoint_distance deg2km m depth (x_slow (p_m t)) p = Ok x /\
      (* x km from the station in the direction of the source *)
      let point := option_map (fun x => geodesic lat lon az (1000 * x)) x in
      p_pp t' = Some (depth, point) /\ nth_error pts k = Some point.
Proof.
  intros E. unfold stream_ppoints in E. destruct (match pp_phase with Some p => _ | None => _ end) as [p|e] eqn:Ep; [|discriminate].
  destruct (load_model iasp91 s f) as [s1 [m|e]]; [|discriminate]. destruct (ppoint_all deg2km geodesic m depth p ts) as [ts1 [[]|e]] eqn:Ea; [|discriminate].
  injection E as _ <- <-. exists p, m. split.
  { unfold chosen. destruct pp_phase as [q|]; [left; congruence|]. right. split; [reflexivity|]. unfold pp_default in Ep.
    destruct (String.eqb_spec method "P"); [left; split; congruence|]. destruct (String.eqb_spec method "S"); [right; split; congruence | discriminate]. }
  apply ppoint_all_inv in Ea. pose proof (F2_length _ _ _ Ea) as HL. split; [reflexivity|]. split; [congruence|]. split; [rewrite map_length; congruence|].
  intros k t Hk. assert (exists t', nth_error ts1 k = Some t' /\ ppoint deg2km geodesic m t depth p = Ok t') as (t' & Hk' & Ht).
  { clear - Ea Hk. revert k Hk. induction Ea as [|a b ts ts1 H _ IH]; intros [|k] Hk; cbn in *; try discriminate; [injection Hk as <-; exists b; split; [reflexivity | exact H]|]. apply IH, Hk. }
  destruct (ppoint_inv _ _ _ _ _ _ _ Ht) as (lat & lon & az & x & A1 & A2 & A3 & A4 & A5 & A6). exists t', lat, lon, az, x.
  split; [exact Hk'|]. split; [exact A5|]. repeat (split; [assumption|]). cbv zeta.
  assert (option_map (fun y => geodesic lat lon az (1000 * y)) x = option_map (fun y => geodesic lat lon az (y * 1000)) x) as -> by (destruct x; cbn; [rewrite Rmult_comm; reflexivity | reflexivity]).
  split; [exact A6|]. rewrite nth_error_map, Hk'. cbn. unfold pp_coords. rewrite A6. reflexivity.
Qed.
Print Assumptions C105_points.
(** all headers present and the depth inside the model: it does succeed *)
Theorem C105_succeeds deg2km iasp91 geodesic s f method depth pp_phase p m ts :
  chosen method pp_phase p -> snd (load_model iasp91 s f) = Ok m ->
  (forall t, In t ts -> p_lat t <> None /\ p_lon t <> None /\ p_baz t <> None) ->
  (exists slow x, ppoint_distance deg2km m depth slow p = Ok x) ->
  exists s' ts' pts, stream_ppoints deg2km iasp91 geodesic s f method depth pp_phase ts = (s', ts', Ok pts).
Proof.
  intros Hp Hm Ht (sl & x & Hx). unfold stream_ppoints.
  assert ((match pp_phase with Some q => Ok q | None => pp_default method end) = Ok p) as ->.
  { destruct Hp as [->|[-> [[-> ->]|[-> ->]]]]; reflexivity. }
  destruct (load_model iasp91 s f) as [s1 r]. cbn [snd] in Hm. subst r.
  assert (exists ts', ppoint_all deg2km geodesic m depth p ts = (ts', Ok tt)) as (ts' & ->); [|eexists _, _, _; reflexivity].
  induction ts as [|t ts IH]; cbn [ppoint_all]; [eexists; reflexivity|].
  destruct IH as (ts' & IH); [intros u Hu; apply Ht; right; exact Hu|].
  destruct (Ht t (or_introl eq_refl)) as (A & B & D). unfold ppoint.
  destruct (ppoint_distance deg2km m depth (x_slow (p_m t)) p) as [dr|e] eqn:Ed; [|destruct (distance_error deg2km m depth _ sl p e Ed) as [X _]; congruence].
  cbn [bind]. destruct (p_lat t); [|congruence]. destruct (p_lon t); [|congruence]. destruct (p_baz t); [|congruence]. rewrite IH. eexists; reflexivity.
Qed.
Print Assumptions C105_succeeds.
(** errors about model, phase or depth come before the first trace is changed *)
Theorem C107_errors_first_partial deg2km iasp91 geodesic s f method depth pp_phase ts s' ts' e :
  stream_ppoints deg2km iasp91 geodesic s f method depth pp_phase ts = (s', ts', Err e) -> e <> KeyError -> ts' = ts.
Proof.
  intros E He. unfold stream_ppoints in E. destruct (match pp_phase with Some p => _ | None => _ end) as [p|e1]; [|injection E as _ <- _; reflexivity].
  destruct (load_model iasp91 s f) as [s1 [m|e1]]; [|injection E as _ <- _; reflexivity].
  destruct (ppoint_all deg2km geodesic m depth p ts) as [ts1 [u|e1]] eqn:Ea; [discriminate|]. injection E as _ <- ->. exact (ppoint_all_error deg2km geodesic m depth p e He ts ts1 Ea).
Qed.
Print Assumptions C107_errors_first_partial.
Lemma demo_read : read_model demo_rows = Ok demo.
Proof.
  unfold read_model, demo_rows. cbn [length forallb Nat.eqb andb orb negb column map nth new_model removelast diff]. unfold new_model. cbn [length Nat.eqb andb negb removelast diff zipw tl].
  unfold demo. do 2 f_equal. cbn. repeat (f_equal; [ring|]). f_equal. ring.
Qed.
Lemma demo_load iasp91 : load_model iasp91 (mkSession demo_files []) "a" = (mkSession demo_files [("a"%string, demo)], Ok demo).
Proof. unfold load_model. cbn [s_cache dget s_files]. change (String.eqb "a" "iasp91") with false. cbv iota. change (demo_files "a") with (Some demo_rows). cbv iota. rewrite demo_read. reflexivity. Qed.
Lemma demo_half d : d <> 0 -> ppoint_distance d demo (1 / 2) (1 * d) "S" = Ok (Some (3 / 2 * / sqrt 3)).
Proof.
  intros H. destruct (C48_case d H) as (A & B & C0 & _).
  rewrite (C48_distance_partial d demo (1 * d) "S" (fun _ => sqrt 3) (fun _ => sqrt 3) 0 (1 / 2) (proj1 demo_valid) A B eq_refl); [| phase_ok | unfold layers; cbn; lia | cbn; lra | exact C0].
  do 2 f_equal. unfold leg_distance, ray_distance. change (count_char "P" (upper "S")) with 0%nat. change (count_char "S" (upper "S")) with 1%nat.
  cbn [INR rsum demo mdz mz nth]. rewrite div_deg by exact H. unfold rsum. cbn. field. apply Rgt_not_eq, sqrt_lt_R0. lra.
Qed.
Lemma demo_vertical d : d <> 0 -> ppoint_distance d demo (1 / 2) (0 * d) "S" = Ok (Some 0).
Proof.
  intros H. destruct (C48_case d H) as (A & B & _).
  assert (crosses d demo (0 * d) "S" (fun _ => / (1 / 2)) (fun _ => / (1 / 2)) 1) as C0.
  { intros j Hj. rewrite div_deg by exact H. split; [intros Hp; revert Hp; norm_upper; discriminate|]. intros _.
    split; [|apply Rinv_0_lt_compat; lra]. destruct j as [|[|j]]; [apply (snell_0 (1 / 2)); lra | apply (snell_0 (1 / 2)); lra | lia]. }
  rewrite (C48_distance_partial d demo (0 * d) "S" (fun _ => / (1 / 2)) (fun _ => / (1 / 2)) 0 (1 / 2) (proj1 demo_valid) A B eq_refl); [| phase_ok | unfold layers; cbn; lia | cbn; lra | exact C0].
  do 2 f_equal. unfold leg_distance, ray_distance. change (count_char "P" (upper "S")) with 0%nat. change (count_char "S" (upper "S")) with 1%nat.
  cbn [INR demo mdz mz nth]. rewrite div_deg by exact H. unfold rsum. cbn. field.
Qed.
Definition demo_pt (d : R) (az : option R) : ptrace := mkPT (demo_trace d) (Some 10) (Some 20) az None.
Example C105_case d iasp91 geodesic : d <> 0 -> exists s' ts',
  stream_ppoints d iasp91 geodesic (mkSession demo_files []) "a" "P" (1 / 2) None [demo_pt d (Some 30); demo_pt d (Some 40)] =
    (s', ts', Ok [Some (geodesic 10 20 30 (1000 * (3 / 2 * / sqrt 3))); Some (geodesic 10 20 40 (1000 * (3 / 2 * / sqrt 3)))]).
Proof.
  intros H. unfold stream_ppoints. change (pp_default "P") with (Ok "S"%string). cbv iota. rewrite demo_load. cbn [ppoint_all]. unfold ppoint.
  change (x_slow (p_m (demo_pt d (Some 30)))) with (1 * d). change (x_slow (p_m (demo_pt d (Some 40)))) with (1 * d). rewrite (demo_half d H). cbn.
  unfold direct_geodetic. rewrite (Rmult_comm _ 1000). eexists _, _. reflexivity.
Qed.
(** a missing header is found out only when it is needed *)
Theorem C107_half_done_refuted d iasp91 geodesic : d <> 0 -> exists s f t1 t2 s' t1', t1' <> t1 /\
  stream_ppoints d iasp91 geodesic s f "P" (1 / 2) None [t1; t2] = (s', [t1'; t2], Err KeyError).
Proof.
  intros H. exists (mkSession demo_files []), "a"%string, (demo_pt d (Some 30)), (demo_pt d None).
  unfold stream_ppoints. change (pp_default "P") with (Ok "S"%string). cbv iota. rewrite demo_load. cbn [ppoint_all]. unfold ppoint.
  change (x_slow (p_m (demo_pt d (Some 30)))) with (1 * d). change (x_slow (p_m (demo_pt d None))) with (1 * d). rewrite (demo_half d H). cbn.
  eexists _, _. split; [|reflexivity]. discriminate.
Qed.
Print Assumptions C107_half_done_refuted.

(** ** C106: piercing points after a moveout *)
(** the traces after a moveout *)
Definition moved (ts : list ptrace) (ms : list mtrace) : list ptrace := map (fun tm => with_m (fst tm) (snd tm)) (combine ts ms).
Lemma moveout_len deg2km m p ref : forall ts m1 ts1 r, moveout deg2km m p ref ts = (m1, ts1, r) -> length ts1 = length ts.
Proof.
  intros ts. revert m. induction ts as [|t ts IH]; intros m m1 ts1 r E; cbn in E; [injection E as _ <- _; reflexivity|].
  destruct (moveout_trace deg2km m p ref t) as [m2 [t2|e]]; [|injection E as _ <- _; reflexivity].
  destruct (moveout deg2km m2 p ref ts) as [[m3 ts3] r3] eqn:Em. injection E as _ <- _. cbn. rewrite (IH _ _ _ _ Em). reflexivity.
Qed.
Lemma file_moveout_slow deg2km iasp91 s f method phase ref ms s1 ms1 : file_moveout deg2km iasp91 s f method phase ref ms = (s1, ms1, Ok tt) ->
  length ms1 = length ms /\ Forall (fun t => x_slow t = ref) ms1.
Proof.
  unfold file_moveout. destruct (match phase with Some p => _ | None => _ end) as [p|]; [|discriminate]. destruct (load_model iasp91 s f) as [s2 [m|]]; [|discriminate].
  unfold stream_moveout. destruct (moveout deg2km m p ref ms) as [[m2 t2] [u|e]] eqn:Em; intros E; [|discriminate]. injection E as _ <-.
  rewrite map_length. split; [exact (moveout_len _ _ _ _ _ _ _ _ Em)|]. apply Forall_forall. intros t Ht. apply in_map_iff in Ht. destruct Ht as (u0 & <- & _). reflexivity.
Qed.
Lemma ppoint_all_coords deg2km geodesic m d ph : forall ts ts', Forall2 (fun t t' => p_lat t = p_lat t' /\ p_lon t = p_lon t' /\ p_baz t = p_baz t' /\ x_slow (p_m t) = x_slow (p_m t')) ts ts' ->
  snd (ppoint_all deg2km geodesic m d ph ts) = snd (ppoint_all deg2km geodesic m d ph ts') /\
  (snd (ppoint_all deg2km geodesic m d ph ts) = Ok tt -> map pp_coords (fst (ppoint_all deg2km geodesic m d ph ts)) = map pp_coords (fst (ppoint_all deg2km geodesic m d ph ts'))).
Proof.
  induction 1 as [|t t' ts ts' (A & B & C0 & D) _ [IH1 IH2]]; cbn [ppoint_all]; [split; reflexivity|].
  unfold ppoint. rewrite A, B, C0, D. destruct (ppoint_distance deg2km m d (x_slow (p_m t')) ph) as [dr|e]; cbn [bind]; [|split; [reflexivity | discriminate]].
  destruct (p_lat t'); [|split; [reflexivity | discriminate]]. destruct (p_lon t'); [|split; [reflexivity | discriminate]]. destruct (p_baz t'); [|split; [reflexivity | discriminate]].
  destruct (ppoint_all deg2km geodesic m d ph ts) as [a ra]. destruct (ppoint_all deg2km geodesic m d ph ts') as [b rb]. cbn [fst snd] in *. split; [exact IH1|].
  intros E. cbn [map]. rewrite (IH2 E). reflexivity.
Qed.
Lemma stream_ppoints_coords deg2km iasp91 geodesic s f method d ph ts ts' : Forall2 (fun t t' => p_lat t = p_lat t' /\ p_lon t = p_lon t' /\ p_baz t = p_baz t' /\ x_slow (p_m t) = x_slow (p_m t')) ts ts' ->
  snd (stream_ppoints deg2km iasp91 geodesic s f method d ph ts) = snd (stream_ppoints deg2km iasp91 geodesic s f method d ph ts').
Proof.
  intros H. unfold stream_ppoints. destruct (match ph with Some p => _ | None => _ end) as [p|]; [|reflexivity]. destruct (load_model iasp91 s f) as [s2 [m|]]; [|reflexivity].
  destruct (ppoint_all_coords deg2km geodesic m d p ts ts' H) as [E1 E2]. destruct (ppoint_all deg2km geodesic m d p ts) as [a [[]|e]]; destruct (ppoint_all deg2km geodesic m d p ts') as [b [[]|e']]; cbn [fst snd] in *; try discriminate; [rewrite (E2 eq_refl); reflexivity | congruence].
Qed.
Lemma moved_slow ref (ts : list ptrace) : forall ms, length ms = length ts -> Forall (fun t => x_slow t = ref) ms ->
  Forall2 (fun t t' => p_lat t = p_lat t' /\ p_lon t = p_lon t' /\ p_baz t = p_baz t' /\ x_slow (p_m t) = x_slow (p_m t')) (moved ts ms) (map (slowed ref) ts).
Proof.
  induction ts as [|t ts IH]; intros [|x ms] HL HF; cbn in *; try lia; [constructor|]. inversion HF; subst. constructor; [cbn; auto|]. apply IH; [lia | assumption].
Qed.
(** after a moveout the points are those of rays with the reference slowness, for every
    model and phase *)
Theorem C106_reference_ray_refuted deg2km iasp91 geodesic s f method phase ref ts s1 ms1 g depth pp_phase :
  file_moveout deg2km iasp91 s f method phase ref (map p_m ts) = (s1, ms1, Ok tt) ->
  snd (stream_ppoints deg2km iasp91 geodesic s1 g method depth pp_phase (moved ts ms1)) =
  snd (stream_ppoints deg2km iasp91 geodesic s1 g method depth pp_phase (map (slowed ref) ts)).
Proof.
  intros E. destruct (file_moveout_slow _ _ _ _ _ _ _ _ _ _ E) as [HL HF]. rewrite map_length in HL. apply stream_ppoints_coords, moved_slow; assumption.
Qed.
Print Assumptions C106_reference_ray_refuted.
(** these are other points: distances up to 10000 km on one geodesic lead to different points *)
Theorem C106_witness_refuted d iasp91 geodesic : d <> 0 ->
  (forall la lo az x y, 0 <= x -> x < y -> y <= 10000000 -> geodesic la lo az x <> geodesic la lo az y) ->
  exists s f ref t s1 ms1 before after,
    snd (stream_ppoints d iasp91 geodesic s f "P" (1 / 2) None [t]) = Ok [Some before] /\
    file_moveout d iasp91 s f "P" None ref (map p_m [t]) = (s1, ms1, Ok tt) /\
    snd (stream_ppoints d iasp91 geodesic s1 f "P" (1 / 2) None (moved [t] ms1)) = Ok [Some after] /\
    before <> after.
Proof.
  intros H Hg. set (s := mkSession demo_files []). set (t := demo_pt d (Some 30)).
  destruct (C46_case d H) as (m' & t' & Et).
  assert (file_moveout d iasp91 s "a" "P" None (0 * d) (map p_m [t]) = (keep_model (mkSession demo_files [("a"%string, demo)]) "a" m', [tag_moveout "Ps" (0 * d) t'], Ok tt)) as Em.
  { unfold file_moveout. change (default_phase "P") with (Ok "Ps"%string). cbv iota. unfold s. rewrite demo_load. unfold stream_moveout. cbn [map moveout]. change (p_m t) with (demo_trace d). rewrite Et. reflexivity. }
  exists s, "a"%string, (0 * d), t, (keep_model (mkSession demo_files [("a"%string, demo)]) "a" m'), [tag_moveout "Ps" (0 * d) t'], (geodesic 10 20 30 (3 / 2 * / sqrt 3 * 1000)), (geodesic 10 20 30 (0 * 1000)).
  split.
  { unfold stream_ppoints. change (pp_default "P") with (Ok "S"%string). cbv iota. unfold s. rewrite demo_load. cbn [ppoint_all]. unfold ppoint. change (x_slow (p_m t)) with (1 * d). rewrite (demo_half d H). reflexivity. }
  split; [exact Em|]. split.
  { rewrite (C106_reference_ray_refuted d iasp91 geodesic s "a" "P" None (0 * d) [t] _ _ "a" (1 / 2) None Em).
    unfold stream_ppoints. change (pp_default "P") with (Ok "S"%string). cbv iota. unfold load_model, keep_model. cbn [s_cache s_files]. rewrite dget_dset_eq. cbn [map ppoint_all]. unfold ppoint.
    change (x_slow (p_m (slowed (0 * d) t))) with (0 * d).
    assert (same_layers demo m') as Hs by (apply (moveout_same_layers d "Ps" (0 * d) [demo_trace d] demo m' [t'] (Ok tt)); cbn [moveout]; rewrite Et; reflexivity).
    rewrite <- (ppoint_distance_same d demo m' _ _ _ Hs), (demo_vertical d H). reflexivity. }
  assert (0 < sqrt 3) by (apply sqrt_lt_R0; lra). assert (1 <= sqrt 3) by (rewrite <- sqrt_1 at 1; apply sqrt_le_1; lra).
  assert (0 < / sqrt 3 <= 1) as [I1 I2] by (split; [apply Rinv_0_lt_compat; assumption | rewrite <- Rinv_1; apply Rinv_le_contravar; lra]).
  intros E. symmetry in E. revert E. apply Hg; lra.
Qed.
Print Assumptions C106_witness_refuted.
(** no difference if all slownesses are the reference already *)
Theorem C106_same_slowness_partial deg2km iasp91 geodesic s f method phase ref ts s1 ms1 g depth pp_phase :
  (forall t, In t ts -> x_slow (p_m t) = ref) ->
  file_moveout deg2km iasp91 s f method phase ref (map p_m ts) = (s1, ms1, Ok tt) ->
  snd (stream_ppoints deg2km iasp91 geodesic s1 g method depth pp_phase (moved ts ms1)) =
  snd (stream_ppoints deg2km iasp91 geodesic s1 g method depth pp_phase ts).
Proof.
  intros Ht E. rewrite (C106_reference_ray_refuted _ _ _ _ _ _ _ _ _ _ _ _ _ _ E). apply stream_ppoints_coords.
  clear - Ht. induction ts as [|t ts IH]; cbn [map]; [constructor|]. constructor; [cbn; rewrite (Ht t (or_introl eq_refl)); auto|]. apply IH. intros u Hu. apply Ht. right. exact Hu.
Qed.
Print Assumptions C106_same_slowness_partial.
