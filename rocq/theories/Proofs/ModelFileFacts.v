From Verif Require Import Model.ModelFile Spec.ModelSpec Spec.ModelFileSpec Proofs.PyFacts Proofs.ModelFacts Proofs.MoveoutFacts Proofs.MoveoutMain.
From Coq Require Import Lra Lia.
Notation length := List.length.
Open Scope R_scope.

(** ** reading *)
Lemma astype_nat x k : INR k <= x < INR k + 1 -> astype_int x = Z.of_nat k.
Proof.
  intros [H1 H2]. unfold astype_int. pose proof (pos_INR k). destruct (Rle_dec 0 x) as [_|Hn]; [|lra].
  rewrite INR_IZR_INZ in H1, H2. unfold Int_part.
  rewrite <- (tech_up x (Z.of_nat k + 1)); [lia | rewrite plus_IZR; lra | rewrite plus_IZR; lra].
Qed.
Lemma as_nat_nat k : as_nat (Z.of_nat k) = Ok k.
Proof. unfold as_nat. destruct (Z.ltb_spec (Z.of_nat k) (-1)); [lia|]. destruct (Z.ltb_spec (Z.of_nat k) 0); [lia|]. rewrite Nat2Z.id. reflexivity. Qed.
Lemma mapM_nats (c : list R) : forall n, length n = length c -> (forall i, (i < length c)%nat -> INR (nth i n 0%nat) <= nth i c 0 < INR (nth i n 0%nat) + 1) ->
  mapM (fun x => as_nat (astype_int x)) c = Ok n.
Proof.
  induction c as [|x c IH]; intros n Hl H; destruct n as [|k n]; try (cbn in Hl; lia); [reflexivity|].
  cbn [mapM]. rewrite (astype_nat x k) by exact (H 0%nat ltac:(cbn; lia)). rewrite as_nat_nat. cbn [bind].
  rewrite (IH n); [reflexivity | cbn in Hl; lia|]. intros i Hi. exact (H (S i) ltac:(cbn; lia)).
Qed.
Lemma column_length f j : length (column f j) = length f. Proof. apply map_length. Qed.
Lemma column_nth f j i : (i < length f)%nat -> nth i (column f j) 0 = nth j (nth i f []) 0.
Proof. intros H. unfold column. rewrite (nth_map_in _ f i [] 0) by exact H. reflexivity. Qed.
Lemma width_ok (f : rows) w : (forall r, In r f -> length r = w) -> forallb (fun r => (length r =? w)%nat) f = true.
Proof. intros H. apply forallb_forall. intros r Hr. apply Nat.eqb_eq, H, Hr. Qed.
Lemma read_four (f : rows) n : (2 <= length f)%nat -> (forall r, In r f -> length r = 4%nat) -> S (length n) = length f ->
  (forall i, (i < length n)%nat -> INR (nth i n 0%nat) <= nth 3 (nth (S i) f []) 0 < INR (nth i n 0%nat) + 1) ->
  read_model f = new_model true (column f 0) (column f 1) (column f 2) (Some (0%nat :: n)).
Proof.
  intros Hf Hw Hn H. unfold read_model. destruct f as [|row f]; [cbn in Hf; lia|].
  rewrite (Hw row (or_introl eq_refl)). rewrite width_ok by exact Hw. cbn [negb].
  destruct (Nat.eqb_spec (length (row :: f)) 1) as [E|_]; [cbn in E, Hf; lia|]. cbn [orb Nat.eqb].
  assert (count_column (column (row :: f) 3) = Ok (0%nat :: n)) as ->; [|reflexivity].
  unfold count_column. cbn [column map]. rewrite (mapM_nats (map (fun r => nth 3 r 0) f) n); [reflexivity | rewrite map_length; cbn in Hn; lia|].
  rewrite map_length. intros i Hi. cbn in Hn. rewrite (nth_map_in _ f i [] 0) by exact Hi. exact (H i ltac:(lia)).
Qed.
Lemma read_three (f : rows) : (2 <= length f)%nat -> (forall r, In r f -> length r = 3%nat) ->
  read_model f = new_model true (column f 0) (column f 1) (column f 2) None.
Proof.
  intros Hf Hw. unfold read_model. destruct f as [|row f]; [cbn in Hf; lia|].
  rewrite (Hw row (or_introl eq_refl)). rewrite width_ok by exact Hw. cbn [negb].
  destruct (Nat.eqb_spec (length (row :: f)) 1) as [E|_]; [cbn in E, Hf; lia|]. reflexivity.
Qed.
Lemma new_model_unused arr z vp vs n m : new_model arr z vp vs n = Ok m -> t_ref m = [].
Proof.
  unfold new_model. destruct (negb _); [discriminate|]. destruct n as [n|].
  - destruct (interpolate_n z n); [|discriminate]. cbn [bind]. destruct (interpolate_n vp n); [|discriminate]. cbn [bind].
    destruct (interpolate_n vs n); [|discriminate]. cbn [bind]. intros E. injection E as <-. reflexivity.
  - intros E. injection E as <-. reflexivity.
Qed.
Lemma read_unused f m : read_model f = Ok m -> t_ref m = [].
Proof.
  unfold read_model. destruct f as [|row f]; [discriminate|]. destruct (negb _); [discriminate|]. destruct (_ || _).
  - destruct (_ || _); discriminate.
  - destruct (_ =? 4)%nat.
    + destruct (count_column _); [|discriminate]. cbn [bind]. apply new_model_unused.
    + destruct (_ =? 3)%nat; [apply new_model_unused | discriminate].
Qed.
(** only files with at least two lines of three or four numbers are accepted *)
Lemma read_ok_shape f m : read_model f = Ok m -> (2 <= length f)%nat /\
  ((forall r, In r f -> length r = 3%nat) \/ (forall r, In r f -> length r = 4%nat)).
Proof.
  unfold read_model. destruct f as [|row f]; [discriminate|]. destruct (forallb _ _) eqn:Ef; [|discriminate]. cbn [negb].
  rewrite forallb_forall in Ef. destruct (Nat.eqb_spec (length (row :: f)) 1) as [E1|E1]; cbn [orb]; [destruct (_ || _); discriminate|].
  destruct (Nat.eqb_spec (length row) 1) as [E2|E2]; [destruct (_ || _); discriminate|].
  assert (2 <= length (row :: f))%nat by (cbn in *; lia).
  destruct (Nat.eqb_spec (length row) 4) as [E4|E4].
  - intros _. split; [assumption|]. right. intros r Hr. apply Ef, Nat.eqb_eq in Hr. congruence.
  - destruct (Nat.eqb_spec (length row) 3) as [E3|E3]; [|discriminate]. intros _. split; [assumption|]. left.
    intros r Hr. apply Ef, Nat.eqb_eq in Hr. congruence.
Qed.

Section H.
  Variable deg2km : R.
  Variable iasp91 : rows.
  Variable geodesic : R -> R -> R -> R -> R * R.
  Notation load_model := (load_model iasp91).
  Notation step := (step deg2km iasp91 geodesic).
  Notation run := (run deg2km iasp91 geodesic).
  Notation file_moveout := (file_moveout deg2km iasp91).
  Notation stream_ppoints := (stream_ppoints deg2km iasp91 geodesic).
  Notation content := (content iasp91).
  Lemma load_files s f : s_files (fst (load_model s f)) = s_files s.
  Proof.
    unfold load_model, ModelFile.load_model. destruct (dget (s_cache s) f); [reflexivity|]. destruct (if String.eqb f "iasp91" then _ else _); [|reflexivity].
    destruct (read_model r); reflexivity.
  Qed.
  Lemma load_other s f g : g <> f -> dget (s_cache (fst (load_model s g))) f = dget (s_cache s) f.
  Proof.
    intros H. unfold load_model, ModelFile.load_model. destruct (dget (s_cache s) g); [reflexivity|]. destruct (if String.eqb g "iasp91" then _ else _); [|reflexivity].
    destruct (read_model r); [|reflexivity]. cbn [fst s_cache]. apply dget_dset_ne. exact H.
  Qed.
  Lemma load_fail s f s' e : load_model s f = (s', Err e) -> s' = s.
  Proof.
    unfold load_model, ModelFile.load_model. destruct (dget (s_cache s) f); [discriminate|]. destruct (if String.eqb f "iasp91" then _ else _).
    - destruct (read_model r); [discriminate|]. intros E. injection E as <- _. reflexivity.
    - intros E. injection E as <- _. reflexivity.
  Qed.
  Lemma load_ok_cached s f s' m : load_model s f = (s', Ok m) -> dget (s_cache s') f = Some m.
  Proof.
    unfold load_model, ModelFile.load_model. destruct (dget (s_cache s) f) eqn:Ed.
    - intros E. injection E as <- <-. exact Ed.
    - destruct (if String.eqb f "iasp91" then _ else _); [|discriminate]. destruct (read_model r); [|discriminate].
      intros E. injection E as <- <-. cbn [s_cache]. apply dget_dset_eq.
  Qed.
  Lemma moveout_session s f me ph ref ts s' ts' r : file_moveout s f me ph ref ts = (s', ts', r) ->
    s_files s' = s_files s /\ (forall g, g <> f -> dget (s_cache s') g = dget (s_cache s) g).
  Proof.
    unfold file_moveout, ModelFile.file_moveout. destruct (match ph with Some p => _ | None => _ end) as [p|e].
    2: { intros E. injection E as <- _ _. split; reflexivity. }
    pose proof (load_files s f) as Hf. pose proof (fun g => load_other s g f) as Ho. destruct (load_model s f) as [s1 [m|e]] eqn:El; cbn [fst] in Hf, Ho.
    - destruct (stream_moveout deg2km me m (Some p) ref ts) as [[m2 t2] r2]. intros E. injection E as <- _ _. cbn [keep_model s_cache s_files]. split; [exact Hf|].
      intros g Hg. rewrite dget_dset_ne by congruence. apply Ho. congruence.
    - intros E. injection E as <- _ _. split; [exact Hf|]. intros g Hg. apply Ho. congruence.
  Qed.
  Lemma ppoints_session s f me dep ph ts s' ts' r : stream_ppoints s f me dep ph ts = (s', ts', r) ->
    s' = s \/ s' = fst (load_model s f).
  Proof.
    unfold stream_ppoints, ModelFile.stream_ppoints. destruct (match ph with Some p => _ | None => _ end) as [p|e].
    2: { intros E. injection E as <- _ _. left. reflexivity. }
    destruct (ModelFile.load_model iasp91 s f) as [s1 [m|e]].
    - destruct (ppoint_all _ _ _ _ _ _) as [t2 [u|e]]; intros E; injection E as <- _ _; right; reflexivity.
    - intros E. injection E as <- _ _. right. reflexivity.
  Qed.

  (** ** histories *)
  (** the model in the cache, if any, is that of the file; P holds of its reference delays *)
  Definition fresh_enough (P : smodel -> Prop) (s : session) (f : string) : Prop :=
    forall m, dget (s_cache s) f = Some m -> P m /\ exists c m0, content s f = Some c /\ read_model c = Ok m0 /\ same_layers m0 m.
  Lemma unused_step s f o : ~ uses f o -> dget (s_cache s) f = None -> dget (s_cache (step s o)) f = None.
  Proof.
    intros Hu Hn. destruct o as [g|g me ph ref ts|g me dep ph ts|g c]; cbn [step ModelFile.step uses] in *.
    - rewrite load_other by exact Hu. exact Hn.
    - destruct (ModelFile.file_moveout _ _ s g me ph ref ts) as [[s' ts'] r] eqn:E. cbn [fst]. destruct (moveout_session _ _ _ _ _ _ _ _ _ E) as [_ H].
      rewrite H by congruence. exact Hn.
    - destruct (ModelFile.stream_ppoints _ _ _ s g me dep ph ts) as [[s' ts'] r] eqn:E. cbn [fst].
      destruct (ppoints_session _ _ _ _ _ _ _ _ _ E) as [-> | ->]; [exact Hn|]. rewrite load_other by exact Hu. exact Hn.
    - exact Hn.
  Qed.
  Lemma load_fresh (P : smodel -> Prop) s f : (forall m, t_ref m = [] -> P m) -> fresh_enough P s f -> fresh_enough P (fst (load_model s f)) f.
  Proof.
    intros HP H. unfold load_model, ModelFile.load_model. destruct (dget (s_cache s) f) eqn:Ed; [exact H|].
    destruct (if String.eqb f "iasp91" then Some iasp91 else s_files s f) as [c|] eqn:Ec; [|exact H].
    destruct (read_model c) as [m|] eqn:Er; [|exact H]. cbn [fst]. intros m' Hm. cbn [s_cache] in Hm. rewrite dget_dset_eq in Hm. injection Hm as <-.
    split; [apply HP, (read_unused c), Er|]. exists c, m. split; [exact Ec|]. split; [exact Er | apply same_layers_refl].
  Qed.
  Lemma fresh_other P s s' f : dget (s_cache s') f = dget (s_cache s) f -> content s' f = content s f -> fresh_enough P s f -> fresh_enough P s' f.
  Proof. intros E1 E2 H m Hm. rewrite E1 in Hm. rewrite E2. apply H, Hm. Qed.
  Lemma content_same s s' f : s_files s' = s_files s -> content s' f = content s f.
  Proof. intros H. unfold ModelFileSpec.content. rewrite H. reflexivity. Qed.
  (** a moveout changes nothing but the reference delays *)
  Lemma moveout_same_layers phase ref : forall ts m m' ts' r, moveout deg2km m phase ref ts = (m', ts', r) -> same_layers m m'.
  Proof.
    assert (forall m t m' r, moveout_trace deg2km m phase ref t = (m', r) -> same_layers m m') as H1.
    { intros m t m' r. unfold moveout_trace. destruct (negb _).
      - intros E. inversion E; subst. apply same_layers_refl.
      - unfold stretch_delay_times. destruct (Nat.odd _); [intros E; inversion E; apply same_layers_refl|].
        destruct (dget (t_ref m) (upper phase)).
        + destruct (bind _ _) as [[t0 t1]|]; intros E; inversion E; apply same_layers_refl.
        + destruct (delay_times deg2km m ref (upper phase)); [|intros E; inversion E; apply same_layers_refl].
          destruct (bind _ _) as [[t0 t1]|]; intros E; inversion E; repeat split. }
    induction ts as [|t ts IH]; intros m m' ts' r E; cbn in E; [inversion E; apply same_layers_refl|].
    destruct (moveout_trace deg2km m phase ref t) as [m1 [t1|e]] eqn:Et; pose proof (H1 _ _ _ _ Et) as A.
    - destruct (moveout deg2km m1 phase ref ts) as [[m2 ts2] r2] eqn:Em. inversion E; subst. eapply same_layers_trans; [exact A | eapply IH; exact Em].
    - inversion E; subst. exact A.
  Qed.
  Section Pres.
  Variable P : smodel -> Prop.
  Variable allowed : R -> Prop.
  Hypothesis HP : forall m, t_ref m = [] -> P m.
  Hypothesis Hpres : forall p ref ts m m2 t2 r2, allowed ref -> P m -> moveout deg2km m p ref ts = (m2, t2, r2) -> P m2.
  Lemma fresh_step s f o : (f = "iasp91"%string \/ ~ writes f o) -> refers f allowed o -> fresh_enough P s f ->
    fresh_enough P (step s o) f /\ content (step s o) f = content s f.
  Proof.
    intros Hw Hr H. destruct o as [g|g me ph rf ts|g me dep ph ts|g c]; cbn [step ModelFile.step writes refers] in *.
    - assert (content (fst (load_model s g)) f = content s f) as Ec by (apply content_same, load_files). split; [|exact Ec].
      destruct (String.eqb_spec g f) as [->|Hg]; [apply load_fresh; assumption|]. apply (fresh_other P s); [apply load_other; exact Hg | exact Ec | exact H].
    - destruct (ModelFile.file_moveout _ _ s g me ph rf ts) as [[s' ts'] r] eqn:E. cbn [fst]. destruct (moveout_session _ _ _ _ _ _ _ _ _ E) as [Hf Ho].
      assert (content s' f = content s f) as Ec by (apply content_same, Hf). split; [|exact Ec].
      destruct (String.eqb_spec g f) as [->|Hg]; [|apply (fresh_other P s); [apply Ho; congruence | exact Ec | exact H]].
      specialize (Hr eq_refl). revert E. unfold file_moveout, ModelFile.file_moveout. destruct (match ph with Some p => _ | None => _ end) as [p|e].
      2: { intros E. injection E as <- _ _. exact H. }
      pose proof (load_fresh P s f HP H) as Hl. pose proof (load_files s f) as Hlf. destruct (ModelFile.load_model iasp91 s f) as [s1 [m|e]] eqn:El; cbn [fst] in Hl, Hlf.
      2: { intros E. injection E as <- _ _. exact Hl. }
      pose proof (load_ok_cached s f s1 m El) as Hm. destruct (Hl m Hm) as [Hcons (c & m0 & C1 & C2 & C3)].
      unfold stream_moveout. destruct (moveout deg2km m p rf ts) as [[m2 t2] r2] eqn:Em.
      pose proof (moveout_same_layers _ _ _ _ _ _ _ Em) as S1. pose proof (Hpres _ _ _ _ _ _ _ Hr Hcons Em) as S2.
      intros E. assert (s' = keep_model s1 f m2) as -> by (destruct r2; injection E as <- _ _; reflexivity).
      intros m' Hm'. cbn [keep_model s_cache] in Hm'. rewrite dget_dset_eq in Hm'. injection Hm' as <-. split; [exact S2|]. exists c, m0. split; [|split; [exact C2 | eapply same_layers_trans; eassumption]].
      rewrite <- C1. reflexivity.
    - destruct (ModelFile.stream_ppoints _ _ _ s g me dep ph ts) as [[s' ts'] r] eqn:E. cbn [fst].
      destruct (ppoints_session _ _ _ _ _ _ _ _ _ E) as [-> | ->]; [split; [exact H | reflexivity]|].
      assert (content (fst (load_model s g)) f = content s f) as Ec by (apply content_same, load_files). split; [|exact Ec].
      destruct (String.eqb_spec g f) as [->|Hg]; [apply load_fresh; assumption|]. apply (fresh_other P s); [apply load_other; exact Hg | exact Ec | exact H].
    - assert (content (mkSession (fun g' => if String.eqb g' g then c else s_files s g') (s_cache s)) f = content s f) as Ec.
      { unfold ModelFileSpec.content. cbn [s_files]. destruct Hw as [->|Hw]; [reflexivity|].
        destruct (String.eqb_spec f g) as [->|]; [contradiction Hw; reflexivity | reflexivity]. }
      split; [|exact Ec]. apply (fresh_other P s); [reflexivity | exact Ec | exact H].
  Qed.
  Lemma fresh_run f : forall h s, Forall (fun o => (f = "iasp91"%string \/ ~ writes f o) /\ refers f allowed o) h -> fresh_enough P s f ->
    fresh_enough P (run s h) f /\ content (run s h) f = content s f.
  Proof.
    induction h as [|o h IH]; intros s Hh H; cbn [run ModelFile.run fold_left]; [split; [exact H | reflexivity]|].
    inversion Hh as [|? ? [H1 H2] H3]; subst. destruct (fresh_step s f o H1 H2 H) as [A B].
    destruct (IH _ H3 A) as [C D]. split; [exact C|]. rewrite <- B. exact D.
  Qed.
  End Pres.
  Lemma unused_run f : forall h s, Forall (fun o => ~ uses f o) h -> dget (s_cache s) f = None -> dget (s_cache (run s h)) f = None.
  Proof.
    induction h as [|o h IH]; intros s Hh H; cbn [run ModelFile.run fold_left]; [exact H|].
    inversion Hh; subst. apply IH; [assumption|]. apply unused_step; assumption.
  Qed.
  Lemma run_app h1 h2 s : run s (h1 ++ h2) = run (run s h1) h2.
  Proof. apply fold_left_app. Qed.

  (** ** what a fresh cache gives *)
  Lemma load_as_new P s f : fresh_enough P s f ->
    match snd (load_model s f), snd (load_model (restarted s) f) with
    | Ok m, Ok m' => same_layers m' m /\ (P m \/ t_ref m = []) /\ t_ref m' = []
    | Err e, Err e' => e = e'
    | _, _ => False
    end.
  Proof.
    intros H. unfold load_model, ModelFile.load_model, restarted. cbn [s_cache s_files dget].
    assert (exists c, (if String.eqb f "iasp91" then Some iasp91 else s_files s f) = c /\ c = content s f) as (c & Ec & Ec2) by (eexists; split; reflexivity).
    rewrite Ec. destruct (dget (s_cache s) f) as [m|] eqn:Ed.
    - destruct (H m Ed) as (Hp & c' & m0 & E1 & E2 & E3). rewrite <- Ec2 in E1. subst c. rewrite E1. rewrite E2. cbn [snd].
      split; [exact E3|]. split; [left; exact Hp | apply (read_unused c'), E2].
    - destruct c as [c|]; [|reflexivity]. destruct (read_model c) as [m|] eqn:Er; [|reflexivity]. cbn [snd].
      split; [apply same_layers_refl|]. pose proof (read_unused _ _ Er). split; [right|]; assumption.
  Qed.
  Lemma ppoint_distance_same m m' d sl ph : same_layers m m' -> ppoint_distance deg2km m d sl ph = ppoint_distance deg2km m' d sl ph.
  Proof. intros (A & B & C0 & D & E). unfold ppoint_distance, vertical_slowness. rewrite A, B, C0, D, E. reflexivity. Qed.
  Lemma ppoint_all_same m m' d ph : same_layers m m' -> forall ts, ppoint_all deg2km geodesic m d ph ts = ppoint_all deg2km geodesic m' d ph ts.
  Proof.
    intros H. induction ts as [|t ts IH]; cbn; [reflexivity|]. unfold ppoint. rewrite (ppoint_distance_same m m' _ _ _ H), IH. reflexivity.
  Qed.
  Lemma moveout_same_results phase ref : forall ts m m1, same_layers m m1 -> consistent deg2km m ref -> consistent deg2km m1 ref ->
    snd (fst (moveout deg2km m phase ref ts)) = snd (fst (moveout deg2km m1 phase ref ts)) /\
    snd (moveout deg2km m phase ref ts) = snd (moveout deg2km m1 phase ref ts).
  Proof.
    induction ts as [|t ts IH]; intros m m1 Hs H H1; cbn [moveout]; [split; reflexivity|].
    pose proof (moveout_trace_fresh deg2km m m1 phase ref t Hs H H1) as E.
    destruct (moveout_trace deg2km m phase ref t) as [m2 r2] eqn:E2. destruct (moveout_trace deg2km m1 phase ref t) as [m3 r3] eqn:E3. cbn [snd] in E. subst r3.
    assert (forall ma mb r, moveout_trace deg2km ma phase ref t = (mb, r) -> consistent deg2km ma ref -> same_layers ma mb /\ consistent deg2km mb ref) as HH.
    { intros ma mb r Er Hc. apply (moveout_layers deg2km phase ref [t] ma mb (match r with Ok t' => [t'] | Err _ => [t] end) (match r with Ok _ => Ok tt | Err e => Err e end) Hc). cbn [moveout]. rewrite Er. destruct r; reflexivity. }
    destruct (HH _ _ _ E2 H) as [A1 A2]. destruct (HH _ _ _ E3 H1) as [B1 B2].
    assert (same_layers m2 m3) as Hs2. { destruct A1 as (? & ? & ? & ? & ?), B1 as (? & ? & ? & ? & ?), Hs as (? & ? & ? & ? & ?). repeat split; congruence. }
    destruct (IH m2 m3 Hs2 A2 B2) as [I1 I2].
    destruct r2 as [t'|e]; [|split; reflexivity].
    destruct (moveout deg2km m2 phase ref ts) as [[ma ta] ra]. destruct (moveout deg2km m3 phase ref ts) as [[mb tb] rb]. cbn [fst snd] in *. subst. split; reflexivity.
  Qed.

  (** ** piercing points *)
  Lemma pyindex_none {A B} (l : list A) (l' : list B) k : length l = length l' ->
    match pyindex l k, pyindex l' k with Ok _, Ok _ => True | Err e, Err e' => e = IndexError /\ e' = IndexError | _, _ => False end.
  Proof.
    intros H. unfold pyindex. rewrite H. cbv zeta. set (j := (if (k <? 0)%Z then _ else _)). destruct (_ || _); [split; reflexivity|].
    destruct (nth_error l (Z.to_nat j)) eqn:E1; destruct (nth_error l' (Z.to_nat j)) eqn:E2; try exact I; try (split; reflexivity).
    - apply nth_error_None in E2. assert (nth_error l (Z.to_nat j) <> None) as X by congruence. apply nth_error_Some in X. lia.
    - apply nth_error_None in E1. assert (nth_error l' (Z.to_nat j) <> None) as X by congruence. apply nth_error_Some in X. lia.
  Qed.
  Lemma zipw_len {A B D} (g : A -> B -> D) : forall a b, length (zipw g a b) = Nat.min (length a) (length b).
  Proof. induction a as [|x a IH]; intros [|y b]; cbn; try reflexivity. rewrite IH. reflexivity. Qed.
  Lemma cumsum_from_len : forall l acc, length (cumsum_from acc l) = length l.
  Proof. induction l as [|x l IH]; intros acc; cbn; [reflexivity|]. rewrite IH. reflexivity. Qed.
  Lemma cumsum_len l : length (cumsum l) = length l.
  Proof. unfold cumsum. destruct l; [reflexivity|]. cbn. rewrite ?cumsum_from_len. reflexivity. Qed.
  (** whether an error occurs does not depend on the slowness *)
  Lemma distance_error m d s1 s2 ph e : ppoint_distance deg2km m d s1 ph = Err e -> ppoint_distance deg2km m d s2 ph = Err e /\ e <> KeyError.
  Proof.
    unfold ppoint_distance, vertical_slowness. destruct (Nat.even _); [intros E; injection E as <-; split; [reflexivity | discriminate]|].
    cbv zeta. set (p := char_in "P" (upper (upper ph))). set (p' := char_in "P" (upper ph)). set (q := char_in "S" (upper (upper ph))). set (q' := char_in "S" (upper ph)).
    destruct ((p || q) && negb (is_array m)); [cbn [bind]; intros E; injection E as <-; split; [reflexivity | discriminate]|]. cbn [bind].
    destruct (negb (is_array m)); [intros E; injection E as <-; split; [reflexivity | discriminate]|].
    destruct (first_above d (mz m)) as [i|]; [|intros E; injection E as <-; split; [reflexivity | discriminate]].
    destruct (negb (p' || q')); [intros E; injection E as <-; split; [reflexivity | discriminate]|].
    match goal with |- (let! x0 := pyindex ?X _ in _) = _ -> (let! x1 := pyindex ?Y _ in _) = _ /\ _ => assert (length X = length Y) as HL by
      (rewrite !zipw_len, !map_length; destruct p, p', q, q'; cbv iota; rewrite ?cumsum_len, ?zipw_len, ?map_length; reflexivity); set (x := X) in *; set (y := Y) in * end.
    pose proof (pyindex_none x y (Z.of_nat i - 1) HL) as A. pose proof (pyindex_none x y (Z.of_nat i - 1 + 1) HL) as B.
    destruct (pyindex x (Z.of_nat i - 1)), (pyindex y (Z.of_nat i - 1)); try contradiction; cbn [bind].
    2: { destruct A as [-> ->]. intros E. injection E as <-. split; [reflexivity | discriminate]. }
    destruct (pyindex x (Z.of_nat i - 1 + 1)), (pyindex y (Z.of_nat i - 1 + 1)); try contradiction; cbn [bind].
    2: { destruct B as [-> ->]. intros E. injection E as <-. split; [reflexivity | discriminate]. }
    pose proof (pyindex_none (mz m) (mz m) (Z.of_nat i - 1) eq_refl) as A1. pose proof (pyindex_none (mz m) (mz m) (Z.of_nat i - 1 + 1) eq_refl) as B1.
    destruct (pyindex (mz m) (Z.of_nat i - 1)); cbn [bind]; [|intros E; injection E as <-; destruct A1 as [-> _]; split; [reflexivity | discriminate]].
    destruct (pyindex (mz m) (Z.of_nat i - 1 + 1)); cbn [bind]; [discriminate|].
    intros E; injection E as <-; destruct B1 as [-> _]; split; [reflexivity | discriminate].
  Qed.
  Lemma ppoint_inv m t d ph t' : ppoint deg2km geodesic m t d ph = Ok t' -> exists lat lon az dr,
    p_lat t = Some lat /\ p_lon t = Some lon /\ p_baz t = Some az /\ ppoint_distance deg2km m d (x_slow (p_m t)) ph = Ok dr /\
    same_but_pp t t' /\ p_pp t' = Some (d, option_map (fun x => geodesic lat lon az (x * 1000)) dr).
  Proof.
    unfold ppoint. destruct (ppoint_distance deg2km m d (x_slow (p_m t)) ph) as [dr|]; [|discriminate]. cbn [bind].
    destruct (p_lat t) as [lat|] eqn:E1; [|discriminate]. destruct (p_lon t) as [lon|] eqn:E2; [|discriminate]. destruct (p_baz t) as [az|] eqn:E3; [|discriminate].
    intros E. injection E as <-. exists lat, lon, az, dr. repeat split; try assumption; cbn; congruence.
  Qed.
  Lemma ppoint_all_inv m d ph : forall ts ts', ppoint_all deg2km geodesic m d ph ts = (ts', Ok tt) ->
    Forall2 (fun t t' => ppoint deg2km geodesic m t d ph = Ok t') ts ts'.
  Proof.
    induction ts as [|t ts IH]; intros ts' E; cbn [ppoint_all] in E; [injection E as <-; constructor|].
    destruct (ppoint deg2km geodesic m t d ph) as [t1|] eqn:Et; [|discriminate].
    destruct (ppoint_all deg2km geodesic m d ph ts) as [r e] eqn:Er. injection E as <- ->. constructor; [exact Et | apply IH; reflexivity].
  Qed.
  Lemma ppoint_all_build m d ph : forall ts ts', Forall2 (fun t t' => ppoint deg2km geodesic m t d ph = Ok t') ts ts' ->
    ppoint_all deg2km geodesic m d ph ts = (ts', Ok tt).
  Proof. induction 1 as [|t t' ts ts' H _ IH]; cbn [ppoint_all]; [reflexivity|]. rewrite H, IH. reflexivity. Qed.
  (** errors of the model occur at the first trace *)
  Lemma ppoint_all_error m d ph e : e <> KeyError -> forall ts ts', ppoint_all deg2km geodesic m d ph ts = (ts', Err e) -> ts' = ts.
  Proof.
    intros He ts ts' E. assert (forall ts t ts', (exists dr, ppoint_distance deg2km m d (x_slow (p_m t)) ph = Ok dr) -> ppoint_all deg2km geodesic m d ph ts = (ts', Err e) -> False) as H.
    { induction ts0 as [|u ts0 IH]; intros t ts1 (dr & Hd) E1; cbn [ppoint_all] in E1; [discriminate|].
      destruct (ppoint deg2km geodesic m u d ph) as [u1|e1] eqn:Eu.
      - destruct (ppoint_all deg2km geodesic m d ph ts0) as [r e2] eqn:Er. injection E1 as <- ->. exact (IH t r (ex_intro _ dr Hd) eq_refl).
      - injection E1 as _ ->. unfold ppoint in Eu. destruct (ppoint_distance deg2km m d (x_slow (p_m u)) ph) as [du|eu] eqn:Ed.
        + cbn [bind] in Eu. destruct (p_lat u), (p_lon u), (p_baz u); congruence.
        + destruct (distance_error _ _ _ (x_slow (p_m t)) _ _ Ed) as [X _]. congruence. }
    destruct ts as [|t ts]; cbn [ppoint_all] in E; [discriminate|].
    destruct (ppoint deg2km geodesic m t d ph) as [t1|e1] eqn:Et; [|injection E as <- _; reflexivity].
    destruct (ppoint_all deg2km geodesic m d ph ts) as [r e2] eqn:Er. injection E as <- ->. exfalso.
    destruct (ppoint_inv _ _ _ _ _ Et) as (? & ? & ? & dr & _ & _ & _ & Hd & _). exact (H ts t r (ex_intro _ dr Hd) Er).
  Qed.
End H.
