(** The function profile for traces with their own arrays. *)
From Coq Require Import Permutation.
From Verif Require Import Model.ProfileCommand Spec.MeanSpec Spec.ProfileSpec Spec.ProfileCmdSpec Properties.ProfileProps Proofs.PyFacts.
Notation length := List.length.

Lemma in_memory_spec l : forall m m' s, in_memory m l = (m', s) ->
  (exists x, m' = m ++ x) /\ Forall (fun t => p_buf t < length m') s /\ map (content m') s = l.
Proof.
  induction l as [|t l IH]; intros m m' s H; cbn [in_memory] in H.
  - injection H as <- <-. split; [exists []; symmetry; apply app_nil_r|]. split; [constructor | reflexivity].
  - unfold alloc in H. destruct (in_memory (m ++ [data t]) l) as [m2 r] eqn:E. injection H as <- <-. destruct (IH _ _ _ E) as ((x & ->) & HF & Hc).
    split; [exists (data t :: x); rewrite <- app_assoc; reflexivity|]. split.
    + constructor; [|exact HF]. cbn [p_buf]. rewrite !app_length. cbn. lia.
    + cbn [map]. rewrite Hc. f_equal. unfold content, rd. cbn [p_st p_buf]. rewrite <- app_assoc. rewrite app_nth2 by lia. rewrite Nat.sub_diag. destruct t; reflexivity.
Qed.
Lemma in_box_hits within boxes m t pos c : in_box within boxes (content m t) pos c <-> hits within boxes t pos c.
Proof. reflexivity. Qed.
Lemma selects_map {A B} (f : A -> B) (P : B -> Prop) l r : selects (fun x => P (f x)) l r -> selects P (map f l) (map f r).
Proof. induction 1; cbn [map]; [constructor | apply sel_in; assumption | apply sel_out; assumption]. Qed.

Lemma profile_traces_spec within boxes b0 pp traces :
  hd_error boxes = Some b0 -> b_profile b0 = Some pp -> Forall usable traces ->
  (forall t u pos c, In t traces -> In u traces -> in_box within boxes t pos c -> in_box within boxes u pos c -> length (data t) = length (data u)) ->
  exists prof, profile_traces within (JObj []) boxes traces = Ok prof /\ profile_of within boxes traces prof.
Proof.
  intros Hb Hp Hu Hlen. destruct pp as [[[[plat plon] pazi] plen] w]. unfold profile_traces. destruct (in_memory [] traces) as [m s] eqn:E.
  destruct (in_memory_spec _ _ _ _ E) as (_ & HF & Hc).
  assert (forall t, In t s -> In (content m t) traces) as Hin by (intros t Ht; rewrite <- Hc; apply in_map, Ht).
  destruct (C07_profile_mean within false boxes m s HF) with (b0 := b0) (plat := plat) (plon := plon) (pazi := pazi) (plen := plen) (w := w)
    as (m2 & out & -> & H0 & _ & _ & H1 & H2 & H3); try assumption.
  - apply Forall_forall. intros t Ht. rewrite Forall_forall in Hu. destruct (Hu _ (Hin t Ht)) as (U1 & (c & U2 & _) & U3). split; [exact U1|]. split; [|exact U3].
    intros Ec. change (channel (st (content m t))) with (channel (p_st t)) in U2. rewrite Ec in U2. discriminate.
  - intros t u pos c Ht Hu' Ht' Hu''. exact (Hlen _ _ pos c (Hin t Ht) (Hin u Hu') Ht' Hu'').
  - cbn [bind]. eexists. split; [reflexivity|]. split; [|split].
    + intros o Ho. apply in_map_iff in Ho. destruct Ho as (o' & <- & Ho). destruct (H1 o' Ho) as (pos & c & first & rest & S1 & S2 & S3 & S4 & S5 & S6 & _).
      exists pos, c, (map (content m) (first :: rest)). split; [rewrite <- Hc; apply selects_map; exact S1|]. split; [discriminate|]. split; [exact S2|]. split; [exact S3|].
      split; [rewrite map_length; exact S4|]. split; [|exact S6]. rewrite map_map. exact S5.
    + intros t pos c Ht Hit. rewrite <- Hc in Ht. apply in_map_iff in Ht. destruct Ht as (t' & <- & Ht). destruct (H2 t' pos c Ht Hit) as (o & Ho & K1 & K2).
      exists (content m2 o). split; [apply in_map, Ho|]. split; [exact K1 | exact K2].
    + clear - H3. induction H3 as [|o out H3 IH Hf]; cbn [map]; constructor; [|exact IH]. apply Forall_forall. intros x Hx. apply in_map_iff in Hx. destruct Hx as (o' & <- & Ho').
      rewrite Forall_forall in Hf. intros [Ec (pos & (v & V1 & V2) & (v' & V1' & V2'))]. change (st (content m2 o)) with (p_st o) in *. change (st (content m2 o')) with (p_st o') in *.
      destruct (Hf o' Ho') as [Hlt|(_ & p & q & (a & A1 & A2) & (b & B1 & B2) & Hlt)].
      * rewrite Ec in Hlt. rewrite str_compare_refl in Hlt. discriminate Hlt.
      * rewrite V1 in A1. injection A1 as <-. rewrite V1' in B1. injection B1 as <-. rewrite <- A2, <- B2, V2, V2' in Hlt. exact (Qlt_irrefl _ Hlt).
Qed.

Lemma plot_profile_succeeds {D} (draw : list trace -> res D) channel_set root prof :
  (forall c, In c (channel_set prof) -> exists t, In t prof /\ channel (st t) = c) ->
  Forall (fun t => exists c, channel (st t) = String "?" (String "?" (String c ""))) prof ->
  (forall c, In c (channel_set prof) -> select_channel c prof = filter (fun t => String.eqb (channel (st t)) c) prof) ->
  (forall l, l <> [] -> exists d, draw l = Ok d) ->
  exists figs, plot_profile_command draw channel_set root prof = (figs, None).
Proof.
  intros Hset Hp Hsel Hd. unfold plot_profile_command. revert Hset Hsel. generalize (channel_set prof). intros chans Hset Hsel.
  induction chans as [|c chans IH]; [exists []; reflexivity|]. cbn [figures]. rewrite (Hsel c (or_introl eq_refl)).
  destruct (filter (fun t => String.eqb (channel (st t)) c) prof) as [|f r] eqn:E.
  - exfalso. destruct (Hset c (or_introl eq_refl)) as (t & Ht & Ec). assert (In t []) as []; rewrite <- E. apply filter_In. split; [exact Ht|]. apply String.eqb_eq, Ec.
  - assert (In f prof) as Hf by (apply (filter_In (fun t => String.eqb (channel (st t)) c)); rewrite E; left; reflexivity).
    rewrite Forall_forall in Hp. destruct (Hp f Hf) as (k & Ek). assert (exists n, profile_pdf root f = Ok n) as [n ->] by (unfold profile_pdf; rewrite Ek; cbn [String.get]; eauto). cbn [bind].
    destruct (Hd (f :: r)) as [d ->]; [discriminate|]. cbn [bind].
    destruct IH as [figs ->]; [intros; apply Hset; right; assumption | intros; apply Hsel; right; assumption|]. eauto.
Qed.
Lemma selects_in {A} (P : A -> Prop) l r : selects P l r -> forall x, In x r <-> In x l /\ P x.
Proof.
  induction 1 as [|y l r Hy _ IH|y l r Hy _ IH]; intros x; cbn [In]; [tauto|..]; rewrite IH; split; intuition (subst; tauto || contradiction).
Qed.
Lemma selects_NoDup {A} (P : A -> Prop) l r : selects P l r -> NoDup l -> NoDup r.
Proof.
  induction 1 as [|y l r Hy H IH|y l r Hy H IH]; intros Hn; [constructor|..]; inversion Hn; subst; [constructor; [|apply IH; assumption] | apply IH; assumption].
  intros Hx. apply (selects_in P l r H) in Hx. tauto.
Qed.
Lemma concat_perm {A B} (R : A -> list B -> Prop) (f : A -> list B) l out : (forall x s, R x s -> Permutation s (f x)) -> Forall2 R l out -> Permutation (List.concat out) (flat_map f l).
Proof. intros H. induction 1 as [|x s l out Hx _ IH]; [constructor|]. cbn [List.concat flat_map]. apply Permutation_app; [apply H, Hx | exact IH]. Qed.
