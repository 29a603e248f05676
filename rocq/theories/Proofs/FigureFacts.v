(** Figures of the commands plot and plot-profile. *)
From Verif Require Import Model.Figures Spec.BatchSpec Spec.FigureSpec Proofs.PyFacts Proofs.BatchFacts Proofs.BatchRead Proofs.OnceFacts.
From Coq Require Import Lqa.
Notation length := List.length.

Lemma fnmatch_exact l s : plain l -> (fnmatch l s = true <-> s = l).
Proof.
  revert s. induction l as [|a l IH]; intros s [H1 H2].
  - destruct s; cbn; split; intros; congruence.
  - cbn [fnmatch]. cbn in H1, H2. destruct (Ascii.eqb_spec a "*") as [->|Ha]; [tauto|]. destruct s as [|c s]; [split; discriminate|].
    destruct (Ascii.eqb_spec a "?") as [->|Hq]; [tauto|]. cbn [orb]. rewrite Bool.andb_true_iff, IH by (split; tauto). rewrite Ascii.eqb_eq. split; [intros [-> ->]; reflexivity | intros E; inversion E; auto].
Qed.
Lemma fnmatch_q p s : fnmatch ("?"%char :: p) s = true <-> exists c s', s = c :: s' /\ fnmatch p s' = true.
Proof.
  cbn [fnmatch]. change (Ascii.eqb "?" "*") with false. change (Ascii.eqb "?" "?") with true. cbv iota. destruct s as [|c s]; [split; [discriminate | intros (c & s' & E & _); discriminate]|].
  cbn [orb andb]. split; [intros H; exists c, s; auto | intros (c' & s' & E & H); inversion E; subst; exact H].
Qed.
Lemma filter_ext_in' {A} (f g : A -> bool) l : (forall x, In x l -> f x = g x) -> filter f l = filter g l.
Proof. induction l as [|x l IH]; intros H; [reflexivity|]. cbn [filter]. rewrite (H x (or_introl eq_refl)), IH by (intros; apply H; right; assumption). reflexivity. Qed.
Lemma select_exact c s : channel_ok c -> Forall (fun t => channel_ok (channel (st t))) s -> select_channel c s = of_channel c s.
Proof.
  intros [(Hw & _) Hu] Hs. unfold select_channel, of_channel. apply filter_ext_in'. intros t Ht. rewrite Forall_forall in Hs. destruct (Hs t Ht) as [_ Hut].
  rewrite Hu, Hut. apply Bool.eq_iff_eq_true. rewrite fnmatch_exact by (apply no_wild_plain, Hw). rewrite String.eqb_eq. split; [apply la_inj | intros ->; reflexivity].
Qed.

Lemma azimuth_baz t q : azimuth t = Ok q <-> baz t = Some q.
Proof. unfold azimuth, baz. destruct (dget (extra (st t)) "back_azimuth") as [[]|]; split; intros; congruence. Qed.
Lemma sort_azimuth_ok s l : sort_azimuth s = Ok l -> Permutation l s /\ by_azimuth l.
Proof.
  unfold sort_azimuth. destruct (mapM azimuth s) as [az|] eqn:E; [|discriminate]. cbn [bind]. intros H. injection H as <-.
  set (leb := fun a b : Q * trace => Qle_bool (fst a) (fst b)).
  assert (map snd (combine az s) = s /\ Forall (fun x => baz (snd x) = Some (fst x)) (combine az s)) as [H1 H2].
  { revert az E. induction s as [|t s IH]; intros az E; cbn in E.
    - injection E as <-. split; [reflexivity | constructor].
    - destruct (azimuth t) as [q|] eqn:Eq; [|discriminate]. cbn [bind] in E. destruct (mapM azimuth s) as [az'|]; [|discriminate]. cbn [bind] in E. injection E as <-.
      destruct (IH az' eq_refl) as [H1 H2]. cbn [combine map snd]. rewrite H1. split; [reflexivity|]. constructor; [apply azimuth_baz, Eq | exact H2]. }
  split.
  - apply Permutation_trans with (map snd (combine az s)); [apply Permutation_map, sort_perm | rewrite H1; reflexivity].
  - assert (Forall (fun x => baz (snd x) = Some (fst x)) (sort leb (combine az s))) as H3 by (eapply Permutation_Forall; [apply Permutation_sym, sort_perm | exact H2]).
    assert (StronglySorted (fun a b => leb a b = true) (sort leb (combine az s))) as H4.
    { apply sort_sorted; unfold leb; intros.
      - rewrite !Qle_bool_iff. destruct (Qlt_le_dec (fst a) (fst b)); [left; lra | right; lra].
      - rewrite !Qle_bool_iff in *. lra. }
    revert H3 H4. generalize (sort leb (combine az s)). clear. intros l H3 H4. unfold by_azimuth. induction H4 as [|x l H4 IH Hx]; [constructor|].
    inversion H3; subst. cbn [map]. constructor; [apply IH; assumption|]. rewrite Forall_forall in *. intros u Hu. apply in_map_iff in Hu. destruct Hu as (y & <- & Hy).
    exists (fst x), (fst y). split; [assumption|]. split; [auto|]. apply Qle_bool_iff. exact (Hx y Hy).
Qed.

(** saved files *)
Lemma save_all_spec {D} (l : list (string * D)) : NoDup (map fst l) -> save_all l = l.
Proof.
  intros H. unfold save_all. assert (forall d : dict D, (forall n, In n (map fst l) -> ~ In n (map fst d)) -> fold_left (fun d f => dset d (fst f) (snd f)) l d = d ++ l) as Hg.
  { induction l as [|[n x] l IH]; intros d Hd; [symmetry; apply app_nil_r|]. cbn [fold_left fst snd map] in *. inversion H; subst.
    rewrite aset_new by (apply Hd; left; reflexivity). rewrite IH; [rewrite <- app_assoc; reflexivity | assumption|].
    intros m Hm. rewrite map_app, in_app_iff. cbn. intros [Hi|[<-|[]]]; [apply (Hd m (or_intror Hm) Hi) | contradiction]. }
  apply (Hg []). intros n _ [].
Qed.
Lemma dget_in {D} (l : dict D) n d : NoDup (map fst l) -> (dget l n = Some d <-> In (n, d) l).
Proof.
  unfold dget. induction l as [|[m x] l IH]; intros H; [split; [discriminate | intros []]|]. cbn [map fst] in H. inversion H as [|? ? Hni Hn]; subst. cbn [aget].
  destruct (String.eqb_spec n m) as [->|Hne].
  - split; [intros E; injection E as ->; left; reflexivity|]. intros [E|Hin]; [injection E as ->; reflexivity|]. exfalso. apply Hni. apply in_map_iff. exists (m, d). auto.
  - rewrite IH by exact Hn. split; [right; assumption|]. intros [E|Hin]; [injection E; congruence | exact Hin].
Qed.

Section F.
  Context {D : Type}.
  Variable draw : list trace -> res D.
  Variable channel_set : list trace -> list string.
  Lemma figures_spec name arrange chans stream figs : figures draw name arrange chans stream = (figs, None) ->
    Forall2 (fun c f => exists first rest l, select_channel c stream = first :: rest /\ name first = Ok (fst f) /\ arrange (first :: rest) = Ok l /\ draw l = Ok (snd f)) chans figs.
  Proof.
    revert figs. induction chans as [|c chans IH]; intros figs H; cbn [figures] in H; [inversion H; constructor|].
    destruct (select_channel c stream) as [|first rest] eqn:Es; [discriminate H|]. destruct (name first) as [n|] eqn:En; [|discriminate H]. cbn [bind] in H.
    destruct (arrange (first :: rest)) as [l|] eqn:Ea; [|discriminate H]. cbn [bind] in H. destruct (draw l) as [d|] eqn:Ed; [|discriminate H]. cbn [bind] in H.
    destruct (figures draw name arrange chans stream) as [fs e]. inversion H; subst. constructor; [|apply IH; reflexivity].
    exists first, rest, l. auto.
  Qed.
  Lemma plot_spec root streams figs : plot_command draw channel_set root streams None = (figs, None) ->
    exists figss, figs = List.concat figss /\
      Forall2 (fun s f => figures draw (pdf_name root) sort_azimuth (channel_set s) s = (f, None)) streams figss.
  Proof.
    revert figs. induction streams as [|s streams IH]; intros figs H; cbn [plot_command] in H; [inversion H; exists []; split; [reflexivity | constructor]|].
    destruct (figures draw (pdf_name root) sort_azimuth (channel_set s) s) as [f [e|]] eqn:Ef; [discriminate H|].
    destruct (plot_command draw channel_set root streams None) as [fs e]. inversion H; subst. destruct (IH fs eq_refl) as (figss & -> & HF).
    exists (f :: figss). split; [reflexivity | constructor; assumption].
  Qed.
End F.
Lemma figure_name_inj root p q c d : codes p -> codes q -> code c -> code d -> figure_name root p c = figure_name root q d -> same_station p q /\ c = d.
Proof.
  intros ((_ & _ & A1) & (_ & _ & A2) & (_ & _ & A3)) ((_ & _ & B1) & (_ & _ & B2) & (_ & _ & B3)) (_ & _ & Cc) (_ & _ & Cd) H.
  apply (f_equal la) in H. unfold figure_name in H. rewrite !la_app in H. apply app_inv_head in H. cbn [list_ascii_of_string app] in H. injection H as H.
  apply char_in_la in A1, A2, A3, B1, B2, B3, Cc, Cd.
  apply split_sep in H; try assumption. destruct H as [E1 H]. apply split_sep in H; try assumption. destruct H as [E2 H]. apply split_sep in H; try assumption. destruct H as [E3 H].
  apply split_sep in H; try assumption. destruct H as [E4 _]. apply la_inj in E1, E2, E3, E4. repeat split; assumption.
Qed.
