(** Facts about comments and options. *)
From Verif Require Import Model.Config Spec.ConfigSpec Proofs.PyFacts.

(** the code: from # to the end of the line *)
Fixpoint cut (m : bool) (s : string) : string :=
  match s with
  | EmptyString => EmptyString
  | String c s' => if Ascii.eqb c newline then String c (cut false s')
                   else if m || Ascii.eqb c "#" then cut true s' else String c (cut false s')
  end.
Lemma hd_split_cut l : char_in newline l = false -> hd "" (split_on "#" l) = cut false l /\ cut true l = "".
Proof.
  induction l as [|c l IH]; intros H; [split; reflexivity|]. cbn [char_in] in H. apply Bool.orb_false_iff in H. destruct H as [H1 H2]. destruct (IH H2) as [E1 E2].
  rewrite Ascii.eqb_sym in H1. cbn [split_on cut]. rewrite H1. cbn [orb]. split; [|exact E2]. destruct (Ascii.eqb c "#") eqn:E; [symmetry; exact E2|].
  rewrite <- E1. pose proof (split_on_nonempty "#" l) as Hne. destruct (split_on "#" l); [congruence | reflexivity].
Qed.
Lemma cut_app a s : char_in newline a = false -> forall m, cut m (a ++ String newline s) = (cut m a ++ String newline (cut false s))%string.
Proof.
  induction a as [|c a IH]; intros H m; [reflexivity|]. cbn [char_in] in H. apply Bool.orb_false_iff in H. destruct H as [H1 H2].
  rewrite Ascii.eqb_sym in H1. cbn [append cut]. rewrite H1. destruct (m || _); [apply IH, H2|]. cbn [append]. rewrite (IH H2). reflexivity.
Qed.
Lemma split_pieces c s : Forall (fun w => char_in c w = false) (split_on c s).
Proof.
  induction s as [|a s IH]; [repeat constructor|]. cbn [split_on]. destruct (Ascii.eqb a c) eqn:E; [constructor; [reflexivity | exact IH]|].
  rewrite Ascii.eqb_sym in E. destruct (split_on c s) as [|w ws]; [constructor; [cbn; rewrite E; reflexivity | constructor]|].
  inversion IH as [|? ? Hw Hws]; subst. constructor; [cbn [char_in]; rewrite E, Hw; reflexivity | exact Hws].
Qed.
Lemma strip_cut s : strip_comments s = cut false s.
Proof.
  unfold strip_comments.
  assert (forall l, Forall (fun w => char_in newline w = false) l ->
    str_join (char_str newline) (map (fun w => hd "" (split_on "#" w)) l) = cut false (str_join (char_str newline) l)) as Hl.
  { induction l as [|w l IH]; intros HF; [reflexivity|]. inversion HF as [|? ? H1 H2]; subst. destruct l as [|w2 l].
    - cbn [map str_join]. apply hd_split_cut; assumption.
    - change (map (fun w0 => hd "" (split_on "#" w0)) (w :: w2 :: l)) with (hd "" (split_on "#" w) :: map (fun w0 => hd "" (split_on "#" w0)) (w2 :: l)).
      rewrite str_join_cons by discriminate. rewrite str_join_cons by discriminate. rewrite (IH H2).
      change (char_str newline ++ str_join (char_str newline) (w2 :: l))%string with (String newline (str_join (char_str newline) (w2 :: l))).
      rewrite cut_app by assumption. rewrite (proj1 (hd_split_cut w H1)). reflexivity. }
  rewrite Hl by apply split_pieces. rewrite split_join. reflexivity.
Qed.
Lemma cut_uncomment s : forall m, hash_in_string m s = false -> cut (match m with Comment => true | _ => false end) s = uncomment m s.
Proof.
  induction s as [|c s IH]; intros m H; [reflexivity|]. cbn [hash_in_string] in H. apply Bool.orb_false_iff in H. destruct H as [H1 H2].
  specialize (IH _ H2). cbn [cut uncomment].
  destruct (Ascii.eqb_spec c newline) as [->|Hn].
  - destruct m; cbn in *; rewrite <- IH; reflexivity.
  - destruct m; cbn [next orb] in *.
    + destruct (Ascii.eqb c "#"); [exact IH|]. destruct (Ascii.eqb c """"); rewrite <- IH; reflexivity.
    + rewrite H1. destruct (Ascii.eqb c "\"); [rewrite <- IH; reflexivity|]. destruct (Ascii.eqb c """"); rewrite <- IH; reflexivity.
    + rewrite H1. rewrite <- IH. reflexivity.
    + destruct (Ascii.eqb_spec c "010") as [E|_]; [contradiction (Hn E)|]. exact IH.
Qed.

Lemma inb_spec k l : inb k l = true <-> In k l.
Proof.
  unfold inb. rewrite existsb_exists. split.
  - intros (x & Hx & E). apply String.eqb_eq in E. subst. exact Hx.
  - intros H. exists k. split; [exact H | apply String.eqb_refl].
Qed.
Lemma dget_filter {A} (f : string * A -> bool) (d : dict A) k : (forall v, f (k, v) = true) -> dget (filter f d) k = dget d k.
Proof.
  intros H. induction d as [|[j v] d IH]; [reflexivity|]. cbn [filter]. destruct (f (j, v)) eqn:E.
  - unfold dget in *. cbn. destruct (String.eqb k j); [reflexivity | exact IH].
  - rewrite IH. unfold dget. cbn. destruct (String.eqb_spec k j) as [->|]; [rewrite H in E; discriminate | reflexivity].
Qed.

Section F.
  Variable loads : string -> res json.
  Lemma fill_one kw opt kw' : fill_option loads kw opt = Ok kw' ->
    (exists w, is_value loads (dget kw opt) (default_option opt) w /\ dget kw' opt = Some w) /\ forall k, k <> opt -> dget kw' k = dget kw k.
  Proof.
    unfold fill_option. intros H. destruct (dget kw opt) as [v|] eqn:E.
    - rewrite E in H. destruct v; try (injection H as <-; split; [eexists; split; [reflexivity | exact E] | reflexivity]).
      cbn [is_value]. destruct (loads s) as [w|] eqn:El; [|discriminate H]. injection H as <-. split.
      + exists w. split; [reflexivity | apply dget_dset_eq].
      + intros k Hk. apply dget_dset_ne. congruence.
    - rewrite dget_dset_eq in H.
      assert (Ok (dset kw opt (default_option opt)) = Ok kw') as H' by (unfold default_option in *; destruct (String.eqb opt "boxbins"); exact H). injection H' as <-. split.
      + exists (default_option opt). split; [reflexivity | apply dget_dset_eq].
      + intros k Hk. apply dget_dset_ne. congruence.
  Qed.
  Lemma fill_all opts : forall kw kw', NoDup opts -> foldM (fill_option loads) opts kw = Ok kw' ->
    (forall opt, In opt opts -> exists w, is_value loads (dget kw opt) (default_option opt) w /\ dget kw' opt = Some w) /\ forall k, ~ In k opts -> dget kw' k = dget kw k.
  Proof.
    induction opts as [|o opts IH]; intros kw kw' Hd H; cbn [foldM] in H.
    - injection H as <-. split; [intros _ []|reflexivity].
    - inversion Hd as [|? ? Hn Hd']; subst. destruct (fill_option loads kw o) as [kw1|] eqn:E1; [|discriminate H]. cbn [bind] in H.
      destruct (fill_one _ _ _ E1) as [(w & Hw & Ew) Ho]. destruct (IH _ _ Hd' H) as [I1 I2]. split.
      + intros opt [<-|Hin].
        * exists w. split; [exact Hw|]. rewrite I2 by exact Hn. exact Ew.
        * destruct (I1 opt Hin) as (w' & Hw' & E'). exists w'. split; [|exact E']. rewrite Ho in Hw' by (intros ->; contradiction). exact Hw'.
      + intros k Hk. cbn in Hk. rewrite I2 by tauto. apply Ho. intros ->. tauto.
  Qed.
  Lemma set_in_spec kw opt k v kw' : set_in kw opt k v = Ok kw' ->
    (exists a b, dget kw opt = Some a /\ dget kw' opt = Some b /\ with_entry a b k v) /\ forall k', k' <> opt -> dget kw' k' = dget kw k'.
  Proof.
    unfold set_in. destruct (dget kw opt) as [j|] eqn:E; [|discriminate]. destruct j; try discriminate. cbn. intros H.
    assert (kw' = dset kw opt (JObj (dset d k v))) as -> by (cbn in H; congruence). split.
    - exists (JObj d), (JObj (dset d k v)). split; [reflexivity|]. split; [apply dget_dset_eq|]. exists d, (dset d k v).
      split; [reflexivity|]. split; [reflexivity|]. split; [apply dget_dset_eq|]. intros k' Hk. apply dget_dset_ne. congruence.
    - intros k' Hk. apply dget_dset_ne. congruence.
  Qed.
End F.
