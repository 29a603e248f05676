(** Facts about the recording of processing information and the example caches. *)
From Verif Require Import Model.Trace Model.Util Spec.UtilSpec Proofs.PyFacts.

Lemma existsb_in k l : existsb (String.eqb k) l = true <-> In k l.
Proof.
  rewrite existsb_exists. split.
  - intros (x & H & E). apply String.eqb_eq in E. now subst.
  - intros H. exists k. split; [exact H | apply String.eqb_refl].
Qed.

Lemma dget_in {A} (d : dict A) k v : NoDup (map fst d) -> In (k, v) d <-> dget d k = Some v.
Proof.
  intros N. split.
  - apply (in_aget String.eqb str_eqb_spec); exact N.
  - apply (aget_Some_in String.eqb str_eqb_spec).
Qed.
Lemma dget_none {A} (d : dict A) k : dget d k = None <-> ~ In k (map fst d).
Proof. apply (aget_None_notin String.eqb str_eqb_spec). Qed.
Lemma dmem_get {A} (d : dict A) k : dmem d k = match dget d k with Some _ => true | None => false end.
Proof. reflexivity. Qed.

Lemma position_spec k l :
  match position k l with
  | Some i => nth_error l i = Some k
  | None => ~ In k l
  end.
Proof.
  induction l as [|x xs IH]; simpl; [tauto|].
  destruct (String.eqb_spec k x) as [->|N]; [reflexivity|].
  destruct (position k xs) as [i|]; simpl.
  - exact IH.
  - intros [->|H]; [now apply N | now apply IH].
Qed.
Lemma position_nth k l i : NoDup l -> nth_error l i = Some k -> position k l = Some i.
Proof.
  revert i. induction l as [|x xs IH]; intros i N H; [destruct i; discriminate|].
  inversion N as [|? ? Hx N']; subst. simpl.
  destruct i as [|i]; simpl in H.
  - injection H as ->. now rewrite String.eqb_refl.
  - destruct (String.eqb_spec k x) as [->|Ne].
    + exfalso. apply Hx. eapply nth_error_In; exact H.
    + rewrite (IH i N' H). reflexivity.
Qed.
Lemma position_lt k l i : position k l = Some i -> i < List.length l.
Proof.
  intros H. generalize (position_spec k l). rewrite H. intros E.
  apply nth_error_Some. rewrite E. discriminate.
Qed.

Lemma dget_combine {A} (names : list string) (args : list A) k :
  dget (combine names args) k =
  match position k names with Some i => nth_error args i | None => None end.
Proof.
  revert args. induction names as [|x xs IH]; intros args; [reflexivity|].
  destruct args as [|a args].
  - simpl. destruct (String.eqb k x); [reflexivity|].
    destruct (position k xs) as [i|]; reflexivity.
  - simpl. unfold dget. simpl. destruct (String.eqb k x); [reflexivity|].
    fold (dget (combine xs args) k). rewrite IH. destruct (position k xs); reflexivity.
Qed.

Section Bind.
  Variable sig : signature.
  Let names := map fst (sig_params sig).

  Lemma bind_kw_spec (kwargs : dict pval) : NoDup (map fst kwargs) -> forall named extra : dict pval,
    match foldM (bind_kw sig) kwargs (named, extra) with
    | Ok (n', x') =>
        (forall k v, In (k, v) kwargs -> In k names -> dget named k = None) /\
        (forall k v, In (k, v) kwargs -> ~ In k names -> sig_varkw sig = true) /\
        (forall k, In k names -> dget n' k = match dget kwargs k with Some v => Some v | None => dget named k end) /\
        (forall k, ~ In k names -> dget n' k = dget named k) /\
        (forall k, ~ In k names -> dget x' k = match dget kwargs k with Some v => Some v | None => dget extra k end) /\
        (forall k, In k names -> dget x' k = dget extra k) /\
        (NoDup (map fst named) -> NoDup (map fst n')) /\
        (NoDup (map fst extra) -> NoDup (map fst x'))
    | Err e => e = TypeError /\ exists k v, In (k, v) kwargs /\
        ((In k names /\ dget named k <> None) \/ (~ In k names /\ sig_varkw sig = false))
    end.
  Proof.
    induction kwargs as [|[k v] kws IH]; intros N named extra.
    - simpl. repeat split; intros; try tauto; try contradiction.
    - inversion N as [|? ? Hk N']; subst. simpl fst in Hk.
      cbn [foldM]. unfold bind_kw at 1. fold names.
      assert (Hkk : forall k2, dget ((k, v) :: kws) k2 = if String.eqb k2 k then Some v else dget kws k2)
        by reflexivity.
      destruct (existsb (String.eqb k) names) eqn:E.
      + apply existsb_in in E. rewrite dmem_get.
        destruct (dget named k) as [u|] eqn:G.
        { simpl. split; [reflexivity|]. exists k, v. split; [now left|]. left.
          split; [exact E|]. rewrite G. discriminate. }
        cbn [bind]. specialize (IH N' (dset named k v) extra).
        destruct (foldM (bind_kw sig) kws (dset named k v, extra)) as [[n' x']|e].
        * destruct IH as (A1 & A2 & A3 & A4 & A5 & A6 & A7 & A8).
          split; [|split; [|split; [|split; [|split; [|split; [|split]]]]]].
          -- intros k2 v2 [H|H] Hn; [injection H as <- <-; exact G|].
             rewrite <- (A1 k2 v2 H Hn). symmetry. apply dget_dset_ne.
             intros ->. apply Hk. exact (in_map fst _ _ H).
          -- intros k2 v2 [H|H] Hn; [injection H as <- <-; contradiction | eapply A2; eassumption].
          -- intros k2 Hn. rewrite (A3 k2 Hn), Hkk. destruct (String.eqb_spec k2 k) as [->|Ne].
             ++ replace (dget kws k) with (@None pval) by (symmetry; now apply dget_none).
                apply dget_dset_eq.
             ++ destruct (dget kws k2); [reflexivity|]. apply dget_dset_ne. congruence.
          -- intros k2 Hn. rewrite (A4 k2 Hn). apply dget_dset_ne. intros ->. contradiction.
          -- intros k2 Hn. rewrite (A5 k2 Hn), Hkk. destruct (String.eqb_spec k2 k) as [->|Ne]; [contradiction|reflexivity].
          -- exact A6.
          -- intros H. apply A7. now apply dset_NoDup.
          -- exact A8.
        * destruct IH as (-> & k2 & v2 & H & [[Hn Hg]|H2]); (split; [reflexivity|]); exists k2, v2.
          -- split; [now right|]. left. split; [exact Hn|].
             rewrite dget_dset_ne in Hg; [exact Hg|]. intros ->. apply Hk. exact (in_map fst _ _ H).
          -- split; [now right|]. now right.
      + assert (Hn : ~ In k names) by (intros H; apply existsb_in in H; congruence).
        destruct (sig_varkw sig) eqn:V.
        2:{ simpl. split; [reflexivity|]. exists k, v. split; [now left|]. now right. }
        cbn [bind]. specialize (IH N' named (dset extra k v)).
        destruct (foldM (bind_kw sig) kws (named, dset extra k v)) as [[n' x']|e].
        * destruct IH as (A1 & A2 & A3 & A4 & A5 & A6 & A7 & A8).
          split; [|split; [|split; [|split; [|split; [|split; [|split]]]]]].
          -- intros k2 v2 [H|H] Hi; [injection H as <- <-; contradiction | eapply A1; eassumption].
          -- reflexivity.
          -- intros k2 Hi. rewrite (A3 k2 Hi), Hkk. destruct (String.eqb_spec k2 k) as [->|Ne]; [contradiction|reflexivity].
          -- exact A4.
          -- intros k2 Hi. rewrite (A5 k2 Hi), Hkk. destruct (String.eqb_spec k2 k) as [->|Ne].
             ++ replace (dget kws k) with (@None pval) by (symmetry; now apply dget_none).
                apply dget_dset_eq.
             ++ destruct (dget kws k2); [reflexivity|]. apply dget_dset_ne. congruence.
          -- intros k2 Hi. rewrite (A6 k2 Hi). apply dget_dset_ne. intros ->. contradiction.
          -- exact A7.
          -- intros H. apply A8. now apply dset_NoDup.
        * destruct IH as (-> & k2 & v2 & H & H2). split; [reflexivity|]. exists k2, v2.
          split; [now right|exact H2].
  Qed.

  Lemma bind_default_spec (ps : list (string * option pval)) : NoDup (map fst ps) -> forall named : dict pval,
    match foldM bind_default ps named with
    | Ok n' =>
        (forall k, dget n' k = match dget named k with
                               | Some v => Some v
                               | None => match dget ps k with Some d => d | None => None end
                               end) /\
        (forall k, In k (map fst ps) -> dget n' k <> None) /\
        (NoDup (map fst named) -> NoDup (map fst n'))
    | Err e => e = TypeError /\ exists k, In (k, None) ps /\ dget named k = None
    end.
  Proof.
    induction ps as [|[k d] ps IH]; intros N named.
    - simpl. split; [|split; [contradiction|tauto]]. intros k. destruct (dget named k); reflexivity.
    - inversion N as [|? ? Hk N']; subst. simpl fst in Hk.
      cbn [foldM]. unfold bind_default at 1. cbn [fst snd]. rewrite dmem_get.
      assert (Hkk : forall k2, dget ((k, d) :: ps) k2 = if String.eqb k2 k then Some d else dget ps k2)
        by reflexivity.
      destruct (dget named k) as [u|] eqn:G.
      + cbn [bind]. specialize (IH N' named).
        destruct (foldM bind_default ps named) as [n'|e].
        * destruct IH as (A1 & A2 & A3). split; [|split; [|exact A3]].
          -- intros k2. rewrite A1, Hkk. destruct (String.eqb_spec k2 k) as [->|Ne]; [|reflexivity].
             now rewrite G.
          -- intros k2 [<-|H]; [|now apply A2]. simpl. rewrite A1, G. discriminate.
        * destruct IH as (-> & k2 & H & H2). split; [reflexivity|]. exists k2. split; [now right|exact H2].
      + destruct d as [v|].
        * cbn [bind]. specialize (IH N' (dset named k v)).
          destruct (foldM bind_default ps (dset named k v)) as [n'|e].
          -- destruct IH as (A1 & A2 & A3). split; [|split].
             ++ intros k2. rewrite A1, Hkk. destruct (String.eqb_spec k2 k) as [->|Ne].
                ** now rewrite dget_dset_eq, G.
                ** rewrite dget_dset_ne by congruence. reflexivity.
             ++ intros k2 [<-|H]; [|now apply A2]. simpl. rewrite A1, dget_dset_eq. discriminate.
             ++ intros H. apply A3. now apply dset_NoDup.
          -- destruct IH as (-> & k2 & H & H2). split; [reflexivity|]. exists k2. split; [now right|].
             rewrite dget_dset_ne in H2; [exact H2|]. intros ->. apply Hk. exact (in_map fst _ _ H).
        * simpl. split; [reflexivity|]. exists k. split; [now left|exact G].
  Qed.
End Bind.

Lemma combine_NoDup {A B} (l : list A) (m : list B) : NoDup l -> NoDup (map fst (combine l m)).
Proof.
  revert m. induction l as [|x xs IH]; intros m N; [constructor|].
  destruct m as [|y ys]; [constructor|].
  inversion N as [|? ? H N']; subst. simpl. constructor; [|now apply IH].
  intros Hi. apply H. apply in_map_iff in Hi. destruct Hi as ([a b] & <- & Hi).
  eapply in_combine_l; exact Hi.
Qed.

Lemma dget_params (ps : list (string * option pval)) k i :
  position k (map fst ps) = Some i ->
  match dget ps k with Some d => d | None => None end =
  match nth_error ps i with Some (_, d) => d | None => None end.
Proof.
  revert i. induction ps as [|[x d] ps IH]; intros i H; [discriminate|].
  simpl in H. unfold dget. simpl. destruct (String.eqb k x).
  - injection H as <-. reflexivity.
  - destruct (position k (map fst ps)) as [j|] eqn:E; [|discriminate].
    injection H as <-. simpl. exact (IH j eq_refl).
Qed.

Lemma getcallargs_spec sig args (kwargs : dict pval) :
  NoDup (map fst (sig_params sig)) -> NoDup (map fst kwargs) ->
  match getcallargs sig args kwargs with
  | Ok (named, extra) =>
      fits sig args kwargs /\
      NoDup (map fst named) /\ NoDup (map fst extra) /\
      (forall k, In k (map fst (sig_params sig)) -> dget named k = effective sig args kwargs k) /\
      (forall k, ~ In k (map fst (sig_params sig)) -> dget named k = None) /\
      (forall k, ~ In k (map fst (sig_params sig)) -> dget extra k = effective sig args kwargs k) /\
      (forall k, In k (map fst (sig_params sig)) -> dget extra k = None)
  | Err e => e = TypeError /\ ~ fits sig args kwargs
  end.
Proof.
  intros Ns Nk. unfold getcallargs. set (names := map fst (sig_params sig)) in *.
  assert (Ln : List.length names = List.length (sig_params sig)) by apply map_length.
  destruct (Nat.ltb_spec (List.length (sig_params sig)) (List.length args)) as [L|L].
  { split; [reflexivity|]. intros (H & _). fold names in H. lia. }
  generalize (bind_kw_spec sig kwargs Nk (combine names args) []). fold names.
  cbv zeta.
  destruct (foldM (bind_kw sig) kwargs (combine names args : dict pval, [] : dict pval)) as [[n1 x1]|e]; cbn [bind].
  2:{ intros (-> & k & v & Hi & H). split; [reflexivity|]. intros (F1 & F2 & F3 & F4).
      fold names in F1, F2, F3, F4.
      apply (dget_in _ _ _ Nk) in Hi.
      destruct H as [[Hn Hg]|[Hn Hv]].
      - rewrite dget_combine in Hg. generalize (position_spec k names).
        destruct (position k names) as [i|] eqn:P; [|now elim Hg].
        intros Hi2. destruct (nth_error args i) eqn:Ga; [|now elim Hg].
        assert (i < List.length args) by (apply nth_error_Some; congruence).
        rewrite (F2 i k Hi2 H) in Hi. discriminate.
      - apply Hn. eapply F3; eassumption. }
  intros (A1 & A2 & A3 & A4 & A5 & A6 & A7 & A8).
  generalize (bind_default_spec (sig_params sig) Ns n1). fold names.
  assert (Hd : forall k, In k names -> dget n1 k =
            match position k names with
            | Some i => match nth_error args i with Some v => Some v | None => dget kwargs k end
            | None => None end).
  { intros k Hn. rewrite (A3 k Hn), dget_combine.
    generalize (position_spec k names). destruct (position k names) as [i|] eqn:P; [|tauto].
    intros Hi. destruct (dget kwargs k) as [v|] eqn:G.
    - apply (dget_in _ _ _ Nk) in G. generalize (A1 k v G Hn).
      rewrite dget_combine, P. intros ->. reflexivity.
    - destruct (nth_error args i); reflexivity. }
  assert (Hall : forall k, In k names ->
            match dget n1 k with
            | Some v => Some v
            | None => match dget (sig_params sig) k with Some d => d | None => None end
            end = effective sig args kwargs k).
  { intros k Hn. rewrite (Hd k Hn). unfold effective. fold names.
    generalize (position_spec k names). destruct (position k names) as [i|] eqn:P; [|tauto].
    intros Hi. destruct (nth_error args i); [reflexivity|].
    destruct (dget kwargs k); [reflexivity|]. apply dget_params. exact P. }
  destruct (foldM bind_default (sig_params sig) n1) as [n2|e].
  - intros (B1 & B2 & B3). cbn [bind]. repeat split.
    + fold names. lia.
    + fold names. intros i k Hi Hl. destruct (dget kwargs k) as [v|] eqn:G; [|reflexivity].
      apply (dget_in _ _ _ Nk) in G.
      assert (Hn : In k names) by (eapply nth_error_In; exact Hi).
      generalize (A1 k v G Hn). rewrite dget_combine, (position_nth k names i Ns Hi).
      intros H. apply nth_error_None in H. lia.
    + fold names. intros Hv k v G. destruct (in_dec string_dec k names) as [H|H]; [exact H|].
      apply (dget_in _ _ _ Nk) in G. rewrite (A2 k v G H) in Hv. discriminate.
    + fold names. intros k Hn. rewrite <- (Hall k Hn), <- B1. now apply B2.
    + apply B3, A7, combine_NoDup, Ns.
    + apply A8. constructor.
    + intros k Hn. rewrite B1. now apply Hall.
    + intros k Hn. rewrite B1, (A4 k Hn), dget_combine.
      generalize (position_spec k names). destruct (position k names) as [i|] eqn:P.
      * intros Hi. elim Hn. eapply nth_error_In; exact Hi.
      * intros _. replace (dget (sig_params sig) k) with (@None (option pval)); [reflexivity|].
        symmetry. now apply dget_none.
    + intros k Hn. rewrite (A5 k Hn). unfold effective. fold names.
      generalize (position_spec k names). destruct (position k names) as [i|] eqn:P.
      * intros Hi. elim Hn. eapply nth_error_In; exact Hi.
      * intros _. destruct (dget kwargs k); reflexivity.
    + intros k Hn. rewrite (A6 k Hn). reflexivity.
  - intros (-> & k & Hi & G). cbn [bind]. split; [reflexivity|]. intros (_ & _ & _ & F4).
    fold names in F4. assert (Hn : In k names) by exact (in_map fst _ _ Hi).
    apply (F4 k Hn). rewrite <- (Hall k Hn), G.
    apply (dget_in (sig_params sig) k None Ns) in Hi. now rewrite Hi.
Qed.

Lemma ddel_NoDup {A} (d : dict A) k : NoDup (map fst d) -> NoDup (map fst (ddel d k)).
Proof.
  intros N. induction d as [|[k2 v] d IH]; [constructor|].
  inversion N as [|? ? H N']; subst. unfold ddel. simpl.
  destruct (String.eqb k k2); [exact N'|]. simpl. constructor; [|exact (IH N')].
  intros Hi. apply H. clear -Hi. simpl. induction d as [|[k3 v3] d IH]; [contradiction|].
  simpl in Hi. destruct (String.eqb k k3); simpl in *; tauto.
Qed.
Lemma dget_ddel {A} (d : dict A) k k2 :
  NoDup (map fst d) -> dget (ddel d k) k2 = if String.eqb k2 k then None else dget d k2.
Proof.
  intros N. destruct (String.eqb_spec k2 k) as [->|Ne].
  - now apply dget_ddel_eq.
  - apply dget_ddel_ne. congruence.
Qed.
Lemma dupdate_NoDup {A} (u d : dict A) : NoDup (map fst d) -> NoDup (map fst (dupdate d u)).
Proof.
  revert d. induction u as [|[k v] u IH]; intros d N; [exact N|].
  unfold dupdate, aupdate. simpl. apply IH. now apply dset_NoDup.
Qed.


Lemma info_args_spec sig args kwargs first named extra :
  NoDup (map fst (sig_params sig)) -> NoDup (map fst kwargs) ->
  first_param sig first -> effective sig args kwargs first = Some PStream ->
  getcallargs sig args kwargs = Ok (named, extra) ->
  match info_args named extra with
  | Ok kw =>
      NoDup (map fst kw) /\
      forall k, dget kw k = reported first (effective sig args kwargs) k
  | Err e =>
      match effective sig args kwargs "boxes" with
      | Some (PBoxes (b :: _)) =>
          e = KeyError /\ (dget b "latlon" = None \/ dget b "azimuth" = None \/ dget b "length" = None)
      | Some (PBoxes []) | None | Some PNone | Some (PStr "") => False
      | Some _ => e = TypeError
      end
  end.
Proof.
  intros Ns Nk (Hf1 & Hf2) Hs Hg.
  generalize (getcallargs_spec sig args kwargs Ns Nk). rewrite Hg.
  intros (_ & Nn & Nx & E1 & E2 & E3 & E4).
  set (names := map fst (sig_params sig)) in *.
  set (f := effective sig args kwargs) in *.
  assert (Hfirst : dget named first = Some PStream) by (rewrite E1 by exact Hf1; exact Hs).
  (* named after removing the stream *)
  assert (Hrem : exists n2,
     (match dget named "self" with
     | None | Some PNone =>
         let! _ := dgetE (ddel named "self") "stream" in Ok (ddel (ddel named "self") "stream")
     | Some _ => Ok (ddel named "self")
     end) = Ok n2 /\ NoDup (map fst n2) /\
     forall k, dget n2 k = if String.eqb k first then None else dget named k).
  { destruct Hf2 as [->|[-> Hself]].
    - rewrite Hfirst. exists (ddel named "self"). split; [reflexivity|].
      split; [now apply ddel_NoDup|]. intros k. now apply dget_ddel.
    - rewrite (E2 "self" Hself).
      assert (Hd : forall k, dget (ddel named "self") k = dget named k).
      { intros k. rewrite dget_ddel by exact Nn. destruct (String.eqb_spec k "self") as [->|]; [|reflexivity].
        symmetry. now apply E2. }
      unfold dgetE. rewrite Hd, Hfirst. cbn [bind].
      exists (ddel (ddel named "self") "stream"). split; [reflexivity|].
      split; [now apply ddel_NoDup, ddel_NoDup|].
      intros k. rewrite dget_ddel by now apply ddel_NoDup. now rewrite Hd. }
  destruct Hrem as (n2 & Hr & Nn2 & Hn2). unfold info_args. rewrite Hr. cbn [bind]. clear Hr.
  assert (Hkw : forall k, dget (dupdate extra n2) k = if String.eqb k first then None else f k).
  { intros k. rewrite dupdate_get by exact Nn2. rewrite Hn2.
    destruct (String.eqb_spec k first) as [->|Ne].
    - now apply E4.
    - destruct (in_dec string_dec k names) as [H|H].
      + rewrite (E1 k H). fold f. destruct (f k) eqn:Fk; [reflexivity|].
        rewrite (E4 k H). reflexivity.
      + rewrite (E2 k H), (E3 k H). reflexivity. }
  assert (Nkw : NoDup (map fst (dupdate extra n2))) by now apply dupdate_NoDup.
  set (kw := dupdate extra n2) in *.
  assert (Hfb : String.eqb "boxes" first = false) by (destruct Hf2 as [->|[-> _]]; reflexivity).
  rewrite (Hkw "boxes"), Hfb.
  assert (Hdel : forall k, dget (ddel kw "boxes") k =
             if String.eqb k first then None else if String.eqb k "boxes" then None else f k).
  { intros k. rewrite dget_ddel by exact Nkw. rewrite Hkw.
    destruct (String.eqb k "boxes"), (String.eqb k first); reflexivity. }
  assert (Ndel : NoDup (map fst (ddel kw "boxes"))) by now apply ddel_NoDup.
  assert (Hplain : (match f "boxes" with Some (PBoxes (_ :: _)) => False | _ => True end) ->
            forall k, dget (ddel kw "boxes") k = reported first f k).
  { intros H k. rewrite Hdel. unfold reported.
    destruct (String.eqb k first); [reflexivity|]. destruct (String.eqb k "boxes"); [reflexivity|].
    destruct (f "boxes") as [[| | | |[|b bs]]|]; try reflexivity. contradiction. }
  destruct (f "boxes") as [[|s|r| |[|b bs]]|] eqn:B;
    try (split; [exact Ndel | apply Hplain; exact I]); try reflexivity.
  - destruct s; [split; [exact Ndel | apply Hplain; exact I] | reflexivity].
  - unfold dgetE. destruct (dget b "latlon") as [x|] eqn:Bx; cbn [bind]; [|tauto].
    destruct (dget b "azimuth") as [y|] eqn:By; cbn [bind]; [|tauto].
    destruct (dget b "length") as [z|] eqn:Bz; cbn [bind]; [|tauto].
    split; [now repeat apply dset_NoDup|].
    intros k. rewrite !dget_dset, Hdel. unfold reported. rewrite B.
    cbn [existsb].
    assert (Fl : String.eqb "latlon" first = false /\ String.eqb "azimuth" first = false /\
                 String.eqb "length" first = false)
      by (destruct Hf2 as [->|[-> _]]; repeat split).
    destruct Fl as (F1 & F2 & F3).
    destruct (String.eqb_spec k "length") as [->|N3].
    { rewrite F3, Bz. reflexivity. }
    destruct (String.eqb_spec k "azimuth") as [->|N2].
    { rewrite F2, By. reflexivity. }
    destruct (String.eqb_spec k "latlon") as [->|N1].
    { rewrite F1, Bx. reflexivity. }
    replace (String.eqb "length" k) with false by (symmetry; apply String.eqb_neq; congruence).
    replace (String.eqb "azimuth" k) with false by (symmetry; apply String.eqb_neq; congruence).
    replace (String.eqb "latlon" k) with false by (symmetry; apply String.eqb_neq; congruence).
    reflexivity.
Qed.

Definition render (kv : string * pval) : string :=
  (fst kv ++ "=" ++ match snd kv with PStr s => "'" ++ s ++ "'" | v => ptext v end)%string.

Lemma info_text_entry version function kw rep :
  NoDup (map fst kw) -> (forall k, dget kw k = rep k) ->
  is_entry version function rep (info_text version function kw).
Proof.
  intros N H. exists kw, (sort String.leb (map render kw)). repeat split.
  - exact N.
  - intros Hi. rewrite <- H. now apply dget_in.
  - intros Hr. apply dget_in; [exact N|]. now rewrite H.
  - apply sort_perm.
  - apply sort_sorted; [apply String.leb_total | intros a b c; apply str_leb_trans].
Qed.

Lemma is_entry_unique version function rep rep' e e' :
  (forall k, rep k = rep' k) ->
  is_entry version function rep e -> is_entry version function rep' e' -> e = e'.
Proof.
  intros H (a & t & N & I & P & S & ->) (a' & t' & N' & I' & P' & S' & ->).
  assert (Pa : Permutation a a').
  { apply NoDup_Permutation; [eapply NoDup_map_inv; exact N | eapply NoDup_map_inv; exact N'|].
    intros [k v]. rewrite I, I', H. tauto. }
  assert (Pt : Permutation t t').
  { rewrite P, P'. now apply Permutation_map. }
  replace t' with t; [reflexivity|].
  eapply sorted_perm_eq; [| exact S | exact S' | exact Pt].
  intros x y. apply String.leb_antisym.
Qed.

(** ** adding the entry *)
Lemma add_all_spec info s :
  (forall t, In t s -> processing t <> None) ->
  Forall2 (fun t t' => same_but_processing t t' /\
     exists l, processing t = Some l /\
       processing t' = Some (if Nat.ltb (List.length l) 100 then l ++ [info] else l))
    s (add_all info s).
Proof.
  induction s as [|t ts IH]; intros H; [constructor|].
  cbn [add_all].
  assert (Hp : exists t', add_processing info t = Ok t' /\ same_but_processing t t' /\
     exists l, processing t = Some l /\
       processing t' = Some (if Nat.ltb (List.length l) 100 then l ++ [info] else l)).
  { generalize (H t (or_introl eq_refl)). unfold processing at 1, add_processing.
    destruct (dget (extra (st t)) "processing") as [[| | |l|]|] eqn:E; try tauto; intros _.
    - destruct (Nat.ltb (List.length l) 100) eqn:L.
      + eexists. split; [reflexivity|]. split.
        * repeat split. intros k Hk. simpl. apply dget_dset_ne. congruence.
        * exists l. unfold processing. rewrite E. split; [reflexivity|].
          cbn [set_extra st extra]. rewrite dget_dset_eq, L. reflexivity.
      + exists t. split; [reflexivity|]. split; [repeat split|].
        exists l. unfold processing. rewrite E, L. tauto.
    - eexists. split; [reflexivity|]. split.
      + repeat split. intros k Hk. simpl. apply dget_dset_ne. congruence.
      + exists []. unfold processing. rewrite E. split; [reflexivity|].
        cbn [set_extra st extra]. rewrite dget_dset_eq. reflexivity. }
  destruct Hp as (t' & -> & H1 & H2). constructor; [tauto|].
  apply IH. intros u Hu. apply H. now right.
Qed.

(** ** caches *)
Section Cache.
  Context {stream : Type} (compute : string -> res stream).
  Notation world := (@world stream).

  Definition good (w : world) : Prop :=
    (forall a, In a (handed w) -> a < List.length (heap w)) /\
    (forall k a, dget (cache w) k = Some a ->
       ~ In a (handed w) /\ exists s, compute k = Ok s /\ nth_error (heap w) a = Some s).

  Lemma nth_error_snoc {A} (l : list A) x : nth_error (l ++ [x]) (List.length l) = Some x.
  Proof. rewrite nth_error_app2, Nat.sub_diag; [reflexivity | lia]. Qed.
  Lemma nth_error_pre {A} (l m : list A) a x : nth_error l a = Some x -> nth_error (l ++ m) a = Some x.
  Proof. intros H. rewrite nth_error_app1; [exact H|]. apply nth_error_Some. congruence. Qed.
  Lemma nth_error_set {A} (l : list A) a b x : a <> b -> nth_error (set_nth a x l) b = nth_error l b.
  Proof.
    revert a b. induction l as [|y ys IH]; intros a b H; [destruct a; reflexivity|].
    destruct a, b; simpl; try reflexivity; [congruence|]. apply IH. congruence.
  Qed.
  Lemma set_nth_length {A} (l : list A) a x : List.length (set_nth a x l) = List.length l.
  Proof. revert a. induction l as [|y ys IH]; intros [|a]; simpl; congruence. Qed.

  Lemma call_good k w : good w ->
    match example_call compute k w with
    | Ok (w', b) =>
        good w' /\ (exists s, compute k = Ok s /\ nth_error (heap w') b = Some s) /\
        List.length (heap w) <= b /\ In b (handed w') /\
        (forall a, a < List.length (heap w) -> nth_error (heap w') a = nth_error (heap w) a)
    | Err e => compute k = Err e
    end.
  Proof.
    intros (G1 & G2). unfold example_call.
    destruct (dget (cache w) k) as [a|] eqn:E.
    - destruct (G2 k a E) as (Ha & s & Hs & Hn). unfold copy_of. rewrite Hn.
      assert (La : a < List.length (heap w)) by (apply nth_error_Some; congruence).
      split; [split|split; [|split; [|split]]]; simpl.
      + intros b Hb. rewrite app_length. simpl. apply in_app_iff in Hb.
        destruct Hb as [Hb|[<-|[]]]; [apply G1 in Hb; lia | lia].
      + intros k2 a2 H2. destruct (G2 k2 a2 H2) as (Ha2 & s2 & Hs2 & Hn2). split.
        * intros Hi. apply in_app_iff in Hi. destruct Hi as [Hi|[<-|[]]]; [tauto|].
          assert (List.length (heap w) < List.length (heap w)) by (apply nth_error_Some; congruence). lia.
        * exists s2. split; [exact Hs2|]. now apply nth_error_pre.
      + exists s. split; [exact Hs|]. apply nth_error_snoc.
      + lia.
      + apply in_app_iff. right. now left.
      + intros b Hb. now apply nth_error_app1.
    - destruct (compute k) as [s|e] eqn:C; cbn [bind]; [|reflexivity].
      unfold copy_of. cbn [heap cache handed]. rewrite nth_error_snoc.
      split; [split|split; [|split; [|split]]]; simpl.
      + intros b Hb. rewrite !app_length. simpl. apply in_app_iff in Hb.
        destruct Hb as [Hb|[<-|[]]]; [apply G1 in Hb; lia | rewrite app_length; simpl; lia].
      + intros k2 a2 H2. rewrite dget_dset in H2.
        destruct (String.eqb_spec k2 k) as [->|Ne].
        * rewrite ?String.eqb_refl in H2. injection H2 as <-. split.
          -- intros Hi. apply in_app_iff in Hi. destruct Hi as [Hi|[Hi|[]]]; [apply G1 in Hi; lia|].
             rewrite app_length in Hi. simpl in Hi. lia.
          -- exists s. split; [exact C|]. apply nth_error_pre, nth_error_snoc.
        * assert (H3 : dget (cache w) k2 = Some a2).
          { destruct (String.eqb_spec k k2) in H2; [congruence|exact H2]. }
          destruct (G2 k2 a2 H3) as (Ha2 & s2 & Hs2 & Hn2). split.
          -- intros Hi. apply in_app_iff in Hi. destruct Hi as [Hi|[Hi|[]]]; [tauto|].
             rewrite app_length in Hi. simpl in Hi.
             assert (a2 < List.length (heap w)) by (apply nth_error_Some; congruence). lia.
          -- exists s2. split; [exact Hs2|]. now apply nth_error_pre, nth_error_pre.
      + exists s. split; [reflexivity|]. apply nth_error_snoc.
      + rewrite app_length. simpl. lia.
      + apply in_app_iff. right. now left.
      + intros b Hb. rewrite nth_error_app1 by (rewrite app_length; simpl; lia).
        now apply nth_error_app1.
  Qed.

  Lemma act_good w a : good w -> good (act compute w a).
  Proof.
    intros G. destruct a as [| |i s|s]; cbn [act].
    - generalize (call_good "minimal_example_rf" w G). unfold minimal_example_rf.
      destruct (example_call compute "minimal_example_rf" w) as [[w' b]|e]; tauto.
    - generalize (call_good "minimal_example_Srf" w G). unfold minimal_example_Srf.
      destruct (example_call compute "minimal_example_Srf" w) as [[w' b]|e]; tauto.
    - destruct (nth_error (handed w) i) as [a|] eqn:E; [|exact G].
      destruct G as (G1 & G2). apply nth_error_In in E. split; simpl.
      + intros b Hb. rewrite set_nth_length. now apply G1.
      + intros k b Hb. destruct (G2 k b Hb) as (H1 & s2 & H2 & H3). split; [exact H1|].
        exists s2. split; [exact H2|]. rewrite nth_error_set; [exact H3|]. intros ->. contradiction.
    - destruct G as (G1 & G2). split; simpl.
      + intros b Hb. rewrite app_length. simpl. apply in_app_iff in Hb.
        destruct Hb as [Hb|[<-|[]]]; [apply G1 in Hb; lia | lia].
      + intros k b Hb. destruct (G2 k b Hb) as (H1 & s2 & H2 & H3).
        assert (b < List.length (heap w)) by (apply nth_error_Some; congruence). split.
        * intros Hi. apply in_app_iff in Hi. destruct Hi as [Hi|[<-|[]]]; [tauto|lia].
        * exists s2. split; [exact H2|]. now apply nth_error_pre.
  Qed.

  Lemma run_good l : good (run compute l).
  Proof.
    unfold run. assert (G : good start) by (split; [intros a []|discriminate]).
    revert G. generalize (@start stream). induction l as [|a l IH]; intros w G; [exact G|].
    simpl. apply IH, act_good, G.
  Qed.
End Cache.
