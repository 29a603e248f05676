From Verif Require Import Model.Headers Spec.HeaderSpec Proofs.PyFacts Proofs.HeaderFacts.

Lemma ddel_absent {A} (d : dict A) k : dget d k = None -> ddel d k = d.
Proof.
  unfold dget, ddel. induction d as [|[k' v'] d IH]; simpl; [reflexivity|].
  destruct (String.eqb k k') eqn:E; [discriminate|]. intros H. f_equal. apply IH, H.
Qed.

Definition is_comment (fh : string) : bool := String.eqb fh "COMMENT".
Definition plain (l : list (string * string)) : list string :=
  map snd (filter (fun p => negb (is_comment (snd p))) l).

Section ShWrite.
  Variable main : dict value.
  Lemma sh_write_loop l comment sh :
    NoDup (map fst l) -> NoDup (plain l) -> NoDup (map fst comment) ->
    exists c' sh', fold_left (write_sh_step main) l (comment, sh) = (c', sh') /\
      (forall h fh, In (h, fh) l -> fh <> "COMMENT" ->
         dget sh' fh = match dget main h with Some v => Some (FV v) | None => dget sh fh end) /\
      (forall k, ~ In k (plain l) -> dget sh' k = dget sh k) /\
      (forall h, In (h, "COMMENT") l -> dget c' h = match dget main h with Some v => Some v | None => dget comment h end) /\
      (forall h, ~ In (h, "COMMENT") l -> dget c' h = dget comment h) /\
      NoDup (map fst c').
  Proof.
    revert comment sh. induction l as [|[h fh] l IH]; intros comment sh Hf Hp Hc; cbn [fold_left].
    - exists comment, sh. split; [reflexivity|]. split; [intros ? ? []|]. split; [reflexivity|].
      split; [intros ? []|]. split; [reflexivity | exact Hc].
    - cbn [map fst] in Hf. inversion Hf as [|? ? Hn Hf']; subst.
      unfold plain in Hp. cbn [filter snd] in Hp. unfold is_comment in Hp at 1.
      destruct (String.eqb_spec fh "COMMENT") as [->|Hne].
      + cbn [negb] in Hp. fold (plain l) in Hp.
        assert (forall h2, In (h2, "COMMENT") l -> h <> h2) as Hne.
        { intros h2 Hin ->. apply Hn. apply in_map_iff. exists (h2, "COMMENT"). auto. }
        cbn [write_sh_step]. change (String.eqb "COMMENT" "COMMENT") with true. cbv iota.
        destruct (dget main h) as [v|] eqn:E.
        * destruct (IH (dset comment h v) sh Hf' Hp (dset_NoDup _ _ _ Hc)) as (c' & sh' & H0 & H1 & H2 & H3 & H4 & H5).
          exists c', sh'. split; [exact H0|]. split; [|split; [|split; [|split]]].
          -- intros h2 fh2 [H|H] Hc2; [inversion H; congruence | apply H1; assumption].
          -- intros k Hk. apply H2. unfold plain in Hk |- *. cbn [filter snd] in Hk.
             change (is_comment "COMMENT") with true in Hk. exact Hk.
          -- intros h2 [H|H].
             ++ inversion H; subst h2. rewrite E. rewrite H4; [apply dget_dset_eq|].
                intros Hin. apply (Hne h Hin). reflexivity.
             ++ rewrite H3 by exact H. destruct (dget main h2); [reflexivity|]. apply dget_dset_ne, Hne, H.
          -- intros h2 H. rewrite H4 by (intros H'; apply H; right; exact H').
             apply dget_dset_ne. intros ->. apply H. left; reflexivity.
          -- exact H5.
        * destruct (IH comment sh Hf' Hp Hc) as (c' & sh' & H0 & H1 & H2 & H3 & H4 & H5).
          exists c', sh'. split; [exact H0|]. split; [|split; [|split; [|split]]].
          -- intros h2 fh2 [H|H] Hc2; [inversion H; congruence | apply H1; assumption].
          -- intros k Hk. apply H2. unfold plain in Hk |- *. cbn [filter snd] in Hk.
             change (is_comment "COMMENT") with true in Hk. exact Hk.
          -- intros h2 [H|H]; [|apply H3, H]. inversion H; subst h2. rewrite E. apply H4.
             intros Hin. apply (Hne h Hin). reflexivity.
          -- intros h2 H. apply H4. intros H'; apply H; right; exact H'.
          -- exact H5.
      + cbn [negb map snd] in Hp. fold (plain l) in Hp. inversion Hp as [|? ? Hnp Hp']; subst.
        assert (plain ((h, fh) :: l) = fh :: plain l) as Epl.
        { unfold plain. cbn [filter snd]. unfold is_comment at 1. destruct (String.eqb_spec fh "COMMENT"); [contradiction|reflexivity]. }
        assert (forall h2 fh2, In (h2, fh2) l -> fh2 <> "COMMENT" -> fh <> fh2) as Hfne.
        { intros h2 fh2 Hin Hc2 ->. apply Hnp. unfold plain. apply in_map_iff. exists (h2, fh2).
          split; [reflexivity|]. apply filter_In. split; [exact Hin|]. unfold is_comment. simpl.
          destruct (String.eqb_spec fh2 "COMMENT"); [contradiction | reflexivity]. }
        assert (exists sh1, dget sh1 fh = match dget main h with Some v => Some (FV v) | None => dget sh fh end /\
                  (forall k, k <> fh -> dget sh1 k = dget sh k) /\
                  write_sh_step main (comment, sh) (h, fh) = (comment, sh1))
          as (sh1 & Hs1 & Hs2 & ->).
        { unfold write_sh_step. destruct (String.eqb_spec fh "COMMENT"); [contradiction|]. destruct (dget main h) as [v|].
          - exists (dset sh fh (FV v)). split; [apply dget_dset_eq|]. split; [|reflexivity].
            intros k Hk. apply dget_dset_ne. congruence.
          - exists sh. auto. }
        destruct (IH comment sh1 Hf' Hp' Hc) as (c' & sh' & H0 & H1 & H2 & H3 & H4 & H5).
        exists c', sh'. split; [exact H0|]. split; [|split; [|split; [|split]]].
        * intros h2 fh2 [H|H] Hc2.
          -- inversion H; subst. rewrite H2 by exact Hnp. exact Hs1.
          -- rewrite (H1 h2 fh2 H Hc2). destruct (dget main h2); [reflexivity|].
             apply Hs2. intros ->. exact (Hfne _ _ H Hc2 eq_refl).
        * intros k Hk. rewrite Epl in Hk. rewrite H2 by (intros H; apply Hk; right; exact H).
          apply Hs2. intros ->. apply Hk. left; reflexivity.
        * intros h2 [H|H]; [inversion H; congruence | apply H3, H].
        * intros h2 H. apply H4. intros H'; apply H; right; exact H'.
        * exact H5.
  Qed.
End ShWrite.

Section ShRead.
  Variable target : string -> option value.
  Variable sh : dict fval.
  (** what the sub-dictionary contains: for plain fields the target of the entry,
      for COMMENT nothing, or a JSON object holding the target on comment heads *)
  Lemma sh_read_loop l m0 :
    (forall h fh, In (h, fh) l -> fh <> "COMMENT" -> dget sh fh = option_map FV (target h)) ->
    (dget sh "COMMENT" = None /\ (forall h, In (h, "COMMENT") l -> target h = None) \/
     exists c, dget sh "COMMENT" = Some (FJson c) /\ NoDup (map fst c) /\
       (forall h v, dget c h = Some v -> target h = Some v) /\
       (forall h, In (h, "COMMENT") l -> dget c h = target h)) ->
    (forall h v, dget m0 h = Some v -> target h = Some v) ->
    exists m, foldM (read_sh_step sh) l m0 = Ok m /\
      (forall h v, dget m h = Some v -> target h = Some v) /\
      (forall h v, dget m0 h = Some v -> dget m h = Some v) /\
      (forall h, In h (map fst l) -> dget m h = target h).
  Proof.
    revert m0. induction l as [|[h fh] l IH]; intros m0 Hpl Hcom Hs; cbn [foldM].
    - exists m0. split; [reflexivity|]. split; [exact Hs|]. split; [auto | intros ? []].
    - assert (exists m1, read_sh_step sh m0 (h, fh) = Ok m1 /\
        (forall h v, dget m1 h = Some v -> target h = Some v) /\
        (forall h v, dget m0 h = Some v -> dget m1 h = Some v) /\
        (forall v, target h = Some v -> dget m1 h = Some v)) as (m1 & Hm1 & Hsound & Hkeep & Hset).
      { unfold read_sh_step. destruct (String.eqb_spec fh "COMMENT") as [->|Hne].
        - destruct Hcom as [[Hc0 Hc1]|(c & Hc0 & Hc1 & Hc2 & Hc3)]; rewrite Hc0.
          + exists m0. split; [reflexivity|]. split; [exact Hs|]. split; [auto|].
            intros v Hv. rewrite (Hc1 h (or_introl eq_refl)) in Hv. discriminate.
          + exists (dupdate m0 c). split; [reflexivity|]. split; [|split].
            * intros h2 v. rewrite dupdate_get by exact Hc1. destruct (dget c h2) eqn:E; intros H.
              -- apply Hc2. rewrite E. exact H.
              -- apply Hs, H.
            * intros h2 v Hv. rewrite dupdate_get by exact Hc1. destruct (dget c h2) eqn:E; [|exact Hv].
              apply Hc2 in E. apply Hs in Hv. congruence.
            * intros v Hv. rewrite dupdate_get by exact Hc1. rewrite (Hc3 h (or_introl eq_refl)), Hv. reflexivity.
        - rewrite (Hpl h fh (or_introl eq_refl) Hne). destruct (target h) as [v|] eqn:E; cbn [option_map].
          + exists (dset m0 h v). split; [reflexivity|]. split; [|split].
            * intros h2 v2. rewrite dget_dset. destruct (String.eqb_spec h h2); [subst; congruence | apply Hs].
            * intros h2 v2 H. rewrite dget_dset. destruct (String.eqb_spec h h2); [|exact H].
              subst. apply Hs in H. congruence.
            * intros v2 H. rewrite dget_dset_eq. congruence.
          + exists m0. split; [reflexivity|]. split; [exact Hs|]. split; [auto | discriminate]. }
      rewrite Hm1. cbn [bind].
      destruct (IH m1) as (m & H1 & H2 & H3 & H4).
      { intros h2 fh2 H. apply Hpl. right; exact H. }
      { destruct Hcom as [[Hc0 Hc1]|(c & Hc0 & Hc1 & Hc2 & Hc3)].
        - left. split; [exact Hc0|]. intros h2 H. apply Hc1. right; exact H.
        - right. exists c. repeat split; auto. intros h2 H. apply Hc3. right; exact H. }
      { exact Hsound. }
      exists m. split; [exact H1|]. split; [exact H2|]. split; [intros; apply H3, Hkeep; assumption|].
      intros h2 [<-|H]; [|apply H4, H]. cbn [fst].
      destruct (target h) as [v|] eqn:E; [apply H3, Hset; reflexivity|].
      destruct (dget m h) as [v|] eqn:F; [|reflexivity]. apply H2 in F. congruence.
  Qed.
End ShRead.

Lemma documented_dec h : {In h documented} + {~ In h documented}.
Proof. apply in_dec, string_dec. Defined.
Lemma comment_dec h : {In h documented_comment} + {~ In h documented_comment}.
Proof. apply in_dec, string_dec. Defined.

Lemma comment_heads h : In (h, "COMMENT") sh_map <-> In h documented_comment.
Proof.
  unfold sh_map, documented_comment. simpl. split; intros H.
  - repeat (destruct H as [H|H]; [inversion H; subst; tauto|]); contradiction.
  - repeat (destruct H as [H|H]; [subst; tauto|]); contradiction.
Qed.
Lemma sh_map_fst : map fst sh_map = documented. Proof. reflexivity. Qed.
Lemma sh_map_unique h fh : In (h, fh) sh_map -> fh <> "COMMENT" -> In h documented /\ ~ In h documented_comment.
Proof.
  unfold sh_map, documented, documented_comment. simpl. intros H Hne.
  repeat (destruct H as [H|H]; [inversion H; subst; clear H; try congruence; (split; [tauto | intuition discriminate])|]); contradiction.
Qed.

Lemma count_char_app c a b : count_char c (a ++ b)%string = count_char c a + count_char c b.
Proof. induction a as [|x a IH]; simpl; [reflexivity|]. rewrite IH. lia. Qed.
Lemma h_id_dots s : 1 <? count_char "." (h_id s) = true.
Proof. apply Nat.ltb_lt. unfold h_id. rewrite !count_char_app. simpl. lia. Qed.
Lemma h_id_split s : char_in "." (h_net s) = false -> char_in "." (h_sta s) = false -> 
  split_on "." (h_id s) = h_net s :: h_sta s :: split_on "." (h_loc s ++ "." ++ h_cha s)%string.
Proof.
  intros H1 H2. unfold h_id.
  change (h_net s ++ "." ++ h_sta s ++ "." ++ h_loc s ++ "." ++ h_cha s)%string
    with (h_net s ++ String "." (h_sta s ++ String "." (h_loc s ++ "." ++ h_cha s)))%string.
  rewrite !split_on_sep by assumption. reflexivity.
Qed.
Lemma h_id_split3 s : char_in "." (h_net s) = false -> char_in "." (h_sta s) = false -> char_in "." (h_loc s) = false ->
  split_on "." (h_id s) = h_net s :: h_sta s :: h_loc s :: split_on "." (h_cha s).
Proof.
  intros H1 H2 H3. rewrite h_id_split by assumption.
  change (h_loc s ++ "." ++ h_cha s)%string with (h_loc s ++ String "." (h_cha s))%string.
  rewrite split_on_sep by assumption. reflexivity.
Qed.

(** what is restored *)
Definition q_target (compat : bool) (s : hst) (h : string) : option value :=
  if documented_dec h then
    if compat && (if comment_dec h then true else false) then None else dget (h_main s) h
  else None.

Theorem q_roundtrip str_of compat s :
  no_sh_entries s ->
  (forall h v, In h documented_comment -> dget (h_main s) h = Some v -> match v with VTime _ => False | _ => True end) ->
  char_in "." (h_net s) = false -> char_in "." (h_sta s) = false -> char_in "." (h_loc s) = false ->
  exists s1 s2, write_header "Q" compat s = Ok s1 /\
    h_id s1 = h_id s /\
    rftrace_init str_of (file_roundtrip "Q" (with_codes s1 (h_net s1) (h_id s1) (h_loc s1))) = Ok s2 /\
    (forall h, dget (h_main s2) h = q_target compat s h) /\
    h_net s2 = h_net s /\ h_sta s2 = h_sta s /\ h_loc s2 = h_loc s /\ h_cha s2 = h_cha s /\
    h_main s1 = h_main s.
Proof.
  intros Hfresh Hjson Hn Hst Hl.
  set (sh0 := match h_sh s with Some d => d | None => [] end).
  assert (forall k, In k sh_headers -> dget sh0 k = None) as Hold.
  { intros k Hk. unfold sh0. destruct (h_sh s) as [d|] eqn:E; [apply (Hfresh d E k Hk) | reflexivity]. }
  destruct (sh_write_loop (h_main s) sh_map [] sh0) as (c & sh & H0 & H1 & H2 & H3 & H4 & H5).
  { apply NoDup_dec_true. vm_compute. reflexivity. }
  { apply NoDup_dec_true. vm_compute. reflexivity. }
  { constructor. }
  assert (dget sh "COMMENT" = None) as Hnc.
  { rewrite H2; [apply Hold; simpl; tauto|]. vm_compute. intuition discriminate. }
  assert (exists sh1, write_header "Q" compat s = Ok (with_sh s sh1) /\
    (forall k, k <> "COMMENT" -> dget sh1 k = dget sh k) /\
    (dget sh1 "COMMENT" = None /\ (forall h, In (h, "COMMENT") sh_map -> q_target compat s h = None) \/
     exists c, dget sh1 "COMMENT" = Some (FJson c) /\ NoDup (map fst c) /\
       (forall h v, dget c h = Some v -> q_target compat s h = Some v) /\
       (forall h, In (h, "COMMENT") sh_map -> dget c h = q_target compat s h))) as (sh1 & Hw & Hsh1 & Hc1).
  { assert (write_header "Q" compat s =
       if compat then Ok (with_sh s (ddel sh "COMMENT"))
       else match c with
         | [] => Ok (with_sh s sh)
         | _ => if forallb (fun kv => jsonable (snd kv)) c
                then Ok (with_sh s (dset sh "COMMENT" (FJson c))) else Err ValueError
         end) as ->.
    { unfold write_header. change (lower "Q") with "q".
      change (String.eqb "q" "sac") with false. change (String.eqb "q" "q" || String.eqb "q" "sh") with true.
      cbv iota. fold sh0. rewrite H0. reflexivity. }
    assert (forall h, ~ In (h, "COMMENT") sh_map -> dget c h = None) as Hcn.
    { intros h Hh. rewrite H4 by exact Hh. reflexivity. }
    assert (forall h, In (h, "COMMENT") sh_map -> dget c h = dget (h_main s) h) as Hcy.
    { intros h Hh. rewrite H3 by exact Hh. destruct (dget (h_main s) h); reflexivity. }
    destruct compat.
    - exists (ddel sh "COMMENT"). split; [reflexivity|]. split; [intros k Hk; apply dget_ddel_ne; congruence|].
      left. rewrite ddel_absent by exact Hnc. split; [exact Hnc|].
      intros h Hh. apply comment_heads in Hh. unfold q_target.
      destruct (documented_dec h); [|reflexivity]. destruct (comment_dec h); [reflexivity | contradiction].
    - destruct c as [|kv c0] eqn:Ec.
      + exists sh. split; [reflexivity|]. split; [reflexivity|]. left. split; [exact Hnc|].
        intros h Hh. unfold q_target. cbn [andb]. destruct (documented_dec h); [|reflexivity].
        rewrite <- (Hcy h Hh). reflexivity.
      + rewrite <- Ec in *.
        assert (forallb (fun kv => jsonable (snd kv)) c = true) as Hj.
        { apply forallb_forall. intros [k v] Hin. cbn [snd].
          pose proof (in_aget String.eqb str_eqb_spec c k v H5 Hin) as Hg. change (dget c k = Some v) in Hg.
          destruct (in_dec string_dec k documented_comment) as [Hk|Hk].
          - rewrite Hcy in Hg by (apply comment_heads; exact Hk). specialize (Hjson k v Hk Hg).
            destruct v; try reflexivity. contradiction.
          - rewrite Hcn in Hg; [discriminate|]. intros H. apply Hk, comment_heads, H. }
        exists (dset sh "COMMENT" (FJson c)). split; [rewrite Ec in *; rewrite Hj; reflexivity|].
        split; [intros k Hk; apply dget_dset_ne; congruence|]. right. exists c.
        split; [apply dget_dset_eq|]. split; [exact H5|].
        assert (forall h, In (h, "COMMENT") sh_map -> dget c h = q_target false s h) as Hq.
        { intros h Hh. rewrite Hcy by exact Hh. unfold q_target. cbn [andb].
          destruct (documented_dec h) as [|Hd]; [reflexivity|]. exfalso. apply Hd.
          rewrite <- sh_map_fst. apply in_map_iff. exists (h, "COMMENT"). auto. }
        split; [|exact Hq].
        intros h v Hv. destruct (in_dec string_dec h documented_comment) as [Hk|Hk].
        * apply comment_heads in Hk. rewrite <- (Hq h Hk). exact Hv.
        * rewrite Hcn in Hv; [discriminate|]. intros H. apply Hk, comment_heads, H. }
  destruct (sh_read_loop (q_target compat s) sh1 sh_map []) as (m & Hm & Hm1 & Hm2 & Hm3).
  { intros h fh Hin Hne. rewrite Hsh1 by exact Hne. rewrite (H1 h fh Hin Hne).
    destruct (sh_map_unique h fh Hin Hne) as [Hd Hc]. unfold q_target.
    destruct (documented_dec h); [|contradiction]. destruct (comment_dec h); [contradiction|].
    rewrite andb_false_r. rewrite Hold by (eapply in_combine_r; exact Hin).
    destruct (dget (h_main s) h); reflexivity. }
  { exact Hc1. }
  { discriminate. }
  exists (with_sh s sh1). eexists. split; [exact Hw|]. split; [reflexivity|]. split.
  - unfold rftrace_init, file_roundtrip. change (upper "Q") with "Q".
    change (String.eqb "Q" "Q") with true. change (String.eqb "Q" "SAC") with false. cbv iota zeta.
    cbn [h_format h_sta with_codes]. change (String.eqb (upper "Q") "Q") with true.
    change (h_id (with_sh s sh1)) with (h_id s). rewrite h_id_dots. cbn [andb].
    rewrite h_id_split3 by assumption. cbv iota.
    unfold read_header. cbn [h_format h_sh h_main with_codes]. change (lower "Q") with "q".
    change (String.eqb "q" "q") with true. cbv iota zeta.
    change (String.eqb "sh" "sac") with false. change (String.eqb "sh" "sh") with true. cbv iota.
    cbn [with_sh h_sh]. rewrite Hm. reflexivity.
  - cbn [h_main with_main with_codes with_sh h_net h_sta h_loc h_cha]. split; [|repeat split; reflexivity].
    intros h. destruct (documented_dec h) as [Hd|Hd]; [apply Hm3; exact Hd|].
    destruct (dget m h) as [v|] eqn:E; [symmetry; apply Hm1, E|].
    unfold q_target. destruct (documented_dec h); [contradiction|reflexivity].
Qed.
