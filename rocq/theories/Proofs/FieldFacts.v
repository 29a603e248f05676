From Verif Require Import Model.Write Spec.HeaderSpec Spec.WriteSpec Proofs.PyFacts Proofs.HeaderFacts Proofs.QFacts Proofs.WriteFacts.

Lemma documented_sac_map : documented_sac = sac_map. Proof. reflexivity. Qed.
Lemma documented_q_map : documented_q = sh_map. Proof. reflexivity. Qed.

Lemma sac_fields compat s s1 : well_typed s -> write_header "SAC" compat s = Ok s1 ->
  sac_file s (file_roundtrip "SAC" s1).
Proof.
  intros Hty Hw.
  destruct (obspy_to_sac_ref s) as [ref [Href Hreft]].
  assert (forall h v, dget (h_main s) h = Some v -> is_sac_time h = true -> exists t, v = VTime t) as Htime.
  { intros h v Hv Ht. apply is_sac_time_spec in Ht. apply (Hty h v Hv). exact Ht. }
  destruct (sac_write_loop (h_main s) Htime sac_map (obspy_to_sac s) ref Href) as (sac' & H0 & H1 & H2 & H3).
  { apply NoDup_dec_true. vm_compute. reflexivity. }
  { exact nz_not_sac. }
  unfold write_header in Hw. change (lower "SAC") with "sac" in Hw. change (String.eqb "sac" "sac") with true in Hw.
  cbv iota in Hw. rewrite H0 in Hw. cbn [bind] in Hw. assert (s1 = with_sac s sac') as -> by congruence.
  exists sac', ref. split; [reflexivity|]. split; [exact Hreft|]. split.
  - unfold sac_reftime in H1. destruct (dget sac' "nz") as [[[| |t| |]| |]|]; congruence.
  - intros e fld v Hin Hv. rewrite (H2 e fld Hin), Hv. f_equal. f_equal. unfold stored, sac_value.
    destruct (is_sac_time e) eqn:Et.
    + destruct (Htime e v Hv Et) as [t ->]. reflexivity.
    + assert (~ time_entry e) as Hnt by (rewrite <- is_sac_time_spec; congruence).
      assert (In e documented) as Hd.
      { change documented with (map fst documented_sac). apply in_map_iff. exists (e, fld). auto. }
      pose proof (proj2 (Hty e v Hv) Hnt Hd) as Hn. destruct v; try reflexivity. contradiction.
Qed.

Lemma q_fields compat s s1 : no_sh_entries s -> write_header "Q" compat s = Ok s1 -> 
  q_file compat s s1.
Proof.
  intros Hfresh Hw.
  set (sh0 := match h_sh s with Some d => d | None => [] end).
  assert (forall k, In k sh_headers -> dget sh0 k = None) as Hold.
  { intros k Hk. unfold sh0. destruct (h_sh s) as [d|] eqn:E; [apply (Hfresh d E k Hk) | reflexivity]. }
  destruct (sh_write_loop (h_main s) sh_map [] sh0) as (c & sh & H0 & H1 & H2 & H3 & H4 & H5).
  { apply NoDup_dec_true. vm_compute. reflexivity. }
  { apply NoDup_dec_true. vm_compute. reflexivity. }
  { constructor. }
  assert (dget sh "COMMENT" = None) as Hnc.
  { rewrite H2; [apply Hold; simpl; tauto|]. vm_compute. intuition discriminate. }
  assert (forall h, In (h, "COMMENT") documented_q -> dget c h = dget (h_main s) h) as Hcy.
  { intros h Hh. rewrite H3 by exact Hh. destruct (dget (h_main s) h); reflexivity. }
  assert (forall e fld v, In (e, fld) documented_q -> fld <> "COMMENT" -> dget (h_main s) e = Some v -> dget sh fld = Some (FV v)) as Hpl.
  { intros e fld v Hin Hne Hv. rewrite (H1 e fld Hin Hne), Hv. reflexivity. }
  unfold write_header in Hw. change (lower "Q") with "q" in Hw.
  change (String.eqb "q" "sac") with false in Hw. change (String.eqb "q" "q" || String.eqb "q" "sh") with true in Hw.
  cbv iota in Hw. fold sh0 in Hw. rewrite H0 in Hw.
  destruct compat.
  - assert (s1 = with_sh s (ddel sh "COMMENT")) as -> by congruence.
    exists (ddel sh "COMMENT"). split; [reflexivity|]. split; [|split; [|discriminate]].
    + intros e fld v Hin Hne Hv. rewrite dget_ddel_ne by congruence. eauto.
    + intros _. rewrite ddel_absent by exact Hnc. exact Hnc.
  - destruct c as [|kv c0] eqn:Ec.
    + assert (s1 = with_sh s sh) as -> by congruence. exists sh. split; [reflexivity|]. split; [exact Hpl|].
      split; [discriminate|]. intros _ (e & v & Hin & Hv). exfalso.
      pose proof (Hcy e Hin) as Hx. rewrite Hv in Hx. discriminate.
    + rewrite <- Ec in *. assert (s1 = with_sh s (dset sh "COMMENT" (FJson c))) as ->.
      { rewrite Ec in *. destruct (forallb _ _); congruence. }
      exists (dset sh "COMMENT" (FJson c)). split; [reflexivity|]. split; [|split; [discriminate|]].
      * intros e fld v Hin Hne Hv. rewrite dget_dset_ne by congruence. eauto.
      * intros _ _. exists c. split; [apply dget_dset_eq|]. exact Hcy.
Qed.

(** what write gives if it returns *)
Lemma write_files fmt compat w ids h ix h' ix' files :
  NoDup ids -> write fmt compat w ids h ix = (h', ix', Ok files) ->
  Forall2 (fun i f => exists s s1, obj h i s /\ write_header fmt compat s = Ok s1 /\ f = file_roundtrip fmt (mark fmt s1)) ids files.
Proof.
  intros Hnd H. unfold write in H.
  destruct ids as [|i0 ids0] eqn:Eids.
  { inversion H; subst. constructor. }
  rewrite <- Eids in *. clear Eids i0 ids0.
  destruct (prepare fmt compat ids h) as [h1 [[]|e]] eqn:Ep; [|inversion H].
  pose proof (prepare_inv _ _ _ _ _ Hnd Ep) as Hinv.
  destruct (prepare_ok fmt compat ids h Hnd Hinv) as (h2 & Hp & Hp1 & Hp2).
  rewrite Hp in Ep. inversion Ep; subst h2. clear Ep.
  destruct (match (if String.eqb (upper fmt) "H5" then _ else _) with Some k => h5index k | None => Ok ix end) as [ix1|e]; [|inversion H].
  destruct (w ix1 (deref h1 ids)); [inversion H|].
  assert (files = map (file_roundtrip fmt) (deref h1 ids)) as ->.
  { destruct (String.eqb (upper fmt) "Q"); [|congruence].
    destruct (restore ids h1) as [h2 [[]|e]]; inversion H; reflexivity. }
  apply Forall2_map_r. apply Forall2_deref. intros i Hi.
  destruct (Hinv i Hi) as (s & s1 & Hs & Hw). exists (mark fmt s1). split; [exact (Hp1 i s s1 Hi Hs Hw)|].
  exists s, s1. auto.
Qed.
Lemma Forall2_weaken {A B} (P Q : A -> B -> Prop) l1 l2 :
  (forall a b, In a l1 -> P a b -> Q a b) -> Forall2 P l1 l2 -> Forall2 Q l1 l2.
Proof. intros H F. induction F as [|a b l1 l2 Hp F IH]; constructor; [apply H; [left; reflexivity|exact Hp]|apply IH; intros; apply H; [right|]; assumption]. Qed.

Section ForeignSac.
  Variable str_of : value -> string.
  Variables (sac : dict fval) (ref : Z).
  Hypothesis Href : sac_reftime sac = Ok ref.
  Definition sac_target (e fld : string) : option value :=
    match dget sac fld with
    | Some (FV v) => if str_in "-12345" (str_of v) then None else from_sac ref e v
    | _ => None
    end.
  Lemma foreign_sac_loop l m0 :
    (forall e fld x, In (e, fld) l -> dget sac fld = Some x -> exists v, x = FV v /\ (time_entry e -> exists q, v = VNum q)) ->
    (forall e, In e (map fst l) -> dget m0 e = None) ->
    NoDup (map fst l) ->
    exists m, foldM (read_sac_step str_of sac) l m0 = Ok m /\
      (forall e fld, In (e, fld) l -> dget m e = sac_target e fld) /\
      (forall e, ~ In e (map fst l) -> dget m e = dget m0 e).
  Proof.
    revert m0. induction l as [|[e fld] l IH]; intros m0 Hl H0 Hnd; cbn [foldM].
    - exists m0. split; [reflexivity|]. split; [intros ? ? [] | reflexivity].
    - cbn [map fst] in *. inversion Hnd as [|? ? Hn Hnd']; subst.
      assert (exists m1, read_sac_step str_of sac m0 (e, fld) = Ok m1 /\ dget m1 e = sac_target e fld /\
        forall e', e' <> e -> dget m1 e' = dget m0 e') as (m1 & Hs & He & Hne).
      { unfold read_sac_step, sac_target.
        destruct (dget sac fld) as [x|] eqn:E.
        2: { exists m0. split; [reflexivity|]. split; [apply H0; left; reflexivity | reflexivity]. }
        destruct (Hl e fld x (or_introl eq_refl) E) as (v & -> & Hv).
        unfold read_convert, from_sac. fold (is_sac_time e).
        destruct (str_in "-12345" (str_of v)).
        - exists m0. split; [|split; [apply H0; left; reflexivity | reflexivity]].
          destruct (is_sac_time e); [|reflexivity]. rewrite Href. cbn [bind].
          rewrite (H0 e (or_introl eq_refl)). reflexivity.
        - destruct (is_sac_time e) eqn:F.
          + apply is_sac_time_spec in F. destruct (Hv F) as [q ->]. rewrite Href. cbn [bind]. rewrite dget_dset_eq.
            eexists. split; [reflexivity|]. split; [apply dget_dset_eq|].
            intros e' Hne. rewrite !dget_dset_ne by congruence. reflexivity.
          + eexists. split; [reflexivity|]. split; [apply dget_dset_eq|].
            intros e' Hne. rewrite !dget_dset_ne by congruence. reflexivity. }
      rewrite Hs. cbn [bind]. destruct (IH m1) as (m & H1 & H2 & H3).
      { intros; eapply Hl; [right; eassumption | assumption]. }
      { intros e' He'. rewrite Hne by (intros ->; contradiction). apply H0. right. exact He'. }
      { exact Hnd'. }
      exists m. split; [exact H1|]. split.
      + intros e' fld' [E|Hin]; [|apply H2, Hin]. inversion E; subst. rewrite H3 by exact Hn. exact He.
      + intros e' He'. rewrite H3 by (intros Hx; apply He'; right; exact Hx). apply Hne. intros ->. apply He'. left. reflexivity.
  Qed.
End ForeignSac.

Lemma foreign_sac str_of f d ref :
  h_format f = Some "SAC" -> h_main f = [] -> h_sac f = Some d -> dget d "nz" = Some (FV (VTime ref)) ->
  (forall e fld x, In (e, fld) documented_sac -> dget d fld = Some x -> exists v, x = FV v /\ (time_entry e -> exists q, v = VNum q)) ->
  exists t, rftrace_init str_of f = Ok t /\
    (forall e fld, In (e, fld) documented_sac -> dget (h_main t) e = 
       match dget d fld with
       | Some (FV v) => if str_in "-12345" (str_of v) then None else from_sac ref e v
       | _ => None
       end) /\
    (forall e, ~ In e documented -> dget (h_main t) e = None) /\
    codes t = codes f.
Proof.
  intros Hf Hm Hs Hnz Hl.
  destruct (foreign_sac_loop str_of d ref) with (l := sac_map) (m0 := @nil (string * value)) as (m & H1 & H2 & H3).
  { unfold sac_reftime. rewrite Hnz. reflexivity. }
  { exact Hl. }
  { reflexivity. }
  { apply NoDup_dec_true. vm_compute. reflexivity. }
  exists (with_main f m). split; [|split; [exact H2|split; [intros e He; apply H3, He | reflexivity]]].
  unfold rftrace_init. rewrite Hf. change (String.eqb (upper "SAC") "Q") with false. cbn [andb]. cbv zeta.
  unfold read_header. rewrite Hf, Hs, Hm. change (lower "SAC") with "sac". change (String.eqb "sac" "q") with false.
  cbv iota zeta. change (String.eqb "sac" "sac") with true. cbv iota. rewrite H1. reflexivity.
Qed.
