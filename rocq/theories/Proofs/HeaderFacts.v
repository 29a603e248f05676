From Verif Require Import Model.Headers Spec.HeaderSpec Proofs.PyFacts.

Lemma utc_roundtrip t ref : utc_add ref (utc_sub t ref) = t.
Proof.
  unfold utc_add, utc_sub.
  assert (inject_Z (t - ref) / e9 * e9 + (1 # 2) == inject_Z (t - ref) + (1 # 2))%Q as E.
  { unfold e9. field. }
  rewrite E.
  assert (Qfloor (inject_Z (t - ref) + (1 # 2)) = t - ref)%Z as ->; [|lia].
  unfold Qfloor, inject_Z, Qplus. simpl. symmetry. apply Z.div_unique with (r := 1%Z); lia.
Qed.

Definition stored (ref : Z) (h : string) (v : value) : value :=
  if is_sac_time h then match v with VTime t => VNum (utc_sub t ref) | _ => v end else v.

Lemma nz_not_sac : ~ In "nz" sac_headers.
Proof. simpl. intuition discriminate. Qed.

Section SacWrite.
  Variable main : dict value.
  Hypothesis Htime : forall h v, dget main h = Some v -> is_sac_time h = true -> exists t, v = VTime t.
  Lemma sac_write_loop l sac ref :
    sac_reftime sac = Ok ref -> NoDup (map snd l) -> ~ In "nz" (map snd l) ->
    exists sac', foldM (write_sac_step main) l sac = Ok sac' /\ sac_reftime sac' = Ok ref /\
      (forall h fh, In (h, fh) l -> dget sac' fh =
         match dget main h with None => dget sac fh | Some v => Some (FV (stored ref h v)) end) /\
      (forall k, ~ In k (map snd l) -> dget sac' k = dget sac k).
  Proof.
    revert sac. induction l as [|[h fh] l IH]; intros sac Href Hnd Hnz; cbn [foldM].
    - exists sac. repeat split; auto. intros h fh [].
    - cbn [map snd] in *. inversion Hnd as [|? ? Hn Hnd']; subst.
      assert (~ In "nz" (map snd l)) as Hnz' by (intros H; apply Hnz; right; exact H).
      destruct (dget main h) as [v|] eqn:E.
      + set (sac1 := dset sac fh (FV (stored ref h v))).
        assert (sac_reftime sac1 = Ok ref) as Href1.
        { unfold sac_reftime, sac1. rewrite dget_dset_ne by (intros ->; apply Hnz; left; reflexivity). exact Href. }
        assert (write_sac_step main sac (h, fh) = Ok sac1) as ->.
        { unfold sac1, stored, write_sac_step, write_convert. rewrite E, Href.
          destruct (is_sac_time h) eqn:F; [|reflexivity].
          destruct (Htime h v E F) as [t ->]. reflexivity. }
        cbn [bind]. destruct (IH sac1 Href1 Hnd' Hnz') as (sac' & H1 & H2 & H3 & H4).
        exists sac'. split; [exact H1|]. split; [exact H2|]. split.
        * intros h2 fh2 [H|H].
          -- inversion H; subst. rewrite E. rewrite H4 by exact Hn. apply dget_dset_eq.
          -- rewrite (H3 _ _ H). destruct (dget main h2); [reflexivity|].
             apply dget_dset_ne. intros ->. apply Hn. apply in_map_iff. exists (h2, fh2). auto.
        * intros k Hk. rewrite H4 by (intros H; apply Hk; right; exact H).
          apply dget_dset_ne. intros ->. apply Hk. left; reflexivity.
      + assert (write_sac_step main sac (h, fh) = Ok sac) as -> by (unfold write_sac_step; rewrite E; reflexivity).
        cbn [bind]. destruct (IH sac Href Hnd' Hnz') as (sac' & H1 & H2 & H3 & H4).
        exists sac'. split; [exact H1|]. split; [exact H2|]. split.
        * intros h2 fh2 [H|H]; [|apply H3, H]. inversion H; subst. rewrite E. apply H4, Hn.
        * intros k Hk. apply H4. intros H; apply Hk; right; exact H.
  Qed.
End SacWrite.

Section SacRead.
  Variable str_of : value -> string.
  Variables (main : dict value) (sac : dict fval) (ref : Z).
  Hypothesis Href : sac_reftime sac = Ok ref.
  Hypothesis Htime : forall h v, dget main h = Some v -> is_sac_time h = true -> exists t, v = VTime t.
  Hypothesis Hnull : forall h v, In h headers -> dget main h = Some v -> str_in "-12345" (str_of (stored ref h v)) = false.
  Lemma sac_read_loop l m0 :
    (forall h fh, In (h, fh) l -> In h headers /\
       dget sac fh = match dget main h with None => None | Some v => Some (FV (stored ref h v)) end) ->
    NoDup (map fst l) ->
    exists m, foldM (read_sac_step str_of sac) l m0 = Ok m /\
      (forall h, In h (map fst l) -> dget m h = match dget main h with None => dget m0 h | v => v end) /\
      (forall h, ~ In h (map fst l) -> dget m h = dget m0 h).
  Proof.
    revert m0. induction l as [|[h fh] l IH]; intros m0 Hl Hnd; cbn [foldM].
    - exists m0. repeat split; auto. intros h [].
    - cbn [map fst] in *. inversion Hnd as [|? ? Hn Hnd']; subst.
      assert (forall h0 fh0, In (h0, fh0) l -> In h0 headers /\
         dget sac fh0 = match dget main h0 with None => None | Some v => Some (FV (stored ref h0 v)) end) as Hl'
        by (intros; apply Hl; right; assumption).
      destruct (Hl h fh (or_introl eq_refl)) as [Hin Hget].
      destruct (dget main h) as [v|] eqn:E.
      + assert (read_sac_step str_of sac m0 (h, fh) = Ok (match is_sac_time h with
                    | true => dset (dset m0 h (stored ref h v)) h v | false => dset m0 h v end)) as Hstep.
        { unfold read_sac_step. rewrite Hget. rewrite (Hnull h v Hin E).
          unfold read_convert. destruct (is_sac_time h) eqn:F.
          - rewrite Href. cbn [bind]. rewrite dget_dset_eq. unfold stored. rewrite F.
            destruct (Htime h v E F) as [t ->]. rewrite utc_roundtrip. reflexivity.
          - unfold stored. rewrite F. reflexivity. }
        rewrite Hstep. cbn [bind].
        destruct (IH (match is_sac_time h with
                    | true => dset (dset m0 h (stored ref h v)) h v | false => dset m0 h v end) Hl' Hnd')
          as (m & H1 & H2 & H3).
        exists m. split; [exact H1|]. split.
        * intros h2 [<-|H].
          -- rewrite E, H3 by exact Hn. destruct (is_sac_time h); rewrite dget_dset_eq; reflexivity.
          -- rewrite H2 by exact H. destruct (dget main h2); [reflexivity|].
             assert (h <> h2) by (intros ->; contradiction).
             destruct (is_sac_time h); rewrite !dget_dset_ne by assumption; reflexivity.
        * intros h2 H. rewrite H3 by (intros H'; apply H; right; exact H').
          assert (h <> h2) by (intros ->; apply H; left; reflexivity).
          destruct (is_sac_time h); rewrite !dget_dset_ne by assumption; reflexivity.
      + assert (read_sac_step str_of sac m0 (h, fh) = Ok m0) as Hstep.
        { unfold read_sac_step. rewrite Hget. reflexivity. }
        rewrite Hstep. cbn [bind]. destruct (IH m0 Hl' Hnd') as (m & H1 & H2 & H3).
        exists m. split; [exact H1|]. split.
        * intros h2 [<-|H]; [rewrite E; apply H3, Hn | apply H2, H].
        * intros h2 H. apply H3. intros H'; apply H; right; exact H'.
  Qed.
End SacRead.

Lemma NoDup_dec_true (l : list string) : (fix nd l := match l with [] => true | x :: r => negb (existsb (String.eqb x) r) && nd r end) l = true -> NoDup l.
Proof.
  induction l as [|x l IH]; intros H; [constructor|].
  apply andb_true_iff in H. destruct H as [H1 H2]. constructor; [|apply IH, H2].
  intros Hin. apply negb_true_iff in H1.
  assert (existsb (String.eqb x) l = true) as E; [|congruence].
  apply existsb_exists. exists x. split; [exact Hin | apply String.eqb_refl].
Qed.

Lemma is_sac_time_spec h : is_sac_time h = true <-> time_entry h.
Proof. unfold is_sac_time, time_entry. rewrite orb_true_iff, !String.eqb_eq. reflexivity. Qed.

Lemma obspy_to_sac_ref s : exists ref, sac_reftime (obspy_to_sac s) = Ok ref /\ reference_time s ref.
Proof.
  unfold obspy_to_sac, reference_time.
  assert (forall t, t = h_start s -> exists ref, sac_reftime (dset (match h_sac s with Some d => d | None => [] end) "nz" (FV (VTime (h_start s)))) = Ok ref /\ ref = t) as Hset.
  { intros t Ht. exists (h_start s). unfold sac_reftime. rewrite dget_dset_eq. auto. }
  destruct (h_sac s) as [d|] eqn:E.
  - destruct (sac_reftime d) as [t|e] eqn:F.
    + exists t. split; [exact F|]. unfold sac_reftime in F.
      destruct (dget d "nz") as [[[| |t'| |]| |]|]; inversion F; reflexivity.
    + unfold sac_reftime in F |- *. rewrite dget_dset_eq.
      exists (h_start s). split; [reflexivity|].
      destruct (dget d "nz") as [[[| |t'| |]| |]|]; try reflexivity; discriminate.
  - exists (h_start s). split; reflexivity.
Qed.
Lemma reference_time_unique s a b : reference_time s a -> reference_time s b -> a = b.
Proof.
  unfold reference_time. destruct (h_sac s) as [d|]; [|congruence].
  destruct (dget d "nz") as [[[| | | |]| |]|]; congruence.
Qed.

Lemma in_sac_map_headers h fh : In (h, fh) sac_map -> In h headers /\ In fh sac_headers.
Proof. intros H. split; [eapply in_combine_l | eapply in_combine_r]; exact H. Qed.
Lemma sac_map_fst : map fst sac_map = headers. Proof. reflexivity. Qed.
Lemma sac_map_snd : map snd sac_map = sac_headers. Proof. reflexivity. Qed.

Theorem sac_roundtrip str_of compat s :
  no_sac_entries s -> well_typed s -> no_null str_of s ->
  exists s1 s2, write_header "SAC" compat s = Ok s1 /\
    rftrace_init str_of (file_roundtrip "SAC" s1) = Ok s2 /\
    (forall h, In h documented -> dget (h_main s2) h = dget (h_main s) h) /\
    (forall h, ~ In h documented -> dget (h_main s2) h = None) /\
    h_net s2 = h_net s /\ h_sta s2 = h_sta s /\ h_loc s2 = h_loc s /\ h_cha s2 = h_cha s /\
    h_main s1 = h_main s.
Proof.
  intros Hfresh Hty Hnull.
  destruct (obspy_to_sac_ref s) as [ref [Href Hreft]].
  assert (forall h v, dget (h_main s) h = Some v -> is_sac_time h = true -> exists t, v = VTime t) as Htime.
  { intros h v Hv Ht. apply is_sac_time_spec in Ht. apply (Hty h v Hv). exact Ht. }
  assert (forall h v, In h headers -> dget (h_main s) h = Some v -> str_in "-12345" (str_of (stored ref h v)) = false) as Hnull'.
  { intros h v Hin Hv. specialize (Hnull ref Hreft h v Hin Hv). unfold stored, utc_sub, e9.
    destruct (is_sac_time h) eqn:E.
    - destruct (Htime h v Hv E) as [t ->]. exact Hnull.
    - destruct v; try exact Hnull. exfalso.
      destruct (Hty h _ Hv) as [_ H2]. apply H2; [|exact Hin].
      intros Ht. apply is_sac_time_spec in Ht. congruence. }
  destruct (sac_write_loop (h_main s) Htime sac_map (obspy_to_sac s) ref Href) as (sac & Hw & Href' & Hw1 & Hw2).
  { apply NoDup_dec_true. vm_compute. reflexivity. }
  { rewrite sac_map_snd. apply nz_not_sac. }
  assert (forall k, In k sac_headers -> dget (obspy_to_sac s) k = None) as Hold.
  { intros k Hk. assert (k <> "nz") by (intros ->; apply nz_not_sac, Hk).
    unfold obspy_to_sac. destruct (h_sac s) as [d|] eqn:E.
    - destruct (sac_reftime d); [apply (Hfresh d E k Hk)|]. rewrite dget_dset_ne by congruence. apply (Hfresh d E k Hk).
    - simpl. unfold dget, aget. destruct (String.eqb_spec k "nz"); [contradiction | reflexivity]. }
  destruct (sac_read_loop str_of (h_main s) sac ref Href' Htime Hnull' sac_map []) as (m & Hm & Hm1 & Hm2).
  { intros h fh Hin. destruct (in_sac_map_headers h fh Hin) as [Hh Hf]. split; [exact Hh|].
    rewrite (Hw1 h fh Hin), (Hold fh Hf). reflexivity. }
  { apply NoDup_dec_true. vm_compute. reflexivity. }
  exists (with_sac s sac). eexists. split; [|split].
  - unfold write_header. change (lower "SAC") with "sac". cbn [String.eqb]. 
    change (String.eqb "sac" "sac") with true. cbv iota. rewrite Hw. reflexivity.
  - unfold rftrace_init, file_roundtrip. cbn [h_format h_sta]. change (upper "SAC") with "SAC".
    change (String.eqb (upper "SAC") "Q") with false. cbn [andb].
    unfold read_header. cbn [h_format h_sac h_main with_sac]. change (lower "SAC") with "sac".
    change (String.eqb "sac" "q") with false. cbv iota. change (String.eqb "sac" "sac") with true.
    change (String.eqb "SAC" "SAC") with true. cbv iota. rewrite Hm. reflexivity.
  - cbn [h_main with_main with_sac h_net h_sta h_loc h_cha]. split; [|split].
    + intros h Hh. rewrite Hm1 by exact Hh. destruct (dget (h_main s) h); reflexivity.
    + intros h Hh. rewrite Hm2 by exact Hh. reflexivity.
    + repeat split; reflexivity.
Qed.
