(** The coefficients are least squares solutions, for both methods. *)
From Verif Require Import Model.Harmonics Spec.HarmonicSpec Proofs.PyFacts Proofs.SumFacts Proofs.CplxFacts Proofs.LstsqFacts Proofs.TrigPolyFacts Proofs.WaterFacts.
From Verif Require Import Proofs.DeconvTimeFacts Proofs.HarmonicFacts.
From Coq Require Import Lra Lia.
Notation length := List.length.
Open Scope R_scope.

Lemma inputs_jac stream comps azim sc two trs trsT jac : inputs stream comps azim sc two trs trsT jac ->
  (forall row, In row jac -> length row = nharm two) /\ jac <> [].
Proof.
  intros (c0 & _ & Htrs & _ & Hne & _ & H).
  assert (trs <> []) as Hn.
  { subst trs. intros E. apply Hne. pose proof (sort_perm tleb (rfs c0 stream)) as Hp. rewrite E in Hp. apply Permutation_nil, Hp. }
  destruct H as [(-> & _ & _ & _ & ->)|(-> & _ & _ & _ & _ & ->)]; split.
  - intros row Hr. unfold decomp_one in Hr. apply in_map_iff in Hr. destruct Hr as (b & <- & _). reflexivity.
  - destruct trs; [congruence | discriminate].
  - intros row Hr. unfold decomp_two in Hr. apply in_app_iff in Hr. destruct Hr as [Hr|Hr]; apply in_map_iff in Hr; destruct Hr as (b & <- & _); reflexivity.
  - destruct trs; [congruence | discriminate].
Qed.

Lemma fft_row_all rows n fs : (0 < n)%nat -> (forall r, In r rows -> length r = n) -> mapM fft_row rows = Ok fs -> fs = map (fun r => fft r n) rows.
Proof.
  intros Hn Hr H. apply mapM_Forall2 in H. induction H as [|r f rows fs H HF IH]; [reflexivity|]. cbn [map]. f_equal.
  - unfold fft_row in H. rewrite (Hr r (or_introl eq_refl)) in H. destruct n; [lia|]. congruence.
  - apply IH. intros; apply Hr; right; assumption.
Qed.
Lemma nth_map_in {A B} (f : A -> B) l k d d' : (k < length l)%nat -> nth k (map f l) d' = f (nth k l d).
Proof. intros H. rewrite (nth_indep _ d' (f d)) by (rewrite map_length; exact H). apply map_nth. Qed.

Section H.
  Variable lstsq : list (list R) -> list R -> list R.
  Variable clstsq : list (list R) -> list cplx -> list cplx.
  Hypothesis Hl : correct_lstsq lstsq.
  Hypothesis Hcl : correct_clstsq clstsq.

  Lemma freq_column nh jac (v : nat -> list R) n k (V : list cplx) :
    (0 < n)%nat -> (k < n)%nat ->
    (forall row, In row jac -> length row = nh) -> jac <> [] -> (forall j, length (v j) = length jac) ->
    V = map (fun i => fft_at n (fun j => RtoC (nth i (v j) 0)) k) (seq 0 (length jac)) ->
    forall m, (m < nh)%nat -> nth m (clstsq jac V) Czero = fft_at n (fun j => RtoC (nth m (lstsq jac (v j)) 0)) k.
  Proof.
    intros Hn Hk Hrow Hne Hv HV m Hm.
    assert (length V = length jac) as HlV by (rewrite HV, map_length, seq_length; reflexivity).
    pose proof (Hcl nh jac V Hrow Hne HlV) as H. apply clstsq_split in H. destruct H as [H1 H2].
    apply lstsq_mnls in H1, H2. destruct H1 as [_ H1], H2 as [_ H2].
    assert (forall j, mnls (length jac) nh (mat jac) (fn (v j)) (fn (lstsq jac (v j)))) as Hx.
    { intros j. pose proof (Hl nh jac (v j) Hrow Hne (Hv j)) as H. apply lstsq_mnls in H. apply H. }
    assert (forall i, (i < length jac)%nat -> nth i V Czero = fft_at n (fun j => RtoC (nth i (v j) 0)) k) as HVi.
    { intros i Hi. rewrite HV, (nth_map_in _ _ _ 0%nat) by (rewrite seq_length; exact Hi). rewrite seq_nth by exact Hi. reflexivity. }
    set (u := fun j => unit n (- (Z.of_nat k * Z.of_nat j))).
    assert (forall y : nat -> R, fft_at n (fun j => RtoC (y j)) k = (rsum n (fun j => fst (u j) * y j), rsum n (fun j => snd (u j) * y j))) as Hft.
    { intros y. unfold fft_at. apply cplx_eq; [rewrite csum_fst | rewrite csum_snd]; cbn [fst snd]; apply rsum_ext; intros j _;
        unfold Cmul, RtoC, u; cbn [fst snd]; ring. }
    rewrite Hft. apply cplx_eq; cbn [fst snd].
    - rewrite <- nth_fst. refine (mnls_unique _ _ _ _ _ (fun m => rsum n (fun j => fst (u j) * fn (lstsq jac (v j)) m)) H1 _ m Hm).
      eapply mnls_ext; [| |apply (mnls_sum (length jac) nh (mat jac) n (fun j => fn (v j)) (fun j => fn (lstsq jac (v j))) (fun j => fst (u j)) (fun j _ => Hx j))].
      + intros i Hi. unfold fn at 2. rewrite nth_fst, HVi, Hft by exact Hi. reflexivity.
      + reflexivity.
    - rewrite <- nth_snd. refine (mnls_unique _ _ _ _ _ (fun m => rsum n (fun j => snd (u j) * fn (lstsq jac (v j)) m)) H2 _ m Hm).
      eapply mnls_ext; [| |apply (mnls_sum (length jac) nh (mat jac) n (fun j => fn (v j)) (fun j => fn (lstsq jac (v j))) (fun j => snd (u j)) (fun j _ => Hx j))].
      + intros i Hi. unfold fn at 2. rewrite nth_snd, HVi, Hft by exact Hi. reflexivity.
      + reflexivity.
  Qed.

  Theorem harm_fit stream comps azim method sc out :
    harmonics lstsq clstsq stream comps azim method sc = Ok out ->
    exists two trs trsT jac first rest, inputs stream comps azim sc two trs trsT jac /\ stream = first :: rest /\
      (exists hd, length hd = nharm two /\ (forall row, In row hd -> length row = length (ht_data first)) /\ out = harm_out (ht_st first) hd comps two) /\
      ((method = "freq" -> forall t, In t (trs ++ trsT) -> length (ht_data t) = length (ht_data first)) ->
       forall i, (i < length (ht_data first))%nat ->
         length (trs ++ trsT) = length jac /\ (forall t, In t (trs ++ trsT) -> (i < length (ht_data t))%nat) /\
         coefficients i out = lstsq jac (map (sample i) (trs ++ trsT)) /\
         is_lstsq (nharm two) jac (map (sample i) (trs ++ trsT)) (coefficients i out)).
  Proof.
    intros H. destruct (harm_unfold _ _ _ _ _ _ _ _ H) as (two & trs & trsT & jac & first & rest & hd & Hin & Hs & Ho & Hm).
    exists two, trs, trsT, jac, first, rest. split; [exact Hin|]. split; [exact Hs|].
    destruct (inputs_jac _ _ _ _ _ _ _ _ Hin) as [Hrow Hne]. cbv zeta in Hm. set (n := length (ht_data first)) in *.
    split.
    { exists hd. split; [|split; [|exact Ho]].
      - destruct Hm as [(_ & cols & _ & ->)|(_ & _ & fR & fT & cols & _ & _ & _ & ->)]; [|rewrite map_length]; apply hd_rows_length.
      - intros row Hr. destruct Hm as [(_ & cols & Hf & ->)|(_ & Hnp & fR & fT & cols & _ & _ & Hf & ->)].
        + apply (fit_ok 0) in Hf. destruct Hf as [-> _]. unfold hd_rows in Hr. apply in_map_iff in Hr. destruct Hr as (j & <- & _).
          rewrite !map_length, seq_length. reflexivity.
        + apply in_map_iff in Hr. destruct Hr as (r & <- & _). rewrite map_length. unfold ifft. apply tabulate_length. }
    intros Hlen i Hi.
    assert (forall i, map (fun row => nth i row 0) (map ht_data trs ++ map ht_data trsT) = map (sample i) (trs ++ trsT)) as Hv.
    { intros j. rewrite <- map_app, map_map. reflexivity. }
    assert (length (trs ++ trsT) = length jac -> forall j, is_lstsq (nharm two) jac (map (sample j) (trs ++ trsT)) (lstsq jac (map (sample j) (trs ++ trsT)))) as Hls.
    { intros El j. apply Hl; [exact Hrow | exact Hne | rewrite map_length; exact El]. }
    destruct Hm as [(-> & cols & Hf & ->)|(-> & Hnp & fR & fT & cols & HfR & HfT & Hf & ->)].
    - apply (fit_ok 0) in Hf. destruct Hf as [-> Hf]. destruct (Hf i Hi) as [El HF]. rewrite <- map_app, map_length in El.
      split; [exact El|]. split.
      { intros t Ht. rewrite Forall_forall in HF. apply HF. rewrite <- map_app. apply in_map, Ht. }
      pose proof (Hls El i) as H1.
      assert (coefficients i out = lstsq jac (map (sample i) (trs ++ trsT))) as Hc; [|split; [exact Hc | rewrite Hc; exact H1]].
      rewrite coefficients_rows, Ho, harm_out_data. 
      assert (nth i (map (fun i => lstsq jac (map (fun row => nth i row 0) (map ht_data trs ++ map ht_data trsT))) (seq 0 n)) []
              = lstsq jac (map (sample i) (trs ++ trsT))) as En.
      { rewrite (nth_map_in _ _ _ 0%nat) by (rewrite seq_length; exact Hi). rewrite seq_nth by exact Hi. cbn [Nat.add]. rewrite Hv. reflexivity. }
      rewrite <- En. apply hd_column.
      + rewrite map_length, seq_length. exact Hi.
      + rewrite En. apply H1.
    - assert (forall t, In t (trs ++ trsT) -> length (ht_data t) = n) as Hlen' by (apply Hlen; reflexivity). clear Hlen.
      apply (fft_row_all _ n) in HfR; [|exact Hnp|intros r Hr; apply in_map_iff in Hr; destruct Hr as (t & <- & Ht); apply Hlen', in_app_iff; auto].
      apply (fft_row_all _ n) in HfT; [|exact Hnp|intros r Hr; apply in_map_iff in Hr; destruct Hr as (t & <- & Ht); apply Hlen', in_app_iff; auto].
      subst fR fT. apply (fit_ok Czero) in Hf. destruct Hf as [-> Hf]. destruct (Hf i Hi) as [El _].
      rewrite <- !map_app, !map_length in El. split; [exact El|]. split; [intros t Ht; rewrite (Hlen' t Ht); exact Hi|].
      pose proof (Hls El i) as H1.
      assert (coefficients i out = lstsq jac (map (sample i) (trs ++ trsT))) as Hc; [|split; [exact Hc | rewrite Hc; exact H1]].
      rewrite coefficients_rows, Ho, harm_out_data. unfold hd_rows. rewrite !map_map.
      assert (length (lstsq jac (map (sample i) (trs ++ trsT))) = nharm two) as Hlx by apply H1.
      transitivity (map (fun m => nth m (lstsq jac (map (sample i) (trs ++ trsT))) 0) (seq 0 (nharm two))).
      2: { rewrite <- Hlx. symmetry. apply (list_tabulate (lstsq jac (map (sample i) (trs ++ trsT))) 0). }
      apply map_ext_in. intros m Hm. apply in_seq in Hm.
      set (X := map (fun col : list cplx => nth m col Czero) _). unfold ifft. rewrite (map_tabulate n), nth_tabulate by exact Hi.
      rewrite (ifft_ext n _ (fft_at n (fun j => RtoC (nth m (lstsq jac (map (sample j) (trs ++ trsT))) 0)))).
      + rewrite ifft_fft by assumption. reflexivity.
      + intros k Hk. unfold X. rewrite map_map. rewrite (nth_map_in _ _ _ 0%nat) by (rewrite seq_length; exact Hk).
        rewrite seq_nth by exact Hk. cbn [Nat.add].
        apply (freq_column (nharm two) jac (fun j => map (sample j) (trs ++ trsT))); try assumption; [|  |lia].
        * intros j. rewrite map_length. exact El.
        * rewrite <- !map_app, !map_map. rewrite <- El.
          rewrite (list_tabulate (trs ++ trsT) first) at 1. unfold tabulate. rewrite map_map. apply map_ext_in.
          intros r Hr. apply in_seq in Hr. unfold fft. rewrite nth_tabulate by exact Hk. apply fft_ext. intros j Hj.
          f_equal. rewrite (nth_map_in _ _ _ first) by lia. reflexivity.
  Qed.
End H.
