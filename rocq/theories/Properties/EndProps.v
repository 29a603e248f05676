(** C99: deconvolve() with spectral division and iterative deconvolution, for a source
    component which contains nothing but the source. *)
From Verif Require Import Model.Deconv Model.Waterlevel Model.Iterative Spec.RfSpec Spec.TimeSpec Spec.DeconvSpec Spec.CorrSpec Spec.TimeRfSpec
  Spec.WaterSpec Spec.SpikeSpec Spec.EndSpec Proofs.PyFacts Proofs.SumFacts Proofs.DeconvFacts Proofs.EndFacts Properties.PeakProps.
From Coq Require Import Lra Lia Qreals ClassicalEpsilon.
Notation length := List.length.
Open Scope R_scope.

(** The source component contains nothing but the source, inside of the source window
    (a to b around the onset sample o') and outside of the tapered ends. After deconvolve() it is 1 at
    the onset, and nowhere larger, up to the error eps of the floating point computation. *)
Theorem C99_waterlevel eps nfl wl gauss kernel taper m source response w ls h src rsp i h' r o o' a b tap :
  fast_len nfl -> 0 < wl -> gauss <> Some 0 -> tapers taper ->
  (0 < delta (st (h src)))%Z -> computes_waterlevel eps nfl wl gauss (rate_of (delta (st (h src)))) kernel ->
  In m ["waterlevel"; "freq"] -> channels_set h ls -> selected h source ls [src] -> responses h response ls rsp -> NoDup rsp ->
  nth_error rsp i = Some src -> (forall l, nth_error rsp 0 = Some l -> length (data (h l)) = length (data (h src))) ->
  onset_of (h src) o -> (starttime (st (h src)) <= o <= endtime (h src))%Z -> nearest_sample (h src) o o' ->
  window_for m (o' - starttime (st (h src))) (endtime (h src) - o') w a b tap -> (0 <= tap)%Z ->
  (starttime (st (h src)) <= o' + a)%Z -> (delta (st (h src)) | a)%Z ->
  isolated (h src) (o' + a + tap) (o' + b - tap - delta (st (h src))) ->
  deconvolve kernel taper m source response w None ls h = (h', Ok r) ->
  unit_peak eps (h src) (h' src) o'.
Proof.
  intros Hf Hwl Hg Ht Hd Hk Hm Hc Hs Hr Hnd Hi Hlen Ho Hb Hnear Hw Htap Hst [T' HT] Hiso E.
  pose proof Hiso as [_ (i0 & Hi0 & _)].
  assert (Hne : List.length (data (h src)) <> 0%nat) by lia.
  destruct (dec_call kernel taper m source response w None ls h src rsp h' r o Hc Hs Hr Hnd Hd Ho Hb Hne E)
    as (o1 & a1 & b1 & tap1 & cut & c & ds & its & N1 & W1 & C1 & M1 & R1 & S1 & T1 & _ & [K1 _] & Ke & Res & _).
  assert (o1 = o') as -> by (eapply nearest_unique; eassumption).
  destruct (window_unique _ _ _ _ _ _ _ _ _ _ W1 Hw) as (-> & -> & ->).
  destruct Hnear as (k & Hk0 & Eo & _).
  set (T := (- T')%Z). assert (HT' : a = (- T * delta (st (h src)))%Z) by (unfold T; lia).
  assert (Cut : cut_padded (h src) cut (o' + a) (o' + b)).
  { apply C1. destruct Hiso as [Hin (j & Hj & Nj)]. specialize (Hin j Hj Nj). lia. }
  destruct (placed_source taper (h src) cut o' a b tap k T Ht Hd Eo Hk0 HT' Hst Htap Hiso Cut) as (Pl & TK & NZ & Z0).
  assert (Mc : k_method c = "waterlevel") by (rewrite M1; destruct Hm as [<-|[<-|[]]]; reflexivity).
  assert (Tc : k_tshift c = (- (- T * delta (st (h src))))%Z) by (rewrite T1, HT'; destruct Hm as [<-|[<-|[]]]; reflexivity).
  pose proof (K1 i Hi) as Nc.
  set (N := length (data (h src))) in *.
  assert (Hrate : rate_of (delta (st (h src))) <> 0).
  { unfold rate_of. apply Rmult_integral_contrapositive_currified; [lra|]. apply Rinv_neq_0_compat, not_0_IZR. lia. }
  assert (RP : result_points (reals (k_rsp c)) None N).
  { rewrite R1. destruct rsp as [|l0 rsp0]; [destruct i; discriminate|]. cbn. rewrite map_length. apply Hlen. reflexivity. }
  destruct (C98_waterlevel nfl (reals (k_rsp c)) (map Q2R (k_src c)) (map Q2R (data (h src))) T k i (rate_of (delta (st (h src)))) wl gauss None N (nfl N)
              Hrate Hg RP) as (out & x & Ex & Xi & Lx & Px & Bx); try assumption.
  - split; [reflexivity|]. eapply Nat.lt_le_trans; [|apply Hf]. unfold N. lia.
  - apply Hf.
  - rewrite R1. apply (nth_error_reals rsp h). exact Hi.
  - rewrite map_length. reflexivity.
  - rewrite S1. exact Pl.
  - rewrite S1. exact NZ.
  - intros p Hp. rewrite S1. apply Z0. eapply Nat.le_trans; [apply Hf | exact Hp].
  - rewrite <- tshift_rate, <- Tc in Ex by exact Hd.
    pose proof (Hk c ds its i out Mc Nc Ke Ex) as Up.
    assert (Xi' : nth_error (map (map fst) out) i = Some (map fst x)) by (apply map_nth_error, Xi).
    destruct (Forall2_error _ _ _ _ _ Up Xi') as (d & Ed & Fd). rewrite <- (Res i src d Hi Ed) in Fd.
    destruct (close_peak eps (data (h' src)) (map fst x) N k Fd) as (A & B & D).
    + rewrite map_length. exact Lx.
    + exact Hk0.
    + change 0 with (fst Czero). rewrite map_nth. exact (f_equal fst Px).
    + intros v Hv. apply in_map_iff in Hv. destruct Hv as (z & <- & Hz). apply Bx, Hz.
    + split; [exact A|]. split; [exists k; auto | exact D].
Qed.
Print Assumptions C99_waterlevel.

Theorem C99_iterative eps nfl g itmax minderr ms kernel taper source response w ls h src rsp i h' r o o' a b tap :
  fast_len nfl -> g <> 0 -> (0 < itmax)%nat -> 0 <= minderr -> tapers taper ->
  (0 < delta (st (h src)))%Z -> computes_iterative eps nfl g itmax minderr ms (rate_of (delta (st (h src)))) kernel ->
  channels_set h ls -> selected h source ls [src] -> responses h response ls rsp -> NoDup rsp ->
  nth_error rsp i = Some src -> (forall l, In l rsp -> length (data (h l)) = length (data (h src))) ->
  onset_of (h src) o -> (starttime (st (h src)) <= o <= endtime (h src))%Z -> nearest_sample (h src) o o' ->
  window_for "iterative" (o' - starttime (st (h src))) (endtime (h src) - o') w a b tap -> (0 <= tap)%Z ->
  (starttime (st (h src)) <= o' + a)%Z -> (delta (st (h src)) | a)%Z ->
  isolated (h src) (o' + a + tap) (o' + b - tap - delta (st (h src))) ->
  deconvolve kernel taper "iterative" source response w None ls h = (h', Ok r) ->
  unit_peak eps (h src) (h' src) o'.
Proof.
  intros Hf Hg Hit Hmd Ht Hd Hk Hc Hs Hr Hnd Hi Hlen Ho Hb Hnear Hw Htap Hst [T' HT] Hiso E.
  pose proof Hiso as [_ (i0 & Hi0 & _)].
  assert (Hne : List.length (data (h src)) <> 0%nat) by lia.
  destruct (dec_call kernel taper "iterative" source response w None ls h src rsp h' r o Hc Hs Hr Hnd Hd Ho Hb Hne E)
    as (o1 & a1 & b1 & tap1 & cut & c & ds & its & N1 & W1 & C1 & M1 & R1 & S1 & T1 & _ & [K1 _] & Ke & Res & _).
  assert (o1 = o') as -> by (eapply nearest_unique; eassumption).
  destruct (window_unique _ _ _ _ _ _ _ _ _ _ W1 Hw) as (-> & -> & ->).
  destruct Hnear as (k & Hk0 & Eo & _).
  set (T := (- T')%Z). assert (HT' : a = (- T * delta (st (h src)))%Z) by (unfold T; lia).
  assert (Cut : cut_padded (h src) cut (o' + a) (o' + b)).
  { apply C1. destruct Hiso as [Hin (j & Hj & Nj)]. specialize (Hin j Hj Nj). lia. }
  destruct (placed_source taper (h src) cut o' a b tap k T Ht Hd Eo Hk0 HT' Hst Htap Hiso Cut) as (Pl & TK & NZ & Z0).
  assert (Tc : k_tshift c = (- (- T * delta (st (h src))))%Z) by (rewrite T1, HT'; reflexivity).
  pose proof (K1 i Hi) as Nc.
  set (N := length (data (h src))) in *.
  assert (Hrate : 0 < rate_of (delta (st (h src)))).
  { unfold rate_of. apply Rmult_lt_0_compat; [lra|]. apply Rinv_0_lt_compat, (IZR_lt 0). lia. }
  destruct (C98_iterative nfl (reals (k_rsp c)) (map Q2R (k_src c)) (map Q2R (data (h src))) T k i (rate_of (delta (st (h src)))) g itmax minderr ms
              Hf Hrate Hg Hit Hmd) as (out & its' & rmss & x & it & Ex & Xi & Lx & Px & Bx & _); try assumption.
  - intros r' Hr'. rewrite R1 in Hr'. unfold reals in Hr'. rewrite map_map in Hr'. apply in_map_iff in Hr'. destruct Hr' as (l & <- & Hl).
    specialize (Hlen l Hl). split.
    + intros F. apply (f_equal (@List.length R)) in F. rewrite map_length, Hlen in F. cbn in F. lia.
    + rewrite map_length, Hlen, S1. destruct NZ as (p & Np). exists p. split; [|exact Np].
      destruct (Nat.lt_ge_cases p (2 * N)) as [L|L]; [exact L|exfalso]. apply Np, Z0. lia.
  - rewrite R1. apply (nth_error_reals rsp h). exact Hi.
  - rewrite map_length. exact Hk0.
  - rewrite S1. exact Pl.
  - rewrite <- tshift_rate, <- Tc in Ex by exact Hd.
    pose proof (Hk c ds its i out its' rmss M1 Nc Ke Ex) as Up.
    destruct (Forall2_error _ _ _ _ _ Up Xi) as (d & Ed & Fd). rewrite <- (Res i src d Hi Ed) in Fd.
    rewrite map_length in Lx.
    destruct (close_peak eps (data (h' src)) x N k Fd Lx Hk0 Px Bx) as (A & B & D).
    split; [exact A|]. split; [exists k; auto | exact D].
Qed.
Print Assumptions C99_iterative.

(** ** a concrete case *)
(** rational numbers near real numbers *)
Lemma near_exists eps x : 0 < eps -> exists q, Rabs (Q2R q - x) <= eps.
Proof.
  intros He. destruct (archimed (/ eps)) as [A _]. set (n := up (/ eps)) in *.
  assert (0 < IZR n) by (eapply Rlt_trans; [apply Rinv_0_lt_compat, He | exact A]). assert (0 < n)%Z by (apply lt_IZR; assumption).
  destruct (archimed (x * IZR n)) as [B D]. set (z := up (x * IZR n)) in *.
  exists (z # Z.to_pos n). unfold Q2R. cbn [Qnum Qden]. rewrite Z2Pos.id by assumption.
  replace (IZR z * / IZR n - x) with ((IZR z - x * IZR n) * / IZR n) by (field; lra).
  rewrite Rabs_mult, (Rabs_right (/ IZR n)) by (left; apply Rinv_0_lt_compat; assumption).
  rewrite (Rabs_right (IZR z - x * IZR n)) by lra.
  apply Rmult_le_reg_r with (IZR n); [assumption|]. rewrite Rmult_assoc, Rinv_l by lra.
  assert (1 < eps * IZR n). { apply Rmult_lt_reg_l with (/ eps); [apply Rinv_0_lt_compat, He|]. rewrite <- Rmult_assoc, Rinv_l by lra. lra. }
  lra.
Qed.
Definition near (eps x : R) : Q := epsilon (inhabits 0%Q) (fun q => Rabs (Q2R q - x) <= eps).
Lemma near_spec eps x : 0 < eps -> Rabs (Q2R (near eps x) - x) <= eps.
Proof. intros He. apply (epsilon_spec (inhabits 0%Q) (fun q => Rabs (Q2R q - x) <= eps)). apply near_exists, He. Qed.
Lemma near_up_to eps l : 0 < eps -> up_to eps (map (map (near eps)) l) l.
Proof.
  intros He. unfold up_to. induction l as [|x l IH]; constructor; [|exact IH]. induction x; constructor; [apply near_spec, He | assumption].
Qed.
(** rounded spectral division *)
Definition ex_water (eps : R) (c : kcall) : res (list (list Q) * list Z) :=
  match k_norm c with
  | Some (Some i) =>
      match deconv_waterlevel (fun n => n) (Many (reals (k_rsp c))) (map Q2R (k_src c)) (rate_of 1000000000) (1 / 20) (Some 2) (in_sec (k_tshift c)) None (NIdx i) None false with
      | Ok (WMany out) => Ok (map (map (near eps)) (map (map fst) out), [])
      | _ => Ok ([], [])
      end
  | _ => Ok ([], [])
  end.
(** the ends are halved *)
Definition ex_taper (w : Z) (t : trace) : trace :=
  set_data t (map (fun i => if ((w <=? Z.of_nat i * delta (st t)) && (w <=? (Z.of_nat (length (data t)) - 1 - Z.of_nat i) * delta (st t)))%Z
                            then nth i (data t) 0%Q else (nth i (data t) 0 * (1 # 2))%Q) (seq 0 (length (data t)))).
Lemma ex_tapers : tapers ex_taper.
Proof.
  intros w t. split; [reflexivity|]. unfold ex_taper. cbn [set_data data]. rewrite map_length, seq_length. split; [reflexivity|].
  intros i Hi. match goal with |- context [map ?f _] => set (F := f) end.
  assert (E : nth i (map F (seq 0 (length (data t)))) 0%Q = F i).
  { rewrite (nth_indep _ 0%Q (F 0%nat)) by (rewrite map_length, seq_length; exact Hi). rewrite map_nth, seq_nth by exact Hi. reflexivity. }
  rewrite E. unfold F. split.
  - intros Hz. destruct (_ && _)%bool; [exact Hz|]. rewrite Hz. reflexivity.
  - intros A B. apply Z.leb_le in A, B. rewrite A, B. reflexivity.
Qed.
(** 20 s of data, with a pulse around 10 s in the L component *)
Definition ex_pulse : list Q := map (fun i => if Nat.eqb i 9 then 1%Q else if Nat.eqb i 10 then 4%Q else if Nat.eqb i 11 then (-2)%Q else 0%Q) (seq 0 20).
Definition ex_noisy : list Q := map (fun i => inject_Z (Z.of_nat (i * i mod 7))) (seq 0 20).
Definition ex_eheap : heap := fun l => match l with
  | O => mkTrace (mkStats "CX" "PB01" "" "BHQ" 0 1000000000 [("onset", VTime 10300000000)]) ex_noisy
  | _ => mkTrace (mkStats "CX" "PB01" "" "BHL" 0 1000000000 [("onset", VTime 10300000000)]) ex_pulse
  end.
Example C99_nonvacuous : computes_waterlevel (1 / 1000) (fun n => n) (1 / 20) (Some 2) (rate_of 1000000000) (ex_water (1 / 1000)) /\
  exists h', deconvolve (ex_water (1 / 1000)) ex_taper "freq" "LZ" None (WStr "P") None [0; 1]%nat ex_eheap = (h', Ok [0; 1]%nat) /\
    unit_peak (1 / 1000) (ex_eheap 1%nat) (h' 1%nat) 10000000000.
Proof.
  assert (K : computes_waterlevel (1 / 1000) (fun n => n) (1 / 20) (Some 2) (rate_of 1000000000) (ex_water (1 / 1000))).
  { intros c ds its i out _ Hn Hk E. unfold ex_water in Hk. rewrite Hn, E in Hk. injection Hk as <- _. apply near_up_to. lra. }
  split; [exact K|].
  assert (D : exists h', deconvolve (ex_water (1 / 1000)) ex_taper "freq" "LZ" None (WStr "P") None [0; 1]%nat ex_eheap = (h', Ok [0; 1]%nat)).
  { assert (T : forall c, exists ds its, ex_water (1 / 1000) c = Ok (ds, its)).
    { intros c. unfold ex_water. destruct (k_norm c) as [[i|]|]; eauto. destruct (deconv_waterlevel _ _ _ _ _ _ _ _ _ _ _) as [[]|]; eauto. }
    assert (G : forall kernel, (forall c, exists ds its, kernel c = Ok (ds, its)) ->
      exists h', deconvolve kernel ex_taper "freq" "LZ" None (WStr "P") None [0; 1]%nat ex_eheap = (h', Ok [0; 1]%nat)).
    { intros kernel HT. enough (snd (deconvolve kernel ex_taper "freq" "LZ" None (WStr "P") None [0; 1]%nat ex_eheap) = Ok [0; 1]%nat) as HS.
      - destruct (deconvolve _ _ _ _ _ _ _ _ _) as [h' x]. cbn [snd] in HS. exists h'. rewrite HS. reflexivity.
      - vm_compute. match goal with |- context [kernel ?c] => destruct (HT c) as (ds & its & ->) end. reflexivity. }
    apply G, T. }
  destruct D as (h' & D). exists h'. split; [exact D|].
  refine (C99_waterlevel (1 / 1000) (fun n => n) (1 / 20) (Some 2) _ ex_taper "freq" "LZ" None (WStr "P") [0; 1]%nat ex_eheap 1%nat [0; 1]%nat 1%nat h' _ 10300000000
    10000000000 (- (10000000000 - 0)) (19000000000 - 10000000000) 5000000000 _ _ _ ex_tapers _ K _ _ _ _ _ _ _ _ _ _ _ _ _ _ _ D).
  - intros m. lia.
  - lra.
  - intros F. inversion F. lra.
  - reflexivity.
  - right; left; reflexivity.
  - intros l [<-|[<-|[]]]; discriminate.
  - exists (selp ex_eheap "LZ"). split; [intros; apply selp_spec | reflexivity].
  - reflexivity.
  - repeat constructor; cbn; intuition discriminate.
  - reflexivity.
  - intros l [= <-]. reflexivity.
  - reflexivity.
  - vm_compute. split; discriminate.
  - exists 10%nat. split; [cbn; lia|]. split; [reflexivity|]. cbn. lia.
  - apply WinWaterP. right; left; reflexivity.
  - lia.
  - cbn. lia.
  - cbn. exists (-10)%Z. reflexivity.
  - split.
    + intros i Hi Hz. cbn in Hi. do 20 (destruct i as [|i]; [try (exfalso; apply Hz; reflexivity); cbn; lia|]). lia.
    + exists 10%nat. split; [cbn; lia | discriminate].
Qed.
