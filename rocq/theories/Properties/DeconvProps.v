(** C24, C25: the driver deconvolve(). Kernels and tapering are arbitrary. *)
From Verif Require Import Model.Deconv Spec.RfSpec Spec.TimeSpec Spec.DeconvSpec Proofs.DeconvFacts.

(** C24: the three rejections leave every trace unchanged. *)
Theorem C24_unknown_method kernel taper m source response w norm ls h : ~ supported m ->
  deconvolve kernel taper m source response w norm ls h = (h, Err NotImplementedError).
Proof. exact (dec_unknown kernel taper m source response w norm ls h). Qed.
Print Assumptions C24_unknown_method.
Theorem C24_one_source kernel taper m source response w norm ls h sel :
  supported m -> channels_set h ls -> selected h source ls sel -> List.length sel <> 1 ->
  deconvolve kernel taper m source response w norm ls h = (h, Err ValueError).
Proof. exact (dec_sources kernel taper m source response w norm ls h sel). Qed.
Print Assumptions C24_one_source.
Theorem C24_three_responses kernel taper m source response w norm ls h src rsp :
  supported m -> channels_set h ls -> selected h source ls [src] -> responses h response ls rsp ->
  ~ (1 <= List.length rsp <= 3) ->
  deconvolve kernel taper m source response w norm ls h = (h, Err ValueError).
Proof. exact (dec_responses kernel taper m source response w norm ls h src rsp). Qed.
Print Assumptions C24_three_responses.
(** The returned stream consists of the responses. If the source is among them only
    responses are changed, and of these only data, onset and iterations, even if the
    kernel fails. Missing: source excluded from the responses, see below. *)
Theorem C24_only_responses_partial kernel taper m source response w norm ls h src rsp h' r :
  channels_set h ls -> selected h source ls [src] -> responses h response ls rsp -> In src rsp ->
  deconvolve kernel taper m source response w norm ls h = (h', r) ->
  (forall l, ~ In l rsp -> h' l = h l) /\ (forall l, deconvolved (h l) (h' l)) /\
  (forall r', r = Ok r' -> r' = rsp).
Proof.
  intros Hc Hs Hr Hin E. pose proof (dec_only kernel taper m source response w norm ls h src rsp Hc Hs Hr Hin) as [A B].
  rewrite E in A, B. split; [exact A|]. split; [exact B|]. intros r' ->.
  exact (dec_result kernel taper m source response w norm ls h src rsp h' r' Hc Hs Hr E).
Qed.
Print Assumptions C24_only_responses_partial.
(** Without a normalize argument the results are normalised to the position of the
    source among the responses: the kernel is called with this index only. *)
Theorem C24_normalize_index kernel kernel' taper m source response w ls h src rsp i :
  channels_set h ls -> selected h source ls [src] -> responses h response ls rsp -> NoDup rsp ->
  nth_error rsp i = Some src ->
  (forall c, k_norm c = Some (Some i) -> kernel c = kernel' c) ->
  deconvolve kernel taper m source response w None ls h = deconvolve kernel' taper m source response w None ls h.
Proof. exact (dec_normalize kernel kernel' taper m source response w ls h src rsp i). Qed.
Print Assumptions C24_normalize_index.

Definition ex_d (cha : string) : trace :=
  mkTrace (mkStats "CX" "PB01" "" cha 0 1000000000 [("onset", VTime 1600000000)]) [1; 2; 3; 4; 5]%Q.
Definition ex_dheap : heap := fun l => ex_d (match l with 0 => "BHZ" | 1 => "BHQ" | _ => "BHT" end).
Definition ex_kernel (c : kcall) : res (list (list Q) * list Z) := Ok (map (fun _ => k_src c) (k_rsp c), [7%Z; 7%Z; 7%Z]).
Definition ex_dec resp := deconvolve ex_kernel (fun _ t => t) "time" "LZ" resp (WTuple (-1000000000) 1000000000 0) None [0; 1] ex_dheap.
(** Refuted: with the source excluded from the responses the trace of the user's
    stream that holds the source is cut to the source window. *)
Theorem C24_source_changed_refuted :
  exists h', ex_dec (Some "QT") = (h', Ok [1]) /\ data (h' 0) <> data (ex_dheap 0) /\
    data (h' 0) = [2; 3; 4]%Q /\ starttime (st (h' 0)) = 1000000000%Z.
Proof. eexists. split; [vm_compute; reflexivity|]. split; [|split; reflexivity]. vm_compute. discriminate. Qed.
Print Assumptions C24_source_changed_refuted.
Example C24_nonvacuous :
  selected ex_dheap "LZ" [0; 1] [0] /\ channels_set ex_dheap [0; 1] /\ supported "freq" /\
  exists h', ex_dec None = (h', Ok [0; 1]) /\ data (h' 0) = [2; 3; 4]%Q /\ data (h' 1) = [2; 3; 4]%Q.
Proof.
  split; [|split; [|split]].
  - exists (selp ex_dheap "LZ"). split; [intros; apply selp_spec | reflexivity].
  - intros l [<-|[<-|[]]]; discriminate.
  - cbn; tauto.
  - eexists. split; [vm_compute; reflexivity|]. split; reflexivity.
Qed.

(** C25: an onset inside the source trace is moved to its nearest sample time (the
    later one of two), i.e. by at most delta/2, for source and responses. *)
Theorem C25_onset_snapped kernel taper m source response w norm ls h src rsp h' r o :
  channels_set h ls -> (forall w t, st (taper w t) = st t) ->
  selected h source ls [src] -> responses h response ls rsp ->
  (0 < delta (st (h src)))%Z -> onset_of (h src) o ->
  (starttime (st (h src)) <= o <= endtime (h src))%Z -> data (h src) <> [] ->
  deconvolve kernel taper m source response w norm ls h = (h', Ok r) ->
  exists o', nearest_sample (h src) o o' /\ onset_of (h' src) o' /\ (forall l, In l rsp -> onset_of (h' l) o').
Proof. exact (dec_onset kernel taper m source response w norm ls h src rsp h' r o). Qed.
Print Assumptions C25_onset_snapped.
(** On the array of sample times: no onset inside fails. *)
Theorem C25_nearest (d v : Z) (n : nat) : (0 < d)%Z -> (0 <= v <= (Z.of_nat n - 1) * d)%Z ->
  exists i, find_nearest (map (fun i => Z.of_nat i * d)%Z (seq 0 n)) v = Ok i /\ i < n /\
    (2 * (Z.of_nat i * d - v) <= d)%Z /\ (2 * (v - Z.of_nat i * d) < d)%Z.
Proof. exact (find_nearest_spec d v n). Qed.
Print Assumptions C25_nearest.
(** Outside: after the last sample IndexError; before the first sample the first. *)
Theorem C25_after_end (d v : Z) (n : nat) : (0 < d)%Z -> ((Z.of_nat n - 1) * d < v)%Z ->
  find_nearest (map (fun i => Z.of_nat i * d)%Z (seq 0 n)) v = Err IndexError.
Proof. exact (find_nearest_after d v n). Qed.
Theorem C25_before_start (d v : Z) (n : nat) : (0 < d)%Z -> (v < 0)%Z -> 0 < n ->
  find_nearest (map (fun i => Z.of_nat i * d)%Z (seq 0 n)) v = Ok 0.
Proof. exact (find_nearest_before d v n). Qed.
Print Assumptions C25_before_start.
Example C25_nonvacuous : onset_of (ex_dheap 0) 1600000000 /\
  (let s := ex_dheap 0 in (starttime (st s) <= 1600000000 <= endtime s)%Z) /\
  exists h', ex_dec None = (h', Ok [0; 1]) /\ onset_of (h' 1) 2000000000.
Proof.
  split; [reflexivity|]. split; [cbn; lia|]. eexists. split; [vm_compute; reflexivity|]. reflexivity.
Qed.

(** C96. deconvolve() calls the underlying function with the unchanged data of all
    responses, with the source cut to the window around the onset of the data sample,
    padded with zeros and tapered, and with the time between the start of the window and
    the onset (with the opposite sign for multitaper, which expects it, see C95), and stores its
    results in the responses (for iterative deconvolution also the number of iterations). The window is the given one, or the
    default for method and type of receiver function. *)
Theorem C96_source_window kernel taper m source response w norm ls h src rsp h' r o : channels_set h ls ->
  selected h source ls [src] -> responses h response ls rsp -> NoDup rsp ->
  (0 < delta (st (h src)))%Z -> onset_of (h src) o -> (starttime (st (h src)) <= o <= endtime (h src))%Z -> List.length (data (h src)) <> 0 ->
  deconvolve kernel taper m source response w norm ls h = (h', Ok r) ->
  exists o' a b tap cut c ds its,
    nearest_sample (h src) o o' /\
    window_for m (o' - starttime (st (h src))) (endtime (h src) - o') w a b tap /\
    ((a + delta (st (h src)) <= b)%Z -> cut_padded (h src) cut (o' + a) (o' + b)) /\
    k_method c = (if String.eqb m "freq" then "waterlevel" else m) /\
    k_rsp c = map (fun l => data (h l)) rsp /\ k_src c = data (taper tap cut) /\ k_tshift c = (if String.eqb m "multitaper" then a else - a)%Z /\
    (2 * Z.abs (k_shift c * delta (st (h src)) - (- a - Z.of_nat (List.length (k_src c)) / 2 * delta (st (h src)))) <= delta (st (h src)))%Z /\
    match norm with
    | Some n => k_norm c = Some n
    | None => (forall i, nth_error rsp i = Some src -> k_norm c = Some (Some i)) /\ (~ In src rsp -> k_norm c = None)
    end /\
    kernel c = Ok (ds, its) /\
    (forall i l d, nth_error rsp i = Some l -> nth_error ds i = Some d -> data (h' l) = d) /\
    (m = "iterative" -> forall i l n, nth_error rsp i = Some l -> nth_error its i = Some n -> dget (extra (st (h' l))) "iterations" = Some (VNum (inject_Z n))).
Proof. exact (dec_call kernel taper m source response w norm ls h src rsp h' r o). Qed.
Print Assumptions C96_source_window.
(** Data of 101 s with the onset at 40.4 s, S receiver functions by spectral division:
    the window starts 10 s before sample 40 and ends with the data. *)
Definition ex_long (cha : string) : trace :=
  mkTrace (mkStats "CX" "PB01" "" cha 0 1000000000 [("onset", VTime 40400000000)]) (map (fun i => inject_Z (Z.of_nat i)) (seq 0 101)).
Definition ex_lheap : heap := fun l => ex_long (match l with 0 => "BHQ" | 1 => "BHL" | _ => "BHT" end).
Example C96_nonvacuous :
  selected ex_lheap "QR" [0; 1] [0] /\ channels_set ex_lheap [0; 1] /\
  (let s := ex_lheap 0 in (starttime (st s) <= 40400000000 <= endtime s)%Z) /\
  exists h', deconvolve ex_kernel (fun _ t => t) "freq" "QR" None (WStr "S") None [0; 1] ex_lheap = (h', Ok [0; 1]) /\
  onset_of (h' 1) 40000000000 /\ data (h' 1) = map (fun i => inject_Z (Z.of_nat i)) (seq 30 71).
Proof.
  split; [|split; [|split]].
  - exists (selp ex_lheap "QR"). split; [intros; apply selp_spec | reflexivity].
  - intros l [<-|[<-|[]]]; discriminate.
  - vm_compute. split; discriminate.
  - eexists. split; [vm_compute; reflexivity|]. split; vm_compute; reflexivity.
Qed.

(** a deconvolution function whose result is the noise *)
Definition ex_nkernel (c : kcall) : res (list (list Q) * list Z) := Ok (k_noise c, []).
(** C97. Without the argument noise the noise for multitaper deconvolution are, for each
    response, the samples from the start up to 5 s before the onset. Not so if the responses do not
    start at the same time, or with less than 5 s before the onset, see below. *)
Theorem C97_noise_partial kernel taper source response w norm ls h src rsp r0 h' r o : channels_set h ls ->
  (forall w t, st (taper w t) = st t) ->
  selected h source ls [src] -> responses h response ls rsp -> nth_error rsp 0 = Some r0 ->
  (forall l, In l rsp -> starttime (st (h l)) = starttime (st (h r0)) /\ (0 < delta (st (h l)))%Z /\ List.length (data (h l)) <> 0) ->
  (0 < delta (st (h src)))%Z -> onset_of (h src) o -> (starttime (st (h src)) <= o <= endtime (h src))%Z -> List.length (data (h src)) <> 0 ->
  deconvolve kernel taper "multitaper" source response w norm ls h = (h', Ok r) ->
  exists o' c ds its, nearest_sample (h src) o o' /\ kernel c = Ok (ds, its) /\
    Forall2 (fun l d => samples_until (h l) (o' - 5000000000) d) rsp (k_noise c) /\
    forall i l d, NoDup rsp -> nth_error rsp i = Some l -> nth_error ds i = Some d -> data (h' l) = d.
Proof. exact (dec_noise kernel taper source response w norm ls h src rsp r0 h' r o). Qed.
Print Assumptions C97_noise_partial.
(** In general the window begins for all responses at the start of the first one; responses without
    data in this window are left out. *)
Theorem C97_window kernel taper source response w norm ls h src rsp r0 h' r o : channels_set h ls ->
  (forall w t, st (taper w t) = st t) ->
  selected h source ls [src] -> responses h response ls rsp -> nth_error rsp 0 = Some r0 ->
  (forall l, In l rsp -> (0 < delta (st (h l)))%Z) ->
  (0 < delta (st (h src)))%Z -> onset_of (h src) o -> (starttime (st (h src)) <= o <= endtime (h src))%Z -> List.length (data (h src)) <> 0 ->
  deconvolve kernel taper "multitaper" source response w norm ls h = (h', Ok r) ->
  exists o' c ds its, nearest_sample (h src) o o' /\ kernel c = Ok (ds, its) /\
    (starttime (st (h r0)) <= o' - 5000000000)%Z /\
    (exists ws, Forall2 (fun l d => samples_between (h l) (starttime (st (h r0))) (o' - 5000000000) d) rsp ws /\
       k_noise c = filter (fun d => negb (List.length d =? 0)) ws) /\
    forall i l d, NoDup rsp -> nth_error rsp i = Some l -> nth_error ds i = Some d -> data (h' l) = d.
Proof. exact (dec_noise_window kernel taper source response w norm ls h src rsp r0 h' r o). Qed.
Print Assumptions C97_window.
(** Refuted: the second response starts after the noise window, and the noise of the third one is passed
    in its place. The third response starts 2 s before the first one, these 2 s are not used. *)
Definition ex_starts : heap := fun l =>
  let t := ex_long (match l with 0 => "BHQ" | 1 => "BHL" | _ => "BHT" end) in
  set_starttime t (match l with O => 0 | S O => 38000000000 | _ => -2000000000 end)%Z.
Theorem C97_starts_refuted : exists h',
  deconvolve ex_nkernel (fun _ t => t) "multitaper" "QR" (Some "QLT") (WStr "S") None [0; 1; 2] ex_starts = (h', Ok [0; 1; 2]) /\
  data (h' 1) = map (fun i => inject_Z (Z.of_nat i)) (seq 2 36) /\
  (forall d, samples_until (ex_starts 1) 35000000000 d -> d = []) /\
  ~ samples_until (ex_starts 2) 35000000000 (data (h' 1)).
Proof.
  eexists. split; [vm_compute; reflexivity|]. split; [vm_compute; reflexivity|]. split.
  - intros d (n & E & L & _ & B). destruct n as [|n]; [exact E|]. exfalso. specialize (B 0 ltac:(lia)). vm_compute in B. apply B. reflexivity.
  - intros (n & E & L & _ & _). apply (f_equal (hd 0%Q)) in E. destruct n; vm_compute in E; discriminate.
Qed.
Print Assumptions C97_starts_refuted.
(** Refuted: with less than 5 s of data before the onset deconvolve() fails, whatever the
    deconvolution function does; the onsets have been changed already. *)
Theorem C97_refuted kernel : exists h',
  deconvolve kernel (fun _ t => t) "multitaper" "LZ" None (WTuple (-1000000000) 1000000000 0) None [0; 1] ex_dheap = (h', Err ValueError) /\
  onset_of (h' 1) 2000000000.
Proof. eexists. split; [vm_compute; reflexivity|]. reflexivity. Qed.
Print Assumptions C97_refuted.
(** The kernel is called with the first 36 samples of both traces as noise. *)
Example C97_nonvacuous : exists h',
  deconvolve ex_nkernel (fun _ t => t) "multitaper" "QR" (Some "QLT") (WStr "S") None [0; 1] ex_lheap = (h', Ok [0; 1]) /\
  data (h' 0) = map (fun i => inject_Z (Z.of_nat i)) (seq 0 36) /\ data (h' 1) = data (h' 0).
Proof. eexists. split; [vm_compute; reflexivity|]. split; vm_compute; reflexivity. Qed.
