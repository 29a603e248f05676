(** C21 - C23: relative times, trim2, slice2. *)
From Verif Require Import Model.Times Spec.TimeSpec Proofs.TimeFacts.

(** C21: for every stream of distinct traces and a <= b, trim2(a, b, reftime)
    leaves on each trace the window [ref + a, ref + b], ref being its own reference
    time, and drops exactly the traces left empty; other traces are not touched. *)
Theorem C21_trim2_window (a b : Z) (r : reft) (ls : list loc) (h : heap) (ref : loc -> Z) :
  NoDup ls -> (a <= b)%Z ->
  (forall l, In l ls -> (0 < delta (st (h l)))%Z /\ own_reference (h l) r (ref l)) ->
  exists h' ls', trim2 (secs a) (secs b) r ls h = (h', Ok ls') /\
    (forall l, In l ls -> window_of (h l) (h' l) (ref l + a) (ref l + b)) /\
    (forall l, ~ In l ls -> h' l = h l) /\
    (exists p : loc -> bool, ls' = filter p ls /\ forall l, p l = true <-> data (h' l) <> []).
Proof. exact (trim2_spec a b r ls h ref). Qed.
Print Assumptions C21_trim2_window.
(** A reversed window is rejected at the first trace. *)
Theorem C21_trim2_reversed (a b : Z) (r : reft) (l0 : loc) (ls : list loc) (h : heap) (ref : Z) :
  (b < a)%Z -> own_reference (h l0) r ref ->
  trim2 (secs a) (secs b) r (l0 :: ls) h = (h, Err ValueError).
Proof. exact (trim2_reversed a b r l0 ls h ref). Qed.
Print Assumptions C21_trim2_reversed.
(** The same for absolute times on one trace. *)
Theorem C21_trim_absolute t lo hi t' : (0 < delta (st t))%Z ->
  trim_rel (STime lo) (STime hi) RNone t = Ok t' -> window_of t t' lo hi.
Proof. exact (trim_window t lo hi t'). Qed.
Print Assumptions C21_trim_absolute.

Definition ex_heap : heap := fun l =>
  mkTrace (mkStats "CX" "PB01" "" "BHZ" 100 10 [("onset", VTime (125 + 30 * Z.of_nat l))])
          [1; 2; 3; 4; 5; 6]%Q.
Example C21_nonvacuous :
  (forall l, In l [0; 1; 9] -> (0 < delta (st (ex_heap l)))%Z /\
     own_reference (ex_heap l) (RKey "onset") (125 + 30 * Z.of_nat l)) /\
  (let '(h', r) := trim2 (secs (-10)) (secs 20) (RKey "onset") [0; 1; 9] ex_heap in
   r = Ok [0; 1] /\ data (h' 0) = [3; 4; 5; 6]%Q /\ starttime (st (h' 0)) = 120%Z /\ data (h' 1) = [6]%Q).
Proof.
  split.
  - intros l _. split; [reflexivity|]. constructor. reflexivity.
  - vm_compute. auto.
Qed.

(** C22: slice2 returns the traces trim2 leaves (all of them with
    keep_empty_traces), fails exactly when trim2 fails, and has no access to the
    heap: the stream itself is unchanged. *)
Theorem C22_slice2_is_trim2 a b r ls h h' ls' : NoDup ls ->
  trim2 a b r ls h = (h', Ok ls') ->
  slice2 a b r false ls h = Ok (map h' ls') /\ slice2 a b r true ls h = Ok (map h' ls).
Proof. exact (slice2_trim2 a b r ls h h' ls'). Qed.
Print Assumptions C22_slice2_is_trim2.
Theorem C22_slice2_fails_with_trim2 a b r ls h h' e : NoDup ls -> trim2 a b r ls h = (h', Err e) ->
  forall k, slice2 a b r k ls h = Err e.
Proof. exact (slice2_fails a b r ls h h' e). Qed.
Print Assumptions C22_slice2_fails_with_trim2.
Example C22_nonvacuous :
  exists t u, slice2 (secs (-10)) (secs 20) (RKey "onset") false [0; 1; 9] ex_heap = Ok [t; u] /\
    data t = [3; 4; 5; 6]%Q.
Proof. eexists. eexists. split; [vm_compute; reflexivity | reflexivity]. Qed.

(** C23: seconds are added to the reference time, times and None pass through,
    lists of any nesting are mapped element-wise. *)
Theorem C23_seconds2utc tr r ref s s' : own_reference tr r ref -> resolves ref s s' -> seconds2utc tr r s = Ok s'.
Proof. exact (resolves_ok tr r ref s s'). Qed.
Print Assumptions C23_seconds2utc.
(** Seconds that are no whole number of ns are rounded to the nearest ns. *)
Theorem C23_nearest tr r ref q : own_reference tr r ref ->
  exists t, seconds2utc tr r (SNum q) = Ok (STime t) /\
    (- (1 # 2) < inject_Z (t - ref) - q * inject_Z 1000000000 <= 1 # 2)%Q.
Proof.
  intros Ho. exists (utc_add ref q). split; [|exact (utc_add_nearest ref q)].
  destruct Ho as [z|k z Hk]; cbn [seconds2utc]; [reflexivity|]. rewrite Hk. reflexivity.
Qed.
Print Assumptions C23_nearest.
(** Without reference time nothing is changed; an unknown entry gives KeyError. *)
Theorem C23_no_reference tr q : seconds2utc tr RNone (SNum q) = Ok (SNum q).
Proof. reflexivity. Qed.
Theorem C23_missing_entry tr k q : tr_get tr k = None -> seconds2utc tr (RKey k) (SNum q) = Err KeyError.
Proof. intros H. cbn. rewrite H. reflexivity. Qed.
Print Assumptions C23_missing_entry.
Example C23_nonvacuous :
  own_reference (ex_heap 0) (RKey "onset") 125 /\
  seconds2utc (ex_heap 0) (RKey "onset") (SList [secs 5; SList [SNone; STime 7; secs (-1)]]) =
    Ok (SList [STime 130; SList [SNone; STime 7; STime 124]]).
Proof. split; [constructor; reflexivity | vm_compute; reflexivity]. Qed.
