(** C04-C06: RFStream.stack (rf/rfstream.py:393-430). [ids] is any iteration
    order of the set of ids ([set_order ids s]). *)
From Verif Require Import Model.Stack Spec.MeanSpec Spec.TraceSpec Proofs.StackFacts.

(** C04. One trace per distinct id, in the iteration order of the set, each the
    sample-wise mean of the traces with that id; ValueError for unequal lengths
    in one id, IndexError for the empty stream.
    Guards: codes without dots (otherwise the id does not split in 4 parts),
    onsets are times. *)
Theorem C04_stack_mean :
  (forall s ids,
    s <> [] -> set_order ids s -> Forall no_dots s -> Forall onset_is_time s ->
    ((forall t u, In t s -> In u s -> tr_id t = tr_id u -> List.length (data t) = List.length (data u)) ->
     exists out, stack ids s = Ok out /\ map tr_id out = ids /\
       forall o, In o out ->
         is_mean (map data (filter (fun t => String.eqb (tr_id t) (tr_id o)) s)) (data o)) /\
    ((exists t u, In t s /\ In u s /\ tr_id t = tr_id u /\ List.length (data t) <> List.length (data u)) ->
     stack ids s = Err ValueError)) /\
  (forall ids, stack ids [] = Err IndexError).
Proof. exact (conj stack_spec (fun _ => eq_refl)). Qed.
Print Assumptions C04_stack_mean.

(** C05. The stacked samples of an id depend neither on the order of the traces
    nor on the iteration order of the id set. *)
Theorem C05_stack_order :
  forall s1 s2 ids1 ids2 out1 out2,
  Permutation s1 s2 -> set_order ids1 s1 -> set_order ids2 s2 -> Forall no_dots s1 -> Forall onset_is_time s1 ->
  stack ids1 s1 = Ok out1 -> stack ids2 s2 = Ok out2 ->
  (forall i, In i (map tr_id out1) <-> In i (map tr_id out2)) /\
  forall o1 o2, In o1 out1 -> In o2 out2 -> tr_id o1 = tr_id o2 -> Forall2 Qeq (data o1) (data o2).
Proof. exact stack_perm. Qed.
Print Assumptions C05_stack_order.

(** A stream with two stations. *)
Definition sta (name : string) (dt : Z) (lat : Q) (onset : Z) (d : list Q) : trace :=
  mkTrace (mkStats "CX" name "" "BHQ" 100 dt
            [("station_latitude", VNum lat); ("onset", VTime onset); ("phase", VStr "P")]) d.
Definition two_stations :=
  [sta "PB01" 1 (-21) 102 [1;2]%Q; sta "PB02" 2 (-24) 106 [3;4;5]%Q; sta "PB01" 1 (-21) 102 [3;4]%Q].
Example C04_nonvacuous :
  set_order ["CX.PB02..BHQ"; "CX.PB01..BHQ"] two_stations /\
  Forall no_dots two_stations /\ Forall onset_is_time two_stations /\
  exists o1 o2, stack ["CX.PB02..BHQ"; "CX.PB01..BHQ"] two_stations = Ok [o1; o2] /\
    Forall2 Qeq (data o1) [3;4;5]%Q /\ Forall2 Qeq (data o2) [2;3]%Q.
Proof.
  split; [|split; [|split]].
  - split; [repeat constructor; simpl; intuition discriminate|].
    intros i. simpl. intuition.
  - repeat constructor.
  - repeat constructor; intros v H; inversion H; eauto.
  - do 2 eexists. split; [vm_compute; reflexivity|]. split; repeat constructor.
Qed.

(** C06 is violated: the metadata are taken from the first trace of the stream
    (line 406), not from the traces of the id. Witness: the stack of station PB02
    gets coordinates, sampling interval and onset offset of PB01. *)
Theorem C06_stack_metadata_refuted :
  exists s ids out o, set_order ids s /\ Forall no_dots s /\ stack ids s = Ok out /\ In o out /\
    forall t, In t s -> tr_id t = tr_id o ->
      dget (extra (st o)) "station_latitude" <> dget (extra (st t)) "station_latitude" /\
      delta (st o) <> delta (st t) /\
      (exists a b, dget (extra (st o)) "onset" = Some (VTime a) /\ dget (extra (st t)) "onset" = Some (VTime b) /\
                   (a - starttime (st o) <> b - starttime (st t))%Z).
Proof.
  exists two_stations, ["CX.PB02..BHQ"; "CX.PB01..BHQ"].
  eexists. eexists. split; [apply C04_nonvacuous|]. split; [repeat constructor|].
  split; [vm_compute; reflexivity|]. split; [left; reflexivity|].
  intros t Ht Hid. simpl in Ht. destruct Ht as [<-|[<-|[<-|[]]]]; vm_compute in Hid; try discriminate.
  split; [vm_compute; intros H; discriminate H|]. split; [vm_compute; intros H; discriminate H|].
  exists 2%Z, 106%Z. repeat split. vm_compute. intros H; discriminate H.
Qed.
Print Assumptions C06_stack_metadata_refuted.

(** What the code does: every stacked trace gets sampling interval, the six
    entries and the onset offset of the first trace of the stream. Hence C06
    holds exactly for streams in which the traces of every id agree with the
    first trace of the stream. *)
Theorem C06_stack_metadata_partial :
  forall tr rest ids out,
  set_order ids (tr :: rest) -> Forall no_dots (tr :: rest) -> stack ids (tr :: rest) = Ok out ->
  forall o, In o out ->
    delta (st o) = delta (st tr) /\
    (forall e, In e ["phase"; "moveout"; "station_latitude"; "station_longitude"; "station_elevation"; "processing"] ->
       dget (extra (st o)) e = dget (extra (st tr)) e) /\
    match dget (extra (st tr)) "onset" with
    | Some (VTime t) => exists t', dget (extra (st o)) "onset" = Some (VTime t') /\
                                   (t' - starttime (st o) = t - starttime (st tr))%Z
    | _ => dget (extra (st o)) "onset" = None
    end.
Proof. exact stack_header. Qed.
Print Assumptions C06_stack_metadata_partial.
