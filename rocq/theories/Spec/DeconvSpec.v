(** Vocabulary for deconvolve(). *)
From Verif Require Import Model.Deconv Spec.RfSpec Spec.TimeSpec.

(** the component letter of a trace is one of the letters [comps] *)
Definition has_component (h : heap) (comps : string) (l : loc) : Prop :=
  exists c, last_char (channel (st (h l))) = Some c /\ char_in c comps = true.
(** [sel]: the traces of the stream with one of the component letters, in order *)
Definition selected (h : heap) (comps : string) (ls sel : list loc) : Prop :=
  exists p : loc -> bool, (forall l, p l = true <-> has_component h comps l) /\ sel = filter p ls.
Definition responses (h : heap) (comps : option string) (ls rsp : list loc) : Prop :=
  match comps with None => rsp = ls | Some c => selected h c ls rsp end.
Definition channels_set (h : heap) (ls : list loc) : Prop := forall l, In l ls -> channel (st (h l)) <> "".
Definition supported (m : string) : Prop :=
  In m ["time"; "waterlevel"; "freq"; "iterative"; "multitaper"; "func"].
(** what deconvolve may do to a response: new data, onset, iterations *)
Definition deconvolved (t t' : trace) : Prop :=
  same_frame t' t /\ same_entries_but ["onset"; "iterations"] t' t.
(** o' is the sample time of t nearest to o, the later one of two *)
Definition nearest_sample (t : trace) (o o' : Z) : Prop :=
  exists i, i < List.length (data t) /\ o' = sample_time t i /\
    (2 * (o' - o) <= delta (st t))%Z /\ (2 * (o - o') < delta (st t))%Z.

(** source windows: start, end, length of the taper (ns relative to the onset). [before],
    [after]: length of the data before and after the onset *)
Inductive window_for (m : string) (before after : Z) : winsrc_arg -> Z -> Z -> Z -> Prop :=
| WinGiven a b c : window_for m before after (WTuple a b c) a b c
| WinShort p : In m ["time"; "multitaper"; "func"] -> In p ["P"; "S"] ->
    window_for m before after (WStr p) (-10000000000) 30000000000 5000000000
| WinAll p : m = "iterative" -> In p ["P"; "S"] -> window_for m before after (WStr p) (- before) after 0
| WinWaterP : In m ["waterlevel"; "freq"] -> window_for m before after (WStr "P") (- before) after 5000000000
| WinWaterS : In m ["waterlevel"; "freq"] -> window_for m before after (WStr "S") (-10000000000) after 5000000000.
(** sample number k of t, 0 before the first and after the last sample *)
Definition padded (t : trace) (k : Z) : Q :=
  if (0 <=? k)%Z then nth (Z.to_nat k) (data t) 0%Q else 0%Q.
(** [t'] is [t] between the times lo and hi (rounded to samples), padded with zeros *)
Definition cut_padded (t t' : trace) (lo hi : Z) : Prop :=
  delta (st t') = delta (st t) /\ List.length (data t') <> 0 /\
  exists k, starttime (st t') = (starttime (st t) + k * delta (st t))%Z /\
    (2 * Z.abs (starttime (st t') - lo) <= delta (st t))%Z /\ (2 * Z.abs (endtime t' - hi) <= delta (st t))%Z /\
    forall i, i < List.length (data t') -> nth i (data t') 0%Q = padded t (k + Z.of_nat i).
(** [d]: the first samples of t, up to the time hi (rounded to samples) *)
Definition samples_until (t : trace) (hi : Z) (d : list Q) : Prop :=
  exists n, d = firstn n (data t) /\ List.length d = n /\
    (forall i, i < List.length (data t) -> (sample_time t i <= hi)%Z -> i < n) /\
    (forall i, i < n -> (2 * (sample_time t i - hi) <= delta (st t))%Z).
(** [d]: the samples of t between lo and hi (rounded to samples) *)
Definition samples_between (t : trace) (lo hi : Z) (d : list Q) : Prop :=
  exists k m, d = firstn m (skipn k (data t)) /\ List.length d = m /\
    (forall i, i < List.length (data t) -> (lo <= sample_time t i <= hi)%Z -> k <= i < k + m) /\
    (forall i, k <= i < k + m -> (2 * (lo - sample_time t i) <= delta (st t))%Z /\ (2 * (sample_time t i - hi) <= delta (st t))%Z).
