(** Vocabulary for writing streams. *)
From Verif Require Import Model.Write Spec.HeaderSpec.

(** all code of a trace *)
Definition codes (s : hst) : string * string * string * string := (h_net s, h_sta s, h_loc s, h_cha s).
(** same codes, start time and stats entries: only stats.sac / stats.sh may differ *)
Definition same_visible (a b : hst) : Prop :=
  codes a = codes b /\ h_start a = h_start b /\ h_main a = h_main b.
(** object [i] of the heap is the trace [s] *)
Definition obj (h : hheap) (i : nat) (s : hst) : Prop := nth_error h i = Some s.
(** [t] has exactly the documented entries of [s] and the codes of [s] *)
Definition restored (s t : hst) : Prop :=
  codes t = codes s /\
  (forall e, In e documented -> dget (h_main t) e = dget (h_main s) e) /\
  (forall e, ~ In e documented -> dget (h_main t) e = None).
(** the same without the entries that go to the COMMENT of a Q file *)
Definition restored_but_comment (s t : hst) : Prop :=
  codes t = codes s /\
  (forall e, In e documented -> ~ In e documented_comment -> dget (h_main t) e = dget (h_main s) e) /\
  (forall e, In e documented_comment -> dget (h_main t) e = None) /\
  (forall e, ~ In e documented -> dget (h_main t) e = None).
Definition no_dot (c : string) : Prop := char_in "." c = false.
(** entries for the COMMENT are not times *)
Definition comment_is_plain (s : hst) : Prop :=
  forall e v, In e documented_comment -> dget (h_main s) e = Some v ->
    match v with VTime _ => False | _ => True end.
(** the header, where it is set, is a text *)
Definition text_header (header : string) (s : hst) : Prop :=
  forall v, dget (h_main s) header = Some v -> exists t, v = VStr t.
(** the traces of the stream which have the header have value [v], and there is one *)
Definition common (header v : string) (tr : list hst) : Prop :=
  (exists s, In s tr /\ dget (h_main s) header = Some (VStr v)) /\
  (forall s x, In s tr -> dget (h_main s) header = Some x -> x = VStr v).
(** templates for the paths inside H5 files (rfstream.py:107-111) *)
Definition template_rf : string :=
  "waveforms/{network}.{station}.{location}/{event_time.datetime:%Y-%m-%dT%H:%M:%S}/{channel}_{starttime.datetime:%Y-%m-%dT%H:%M:%S}_{endtime.datetime:%Y-%m-%dT%H:%M:%S}".
Definition template_profile : string := "waveforms/{channel[2]}_{box_pos}".
(** the index template that has to be used for a H5 file; [cur] is the current one *)
Inductive index_for (tr : list hst) (cur : string) : string -> Prop :=
| IxRf : common "type" "rf" tr -> index_for tr cur template_rf
| IxProfile : common "type" "profile" tr -> index_for tr cur template_profile
| IxEvent s tr' : (forall v, ~ common "type" v tr) -> tr = s :: tr' ->
    dget (h_main s) "event_time" <> None -> index_for tr cur template_rf
| IxNone s tr' : (forall v, ~ common "type" v tr) -> tr = s :: tr' ->
    dget (h_main s) "event_time" = None -> index_for tr cur cur.
