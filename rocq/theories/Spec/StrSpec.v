(** Words for C141: what the text of a trace shows. *)
From Verif Require Import Model.Trace.

Definition no_braces (s : string) : Prop := forall a, In a (list_ascii_of_string s) -> a <> "{"%char /\ a <> "}"%char.
(** headers which are shown if they are set: name, text before, digits after the point, text after *)
Definition shown_headers : list (string * string * nat * string) :=
  [("event_magnitude", "mag:", 1, ""); ("distance", "dist:", 1, ""); ("back_azimuth", "baz:", 1, "");
   ("box_pos", "pos:", 2, "km"); ("slowness", "slow:", 2, "")]%string%nat.
(** they are numbers *)
Definition numbers (t : trace) : Prop :=
  forall k pre d post v, In (k, pre, d, post) shown_headers -> tr_get t k = Some v -> exists q, v = VNum q.

Section S.
  Variable str_of : value -> string.
  Variable fixed : nat -> Q -> string.
  (** the texts of the headers which are set, in this order *)
  Definition header_texts (t : trace) : list string :=
    flat_map (fun row => match row with (k, pre, d, post) =>
                match tr_get t k with Some (VNum q) => [(pre ++ fixed d q ++ post)%string] | _ => [] end end) shown_headers.
  Definition moveout_text (t : trace) : list string :=
    match tr_get t "moveout" with Some v => [("(" ++ str_of v ++ " moveout)")%string] | None => [] end.
  Definition masked_text (masked : bool) : list string := if masked then ["(masked)"%string] else [].
  (** times of the first and last sample relative to the onset, in seconds *)
  Definition window_text (t : trace) (onset : Z) : string :=
    (fixed 1 (inject_Z (starttime (st t) - onset) / inject_Z 1000000000)%Q ++ "s - " ++
     fixed 1 (inject_Z (endtime t - onset) / inject_Z 1000000000)%Q ++ "s")%string.
End S.
(** what stands for the trace at the beginning *)
Inductive label_text (t : trace) : string -> Prop :=
| LtId : tr_get t "type" = None \/ tr_get t "type" = Some VNone -> label_text t (tr_id t)
| LtType ty m : tr_get t "type" = Some (VStr ty) ->
    ((tr_get t "phase" = None \/ tr_get t "phase" = Some VNone) /\ m = ""%string \/
     exists p a, tr_get t "phase" = Some (VStr (p ++ String a "")) /\ m = upper (String a "")) ->
    label_text t (m ++ "rf" ++ (if String.eqb ty "rf" then "" else " " ++ ty) ++
                  (if String.prefix "..." (tr_id t) then " (" ++ match last_char (channel (st t)) with Some a => String a "" | None => "." end ++ ")"
                   else " " ++ tr_id t))%string.
