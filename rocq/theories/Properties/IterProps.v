(** C01-C03: IterMultipleComponents (rf/util.py:132-164).
    [T] are references to traces, [look] dereferences; [str_of] is Python's
    str() on header values. *)
From Verif Require Import Model.Iter Spec.IterSpec Proofs.IterFacts.

(** C01. Every trace is in exactly one group, groups are exactly the classes of
    [same_group] (non-empty, in stream order), in strictly increasing key order;
    a trace without the entry gives KeyError. *)
Theorem C01_iter_partition :
  forall (T : Type) (look : T -> trace) (str_of : value -> string) (key : option string) (s : list T),
  (Forall (fun x => has_entry key (look x)) s ->
   exists gs, iter_multiple look str_of s key NAny = Ok gs /\
      Permutation (List.concat gs) s /\
      (forall g, In g gs -> exists x, In x g /\
          exists p : T -> bool,
            (forall y, p y = true <-> same_group str_of key (look x) (look y)) /\ g = filter p s) /\
      StronglySorted (fun g h => forall x y, In x g -> In y h ->
                        group_before str_of key (look x) (look y)) gs) /\
  (~ Forall (fun x => has_entry key (look x)) s ->
   forall n, iter_multiple look str_of s key n = Err KeyError).
Proof.
  exact (fun T look str_of key s =>
    conj (iter_multiple_spec look str_of key s)
         (fun H n => iter_multiple_missing look str_of key s n H)).
Qed.
Print Assumptions C01_iter_partition.

(** C02. Two traces that are handed out together agree in network, station and
    location code, in the channel code up to the component letter, and in the printed
    value of the grouping entry, whatever number_components is. *)
Definition clean_codes (t : trace) : Prop :=
  char_in "." (network (st t)) = false /\ char_in "." (station (st t)) = false /\
  char_in "." (location (st t)) = false /\ channel (st t) <> "".
Theorem C02_no_mixing :
  forall (T : Type) (look : T -> trace) (str_of : value -> string) (key : option string) (s : list T)
         (n : ncomp) (gs : list (list T)),
  iter_multiple look str_of s key n = Ok gs ->
  forall g x y, In g gs -> In x g -> In y g ->
  clean_codes (look x) -> clean_codes (look y) ->
  network (st (look x)) = network (st (look y)) /\ station (st (look x)) = station (st (look y)) /\
  location (st (look x)) = location (st (look y)) /\
  droplast (channel (st (look x))) = droplast (channel (st (look y))) /\
  forall k, key = Some k -> exists v w, tr_get (look x) k = Some v /\ tr_get (look y) k = Some w /\ str_of v = str_of w.
Proof.
  intros T look str_of key s n gs E g x y Hg Hx Hy (h1 & h2 & h3 & h7) (h4 & h5 & h6 & h8).
  assert (Hs : Forall (fun x => has_entry key (look x)) s).
  { destruct (Forall_dec (fun x => has_entry key (look x))) with (l := s) as [H|H]; [|exact H|].
    - intros z. unfold has_entry. destruct key as [k|]; [|left; exact I]. destruct (tr_get (look z) k); [left; discriminate | right; congruence].
    - rewrite (iter_multiple_missing look str_of key s n H) in E. discriminate. }
  destruct (iter_multiple_spec look str_of key s Hs) as (gs0 & E0 & _ & Hgs & _).
  rewrite (iter_multiple_filter look str_of key s n gs0 E0) in E. injection E as <-.
  apply filter_In in Hg. destruct Hg as [Hg _]. destruct (Hgs g Hg) as (x0 & _ & p & Hp & ->).
  apply filter_In in Hx. apply filter_In in Hy. destruct Hx as [Sx Px], Hy as [Sy Py].
  apply Hp in Px. apply Hp in Py. destruct Px as [Ax Bx], Py as [Ay By].
  assert (A : droplast (tr_id (look x)) = droplast (tr_id (look y))) by congruence.
  destruct (id_prefix_inj (st (look x)) (st (look y)) h1 h2 h3 h4 h5 h6 h7 h8 A) as (a & b & c & d).
  repeat apply conj; try assumption. intros k ->. rewrite Forall_forall in Hs.
  pose proof (Hs x Sx) as Vx. pose proof (Hs y Sy) as Vy. unfold has_entry in Vx, Vy. rewrite Bx in By. unfold printed in By.
  destruct (tr_get (look x) k) as [v|]; [|congruence]. destruct (tr_get (look y) k) as [w|]; [|congruence].
  exists v, w. repeat split. cbn in By. congruence.
Qed.
Print Assumptions C02_no_mixing.

(** C03. number_components filters the unrestricted iteration by group size. *)
Theorem C03_number_components :
  forall (T : Type) (look : T -> trace) (str_of : value -> string) (key : option string) (s : list T)
         (gs : list (list T)),
  iter_multiple look str_of s key NAny = Ok gs ->
  (forall n, iter_multiple look str_of s key (NInt n) = Ok (filter (fun g => Nat.eqb (List.length g) n) gs)) /\
  (forall l, exists p : list T -> bool,
     (forall g, p g = true <-> In (List.length g) l) /\
     iter_multiple look str_of s key (NTuple l) = Ok (filter p gs)).
Proof.
  exact (fun T look str_of key s gs h =>
    conj (fun n => iter_multiple_filter look str_of key s (NInt n) gs h)
         (fun l => ex_intro _ (fun g => existsb (Nat.eqb (List.length g)) l)
            (conj (fun g => existsb_eqb_in (List.length g) l)
                  (iter_multiple_filter look str_of key s (NTuple l) gs h)))).
Qed.
Print Assumptions C03_number_components.

(** Non-vacuity: two events, Z/N/E, one incomplete. *)
Definition ex_tr (cha : string) (onset : Z) : trace :=
  mkTrace (mkStats "CX" "PB01" "" cha 0 1 [("onset", VTime onset)]) [1%Q].
Definition ex_str (v : value) : string := match v with VTime 1 => "t1" | VTime _ => "t2" | _ => "" end.
Definition ex_stream := [ex_tr "BHZ" 2; ex_tr "BHZ" 1; ex_tr "BHN" 1; ex_tr "BHE" 2; ex_tr "BHE" 1].
Example C01_nonvacuous : Forall (fun x => has_entry (Some "onset") x) ex_stream /\
  iter_multiple (fun x => x) ex_str ex_stream (Some "onset") NAny =
    Ok [[ex_tr "BHZ" 1; ex_tr "BHN" 1; ex_tr "BHE" 1]; [ex_tr "BHZ" 2; ex_tr "BHE" 2]] /\
  iter_multiple (fun x => x) ex_str ex_stream (Some "onset") (NInt 3) =
    Ok [[ex_tr "BHZ" 1; ex_tr "BHN" 1; ex_tr "BHE" 1]] /\
  iter_multiple (fun x => x) ex_str ex_stream (Some "event_time") NAny = Err KeyError.
Proof. repeat split; try (vm_compute; reflexivity). repeat constructor; discriminate. Qed.
Example C02_nonvacuous : exists g, In g [[ex_tr "BHZ" 1; ex_tr "BHN" 1; ex_tr "BHE" 1]] /\
  In (ex_tr "BHZ" 1) g /\ In (ex_tr "BHN" 1) g /\ clean_codes (ex_tr "BHZ" 1) /\ clean_codes (ex_tr "BHN" 1) /\
  iter_multiple (fun x => x) ex_str ex_stream (Some "onset") (NInt 3) = Ok [g].
Proof. eexists. repeat split; try (left; reflexivity); try (right; left; reflexivity); try reflexivity; try discriminate. Qed.
(** The guard on dots is needed: codes with dots can be confused. *)
Example C02_guard_needed :
  same_group ex_str None (mkTrace (mkStats "N" "S." "" "HZ" 0 1 []) [])
                         (mkTrace (mkStats "N" "S" "." "HZ" 0 1 []) []).
Proof. split; reflexivity. Qed.
