(** Least squares problems, harmonics in back azimuth and the layout of the result. *)
From Verif Require Import Model.Harmonics.
Open Scope R_scope.

(** ** the solution of a least squares problem with n unknowns: smallest misfit, and among
    these the smallest norm *)
Definition misfit_of (J : list (list R)) (v x : list R) : R :=
  rsum (length J) (fun i => (dot (nth i J []) x - nth i v 0) ^ 2).
Definition is_lstsq (n : nat) (J : list (list R)) (v x : list R) : Prop :=
  length x = n /\
  (forall y, length y = n -> misfit_of J v x <= misfit_of J v y) /\
  (forall y, length y = n -> misfit_of J v y = misfit_of J v x -> dot x x <= dot y y).
Definition correct_lstsq (lstsq : list (list R) -> list R -> list R) : Prop :=
  forall n J v, (forall row, In row J -> length row = n) -> J <> [] -> length v = length J -> is_lstsq n J v (lstsq J v).
(** the same for complex data *)
Definition cdot (row : list R) (x : list cplx) : cplx := csum (length x) (fun k => Cscal (nth k row 0) (nth k x Czero)).
Definition cmisfit_of (J : list (list R)) (v x : list cplx) : R :=
  rsum (length J) (fun i => Cnorm2 (Csub (cdot (nth i J []) x) (nth i v Czero))).
Definition cnorm2 (x : list cplx) : R := rsum (length x) (fun k => Cnorm2 (nth k x Czero)).
Definition is_clstsq (n : nat) (J : list (list R)) (v x : list cplx) : Prop :=
  length x = n /\
  (forall y, length y = n -> cmisfit_of J v x <= cmisfit_of J v y) /\
  (forall y, length y = n -> cmisfit_of J v y = cmisfit_of J v x -> cnorm2 x <= cnorm2 y).
Definition correct_clstsq (clstsq : list (list R) -> list cplx -> list cplx) : Prop :=
  forall n J v, (forall row, In row J -> length row = n) -> J <> [] -> length v = length J -> is_clstsq n J v (clstsq J v).

(** ** harmonics: c = [constant; cos; sin; cos2; sin2], b and azim in degrees *)
Definition cosd (x : R) : R := cos (x * PI / 180).
Definition sind (x : R) : R := sin (x * PI / 180).
Definition harmonic (azim : R) (c : list R) (b : R) : R :=
  nth 0 c 0 + nth 1 c 0 * cosd (b - azim) + nth 2 c 0 * sind (b - azim)
  + nth 3 c 0 * cosd (2 * (b - azim)) + nth 4 c 0 * sind (2 * (b - azim)).
(** two components: c are the modelled terms followed by the unmodelled terms (Park and Levin 2016);
    the T component is that of the R component turned by 90 and 45 degrees *)
Definition harmonic_R (s : R * R) (azim : R) (c : list R) (b : R) : R :=
  fst s * nth 0 c 0
  + (nth 1 c 0 + nth 6 c 0) * cosd (b - azim) + (nth 2 c 0 + nth 7 c 0) * sind (b - azim)
  + (nth 3 c 0 + nth 8 c 0) * cosd (2 * (b - azim)) + (nth 4 c 0 + nth 9 c 0) * sind (2 * (b - azim)).
Definition harmonic_T (s : R * R) (azim : R) (c : list R) (b : R) : R :=
  snd s * nth 5 c 0
  + (nth 1 c 0 - nth 6 c 0) * cosd (b - azim + 90) + (nth 2 c 0 - nth 7 c 0) * sind (b - azim + 90)
  + (nth 3 c 0 - nth 8 c 0) * cosd (2 * (b - azim + 45)) + (nth 4 c 0 - nth 9 c 0) * sind (2 * (b - azim + 45)).
(** coefficients for another azimuth *)
Definition turned (azim : R) (c : list R) : list R :=
  [nth 0 c 0;
   nth 1 c 0 * cosd azim + nth 2 c 0 * sind azim; nth 2 c 0 * cosd azim - nth 1 c 0 * sind azim;
   nth 3 c 0 * cosd (2 * azim) + nth 4 c 0 * sind (2 * azim); nth 4 c 0 * cosd (2 * azim) - nth 3 c 0 * sind (2 * azim)].

(** at least five different back azimuths *)
Definition different (a b : R) : Prop := forall k : Z, a - b <> 360 * IZR k.
Definition five_azimuths (bazs : list R) : Prop :=
  exists l, length l = 5%nat /\ incl l bazs /\ ForallOrdPairs different l.

(** ** receiver functions of a stream *)
Definition is_comp (c : ascii) (t : htrace) : bool :=
  match last_char (channel (ht_st t)) with Some a => Ascii.eqb (upper_char a) c | None => false end.
Definition rfs (c : ascii) (s : list htrace) : list htrace := filter (is_comp c) s.
Definition has_baz (t : htrace) (b : R) : Prop :=
  exists q, dget (extra (ht_st t)) "back_azimuth" = Some (VNum q) /\ b = Q2R q.
Definition baz_of (t : htrace) : R :=
  match dget (extra (ht_st t)) "back_azimuth" with Some (VNum q) => Q2R q | _ => 0 end.
Definition time_of (t : htrace) : option value := dget (extra (ht_st t)) "event_time".
Definition sample (i : nat) (t : htrace) : R := nth i (ht_data t) 0.
(** the coefficients for sample i *)
Definition coefficients (i : nat) (out : list htrace) : list R := map (sample i) out.

Definition rsum_list {A} (f : A -> R) (l : list A) : R := fold_right (fun x a => f x + a) 0 l.
(** misfit of one component *)
Definition misfit1 (azim : R) (trs : list htrace) (i : nat) (c : list R) : R :=
  rsum_list (fun t => (harmonic azim c (baz_of t) - sample i t) ^ 2) trs.
(** misfit of pairs of components *)
Definition misfit2 (s : R * R) (azim : R) (pairs : list (htrace * htrace)) (i : nat) (c : list R) : R :=
  rsum_list (fun p => (harmonic_R s azim c (baz_of (fst p)) - sample i (fst p)) ^ 2
                    + (harmonic_T s azim c (baz_of (fst p)) - sample i (snd p)) ^ 2) pairs.

(** the events of two components are the same, each once *)
Definition same_events (rs ts : list htrace) : Prop :=
  NoDup (map time_of rs) /\ NoDup (map time_of ts) /\ forall k, In k (map time_of rs) <-> In k (map time_of ts).
(** pairs of components of the same event *)
Definition pairing (rs ts : list htrace) (pairs : list (htrace * htrace)) : Prop :=
  Permutation (map fst pairs) rs /\ Permutation (map snd pairs) ts /\
  forall p, In p pairs -> time_of (fst p) = time_of (snd p).
