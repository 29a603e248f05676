(** C141: the text of a trace. *)
From Verif Require Import Model.Str Model.Rfstats Spec.StrSpec Proofs.PyFacts Proofs.StrFacts.
From Coq Require Import Lia.

Lemma last_char_snoc p a : last_char (p ++ String a "") = Some a.
Proof. induction p as [|b p IH]; [reflexivity|]. cbn [append last_char]. destruct (p ++ String a "")%string eqn:E; [destruct p; discriminate | exact IH]. Qed.
Lemma last_char_app_dot s c : last_char (s ++ "." ++ c) = Some (match last_char c with Some a => a | None => "."%char end).
Proof.
  induction s as [|b s IH].
  - cbn. destruct c as [|x c]; [reflexivity|]. destruct (last_char (String x c)) eqn:E; [reflexivity|]. exfalso. clear -E. revert x E.
    induction c as [|y c IH]; intros x E; [discriminate|]. apply (IH y). exact E.
  - cbn [append last_char]. destruct (s ++ String "." c)%string eqn:E; [destruct s; discriminate|]. cbn [append] in IH. rewrite E in IH. exact IH.
Qed.
Lemma id_last t : last_char (tr_id t) = Some (match last_char (channel (st t)) with Some a => a | None => "."%char end).
Proof. unfold tr_id, stats_id. rewrite <- !str_app_assoc. rewrite str_app_assoc. apply last_char_app_dot. Qed.
Lemma label_ok t lab : label_text t lab -> str_label t = Ok lab.
Proof.
  intros H. unfold str_label. destruct H as [[-> | ->]|ty m E Hm]; [reflexivity | reflexivity |]. rewrite E.
  assert ((match tr_get t "phase" with
           | None | Some VNone => Ok ""%string
           | Some (VStr p) => match last_char p with Some a => Ok (upper (String a "")) | None => Err IndexError end
           | Some _ => Err TypeError
           end) = Ok m) as Em.
  { destruct Hm as [[[-> | ->] ->]|(p & a & -> & ->)]; try reflexivity. rewrite last_char_snoc. reflexivity. }
  rewrite Em. cbn [bind].
  assert (forall (X : string), (match last_char (tr_id t) with Some a => String a "" | None => "" end) = (match last_char (channel (st t)) with Some a => String a "" | None => "." end)) as El.
  { intros _. rewrite id_last. destruct (last_char (channel (st t))); reflexivity. }
  rewrite (El ""%string). destruct (String.eqb ty "rf"); cbn [bind]; destruct (String.prefix "..." (tr_id t)); rewrite ?str_app_assoc; reflexivity.
Qed.

Ltac nb := let a := fresh in let H := fresh in intros a H; cbn in H; repeat (destruct H as [<-|H]; [split; discriminate|]); destruct H.

Section Props.
  Variable str_of : value -> string.
  Variable fixed : nat -> Q -> string.
  Variable rate_text : Z -> string.
  Variable count_text : nat -> string.
  Variable plain : trace -> string.
  Notation str := (str_trace str_of fixed rate_text count_text plain).
  Notation bec := (becomes str_of fixed rate_text count_text).

  Lemma fld1 t k v : tr_get t k = Some v -> k <> ""%string -> split_colon (k ++ ":.1f") = (k, ".1f"%string) ->
    field str_of fixed rate_text count_text t (k ++ ":.1f") = match v with VNum q => Ok (fixed 1 q) | VStr _ => Err ValueError | _ => Err TypeError end.
  Proof.
    intros E Hk S. unfold field. rewrite S. destruct (String.eqb_spec k ""); [contradiction|].
    change (String.eqb ".1f" "") with false. rewrite !andb_false_r, E. destruct v; reflexivity.
  Qed.
  Lemma fld2 t k v : tr_get t k = Some v -> k <> ""%string -> split_colon (k ++ ":.2f") = (k, ".2f"%string) ->
    field str_of fixed rate_text count_text t (k ++ ":.2f") = match v with VNum q => Ok (fixed 2 q) | VStr _ => Err ValueError | _ => Err TypeError end.
  Proof.
    intros E Hk S. unfold field. rewrite S. destruct (String.eqb_spec k ""); [contradiction|].
    change (String.eqb ".2f" "") with false. rewrite !andb_false_r, E. destruct v; reflexivity.
  Qed.
  Definition shown_or (v : value) (d : nat) (pre post : string) : res string :=
    match v with VNum q => Ok (pre ++ fixed d q ++ post)%string | VStr _ => Err ValueError | _ => Err TypeError end.
  (** the five parts for headers *)
  Lemma part_mag t v : tr_get t "event_magnitude" = Some v -> bec t "mag:{event_magnitude:.1f}" (shown_or v 1 "mag:" "").
  Proof.
    intros E. pose proof (becomes_field str_of fixed rate_text count_text t "mag:" "e" "vent_magnitude:.1f" "" _ ltac:(nb) ltac:(nb) ltac:(nb) (fld1 t "event_magnitude" v E ltac:(discriminate) eq_refl)) as H.
    destruct v; exact H.
  Qed.
  Lemma part_dist t v : tr_get t "distance" = Some v -> bec t "dist:{distance:.1f}" (shown_or v 1 "dist:" "").
  Proof.
    intros E. pose proof (becomes_field str_of fixed rate_text count_text t "dist:" "d" "istance:.1f" "" _ ltac:(nb) ltac:(nb) ltac:(nb) (fld1 t "distance" v E ltac:(discriminate) eq_refl)) as H.
    destruct v; exact H.
  Qed.
  Lemma part_baz t v : tr_get t "back_azimuth" = Some v -> bec t "baz:{back_azimuth:.1f}" (shown_or v 1 "baz:" "").
  Proof.
    intros E. pose proof (becomes_field str_of fixed rate_text count_text t "baz:" "b" "ack_azimuth:.1f" "" _ ltac:(nb) ltac:(nb) ltac:(nb) (fld1 t "back_azimuth" v E ltac:(discriminate) eq_refl)) as H.
    destruct v; exact H.
  Qed.
  Lemma part_pos t v : tr_get t "box_pos" = Some v -> bec t "pos:{box_pos:.2f}km" (shown_or v 2 "pos:" "km").
  Proof.
    intros E. pose proof (becomes_field str_of fixed rate_text count_text t "pos:" "b" "ox_pos:.2f" "km" _ ltac:(nb) ltac:(nb) ltac:(nb) (fld2 t "box_pos" v E ltac:(discriminate) eq_refl)) as H.
    destruct v; exact H.
  Qed.
  Lemma part_slow t v : tr_get t "slowness" = Some v -> bec t "slow:{slowness:.2f}" (shown_or v 2 "slow:" "").
  Proof.
    intros E. pose proof (becomes_field str_of fixed rate_text count_text t "slow:" "s" "lowness:.2f" "" _ ltac:(nb) ltac:(nb) ltac:(nb) (fld2 t "slowness" v E ltac:(discriminate) eq_refl)) as H.
    destruct v; exact H.
  Qed.
  Lemma part_moveout t v : tr_get t "moveout" = Some v -> bec t "({moveout} moveout)" (Ok ("(" ++ str_of v ++ " moveout)"))%string.
  Proof.
    intros E. assert (field str_of fixed rate_text count_text t "moveout" = Ok (str_of v)) as F by (unfold field; cbn -[tr_get]; rewrite E; reflexivity).
    exact (becomes_field str_of fixed rate_text count_text t "(" "m" "oveout" " moveout)" _ ltac:(nb) ltac:(nb) ltac:(nb) F).
  Qed.
  Lemma part_rate t : bec t "{sampling_rate} Hz, {npts} samples" (Ok (rate_text (delta (st t)) ++ " Hz, " ++ count_text (List.length (data t)) ++ " samples"))%string.
  Proof.
    pose proof (becomes_field str_of fixed rate_text count_text t "" "s" "ampling_rate" " Hz, " (Ok (rate_text (delta (st t)))) ltac:(nb) ltac:(nb) ltac:(nb) eq_refl) as A.
    pose proof (becomes_field str_of fixed rate_text count_text t "" "n" "pts" " samples" (Ok (count_text (List.length (data t)))) ltac:(nb) ltac:(nb) ltac:(nb) eq_refl) as B.
    cbn [bind append] in A, B. pose proof (becomes_app _ _ _ _ t _ _ _ _ A B) as C. cbn [bind] in C. rewrite str_app_assoc in C. exact C.
  Qed.

  (** the list of optional parts, header by header *)
  Definition part (t : trace) (k s : string) : list string := match tr_get t k with Some _ => [s] | None => [] end.
  Lemma extra_parts masked t : str_extra masked t =
    part t "event_magnitude" "mag:{event_magnitude:.1f}" ++ part t "distance" "dist:{distance:.1f}" ++ part t "back_azimuth" "baz:{back_azimuth:.1f}" ++
    part t "box_pos" "pos:{box_pos:.2f}km" ++ part t "slowness" "slow:{slowness:.2f}" ++ part t "moveout" "({moveout} moveout)" ++ masked_text masked.
  Proof.
    unfold str_extra, part, masked_text. destruct (tr_get t "event_magnitude"), (tr_get t "distance"), (tr_get t "back_azimuth"), (tr_get t "box_pos"), (tr_get t "slowness"), (tr_get t "moveout"); reflexivity.
  Qed.
  Definition row_of (t : trace) (k pre : string) (d : nat) (post : string) : list string :=
    match tr_get t k with Some (VNum q) => [(pre ++ fixed d q ++ post)%string] | _ => [] end.
  Lemma part_row t k s pre d post : (forall v, tr_get t k = Some v -> exists q, v = VNum q) -> (forall v, tr_get t k = Some v -> bec t s (shown_or v d pre post)) ->
    Forall2 (fun a x => bec t a (Ok x)) (part t k s) (row_of t k pre d post).
  Proof.
    intros Hn H. unfold part, row_of. destruct (tr_get t k) as [v|]; [|constructor]. destruct (Hn v eq_refl) as [q ->]. specialize (H _ eq_refl). constructor; [exact H | constructor].
  Qed.
  Lemma extras_ok masked t : numbers t -> Forall2 (fun a x => bec t a (Ok x)) (str_extra masked t) (header_texts fixed t ++ moveout_text str_of t ++ masked_text masked).
  Proof.
    intros Hn. rewrite extra_parts.
    assert (header_texts fixed t = row_of t "event_magnitude" "mag:" 1 "" ++ row_of t "distance" "dist:" 1 "" ++ row_of t "back_azimuth" "baz:" 1 "" ++ row_of t "box_pos" "pos:" 2 "km" ++ row_of t "slowness" "slow:" 2 "") as ->.
    { unfold header_texts, shown_headers. cbn [flat_map]. rewrite app_nil_r. reflexivity. }
    rewrite <- !app_assoc. unfold numbers, shown_headers in Hn.
    apply Forall2_app; [apply part_row; [intros v E; eapply Hn; [|exact E]; cbn; eauto | intros v; apply part_mag]|].
    apply Forall2_app; [apply part_row; [intros v E; eapply Hn; [|exact E]; cbn; eauto | intros v; apply part_dist]|].
    apply Forall2_app; [apply part_row; [intros v E; eapply Hn; [|exact E]; cbn; eauto | intros v; apply part_baz]|].
    apply Forall2_app; [apply part_row; [intros v E; eapply Hn; [|exact E]; cbn; eauto | intros v; apply part_pos]|].
    apply Forall2_app; [apply part_row; [intros v E; eapply Hn; [|exact E]; cbn; eauto 10 | intros v; apply part_slow]|].
    apply Forall2_app.
    - unfold part, moveout_text. destruct (tr_get t "moveout") as [v|] eqn:E; [|constructor]. constructor; [apply part_moveout, E | constructor].
    - unfold masked_text. destruct masked; [|constructor]. constructor; [apply becomes_text; nb | constructor].
  Qed.

  (** what is shown: everything which is set, in the right place *)
  Theorem C141_text_partial masked t onset lab : (forall d q, no_braces (fixed d q)) -> (forall z, no_braces (str_of (VTime z))) ->
    tr_get t "onset" = Some (VTime onset) -> label_text t lab -> no_braces lab -> numbers t ->
    str masked t = Ok (lab ++ " | " ++
      window_text fixed t onset ++ (if (starttime (st t) =? 0)%Z then "" else " onset:" ++ str_of (VTime onset)) ++ " | " ++
      rate_text (delta (st t)) ++ " Hz, " ++ count_text (List.length (data t)) ++ " samples | " ++
      String.concat " " (header_texts fixed t ++ moveout_text str_of t ++ masked_text masked))%string.
  Proof.
    intros Hf Ht Ho Hl Hb Hn. unfold str_trace. rewrite Ho, (label_ok t lab Hl). cbn [bind]. unfold str_window. rewrite Ho. cbn [bind].
    fold (window_text fixed t onset).
    set (w := if (starttime (st t) =? 0)%Z then _ else _).
    assert (w = (window_text fixed t onset ++ (if (starttime (st t) =? 0)%Z then "" else " onset:" ++ str_of (VTime onset)))%string) as Ew.
    { unfold w. destruct (starttime (st t) =? 0)%Z; [rewrite str_app_nil; reflexivity|]. reflexivity. }
    assert (no_braces (window_text fixed t onset)) as Hw0.
    { unfold window_text. apply no_braces_app. split; [apply Hf|]. apply no_braces_app. split; [nb|]. apply no_braces_app. split; [apply Hf | nb]. }
    assert (no_braces w) as Hw.
    { rewrite Ew. apply no_braces_app. split; [exact Hw0|]. destruct (starttime (st t) =? 0)%Z; [apply no_braces_nil|]. apply no_braces_app. split; [nb | apply Ht]. }
    set (ex := header_texts fixed t ++ moveout_text str_of t ++ masked_text masked).
    set (sr := (rate_text (delta (st t)) ++ " Hz, " ++ count_text (List.length (data t)) ++ " samples")%string).
    assert (bec t (String.concat " | " [lab; w; "{sampling_rate} Hz, {npts} samples"%string; String.concat " " (str_extra masked t)])
              (Ok (String.concat " | " [lab; w; sr; String.concat " " ex]))) as B.
    { apply becomes_join; [nb|]. constructor; [apply becomes_text, Hb|]. constructor; [apply becomes_text, Hw|]. constructor; [apply part_rate|].
      constructor; [apply becomes_join; [nb | apply extras_ok, Hn] | constructor]. }
    rewrite (becomes_all str_of fixed rate_text count_text t _ _ B). unfold sr.
    f_equal. rewrite Ew. cbn [String.concat]. rewrite !str_app_assoc. reflexivity.
  Qed.

  Lemma rows_parts t k pre d post v : In (k, pre, d, post) shown_headers -> tr_get t k = Some v ->
    exists s, In s (part t "event_magnitude" "mag:{event_magnitude:.1f}" ++ part t "distance" "dist:{distance:.1f}" ++ part t "back_azimuth" "baz:{back_azimuth:.1f}" ++
    part t "box_pos" "pos:{box_pos:.2f}km" ++ part t "slowness" "slow:{slowness:.2f}") /\ bec t s (shown_or v d pre post).
  Proof.
    intros Hin E. unfold shown_headers in Hin. cbn in Hin.
    destruct Hin as [H|[H|[H|[H|[H|[]]]]]]; inversion H; subst.
    - exists "mag:{event_magnitude:.1f}"%string. split; [|apply part_mag, E]. apply in_app_iff. left. unfold part. rewrite E. left. reflexivity.
    - exists "dist:{distance:.1f}"%string. split; [|apply part_dist, E]. apply in_app_iff. right. apply in_app_iff. left. unfold part. rewrite E. left. reflexivity.
    - exists "baz:{back_azimuth:.1f}"%string. split; [|apply part_baz, E]. do 2 (apply in_app_iff; right). apply in_app_iff. left. unfold part. rewrite E. left. reflexivity.
    - exists "pos:{box_pos:.2f}km"%string. split; [|apply part_pos, E]. do 3 (apply in_app_iff; right). apply in_app_iff. left. unfold part. rewrite E. left. reflexivity.
    - exists "slow:{slowness:.2f}"%string. split; [|apply part_slow, E]. do 4 (apply in_app_iff; right). unfold part. rewrite E. left. reflexivity.
  Qed.
  (** each part gives a text or an error *)
  Lemma part_each t s : In s (part t "event_magnitude" "mag:{event_magnitude:.1f}" ++ part t "distance" "dist:{distance:.1f}" ++ part t "back_azimuth" "baz:{back_azimuth:.1f}" ++
    part t "box_pos" "pos:{box_pos:.2f}km" ++ part t "slowness" "slow:{slowness:.2f}") -> exists x, bec t s x.
  Proof.
    unfold part. rewrite !in_app_iff. intros [H|[H|[H|[H|H]]]].
    - destruct (tr_get t "event_magnitude") eqn:E; [|destruct H]. destruct H as [<-|[]]. eexists. apply part_mag, E.
    - destruct (tr_get t "distance") eqn:E; [|destruct H]. destruct H as [<-|[]]. eexists. apply part_dist, E.
    - destruct (tr_get t "back_azimuth") eqn:E; [|destruct H]. destruct H as [<-|[]]. eexists. apply part_baz, E.
    - destruct (tr_get t "box_pos") eqn:E; [|destruct H]. destruct H as [<-|[]]. eexists. apply part_pos, E.
    - destruct (tr_get t "slowness") eqn:E; [|destruct H]. destruct H as [<-|[]]. eexists. apply part_slow, E.
  Qed.
  Lemma first_error t sep l s e : no_braces sep -> (forall a, In a l -> exists x, bec t a x) -> In s l -> bec t s (Err e) ->
    forall l2, exists e', bec t (String.concat sep (l ++ l2)) (Err e').
  Proof.
    intros Hs Hx Hin He l2.
    assert (exists l1 a l3 e', l = l1 ++ a :: l3 /\ Forall (fun a => exists x, bec t a (Ok x)) l1 /\ bec t a (Err e')) as (l1 & a & l3 & e' & -> & H1 & H2).
    { induction l as [|b l IH]; [destruct Hin|]. destruct (Hx b (or_introl eq_refl)) as [[x|e'] Hb].
      - destruct Hin as [->|Hin].
        + exfalso. pose proof (He "") as A. rewrite (Hb "") in A. cbn in A. discriminate.
        + destruct (IH (fun a Ha => Hx a (or_intror Ha)) Hin) as (l1 & a & l3 & e' & -> & H1 & H2).
          exists (b :: l1), a, l3, e'. split; [reflexivity|]. split; [constructor; [exists x; exact Hb | exact H1] | exact H2].
      - exists [], b, l, e'. split; [reflexivity|]. split; [constructor | exact Hb]. }
    exists e'. rewrite <- app_assoc. cbn [app]. apply becomes_join_err; assumption.
  Qed.
  (** one header which is not a number, and there is no text at all *)
  Theorem C141_fails masked t onset lab k pre d post v : (forall d q, no_braces (fixed d q)) -> (forall z, no_braces (str_of (VTime z))) ->
    tr_get t "onset" = Some (VTime onset) -> label_text t lab -> no_braces lab ->
    In (k, pre, d, post) shown_headers -> tr_get t k = Some v -> (forall q, v <> VNum q) ->
    exists e, str masked t = Err e.
  Proof.
    intros Hf Ht Ho Hl Hb Hk Ev Hv. destruct (rows_parts t k pre d post v Hk Ev) as (s & Hs & Hbec).
    assert (exists e, bec t s (Err e)) as [e He] by (destruct v; try (eexists; exact Hbec); exfalso; eapply Hv; reflexivity).
    destruct (first_error t " " _ s e ltac:(nb) (part_each t) Hs He (part t "moveout" "({moveout} moveout)" ++ masked_text masked)) as [e' He'].
    rewrite <- !app_assoc, <- extra_parts in He'.
    exists e'. unfold str_trace. rewrite Ho, (label_ok t lab Hl). cbn [bind]. unfold str_window. rewrite Ho. cbn [bind].
    fold (window_text fixed t onset). set (w := if (starttime (st t) =? 0)%Z then _ else _).
    assert (no_braces w) as Hw.
    { unfold w. assert (no_braces (window_text fixed t onset)) as Hw0.
      { unfold window_text. apply no_braces_app. split; [apply Hf|]. apply no_braces_app. split; [nb|]. apply no_braces_app. split; [apply Hf | nb]. }
      destruct (starttime (st t) =? 0)%Z; [exact Hw0|]. apply no_braces_app. split; [exact Hw0|]. apply no_braces_app. split; [nb | apply Ht]. }
    apply (becomes_all str_of fixed rate_text count_text t _ (Err e')).
    apply (becomes_join_err _ _ _ _ t " | " [lab; w; _] [] _ e'); [nb | | exact He'].
    repeat constructor; eexists; [apply becomes_text, Hb | apply becomes_text, Hw | apply part_rate].
  Qed.
  (** such a header comes from an event whose magnitude has no value *)
  Theorem C141_magnitude_refuted : (forall d q, no_braces (fixed d q)) -> (forall z, no_braces (str_of (VTime z))) ->
    exists ev d, event_stats ev = Ok d /\ e_mags ev = [None] /\
      forall onset dt x, exists e,
        str false (mkTrace (mkStats "GR" "FUR" "" "BHZ" 0 dt (dset d "onset" (VTime onset))) x) = Err e.
  Proof.
    intros Hf Ht. exists (mkEvent None [mkOrigin (Some 1%Q) (Some 2%Q) (Some 10000%Q) (Some 5%Z)] None [None] None).
    eexists. split; [reflexivity|]. split; [reflexivity|]. intros onset dt x.
    eapply (C141_fails false _ onset "GR.FUR..BHZ" "event_magnitude" "mag:" 1 "" VNone Hf Ht); [reflexivity | apply LtId; left; reflexivity | nb | left; reflexivity | reflexivity | discriminate].
  Qed.
  (** a trace without onset has the text of obspy *)
  Theorem C141_plain masked t : tr_get t "onset" = None -> str masked t = Ok (plain t).
  Proof. intros E. unfold str_trace. rewrite E. reflexivity. Qed.
End Props.
Print Assumptions C141_text_partial.
Print Assumptions C141_fails.
Print Assumptions C141_magnitude_refuted.
Print Assumptions C141_plain.

(** a receiver function *)
Example C141_case : exists t, tr_get t "onset" = Some (VTime 5000000000) /\ label_text t "Prf GR.FUR..BHQ" /\ numbers t /\
  str_trace (fun _ => "Ps")%string (fun _ _ => "1.0")%string (fun _ => "1.0")%string (fun _ => "2")%string (fun _ => "")%string false t
    = Ok "Prf GR.FUR..BHQ | 1.0s - 1.0s onset:Ps | 1.0 Hz, 2 samples | dist:1.0 (Ps moveout)"%string.
Proof.
  exists (mkTrace (mkStats "GR" "FUR" "" "BHQ" 3 1000000000 [("onset", VTime 5000000000); ("type", VStr "rf"); ("phase", VStr "P"); ("distance", VNum 50); ("moveout", VStr "Ps")]) [1; 2]%Q).
  split; [reflexivity|]. split.
  { set (t := mkTrace _ _).
    assert (exists p a, tr_get t "phase" = Some (VStr (p ++ String a "")) /\ "P"%string = upper (String a "")) as H by (exists ""%string, "P"%char; split; reflexivity).
    exact (LtType t "rf" "P" eq_refl (or_intror H)). }
  split; [|reflexivity]. intros k pre d post v Hin E. cbn in Hin. destruct Hin as [H|[H|[H|[H|[H|[]]]]]]; inversion H; subst; cbn in E; try discriminate. inversion E. eexists. reflexivity.
Qed.
