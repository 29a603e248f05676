(** Commands which read stored streams at one path and write results at another one. *)
From Verif Require Import Model.Figures Spec.EventSpec Spec.BatchSpec Spec.OnceSpec Proofs.PyFacts Proofs.BatchFacts Proofs.BatchRead Proofs.BatchLoop Proofs.EventFacts Proofs.OnceFacts.
Notation length := List.length.

Definition ends (c : ascii) (n : string) : Prop := exists s, la n = s ++ [c].
Lemma ends_app c a b : ends c b -> ends c (a ++ b).
Proof. intros [s Hs]. exists (la a ++ s). rewrite la_app, Hs, app_assoc. reflexivity. Qed.
Lemma ends_inj c d n : ends c n -> ends d n -> c = d.
Proof. intros [s Hs] [t Ht]. rewrite Hs in Ht. apply app_inj_tail in Ht. tauto. Qed.
Lemma glob_last c p : c <> "*"%char -> c <> "?"%char -> forall s, glob (p ++ [c]) s = true -> exists s', s = s' ++ [c].
Proof.
  intros H1 H2. induction p as [|a p IH]; intros s H.
  - cbn [app glob] in H. apply Ascii.eqb_neq in H1, H2. rewrite H1 in H. destruct s as [|x s]; [discriminate|]. rewrite H2 in H. apply Bool.andb_true_iff in H. destruct H as [E H].
    apply Ascii.eqb_eq in E. subst x. destruct s; [|discriminate]. exists []. reflexivity.
  - cbn [app] in H. destruct (ascii_dec a "*") as [->|Ha].
    + apply glob_star in H. destruct H as (w & s' & -> & _ & H). destruct (IH _ H) as [u ->]. exists (w ++ u). rewrite app_assoc. reflexivity.
    + cbn [glob] in H. apply Ascii.eqb_neq in Ha. rewrite Ha in H. destruct s as [|x s]; [discriminate|]. apply Bool.andb_true_iff in H. destruct H as [_ H].
      destruct (IH _ H) as [u ->]. exists (x :: u). reflexivity.
Qed.
Lemma glob_str_last c pat n : c <> "*"%char -> c <> "?"%char -> ends c pat -> glob_str pat n = true -> ends c n.
Proof. intros H1 H2 [s Hs] H. unfold glob_str in H. rewrite Hs in H. apply glob_last in H; assumption. Qed.

(** names of files which are written for a path *)
Definition mine (root n : string) : Prop := (below root n /\ (ends "D" n \/ ends "C" n)) \/ n = (root ++ ".h5")%string.

Section C.
  Variable fmt_time : Z -> string.
  Variable year : Z -> Prop.
  Hypothesis Hclock : clock fmt_time year.
  Variable str_of : value -> string.
  Variable h5key : trace -> string.
  Variable writer : string -> list trace -> option exn.
  Variable load : string -> list trace -> res (list trace).
  Notation write := (write fmt_time str_of h5key writer).
  Notation fetch := (fetch fmt_time load).

  Lemma nsl_slash p : codes p -> slash_free (nsl (p_net p) (p_sta p) (p_loc p)).
  Proof. intros ((_ & H1 & _) & (_ & H2 & _) & (_ & H3 & _)). unfold nsl. rewrite !(slash_app writer). repeat split; try assumption; try reflexivity. Qed.
  Lemma write_mine root fmt ps ops : In fmt ["Q"; "SAC"; "H5"] -> good year ps -> write (snd ps) root fmt TRf = (ops, None) -> Forall (fun o => mine root (op_name o)) ops.
  Proof.
    intros Hf Hg H. pose proof (proper_codes year writer load root _ (proj1 Hg)) as [Hc _]. pose proof (nsl_slash _ Hc) as Hn. destruct (proj1 Hclock (p_time (fst ps))) as (_ & _ & Ht).
    destruct Hf as [<-|[<-|[<-|[]]]].
    - rewrite (write_Q fmt_time year Hclock str_of h5key writer root ps ops Hg H). constructor; [|constructor]. left. cbn [op_name]. split.
      + exists (nsl (p_net (fst ps)) (p_sta (fst ps)) (p_loc (fst ps))). eexists. split; [exact Hn|]. split; [|reflexivity]. rewrite !(slash_app writer). repeat split; try assumption; try reflexivity.
      + left. unfold qname. repeat apply ends_app. exists (la ".QH"). reflexivity.
    - rewrite (write_SAC fmt_time year Hclock str_of h5key writer root ps ops Hg H). apply Forall_forall. intros o Ho. apply in_map_iff in Ho. destruct Ho as (t & <- & Hin). left. cbn [op_name].
      destruct Hg as (_ & _ & _ & _ & Hch). destruct (proj1 (Forall_forall _ _) Hch t Hin) as [_ Hcs]. split.
      + exists (nsl (p_net (fst ps)) (p_sta (fst ps)) (p_loc (fst ps))). eexists. split; [exact Hn|]. split; [|reflexivity]. rewrite !(slash_app writer). repeat split; try assumption; try reflexivity.
      + right. unfold sname. repeat apply ends_app. exists (la ".SA"). reflexivity.
    - rewrite (write_H5 fmt_time year str_of h5key writer root ps ops Hg H). apply Forall_forall. intros o Ho. apply in_map_iff in Ho. destruct Ho as (t & <- & _). right. reflexivity.
  Qed.
  Lemma fetch_mine nameb a b pin root fmt p cha : In fmt ["Q"; "SAC"; "H5"] -> no_wild pin -> pin <> root -> codes p ->
    (forall n, nameb n = true -> mine root n) -> others nameb a = others nameb b -> fetch pin fmt a (meta p cha) = fetch pin fmt b (meta p cha).
  Proof.
    intros Hf Hw Hne Hp Hn H. pose proof (nsl_slash _ Hp) as Hs. destruct (proj1 Hclock (p_time p)) as (_ & _ & Ht).
    assert (forall f (px py : string) c, c <> "*"%char -> c <> "?"%char -> c <> "5"%char -> ends c py -> slash_free px -> slash_free py ->
      read_glob load a f (pin ++ "/" ++ px ++ "/" ++ py) = read_glob load b f (pin ++ "/" ++ px ++ "/" ++ py)) as Hrd.
    { intros f px py c C1 C2 C3 He H1 H2. apply (read_glob_others load nameb); [exact H|]. intros n Hi. destruct (Hn n Hi) as [[Hb _]| ->].
      - apply (other_root pin root px py n Hw Hne H1 H2 Hb).
      - destruct (glob_str _ _) eqn:E; [|reflexivity]. exfalso. apply C3. apply (glob_str_last c) in E; [|exact C1 | exact C2 | repeat apply ends_app; exact He].
        apply (ends_inj c "5" _ E). apply ends_app. exists (la ".h"). reflexivity. }
    destruct Hf as [<-|[<-|[<-|[]]]].
    - change (match read_glob load a "Q" (qname fmt_time pin p) with Err e => if caught e then Ok None else Err e | Ok s => Ok (Some s) end =
              match read_glob load b "Q" (qname fmt_time pin p) with Err e => if caught e then Ok None else Err e | Ok s => Ok (Some s) end).
      unfold qname. rewrite (Hrd "Q" _ _ "D"%char); try discriminate; try reflexivity; try exact Hs.
      + repeat apply ends_app. exists (la ".QH"). reflexivity.
      + rewrite !(slash_app writer). repeat split; try assumption; try reflexivity.
    - change (match read_glob load a "SAC" (spat pin p (fmt_time (p_time p))) with Err e => if caught e then Ok None else Err e | Ok s => Ok (Some s) end =
              match read_glob load b "SAC" (spat pin p (fmt_time (p_time p))) with Err e => if caught e then Ok None else Err e | Ok s => Ok (Some s) end).
      unfold spat. rewrite (Hrd "SAC" _ _ "C"%char); try discriminate; try reflexivity; try exact Hs.
      + repeat apply ends_app. exists (la ".SA"). reflexivity.
      + rewrite !(slash_app writer). repeat split; try assumption; try reflexivity.
    - change (match read_h5 fmt_time load a (pin ++ ".h5") (ddel (meta p cha) "channel") with Err e => if caught e then Ok None else Err e | Ok s => Ok (Some s) end =
              match read_h5 fmt_time load b (pin ++ ".h5") (ddel (meta p cha) "channel") with Err e => if caught e then Ok None else Err e | Ok s => Ok (Some s) end).
      rewrite (read_h5_others fmt_time load nameb a b); [reflexivity | exact H|]. destruct (nameb (pin ++ ".h5")%string) eqn:E; [|reflexivity]. exfalso.
      assert (ends "5" (pin ++ ".h5")) as He by (apply ends_app; exists (la ".h"); reflexivity).
      destruct (Hn _ E) as [[_ [Hd|Hd]]|E2].
      + pose proof (ends_inj _ _ _ He Hd). discriminate.
      + pose proof (ends_inj _ _ _ He Hd). discriminate.
      + apply Hne. apply la_inj. apply (f_equal la) in E2. rewrite !la_app in E2. apply app_inv_tail in E2. exact E2.
  Qed.
End C.
Lemma FOP_filter {A} (R : A -> A -> Prop) f l : ForallOrdPairs R l -> ForallOrdPairs R (filter f l).
Proof.
  induction 1 as [|a l Ha H IH]; [constructor|]. cbn [filter]. destruct (f a); [|exact IH]. constructor; [|exact IH].
  rewrite Forall_forall in *. intros x Hx. apply filter_In in Hx. apply Ha, Hx.
Qed.
Lemma visited_FOP streams ps : ForallOrdPairs (fun a b => ~ same_pair (fst a) (fst b)) streams -> ForallOrdPairs (fun a b => ~ same_pair (fst a) (fst b)) ps ->
  ForallOrdPairs (fun a b => ~ same_pair (fst a) (fst b)) (visited streams ps).
Proof.
  intros Hs. induction 1 as [|y l Hy Hd IH]; [constructor|]. unfold visited. cbn [flat_map]. apply FOP_app; [apply FOP_filter, Hs | exact IH|].
  intros a b Ha Hb E. apply filter_In in Ha. destruct Ha as [_ Ha]. apply pairb_spec in Ha. apply visited_in in Hb. destruct Hb as (_ & z & Hz & E2).
  rewrite Forall_forall in Hy. apply (Hy z Hz). unfold same_pair, same_station in *. intuition congruence.
Qed.
