(** Files that were written are found again. *)
From Verif Require Import Model.Batch Spec.BatchSpec Proofs.PyFacts Proofs.BatchFacts.
Notation length := List.length.
Notation la := list_ascii_of_string.

Definition stationb (p q : spair) : bool := String.eqb (p_net p) (p_net q) && String.eqb (p_sta p) (p_sta q) && String.eqb (p_loc p) (p_loc q).
Definition pairb (p q : spair) : bool := stationb p q && Z.eqb (p_time p / 1000000000) (p_time q / 1000000000).
Lemma stationb_spec p q : stationb p q = true <-> same_station p q.
Proof. unfold stationb, same_station. rewrite !Bool.andb_true_iff, !String.eqb_eq. tauto. Qed.
Lemma pairb_spec p q : pairb p q = true <-> same_pair p q.
Proof. unfold pairb, same_pair. rewrite Bool.andb_true_iff, stationb_spec, Z.eqb_eq. tauto. Qed.

Section B.
  Variable fmt_time : Z -> string.
  Variable year : Z -> Prop.
  Hypothesis Hclock : clock fmt_time year.
  Variable str_of : value -> string.
  Variable h5key : trace -> string.
  Variable writer : string -> list trace -> option exn.
  Variable load : string -> list trace -> res (list trace).
  Variable root : string.
  Hypothesis Hroot : no_wild root.
  Notation write := (write fmt_time str_of h5key writer).
  Notation fetch := (fetch fmt_time load).

  Definition qname (p : spair) : string :=
    (root ++ "/" ++ nsl (p_net p) (p_sta p) (p_loc p) ++ "/" ++ nsl (p_net p) (p_sta p) (p_loc p) ++ "_" ++ fmt_time (p_time p) ++ ".QHD")%string.
  Definition sname (p : spair) (cha : string) : string :=
    (root ++ "/" ++ nsl (p_net p) (p_sta p) (p_loc p) ++ "/" ++ nsl (p_net p) (p_sta p) (p_loc p) ++ "." ++ cha ++ "_" ++ fmt_time (p_time p) ++ ".SAC")%string.
  Definition h5name : string := (root ++ ".h5")%string.
  (** patterns for a station *)
  Definition qpat (p : spair) : string :=
    (root ++ "/" ++ nsl (p_net p) (p_sta p) (p_loc p) ++ "/" ++ nsl (p_net p) (p_sta p) (p_loc p) ++ "_" ++ "*" ++ ".QHD")%string.
  Definition spat (p : spair) (t : string) : string :=
    (root ++ "/" ++ nsl (p_net p) (p_sta p) (p_loc p) ++ "/" ++ nsl (p_net p) (p_sta p) (p_loc p) ++ "." ++ "???" ++ "_" ++ t ++ ".SAC")%string.

  Definition codes (p : spair) : Prop := code (p_net p) /\ code (p_sta p) /\ code (p_loc p).
  Lemma codes_lid p : codes p -> plain (lid p) /\ ~ In "/"%char (lid p).
  Proof. intros ((A1 & A2 & A3) & (B1 & B2 & B3) & (C1 & C2 & C3)). split; [apply lid_plain; assumption | apply lid_slash; assumption]. Qed.
  Lemma codes_inj p q : codes p -> codes q -> lid p = lid q -> same_station p q.
  Proof. intros ((A1 & A2 & A3) & (B1 & B2 & B3) & _) ((A1' & A2' & A3') & (B1' & B2' & B3') & _). apply lid_inj; assumption. Qed.
  Lemma same_lid p q : same_station p q -> lid p = lid q.
  Proof. intros (H1 & H2 & H3). unfold lid. rewrite H1, H2, H3. reflexivity. Qed.
  Lemma time_len t : length (la (fmt_time t)) = 19.
  Proof. rewrite la_length. apply (proj1 Hclock). Qed.

  (** common part of all names: root/id/id *)
  Definition pre (p : spair) : list ascii := la root ++ "/"%char :: lid p ++ "/"%char :: lid p.
  Lemma la_qname p : la (qname p) = pre p ++ "_"%char :: la (fmt_time (p_time p)) ++ la ".QHD".
  Proof. unfold qname, pre, lid. rewrite !la_app. cbn. rewrite <- !app_assoc. cbn. rewrite <- !app_assoc. reflexivity. Qed.
  Lemma la_sname p c : la (sname p c) = pre p ++ "."%char :: la c ++ "_"%char :: la (fmt_time (p_time p)) ++ la ".SAC".
  Proof. unfold sname, pre, lid. rewrite !la_app. cbn. rewrite <- !app_assoc. cbn. rewrite <- !app_assoc. reflexivity. Qed.
  Lemma la_qpat p : la (qpat p) = (pre p ++ ["_"%char]) ++ "*"%char :: la ".QHD".
  Proof. unfold qpat, pre, lid. rewrite !la_app. cbn. rewrite <- !app_assoc. cbn. rewrite <- !app_assoc. reflexivity. Qed.
  Lemma la_spat p t : la (spat p t) = (pre p ++ ["."%char]) ++ "?"%char :: "?"%char :: "?"%char :: "_"%char :: la t ++ la ".SAC".
  Proof. unfold spat, pre, lid. rewrite !la_app. cbn. rewrite <- !app_assoc. cbn. rewrite <- !app_assoc. reflexivity. Qed.
  Lemma pre_plain p : codes p -> plain (pre p).
  Proof.
    intros H. destruct (codes_lid p H) as [H1 _]. unfold pre. apply plain_app. split; [apply no_wild_plain, Hroot|].
    change ("/"%char :: lid p ++ "/"%char :: lid p) with (["/"%char] ++ lid p ++ ["/"%char] ++ lid p). rewrite !plain_app.
    repeat (split; [first [assumption | split; cbn; intuition discriminate]|]). exact H1.
  Qed.
  (** the same prefix and a rest without further directories *)
  Lemma pre_eq p q x y : codes p -> codes q -> pre p ++ x = pre q ++ y -> lid p = lid q /\ x = y.
  Proof.
    intros Hp Hq H. unfold pre in H. rewrite <- !app_assoc in H. apply app_inv_head in H. cbn in H. inversion H as [H1].
    rewrite <- !app_assoc in H1. cbn [app] in H1. apply split_sep in H1; [|apply codes_lid, Hp | apply codes_lid, Hq].
    destruct H1 as [E H2]. rewrite E in H2. apply app_inv_head in H2. auto.
  Qed.
  Lemma pre_same p q : same_station p q -> pre p = pre q.
  Proof. intros H. unfold pre. rewrite (same_lid p q H). reflexivity. Qed.

  Lemma fmt_eq p q : year (p_time p) -> year (p_time q) -> (la (fmt_time (p_time p)) = la (fmt_time (p_time q)) <-> (p_time p / 1000000000 = p_time q / 1000000000)%Z).
  Proof. intros Hp Hq. split; [intros H; apply (proj2 (proj2 Hclock _ _) Hp Hq), la_inj, H | intros H; rewrite (proj1 (proj2 Hclock _ _) H); reflexivity]. Qed.

  Lemma proper_codes p : proper year p -> codes p /\ year (p_time p).
  Proof. unfold proper, codes. tauto. Qed.

  Lemma qname_inj p q : proper year p -> proper year q -> (qname p = qname q <-> same_pair p q).
  Proof.
    intros Hp Hq. apply proper_codes in Hp, Hq. destruct Hp as [Hp Yp], Hq as [Hq Yq]. unfold same_pair. split.
    - intros H. apply (f_equal la) in H. rewrite !la_qname in H. apply pre_eq in H; try assumption. destruct H as [E H].
      inversion H as [H1]. apply app_inv_tail in H1. split; [apply codes_inj; assumption | apply fmt_eq; assumption].
    - intros [H1 H2]. apply la_inj. rewrite !la_qname, (pre_same p q H1). apply fmt_eq in H2; try assumption. rewrite H2. reflexivity.
  Qed.
  Lemma sname_inj p q c d : proper year p -> proper year q -> three_letters c -> three_letters d ->
    (sname p c = sname q d <-> same_pair p q /\ c = d).
  Proof.
    intros Hp Hq [Hc _] [Hd _]. apply proper_codes in Hp, Hq. destruct Hp as [Hp Yp], Hq as [Hq Yq]. unfold same_pair. split.
    - intros H. apply (f_equal la) in H. rewrite !la_sname in H. apply pre_eq in H; try assumption. destruct H as [E H].
      inversion H as [H1].
      change (la c ++ "_"%char :: la (fmt_time (p_time p)) ++ la ".SAC" = la d ++ "_"%char :: la (fmt_time (p_time q)) ++ la ".SAC") in H1.
      apply app_cancel_len in H1; [|cbn [length]; rewrite !app_length, !time_len; reflexivity]. destruct H1 as [H2 H3].
      inversion H3 as [H4]. apply app_inv_tail in H4. apply la_inj in H2.
      split; [split; [apply codes_inj; assumption | apply fmt_eq; assumption] | exact H2].
    - intros [[H1 H2] ->]. apply la_inj. rewrite !la_sname, (pre_same p q H1). apply fmt_eq in H2; try assumption. rewrite H2. reflexivity.
  Qed.

  Lemma bool_iff (a b : bool) (P : Prop) : (a = true <-> P) -> (b = true <-> P) -> a = b.
  Proof. destruct a, b; intros; intuition congruence. Qed.
  Lemma time_wild t : plain (la (fmt_time t)) /\ ~ In "/"%char (la (fmt_time t)).
  Proof. destruct (proj1 Hclock t) as (_ & H1 & H2). split; [apply no_wild_plain, H1 | apply char_in_la, H2]. Qed.

  (** which names match *)
  Lemma match_q p q : proper year p -> proper year q -> glob_str (qname p) (qname q) = pairb p q.
  Proof.
    intros Hp Hq. apply (bool_iff _ _ (same_pair p q)); [|apply pairb_spec]. unfold glob_str. rewrite glob_exact.
    - rewrite <- (qname_inj p q Hp Hq). split; [intros H; apply la_inj; symmetry; exact H | intros ->; reflexivity].
    - rewrite la_qname. change ("_"%char :: la (fmt_time (p_time p)) ++ la ".QHD") with (["_"%char] ++ la (fmt_time (p_time p)) ++ la ".QHD").
      rewrite !plain_app. split; [apply pre_plain, proper_codes, Hp|]. split; [split; cbn; intuition discriminate|].
      split; [apply time_wild | split; cbn; intuition discriminate].
  Qed.
  Lemma match_qpat p q : proper year p -> proper year q -> glob_str (qpat p) (qname q) = stationb p q.
  Proof.
    intros Hp Hq. apply proper_codes in Hp, Hq. destruct Hp as [Hp Yp], Hq as [Hq Yq].
    apply (bool_iff _ _ (same_station p q)); [|apply stationb_spec]. unfold glob_str. rewrite la_qpat, glob_lit.
    2: { apply plain_app. split; [apply pre_plain, Hp | split; cbn; intuition discriminate]. }
    rewrite la_qname. split.
    - intros (s' & H & _). rewrite <- app_assoc in H. apply pre_eq in H; try assumption. destruct H as [H _]. apply codes_inj; [assumption | assumption | symmetry; exact H].
    - intros H. exists (la (fmt_time (p_time q)) ++ la ".QHD"). rewrite (pre_same p q H), <- app_assoc. split; [reflexivity|].
      apply glob_star. exists (la (fmt_time (p_time q))), (la ".QHD"). split; [reflexivity|]. split; [apply time_wild | reflexivity].
  Qed.
  Lemma glob_qqq p s : glob ("?"%char :: "?"%char :: "?"%char :: p) s = true <->
    exists w s', s = w ++ s' /\ length w = 3 /\ ~ In "/"%char w /\ glob p s' = true.
  Proof.
    rewrite glob_q. split.
    - intros (c & s1 & -> & Hc & H). apply glob_q in H. destruct H as (d & s2 & -> & Hd & H). apply glob_q in H. destruct H as (e & s3 & -> & He & H).
      exists [c; d; e], s3. split; [reflexivity|]. split; [reflexivity|]. split; [cbn; intuition congruence | exact H].
    - intros (w & s' & -> & Hw & Hs & H). destruct w as [|c [|d [|e [|]]]]; try discriminate. cbn [In] in Hs.
      exists c, (d :: e :: s'). split; [reflexivity|]. split; [intros ->; apply Hs; auto|]. apply glob_q.
      exists d, (e :: s'). split; [reflexivity|]. split; [intros ->; apply Hs; auto|]. apply glob_q.
      exists e, s'. split; [reflexivity|]. split; [intros ->; apply Hs; auto | exact H].
  Qed.
  Lemma match_s p q c : proper year p -> proper year q -> three_letters c -> glob_str (spat p (fmt_time (p_time p))) (sname q c) = pairb p q.
  Proof.
    intros Hp Hq [Hc Hc2]. apply proper_codes in Hp, Hq. destruct Hp as [Hp Yp], Hq as [Hq Yq].
    apply (bool_iff _ _ (same_pair p q)); [|apply pairb_spec]. unfold glob_str. rewrite la_spat, glob_lit.
    2: { apply plain_app. split; [apply pre_plain, Hp | split; cbn; intuition discriminate]. }
    assert (plain ("_"%char :: la (fmt_time (p_time p)) ++ la ".SAC")) as Hpl.
    { change ("_"%char :: la (fmt_time (p_time p)) ++ la ".SAC") with (["_"%char] ++ la (fmt_time (p_time p)) ++ la ".SAC"). rewrite !plain_app.
      split; [split; cbn; intuition discriminate|]. split; [apply time_wild | split; cbn; intuition discriminate]. }
    rewrite la_sname. unfold same_pair. split.
    - intros (s' & H & Hg). rewrite <- app_assoc in H. apply pre_eq in H; try assumption. destruct H as [E H]. cbn [app] in H. inversion H as [H1].
      apply glob_qqq in Hg. destruct Hg as (w & s2 & Hs & Hw & _ & Hg). apply glob_exact in Hg; [|exact Hpl]. rewrite Hg in Hs.
      pose proof (eq_trans H1 Hs) as H2.
      apply app_cancel_len in H2; [|cbn [length]; rewrite !app_length, !time_len; reflexivity]. destruct H2 as [_ H3]. inversion H3 as [H4]. apply app_inv_tail in H4.
      split; [apply codes_inj; [assumption | assumption | symmetry; exact E]|]. apply fmt_eq; [assumption | assumption | symmetry; exact H4].
    - intros [H1 H2]. exists (la c ++ "_"%char :: la (fmt_time (p_time q)) ++ la ".SAC"). rewrite (pre_same p q H1), <- app_assoc. split; [reflexivity|].
      apply glob_qqq. exists (la c), ("_"%char :: la (fmt_time (p_time q)) ++ la ".SAC"). split; [reflexivity|].
      split; [rewrite la_length; exact Hc|]. split; [apply char_in_la, Hc2|]. apply glob_exact; [exact Hpl|].
      apply fmt_eq in H2; try assumption. rewrite H2. reflexivity.
  Qed.
  Lemma match_spat p q c : proper year p -> proper year q -> three_letters c -> glob_str (spat p "*") (sname q c) = stationb p q.
  Proof.
    intros Hp Hq [Hc Hc2]. apply proper_codes in Hp, Hq. destruct Hp as [Hp Yp], Hq as [Hq Yq].
    apply (bool_iff _ _ (same_station p q)); [|apply stationb_spec]. unfold glob_str. rewrite la_spat, glob_lit.
    2: { apply plain_app. split; [apply pre_plain, Hp | split; cbn; intuition discriminate]. }
    rewrite la_sname. split.
    - intros (s' & H & _). rewrite <- app_assoc in H. apply pre_eq in H; try assumption. destruct H as [H _]. apply codes_inj; [assumption | assumption | symmetry; exact H].
    - intros H. exists (la c ++ "_"%char :: la (fmt_time (p_time q)) ++ la ".SAC"). rewrite (pre_same p q H), <- app_assoc. split; [reflexivity|].
      apply glob_qqq. exists (la c), ("_"%char :: la (fmt_time (p_time q)) ++ la ".SAC"). split; [reflexivity|].
      split; [rewrite la_length; exact Hc|]. split; [apply char_in_la, Hc2|].
      change ("_"%char :: la "*" ++ la ".SAC") with (["_"%char] ++ "*"%char :: la ".SAC"). rewrite glob_lit by (split; cbn; intuition discriminate).
      exists (la (fmt_time (p_time q)) ++ la ".SAC"). split; [reflexivity|]. apply glob_star. exists (la (fmt_time (p_time q))), (la ".SAC").
      split; [reflexivity|]. split; [apply time_wild | reflexivity].
  Qed.

  (** ** what is written *)
  Notation good := (good year).
  Lemma event_time_get t : tr_get t "event_time" = dget (extra (st t)) "event_time".
  Proof. reflexivity. Qed.
  Lemma trace_qname p t : trace_of p t -> trace_fname fmt_time str_of TRf "Q" root t = Ok (qname p).
  Proof. intros (H1 & H2 & H3 & e & H4 & H5). unfold trace_fname. rewrite event_time_get, H4, H1, H2, H3. cbn [format_time bind]. rewrite (proj1 (proj2 Hclock _ _) H5). reflexivity. Qed.
  Lemma write_Q ps ops : good ps -> write (snd ps) root "Q" TRf = (ops, None) -> ops = [Append (qname (fst ps)) (snd ps)].
  Proof.
    destruct ps as [p s]. intros (_ & Ht & Hne & _) H. cbn [fst snd] in *. destruct s as [|t s]; [congruence|].
    unfold Batch.write in H. change (upper "Q") with "Q" in H.
    inversion Ht; subst. rewrite (trace_qname p t) in H by assumption. change ((("Q" =? "H5")%string)) with false in H. change ((("Q" =? "Q")%string)) with true in H.
    cbv iota in H. destruct (writer "Q" (t :: s)); [discriminate H|]. inversion H. reflexivity.
  Qed.
  Lemma trace_sname p t : trace_of p t -> trace_fname fmt_time str_of TRf "SAC" root t = Ok (sname p (channel (st t))).
  Proof. intros (H1 & H2 & H3 & e & H4 & H5). unfold trace_fname. rewrite event_time_get, H4, H1, H2, H3. cbn [format_time bind]. rewrite (proj1 (proj2 Hclock _ _) H5). reflexivity. Qed.
  Lemma write_SAC ps ops : good ps -> write (snd ps) root "SAC" TRf = (ops, None) ->
    ops = map (fun t => Put (sname (fst ps) (channel (st t))) t) (snd ps).
  Proof.
    destruct ps as [p s]. intros (_ & Ht & Hne & _) H. cbn [fst snd] in *.
    assert (write_sac fmt_time str_of writer TRf root s = (ops, None)) as Hw.
    { destruct s as [|t s]; [congruence|]. unfold Batch.write in H. change (upper "SAC") with "SAC" in H.
      inversion Ht; subst. rewrite (trace_sname p t) in H by assumption. exact H. }
    clear H Hne. revert ops Hw. induction s as [|t s IH]; intros ops Hw; [inversion Hw; reflexivity|]. cbn [write_sac] in Hw. inversion Ht; subst.
    rewrite (trace_sname p t) in Hw by assumption. destruct (writer "SAC" [t]); [discriminate|].
    destruct (write_sac fmt_time str_of writer TRf root s) as [ops' [e|]]; [discriminate|]. inversion Hw; subst. cbn [map]. f_equal. apply IH; [assumption | reflexivity].
  Qed.
  Lemma write_H5 ps ops : good ps -> write (snd ps) root "H5" TRf = (ops, None) ->
    ops = map (fun t => Dataset h5name (h5key t) t) (snd ps).
  Proof.
    destruct ps as [p s]. intros (_ & Ht & Hne & _) H. cbn [fst snd] in *. destruct s as [|t s]; [congruence|].
    unfold Batch.write in H. change (upper "H5") with "H5" in H.
    unfold trace_fname in H. cbn [fname] in H. change (("H5" =? "Q")%string) with false in H. change (("H5" =? "SAC")%string) with false in H. change (("H5" =? "H5")%string) with true in H.
    cbv iota in H. destruct (writer "H5" (t :: s)); [discriminate|]. inversion H. reflexivity.
  Qed.

  (** reading from a list of files *)
  Lemma filter_map_g {A} (g : A -> string * file) (pat : string) (b : A -> bool) items :
    (forall x, In x items -> glob_str pat (fst (g x)) = b x) ->
    filter (fun f => glob_str pat (fst f)) (map g items) = map g (filter b items).
  Proof.
    induction items as [|x items IH]; intros H; [reflexivity|]. cbn [map filter]. rewrite (H x (or_introl eq_refl)).
    rewrite IH by (intros; apply H; right; assumption). destruct (b x); reflexivity.
  Qed.
  Lemma unrelated_nomatch fs pat rest : unrelated root fs -> plain (la root ++ ["/"%char]) -> la pat = (la root ++ ["/"%char]) ++ rest ->
    filter (fun f : string * file => glob_str pat (fst f)) fs = [].
  Proof.
    intros Hu Hp Hpat. induction fs as [|[n f] fs IH]; [reflexivity|]. cbn [filter fst].
    destruct (glob_str pat n) eqn:E.
    - exfalso. unfold glob_str in E. rewrite Hpat in E. apply glob_lit in E; [|exact Hp]. destruct E as (s' & E & _).
      destruct (Hu n f (or_introl eq_refl)) as [H _]. apply (H (string_of_list_ascii s')). apply la_inj. rewrite E, !la_app. cbn.
      rewrite list_ascii_of_string_of_list_ascii, <- app_assoc. reflexivity.
    - apply IH. intros m g Hin. apply (Hu m g). right. exact Hin.
  Qed.
  Lemma read_files {A} (g : A -> string * file) fs0 items pat rest fmt (b : A -> bool) :
    unrelated root fs0 -> la pat = (la root ++ ["/"%char]) ++ rest ->
    (forall x, In x items -> glob_str pat (fst (g x)) = b x) ->
    exists l, Permutation l (flat_map (fun x => map snd (snd (g x))) (filter b items)) /\
      read_glob load (fs0 ++ map g items) fmt pat = match filter b items with [] => Err OtherError | _ => load fmt l end.
  Proof.
    intros Hu Hpat Hm. unfold read_glob.
    assert (plain (la root ++ ["/"%char])) as Hp.
    { apply plain_app. split; [apply no_wild_plain, Hroot | split; cbn; intuition discriminate]. }
    rewrite filter_app, (unrelated_nomatch fs0 pat rest Hu Hp Hpat), (filter_map_g g pat b items Hm). cbn [app].
    set (L := sort _ (map g (filter b items))).
    assert (Permutation L (map g (filter b items))) as HL by apply sort_perm.
    exists (List.concat (map (fun f => map snd (snd f)) L)). split.
    - rewrite <- flat_map_concat_map. rewrite (Permutation_flat_map (fun f : string * file => map snd (snd f)) HL). rewrite flat_map_concat_map, map_map, <- flat_map_concat_map. reflexivity.
    - destruct (filter b items) as [|x fl] eqn:E.
      + apply Permutation_sym, Permutation_nil in HL. rewrite HL. reflexivity.
      + destruct L as [|y L']; [apply Permutation_nil in HL; discriminate|]. reflexivity.
  Qed.

  (** ** the files after writing *)
  Variable fs0 : files.
  Hypothesis Hfs0 : unrelated root fs0.
  Variable streams : list (spair * list trace).
  Hypothesis Hgood : Forall good streams.
  Hypothesis Hdiff : ForallOrdPairs (fun a b => ~ same_pair (fst a) (fst b)) streams.

  Lemma writes_eq {A} fmt (f : spair * list trace -> list A) (h : A -> wop) opss :
    (forall ps ops, good ps -> write (snd ps) root fmt TRf = (ops, None) -> ops = map h (f ps)) ->
    Forall2 (fun ps ops => write (snd ps) root fmt TRf = (ops, None)) streams opss -> List.concat opss = map h (flat_map f streams).
  Proof.
    intros Hw. revert Hgood. clear Hdiff. intros Hg H. induction H as [|ps ops ss opss H HF IH]; [reflexivity|]. inversion Hg; subst.
    cbn [List.concat flat_map]. rewrite map_app, (Hw ps ops) by assumption. rewrite IH by assumption. reflexivity.
  Qed.
  Lemma root_prefix_free n s : n = (root ++ "/" ++ s)%string -> ~ In n (map fst fs0).
  Proof. intros -> Hin. apply in_map_iff in Hin. destruct Hin as ([m f] & E & Hin). cbn in E. destruct (Hfs0 m f Hin) as [H _]. exact (H s E). Qed.

  Definition sitems : list (spair * trace) := flat_map (fun ps => map (pair (fst ps)) (snd ps)) streams.
  Lemma sitems_in x : In x sitems -> exists s, In (fst x, s) streams /\ In (snd x) s.
  Proof.
    unfold sitems. rewrite in_flat_map. intros ([p s] & H1 & H2). apply in_map_iff in H2. destruct H2 as (t & <- & Ht). exists s. auto.
  Qed.
  Lemma good_in p s : In (p, s) streams -> good (p, s).
  Proof. rewrite Forall_forall in Hgood. apply Hgood. Qed.
  Lemma sitems_ok x : In x sitems -> proper year (fst x) /\ three_letters (channel (st (snd x))) /\ trace_of (fst x) (snd x).
  Proof.
    intros H. destruct (sitems_in x H) as (s & H1 & H2). destruct (good_in _ _ H1) as (P & T & _ & _ & C). cbn in *.
    rewrite Forall_forall in T, C. auto.
  Qed.

  Definition gq (ps : spair * list trace) : string * file := (qname (fst ps), map (pair "") (snd ps)).
  Definition gs (x : spair * trace) : string * file := (sname (fst x) (channel (st (snd x))), [("", snd x)]).
  Lemma fs_Q opss : Forall2 (fun ps ops => write (snd ps) root "Q" TRf = (ops, None)) streams opss ->
    do_ops fs0 (List.concat opss) = fs0 ++ map gq streams.
  Proof.
    intros H. rewrite (writes_eq "Q" (fun ps => [(qname (fst ps), snd ps)]) (fun x => Append (fst x) (snd x)) opss); [|intros; cbn; apply write_Q; assumption | exact H].
    assert (flat_map (fun ps : spair * list trace => [(qname (fst ps), snd ps)]) streams = map (fun ps => (qname (fst ps), snd ps)) streams) as -> by (clear; induction streams as [|x l IH]; [reflexivity | cbn; f_equal; exact IH]).
    rewrite appends_new.
    - rewrite map_map. reflexivity.
    - rewrite map_map. cbn [fst]. clear H. revert Hgood Hdiff. generalize streams. intros l. induction l as [|x l IH]; intros Hg Hd; [constructor|].
      inversion Hg; subst. inversion Hd as [|? ? Hx Hd']; subst. cbn [map]. constructor; [|apply IH; assumption].
      intros Hin. apply in_map_iff in Hin. destruct Hin as (y & E & Hy). rewrite Forall_forall in Hx. apply (Hx y Hy).
      apply qname_inj; [apply H1 | apply (proj1 (Forall_forall _ _) H2 y Hy) | symmetry; exact E].
    - intros n Hn. rewrite map_map in Hn. apply in_map_iff in Hn. destruct Hn as (x & <- & _). cbn [fst]. eapply root_prefix_free. unfold qname. reflexivity.
  Qed.
  Lemma fs_SAC opss : Forall2 (fun ps ops => write (snd ps) root "SAC" TRf = (ops, None)) streams opss ->
    do_ops fs0 (List.concat opss) = fs0 ++ map gs sitems.
  Proof.
    intros H. rewrite (writes_eq "SAC" (fun ps => map (fun t => (sname (fst ps) (channel (st t)), t)) (snd ps)) (fun x => Put (fst x) (snd x)) opss).
    - assert (flat_map (fun ps => map (fun t => (sname (fst ps) (channel (st t)), t)) (snd ps)) streams = map (fun x => (sname (fst x) (channel (st (snd x))), snd x)) sitems) as ->.
      { unfold sitems. clear. induction streams as [|ps l IH]; [reflexivity|]. cbn [flat_map]. rewrite map_app, map_map, IH. reflexivity. }
      rewrite puts_new.
      + rewrite map_map. reflexivity.
      + rewrite map_map. cbn [fst]. clear H. unfold sitems. revert Hgood Hdiff. generalize streams. intros l. induction l as [|ps l IH]; intros Hg Hd; [constructor|].
        inversion Hg as [|? ? G1 G2]; subst. inversion Hd as [|? ? Hx Hd']; subst. cbn [flat_map]. rewrite map_app, map_map. cbn [fst snd].
        destruct G1 as (P1 & T1 & _ & C1 & C2).
        assert (forall (l1 l2 : list string), NoDup l1 -> NoDup l2 -> (forall x, In x l1 -> ~ In x l2) -> NoDup (l1 ++ l2)) as Happ.
        { clear. induction l1 as [|a l1 IH]; intros l2 H1 H2 H; [exact H2|]. inversion H1; subst. cbn. constructor.
          - rewrite in_app_iff. intros [Hi|Hi]; [contradiction | apply (H a (or_introl eq_refl) Hi)].
          - apply IH; [assumption | assumption | intros; apply H; right; assumption]. }
        apply Happ.
        * revert C1 C2. generalize (snd ps). intros s. induction s as [|t s IHs]; intros C1 C2; [constructor|]. cbn [map] in *. inversion C1; subst. inversion C2; subst. constructor; [|apply IHs; assumption].
          intros Hin. apply in_map_iff in Hin. destruct Hin as (t' & E & Ht'). apply sname_inj in E; try assumption; [|exact (proj1 (Forall_forall _ _) H4 t' Ht')].
          destruct E as [_ E]. apply H1. rewrite <- E. apply (in_map (fun t => channel (st t)) s t' Ht').
        * apply IH; assumption.
        * intros n Hn Hn'. apply in_map_iff in Hn. destruct Hn as (t & <- & Ht). apply in_map_iff in Hn'. destruct Hn' as ([q t'] & E & Hin).
          apply in_flat_map in Hin. destruct Hin as (qs & Hqs & Hin). apply in_map_iff in Hin. destruct Hin as (t2 & E2 & Ht2). inversion E2; subst q t'. clear E2.
          destruct (proj1 (Forall_forall _ _) G2 qs Hqs) as (P2 & _ & _ & _ & D2). cbn [fst snd] in E.
          apply sname_inj in E; try assumption; [|exact (proj1 (Forall_forall _ _) D2 t2 Ht2) | exact (proj1 (Forall_forall _ _) C2 t Ht)].
          destruct E as [[E1 E2] _]. apply (proj1 (Forall_forall _ _) Hx qs Hqs). unfold same_pair, same_station in *. intuition congruence.
      + intros n Hn. rewrite map_map in Hn. apply in_map_iff in Hn. destruct Hn as (x & <- & _). cbn [fst]. eapply root_prefix_free. unfold sname. reflexivity.
    - intros ps ops G W. rewrite map_map. apply write_SAC; assumption.
    - exact H.
  Qed.
  Lemma fs_H5 opss : NoDup (map h5key (flat_map snd streams)) -> streams <> [] ->
    Forall2 (fun ps ops => write (snd ps) root "H5" TRf = (ops, None)) streams opss ->
    dget (do_ops fs0 (List.concat opss)) h5name = Some (map (fun t => (h5key t, t)) (flat_map snd streams)).
  Proof.
    intros Hk Hne H. rewrite (writes_eq "H5" (fun ps => map (fun t => (h5key t, t)) (snd ps)) (fun x => Dataset h5name (fst x) (snd x)) opss).
    - assert (flat_map (fun ps : spair * list trace => map (fun t => (h5key t, t)) (snd ps)) streams = map (fun t => (h5key t, t)) (flat_map snd streams)) as ->.
      { clear. induction streams as [|ps l IH]; [reflexivity|]. cbn [flat_map]. rewrite map_app, IH. reflexivity. }
      rewrite (datasets_new h5name _ fs0 []).
      + apply dget_dset_eq.
      + rewrite map_map. cbn [fst]. exact Hk.
      + intros k _ [].
      + destruct streams as [|[p s] l]; [congruence|]. inversion Hgood as [|? ? (_ & _ & Hs & _) _]; subst. cbn in Hs. destruct s; [congruence | discriminate].
      + unfold contents. rewrite dget_notin; [reflexivity|]. intros Hin. apply in_map_iff in Hin. destruct Hin as ([m f] & E & Hin). cbn in E.
        destruct (Hfs0 m f Hin) as [_ Hc]. exact (Hc E).
    - intros ps ops G W. rewrite map_map. apply write_H5; assumption.
    - exact H.
  Qed.

  (** ** reading *)
  Definition traces_of (b : spair -> bool) : list trace := flat_map snd (filter (fun ps => b (fst ps)) streams).
  Lemma traces_sitems b : flat_map (fun x : spair * trace => [snd x]) (filter (fun x => b (fst x)) sitems) = traces_of b.
  Proof.
    unfold traces_of, sitems. clear. induction streams as [|[p s] l IH]; [reflexivity|]. cbn [flat_map filter fst snd]. rewrite filter_app, flat_map_app, IH.
    assert (flat_map (fun x : spair * trace => [snd x]) (filter (fun x => b (fst x)) (map (pair p) s)) = if b p then s else []) as ->.
    { induction s as [|t s IHs]; [destruct (b p); reflexivity|]. cbn [map filter fst]. destruct (b p) eqn:E; cbn [flat_map]; rewrite IHs; reflexivity. }
    destruct (b p); reflexivity.
  Qed.
  Lemma traces_nil (b : spair -> bool) : filter (fun ps => b (fst ps)) streams = [] <-> traces_of b = [].
  Proof.
    unfold traces_of. split; [intros ->; reflexivity|]. intros H. destruct (filter (fun ps => b (fst ps)) streams) as [|[p s] l] eqn:E; [reflexivity|].
    exfalso. assert (In (p, s) streams) as Hin by (apply (filter_In (fun ps => b (fst ps))); rewrite E; left; reflexivity).
    destruct (good_in _ _ Hin) as (_ & _ & Hs & _). cbn in *. destruct s; [congruence | discriminate].
  Qed.

  Definition found (fmt : string) (b : spair -> bool) (r : res (option (list trace))) : Prop :=
    exists l, Permutation l (traces_of b) /\ r = match traces_of b with [] => Ok None | _ => read_result (load fmt l) end.

  Lemma pat_prefix p s : la (root ++ "/" ++ p ++ s)%string = (la root ++ ["/"%char]) ++ la (p ++ s).
  Proof. rewrite !la_app. cbn. rewrite <- app_assoc. reflexivity. Qed.

  Lemma found_Q opss pat (b : spair -> bool) rest : Forall2 (fun ps ops => write (snd ps) root "Q" TRf = (ops, None)) streams opss ->
    la pat = (la root ++ ["/"%char]) ++ rest -> (forall ps, In ps streams -> glob_str pat (qname (fst ps)) = b (fst ps)) ->
    found "Q" b (match read_glob load (do_ops fs0 (List.concat opss)) "Q" pat with Err e => if caught e then Ok None else Err e | Ok s => Ok (Some s) end).
  Proof.
    intros H Hpat Hb. rewrite (fs_Q opss H).
    destruct (read_files gq fs0 streams pat rest "Q" (fun ps => b (fst ps)) Hfs0 Hpat Hb) as (l & Hp & ->).
    assert (flat_map (fun x : spair * list trace => map snd (snd (gq x))) (filter (fun ps => b (fst ps)) streams) = traces_of b) as E.
    { unfold traces_of. generalize (filter (fun ps => b (fst ps)) streams). intros l0. induction l0 as [|x l0 IH]; [reflexivity|]. cbn [flat_map]. rewrite IH. unfold gq. cbn [snd]. rewrite map_map. cbn [snd]. rewrite map_id. reflexivity. }
    rewrite E in Hp. exists l. split; [exact Hp|].
    destruct (filter (fun ps => b (fst ps)) streams) eqn:Ef.
    - rewrite (proj1 (traces_nil b) Ef). reflexivity.
    - destruct (traces_of b) eqn:Et; [apply traces_nil in Et; congruence | reflexivity].
  Qed.
  Lemma found_SAC opss pat (b : spair -> bool) rest : Forall2 (fun ps ops => write (snd ps) root "SAC" TRf = (ops, None)) streams opss ->
    la pat = (la root ++ ["/"%char]) ++ rest -> (forall x, In x sitems -> glob_str pat (sname (fst x) (channel (st (snd x)))) = b (fst x)) ->
    found "SAC" b (match read_glob load (do_ops fs0 (List.concat opss)) "SAC" pat with Err e => if caught e then Ok None else Err e | Ok s => Ok (Some s) end).
  Proof.
    intros H Hpat Hb. rewrite (fs_SAC opss H).
    destruct (read_files gs fs0 sitems pat rest "SAC" (fun x => b (fst x)) Hfs0 Hpat Hb) as (l & Hp & ->).
    unfold gs in Hp. cbn [snd map] in Hp. rewrite traces_sitems in Hp. exists l. split; [exact Hp|].
    rewrite <- traces_sitems. destruct (filter (fun x => b (fst x)) sitems); reflexivity.
  Qed.
  Lemma found_H5 opss meta (b : spair -> bool) : NoDup (map h5key (flat_map snd streams)) -> streams <> [] ->
    Forall2 (fun ps ops => write (snd ps) root "H5" TRf = (ops, None)) streams opss ->
    (forall p t, proper year p -> trace_of p t -> meta_matches fmt_time meta t = b p) ->
    found "H5" b (match read_h5 fmt_time load (do_ops fs0 (List.concat opss)) h5name meta with Err e => if caught e then Ok None else Err e | Ok s => Ok (Some s) end).
  Proof.
    intros Hk Hne H Hm. unfold read_h5. rewrite (fs_H5 opss Hk Hne H). rewrite map_map. cbn [snd]. rewrite map_id.
    assert (filter (meta_matches fmt_time meta) (flat_map snd streams) = traces_of b) as ->.
    { unfold traces_of. clear Hk Hne H Hdiff. revert Hgood. generalize streams. intros l. induction l as [|[p s] l IH]; intros Hg; [reflexivity|]. inversion Hg as [|? ? (P & T & _) Hg']; subst.
      cbn [flat_map filter fst snd] in *. rewrite filter_app, (IH Hg').
      assert (filter (meta_matches fmt_time meta) s = if b p then s else []) as ->.
      { clear - T P Hm. induction T as [|t s Ht _ IHs]; [destruct (b p); reflexivity|]. cbn [filter]. rewrite (Hm p t P Ht), IHs. destruct (b p); reflexivity. }
      destruct (b p); reflexivity. }
    exists (traces_of b). split; [reflexivity|]. destruct (traces_of b); reflexivity.
  Qed.

  (** ** fetching *)
  Lemma value_eqb_str a b : value_eqb (VStr a) (VStr b) = String.eqb a b.
  Proof. reflexivity. Qed.
  Lemma meta_h5_pair p q t : proper year p -> proper year q -> trace_of q t ->
    meta_matches fmt_time [("network", VStr (p_net p)); ("station", VStr (p_sta p)); ("location", VStr (p_loc p)); ("event_time", VTime (p_time p))] t = pairb p q.
  Proof.
    intros Hp Hq (H1 & H2 & H3 & e & H4 & H5). unfold meta_matches. cbn [forallb fst snd].
    change (tr_get t "network") with (Some (VStr (network (st t)))). change (tr_get t "station") with (Some (VStr (station (st t)))).
    change (tr_get t "location") with (Some (VStr (location (st t)))). rewrite event_time_get, H4, H1, H2, H3, !value_eqb_str. unfold pairb, stationb.
    rewrite Bool.andb_true_r, <- !Bool.andb_assoc. do 3 f_equal.
    apply proper_codes in Hp, Hq. apply (bool_iff _ _ ((p_time p / 1000000000 = p_time q / 1000000000)%Z)); [|apply Z.eqb_eq].
    rewrite String.eqb_eq, (proj1 (proj2 Hclock _ _) H5). split; [apply (proj2 (proj2 Hclock _ _)); tauto | apply (proj2 Hclock)].
  Qed.
  Lemma meta_h5_station p q t : trace_of q t ->
    meta_matches fmt_time [("network", VStr (p_net p)); ("station", VStr (p_sta p)); ("location", VStr (p_loc p))] t = stationb p q.
  Proof.
    intros (H1 & H2 & H3 & H4). unfold meta_matches. cbn [forallb fst snd].
    change (tr_get t "network") with (Some (VStr (network (st t)))). change (tr_get t "station") with (Some (VStr (station (st t)))).
    change (tr_get t "location") with (Some (VStr (location (st t)))). rewrite H1, H2, H3, !value_eqb_str. unfold stationb.
    rewrite Bool.andb_true_r, <- !Bool.andb_assoc. reflexivity.
  Qed.
  Lemma fetch_eq fmt fs p cha opss :
    In fmt ["Q"; "SAC"; "H5"] -> (fmt = "H5" -> NoDup (map h5key (flat_map snd streams))) ->
    Forall2 (fun ps ops => write (snd ps) root fmt TRf = (ops, None)) streams opss -> fs = do_ops fs0 (List.concat opss) -> proper year p ->
    found fmt (pairb p) (fetch root fmt fs (meta p cha)) /\ found fmt (stationb p) (fetch root fmt fs (station_meta p cha)).
  Proof.
    intros Hf Hk H -> Hp. destruct Hf as [<-|[<-|[<-|[]]]].
    - split.
      + apply (found_Q opss (qname p) (pairb p) (la (nsl (p_net p) (p_sta p) (p_loc p) ++ "/" ++ nsl (p_net p) (p_sta p) (p_loc p) ++ "_" ++ fmt_time (p_time p) ++ ".QHD")) H).
        * unfold qname. apply pat_prefix.
        * intros ps Hin. apply match_q; [exact Hp | apply (proj1 (Forall_forall _ _) Hgood ps Hin)].
      + apply (found_Q opss (qpat p) (stationb p) (la (nsl (p_net p) (p_sta p) (p_loc p) ++ "/" ++ nsl (p_net p) (p_sta p) (p_loc p) ++ "_" ++ "*" ++ ".QHD")) H).
        * unfold qpat. apply pat_prefix.
        * intros ps Hin. apply match_qpat; [exact Hp | apply (proj1 (Forall_forall _ _) Hgood ps Hin)].
    - split.
      + apply (found_SAC opss (spat p (fmt_time (p_time p))) (pairb p) (la (nsl (p_net p) (p_sta p) (p_loc p) ++ "/" ++ nsl (p_net p) (p_sta p) (p_loc p) ++ "." ++ "???" ++ "_" ++ fmt_time (p_time p) ++ ".SAC")) H).
        * unfold spat. apply pat_prefix.
        * intros x Hin. apply sitems_ok in Hin. apply match_s; tauto.
      + apply (found_SAC opss (spat p "*") (stationb p) (la (nsl (p_net p) (p_sta p) (p_loc p) ++ "/" ++ nsl (p_net p) (p_sta p) (p_loc p) ++ "." ++ "???" ++ "_" ++ "*" ++ ".SAC")) H).
        * unfold spat. apply pat_prefix.
        * intros x Hin. apply sitems_ok in Hin. apply match_spat; tauto.
    - destruct streams as [|ps ss] eqn:Es.
      + inversion H; subst opss. cbn [List.concat do_ops fold_left].
        assert (dget fs0 h5name = None) as Hn.
        { apply dget_notin. intros Hin. apply in_map_iff in Hin. destruct Hin as ([m f] & E & Hin). cbn in E. destruct (Hfs0 m f Hin) as [_ Hc]. exact (Hc E). }
        unfold found, traces_of. rewrite Es. cbn [filter flat_map]. split; exists []; (split; [constructor|]);
          unfold Batch.fetch; cbn - [dget]; unfold read_h5; fold h5name; rewrite Hn; reflexivity.
      + rewrite <- Es in *. split; apply (found_H5 opss); try (apply Hk; reflexivity); try assumption; try (rewrite Es; discriminate).
        * intros q t Hq Ht. apply meta_h5_pair; assumption.
        * intros q t Hq Ht. apply meta_h5_station; assumption.
  Qed.

  Lemma pairb_refl p : pairb p p = true.
  Proof. apply pairb_spec. unfold same_pair, same_station. tauto. Qed.
  Lemma traces_pair p s : In (p, s) streams -> traces_of (pairb p) = s.
  Proof.
    unfold traces_of. clear Hgood. revert Hdiff. generalize streams. intros l. induction l as [|[q r] l IH]; intros Hd; [intros []|].
    inversion Hd as [|? ? Hx Hd']; subst. rewrite Forall_forall in Hx. intros [E|Hin].
    - inversion E; subst. cbn [filter fst]. rewrite pairb_refl. cbn [flat_map snd].
      assert (filter (fun ps : spair * list trace => pairb p (fst ps)) l = []) as ->.
      { clear - Hx. induction l as [|y l IH]; [reflexivity|]. cbn [filter]. destruct (pairb p (fst y)) eqn:E.
        - exfalso. apply (Hx y (or_introl eq_refl)). apply pairb_spec, E.
        - apply IH. intros; apply Hx; right; assumption. }
      apply app_nil_r.
    - cbn [filter fst]. destruct (pairb p q) eqn:E.
      + exfalso. apply (Hx (p, s) Hin). apply pairb_spec in E. cbn. unfold same_pair, same_station in *. intuition congruence.
      + apply IH; assumption.
  Qed.
  Lemma traces_none (b : spair -> bool) : (forall q s, In (q, s) streams -> b q = false) -> traces_of b = [].
  Proof.
    unfold traces_of. clear Hgood Hdiff. generalize streams. intros l. induction l as [|[q r] l IH]; intros H; [reflexivity|].
    cbn [filter fst]. rewrite (H q r (or_introl eq_refl)). apply IH. intros q' s' Hin. apply (H q' s'). right. exact Hin.
  Qed.
End B.
