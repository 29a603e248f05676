(** Lemmas for C143: the streams of rf data and their events and stations. *)
From Verif Require Import Model.DataCommand Spec.StatsSpec Spec.EventSpec Spec.BatchSpec Spec.OnceSpec Spec.PipelineSpec Spec.DataCmdSpec
  Proofs.PyFacts Proofs.RfstatsFacts Proofs.EventFacts Proofs.OnceFacts Properties.EventProps.
Local Open Scope list_scope.

(** the event time of the stats *)
Section R.
  Variable gps : Q -> Q -> Q -> Q -> res (Q * Q * Q).
  Variable taup_load : string -> res unit.
  Variable taup : string -> Q -> Q -> string -> res (list arrival).
  Variable ppoint : string -> dict value -> Q -> string -> res (dict value).
  Lemma origin_of_time ev o : origin_of ev o -> time_of ev = o_time o.
  Proof. unfold time_of. intros [->|[-> [l ->]]]; reflexivity. Qed.
  Lemma rfstats_new_time a ev sta s : r_event a = Some ev -> r_station a = Some sta -> sets_ppoint ppoint ->
    rfstats_new gps taup_load taup ppoint a = Ok (Some s) ->
    exists t, time_of ev = Some t /\ dget s "event_time" = Some (VTime t).
  Proof.
    intros Hev Hsta Hp. unfold rfstats_new. rewrite rfstats1_unfold.
    destruct (resolve_range _ _) as [dr|]; [|discriminate].
    destruct (update_base a []) as [b|] eqn:Eb; [|discriminate].
    assert (NoDup (map fst b)) as Hb.
    { unfold update_base in Eb. rewrite Hev, Hsta in Eb. destruct (obj2stats _ _) as [u|]; [|discriminate]. cbn [bind] in Eb. inversion Eb.
      apply (EventFacts.dupdate_NoDup (A := value)). constructor. }
    apply update_base_ok in Eb. unfold base in Eb. rewrite Hev, Hsta in Eb.
    destruct Eb as (lat & lon & dep & t & m & sla & slo & sel & Ho & _ & _ & _ & _ & _ & _ & _ & _ & Ht & _).
    destruct (geodesic gps b) as [[[mm baz] az2]|]; [|discriminate]. cbv zeta.
    destruct (outside dr _); [discriminate|].
    destruct (raycalc _ _ _ _ _) as [[ar onset]|]; [|discriminate].
    set (s1 := ray_update _ _ _ _ _ _).
    assert (NoDup (map fst s1)) as Hs1 by (apply EventFacts.dupdate_NoDup, Hb).
    assert (dget s1 "event_time" = Some (VTime t)) as Hs1t.
    { unfold s1, ray_update. rewrite !dupdate_cons, dupdate_nil. rewrite !dget_dset_if. exact Ht. }
    intros H. exists t. split; [rewrite (origin_of_time ev _ Ho); reflexivity|].
    destruct (r_ppdepth a) as [d|].
    - destruct (ppoint _ _ _ _) as [s2|] eqn:E; [|discriminate]. inversion H; subst s2.
      destruct (Hp _ _ _ _ _ Hs1 E) as [_ Hk]. rewrite Hk; [exact Hs1t|]. simpl. intuition discriminate.
    - inversion H; subst. exact Hs1t.
  Qed.
End R.

Lemma FOP_app_l {A} (R : A -> A -> Prop) l1 l2 : ForallOrdPairs R (l1 ++ l2) -> ForallOrdPairs R l1.
Proof.
  induction l1 as [|x l1 IH]; intros H; [constructor|]. cbn [app] in H. inversion H as [|? ? H1 H2]; subst. constructor; [|apply IH, H2].
  apply Forall_app in H1. apply H1.
Qed.
(** at most one item for each element *)
Lemma FOP_optional {A B} (R : A -> A -> Prop) (S : B -> B -> Prop) (rel : A -> B -> Prop) l (m : list (list B)) :
  (forall a b x y, R a b -> rel a x -> rel b y -> S x y) -> ForallOrdPairs R l ->
  Forall2 (fun a o => o = [] \/ exists x, o = [x] /\ rel a x) l m -> ForallOrdPairs S (List.concat m).
Proof.
  intros H HR HF. induction HF as [|a o l m Hao HF IH]; [constructor|]. inversion HR as [|? ? Ha HR']; subst. cbn [List.concat].
  specialize (IH HR'). destruct Hao as [->|(x & -> & Hx)]; [exact IH|]. cbn [app]. constructor; [|exact IH].
  clear - H Ha Hx HF. induction HF as [|b o l m Hbo HF IH]; [constructor|]. inversion Ha; subst. cbn [List.concat]. apply Forall_app.
  split; [|apply IH; assumption]. destruct Hbo as [->|(y & -> & Hy)]; constructor; [|constructor]. apply (H a b); assumption.
Qed.
Lemma split4_pair net sta loc cha : (forall x, In x [net; sta; loc; cha] -> char_in "." x = false) ->
  split4 (net ++ "." ++ sta ++ "." ++ loc ++ "." ++ cha) = Ok (net, sta, loc, cha).
Proof.
  intros H. unfold split4. cbn [append]. rewrite !split_on_sep by (apply H; simpl; tauto). rewrite split_on_no by (apply H; simpl; tauto). reflexivity.
Qed.

Lemma window_exists phase window : exists w, window_of phase window w.
Proof.
  unfold window_of. destruct window as [w|]; [eauto|].
  destruct (last_char (upper phase)) as [c|]; [destruct (ascii_dec c "P") as [->|Hne]|].
  - exists (-50, 150)%Q. split; [reflexivity | congruence].
  - exists (-100, 50)%Q. split; [congruence | reflexivity].
  - exists (-100, 50)%Q. split; [congruence | reflexivity].
Qed.
Lemma yielded_app l1 l2 : yielded (l1 ++ l2) = yielded l1 ++ yielded l2.
Proof. unfold yielded. apply flat_map_app. Qed.

Section I.
  Variable gps : Q -> Q -> Q -> Q -> res (Q * Q * Q).
  Variable taup_load : string -> res unit.
  Variable taup : string -> Q -> Q -> string -> res (list arrival).
  Variable ppoint : string -> dict value -> Q -> string -> res (dict value).
  Variable str_of : value -> string.
  Variable coordinates : string -> option Z -> res station_d.
  Variable F : Type.
  Variable trim : Z -> Z -> F -> res F.
  Variable merge : F -> res F.
  Variable components : F -> list wtrace.
  Variable get : request -> res (option F).
  Variable sampling : hst -> Z.
  Variable samples : hst -> list Q.
  Variables (a : rs_args) (window : option (Q * Q)) (pad : Q) (events : list event) (channels : list string).
  Variable year : Z -> Prop.
  Hypothesis Hpp : sets_ppoint ppoint.
  Hypothesis Hinv : inventory_ok channels.
  Hypothesis Hone : one_group channels.
  Hypothesis Hevs : events_ok year events.
  Hypothesis Hans : answers F trim merge components get.
  Notation call := (call_rfstats gps taup_load taup ppoint a).
  Notation deliv w := (delivered call coordinates F trim merge components get channels w pad).
  Notation miss w := (missing call coordinates F trim merge components get channels w pad).
  Notation tr := (as_trace sampling samples).
  (** an item for a pair *)
  Definition item_of (w : Q * Q) (x : event * string) (y : spair * list hst) : Prop :=
    pair_of (fst x) (snd x) (fst y) /\ proper year (fst y) /\ deliv w (fst x) (snd x) (snd y) /\ good year (fst y, map tr (snd y)).
  Lemma one_item w ev id ac : In ev events -> In id (station_ids channels) ->
    pair_result call str_of coordinates F trim merge components get channels (fst w) (snd w) pad ev id ac ->
    exists o, yielded ac = map snd o /\ ((o = [] /\ miss w ev id) \/ exists x, o = [x] /\ item_of w (ev, id) x).
  Proof.
    intros Hev Hid H. destruct H as [Hu|s onset q e H1 H2 H3 H4|s onset q st st1 st2 H1 H2 H3 H4 H5 H6 H7|s onset q st st1 st2 l H1 H2 H3 H4 H5 H6 H7 H8].
    - exists []. split; [reflexivity|]. left. split; [reflexivity|]. left. exact Hu.
    - exists []. split; [reflexivity|]. left. split; [reflexivity|]. right. left. exists s, onset, q, e. auto.
    - exists []. split; [reflexivity|]. left. split; [reflexivity|]. right. right. exists s, st2. split; [|exact H7]. exists onset, q, st, st1. auto 10.
    - destruct (proj1 Hevs ev Hev) as (t & Ht & Hy).
      destruct (id_split channels Hinv id Hid) as (net & sta & loc & cha & K1 & K2 & K3 & I1 & I2 & I3).
      set (p := mkPair net sta loc t). exists [(p, l)]. split; [reflexivity|]. right. exists (p, l). split; [reflexivity|].
      destruct H3 as (Q1 & Q2 & Q3). pose proof (split4_pair _ _ _ _ Q2) as Q4. rewrite Q1, I3 in Q4. injection Q4 as Q5 Q6 Q7 Q8.
      destruct (Hans q st _ _ st1 st2 H4 H5 H6) as [Hnd Hc].
      pose proof H1 as (ch & coords & _ & _ & _ & Hrf). destruct (rfstats_new_onset _ _ _ _ _ _ Hpp Hrf) as [Hns _].
      destruct (rfstats_new_time _ _ _ _ (mkRs (Some ev) (Some coords) (r_phase a) (r_range a) (r_tt a) (r_ppdepth a) (r_ppphase a) (r_model a)) ev coords s eq_refl eq_refl Hpp Hrf) as (t' & Ht' & Het). rewrite Ht in Ht'. injection Ht' as <-.
      assert (Forall2 (fun wt h => h = with_main (w_h wt) (dupdate (h_main (w_h wt)) s)) (components st2) l) as HF.
      { clear - H8 Hc. unfold annotated in H8. induction H8 as [|wt h c l Hh HF IH]; [constructor|]. constructor; [|apply IH; intros; apply Hc; right; assumption].
        destruct (Hc wt (or_introl eq_refl)) as (_ & _ & _ & _ & Hp). rewrite plain_init in Hh by exact Hp. congruence. }
      assert (forall wt k v, dget s k = Some v -> dget (h_main (with_main (w_h wt) (dupdate (h_main (w_h wt)) s))) k = Some v) as Hget.
      { intros wt k v Hk. cbn [h_main with_main]. rewrite dupdate_get by exact Hns. rewrite Hk. reflexivity. }
      assert (pair_of ev id p) as Hpair.
      { split; [exact Ht|]. exists (droplast cha ++ "?")%string. split; [apply droplast_nodot, I1|]. cbn [p p_net p_sta p_loc].
        symmetry. apply split4_spec, I3. }
      assert (proper year p) as Hprop by (repeat split; try apply K1; try apply K2; try apply K3; exact Hy).
      split; [exact Hpair|]. split; [exact Hprop|]. split.
      + exists s, st2. split; [exists onset, q, st, st1; unfold request_for; auto 10|]. split; [exact H7|].
        eapply Forall2_impl; [|exact HF]. intros wt h ->. repeat split. apply Hget.
      + split; [exact Hprop|]. cbn [fst snd]. split; [|split].
        * apply Forall_forall. intros x Hx. apply in_map_iff in Hx. destruct Hx as (h & <- & Hh).
          destruct (F2_in_r _ _ _ h HF Hh) as (wt & Hwt & ->). destruct (Hc wt Hwt) as (C1 & C2 & C3 & _).
          unfold trace_of. cbn [as_trace Trace.st network station location extra p p_net p_sta p_loc p_time with_main h_net h_sta h_loc].
          split; [congruence|]. split; [congruence|]. split; [congruence|]. eexists. split; [apply Hget, Het | reflexivity].
        * destruct H7 as [H7 _]. intros E. apply map_eq_nil in E. subst l. inversion HF as [E|]; subst. rewrite <- E in H7. discriminate.
        * assert (map (fun t0 => channel (Trace.st t0)) (map tr l) = map (fun t0 => h_cha (w_h t0)) (components st2)) as E.
          { rewrite map_map. clear - HF. induction HF as [|wt h c l -> HF IH]; [reflexivity|]. cbn [map]. rewrite IH. reflexivity. }
          split; [rewrite E; exact Hnd|]. apply Forall_forall. intros x Hx. apply in_map_iff in Hx. destruct Hx as (h & <- & Hh).
          destruct (F2_in_r _ _ _ h HF Hh) as (wt & Hwt & ->). apply (Hc wt Hwt).
  Qed.

  Lemma iteration_items acts ending :
    iter_event_data gps taup_load taup ppoint str_of coordinates F trim merge components get a window pad events channels = (acts, ending) ->
    exists w items, window_of (r_phase a) window w /\ yielded acts = map snd items /\
      ForallOrdPairs (fun x y : spair * list hst => ~ same_pair (fst x) (fst y)) items /\
      (forall y, In y items -> exists ev id, In ev events /\ In id (station_ids channels) /\ item_of w (ev, id) y) /\
      (ending = None -> forall ev id, In ev events -> In id (station_ids channels) ->
         (exists y, In y items /\ item_of w (ev, id) y) \/ miss w ev id).
  Proof.
    intros H. destruct (C54_product_order gps taup_load taup ppoint str_of coordinates F trim merge components get a window pad events channels acts ending Hpp H)
      as [[-> Hne]|(w & done & actss & Hw & HF & Hend)].
    { destruct (window_exists (r_phase a) window) as [w Hw]. exists w, []. split; [exact Hw|]. split; [reflexivity|]. split; [constructor|].
      split; [intros y []|]. congruence. }
    exists w. set (prod := list_prod events (station_ids channels)) in *.
    assert (exists rest part, prod = done ++ rest /\ acts = List.concat actss ++ part /\ yielded part = [] /\ (ending = None -> rest = [])) as (rest & part & Hp & Ha & Hy & Hr).
    { destruct ending as [e|].
      - destruct Hend as (ev & id & rest & part & E & -> & Hab). exists ((ev, id) :: rest), part. split; [exact E|]. split; [reflexivity|].
        split; [destruct Hab; reflexivity | discriminate].
      - destruct Hend as [-> ->]. exists [], []. rewrite !app_nil_r. auto. }
    assert (forall x, In x done -> In (fst x) events /\ In (snd x) (station_ids channels)) as Hin.
    { intros [ev id] Hx. cbn [fst snd]. apply in_prod_iff. fold prod. rewrite Hp. apply in_app_iff. left. exact Hx. }
    assert (exists itss, yielded (List.concat actss) = map snd (List.concat itss) /\
      Forall2 (fun x o => (o = [] /\ miss w (fst x) (snd x)) \/ exists y, o = [y] /\ item_of w x y) done itss) as (itss & Hyi & HFi).
    { clear - HF Hin Hinv Hevs Hans Hpp. induction HF as [|[ev id] ac done actss Hres HF IH]; [exists []; split; [reflexivity | constructor]|].
      destruct IH as (itss & E & HFi); [intros; apply Hin; right; assumption|].
      destruct (Hin (ev, id) (or_introl eq_refl)) as [H1 H2]. destruct (one_item w ev id ac H1 H2 Hres) as (o & Eo & Ho).
      exists (o :: itss). split; [cbn [List.concat]; rewrite yielded_app, map_app, Eo, E; reflexivity|]. constructor; [|exact HFi].
      destruct Ho as [[-> Hm]|Hx]; [left; auto | right; exact Hx]. }
    exists (List.concat itss). split; [exact Hw|]. split; [rewrite Ha, yielded_app, Hy, app_nil_r; exact Hyi|]. split; [|split].
    - assert (ForallOrdPairs (fun x y : event * string => forall p q, pair_of (fst x) (snd x) p -> proper year p -> pair_of (fst y) (snd y) q -> proper year q -> ~ same_pair p q) prod) as HP.
      { apply (FOP_prod (fun e f => forall t u, time_of e = Some t -> time_of f = Some u -> sec t <> sec u)).
        - apply Hevs.
        - intros e f x y Hef _ _ p q [T1 _] _ [T2 _] _ [_ E]. exact (Hef _ _ T1 T2 E).
        - intros e _. cbn [fst snd]. eapply (FOP_Forall2 _ _ eq); [|exact (ids_differ channels Hinv Hone)|clear; induction (station_ids channels); constructor; auto].
          intros i1 i2 x y Hd <- <- p q [_ (c1 & D1 & E1)] (P1 & P2 & P3 & _) [_ (c2 & D2 & E2)] (P4 & P5 & P6 & _) [(S1 & S2 & S3) _].
          assert (forall c n s lo, char_in "." c = false -> code n -> code s -> code lo ->
            split4 (n ++ "." ++ s ++ "." ++ lo ++ "." ++ c) = Ok (n, s, lo, c)) as Hsp.
          { intros c n s lo Hc' (_ & _ & Hn) (_ & _ & Hs) (_ & _ & Hl). apply split4_pair. intros z [<-|[<-|[<-|[<-|[]]]]]; assumption. }
          apply (Hd (p_net p, p_sta p, p_loc p)).
          + exists c1. cbn [fst snd]. rewrite E1. apply Hsp; assumption.
          + exists c2. cbn [fst snd]. rewrite E2, S1, S2, S3. apply Hsp; assumption. }
      rewrite Hp in HP. apply FOP_app_l in HP.
      refine (FOP_optional _ _ (item_of w) done itss _ HP _).
      + intros x y p q Hxy (A1 & A2 & _) (B1 & B2 & _). exact (Hxy _ _ A1 A2 B1 B2).
      + eapply Forall2_impl; [|exact HFi]. intros x o [[-> _]|Hx]; auto.
    - intros y Hy'. apply in_concat in Hy'. destruct Hy' as (o & Ho & Hyo). destruct (F2_in_r _ _ _ o HFi Ho) as ([ev id] & Hx & Hr').
      destruct (Hin _ Hx) as [H1 H2]. exists ev, id. split; [exact H1|]. split; [exact H2|].
      destruct Hr' as [[-> _]|(y' & -> & Hi)]; [destruct Hyo|]. destruct Hyo as [<-|[]]. exact Hi.
    - intros Hn ev id H1 H2. assert (In (ev, id) done) as Hx.
      { rewrite (Hr Hn), app_nil_r in Hp. rewrite <- Hp. apply in_prod; assumption. }
      destruct (F2_in_l _ _ _ _ HFi Hx) as (o & Ho & [[_ Hm]|(y & -> & Hi)]); [right; exact Hm|]. left. exists y. split; [|exact Hi].
      apply in_concat. exists [y]. split; [exact Ho | left; reflexivity].
  Qed.
End I.

(** ** options *)
Lemma dget_filter {A} (f : string -> bool) (d : dict A) k : f k = true -> dget (filter (fun kv => f (fst kv)) d) k = dget d k.
Proof.
  intros Hk. induction d as [|[x v] d IH]; [reflexivity|]. cbn [filter fst]. destruct (f x) eqn:E; unfold dget in *; cbn [aget]; [rewrite IH; reflexivity|].
  rewrite IH. destruct (String.eqb_spec k x) as [->|]; [congruence | reflexivity].
Qed.
Lemma inb_In k l : inb k l = true <-> In k l.
Proof. unfold inb. rewrite existsb_exists. split; [intros (x & H & E); apply String.eqb_eq in E; subst; exact H | intros H; exists k; split; [exact H | apply String.eqb_refl]]. Qed.
Lemma str_option d k x y : option_is text d k x y -> str_arg (dget d k) x = Ok y.
Proof. unfold option_is, str_arg, text. destruct (dget d k); intros ->; reflexivity. Qed.
Lemma window_option d w : option_is (null_or two_numbers) d "request_window" None w -> window_arg (dget d "request_window") = Ok w.
Proof.
  unfold option_is, window_arg, null_or, two_numbers. destruct (dget d "request_window") as [j|]; [|intros ->; reflexivity].
  destruct w as [[x y]|]; intros ->; reflexivity.
Qed.
Lemma pad_option d q : option_is number d "pad" 10%Q q -> pad_arg (dget d "pad") = Ok q.
Proof. unfold option_is, pad_arg, number. destruct (dget d "pad"); intros ->; reflexivity. Qed.
Lemma range_option d r : option_is distances d "dist_range" DDefault r -> range_arg (dget d "dist_range") = Ok r.
Proof.
  unfold option_is, range_arg, distances. destruct (dget d "dist_range") as [j|]; [|intros ->; reflexivity].
  destruct r as [| |lo hi]; intros ->; reflexivity.
Qed.
Lemma depth_option d q : option_is (null_or number) d "pp_depth" None q -> depth_arg (dget d "pp_depth") = Ok q.
Proof. unfold option_is, depth_arg, null_or, number. destruct (dget d "pp_depth") as [j|]; [|intros ->; reflexivity]. destruct q; intros ->; reflexivity. Qed.
Lemma phase_option d q : option_is (null_or text) d "pp_phase" None q -> phase_arg (dget d "pp_phase") = Ok q.
Proof. unfold option_is, phase_arg, null_or, text. destruct (dget d "pp_phase") as [j|]; [|intros ->; reflexivity]. destruct q; intros ->; reflexivity. Qed.
Lemma documented_iterate gps taup_load taup ppoint str_of coordinates F trim merge components opt get events channels a window pad :
  documented opt a window pad ->
  iterate gps taup_load taup ppoint str_of coordinates F trim merge components opt get events channels =
  iter_event_data gps taup_load taup ppoint str_of coordinates F trim merge components get a window pad events channels.
Proof.
  intros (d & -> & Hk & H1 & H2 & H3 & H4 & H5 & H6 & H7 & H8). unfold iterate.
  assert (existsb (fun kv => inb (fst kv) ["events"; "inventory"; "get_waveforms"; "pbar"]) d = false) as ->.
  { apply not_true_iff_false. intros H. apply existsb_exists in H. destruct H as ([k v] & Hin & H). cbn [fst] in H. apply inb_In in H.
    specialize (Hk k v Hin). cbn in Hk, H. intuition congruence. }
  rewrite (str_option _ _ _ _ H1), (window_option _ _ H2), (pad_option _ _ H3). cbv zeta. unfold rfstats_args.
  set (kw := filter _ d).
  assert (existsb (fun kv => negb (inb (fst kv) ["dist_range"; "tt_model"; "pp_depth"; "pp_phase"; "model"])) kw = false) as ->.
  { apply not_true_iff_false. intros H. apply existsb_exists in H. destruct H as ([k v] & Hin & H). apply filter_In in Hin. cbn [fst] in *. destruct Hin as [Hin Hn].
    apply negb_true_iff in H, Hn. specialize (Hk k v Hin). cbn [In] in Hk. repeat (destruct Hk as [<-|Hk]; [discriminate|]). destruct Hk. }
  assert (forall k, inb k ["phase"; "request_window"; "pad"] = false -> dget kw k = dget d k) as Hg.
  { intros k H. unfold kw. apply (dget_filter (fun k => negb (inb k ["phase"; "request_window"; "pad"]))). rewrite H. reflexivity. }
  rewrite !Hg by reflexivity.
  rewrite (range_option _ _ H4), (str_option _ _ _ _ H5), (depth_option _ _ H6), (phase_option _ _ H7), (str_option _ _ _ _ H8). cbn [bind]. reflexivity.
Qed.
(** the station of an id is in the inventory *)
Lemma pair_requested events channels ev id p : inventory_ok channels -> In ev events -> In id (station_ids channels) -> pair_of ev id p ->
  code (p_net p) -> code (p_sta p) -> code (p_loc p) -> requested events channels p.
Proof.
  intros Hinv Hev Hid [Ht (c & Hc & E)] (_ & _ & N1) (_ & _ & N2) (_ & _ & N3). split; [exists ev, (p_time p); auto|].
  destruct (id_split channels Hinv id Hid) as (net & sta & loc & cha & _ & _ & _ & I1 & _ & I3). exists cha.
  rewrite E, split4_pair in I3 by (intros z [<-|[<-|[<-|[<-|[]]]]]; assumption). injection I3 as <- <- <- _. exact I1.
Qed.
Lemma inventory_ids channels : inventory_ok channels -> forall ch, In ch channels -> channel_id ch.
Proof.
  intros H ch Hin. destruct (H ch Hin) as (net & sta & loc & cha & -> & (_ & _ & H1) & (_ & _ & H2) & (_ & _ & H3) & H4 & H5).
  exists net, sta, loc, cha. auto 10.
Qed.
