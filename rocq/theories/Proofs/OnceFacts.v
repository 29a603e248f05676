(** Iterating over stored streams: each is visited once. *)
From Verif Require Import Model.Figures Spec.EventSpec Spec.BatchSpec Spec.OnceSpec Proofs.PyFacts Proofs.BatchFacts Proofs.BatchRead Proofs.EventFacts.
Notation length := List.length.

Lemma droplast_cons x s : s <> "" -> droplast (String x s) = String x (droplast s).
Proof. destruct s; [congruence | reflexivity]. Qed.
Lemma droplast_nodot cha : char_in "." cha = false -> char_in "." (droplast cha ++ "?") = false.
Proof.
  intros H4. rewrite char_in_app. simpl. rewrite orb_false_r. revert H4. induction cha as [|x s IH]; [reflexivity|].
  destruct s as [|y s]; [reflexivity|]. change (droplast (String x (String y s))) with (String x (droplast (String y s))).
  cbn [char_in]. intros H. apply orb_false_iff in H. destruct H as [Ha Hb].
  apply orb_false_iff. split; [exact Ha|]. apply IH. exact Hb.
Qed.
Lemma station_of_code net sta loc cha : cha <> "" -> station_of (channel_code net sta loc cha) = (net ++ "." ++ sta ++ "." ++ loc ++ "." ++ (droplast cha ++ "?"))%string.
Proof.
  intros Hne. unfold station_of, channel_code.
  assert (droplast (net ++ "." ++ sta ++ "." ++ loc ++ "." ++ cha) = net ++ "." ++ sta ++ "." ++ loc ++ "." ++ droplast cha)%string as ->.
  { rewrite !droplast_app; try reflexivity; try exact Hne; try discriminate; simpl;
      try (destruct loc; discriminate); try (destruct sta; discriminate).  }
  rewrite !sapp_assoc. reflexivity.
Qed.
Lemma split4_code net sta loc cha : code net -> code sta -> code loc -> cha <> "" -> char_in "." cha = false ->
  split4 (station_of (channel_code net sta loc cha)) = Ok (net, sta, loc, (droplast cha ++ "?")%string).
Proof.
  intros (_ & _ & H1) (_ & _ & H2) (_ & _ & H3) Hne H4. rewrite station_of_code by exact Hne. unfold split4. cbn [append].
  rewrite !split_on_sep by assumption. rewrite split_on_no by (apply droplast_nodot; exact H4). reflexivity.
Qed.
Lemma firsts_spec l : NoDup (firsts l) /\ forall x, In x (firsts l) <-> In x l.
Proof.
  induction l as [|x l [IH1 IH2]]; [split; [constructor | tauto]|]. cbn [firsts]. split.
  - constructor; [|apply NoDup_filter, IH1]. rewrite filter_In. intros [_ H]. rewrite String.eqb_refl in H. discriminate.
  - intros y. cbn [In]. rewrite filter_In, IH2. destruct (String.eqb_spec y x) as [->|Hne]; cbn; [tauto|]. intuition congruence.
Qed.

Lemma FOP_app {A} (R : A -> A -> Prop) l1 l2 : ForallOrdPairs R l1 -> ForallOrdPairs R l2 -> (forall a b, In a l1 -> In b l2 -> R a b) -> ForallOrdPairs R (l1 ++ l2).
  Proof.
    induction l1 as [|x l1 IH]; intros H1 H2 H; [exact H2|]. inversion H1 as [|? ? Hx H1']; subst. cbn [app]. constructor.
    - apply Forall_app. split; [exact Hx|]. apply Forall_forall. intros b Hb. apply H; [left; reflexivity | exact Hb].
    - apply IH; [exact H1' | exact H2 | intros; apply H; [right|]; assumption].
  Qed.
Section FOP.
  Context {A B : Type}.
  Lemma FOP_Forall2 (R : A -> A -> Prop) (S : B -> B -> Prop) (rel : A -> B -> Prop) l m :
    (forall a b x y, R a b -> rel a x -> rel b y -> S x y) -> ForallOrdPairs R l -> Forall2 rel l m -> ForallOrdPairs S m.
  Proof.
    intros H HR HF. induction HF as [|a x l m Hax HF IH]; [constructor|]. inversion HR as [|? ? Ha HR']; subst. constructor; [|apply IH, HR'].
    clear - H Ha Hax HF. induction HF as [|b y l m Hby HF IH]; [constructor|]. inversion Ha; subst. constructor; [|apply IH; assumption].
    apply (H a b); assumption.
  Qed.
  Lemma FOP_prod (R1 : A -> A -> Prop) (R : A * B -> A * B -> Prop) la lb :
    ForallOrdPairs R1 la -> (forall a b x y, R1 a b -> In x lb -> In y lb -> R (a, x) (b, y)) ->
    (forall a, In a la -> ForallOrdPairs (fun x y => R (a, x) (a, y)) lb) -> ForallOrdPairs R (list_prod la lb).
  Proof.
    intros H1 H H2. induction H1 as [|a la Ha H1 IH]; [constructor|]. cbn [list_prod]. apply FOP_app.
    - specialize (H2 a (or_introl eq_refl)). clear - H2. induction H2 as [|x l Hx H2 IH]; [constructor|]. cbn [map]. constructor; [|exact IH].
      rewrite Forall_forall in *. intros y Hy. apply in_map_iff in Hy. destruct Hy as (z & <- & Hz). apply Hx, Hz.
    - apply IH. intros; apply H2; right; assumption.
    - intros [a' x] [b y] Hx Hy. apply in_map_iff in Hx. destruct Hx as (x' & E & Hx). inversion E; subst. apply in_prod_iff in Hy. destruct Hy as [Hb Hy].
      apply H; try assumption. rewrite Forall_forall in Ha. apply Ha, Hb.
  Qed.
End FOP.
Lemma NoDup_FOP {A} (l : list A) : NoDup l -> ForallOrdPairs (fun a b => a <> b) l.
Proof. induction 1 as [|x l Hx _ IH]; [constructor|]. constructor; [|exact IH]. apply Forall_forall. intros y Hy ->. contradiction. Qed.

(** ids of an inventory *)
Section Inventory.
  Variable channels : list string.
  Hypothesis Hinv : inventory_ok channels.
  Lemma id_split id : In id (station_ids channels) -> exists net sta loc cha,
    code net /\ code sta /\ code loc /\ in_inventory channels net sta loc cha /\ id = station_of (channel_code net sta loc cha) /\
    split4 id = Ok (net, sta, loc, (droplast cha ++ "?")%string).
  Proof.
    intros H. apply (proj2 (firsts_spec (map station_of channels))) in H. apply in_map_iff in H. destruct H as (ch & <- & Hin).
    destruct (Hinv ch Hin) as (net & sta & loc & cha & -> & H1 & H2 & H3 & H4 & H5).
    exists net, sta, loc, cha. split; [exact H1|]. split; [exact H2|]. split; [exact H3|]. split; [split; [exact H4 | split; assumption]|].
    split; [reflexivity|]. apply split4_code; assumption.
  Qed.
  Lemma id_of_code net sta loc cha : in_inventory channels net sta loc cha -> In (station_of (channel_code net sta loc cha)) (station_ids channels).
  Proof. intros (_ & _ & H). apply (proj2 (firsts_spec (map station_of channels))). apply in_map, H. Qed.
  Lemma stations_ok : exists st, get_stations channels = Ok st /\ map fst st = station_ids channels.
  Proof.
    destruct (get_stations_ok channels) as [d Ed].
    - intros ch Hin. destruct (Hinv ch Hin) as (net & sta & loc & cha & -> & _). unfold channel_code. destruct net; discriminate.
    - exists d. split; [exact Ed|]. apply (get_stations_spec _ _ Ed).
  Qed.
  (** the station part of an id *)
  Definition nsl_of (id : string) (x : string * string * string) : Prop := exists cha, split4 id = Ok (fst (fst x), snd (fst x), snd x, cha).
  Lemma ids_differ : one_group channels ->
    ForallOrdPairs (fun a b => forall x, nsl_of a x -> nsl_of b x -> False) (station_ids channels).
  Proof.
    intros Hone. assert (forall a b x, In a (station_ids channels) -> In b (station_ids channels) -> nsl_of a x -> nsl_of b x -> a = b) as H.
    { intros a b [[n s] l] Ha Hb [c1 E1] [c2 E2]. cbn [fst snd] in *. destruct (id_split a Ha) as (n1 & s1 & l1 & d1 & K1 & K2 & K3 & I1 & -> & S1).
      destruct (id_split b Hb) as (n2 & s2 & l2 & d2 & K4 & K5 & K6 & I2 & -> & S2). rewrite S1 in E1. rewrite S2 in E2. inversion E1; inversion E2; subst.
      subst. rewrite !station_of_code by (apply I1 || apply I2). rewrite (Hone n s l d1 d2); auto. }
    pose proof (proj1 (firsts_spec (map station_of channels))) as Hnd. fold (station_ids channels) in Hnd. apply NoDup_FOP in Hnd.
    revert H Hnd. generalize (station_ids channels). intros l H Hnd. induction Hnd as [|a l Ha Hnd IH]; [constructor|]. constructor.
    - rewrite Forall_forall in *. intros b Hb x H1 H2. apply (Ha b Hb). apply (H a b x); [left; reflexivity | right; exact Hb | exact H1 | exact H2].
    - apply IH. intros. apply (H a0 b x); try (right; assumption); assumption.
  Qed.
End Inventory.

(** the pairs of the iteration over events and stations *)
Definition meta_rel (x : event * string) (y : spair * string) : Prop :=
  split4 (snd x) = Ok (p_net (fst y), p_sta (fst y), p_loc (fst y), snd y) /\ time_of (fst x) = Some (p_time (fst y)).
Lemma origin_time_of ev t : time_of ev = Some t -> origin_time ev = Ok (Some t).
Proof. unfold time_of, origin_time. destruct (e_pref ev); [congruence|]. destruct (e_origins ev); congruence. Qed.
Lemma run_meta_pairs l : (forall ev id, In (ev, id) l -> (exists t, time_of ev = Some t) /\ exists n s lo c, split4 id = Ok (n, s, lo, c)) ->
  exists ps, run_meta (map (fun x => (Some (fst x), snd x)) l) = (map (fun y => meta (fst y) (snd y)) ps, None) /\ Forall2 meta_rel l ps.
Proof.
  induction l as [|[ev id] l IH]; intros H; [exists []; split; [reflexivity | constructor]|].
  destruct IH as (ps & E & HF); [intros; apply H; right; assumption|].
  destruct (H ev id (or_introl eq_refl)) as ((t & Ht) & n & s & lo & c & Hs).
  exists ((mkPair n s lo t, c) :: ps). cbn [map run_meta fst snd]. split.
  - unfold one_meta. rewrite Hs. cbn [bind]. rewrite (origin_time_of ev t Ht). cbn [bind]. rewrite E. reflexivity.
  - constructor; [|exact HF]. split; [exact Hs | exact Ht].
Qed.
Lemma prod_some (evs : list event) (ids : list string) : list_prod (map Some evs) ids = map (fun x => (Some (fst x), snd x)) (list_prod evs ids).
Proof. induction evs as [|e evs IH]; [reflexivity|]. cbn [map list_prod]. rewrite map_app, map_map, IH. reflexivity. Qed.
Lemma run_meta_stations t0 ids : (forall id, In id ids -> exists n s lo c, split4 id = Ok (n, s, lo, c)) ->
  exists ps, run_meta (map (fun id => (None, id)) ids) = (map (fun y => station_meta (fst y) (snd y)) ps, None) /\
    Forall2 (fun id y => split4 id = Ok (p_net (fst y), p_sta (fst y), p_loc (fst y), snd y) /\ p_time (fst y) = t0) ids ps.
Proof.
  induction ids as [|id ids IH]; intros H; [exists []; split; [reflexivity | constructor]|].
  destruct IH as (ps & E & HF); [intros; apply H; right; assumption|].
  destruct (H id (or_introl eq_refl)) as (n & s & lo & c & Hs).
  exists ((mkPair n s lo t0, c) :: ps). cbn [map run_meta fst snd]. split.
  - unfold one_meta. rewrite Hs. cbn [bind]. rewrite E. reflexivity.
  - constructor; [|exact HF]. split; [exact Hs | reflexivity].
Qed.

(** the iteration *)
Lemma processed_map {I} (get : dict value -> res (option (list trace))) (f : I -> dict value) (q : I -> list (list trace) -> Prop) items :
  (forall i, In i items -> exists r, get (f i) = Ok r /\ q i (match r with Some s => [s] | None => [] end)) ->
  exists outs, processed get (map f items) None = (List.concat outs, None) /\ Forall2 q items outs.
Proof.
  induction items as [|i items IH]; intros H; [exists []; split; [reflexivity | constructor]|].
  destruct IH as (outs & E & HF); [intros; apply H; right; assumption|].
  destruct (H i (or_introl eq_refl)) as (r & Er & Hq). cbn [map processed]. rewrite Er, E.
  exists ((match r with Some s => [s] | None => [] end) :: outs). split; [destruct r; reflexivity | constructor; assumption].
Qed.

Lemma filter_pair p (streams : list (spair * list trace)) : ForallOrdPairs (fun a b => ~ same_pair (fst a) (fst b)) streams ->
  filter (fun ps => pairb p (fst ps)) streams = [] \/ exists x, filter (fun ps => pairb p (fst ps)) streams = [x].
Proof.
  induction 1 as [|x l Hx Hd IH]; [left; reflexivity|]. cbn [filter]. destruct (pairb p (fst x)) eqn:E; [|exact IH]. right. exists x. f_equal.
  assert (forall y, In y l -> pairb p (fst y) = false) as Hn.
  { intros y Hy. destruct (pairb p (fst y)) eqn:E2; [|reflexivity]. exfalso. rewrite Forall_forall in Hx. apply (Hx y Hy).
    apply pairb_spec in E, E2. unfold same_pair, same_station in *. intuition congruence. }
  clear - Hn. induction l as [|y l IH]; [reflexivity|]. cbn [filter]. rewrite (Hn y (or_introl eq_refl)). apply IH. intros; apply Hn; right; assumption.
Qed.
Lemma streams_NoDup (streams : list (spair * list trace)) : ForallOrdPairs (fun a b => ~ same_pair (fst a) (fst b)) streams -> NoDup streams.
Proof.
  induction 1 as [|x l Hx Hd IH]; [constructor|]. constructor; [|exact IH]. intros Hin. rewrite Forall_forall in Hx. apply (Hx x Hin).
  unfold same_pair, same_station. tauto.
Qed.
Lemma NoDup_app_intro {A} (l1 l2 : list A) : NoDup l1 -> NoDup l2 -> (forall x, In x l1 -> ~ In x l2) -> NoDup (l1 ++ l2).
Proof.
  induction l1 as [|a l1 IH]; intros H1 H2 H; [exact H2|]. inversion H1; subst. cbn. constructor.
  - rewrite in_app_iff. intros [Hi|Hi]; [contradiction | apply (H a (or_introl eq_refl) Hi)].
  - apply IH; [assumption | assumption | intros; apply H; right; assumption].
Qed.
Definition visited (streams : list (spair * list trace)) (ps : list (spair * string)) : list (spair * list trace) :=
  flat_map (fun y => filter (fun x => pairb (fst y) (fst x)) streams) ps.
Lemma visited_in streams ps x : In x (visited streams ps) <-> In x streams /\ exists y, In y ps /\ same_pair (fst y) (fst x).
Proof.
  unfold visited. rewrite in_flat_map. split.
  - intros (y & Hy & Hx). apply filter_In in Hx. destruct Hx as [Hx E]. apply pairb_spec in E. eauto.
  - intros (Hx & y & Hy & E). exists y. split; [exact Hy|]. apply filter_In. split; [exact Hx | apply pairb_spec, E].
Qed.
Lemma visited_NoDup streams ps : NoDup streams -> ForallOrdPairs (fun a b => ~ same_pair (fst a) (fst b)) ps -> NoDup (visited streams ps).
Proof.
  intros Hs. induction 1 as [|y l Hy Hd IH]; [constructor|]. unfold visited. cbn [flat_map]. apply NoDup_app_intro; [apply NoDup_filter, Hs | exact IH|].
  intros x Hx Hx'. apply filter_In in Hx. destruct Hx as [_ E]. apply pairb_spec in E. apply visited_in in Hx'. destruct Hx' as (_ & z & Hz & E2).
  rewrite Forall_forall in Hy. apply (Hy z Hz). unfold same_pair, same_station in *. intuition congruence.
Qed.
Lemma F2_in_r {A B} (R : A -> B -> Prop) l m y : Forall2 R l m -> In y m -> exists x, In x l /\ R x y.
Proof.
  induction 1 as [|a b l m Hab H IH]; [intros []|]. intros [->|Hy]; [exists a; split; [left; reflexivity | exact Hab]|].
  destruct (IH Hy) as (x & Hx & HR). exists x. split; [right; exact Hx | exact HR].
Qed.
Lemma F2_in_l {A B} (R : A -> B -> Prop) l m x : Forall2 R l m -> In x l -> exists y, In y m /\ R x y.
Proof.
  induction 1 as [|a b l m Hab H IH]; [intros []|]. intros [->|Hx]; [exists b; split; [left; reflexivity | exact Hab]|].
  destruct (IH Hx) as (y & Hy & HR). exists y. split; [right; exact Hy | exact HR].
Qed.
Lemma F2_concat {A B C} (R : B -> C -> Prop) (f : A -> list B) l (outs : list (list C)) :
  Forall2 (fun a o => Forall2 R (f a) o) l outs -> Forall2 R (flat_map f l) (List.concat outs).
Proof. induction 1 as [|a o l outs H HF IH]; [constructor|]. cbn [flat_map List.concat]. apply Forall2_app; assumption. Qed.
Lemma metas_pairs year events channels : inventory_ok channels -> one_group channels -> events_ok year events ->
  exists ps, iter_event_metadata (Some events) channels = (map (fun y => meta (fst y) (snd y)) ps, None) /\
    (forall y, In y ps -> proper year (fst y)) /\ ForallOrdPairs (fun a b : spair * string => ~ same_pair (fst a) (fst b)) ps /\
    (forall p, code (p_net p) -> code (p_sta p) -> code (p_loc p) -> ((exists y, In y ps /\ same_pair (fst y) p) <-> requested events channels p)).
Proof.
  intros Hinv Hone [Hev Hsec].
  unfold iter_event_metadata. destruct (stations_ok channels Hinv) as (stt & -> & ->). rewrite prod_some.
  destruct (run_meta_pairs (list_prod events (station_ids channels))) as (ps & -> & HF).
  { intros ev id Hin. apply in_prod_iff in Hin. destruct Hin as [H1 H2]. destruct (Hev ev H1) as (t & Ht & _). split; [eauto|].
    destruct (id_split channels Hinv id H2) as (n & s & l & c & _ & _ & _ & _ & _ & E). eauto 6. }
  assert (forall y, In y ps -> proper year (fst y)) as Hpp.
  { intros y Hy. destruct (F2_in_r _ _ _ y HF Hy) as ([ev id] & Hin & Hs & Ht). cbn [fst snd] in *. apply in_prod_iff in Hin. destruct Hin as [H1 H2].
    destruct (id_split channels Hinv id H2) as (n & s & l & c & K1 & K2 & K3 & _ & _ & E). rewrite E in Hs. inversion Hs; subst.
    destruct (Hev ev H1) as (t & Ht' & Yt). rewrite Ht in Ht'. inversion Ht'; subst. repeat (split; try assumption); try apply K1; try apply K2; try apply K3. }
  assert (ForallOrdPairs (fun a b : spair * string => ~ same_pair (fst a) (fst b)) ps) as Hpd.
  { refine (FOP_Forall2 (fun a b => forall t u x, time_of (fst a) = Some t -> time_of (fst b) = Some u -> nsl_of (snd a) x -> nsl_of (snd b) x -> sec t = sec u -> False) _ meta_rel _ ps _ _ HF).
    - intros [e1 i1] [e2 i2] [[n1 s1 l1 t1] c1] [[n2 s2 l2 t2] c2] H [S1 T1] [S2 T2] [(E1 & E2 & E3) E4]. cbn [fst snd p_net p_sta p_loc p_time] in *. subst n2 s2 l2.
      apply (H t1 t2 (n1, s1, l1)); [assumption | assumption | exists c1; exact S1 | exists c2; exact S2 | exact E4].
    - apply (FOP_prod (fun a b => forall t u, time_of a = Some t -> time_of b = Some u -> sec t <> sec u)).
      + exact Hsec.
      + intros e1 e2 i1 i2 H _ _ t u x T1 T2 _ _ E. exact (H t u T1 T2 E).
      + intros e _. cbn [fst snd]. eapply (FOP_Forall2 _ _ eq); [|exact (ids_differ channels Hinv Hone)|].
        * intros i1 i2 x y H <- <- t u k _ _ N1 N2 _. exact (H k N1 N2).
        * clear. induction (station_ids channels); constructor; auto. }
  exists ps. split; [reflexivity|]. split; [exact Hpp|]. split; [exact Hpd|]. intros p K1 K2 K3. split.
  - intros (y & Hy & (E1 & E2 & E3) & E4). destruct (F2_in_r _ _ _ y HF Hy) as ([ev id] & Hin & Hs & Ht). cbn [fst snd] in *. apply in_prod_iff in Hin. destruct Hin as [H1 H2].
      split; [exists ev, (p_time (fst y)); auto|].
      destruct (id_split channels Hinv id H2) as (n & s & l & c & L1 & L2 & L3 & I1 & _ & E'). rewrite E' in Hs. inversion Hs; subst. rewrite <- E1, <- E2, <- E3. exists c. exact I1.
  - intros [(ev & t & Hin & Ht & Es) (cha & Hi)]. pose proof (id_of_code channels _ _ _ _ Hi) as Hid.
      destruct (F2_in_l _ _ _ (ev, station_of (channel_code (p_net p) (p_sta p) (p_loc p) cha)) HF) as (y & Hy & Hs & Ht'); [apply in_prod; assumption|].
      cbn [fst snd] in *. exists y. split; [exact Hy|].
      rewrite split4_code in Hs by (assumption || apply Hi). injection Hs as J1 J2 J3 _. rewrite Ht in Ht'. injection Ht' as J4. unfold sec in Es. rewrite J4 in Es.
      repeat split; congruence.
Qed.
