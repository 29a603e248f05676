From Verif Require Import Model.EventData Spec.StatsSpec Spec.EventSpec Proofs.PyFacts Proofs.RfstatsFacts.

(** ** strings *)
Lemma droplast_snoc a c : droplast (a ++ String c "")%string = a.
Proof. rewrite droplast_app by discriminate. simpl. apply sapp_nil. Qed.
Lemma droplast_last s c : last_char s = Some c -> (droplast s ++ String c "")%string = s.
Proof.
  revert c. induction s as [|a s IH]; intros c H; [discriminate|]. destruct s as [|b s].
  - inversion H; subst. reflexivity.
  - change (droplast (String a (String b s))) with (String a (droplast (String b s))).
    cbn [append]. f_equal. apply IH. exact H.
Qed.
Lemma last_char_upper s : last_char (upper s) = option_map upper_char (last_char s).
Proof.
  induction s as [|a s IH]; [reflexivity|]. destruct s as [|b s]; [reflexivity|].
  change (last_char (String (upper_char a) (upper (String b s))) = option_map upper_char (last_char (String b s))).
  rewrite <- IH. reflexivity.
Qed.
Lemma last_char_none s : last_char s = None -> s = "".
Proof. induction s as [|a s IH]; [reflexivity|]. destruct s as [|b s]; [discriminate|]. intros H. specialize (IH H). discriminate. Qed.

(** ** stations *)
Lemma filter_filter {A} (f g : A -> bool) l : filter f (filter g l) = filter (fun x => g x && f x) l.
Proof. induction l as [|x l IH]; simpl; [reflexivity|]. destruct (g x); simpl; [|exact IH]. destruct (f x); rewrite IH; reflexivity. Qed.
Lemma filter_ext' {A} (f g : A -> bool) l : (forall x, f x = g x) -> filter f l = filter g l.
Proof. intros H. induction l as [|x l IH]; simpl; [reflexivity|]. rewrite H, IH. reflexivity. Qed.
Definition memb (x : string) (l : list string) : bool := existsb (String.eqb x) l.
Lemma memb_in x l : memb x l = true <-> In x l.
Proof.
  unfold memb. rewrite existsb_exists. split.
  - intros (y & H1 & H2). apply String.eqb_eq in H2. subst. exact H1.
  - intros H. exists x. split; [exact H | apply String.eqb_refl].
Qed.
Lemma filter_true {A} (l : list A) : filter (fun _ => true) l = l.
Proof. induction l as [|x l IH]; simpl; congruence. Qed.

Lemma stations_fold channels d0 d :
  foldM (fun d ch => match last_char ch with
                     | Some c => Ok (dset d (droplast ch ++ "?")%string c)
                     | None => Err IndexError
                     end) channels d0 = Ok d ->
  map fst d = map fst d0 ++ filter (fun x => negb (memb x (map fst d0))) (station_ids channels) /\
  forall id c, dget d id = Some c ->
    dget d0 id = Some c \/ exists ch, In ch channels /\ station_of ch = id /\ last_char ch = Some c.
Proof.
  revert d0. induction channels as [|ch channels IH]; intros d0; cbn [foldM].
  - intros H. inversion H; subst. simpl. rewrite app_nil_r. split; [reflexivity|]. auto.
  - destruct (last_char ch) as [c|] eqn:El; [|discriminate]. cbn [bind]. intros H. apply IH in H. destruct H as [H1 H2].
    unfold station_ids in *. cbn [map firsts].
    change (droplast ch ++ "?")%string with (station_of ch) in *. set (k := station_of ch) in *.
    split.
    + rewrite H1. cbn [filter].
      destruct (memb k (map fst d0)) eqn:Em; cbn [negb].
      * apply memb_in in Em. unfold dset. rewrite (aset_fst_mem String.eqb str_eqb_spec) by exact Em.
        f_equal. rewrite filter_filter. apply filter_ext'. intros x.
        destruct (String.eqb_spec x k) as [->|Hne]; [|reflexivity]. simpl.
        apply memb_in in Em. rewrite Em. reflexivity.
      * assert (~ In k (map fst d0)) as Hni by (rewrite <- memb_in; congruence).
        unfold dset. rewrite (aset_fst_new String.eqb str_eqb_spec) by exact Hni. rewrite map_app, <- app_assoc. simpl. f_equal. f_equal.
        rewrite filter_filter. apply filter_ext'. intros x. unfold memb. rewrite existsb_app. simpl. rewrite orb_false_r.
        destruct (String.eqb x k); simpl; [rewrite orb_true_r; reflexivity | rewrite orb_false_r; reflexivity].
    + intros id c' Hd. destruct (H2 id c' Hd) as [Hd0|(ch' & Hin & He & Hl)].
      * destruct (String.eqb_spec k id) as [<-|Hne].
        -- rewrite dget_dset_eq in Hd0. right. exists ch. split; [left; reflexivity|]. split; [reflexivity|]. congruence.
        -- rewrite dget_dset_ne in Hd0 by exact Hne. left. exact Hd0.
      * right. exists ch'. split; [right; exact Hin|]. auto.
Qed.
Lemma get_stations_spec channels d : get_stations channels = Ok d ->
  map fst d = station_ids channels /\
  (forall id c, dget d id = Some c -> exists ch, In ch channels /\ station_of ch = id /\ (droplast id ++ char_str c)%string = ch) /\
  (forall id, In id (map fst d) -> exists c, dget d id = Some c).
Proof.
  intros H. apply stations_fold in H. destruct H as [H1 H2]. split; [|split].
  - rewrite H1. simpl. apply filter_true.
  - intros id c Hd. destruct (H2 id c Hd) as [H|(ch & Hin & He & Hl)]; [discriminate|].
    exists ch. split; [exact Hin|]. split; [exact He|]. rewrite <- He. unfold station_of. rewrite droplast_snoc.
    apply droplast_last, Hl.
  - intros id Hin. destruct (dget d id) as [c|] eqn:E; [eauto|]. exfalso.
    apply (aget_None_notin String.eqb str_eqb_spec) in E. contradiction.
Qed.
Lemma get_stations_ok channels : (forall ch, In ch channels -> ch <> "") -> exists d, get_stations channels = Ok d.
Proof.
  unfold get_stations. generalize (@nil (string * ascii)). induction channels as [|ch channels IH]; intros d H; cbn [foldM]; [eauto|].
  destruct (last_char ch) as [c|] eqn:E.
  - cbn [bind]. apply IH. intros; apply H; right; assumption.
  - apply last_char_none in E. exfalso. apply (H ch (or_introl eq_refl) E).
Qed.

Lemma split4_spec s a b c d : split4 s = Ok (a, b, c, d) -> (a ++ "." ++ b ++ "." ++ c ++ "." ++ d)%string = s.
Proof.
  unfold split4. pose proof (split_join "." s) as H.
  destruct (split_on "." s) as [|x1 [|x2 [|x3 [|x4 [|]]]]]; try discriminate. intros E. injection E as <- <- <- <-. exact H.
Qed.
Lemma split_pieces c s : Forall (fun w => char_in c w = false) (split_on c s).
Proof.
  induction s as [|a s IH]; [repeat constructor|]. cbn [split_on]. destruct (Ascii.eqb a c) eqn:E; [constructor; [reflexivity | exact IH]|].
  rewrite Ascii.eqb_sym in E. destruct (split_on c s) as [|w ws]; [constructor; [cbn; rewrite E; reflexivity | constructor]|].
  inversion IH as [|? ? Hw Hws]; subst. constructor; [cbn [char_in]; rewrite E, Hw; reflexivity | exact Hws].
Qed.
Lemma split4_nodots s a b c d : split4 s = Ok (a, b, c, d) -> forall x, In x [a; b; c; d] -> char_in "." x = false.
Proof.
  unfold split4. pose proof (split_pieces "." s) as H.
  destruct (split_on "." s) as [|x1 [|x2 [|x3 [|x4 [|]]]]]; try discriminate. intros E. injection E as <- <- <- <-.
  apply Forall_forall, H.
Qed.
Lemma split4_err s e : split4 s = Err e -> e = ValueError.
Proof. unfold split4. destruct (split_on "." s) as [|x1 [|x2 [|x3 [|x4 [|]]]]]; intros H; congruence. Qed.
Lemma split4_channel ch : channel_id ch -> exists p, split4 (station_of ch) = Ok p.
Proof.
  intros (net & sta & loc & cha & -> & Hne & H1 & H2 & H3 & H4). unfold station_of.
  assert (droplast (net ++ "." ++ sta ++ "." ++ loc ++ "." ++ cha) = net ++ "." ++ sta ++ "." ++ loc ++ "." ++ droplast cha)%string as ->.
  { rewrite !droplast_app; try reflexivity; try exact Hne; try discriminate; simpl;
      try (destruct loc; discriminate); try (destruct sta; discriminate).  }
  assert (char_in "." (droplast cha ++ "?") = false) as Hd.
  { rewrite char_in_app. simpl. rewrite orb_false_r. clear -H4. revert H4. induction cha as [|x s IH]; [reflexivity|].
    destruct s as [|y s]; [reflexivity|]. change (droplast (String x (String y s))) with (String x (droplast (String y s))).
    cbn [char_in]. intros H. apply orb_false_iff in H. destruct H as [Ha Hb].
    apply orb_false_iff. split; [exact Ha|]. apply IH. exact Hb. }
  eexists. unfold split4. rewrite !sapp_assoc. cbn [append].
  rewrite !split_on_sep by assumption. rewrite split_on_no by exact Hd. reflexivity.
Qed.

Lemma after_utc t q : after t q = utc_add t q. Proof. reflexivity. Qed.
Lemma window_of_spec phase window c : last_char phase = Some c ->
  window_of phase window (match window with
       | Some w => w
       | None => if String.eqb (upper (char_str c)) "P" then (-50, 150) else (-100, 50)
       end%Q).
Proof.
  intros H. unfold window_of. destruct window as [w|]; [reflexivity|].
  rewrite last_char_upper, H. cbn [option_map char_str upper].
  destruct (Ascii.eqb_spec (upper_char c) "P") as [->|Hne].
  - split; [reflexivity | congruence].
  - assert (String.eqb (String (upper_char c) "") "P" = false) as ->.
    { apply String.eqb_neq. intros E. inversion E. contradiction. }
    split; [intros E; congruence | reflexivity].
Qed.

Lemma plain_init str_of t : plain_format t -> rftrace_init str_of t = Ok t.
Proof.
  intros H. unfold rftrace_init, read_header. unfold plain_format in H.
  destruct (h_format t) as [f|] eqn:E; [|rewrite E; reflexivity].
  destruct (H f eq_refl) as [H1 H2]. 
  assert (String.eqb (upper f) "Q" = false) as -> by (apply String.eqb_neq; exact H2).
  cbn [andb]. cbv zeta. rewrite E.
  destruct (String.eqb_spec (lower f) "q"); [exfalso; apply H1; simpl; auto|].
  destruct (String.eqb_spec (lower f) "sac"); [exfalso; apply H1; simpl; auto|].
  destruct (String.eqb_spec (lower f) "sh"); [exfalso; apply H1; simpl; auto|]. reflexivity.
Qed.

(** ** rfstats for an event and a station *)
Section R.
  Variable gps : Q -> Q -> Q -> Q -> res (Q * Q * Q).
  Variable taup_load : string -> res unit.
  Variable taup : string -> Q -> Q -> string -> res (list arrival).
  Variable ppoint : string -> dict value -> Q -> string -> res (dict value).
  Lemma dupdate_NoDup {A} (d u : dict A) : NoDup (map fst d) -> NoDup (map fst (dupdate d u)).
  Proof.
    revert d. induction u as [|[k v] u IH]; intros d H; [exact H|]. rewrite dupdate_cons. apply IH, dset_NoDup, H.
  Qed.
  Lemma rfstats_new_onset a s : sets_ppoint ppoint -> rfstats_new gps taup_load taup ppoint a = Ok (Some s) ->
    NoDup (map fst s) /\ exists t, dget s "onset" = Some (VTime t).
  Proof.
    intros Hp. unfold rfstats_new. rewrite rfstats1_unfold.
    destruct (resolve_range _ _) as [dr|]; [|discriminate].
    destruct (update_base a []) as [b|] eqn:Eb; [|discriminate].
    assert (NoDup (map fst b)) as Hb.
    { unfold update_base in Eb. destruct (r_event a) as [ev|]; [|inversion Eb; constructor]. 
      destruct (r_station a) as [sta|]; [|inversion Eb; constructor].
      destruct (obj2stats _ _) as [u|]; [|discriminate]. cbn [bind] in Eb. inversion Eb. apply dupdate_NoDup. constructor. }
    destruct (geodesic gps b) as [[[m baz] az2]|]; [|discriminate]. cbv zeta.
    destruct (outside dr _); [discriminate|].
    destruct (raycalc _ _ _ _ _) as [[ar onset]|]; [|discriminate].
    set (s1 := ray_update _ _ _ _ _ _).
    assert (NoDup (map fst s1)) as Hs1 by (apply dupdate_NoDup, Hb).
    assert (dget s1 "onset" = Some (VTime onset)) as Ho.
    { unfold s1, ray_update. rewrite !dupdate_cons, dupdate_nil. rewrite !dget_dset_if. reflexivity. }
    destruct (r_ppdepth a) as [d|].
    - destruct (ppoint _ _ _ _) as [s2|] eqn:E; [|discriminate]. intros H. inversion H; subst s2.
      destruct (Hp _ _ _ _ _ Hs1 E) as [Hn Hk]. split; [exact Hn|]. exists onset. rewrite Hk; [exact Ho|].
      simpl. intuition discriminate.
    - intros H. inversion H; subst. split; [exact Hs1|]. eauto.
  Qed.
End R.

Section I.
  Variable gps : Q -> Q -> Q -> Q -> res (Q * Q * Q).
  Variable taup_load : string -> res unit.
  Variable taup : string -> Q -> Q -> string -> res (list arrival).
  Variable ppoint : string -> dict value -> Q -> string -> res (dict value).
  Variable str_of : value -> string.
  Variable coordinates : string -> option Z -> res station_d.
  Variable W : Type.
  Variable trim : Z -> Z -> W -> res W.
  Variable merge : W -> res W.
  Variable components : W -> list wtrace.
  Variable waveforms : request -> res (option W).
  Definition rfstats_of (a : rs_args) (ev : event) (sta : station_d) : res (option (dict value)) :=
    rfstats_new gps taup_load taup ppoint
      (mkRs (Some ev) (Some sta) (r_phase a) (r_range a) (r_tt a) (r_ppdepth a) (r_ppphase a) (r_model a)).
  Variable a : rs_args.
  Variables w0 w1 pad : Q.
  Variable channels : list string.
  Let pair := one_pair gps taup_load taup ppoint str_of coordinates W trim merge components waveforms a w0 w1 pad.
  Let result := pair_result (rfstats_of a) str_of coordinates W trim merge components waveforms channels w0 w1 pad.

  Lemma mapM_Forall2 {A B C} (f : A -> B) (g : B -> res C) l r : mapM g (map f l) = Ok r -> Forall2 (fun x y => g (f x) = Ok y) l r.
  Proof.
    revert r. induction l as [|x l IH]; intros r; cbn [map mapM].
    - intros H. inversion H. constructor.
    - destruct (g (f x)) as [y|] eqn:E; [|discriminate]. cbn [bind]. destruct (mapM g (map f l)) as [ys|]; [|discriminate].
      cbn [bind]. intros H. inversion H. constructor; [exact E | apply IH; reflexivity].
  Qed.
  Lemma origin_time_of ev ot : origin_time ev = Ok ot -> ot = time_of ev.
  Proof.
    unfold origin_time, time_of. destruct (e_pref ev); [congruence|]. destruct (e_origins ev); congruence.
  Qed.
  Hypothesis Hpp : sets_ppoint ppoint.
  Lemma one_pair_done stations ev id acts :
    get_stations channels = Ok stations -> In id (map fst stations) ->
    pair stations ev id = (acts, None) -> result ev id acts.
  Proof.
    intros Hst Hid. destruct (get_stations_spec _ _ Hst) as (_ & Hch & Hget).
    destruct (Hget id Hid) as [c Hc]. destruct (Hch id c Hc) as (ch & Hin & Hof & Heq).
    unfold pair, one_pair. destruct (origin_time ev) as [ot|e0] eqn:Eot; [|discriminate].
    apply origin_time_of in Eot. subst ot. rewrite Hc, Heq.
    destruct (coordinates ch (time_of ev)) as [coords|e1] eqn:Eco.
    2: { intros H. apply (f_equal fst) in H. cbn [fst] in H. rewrite <- H. apply PUnavailable. exists ch. split; [exact Hin|]. split; [exact Hof|]. left. eauto. }
    fold (rfstats_of a ev coords).
    destruct (rfstats_of a ev coords) as [[s|]|e2] eqn:Ers.
    2: { intros H. apply (f_equal fst) in H. cbn [fst] in H. rewrite <- H. apply PUnavailable. exists ch. split; [exact Hin|]. split; [exact Hof|]. right. eauto. }
    2: { intros H. apply (f_equal fst) in H. cbn [fst] in H. rewrite <- H. apply PUnavailable. exists ch. split; [exact Hin|]. split; [exact Hof|]. right. eauto. }
    assert (pair_stats (rfstats_of a) coordinates channels ev id s) as Hps by (exists ch, coords; auto).
    destruct (rfstats_new_onset _ _ _ _ _ _ Hpp Ers) as (_ & onset & Hon).
    destruct s as [|kv s0] eqn:Es; [discriminate|]. rewrite <- Es in *. clear Es kv s0.
    rewrite (proj2 (time_attr_ok _ _ _) Hon).
    destruct (split4 id) as [[[[net sta] loc] cha]|e3] eqn:Esp; cbn [bind]; [|discriminate].
    cbv zeta. set (q := mkReq net sta loc cha _ _).
    assert (request_for w0 w1 pad id onset q) as Hq.
    { split; [apply split4_spec, Esp|]. split; [exact (split4_nodots _ _ _ _ _ Esp)|]. split; reflexivity. }
    destruct (waveforms q) as [[st|]|e4] eqn:Ew; [|discriminate|].
    2: { intros H. apply (f_equal fst) in H. cbn [fst] in H. rewrite <- H. eapply PNoData; eauto. }
    destruct (trim (utc_add onset w0) (utc_add onset w1) st) as [st1|e5] eqn:Et; cbn [bind]; [|discriminate].
    destruct (merge st1) as [st2|e6] eqn:Em; [|discriminate].
    destruct (List.length (components st2) =? 3) eqn:El; cbn [negb].
    2: { intros H. apply (f_equal fst) in H. cbn [fst] in H. rewrite <- H. eapply PIncomplete; eauto. intros [H1 _]. apply Nat.eqb_neq in El. contradiction. }
    apply Nat.eqb_eq in El.
    destruct (existsb w_masked (components st2)) eqn:Ex.
    { intros H. apply (f_equal fst) in H. cbn [fst] in H. rewrite <- H. eapply PIncomplete; eauto. intros [_ H1].
      apply existsb_exists in Ex. destruct Ex as (t & Ht1 & Ht2). rewrite (H1 t Ht1) in Ht2. discriminate. }
    destruct (mapM _ _) as [l|e7] eqn:Emap; [|discriminate].
    intros H. apply (f_equal fst) in H. cbn [fst] in H. rewrite <- H. eapply PComplete; eauto.
    - split; [exact El|]. intros t Ht. destruct (w_masked t) eqn:E; [|reflexivity].
      assert (existsb w_masked (components st2) = true) as Hx by (apply existsb_exists; eauto). congruence.
    - apply mapM_Forall2 in Emap. exact Emap.
  Qed.
  Lemma one_pair_abort stations ev id acts e :
    get_stations channels = Ok stations -> In id (map fst stations) ->
    pair stations ev id = (acts, Some e) -> pair_aborted (rfstats_of a) coordinates channels w0 w1 pad ev id acts.
  Proof.
    intros Hst Hid. destruct (get_stations_spec _ _ Hst) as (_ & Hch & Hget).
    destruct (Hget id Hid) as [c Hc]. destruct (Hch id c Hc) as (ch & Hin & Hof & Heq).
    assert (forall acts2 x, ([], Some x) = (acts2, Some e) -> pair_aborted (rfstats_of a) coordinates channels w0 w1 pad ev id acts2) as Hnil.
    { intros acts2 x H. apply (f_equal fst) in H. cbn [fst] in H. rewrite <- H. apply ANothing. }
    assert (forall acts2 x, ([], if caught x then None else Some x) = (acts2, Some e) -> pair_aborted (rfstats_of a) coordinates channels w0 w1 pad ev id acts2) as Hnil2.
    { intros acts2 x H. apply (f_equal fst) in H. cbn [fst] in H. rewrite <- H. apply ANothing. }
    unfold pair, one_pair. destruct (origin_time ev) as [ot|e0] eqn:Eot; [|apply Hnil].
    apply origin_time_of in Eot. subst ot. rewrite Hc, Heq.
    destruct (coordinates ch (time_of ev)) as [coords|e1] eqn:Eco; [|apply Hnil2].
    fold (rfstats_of a ev coords).
    destruct (rfstats_of a ev coords) as [[s|]|e2] eqn:Ers; [|discriminate|apply Hnil2].
    assert (pair_stats (rfstats_of a) coordinates channels ev id s) as Hps by (exists ch, coords; auto).
    destruct (rfstats_new_onset _ _ _ _ _ _ Hpp Ers) as (_ & onset & Hon).
    destruct s as [|kv s0] eqn:Es; [discriminate|]. rewrite <- Es in *. clear Es kv s0.
    rewrite (proj2 (time_attr_ok _ _ _) Hon).
    destruct (split4 id) as [[[[net sta] loc] cha]|e3] eqn:Esp; cbn [bind]; [|apply Hnil].
    cbv zeta. set (q := mkReq net sta loc cha _ _).
    assert (request_for w0 w1 pad id onset q) as Hq.
    { split; [apply split4_spec, Esp|]. split; [exact (split4_nodots _ _ _ _ _ Esp)|]. split; reflexivity. }
    assert (pair_aborted (rfstats_of a) coordinates channels w0 w1 pad ev id [ARequest q]) as Hr by (eapply ARequested; eauto).
    assert (pair_aborted (rfstats_of a) coordinates channels w0 w1 pad ev id
       [ARequest q; ATrim (utc_add onset w0) (utc_add onset w1)]) as Htr.
    { change (utc_add onset w0) with (after onset w0). change (utc_add onset w1) with (after onset w1). eapply ATrimmed; eauto. }
    intros H. pose proof (f_equal fst H) as H1. pose proof (f_equal snd H) as H2. cbn [fst] in H1. clear H. revert H1 H2.
    destruct (waveforms q) as [[st|]|e4]; [|intros <- _; exact Hr|intros <- _; exact Hr].
    destruct (bind _ _) as [st2|e6]; [|intros <- _; exact Htr].
    destruct (negb _); [intros <- _; exact Htr|]. destruct (existsb _ _); [intros <- _; exact Htr|].
    destruct (mapM _ _) as [l|e7]; [discriminate|intros <- _; exact Htr].
  Qed.
End I.

Lemma run_pairs_done f (P : event -> string -> list action -> Prop) l acts :
  (forall ev id a, In (ev, id) l -> f ev id = (a, None) -> P ev id a) ->
  run_pairs f l = (acts, None) ->
  exists actss, acts = List.concat actss /\ Forall2 (fun p => P (fst p) (snd p)) l actss.
Proof.
  revert acts. induction l as [|[ev id] l IH]; intros acts HP; cbn [run_pairs].
  - intros H. inversion H. exists []. split; [reflexivity | constructor].
  - destruct (f ev id) as [a [e|]] eqn:E; [discriminate|]. destruct (run_pairs f l) as [rest [e|]] eqn:E2; [discriminate|].
    intros H. inversion H; subst. destruct (IH rest) as (actss & -> & HF); [|reflexivity|].
    { intros; apply HP; [right|]; assumption. }
    exists (a :: actss). split; [reflexivity|]. constructor; [|exact HF]. apply HP; [left; reflexivity | exact E].
Qed.
Lemma run_pairs_abort f (P : event -> string -> list action -> Prop) l acts e :
  (forall ev id a, In (ev, id) l -> f ev id = (a, None) -> P ev id a) ->
  run_pairs f l = (acts, Some e) ->
  exists l1 ev id l2 actss part, l = l1 ++ (ev, id) :: l2 /\ f ev id = (part, Some e) /\
    acts = List.concat actss ++ part /\ Forall2 (fun p => P (fst p) (snd p)) l1 actss.
Proof.
  revert acts. induction l as [|[ev id] l IH]; intros acts HP; cbn [run_pairs]; [discriminate|].
  destruct (f ev id) as [a [e1|]] eqn:E.
  - intros H. inversion H; subst. exists [], ev, id, l, [], acts. repeat split; [exact E | constructor].
  - destruct (run_pairs f l) as [rest [e2|]] eqn:E2; [|discriminate].
    intros H. inversion H; subst. destruct (IH rest) as (l1 & ev' & id' & l2 & actss & part & -> & Hf & -> & HF); [|reflexivity|].
    { intros; apply HP; [right|]; assumption. }
    exists ((ev, id) :: l1), ev', id', l2, (a :: actss), part. split; [reflexivity|]. split; [exact Hf|].
    split; [cbn [List.concat]; rewrite app_assoc; reflexivity|]. constructor; [|exact HF]. apply HP; [left; reflexivity | exact E].
Qed.
Lemma run_pairs_total f l : (forall ev id, In (ev, id) l -> snd (f ev id) = None) -> snd (run_pairs f l) = None.
Proof.
  induction l as [|[ev id] l IH]; intros H; cbn [run_pairs]; [reflexivity|].
  specialize (H ev id (or_introl eq_refl)) as H1. destruct (f ev id) as [a [e|]]; [discriminate|].
  specialize (IH (fun ev id Hi => H ev id (or_intror Hi))). destruct (run_pairs f l) as [rest e]. exact IH.
Qed.
Lemma list_prod_in_r {A B} (l : list A) (m : list B) x y : In (x, y) (list_prod l m) -> In x l /\ In y m.
Proof. apply in_prod_iff. Qed.

(** metadata *)
Lemma run_meta_ok l (f : option event -> string -> dict value) :
  (forall ev id, In (ev, id) l -> one_meta ev id = Ok (f ev id)) -> run_meta l = (map (fun p => f (fst p) (snd p)) l, None).
Proof.
  induction l as [|[ev id] l IH]; intros H; cbn [run_meta]; [reflexivity|].
  rewrite (H ev id (or_introl eq_refl)), IH; [reflexivity|]. intros; apply H; right; assumption.
Qed.
