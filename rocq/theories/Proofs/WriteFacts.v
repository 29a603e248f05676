From Verif Require Import Model.Write Spec.HeaderSpec Spec.WriteSpec Proofs.PyFacts Proofs.HeaderFacts Proofs.QFacts.

Lemma hput_length h i s : List.length (hput h i s) = List.length h.
Proof. revert i. induction h as [|x h IH]; intros [|i]; simpl; auto. Qed.
Lemma hput_eq h i s : i < List.length h -> nth_error (hput h i s) i = Some s.
Proof. revert i. induction h as [|x h IH]; intros [|i] H; simpl in *; try lia; [reflexivity | apply IH; lia]. Qed.
Lemma hput_ne h i j s : i <> j -> nth_error (hput h i s) j = nth_error h j.
Proof.
  revert i j. induction h as [|x h IH]; intros [|i] [|j] H; simpl; try congruence; try reflexivity.
  apply IH. congruence.
Qed.
Lemma nth_error_lt {A} (h : list A) i s : nth_error h i = Some s -> i < List.length h.
Proof. intros H. apply nth_error_Some. congruence. Qed.

Lemma write_header_visible fmt compat s s1 : write_header fmt compat s = Ok s1 -> same_visible s1 s.
Proof.
  unfold write_header. destruct (String.eqb (lower fmt) "sac").
  - intros H. apply bind_ok in H. destruct H as [sac [_ H]]. inversion H. repeat split.
  - destruct (String.eqb (lower fmt) "q" || String.eqb (lower fmt) "sh").
    + destruct (fold_left _ _ _) as [c sh]. destruct compat; [intros H; inversion H; repeat split|].
      destruct c; [intros H; inversion H; repeat split|].
      destruct (forallb _ _); intros H; inversion H. repeat split.
    + intros H; inversion H. repeat split.
Qed.

Lemma same_visible_refl a : same_visible a a. Proof. repeat split. Qed.
Lemma same_visible_trans a b c : same_visible a b -> same_visible b c -> same_visible a c.
Proof. intros (H1&H2&H3) (H4&H5&H6). repeat split; congruence. Qed.

(** ** the ids are not touched by formats other than Q *)
Definition heap_visible (h' h : hheap) : Prop :=
  List.length h' = List.length h /\ forall i s, nth_error h i = Some s -> exists s', nth_error h' i = Some s' /\ same_visible s' s.
Lemma prepare_visible fmt compat ids h : String.eqb (upper fmt) "Q" = false ->
  heap_visible (fst (prepare fmt compat ids h)) h.
Proof.
  intros Hq. revert h. induction ids as [|i ids IH]; intros h; cbn [prepare fst].
  - split; [reflexivity|]. intros i s Hs. exists s. split; [exact Hs | apply same_visible_refl].
  - assert (forall h, heap_visible h h) as Hrefl.
    { intros h0. split; [reflexivity|]. intros j s Hs. exists s. split; [exact Hs | apply same_visible_refl]. }
    destruct (nth_error h i) as [s|] eqn:E; [|apply Hrefl].
    destruct (write_header fmt compat s) as [s1|e] eqn:W; [|apply Hrefl].
    rewrite Hq. destruct (IH (hput h i s1)) as [H1 H2]. split; [rewrite H1; apply hput_length|].
    intros j s0 Hj. destruct (Nat.eq_dec i j) as [->|Hne].
    + destruct (H2 j s1) as [s' [Hs' Hv]]; [apply hput_eq; eapply nth_error_lt; exact Hj|].
      exists s'. split; [exact Hs'|]. rewrite E in Hj. inversion Hj; subst.
      eapply same_visible_trans; [exact Hv | eapply write_header_visible; exact W].
    + apply H2. rewrite hput_ne by exact Hne. exact Hj.
Qed.

Theorem write_visible fmt compat w ids h ix h' ix' r :
  upper fmt <> "Q" -> write fmt compat w ids h ix = (h', ix', r) ->
  List.length h' = List.length h /\ forall i s, obj h i s -> exists s', obj h' i s' /\ same_visible s' s.
Proof.
  intros Hq H.
  assert (String.eqb (upper fmt) "Q" = false) as Hq' by (destruct (String.eqb_spec (upper fmt) "Q"); [contradiction | reflexivity]).
  pose proof (prepare_visible fmt compat ids h Hq') as Hp.
  assert (h' = h \/ h' = fst (prepare fmt compat ids h)) as [->| ->]; [| |exact Hp].
  2: { split; [reflexivity|]. intros i s Hs. exists s. split; [exact Hs | apply same_visible_refl]. }
  unfold write in H. destruct ids as [|i0 ids0]; [inversion H; auto|].
  destruct (prepare fmt compat (i0 :: ids0) h) as [h1 [[]|e]]; [|inversion H; auto].
  rewrite Hq' in H. right. cbn [fst].
  destruct (match _ with Some k => h5index k | None => Ok ix end) as [ix1|e]; [|inversion H; reflexivity].
  destruct (w ix1 (deref h1 (i0 :: ids0))); inversion H; reflexivity.
Qed.

(** ** the loops on streams without repeated traces *)
Definition mark (fmt : string) (s1 : hst) : hst :=
  if String.eqb (upper fmt) "Q" then set_sta s1 (h_id s1) else s1.
Lemma prepare_ok fmt compat ids h :
  NoDup ids -> (forall i, In i ids -> exists s s1, nth_error h i = Some s /\ write_header fmt compat s = Ok s1) ->
  exists h1, prepare fmt compat ids h = (h1, Ok tt) /\
    (forall i s s1, In i ids -> nth_error h i = Some s -> write_header fmt compat s = Ok s1 ->
       nth_error h1 i = Some (mark fmt s1)) /\
    (forall i, ~ In i ids -> nth_error h1 i = nth_error h i).
Proof.
  revert h. induction ids as [|i ids IH]; intros h Hnd Hok; cbn [prepare].
  - exists h. split; [reflexivity|]. split; [intros ? ? ? []|reflexivity].
  - inversion Hnd as [|? ? Hn Hnd']; subst.
    destruct (Hok i (or_introl eq_refl)) as (s & s1 & Hs & Hw). rewrite Hs, Hw.
    fold (mark fmt s1).
    destruct (IH (hput h i (mark fmt s1)) Hnd') as (h1 & H1 & H2 & H3).
    { intros j Hj. destruct (Hok j (or_intror Hj)) as (sj & s1j & Hsj & Hwj). exists sj, s1j.
      split; [|exact Hwj]. rewrite hput_ne; [exact Hsj|]. intros ->. contradiction. }
    exists h1. split; [exact H1|]. split.
    + intros j sj s1j [<-|Hj] Hsj Hwj.
      * rewrite H3 by exact Hn. rewrite hput_eq by (eapply nth_error_lt; exact Hs). congruence.
      * apply (H2 j sj s1j Hj); [|exact Hwj]. rewrite hput_ne; [exact Hsj|]. intros ->. contradiction.
    + intros j Hj. rewrite H3 by (intros H; apply Hj; right; exact H). apply hput_ne.
      intros ->. apply Hj; left; reflexivity.
Qed.
Lemma prepare_inv fmt compat ids h h1 : NoDup ids -> prepare fmt compat ids h = (h1, Ok tt) ->
  (forall i, In i ids -> exists s s1, nth_error h i = Some s /\ write_header fmt compat s = Ok s1).
Proof.
  revert h. induction ids as [|i ids IH]; intros h Hnd H j Hj; cbn [prepare] in H; [destruct Hj|].
  inversion Hnd as [|? ? Hn Hnd']; subst.
  destruct (nth_error h i) as [s|] eqn:E; [|discriminate].
  destruct (write_header fmt compat s) as [s1|e] eqn:W; [|discriminate].
  destruct Hj as [<-|Hj]; [eauto|].
  destruct (IH _ Hnd' H j Hj) as (sj & s1j & Hsj & Hwj). exists sj, s1j. split; [|exact Hwj].
  rewrite hput_ne in Hsj; [exact Hsj|]. intros ->. contradiction.
Qed.
Lemma restore_ok ids h :
  NoDup ids -> (forall i, In i ids -> exists s a c r, nth_error h i = Some s /\ split_on "." (h_sta s) = a :: c :: r) ->
  exists h1, restore ids h = (h1, Ok tt) /\
    (forall i s a c r, In i ids -> nth_error h i = Some s -> split_on "." (h_sta s) = a :: c :: r ->
       nth_error h1 i = Some (set_sta s c)) /\
    (forall i, ~ In i ids -> nth_error h1 i = nth_error h i).
Proof.
  revert h. induction ids as [|i ids IH]; intros h Hnd Hok; cbn [restore].
  - exists h. split; [reflexivity|]. split; [intros ? ? ? ? ? []|reflexivity].
  - inversion Hnd as [|? ? Hn Hnd']; subst.
    destruct (Hok i (or_introl eq_refl)) as (s & a & c & r & Hs & Hw). rewrite Hs, Hw.
    destruct (IH (hput h i (set_sta s c)) Hnd') as (h1 & H1 & H2 & H3).
    { intros j Hj. destruct (Hok j (or_intror Hj)) as (sj & aj & cj & rj & Hsj & Hwj). exists sj, aj, cj, rj.
      split; [|exact Hwj]. rewrite hput_ne; [exact Hsj|]. intros ->. contradiction. }
    exists h1. split; [exact H1|]. split.
    + intros j sj aj cj rj [<-|Hj] Hsj Hwj.
      * rewrite H3 by exact Hn. rewrite hput_eq by (eapply nth_error_lt; exact Hs). congruence.
      * apply (H2 j sj aj cj rj Hj); [|exact Hwj]. rewrite hput_ne; [exact Hsj|]. intros ->. contradiction.
    + intros j Hj. rewrite H3 by (intros H; apply Hj; right; exact H). apply hput_ne.
      intros ->. apply Hj; left; reflexivity.
Qed.

Lemma deref_map {A} (f : A -> nat) (g : A -> hst) (l : list A) h :
  (forall x, In x l -> nth_error h (f x) = Some (g x)) -> deref h (map f l) = map g l.
Proof.
  unfold deref. induction l as [|x l IH]; simpl; intros H; [reflexivity|].
  rewrite (H x (or_introl eq_refl)). simpl. f_equal. apply IH. intros; apply H; right; assumption.
Qed.
Lemma Forall2_deref ids h (P : nat -> hst -> Prop) :
  (forall i, In i ids -> exists s, nth_error h i = Some s /\ P i s) -> Forall2 P ids (deref h ids).
Proof.
  unfold deref. induction ids as [|i ids IH]; simpl; intros H; [constructor|].
  destruct (H i (or_introl eq_refl)) as (s & Hs & Hp). rewrite Hs. simpl. constructor; [exact Hp|].
  apply IH. intros; apply H; right; assumption.
Qed.

(** ** SAC and Q files of streams *)
Lemma Forall2_map_r {A B C} (P : A -> C -> Prop) (f : B -> C) l1 l2 :
  Forall2 (fun a b => P a (f b)) l1 l2 -> Forall2 P l1 (map f l2).
Proof. induction 1; simpl; constructor; auto. Qed.
Lemma read_all str_of ids files (Q : nat -> hst -> Prop) :
  Forall2 (fun i f => exists t, rftrace_init str_of f = Ok t /\ Q i t) ids files ->
  exists trs, read_rf str_of files = Ok trs /\ Forall2 Q ids trs.
Proof.
  unfold read_rf. induction 1 as [|i f ids files (t & Ht & Hq) _ (trs & Htrs & HQ)].
  - exists []. split; [reflexivity | constructor].
  - exists (t :: trs). split; [|constructor; assumption]. cbn [mapM]. rewrite Ht. cbn [bind].
    rewrite Htrs. reflexivity.
Qed.

Theorem sac_stream_roundtrip str_of compat w ids h ix :
  NoDup ids -> (forall ix trs, w ix trs = None) ->
  (forall i, In i ids -> exists s, obj h i s /\ no_sac_entries s /\ well_typed s /\ no_null str_of s) ->
  exists h' files trs, write "SAC" compat w ids h ix = (h', ix, Ok files) /\ read_rf str_of files = Ok trs /\
    Forall2 (fun i t => forall s, obj h i s -> restored s t) ids trs.
Proof.
  intros Hnd Hw Hobj.
  destruct (prepare_ok "SAC" compat ids h Hnd) as (h1 & Hp & Hp1 & Hp2).
  { intros i Hi. destruct (Hobj i Hi) as (s & Hs & H1 & H2 & H3).
    destruct (sac_roundtrip str_of compat s H1 H2 H3) as (s1 & s2 & Hs1 & _). eauto. }
  destruct (read_all str_of ids (map (file_roundtrip "SAC") (deref h1 ids)) (fun i t => forall s, obj h i s -> restored s t))
    as (trs & Htrs & HF).
  { apply Forall2_map_r. apply Forall2_deref. intros i Hi.
    destruct (Hobj i Hi) as (s & Hs & H1 & H2 & H3).
    destruct (sac_roundtrip str_of compat s H1 H2 H3) as (s1 & s2 & Hs1 & Hr & Hm & Hn & E1 & E2 & E3 & E4 & _).
    exists s1. split; [exact (Hp1 i s s1 Hi Hs Hs1)|]. exists s2. split; [exact Hr|].
    intros s' Hs'. unfold obj in *. rewrite Hs in Hs'. inversion Hs'; subst s'.
    split; [unfold codes; congruence|]. split; assumption. }
  unfold write. destruct ids as [|i0 ids0].
  - exists h, [], []. split; [reflexivity|]. split; [reflexivity|constructor].
  - exists h1, (map (file_roundtrip "SAC") (deref h1 (i0 :: ids0))), trs.
    split; [|split; [exact Htrs | exact HF]].
    rewrite Hp. change (String.eqb (upper "SAC") "H5") with false. change (String.eqb (upper "SAC") "Q") with false.
    cbv iota zeta. rewrite Hw. reflexivity.
Qed.

Lemma q_target_restored s t : codes t = codes s -> (forall h, dget (h_main t) h = q_target false s h) -> restored s t.
Proof.
  intros Hc H. split; [exact Hc|]. split; intros e He; rewrite H; unfold q_target; cbn [andb];
    destruct (documented_dec e); try contradiction; reflexivity.
Qed.
Lemma q_target_restored_c s t : codes t = codes s -> (forall h, dget (h_main t) h = q_target true s h) -> restored_but_comment s t.
Proof.
  intros Hc H. split; [exact Hc|]. split; [|split].
  - intros e He Hn; rewrite H; unfold q_target. destruct (documented_dec e); [|contradiction].
    destruct (comment_dec e); [contradiction|reflexivity].
  - intros e He; rewrite H; unfold q_target. destruct (documented_dec e); [|reflexivity].
    destruct (comment_dec e); [reflexivity|contradiction].
  - intros e He; rewrite H; unfold q_target. destruct (documented_dec e); [contradiction|reflexivity].
Qed.

Theorem q_stream_roundtrip str_of compat w ids h ix :
  NoDup ids -> (forall ix trs, w ix trs = None) ->
  (forall i, In i ids -> exists s, obj h i s /\ no_sh_entries s /\ comment_is_plain s /\
      no_dot (h_net s) /\ no_dot (h_sta s) /\ no_dot (h_loc s)) ->
  exists h' files trs, write "Q" compat w ids h ix = (h', ix, Ok files) /\ read_rf str_of files = Ok trs /\
    Forall2 (fun i t => forall s, obj h i s -> if compat then restored_but_comment s t else restored s t) ids trs.
Proof.
  intros Hnd Hw Hobj.
  destruct (prepare_ok "Q" compat ids h Hnd) as (h1 & Hp & Hp1 & Hp2).
  { intros i Hi. destruct (Hobj i Hi) as (s & Hs & H1 & H2 & H3 & H4 & H5).
    destruct (q_roundtrip str_of compat s H1 H2 H3 H4 H5) as (s1 & s2 & Hs1 & _). eauto. }
  destruct (restore_ok ids h1 Hnd) as (h2 & Hr & _).
  { intros i Hi. destruct (Hobj i Hi) as (s & Hs & H1 & H2 & H3 & H4 & H5).
    destruct (q_roundtrip str_of compat s H1 H2 H3 H4 H5) as (s1 & s2 & Hs1 & Hid & _).
    exists (mark "Q" s1). exists (h_net s), (h_sta s), (split_on "." (h_loc s ++ "." ++ h_cha s)%string).
    split; [exact (Hp1 i s s1 Hi Hs Hs1)|]. unfold mark. change (String.eqb (upper "Q") "Q") with true. cbv iota.
    cbn [set_sta with_codes h_sta]. rewrite Hid. apply h_id_split; assumption. }
  destruct (read_all str_of ids (map (file_roundtrip "Q") (deref h1 ids))
     (fun i t => forall s, obj h i s -> if compat then restored_but_comment s t else restored s t))
    as (trs & Htrs & HF).
  { apply Forall2_map_r. apply Forall2_deref. intros i Hi.
    destruct (Hobj i Hi) as (s & Hs & H1 & H2 & H3 & H4 & H5).
    destruct (q_roundtrip str_of compat s H1 H2 H3 H4 H5) as (s1 & s2 & Hs1 & Hid & Hrd & Hm & E1 & E2 & E3 & E4 & _).
    exists (mark "Q" s1). split; [exact (Hp1 i s s1 Hi Hs Hs1)|]. exists s2. split; [exact Hrd|].
    intros s' Hs'. unfold obj in *. rewrite Hs in Hs'. inversion Hs'; subst s'.
    assert (codes s2 = codes s) as Hc by (unfold codes; congruence).
    destruct compat; [apply q_target_restored_c | apply q_target_restored]; assumption. }
  unfold write. destruct ids as [|i0 ids0].
  - exists h, [], []. split; [reflexivity|]. split; [reflexivity|constructor].
  - exists h2, (map (file_roundtrip "Q") (deref h1 (i0 :: ids0))), trs.
    split; [|split; [exact Htrs | exact HF]].
    rewrite Hp. change (String.eqb (upper "Q") "H5") with false. change (String.eqb (upper "Q") "Q") with true.
    cbv iota zeta. rewrite Hw, Hr. reflexivity.
Qed.

(** ** Q restores the codes in memory *)
Lemma h_id_visible a b : same_visible a b -> h_id a = h_id b.
Proof. intros [H _]. unfold codes in H. inversion H. unfold h_id. congruence. Qed.
Theorem q_codes_restored fmt compat w ids h ix h' ix' files :
  upper fmt = "Q" -> NoDup ids ->
  (forall i s, In i ids -> obj h i s -> no_dot (h_net s) /\ no_dot (h_sta s)) ->
  write fmt compat w ids h ix = (h', ix', Ok files) ->
  forall i s, obj h i s -> exists s', obj h' i s' /\ same_visible s' s.
Proof.
  intros Hf Hnd Hdots H i s Hs. unfold write in H.
  destruct ids as [|i0 ids0] eqn:Eids.
  { inversion H; subst. exists s. split; [exact Hs | apply same_visible_refl]. }
  rewrite <- Eids in *. clear Eids i0 ids0.
  destruct (prepare fmt compat ids h) as [h1 [[]|e]] eqn:Ep; [|inversion H].
  pose proof (prepare_inv fmt compat ids h h1 Hnd Ep) as Hok.
  destruct (prepare_ok fmt compat ids h Hnd Hok) as (h1' & Ep' & Hp1 & Hp2).
  rewrite Ep in Ep'. inversion Ep'; subst h1'. clear Ep'.
  rewrite Hf in H. change (String.eqb "Q" "H5") with false in H. change (String.eqb "Q" "Q") with true in H.
  cbv iota zeta in H. destruct (w ix (deref h1 ids)); [inversion H|].
  assert (forall j, In j ids -> exists sj s1, nth_error h j = Some sj /\ write_header fmt compat sj = Ok s1 /\
     nth_error h1 j = Some (set_sta s1 (h_id sj)) /\
     split_on "." (h_id sj) = h_net sj :: h_sta sj :: split_on "." (h_loc sj ++ "." ++ h_cha sj)%string) as Hall.
  { intros j Hj. destruct (Hok j Hj) as (sj & s1 & Hsj & Hw). exists sj, s1. split; [exact Hsj|]. split; [exact Hw|]. split.
    - rewrite (Hp1 j sj s1 Hj Hsj Hw). unfold mark. rewrite Hf. change (String.eqb "Q" "Q") with true. cbv iota.
      f_equal. f_equal. apply h_id_visible. eapply write_header_visible, Hw.
    - destruct (Hdots j sj Hj Hsj). apply h_id_split; assumption. }
  destruct (restore_ok ids h1 Hnd) as (h2 & Hr & Hr1 & Hr2).
  { intros j Hj. destruct (Hall j Hj) as (sj & s1 & Hsj & Hw & Hn & Hsp). do 4 eexists. split; [exact Hn|]. exact Hsp. }
  rewrite Hr in H. inversion H; subst h' ix' files. clear H.
  destruct (in_dec Nat.eq_dec i ids) as [Hi|Hi].
  - destruct (Hall i Hi) as (sj & s1 & Hsj & Hw & Hn & Hsp).
    unfold obj in Hs. rewrite Hsj in Hs. inversion Hs; subst sj.
    eexists. split; [exact (Hr1 i _ _ _ _ Hi Hn Hsp)|].
    pose proof (write_header_visible _ _ _ _ Hw) as [Hc [Hst Hm]].
    unfold codes in Hc. inversion Hc. split; [unfold codes; cbn; congruence|]. split; assumption.
  - exists s. split; [|apply same_visible_refl]. unfold obj. rewrite Hr2, Hp2 by exact Hi. exact Hs.
Qed.

(** ** type and method *)
Definition texts (header : string) (tr : list hst) : list string :=
  flat_map (fun s => match dget (h_main s) header with Some v => [value_str v] | None => [] end) tr.
Lemma in_texts header tr v : (forall s, In s tr -> text_header header s) ->
  In v (texts header tr) <-> exists s, In s tr /\ dget (h_main s) header = Some (VStr v).
Proof.
  intros Ht. unfold texts. rewrite in_flat_map. split.
  - intros (s & Hs & Hv). exists s. split; [exact Hs|]. destruct (dget (h_main s) header) as [x|] eqn:E; [|destruct Hv].
    destruct (Ht s Hs x E) as [t ->]. destruct Hv as [<-|[]]. reflexivity.
  - intros (s & Hs & Hv). exists s. split; [exact Hs|]. rewrite Hv. left. reflexivity.
Qed.
Lemma unique_header_spec header tr v : (forall s, In s tr -> text_header header s) ->
  unique_header header tr = Some v <-> common header v tr.
Proof.
  intros Ht. unfold unique_header. fold (texts header tr).
  pose proof (dedup_NoDup String.eqb str_eqb_spec (texts header tr)) as Hnd.
  assert (forall x, In x (dedup String.eqb (texts header tr)) <-> In x (texts header tr)) as Hin
    by (intros; apply dedup_in, str_eqb_spec).
  unfold common. split.
  - intros H. destruct (dedup String.eqb (texts header tr)) as [|a [|b l]] eqn:E; try discriminate.
    inversion H; subst a. split.
    + apply in_texts; [exact Ht|]. apply Hin. left; reflexivity.
    + intros s x Hs Hx. destruct (Ht s Hs x Hx) as [t ->].
      assert (In t [v]) as [<-|[]]; [|reflexivity]. apply Hin, in_texts; [exact Ht|]. eauto.
  - intros [H1 H2]. apply in_texts in H1; [|exact Ht].
    assert (forall x, In x (dedup String.eqb (texts header tr)) -> x = v) as Hall.
    { intros x Hx. apply Hin, in_texts in Hx; [|exact Ht]. destruct Hx as (s & Hs & Hx).
      specialize (H2 s _ Hs Hx). congruence. }
    apply Hin in H1. destruct (dedup String.eqb (texts header tr)) as [|a [|b l]].
    + destruct H1.
    + rewrite (Hall a); [reflexivity | left; reflexivity].
    + exfalso. inversion Hnd as [|? ? Hn _]; subst. apply Hn.
      rewrite (Hall a), <- (Hall b); [left; reflexivity | right; left; reflexivity | left; reflexivity].
Qed.
Lemma unique_header_none header tr : (forall s, In s tr -> text_header header s) ->
  unique_header header tr = None <-> forall v, ~ common header v tr.
Proof.
  intros Ht. split.
  - intros H v Hc. apply unique_header_spec in Hc; [congruence | exact Ht].
  - intros H. destruct (unique_header header tr) as [v|] eqn:E; [|reflexivity].
    exfalso. apply (H v). apply unique_header_spec; assumption.
Qed.
Lemma set_common header v tr : tr <> [] ->
  common header v (map (fun s => with_main s (dset (h_main s) header (VStr v))) tr) /\
  forall s, In s (map (fun s => with_main s (dset (h_main s) header (VStr v))) tr) -> dget (h_main s) header = Some (VStr v).
Proof.
  intros Hne.
  assert (forall s, In s (map (fun s => with_main s (dset (h_main s) header (VStr v))) tr) -> dget (h_main s) header = Some (VStr v)) as H.
  { intros s Hs. apply in_map_iff in Hs. destruct Hs as (s0 & <- & _). cbn. apply dget_dset_eq. }
  split; [|exact H]. split.
  - destruct tr as [|s tr]; [contradiction|]. eexists. split; [left; reflexivity|]. apply H. left; reflexivity.
  - intros s x Hs Hx. apply H in Hs. congruence.
Qed.

(** ** H5 *)
Lemma prepare_h5 compat ids h : (forall i, In i ids -> exists s, obj h i s) ->
  prepare "H5" compat ids h = (h, Ok tt).
Proof.
  intros Hobj. induction ids as [|i ids IH]; [reflexivity|]. cbn [prepare].
  destruct (Hobj i (or_introl eq_refl)) as [s Hs]. rewrite Hs.
  unfold write_header. change (lower "H5") with "h5".
  change (String.eqb "h5" "sac") with false. change (String.eqb "h5" "q" || String.eqb "h5" "sh") with false.
  cbv iota. change (String.eqb (upper "H5") "Q") with false. cbv iota.
  assert (hput h i s = h) as ->; [|apply IH; intros; apply Hobj; right; assumption].
  clear -Hs. unfold obj in Hs. revert i Hs. induction h as [|x h IHh]; intros [|i] Hs; simpl in *; try congruence.
  f_equal. apply IHh, Hs.
Qed.
Lemma prepare_h5_any compat ids h : fst (prepare "H5" compat ids h) = h.
Proof.
  induction ids as [|i ids IH]; [reflexivity|]. cbn [prepare].
  destruct (nth_error h i) as [s|] eqn:Hs; [|reflexivity].
  unfold write_header. change (lower "H5") with "h5". 
  change (String.eqb "h5" "sac") with false. change (String.eqb "h5" "q" || String.eqb "h5" "sh") with false.
  cbv iota. change (String.eqb (upper "H5") "Q") with false. cbv iota.
  assert (hput h i s = h) as ->; [|exact IH].
  clear -Hs. revert i Hs. induction h as [|x h IHh]; intros [|i] Hs; simpl in *; try congruence.
  f_equal. apply IHh, Hs.
Qed.

Lemma template_rf_eq : template_rf = rf_index. Proof. reflexivity. Qed.
Lemma template_profile_eq : template_profile = profile_index. Proof. reflexivity. Qed.
Theorem h5_index compat w ids h ix ix1 :
  ids <> [] -> (forall i, In i ids -> exists s, obj h i s) ->
  (forall s, In s (deref h ids) -> text_header "type" s) ->
  index_for (deref h ids) ix ix1 ->
  write "H5" compat w ids h ix =
    match w ix1 (deref h ids) with
    | Some e => (h, ix1, Err e)
    | None => (h, ix, Ok (map (file_roundtrip "H5") (deref h ids)))
    end.
Proof.
  intros Hne Hobj Ht Hix. unfold write. destruct ids as [|i0 ids0] eqn:Eids; [contradiction|].
  rewrite <- Eids in *. clear Eids Hne i0 ids0.
  rewrite prepare_h5 by exact Hobj. change (String.eqb (upper "H5") "H5") with true.
  change (String.eqb (upper "H5") "Q") with false. cbv iota zeta. unfold get_type.
  destruct Hix as [Hc|Hc|s tr' Hc Htr Hev|s tr' Hc Htr Hev].
  all: rewrite ?template_rf_eq, ?template_profile_eq.
  - apply unique_header_spec in Hc; [|exact Ht]. rewrite Hc. cbn -[rf_index].
    destruct (w rf_index (deref h ids)); reflexivity.
  - apply unique_header_spec in Hc; [|exact Ht]. rewrite Hc. cbn -[profile_index].
    destruct (w profile_index (deref h ids)); reflexivity.
  - rewrite (proj2 (unique_header_none "type" (deref h ids) Ht) Hc). rewrite Htr at 1.
    unfold dmem, amem.
    change (aget String.eqb (h_main s) "event_time") with (dget (h_main s) "event_time").
    destruct (dget (h_main s) "event_time"); [|contradiction]. cbn -[rf_index].
    destruct (w rf_index (deref h ids)); reflexivity.
  - rewrite (proj2 (unique_header_none "type" (deref h ids) Ht) Hc). rewrite Htr at 1.
    unfold dmem, amem. change (aget String.eqb (h_main s) "event_time") with (dget (h_main s) "event_time").
    rewrite Hev. destruct (w ix (deref h ids)); reflexivity.
Qed.
Theorem h5_other_type compat w ids h ix t :
  ids <> [] -> (forall i, In i ids -> exists s, obj h i s) ->
  (forall s, In s (deref h ids) -> text_header "type" s) ->
  common "type" t (deref h ids) -> t <> "" -> t <> "rf" -> t <> "profile" ->
  write "H5" compat w ids h ix = (h, ix, Err KeyError).
Proof.
  intros Hne Hobj Ht Hc H0 H1 H2. unfold write. destruct ids as [|i0 ids0] eqn:Eids; [contradiction|].
  rewrite <- Eids in *. clear Eids Hne i0 ids0.
  rewrite prepare_h5 by exact Hobj. change (String.eqb (upper "H5") "H5") with true.
  cbv iota zeta. unfold get_type. apply unique_header_spec in Hc; [|exact Ht]. rewrite Hc.
  destruct (String.eqb_spec t ""); [contradiction|]. unfold h5index.
  destruct (String.eqb_spec t "rf"); [contradiction|]. destruct (String.eqb_spec t "profile"); [contradiction|].
  reflexivity.
Qed.
Theorem write_index_restored fmt compat w ids h ix h' ix' files :
  write fmt compat w ids h ix = (h', ix', Ok files) -> ix' = ix.
Proof.
  unfold write. destruct ids; [congruence|]. destruct (prepare _ _ _ _) as [h1 [[]|e]]; [|congruence].
  cbv zeta. destruct (match _ with Some k => h5index k | None => Ok ix end); [|congruence].
  destruct (w _ _); [congruence|]. destruct (String.eqb (upper fmt) "Q"); [|congruence].
  destruct (restore _ _) as [h2 [|]]; congruence.
Qed.

(** ** C13: entries that are not set *)
Lemma foldM_inv {A S} (f : S -> A -> res S) (P : S -> Prop) l s s' :
  (forall x a a', In x l -> P a -> f a x = Ok a' -> P a') -> P s -> foldM f l s = Ok s' -> P s'.
Proof.
  revert s. induction l as [|x l IH]; intros s Hstep Hs H; cbn [foldM] in H; [inversion H; subst; exact Hs|].
  apply bind_ok in H. destruct H as (a & Ha & H). apply (IH a); [|eapply Hstep; [left; reflexivity | exact Hs | exact Ha]|exact H].
  intros; eapply Hstep; [right| |]; eassumption.
Qed.
Lemma combine_inj_r (l1 l2 : list string) a b k : NoDup l2 -> In (a, k) (combine l1 l2) -> In (b, k) (combine l1 l2) -> a = b.
Proof.
  revert l1. induction l2 as [|y l2 IH]; intros [|x l1] Hnd H1 H2; simpl in *; try contradiction.
  inversion Hnd as [|? ? Hn Hnd']; subst.
  destruct H1 as [H1|H1], H2 as [H2|H2].
  - congruence.
  - inversion H1; subst. apply in_combine_r in H2. contradiction.
  - inversion H2; subst. apply in_combine_r in H1. contradiction.
  - eapply IH; eassumption.
Qed.
Theorem sac_unset_stays_unset str_of compat s s1 s2 e fh :
  In (e, fh) sac_map -> dget (h_main s) e = None ->
  (forall d, h_sac s = Some d -> dget d fh = None) ->
  write_header "SAC" compat s = Ok s1 -> rftrace_init str_of (file_roundtrip "SAC" s1) = Ok s2 ->
  dget (h_main s2) e = None.
Proof.
  intros Hin Hm Hd Hw Hr. unfold write_header in Hw. change (lower "SAC") with "sac" in Hw.
  change (String.eqb "sac" "sac") with true in Hw. cbv iota in Hw.
  apply bind_ok in Hw. destruct Hw as (sac & Hf & Hw). inversion Hw; subst s1; clear Hw.
  assert (dget sac fh = None) as Hnone.
  { refine (foldM_inv _ (fun d => dget d fh = None) _ _ _ _ _ Hf).
    - intros [e2 fh2] a a' Hin2 Ha Hstep. unfold write_sac_step in Hstep.
      destruct (dget (h_main s) e2) as [v|] eqn:E; [|inversion Hstep; subst; exact Ha].
      apply bind_ok in Hstep. destruct Hstep as (v' & _ & Hstep). inversion Hstep; subst a'.
      rewrite dget_dset_ne; [exact Ha|]. intros ->. assert (e2 = e); [|congruence].
      apply (combine_inj_r headers sac_headers e2 e fh); [|exact Hin2|exact Hin].
      apply NoDup_dec_true. vm_compute. reflexivity.
    - unfold obspy_to_sac.
      assert (fh <> "nz") by (intros ->; apply nz_not_sac; eapply in_combine_r; exact Hin).
      destruct (h_sac s) as [d|] eqn:E.
      + destruct (sac_reftime d); [apply Hd; reflexivity|]. rewrite dget_dset_ne by congruence. apply Hd; reflexivity.
      + cbn. destruct (String.eqb_spec fh "nz"); [contradiction | reflexivity]. }
  unfold rftrace_init, file_roundtrip in Hr. change (upper "SAC") with "SAC" in Hr.
  change (String.eqb "SAC" "Q") with false in Hr. change (String.eqb "SAC" "SAC") with true in Hr. cbv iota zeta in Hr.
  cbn [h_format h_sta] in Hr. change (String.eqb (upper "SAC") "Q") with false in Hr. cbn [andb] in Hr.
  unfold read_header in Hr. cbn [h_format h_sac h_main with_sac] in Hr. change (lower "SAC") with "sac" in Hr.
  change (String.eqb "sac" "q") with false in Hr. cbv iota in Hr. change (String.eqb "sac" "sac") with true in Hr. cbv iota in Hr.
  apply bind_ok in Hr. destruct Hr as (m & Hf2 & Hr). inversion Hr; subst s2; clear Hr. cbn [with_main h_main].
  refine (foldM_inv _ (fun d => dget d e = None) _ _ _ _ _ Hf2); [|reflexivity].
  intros [e2 fh2] a a' Hin2 Ha Hstep.
  assert (forall a0, e <> e2 -> dget a0 e = None -> read_convert sac e2 a0 = Ok a' -> dget a' e = None) as Hconv.
  { intros a0 Hne Ha0. unfold read_convert. destruct (is_sac_time e2); [|intros H; inversion H; subst; exact Ha0].
    intros H. apply bind_ok in H. destruct H as (r & _ & H).
    destruct (dget a0 e2) as [[]|]; inversion H; subst; rewrite ?dget_dset_ne by congruence; exact Ha0. }
  unfold read_sac_step in Hstep. destruct (string_dec e e2) as [<-|Hne].
  - assert (fh2 = fh) as ->.
    { assert (NoDup (map fst sac_map)) as Hnd by (apply NoDup_dec_true; vm_compute; reflexivity).
      pose proof (in_aget String.eqb str_eqb_spec sac_map e fh Hnd Hin) as G1.
      pose proof (in_aget String.eqb str_eqb_spec sac_map e fh2 Hnd Hin2) as G2. congruence. }
    rewrite Hnone in Hstep. inversion Hstep; subst. exact Ha.
  - destruct (dget sac fh2) as [[v| |]|]; [|apply (Hconv _ Hne) in Hstep; auto; rewrite dget_dset_ne by congruence; exact Ha ..|
      inversion Hstep; subst; exact Ha].
    destruct (str_in _ _); apply (Hconv _ Hne) in Hstep; auto. rewrite dget_dset_ne by congruence. exact Ha.
Qed.

Lemma dget_in_fst {A} (d : dict A) k v : dget d k = Some v -> In k (map fst d).
Proof. intros H. apply (aget_Some_in String.eqb str_eqb_spec) in H. apply in_map_iff. exists (k, v). auto. Qed.
Theorem q_unset_stays_unset str_of compat s s1 s2 e fh :
  In (e, fh) sh_map -> dget (h_main s) e = None ->
  (forall d, h_sh s = Some d -> dget d fh = None /\ dget d "COMMENT" = None) ->
  write_header "Q" compat s = Ok s1 ->
  rftrace_init str_of (file_roundtrip "Q" (with_codes s1 (h_net s1) (h_id s1) (h_loc s1))) = Ok s2 ->
  dget (h_main s2) e = None.
Proof.
  intros Hin Hm Hd Hw Hr. unfold write_header in Hw. change (lower "Q") with "q" in Hw.
  change (String.eqb "q" "sac") with false in Hw. change (String.eqb "q" "q" || String.eqb "q" "sh") with true in Hw.
  cbv iota in Hw. set (sh0 := match h_sh s with Some d => d | None => [] end) in Hw.
  assert (dget sh0 fh = None /\ dget sh0 "COMMENT" = None) as [Hold Holdc].
  { unfold sh0. destruct (h_sh s) as [d|] eqn:E; [apply Hd; reflexivity | split; reflexivity]. }
  assert (NoDup (map fst sh_map)) as Hndf by (apply NoDup_dec_true; vm_compute; reflexivity).
  destruct (sh_write_loop (h_main s) sh_map [] sh0 Hndf) as (c & sh & H0 & H1 & H2 & H3 & H4 & H5).
  { apply NoDup_dec_true. vm_compute. reflexivity. }
  { constructor. }
  rewrite H0 in Hw.
  assert (forall fh2, In (e, fh2) sh_map -> fh2 = fh) as Huniq.
  { intros fh2 Hin2. pose proof (in_aget String.eqb str_eqb_spec sh_map e fh Hndf Hin) as G1.
    pose proof (in_aget String.eqb str_eqb_spec sh_map e fh2 Hndf Hin2) as G2. congruence. }
  assert (dget sh "COMMENT" = None) as Hc0.
  { rewrite H2; [exact Holdc|]. vm_compute. intuition discriminate. }
  assert (dget c e = None) as Hce.
  { destruct (in_dec string_dec e documented_comment) as [Hk|Hk].
    - rewrite H3 by (apply comment_heads; exact Hk). rewrite Hm. reflexivity.
    - rewrite H4; [reflexivity|]. intros H; apply Hk, comment_heads, H. }
  assert (exists sh1, s1 = with_sh s sh1 /\ (fh <> "COMMENT" -> dget sh1 fh = None) /\
     (dget sh1 "COMMENT" = None \/ dget sh1 "COMMENT" = Some (FJson c))) as (sh1 & -> & Hs1 & Hs2).
  { assert (fh <> "COMMENT" -> dget sh fh = None) as Hshfh.
    { intros Hne. rewrite (H1 e fh Hin Hne), Hm. exact Hold. }
    destruct compat.
    - inversion Hw. eexists. split; [reflexivity|]. rewrite ddel_absent by exact Hc0. auto.
    - destruct c as [|kv c0].
      + inversion Hw. eexists. split; [reflexivity|]. auto.
      + destruct (forallb _ _); inversion Hw. eexists. split; [reflexivity|]. split.
        * intros Hne. rewrite dget_dset_ne by congruence. auto.
        * right. apply dget_dset_eq. }
  unfold rftrace_init in Hr.
  set (g := match h_format _ with Some _ => _ | None => _ end) in Hr.
  assert (h_main g = [] /\ h_sh g = Some sh1 /\ h_format g = Some "Q") as (G1 & G2 & G3).
  { unfold g. cbn [file_roundtrip h_format]. destruct (_ && _); [|repeat split].
    destruct (split_on _ _) as [|? [|? [|? ?]]]; repeat split. }
  unfold read_header in Hr. rewrite G3, G2, G1 in Hr. change (lower "Q") with "q" in Hr.
  change (String.eqb "q" "q") with true in Hr. cbv iota zeta in Hr.
  change (String.eqb "sh" "sac") with false in Hr. change (String.eqb "sh" "sh") with true in Hr. cbv iota in Hr.
  apply bind_ok in Hr. destruct Hr as (m & Hf2 & Hr). inversion Hr; subst s2; clear Hr. cbn [with_main h_main].
  refine (foldM_inv _ (fun d => dget d e = None) _ _ _ _ _ Hf2); [|reflexivity].
  intros [e2 fh2] a a' Hin2 Ha Hstep. unfold read_sh_step in Hstep.
  destruct (String.eqb_spec fh2 "COMMENT") as [->|Hne].
  - destruct Hs2 as [Hs2|Hs2]; rewrite Hs2 in Hstep; inversion Hstep; subst; [exact Ha|].
    rewrite dupdate_get by exact H5. rewrite Hce. exact Ha.
  - destruct (string_dec e e2) as [<-|Hee].
    + rewrite (Huniq fh2 Hin2) in *. rewrite Hs1 in Hstep by exact Hne. inversion Hstep; subst; exact Ha.
    + destruct (dget sh1 fh2) as [[v| |]|]; inversion Hstep; subst; rewrite ?dget_dset_ne by congruence; exact Ha.
Qed.
