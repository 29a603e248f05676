From Verif Require Import Model.SimpleModel.
From Coq Require Import Lra Lia.
Notation length := List.length.
Open Scope R_scope.

(** one interpolated value if the sample points are in increasing order: the last sample
    point <= x is found by a linear scan *)
Fixpoint interp_go (right : option R) (x a fa : R) (rest : list (R * R)) : R :=
  match rest with
  | [] => if Req_EM_T x a then fa else match right with Some r => r | None => fa end
  | (b, fb) :: rest' =>
      if Rle_dec b x then interp_go right x b fb rest'
      else if Req_EM_T x a then fa
      else (fb - fa) / (b - a) * (x - a) + fa
  end.
Definition interp1 (left right : option R) (pts : list (R * R)) (x : R) : R :=
  match pts with
  | [] => 0
  | (a, fa) :: rest =>
      if Rlt_dec x a then match left with Some l => l | None => fa end
      else interp_go right x a fa rest
  end.

Lemma interp_go_between right x lo hi : forall rest a fa, a <= x -> lo <= fa <= hi ->
  (forall r, right = Some r -> lo <= r <= hi) ->
  (forall b fb, In (b, fb) rest -> lo <= fb <= hi) -> lo <= interp_go right x a fa rest <= hi.
Proof.
  induction rest as [|[b fb] rest IH]; intros a fa Ha Hf Hr Hin; cbn [interp_go].
  - destruct (Req_EM_T x a); [exact Hf|]. destruct right; [apply Hr; reflexivity | exact Hf].
  - destruct (Rle_dec b x) as [Hb|Hb].
    + apply IH; try assumption; [apply (Hin b); left; reflexivity|]. intros; apply (Hin b0); right; assumption.
    + destruct (Req_EM_T x a); [exact Hf|]. pose proof (Hin b fb (or_introl eq_refl)) as Hfb.
      assert (0 < b - a) by lra. set (l := (x - a) / (b - a)).
      replace ((fb - fa) / (b - a) * (x - a) + fa) with (fa + l * (fb - fa)) by (unfold l; field; lra).
      assert (0 <= l <= 1).
      { unfold l. split; [apply Rmult_le_pos; [lra | left; apply Rinv_0_lt_compat; lra]|].
        apply (Rmult_le_reg_r (b - a)); [lra|]. unfold Rdiv. rewrite Rmult_assoc, Rinv_l by lra. lra. }
      split; nra.
Qed.
Lemma interp1_between left right pts x lo hi : pts <> [] ->
  (forall r, left = Some r -> lo <= r <= hi) -> (forall r, right = Some r -> lo <= r <= hi) ->
  (forall b fb, In (b, fb) pts -> lo <= fb <= hi) -> lo <= interp1 left right pts x <= hi.
Proof.
  intros Hne Hl Hr Hin. destruct pts as [|[a fa] rest]; [congruence|]. cbn [interp1].
  pose proof (Hin a fa (or_introl eq_refl)). destruct (Rlt_dec x a) as [H1|H1].
  - destruct left; [apply Hl; reflexivity | assumption].
  - apply interp_go_between; try assumption; [lra|]. intros b fb Hb. apply (Hin b). right. exact Hb.
Qed.

(** sample points in increasing order *)
Definition incr (l : list R) : Prop := forall i j, (i <= j)%nat -> (j < length l)%nat -> nth i l 0 <= nth j l 0.
Lemma incr_cons a l : incr (a :: l) -> incr l.
Proof. intros H i j Hij Hj. apply (H (S i) (S j)); cbn; lia. Qed.
Lemma incr_head a l b : incr (a :: l) -> In b l -> a <= b.
Proof.
  intros H Hb. destruct (In_nth l b 0 Hb) as (k & Hk & <-). apply (H 0%nat (S k)); cbn; lia.
Qed.

(** last sample point not above x *)
Lemma interp_go_at right x j : forall xp fp a fa, length fp = length xp -> incr (a :: xp) ->
  (j < S (length xp))%nat -> nth j (a :: xp) 0 <= x ->
  ((S j < S (length xp))%nat -> x < nth (S j) (a :: xp) 0) ->
  interp_go right x a fa (combine xp fp) =
    if Req_EM_T x (nth j (a :: xp) 0) then nth j (fa :: fp) 0
    else if (S j <? S (length xp))%nat
         then (nth (S j) (fa :: fp) 0 - nth j (fa :: fp) 0) / (nth (S j) (a :: xp) 0 - nth j (a :: xp) 0)
              * (x - nth j (a :: xp) 0) + nth j (fa :: fp) 0
         else match right with Some r => r | None => nth j (fa :: fp) 0 end.
Proof.
  induction j as [|j IH]; intros xp fp a fa Hl Hinc Hj Hx Hn.
  - destruct xp as [|b xp]; destruct fp as [|fb fp]; try (cbn in Hl; lia); cbn [combine interp_go].
    + cbn. reflexivity.
    + cbn in Hn. specialize (Hn ltac:(lia)). destruct (Rle_dec b x) as [Hb|Hb]; [lra|]. cbn. reflexivity.
  - destruct xp as [|b xp]; [cbn in Hj; lia|]. destruct fp as [|fb fp]; [cbn in Hl; lia|]. cbn [combine interp_go].
    assert (b <= x) as Hb.
    { apply Rle_trans with (nth (S j) (a :: b :: xp) 0); [|exact Hx]. apply (Hinc 1%nat (S j)); cbn in *; lia. }
    destruct (Rle_dec b x); [|contradiction].
    rewrite IH; [| cbn in Hl; lia | apply incr_cons in Hinc; exact Hinc | cbn in Hj; lia | exact Hx |].
    + cbn [nth List.length]. destruct (Req_EM_T _ _); [reflexivity|]. 
      replace (S (S j) <? S (S (length xp)))%nat with (S j <? S (length xp))%nat by reflexivity. reflexivity.
    + intros H. apply Hn. cbn. lia.
Qed.
Lemma interp1_at left right x j xp fp : length fp = length xp -> incr xp ->
  (j < length xp)%nat -> nth j xp 0 <= x -> ((S j < length xp)%nat -> x < nth (S j) xp 0) ->
  interp1 left right (combine xp fp) x =
    if Req_EM_T x (nth j xp 0) then nth j fp 0
    else if (S j <? length xp)%nat
         then (nth (S j) fp 0 - nth j fp 0) / (nth (S j) xp 0 - nth j xp 0) * (x - nth j xp 0) + nth j fp 0
         else match right with Some r => r | None => nth j fp 0 end.
Proof.
  intros Hl Hinc Hj Hx Hn. destruct xp as [|a xp]; [cbn in Hj; lia|]. destruct fp as [|fa fp]; [cbn in Hl; lia|].
  cbn [combine interp1]. destruct (Rlt_dec x a) as [H|H].
  - exfalso. assert (a <= nth j (a :: xp) 0) by (apply (Hinc 0%nat j); lia). lra.
  - apply interp_go_at; try assumption. cbn in Hl. lia.
Qed.
(** at a sample point followed by a larger one *)
Lemma interp1_node left right j xp fp : length fp = length xp -> incr xp -> (j < length xp)%nat ->
  ((S j < length xp)%nat -> nth j xp 0 < nth (S j) xp 0) ->
  interp1 left right (combine xp fp) (nth j xp 0) = nth j fp 0.
Proof.
  intros Hl Hinc Hj Hn. rewrite (interp1_at left right (nth j xp 0) j xp fp Hl Hinc Hj (Rle_refl _) Hn).
  destruct (Req_EM_T _ _); [reflexivity | congruence].
Qed.
(** position of x *)
Lemma locate xp x : xp <> [] -> incr xp -> nth 0 xp 0 <= x ->
  exists j, (j < length xp)%nat /\ nth j xp 0 <= x /\ ((S j < length xp)%nat -> x < nth (S j) xp 0).
Proof.
  induction xp as [|a xp IH]; [congruence|]. intros _ Hinc Ha. destruct xp as [|b xp].
  - exists 0%nat. cbn in *. split; [lia|]. split; [exact Ha | lia].
  - destruct (Rle_dec b x) as [Hb|Hb].
    + destruct IH as (j & A & B & D); [discriminate | apply incr_cons in Hinc; exact Hinc | exact Hb|].
      exists (S j). cbn [List.length] in *. split; [lia|]. split; [exact B|]. intros H. apply D. lia.
    + exists 0%nat. cbn in *. split; [lia|]. split; [exact Ha|]. intros _. lra.
Qed.
Lemma last_nth_R (l : list R) : l <> [] -> last l 0 = nth (length l - 1) l 0.
Proof.
  intros H. destruct (exists_last H) as (l' & x & ->). rewrite last_last, app_length. cbn [List.length].
  replace (length l' + 1 - 1)%nat with (length l') by lia. rewrite app_nth2, Nat.sub_diag by lia. reflexivity.
Qed.
Lemma nth_last_le (l : list R) j : incr l -> (j < length l)%nat -> nth j l 0 <= last l 0.
Proof. intros Hi Hj. rewrite last_nth_R by (destruct l; [cbn in Hj; lia | discriminate]). apply Hi; lia. Qed.
(** outside *)
Lemma interp1_right left right x xp fp : length fp = length xp -> xp <> [] -> incr xp -> last xp 0 < x ->
  interp1 left right (combine xp fp) x = match right with Some r => r | None => last fp 0 end.
Proof.
  intros Hl Hne Hinc Hx. assert (1 <= length xp)%nat by (destruct xp; [congruence|cbn; lia]).
  rewrite last_nth_R in Hx by exact Hne.
  rewrite (interp1_at left right x (length xp - 1) xp fp Hl Hinc) by (try lia; lra).
  destruct (Req_EM_T _ _); [lra|]. destruct (Nat.ltb_spec (S (length xp - 1)) (length xp)); [lia|].
  destruct right; [reflexivity|]. rewrite last_nth_R, Hl by (destruct fp; [cbn in Hl; lia | discriminate]). reflexivity.
Qed.
Lemma interp1_left left right x xp fp : length fp = length xp -> xp <> [] -> x < nth 0 xp 0 ->
  interp1 left right (combine xp fp) x = match left with Some r => r | None => nth 0 fp 0 end.
Proof.
  intros Hl Hne Hx. destruct xp as [|a xp]; [congruence|]. destruct fp as [|fa fp]; [cbn in Hl; lia|]. cbn in *.
  destruct (Rlt_dec x a); [reflexivity | lra].
Qed.
(** identity table *)
Lemma interp1_id left right x xp : xp <> [] -> incr xp -> nth 0 xp 0 <= x <= last xp 0 ->
  interp1 left right (combine xp xp) x = x.
Proof.
  intros Hne Hinc [H0 H1]. destruct (locate xp x Hne Hinc H0) as (j & A & B & D).
  rewrite (interp1_at left right x j xp xp eq_refl Hinc A B D).
  destruct (Req_EM_T x (nth j xp 0)); [congruence|].
  destruct (Nat.ltb_spec (S j) (length xp)) as [E|E].
  - specialize (D E). field. lra.
  - exfalso. rewrite last_nth_R in H1 by exact Hne. replace (length xp - 1)%nat with j in H1 by lia. lra.
Qed.
(** monotone in x between the first and beyond the last sample point *)
Lemma interp1_mono left right xp fp x y : length fp = length xp -> xp <> [] -> incr xp -> incr fp ->
  right = None -> nth 0 xp 0 <= x -> x <= y ->
  interp1 left right (combine xp fp) x <= interp1 left right (combine xp fp) y.
Proof.
  intros Hl Hne Hx Hf -> H0 Hxy. 
  destruct (locate xp x Hne Hx H0) as (j & A & B & D).
  destruct (locate xp y Hne Hx ltac:(lra)) as (k & A' & B' & D').
  rewrite (interp1_at left None x j xp fp Hl Hx A B D), (interp1_at left None y k xp fp Hl Hx A' B' D').
  (* value at position: between fp j and fp (j+1) *)
  assert (forall z j, (j < length xp)%nat -> nth j xp 0 <= z -> ((S j < length xp)%nat -> z < nth (S j) xp 0) ->
    let v := if Req_EM_T z (nth j xp 0) then nth j fp 0
      else if (S j <? length xp)%nat then (nth (S j) fp 0 - nth j fp 0) / (nth (S j) xp 0 - nth j xp 0) * (z - nth j xp 0) + nth j fp 0
      else nth j fp 0 in nth j fp 0 <= v /\ ((S j < length xp)%nat -> v <= nth (S j) fp 0)) as V.
  { intros z i Hi Hz Hn v. subst v. assert ((S i < length xp)%nat -> nth i fp 0 <= nth (S i) fp 0) as Hfi by (intros; apply Hf; lia).
    destruct (Req_EM_T z (nth i xp 0)); [split; [lra | exact Hfi]|].
    destruct (Nat.ltb_spec (S i) (length xp)) as [E|E]; [|split; [lra | lia]].
    specialize (Hn E). specialize (Hfi E).
    set (l := (z - nth i xp 0) / (nth (S i) xp 0 - nth i xp 0)).
    replace ((nth (S i) fp 0 - nth i fp 0) / (nth (S i) xp 0 - nth i xp 0) * (z - nth i xp 0) + nth i fp 0)
      with (nth i fp 0 + l * (nth (S i) fp 0 - nth i fp 0)) by (unfold l; field; lra).
    assert (0 <= l <= 1).
    { unfold l. split; [apply Rmult_le_pos; [lra | left; apply Rinv_0_lt_compat; lra]|].
      apply (Rmult_le_reg_r (nth (S i) xp 0 - nth i xp 0)); [lra|]. unfold Rdiv. rewrite Rmult_assoc, Rinv_l by lra. lra. }
    split; [|intros _]; nra. }
  assert (j <= k)%nat as Hjk.
  { destruct (Nat.le_gt_cases j k); [assumption|]. exfalso.
    specialize (D' ltac:(lia)). assert (nth (S k) xp 0 <= nth j xp 0) by (apply Hx; lia). lra. }
  destruct (Nat.eq_dec j k) as [<-|Hne2].
  - destruct (Req_EM_T x (nth j xp 0)) as [E|E].
    + pose proof (V y j A' B' D') as [V1 _]. exact V1.
    + destruct (Req_EM_T y (nth j xp 0)); [lra|]. destruct (Nat.ltb_spec (S j) (length xp)) as [E2|E2]; [|lra].
      specialize (D E2). apply Rplus_le_compat_r, Rmult_le_compat_l; [|lra].
      apply Rmult_le_pos; [|left; apply Rinv_0_lt_compat; lra].
      assert (nth j fp 0 <= nth (S j) fp 0) by (apply Hf; lia). lra.
  - pose proof (V x j A B D) as [_ V2]. pose proof (V y k A' B' D') as [V1 _]. specialize (V2 ltac:(lia)).
    cbv zeta in V1, V2. assert (nth (S j) fp 0 <= nth k fp 0) by (apply Hf; lia). lra.
Qed.
(** ** the search of numpy *)
Section Search.
  Variable key : R.
  Variable arr : list R.
  Notation len := (Z.of_nat (length arr)).
  Definition bracket (j : Z) : Prop :=
    (0 <= j < len)%Z /\ ati arr j <= key /\ ((j + 1 < len)%Z -> key < ati arr (j + 1)%Z).
  Lemma scan_spec fuel : forall i, (1 <= i <= len)%Z -> (len - i <= Z.of_nat fuel)%Z -> ati arr (i - 1) <= key ->
    bracket (scan fuel key arr i).
  Proof.
    induction fuel as [|fuel IH]; intros i Hi Hf Hk; cbn [scan].
    - split; [lia|]. split; [exact Hk|]. intros; lia.
    - destruct (Z.ltb_spec i len) as [H|H].
      + destruct (Rle_dec (ati arr i) key) as [Hr|Hr].
        * apply IH; [lia | lia |]. replace (i + 1 - 1)%Z with i by lia. exact Hr.
        * split; [lia|]. split; [exact Hk|]. intros _. replace (i - 1 + 1)%Z with i by lia. lra.
      + split; [lia|]. split; [exact Hk|]. intros; lia.
  Qed.
  Lemma bisect_spec fuel : forall imin imax, (0 <= imin <= imax)%Z -> (imax <= len)%Z -> (imax - imin < Z.of_nat fuel)%Z ->
    ((0 < imin)%Z /\ ati arr (imin - 1) <= key \/ (imin < imax)%Z /\ ati arr imin <= key) ->
    ((imax < len)%Z -> key < ati arr imax) -> bracket (bisect fuel key arr imin imax).
  Proof.
    induction fuel as [|fuel IH]; intros imin imax Hi Hl Hf Hlo Hhi; [lia|]. cbn [bisect].
    destruct (Z.ltb_spec imin imax) as [H|H].
    - cbv zeta. set (imid := (imin + (imax - imin) / 2)%Z).
      assert (imin <= imid < imax)%Z as Hm.
      { unfold imid. pose proof (Z.div_pos (imax - imin) 2 ltac:(lia) ltac:(lia)).
        pose proof (Z.div_lt (imax - imin) 2 ltac:(lia) ltac:(lia)). lia. }
      clearbody imid. destruct (Rle_dec (ati arr imid) key) as [Hr|Hr].
      + apply IH; try lia; try assumption. left. split; [lia|]. replace (imid + 1 - 1)%Z with imid by lia. exact Hr.
      + apply IH; try lia; [|intros _; lra]. destruct Hlo as [Hlo|[_ Hlo]]; [left; exact Hlo|]. right. split; [|exact Hlo].
        destruct (Z.eq_dec imid imin) as [->|]; [contradiction | lia].
    - assert (imin = imax) by lia. subst imax. destruct Hlo as [[Hp Hlo]|[Hlo _]]; [|lia].
      split; [lia|]. split; [exact Hlo|]. replace (imin - 1 + 1)%Z with imin by lia. intros; apply Hhi; lia.
  Qed.
  Theorem search_spec g : arr <> [] -> let j := search key arr g in
    (j = len /\ ati arr (len - 1) < key) \/
    (j = (-1)%Z /\ key < ati arr 0 /\ key <= ati arr (len - 1)) \/
    (bracket j /\ key <= ati arr (len - 1)).
  Proof.
    intros Hne. cbv zeta. assert (1 <= len)%Z as Hlen by (destruct arr; [congruence | cbn [length]; lia]). unfold search.
    destruct (Rlt_dec (ati arr (len - 1)) key) as [H|H]; [left; split; [reflexivity | exact H]|]. right.
    destruct (Rlt_dec key (ati arr 0)) as [H1|H1]; [left; split; [reflexivity|]; split; [exact H1 | lra]|]. right.
    split; [|lra]. destruct (Z.leb_spec len 4) as [H4|H4].
    { apply scan_spec; [lia | lia |]. replace (1 - 1)%Z with 0%Z by lia. lra. }
    set (g1 := if (g >? len - 3)%Z then (len - 3)%Z else g). cbv zeta.
    set (g2 := if (g1 <? 1)%Z then 1%Z else g1). assert (1 <= g2 <= len - 3)%Z as Hg.
    { unfold g2, g1. destruct (Z.gtb_spec g (len - 3)); destruct (Z.ltb_spec (if (g >? len - 3)%Z then (len - 3)%Z else g) 1);
        destruct (Z.gtb_spec g (len - 3)); try lia; destruct (Z.ltb_spec g 1); try lia; destruct (Z.ltb_spec (len - 3) 1); lia. }
    clearbody g2. clear g1.
    assert (forall a b, (0 <= a <= b)%Z -> (b <= len)%Z -> ((0 < a)%Z /\ ati arr (a - 1) <= key \/ (a < b)%Z /\ ati arr a <= key) ->
              ((b < len)%Z -> key < ati arr b) -> bracket (bisect (S (length arr)) key arr a b)) as B.
    { intros a b Ha Hb H2 H5. apply bisect_spec; try assumption. lia. }
    destruct (Rlt_dec key (ati arr g2)) as [A|A].
    - destruct (Rlt_dec key (ati arr (g2 - 1))) as [A1|A1].
      + assert (0 < g2 - 1)%Z as Hp.
        { destruct (Z.eq_dec g2 1) as [->|]; [|lia]. replace (1 - 1)%Z with 0%Z in A1 by lia. lra. }
        assert (bracket (bisect (S (length arr)) key arr 0 (g2 - 1))) as B0 by (apply B; try lia; [right; split; [lia | lra] | intros; exact A1]).
        destruct (Z.gtb_spec g2 8); [|exact B0]. destruct (Rle_dec (ati arr (g2 - 8)) key) as [A2|A2]; [|exact B0].
        apply B; try lia; [right; split; [lia | exact A2] | intros; exact A1].
      + split; [lia|]. split; [lra|]. intros _. replace (g2 - 1 + 1)%Z with g2 by lia. exact A.
    - destruct (Rlt_dec key (ati arr (g2 + 1))) as [A1|A1]; [split; [lia|]; split; [lra|]; intros _; exact A1|].
      destruct (Rlt_dec key (ati arr (g2 + 2))) as [A2|A2].
      { split; [lia|]. split; [lra|]. intros _. replace (g2 + 1 + 1)%Z with (g2 + 2)%Z by lia. exact A2. }
      assert (forall b, (g2 + 2 < b <= len)%Z -> ((b < len)%Z -> key < ati arr b) -> bracket (bisect (S (length arr)) key arr (g2 + 2) b)) as B2.
      { intros b Hb Hh. apply B; try lia; [|exact Hh]. left. split; [lia|]. replace (g2 + 2 - 1)%Z with (g2 + 1)%Z by lia. lra. }
      destruct (Z.ltb_spec g2 (len - 8 - 1)); [|apply B2; lia].
      destruct (Rlt_dec key (ati arr (g2 + 8))) as [A3|A3]; [|apply B2; lia].
      apply B2; [lia|]. intros _. exact A3.
  Qed.
End Search.

Lemma ati_nth l i : ati l (Z.of_nat i) = nth i l 0.
Proof. unfold ati. rewrite Nat2Z.id. reflexivity. Qed.
Lemma ati_last l : l <> [] -> ati l (Z.of_nat (length l) - 1) = last l 0.
Proof.
  intros H. destruct (exists_last H) as (l' & x & ->). rewrite last_last, app_length. cbn [List.length].
  replace (Z.of_nat (length l' + 1) - 1)%Z with (Z.of_nat (length l')) by lia. rewrite ati_nth, app_nth2, Nat.sub_diag by lia. reflexivity.
Qed.
(** values between those of the sample points, in whatever order they are *)
Lemma interp_value_between left right xp fp x g lo hi : length fp = length xp -> xp <> [] ->
  (forall r, left = Some r -> lo <= r <= hi) -> (forall r, right = Some r -> lo <= r <= hi) ->
  (forall f, In f fp -> lo <= f <= hi) -> lo <= interp_value left right xp fp x (search x xp g) <= hi.
Proof.
  intros Hl Hne Hle Hri Hin.
  assert (forall i, (0 <= i < Z.of_nat (length xp))%Z -> lo <= ati fp i <= hi) as Hf.
  { intros i Hi. apply Hin. unfold ati. apply nth_In. lia. }
  assert (1 <= Z.of_nat (length xp))%Z by (destruct xp; [congruence | cbn [List.length]; lia]).
  unfold interp_value. destruct (search_spec x xp g Hne) as [[-> _]|[[-> _]|[(Hb & Hb1 & Hb2) _]]].
  - destruct (Z.eqb_spec (Z.of_nat (length xp)) (-1)); [lia|]. rewrite Z.eqb_refl. destruct right; [apply Hri; reflexivity | apply Hf; lia].
  - change (-1 =? -1)%Z with true. cbv iota. destruct left; [apply Hle; reflexivity | apply Hf; lia].
  - set (j := search x xp g) in *. clearbody j. destruct (Z.eqb_spec j (-1)); [lia|]. destruct (Z.eqb_spec j (Z.of_nat (length xp))); [lia|].
    destruct (Z.eqb_spec j (Z.of_nat (length xp) - 1)) as [|Hj]; [apply Hf; lia|]. destruct (Req_EM_T _ _) as [|Hn]; [apply Hf; lia|].
    specialize (Hb2 ltac:(lia)). pose proof (Hf j ltac:(lia)) as F1. pose proof (Hf (j + 1)%Z ltac:(lia)) as F2.
    set (a := ati xp j) in *. set (b := ati xp (j + 1)) in *. set (fa := ati fp j) in *. set (fb := ati fp (j + 1)) in *.
    assert (0 < b - a) by lra. set (l := (x - a) / (b - a)).
    replace ((fb - fa) / (b - a) * (x - a) + fa) with (fa + l * (fb - fa)) by (unfold l; field; lra).
    assert (0 <= l <= 1).
    { unfold l. split; [apply Rmult_le_pos; [lra | left; apply Rinv_0_lt_compat; lra]|].
      apply (Rmult_le_reg_r (b - a)); [lra|]. unfold Rdiv. rewrite Rmult_assoc, Rinv_l by lra. lra. }
    split; nra.
Qed.
(** in increasing order: the scan *)
Lemma interp_value_sorted left right xp fp x g : length fp = length xp -> xp <> [] -> incr xp ->
  interp_value left right xp fp x (search x xp g) = interp1 left right (combine xp fp) x.
Proof.
  intros Hl Hne Hinc. assert (fp <> []) as Hnf by (intros ->; destruct xp; [congruence | discriminate]).
  unfold interp_value. destruct (search_spec x xp g Hne) as [[-> H]|[(-> & H & _)|[(Hb & Hb1 & Hb2) Hla]]].
  - destruct (Z.eqb_spec (Z.of_nat (length xp)) (-1)); [lia|]. rewrite Z.eqb_refl. rewrite ati_last in H by exact Hne.
    rewrite interp1_right by assumption. destruct right; [reflexivity|]. rewrite <- Hl. apply ati_last, Hnf.
  - change (-1 =? -1)%Z with true. cbv iota. rewrite interp1_left by assumption. reflexivity.
  - set (j := search x xp g) in *. clearbody j. rewrite ati_last in Hla by exact Hne.
    assert (exists i, j = Z.of_nat i) as [i ->] by (exists (Z.to_nat j); lia).
    replace (Z.of_nat i + 1)%Z with (Z.of_nat (S i)) in * by lia. rewrite !ati_nth in *.
    rewrite (interp1_at left right x i xp fp Hl Hinc ltac:(lia) Hb1) by (intros; apply Hb2; lia).
    destruct (Z.eqb_spec (Z.of_nat i) (-1)); [lia|]. destruct (Z.eqb_spec (Z.of_nat i) (Z.of_nat (length xp))); [lia|].
    destruct (Z.eqb_spec (Z.of_nat i) (Z.of_nat (length xp) - 1)) as [E|E].
    + assert (nth i xp 0 = last xp 0) as El by (rewrite <- ati_last, <- E, ati_nth by exact Hne; reflexivity).
      destruct (Req_EM_T x (nth i xp 0)); [reflexivity | lra].
    + destruct (Req_EM_T (nth i xp 0) x) as [Ex|Ex]; destruct (Req_EM_T x (nth i xp 0)); try reflexivity; try congruence.
      destruct (Nat.ltb_spec (S i) (length xp)); [reflexivity | lia].
Qed.
Lemma interp_walk_sorted left right xp fp : length fp = length xp -> xp <> [] -> incr xp ->
  forall xs g, interp_walk left right xp fp g xs = map (interp1 left right (combine xp fp)) xs.
Proof. intros Hl Hne Hi. induction xs as [|x xs IH]; intros g; [reflexivity|]. cbn [interp_walk map]. rewrite IH, interp_value_sorted by assumption. reflexivity. Qed.
Lemma interp_walk_length left right xp fp : forall xs g, length (interp_walk left right xp fp g xs) = length xs.
Proof. induction xs as [|x xs IH]; intros g; [reflexivity|]. cbn [interp_walk List.length]. rewrite IH. reflexivity. Qed.
Lemma interp_walk_in left right xp fp v : forall xs g, In v (interp_walk left right xp fp g xs) ->
  exists x g', v = interp_value left right xp fp x (search x xp g').
Proof.
  induction xs as [|x xs IH]; intros g H; [destruct H|]. cbn [interp_walk] in H. destruct H as [<-|H]; [exists x, g; reflexivity | exact (IH _ H)].
Qed.
Lemma np_interp_any xs xp fp l r : length fp = length xp -> xp <> [] ->
  np_interp xs xp fp l r = Ok (interp_walk l r xp fp 0 xs).
Proof. intros Hl Hne. unfold np_interp. rewrite Hl, Nat.eqb_refl. cbn [negb]. destruct xp; [congruence | reflexivity]. Qed.
Lemma np_interp_ok xs xp fp l r : length fp = length xp -> xp <> [] -> incr xp ->
  np_interp xs xp fp l r = Ok (map (interp1 l r (combine xp fp)) xs).
Proof. intros Hl Hne Hi. rewrite np_interp_any by assumption. rewrite interp_walk_sorted by assumption. reflexivity. Qed.
Lemma np_interp_inv xs xp fp l r d : np_interp xs xp fp l r = Ok d ->
  length fp = length xp /\ xp <> [] /\ d = interp_walk l r xp fp 0 xs.
Proof.
  unfold np_interp. destruct (Nat.eqb_spec (length xp) (length fp)) as [E|]; cbn [negb]; [|discriminate].
  destruct xp; [discriminate|]. intros H. inversion H. split; [lia|]. split; [discriminate | reflexivity].
Qed.
Lemma np_interp_range xs xp fp l r d lo hi : np_interp xs xp fp l r = Ok d ->
  (forall r', l = Some r' -> lo <= r' <= hi) -> (forall r', r = Some r' -> lo <= r' <= hi) -> (forall f, In f fp -> lo <= f <= hi) ->
  forall v, In v d -> lo <= v <= hi.
Proof.
  intros E H1 H2 H3 v Hv. apply np_interp_inv in E. destruct E as (Hl & Hne & ->).
  destruct (interp_walk_in _ _ _ _ _ _ _ Hv) as (x & g & ->). apply interp_value_between; assumption.
Qed.
Lemma interp_walk_nth left right xp fp : forall xs g k, (k < length xs)%nat ->
  exists g', nth k (interp_walk left right xp fp g xs) 0 = interp_value left right xp fp (nth k xs 0) (search (nth k xs 0) xp g').
Proof.
  induction xs as [|x xs IH]; intros g k Hk; [cbn in Hk; lia|]. cbn [interp_walk]. destruct k as [|k]; [exists g; reflexivity|].
  apply IH. cbn in Hk. lia.
Qed.
(** after all sample points *)
Lemma interp_value_beyond left r xp fp x g : xp <> [] -> (forall a, In a xp -> a < x) ->
  interp_value left (Some r) xp fp x (search x xp g) = r.
Proof.
  intros Hne H. assert (1 <= Z.of_nat (length xp))%Z by (destruct xp; [congruence | cbn [List.length]; lia]).
  assert (forall i, (0 <= i < Z.of_nat (length xp))%Z -> ati xp i < x) as Hin by (intros i Hi; apply H; unfold ati; apply nth_In; lia).
  unfold interp_value. destruct (search_spec x xp g Hne) as [[-> _]|[(_ & H1 & _)|[_ H1]]].
  - destruct (Z.eqb_spec (Z.of_nat (length xp)) (-1)); [lia|]. rewrite Z.eqb_refl. reflexivity.
  - specialize (Hin 0%Z ltac:(lia)). lra.
  - specialize (Hin (Z.of_nat (length xp) - 1)%Z ltac:(lia)). lra.
Qed.
