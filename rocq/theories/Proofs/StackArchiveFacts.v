(** The command stack on an archive. *)
From Verif Require Import Model.Figures Spec.BatchSpec Spec.FigureSpec Spec.MeanSpec Spec.TraceSpec Spec.StackSpec Spec.OnceSpec Proofs.PyFacts Proofs.StackFacts Proofs.BatchFacts Proofs.BatchRead Proofs.OnceFacts Proofs.FigureFacts Proofs.StackCmdFacts.
Notation length := List.length.

Lemma perm_filter {A} (f : A -> bool) l m : Permutation l m -> Permutation (filter f l) (filter f m).
Proof.
  intros H. induction H as [|x l m H IH|x y l|l m n _ IH1 _ IH2]; cbn [filter]; [constructor | destruct (f x); [constructor|]; exact IH | | eapply perm_trans; eassumption].
  destruct (f x), (f y); try apply Permutation_refl. apply perm_swap.
Qed.
Lemma perm_sum l m : Permutation l m -> (fold_right Qplus 0 l == fold_right Qplus 0 m)%Q.
Proof.
  intros H. induction H as [|x l m _ IH|x y l|l m n _ IH1 _ IH2]; cbn [fold_right]; [reflexivity | rewrite IH; reflexivity | ring | rewrite IH1; exact IH2].
Qed.
Lemma perm_mean l m r : Permutation l m -> is_mean l r -> is_mean m r.
Proof.
  intros P [H1 H2]. split; [rewrite Forall_forall in *; intros x Hx; apply H1; eapply Permutation_in; [apply Permutation_sym, P | exact Hx]|].
  intros k Hk. rewrite <- (Permutation_length P), (H2 k Hk). apply perm_sum, Permutation_map, P.
Qed.
Lemma perm_stack_of p c l m r : Permutation l m -> stack_of p c l r -> stack_of p c m r.
Proof.
  intros P (H1 & H2 & H3 & H4 & H5). repeat (split; [assumption|]). eapply perm_mean; [|exact H5]. apply Permutation_map. unfold of_channel. apply perm_filter, P.
Qed.
Lemma perm_stackable l m : Permutation l m -> stackable l -> stackable m.
Proof.
  intros P (H1 & H2 & H3). pose proof (Permutation_sym P) as P'. split; [|split].
  - intros ->. apply H1. apply Permutation_nil. exact P'.
  - rewrite Forall_forall in *. intros x Hx. apply H2. eapply Permutation_in; eassumption.
  - intros t u Ht Hu. apply H3; eapply Permutation_in; eassumption.
Qed.
Lemma perm_station p l m : Permutation l m -> station_stream p l -> station_stream p m.
Proof.
  intros P (H1 & H2 & H3 & H4). repeat (split; [assumption|]). rewrite Forall_forall in *. intros x Hx. apply H4. eapply Permutation_in; [apply Permutation_sym, P | exact Hx].
Qed.
Lemma of_station_in p streams t : In t (of_station p streams) <-> exists q s, In (q, s) streams /\ same_station p q /\ In t s.
Proof.
  unfold of_station. rewrite in_flat_map. split.
  - intros ([q s] & H & Ht). apply filter_In in H. cbn [fst snd] in *. destruct H as [H E]. rewrite !Bool.andb_true_iff, !String.eqb_eq in E. exists q, s. split; [exact H|]. split; [|exact Ht]. unfold same_station. tauto.
  - intros (q & s & H & (E1 & E2 & E3) & Ht). exists (q, s). split; [|exact Ht]. apply filter_In. split; [exact H|]. cbn [fst snd]. rewrite !Bool.andb_true_iff, !String.eqb_eq. auto.
Qed.
Lemma of_station_same p q streams : same_station p q -> of_station p streams = of_station q streams.
Proof. intros (E1 & E2 & E3). unfold of_station. rewrite E1, E2, E3. reflexivity. Qed.
Lemma channel_map rd c l : (forall t, same_codes t (rd t)) -> of_channel c (map rd l) = map rd (of_channel c l).
Proof.
  intros H. unfold of_channel. induction l as [|t l IH]; [reflexivity|]. cbn [map filter]. destruct (H t) as (_ & _ & _ & ->). rewrite IH. destruct (_ =? _)%string; reflexivity.
Qed.
