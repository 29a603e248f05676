(** Facts about the command line. *)
From Verif Require Import Model.Cli Spec.CliSpec Proofs.PyFacts Proofs.ConfigFacts.

Lemma classify_plain flags t : plain t -> classify flags t = Pos.
Proof. unfold plain, classify. intros ->. reflexivity. Qed.
Lemma classify_flag flag key : option_name flag key -> classify main_flags flag = Opt key None /\ inb key ["help"; "version"] = false.
Proof.
  intros H. cbn in H. repeat (destruct H as [H|H]; [injection H as <- <-; split; vm_compute; reflexivity|]). destruct H.
Qed.
Lemma classify_joined flag key v : option_name flag key -> classify main_flags (flag ++ "=" ++ v)%string = Opt key (Some v).
Proof.
  intros H. cbn in H. repeat (destruct H as [H|H]; [injection H as <- <-; reflexivity|]). destruct H.
Qed.
Definition set_opts (d : list (string * string)) (ns : dict json) : dict json := fold_left (fun n kv => dset n (fst kv) (JStr (snd kv))) d ns.
Lemma parse_options l d : options l d -> forall ns rest, parse_args ns (l ++ rest) = parse_args (set_opts d ns) rest.
Proof.
  induction 1 as [|flag key v l d Hf Hv _ IH|flag key v l d Hf _ IH]; intros ns rest; [reflexivity|..].
  - destruct (classify_flag _ _ Hf) as [E1 E2]. cbn [app parse_args]. rewrite E1, E2, (classify_plain _ _ Hv). apply IH.
  - destruct (classify_flag _ _ Hf) as [_ E2]. cbn [app parse_args]. rewrite (classify_joined _ _ v Hf), E2. apply IH.
Qed.
Lemma set_opts_get d : forall ns k, dget (set_opts d ns) k = match last_given d k with Some v => Some (JStr v) | None => dget ns k end.
Proof.
  induction d as [|[k' v] d IH]; intros ns k; [reflexivity|]. cbn [set_opts fold_left last_given fst snd]. unfold set_opts in IH. rewrite IH.
  destruct (last_given d k); [reflexivity|]. rewrite dget_dset. rewrite (String.eqb_sym k' k). destruct (k =? k')%string; reflexivity.
Qed.
Lemma set_opts_NoDup d : forall ns, NoDup (map fst ns) -> NoDup (map fst (set_opts d ns)).
Proof. induction d as [|[k v] d IH]; intros ns H; [exact H|]. apply IH, dset_NoDup, H. Qed.
Lemma dupdate_NoDup {A} (u : dict A) : forall d, NoDup (map fst d) -> NoDup (map fst (dupdate d u)).
Proof. induction u as [|[k v] u IH]; intros d H; [exact H|]. apply IH, dset_NoDup, H. Qed.
Lemma parse_sub_plain c pos : Forall plain pos -> parse_sub c pos = Some (false, pos).
Proof. induction 1 as [|t pos Ht _ IH]; [reflexivity|]. cbn [parse_sub]. rewrite (classify_plain _ _ Ht), IH. reflexivity. Qed.

(** argparse gives the text moveout if there are no commands *)
Definition raw_commands (l : list string) : json := match l with [] => JStr "moveout" | _ => JList (map JStr l) end.
Definition fixed (k : string) (v : option json) : option json :=
  match v with Some (JStr s) => if String.eqb k "commands" && String.eqb s "moveout" then Some (JList []) else v | v => v end.
Lemma commands_ok choices l : (forall c, In c l -> In c choices) <-> commands_value choices l = Some (raw_commands l).
Proof.
  destruct l as [|c l]; [split; [reflexivity | intros _ c []]|]. unfold commands_value.
  destruct (forallb _ (c :: l)) eqn:E.
  - split; [reflexivity|]. intros _ x Hx. rewrite forallb_forall in E. apply inb_spec, E, Hx.
  - split; [|discriminate]. intros H. exfalso. assert (forallb (fun c => inb c choices) (c :: l) = true) as F by (apply forallb_forall; intros x Hx; apply inb_spec, H, Hx). congruence.
Qed.
Lemma commands_none choices l v : commands_value choices l = Some v -> v = raw_commands l.
Proof. destruct l; unfold commands_value, raw_commands; [congruence|]. destruct (forallb _ _); [|discriminate]. intros H; injection H as <-. reflexivity. Qed.
(** arguments, and what they are after the second part of the work-around *)
Lemma arguments_ok c pos a : positional c pos a ->
  In c subcommands /\ c <> "create" /\ exists a', arguments c pos = Some a' /\ NoDup (map fst a') /\
    forall k, dget a k = fixed k (dget a' k).
Proof.
  assert (forall l k, fixed k (if (k =? "commands")%string then Some (raw_commands l) else None) = if (k =? "commands")%string then Some (JList (map JStr l)) else None) as R.
  { intros l k. unfold fixed. destruct (k =? "commands")%string; [|reflexivity]. destruct l; reflexivity. }
  assert (forall v k, k <> "commands" -> fixed k v = v) as Q.
  { intros v k Hk. apply String.eqb_neq in Hk. unfold fixed. rewrite Hk. destruct v as [[]|]; reflexivity. }
  intros [cmds out H|cmds inp out H|c0 inp out H|inp out fmt|objs H].
  - split; [cbn; tauto|]. split; [discriminate|]. unfold arguments. cbn [String.eqb Ascii.eqb Bool.eqb]. rewrite rev_unit, rev_involutive.
    assert (forall x, In x cmds -> In x ["calc"; "moveout"]) as H' by (intros x Hx; cbn; destruct (H x Hx); auto).
    rewrite (proj1 (commands_ok _ _) H'). eexists. split; [reflexivity|]. split; [repeat constructor; cbn; intuition discriminate|].
    intros k. unfold dget. cbn [aget]. specialize (R cmds k). destruct (k =? "commands")%string eqn:N; [exact (eq_sym R)|]. apply String.eqb_neq in N.
    destruct (k =? "path_out")%string; [symmetry; apply Q, N|reflexivity].
  - split; [cbn; tauto|]. split; [discriminate|]. unfold arguments. cbn [String.eqb Ascii.eqb Bool.eqb]. rewrite rev_app_distr. cbn [rev app]. rewrite rev_involutive.
    assert (forall x, In x cmds -> In x ["moveout"]) as H' by (intros x Hx; cbn; rewrite (H x Hx); auto).
    rewrite (proj1 (commands_ok _ _) H'). eexists. split; [reflexivity|]. split; [repeat constructor; cbn; intuition discriminate|].
    intros k. unfold dget. cbn [aget]. specialize (R cmds k). destruct (k =? "commands")%string eqn:N; [exact (eq_sym R)|]. apply String.eqb_neq in N.
    destruct (k =? "path_in")%string; [symmetry; apply Q, N|].
    destruct (k =? "path_out")%string; [symmetry; apply Q, N|reflexivity].
  - assert (arguments c0 [inp; out] = Some [("path_in", JStr inp); ("path_out", JStr out)] /\ In c0 subcommands /\ c0 <> "create") as (E & Hs & Hc).
    { cbn in H. repeat (destruct H as [<-|H]; [repeat split; [cbn; tauto | discriminate]|]). destruct H. }
    split; [exact Hs|]. split; [exact Hc|]. rewrite E. eexists. split; [reflexivity|]. split; [repeat constructor; cbn; intuition discriminate|].
    intros k. unfold dget. cbn [aget]. destruct (String.eqb_spec k "path_in") as [->|]; [symmetry; apply (Q _ "path_in"); discriminate|].
    destruct (String.eqb_spec k "path_out") as [->|]; [symmetry; apply (Q _ "path_out"); discriminate|reflexivity].
  - split; [cbn; tauto|]. split; [discriminate|]. eexists. split; [reflexivity|]. split; [repeat constructor; cbn; intuition discriminate|].
    intros k. unfold dget. cbn [aget]. destruct (String.eqb_spec k "path_in") as [->|]; [symmetry; apply (Q _ "path_in"); discriminate|].
    destruct (String.eqb_spec k "path_out") as [->|]; [symmetry; apply (Q _ "path_out"); discriminate|].
    destruct (String.eqb_spec k "newformat") as [->|]; [symmetry; apply (Q _ "newformat"); discriminate|reflexivity].
  - split; [cbn; tauto|]. split; [discriminate|]. exists [("objects", JList (map JStr objs))]. split; [destruct objs; [congruence|reflexivity]|].
    split; [repeat constructor; cbn; tauto|]. intros k. unfold dget. cbn [aget]. destruct (k =? "objects")%string; reflexivity.
Qed.
Lemma arguments_inv c pos a' : In c subcommands -> c <> "create" -> arguments c pos = Some a' ->
  exists a, positional c pos a /\ forall k, dget a k = fixed k (dget a' k).
Proof.
  assert (forall c p a, positional c p a -> forall x, arguments c p = Some x -> exists a, positional c p a /\ forall k, dget a k = fixed k (dget x k)) as G.
  { intros c0 p a H x E. destruct (arguments_ok _ _ _ H) as (_ & _ & y & Ey & _ & F). exists a. split; [exact H|]. replace x with y by congruence. exact F. }
  intros Hs Hc E. cbn in Hs. destruct Hs as [<-|Hs]; [congruence|].
  destruct Hs as [<-|Hs].
  { assert (E0 := E). unfold arguments in E0. cbn [String.eqb Ascii.eqb Bool.eqb] in E0. destruct (rev pos) as [|out r] eqn:Er; [discriminate|].
    destruct (commands_value _ (rev r)) as [v|] eqn:Ev; [|discriminate].
    assert (pos = rev r ++ [out]) as -> by (rewrite <- (rev_involutive pos), Er; reflexivity).
    refine (G _ _ _ (data_args (rev r) out _) _ E). intros x Hx. rewrite (commands_none _ _ _ Ev) in Ev. apply (proj2 (commands_ok _ _) Ev) in Hx. cbn in Hx. intuition. }
  destruct Hs as [<-|Hs].
  { assert (E0 := E). unfold arguments in E0. cbn [String.eqb Ascii.eqb Bool.eqb] in E0. destruct (rev pos) as [|out [|inp r]] eqn:Er; [discriminate..|].
    destruct (commands_value _ (rev r)) as [v|] eqn:Ev; [|discriminate].
    assert (pos = rev r ++ [inp; out]) as -> by (rewrite <- (rev_involutive pos), Er; cbn [rev]; rewrite <- app_assoc; reflexivity).
    refine (G _ _ _ (calc_args (rev r) inp out _) _ E). intros x Hx. rewrite (commands_none _ _ _ Ev) in Ev. apply (proj2 (commands_ok _ _) Ev) in Hx. cbn in Hx. intuition. }
  assert (In c ["moveout"; "stack"; "profile"; "plot"; "plot-profile"] -> exists a, positional c pos a /\ forall k, dget a k = fixed k (dget a' k)) as P.
  { intros Hi. assert (exists inp out, pos = [inp; out]) as (inp & out & ->).
    { cbn in Hi. repeat (destruct Hi as [<-|Hi]; [destruct pos as [|x [|y [|]]]; try discriminate E; eauto|]). destruct Hi. }
    exact (G _ _ _ (path_args c inp out Hi) _ E). }
  destruct Hs as [<-|Hs]; [apply P; cbn; tauto|]. destruct Hs as [<-|Hs]; [apply P; cbn; tauto|]. destruct Hs as [<-|Hs]; [apply P; cbn; tauto|].
  destruct Hs as [<-|Hs]. { destruct pos as [|x [|y [|z [|]]]]; try discriminate E. exact (G _ _ _ (convert_args x y z) _ E). }
  destruct Hs as [<-|Hs]. { destruct pos as [|x p]; [discriminate E|]. refine (G _ _ _ (print_args (x :: p) _) _ E). discriminate. }
  destruct Hs as [<-|Hs]; [apply P; cbn; tauto|]. destruct Hs as [<-|[]]; apply P; cbn; tauto.
Qed.

Lemma parse_sub_other c l b pos : c <> "create" -> parse_sub c l = Some (b, pos) -> b = false /\ pos = l.
Proof.
  intros Hc. revert b pos. induction l as [|t l IH]; intros b pos H; cbn [parse_sub] in H; [injection H as <- <-; auto|].
  destruct (classify _ t) as [|d v|] eqn:E; [|exfalso|discriminate].
  - destruct (parse_sub c l) as [[b' pos']|]; [|discriminate]. injection H as <- <-. destruct (IH _ _ eq_refl) as [-> ->]. auto.
  - destruct v; [discriminate|]. destruct (String.eqb_spec d "tutorial") as [->|]; [|discriminate].
    unfold sub_flags in E. rewrite (proj2 (String.eqb_neq c "create") Hc) in E. unfold classify in E. cbn [app] in E.
    destruct (negb _); [discriminate|]. cbn [dget aget] in E. unfold dget in E. cbn [aget] in E.
    destruct (t =? "-h")%string; [discriminate|]. destruct (t =? "--help")%string; [discriminate|]. destruct (_ =? 1)%nat; [discriminate|].
    destruct (split_eq t) as [n v]. destruct v as [v|].
    + destruct (n =? "-h")%string; [discriminate|]. destruct (n =? "--help")%string; [discriminate|].
      destruct (candidates _ t) as [|[d w] [|]] eqn:C; [destruct (number _); [discriminate|]; destruct (char_in _ _); discriminate| |discriminate].
      injection E as -> ->. unfold candidates in C. destruct (String.prefix "--" t).
      * destruct (split_eq t) as [m u]. cbn [filter fst] in C. destruct (String.prefix m "-h"), (String.prefix m "--help"); discriminate C.
      * cbn [filter fst] in C. destruct (_ || _); cbn [map snd fst] in C; [destruct (_ || _) in C; cbn [map snd fst] in C; discriminate C|]. destruct (_ || _) in C; discriminate C.
    + destruct (candidates _ t) as [|[d w] [|]] eqn:C; [destruct (number _); [discriminate|]; destruct (char_in _ _); discriminate| |discriminate].
      injection E as -> ->. unfold candidates in C. destruct (String.prefix "--" t).
      * destruct (split_eq t) as [m u]. cbn [filter fst] in C. destruct (String.prefix m "-h"), (String.prefix m "--help"); discriminate C.
      * cbn [filter fst] in C. destruct (_ || _); cbn [map snd fst] in C; [destruct (_ || _) in C; cbn [map snd fst] in C; discriminate C|]. destruct (_ || _) in C; discriminate C.
Qed.

(** what run gets, for a command line with options, command and arguments *)
Lemma dget_ddel' {A} (d : dict A) k k2 : NoDup (map fst d) -> dget (ddel d k) k2 = if String.eqb k k2 then None else dget d k2.
Proof.
  intros H. destruct (String.eqb_spec k k2) as [->|N]; [apply dget_ddel_eq, H | apply dget_ddel_ne, N].
Qed.
Lemma ddel_NoDup {A} (d : dict A) k : NoDup (map fst d) -> NoDup (map fst (ddel d k)).
Proof.
  unfold ddel. induction d as [|[k' v] d IH]; intros H; [constructor|]. cbn [adel]. inversion H as [|? ? H1 H2]; subst. destruct (k =? k')%string; [exact H2|].
  cbn [map fst]. constructor; [|apply IH, H2]. intros C. apply H1. clear - C. induction d as [|[k2 v2] d IH]; [destruct C|]. cbn [adel] in C. destruct (k =? k2)%string; [right; exact C|].
  destruct C as [C|C]; [left; exact C | right; apply IH, C].
Qed.
Definition option_keys : list string :=
  ["conf"; "events"; "inventory"; "data"; "phase"; "moveout_phase"; "format"; "client_options"; "options"; "rf"; "moveout"; "boxbins"; "boxes"; "profile"; "plot"; "plot_profile"].
Lemma options_keys l d : options l d -> forall k, ~ In k option_keys -> last_given d k = None.
Proof.
  assert (forall f k, option_name f k -> In k option_keys) as K.
  { intros f k H. cbn in H. repeat (destruct H as [H|H]; [injection H as <- <-; cbn; tauto|]). destruct H. }
  induction 1 as [|f key v l d Hf Hv _ IH|f key v l d Hf _ IH]; intros k Hk; cbn [last_given]; [reflexivity|..]; rewrite (IH k Hk);
    (destruct (String.eqb_spec k key) as [->|]; [exfalso; apply Hk, (K _ _ Hf) | reflexivity]).
Qed.
Lemma arg_keys c pos a : positional c pos a -> forall k v, dget a k = Some v -> In k ["commands"; "path_in"; "path_out"; "newformat"; "objects"].
Proof.
  intros H k v E. destruct H; unfold dget in E; cbn [aget] in E;
    repeat match type of E with context [(k =? ?x)%string] => destruct (String.eqb_spec k x) as [->|]; [cbn; tauto|] end; discriminate.
Qed.
Lemma run_cli_args loads file l d c pos a : options l d -> positional c pos a -> Forall plain pos ->
  exists kw, run_cli loads file (l ++ c :: pos) = Run (Some c) (run_config loads file c (Some (conf_name d)) kw) /\
    NoDup (map fst kw) /\ forall k, dget kw k = value_of a d [] k.
Proof.
  intros Ho Hp Hpl. destruct (arguments_ok _ _ _ Hp) as (Hs & Hc & a' & Ea & Hd & Hf). unfold run_cli. rewrite (parse_options _ _ Ho).
  assert (plain c) as Pc by (unfold plain; cbn in Hs; repeat (destruct Hs as [<-|Hs]; [reflexivity|]); destruct Hs).
  cbn [parse_args]. rewrite (classify_plain _ _ Pc). rewrite (proj2 (inb_spec c subcommands) Hs), (parse_sub_plain _ _ Hpl), Ea.
  set (ns := set_opts d [("conf", JStr "conf.json")]).
  assert (NoDup (map fst ns)) as Nn by (apply set_opts_NoDup; repeat constructor; cbn; tauto).
  set (args := dupdate ns a'). assert (NoDup (map fst args)) as Na by (apply dupdate_NoDup, Nn).
  assert (forall k, dget args k = match dget a' k with Some v => Some v | None => dget ns k end) as Ga by (intros k; apply dupdate_get, Hd).
  set (args' := match dget args "commands" with Some (JStr s) => if (s =? "moveout")%string then dset args "commands" (JList []) else args | _ => args end).
  assert (NoDup (map fst args')) as Na'.
  { unfold args'. destruct (dget args "commands") as [[]|]; try exact Na. destruct (_ =? _)%string; [apply dset_NoDup|]; exact Na. }
  assert (forall k, ~ In k option_keys -> dget ns k = None) as Gn0.
  { intros k Hk. unfold ns. rewrite set_opts_get, (options_keys _ _ Ho k Hk). unfold dget. cbn [aget]. destruct (String.eqb_spec k "conf") as [->|]; [exfalso; apply Hk; cbn; tauto | reflexivity]. }
  assert (forall k, dget args' k = match dget a k with Some v => Some v | None => dget ns k end) as Ga'.
  { intros k. assert (dget args' k = fixed k (dget args k)) as ->.
    { unfold args', fixed. destruct (String.eqb_spec k "commands") as [->|N].
      - destruct (dget args "commands") as [[]|] eqn:E; try exact E. cbn [andb]. destruct (_ =? _)%string; [apply dget_dset_eq | exact E].
      - cbn [andb]. assert (forall v : option json, match v with Some (JStr _) => v | _ => v end = v) as F by (intros [[]|]; reflexivity).
        destruct (dget args "commands") as [[]|]; try (symmetry; apply F). destruct (_ =? _)%string; [rewrite dget_dset_ne by congruence|]; symmetry; apply F. }
    rewrite Ga, Hf. destruct (dget a' k) as [v|] eqn:E.
    - unfold fixed. destruct v; try reflexivity. destruct (_ && _); reflexivity.
    - cbn [fixed]. unfold fixed. destruct (dget ns k) as [[]|] eqn:En; try reflexivity. destruct (String.eqb_spec k "commands") as [->|]; [|reflexivity].
      rewrite Gn0 in En by (cbn; intuition discriminate). discriminate. }
  assert (dget a "conf" = None) as Ac by (destruct (dget a "conf") as [v|] eqn:E; [|reflexivity]; apply (arg_keys _ _ _ Hp) in E; cbn in E; intuition discriminate).
  exists (ddel args' "conf"). split; [|split].
  - assert (dget args' "conf" = Some (JStr (conf_name d))) as ->.
    { rewrite Ga', Ac. unfold ns. rewrite set_opts_get. unfold conf_name. destruct (last_given d "conf"); reflexivity. }
    rewrite (proj2 (String.eqb_neq c "create") Hc). reflexivity.
  - apply ddel_NoDup, Na'.
  - intros k. rewrite dget_ddel' by exact Na'. unfold value_of. rewrite (String.eqb_sym k "conf"). destruct (String.eqb_spec "conf" k) as [<-|N]; [rewrite Ac; reflexivity|].
    rewrite Ga'. destruct (dget a k); [reflexivity|]. unfold ns. rewrite set_opts_get. destruct (last_given d k); [reflexivity|]. unfold dget. cbn [aget].
    rewrite (proj2 (String.eqb_neq k "conf")) by congruence. reflexivity.
Qed.

(** the other direction *)
Lemma dget_values {A} (m : dict A) n d : dget m n = Some d -> In d (map snd m).
Proof.
  unfold dget. induction m as [|[x y] m IH]; [discriminate|]. cbn [aget map snd]. destruct (n =? x)%string; intros E; [injection E as <-; left; reflexivity | right; apply IH, E].
Qed.
Lemma parse_args_inv l : forall ns c b args, (forall k, In k ["commands"; "path_in"; "path_out"; "newformat"; "objects"] -> dget ns k = None) ->
  parse_args ns l = Some (Some c, b, args) ->
  exists l1 toks pos a ns', l = l1 ++ c :: toks /\ In c subcommands /\ parse_sub c toks = Some (b, pos) /\ arguments c pos = Some a /\ args = dupdate ns' a /\
    (forall k, In k ["commands"; "path_in"; "path_out"; "newformat"; "objects"] -> dget ns' k = None).
Proof.
  assert (forall t key v, classify main_flags t = Opt key v -> ~ In key ["commands"; "path_in"; "path_out"; "newformat"; "objects"]) as K.
  { intros t key v H C.
    assert (In key (map snd main_flags)) as I.
    { unfold classify in H. destruct (negb _); [discriminate|].
      assert (forall n d, dget main_flags n = Some d -> In d (map snd main_flags)) as G.
      { intros n d. apply dget_values. }
      destruct (dget main_flags t) as [d|] eqn:E1; [injection H as <- _; apply (G _ _ E1)|]. destruct (_ =? 1)%nat; [discriminate|].
      assert (forall d w r, candidates main_flags t = (d, w) :: r -> In d (map snd main_flags)) as G2.
      { intros d w r E. assert (In (d, w) (candidates main_flags t)) as I by (rewrite E; left; reflexivity). unfold candidates in I.
        destruct (String.prefix "--" t); [destruct (split_eq t)|]; apply in_map_iff in I; destruct I as (f & Ef & I); apply filter_In in I; destruct I as [I _]; injection Ef as <- _; apply in_map, I. }
      destruct (split_eq t) as [n u]. destruct u as [u|]; [destruct (dget main_flags n) as [d|] eqn:E2; [injection H as <- _; apply (G _ _ E2)|]|];
        (destruct (candidates main_flags t) as [|[d w] [|]] eqn:Ec; [destruct (number _); [discriminate|]; destruct (char_in _ _); discriminate | injection H as <- _; apply (G2 _ _ _ eq_refl) | discriminate]). }
    vm_compute in I, C. intuition congruence. }
  assert (forall n l, (List.length l <= n)%nat -> forall ns c b args, (forall k, In k ["commands"; "path_in"; "path_out"; "newformat"; "objects"] -> dget ns k = None) ->
    parse_args ns l = Some (Some c, b, args) ->
    exists l1 toks pos a ns', l = l1 ++ c :: toks /\ In c subcommands /\ parse_sub c toks = Some (b, pos) /\ arguments c pos = Some a /\ args = dupdate ns' a /\
      (forall k, In k ["commands"; "path_in"; "path_out"; "newformat"; "objects"] -> dget ns' k = None)) as G; [|intros; eapply G; eauto].
  induction n as [|n IH]; intros [|t l0] Hl ns c b args Hn H; try discriminate H; cbn [List.length] in Hl; [lia|].
  cbn [parse_args] in H. destruct (classify main_flags t) as [|key v|] eqn:E; [| |discriminate].
  - destruct (inb t subcommands) eqn:Et; [|discriminate]. destruct (parse_sub t l0) as [[b' pos]|] eqn:Ep; [|discriminate]. destruct (arguments t pos) as [a|] eqn:Ea; [|discriminate].
    injection H as <- <- <-. exists [], l0, pos, a, ns. repeat split; auto. apply inb_spec, Et.
  - assert (forall w k, In k ["commands"; "path_in"; "path_out"; "newformat"; "objects"] -> dget (dset ns key (JStr w)) k = None) as Hn'.
    { intros w k Hk. rewrite dget_dset_ne; [apply Hn, Hk|]. intros ->. exact (K _ _ _ E Hk). }
    destruct (inb key _); [discriminate|]. destruct v as [v|].
    + destruct (IH l0 ltac:(lia) _ _ _ _ (Hn' v) H) as (l1 & toks & pos & a & ns' & -> & R). exists (t :: l1), toks, pos, a, ns'. split; [reflexivity | exact R].
    + destruct l0 as [|w l0]; [discriminate|]. destruct (classify main_flags w); try discriminate. cbn [List.length] in Hl.
      destruct (IH l0 ltac:(lia) _ _ _ _ (Hn' w) H) as (l1 & toks & pos & a & ns' & -> & R). exists (t :: w :: l1), toks, pos, a, ns'. split; [reflexivity | exact R].
Qed.
