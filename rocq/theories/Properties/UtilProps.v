(** C64 processing information, C65 example caches. *)
From Verif Require Import Model.Trace Model.Util Spec.UtilSpec Proofs.PyFacts Proofs.UtilFacts.

(** C64: a call of a decorated function which returns, returns the stream of the
    function itself; each trace has got one new entry, the same for all traces, and
    is otherwise unchanged (obspy keeps at most 100 entries). The entry is
    determined by the effective values of the arguments. *)
Theorem C64_entry version function sig func args kwargs first out' :
  NoDup (map fst (sig_params sig)) -> NoDup (map fst kwargs) ->
  first_param sig first -> effective sig args kwargs first = Some PStream ->
  decorated version function sig func args kwargs = Ok out' ->
  exists out entry,
    func args kwargs = Ok out /\
    is_entry version function (reported first (effective sig args kwargs)) entry /\
    ((forall t, In t out -> processing t <> None) ->
     Forall2 (fun t t' => same_but_processing t t' /\
       exists l, processing t = Some l /\
         processing t' = Some (if Nat.ltb (List.length l) 100 then l ++ [entry] else l)) out out').
Proof.
  intros Ns Nk Hf Hs. unfold decorated. intros H.
  destruct (getcallargs sig args kwargs) as [[named extra]|e] eqn:G; cbn [bind] in H; [|discriminate].
  generalize (info_args_spec sig args kwargs first named extra Ns Nk Hf Hs G). intros I.
  destruct (info_args named extra) as [kw|e]; cbn [bind] in H; [|discriminate].
  destruct I as (Nkw & Hkw).
  destruct (func args kwargs) as [out|e]; cbn [bind] in H; [|discriminate].
  injection H as <-. exists out, (info_text version function kw). split; [reflexivity|].
  split; [now apply info_text_entry|]. apply add_all_spec.
Qed.

(** C64: apart from that the decorator cannot be noticed: a call which does not fit to
    the signature raises TypeError as it does without the decorator, any other
    call returns or raises what the function returns or raises. *)
Theorem C64_transparent version function sig func args kwargs first :
  NoDup (map fst (sig_params sig)) -> NoDup (map fst kwargs) ->
  first_param sig first -> effective sig args kwargs first = Some PStream ->
  boxes_ok (effective sig args kwargs "boxes") ->
  (~ fits sig args kwargs -> decorated version function sig func args kwargs = Err TypeError) /\
  (fits sig args kwargs ->
   match func args kwargs with
   | Err e => decorated version function sig func args kwargs = Err e
   | Ok out => exists out', decorated version function sig func args kwargs = Ok out' /\
                            List.length out' = List.length out
   end).
Proof.
  intros Ns Nk Hf Hs Hb. generalize (getcallargs_spec sig args kwargs Ns Nk).
  unfold decorated. destruct (getcallargs sig args kwargs) as [[named extra]|e] eqn:G; cbn [bind].
  - intros (F & _). split; [tauto|]. intros _.
    generalize (info_args_spec sig args kwargs first named extra Ns Nk Hf Hs G). intros I.
    destruct (info_args named extra) as [kw|e]; cbn [bind].
    + destruct (func args kwargs) as [out|e]; cbn [bind]; [|reflexivity].
      eexists. split; [reflexivity|]. generalize (info_text version function kw). intros info.
      clear. induction out as [|t ts IH]; [reflexivity|]. cbn [add_all].
      destruct (add_processing info t); [|reflexivity]. simpl. now rewrite IH.
    + exfalso. unfold boxes_ok in Hb.
      destruct (effective sig args kwargs "boxes") as [[|s|r| |[|b bs]]|]; try tauto.
      destruct s; tauto.
  - intros (-> & F). split; [reflexivity|tauto].
Qed.

(** C64: the entry does not depend on the order of keywords, nor on whether an
    argument is given by position, by keyword or by default. *)
Theorem C64_call_style version function sig func args kwargs args' kwargs' first :
  NoDup (map fst (sig_params sig)) -> NoDup (map fst kwargs) -> NoDup (map fst kwargs') ->
  first_param sig first -> effective sig args kwargs first = Some PStream ->
  fits sig args kwargs -> fits sig args' kwargs' ->
  (forall k, effective sig args kwargs k = effective sig args' kwargs' k) ->
  boxes_ok (effective sig args kwargs "boxes") ->
  func args kwargs = func args' kwargs' ->
  decorated version function sig func args kwargs = decorated version function sig func args' kwargs'.
Proof.
  intros Ns Nk Nk' Hf Hs F F' He Hb Hfunc.
  generalize (getcallargs_spec sig args kwargs Ns Nk) (getcallargs_spec sig args' kwargs' Ns Nk').
  unfold decorated.
  destruct (getcallargs sig args kwargs) as [[named extra]|e] eqn:G; [|tauto].
  destruct (getcallargs sig args' kwargs') as [[named' extra']|e'] eqn:G'; [|tauto].
  intros _ _. cbn [bind]. rewrite <- Hfunc.
  assert (Hs' : effective sig args' kwargs' first = Some PStream) by now rewrite <- He.
  generalize (info_args_spec sig args kwargs first named extra Ns Nk Hf Hs G).
  generalize (info_args_spec sig args' kwargs' first named' extra' Ns Nk' Hf Hs' G').
  rewrite <- (He "boxes").
  assert (Hno : forall e, match effective sig args kwargs "boxes" with
      | Some (PBoxes (b :: _)) =>
          e = KeyError /\ (dget b "latlon" = None \/ dget b "azimuth" = None \/ dget b "length" = None)
      | Some (PBoxes []) | None | Some PNone | Some (PStr "") => False
      | Some _ => e = TypeError
      end -> False).
  { intros e. unfold boxes_ok in Hb.
    destruct (effective sig args kwargs "boxes") as [[|s|r| |[|b bs]]|]; try tauto.
    destruct s; tauto. }
  destruct (info_args named' extra') as [kw'|e']; [|intros H; destruct (Hno _ H)].
  destruct (info_args named extra) as [kw|e]; [|intros _ H; destruct (Hno _ H)].
  intros (N' & K') (N & K). cbn [bind].
  replace (info_text version function kw') with (info_text version function kw); [reflexivity|].
  eapply is_entry_unique; [|apply info_text_entry; [exact N|exact K] | apply info_text_entry; [exact N'|exact K']].
  intros k. unfold reported. rewrite <- (He "boxes"), <- (He k). reflexivity.
Qed.

(** in particular for keywords in another order *)
Theorem C64_keyword_order version function sig func args kwargs kwargs' first :
  NoDup (map fst (sig_params sig)) -> NoDup (map fst kwargs) ->
  first_param sig first -> effective sig args kwargs first = Some PStream ->
  fits sig args kwargs ->
  boxes_ok (effective sig args kwargs "boxes") ->
  Permutation kwargs kwargs' ->
  func args kwargs = func args kwargs' ->
  decorated version function sig func args kwargs = decorated version function sig func args kwargs'.
Proof.
  intros Ns Nk Hf Hs F Hb P Hfunc.
  assert (Nk' : NoDup (map fst kwargs')) by (eapply Permutation_NoDup; [apply Permutation_map, P | exact Nk]).
  assert (Hg : forall k, dget kwargs k = dget kwargs' k).
  { intros k. destruct (dget kwargs k) as [v|] eqn:E.
    - symmetry. apply dget_in; [exact Nk'|]. eapply Permutation_in; [exact P|]. now apply dget_in.
    - symmetry. apply dget_none. apply dget_none in E. intros H. apply E.
      eapply Permutation_in; [symmetry; apply Permutation_map, P | exact H]. }
  assert (He : forall k, effective sig args kwargs k = effective sig args kwargs' k).
  { intros k. unfold effective. rewrite <- Hg. reflexivity. }
  eapply C64_call_style; try eassumption.
  destruct F as (F1 & F2 & F3 & F4). split; [exact F1|]. split; [|split].
  - intros i k H1 H2. rewrite <- Hg. eapply F2; eassumption.
  - intros Hv k v H. rewrite <- Hg in H. eapply F3; eassumption.
  - intros k H. rewrite <- He. now apply F4.
Qed.

Print Assumptions C64_entry.
Print Assumptions C64_transparent.
Print Assumptions C64_call_style.
Print Assumptions C64_keyword_order.

(** The decorated functions of the package meet the hypotheses. *)
Ltac nodup := repeat (constructor; [simpl; intuition discriminate|]); constructor.
Example C64_signatures :
  Forall (fun s => NoDup (map fst (sig_params (fst s))) /\ first_param (fst s) (snd s))
    [(sig_deconvolve, "stream"); (sig_harmonics, "stream"); (sig_profile, "stream");
     (sig_rf, "self"); (sig_moveout, "self"); (sig_stack, "self")].
Proof.
  repeat (constructor; [split; [simpl; nodup | split; [simpl; tauto | simpl; intuition discriminate]]|]).
  constructor.
Qed.

(** stream.rf('P', winsrc=(-5, 25, 5), filter=None) *)
Definition t64 : trace := mkTrace (mkStats "CX" "PB01" "" "BHZ" 0 10 [("processing", VStrs ["x"])]) [1%Q].
Definition f64 (args : list pval) (kwargs : dict pval) : res (list trace) := Ok [t64; t64].
Example C64_nonvacuous :
  let kw := [("winsrc", PRepr "(-5, 25, 5)"); ("filter", PNone)] in
  fits sig_rf [PStream; PStr "P"] kw /\
  effective sig_rf [PStream; PStr "P"] kw "self" = Some PStream /\
  decorated "1.0" "rf" sig_rf f64 [PStream; PStr "P"] kw =
  decorated "1.0" "rf" sig_rf f64 [PStream] (rev (("method", PStr "P") :: kw)) /\
  exists out, decorated "1.0" "rf" sig_rf f64 [PStream; PStr "P"] kw = Ok out /\
    map processing out =
    let e := "rf 1.0: rf(deconvolve='time'::downsample=None::filter=None::method='P'::rotate='ZNE->LQT'::source_components=None::trim=None::winsrc=(-5, 25, 5))" in
    [Some ["x"; e]; Some ["x"; e]].
Proof.
  cbv zeta. split; [|split; [reflexivity|split; [reflexivity|]]].
  - split; [simpl; lia|]. split; [|split].
    + intros i k. simpl. destruct i as [|[|i]]; intros H L; [injection H as <-; reflexivity..|lia].
    + discriminate.
    + intros k. simpl. intros H; repeat (destruct H as [<-|H]; [discriminate|]); destruct H.
  - eexists. split; [vm_compute; reflexivity|]. reflexivity.
Qed.
(** profile(stream, boxes): the boxes are described by their profile *)
Example C64_profile_nonvacuous :
  exists out, decorated "1.0" "profile" sig_profile f64
     [PStream; PBoxes [[("latlon", "(-21.0, -69.6)"); ("azimuth", "90"); ("length", "(0, 10)")]]] [] = Ok out /\
    map processing out =
    let e := "rf 1.0: profile(azimuth=90::crs=None::latlon=(-21.0, -69.6)::length=(0, 10))" in
    [Some ["x"; e]; Some ["x"; e]].
Proof. eexists. split; [vm_compute; reflexivity|]. reflexivity. Qed.

(** C65: whatever happened before, a call of minimal_example_rf() returns a new
    object with the computed content and leaves all others alone; it can only
    fail if the computation itself fails. *)
Theorem C65_rf {stream} (compute : string -> res stream) (history : list action) :
  let w := run compute history in
  match minimal_example_rf compute w with
  | Ok (w', b) =>
      (exists s, compute "minimal_example_rf" = Ok s /\ nth_error (heap w') b = Some s) /\
      (forall a, nth_error (heap w) a <> None -> a <> b /\ nth_error (heap w') a = nth_error (heap w) a)
  | Err e => compute "minimal_example_rf" = Err e
  end.
Proof.
  cbv zeta. generalize (call_good compute "minimal_example_rf" _ (run_good compute history)).
  unfold minimal_example_rf. set (w := run compute history).
  destruct (example_call compute "minimal_example_rf" w) as [[w' b]|e]; [|tauto].
  intros (_ & H & L & _ & Ho). split; [exact H|].
  intros a Ha. apply nth_error_Some in Ha. split; [lia|]. now apply Ho.
Qed.
Theorem C65_Srf {stream} (compute : string -> res stream) (history : list action) :
  let w := run compute history in
  match minimal_example_Srf compute w with
  | Ok (w', b) =>
      (exists s, compute "minimal_example_Srf" = Ok s /\ nth_error (heap w') b = Some s) /\
      (forall a, nth_error (heap w) a <> None -> a <> b /\ nth_error (heap w') a = nth_error (heap w) a)
  | Err e => compute "minimal_example_Srf" = Err e
  end.
Proof.
  cbv zeta. generalize (call_good compute "minimal_example_Srf" _ (run_good compute history)).
  unfold minimal_example_Srf. set (w := run compute history).
  destruct (example_call compute "minimal_example_Srf" w) as [[w' b]|e]; [|tauto].
  intros (_ & H & L & _ & Ho). split; [exact H|].
  intros a Ha. apply nth_error_Some in Ha. split; [lia|]. now apply Ho.
Qed.
Print Assumptions C65_rf.
Print Assumptions C65_Srf.

Example C65_nonvacuous :
  let compute k := if String.eqb k "minimal_example_rf" then Ok [1; 2] else Ok [3] in
  let w := run compute [ACallRf; AModify 0 [7; 7; 7]; ACallSrf; AModify 1 []; ACallRf] in
  exists w' b, minimal_example_rf compute w = Ok (w', b) /\ nth_error (heap w') b = Some [1; 2] /\
    map (nth_error (heap w)) (handed w) = [Some [7; 7; 7]; Some []; Some [1; 2]].
Proof. do 2 eexists. repeat split; vm_compute; reflexivity. Qed.
