(** C11 - C16: headers in files, RFStream.write, type and method. *)
From Verif Require Import Model.Write Spec.HeaderSpec Spec.WriteSpec Proofs.WriteFacts Proofs.FieldFacts.

(** C11: a stream of distinct traces written as SAC and read again has the same
    codes and exactly the same documented entries. *)
Theorem C11_sac_roundtrip str_of compat w ids h ix :
  NoDup ids -> (forall ix trs, w ix trs = None) ->
  (forall i, In i ids -> exists s, obj h i s /\ no_sac_entries s /\ well_typed s /\ no_null str_of s) ->
  exists h' files trs, write "SAC" compat w ids h ix = (h', ix, Ok files) /\ read_rf str_of files = Ok trs /\
    Forall2 (fun i t => forall s, obj h i s -> restored s t) ids trs.
Proof. exact (sac_stream_roundtrip str_of compat w ids h ix). Qed.
Print Assumptions C11_sac_roundtrip.

Definition ex_trace : hst :=
  mkH "CX" "PB01" "" "BHZ" 1000000000
    [("station_latitude", VNum (-21 # 1)); ("event_time", VTime 500000001); ("onset", VTime 25000000000);
     ("phase", VStr "P"); ("slowness", VNum (64 # 10)); ("box_pos", VNum 3); ("processing", VStr "x")]
    (Some [("nz", FV (VTime 7))]) None None.
Example C11_nonvacuous :
  no_sac_entries ex_trace /\ well_typed ex_trace /\ no_null (fun _ => "1.0") ex_trace.
Proof.
  split; [|split].
  - intros d H k Hk. inversion H; subst. simpl in Hk.
    repeat (destruct Hk as [<-|Hk]; [reflexivity|]). contradiction.
  - intros e v H. unfold ex_trace in H; cbn in H. unfold time_entry.
    repeat match type of H with
    | (if String.eqb e ?k then _ else _) = _ => destruct (String.eqb_spec e k); [inversion H; subst; split; [intros [?|?]; try discriminate; eauto | try tauto; intros ? ?; try exact I; tauto]|]
    end. discriminate.
  - intros ref _ e v _ _. reflexivity.
Qed.
Example C11_example_runs :
  match write "SAC" false (fun _ _ => None) [0] [ex_trace] "ix" with
  | (_, _, Ok files) => match read_rf (fun _ => "1.0") files with
                        | Ok [t] => map fst (h_main t)
                        | _ => []
                        end
  | _ => []
  end = ["station_latitude"; "event_time"; "onset"; "phase"; "slowness"; "box_pos"].
Proof. vm_compute. reflexivity. Qed.

(** C12: the same for Q; with sh_compat=True the COMMENT entries, and only these, are lost. *)
Theorem C12_q_roundtrip str_of w ids h ix :
  NoDup ids -> (forall ix trs, w ix trs = None) ->
  (forall i, In i ids -> exists s, obj h i s /\ no_sh_entries s /\ comment_is_plain s /\
      no_dot (h_net s) /\ no_dot (h_sta s) /\ no_dot (h_loc s)) ->
  exists h' files trs, write "Q" false w ids h ix = (h', ix, Ok files) /\ read_rf str_of files = Ok trs /\
    Forall2 (fun i t => forall s, obj h i s -> restored s t) ids trs.
Proof. exact (q_stream_roundtrip str_of false w ids h ix). Qed.
Print Assumptions C12_q_roundtrip.
Theorem C12_q_sh_compat str_of w ids h ix :
  NoDup ids -> (forall ix trs, w ix trs = None) ->
  (forall i, In i ids -> exists s, obj h i s /\ no_sh_entries s /\ comment_is_plain s /\
      no_dot (h_net s) /\ no_dot (h_sta s) /\ no_dot (h_loc s)) ->
  exists h' files trs, write "Q" true w ids h ix = (h', ix, Ok files) /\ read_rf str_of files = Ok trs /\
    Forall2 (fun i t => forall s, obj h i s -> restored_but_comment s t) ids trs.
Proof. exact (q_stream_roundtrip str_of true w ids h ix). Qed.
Print Assumptions C12_q_sh_compat.
Example C12_nonvacuous :
  no_sh_entries ex_trace /\ comment_is_plain ex_trace /\
  no_dot (h_net ex_trace) /\ no_dot (h_sta ex_trace) /\ no_dot (h_loc ex_trace).
Proof.
  split; [discriminate|]. split; [|repeat split].
  intros e v He H. unfold ex_trace in H; cbn in H. simpl in He.
  repeat (destruct He as [<-|He]; [vm_compute in H; first [discriminate H | inversion H; exact I]|]). contradiction.
Qed.

(** C13 is false: an entry read from the file, deleted and written comes back
    (SAC and Q), because the old format dictionary is kept. *)
Theorem C13_deleted_header_refuted :
  exists file s s1 s2, 
    rftrace_init (fun _ => "30.0") file = Ok s /\ dget (h_main s) "back_azimuth" = Some (VNum 30) /\
    write_header "SAC" false (with_main s (ddel (h_main s) "back_azimuth")) = Ok s1 /\
    rftrace_init (fun _ => "30.0") (file_roundtrip "SAC" s1) = Ok s2 /\
    dget (h_main s2) "back_azimuth" = Some (VNum 30).
Proof.
  exists (mkH "CX" "PB01" "" "BHZ" 0 [] (Some [("nz", FV (VTime 0)); ("baz", FV (VNum 30))]) None (Some "SAC")).
  eexists. eexists. eexists. split; [vm_compute; reflexivity|]. split; [reflexivity|].
  split; [vm_compute; reflexivity|]. split; [vm_compute; reflexivity|]. reflexivity.
Qed.
Print Assumptions C13_deleted_header_refuted.
(** ... what holds: it stays absent if the format dictionary does not contain the field. *)
Theorem C13_unset_sac_partial str_of compat s s1 s2 e fh :
  In (e, fh) documented_sac -> dget (h_main s) e = None ->
  (forall d, h_sac s = Some d -> dget d fh = None) ->
  write_header "SAC" compat s = Ok s1 -> rftrace_init str_of (file_roundtrip "SAC" s1) = Ok s2 ->
  dget (h_main s2) e = None.
Proof. exact (sac_unset_stays_unset str_of compat s s1 s2 e fh). Qed.
Print Assumptions C13_unset_sac_partial.
Theorem C13_unset_q_partial str_of compat s s1 s2 e fh :
  In (e, fh) documented_q -> dget (h_main s) e = None ->
  (forall d, h_sh s = Some d -> dget d fh = None /\ dget d "COMMENT" = None) ->
  write_header "Q" compat s = Ok s1 ->
  rftrace_init str_of (file_roundtrip "Q" (with_codes s1 (h_net s1) (h_id s1) (h_loc s1))) = Ok s2 ->
  dget (h_main s2) e = None.
Proof. exact (q_unset_stays_unset str_of compat s s1 s2 e fh). Qed.
Print Assumptions C13_unset_q_partial.
Example C13_nonvacuous :
  In ("back_azimuth", "baz") documented_sac /\ dget (h_main ex_trace) "back_azimuth" = None /\
  exists s1 s2, write_header "SAC" false ex_trace = Ok s1 /\
    rftrace_init (fun _ => "1") (file_roundtrip "SAC" s1) = Ok s2.
Proof.
  split; [simpl; tauto|]. split; [reflexivity|]. eexists. eexists. split; vm_compute; reflexivity.
Qed.

(** C14: formats other than Q never change codes, start time or entries of any
    trace, whether the call returns or raises, at whichever trace it fails. *)
Theorem C14_ids_unchanged fmt compat w ids h ix h' ix' r :
  upper fmt <> "Q" -> write fmt compat w ids h ix = (h', ix', r) ->
  List.length h' = List.length h /\ forall i s, obj h i s -> exists s', obj h' i s' /\ same_visible s' s.
Proof. exact (write_visible fmt compat w ids h ix h' ix' r). Qed.
Print Assumptions C14_ids_unchanged.
(** Q: they are restored if the call returns, the traces are distinct and the
    network and station codes contain no dot ... *)
Theorem C14_ids_restored_q_partial fmt compat w ids h ix h' ix' files :
  upper fmt = "Q" -> NoDup ids ->
  (forall i s, In i ids -> obj h i s -> no_dot (h_net s) /\ no_dot (h_sta s)) ->
  write fmt compat w ids h ix = (h', ix', Ok files) ->
  forall i s, obj h i s -> exists s', obj h' i s' /\ same_visible s' s.
Proof. exact (q_codes_restored fmt compat w ids h ix h' ix' files). Qed.
Print Assumptions C14_ids_restored_q_partial.
(** ... but not if the writer raises (the station code stays the full id), ... *)
Theorem C14_q_writer_fails_refuted :
  exists h', write "Q" false (fun _ _ => Some OtherError) [0] [ex_trace] "ix" = (h', "ix", Err OtherError) /\
    exists s', obj h' 0 s' /\ h_sta s' = "CX.PB01..BHZ".
Proof. eexists. split; [vm_compute; reflexivity|]. eexists. split; [reflexivity|]. reflexivity. Qed.
Print Assumptions C14_q_writer_fails_refuted.
(** ... not if a trace occurs twice in the stream (the file is written, then
    IndexError is raised and the station code is the network code), ... *)
Theorem C14_q_repeated_trace_refuted :
  exists h' s', write "Q" false (fun _ _ => None) [0; 0] [ex_trace] "ix" = (h', "ix", Err IndexError) /\
     obj h' 0 s' /\ h_sta s' = "CX".
Proof. eexists. eexists. split; [vm_compute; reflexivity|]. split; reflexivity. Qed.
Print Assumptions C14_q_repeated_trace_refuted.
(** ... and not if a code contains a dot. *)
Theorem C14_q_dotted_code_refuted :
  exists h' f s', write "Q" false (fun _ _ => None) [0] [set_sta ex_trace "A.B"] "ix" = (h', "ix", Ok f) /\
     obj h' 0 s' /\ h_sta s' = "A".
Proof. eexists. eexists. eexists. split; [vm_compute; reflexivity|]. split; reflexivity. Qed.
Print Assumptions C14_q_dotted_code_refuted.
Example C14_nonvacuous :
  exists h' f, write "Q" false (fun _ _ => None) [0] [ex_trace] "ix" = (h', "ix", Ok f).
Proof. eexists. eexists. vm_compute. reflexivity. Qed.

(** C15: a successful write leaves the global index of obspyh5 as it was; a H5
    write uses the template of the stream type. *)
Theorem C15_index_restored fmt compat w ids h ix h' ix' files :
  write fmt compat w ids h ix = (h', ix', Ok files) -> ix' = ix.
Proof. exact (write_index_restored fmt compat w ids h ix h' ix' files). Qed.
Print Assumptions C15_index_restored.
Theorem C15_index_by_type compat w ids h ix ix1 :
  ids <> [] -> (forall i, In i ids -> exists s, obj h i s) ->
  (forall s, In s (deref h ids) -> text_header "type" s) ->
  index_for (deref h ids) ix ix1 ->
  write "H5" compat w ids h ix =
    match w ix1 (deref h ids) with
    | Some e => (h, ix1, Err e)
    | None => (h, ix, Ok (map (file_roundtrip "H5") (deref h ids)))
    end.
Proof. exact (h5_index compat w ids h ix ix1). Qed.
Print Assumptions C15_index_by_type.
(** Streams of type harmonic, which harmonics() returns, cannot be written. *)
Theorem C15_other_types_rejected compat w ids h ix t :
  ids <> [] -> (forall i, In i ids -> exists s, obj h i s) ->
  (forall s, In s (deref h ids) -> text_header "type" s) ->
  common "type" t (deref h ids) -> t <> "" -> t <> "rf" -> t <> "profile" ->
  write "H5" compat w ids h ix = (h, ix, Err KeyError).
Proof. exact (h5_other_type compat w ids h ix t). Qed.
Print Assumptions C15_other_types_rejected.
Definition typed (t : string) : hst := with_main ex_trace (dset (h_main ex_trace) "type" (VStr t)).
Theorem C15_harmonic_refuted :
  write "H5" false (fun _ _ => None) [0] [typed "harmonic"] "ix" = ([typed "harmonic"], "ix", Err KeyError).
Proof. vm_compute. reflexivity. Qed.
Print Assumptions C15_harmonic_refuted.
(** The previous index is lost if the writer raises. *)
Theorem C15_writer_fails_refuted :
  exists h', write "H5" false (fun _ _ => Some OtherError) [0] [typed "profile"] "ix" = (h', profile_index, Err OtherError).
Proof. eexists. vm_compute. reflexivity. Qed.
Print Assumptions C15_writer_fails_refuted.
Example C15_nonvacuous :
  index_for [typed "profile"] "ix" template_profile /\ text_header "type" (typed "profile").
Proof.
  split.
  - apply IxProfile. split; [exists (typed "profile"); split; [left; reflexivity | reflexivity]|].
    intros s x [<-|[]] H. vm_compute in H. inversion H. reflexivity.
  - intros v H. vm_compute in H. inversion H. eauto.
Qed.

(** C16: the properties type and method. *)
Theorem C16_type_common tr v :
  (forall s, In s tr -> text_header "type" s) -> (get_type tr = Some v <-> common "type" v tr).
Proof. exact (unique_header_spec "type" tr v). Qed.
Print Assumptions C16_type_common.
Theorem C16_method_common tr m :
  (forall s, In s tr -> text_header "phase" s) ->
  (get_method tr = Ok (Some m) <->
   exists p a, common "phase" p tr /\ last_char p = Some a /\ m = upper (char_str a)).
Proof.
  intros Ht. unfold get_method. destruct (unique_header "phase" tr) as [p|] eqn:E.
  - apply unique_header_spec in E; [|exact Ht]. split.
    + destruct (last_char p) as [a|] eqn:L; intros H; inversion H; subst. eauto.
    + intros (p2 & a & Hc & La & ->).
      assert (p2 = p) as ->.
      { apply unique_header_spec in E; [|exact Ht]. apply unique_header_spec in Hc; [|exact Ht]. congruence. }
      rewrite La. reflexivity.
  - split; [discriminate|]. intros (p & a & Hc & _). exfalso.
    apply (proj1 (unique_header_none "phase" tr Ht) E p Hc).
Qed.
Print Assumptions C16_method_common.
Theorem C16_set_type tr v : tr <> [] ->
  get_type (set_type v tr) = Some v /\ List.length (set_type v tr) = List.length tr /\
  forall s, In s (set_type v tr) -> dget (h_main s) "type" = Some (VStr v).
Proof.
  intros Hne. destruct (set_common "type" v tr Hne) as [Hc Ha]. split; [|split; [apply map_length | exact Ha]].
  apply unique_header_spec; [|exact Hc]. intros s Hs x Hx. apply Ha in Hs. exists v. congruence.
Qed.
Print Assumptions C16_set_type.
Theorem C16_set_method tr v a : tr <> [] -> last_char v = Some a ->
  get_method (set_method v tr) = Ok (Some (upper (char_str a))) /\
  forall s, In s (set_method v tr) -> dget (h_main s) "phase" = Some (VStr v).
Proof.
  intros Hne Hl. destruct (set_common "phase" v tr Hne) as [Hc Ha]. split; [|exact Ha].
  apply C16_method_common; [intros s Hs x Hx; apply Ha in Hs; exists v; congruence|]. exists v, a. auto.
Qed.
Print Assumptions C16_set_method.
Example C16_nonvacuous :
  get_type [typed "rf"; ex_trace; typed "rf"] = Some "rf" /\ get_type [typed "rf"; typed "profile"] = None /\
  get_method [ex_trace] = Ok (Some "P") /\ get_method (set_method "sks" [ex_trace]) = Ok (Some "S").
Proof. vm_compute. auto. Qed.

(** C82: the fields of the files are the documented ones (table in rf/__init__.py). *)
Theorem C82_sac_fields compat w ids h ix h' ix' files :
  NoDup ids -> (forall i s, In i ids -> obj h i s -> well_typed s) ->
  write "SAC" compat w ids h ix = (h', ix', Ok files) ->
  Forall2 (fun i f => exists s, obj h i s /\ sac_file s f) ids files.
Proof.
  intros Hnd Hty H. apply write_files in H; [|exact Hnd]. eapply Forall2_weaken; [|exact H].
  intros i f Hi (s & s1 & Hs & Hw & ->). exists s. split; [exact Hs|]. 
  change (mark "SAC" s1) with s1. exact (sac_fields compat s s1 (Hty i s Hi Hs) Hw).
Qed.
Print Assumptions C82_sac_fields.
Theorem C82_q_fields compat w ids h ix h' ix' files :
  NoDup ids -> (forall i s, In i ids -> obj h i s -> no_sh_entries s) ->
  write "Q" compat w ids h ix = (h', ix', Ok files) ->
  Forall2 (fun i f => exists s, obj h i s /\ q_file compat s f /\
     h_sta f = (h_net s ++ "." ++ h_sta s ++ "." ++ h_loc s ++ "." ++ h_cha s)%string) ids files.
Proof.
  intros Hnd Hty H. apply write_files in H; [|exact Hnd]. eapply Forall2_weaken; [|exact H].
  intros i f Hi (s & s1 & Hs & Hw & ->). exists s. split; [exact Hs|]. split.
  - exact (q_fields compat s s1 (Hty i s Hi Hs) Hw).
  - change (h_id s1 = h_id s). apply h_id_visible. exact (write_header_visible _ _ _ _ Hw).
Qed.
Print Assumptions C82_q_fields.
(** a SAC file of another program: every documented entry is read from the documented
    field, undefined fields (-12345) give no entry, and no other entry appears *)
Theorem C82_sac_read str_of f d ref :
  h_format f = Some "SAC" -> h_main f = [] -> h_sac f = Some d -> dget d "nz" = Some (FV (VTime ref)) ->
  (forall e fld x, In (e, fld) documented_sac -> dget d fld = Some x -> exists v, x = FV v /\ (time_entry e -> exists q, v = VNum q)) ->
  exists t, rftrace_init str_of f = Ok t /\
    (forall e fld, In (e, fld) documented_sac -> dget (h_main t) e = 
       match dget d fld with
       | Some (FV v) => if str_in "-12345" (str_of v) then None else from_sac ref e v
       | _ => None
       end) /\
    (forall e, ~ In e documented -> dget (h_main t) e = None) /\
    codes t = codes f.
Proof. exact (foreign_sac str_of f d ref). Qed.
Print Assumptions C82_sac_read.
Example C82_nonvacuous :
  match write "SAC" false (fun _ _ => None) [0] [ex_trace] "ix" with
  | (_, _, Ok [f]) => match h_sac f with
                      | Some d => dget d "user1" = Some (FV (VNum (64 # 10))) /\
                                  dget d "a" = Some (FV (VNum (inject_Z (25000000000 - 7) / inject_Z 1000000000)))
                      | None => False
                      end
  | _ => False
  end /\
  match rftrace_init (fun v => match v with VNum q => if Qeq_bool q (-12345) then "-12345.0" else "1" | _ => "" end)
          (mkH "CX" "PB01" "" "BHZ" 0 [] (Some [("nz", FV (VTime 0)); ("baz", FV (VNum (-12345))); ("a", FV (VNum 2)); ("user0", FV (VNum 7))]) None (Some "SAC")) with
  | Ok t => h_main t = [("onset", VTime 2000000000); ("inclination", VNum 7)]
  | Err _ => False
  end.
Proof. vm_compute. auto. Qed.

(** C71: COMMENT fields written by other programs. A free text or a JSON object
    is read without error ... *)
Theorem C71_comment_read_partial str_of s sh :
  h_sh s = Some sh -> h_format s = Some "Q" ->
  (forall x, dget sh "COMMENT" = Some x -> (exists t, x = FV (VStr t)) \/ exists d, x = FJson d) ->
  exists s', rftrace_init str_of s = Ok s'.
Proof.
  intros H1 H2 H3. unfold rftrace_init. rewrite H2.
  cbv zeta. match goal with |- context [read_header str_of ?x] => set (g := x) end.
  assert (h_sh g = Some sh /\ h_format g = Some "Q") as [G1 G2].
  { unfold g. destruct (_ && _); [|split; assumption]. destruct (split_on _ _) as [|? [|? [|? ?]]]; split; assumption. }
  unfold read_header. rewrite G2, G1. change (lower "Q") with "q". change (String.eqb "q" "q") with true.
  cbv iota zeta. change (String.eqb "sh" "sac") with false. change (String.eqb "sh" "sh") with true. cbv iota.
  assert (forall l m, exists m', foldM (read_sh_step sh) l m = Ok m') as H.
  { induction l as [|[e fh] l IH]; intros m; cbn [foldM]; [eauto|].
    assert (exists m1, read_sh_step sh m (e, fh) = Ok m1) as [m1 ->]; [|apply IH].
    unfold read_sh_step. destruct (String.eqb_spec fh "COMMENT") as [->|Hne].
    - destruct (dget sh "COMMENT") as [x|]; [|eauto].
      destruct (H3 x eq_refl) as [[t ->]|[d ->]]; eauto.
    - destruct (dget sh fh) as [[| |]|]; eexists; reflexivity. }
  destruct (H sh_map (h_main g)) as [m' ->]. eexists. reflexivity.
Qed.
Print Assumptions C71_comment_read_partial.
(** ... but a text that is any other JSON value (a plain number, say) makes
    read_rf fail. *)
Theorem C71_foreign_comment_refuted str_of s sh :
  h_sh s = Some sh -> h_format s = Some "Q" -> dget sh "COMMENT" = Some FJsonOther ->
  rftrace_init str_of s = Err TypeError.
Proof.
  intros H1 H2 H3. unfold rftrace_init. rewrite H2.
  cbv zeta. match goal with |- context [read_header str_of ?x] => set (g := x) end.
  assert (h_sh g = Some sh /\ h_format g = Some "Q") as [G1 G2].
  { unfold g. destruct (_ && _); [|split; assumption]. destruct (split_on _ _) as [|? [|? [|? ?]]]; split; assumption. }
  unfold read_header. rewrite G2, G1. change (lower "Q") with "q". change (String.eqb "q" "q") with true.
  cbv iota zeta. change (String.eqb "sh" "sac") with false. change (String.eqb "sh" "sh") with true. cbv iota.
  change sh_map with (("station_latitude", "COMMENT") :: tl sh_map). cbn [foldM].
  unfold read_sh_step at 1. rewrite H3. reflexivity.
Qed.
Print Assumptions C71_foreign_comment_refuted.
Example C71_nonvacuous :
  rftrace_init (fun _ => "") (mkH "" "PB01" "" "BHZ" 0 [] None (Some [("COMMENT", FJsonOther)]) (Some "Q")) = Err TypeError.
Proof. reflexivity. Qed.
