(** str.format on texts with and without fields. *)
From Verif Require Import Model.Str Spec.StrSpec Proofs.PyFacts.
From Coq Require Import Lia.

Lemma no_braces_app a b : no_braces (a ++ b) <-> no_braces a /\ no_braces b.
Proof.
  unfold no_braces. assert (list_ascii_of_string (a ++ b) = list_ascii_of_string a ++ list_ascii_of_string b) as ->.
  { induction a as [|c a IH]; cbn; [reflexivity|]. f_equal. exact IH. }
  split.
  - intros H. split; intros x Hx; apply H, in_app_iff; tauto.
  - intros [H1 H2] x Hx. apply in_app_iff in Hx. destruct Hx; [apply H1 | apply H2]; assumption.
Qed.
Lemma no_braces_cons a b : no_braces (String a b) <-> (a <> "{"%char /\ a <> "}"%char) /\ no_braces b.
Proof. unfold no_braces. cbn. split; [intros H; split; [apply H; left; reflexivity | intros x Hx; apply H; right; exact Hx] | intros [H1 H2] x [<-|Hx]; [exact H1 | apply H2, Hx]]. Qed.
Lemma no_braces_nil : no_braces "". Proof. intros a []. Qed.
Lemma str_app_assoc a b c : ((a ++ b) ++ c)%string = (a ++ (b ++ c))%string.
Proof. induction a as [|x a IH]; cbn; [reflexivity|]. f_equal. exact IH. Qed.
Lemma str_app_nil a : (a ++ "")%string = a.
Proof. induction a as [|x a IH]; cbn; [reflexivity|]. f_equal. exact IH. Qed.

Section F.
  Variable str_of : value -> string.
  Variable fixed : nat -> Q -> string.
  Variable rate_text : Z -> string.
  Variable count_text : nat -> string.
  Variable plain : trace -> string.
  Notation pf := (py_format str_of fixed rate_text count_text).
  Notation fld := (field str_of fixed rate_text count_text).
  Lemma format_text t s r : no_braces s -> pf t (s ++ r) None = let! x := pf t r None in Ok (s ++ x)%string.
  Proof.
    induction s as [|a s IH]; intros H.
    - cbn [append]. destruct (pf t r None); reflexivity.
    - apply no_braces_cons in H. destruct H as [[H1 H2] H]. cbn [append py_format].
      destruct (Ascii.eqb_spec a "{"); [contradiction|]. destruct (Ascii.eqb_spec a "}"); [contradiction|].
      rewrite (IH H). destruct (pf t r None); reflexivity.
  Qed.
  Lemma format_inside t s f r : no_braces s -> pf t (s ++ String "}" r) (Some f) = let! x := fld t (f ++ s)%string in let! y := pf t r None in Ok (x ++ y)%string.
  Proof.
    revert f. induction s as [|a s IH]; intros f H.
    - cbn [append py_format]. change (Ascii.eqb "}" "}") with true. cbv iota. rewrite str_app_nil. reflexivity.
    - apply no_braces_cons in H. destruct H as [[H1 H2] H]. cbn [append py_format].
      destruct (Ascii.eqb_spec a "}"); [contradiction|]. destruct (Ascii.eqb_spec a "{"); [contradiction|].
      rewrite (IH _ H). rewrite str_app_assoc. reflexivity.
  Qed.
  Lemma format_field t a s r : no_braces (String a s) -> pf t (String "{" (String a s ++ String "}" r)) None
    = let! x := fld t (String a s) in let! y := pf t r None in Ok (x ++ y)%string.
  Proof.
    intros H. pose proof (format_inside t (String a s) "" r H) as E. cbn [append] in *. rewrite <- E.
    cbn [py_format]. change (Ascii.eqb "{" "{") with true. cbv iota.
    apply no_braces_cons in H. destruct H as [[H1 _] _]. destruct (Ascii.eqb_spec a "{"); [contradiction|]. reflexivity.
  Qed.
  (** a text which becomes another one, or an error *)
  Definition becomes (t : trace) (s : string) (x : res string) : Prop :=
    forall r, pf t (s ++ r) None = let! a := x in let! b := pf t r None in Ok (a ++ b)%string.
  Lemma becomes_text t s : no_braces s -> becomes t s (Ok s).
  Proof. intros H r. rewrite (format_text t s r H). reflexivity. Qed.
  Lemma becomes_app t s1 s2 x1 x2 : becomes t s1 (Ok x1) -> becomes t s2 x2 -> becomes t (s1 ++ s2) (let! a := x2 in Ok (x1 ++ a)%string).
  Proof.
    intros H1 H2 r. rewrite str_app_assoc, H1, H2. cbn [bind]. destruct x2 as [x2|e]; [|reflexivity]. cbn [bind].
    destruct (pf t r None); [|reflexivity]. cbn [bind]. rewrite str_app_assoc. reflexivity.
  Qed.
  Lemma becomes_err t s1 s2 e : becomes t s1 (Err e) -> becomes t (s1 ++ s2) (Err e).
  Proof. intros H1 r. rewrite str_app_assoc, H1. reflexivity. Qed.
  Lemma becomes_all t s x : becomes t s x -> pf t s None = x.
  Proof. intros H. rewrite <- (str_app_nil s). rewrite (H ""). destruct x; [|reflexivity]. cbn. rewrite str_app_nil. reflexivity. Qed.
  Lemma becomes_field t pre a s post x : no_braces pre -> no_braces (String a s) -> no_braces post -> fld t (String a s) = x ->
    becomes t (pre ++ String "{" (String a s ++ String "}" post)) (let! y := x in Ok (pre ++ y ++ post)%string).
  Proof.
    intros H1 H2 H3 Hx r. rewrite str_app_assoc, (format_text t pre _ H1).
    assert ((String "{" (String a s ++ String "}" post) ++ r)%string = String "{" (String a s ++ String "}" (post ++ r))%string) as ->.
    { cbn [append]. rewrite str_app_assoc. reflexivity. }
    rewrite (format_field t a s _ H2), Hx. destruct x as [y|e]; [|reflexivity]. cbn [bind]. rewrite (format_text t post r H3).
    destruct (pf t r None) as [z|]; [|reflexivity]. cbn [bind]. rewrite !str_app_assoc. reflexivity.
  Qed.
  (** texts joined by blanks *)
  Lemma becomes_join t sep l xs : no_braces sep -> Forall2 (fun s x => becomes t s (Ok x)) l xs -> becomes t (String.concat sep l) (Ok (String.concat sep xs)).
  Proof.
    intros Hs H. induction H as [|s x l xs H1 H2 IH]; [apply becomes_text, no_braces_nil|].
    destruct H2 as [|s2 x2 l xs H3 H4]; [exact H1|].
    change (String.concat sep (s :: s2 :: l)) with (s ++ sep ++ String.concat sep (s2 :: l))%string.
    change (String.concat sep (x :: x2 :: xs)) with (x ++ sep ++ String.concat sep (x2 :: xs))%string.
    pose proof (becomes_app t sep _ sep _ (becomes_text t sep Hs) IH) as A. cbn [bind] in A.
    exact (becomes_app t s _ x _ H1 A).
  Qed.
  Lemma becomes_join_err t sep l1 l2 s e : no_braces sep -> Forall (fun s => exists x, becomes t s (Ok x)) l1 -> becomes t s (Err e) ->
    becomes t (String.concat sep (l1 ++ s :: l2)) (Err e).
  Proof.
    intros Hs H He. induction H as [|s1 l1 [x1 H1] H2 IH].
    - destruct l2 as [|s2 l2]; [exact He|]. change (String.concat sep ([] ++ s :: s2 :: l2)) with (s ++ sep ++ String.concat sep (s2 :: l2))%string.
      apply becomes_err, He.
    - assert (String.concat sep ((s1 :: l1) ++ s :: l2) = (s1 ++ sep ++ String.concat sep (l1 ++ s :: l2))%string) as ->.
      { destruct l1; reflexivity. }
      pose proof (becomes_app t sep _ sep _ (becomes_text t sep Hs) IH) as A. cbn [bind] in A.
      exact (becomes_app t s1 _ x1 _ H1 A).
  Qed.
End F.
