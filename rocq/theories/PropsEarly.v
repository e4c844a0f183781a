(** * Switches of a command given before the command: C99 *)
From Verif Require Import Base BaseFacts Cmd Main MainSpec MainFacts Sample PropsMain.

(** A switch not every command has, written on its own. *)
Inductive early : flag -> str -> Prop :=
| EarlyLong : forall f w c, documented f w c false -> ~ for_all f -> early f (lit "--" ++ w)
| EarlyShort : forall f w c, documented f w c false -> ~ for_all f -> early f [ch "-"; c].

Section Early.
Variable E : env.
Variable L : err -> str.
Variable help_text : list str -> str.
Variable library : list str -> result.
Notation gledger := (gledger E L help_text library).

Lemma early_strip : forall f s x rest, early f s -> strip_flags (s :: x :: rest) = match rest with [] => [] | _ => strip_flags rest end.
Proof.
  intros f s x rest S. destruct S as [f w c D N|f w c D N]; inversion D; subst; try (exfalso; apply N; unfold for_all; tauto); destruct rest; reflexivity.
Qed.

(** The next word is skipped: with another one in between the command is found,
    and the switch and the word in between are as good as after it. *)
Theorem C99_skipped : forall pre its f s x c name post, leading its pre -> early f s -> called c name -> x <> name -> ~ In name pre ->
  gledger (pre ++ s :: x :: name :: post) = gledger (pre ++ name :: s :: x :: post).
Proof.
  intros pre its f s x c name post Ld S Cl Nx Np. destruct (called_found c name Cl) as [Fn Sn].
  unfold Main.gledger. rewrite !(leading_strip _ _ Ld) by discriminate. rewrite (early_strip f s x _ S), !Sn, Fn.
  assert (Ns : s <> name).
  { intros <-. destruct Cl as [->|[I _]]; [destruct S as [? ? ? D _|? ? ? D _]; inversion D; subst; destruct c; discriminate|].
    destruct S as [? ? ? D _|? ? ? D _]; inversion D; subst; destruct c; cbn in I; intuition discriminate. }
  rewrite minus_first_app by exact Np. f_equal.
  change (pre ++ s :: x :: name :: post) with (pre ++ [s; x] ++ name :: post). rewrite app_assoc, minus_first_app; [now rewrite <- app_assoc|].
  rewrite in_app_iff. cbn [In]. intuition congruence.
Qed.

(** Without, no command is found: the program refuses its switch, *)
Theorem C99_refused : forall pre its f s post, leading its pre -> early f s -> f <> FHelp -> (length post <= 1)%nat ->
  gledger (pre ++ s :: post) = Result [] (Some 1).
Proof.
  intros pre its f s post Ld S Nh Le. unfold Main.gledger. rewrite (leading_strip _ _ Ld) by discriminate.
  assert (strip_flags (s :: post) = []) as ->.
  { destruct post as [|x [|y post]]; [|exact (early_strip f s x [] S)|cbn in Le; lia].
    destruct S as [? ? ? D N|? ? ? D N]; inversion D; subst; try (exfalso; apply N; unfold for_all; tauto); reflexivity. }
  unfold execute_root.
  assert (Ok : forall f, for_all f \/ f = FHelp <-> In f root_flags).
  { intro g. unfold for_all. cbn. split; [intros [[->|[->|[->| ->]]]| ->]; tauto|]. intuition subst; auto. }
  pose proof (leading_open (fun f => for_all f \/ f = FHelp) its pre [] [] (fun f F => or_introl F) Ld (LineEnd _)) as Ln. rewrite !app_nil_r in Ln.
  destruct (open_parse root_flags _ _ _ Ln (fun f H => proj1 (Ok f) H) [] fs_init holds_init) as (st & _ & P).
  rewrite P. assert (B : bad (fun f => for_all f \/ f = FHelp) (s :: post)).
  { destruct S as [f w c D N|f w c D N].
    - rewrite <- (app_nil_r w). apply BadLong; [rewrite app_nil_r; inversion D; discriminate|inversion D; subst; cbn; intuition discriminate| |left; reflexivity].
      intros g c' b D'. assert (g = f) as -> by (inversion D; subst; inversion D'; reflexivity). tauto.
    - change [ch "-"; c] with (ch "-" :: [] ++ c :: []). apply BadLetter with (fs := []); try constructor; try (inversion D; subst; discriminate).
      intros g w' b D'. assert (g = f) as -> by (inversion D; subst; inversion D'; reflexivity). tauto. }
  rewrite (bad_parse root_flags _ _ Ok B). reflexivity.
Qed.

(** ... and for help shows the program's, not the command's. *)
Theorem C99_help : forall pre its s c name, leading its pre -> early FHelp s -> called c name ->
  gledger (pre ++ [s; name]) = Result (help_text (pre ++ [s; name])) (Some 0).
Proof.
  intros pre its s c name Ld S Cl. unfold Main.gledger. rewrite (leading_strip _ _ Ld) by discriminate. rewrite (early_strip _ _ _ _ S). unfold execute_root.
  assert (Ok : forall f, for_all f \/ f = FHelp -> In f root_flags) by (unfold for_all; intros f [[->|[->|[->| ->]]]| ->]; cbn; tauto).
  assert (Ln2 : open_line (fun f => for_all f \/ f = FHelp) [Given FHelp (lit "true"); Word name] ([s] ++ [name])).
  { apply LineFlag; [now right|right; exists true; cbn; tauto| |].
    - inversion S; subst; [eapply LongAlone; eassumption|eapply ShortAlone; eassumption].
    - apply LineWord; [|constructor]. right. right. destruct Cl as [->|[I _]]; [destruct c; split; discriminate|].
      destruct c; cbn in I; intuition (subst; discriminate). }
  pose proof (leading_open _ its pre _ _ (fun f F => or_introl F) Ld Ln2) as Ln.
  destruct (line_parse root_flags _ _ _ (LinePlain _ _ _ Ln) Ok [] fs_init holds_init) as (st & P & H). cbn [app] in P. rewrite P.
  destruct H as [_ _ _ _ _ _ _ Hh _]. unfold switch in Hh. rewrite app_nil_l in Hh.
  assert (X : last_given FHelp (its ++ [Given FHelp (lit "true"); Word name]) = Some (lit "true")) by (unfold last_given; now rewrite fold_left_app).
  rewrite X in Hh. destruct (fs_help st); [reflexivity|]. cbn in Hh. intuition discriminate.
Qed.
End Early.

Example C99_example :
  let G := gledger (env0 journal0) L0 help0 lib0 in
  early FFlatten (lit "--flatten") /\ early FFlatten (lit "-F") /\ early FHelp (lit "-h") /\ called Balance (lit "bal") /\ leading [Given FFile (lit "j")] [lit "-fj"] /\
  G [lit "-fj"; lit "-F"; lit "bal"] = Result [] (Some 1) /\ p_exit (G [lit "-fj"; lit "-F"; lit "a"; lit "bal"]) = Some 0 /\
  G [lit "-fj"; lit "-F"; lit "a"; lit "bal"] = G [lit "-fj"; lit "bal"; lit "-F"; lit "a"] /\
  G [lit "-fj"; lit "-h"; lit "bal"] = Result (lit "usage") (Some 0).
Proof.
  assert (N : forall f, f = FFlatten \/ f = FHelp -> ~ for_all f) by (intros f [->| ->]; unfold for_all; intuition discriminate).
  split; [apply (EarlyLong FFlatten (lit "flatten") (ch "F")); [constructor|auto]|].
  split; [apply (EarlyShort FFlatten (lit "flatten") (ch "F")); [constructor|auto]|].
  split; [apply (EarlyShort FHelp (lit "help") (ch "h")); [constructor|auto]|].
  split; [right; split; [cbn; auto|discriminate]|].
  split.
  - apply (LeadFlag FFile (lit "j") [lit "-fj"] [] []); [left; reflexivity|left; do 2 eexists; constructor| |constructor].
    apply (ShortJoined FFile (lit "file") (ch "f") (ch "j") []); [constructor|discriminate].
  - repeat split; vm_compute; reflexivity.
Qed.
