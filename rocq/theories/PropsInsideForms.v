(** * C118 for every form of the balance report *)
From Verif Require Import Base BaseFacts Utf8 Unicode GoTime Strconv Display Journal JournalFacts StreamFacts Lexer Parser ParserFacts Account Reporting Cmd Spec TextSpec
  TreeSpec TreeFacts ReportSpec ReportFacts CollapseFacts CmdSpec CmdFacts BalanceFacts FlatSpec Sample PropsParser PropsCmd PropsBalance PropsPrint PropsReread PropsAgain
  PropsWhere PropsConcat PropsJoin PropsApart PropsInside PropsApartForms.

(** The account [r] is neither [q] nor below it. *)
Definition beside (q r : list str) : bool := negb (is_nil r) && negb (prefixb q r).

Lemma beside_outside : forall q r, beside q r = true -> outside q r = true.
Proof. intros q r B. apply andb_true_iff in B as [_ B]. unfold outside. now rewrite B. Qed.
Lemma beside_snoc : forall q r x, beside q r = true -> outside q (r ++ [x]) = true.
Proof.
  intros q r x B. apply andb_true_iff in B as [_ B]. apply negb_true_iff in B. unfold outside. destruct (prefixb q (r ++ [x])) eqn:K; [|reflexivity]. cbn.
  apply prefixb_iff in K as [y K]. apply prefixb_iff. destruct y as [|y0 y] using rev_ind; [rewrite app_nil_r in K; exists []; now rewrite app_nil_r|].
  rewrite app_assoc in K. apply app_inj_tail in K as [K _]. exfalso. assert (X : prefixb q r = true) by (apply prefixb_iff; now exists y). congruence.
Qed.
Lemma beside_up : forall q r r', r' <> [] -> prefix r' r -> beside q r = true -> beside q r' = true.
Proof.
  intros q r r' N P B. apply andb_true_iff in B as [_ B]. apply negb_true_iff in B. unfold beside. destruct r'; [contradiction|]. cbn [is_nil negb andb].
  apply negb_true_iff. destruct (prefixb q (s :: r')) eqn:K; [|reflexivity]. apply prefixb_iff in P. rewrite (prefixb_trans _ _ _ K P) in B. discriminate.
Qed.

Lemma row_of_beside : forall p fl co sh sh' am am' q line, (forall r, outside p r = true -> (sh r <-> sh' r)) -> (forall r, outside p r = true -> am r = am' r) ->
  beside p q = true -> row_of fl co sh am q line -> row_of fl co sh' am' q line.
Proof.
  intros p fl co sh sh' am am' q line S A U. pose proof (beside_outside _ _ U) as Uo.
  assert (Al : forall r, beside p r = true -> (alone sh r <-> alone sh' r)).
  { intros r Ur. split; intros [x X]; exists x; intro x'; rewrite <- X; [symmetry|]; apply S; now apply beside_snoc. }
  unfold row_of. destruct fl; [|destruct co].
  - intros (J & L & ->). split; [now apply S|]. split; [|now rewrite A]. intros x Sx. apply (L x). apply S; [now apply beside_snoc|exact Sx].
  - intros (J & N & n & names & Fo & ->). split; [now apply S|]. split; [now rewrite <- Al|]. exists n, names. split; [|now rewrite A].
    eapply folded_ext; [|exact Fo]. intros r Nr Pr. apply Al. eapply beside_up; eauto.
  - intros (J & ->). split; [now apply S|now rewrite A].
Qed.

(** The lines of the accounts that are neither [q] nor below it are the same, in
    the same order, and so is the total. *)
Definition same_beside (q : list str) (rowed : list str -> str -> Prop) (ps ps' : list posting) (out out' : list str) : Prop :=
  exists rows rows' : list row, StronglySorted path_lt (map fst rows) /\ StronglySorted path_lt (map fst rows') /\
    (forall r line, r <> [] -> (In (r, line) rows <-> rowed r line)) /\
    filter (fun r => beside q (fst r)) rows' = filter (fun r => beside q (fst r)) rows /\
    out = complaints [] ps ++
      [unlines (map snd rows) ++ [10]; lit "--------------------" ++ [10]; column [] (wrap64 (total ps)) ++ [10]] /\
    out' = complaints [] ps' ++
      [unlines (map snd rows') ++ [10]; lit "--------------------" ++ [10]; column [] (wrap64 (total ps)) ++ [10]].

(** [C118_inside] in any form of report: here [q]'s own line may change, since
    with --flatten and --collapse it depends on what is below. *)
Theorem C118_forms : forall E O p a b q s1 s2 s, journal_path E O = Some p -> line_start a -> steady E -> sane_clock E -> orders E ->
  o_args O = [] ->
  picks (holding E p a) O [] (txns 0 (fst (stream (holding E p a) O))) s1 -> picks (holding E p b) O [] (txns 0 (fst (stream (holding E p b) O))) s2 ->
  picks (holding E p (a ++ LF :: b)) O [] (txns 0 (fst (stream (holding E p (a ++ LF :: b)) O))) s ->
  r_status (balance_cmd (holding E p (a ++ LF :: b)) O) = SOk ->
  Forall (fun x => below q x = true) (taken s2) -> (exists x, In x (taken s1) /\ below q x = true /\ commodity_of x <> []) ->
  r_status (balance_cmd (holding E p a) O) = SOk /\
  same_beside q (row_of (o_flatten O) (o_collapse O) (shown (o_show_zero O) (taken s1)) (amount_of (taken s1)))
    (taken s1) (taken s1 ++ taken s2) (r_out (balance_cmd (holding E p a) O)) (r_out (balance_cmd (holding E p (a ++ LF :: b)) O)).
Proof.
  intros E O p a b q s1 s2 s J St Sd C Or A P1 P2 P Ok In2 Nm.
  assert (F : forall x, filters_for (holding E p x) (o_args O) []) by (intro x; rewrite A; split; constructor).
  pose proof (proj1 (proj1 (C61_balance (holding E p (a ++ LF :: b)) O [] C Or (F _))) Ok) as [R (z & Pz & Hz)].
  assert (Ok1 : r_status (balance_cmd (holding E p a) O) = SOk).
  { apply (proj1 (C61_balance (holding E p a) O [] C Or (F _))). pose proof (proj1 (joined_readable E O p a b J St Sd) R) as [R1 _].
    split; [exact R1|]. exists s1. split; [exact P1|].
    destruct (joined_picks E O p a b J St Sd [] s1 s2 z (proj1 R) P1 P2 Pz) as [_ Pm]. apply (Permutation_Forall Pm) in Hz. now apply Forall_app in Hz. }
  split; [exact Ok1|].
  assert (T : taken s = taken s1 ++ taken s2).
  { destruct (joined_picks E O p a b J St Sd [] s1 s2 s (proj1 R) P1 P2 P) as [Sl _].
    now rewrite (taken_whole _ _ _ _ P), (taken_whole _ _ _ _ P1), (taken_whole _ _ _ _ P2), Sl, flat_map_app. }
  assert (Z : zero64 (total (taken s2))).
  { eapply taken_balanced; [exact P2|]. intros u I. apply txns_in in I. pose proof (stream_balanced (holding E p b) O) as B. rewrite Forall_forall in B.
    apply B in I. apply I. }
  destruct (report_rows (holding E p a) O s1 C Or (F a) Ok1 P1) as (rows & So & I & Q).
  destruct (report_rows (holding E p (a ++ LF :: b)) O s C Or (F _) Ok P) as (rows' & So' & I' & Q'). rewrite T in I', Q'.
  exists rows, rows'. split; [exact So|]. split; [exact So'|]. split; [exact I|]. split; [|split; [exact Q|]].
  - pose proof (inside_shown q (taken s1) (taken s2) In2 Z Nm (o_show_zero O)) as Sh.
    assert (Am : forall r, outside q r = true -> amount_of (taken s1 ++ taken s2) r = amount_of (taken s1) r).
    { intros r U. unfold amount_of. now rewrite (inside_total q (taken s1) (taken s2) In2 Z r U), (inside_first q (taken s1) (taken s2) In2 Nm r U). }
    apply rows_same; [now apply rows_sorted..|]. intros [r line]. rewrite !filter_In. cbn [fst]. split; intros [K U]; (split; [|exact U]);
      assert (Nr : r <> []) by (destruct r; discriminate).
    + apply (I r line Nr). apply (I' r line Nr) in K. revert K. now apply (row_of_beside q).
    + apply (I' r line Nr). apply (I r line Nr) in K. revert K. apply (row_of_beside q); [|intros; symmetry; auto|exact U]. intros x Ux. symmetry. now apply Sh.
  - rewrite Q'. do 5 f_equal. pose proof (inside_total q (taken s1) (taken s2) In2 Z [] ltac:(unfold outside; now rewrite orb_true_r)) as X.
    assert (Al : forall l, filter (below []) l = l) by (induction l as [|x l IH]; [reflexivity|]; cbn; now rewrite IH).
    rewrite !Al in X. now rewrite X.
Qed.

(** (The other hypotheses: [C118_example].) *)
Example C118_forms_example : let at_ x := holding (env1 []) (lit "j") x in
  let z_line := lit "              $-4.50  z" ++ [10] in
  balance_cmd (at_ text_same) (opts_form true) = Outcome ((lit "               $1.00  x:y" ++ [10] ++ z_line) :: ending) SOk /\
  balance_cmd (at_ (text_same ++ LF :: inside_text)) (opts_form true) =
    Outcome ((lit "              $-2.00  x:w" ++ [10] ++ lit "               $3.00  x:y" ++ [10] ++ z_line) :: ending) SOk /\
  balance_cmd (at_ text_same) (opts_form false) = Outcome ((lit "               $1.00  x:y" ++ [10] ++ z_line) :: ending) SOk /\
  balance_cmd (at_ (text_same ++ LF :: inside_text)) (opts_form false) =
    Outcome ((lit "               $4.50  x" ++ [10] ++ lit "              $-2.00    w" ++ [10] ++ lit "               $3.00    y" ++ [10] ++ z_line) :: ending) SOk.
Proof. repeat split; vm_compute; reflexivity. Qed.
