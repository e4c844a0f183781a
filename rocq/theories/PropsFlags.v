(** * Date flags that are no dates: C109

    The statements mention neither the lexer nor the parser nor the commands. *)
From Verif Require Import Base BaseFacts Utf8 Utf8Facts Unicode GoTime Strconv Display Journal Lexer Parser ParserFacts
  Account Humanize Reporting Budget Cmd Main Spec TextSpec JournalText ReportSpec CmdSpec StreamFacts CmdFacts BalanceFacts
  MainSpec MainFacts JournalFacts AmountFacts DateFacts FlatSpec BookText WholeFacts FilesText FilesFacts BudgetSpec BudgetRun MistakeText MistakeFacts
  Sample PropsText PropsParser PropsCmd PropsInput PropsAgain PropsPanic PropsMain PropsWhole PropsBook PropsFiles StopFacts FlagText FlagFacts.

Section Bad.
Variables (E : env) (L : err -> str) (O : opts).
Hypothesis (Clock : sane_clock E).

(** --begin is no date, or --begin is one and --end is not. *)
Inductive bad_flag : str -> Prop :=
| BadBegin : forall what, ~ good_flag E O 0 (o_begin O) -> said L (e_year E 0) (o_begin O) what -> bad_flag what
| BadEnd : forall what, good_flag E O 0 (o_begin O) -> ~ good_flag E O 1 (o_end O) -> said L (e_year E 1) (o_end O) what -> bad_flag what.


Lemma bad_within : forall what t', bad_flag what -> exists e, withinDateRange E O 0 t' = PErr e /\ err_text L e = what.
Proof.
  assert (K : forall n flag, ~ good_flag E O n flag -> exists e, flag_instant E O n flag = PErr e /\ parseSmartDate (e_year E n) flag = PErr e).
  { intros n flag N. pose proof (flag_instant_spec E O n flag Clock) as F. unfold flag_instant in *. destruct flag as [|c flag]; [destruct N; now left|]. cbn [is_nil negb andb] in *.
    destruct (o_current O) eqn:Cu; [destruct N; right; now left|]. cbn [negb] in *.
    destruct (parseSmartDate (e_year E n) (c :: flag)) as [d|e|] eqn:P; [|eauto|destruct F].
    exfalso. destruct F as [[[F|F] _]|(_ & _ & d' & M & _)]; [discriminate|congruence|]. apply N. right. right. eauto. }
  assert (Y : forall n, 0 <= e_year E n) by (intro n; specialize (Clock n); lia).
  intros what t' [w NB S|w GB NE S]; unfold withinDateRange; change (2 * 0)%nat with 0%nat; cbn [Nat.add].
  - destruct (K _ _ NB) as (e & -> & P). exists e. split; [reflexivity|]. eapply said_only; eauto.
  - pose proof (flag_instant_spec E O 0 (o_begin O) Clock) as F. destruct (flag_instant E O 0 (o_begin O)); [|contradiction|contradiction].
    destruct (K _ _ NE) as (e & -> & P). exists e. split; [reflexivity|]. eapply said_only; eauto.
Qed.
End Bad.

Section Flags.
Variables (E : env) (L : err -> str) (help_text : list str -> str) (library : list str -> result).
Hypotheses (Clock : sane_clock E) (Orders : orders E).
Variables (O : opts) (path bytes : str) (ls : list str) (deep : nat) (es : list FlatSpec.entry) (t : transaction) (here : str) (fs : list filter_).

(** The journal named holds the lines [ls]; the first transaction in them, or in the
    files included by them, is [t], complete at [here]; before it there are budget
    entries at most. *)
Hypotheses (Path : journal_path E O = Some path) (Held : e_fs E path = Some (File bytes false)) (Lines : lines_written bytes ls)
  (First : due (e_unicode E) (e_fs E) deep path ls es t here) (Deep : (deep <= e_depth E)%nat) (None_before : recorded es = []).
Hypothesis (Filters : filters_for E (o_args O) fs).

Lemma refused : forall D (th : hstate D -> transaction -> str -> hstate D * status) ph s, 
  exists evs p, map erase evs = es /\ forall s1 s2 x, deliver_all (Some th) ph s evs = (s1, SOk) -> th s1 t p = (s2, SErr x) ->
    exists e, parse_cmd E O (Some th) ph s = (s2, SErr (EErrorAt e)) /\ err_text L e = here ++ err_text L x.
Proof.
  intros D th ph s. destruct (due_refused (e_unicode E) L (e_fs E) _ th ph deep (e_depth E) path ls es t here bytes s First Deep Lines) as (evs & p & Er & R).
  exists evs, p. split; [exact Er|]. intros s1 s2 x Dl Ht. destruct (R s1 s2 x Dl Ht) as (e & Q & T). exists e. split; [|exact T].
  unfold parse_cmd, journal_path in *. destruct (o_file O); [rewrite Path, Held|injection Path as <-; rewrite Held]; exact Q.
Qed.

Lemma refused_result : forall D (s : hstate D) e what k, err_text L e = here ++ what ->
  result_of L (finish (s, SErr (EErrorAt e)) k) = Result (concat (h_out s) ++ lit "error at " ++ here ++ what ++ [10]) (Some 0).
Proof. intros D s e what k T. unfold finish, result_of. cbn [r_status r_out err_text]. rewrite T. now rewrite <- !app_assoc. Qed.

Lemma only_budgets : forall evs, map erase evs = es -> forall D th (s : D), deliver_all (Some th) None s evs = (s, SOk).
Proof.
  intros evs Er D th s. pose proof None_before as N. rewrite <- Er in N. clear - N. induction evs as [|[t p|pt p] evs IH]; [reflexivity|discriminate|].
  cbn [deliver_all deliver]. now apply IH.
Qed.
Lemma plain_refused : forall D (th : hstate D -> transaction -> str -> hstate D * status) (s : hstate D) e what k,
  h_out s = [] -> (forall p, th s t p = (HS 1 [] (h_data s), SErr e)) -> err_text L e = what ->
  result_of L (finish (parse_cmd E O (Some th) None s) k) = Result (lit "error at " ++ here ++ what ++ [10]) (Some 0).
Proof.
  intros D th s e what k O0 Ht T. destruct (refused D th None s) as (evs & p & Er & R).
  destruct (R s _ e (only_budgets evs Er _ th s) (Ht p)) as (e2 & -> & T2). rewrite T in T2. now rewrite (refused_result _ _ e2 what).
Qed.

(** print, accounts, payees and statistics print the message and nothing else. *)
Theorem C109_message : forall argv c what, asks argv c O false -> c = Print \/ c = Accounts \/ c = Payees \/ c = Statistics -> bad_flag E L O what ->
  Main.gledger E L help_text library argv = Result (lit "error at " ++ here ++ what ++ [10]) (Some 0).
Proof.
  intros argv c what As V B. destruct (C79_flags_partial E L help_text library _ _ _ _ As) as [G _]. rewrite (G eq_refl).
  destruct (bad_within E L O Clock what t B) as (e & W & T). pose proof (proj2 (makeFilters_spec _ _ _) Filters) as Fs.
  destruct V as [->|[->|[->| ->]]]; cbn [does]; unfold print_cmd, accounts_cmd, payees_cmd, stats_cmd, with_filters; rewrite Fs;
    unfold print_run, accounts_run, payees_run, stats_run; eapply plain_refused; try reflexivity; try exact T;
    intro p; unfold checked, date_checked, checkAgainstFilters; cbn [h_n]; rewrite W; reflexivity.
Qed.

(** So does balance. *)
Theorem C109_balance : forall argv what, asks argv Balance O false -> bad_flag E L O what ->
  Main.gledger E L help_text library argv = Result (lit "error at " ++ here ++ what ++ [10]) (Some 0).
Proof.
  intros argv what As B. destruct (C79_flags_partial E L help_text library _ _ _ _ As) as [G _]. rewrite (G eq_refl).
  destruct (bad_within E L O Clock what t B) as (e & W & T). pose proof (proj2 (makeFilters_spec _ _ _) Filters) as Fs.
  cbn [does]. unfold balance_cmd, with_filters. rewrite Fs. unfold balance_run.
  destruct (refused _ (checked E O fs balance_handler) (Some balance_ph) (HS 0 [] newJournal)) as (evs & p & Er & R).
  assert (K : exists d, deliver_all (Some (checked E O fs balance_handler)) (Some balance_ph) (HS 0 [] newJournal) evs = (HS 0 [] d, SOk)).
  { pose proof (due_months _ _ _ _ _ _ _ _ First) as M. pose proof None_before as N. rewrite <- Er in M, N. clear - M N. generalize newJournal as d.
    induction evs as [|[x q|pt q] evs IH]; intro d; [exists d; reflexivity|discriminate|]. cbn [map erase] in M, N. pose proof (Forall_inv M) as (_ & _ & Pn). apply Forall_inv_tail in M.
    cbn [deliver_all deliver]. unfold balance_ph at 1, j_addPeriodicTransaction at 1. rewrite Pn. cbn [is_pnone h_n h_out app]. apply IH; auto. }
  destruct K as [d K]. destruct (R _ (HS 1 [] d) e K) as (e2 & -> & T2).
  { unfold checked, checkAgainstFilters. cbn [h_n]. rewrite W. reflexivity. }
  rewrite T in T2. now rewrite (refused_result _ _ e2 what).
Qed.

(** budget has by then objected to the entries before. *)
Theorem C109_budget : forall argv what log, asks argv Budget_ O false -> bad_flag E L O what -> happened E O fs 0 es log -> Forall proper log ->
  Main.gledger E L help_text library argv = Result (concat (objected [] log) ++ lit "error at " ++ here ++ what ++ [10]) (Some 0).
Proof.
  intros argv what log As B H P. destruct (C79_flags_partial E L help_text library _ _ _ _ As) as [G _]. rewrite (G eq_refl).
  destruct (bad_within E L O Clock what t B) as (e & W & T). pose proof (proj2 (makeFilters_spec _ _ _) Filters) as Fs.
  cbn [does]. unfold budget_cmd, with_filters. rewrite Fs. unfold budget_run.
  destruct (refused _ (checked E O fs budget_handler) (Some budget_ph) (HS 0 [] newBudget)) as (evs & p & Er & R).
  assert (D : Forall dated_event evs).
  { pose proof (due_months _ _ _ _ _ _ _ _ First) as M. pose proof None_before as N. rewrite <- Er in M, N. clear - M N.
    induction evs as [|[x q|pt q] evs IH]; [constructor|discriminate|]. cbn [map erase] in M, N. pose proof (Forall_inv M) as Mp. apply Forall_inv_tail in M. constructor; auto. }
  assert (Tx : forall n, txns n evs = []).
  { pose proof None_before as N. rewrite <- Er in N. clear - N. induction evs as [|[x q|pt q] evs IH]; intro n; [reflexivity|discriminate|]. cbn [txns]. now apply IH. }
  rewrite <- Er in H. apply history_happened in H.
  destruct (budget_total E O Clock Orders fs 0 evs log H P D) with (s := HS 0 [] newBudget) (before := @nil move) as [s1 Dl]; [rewrite Tx; constructor|reflexivity|exact kept_new|].
  pose proof (budget_fold E O Clock Orders fs evs [] (HS 0 [] newBudget) s1 D kept_new Dl) as (_ & log' & H' & _ & _ & Q). cbn [h_n h_out app] in H', Q.
  assert (h_n s1 = 0%nat /\ log' = log) as [N0 ->].
  { pose proof None_before as N. rewrite <- Er in N. clear - N H H' Dl D. split.
    - assert (K : forall s0 s1, deliver_all (Some (checked E O fs budget_handler)) (Some budget_ph) s0 evs = (s1, SOk) -> h_n s1 = h_n s0); [|now apply K in Dl].
      clear Dl H H'. revert N D. induction evs as [|[x q|pt q] evs IH]; intros N D s0 s2 Dl; [now injection Dl as <-|discriminate|]. cbn [map erase] in N.
      pose proof (Forall_inv D) as Dp. apply Forall_inv_tail in D. cbn in Dp. cbn [deliver_all deliver] in Dl. rewrite (budget_ph_spec s0 pt q Dp) in Dl.
      destruct (b_addPostings _ (h_data s0) _ _) as [[b o] r]. destruct r; try discriminate. now rewrite (IH N D _ _ Dl).
    - clear Dl D. revert log log' H H'. induction evs as [|[x q|pt q] evs IH]; intros log log' H H'; [inversion H; inversion H'; reflexivity|discriminate|].
      cbn [map erase] in N. inversion H as [|? ? ? ? l1 H1| |]; subst. inversion H' as [|? ? ? ? l2 H2| |]; subst. f_equal. now apply IH. }
  destruct (R _ (HS 1 (h_out s1) (h_data s1)) e Dl) as (e2 & -> & T2).
  { unfold checked, checkAgainstFilters. rewrite N0, W. reflexivity. }
  rewrite T in T2. rewrite (refused_result _ _ e2 what) by exact T2. cbn [h_out]. now rewrite Q.
Qed.
End Flags.

(** There is always something to say, and only one thing. *)
Theorem C109_said : forall E L O, sane_clock E -> ~ good_flags E O 0 -> exists what, bad_flag E L O what /\ forall what', bad_flag E L O what' -> what' = what.
Proof.
  intros E L O C N.
  assert (K : forall n flag, good_flag E O n flag \/ (~ good_flag E O n flag /\ said L (e_year E n) flag (match parseSmartDate (e_year E n) flag with PErr e => err_text L e | _ => [] end))).
  { intros n flag. pose proof (flag_instant_spec E O n flag C) as F. unfold flag_instant in F. destruct flag as [|c flag]; [left; now left|]. cbn [is_nil negb andb] in F.
    destruct (o_current O) eqn:Cu; [left; right; now left|]. cbn [negb] in F.
    destruct (parseSmartDate (e_year E n) (c :: flag)) as [d|e|] eqn:P; [| |destruct F].
    - left. destruct F as [[[F|F] _]|(_ & _ & d' & M & _)]; [discriminate|congruence|]. right. right. eauto.
    - right. split; [exact F|]. apply said_of; [|exact P]. specialize (C n). lia. }
  assert (X : exists what, bad_flag E L O what).
  { destruct (K 0%nat (o_begin O)) as [G|[B S]]; [|eexists; now apply BadBegin; eauto].
    destruct (K 1%nat (o_end O)) as [G'|[B S]]; [destruct N; split; assumption|]. eexists. eapply BadEnd; eauto. }
  destruct X as [what B]. exists what. split; [exact B|]. intros what' B'.
  destruct (bad_within E L O C what (Txn zero_date NoState [] [] None [] []) B) as (e & W & <-).
  destruct (bad_within E L O C what' (Txn zero_date NoState [] [] None [] []) B') as (e' & W' & <-). congruence.
Qed.

(** ** Examples *)
Definition late_opts : opts := Opts (lit "j") (lit "02/29") [] false [] false false false.
Lemma asks_late : asks [lit "-f"; lit "j"; lit "-b"; lit "02/29"; lit "print"] Print late_opts false.
Proof.
  exists ([lit "-f"; lit "j"] ++ [lit "-b"; lit "02/29"] ++ []), [Given FFile (lit "j"); Given FBegin (lit "02/29")], (lit "print"), [], [].
  split; [reflexivity|]. split; [left; reflexivity|]. split.
  { constructor; [left; reflexivity|left; do 2 eexists; apply DocFile|apply (ShortNext FFile (lit "file") (ch "f")); apply DocFile|].
    constructor; [right; left; reflexivity|left; do 2 eexists; apply DocBegin|apply (ShortNext FBegin (lit "begin") (ch "b")); apply DocBegin|constructor]. }
  split; [cbn; intuition discriminate|]. split; [apply LinePlain; constructor|constructor; reflexivity].
Qed.
Definition late_files : list (str * str) := [(lit "j", text_of [lit "; my journal"; lit "include a.j"; lit "never read"]); (lit "a.j", text_of (cafe_lines ++ [lit "not read either"]))].
Lemma late_due : due U0 (disk late_files) 1 (lit "j") [lit "; my journal"; lit "include a.j"; lit "never read"] [] cafe_txn (lit "j:2
error at a.j:5
").
Proof.
  apply (DueIncluded U0 (disk late_files) 0 [] (lit "j") [lit "; my journal"] [] [] 0 (lit "a.j") (text_of (cafe_lines ++ [lit "not read either"])) (cafe_lines ++ [lit "not read either"]) [] cafe_txn
    [lit "never read"] (lit "j:2" ++ [10]) (lit "a.j:5" ++ [10])).
  - apply (FiledComment U0 _ 1 (lit "j") 59 (lit " my journal")); [now left|constructor].
  - constructor.
  - apply (RestComment [] 59 (lit " my journal")); [now left|constructor].
  - now left.
  - vm_compute. intuition discriminate.
  - exists []. split; [constructor|reflexivity].
  - exists (lit "a.j"). split; [valid_runes|]. split; [|reflexivity]. repeat split; try discriminate; try reflexivity; try valid_runes.
  - reflexivity.
  - apply text_lines_written. lines_fit.
  - apply (DueHere U0 (disk late_files) 0 (lit "a.j") [] [] [] (removelast cafe_lines) cafe_txn cafe_txn [] [lit "not read either"] (lit "a.j:5" ++ [10])).
    + constructor.
    + constructor.
    + exact cafe_txn_written.
    + constructor. split; [reflexivity|]. split; [repeat constructor; discriminate|reflexivity].
    + now left.
    + apply (Place (lit "a.j") 4 (lit "5")). repeat split; try discriminate. repeat constructor; cbn; lia.
  - apply (Place (lit "j") 1 (lit "2")). repeat split; try discriminate. repeat constructor; cbn; lia.
Qed.
Lemma late_bad : bad_flag (env0 late_files) L0 late_opts (lit "no 2006/01/02: 2021/02/29").
Proof.
  apply BadBegin.
  - intros [X|[X|[d X]]]; [discriminate|discriminate|]. cbn in X. apply smart_spec in X; [discriminate X|lia].
  - apply (SaidDay L0 2021 (lit "02/29") 47 (lit "02") (lit "29") (lit "2021")); try reflexivity; try discriminate.
    + apply CutSlash. exists (lit "02"), (lit "29"). repeat split; [discriminate|cbn; intuition discriminate].
    + cbn; intuition discriminate.
    + cbn; intuition discriminate.
    + repeat split; try discriminate. repeat constructor; cbn; lia.
Qed.
Example C109_example : let E := env0 late_files in
  sane_clock E /\ orders E /\ journal_path E late_opts = Some (lit "j") /\
  due (e_unicode E) (e_fs E) 1 (lit "j") [lit "; my journal"; lit "include a.j"; lit "never read"] [] cafe_txn (lit "j:2
error at a.j:5
") /\ filters_for E (o_args late_opts) [] /\ bad_flag E L0 late_opts (lit "no 2006/01/02: 2021/02/29") /\
  asks [lit "-f"; lit "j"; lit "-b"; lit "02/29"; lit "print"] Print late_opts false /\
  Main.gledger E L0 help0 lib0 [lit "-f"; lit "j"; lit "-b"; lit "02/29"; lit "print"] = Result (lit
"error at j:2
error at a.j:5
no 2006/01/02: 2021/02/29
") (Some 0).
Proof.
  cbv zeta. split; [apply env0_clock|]. split; [apply env0_orders|]. split; [reflexivity|]. split; [exact late_due|]. split; [split; constructor|].
  split; [exact late_bad|]. split; [exact asks_late|]. vm_compute. reflexivity.
Qed.

(** A budget entry first. *)
Definition asked_budget : list (str * str) := [(lit "j", lit
"~ 2020-01
  A    $5
  A    x5

2020-01-02 Shop
  A    $1
  B    $-1")].
Example C109_budget_example : let lines := plan_lines ++ [] :: removelast cafe_lines in
  let argv := [lit "-f"; lit "j"; lit "-b"; lit "02/29"; lit "budget"] in
  due U0 (disk [(lit "j", text_of lines)]) 0 (lit "j") lines [PerEntry plan_filled] cafe_txn [] /\ recorded [PerEntry plan_filled] = [] /\
  (forall E O fs, happened E O fs 0 [PerEntry plan_filled] (allocations plan_filled ++ [])) /\ Forall proper (allocations plan_filled ++ []) /\
  Main.gledger (env0 [(lit "j", text_of lines)]) L0 help0 lib0 argv = Result (lit "error at no 2006/01/02: 2021/02/29
") (Some 0) /\
  Main.gledger (env0 asked_budget) L0 help0 lib0 argv = Result (lit
"unhandled addition of unmatched commodities: '$' and 'x'
unhandled addition of unmatched commodities: '$' and 'x'
error at no 2006/01/02: 2021/02/29
") (Some 0).
Proof.
  cbv zeta. split.
  { change (plan_lines ++ [] :: removelast cafe_lines) with ((plan_lines ++ [[]]) ++ removelast cafe_lines).
    apply (DueLast U0 _ 0 (lit "j") (plan_lines ++ [[]]) [WBudget plan] [PerEntry plan_filled] (removelast cafe_lines) cafe_txn cafe_txn).
    - apply FiledBudget; [exact plan_written|repeat constructor|repeat constructor].
    - constructor; [|constructor]. constructor. apply (FundPays 2020 2 (as_postings plan)). repeat constructor; discriminate.
    - exact cafe_txn_written.
    - constructor. split; [reflexivity|]. split; [repeat constructor; discriminate|reflexivity]. }
  split; [reflexivity|]. split; [intros; constructor; constructor|]. split; [|vm_compute; split; reflexivity].
  repeat constructor; try discriminate.
Qed.

(** The other things said. *)
Example C109_said_example : let say b e := p_out (Main.gledger (env0 late_files) L0 help0 lib0 [lit "-f"; lit "a.j"; lit "-b"; lit b; lit "-e"; lit e; lit "print"]) in
  say "2020-13"%string "2021"%string = lit "error at a.j:5
no 2006-01: 2020-13
" /\
  say "2020.1.1"%string "2021"%string = lit "error at a.j:5
no 2006.01.02: 2020.1.1
" /\
  say "2020"%string "1/2/3/4"%string = lit "error at a.j:5
unhandled number of smart date components
" /\
  say "2020"%string "today"%string = lit "error at a.j:5
could not parse year: 'today'
" /\
  say "2020"%string "noon"%string = lit "error at a.j:5
no integer: noon
".
Proof. vm_compute. repeat split; reflexivity. Qed.
