(** * From the text of a journal with budget entries to the budget report: C103

    As in [PropsWhole.v], the statements mention neither the lexer nor the parser
    nor the command. *)
From Verif Require Import Base BaseFacts Utf8 Unicode GoTime Strconv Display Journal Lexer Parser ParserFacts
  Account Humanize Reporting Budget Cmd Main Spec TextSpec JournalText TreeSpec TreeFacts ReportSpec CalendarFacts CmdSpec StreamFacts CmdFacts
  MainSpec JournalFacts AmountFacts DateFacts FlatSpec BookText PeriodFacts WholeFacts BudgetSpec
  Sample PropsText PropsParser PropsCmd PropsInput PropsAgain PropsPanic PropsMain PropsBudget PropsWhole.

(** What happens to the budget: spending and income of the transactions, and what
    the budget entries assign. *)
Definition happens (es : list FlatSpec.entry) : list move :=
  flat_map (fun e => match e with TxnEntry t => activity t (t_postings t) | PerEntry pt => allocations pt end) es.

(** The entries of a journal reach the commands one by one, in the order written. *)
Theorem C103_read : forall U fs depth path ls written es, book_written U ls written -> Forall JournalText.readable ls ->
  Forall2 means written es -> trace U fs depth path (File (text_of ls) false) = (map (from path) es, SOk).
Proof. exact book_written_read. Qed.

Section Book.
Variables (E : env) (L : err -> str) (help_text : list str -> str) (library : list str -> result).
Hypotheses (Clock : sane_clock E) (Orders : orders E).
Variables (O : opts) (path : str) (ls : list str) (written : list writing) (es : list FlatSpec.entry).
Hypotheses (Path : journal_path E O = Some path) (Held : e_fs E path = Some (File (text_of ls) false))
  (Written : book_written (e_unicode E) ls written) (Short : Forall JournalText.readable ls) (Settled : Forall2 means written es).
Hypotheses (Plain : plain O) (Years : Forall (fun t => 1 <= d_year (t_date t)) (recorded es)).
Notation gledger := (Main.gledger E L help_text library).

Lemma book_stream : stream E O = (map (from path) es, SOk).
Proof. eapply whole_stream; eassumption. Qed.

Lemma book_dated : Forall (fun t => 0 <= instant (t_date t)) (recorded es).
Proof. eapply whole_dated; eassumption. Qed.

Lemma book_history : forall log, history E O [] 0 (fst (stream E O)) log <-> log = happens es.
Proof.
  rewrite book_stream. cbn [fst]. generalize 0%nat. pose proof book_dated as Y. clear - Plain Y.
  induction es as [|[t|pt] l IH]; intros n log; cbn [map from happens flat_map].
  - split; [intro H; now inversion H|intros ->; constructor].
  - inversion Y as [|? ? Yt Y']; subst. pose proof (plain_within E O n (t_date t) Plain Yt) as W. split.
    + intro H. inversion H as [| |? ? ? ? ? No H'|? ? ? ps ? ? W' Hi Pm Wh H']; subst.
      * exfalso. destruct No as [No|No]; [contradiction|discriminate].
      * rewrite (Wh (or_introl eq_refl)). f_equal. now apply (IH Y') in H'.
    + intros ->. apply HistTxn; auto. now apply (IH Y').
  - split.
    + intro H. inversion H as [|? ? ? ? ? H'| |]; subst. f_equal. now apply (IH Y) in H'.
    + intros ->. apply HistBudget. now apply (IH Y).
Qed.

(** budget prints a block for every month in which something happens, and fails
    when a posting has no amount or, to Expenses, no category. *)
Theorem C103_budget : forall argv, asks argv Budget_ O false ->
  (Forall proper (happens es) -> exists months blocks, months_of (happens es) months /\
     Forall2 (fun ym b => month_block (fst ym) (snd ym) (month (fst ym) (snd ym) (happens es)) b) months blocks /\
     gledger argv = Result (concat (objected [] (happens es) ++ concat blocks)) (Some 0)) /\
  (~ Forall proper (happens es) -> p_exit (gledger argv) = Some 2).
Proof.
  intros argv A. assert (Rd : CmdSpec.readable E O) by (eapply readable_plain; [exact Plain|exact book_stream]).
  assert (Fl : filters_for E (o_args O) []) by (destruct Plain as (_ & _ & _ & ->); split; constructor). split.
  - intro P. destruct (C79_flags_partial E L help_text library argv Budget_ O false A) as [G _]. rewrite (G eq_refl). cbn [does].
    destruct (C48_report E O [] Clock Orders Fl) as [Ok R].
    assert (S : r_status (budget_cmd E O) = SOk) by (apply Ok; split; [exact Rd|]; exists (happens es); split; [now apply book_history|exact P]).
    destruct (R S) as (log & l & bs & H & M & Fb & Q). apply book_history in H. subst log. exists l, bs. split; [exact M|]. split; [exact Fb|].
    destruct (budget_cmd E O) as [out st]. cbn [r_out r_status] in *. subst st out. reflexivity.
  - intro N. destruct (C77_reports_partial E L help_text library argv Budget_ O [] A (or_intror (or_introl eq_refl)) Clock Orders Fl Rd) as [[X|X] Y]; [|exact X].
    exfalso. apply N. apply Y in X as (_ & X & _). destruct (X eq_refl) as (log & H & P). apply book_history in H. now subst log.
Qed.

(** Entries whose amounts add up to zero, and postings to Expenses itself, are such. *)
Theorem C103_fails : forall argv, asks argv Budget_ O false ->
  (exists a, In (WBudget a) written /\ total (as_postings a) mod 2 ^ 64 = 0) \/
  (exists t p, In t (recorded es) /\ In p (t_postings t) /\ po_account p = lit "Expenses") ->
  p_exit (gledger argv) = Some 2.
Proof.
  intros argv A H. apply (C103_budget argv A). intro P. rewrite Forall_forall in P. destruct H as [(a & I & Z)|(t & p & It & Ip & Ac)].
  - assert (X : exists pt, In (PerEntry pt) es /\ budgeted a pt).
    { clear - Settled I. induction Settled as [|w e l l' S F IH]; [destruct I|]. destruct I as [->|I].
      - inversion S; subst. exists pt. split; [now left|assumption].
      - destruct (IH F I) as (pt & J & B). exists pt. split; [now right|exact B]. }
    destruct X as (pt & J & B).
    assert (G : exists cs ac, In (Posting cs ac None) (t_postings (pt_txn pt))).
    { destruct B as [y m ps F|y m before cs ac after F]; cbn [as_postings made_up pt_txn t_postings] in *; unfold missing.
      - rewrite app_nil_r, Z, Z.eqb_refl. do 2 eexists. apply in_or_app. right. left. reflexivity.
      - rewrite total_one in Z. rewrite Z, Z.eqb_refl. do 2 eexists. apply in_or_app. right. left. reflexivity. }
    destruct G as (cs & ac & G). destruct (P (Move EnvelopePosting (pe_start (pt_period pt)) (Posting cs ac None))) as [Q _]; [|now apply Q].
    unfold happens. apply in_flat_map. exists (PerEntry pt). split; [exact J|]. now apply in_map.
  - unfold recorded in It. apply in_flat_map in It as ([u|pt] & It & J); [|destruct J]. destruct J as [->|[]].
    destruct (P (Move ExpensePosting (t_date t) p)) as [_ Q].
    + unfold happens. apply in_flat_map. exists (TxnEntry t). split; [exact It|]. unfold activity. apply in_flat_map. exists p. split; [exact Ip|].
      unfold components. rewrite Ac. change (firstn 1 (split 58 (lit "Expenses"))) with [lit "Expenses"]. destruct (list_str_dec _ _); [now left|congruence].
    + apply Q. unfold category, components. cbn [is_spend mv_type mv_posting]. rewrite Ac. reflexivity.
Qed.

(** ** The amounts in terms of what is written *)

(** What the budget entries of a month, as written, assign to the category [k] ... *)
Definition set_aside (y m : Z) (k : str) : Z :=
  total (flat_map (fun w => match w with
    | WBudget a => if (as_year a =? y) && (as_month a =? m) then filter (fun p => prefixb [k] (components p)) (as_postings a) else []
    | WTxn _ => []
    end) written).
(** ... and what the transactions of a month spend on it. *)
Definition paid (y m : Z) (k : str) : Z :=
  total (flat_map (fun t => if (d_year (t_date t) =? y) && (d_month (t_date t) =? m)
    then filter (fun p => prefixb [lit "Expenses"; k] (components p)) (t_postings t) else []) (recorded es)).

Lemma sum_app : forall f a b, sum_of f (a ++ b) = sum_of f a + sum_of f b.
Proof. intros f a b. unfold sum_of. now rewrite filter_app, map_app, total_app. Qed.

Lemma filter_cons_app : forall A (f : A -> bool) x l, filter f (x :: l) = filter f [x] ++ filter f l.
Proof. intros. cbn. now destruct (f x). Qed.

Lemma month_app : forall y m a b, month y m (a ++ b) = month y m a ++ month y m b.
Proof. intros. apply filter_app. Qed.

Lemma assigned_app : forall k a b, assigned k (a ++ b) = assigned k a + assigned k b.
Proof. intros. apply sum_app. Qed.
Lemma spent_app : forall k a b, spent k (a ++ b) = spent k a + spent k b.
Proof. intros. apply sum_app. Qed.

Lemma assigned_activity : forall y m k t ps, assigned k (month y m (activity t ps)) = 0.
Proof.
  intros y m k t ps. unfold activity. induction ps as [|p ps IH]; [reflexivity|]. cbn [flat_map]. rewrite month_app, assigned_app, IH, Z.add_0_r.
  destruct (list_str_dec _ _); [|destruct (list_str_dec _ _)]; unfold month; cbn [filter]; try reflexivity; destruct (in_month _ _ _); reflexivity.
Qed.

Lemma spent_allocations : forall y m k pt, spent k (month y m (allocations pt)) = 0.
Proof.
  intros y m k pt. unfold allocations. induction (t_postings (pt_txn pt)) as [|p ps IH]; [reflexivity|].
  change (map ?f (?x :: ?l)) with ([f x] ++ map f l). rewrite month_app, spent_app, IH, Z.add_0_r.
  unfold month. cbn [filter]. destruct (in_month _ _ _); reflexivity.
Qed.

Lemma spent_activity : forall y m k t ps, spent [k] (month y m (activity t ps)) =
  total (if (d_year (t_date t) =? y) && (d_month (t_date t) =? m) then filter (fun p => prefixb [lit "Expenses"; k] (components p)) ps else []).
Proof.
  intros y m k t ps. unfold activity. induction ps as [|p ps IH]; [now destruct (_ && _)|]. cbn [flat_map]. rewrite month_app, spent_app, IH.
  rewrite (filter_cons_app _ _ p ps).
  assert (X : spent [k] (month y m (if list_str_dec (firstn 1 (components p)) [lit "Expenses"] then [Move ExpensePosting (t_date t) p]
      else if list_str_dec (firstn 1 (components p)) [lit "Income"] then [Move IncomePosting (t_date t) p] else [])) =
    total (if (d_year (t_date t) =? y) && (d_month (t_date t) =? m) then filter (fun p => prefixb [lit "Expenses"; k] (components p)) [p] else [])).
  { destruct (list_str_dec (firstn 1 (components p)) [lit "Expenses"]) as [Q|Q].
    - unfold month, in_month. cbn [filter mv_date]. destruct ((d_year (t_date t) =? y) && (d_month (t_date t) =? m)); [|reflexivity].
      unfold spent, sum_of. cbn [filter map]. unfold concerns, category, to_fund, is_spend, is_assign, is_earn. cbn [mv_type negb andb mv_posting].
      destruct (components p) as [|c cs]; [discriminate|]. cbn [firstn] in Q. injection Q as ->.
      change (prefixb [lit "Expenses"; k] (lit "Expenses" :: cs)) with (str_eqb (lit "Expenses") (lit "Expenses") && prefixb [k] cs).
      rewrite str_eqb_refl. cbn [andb tl]. destruct (prefixb [k] cs); reflexivity.
    - assert (N : prefixb [lit "Expenses"; k] (components p) = false).
      { destruct (components p) as [|c cs]; [reflexivity|].
        change (prefixb [lit "Expenses"; k] (c :: cs)) with (str_eqb (lit "Expenses") c && prefixb [k] cs).
        destruct (str_eqb (lit "Expenses") c) eqn:Y; [|reflexivity]. exfalso. apply str_eqb_eq in Y. subst c. now apply Q. }
      replace (filter (fun p0 => prefixb [lit "Expenses"; k] (components p0)) [p]) with (@nil posting) by (cbn [filter]; now rewrite N).
      replace (if _ && _ then [] else []) with (@nil posting) by (now destruct (_ && _)).
      destruct (list_str_dec _ _); unfold month; cbn [filter]; [destruct (in_month _ _ _)|]; reflexivity. }
  rewrite X. destruct (_ && _); [now rewrite total_app|reflexivity].
Qed.

Lemma assigned_allocations : forall y m k d t, assigned [k] (month y m (allocations (PTxn (Period d d PNone 0) t))) =
  total (if (d_year d =? y) && (d_month d =? m) then filter (fun p => negb (str_eqb (po_account p) (lit "_budget_root_")) && prefixb [k] (components p)) (t_postings t) else []).
Proof.
  intros y m k d t. unfold allocations. cbn [pt_period pe_start pt_txn]. induction (t_postings t) as [|p ps IH]; [now destruct (_ && _)|].
  change (map ?f (p :: ps)) with ([f p] ++ map f ps). rewrite month_app, assigned_app, IH.
  rewrite (filter_cons_app _ _ p ps).
  unfold month, in_month. cbn [filter mv_date]. destruct ((d_year d =? y) && (d_month d =? m)); [|reflexivity]. rewrite total_app. f_equal.
  unfold assigned, sum_of. cbn [filter map]. unfold concerns, category, to_fund, is_spend, is_assign, is_earn. cbn [mv_type negb andb mv_posting].
  destruct (_ && _); reflexivity.
Qed.

(** When no budget entry leaves an amount out, the columns of the report are sums
    of what is written, the fund's own share being in none of them. *)
Theorem C103_columns : Forall (fun w => match w with WBudget a => Forall priced (as_postings a) | WTxn _ => True end) written ->
  forall y m k, assigned [k] (month y m (happens es)) = set_aside y m k /\ spent [k] (month y m (happens es)) = paid y m k.
Proof.
  intros P y m k. assert (Nf : Forall (fun w => match w with WBudget a => Forall (fun p => po_account p <> lit "_budget_root_") (as_postings a) | WTxn _ => True end) written).
  { clear - Written. induction Written as [|? ? ? ? ? ? IH|? a ? ? Aw ? IH|? ? ? IH|? ? ? ? ? ? IH]; auto. constructor; [|auto].
    destruct Aw as [j ys ms y m pl ps NY NM RM PW NE]. cbn [as_postings]. exact (not_fund _ _ _ PW). }
  unfold set_aside, paid. clear - P Nf Settled. induction Settled as [|w e l l' S F IH]; [split; reflexivity|].
  inversion P as [|? ? Pw P']; subst. inversion Nf as [|? ? Nw N']; subst. destruct (IH F P' N') as [IA IS].
  cbn [happens flat_map recorded]. fold (happens l'). rewrite !month_app, assigned_app, spent_app, IA, IS. clear IH IA IS.
  destruct S as [t t' S|a pt S]; cbn [app flat_map].
  - rewrite assigned_activity, spent_activity. unfold recorded. rewrite total_app. split; [reflexivity|]. f_equal.
  - rewrite spent_allocations. rewrite total_app. split; [|reflexivity]. f_equal.
    destruct S as [y' m' ps F1|y' m' before cs ac after F1]; cbn [as_year as_month as_postings] in *.
    + unfold made_up. rewrite assigned_allocations. cbn [d_year d_month t_postings]. destruct ((y' =? y) && (m' =? m)); [|reflexivity].
      rewrite filter_app. cbn [filter po_account]. rewrite str_eqb_refl. cbn [negb andb]. rewrite app_nil_r. f_equal.
      apply filter_ext_in. intros p I. rewrite Forall_forall in Nw. specialize (Nw p I).
      destruct (str_eqb (po_account p) (lit "_budget_root_")) eqn:Q; [apply str_eqb_eq in Q; contradiction|reflexivity].
    + exfalso. apply Forall_app in Pw as [_ Pw]. inversion Pw as [|? ? X _]. now apply X.
Qed.
End Book.

(** ** Example *)
Definition plan_lines : list str := [lit "~  2020-02"; lit "  Eating out    $20"; lit "  ; for both"; lit "  Rent    $300.50"].
Definition plan : assignment :=
  Assignment 2020 2 [Posting [lit "for both"] (lit "Eating out") (cents "$" 2000); Posting [] (lit "Rent") (cents "$" 30050)].
Lemma dollars : spelt (commodity_text U0) (lit "$").
Proof.
  exists (lit "$"). split; [valid_runes|]. split; [|reflexivity]. exists (lit "$"). repeat split; [|now left]. repeat constructor.
Qed.
Lemma plan_written : assignment_written U0 plan_lines plan.
Proof.
  apply (AssignmentWritten U0 1 (lit "2020") (lit "02") 2020 2 [lit "  Eating out    $20"; lit "  ; for both"; lit "  Rent    $300.50"]); try lia; try discriminate.
  - split; [reflexivity|]. split; [repeat constructor; cbn; lia|reflexivity].
  - split; [reflexivity|]. split; [repeat constructor; cbn; lia|reflexivity].
  - apply (MorePostings U0 (lit "  Eating out    $20") (Posting [] (lit "Eating out") (cents "$" 2000)) [lit "  ; for both"] [lit "for both"]).
    + apply (AmountLine U0 0 (lit "Eating out") 2 (lit "$") (lit "20") 2000).
      * apply spelt_account; [asciis|letters].
      * exact dollars.
      * apply (WholeAmount [] 1 (lit "20")); [constructor|discriminate|repeat constructor; cbn; lia].
      * unfold in_int64, two63. lia.
    + constructor; [|constructor]. apply (RemarkLine 0 59 1 (lit "for both")); [now left|].
      exists (lit "for both"). split; [valid_runes|]. split; [|reflexivity]. split; discriminate.
    + apply (MorePostings U0 (lit "  Rent    $300.50") (Posting [] (lit "Rent") (cents "$" 30050)) [] []); [|constructor|constructor].
      apply (AmountLine U0 0 (lit "Rent") 2 (lit "$") (lit "300.50") 30050).
      * apply spelt_account; [asciis|letters].
      * exact dollars.
      * apply (CentsAmount [] 1 (lit "300") (lit "50") 50); [constructor|discriminate|repeat constructor; cbn; lia|].
        split; [reflexivity|]. split; [repeat constructor; cbn; lia|reflexivity].
      * unfold in_int64, two63. lia.
Qed.

Definition book_lines : list str := plan_lines ++ [] :: cafe_lines.
Definition plan_filled : ptransaction :=
  made_up 2020 2 (as_postings plan) [] (lit "_budget_root_") [].
Lemma asks_budget : asks [lit "-f"; lit "j"; lit "budget"] Budget_ (opts0 "j") false.
Proof.
  exists ([lit "-f"; lit "j"] ++ []), [Given FFile (lit "j")], (lit "budget"), [], [].
  split; [reflexivity|]. split; [left; reflexivity|]. split.
  { constructor; [left; reflexivity|left; do 2 eexists; apply DocFile|apply (ShortNext FFile (lit "file") (ch "f")); apply DocFile|constructor]. }
  split; [cbn; intuition discriminate|]. split; [apply LinePlain; constructor|constructor; reflexivity].
Qed.

Example C103_example : let E := env0 [(lit "j", text_of book_lines)] in
  let written := [WBudget plan; WTxn cafe_txn] in let es := [PerEntry plan_filled; TxnEntry cafe_txn] in
  book_written U0 book_lines written /\ Forall JournalText.readable book_lines /\
  Forall2 means written es /\ journal_path E (opts0 "j") = Some (lit "j") /\
  e_fs E (lit "j") = Some (File (text_of book_lines) false) /\ plain (opts0 "j") /\
  Forall (fun t => 1 <= d_year (t_date t)) (recorded es) /\ sane_clock E /\ orders E /\
  Forall (fun w => match w with WBudget a => Forall priced (as_postings a) | WTxn _ => True end) written /\
  asks [lit "-f"; lit "j"; lit "budget"] Budget_ (opts0 "j") false /\ Forall proper (happens es) /\
  set_aside written 2020 2 (lit "Eating out") = 2000 /\ paid es 2020 2 (lit "Eating out") = 450 /\
  t_postings (pt_txn plan_filled) = as_postings plan ++ [Posting [] (lit "_budget_root_") (cents "$" (-32050))] /\
  Main.gledger E L0 help0 lib0 [lit "-f"; lit "j"; lit "budget"] = Result (concat (month_heading 2020 2 (month 2020 2 (happens es))) ++ lit
"Eating out                     |                -4.50 |                20.00 |               $15.50 |
Rent                           |                 0.00 |               300.50 |              $300.50 |

") (Some 0).
Proof.
  cbv zeta. split.
  { apply (BookBudget U0 plan_lines plan cafe_lines); [exact plan_written|exact (journal_book _ _ _ cafe_written)]. }
  split. { repeat constructor; vm_compute; try discriminate; try reflexivity; intro X; repeat (destruct X as [X|X]; [discriminate X|]); exact X. }
  split.
  { constructor; [constructor; apply FundPays; repeat constructor; discriminate|]. constructor; [|constructor].
    constructor; constructor; split; [reflexivity|]; split; [repeat constructor; discriminate|reflexivity]. }
  split; [reflexivity|]. split; [reflexivity|]. split; [repeat split|]. split; [repeat constructor; cbn; lia|]. split; [apply env0_sane|]. split; [apply env0_orders|].
  split; [repeat constructor; discriminate|]. split; [exact asks_budget|].
  split. { repeat constructor; vm_compute; discriminate. }
  split; [vm_compute; reflexivity|]. split; [vm_compute; reflexivity|]. split; [vm_compute; reflexivity|].
  vm_compute. reflexivity.
Qed.
