(** * From the text of a journal to a crash: C106, and the silence of C77

    As in [PropsMistake.v], the statements of C106 mention neither the lexer nor the
    parser nor the commands. *)
From Verif Require Import Base BaseFacts Utf8 Utf8Facts Unicode GoTime Strconv Display Journal Lexer Parser ParserFacts
  Account Humanize Reporting Budget Cmd Main Spec TextSpec JournalText ReportSpec CmdSpec StreamFacts CmdFacts
  MainSpec MainFacts JournalFacts AmountFacts DateFacts FlatSpec BookText WholeFacts FilesText FilesFacts BudgetSpec MistakeText MistakeFacts
  CrashText CrashFacts Sample PropsText PropsParser PropsCmd PropsInput PropsAgain PropsPanic PropsMain PropsWhole PropsBook PropsFiles StopFacts PropsMistake.

(** print, accounts and payees print nothing when reading breaks off. *)
Theorem C77_silent_partial : forall E L help_text library argv c O fs, asks argv c O false -> c = Print \/ c = Accounts \/ c = Payees ->
  sane_clock E -> orders E -> filters_for E (o_args O) fs -> flags_ok E O (txns 0 (fst (stream E O))) ->
  (snd (stream E O) = SPanic -> Main.gledger E L help_text library argv = Result [] (Some 2)) /\
  (snd (stream E O) = SFatal -> Main.gledger E L help_text library argv = Result [] (Some 1)).
Proof.
  intros E L help_text library argv c O fs As V C Or Fs Fl. destruct (C79_flags_partial E L help_text library _ _ _ _ As) as [G _]. rewrite (G eq_refl). clear G As.
  apply makeFilters_spec in Fs.
  assert (K : forall D (s : hstate D) k, h_out s = [] ->
    (snd (stream E O) = SPanic -> result_of L (finish (s, snd (stream E O)) k) = Result [] (Some 2)) /\
    (snd (stream E O) = SFatal -> result_of L (finish (s, snd (stream E O)) k) = Result [] (Some 1))).
  { intros D s k H. split; intros ->; unfold finish, result_of; cbn [r_status r_out]; now rewrite H. }
  destruct V as [->|[->| ->]]; cbn [does]; unfold accounts_cmd, payees_cmd, print_cmd, with_filters; rewrite Fs.
  - destruct (print_sure E O C Or fs Fl) as (s & -> & H). now apply K.
  - destruct (accounts_sure E O C Fl) as (s & -> & H). now apply K.
  - destruct (payees_sure E O C Fl) as (s & -> & H). now apply K.
Qed.

Section Crash.
Variables (E : env) (L : err -> str) (help_text : list str -> str) (library : list str -> result).
Hypotheses (Clock : sane_clock E) (Orders : orders E).
Variables (O : opts) (path bytes : str) (deep : nat) (es : list FlatSpec.entry) (x : Z) (fs : list filter_).

(** The journal named holds [bytes], at which, or at the files included by them, the
    program breaks off; the entries finished before that mean [es]. *)
Hypotheses (Path : journal_path E O = Some path) (Held : e_fs E path = Some (File bytes false))
  (Doom : doomed (e_unicode E) (e_fs E) deep path bytes es x) (Deep : (deep <= e_depth E)%nat).
Hypotheses (Filters : filters_for E (o_args O) fs) (Flags : forall k, (k < length (recorded es))%nat -> good_flags E O k).

Lemma doom_stream : map erase (fst (stream E O)) = es /\ (x = 2 /\ snd (stream E O) = SPanic \/ x = 1 /\ snd (stream E O) = SFatal).
Proof. unfold stream. rewrite Path, Held. eapply doomed_read; eassumption. Qed.
Lemma doom_priced : Forall (fun t => Forall priced (t_postings t)) (recorded es).
Proof. exact (doomed_priced _ _ _ _ _ _ _ Doom). Qed.
Lemma doom_result : forall D (s : hstate D) k, result_of L (finish (s, snd (stream E O)) k) = Result (concat (h_out s)) (Some x).
Proof. intros D s k. destruct doom_stream as (_ & [[-> Q]|[-> Q]]); rewrite Q; reflexivity. Qed.

(** print, accounts and payees: nothing on standard output, and the status. *)
Theorem C106_listing : forall argv c, asks argv c O false -> c = Print \/ c = Accounts \/ c = Payees ->
  Main.gledger E L help_text library argv = Result [] (Some x).
Proof.
  intros argv c As V. destruct (C77_silent_partial E L help_text library argv c O fs As V Clock Orders Filters) as [P F].
  { eapply stop_flags; [exact (proj1 doom_stream)|exact Flags]. }
  destruct doom_stream as (_ & [[-> S]|[-> S]]); auto.
Qed.

(** statistics too. *)
Theorem C106_statistics : forall argv, asks argv Statistics O false -> Main.gledger E L help_text library argv = Result [] (Some x).
Proof.
  intros argv As. destruct (C79_flags_partial E L help_text library _ _ _ _ As) as [G _]. rewrite (G eq_refl). cbn [does].
  pose proof (proj2 (makeFilters_spec _ _ _) Filters) as Fs. unfold stats_cmd, with_filters. rewrite Fs.
  destruct (stats_cut E O fs es Clock Orders (proj1 doom_stream) doom_priced Flags) as (s & -> & H). rewrite doom_result, H. reflexivity.
Qed.

(** balance has by then complained about the commodities mixed in the accounts, as
    far as it has come. *)
Theorem C106_balance : forall argv, asks argv Balance O false ->
  exists sel, chosen E O fs 0 (recorded es) sel /\
    Main.gledger E L help_text library argv = Result (concat (complaints [] (flat_map snd sel))) (Some x).
Proof.
  intros argv As. destruct (C79_flags_partial E L help_text library _ _ _ _ As) as [G _]. rewrite (G eq_refl). cbn [does].
  pose proof (proj2 (makeFilters_spec _ _ _) Filters) as Fs. unfold balance_cmd, with_filters. rewrite Fs.
  destruct (balance_cut E O fs es Clock Orders (proj1 doom_stream) doom_priced Flags) as (sel & s & Ch & -> & H).
  exists (map unnumbered sel). split; [exact Ch|]. rewrite doom_result, H, taken_unnumbered. reflexivity.
Qed.

(** So has budget, unless it crashes before it gets there. *)
Theorem C106_budget : forall argv, asks argv Budget_ O false ->
  ((exists log, happened E O fs 0 es log /\ Forall proper log) -> exists log, happened E O fs 0 es log /\
     Main.gledger E L help_text library argv = Result (concat (objected [] log)) (Some x)) /\
  ((forall log, happened E O fs 0 es log -> ~ Forall proper log) -> p_exit (Main.gledger E L help_text library argv) = Some 2).
Proof.
  intros argv As. destruct (C79_flags_partial E L help_text library _ _ _ _ As) as [G _]. rewrite (G eq_refl). cbn [does].
  pose proof (proj2 (makeFilters_spec _ _ _) Filters) as Fs. unfold budget_cmd, with_filters. rewrite Fs.
  destruct (budget_cut E O fs es Clock Orders (proj1 doom_stream) Flags) as [Good Bad]. split.
  - intro P. destruct (Good P) as (log & s & H & -> & Q). exists log. split; [exact H|]. now rewrite doom_result, Q.
  - intro N. specialize (Bad N). destruct (budget_run E O fs) as [s r]. cbn [snd] in Bad. subst r. reflexivity.
Qed.
End Crash.

(** ** Examples *)
Definition stray_lines : list str := cafe_lines ++ lit "  A    $1" :: [lit "never read"].
Definition stray_files : list (str * str) := [(lit "j", text_of top_lines); (lit "a.j", text_of stray_lines)].

Lemma one_written : posting_written U0 (lit "  A    $1") (Posting [] (lit "A") (Some (Amount (lit "$") 100))).
Proof.
  apply (AmountLine U0 0 (lit "A") 2 (lit "$") (lit "1") 100).
  - apply spelt_account; [asciis|letters].
  - exists (lit "$"). split; [valid_runes|]. split; [|reflexivity]. exists (lit "$"). repeat split; [|now left]. repeat constructor.
  - apply (WholeAmount [] 1 (lit "1")); [constructor|discriminate|repeat constructor; cbn; lia].
  - unfold in_int64, two63. lia.
Qed.

Lemma cafe_filed : forall fs n path, filed U0 fs n path cafe_lines [WTxn cafe_txn].
Proof. intros. apply book_filed. exact (journal_book _ _ _ cafe_written). Qed.

Lemma stray_doomed : doomed U0 (disk stray_files) 1 (lit "j") (text_of top_lines) [TxnEntry cafe_txn] 2.
Proof.
  apply (DoomedIncluded U0 (disk stray_files) 0 [] (lit "j") (text_of top_lines) [lit "; my journal"] [] [] 0 (lit "a.j") (text_of stray_lines) [TxnEntry cafe_txn] [lit "never read"]).
  - apply text_lines_written. lines_fit.
  - apply (FiledComment U0 _ 1 (lit "j") 59 (lit " my journal")); [now left|constructor].
  - constructor.
  - apply (RestComment [] 59 (lit " my journal")); [now left|constructor].
  - now left.
  - vm_compute. intuition discriminate.
  - exists []. split; [constructor|reflexivity].
  - exists (lit "a.j"). split; [valid_runes|]. split; [|reflexivity]. repeat split; try discriminate; try reflexivity; try valid_runes.
  - reflexivity.
  - apply (DoomedPosting U0 (disk stray_files) 0 (lit "a.j") (text_of stray_lines) cafe_lines [WTxn cafe_txn] [TxnEntry cafe_txn] (lit "  A    $1")
      (Posting [] (lit "A") (Some (Amount (lit "$") 100))) [lit "never read"]).
    + apply text_lines_written. lines_fit.
    + apply cafe_filed.
    + exact cafe_means.
    + discriminate.
    + apply (RestBlank (removelast cafe_lines)).
    + exact one_written.
Qed.

Example C106_example : let E := env0 stray_files in
  sane_clock E /\ orders E /\ journal_path E (opts0 "j") = Some (lit "j") /\ e_fs E (lit "j") = Some (File (text_of top_lines) false) /\
  doomed (e_unicode E) (e_fs E) 1 (lit "j") (text_of top_lines) [TxnEntry cafe_txn] 2 /\ (1 <= e_depth E)%nat /\
  filters_for E (o_args (opts0 "j")) [] /\ (forall k, (k < length (recorded [TxnEntry cafe_txn]))%nat -> good_flags E (opts0 "j") k) /\ asks [lit "-f"; lit "j"; lit "print"] Print (opts0 "j") false /\
  Main.gledger E L0 help0 lib0 [lit "-f"; lit "j"; lit "print"] = Result [] (Some 2).
Proof.
  cbv zeta. split; [apply env0_clock|]. split; [apply env0_orders|]. split; [reflexivity|]. split; [reflexivity|].
  split; [exact stray_doomed|]. split; [cbn; lia|]. split; [split; constructor|].
  split; [intros k _; split; left; reflexivity|]. split; [exact asks_print|]. vm_compute. reflexivity.
Qed.

(** Journals of the other kinds. *)
Lemma cafe_doomed : forall l rest, (forall bytes, lines_written bytes (cafe_lines ++ l :: rest) -> short_dated l -> doomed U0 (disk []) 0 (lit "j") bytes [TxnEntry cafe_txn] 2).
Proof. intros l rest bytes Lw D. eapply DoomedDate; [exact Lw|apply cafe_filed|exact cafe_means|exact D]. Qed.

Lemma spelt_dollar : spelt (fun c => c <> [] /\ Forall (commodity_char U0) c /\ isSpace (hd 0 c) = false) (lit "$").
Proof. exists (lit "$"). split; [valid_runes|]. split; [|reflexivity]. split; [discriminate|]. split; [repeat constructor|reflexivity]. Qed.

Lemma remark_here : remark_written (lit "  ; here") (lit "here").
Proof.
  apply (RemarkLine 0 59 1 (lit "here")); [now left|]. exists (lit "here"). split; [valid_runes|]. split; [split; discriminate|reflexivity].
Qed.

Definition shop_start : list str := [lit "2020-01-02   Shop"].
Lemma shop_unfinished : unfinished U0 shop_start.
Proof.
  apply (UnfinishedTxn U0 (lit "2020-01-02   Shop") (Date 2020 1 2) NoState (lit "Shop") [] [] [] [] []); try constructor.
  pose proof shop_written as W. inversion W as [h d s payee note nl notes pl ps HW NW PW NE EQ ET]. destruct nl as [|y nl].
  - inversion NW; subst. exact HW.
  - exfalso. inversion NW as [|? ? ? ? R]; subst; inversion R.
Qed.

Example C106_kinds_example :
  doomed U0 (disk []) 0 (lit "j") (text_of (cafe_lines ++ [lit "2020 Shop"])) [TxnEntry cafe_txn] 2 /\
  doomed U0 (disk []) 0 (lit "j") (text_of (cafe_lines ++ shop_start ++ [lit "  A    $ ; lots"])) [TxnEntry cafe_txn] 2 /\
  doomed U0 (disk []) 0 (lit "j") (text_of (cafe_lines ++ [lit "  ; here"])) [TxnEntry cafe_txn] 2 /\
  doomed U0 (disk []) 0 (lit "j") (text_of (cafe_lines ++ [lit "~ 2020-01"; lit "  ; here"])) [TxnEntry cafe_txn] 2 /\
  doomed U0 (disk []) 0 (lit "j") (text_of (cafe_lines ++ shop_start) ++ repeat 59 (Z.to_nat 4096) ++ []) [TxnEntry cafe_txn] 1.
Proof.
  split; [|split; [|split; [|split]]].
  - apply (cafe_doomed (lit "2020 Shop") []); [apply text_lines_written; lines_fit|].
    apply (ShortWord (lit "2020") (lit " Shop")); try valid_runes; [vm_compute; split; discriminate| |vm_compute; lia|now right].
    repeat apply Forall_cons; try apply Forall_nil; discriminate.
  - apply (DoomedAmount U0 _ 0 (lit "j") _ cafe_lines [WTxn cafe_txn] [TxnEntry cafe_txn] shop_start (lit "  A    $ ; lots") []); [apply text_lines_written; lines_fit|apply cafe_filed|exact cafe_means|exact shop_unfinished|].
    apply (CommodityRemark U0 0 (lit "A") 2 (lit "$") 0 59 (lit " lots")); [apply spelt_account; [asciis|letters]|exact spelt_dollar|now left|valid_runes].
  - apply (DoomedRemark U0 _ 0 (lit "j") _ cafe_lines [WTxn cafe_txn] [TxnEntry cafe_txn] (lit "  ; here") (lit "here") []); [apply text_lines_written; lines_fit|apply cafe_filed|exact cafe_means| |exact remark_here].
    apply (RestBlank (removelast cafe_lines)).
  - apply (DoomedNote U0 _ 0 (lit "j") _ cafe_lines [WTxn cafe_txn] [TxnEntry cafe_txn] (lit "~ 2020-01") (lit "  ; here") (lit "here") []); [apply text_lines_written; lines_fit|apply cafe_filed|exact cafe_means| |exact remark_here].
    apply (BudgetHeader 0 (lit "2020") (lit "01") 2020 1); [| |lia]; (split; [reflexivity|]); (split; [repeat constructor; cbn; lia|reflexivity]).
  - apply (DoomedLongInside U0 _ 0 (lit "j") _ cafe_lines [WTxn cafe_txn] [TxnEntry cafe_txn] shop_start []); [rewrite app_nil_r; apply text_lines_written; lines_fit|vm_compute; reflexivity|apply cafe_filed|exact cafe_means|exact shop_unfinished|constructor| | |now left].
    + intro I. apply repeat_spec in I. discriminate.
    + rewrite repeat_length. rewrite Z2Nat.id; lia.
Qed.
