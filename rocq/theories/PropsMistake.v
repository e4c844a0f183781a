(** * From the text of a journal with a mistake to the message: C105

    As in [PropsFiles.v], the statements mention neither the lexer nor the parser
    nor the commands. *)
From Verif Require Import Base BaseFacts Utf8 Utf8Facts Unicode GoTime Strconv Display Journal Lexer Parser ParserFacts
  Account Humanize Reporting Budget Cmd Main Spec TextSpec JournalText ReportSpec CmdSpec StreamFacts CmdFacts
  MainSpec MainFacts JournalFacts AmountFacts DateFacts FlatSpec BookText WholeFacts FilesText FilesFacts BudgetSpec MistakeText MistakeFacts
  Sample PropsText PropsParser PropsCmd PropsInput PropsAgain PropsPanic PropsMain PropsWhole PropsBook PropsFiles StopFacts.

Section Mistake.
Variables (E : env) (L : err -> str) (help_text : list str -> str) (library : list str -> result).
Hypotheses (Clock : sane_clock E) (Orders : orders E).
Variables (O : opts) (path bytes : str) (ls : list str) (deep : nat) (es : list FlatSpec.entry) (what : str) (fs : list filter_).

(** The journal named holds the lines [ls], in which, or in the files included by
    them, there is a mistake; the entries finished before it mean [es]. *)
Hypotheses (Path : journal_path E O = Some path) (Held : e_fs E path = Some (File bytes false)) (Lines : lines_written bytes ls)
  (Fault : faulty (e_unicode E) L (e_fs E) deep path ls es what) (Deep : (deep <= e_depth E)%nat).
(** The arguments are filters; the dates given are dates. *)
Hypotheses (Filters : filters_for E (o_args O) fs) (Flags : forall k, (k < length (recorded es))%nat -> good_flags E O k).

Lemma fault_stream : map erase (fst (stream E O)) = es /\ exists e, snd (stream E O) = SErr e /\ err_text L e = lit "error at " ++ what.
Proof. unfold stream. rewrite Path, Held. eapply faulty_read; eassumption. Qed.
Lemma fault_priced : Forall (fun t => Forall priced (t_postings t)) (recorded es).
Proof. exact (faulty_priced _ _ _ _ _ _ _ _ Fault). Qed.
Lemma fault_flags : flags_ok E O (txns 0 (fst (stream E O))).
Proof. eapply stop_flags; [exact (proj1 fault_stream)|exact Flags]. Qed.
Lemma fault_result : forall D (s : hstate D) k, result_of L (finish (s, snd (stream E O)) k) = Result (concat (h_out s) ++ lit "error at " ++ what ++ [10]) (Some 0).
Proof.
  intros D s k. destruct fault_stream as (_ & e & Q & T). pose proof (stream_error E O e Q) as U. rewrite Q. unfold finish, result_of. cbn [r_status r_out].
  destruct e; try (now destruct (U e)); rewrite T; now rewrite <- app_assoc.
Qed.

(** print, accounts and payees print the message and nothing else: where the first
    mistake is, through all files on the way there, and what it is. *)
Theorem C105_message : forall argv c, asks argv c O false -> c = Print \/ c = Accounts \/ c = Payees ->
  Main.gledger E L help_text library argv = Result (lit "error at " ++ what ++ [10]) (Some 0).
Proof.
  intros argv c As V. destruct fault_stream as (_ & e & S & T).
  destruct (C77_listing_partial E L help_text library argv c O fs As V Clock Orders Filters fault_flags) as [En P].
  specialize (P _ S). unfold ends_as in En. rewrite S in En. destruct En as [En _].
  destruct (Main.gledger E L help_text library argv) as [out ex]. cbn [p_out p_exit] in *. subst ex. f_equal. rewrite P, T. now rewrite <- app_assoc.
Qed.

(** statistics too. *)
Theorem C105_statistics : forall argv, asks argv Statistics O false ->
  Main.gledger E L help_text library argv = Result (lit "error at " ++ what ++ [10]) (Some 0).
Proof.
  intros argv As. destruct (C79_flags_partial E L help_text library _ _ _ _ As) as [G _]. rewrite (G eq_refl). cbn [does].
  pose proof (proj2 (makeFilters_spec _ _ _) Filters) as Fs. unfold stats_cmd, with_filters. rewrite Fs.
  destruct (stats_cut E O fs es Clock Orders (proj1 fault_stream) fault_priced Flags) as (s & -> & H). rewrite fault_result, H. reflexivity.
Qed.

(** balance has by then complained about the commodities mixed in the accounts, as
    far as it has come, and prints nothing else. *)
Theorem C105_balance : forall argv, asks argv Balance O false ->
  exists sel, chosen E O fs 0 (recorded es) sel /\
    Main.gledger E L help_text library argv = Result (concat (complaints [] (flat_map snd sel)) ++ lit "error at " ++ what ++ [10]) (Some 0).
Proof.
  intros argv As. destruct (C79_flags_partial E L help_text library _ _ _ _ As) as [G _]. rewrite (G eq_refl). cbn [does].
  pose proof (proj2 (makeFilters_spec _ _ _) Filters) as Fs. unfold balance_cmd, with_filters. rewrite Fs.
  destruct (balance_cut E O fs es Clock Orders (proj1 fault_stream) fault_priced Flags) as (sel & s & Ch & -> & H).
  exists (map unnumbered sel). split; [exact Ch|]. rewrite fault_result, H, taken_unnumbered. reflexivity.
Qed.

(** So has budget, unless it crashes before it gets there. *)
Theorem C105_budget : forall argv, asks argv Budget_ O false ->
  ((exists log, happened E O fs 0 es log /\ Forall proper log) -> exists log, happened E O fs 0 es log /\
     Main.gledger E L help_text library argv = Result (concat (objected [] log) ++ lit "error at " ++ what ++ [10]) (Some 0)) /\
  ((forall log, happened E O fs 0 es log -> ~ Forall proper log) -> p_exit (Main.gledger E L help_text library argv) = Some 2).
Proof.
  intros argv As. destruct (C79_flags_partial E L help_text library _ _ _ _ As) as [G _]. rewrite (G eq_refl). cbn [does].
  pose proof (proj2 (makeFilters_spec _ _ _) Filters) as Fs. unfold budget_cmd, with_filters. rewrite Fs.
  destruct (budget_cut E O fs es Clock Orders (proj1 fault_stream) Flags) as [Good Bad]. split.
  - intro P. destruct (Good P) as (log & s & H & -> & Q). exists log. split; [exact H|]. now rewrite fault_result, Q.
  - intro N. specialize (Bad N). destruct (budget_run E O fs) as [s r]. cbn [snd] in Bad. subst r. reflexivity.
Qed.
End Mistake.

(** ** Examples *)
Definition slip_lines : list str := cafe_lines ++ [lit "2020-01-02   Shop"; lit "  A"] ++ lit "  C    $12x" :: [lit "  D    $2"].
Definition top_lines : list str := [lit "; my journal"] ++ (lit "include" ++ spaces 1 ++ lit "a.j") :: [lit "never read"].
Definition slip_files : list (str * str) := [(lit "j", text_of top_lines); (lit "a.j", text_of slip_lines)].
Definition slip_text : str := lit
"j:2
error at a.j:8
error parsing amount: no integer: 12x".

Lemma cafe_means : Forall2 means [WTxn cafe_txn] [TxnEntry cafe_txn].
Proof. constructor; [constructor; constructor; split; [reflexivity|]; split; [repeat constructor; discriminate|reflexivity]|constructor]. Qed.

Lemma slip_faulty : faulty U0 L0 (disk slip_files) 1 (lit "j") top_lines [TxnEntry cafe_txn] slip_text.
Proof.
  apply (FaultyIncluded U0 L0 (disk slip_files) 0 [] (lit "j") [lit "; my journal"] [] [] 0 (lit "a.j") (text_of slip_lines) slip_lines [TxnEntry cafe_txn] [lit "never read"]
    (lit "j:2" ++ [10]) (lit "a.j:8" ++ [10] ++ lit "error parsing amount: no integer: 12x")).
  - apply (FiledComment U0 _ 1 (lit "j") 59 (lit " my journal")); [now left|constructor].
  - constructor.
  - apply (RestComment [] 59 (lit " my journal")); [now left|constructor].
  - now left.
  - vm_compute. intuition discriminate.
  - exists []. split; [constructor|reflexivity].
  - exists (lit "a.j"). split; [valid_runes|]. split; [|reflexivity]. repeat split; try discriminate; try reflexivity; try valid_runes.
  - reflexivity.
  - apply text_lines_written. lines_fit.
  - apply (FaultyAmount U0 L0 (disk slip_files) 0 (lit "a.j") cafe_lines [WTxn cafe_txn] [TxnEntry cafe_txn] [lit "2020-01-02   Shop"; lit "  A"] (lit "  C    $12x")
      [lit "  D    $2"] (lit "a.j:8" ++ [10]) (lit "error parsing amount: " ++ L0 (EParseInt (lit "12x")))).
    + apply book_filed. exact (journal_book _ _ _ cafe_written).
    + exact cafe_means.
    + apply (UnfinishedTxn U0 (lit "2020-01-02   Shop") (Date 2020 1 2) NoState (lit "Shop") [] [] [] [lit "  A"] [Posting [] (lit "A") None]).
      * pose proof shop_written as W. inversion W as [h d s payee note nl notes pl ps HW NW PW NE EQ ET]. destruct nl as [|x nl].
        -- inversion NW; subst. exact HW.
        -- exfalso. inversion NW as [|? ? ? ? R]; subst; inversion R.
      * constructor.
      * apply (MorePostings U0 (lit "  A") (Posting [] (lit "A") None) [] [] [] []); [|constructor|constructor].
        apply (ElidedLine U0 0 (lit "A")). apply spelt_account; [asciis|letters].
    + apply (BadAmount U0 L0 0 (lit "C") 2 (lit "$") (lit "12x") (lit "12x")).
      * apply spelt_account; [asciis|letters].
      * exists (lit "$"). split; [valid_runes|]. split; [|reflexivity]. exists (lit "$"). repeat split; [|now left]. repeat constructor.
      * valid_runes.
      * left. vm_compute. split; discriminate.
      * repeat apply Forall_cons; try apply Forall_nil; (split; [reflexivity|discriminate]).
      * apply FaultyPlain; [intros x X; injection X as <-; split; discriminate|]. apply FaultyWhole; [vm_compute; intuition discriminate|].
        intros n G. apply parse_int64_spec in G. discriminate G.
    + apply (Place (lit "a.j") 7 (lit "8")). repeat split; try discriminate. repeat constructor; cbn; lia.
  - apply (Place (lit "j") 1 (lit "2")). repeat split; try discriminate. repeat constructor; cbn; lia.
Qed.

Example C105_example : let E := env0 slip_files in
  sane_clock E /\ orders E /\ journal_path E (opts0 "j") = Some (lit "j") /\ e_fs E (lit "j") = Some (File (text_of top_lines) false) /\
  lines_written (text_of top_lines) top_lines /\ faulty (e_unicode E) L0 (e_fs E) 1 (lit "j") top_lines [TxnEntry cafe_txn] slip_text /\ (1 <= e_depth E)%nat /\
  filters_for E (o_args (opts0 "j")) [] /\ (forall k, (k < length (recorded [TxnEntry cafe_txn]))%nat -> good_flags E (opts0 "j") k) /\ asks [lit "-f"; lit "j"; lit "print"] Print (opts0 "j") false /\
  Main.gledger E L0 help0 lib0 [lit "-f"; lit "j"; lit "print"] = Result (lit
"error at j:2
error at a.j:8
error parsing amount: no integer: 12x
") (Some 0).
Proof.
  cbv zeta. split; [apply env0_clock|]. split; [apply env0_orders|]. split; [reflexivity|]. split; [reflexivity|]. split; [apply text_lines_written; lines_fit|].
  split; [exact slip_faulty|]. split; [cbn; lia|]. split; [split; constructor|].
  split; [intros k _; split; left; reflexivity|]. split; [exact asks_print|]. vm_compute. reflexivity.
Qed.

(** Lines of the other kinds. *)
Example C105_lines_example : garbled U0 (lit "account Assets") (lit "unexpected line type during lexing") /\
  garbled U0 (lit " A    $1") (lit "unexpected line type during lexing") /\
  garbled U0 (lit "import b.j") (lit "unexpected directive: import") /\ garbled U0 (lit "include  ") (lit "could not lex include directive") /\
  garbled U0 (lit "~2020-01") (lit "not enough spaces following ~") /\
  misdated L0 (lit "20200102 Shop") (lit "error parsing date
date is malformed: 20200102") /\
  misdated L0 (lit "2021-02-29 Shop") (lit "error parsing date
no 2006-01-02: 2021-02-29").
Proof.
  split. { apply (StrangeStart U0 97 (lit "ccount Assets")); try discriminate; [valid_runes|intros [X|X]; discriminate|reflexivity]. }
  split. { apply (StrangeStart U0 32 (lit "A    $1")); try discriminate; [valid_runes|intros [X|X]; discriminate|reflexivity]. }
  split. { apply (StrangeDirective U0 (lit "import") (lit " b.j")); try discriminate; try reflexivity; try valid_runes; [|now right].
    repeat apply Forall_cons; try apply Forall_nil; discriminate. }
  split; [apply (IncludeNothing U0 2)|].
  split. { apply (TightPeriod U0 (lit "2020-01")); [valid_runes|reflexivity]. }
  split.
  - apply (NoSeparator L0 (lit "20200102") (lit " Shop") 48); try reflexivity; try valid_runes.
    + vm_compute. split; discriminate.
    + repeat apply Forall_cons; try apply Forall_nil; discriminate.
    + now right.
    + intros [X|[X|X]]; discriminate.
  - apply (NoSuchDay L0 (lit "2021-02-29") (lit " Shop") 45); try reflexivity; try valid_runes.
    + vm_compute. split; discriminate.
    + repeat apply Forall_cons; try apply Forall_nil; discriminate.
    + now right.
    + now left.
    + intros d Y R. assert (X : time_parse (layout_ymd 45) (lit "2021-02-29") = Some d) by (apply time_parse_ymd; now split). discriminate X.
Qed.

(** Before the mistake is reached, balance may have complained; a wrong line inside
    an entry; a wrong header line that finishes the entry before it. *)
Definition mixed_lines : list str := [lit "2020-01-01 Cafe"; lit "  A    $1"; lit "  B    $-1"; []; lit "2020-01-02 Pub"; lit "  A    x1"; lit "  B    $-1"].
Lemma asks_balance : asks [lit "-f"; lit "j"; lit "balance"] Balance (opts0 "j") false.
Proof.
  exists ([lit "-f"; lit "j"] ++ []), [Given FFile (lit "j")], (lit "balance"), [], [].
  split; [reflexivity|]. split; [left; reflexivity|]. split.
  { constructor; [left; reflexivity|left; do 2 eexists; apply DocFile|apply (ShortNext FFile (lit "file") (ch "f")); apply DocFile|constructor]. }
  split; [cbn; intuition discriminate|]. split; [apply LinePlain; constructor|constructor; reflexivity].
Qed.
Example C105_reports_example : asks [lit "-f"; lit "j"; lit "balance"] Balance (opts0 "j") false /\
  (forall fs, faulty U0 L0 fs 0 (lit "j") (cafe_lines ++ lit "20200102 Shop" :: []) [TxnEntry cafe_txn] (lit "j:6
error parsing date
date is malformed: 20200102")) /\
  Main.gledger (env0 [(lit "j", text_of (mixed_lines ++ [lit "20200102 Shop"]))]) L0 help0 lib0 [lit "-f"; lit "j"; lit "balance"] = Result (lit
"unhandled addition of unmatched commodities: '$' and 'x'
unhandled addition of unmatched commodities: '$' and 'x'
error at j:8
error parsing date
date is malformed: 20200102
") (Some 0) /\
  Main.gledger (env0 [(lit "j", text_of (mixed_lines ++ [lit "account Assets"]))]) L0 help0 lib0 [lit "-f"; lit "j"; lit "balance"] = Result (lit
"error at j:8
unexpected line type during lexing
") (Some 0).
Proof.
  split; [exact asks_balance|]. split.
  - intro fs. apply (FaultyDate U0 L0 fs 0 (lit "j") cafe_lines [WTxn cafe_txn] [TxnEntry cafe_txn] (lit "20200102 Shop") [] (lit "j:6" ++ [10]) (lit "error parsing date
date is malformed: 20200102")).
    + apply book_filed. exact (journal_book _ _ _ cafe_written).
    + exact cafe_means.
    + apply C105_lines_example.
    + apply (Place (lit "j") 5 (lit "6")). repeat split; try discriminate. repeat constructor; cbn; lia.
  - vm_compute. split; reflexivity.
Qed.
