(** * The lines print prints for a journal in several files: C104 with C100 *)
From Verif Require Import Base BaseFacts Utf8 Utf8Facts Unicode GoTime Strconv Display Journal Lexer Parser ParserFacts
  Account Humanize Reporting Budget Cmd Main Spec TextSpec JournalText TreeSpec TreeFacts ReportSpec CalendarFacts CmdSpec StreamFacts CmdFacts BalanceFacts
  MainSpec JournalFacts AmountFacts DateFacts FlatSpec BookText WholeFacts FilesText FilesFacts BudgetSpec
  Sample PropsText PropsParser PropsCmd PropsBalance PropsStats PropsInput PropsPrint PropsAgain PropsPanic PropsMain PropsBudget PropsWords PropsWhole PropsBook PropsFiles PropsSheet.

(** A posting with its amount and its comments. *)
Inductive posting_page (p : posting) : list str -> Prop :=
| PostingPage : forall c q m, po_amount p = Some (Amount c q) -> nearly_money q m ->
    posting_page p ((lit "    " ++ po_account p ++ lit "    " ++ c ++ m) :: map (fun n => lit "      ; " ++ n) (po_comments p)).

(** A transaction: its heading, its notes, its postings, and an empty line. *)
Inductive page (t : transaction) : list str -> Prop :=
| Page : forall d ls, ymd_text 45 (t_date t) d -> Forall2 posting_page (t_postings t) ls ->
    page t ((d ++ [32] ++ state_mark (t_state t) ++ [32] ++ t_payee t ++ (if is_nil (t_headernote t) then [] else lit "    ; " ++ t_headernote t))
            :: map (fun n => lit "    ; " ++ n) (t_notes t) ++ concat ls ++ [[]]).

Lemma sheet_page : forall t ls, Forall priced (t_postings t) -> sheet t ls -> page t ls.
Proof.
  intros t ls P S. destruct S as [d pl D F].
  assert (G : Forall2 posting_page (t_postings t) pl).
  { clear D. induction F as [|p l ps pl S F IH]; [constructor|]. inversion P as [|? ? Pp P']; subst. constructor; [|now apply IH].
    destruct S as [c q m A N|A]; [exact (PostingPage p c q m A N)|contradiction]. }
  pose proof (Page t d pl D G) as R. destruct (t_headernote t) as [|c n]; exact R.
Qed.

Section Pages.
Variables (E : env) (L : err -> str) (help_text : list str -> str) (library : list str -> result).
Hypotheses (Clock : sane_clock E) (Orders : orders E).
Variables (O : opts) (path bytes : str) (ls : list str) (deep : nat) (written : list writing) (es : list FlatSpec.entry) (fs : list filter_).
Notation ts := (recorded es).
Hypotheses (Path : journal_path E O = Some path) (Held : e_fs E path = Some (File bytes false)) (Lines : lines_written bytes ls)
  (Written : filed (e_unicode E) (e_fs E) deep path ls written) (Deep : (deep <= e_depth E)%nat) (Settled : Forall2 means written es).
Hypotheses (Filters : filters_for E (o_args O) fs) (Flags : forall k, (k < length ts)%nat -> good_flags E O k).

(** print prints the transactions chosen, each once, in the order of their dates,
    with every line as written here. *)
Theorem C104_pages : forall argv, asks argv Print O false -> sorts E ->
  exists sel sorted pages, chosen E O fs 0 ts sel /\ Permutation sorted (map fst sel) /\ date_ordered sorted /\ Forall2 page sorted pages /\
    Main.gledger E L help_text library argv = Result (concat (map (fun l => l ++ [10]) (concat pages))) (Some 0).
Proof.
  intros argv A So. destruct (C79_flags_partial E L help_text library argv Print O false A) as [G _]. rewrite (G eq_refl). cbn [does].
  pose proof (files_readable E O path bytes ls deep written es Path Held Lines Written Deep Settled Flags) as R.
  destruct (C100_sheets E O fs Clock Orders So Filters R) as (sel & l & sheets & out & P & Pm & D & F2 & Q & Qo).
  pose proof (files_chosen E O path bytes ls deep written es fs Path Held Lines Written Deep Settled sel P) as Ch.
  exists (map unnumbered sel), l, sheets. split; [exact Ch|].
  split; [now rewrite selected_unnumbered|]. split; [exact D|]. split.
  - assert (K : forall t, In t l -> Forall priced (t_postings t)).
    { intros t I. apply (Permutation_in _ Pm) in I. apply in_map_iff in I as ([u ps] & <- & I). apply (picks_in _ _ _ _ _ _ _ P) in I as (I & _).
      pose proof (ts_priced written es Settled) as T.
      rewrite <- (files_txns E O path bytes ls deep written es Path Held Lines Written Deep Settled) in T.
      rewrite Forall_forall in T. apply T. now apply in_map. }
    clear -F2 K. induction F2 as [|t s l sheets S F IH]; constructor.
    + apply sheet_page; [|exact S]. apply K. now left.
    + apply IH. intros u I. apply K. now right.
  - unfold result_of. rewrite Q. cbn [r_out r_status]. rewrite Qo. reflexivity.
Qed.
End Pages.

Definition argv_pages : list str := [lit "-f"; lit "dir/main.j"; lit "print"; lit "cash"; lit "--begin=2020-02-01"].
Example C104_pages_example : let E := env2 main_files in sorts E /\ asks argv_pages Print O_main false /\
  Main.gledger E L0 help0 lib0 argv_pages = Result (lit
"2020-02-29 * Café    ; with Zoe
    Expenses:Eating out    $4.50
      ; two; for us
    Assets:Cash    $-4.50

") (Some 0).
Proof.
  intro E. split; [exact (env0_sorts [])|]. split.
  - exists ([lit "-f"; lit "dir/main.j"] ++ []), [Given FFile (lit "dir/main.j")], (lit "print"),
      ([lit "cash"] ++ [lit "--begin=2020-02-01"] ++ []), [Word (lit "cash"); Given FBegin (lit "2020-02-01")].
    split; [reflexivity|]. split; [left; reflexivity|]. split.
    { constructor; [left; reflexivity|left; do 2 eexists; apply DocFile|apply (ShortNext FFile (lit "file") (ch "f")); apply DocFile|constructor]. }
    split; [cbn; intuition discriminate|]. split.
    + apply LinePlain. apply LineWord; [right; right; split; discriminate|].
      apply LineFlag; [left; right; left; reflexivity|left; do 2 eexists; apply DocBegin|apply (LongEquals FBegin (lit "begin") (ch "b") true); apply DocBegin|constructor].
    + constructor; reflexivity.
  - vm_compute. reflexivity.
Qed.
