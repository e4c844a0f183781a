(** * Journal text: budget entries, and journals with both

    As in [JournalText.v], independent of the lexer and the parser. *)
From Verif Require Import Base Utf8 Unicode GoTime Strconv Journal Spec TextSpec JournalText FlatSpec.

(** What is assigned in a month, as written. *)
Record assignment := Assignment { as_year : Z; as_month : Z; as_postings : list posting }.

(** A budget entry: the sign [~], the month, and posting lines. *)
Inductive assignment_written (U : unicode) : list str -> assignment -> Prop :=
| AssignmentWritten : forall k ys ms y m ls ps, numeral 4 ys y -> numeral 2 ms m -> 1 <= m <= 12 ->
    postings_written U ls ps -> ps <> [] ->
    assignment_written U ((126 :: spaces (1 + k) ++ ys ++ [45] ++ ms) :: ls) (Assignment y m ps).

(** The amount that makes the postings add up to zero; none if they do already. *)
Definition missing (ps : list posting) : option amount :=
  if total ps mod 2 ^ 64 =? 0 then None else Some (Amount (last_commodity ps) (wrap64 (- total ps))).

(** The entry with [before], [after] and, in between, the account that makes up for them. *)
Definition made_up (y m : Z) (before : list posting) (cs : list str) (a : str) (after : list posting) : ptransaction :=
  PTxn (Period (Date y m 1) (Date y m 1) PNone 0)
    (Txn (Date 1 1 1) NoState [] (before ++ Posting cs a (missing (before ++ after)) :: after) (Some (length before)) [] []).

(** It is the fund, unless an amount is left out: then it is that account, and
    nothing is taken from the fund. *)
Inductive budgeted : assignment -> ptransaction -> Prop :=
| FundPays : forall y m ps, Forall (fun p => ~ elided p) ps ->
    budgeted (Assignment y m ps) (made_up y m ps [] (lit "_budget_root_") [])
| OnePays : forall y m before cs a after, Forall (fun p => ~ elided p) (before ++ after) ->
    budgeted (Assignment y m (before ++ Posting cs a None :: after)) (made_up y m before cs a after).

(** A journal with transactions and budget entries, each followed by a blank line;
    blank lines and comment lines in between. *)
Inductive writing := WTxn (t : transaction) | WBudget (a : assignment).
Inductive book_written (U : unicode) : list str -> list writing -> Prop :=
| BookEnd : book_written U [] []
| BookTxn : forall ls t ls' ws, txn_written U ls t -> book_written U ls' ws ->
    book_written U (ls ++ [] :: ls') (WTxn t :: ws)
| BookBudget : forall ls a ls' ws, assignment_written U ls a -> book_written U ls' ws ->
    book_written U (ls ++ [] :: ls') (WBudget a :: ws)
| BookBlank : forall ls ws, book_written U ls ws -> book_written U ([] :: ls) ws
| BookComment : forall c l ls ws, comment_sign c -> book_written U ls ws -> book_written U ((c :: l) :: ls) ws.

(** What is meant by them. *)
Inductive means : writing -> entry -> Prop :=
| MeansTxn : forall t t', settled t t' -> means (WTxn t) (TxnEntry t')
| MeansBudget : forall a pt, budgeted a pt -> means (WBudget a) (PerEntry pt).

Lemma journal_book : forall U ls ts, journal_written U ls ts -> book_written U ls (map WTxn ts).
Proof. induction 1; cbn [map]; now constructor. Qed.
