(** * Journal text: files, and journals in several files

    As in [JournalText.v], independent of the lexer and the parser. *)
From Verif Require Import Base Utf8 Utf8Facts Unicode GoTime Journal Lexer Parser Spec TextSpec JournalText BookText.

(** The bytes of a file with the lines given.  Lines end in a line feed, perhaps
    after a carriage return; the last may end with the file. *)
Inductive lines_written : str -> list str -> Prop :=
| FileEnd : lines_written [] []
| FileLast : forall l, l <> [] -> readable l -> lines_written l [l]
| FileLine : forall l s ls, readable l -> lines_written s ls -> lines_written (l ++ [10] ++ s) (l :: ls)
| FileLineCR : forall l s ls, readable l -> Z.of_nat (length l) < 4095 -> lines_written s ls ->
    lines_written (l ++ [13; 10] ++ s) (l :: ls).

(** The lines that may follow an entry at once: a blank line, or the first line of
    another entry. *)
Definition begins (l : str) : Prop :=
  l = [] \/ (exists d c, l = d :: c /\ digit d) \/ (exists c, l = 126 :: 32 :: c).

(** [filed n path ls ws]: the lines [ls] of the file [path], and of the files they
    include, at most [n] deep, are a journal with the entries [ws], in this order. *)
Section Files.
Variables (U : unicode) (fs : str -> option file).

Inductive filed : nat -> str -> list str -> list writing -> Prop :=
| FiledEnd : forall n path, filed n path [] []
| FiledTxn : forall n path ls t ls' ws, txn_written U ls t -> Forall begins (firstn 1 ls') -> filed n path ls' ws ->
    filed n path (ls ++ ls') (WTxn t :: ws)
| FiledBudget : forall n path ls a ls' ws, assignment_written U ls a -> Forall begins (firstn 1 ls') -> filed n path ls' ws ->
    filed n path (ls ++ ls') (WBudget a :: ws)
| FiledBlank : forall n path ls ws, filed n path ls ws -> filed n path ([] :: ls) ws
| FiledComment : forall n path c l ls ws, comment_sign c -> filed n path ls ws -> filed n path ((c :: l) :: ls) ws
| FiledInclude : forall n dir base k name bytes inner ws ls ws', (dir = [] \/ last dir 0 = 47) -> ~ In 47 base -> valid_utf8 dir ->
    spelt phrase name -> fs (dir ++ name) = Some (File bytes false) -> lines_written bytes inner ->
    filed n (dir ++ name) inner ws -> filed (S n) (dir ++ base) ls ws' ->
    filed (S n) (dir ++ base) ((lit "include" ++ spaces (1 + k) ++ name) :: ls) (ws ++ ws').
End Files.

(** Journals in one file are such. *)
Lemma book_filed : forall U fs path ls ws n, book_written U ls ws -> filed U fs n path ls ws.
Proof.
  intros U fs path ls ws n B. induction B; [constructor|apply FiledTxn|apply FiledBudget|apply FiledBlank|apply FiledComment]; auto.
  - constructor; [now left|constructor].
  - now apply FiledBlank.
  - constructor; [now left|constructor].
  - now apply FiledBlank.
Qed.
Lemma text_lines_written : forall ls, Forall readable ls -> lines_written (text_of ls) ls.
Proof.
  induction 1 as [|l ls R F IH]; [constructor|]. unfold text_of. cbn [flat_map]. rewrite <- app_assoc. now apply FileLine.
Qed.
