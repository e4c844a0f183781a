(** * Date flags that are no dates, and what is to be said about them

    Independent of the lexer, the parser and parser/dates.go. *)
From Verif Require Import Base Utf8 Utf8Facts Unicode GoTime Journal Lexer Parser Spec TextSpec AmountFacts JournalText FlatSpec BookText FilesText MistakeText.

(** The text is cut at [sep]: it stands in it, and not first. *)
Definition cuts (sep : Z) (s : str) : Prop := exists a b, s = a ++ [sep] ++ b /\ a <> [] /\ ~ In sep a.
(** Of several separators, the slash goes before the point, the point before the dash. *)
Inductive cut_at (s : str) : Z -> Prop :=
| CutSlash : cuts 47 s -> cut_at s 47
| CutDot : ~ cuts 47 s -> cuts 46 s -> cut_at s 46
| CutDash : ~ cuts 47 s -> ~ cuts 46 s -> cuts 45 s -> cut_at s 45.

(** What is said of [s], when it is no date, in the year [now]. *)
Inductive said (L : err -> str) (now : Z) (s : str) : str -> Prop :=
| SaidYear : (forall sep, ~ cut_at s sep) -> length s <> 4%nat -> said L now s (lit "could not parse year: '" ++ s ++ lit "'")
| SaidDigits : (forall sep, ~ cut_at s sep) -> length s = 4%nat -> said L now s (L (EAtoi s))
| SaidMonth : forall sep a b, cut_at s sep -> s = a ++ [sep] ++ b -> ~ In sep a -> ~ In sep b -> length a = 4%nat ->
    said L now s (L (ETimeParse (lit "2006" ++ [sep] ++ lit "01") s))
| SaidDay : forall sep a b year, cut_at s sep -> s = a ++ [sep] ++ b -> ~ In sep a -> ~ In sep b -> length a <> 4%nat -> canonical year now ->
    said L now s (L (ETimeParse (lit "2006" ++ [sep] ++ lit "01" ++ [sep] ++ lit "02") (year ++ [sep] ++ s)))
| SaidFull : forall sep a b c, cut_at s sep -> s = a ++ [sep] ++ b ++ [sep] ++ c -> ~ In sep a -> ~ In sep b -> ~ In sep c ->
    said L now s (L (ETimeParse (lit "2006" ++ [sep] ++ lit "01" ++ [sep] ++ lit "02") s))
| SaidMany : forall sep a b c d, cut_at s sep -> s = a ++ [sep] ++ b ++ [sep] ++ c ++ [sep] ++ d ->
    said L now s (lit "unhandled number of smart date components").

Section Due.
Variables (U : unicode) (fs : str -> option file).

(** [due n path ls es t here]: after the entries [es], the lines [ls] of the file
    [path], or a file they include, have the transaction [t]; it is complete at the
    place [here]. *)
Inductive due : nat -> str -> list str -> list FlatSpec.entry -> transaction -> str -> Prop :=
| DueHere : forall n path before ws es ls t t' l rest here, filed U fs n path before ws -> Forall2 means ws es -> txn_written U ls t ->
    settled t t' -> begins l -> place path (length before + length ls) here -> due n path (before ++ ls ++ l :: rest) es t' here
| DueLast : forall n path before ws es ls t t', filed U fs n path before ws -> Forall2 means ws es -> txn_written U ls t ->
    settled t t' -> due n path (before ++ ls) es t' []
| DueIncluded : forall n dir base before ws es k name bytes inner es' t rest here there, filed U fs (S n) (dir ++ base) before ws -> Forall2 means ws es ->
    rested before -> (dir = [] \/ last dir 0 = 47) -> ~ In 47 base -> valid_utf8 dir -> spelt phrase name ->
    fs (dir ++ name) = Some (File bytes false) -> lines_written bytes inner -> due n (dir ++ name) inner es' t there ->
    place (dir ++ base) (length before) here ->
    due (S n) (dir ++ base) (before ++ (lit "include" ++ spaces (1 + k) ++ name) :: rest) (es ++ es') t (here ++ lit "error at " ++ there).
End Due.
