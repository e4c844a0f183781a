(** * Journal text with a mistake, and what is to be said about it

    As in [JournalText.v], independent of the lexer and the parser.  [L] gives the
    texts of errors of the standard library. *)
From Verif Require Import Base Utf8 Utf8Facts Unicode GoTime Journal Lexer Parser Spec TextSpec AmountFacts JournalText FlatSpec BookText FilesText.

Notation runes := (Forall (fun r => valid_rune r = true)).

Section Mistakes.
Variables (U : unicode) (L : err -> str) (fs : str -> option file).

(** ** Lines that are wrong wherever they stand *)
Inductive garbled : str -> str -> Prop :=
| StrangeStart : forall r rs, runes (r :: rs) -> ~ comment_sign r -> r <> 105 -> r <> 126 -> isNumber U r = false -> r <> 9 ->
    (r = 32 -> hd 0 rs <> 32) -> garbled (encode (r :: rs)) (lit "unexpected line type during lexing")
| StrangeDirective : forall w more, runes w -> runes more -> hd 0 w = 105 -> Forall (fun r => r <> 32) w -> w <> lit "include" ->
    (more = [] \/ hd 0 more = 32) -> garbled (encode (w ++ more)) (lit "unexpected directive: " ++ encode w)
| IncludeNothing : forall k, garbled (lit "include" ++ spaces k) (lit "could not lex include directive")
| TightPeriod : forall rs, runes rs -> isSpace (hd 0 rs) = false -> garbled (126 :: encode rs) (lit "not enough spaces following ~").

(** ** Header lines with a date that is none: the first word has five characters or
    more; there is no separator after four, or no such day. *)
Inductive misdated : str -> str -> Prop :=
| NoSeparator : forall w more c, runes w -> runes more -> digit (hd 0 w) -> Forall (fun r => r <> 32) w -> (more = [] \/ hd 0 more = 32) ->
    nth_error w 4 = Some c -> ~ separator c ->
    misdated (encode (w ++ more)) (lit "error parsing date" ++ [10] ++ lit "date is malformed: " ++ encode w)
| NoSuchDay : forall w more c, runes w -> runes more -> digit (hd 0 w) -> Forall (fun r => r <> 32) w -> (more = [] \/ hd 0 more = 32) ->
    nth_error w 4 = Some c -> separator c -> (forall d, ymd_text c d w -> ~ real_date d) ->
    misdated (encode (w ++ more)) (lit "error parsing date" ++ [10] ++ L (ETimeParse (lit "2006" ++ [c] ++ lit "01" ++ [c] ++ lit "02") (encode w))).

(** ** Posting lines with an amount that is none: [part] of it is no integer *)
Inductive mispriced : str -> str -> Prop :=
| BadAmount : forall k a m c w part, spelt (account_text U) a -> spelt (commodity_text U) c -> runes w ->
    (digit (hd 0 w) \/ hd 0 w = 43 \/ hd 0 w = 45) -> Forall (fun r => breaks r = false /\ r <> 32) w -> faulty_amount w part ->
    mispriced (spaces (2 + k) ++ a ++ spaces (2 + m) ++ c ++ encode w) (lit "error parsing amount: " ++ L (EParseInt (encode part))).

(** The first lines of an entry. *)
Inductive unfinished : list str -> Prop :=
| UnfinishedTxn : forall h d s payee note ls notes ls' ps,
    header_written h d s payee note -> Forall2 remark_written ls notes -> postings_written U ls' ps -> unfinished (h :: ls ++ ls')
| UnfinishedBudget : forall k ys ms y m ls ps, numeral 4 ys y -> numeral 2 ms m -> 1 <= m <= 12 -> postings_written U ls ps ->
    unfinished ((126 :: spaces (1 + k) ++ ys ++ [45] ++ ms) :: ls).

(** ** Transactions that cannot be *)
Inductive impossible : transaction -> str -> Prop :=
| OutOfBalance : forall t, Forall (fun p => ~ elided p) (t_postings t) -> ~ zero64 (total (t_postings t)) ->
    impossible t (lit "transaction does not balance")
| TwoLeftOut : forall t before p, t_postings t = before ++ [p] -> elided p -> Exists elided before ->
    impossible t (lit "cannot have more than one posting with an elided amount").

(** Nothing is open after these lines: at the start, after a blank line, after an
    included file; comment lines do not matter. *)
Inductive rested : list str -> Prop :=
| RestStart : rested []
| RestBlank : forall ls : list str, rested (ls ++ [[]])
| RestComment : forall (ls : list str) c l, comment_sign c -> rested ls -> rested (ls ++ [c :: l])
| RestInclude : forall (ls : list str) k name, spelt phrase name -> rested (ls ++ [lit "include" ++ spaces (1 + k) ++ name]).

(** The file and the number of the line after [k] lines. *)
Inductive place (path : str) (k : nat) : str -> Prop :=
| Place : forall digits, canonical digits (Z.of_nat k + 1) -> place path k (path ++ [58] ++ digits ++ [10]).

(** [faulty n path ls es what]: up to the first mistake, the lines [ls] of the file
    [path] are a journal; files are included at most [n] deep; the entries finished
    before the mistake mean [es]; [what] is to be said. *)
Inductive faulty : nat -> str -> list str -> list FlatSpec.entry -> str -> Prop :=
| FaultyLine : forall n path before ws es l rest here what, filed U fs n path before ws -> Forall2 means ws es -> rested before ->
    garbled l what -> place path (length before) here -> faulty n path (before ++ l :: rest) es (here ++ what)
| FaultyInside : forall n path before ws es ls cs l rest here what, filed U fs n path before ws -> Forall2 means ws es -> unfinished ls ->
    Forall (fun c => comment_sign (hd 0 c)) cs -> garbled l what -> place path (length before + length ls + length cs) here ->
    faulty n path (before ++ ls ++ cs ++ l :: rest) es (here ++ what)
| FaultyDate : forall n path before ws es l rest here what, filed U fs n path before ws -> Forall2 means ws es ->
    misdated l what -> place path (length before) here -> faulty n path (before ++ l :: rest) es (here ++ what)
| FaultyAmount : forall n path before ws es ls l rest here what, filed U fs n path before ws -> Forall2 means ws es -> unfinished ls ->
    mispriced l what -> place path (length before + length ls) here -> faulty n path (before ++ ls ++ l :: rest) es (here ++ what)
| FaultyTxn : forall n path before ws es ls t l rest here what, filed U fs n path before ws -> Forall2 means ws es -> txn_written U ls t ->
    impossible t what -> begins l -> place path (length before + length ls) here -> faulty n path (before ++ ls ++ l :: rest) es (here ++ what)
| FaultyLast : forall n path before ws es ls t what, filed U fs n path before ws -> Forall2 means ws es -> txn_written U ls t ->
    impossible t what -> faulty n path (before ++ ls) es what
| FaultyOpen : forall n dir base before ws es k name rest here, filed U fs (S n) (dir ++ base) before ws -> Forall2 means ws es -> rested before ->
    (dir = [] \/ last dir 0 = 47) -> ~ In 47 base -> valid_utf8 dir -> spelt phrase name -> fs (dir ++ name) = None ->
    place (dir ++ base) (length before) here ->
    faulty (S n) (dir ++ base) (before ++ (lit "include" ++ spaces (1 + k) ++ name) :: rest) es (here ++ L (EOpen (dir ++ name)))
| FaultyFolder : forall n dir base before ws es k name rest here, filed U fs (S n) (dir ++ base) before ws -> Forall2 means ws es -> rested before ->
    (dir = [] \/ last dir 0 = 47) -> ~ In 47 base -> valid_utf8 dir -> spelt phrase name -> fs (dir ++ name) = Some (File [] true) ->
    place (dir ++ base) (length before) here ->
    faulty (S n) (dir ++ base) (before ++ (lit "include" ++ spaces (1 + k) ++ name) :: rest) es (here ++ lit "error at " ++ L (ERead (dir ++ name)))
| FaultyIncluded : forall n dir base before ws es k name bytes inner es' rest here what, filed U fs (S n) (dir ++ base) before ws -> Forall2 means ws es ->
    rested before -> (dir = [] \/ last dir 0 = 47) -> ~ In 47 base -> valid_utf8 dir -> spelt phrase name ->
    fs (dir ++ name) = Some (File bytes false) -> lines_written bytes inner -> faulty n (dir ++ name) inner es' what ->
    place (dir ++ base) (length before) here ->
    faulty (S n) (dir ++ base) (before ++ (lit "include" ++ spaces (1 + k) ++ name) :: rest) (es ++ es') (here ++ lit "error at " ++ what).
End Mistakes.
