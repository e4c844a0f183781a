(** * Journal text at which the program breaks off

    As in [MistakeText.v], independent of the lexer and the parser. *)
From Verif Require Import Base Utf8 Utf8Facts Unicode GoTime Journal Lexer Parser Spec TextSpec AmountFacts JournalText FlatSpec BookText FilesText MistakeText.

Section Crashes.
Variables (U : unicode) (fs : str -> option file).

(** A header line whose first word has less than five characters. *)
Inductive short_dated : str -> Prop :=
| ShortWord : forall w more, runes w -> runes more -> digit (hd 0 w) -> Forall (fun r => r <> 32) w -> (length w < 5)%nat ->
    (more = [] \/ hd 0 more = 32) -> short_dated (encode (w ++ more)).

(** A posting line that has no amount after the gap: nothing but spaces, or a
    commodity, perhaps with a comment after it. *)
Inductive unpriced : str -> Prop :=
| NothingThere : forall k a m, spelt (account_text U) a -> unpriced (spaces (2 + k) ++ a ++ spaces (2 + m))
| CommodityOnly : forall k a m c j, spelt (account_text U) a -> spelt (fun c => c <> [] /\ Forall (commodity_char U) c /\ isSpace (hd 0 c) = false) c ->
    unpriced (spaces (2 + k) ++ a ++ spaces (2 + m) ++ c ++ spaces j)
| CommodityRemark : forall k a m c j g more, spelt (account_text U) a ->
    spelt (fun c => c <> [] /\ Forall (commodity_char U) c /\ isSpace (hd 0 c) = false) c -> comment_sign g -> runes more ->
    unpriced (spaces (2 + k) ++ a ++ spaces (2 + m) ++ c ++ spaces (1 + j) ++ [g] ++ encode more).

(** The header of a budget entry. *)
Inductive budget_header : str -> Prop :=
| BudgetHeader : forall k ys ms y m, numeral 4 ys y -> numeral 2 ms m -> 1 <= m <= 12 ->
    budget_header (126 :: spaces (1 + k) ++ ys ++ [45] ++ ms).

(** [doomed n path bytes es x]: up to the place where the program breaks off with
    exit status [x], the file [path] with the contents [bytes] is a journal; the
    entries finished before that mean [es]. *)
Inductive doomed : nat -> str -> str -> list FlatSpec.entry -> Z -> Prop :=
| DoomedDate : forall n path bytes before ws es l rest, lines_written bytes (before ++ l :: rest) ->
    filed U fs n path before ws -> Forall2 means ws es -> short_dated l -> doomed n path bytes es 2
| DoomedAmount : forall n path bytes before ws es ls l rest, lines_written bytes (before ++ ls ++ l :: rest) ->
    filed U fs n path before ws -> Forall2 means ws es -> unfinished U ls -> unpriced l -> doomed n path bytes es 2
| DoomedPosting : forall n path bytes before ws es l p rest, lines_written bytes (before ++ l :: rest) ->
    filed U fs n path before ws -> Forall2 means ws es -> ws <> [] -> rested before -> posting_written U l p -> doomed n path bytes es 2
| DoomedRemark : forall n path bytes before ws es l c rest, lines_written bytes (before ++ l :: rest) ->
    filed U fs n path before ws -> Forall2 means ws es -> rested before -> remark_written l c -> doomed n path bytes es 2
| DoomedNote : forall n path bytes before ws es h l c rest, lines_written bytes (before ++ h :: l :: rest) ->
    filed U fs n path before ws -> Forall2 means ws es -> budget_header h -> remark_written l c -> doomed n path bytes es 2
| DoomedLong : forall n path bytes before ws es long rest, lines_written bytes before -> (bytes = [] \/ last bytes 0 = 10) ->
    filed U fs n path before ws -> Forall2 means ws es -> rested before ->
    ~ In 10 long -> 4096 <= Z.of_nat (length long) -> (rest = [] \/ exists more, rest = 10 :: more) ->
    doomed n path (bytes ++ long ++ rest) es 1
| DoomedLongInside : forall n path bytes before ws es ls cs long rest, lines_written bytes (before ++ ls ++ cs) -> last bytes 0 = 10 ->
    filed U fs n path before ws -> Forall2 means ws es -> unfinished U ls -> Forall (fun c => comment_sign (hd 0 c)) cs ->
    ~ In 10 long -> 4096 <= Z.of_nat (length long) -> (rest = [] \/ exists more, rest = 10 :: more) ->
    doomed n path (bytes ++ long ++ rest) es 1
| DoomedIncluded : forall n dir base bytes before ws es k name inner es' rest x,
    lines_written bytes (before ++ (lit "include" ++ spaces (1 + k) ++ name) :: rest) ->
    filed U fs (S n) (dir ++ base) before ws -> Forall2 means ws es -> rested before ->
    (dir = [] \/ last dir 0 = 47) -> ~ In 47 base -> valid_utf8 dir -> spelt phrase name ->
    fs (dir ++ name) = Some (File inner false) -> doomed n (dir ++ name) inner es' x -> doomed (S n) (dir ++ base) bytes (es ++ es') x.
End Crashes.
