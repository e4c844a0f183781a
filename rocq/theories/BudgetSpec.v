(** * What a budget is: specification

    Nothing here uses the functions of the model that keep the budget. *)
From Verif Require Import Base BaseFacts Utf8 GoTime Strconv Display Journal Parser Account Reporting Budget Cmd Spec TreeSpec ReportSpec CmdSpec.

(** One thing that happens to the budget: a posting assigned to an envelope, spent
    or earned, on a day. *)
Record move := Move { mv_type : postingType; mv_date : date; mv_posting : posting }.

Definition is_assign (m : move) : bool := match mv_type m with EnvelopePosting => true | _ => false end.
Definition is_spend (m : move) : bool := match mv_type m with ExpensePosting => true | _ => false end.
Definition is_earn (m : move) : bool := match mv_type m with IncomePosting => true | _ => false end.

(** The fund: what is assigned to the account "_budget_root_". *)
Definition to_fund (m : move) : bool := is_assign m && str_eqb (po_account (mv_posting m)) (lit "_budget_root_").

(** The category: the account, for spending without its first component. *)
Definition category (m : move) : list str :=
  if is_spend m then tl (components (mv_posting m)) else components (mv_posting m).

(** The move concerns the category [q] or one below. *)
Definition concerns (q : list str) (m : move) : bool := negb (is_earn m) && negb (to_fund m) && prefixb q (category m).
(** The move names the category [q]. *)
Definition names (q : list str) (m : move) : bool :=
  negb (is_earn m) && negb (to_fund m) && (if list_str_dec q (category m) then true else false).

Definition sum_of (f : move -> bool) (ms : list move) : Z := total (map mv_posting (filter f ms)).
Definition assigned (q : list str) (ms : list move) : Z := sum_of (fun m => is_assign m && concerns q m) ms.
Definition spent (q : list str) (ms : list move) : Z := sum_of (fun m => is_spend m && concerns q m) ms.
Definition earned (ms : list move) : Z := sum_of is_earn ms.
Definition funded (ms : list move) : Z := sum_of to_fund ms.

(** The commodity shown for a category: that of the last move that names it. *)
Definition shown_commodity (q : list str) (ms : list move) : str :=
  last (map (fun m => commodity_of (mv_posting m)) (filter (names q) ms)) [].

(** The moves of a calendar month. *)
Definition in_month (y m : Z) (mv : move) : bool := (d_year (mv_date mv) =? y) && (d_month (mv_date mv) =? m).
Definition month (y m : Z) (ms : list move) : list move := filter (in_month y m) ms.

(** The commodities of the two roots: the first one named, the fund apart. *)
Definition envelope_commodity (ms : list move) : str :=
  first_commodity (map mv_posting (filter (fun m => negb (to_fund m)) ms)).
Definition spending_commodity (ms : list move) : str :=
  first_commodity (map mv_posting (filter (fun m => negb (to_fund m) && negb (is_earn m)) ms)).
Definition income_commodity (ms : list move) : str := first_commodity (map mv_posting (filter is_earn ms)).

(** What is printed when [m] happens after [before] in the same month: a line for
    each account changed whose commodity is another. *)
Definition objection (verb c c' : str) : list str :=
  if str_eqb c c' then []
  else [lit "unhandled " ++ verb ++ lit " of unmatched commodities: '" ++ c ++ lit "' and '" ++ c' ++ lit "'" ++ [10]].
Definition objections (before : list move) (m : move) : list str :=
  let after := before ++ [m] in
  let c := commodity_of (mv_posting m) in
  if is_earn m then objection (lit "subtraction") (income_commodity after) c ++ objection (lit "subtraction") (envelope_commodity after) c
  else if to_fund m then objection (lit "addition") (envelope_commodity before) c
  else
    let top := if is_spend m then spending_commodity after else envelope_commodity after in
    let verb := if is_spend m then lit "subtraction" else lit "addition" in
    flat_map (fun q => objection verb (match q with [] => top | _ => shown_commodity q after end) c) (up (category m)).

(** ... for a list of them, in any months. *)
Fixpoint objected (before ms : list move) : list str :=
  match ms with
  | [] => []
  | m :: ms' => objections (month (d_year (mv_date m)) (d_month (mv_date m)) before) m ++ objected (before ++ [m]) ms'
  end.

(** ** What happens to the budget in a journal *)

(** A transaction's postings to Expenses and to Income ... *)
Definition activity (t : transaction) (ps : list posting) : list move :=
  flat_map (fun p =>
    if list_str_dec (firstn 1 (components p)) [lit "Expenses"] then [Move ExpensePosting (t_date t) p]
    else if list_str_dec (firstn 1 (components p)) [lit "Income"] then [Move IncomePosting (t_date t) p]
    else []) ps.
(** ... and the postings of a budget entry, on the first day of its month. *)
Definition allocations (pt : ptransaction) : list move :=
  map (Move EnvelopePosting (pe_start (pt_period pt))) (t_postings (pt_txn pt)).

(** [history fs n evs log]: from entries [evs], the first transaction among them
    being number [n], the moves [log] come about: of each transaction taken the
    activity, of each budget entry the allocations. *)
Inductive history (E : env) (O : opts) (fs : list filter_) : nat -> list event -> list move -> Prop :=
| HistEnd : forall n, history E O fs n [] []
| HistBudget : forall n pt p evs log, history E O fs n evs log ->
    history E O fs n (EPer pt p :: evs) (allocations pt ++ log)
| HistNot : forall n t p evs log, ~ within E O n (t_date t) \/ hit E fs t = false ->
    history E O fs (S n) evs log -> history E O fs n (ETxn t p :: evs) log
| HistTxn : forall n t p ps evs log, within E O n (t_date t) -> hit E fs t = true ->
    Permutation ps (hits E fs t) -> (fs = [] \/ whole_hit E fs t = true -> ps = t_postings t) ->
    history E O fs (S n) evs log -> history E O fs n (ETxn t p :: evs) (activity t ps ++ log).

(** What can be entered: with an amount and, when spent, with a category. *)
Definition proper (m : move) : Prop := po_amount (mv_posting m) <> None /\ category m <> [].

(** ** The report *)

(** The months touched, first to last. *)
Definition months_of (ms : list move) (l : list (Z * Z)) : Prop :=
  StronglySorted (fun a b => fst a < fst b \/ fst a = fst b /\ snd a < snd b) l /\
  forall y m, In (y, m) l <-> exists mv, In mv ms /\ d_year (mv_date mv) = y /\ d_month (mv_date mv) = m.

(** The top categories of a month, in order. *)
Definition categories_of (ms : list move) (l : list str) : Prop :=
  StronglySorted bytes_lt l /\ forall k, In k l <-> existsb (concerns [k]) ms = true.

(** A category's line: what was spent (negated), what was assigned, the difference. *)
Definition budget_line (ms : list move) (k : str) : str :=
  flush_left 30 k ++ lit " | " ++ flush_right 20 (display_quantity (wrap64 (- spent [k] ms)))
    ++ lit " | " ++ flush_right 20 (display_quantity (wrap64 (assigned [k] ms)))
    ++ lit " | " ++ flush_right 20 (shown_commodity [k] ms ++ display_quantity (wrap64 (assigned [k] ms - spent [k] ms)))
    ++ lit " |" ++ [10].
Definition total_line (a b : str) : str := flush_right 30 a ++ lit " | " ++ flush_right 20 b ++ [10].
Definition month_heading (y m : Z) (ms : list move) : list str :=
  [four_digits y ++ lit "-" ++ two_digits m ++ lit "-01 00:00:00 +0000 UTC" ++ [10]; [10];
   total_line (lit "Funds") (income_commodity ms ++ display_quantity (wrap64 (- earned ms)));
   total_line (lit "Overspent in 2020-??") (lit "£??.??");
   total_line (lit "Budgeted") (lit "£??.??");
   total_line (lit "Budgeted in the future") (lit "£??.??");
   lit "-----------------------------------------------------" ++ [10];
   total_line (lit "To be budgeted") (lit "£??.??");
   [10]; [10];
   lit "Category                       | Budgeted             | Activity             | Available            |" ++ [10];
   lit "--------------------------------------------------";
   lit "---------------------------------------------------" ++ [10]].
Inductive month_block (y m : Z) (ms : list move) : list str -> Prop :=
| MonthBlock : forall cs, categories_of ms cs ->
    month_block y m ms (month_heading y m ms ++ map (budget_line ms) cs ++ [[10]]).
