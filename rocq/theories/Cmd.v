(** * The commands: cmd/*.go *)
From Coq Require Import SpecFloat.
From Verif Require Import Base Utf8 Unicode GoTime Strconv Display Journal Lexer Parser Account
  Reporting Budget Humanize.

(** What the program finds outside itself. *)
Record env := Env {
  e_unicode : unicode;
  e_fs : str -> option file;                 (* os.Open and reading *)
  e_depth : nat;                             (* how deep includes may nest *)
  e_ledger_file : option str;                (* LEDGER_FILE *)
  e_re_ok : str -> bool;                     (* regexp.Compile succeeds *)
  e_re_match : str -> str -> bool;           (* Regexp.MatchString *)
  e_year : nat -> Z;                         (* time.Now().Year(): for --begin at the n-th transaction 2n, for --end 2n+1 *)
  e_tomorrow : nat -> Z;                     (* time.Now().AddDate(0,0,1), ns since 0001-01-01 UTC *)
  e_local : date -> Z;                       (* local midnight of a date, in seconds *)
  e_order : nat -> forall A, list A -> list A;          (* order of the n-th map iteration *)
  e_tree_order : list str -> forall A, list A -> list A; (* map iterations of FindAccounts *)
  e_sort : list transaction -> list transaction;        (* sort.Slice by date *)
  e_now : nat -> Z }.                        (* time.Now() in humanize.Time, for the first transaction and the last; ns since 0001-01-01 UTC *)

(** Command line: flags (cmd/root.go:10-20, cmd/balance.go:10-15) and arguments. *)
Record opts := Opts {
  o_file : str; o_begin : str; o_end : str; o_current : bool; o_args : list str;
  o_flatten : bool; o_collapse : bool; o_show_zero : bool }.

(** What a run leaves behind: standard output (in pieces) and how it ended.
    [SErr e]: the text of [e] follows on standard output (the commands print
    errors with fmt.Println and return); [SErr (EUsage e)]: cobra reports [e] on
    standard error and the exit status is 1. *)
Record outcome := Outcome { r_out : list str; r_status : status }.

Definition nl : str := [newline].

Section Cmd.
Variable E : env.
Variable O : opts.

(** Handler states: transactions seen so far (numbering clock readings and map
    iterations), standard output, and the command's own data. *)
Record hstate (D : Type) := HS { h_n : nat; h_out : list str; h_data : D }.
Arguments HS {D}. Arguments h_n {D}. Arguments h_out {D}. Arguments h_data {D}.

(** cmd/root.go:26-36 *)
Fixpoint makeFilters (args : list str) : pres (list filter_) :=
  match args with
  | [] => POk []
  | a :: args' =>
      match newFilter (e_unicode E) (e_re_ok E) a with
      | PPanic => PPanic
      | PErr e => PErr e
      | POk f => match makeFilters args' with
                 | POk fs => POk (f :: fs)
                 | r => r
                 end
      end
  end.

(** cmd/common.go:15-35 *)
Definition parse_cmd {D} (th : option (D -> transaction -> str -> D * status))
  (ph : option (D -> ptransaction -> str -> D * status)) (s : D) : D * status :=
  let path := match o_file O with
              | [] => e_ledger_file E
              | f => Some f
              end in
  match path with
  | None => (s, SErr ENoJournal)
  | Some path =>
      match e_fs E path with
      | None => (s, SErr (EOpen path))
      | Some f => parse (e_unicode E) (e_fs E) th ph (e_depth E) path f s
      end
  end.

(** cmd/common.go:100-126.  Instants in nanoseconds; the zero Time is 0. *)
Definition flag_instant (n : nat) (flag : str) : pres Z :=
  if negb (is_nil flag) && negb (o_current O) then
    match parseSmartDate (e_year E n) flag with
    | POk d => POk (e_local E d * ns)
    | PErr e => PErr e
    | PPanic => PPanic
    end
  else POk 0.
Definition withinDateRange (n : nat) (t : transaction) : pres bool :=
  match flag_instant (2 * n) (o_begin O) with
  | PErr e => PErr e
  | PPanic => PPanic
  | POk start0 =>
      match flag_instant (2 * n + 1) (o_end O) with
      | PErr e => PErr e
      | PPanic => PPanic
      | POk end0 =>
          let start := if o_current O then 0 else start0 in
          let end_ := if o_current O then e_tomorrow E n else end0 in
          let d := instant (t_date t) * ns in
          POk (((d =? start) || (start <? d)) && ((end_ =? 0) || (d <? end_)))
      end
  end.

Definition pick {A} (l : list A) (is : list nat) : list A :=
  flat_map (fun i => match nth_error l i with Some x => [x] | None => [] end) is.

(** The loop of cmd/common.go:145-156: [None] if some filter matches on the
    payee or a transaction note, otherwise the indices of the matched postings. *)
Fixpoint match_filters (fs : list filter_) (t : transaction) (acc : list nat) : option (list nat) :=
  match fs with
  | [] => Some acc
  | f :: fs' =>
      let '(payee, note, mp) := matchesTransactionHow (e_re_match E) f t in
      if payee || note then None
      else match_filters fs' t
             (acc ++ filter (fun i => negb (existsb (Nat.eqb i) acc)) mp)
  end.

(** cmd/common.go:131-162 *)
Definition checkAgainstFilters (fs : list filter_) (n : nat) (t : transaction)
  : pres (bool * list posting) :=
  match withinDateRange n t with
  | PErr e => PErr e
  | PPanic => PPanic
  | POk false => POk (false, [])
  | POk true =>
      match fs with
      | [] => POk (true, t_postings t)
      | _ => match match_filters fs t [] with
             | None => POk (true, t_postings t)
             | Some is => POk (false, pick (t_postings t) (e_order E n _ is))
             end
      end
  end.

(** The common shape of the handlers: count the transaction, check it, go on
    with the matched postings if there is a match. *)
Definition checked {D} (fs : list filter_)
  (k : hstate D -> nat -> transaction -> list posting -> str -> hstate D * status)
  (s : hstate D) (t : transaction) (path : str) : hstate D * status :=
  let n := h_n s in
  let s1 := HS (S n) (h_out s) (h_data s) in
  match checkAgainstFilters fs n t with
  | PErr e => (s1, SErr e)
  | PPanic => (s1, SPanic)
  | POk (m, ps) => if negb m && is_nil ps then (s1, SOk) else k s1 n t ps path
  end.

(** cmd/common.go:60-73 *)
Definition date_checked {D} (k : hstate D -> transaction -> str -> hstate D * status)
  (s : hstate D) (t : transaction) (path : str) : hstate D * status :=
  let n := h_n s in
  let s1 := HS (S n) (h_out s) (h_data s) in
  match withinDateRange n t with
  | PErr e => (s1, SErr e)
  | PPanic => (s1, SPanic)
  | POk w => if w then k s1 t path else (s1, SOk)
  end.

(** cmd/root.go:26-36 before every command. *)
Definition with_filters (k : list filter_ -> outcome) : outcome :=
  match makeFilters (o_args O) with
  | PPanic => Outcome [] SPanic
  | PErr e => Outcome [] (SErr (EUsage e))
  | POk fs => k fs
  end.

Definition finish {D} (r : hstate D * status) (k : nat -> D -> list str * status) : outcome :=
  let '(s, st) := r in
  match st with
  | SOk => let '(out, st') := k (h_n s) (h_data s) in Outcome (h_out s ++ out) st'
  | _ => Outcome (h_out s) st
  end.

(** ** balance *)

(** cmd/common.go:40-42 *)
Definition prepender (d : adata) : str := pad_left 20 (displayableQuantity (a_amount d) true) ++ lit "  ".

(** cmd/common.go:39-57 *)
Definition report (a : account) : list str :=
  [(if o_flatten O then FlattenedTree prepender a else Tree prepender (o_collapse O) a) ++ nl;
   lit "--------------------" ++ nl;
   pad_left 20 (displayableQuantity (a_amount (acc_data a)) false) ++ nl].

(** cmd/balance.go:57-78 *)
Definition balance_handler (s : hstate journal) (n : nat) (t : transaction) (ps : list posting)
  (path : str) : hstate journal * status :=
  let '(j, out, r) := j_addPostings (j_addTransaction (h_data s) t path) ps in
  (HS (h_n s) (h_out s ++ out) j, r).
Definition balance_ph (s : hstate journal) (pt : ptransaction) (path : str)
  : hstate journal * status :=
  let '(j, out, r) := j_addPeriodicTransaction (h_data s) pt path in
  (HS (h_n s) (h_out s ++ out) j, r).

(** cmd/balance.go:81-85 *)
Definition prepareBalance (a : account) : account :=
  if o_show_zero O then a else removeEmptyChildren (e_tree_order E) a.

(** cmd/balance.go:22-37 *)
Definition balance_run (fs : list filter_) : hstate journal * status :=
  parse_cmd (Some (checked fs balance_handler)) (Some balance_ph) (HS 0 [] newJournal).
Definition balance_cmd : outcome :=
  with_filters (fun fs =>
    finish (balance_run fs) (fun _ j => (report (prepareBalance (j_root j)), SOk))).

(** ** print: cmd/print.go:20-64 *)
Definition print_handler (s : hstate (list transaction)) (n : nat) (t : transaction)
  (ps : list posting) (path : str) : hstate (list transaction) * status :=
  (HS (h_n s) (h_out s) (h_data s ++ [t]), SOk).
Definition print_run (fs : list filter_) : hstate (list transaction) * status :=
  parse_cmd (Some (checked fs print_handler)) None (HS 0 [] []).
Definition print_cmd : outcome :=
  with_filters (fun fs =>
    finish (print_run fs) (fun _ ts => (map (fun t => transaction_string t ++ nl) (e_sort E ts), SOk))).

(** ** accounts: cmd/accounts.go:20-85.  A set is kept as a list without
    repetition. *)
Definition set_add (x : str) (l : list str) : list str :=
  if existsb (str_eqb x) l then l else l ++ [x].

Definition accounts_handler (s : hstate (list str)) (t : transaction) (path : str)
  : hstate (list str) * status :=
  (HS (h_n s) (h_out s)
      (fold_left (fun u p => set_add (po_account p) u) (t_postings t) (h_data s)), SOk).
Definition accounts_prepare (fs : list filter_) (u : list str) : list str :=
  match fs with
  | [] => sort_strings u
  | _ => sort_strings (filter (fun a => existsb (fun f => matchesString (e_re_match E) f a) fs) u)
  end.
Definition accounts_run : hstate (list str) * status :=
  parse_cmd (Some (date_checked accounts_handler)) None (HS 0 [] []).
Definition accounts_cmd : outcome :=
  with_filters (fun fs =>
    finish accounts_run
      (fun n u => (map (fun a => a ++ nl) (accounts_prepare fs (e_order E n _ u)), SOk))).

(** ** payees: cmd/payees.go:22-97 *)
Definition payees_handler (s : hstate (list str)) (t : transaction) (path : str)
  : hstate (list str) * status :=
  (HS (h_n s) (h_out s) (set_add (t_payee t) (h_data s)), SOk).
Definition payees_prepare (args : list str) (u : list str) : list str + err :=
  match args with
  | [] => inl (sort_strings u)
  | _ =>
      let regexes := map (smart_case (e_unicode E)) args in
      match find (fun r => negb (e_re_ok E r)) regexes with
      | None => inl (sort_strings (filter (fun p => existsb (fun r => e_re_match E r p) regexes) u))
      | Some r => inr (ERegexp r)
      end
  end.
Definition payees_run : hstate (list str) * status :=
  parse_cmd (Some (date_checked payees_handler)) None (HS 0 [] []).
Definition payees_cmd : outcome :=
  with_filters (fun _ =>
    finish payees_run
      (fun n u => match payees_prepare (o_args O) (e_order E n _ u) with
                | inl l => (map (fun a => a ++ nl) l, SOk)
                | inr e => ([], SErr e)
                end)).

(** ** statistics: cmd/stats.go *)

(** stats.go:37-47 *)
Record stats := Stats {
  s_first : date; s_last : date; s_count : Z;
  s_accounts : list str; s_payees : list str; s_files : list str;
  s_income : list (date * Z); s_expense : list (date * Z) }.
Definition newStats : stats := Stats zero_date zero_date 0 [] [] [] [] [].

Definition bucket (k : date) (m : list (date * Z)) : Z :=
  match assoc date_eqb k m with Some v => v | None => 0 end.
Definition is_zero (d : date) : bool := date_eqb d zero_date.

(** stats.go:100-110 for one posting; [None]: the amount is missing. *)
Definition stats_posting (d : date) (st : option (list (date * Z) * list (date * Z))) (p : posting)
  : option (list (date * Z) * list (date * Z)) :=
  match st with
  | None => None
  | Some (inc, exp) =>
      let c := hd [] (split colon (po_account p)) in
      if str_eqb c IncomeID then
        match po_amount p with
        | None => None
        | Some a => Some (assoc_set date_eqb d (wrap64 (bucket d inc - am_quantity a)) inc, exp)
        end
      else if str_eqb c ExpensesID then
        match po_amount p with
        | None => None
        | Some a => Some (inc, assoc_set date_eqb d (wrap64 (bucket d exp + am_quantity a)) exp)
        end
      else st
  end.

(** stats.go:63-113 *)
Definition stats_step (s : stats) (t : transaction) (ps : list posting) (path : str) : option stats :=
  let d := t_date t in
  match fold_left (stats_posting d) ps (Some (s_income s, s_expense s)) with
  | None => None
  | Some (inc, exp) =>
      Some (Stats
        (if is_zero (s_first s) || date_before d (s_first s) then d else s_first s)
        (if is_zero (s_last s) || date_before (s_last s) d then d else s_last s)
        (s_count s + 1)
        (fold_left (fun u p => set_add (po_account p) u) ps (s_accounts s))
        (set_add (t_payee t) (s_payees s))
        (set_add path (s_files s))
        inc exp)
  end.
Definition stats_handler (s : hstate stats) (n : nat) (t : transaction) (ps : list posting)
  (path : str) : hstate stats * status :=
  match stats_step (h_data s) t ps path with
  | None => (s, SPanic)
  | Some d => (HS (h_n s) (h_out s) d, SOk)
  end.

(** time.Time.Sub: nanoseconds, saturating. *)
Definition time_sub (a b : date) : Z :=
  let d := (instant a - instant b) * ns in
  if d <? - two63 then - two63 else if two63 - 1 <? d then two63 - 1 else d.

(** stats.go:141-158: one expense day against the income days.  Returns the
    income buckets and the ages appended. *)
Fixpoint spend (ek : date) (expense : Z) (iks : list date) (inc : list (date * Z))
  : list (date * Z) * list Z :=
  match iks with
  | [] => (inc, [])
  | ik :: iks' =>
      let income := bucket ik inc in
      if income =? 0 then spend ek expense iks' inc
      else
        let age := time_sub ek ik in
        if income <? expense then
          let '(inc', ages) := spend ek (wrap64 (expense - income)) iks' (assoc_set date_eqb ik 0 inc) in
          (inc', age :: ages)
        else (assoc_set date_eqb ik (wrap64 (income - expense)) inc, [age])
  end.

(** stats.go:137-159 *)
Fixpoint age_loop (eks : list date) (exp : list (date * Z)) (iks : list date) (inc : list (date * Z))
  : list Z :=
  match eks with
  | [] => []
  | ek :: eks' =>
      let '(inc', ages) := spend ek (bucket ek exp) iks inc in
      ages ++ age_loop eks' exp iks inc'
  end.

Definition sort_dates (l : list date) : list date := isort date_before l.

Definition all_ages (s : stats) : list Z :=
  age_loop (sort_dates (map fst (s_expense s))) (s_expense s)
           (sort_dates (map fst (s_income s))) (s_income s).

(** stats.go:161-173: nanoseconds, integer division truncates towards zero. *)
Definition mean_age (ages : list Z) : Z :=
  let n := Z.of_nat (length ages) in
  let rangeCap := if 20 <? n then 11 else 0 in
  let summed := fold_left (fun s a => wrap64 (s + a)) (firstn (Z.to_nat (n - rangeCap)) ages) 0 in
  Z.quot summed (Z.max 1 n).

(** time.Duration.Hours *)
Definition hour_ns : Z := 3600 * ns.
Definition hours (d : Z) : spec_float :=
  float_add (float_of_int (Z.quot d hour_ns))
            (float_div (float_of_int (Z.rem d hour_ns)) (float_of_int hour_ns)).
Definition days_of (d : Z) : spec_float := float_div (hours d) (float_of_int 24).

(** [math.Max(x, 0)] *)
Definition max0 (x : spec_float) : spec_float :=
  match x with
  | S754_finite true _ _ | S754_infinity true | S754_zero _ => S754_zero false
  | _ => x
  end.
(** [math.Round]: half away from zero *)
Definition float_round (x : spec_float) : spec_float :=
  match x with
  | S754_finite s m e =>
      if 0 <=? e then x
      else let n := (2 * Zpos m + 2 ^ (- e)) / (2 * 2 ^ (- e)) in
           if n =? 0 then S754_zero s
           else binary_normalize prec emax (if s then - n else n) 0 false
  | _ => x
  end.

(** stats.go:115-176, 178-211 *)
Definition stats_report (n : nat) (s : stats) : list str :=
  if s_count s =? 0 then [lit "No transactions matched arguments." ++ nl]
  else
    let tab := [9] in
    let days := float_round (days_of (time_sub (s_last s) (s_first s))) in
    [lit "Transactions found in " ++ itoa (Z.of_nat (length (s_files s))) ++ lit " files:" ++ nl]
    ++ map (fun p => lit "  " ++ p ++ nl) (e_order E n _ (s_files s)) ++
    [lit "First transaction:" ++ tab ++ format_date (s_first s) ++ lit " (" ++ humanize (e_now E 0) (instant (s_first s) * ns) ++ lit ")" ++ nl;
     lit "Last transaction:" ++ tab ++ format_date (s_last s) ++ lit " (" ++ humanize (e_now E 1) (instant (s_last s) * ns) ++ lit ")" ++ nl;
     lit "Time period:" ++ tab ++ tab ++ fmt_fixed 0 days ++ lit " days" ++ nl;
     lit "Transactions:" ++ tab ++ tab ++ itoa (s_count s) ++ lit " ("
       ++ fmt_fixed 1 (float_div (float_of_int (s_count s)) days) ++ lit " per day)" ++ nl;
     lit "Unique accounts:" ++ tab ++ itoa (Z.of_nat (length (s_accounts s))) ++ nl;
     lit "Unique payees:" ++ tab ++ tab ++ itoa (Z.of_nat (length (s_payees s))) ++ nl;
     lit "Age of money:" ++ tab ++ tab ++ fmt_fixed 0 (max0 (days_of (mean_age (all_ages s)))) ++ lit " days" ++ nl].

Definition stats_run (fs : list filter_) : hstate stats * status :=
  parse_cmd (Some (checked fs stats_handler)) None (HS 0 [] newStats).
Definition stats_cmd : outcome :=
  with_filters (fun fs => finish (stats_run fs) (fun n s => (stats_report n s, SOk))).

(** ** budget: cmd/budget.go *)

Fixpoint b_addPostings (pt : posting -> option postingType) (b : budget) (d : date) (ps : list posting)
  : budget * list str * status :=
  match ps with
  | [] => (b, [], SOk)
  | p :: ps' =>
      match pt p with
      | None => b_addPostings pt b d ps'
      | Some ty =>
          match b_addPosting b d p ty with
          | None => (b, [], SPanic)
          | Some (b1, out) =>
              let '(b2, out2, r) := b_addPostings pt b1 d ps' in (b2, out ++ out2, r)
          end
      end
  end.

(** budget.go:86-97 *)
Definition budget_type (p : posting) : option postingType :=
  let c := hd [] (split colon (po_account p)) in
  if str_eqb c ExpensesID then Some ExpensePosting
  else if str_eqb c IncomeID then Some IncomePosting
  else None.

(** budget.go:72-100 *)
Definition budget_handler (s : hstate budget) (n : nat) (t : transaction) (ps : list posting)
  (path : str) : hstate budget * status :=
  let '(b, out, r) := b_addPostings budget_type (h_data s) (t_date t) ps in
  (HS (h_n s) (h_out s ++ out) b, r).

(** budget.go:46-70.  For a period with an interval, pt_run gives no transactions. *)
Definition budget_ph (s : hstate budget) (pt : ptransaction) (path : str) : hstate budget * status :=
  let '(ts, out0) := pt_run pt in
  if is_pnone (pe_interval (pt_period pt)) then
    match ts with
    | [] => (s, SPanic)
    | t :: _ =>
        let '(b, out, r) := b_addPostings (fun _ => Some EnvelopePosting) (h_data s) (t_date t)
                              (t_postings t) in
        (HS (h_n s) (h_out s ++ out0 ++ out) b, r)
    end
  else (HS (h_n s) (h_out s ++ out0) (h_data s), SOk).

(** time.Time's String for midnight UTC, as printed at budget.go:114 *)
Definition time_string (d : date) : str := format_date d ++ lit " 00:00:00 +0000 UTC".

Definition row2 (a b : str) : str := pad_left 30 a ++ lit " | " ++ pad_left 20 b ++ nl.

(** budget.go:137-156 *)
Fixpoint budget_rows (names : list str) (envelope expense : account) : list str * bool :=
  match names with
  | [] => ([], true)
  | cn :: names' =>
      match get cn (acc_children envelope) with
      | None => ([lit "didn't find envelope account " ++ cn ++ nl], false)
      | Some ea =>
          match get cn (acc_children expense) with
          | None => ([lit "didn't find expense account " ++ cn ++ nl], false)
          | Some xa =>
              let '(amt, out) := amount_add (acc_amount ea) (acc_amount xa) in
              let row := pad_right 30 cn ++ lit " | "
                         ++ pad_left 20 (displayableQuantity (acc_amount xa) false) ++ lit " | "
                         ++ pad_left 20 (displayableQuantity (acc_amount ea) false) ++ lit " | "
                         ++ pad_left 20 (displayableQuantity amt true) ++ lit " |" ++ nl in
              let '(rest, ok) := budget_rows names' envelope expense in
              (out ++ [row] ++ rest, ok)
          end
      end
  end.

(** budget.go:112-159 for one month; the flag is false if the report stops. *)
Definition budget_month_report (m : date) (bm : budgetMonth) : list str * bool :=
  let '(rows, ok) := budget_rows (sortedChildNames (bm_envelope bm)) (bm_envelope bm) (bm_expense bm) in
  ([time_string m ++ nl; nl;
    row2 (acc_name (bm_income bm)) (displayableQuantity (acc_amount (bm_income bm)) true);
    row2 (lit "Overspent in 2020-??") (lit "£??.??");
    row2 (lit "Budgeted") (lit "£??.??");
    row2 (lit "Budgeted in the future") (lit "£??.??");
    lit "-----------------------------------------------------" ++ nl;
    row2 (lit "To be budgeted") (lit "£??.??");
    nl; nl;
    pad_right 30 (lit "Category") ++ lit " | " ++ pad_right 20 (lit "Budgeted") ++ lit " | "
      ++ pad_right 20 (lit "Activity") ++ lit " | " ++ pad_right 20 (lit "Available") ++ lit " |" ++ nl;
    lit "--------------------------------------------------";
    lit "---------------------------------------------------" ++ nl]
   ++ rows ++ (if ok then [nl] else []), ok).

Fixpoint budget_report (b : budget) (months : list date) : list str :=
  match months with
  | [] => []
  | m :: ms =>
      let '(out, ok) := budget_month_report m (month_of b m) in
      if ok then out ++ budget_report b ms else out
  end.

Definition budget_run (fs : list filter_) : hstate budget * status :=
  parse_cmd (Some (checked fs budget_handler)) (Some budget_ph) (HS 0 [] newBudget).
Definition budget_cmd : outcome :=
  with_filters (fun fs =>
    finish (budget_run fs) (fun _ b => (budget_report b (sort_dates (map fst b)), SOk))).

End Cmd.

Arguments HS {D}. Arguments h_n {D}. Arguments h_out {D}. Arguments h_data {D}.
