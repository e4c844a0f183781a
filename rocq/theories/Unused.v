(** * Exported or generated code that no command reaches

    reporting/filter.go:131-148, cmd/common.go:75-98, journal/account.go:68-77,
    journal/periodictransaction.go:48-70 with any bounds, and the String methods
    generated by stringer. *)
From Verif Require Import Base Utf8 Unicode GoTime Strconv Display Journal Account Reporting Cmd.

(** filter.go:131-148: the arguments are compiled one after the other, each just
    before it is tried. *)
Fixpoint matchesRegex_loop (U : unicode) (re_ok : str -> bool) (re_match : str -> str -> bool)
  (t : transaction) (args : list str) : pres bool :=
  match args with
  | [] => POk false
  | a :: args' =>
      match newFilter U re_ok a with
      | PPanic => PPanic
      | PErr e => PErr e
      | POk f => if matchesTransaction re_match f t then POk true
                 else matchesRegex_loop U re_ok re_match t args'
      end
  end.
Definition matchesRegex (U : unicode) (re_ok : str -> bool) (re_match : str -> str -> bool)
  (t : transaction) (args : list str) : pres bool :=
  match args with
  | [] => POk true
  | _ => matchesRegex_loop U re_ok re_match t args
  end.

(** cmd/common.go:75-98 *)
Definition filtering_checked (E : env) (O : opts) {D} (fs : list filter_)
  (k : hstate D -> transaction -> str -> hstate D * status)
  (s : hstate D) (t : transaction) (path : str) : hstate D * status :=
  let n := h_n s in
  let s1 := HS (S n) (h_out s) (h_data s) in
  match withinDateRange E O n t with
  | PErr e => (s1, SErr e)
  | PPanic => (s1, SPanic)
  | POk false => (s1, SOk)
  | POk true =>
      match fs with
      | [] => k s1 t path
      | _ => if existsb (fun f => matchesTransaction (e_re_match E) f t) fs
             then k s1 t path else (s1, SOk)
      end
  end.

(** account.go:68-77 on the account at the keys [rev rq] below a root without
    parent: the keys of the account returned. *)
Definition name_at (root : account) (q : list str) : str :=
  match find_at q root with Some a => acc_name a | None => [] end.
Fixpoint head_up (root : account) (rq : list str) : list str :=
  match rq with
  | [] => []
  | _ :: rq' => if is_root_name (name_at root (rev rq')) then rev rq else head_up root rq'
  end.
Definition head (root : account) (q : list str) : list str := head_up root (rev q).

(** periodictransaction.go:48-70 with bounds; the zero Time is [zero_date].  The
    bounds assigned in lines 61-66 are not used afterwards. *)
Definition isZero (d : date) : bool := instant d =? 0.
Definition pt_run_between (pt : ptransaction) (start end_ : date) : list transaction * list str :=
  if is_pnone (pe_interval (pt_period pt)) then
    ([set_date (pt_txn pt) (pe_start (pt_period pt))], [])
  else if (negb (isZero start) && date_before (pe_end (pt_period pt)) start) ||
          (negb (isZero end_) && date_before end_ (pe_start (pt_period pt))) then ([], [])
  else ([], [lit "unhandled conversion of non-budget periodic transaction" ++ [newline]]).

(** The shape of the generated String methods: a text, the positions at which the
    names end, and the value.  [None]: an index or slice expression out of range. *)
Definition go_slice (s : str) (i j : Z) : option str :=
  if (0 <=? i) && (i <=? j) && (j <=? Z.of_nat (length s))
  then Some (firstn (Z.to_nat (j - i)) (skipn (Z.to_nat i) s)) else None.
Definition go_index (l : list Z) (i : Z) : option Z :=
  if 0 <=? i then nth_error l (Z.to_nat i) else None.
Definition stringer (typename names : str) (index : list Z) (i : Z) : option str :=
  if (i <? 0) || (Z.of_nat (length index) - 1 <=? i)
  then Some (typename ++ lit "(" ++ itoa i ++ lit ")")
  else match go_index index i, go_index index (i + 1) with
       | Some a, Some b => go_slice names a b
       | _, _ => None
       end.

(** journal/periodtype_string.go:22-31 *)
Definition periodType_String : Z -> option str :=
  stringer (lit "PeriodType")
    (lit "PNonePDailyPWeeklyPMonthlyPQuarterlyPYearlyPBiweeklyPFortnightlyPBiMonthly")
    [0; 5; 11; 18; 26; 36; 43; 52; 64; 74].

(** journal/transactionstate_string.go:16-25 *)
Definition transactionState_String : Z -> option str :=
  stringer (lit "TransactionState") (lit "NoStateUnclearedStateClearedState") [0; 7; 21; 33].

(** parser/itemtype_string.go:25-34 *)
Definition itemType_String : Z -> option str :=
  stringer (lit "itemType")
    (lit "emptyLineItemincludeItemdateItemstateItempayeeItemaccountItemcommodityItemamountItemcommentItemtransactionHeaderCommentItemperiodItemeofItem")
    [0; 13; 24; 32; 41; 50; 61; 74; 84; 95; 123; 133; 140].

(** parser/transactiontype_string.go:15-24 *)
Definition transactionType_String : Z -> option str :=
  stringer (lit "transactionType") (lit "normalTransactionperiodicTransaction") [0; 17; 36].
