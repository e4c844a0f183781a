(** * The parser: parser/transactionbuilder.go and parser/parser.go

    The handlers ([th], [ph]) work on a state of any type [S] (what the Go
    closures mutate, including standard output) and return a status; every
    function returns the state reached together with its status, so what
    happened before a failure is kept. *)
From Verif Require Import Base Utf8 Unicode GoTime Strconv Journal Lexer.

Inductive transactionType := normalTransaction | periodicTransaction.

(** transactionbuilder.go:18-24.  [previousItemType] -1 is [None]. *)
Record builder := Builder {
  b_type : transactionType;
  b_txn : option transaction;
  b_ptxn : option ptransaction;
  b_cur : option posting;
  b_prev : option itemType }.

(** transactionbuilder.go:26-32 *)
Definition newBuilder : builder := Builder normalTransaction None None None None.

(** transactionbuilder.go:34-48 *)
Definition beginTransaction (tb : builder) (ty : transactionType) : builder :=
  match ty with
  | normalTransaction =>
      Builder ty (Some newTransaction) (b_ptxn tb) (Some newPosting) (b_prev tb)
  | periodicTransaction =>
      Builder ty (b_txn tb) (Some newPeriodicTransaction) (Some newPosting) (b_prev tb)
  end.

Definition set_state (t : transaction) (s : txn_state) : transaction :=
  Txn (t_date t) s (t_payee t) (t_postings t) (t_elided t) (t_headernote t) (t_notes t).
Definition set_payee (t : transaction) (s : str) : transaction :=
  Txn (t_date t) (t_state t) s (t_postings t) (t_elided t) (t_headernote t) (t_notes t).
Definition set_headernote (t : transaction) (s : str) : transaction :=
  Txn (t_date t) (t_state t) (t_payee t) (t_postings t) (t_elided t) s (t_notes t).
(** journal/transaction.go:75-77 *)
Definition addNote (t : transaction) (s : str) : transaction :=
  Txn (t_date t) (t_state t) (t_payee t) (t_postings t) (t_elided t) (t_headernote t) (t_notes t ++ [s]).
(** journal/posting.go:35-37 *)
Definition addComment (p : posting) (s : str) : posting :=
  Posting (po_comments p ++ [s]) (po_account p) (po_amount p).

Definition is_nil {A} (l : list A) : bool := match l with [] => true | _ => false end.

Definition prev_in (tb : builder) (l : list itemType) : bool :=
  match b_prev tb with
  | None => false
  | Some i => existsb (item_eqb i) l
  end.

(** The transaction the builder's [t] argument points to: [tb.transaction] or
    [&tb.periodicTransaction.Transaction] (transactionbuilder.go:50-64,149-160). *)
Definition target (tb : builder) : option transaction :=
  match b_type tb with
  | normalTransaction => b_txn tb
  | periodicTransaction => option_map pt_txn (b_ptxn tb)
  end.
Definition set_target (tb : builder) (t : transaction) : builder :=
  match b_type tb with
  | normalTransaction => Builder (b_type tb) (Some t) (b_ptxn tb) (b_cur tb) (b_prev tb)
  | periodicTransaction =>
      Builder (b_type tb) (b_txn tb)
        (option_map (fun pt => PTxn (pt_period pt) t) (b_ptxn tb)) (b_cur tb) (b_prev tb)
  end.
Definition set_cur (tb : builder) (p : posting) : builder :=
  Builder (b_type tb) (b_txn tb) (b_ptxn tb) (Some p) (b_prev tb).
Definition set_txn (tb : builder) (t : transaction) : builder :=
  Builder (b_type tb) (Some t) (b_ptxn tb) (b_cur tb) (b_prev tb).
Definition set_prev (tb : builder) (i : itemType) : builder :=
  Builder (b_type tb) (b_txn tb) (b_ptxn tb) (b_cur tb) (Some i).

(** Result of a builder step: a nil pointer dereference or index error is
    [PPanic]. *)
Definition bres := pres builder.

(** transactionbuilder.go:66-147.  The header comment and comment cases use
    [tb.transaction] (nil while a periodic transaction is built), the others the
    argument [t] = [target tb]. *)
Definition buildNormalTransaction (tb : builder) (item : itemType) (content : list Z) : bres :=
  let with_t (f : transaction -> bres) : bres :=
    match target tb with None => PPanic | Some t => f t end in
  let with_cur (f : posting -> bres) : bres :=
    match b_cur tb with None => PPanic | Some p => f p end in
  match item with
  | transactionHeaderCommentItem =>
      match b_txn tb with
      | None => PPanic
      | Some t => POk (set_txn tb (set_headernote t (encode content)))
      end
  | commentItem =>
      with_cur (fun p =>
        if negb (is_nil (po_account p)) then POk (set_cur tb (addComment p (encode content)))
        else match b_txn tb with
             | None => PPanic
             | Some t => POk (set_txn tb (addNote t (encode content)))
             end)
  | dateItem =>
      match parseDate content with
      | PPanic => PPanic
      | PErr e => PErr e
      | POk d => with_t (fun t => POk (set_target tb (set_date t d)))
      end
  | stateItem =>
      if negb (prev_in tb [dateItem]) then PErr EExpectedState
      else match content with
           | [] => PPanic
           | c :: _ =>
               with_t (fun t => POk (set_target tb (set_state t
                 (if c =? c_bang then UnclearedState
                  else if c =? c_star then ClearedState else NoState))))
           end
  | payeeItem =>
      if negb (prev_in tb [dateItem; stateItem]) then PErr EExpectedPayee
      else with_t (fun t => POk (set_target tb (set_payee t (encode content))))
  | accountItem =>
      if negb (prev_in tb [commentItem; transactionHeaderCommentItem; payeeItem; amountItem;
                           accountItem; periodItem])
      then PErr EExpectedAccount
      else with_cur (fun p =>
        with_t (fun t =>
          let '(t', p') :=
            if negb (is_nil (po_account p)) then (fst (t_addPosting t p), newPosting)
            else (t, p) in
          POk (set_cur (set_target tb t')
                 (Posting (po_comments p') (encode content) (po_amount p')))))
  | commodityItem =>
      if negb (prev_in tb [accountItem]) then PErr EExpectedCommodity
      else with_cur (fun p =>
        let a := match po_amount p with
                 | None => Amount (encode content) 0
                 | Some a => Amount (encode content) (am_quantity a)
                 end in
        POk (set_cur tb (Posting (po_comments p) (po_account p) (Some a))))
  | amountItem =>
      if negb (prev_in tb [commodityItem; payeeItem]) then PErr EExpectedAmount
      else with_cur (fun p =>
        let a := match po_amount p with None => Amount [] 0 | Some a => a end in
        match parseAmount content with
        | PPanic => PPanic
        | PErr e => PErr (EParsingAmount e)
        | POk q => POk (set_cur tb (Posting (po_comments p) (po_account p)
                                      (Some (Amount (am_commodity a) q))))
        end)
  | _ => POk tb
  end.

(** transactionbuilder.go:149-163; taking the address of a field of a nil
    pointer panics. *)
Definition buildPeriodicTransaction (tb : builder) (item : itemType) (content : list Z) : bres :=
  match b_ptxn tb with
  | None => PPanic
  | Some pt =>
      match item with
      | periodItem =>
          POk (Builder (b_type tb) (b_txn tb) (Some (PTxn (parsePeriod content) (pt_txn pt)))
                 (b_cur tb) (b_prev tb))
      | _ => buildNormalTransaction tb item content
      end
  end.

(** transactionbuilder.go:50-64 *)
Definition build (tb : builder) (item : itemType) (content : list Z) : bres :=
  let r := match b_type tb with
           | normalTransaction => buildNormalTransaction tb item content
           | periodicTransaction => buildPeriodicTransaction tb item content
           end in
  match r with
  | POk tb' => POk (set_prev tb' item)
  | PErr e => PErr e
  | PPanic => PPanic
  end.

(** transactionbuilder.go:207-239.  [t] is [target tb]; the error of adding the
    budget source posting is ignored. *)
Definition hasBudgetSource (t : transaction) : bool :=
  existsb (fun p => str_eqb (po_account p) BudgetRootID) (t_postings t).

Definition is_budget (tb : builder) : bool :=
  match b_type tb, b_ptxn tb with
  | periodicTransaction, Some pt => is_pnone (pe_interval (pt_period pt))
  | _, _ => false
  end.

Definition endNormalTransaction (tb : builder) (t : transaction) : transaction * option err :=
  let '(t1, e1) := match b_cur tb with
                   | Some p => t_addPosting t p
                   | None => (t, None)
                   end in
  match e1 with
  | Some e => (t1, Some e)
  | None =>
      let t2 :=
        if is_budget tb && negb (hasBudgetSource t1)
        then fst (t_addPosting t1 (Posting [] BudgetRootID None))
        else t1 in
      t_close t2
  end.

(** ** The parser *)

(** A file: its bytes, and whether reading ends with an error rather than EOF
    (a directory, for instance, is [File [] true]). *)
Record file := File { f_bytes : str; f_bad : bool }.

Section Parser.
Context {S : Type}.
Variable U : unicode.
Variable fs : str -> option file.
Variable th : option (S -> transaction -> str -> S * status).
Variable ph : option (S -> ptransaction -> str -> S * status).

(** parser.go:22-27 with what the handlers mutate. *)
Record pstate := PS { ps_b : builder; ps_files : list str; ps_s : S }.

Definition set_b (st : pstate) (tb : builder) : pstate := PS tb (ps_files st) (ps_s st).
Definition set_files (st : pstate) (fl : list str) : pstate := PS (ps_b st) fl (ps_s st).
Definition set_s (st : pstate) (s : S) : pstate := PS (ps_b st) (ps_files st) s.

(** transactionbuilder.go:165-205 *)
Definition endTransaction (st : pstate) : pstate * status :=
  let tb := ps_b st in
  let path := last (ps_files st) [] in
  match b_type tb with
  | normalTransaction =>
      match b_txn tb with
      | None => (st, SOk)
      | Some t =>
          let '(t', e) := endNormalTransaction tb t in
          match e with
          | Some e => (st, SErr e)
          | None =>
              let '(s', r) := match th with
                              | Some h => h (ps_s st) t' path
                              | None => (ps_s st, SOk)
                              end in
              match r with
              | SOk => (PS (Builder (b_type tb) None (b_ptxn tb) None (b_prev tb))
                           (ps_files st) s', SOk)
              | _ => (set_s st s', r)
              end
          end
      end
  | periodicTransaction =>
      match b_ptxn tb with
      | None => (st, SOk)
      | Some pt =>
          let '(t', e) := endNormalTransaction tb (pt_txn pt) in
          match e with
          | Some e => (st, SErr e)
          | None =>
              let '(s', r) := match ph with
                              | Some h => h (ps_s st) (PTxn (pt_period pt) t') path
                              | None => (ps_s st, SOk)
                              end in
              match r with
              | SOk => (PS (Builder (b_type tb) (b_txn tb) None None (b_prev tb))
                           (ps_files st) s', SOk)
              | _ => (set_s st s', r)
              end
          end
      end
  end.

Definition wrap_err (f : err -> err) (r : status) : status :=
  match r with SErr e => SErr (f e) | _ => r end.

(** What lexing a file, given the include path, does: filled in by [run_file]. *)
Definition includer := str -> pstate -> pstate * status.

Definition build_in (st : pstate) (item : itemType) (content : list Z) : pstate * status :=
  match build (ps_b st) item content with
  | POk tb => (set_b st tb, SOk)
  | PErr e => (st, SErr e)
  | PPanic => (st, SPanic)
  end.

(** parser.go:53-115.  [inc path] is lines 67-82. *)
Definition parseItem (inc : includer) (st : pstate) (item : itemType) (content : list Z)
  : pstate * status :=
  match item with
  | emptyLineItem => endTransaction st
  | eofItem => endTransaction st
  | includeItem =>
      let path := encode content in
      let '(st', r) := inc path (set_files st (ps_files st ++ [path])) in
      match r with
      | SOk => (set_files st' (firstn 1 (ps_files st')), SOk)
      | _ => (st', r)
      end
  | dateItem =>
      let '(st1, r) := endTransaction st in
      match r with
      | SOk =>
          let '(st2, r2) := build_in (set_b st1 (beginTransaction (ps_b st1) normalTransaction))
                              item content in
          (st2, wrap_err EParsingDate r2)
      | _ => (st1, r)
      end
  | periodItem =>
      let '(st1, r) := endTransaction st in
      match r with
      | SOk =>
          let '(st2, r2) := build_in (set_b st1 (beginTransaction (ps_b st1) periodicTransaction))
                              item content in
          (st2, wrap_err EParsingPeriod r2)
      | _ => (st1, r)
      end
  | _ => build_in st item content
  end.

(** The items of one line, then the lexer's own error. *)
Fixpoint parseItems (inc : includer) (st : pstate) (items : list (itemType * list Z))
  (final : option err) : pstate * status :=
  match items with
  | [] => (st, match final with None => SOk | Some e => SErr e end)
  | (i, c) :: rest =>
      let '(st', r) := parseItem inc st i c in
      match r with
      | SOk => parseItems inc st' rest final
      | _ => (st', r)
      end
  end.

(** lexer.go:79-112 *)
Fixpoint lexLines (inc : includer) (hint : str) (bad : bool) (n : Z) (ls : list line)
  (st : pstate) : pstate * status :=
  match ls with
  | [] => if bad then (st, SErr (ERead hint)) else parseItem inc st eofItem []
  | LongLine :: _ => (st, SFatal)
  | Line l :: ls' =>
      let '(items, e) := lexLine U hint l in
      let '(st', r) := parseItems inc st items e in
      match r with
      | SOk => lexLines inc hint bad (n + 1) ls' st'
      | _ => (st', wrap_err (EAt hint n) r)
      end
  end.

(** Lexing a file; includes may nest [depth] deep (parser.go:64-82). *)
Fixpoint run_file (depth : nat) (hint : str) (f : file) (st : pstate) {struct depth}
  : pstate * status :=
  lexLines
    (match depth with
     | O => fun _ st' => (st', SDeep)
     | Datatypes.S d => fun path st' =>
         match fs path with
         | None => (st', SErr (EOpen path))
         | Some f' => let '(st2, r) := run_file d path f' st' in (st2, wrap_err EErrorAt r)
         end
     end)
    hint (f_bad f) 1 (file_lines (f_bytes f)) st.

(** parser.go:30-51: NewParser followed by Parse. *)
Definition parse (depth : nat) (hint : str) (f : file) (s : S) : S * status :=
  let '(st, r) := run_file depth hint f (PS newBuilder [hint] s) in
  (ps_s st, wrap_err EErrorAt r).

End Parser.

Arguments pstate : clear implicits.

(** ** The event trace: the parser run with recording handlers. *)
Inductive event := ETxn (t : transaction) (path : str) | EPer (t : ptransaction) (path : str).

Definition rec_th (s : list event) (t : transaction) (p : str) : list event * status :=
  (s ++ [ETxn t p], SOk).
Definition rec_ph (s : list event) (t : ptransaction) (p : str) : list event * status :=
  (s ++ [EPer t p], SOk).

Definition trace (U : unicode) (fs : str -> option file) (depth : nat) (hint : str) (f : file)
  : list event * status :=
  parse U fs (Some rec_th) (Some rec_ph) depth hint f [].
