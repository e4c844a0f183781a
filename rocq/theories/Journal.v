(** * journal/amount.go, posting.go, transaction.go, periodictransaction.go *)
From Verif Require Import Base Utf8 GoTime Strconv Display.

(** journal/amount.go:8-11 *)
Record amount := Amount { am_commodity : str; am_quantity : Z }.

(** journal/amount.go:26-33 *)
Definition displayableQuantity (a : amount) (withCommodity : bool) : str :=
  let amt := display_quantity (am_quantity a) in
  if withCommodity then am_commodity a ++ amt else amt.

(** journal/amount.go:36-43 and 46-53.  The second component is what is printed
    on standard output. *)
Definition mismatch (verb : str) (a b : amount) : list str :=
  if str_eqb (am_commodity a) (am_commodity b) then []
  else [lit "unhandled " ++ verb ++ lit " of unmatched commodities: '" ++ am_commodity a
          ++ lit "' and '" ++ am_commodity b ++ lit "'" ++ [newline]].
Definition amount_add (a other : amount) : amount * list str :=
  (Amount (am_commodity a) (wrap64 (am_quantity a + am_quantity other)),
   mismatch (lit "addition") a other).
Definition amount_sub (a other : amount) : amount * list str :=
  (Amount (am_commodity a) (wrap64 (am_quantity a - am_quantity other)),
   mismatch (lit "subtraction") a other).

(** journal/posting.go:6-12. The [Transaction] and [Account] pointers are not
    stored: where the code follows [p.Transaction] (its date) the transaction is
    passed along; [p.Account] is set when the posting is linked and is nil before. *)
Record posting := Posting {
  po_comments : list str; po_account : str; po_amount : option amount }.

(** journal/posting.go:15-23 *)
Definition newPosting : posting := Posting [] [] None.

Inductive txn_state := NoState | UnclearedState | ClearedState.

(** journal/transaction.go:33-41.  [postingWithElidedAmount] is a pointer to one
    of [Postings]; it is represented by that posting's index. *)
Record transaction := Txn {
  t_date : date;
  t_state : txn_state;
  t_payee : str;
  t_postings : list posting;
  t_elided : option nat;
  t_headernote : str;
  t_notes : list str }.

(** journal/transaction.go:44-52 *)
Definition newTransaction : transaction := Txn zero_date NoState [] [] None [] [].

(** journal/transaction.go:80-93.  On error the posting is not added. *)
Definition t_addPosting (t : transaction) (p : posting) : transaction * option err :=
  let add elided :=
    Txn (t_date t) (t_state t) (t_payee t) (t_postings t ++ [p]) elided
        (t_headernote t) (t_notes t) in
  match po_amount p with
  | None =>
      match t_elided t with
      | Some _ => (t, Some ETwoElided)
      | None => (add (Some (length (t_postings t))), None)
      end
  | Some _ => (add (t_elided t), None)
  end.

(** The loop of journal/transaction.go:98-109: sum and last commodity. *)
Fixpoint close_loop (ps : list posting) (sum : Z) (c : str) : Z * str :=
  match ps with
  | [] => (sum, c)
  | p :: ps' =>
      match po_amount p with
      | None => close_loop ps' sum c
      | Some a =>
          let c' := match am_commodity a with [] => c | _ => am_commodity a end in
          close_loop ps' (wrap64 (sum + am_quantity a)) c'
      end
  end.

Fixpoint set_amount_at (i : nat) (a : amount) (ps : list posting) : list posting :=
  match i, ps with
  | _, [] => []
  | O, p :: ps' => Posting (po_comments p) (po_account p) (Some a) :: ps'
  | S i', p :: ps' => p :: set_amount_at i' a ps'
  end.

(** journal/transaction.go:96-121 *)
Definition t_close (t : transaction) : transaction * option err :=
  let '(sum, c) := close_loop (t_postings t) 0 [] in
  if negb (sum =? 0) then
    match t_elided t with
    | None => (t, Some EUnbalanced)
    | Some i =>
        (Txn (t_date t) (t_state t) (t_payee t)
             (set_amount_at i (Amount c (wrap64 (- sum))) (t_postings t))
             (t_elided t) (t_headernote t) (t_notes t), None)
    end
  else (t, None).

(** journal/transaction.go:21-30 *)
Definition stateToString (s : txn_state) : str :=
  match s with UnclearedState => lit "!" | ClearedState => lit "*" | NoState => lit " " end.

(** What fmt prints in place of a String method that dereferenced nil (here:
    a posting without amount, journal/posting.go:26). *)
Definition fmt_panic_text : str :=
  lit "%!s(PANIC=String method: runtime error: invalid memory address or nil pointer dereference)".

(** journal/posting.go:25-32, as printed through fmt *)
Definition posting_string (p : posting) : str :=
  match po_amount p with
  | None => fmt_panic_text
  | Some a =>
      fold_left (fun rs c => rs ++ [newline] ++ lit "      ; " ++ c) (po_comments p)
        (po_account p ++ lit "    " ++ displayableQuantity a true)
  end.

(** journal/transaction.go:54-72 *)
Definition transaction_string (t : transaction) : str :=
  let rs0 := format_date (t_date t) ++ lit " " ++ stateToString (t_state t) ++ lit " " ++ t_payee t in
  let rs1 := match t_headernote t with
             | [] => rs0
             | n => rs0 ++ lit "    ; " ++ n
             end in
  let rs2 := fold_left (fun rs n => rs ++ [newline] ++ lit "    ; " ++ n) (t_notes t) rs1 in
  let rs3 := fold_left (fun rs p => rs ++ [newline] ++ lit "    " ++ posting_string p)
               (t_postings t) rs2 in
  rs3 ++ [newline].

(** journal/periodictransaction.go:36-39 *)
Record ptransaction := PTxn { pt_period : period; pt_txn : transaction }.

Definition newPeriodicTransaction : ptransaction :=
  PTxn zero_period (Txn zero_date NoState [] [] None [] []).

Definition is_pnone (p : periodType) : bool := match p with PNone => true | _ => false end.

Definition set_date (t : transaction) (d : date) : transaction :=
  Txn d (t_state t) (t_payee t) (t_postings t) (t_elided t) (t_headernote t) (t_notes t).

(** journal/periodictransaction.go:48-70 with both bounds the zero Time (the only
    way it is called): a period without interval yields the transaction dated at
    the start of the period; any other interval yields nothing and a message. *)
Definition pt_run (pt : ptransaction) : list transaction * list str :=
  if is_pnone (pe_interval (pt_period pt)) then
    ([set_date (pt_txn pt) (pe_start (pt_period pt))], [])
  else ([], [lit "unhandled conversion of non-budget periodic transaction" ++ [newline]]).
