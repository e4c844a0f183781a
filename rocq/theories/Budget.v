(** * Budget months: journal/budget.go *)
From Verif Require Import Base Utf8 GoTime Strconv Journal Account.

(** budget.go:19-25; [overspending] and [future] are never used. *)
Record budgetMonth := BM { bm_envelope : account; bm_expense : account; bm_income : account }.

Definition nm_income : str := lit "Funds".
Definition nm_expense : str := lit "Spending".

(** budget.go:27-37 *)
Definition newBudgetMonth : budgetMonth :=
  BM (newAccount BudgetRootID) (newAccount nm_expense) (newAccount nm_income).

(** budget.go:9-17: months by (normalised) date *)
Definition budget := list (date * budgetMonth).
Definition newBudget : budget := [].

Inductive postingType := EnvelopePosting | ExpensePosting | IncomePosting.

Definition month_of (b : budget) (m : date) : budgetMonth :=
  match assoc date_eqb m b with Some bm => bm | None => newBudgetMonth end.

Definition set_amount (a : amount) (acc : account) : account :=
  let 'Acc d ch := acc in Acc (AD (a_name d) (a_path d) a (a_postings d)) ch.
Definition acc_amount (a : account) : amount := a_amount (acc_data a).
Definition set_commodity (c : str) (acc : account) : account :=
  set_amount (Amount c (am_quantity (acc_amount acc))) acc.
(** "if commodity is empty, set it" *)
Definition default_commodity (c : str) (acc : account) : account :=
  match am_commodity (acc_amount acc) with
  | [] => set_commodity c acc
  | _ => acc
  end.
Definition add_posting_here (p : posting) (a : account) : account :=
  let 'Acc d ch := a in
  Acc (AD (a_name d) (a_path d) (a_amount d) (a_postings d ++ [p])) ch.
Definition act (op : amount -> amount -> amount * list str) (am : amount) (d : adata) : adata * list str :=
  let '(a', out) := op (a_amount d) am in
  (AD (a_name d) (a_path d) a' (a_postings d), out).

(** budget.go:47-151 for envelope and expense postings.  [None]: the program
    panics (missing amount, or an expense posting without components after
    "Expenses").  Lines 130-137 recompute a Path that is empty, to the same empty
    text, and are left out together with [PathComponents]. *)
Definition b_addEntry (b : budget) (m : date) (p : posting) (pt : postingType)
  : option (budget * list str) :=
  let bm := month_of b m in
  let is_expense := match pt with ExpensePosting => true | _ => false end in
  match po_amount p with
  | None => None
  | Some am =>
      if negb is_expense && str_eqb (po_account p) BudgetRootID then
        let '(a', out) := amount_add (acc_amount (bm_envelope bm)) am in
        Some (assoc_set date_eqb m (BM (set_amount a' (bm_envelope bm)) (bm_expense bm) (bm_income bm)) b,
              out)
      else
        let all := split colon (po_account p) in
        let comps := if is_expense then tl all else all in
        match findOrCreateAccount (bm_envelope bm) comps, findOrCreateAccount (bm_expense bm) comps with
        | Some env0, Some exp0 =>
            let c := am_commodity am in
            let env1 := update_at comps (set_commodity c) (default_commodity c env0) in
            let exp1 := update_at comps (set_commodity c) (default_commodity c exp0) in
            if is_expense then
              match walkAncestors comps (act amount_sub am) (update_at comps (add_posting_here p) exp1) with
              | Some (exp2, out) =>
                  Some (assoc_set date_eqb m (BM env1 exp2 (bm_income bm)) b, out)
              | None => None
              end
            else
              match walkAncestors comps (act amount_add am) (update_at comps (add_posting_here p) env1) with
              | Some (env2, out) =>
                  Some (assoc_set date_eqb m (BM env2 exp1 (bm_income bm)) b, out)
              | None => None
              end
        | _, _ => None
        end
  end.

(** budget.go:161-187 *)
Definition b_addIncome (b : budget) (m : date) (p : posting) : option (budget * list str) :=
  let bm := month_of b m in
  match po_amount p with
  | None => None
  | Some am =>
      let c := am_commodity am in
      let inc0 := add_posting_here p (default_commodity c (bm_income bm)) in
      let env0 := default_commodity c (bm_envelope bm) in
      let '(ai, out1) := amount_sub (acc_amount inc0) am in
      let '(ae, out2) := amount_sub (acc_amount env0) am in
      Some (assoc_set date_eqb m (BM (set_amount ae env0) (bm_expense bm) (set_amount ai inc0)) b,
            out1 ++ out2)
  end.

(** budget.go:47-151; [d] is the date of the posting's transaction. *)
Definition b_addPosting (b : budget) (d : date) (p : posting) (pt : postingType)
  : option (budget * list str) :=
  match pt with
  | IncomePosting => b_addIncome b (normaliseToMonth d) p
  | _ => b_addEntry b (normaliseToMonth d) p pt
  end.
