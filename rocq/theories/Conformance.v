(** * The repository's own tests, run on the model

    Each example is one test of /repo; the expected value is the one the test
    compares with.  The journals of /repo/testdata carry their expected output in
    comments; there a zero amount was shown as 0 when they were written, the
    program now shows 0.00. *)
From Verif Require Import Base Utf8 Unicode GoTime Strconv Display Journal Lexer Parser Account
  Reporting Budget Cmd Heap Sample.

(** ** parser/dates_test.go *)

Definition smart (s : String.string) : pres date := parseSmartDate 2020 (lit s).
Definition fails {A} (r : pres A) : bool := match r with PErr _ => true | _ => false end.

Example TestParseYear : smart "2020" = POk (Date 2020 1 1). Proof. reflexivity. Qed.
Example TestParseYearIncorrectLength : fails (smart "20") = true. Proof. reflexivity. Qed.
Example TestParseYearMonth : smart "2020/06" = POk (Date 2020 6 1) /\ smart "2020-06" = POk (Date 2020 6 1).
Proof. split; reflexivity. Qed.
Example TestParseYearMonthIncorrectLength : fails (smart "20/06") = true. Proof. reflexivity. Qed.
Example TestParseYearMonthIncorrectFormat : fails (smart "2020/42") = true. Proof. reflexivity. Qed.
Example TestParseMonthDay : smart "06/22" = POk (Date 2020 6 22) /\ smart "06.22" = POk (Date 2020 6 22).
Proof. split; reflexivity. Qed.
Example TestParseMonthDayIncorrectLength : fails (smart "20/06") = true. Proof. reflexivity. Qed.
Example TestParseMonthDayIncorrectForamt : fails (smart "13/06") = true. Proof. reflexivity. Qed.
Example TestParseYearMonthDay : smart "2020/06/22" = POk (Date 2020 6 22) /\ smart "2020.06.22" = POk (Date 2020 6 22).
Proof. split; reflexivity. Qed.
Example TestParseYearMonthDayIncorrectLength : fails (smart "2020/6/3") = true. Proof. reflexivity. Qed.
Example TestParseYearMonthDayIncorrectForamt : fails (smart "20/12/06") = true. Proof. reflexivity. Qed.

(** ** parser/transactionbuilder_test.go *)

Definition begun : builder := beginTransaction newBuilder normalTransaction.
Definition ok {A} (r : pres A) : bool := match r with POk _ => true | _ => false end.

Example TestDateItemParsing :
  map (fun s => ok (build begun dateItem (decode (lit s)))) ["2020/10/11"; "2020-10-11"; "2020.10.11"]%string = [true; true; true] /\
  map (fun s => fails (build begun dateItem (decode (lit s)))) ["20201011"; "2020-10-89"; "2020.10"]%string = [true; true; true].
Proof. split; reflexivity. Qed.

Definition built_amount (s : String.string) : option Z :=
  match build (set_prev begun commodityItem) amountItem (decode (lit s)) with
  | POk tb => match b_cur tb with
              | Some p => option_map am_quantity (po_amount p)
              | None => None
              end
  | _ => None
  end.
Example TestAmountItemParsing :
  map built_amount ["42.81"; "+42.81"; "-42"]%string = [Some 4281; Some 4281; Some (-4200)] /\
  map (fun s => fails (build (set_prev begun commodityItem) amountItem (decode (lit s)))) ["g81"; "8g1"]%string = [true; true].
Proof. split; reflexivity. Qed.

(** ** parser/lexer_test.go *)

Definition tab : str := [9].
Definition taken (s : str) : str := encode (fst (takeToTabOrNextLineOrComment (Lx s 0 0))).
Example TestTakeToNextLineOrComment :
  map taken [lit "input test"; lit "input test;comment"; lit "input test  "; lit "input test "; lit "input test" ++ tab ++ lit "hello"]
  = repeat (lit "input test") 5.
Proof. reflexivity. Qed.

Example TestLexTransactionHeader :
  lexTransactionHeader (Lx (lit "2020-10-11 A shop") 0 0)
  = ([(dateItem, lit "2020-10-11"); (payeeItem, lit "A shop")], None).
Proof. reflexivity. Qed.
Example TestLex : snd (lexLine U0 (lit "th") (lit "2020-10-11 A shop")) = None. Proof. reflexivity. Qed.

(** ** journal/amount_test.go *)

Definition shown (c : String.string) (q : Z) : str * str :=
  (displayableQuantity (Amount (lit c) q) true, displayableQuantity (Amount (lit c) q) false).
Example TestDisplaysPositiveAmount : shown "GBP " 4281 = (lit "GBP 42.81", lit "42.81"). Proof. reflexivity. Qed.
Example TestDisplaysNegativeAmount : shown "£" (-4281) = (lit "£-42.81", lit "-42.81"). Proof. reflexivity. Qed.
Example TestDisplaysThreeDigitAmounts : shown "GBP " 981 = (lit "GBP 9.81", lit "9.81"). Proof. reflexivity. Qed.
Example TestDisplaysTwoDigitAmounts : shown "GBP " 81 = (lit "GBP 0.81", lit "0.81"). Proof. reflexivity. Qed.
Example TestDisplaysOneDigitAmounts : shown "GBP " 9 = (lit "GBP 0.09", lit "0.09"). Proof. reflexivity. Qed.

(** ** journal/account_test.go *)

Definition creates (l : list (list String.string)) : account :=
  fold_left (fun a comps => match findOrCreateAccount a (map lit comps) with Some a' => a' | None => a end) l
    (newAccount RootID).
Definition createRoot : account :=
  creates [["A0"; "A1a"]; ["A0"; "A1b"; "A2"; "A3"]; ["E0"; "E1a"; "E2a"; "E3a"]; ["E0"; "E1a"; "E2a"; "E3b"];
           ["E0"; "E1b"; "E2b"]; ["I0"; "I1"]]%string.
Definition keys (a : account) : list str := map fst (acc_children a).
Definition at_keys (q : list String.string) (a : account) : list str :=
  match find_at (map lit q) a with Some b => keys b | None => [] end.
Definition visit : list str -> forall A, list A -> list A := fun _ _ l => l.

Example TestFindOrCreate :
  let r1 := creates [["assets"; "current"]]%string in
  let r2 := creates [["assets"; "current"]; ["assets"; "savings"]]%string in
  let r3 := creates [["assets"; "current"]; ["assets"; "savings"]; ["assets"; "savings"]; ["expenses"; "groceries"]]%string in
  keys r1 = [lit "assets"] /\ at_keys ["assets"]%string r1 = [lit "current"] /\
  option_map acc_name (find_at [lit "assets"; lit "current"] r1) = Some (lit "current") /\
  length (at_keys ["assets"]%string r2) = 2%nat /\
  findOrCreateAccount r2 [lit "assets"; lit "savings"] = Some r2 /\ length (keys r3) = 2%nat.
Proof. repeat split. Qed.

Example TestAccountPathGeneration :
  createPath (lit "isa") [lit "savings"; lit "assets"] = lit "assets:savings:isa" /\
  acc_data (newAccountWithChildren [] (lit "isa") []) = AD (lit "isa") (lit "isa") (Amount [] 0) [] /\
  option_map (fun a => a_path (acc_data a)) (find_at (map lit ["savings"; "isa"]%string) (newAccountWithChildren [] (lit "assets") (map lit ["savings"; "isa"]%string)))
  = Some (lit "assets:savings:isa").
Proof. repeat split. Qed.

Example TestAccountPrinting :
  asString visit [] 0 (newAccountWithChildren [] (lit "assets") [lit "my savings account "])
  = lit "assets" ++ [newline] ++ lit "  my savings account ".
Proof. reflexivity. Qed.

Example TestMatcher : length (leaves visit createRoot) = 6%nat. Proof. reflexivity. Qed.

Example TestPruning :
  keys (pruneChildren 0 0 createRoot) = [] /\
  length (keys (pruneChildren 1 0 createRoot)) = 3%nat /\
  forallb (fun kc => match acc_children (snd kc) with [] => true | _ => false end)
    (acc_children (pruneChildren 1 0 createRoot)) = true /\
  length (keys (pruneChildren 2 0 createRoot)) = 3%nat /\
  map (fun n => length (at_keys [n] (pruneChildren 2 0 createRoot))) ["A0"; "E0"; "I0"]%string = [2; 2; 1]%nat.
Proof. repeat split. Qed.

Definition newTestAccount : account :=
  creates [["Assets"; "Current"]; ["Assets"; "Savings"; "ISA"]; ["Expenses"; "Fun"; "Hobbies"];
           ["Expenses"; "Fun"; "Dining Out"]; ["Expenses"; "Life"; "Groceries"]; ["Income"; "Work"]]%string.
Example TestRemoveChildren :
  let r := fst (removeChildren (fun a => str_eqb (acc_name a) (lit "Groceries")) newTestAccount) in
  keys r = [lit "Expenses"] /\ at_keys ["Expenses"]%string r = [lit "Life"] /\
  at_keys ["Expenses"; "Life"]%string r = [lit "Groceries"].
Proof. repeat split. Qed.

(** ** reporting/tree_test.go, flattenedtree_test.go *)

Definition lines (l : list String.string) : str := join [newline] (map lit l).
Example TestTree :
  Tree (fun _ => lit "£123  ") true createRoot
  = lines ["£123  A0"; "£123    A1a"; "£123    A1b:A2:A3"; "£123  E0"; "£123    E1a:E2a"; "£123      E3a";
           "£123      E3b"; "£123    E1b:E2b"; "£123  I0:I1"]%string.
Proof. reflexivity. Qed.
Example TestFlattenedTree :
  FlattenedTree (fun _ => []) createRoot
  = lines ["A0:A1a"; "A0:A1b:A2:A3"; "E0:E1a:E2a:E3a"; "E0:E1a:E2a:E3b"; "E0:E1b:E2b"; "I0:I1"]%string.
Proof. reflexivity. Qed.

(** ** testdata/test.journal *)

Definition test_journal : str := lit ";
; ---------------------------
; DO NOT CHANGE THIS FILE
; ---------------------------
;


2020-01-01 * Job
  Assets:Current  £1000
  Income:Work

; This is a comment
; This is another comment
2020-01-02 * Grocery store  ; Weekly shop
		; transaction note
		; more notes for the transaction
		Assets:Cash  £-40
			; posting note
		; another posting note
    Expenses:Immediate Obligations:Groceries    £40


2020-01-03 A restaurant
      			; a comment in the restaurant posting
    Assets:Current 
    Expenses:Life:Dining    £30

2021-02-11 ! clothes store  ; new shoes
    Assets:Current
    Expenses:Life:Clothing    £20.00

; note that this transaction is out of chronological order
2020-01-04 * Cash
  Assets:Current     £-40.00
  Assets:Cash


include included.journal

;
; ---------------------------
; DO NOT CHANGE THIS FILE
; ---------------------------
;


;
; EXPECTED BALANCE OUTPUT
;
;             £840.00  Assets
;                   0    Cash
;             £840.00    Current
;             £160.00  Expenses
;              £40.00    Immediate Obligations:Groceries
;             £120.00    Life
;              £70.00      Clothing
;              £50.00      Dining
;           £-1000.00  Income:Work
;--------------------
;                   0
;

;
; EXPECTED ACCOUNTS OUTPUT
;
; Assets:Cash
; Assets:Current
; Expenses:Immediate Obligations:Groceries
; Expenses:Life:Clothing
; Expenses:Life:Dining
; Income:Work

;
; EXPECTED PAYEES OUTOUT
;
; A restaurant
; Cash
; Clothes store
; Grocery store
; Job
; clothes store
;
".
Definition included_journal : str := lit ";
; ---------------------------
; DO NOT CHANGE THIS FILE
; ---------------------------
;

2020-01-05 A restaurant
    ; a comment in the restaurant posting
    Assets:Current          £-20
    Expenses:Life:Dining

2020-01-06 ! Clothes store  ; new shoes
    Assets:Current
    Expenses:Life:Clothing    £50.00

;
; ---------------------------
; DO NOT CHANGE THIS FILE
; ---------------------------
;
".
Definition E_test : env := env0 [(lit "test.journal", test_journal); (lit "included.journal", included_journal)].
Definition O_test : opts := Opts (lit "test.journal") [] [] false [] false true true.

Example expected_balance_output :
  balance_cmd E_test O_test = Outcome
    [lines ["             £840.00  Assets"; "               £0.00    Cash"; "             £840.00    Current";
            "             £160.00  Expenses"; "              £40.00    Immediate Obligations:Groceries";
            "             £120.00    Life"; "              £70.00      Clothing"; "              £50.00      Dining";
            "           £-1000.00  Income:Work"]%string ++ [newline];
     lit "--------------------" ++ [newline];
     lit "                0.00" ++ [newline]] SOk.
Proof. vm_compute. reflexivity. Qed.

Example expected_accounts_output :
  accounts_cmd E_test O_test = Outcome
    (map (fun s => lit s ++ [newline])
       ["Assets:Cash"; "Assets:Current"; "Expenses:Immediate Obligations:Groceries"; "Expenses:Life:Clothing";
        "Expenses:Life:Dining"; "Income:Work"]%string) SOk.
Proof. vm_compute. reflexivity. Qed.

Example expected_payees_output :
  payees_cmd E_test O_test = Outcome
    (map (fun s => lit s ++ [newline])
       ["A restaurant"; "Cash"; "Clothes store"; "Grocery store"; "Job"; "clothes store"]%string) SOk.
Proof. vm_compute. reflexivity. Qed.
