(** * Base: Go values used throughout the model

    Byte strings and rune slices are [list Z].  A Go [string] is its list of
    bytes; a Go [[]rune] its list of code points.  Values outside 0..255 in a
    byte string do not occur in Go; the theorems hold for the larger type. *)
From Coq Require Export String.
From Coq Require Export List ZArith Lia Bool Permutation Sorted.
From Coq Require Ascii.
Export ListNotations.
Open Scope Z_scope.

Definition str := list Z.

(** Literals: a Coq string literal is read as its (UTF-8) bytes. *)
Definition lit (s : String.string) : str :=
  map (fun a => Z.of_N (Ascii.N_of_ascii a)) (String.list_ascii_of_string s).
Arguments lit s%string.

(** Go [==] on strings and the [equal] helper of parser/lexer.go:448-460. *)
Fixpoint str_eqb (a b : str) : bool :=
  match a, b with
  | [], [] => true
  | x :: a', y :: b' => (x =? y) && str_eqb a' b'
  | _, _ => false
  end.

(** Byte-wise order of Go strings, used by [sort.Strings]. *)
Fixpoint str_ltb (a b : str) : bool :=
  match a, b with
  | [], [] => false
  | [], _ :: _ => true
  | _ :: _, [] => false
  | x :: a', y :: b' => (x <? y) || ((x =? y) && str_ltb a' b')
  end.

(** Two's-complement wrap-around of [int64]. *)
Definition two63 : Z := 9223372036854775808.
Definition two64 : Z := 18446744073709551616.
Definition wrap64 (z : Z) : Z := (z + two63) mod two64 - two63.
Definition in_int64 (z : Z) : Prop := - two63 <= z < two63.

(** [strings.Split(s, sep)] for a one-byte separator: always at least one
    component (used at journal/journal.go:79, journal/budget.go:83,86,
    cmd/budget.go:87, cmd/stats.go:101, parser/dates.go:23-29). *)
Fixpoint split (sep : Z) (s : str) : list str :=
  match s with
  | [] => [[]]
  | c :: s' =>
      if c =? sep then [] :: split sep s'
      else match split sep s' with
           | [] => [[c]]
           | w :: ws => (c :: w) :: ws
           end
  end.

(** Joining with a separator (the inverse, used by specifications). *)
Fixpoint join (sep : str) (ws : list str) : str :=
  match ws with
  | [] => []
  | [w] => w
  | w :: ws' => w ++ sep ++ join sep ws'
  end.

(** Association lists standing for Go maps.  The order of the list stands for
    the (unspecified) iteration order of the map. *)
Section Assoc.
  Context {K V : Type} (eqb : K -> K -> bool).
  Fixpoint assoc (k : K) (l : list (K * V)) : option V :=
    match l with
    | [] => None
    | (k', v) :: l' => if eqb k k' then Some v else assoc k l'
    end.
  (** [m[k] = v] *)
  Fixpoint assoc_set (k : K) (v : V) (l : list (K * V)) : list (K * V) :=
    match l with
    | [] => [(k, v)]
    | (k', v') :: l' =>
        if eqb k k' then (k', v) :: l' else (k', v') :: assoc_set k v l'
    end.
  (** [delete(m, k)] *)
  Fixpoint assoc_del (k : K) (l : list (K * V)) : list (K * V) :=
    match l with
    | [] => []
    | (k', v') :: l' =>
        if eqb k k' then assoc_del k l' else (k', v') :: assoc_del k l'
    end.
End Assoc.

(** Sorting by a key with a strict order; used for [sort.Strings] and for
    [sort.Slice] on pairwise different keys, where the result is unique. *)
Section Sort.
  Context {A : Type} (ltb : A -> A -> bool).
  Fixpoint insert (x : A) (l : list A) : list A :=
    match l with
    | [] => [x]
    | y :: l' => if ltb y x then y :: insert x l' else x :: l
    end.
  Fixpoint isort (l : list A) : list A :=
    match l with
    | [] => []
    | x :: l' => insert x (isort l')
    end.
End Sort.

Definition sort_strings (l : list str) : list str := isort str_ltb l.

(** Errors, as a structure rather than as text: constructors name the
    [errors.New]/[fmt.Errorf] site.  The texts of errors made inside [time],
    [strconv], [os] and [regexp] are not modelled; these errors carry what the call
    was given. *)
Inductive err :=
| EUnexpectedLine                      (* parser/lexer.go:158 *)
| EUnexpectedDirective (d : str)       (* parser/lexer.go:163 *)
| EInclude                             (* parser/lexer.go:167,173 *)
| EPeriodSpaces                        (* parser/lexer.go:187 *)
| EAccountSpaces                       (* parser/lexer.go:255 *)
| EExpectedState                       (* parser/transactionbuilder.go:85 *)
| EExpectedPayee                       (* parser/transactionbuilder.go:98 *)
| EExpectedAccount                     (* parser/transactionbuilder.go:109 *)
| EExpectedCommodity                   (* parser/transactionbuilder.go:122 *)
| EExpectedAmount                      (* parser/transactionbuilder.go:132 *)
| EMalformedDate (s : str)             (* parser/parser.go:134 *)
| ETimeParse (layout value : str)      (* time.Parse, time.ParseInLocation *)
| EParseInt (s : str)                  (* strconv.ParseInt(s, 10, 64) *)
| EAtoi (s : str)                      (* strconv.Atoi *)
| ESmartComponents                     (* parser/dates.go:46 *)
| ESmartYear (d : str)                 (* parser/dates.go:52 *)
| ETwoElided                           (* journal/transaction.go:83 *)
| EUnbalanced                          (* journal/transaction.go:113 *)
| EOpen (p : str)                      (* os.Open *)
| ERead (p : str)                      (* read error of the reader *)
| ENoJournal                           (* cmd/common.go:19 *)
| ERegexp (src : str)                  (* regexp.Compile *)
| EParsingDate (e : err)               (* parser/parser.go:97 *)
| EParsingPeriod (e : err)             (* parser/parser.go:108 *)
| EParsingAmount (e : err)             (* parser/transactionbuilder.go:141 *)
| EErrorAt (e : err)                   (* parser/parser.go:47,81 "error at %w" *)
| EUsage (e : err)                     (* reported by cobra, cmd/root.go:30-31 *)
| EAt (hint : str) (line : Z) (e : err). (* parser/lexer.go:106 "%s:%d\n%w" *)

(** How (part of) a run ends. [SDeep] is "the include depth the system allows
    is used up" (in reality: no file descriptors or no stack left). *)
Inductive status :=
| SOk
| SErr (e : err)
| SPanic
| SFatal          (* log.Fatalln, parser/lexer.go:95 *)
| SDeep.

(** Reserved account names and constants, journal/journal.go:9-15,
    shared/shared.go:4. *)
Definition RootID : str := lit "_root_".
Definition BudgetRootID : str := lit "_budget_root_".
Definition ExpensesID : str := lit "Expenses".
Definition IncomeID : str := lit "Income".
Definition TabWidth : Z := 2.

Definition colon : Z := 58.
Definition newline : Z := 10.

(** Decimal numerals ([%d]). *)
Fixpoint digits_fuel (fuel : nat) (n : Z) (acc : str) : str :=
  match fuel with
  | O => acc
  | S f => let acc' := (48 + n mod 10) :: acc in
           if n <? 10 then acc' else digits_fuel f (n / 10) acc'
  end.
Definition itoa_nat (n : Z) : str := digits_fuel (S (Z.to_nat (Z.log2 n))) n [].
Definition itoa (n : Z) : str :=
  if n <? 0 then 45 :: itoa_nat (- n) else itoa_nat n.

(** n copies of a byte. *)
Definition rep (n : nat) (b : Z) : str := repeat b n.
