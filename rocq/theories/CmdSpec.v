(** * What the commands work on: specification *)
From Verif Require Import Base Utf8 Unicode GoTime Strconv Journal Lexer Parser Account Reporting Cmd
  Spec TextSpec.

(** ** The journal read *)

(** The journal named by --file, or else by LEDGER_FILE. *)
Definition journal_path (E : env) (O : opts) : option str :=
  match o_file O with [] => e_ledger_file E | f => Some f end.

(** The entries delivered when it is read, and how reading ends. *)
Definition stream (E : env) (O : opts) : list event * status :=
  match journal_path E O with
  | None => ([], SErr ENoJournal)
  | Some path =>
      match e_fs E path with
      | None => ([], SErr (EOpen path))
      | Some f => trace (e_unicode E) (e_fs E) (e_depth E) path f
      end
  end.

(** Its transactions with the files they are from, numbered from [n]. *)
Record used := Used { u_n : nat; u_txn : transaction; u_path : str }.
Fixpoint txns (n : nat) (evs : list event) : list used :=
  match evs with
  | [] => []
  | ETxn t p :: evs' => Used n t p :: txns (Datatypes.S n) evs'
  | EPer _ _ :: evs' => txns n evs'
  end.

(** ** Dates *)

(** [s] is taken for the date [d] in the year [now]. *)
Definition flag_means (now : Z) (s : str) (d : date) : Prop := smart_text now s d \/ signed_year s d.

(** The flags are dates (or not looked at). *)
Definition good_flag (E : env) (O : opts) (n : nat) (flag : str) : Prop :=
  flag = [] \/ o_current O = true \/ exists d, flag_means (e_year E n) flag d.
Definition good_flags (E : env) (O : opts) (n : nat) : Prop :=
  good_flag E O (2 * n) (o_begin O) /\ good_flag E O (2 * n + 1) (o_end O).

(** The instant of the date [d] is within what the flags ask for.  Seconds since
    0001-01-01 UTC; [e_local] is midnight in the zone of the machine. *)
Definition second : Z := 1000000000.
Definition starts_before (E : env) (O : opts) (n : nat) (d : date) : Prop :=
  ((o_begin O = [] \/ o_current O = true) /\ 0 <= instant d) \/
  (o_begin O <> [] /\ o_current O = false /\ exists b, flag_means (e_year E (2 * n)) (o_begin O) b /\ e_local E b <= instant d).
Definition ends_after (E : env) (O : opts) (n : nat) (d : date) : Prop :=
  (o_current O = true /\ (e_tomorrow E n = 0 \/ instant d * second < e_tomorrow E n)) \/
  (o_current O = false /\ o_end O = []) \/
  (o_current O = false /\ o_end O <> [] /\
   exists e, flag_means (e_year E (2 * n + 1)) (o_end O) e /\ (e_local E e = 0 \/ instant d < e_local E e)).
Definition within (E : env) (O : opts) (n : nat) (d : date) : Prop :=
  starts_before E O n d /\ ends_after E O n d.

(** ** Filters *)
Section Filters.
Variable E : env.
Notation matches r s := (e_re_match E (f_regex r) s).

(** The whole transaction is selected: by its payee or by its notes. *)
Definition whole_hit (fs : list filter_) (t : transaction) : bool :=
  existsb (fun f => match f_type f with
                    | PayeeFilter => matches f (t_payee t)
                    | NoteFilter => matches f (t_headernote t) || existsb (fun n => matches f n) (t_notes t)
                    | AccountNameFilter => false
                    end) fs.

(** The posting is selected: by its account or by its comments. *)
Definition posting_hit (fs : list filter_) (p : posting) : bool :=
  existsb (fun f => match f_type f with
                    | PayeeFilter => false
                    | NoteFilter => existsb (fun n => matches f n) (po_comments p)
                    | AccountNameFilter => matches f (po_account p)
                    end) fs.

(** The postings selected. *)
Definition hits (fs : list filter_) (t : transaction) : list posting :=
  match fs with
  | [] => t_postings t
  | _ => if whole_hit fs t then t_postings t else filter (posting_hit fs) (t_postings t)
  end.

(** The transaction contributes something. *)
Definition hit (fs : list filter_) (t : transaction) : bool :=
  match fs with
  | [] => true
  | _ => whole_hit fs t || existsb (posting_hit fs) (t_postings t)
  end.
End Filters.

(** The clock shows a year of four digits. *)
Definition sane_clock (E : env) : Prop := forall n, 1000 <= e_year E n <= 9999.

(** Maps are iterated in some order; sorting by date does that. *)
Definition orders (E : env) : Prop :=
  (forall n A (l : list A), Permutation (e_order E n A l) l) /\
  (forall p A (l : list A), Permutation (e_tree_order E p A l) l).
Definition sorts (E : env) : Prop := forall ts,
  Permutation (e_sort E ts) ts /\
  StronglySorted (fun a b => ~ instant (t_date b) < instant (t_date a)) (e_sort E ts).

(** ** The transactions processed

    [picks fs us sel]: of the transactions [us], [sel] are processed, with the
    postings given; whole transactions keep their postings in order. *)
Inductive picks (E : env) (O : opts) (fs : list filter_) : list used -> list (used * list posting) -> Prop :=
| PickNone : picks E O fs [] []
| PickNot : forall u us sel, ~ within E O (u_n u) (t_date (u_txn u)) \/ hit E fs (u_txn u) = false ->
    picks E O fs us sel -> picks E O fs (u :: us) sel
| PickIt : forall u us sel ps, within E O (u_n u) (t_date (u_txn u)) -> hit E fs (u_txn u) = true ->
    Permutation ps (hits E fs (u_txn u)) ->
    (fs = [] \/ whole_hit E fs (u_txn u) = true -> ps = t_postings (u_txn u)) ->
    picks E O fs us sel -> picks E O fs (u :: us) ((u, ps) :: sel).

(** Without filters: those in the date range. *)
Inductive in_range (E : env) (O : opts) : list used -> list used -> Prop :=
| RangeNone : in_range E O [] []
| RangeOut : forall u us sel, ~ within E O (u_n u) (t_date (u_txn u)) ->
    in_range E O us sel -> in_range E O (u :: us) sel
| RangeIn : forall u us sel, within E O (u_n u) (t_date (u_txn u)) ->
    in_range E O us sel -> in_range E O (u :: us) (u :: sel).

(** The journal can be read and the flags are fine whenever they are looked at. *)
Definition readable (E : env) (O : opts) : Prop :=
  snd (stream E O) = SOk /\ Forall (fun u => good_flags E O (u_n u)) (txns 0 (fst (stream E O))).

(** Filters made from the arguments: [@] for payees, [=] for notes, otherwise
    account names; capital letters make matching case-sensitive. *)
Definition case_text (E : env) (s : str) : str :=
  if existsb (isUpper (e_unicode E)) (decode s) then s else lit "(?i)" ++ s.
Inductive filter_for (E : env) : str -> filter_ -> Prop :=
| ForPayee : forall s, filter_for E (64 :: s) (Filter (case_text E s) PayeeFilter)
| ForNote : forall s, filter_for E (61 :: s) (Filter (case_text E s) NoteFilter)
| ForAccount : forall s, s <> [] -> hd 0 s <> 64 -> hd 0 s <> 61 -> filter_for E s (Filter (case_text E s) AccountNameFilter).
Definition filters_for (E : env) (args : list str) (fs : list filter_) : Prop :=
  Forall2 (filter_for E) args fs /\ Forall (fun f => e_re_ok E (f_regex f) = true) fs.

(** Byte order of texts. *)
Inductive bytes_lt : str -> str -> Prop :=
| Shorter : forall y b, bytes_lt [] (y :: b)
| SmallerByte : forall x y a b, x < y -> bytes_lt (x :: a) (y :: b)
| SameByte : forall x a b, bytes_lt a b -> bytes_lt (x :: a) (x :: b).
(** Listed in byte order, hence each once. *)
Definition ascending (l : list str) : Prop := StronglySorted bytes_lt l.

(** One line per element. *)
Definition lines (l : list str) : list str := map (fun s => s ++ [10]) l.

(** The postings processed; postings with an amount. *)
Definition taken (sel : list (used * list posting)) : list posting := flat_map snd sel.
Definition priced (p : posting) : Prop := po_amount p <> None.

(** The same machine iterating over maps in other orders. *)
Definition with_orders (E : env) (o : nat -> forall A, list A -> list A) (o' : list str -> forall A, list A -> list A) : env :=
  Env (e_unicode E) (e_fs E) (e_depth E) (e_ledger_file E) (e_re_ok E) (e_re_match E) (e_year E) (e_tomorrow E) (e_local E)
    o o' (e_sort E) (e_now E).
