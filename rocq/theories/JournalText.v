(** * Journal text: how transactions are written

    A small description of the usual way to write a journal, independent of the
    lexer and the parser: which lines stand for which transaction.  Texts are
    byte strings; the conditions on their characters are on their runes. *)
From Verif Require Import Base Utf8 Unicode GoTime Journal Lexer Spec TextSpec.

(** No tab, no comment sign, no two spaces in a row. *)
Definition breaks (r : Z) : bool := isCommentIndicator r || (r =? c_tab).
Fixpoint single_spaced (rs : list Z) : bool :=
  match rs with
  | r :: rs' => negb ((r =? c_space) && (match rs' with r2 :: _ => r2 =? c_space | [] => false end)) && single_spaced rs'
  | [] => true
  end.
Definition unbroken (rs : list Z) : Prop := Forall (fun r => breaks r = false) rs /\ single_spaced rs = true.
Definition ends_nonspace (rs : list Z) : Prop := last rs 0 <> c_space.

(** A text that starts with no white space and ends in no space. *)
Definition trimmed (rs : list Z) : Prop := isSpace (hd 0 rs) = false /\ ends_nonspace rs.

(** Payees, file names, periods: trimmed, no tab, no comment sign, no two spaces in a row. *)
Definition phrase (rs : list Z) : Prop := rs <> [] /\ unbroken rs /\ trimmed rs.

(** Account names: start with a letter. *)
Definition account_text (U : unicode) (rs : list Z) : Prop :=
  rs <> [] /\ isLetter U (hd 0 rs) = true /\ trimmed rs /\
  Forall (fun r => (r =? c_tab) = false) rs /\ single_spaced rs = true.

(** Commodities: no digit, sign, space or tab; perhaps one space at the end. *)
Definition commodity_char (U : unicode) (r : Z) : Prop :=
  isNumber U r || (r =? c_minus) || (r =? c_plus) || (r =? c_space) || (r =? c_tab) = false.
Definition commodity_text (U : unicode) (c : list Z) : Prop :=
  exists c0, Forall (commodity_char U) c0 /\ isSpace (hd 0 c0) = false /\ (c = c0 \/ (c0 <> [] /\ c = c0 ++ [c_space])).

(** Notes and comments: not empty, no space first. *)
Definition remark (n : list Z) : Prop := n <> [] /\ hd 0 n <> c_space.

(** Nothing but spaces. *)
Definition blank (s : list Z) : Prop := Forall (fun r => r = c_space) s.

(** The state mark of a header; a payee after a space must not look like one. *)
Definition mark_ok (mark : Z) (payee : list Z) : Prop :=
  mark = c_bang \/ mark = c_star \/ (mark = c_space /\ hd 0 payee <> c_bang /\ hd 0 payee <> c_star).


(** The bytes [s] are the UTF-8 encoding of runes satisfying [P]. *)
Definition spelt (P : list Z -> Prop) (s : str) : Prop :=
  exists rs, Forall (fun r => valid_rune r = true) rs /\ P rs /\ s = encode rs.

Definition spaces (k : nat) : str := repeat 32 k.

(** A header line: date, state mark, payee, note; any number of spaces in between. *)
Definition mark_of (s : txn_state) : Z :=
  match s with NoState => 32 | UnclearedState => 33 | ClearedState => 42 end.
Definition mark_text (s : txn_state) (k : nat) : str :=
  match s with NoState => [] | _ => mark_of s :: spaces k end.
Definition payee_text (s : txn_state) (payee : list Z) : Prop :=
  phrase payee /\ mark_ok (mark_of s) payee.

(** What is left of the text after a comment sign that follows the payee closely, or
    no payee at all: its first character is lost, and the spaces before and after
    it, unless there is nothing else. *)
Inductive lost : str -> str -> Prop :=
| LostNothing : lost [] []
| LostSpace : forall n, blank n -> lost (c_space :: n) n
| LostLetter : forall m x k n, valid_rune x = true -> x <> c_space -> spelt remark n -> lost (spaces m ++ encode [x] ++ spaces k ++ n) n
| LostRest : forall m x n, valid_rune x = true -> x <> c_space -> blank n -> lost (spaces m ++ encode [x] ++ n) n.

Inductive header_written : str -> date -> txn_state -> str -> str -> Prop :=
| HeaderPayee : forall sep w d s i j payee, separator sep -> ymd_text sep d w -> real_date d ->
    spelt (fun p => p = [] \/ payee_text s p) payee ->
    header_written (w ++ spaces (1 + i) ++ mark_text s j ++ payee) d s payee []
| HeaderNote : forall sep w d s i j payee k c m note, separator sep -> ymd_text sep d w -> real_date d ->
    spelt (payee_text s) payee -> comment_sign c -> spelt remark note ->
    header_written (w ++ spaces (1 + i) ++ mark_text s j ++ payee ++ spaces (2 + k) ++ [c] ++ spaces m ++ note) d s payee note
| HeaderBlank : forall sep w d s i j payee k c note, separator sep -> ymd_text sep d w -> real_date d ->
    spelt (payee_text s) payee -> comment_sign c -> blank note ->
    header_written (w ++ spaces (1 + i) ++ mark_text s j ++ payee ++ spaces (2 + k) ++ [c] ++ note) d s payee note
| HeaderClose : forall sep w d s i j payee e c text note, separator sep -> ymd_text sep d w -> real_date d ->
    spelt (payee_text s) payee -> (e <= 1)%nat -> comment_sign c -> lost text note ->
    header_written (w ++ spaces (1 + i) ++ mark_text s j ++ payee ++ spaces e ++ [c] ++ text) d s payee note
| HeaderBare : forall sep w d s i j c text note, separator sep -> ymd_text sep d w -> real_date d ->
    comment_sign c -> lost text note ->
    header_written (w ++ spaces (1 + i) ++ mark_text s j ++ [c] ++ text) d s [] note.

(** A comment line of a transaction. *)
Inductive remark_written : str -> str -> Prop :=
| RemarkLine : forall k c m n, comment_sign c -> spelt remark n ->
    remark_written (spaces (2 + k) ++ [c] ++ spaces m ++ n) n
| BlankRemark : forall k c n, comment_sign c -> blank n -> remark_written (spaces (2 + k) ++ [c] ++ n) n.

(** A posting line. *)
Inductive posting_written (U : unicode) : str -> posting -> Prop :=
| ElidedLine : forall k a, spelt (account_text U) a ->
    posting_written U (spaces (2 + k) ++ a) (Posting [] a None)
| AmountLine : forall k a m c w q, spelt (account_text U) a -> spelt (commodity_text U) c ->
    amount_text w q -> in_int64 q ->
    posting_written U (spaces (2 + k) ++ a ++ spaces (2 + m) ++ c ++ w) (Posting [] a (Some (Amount c q))).

(** A posting with its comment lines. *)
Definition with_comments (p : posting) (cs : list str) : posting :=
  Posting (po_comments p ++ cs) (po_account p) (po_amount p).
Inductive postings_written (U : unicode) : list str -> list posting -> Prop :=
| NoPostings : postings_written U [] []
| MorePostings : forall l p ls cs ls' ps, posting_written U l p -> Forall2 remark_written ls cs ->
    postings_written U ls' ps -> postings_written U (l :: ls ++ ls') (with_comments p cs :: ps).

(** A whole transaction, as a list of lines. *)
Inductive txn_written (U : unicode) : list str -> transaction -> Prop :=
| TxnWritten : forall h d s payee note ls notes ls' ps,
    header_written h d s payee note -> Forall2 remark_written ls notes -> postings_written U ls' ps ->
    ps <> [] ->
    txn_written U (h :: ls ++ ls') (Txn d s payee ps None note notes).

(** Lines as the bytes of a file; each fit for the line reader. *)
Definition text_of (ls : list str) : str := flat_map (fun l => l ++ [10]) ls.
Definition readable (l : str) : Prop := ~ In 10 l /\ last l 0 <> 13 /\ Z.of_nat (length l) < 4096.

(** The postings that count: of those without amount, only the first. *)
Fixpoint kept (seen : bool) (ps : list posting) : list posting :=
  match ps with
  | [] => []
  | p :: ps' =>
      match po_amount p with
      | Some _ => p :: kept seen ps'
      | None => if seen then kept true ps' else p :: kept true ps'
      end
  end.
Definition elided (p : posting) : Prop := po_amount p = None.

(** Complete transactions: every amount given, and they add up to zero. *)
Definition complete (t : transaction) : Prop :=
  t_elided t = None /\ Forall (fun p => po_amount p <> None) (t_postings t) /\ zero64 (total (t_postings t)).

(** Settled transactions: as written, and with the amount left out filled in.  One
    posting may go without amount; it gets what is missing, in the commodity named
    last. *)
Inductive settled : transaction -> transaction -> Prop :=
| AllGiven : forall t, complete t -> settled t t
| OneLeft : forall d s payee before cs a after note notes,
    Forall (fun p => ~ elided p) (before ++ after) -> ~ zero64 (total (before ++ after)) ->
    settled (Txn d s payee (before ++ Posting cs a None :: after) None note notes)
      (Txn d s payee (before ++ Posting cs a (Some (Amount (last_commodity (before ++ after)) (wrap64 (- total (before ++ after))))) :: after)
         (Some (length before)) note notes).

(** A whole journal: transactions, each followed by a blank line; blank lines and
    comment lines in between. *)
Inductive journal_written (U : unicode) : list str -> list transaction -> Prop :=
| NoTxns : journal_written U [] []
| MoreTxns : forall ls t ls' ts, txn_written U ls t -> journal_written U ls' ts ->
    journal_written U (ls ++ [] :: ls') (t :: ts)
| BlankLine : forall ls ts, journal_written U ls ts -> journal_written U ([] :: ls) ts
| CommentLine : forall c l ls ts, comment_sign c -> journal_written U ls ts -> journal_written U ((c :: l) :: ls) ts.

(** ** Transactions fit to be printed and read back *)

Definition fit_posting (U : unicode) (p : posting) : Prop :=
  spelt (account_text U) (po_account p) /\ ~ In 10 (po_account p) /\
  Forall (fun c => spelt remark c /\ ~ In 10 c) (po_comments p) /\
  exists c q, po_amount p = Some (Amount c q) /\ spelt (commodity_text U) c /\ ~ In 10 c /\ Z.abs q <= 100 * 2 ^ 46.

Record fit (U : unicode) (t : transaction) : Prop := Fit {
  fit_date : real_date (t_date t) /\ 0 <= d_year (t_date t) <= 9999;
  fit_payee : spelt (fun p => p = [] \/ payee_text (t_state t) p) (t_payee t) /\ ~ In 10 (t_payee t);
  fit_header : t_headernote t = [] \/
    (t_payee t <> [] /\ spelt remark (t_headernote t) /\ ~ In 10 (t_headernote t));
  fit_notes : Forall (fun n => spelt remark n /\ ~ In 10 n) (t_notes t);
  fit_some : t_postings t <> [];
  fit_postings : Forall (fit_posting U) (t_postings t);
  fit_total : zero64 (total (t_postings t))
}.

(** The same transaction with every amount written out. *)
Definition written_out (t : transaction) : transaction :=
  Txn (t_date t) (t_state t) (t_payee t) (t_postings t) None (t_headernote t) (t_notes t).

(** The line reader gives every line of [s] back: none is too long, none ends in a
    carriage return. *)
Definition short_lines (s : str) : Prop :=
  Forall (fun l => Z.of_nat (length l) < 4096 /\ last l 0 <> 13) (split 10 s).

(** The transactions that printing does justice to: every amount is there and small
    enough, a header note comes with a payee, no note or comment is blank, and the
    line reader can take the lines. *)
Record reprintable (t : transaction) : Prop := Reprintable {
  re_amounts : Forall (fun p => exists c q, po_amount p = Some (Amount c q) /\ Z.abs q <= 100 * 2 ^ 46) (t_postings t);
  re_header : t_headernote t = [] \/ (t_payee t <> [] /\ ~ blank (t_headernote t));
  re_notes : Forall (fun n => ~ blank n) (t_notes t);
  re_comments : Forall (fun p => Forall (fun c => ~ blank c) (po_comments p)) (t_postings t);
  re_lines : short_lines (transaction_string t)
}.
