(** * Vocabulary of the theorems

    Small definitions, independent of the functions of the model, in which the
    properties are stated. *)
From Verif Require Import Base Utf8 Unicode GoTime Strconv Journal Lexer Parser.

(** ** Sums *)
Definition sumZ (l : list Z) : Z := fold_right Z.add 0 l.

(** A posting's quantity; a missing amount counts as zero. *)
Definition quantity (p : posting) : Z :=
  match po_amount p with Some a => am_quantity a | None => 0 end.
Definition total (ps : list posting) : Z := sumZ (map quantity ps).

(** Zero as an int64 sum. *)
Definition zero64 (z : Z) : Prop := z mod two64 = 0.

(** The commodity of the last posting that names one, or nothing. *)
Definition commodity_of (p : posting) : str :=
  match po_amount p with Some a => am_commodity a | None => [] end.
Definition named_commodities (ps : list posting) : list str :=
  filter (fun c => match c with [] => false | _ => true end) (map commodity_of ps).
Definition last_commodity (ps : list posting) : str := last (named_commodities ps) [].

(** ** Transactions *)

(** The index kept in a transaction is that of its only posting without amount. *)
Definition elided_ok (t : transaction) : Prop :=
  forall i, (exists p, nth_error (t_postings t) i = Some p /\ po_amount p = None) <-> t_elided t = Some i.

Definition amounts_in_range (ps : list posting) : Prop :=
  Forall (fun p => in_int64 (quantity p)) ps.

(** The same posting, with amount [a]. *)
Definition with_amount (p : posting) (a : amount) : posting :=
  Posting (po_comments p) (po_account p) (Some a).

(** The same transaction with other postings. *)
Definition with_postings (t : transaction) (ps : list posting) : transaction :=
  Txn (t_date t) (t_state t) (t_payee t) ps (t_elided t) (t_headernote t) (t_notes t).

(** ** Text *)

(** Bytes: LF, CR, comment signs. *)
Definition LF : Z := 10.
Definition CR : Z := 13.
Definition comment_sign (b : Z) : Prop := b = 59 \/ b = 35.

(** At the start of a line. *)
Definition line_start (before : str) : Prop := before = [] \/ exists b, before = b ++ [LF].

(** The text with one whole line [c] more. *)
Inductive line_inserted (ok : str -> str -> Prop) : str -> str -> Prop :=
| Inserted : forall before c after, line_start before -> ~ In LF c -> (Z.of_nat (length c) < 4096) ->
    ok c after -> line_inserted ok (before ++ after) (before ++ c ++ [LF] ++ after).

(** LF line ends replaced by CRLF. *)
Definition to_crlf (s : str) : str := flat_map (fun b => if b =? LF then [CR; LF] else [b]) s.

(** Errors without their line numbers. *)
Fixpoint forget_lines (e : err) : err :=
  match e with
  | EAt h _ e' => EAt h 0 (forget_lines e')
  | EErrorAt e' => EErrorAt (forget_lines e')
  | EParsingDate e' => EParsingDate (forget_lines e')
  | EParsingPeriod e' => EParsingPeriod (forget_lines e')
  | EParsingAmount e' => EParsingAmount (forget_lines e')
  | EUsage e' => EUsage (forget_lines e')
  | _ => e
  end.
Definition up_to_lines (r r' : status) : Prop :=
  match r, r' with
  | SErr e, SErr e' => forget_lines e = forget_lines e'
  | _, _ => r = r'
  end.

(** Two file systems in which every file is the same or related by [R]. *)
Definition files_related (R : str -> str -> Prop) (fs fs' : str -> option file) : Prop :=
  forall p, match fs p, fs' p with
            | None, None => True
            | Some f, Some f' => f_bad f = f_bad f' /\ (f_bytes f = f_bytes f' \/ R (f_bytes f) (f_bytes f'))
            | _, _ => False
            end.

(** Column-zero comment lines. *)
Definition comment_line (l : str) (after : str) : Prop := exists b c, l = b :: c /\ comment_sign b.

(** A text whose first line starts a transaction or a '~' entry. *)
Definition header_text (s : str) : Prop :=
  exists l, (s = l \/ exists rest, s = l ++ LF :: rest) /\ ~ In LF l /\ Z.of_nat (length l) < 4096 /\
    ((exists d c, l = d :: c /\ 48 <= d <= 57) \/ (exists b c, l = 126 :: b :: c /\ (b = 32 \/ b = 9))).
Definition blank_before_header (l : str) (after : str) : Prop := l = [] /\ header_text after.
