(** * A journal as one flat list of lines

    A description of parsing without files, include nesting, locations and
    handlers: [expand] replaces each include directive by the lines of the file
    named, followed by a blank line, and [flat] reads the resulting list of lines
    one by one, yielding the finished transactions.  [FlatFacts.v] proves that
    the parser does exactly this. *)
From Verif Require Import Base Utf8 Unicode GoTime Strconv Journal Lexer Parser.

(** What the parser delivers, without the file attribution. *)
Inductive entry := TxnEntry (t : transaction) | PerEntry (t : ptransaction).

Definition erase (ev : event) : entry :=
  match ev with ETxn t _ => TxnEntry t | EPer t _ => PerEntry t end.

(** A line, or a reason why reading cannot go on. *)
Inductive fline := FLine (l : str) | FStop (r : status).

Definition fres := (builder * list entry * status)%type.

Definition fbind (x : fres) (k : builder -> fres) : fres :=
  let '(b, es, r) := x in
  match r with
  | SOk => let '(b', es', r') := k b in (b', es ++ es', r')
  | _ => (b, es, r)
  end.

(** Finishing the open transaction, if there is one. *)
Definition close_open (b : builder) : fres :=
  match b_type b with
  | normalTransaction =>
      match b_txn b with
      | None => (b, [], SOk)
      | Some t =>
          match endNormalTransaction b t with
          | (_, Some e) => (b, [], SErr e)
          | (t', None) => (Builder normalTransaction None (b_ptxn b) None (b_prev b), [TxnEntry t'], SOk)
          end
      end
  | periodicTransaction =>
      match b_ptxn b with
      | None => (b, [], SOk)
      | Some pt =>
          match endNormalTransaction b (pt_txn pt) with
          | (_, Some e) => (b, [], SErr e)
          | (t', None) => (Builder periodicTransaction (b_txn b) None None (b_prev b),
                           [PerEntry (PTxn (pt_period pt) t')], SOk)
          end
      end
  end.

Definition built (b : builder) (item : itemType) (content : list Z) : fres :=
  match build b item content with
  | POk b' => (b', [], SOk)
  | PErr e => (b, [], SErr e)
  | PPanic => (b, [], SPanic)
  end.

Definition rewrap (f : err -> err) (x : fres) : fres :=
  let '(b, es, r) := x in (b, es, wrap_err f r).

Definition flat_item (b : builder) (item : itemType) (content : list Z) : fres :=
  match item with
  | emptyLineItem | eofItem => close_open b
  | dateItem =>
      fbind (close_open b) (fun b' =>
        rewrap EParsingDate (built (beginTransaction b' normalTransaction) item content))
  | periodItem =>
      fbind (close_open b) (fun b' =>
        rewrap EParsingPeriod (built (beginTransaction b' periodicTransaction) item content))
  | _ => built b item content
  end.

Fixpoint flat_items (b : builder) (items : list (itemType * list Z)) (final : option err) : fres :=
  match items with
  | [] => (b, [], match final with None => SOk | Some e => SErr e end)
  | (i, c) :: rest => fbind (flat_item b i c) (fun b' => flat_items b' rest final)
  end.

Section WithUnicode.
Variable U : unicode.

Definition flat_line (l : str) (b : builder) : fres :=
  let '(items, e) := lexLine U [] l in flat_items b items e.

Fixpoint flat (ls : list fline) (b : builder) : fres :=
  match ls with
  | [] => (b, [], SOk)
  | FStop r :: _ => (b, [], r)
  | FLine l :: ls' => fbind (flat_line l b) (flat ls')
  end.

(** The path named by an include line of the file [hint]. *)
Definition included (hint : str) (l : str) : option str :=
  match lexLine U hint l with
  | ([(includeItem, path)], _) => Some (encode path)
  | _ => None
  end.

Fixpoint expand_lines (inc : str -> list fline) (hint : str) (bad : bool) (ls : list line) : list fline :=
  match ls with
  | [] => if bad then [FStop (SErr (ERead hint))] else [FLine []]
  | LongLine :: _ => [FStop SFatal]
  | Line l :: ls' =>
      match included hint l with
      | Some path => inc path ++ expand_lines inc hint bad ls'
      | None => FLine l :: expand_lines inc hint bad ls'
      end
  end.

Fixpoint expand (fs : str -> option file) (depth : nat) (hint : str) (f : file) : list fline :=
  expand_lines
    (match depth with
     | O => fun _ => [FStop SDeep]
     | S d => fun path => match fs path with
                          | None => [FStop (SErr (EOpen path))]
                          | Some f' => expand fs d path f'
                          end
     end)
    hint (f_bad f) (file_lines (f_bytes f)).

(** The entries of a journal and how reading it ends. *)
Definition entries (fs : str -> option file) (depth : nat) (hint : str) (f : file) : list entry * status :=
  let '(_, es, r) := flat (expand fs depth hint f) newBuilder in (es, r).
End WithUnicode.

(** ** Which files a parse reads, and which headers *)

(** [reads U fs a b]: reading the file [a] (a path and a file) leads, through
    include lines, to reading [b]. *)
Inductive reads (U : unicode) (fs : str -> option file) (a : str * file) : str * file -> Prop :=
| reads_self : reads U fs a a
| reads_include : forall p f l p' f', reads U fs a (p, f) ->
    In (Line l) (file_lines (f_bytes f)) -> included U p l = Some p' -> fs p' = Some f' ->
    reads U fs a (p', f').

(** ... through at least one include. *)
Definition reads_again (U : unicode) (fs : str -> option file) (a b : str * file) : Prop :=
  exists l p f, In (Line l) (file_lines (f_bytes (snd a))) /\ included U (fst a) l = Some p /\
                fs p = Some f /\ reads U fs (p, f) b.

(** What a header line says, and what an entry carries. *)
Inductive head := HTxn (d : date) (payee : str) | HPer (p : period).

Definition head_of_entry (e : entry) : head :=
  match e with
  | TxnEntry t => HTxn (t_date t) (t_payee t)
  | PerEntry pt => HPer (pt_period pt)
  end.

(** The header in a line: a line whose first item is a date also has a payee
    item; a '~' line has a period. *)
Definition payee_of (items : list (itemType * list Z)) : str :=
  match find (fun x => item_eqb (fst x) payeeItem) items with
  | Some (_, c) => encode c
  | None => []
  end.
Definition head_of_line (U : unicode) (l : fline) : list head :=
  match l with
  | FStop _ => []
  | FLine l =>
      match fst (lexLine U [] l) with
      | (dateItem, w) :: items =>
          match parseDate w with POk d => [HTxn d (payee_of items)] | _ => [] end
      | (periodItem, w) :: _ => [HPer (parsePeriod w)]
      | _ => []
      end
  end.
