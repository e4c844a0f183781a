(** * Which lines crash the reader *)
From Verif Require Import Base Utf8 Unicode GoTime Strconv Journal Lexer Parser FlatSpec.

(** What the lines read so far have left open: [Fresh] before the first header,
    [Nothing] after a blank line. *)
Inductive open_state := Fresh | Nothing | InTransaction | InBudget (posting : bool).

Definition after_line (U : unicode) (s : open_state) (l : str) : open_state :=
  match fst (lexLine U [] l) with
  | (dateItem, _) :: _ => InTransaction
  | (periodItem, _) :: _ => InBudget false
  | (emptyLineItem, _) :: _ => match s with Fresh => Fresh | _ => Nothing end
  | (accountItem, _) :: _ => match s with InBudget _ => InBudget true | _ => s end
  | _ => s
  end.
Definition after_lines (U : unicode) (ls : list fline) : open_state :=
  fold_left (fun s x => match x with FLine l => after_line U s l | FStop _ => s end) ls Fresh.

(** The lines that crash a reader who has read the lines before it; [closes]
    says that what is open can be finished. *)
Inductive crash (U : unicode) (s : open_state) (closes : Prop) (l : str) : Prop :=
| ShortDate : forall w items, lexLine U [] l = ((dateItem, w) :: items, None) ->
    (length w < 5)%nat -> closes -> crash U s closes l
| EmptyAmount : forall a c, s <> Fresh ->
    lexLine U [] l = ([(accountItem, a); (commodityItem, c); (amountItem, [])], None) -> crash U s closes l
| StrayPosting : forall a items, s = Nothing -> lexLine U [] l = ((accountItem, a) :: items, None) -> crash U s closes l
| StrayComment : forall c, s = Fresh \/ s = Nothing \/ s = InBudget false ->
    lexLine U [] l = ([(commentItem, c)], None) -> crash U s closes l.

Definition crashes (U : unicode) (before : list fline) (l : str) : Prop :=
  crash U (after_lines U before) (snd (flat U (before ++ [FLine []]) newBuilder) = SOk) l.

(** ** Postings with an amount: those written and those delivered *)
Inductive subseq {A} : list A -> list A -> Prop :=
| sub_nil : subseq [] []
| sub_take : forall x l l', subseq l l' -> subseq (x :: l) (x :: l')
| sub_skip : forall x l l', subseq l l' -> subseq l (x :: l').

Definition line_posting (U : unicode) (l : str) : list (str * amount) :=
  match fst (lexLine U [] l) with
  | [(accountItem, a); (commodityItem, c); (amountItem, w)] =>
      match parseAmount w with POk q => [(encode a, Amount (encode c) q)] | _ => [] end
  | _ => []
  end.
Definition fline_posting (U : unicode) (x : fline) : list (str * amount) :=
  match x with FLine l => line_posting U l | FStop _ => [] end.

Definition given (p : posting) : list (str * amount) :=
  match po_amount p with Some a => [(po_account p, a)] | None => [] end.
Definition entry_postings (e : entry) : list posting :=
  match e with TxnEntry t => t_postings t | PerEntry pt => t_postings (pt_txn pt) end.
