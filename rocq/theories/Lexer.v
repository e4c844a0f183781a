(** * The lexer: parser/lexer.go

    The lexer is modelled with its [input], [pos] and [width] fields, method by
    method.  Loops run on fuel [S (length input - pos)]; LexerFacts.v proves the
    unrolling equation of each loop, so the fuel is never what ends it.

    One simplification: the lexer calls the parser's callback while it scans a
    line; here [lexLine] returns the list of items it would hand over, in order,
    and the lexing error (if any) that follows them.  The callback's only
    influence on scanning a line is that a callback error stops it, which
    [Parser.v] does when it consumes the list. *)
From Verif Require Import Base Utf8 Unicode.

(** parser/lexer.go:21-34 (eofItem included) *)
Inductive itemType :=
| emptyLineItem | includeItem | dateItem | stateItem | payeeItem | accountItem
| commodityItem | amountItem | commentItem | transactionHeaderCommentItem
| periodItem | eofItem.

Definition item_eqb (a b : itemType) : bool :=
  match a, b with
  | emptyLineItem, emptyLineItem | includeItem, includeItem | dateItem, dateItem
  | stateItem, stateItem | payeeItem, payeeItem | accountItem, accountItem
  | commodityItem, commodityItem | amountItem, amountItem | commentItem, commentItem
  | transactionHeaderCommentItem, transactionHeaderCommentItem
  | periodItem, periodItem | eofItem, eofItem => true
  | _, _ => false
  end.

(** parser/lexer.go:37 *)
Definition eof : Z := -1.

Definition c_tab : Z := 9.
Definition c_space : Z := 32.
Definition c_hash : Z := 35.
Definition c_semi : Z := 59.
Definition c_bang : Z := 33.
Definition c_star : Z := 42.
Definition c_plus : Z := 43.
Definition c_minus : Z := 45.
Definition c_tilde : Z := 126.
Definition c_i : Z := 105.

(** parser/lexer.go:41-50: the fields used while scanning a line. *)
Record lexer := Lx { l_input : str; l_pos : nat; l_width : nat }.

(** parser/lexer.go:308-318 *)
Definition next (l : lexer) : Z * lexer :=
  if (length (l_input l) <=? l_pos l)%nat
  then (eof, Lx (l_input l) (l_pos l) 0)
  else let '(r, w) := decode_rune (skipn (l_pos l) (l_input l)) in
       (r, Lx (l_input l) (l_pos l + w) w).

(** parser/lexer.go:328-330; [pos - width] never underflows, see LexerFacts.v *)
Definition backup (l : lexer) : lexer :=
  Lx (l_input l) (l_pos l - l_width l) (l_width l).

(** parser/lexer.go:321-325 *)
Definition peek (l : lexer) : Z * lexer :=
  let '(r, l1) := next l in (r, backup l1).

(** Fuel for the loops below. *)
Definition fuel_of (l : lexer) : nat := S (length (l_input l) - l_pos l).

(** parser/lexer.go:351-353 *)
Definition isCommentIndicator (r : Z) : bool := (r =? c_semi) || (r =? c_hash).

(** parser/lexer.go:334-349 *)
Fixpoint consumeSpace_loop (fuel : nat) (l : lexer) (count : Z) : Z * lexer :=
  match fuel with
  | O => (count, l)
  | S f =>
      let '(r, l1) := next l in
      if (r =? eof) || negb (isSpace r) then (count, backup l1)
      else
        let count1 := if r =? c_tab then count + TabWidth else count in
        let count2 := if r =? c_space then count1 + 1 else count1 in
        consumeSpace_loop f l1 count2
  end.
Definition consumeSpace (l : lexer) : Z * lexer := consumeSpace_loop (fuel_of l) l 0.

(** parser/lexer.go:462-476.  If every rune is a space, [index] stays 0 and the
    slice is returned whole. *)
Fixpoint first_nonspace (rs : list Z) (i : nat) : option nat :=
  match rs with
  | [] => None
  | r :: rs' => if negb (r =? c_space) then Some i else first_nonspace rs' (S i)
  end.
Definition trimSpaceStart (rs : list Z) : list Z :=
  match rs with
  | [] => rs
  | _ => let index := match first_nonspace rs 0 with Some i => i | None => 0%nat end in
         skipn index rs
  end.

(** parser/lexer.go:355-364 *)
Fixpoint takeToNextLine_loop (fuel : nat) (l : lexer) (runes : list Z) : list Z * lexer :=
  match fuel with
  | O => (runes, l)
  | S f =>
      let '(r, l1) := next l in
      if r =? eof then (trimSpaceStart runes, l1)
      else takeToNextLine_loop f l1 (runes ++ [r])
  end.
Definition takeToNextLine (l : lexer) : list Z * lexer := takeToNextLine_loop (fuel_of l) l [].

(** parser/lexer.go:368-376: drops one trailing space. *)
Definition trimSpaceEnd (rs : list Z) : list Z :=
  match rev rs with
  | [] => rs
  | r :: rest => if r =? c_space then rev rest else rs
  end.

(** parser/lexer.go:366-397 *)
Fixpoint takeToTab_loop (fuel : nat) (l : lexer) (runes : list Z) : list Z * lexer :=
  match fuel with
  | O => (runes, l)
  | S f =>
      let '(r, l1) := next l in
      if r =? eof then (trimSpaceEnd runes, l1)
      else if isCommentIndicator r then (trimSpaceEnd runes, l1)
      else if r =? c_tab then (trimSpaceEnd runes, l1)
      else if r =? c_space then
        let '(r2, l2) := peek l1 in
        if r2 =? c_space then (runes, l2)
        else takeToTab_loop f l2 (runes ++ [r])
      else takeToTab_loop f l1 (runes ++ [r])
  end.
Definition takeToTabOrNextLineOrComment (l : lexer) : list Z * lexer :=
  takeToTab_loop (fuel_of l) l [].

(** parser/lexer.go:399-415; the deferred [backup] runs on every return. *)
Fixpoint takeUntilSpace_loop (fuel : nat) (l : lexer) (runes : list Z) : list Z * lexer :=
  match fuel with
  | O => (runes, l)
  | S f =>
      let '(r, l1) := next l in
      if r =? eof then (runes, backup l1)
      else if r =? c_space then (runes, backup l1)
      else takeUntilSpace_loop f l1 (runes ++ [r])
  end.
Definition takeUntilSpace (l : lexer) : list Z * lexer := takeUntilSpace_loop (fuel_of l) l [].

(** parser/lexer.go:417-446; [previous] is [true] when it holds ' '. *)
Fixpoint takeUntilMore_loop (fuel : nat) (l : lexer) (runes : list Z) (previous : bool)
  : list Z * lexer :=
  match fuel with
  | O => (runes, l)
  | S f =>
      let '(r, l1) := peek l in
      if (r =? eof) || (r =? c_tab) then
        (if previous then removelast runes else runes, l1)
      else if r =? c_space then
        if previous then (removelast runes, backup l1)
        else let '(_, l2) := next l1 in takeUntilMore_loop f l2 (runes ++ [r]) true
      else let '(_, l2) := next l1 in takeUntilMore_loop f l2 (runes ++ [r]) false
  end.
Definition takeUntilMoreThanOneSpace (l : lexer) : list Z * lexer :=
  takeUntilMore_loop (fuel_of l) l [] false.

Section WithUnicode.
Variable U : unicode.

(** parser/lexer.go:285-305 *)
Fixpoint lexCommodity_loop (fuel : nat) (l : lexer) (runes : list Z) : list Z * lexer :=
  match fuel with
  | O => (runes, l)
  | S f =>
      let '(r, l1) := next l in
      if r =? eof then (runes, l1)
      else if isNumber U r || (r =? c_minus) || (r =? c_plus) then (runes, backup l1)
      else if (r =? c_space) || (r =? c_tab) then (runes, backup l1)
      else lexCommodity_loop f l1 (runes ++ [r])
  end.
Definition lexCommodity (l : lexer) : list Z * lexer := lexCommodity_loop (fuel_of l) l [].

(** Items handed to the parser, then possibly an error. *)
Definition lexed := (list (itemType * list Z) * option err)%type.

(** [filepath.Split] on Unix: the part up to and including the last '/'. *)
Definition dir_of (path : str) : str :=
  let fix upto (s : str) : option str :=
    match s with
    | [] => None
    | c :: s' => match upto s' with
                 | Some d => Some (c :: d)
                 | None => if c =? 47 then Some [c] else None
                 end
    end in
  match upto path with Some d => d | None => [] end.

(** parser/lexer.go:161-182 *)
Definition lexIncludeDirective (hint : str) (l : lexer) : lexed :=
  let '(directive, l1) := takeUntilSpace l in
  if negb (str_eqb directive (lit "include")) then
    ([], Some (EUnexpectedDirective (encode directive)))
  else
    let '(n, l2) := consumeSpace l1 in
    if n =? 0 then ([], Some EInclude)
    else
      let '(file, _) := takeToTabOrNextLineOrComment l2 in
      match file with
      | [] => ([], Some EInclude)
      | _ => ([(includeItem, decode (dir_of hint) ++ file)], None)
      end.

(** parser/lexer.go:184-192 *)
Definition lexPeriodTransactionHeader (l : lexer) : lexed :=
  let '(n, l1) := consumeSpace l in
  if n =? 0 then ([], Some EPeriodSpaces)
  else
    let '(period, _) := takeToTabOrNextLineOrComment l1 in
    ([(periodItem, period)], None).

(** parser/lexer.go:194-231 *)
Definition lexTransactionHeader (l : lexer) : lexed :=
  let '(date, l1) := takeUntilSpace l in
  let '(_, l2) := consumeSpace l1 in
  let '(nx, l3) := next l2 in
  let '(stateItems, l4) :=
    if nx =? c_bang then ([(stateItem, [c_bang])], snd (consumeSpace l3))
    else if nx =? c_star then ([(stateItem, [c_star])], snd (consumeSpace l3))
    else ([], backup l3) in
  let '(payee, l5) := takeToTabOrNextLineOrComment l4 in
  let '(comment, _) := takeToNextLine l5 in
  let commentItems :=
    match comment with
    | [] => []
    | _ :: rest => [(transactionHeaderCommentItem, trimSpaceStart rest)]
    end in
  ([(dateItem, date)] ++ stateItems ++ [(payeeItem, payee)] ++ commentItems, None).

(** parser/lexer.go:233-282 *)
Definition lexPosting (l : lexer) : lexed :=
  let '(_, l1) := consumeSpace l in
  let '(firstRune, l2) := next l1 in
  if isCommentIndicator firstRune then
    let '(comment, _) := takeToNextLine l2 in ([(commentItem, comment)], None)
  else if isLetter U firstRune then
    let '(account, l3) := takeUntilMoreThanOneSpace (backup l2) in
    let '(n, l4) := consumeSpace l3 in
    if n <? 2 then
      ([(accountItem, account)],
       if (1 <? (length (l_input l4) - l_pos l4))%nat then Some EAccountSpaces else None)
    else
      let '(commodity, l5) := lexCommodity l4 in
      let '(m, l6) := consumeSpace l5 in
      let commodity' := if 0 <? m then commodity ++ [c_space] else commodity in
      let '(amount, _) := takeToTabOrNextLineOrComment l6 in
      ([(accountItem, account); (commodityItem, commodity'); (amountItem, amount)], None)
  else ([], None).

(** parser/lexer.go:115-159, with lex()'s position reset (99-103). *)
Definition lexLine (hint : str) (input : str) : lexed :=
  match input with
  | [] => ([(emptyLineItem, [])], None)
  | _ =>
      let '(firstRune, l) := next (Lx input 0 0) in
      if isCommentIndicator firstRune then ([], None)
      else if firstRune =? c_i then lexIncludeDirective hint (backup l)
      else if firstRune =? eof then ([(eofItem, [])], None)
      else if firstRune =? c_tilde then lexPeriodTransactionHeader l
      else if isNumber U firstRune then lexTransactionHeader (backup l)
      else
        if firstRune =? c_tab then lexPosting l
        else if firstRune =? c_space then
          let '(r2, l2) := peek l in
          if r2 =? c_space then lexPosting l2 else ([], Some EUnexpectedLine)
        else ([], Some EUnexpectedLine)
  end.

End WithUnicode.

(** ** Reading lines: [bufio.Reader.ReadLine] on a reader with the default
    4096-byte buffer (parser/lexer.go:55,82-96).

    [raw_lines] cuts at each LF; the flag tells whether the LF was there (the
    last line of a file may lack it).  A raw line of 4096 bytes or more without
    LF fills the buffer, ReadLine reports isPrefix and the program stops. *)
Fixpoint raw_lines (cur : str) (s : str) : list (str * bool) :=
  match s with
  | [] => match cur with [] => [] | _ => [(rev cur, false)] end
  | c :: s' => if c =? newline then (rev cur, true) :: raw_lines [] s'
               else raw_lines (c :: cur) s'
  end.

Definition bufferSize : Z := 4096.

(** What ReadLine returns for a raw line: LF removed, and one CR before it. *)
Definition chop_cr (s : str) : str :=
  match rev s with
  | 13 :: rest => rev rest
  | _ => s
  end.

Inductive line := Line (l : str) | LongLine.

Definition read_line (raw : str * bool) : line :=
  let '(s, terminated) := raw in
  if bufferSize <=? Z.of_nat (length s) then LongLine
  else Line (if terminated then chop_cr s else s).

Definition file_lines (bytes : str) : list line := map read_line (raw_lines [] bytes).
