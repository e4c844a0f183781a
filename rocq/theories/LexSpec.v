(** * Lexing a line, on its list of runes

    A second, simpler description of parser/lexer.go without positions, widths
    and stepping back; [LexerFacts.v] proves that the lexer computes exactly
    this on the decoded line. *)
From Verif Require Import Base Utf8 Unicode Lexer.

(** Leading white space: what it counts for, and what is left. *)
Fixpoint space_width (rs : list Z) : Z :=
  match rs with
  | [] => 0
  | r :: rs' =>
      if isSpace r
      then (if r =? c_tab then TabWidth else if r =? c_space then 1 else 0) + space_width rs'
      else 0
  end.
Fixpoint drop_space (rs : list Z) : list Z :=
  match rs with
  | [] => []
  | r :: rs' => if isSpace r then drop_space rs' else rs
  end.

(** Up to the first space. *)
Fixpoint until_space (rs : list Z) : list Z * list Z :=
  match rs with
  | [] => ([], [])
  | r :: rs' => if r =? c_space then ([], rs)
                else let '(a, b) := until_space rs' in (r :: a, b)
  end.

(** Up to a tab, a comment sign or two spaces (of which the first is dropped,
    like the tab and the comment sign). *)
Fixpoint to_tab (acc : list Z) (rs : list Z) : list Z * list Z :=
  match rs with
  | [] => (trimSpaceEnd acc, [])
  | r :: rs' =>
      if isCommentIndicator r || (r =? c_tab) then (trimSpaceEnd acc, rs')
      else if (r =? c_space) && (match rs' with r2 :: _ => r2 =? c_space | [] => false end)
      then (acc, rs')
      else to_tab (acc ++ [r]) rs'
  end.

(** An account name: up to a tab, two spaces or the end, one trailing space dropped. *)
Fixpoint account_name (acc : list Z) (previous : bool) (rs : list Z) : list Z * list Z :=
  match rs with
  | [] => (if previous then removelast acc else acc, [])
  | r :: rs' =>
      if r =? c_tab then (if previous then removelast acc else acc, rs)
      else if (r =? c_space) && previous then (removelast acc, c_space :: rs)
      else account_name (acc ++ [r]) (r =? c_space) rs'
  end.

Section WithUnicode.
Variable U : unicode.

(** A commodity: up to a digit, a sign, a space or a tab. *)
Fixpoint commodity_name (rs : list Z) : list Z * list Z :=
  match rs with
  | [] => ([], [])
  | r :: rs' =>
      if isNumber U r || (r =? c_minus) || (r =? c_plus) || (r =? c_space) || (r =? c_tab)
      then ([], rs)
      else let '(a, b) := commodity_name rs' in (r :: a, b)
  end.

Definition include_line (hint : str) (rs : list Z) : lexed :=
  let '(directive, rs1) := until_space rs in
  if negb (str_eqb directive (lit "include")) then ([], Some (EUnexpectedDirective (encode directive)))
  else if space_width rs1 =? 0 then ([], Some EInclude)
  else match fst (to_tab [] (drop_space rs1)) with
       | [] => ([], Some EInclude)
       | name => ([(includeItem, decode (dir_of hint) ++ name)], None)
       end.

Definition period_line (rs : list Z) : lexed :=
  if space_width rs =? 0 then ([], Some EPeriodSpaces)
  else ([(periodItem, fst (to_tab [] (drop_space rs)))], None).

Definition header_line (rs : list Z) : lexed :=
  let '(date, rs1) := until_space rs in
  let rs2 := drop_space rs1 in
  let '(state, rs3) :=
    match rs2 with
    | r :: rs' => if (r =? c_bang) || (r =? c_star) then ([(stateItem, [r])], drop_space rs')
                  else ([], rs2)
    | [] => ([], [])
    end in
  let '(payee, rs4) := to_tab [] rs3 in
  let note := match trimSpaceStart rs4 with
              | [] => []
              | _ :: note => [(transactionHeaderCommentItem, trimSpaceStart note)]
              end in
  ([(dateItem, date)] ++ state ++ [(payeeItem, payee)] ++ note, None).

Definition posting_line (rs : list Z) : lexed :=
  match drop_space rs with
  | [] => ([], None)
  | r :: rs' =>
      if isCommentIndicator r then ([(commentItem, trimSpaceStart rs')], None)
      else if isLetter U r then
        let '(account, rs1) := account_name [] false (r :: rs') in
        match rs1 with
        | [] => ([(accountItem, account)], None)
        | _ =>
            let '(commodity, rs2) := commodity_name (drop_space rs1) in
            let commodity' := if 0 <? space_width rs2 then commodity ++ [c_space] else commodity in
            ([(accountItem, account); (commodityItem, commodity');
              (amountItem, fst (to_tab [] (drop_space rs2)))], None)
        end
      else ([], None)
  end.

Definition lex_runes (hint : str) (rs : list Z) : lexed :=
  match rs with
  | [] => ([(emptyLineItem, [])], None)
  | r :: rs' =>
      if isCommentIndicator r then ([], None)
      else if r =? c_i then include_line hint rs
      else if r =? c_tilde then period_line rs'
      else if isNumber U r then header_line rs
      else if (r =? c_tab) || ((r =? c_space) && (match rs' with r2 :: _ => r2 =? c_space | [] => false end))
      then posting_line rs'
      else ([], Some EUnexpectedLine)
  end.
End WithUnicode.
