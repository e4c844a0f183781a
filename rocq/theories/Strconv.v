(** * strconv.ParseInt / Atoi, parseAmount, and parser/dates.go *)
From Verif Require Import Base Utf8 GoTime.

Fixpoint parse_digits (s : str) (acc : Z) : option Z :=
  match s with
  | [] => Some acc
  | c :: s' => if is_digit c then parse_digits s' (10 * acc + (c - 48)) else None
  end.

(** Unsigned part: at least one byte, all digits (base 10 takes no underscore). *)
Definition parse_uint (s : str) : option Z :=
  match s with [] => None | _ => parse_digits s 0 end.

(** [strconv.ParseInt(s, 10, 64)] (and [strconv.Atoi] on a 64-bit system):
    optional sign, digits, range check.  [None] is an error. *)
Definition parse_int64 (s : str) : option Z :=
  match s with
  | [] => None
  | c :: s' =>
      if c =? 43 then
        match parse_uint s' with
        | Some n => if n <? two63 then Some n else None
        | None => None
        end
      else if c =? 45 then
        match parse_uint s' with
        | Some n => if n <=? two63 then Some (- n) else None
        | None => None
        end
      else
        match parse_uint s with
        | Some n => if n <? two63 then Some n else None
        | None => None
        end
  end.

(** Position of the first '.', parser/parser.go:159-165. *)
Fixpoint index_of (b : Z) (s : list Z) (i : nat) : option nat :=
  match s with
  | [] => None
  | c :: s' => if c =? b then Some i else index_of b s' (S i)
  end.

Inductive pres (A : Type) := POk (a : A) | PErr (e : err) | PPanic.
Arguments POk {A}. Arguments PErr {A}. Arguments PPanic {A}.

(** parser/parser.go:144-193. [content[0]] on an empty slice panics; the
    product and sum are int64. *)
Definition parseAmount (content : list Z) : pres Z :=
  match content with
  | [] => PPanic
  | firstRune :: rest =>
      let '(multiplier, content1) :=
        if firstRune =? 43 then (1, rest)
        else if firstRune =? 45 then (-1, rest)
        else (1, content) in
      match index_of c_dot content1 0 with
      | None =>
          match parse_int64 (encode content1) with
          | None => PErr (EParseInt (encode content1))
          | Some whole => POk (wrap64 (multiplier * wrap64 (wrap64 (whole * 100) + 0)))
          end
      | Some decimalPosition =>
          match parse_int64 (encode (firstn decimalPosition content1)) with
          | None => PErr (EParseInt (encode (firstn decimalPosition content1)))
          | Some whole =>
              match parse_int64 (encode (skipn (S decimalPosition) content1)) with
              | None => PErr (EParseInt (encode (skipn (S decimalPosition) content1)))
              | Some decimal =>
                  POk (wrap64 (multiplier * wrap64 (wrap64 (whole * 100) + decimal)))
              end
          end
      end
  end.

(** parser/parser.go:117-142. [content[4]] on fewer than five runes panics. *)
Definition parseDate (content : list Z) : pres date :=
  match nth_error content 4 with
  | None => PPanic
  | Some c =>
      if (c =? c_dash) || (c =? c_dot) || (c =? c_slash) then
        match time_parse (layout_ymd c) (encode content) with
        | Some d => POk d
        | None => PErr (ETimeParse (layout_text (layout_ymd c)) (encode content))
        end
      else PErr (EMalformedDate (encode content))
  end.

(** Periods: journal/periodictransaction.go:9-32. *)
Inductive periodType :=
| PNone | PDaily | PWeekly | PMonthly | PQuarterly | PYearly | PBiweekly | PFortnightly | PBiMonthly.

Record period := Period {
  pe_start : date; pe_end : date; pe_interval : periodType; pe_frequency : Z }.

Definition zero_period : period := Period zero_date zero_date PNone 0.

(** parser/parser.go:195-212: if the text is not YYYY-MM, the zero period is
    returned without error. *)
Definition parsePeriod (content : list Z) : period :=
  match time_parse (layout_ym c_dash) (encode content) with
  | None => zero_period
  | Some d => Period d d PNone 0
  end.

(** ** parser/dates.go

    The calendar date denoted by a smart date; [now_year] is
    [time.Now().Year()].  The caller turns it into local midnight. *)

(** dates.go:50-61 *)
Definition parseYear (d : str) : pres date :=
  if negb (Z.of_nat (length d) =? 4) then PErr (ESmartYear d)
  else match parse_int64 d with
       | None => PErr (EAtoi d)
       | Some y => POk (Date y 1 1)
       end.

(** [time.ParseInLocation(layout, value, time.Local)] *)
Definition of_time (layout : list chunk) (value : str) : pres date :=
  match time_parse layout value with Some d => POk d | None => PErr (ETimeParse (layout_text layout) value) end.

(** dates.go:11-48 (with parseYearMonth 64-83, parseMonthDay 86-109,
    parseYearMonthDay 112-131). [strings.IndexRune(date, c) > 0]: the separator
    occurs, and not first. *)
Definition occurs_later (c : Z) (s : str) : bool :=
  match index_of c s 0 with Some (S _) => true | _ => false end.

Definition parseSmartDate (now_year : Z) (d : str) : pres date :=
  let by_sep (sep : Z) : pres date :=
    match split sep d with
    | [_] => parseYear d
    | [a; _] =>
        if Z.of_nat (length a) =? 4 then of_time (layout_ym sep) d
        else of_time (layout_ymd sep) (itoa now_year ++ [sep] ++ d)
    | [_; _; _] => of_time (layout_ymd sep) d
    | _ => PErr ESmartComponents
    end in
  if occurs_later c_slash d then by_sep c_slash
  else if occurs_later c_dot d then by_sep c_dot
  else if occurs_later c_dash d then by_sep c_dash
  else parseYear d.
