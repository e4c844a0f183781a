(** * Dates: time.Parse for the layouts used, and parser/dates.go

    A transaction's [time.Time] is always midnight UTC of a calendar date (made
    by [time.Parse] without zone), so it is modelled by the date.  Instants are
    seconds since 0001-01-01 00:00:00 UTC (Go's zero Time). *)
From Verif Require Import Base.

Record date := Date { d_year : Z; d_month : Z; d_day : Z }.

(** The zero [time.Time]. *)
Definition zero_date : date := Date 1 1 1.

Definition date_eqb (a b : date) : bool :=
  (d_year a =? d_year b) && (d_month a =? d_month b) && (d_day a =? d_day b).

(** Go time package: isLeap, daysIn. *)
Definition is_leap (y : Z) : bool :=
  (y mod 4 =? 0) && (negb (y mod 100 =? 0) || (y mod 400 =? 0)).

Definition days_in (m y : Z) : Z :=
  if m =? 2 then (if is_leap y then 29 else 28)
  else if (m =? 4) || (m =? 6) || (m =? 9) || (m =? 11) then 30
  else 31.

(** Days from 0001-01-01 to a date (time.Date on UTC). *)
Definition days_before_year (y : Z) : Z :=
  365 * (y - 1) + (y - 1) / 4 - (y - 1) / 100 + (y - 1) / 400.

Definition days_before_month (m y : Z) : Z :=
  let leap := if is_leap y then 1 else 0 in
  if m =? 1 then 0 else if m =? 2 then 31
  else leap +
    (if m =? 3 then 59 else if m =? 4 then 90 else if m =? 5 then 120
     else if m =? 6 then 151 else if m =? 7 then 181 else if m =? 8 then 212
     else if m =? 9 then 243 else if m =? 10 then 273 else if m =? 11 then 304 else 334).

Definition day_number (d : date) : Z :=
  days_before_year (d_year d) + days_before_month (d_month d) (d_year d) + d_day d - 1.

(** Instant (in seconds) of midnight UTC. *)
Definition instant (d : date) : Z := day_number d * 86400.
(** Nanoseconds in a second. *)
Definition ns : Z := 1000000000.

(** [a.Before(b)] for two UTC midnights. *)
Definition date_before (a b : date) : bool := instant a <? instant b.

(** ** time.Parse

    The chunks of the layouts 2006-01-02, 2006.01.02, 2006/01/02, 2006-01 etc.
    as split by nextStdChunk: long year, zero-padded month, zero-padded day and
    literal bytes. *)
Inductive chunk := CYear | CMonth | CDay | CLit (b : Z).

Definition is_digit (c : Z) : bool := (48 <=? c) && (c <=? 57).

Record parsed := Parsed { p_year : Z; p_month : Z; p_day : Z }.

(** time.Parse's main loop: four digits for the year (Go checks that the first
    is a digit and calls atoi on the four), exactly two for month and day
    (getnum with fixed width), month range checked at once, no text left over.
    Month and day default to 1. Any failure is an error. *)
Fixpoint parse_chunks (cs : list chunk) (v : str) (acc : parsed) : option parsed :=
  match cs with
  | [] => match v with [] => Some acc | _ => None end
  | CLit b :: cs' =>
      match v with
      | c :: v' => if c =? b then parse_chunks cs' v' acc else None
      | [] => None
      end
  | CYear :: cs' =>
      match v with
      | c1 :: c2 :: c3 :: c4 :: v' =>
          if is_digit c1 && is_digit c2 && is_digit c3 && is_digit c4
          then parse_chunks cs' v'
                 (Parsed (1000 * (c1 - 48) + 100 * (c2 - 48) + 10 * (c3 - 48) + (c4 - 48))
                         (p_month acc) (p_day acc))
          else None
      | _ => None
      end
  | CMonth :: cs' =>
      match v with
      | c1 :: c2 :: v' =>
          if is_digit c1 && is_digit c2 then
            let m := 10 * (c1 - 48) + (c2 - 48) in
            if (m <=? 0) || (12 <? m) then None
            else parse_chunks cs' v' (Parsed (p_year acc) m (p_day acc))
          else None
      | _ => None
      end
  | CDay :: cs' =>
      match v with
      | c1 :: c2 :: v' =>
          if is_digit c1 && is_digit c2 then
            parse_chunks cs' v' (Parsed (p_year acc) (p_month acc) (10 * (c1 - 48) + (c2 - 48)))
          else None
      | _ => None
      end
  end.

(** ... and the final validation of the day of the month. *)
Definition time_parse (layout : list chunk) (v : str) : option date :=
  match parse_chunks layout v (Parsed 0 1 1) with
  | Some p =>
      if (p_day p <? 1) || (days_in (p_month p) (p_year p) <? p_day p) then None
      else Some (Date (p_year p) (p_month p) (p_day p))
  | None => None
  end.

Definition c_dash : Z := 45.
Definition c_dot : Z := 46.
Definition c_slash : Z := 47.

Definition layout_ymd (sep : Z) : list chunk := [CYear; CLit sep; CMonth; CLit sep; CDay].
Definition layout_ym (sep : Z) : list chunk := [CYear; CLit sep; CMonth].

(** The layout as it is written in Go. *)
Definition layout_text (cs : list chunk) : str :=
  flat_map (fun c => match c with CYear => lit "2006" | CMonth => lit "01" | CDay => lit "02" | CLit b => [b] end) cs.

(** [t.Format("2006-01-02")], journal/transaction.go:56. *)
Definition two_digits (n : Z) : str := [48 + n / 10; 48 + n mod 10].
Definition four_digits (n : Z) : str :=
  [48 + n / 1000; 48 + (n / 100) mod 10; 48 + (n / 10) mod 10; 48 + n mod 10].
Definition format_date (d : date) : str :=
  four_digits (d_year d) ++ [c_dash] ++ two_digits (d_month d) ++ [c_dash] ++ two_digits (d_day d).

(** [normaliseToMonth], journal/budget.go:189-191:
    [date.AddDate(0, 0, -(date.Day() - 1))]. *)
Definition normaliseToMonth (d : date) : date :=
  Date (d_year d) (d_month d) (d_day d + (- (d_day d - 1))).
