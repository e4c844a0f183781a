(** * How long ago: github.com/dustin/go-humanize v1.0.0, times.go

    Used by cmd/stats.go:191-192. *)
From Verif Require Import Base GoTime.

(** Durations in nanoseconds. *)
Definition Second : Z := ns.
Definition Minute : Z := 60 * Second.
Definition Hour : Z := 60 * Minute.
Definition Day : Z := 24 * Hour.
Definition Week : Z := 7 * Day.
Definition Month : Z := 30 * Day.
Definition Year : Z := 12 * Month.
Definition LongTime : Z := 37 * Year.

(** times.go: defaultMagnitudes, with fields D, Format and DivBy *)
Record magnitude := Magnitude { m_d : Z; m_format : str; m_div : Z }.
Definition defaultMagnitudes : list magnitude :=
  [Magnitude Second (lit "now") Second;
   Magnitude (2 * Second) (lit "1 second %s") 1;
   Magnitude Minute (lit "%d seconds %s") Second;
   Magnitude (2 * Minute) (lit "1 minute %s") 1;
   Magnitude Hour (lit "%d minutes %s") Minute;
   Magnitude (2 * Hour) (lit "1 hour %s") 1;
   Magnitude Day (lit "%d hours %s") Hour;
   Magnitude (2 * Day) (lit "1 day %s") 1;
   Magnitude Week (lit "%d days %s") Day;
   Magnitude (2 * Week) (lit "1 week %s") 1;
   Magnitude Month (lit "%d weeks %s") Week;
   Magnitude (2 * Month) (lit "1 month %s") 1;
   Magnitude Year (lit "%d months %s") Month;
   Magnitude (18 * Month) (lit "1 year %s") 1;
   Magnitude (2 * Year) (lit "2 years %s") 1;
   Magnitude LongTime (lit "%d years %s") Year;
   Magnitude (two63 - 1) (lit "a long while %s") 1].

(** time.Time.Sub on times in nanoseconds: saturating. *)
Definition sub_times (a b : Z) : Z :=
  let d := a - b in
  if d <? - two63 then - two63 else if two63 - 1 <? d then two63 - 1 else d.

(** sort.Search: the first magnitude above, otherwise the last one. *)
Fixpoint search (diff : Z) (ms : list magnitude) (lst : magnitude) : magnitude :=
  match ms with
  | [] => lst
  | m :: ms' => if diff <? m_d m then m else search diff ms' m
  end.

(** fmt.Sprintf of such a format, with the arguments the loop over the format
    collects: the label for %s, the number for %d. *)
Fixpoint render (lbl : str) (n : Z) (format : str) : str :=
  match format with
  | [] => []
  | c :: f =>
      if c =? 37 then
        match f with
        | [] => []
        | v :: f' => (if v =? 115 then lbl else itoa n) ++ render lbl n f'
        end
      else c :: render lbl n f
  end.

(** times.go: CustomRelTime, RelTime and Time *)
Definition relTime (a b : Z) (albl blbl : str) : str :=
  let '(lbl, diff) := if b <? a then (blbl, sub_times a b) else (albl, sub_times b a) in
  let mag := search diff defaultMagnitudes (Magnitude 0 [] 1) in
  render lbl (Z.quot diff (m_div mag)) (m_format mag).
Definition humanize (now then_ : Z) : str := relTime then_ now (lit "ago") (lit "from now").
