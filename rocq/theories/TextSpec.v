(** * Dates and amounts as texts: small specifications *)
From Verif Require Import Base GoTime.

(** Decimal numerals. *)
Definition digit (c : Z) : Prop := 48 <= c <= 57.
Definition numeral_value (s : str) : Z := fold_left (fun a c => 10 * a + (c - 48)) s 0.
Definition numeral (k : nat) (s : str) (n : Z) : Prop :=
  length s = k /\ Forall digit s /\ numeral_value s = n.

(** The Gregorian calendar. *)
Definition leap_year (y : Z) : Prop := (4 | y) /\ (~ (100 | y) \/ (400 | y)).
Definition real_date (d : date) : Prop :=
  (In (d_month d) [1; 3; 5; 7; 8; 10; 12] /\ 1 <= d_day d <= 31) \/
  (In (d_month d) [4; 6; 9; 11] /\ 1 <= d_day d <= 30) \/
  (d_month d = 2 /\ 1 <= d_day d <= 28) \/
  (d_month d = 2 /\ d_day d = 29 /\ leap_year (d_year d)).

Definition separator (c : Z) : Prop := c = 45 \/ c = 46 \/ c = 47.

(** YYYY<sep>MM<sep>DD *)
Inductive ymd_text (sep : Z) (d : date) : str -> Prop :=
| YMD : forall y m dd, numeral 4 y (d_year d) -> numeral 2 m (d_month d) -> numeral 2 dd (d_day d) ->
    ymd_text sep d (y ++ [sep] ++ m ++ [sep] ++ dd).

(** The dates of --begin and --end, in the year [now]. *)
Inductive smart_text (now : Z) : str -> date -> Prop :=
| SmartYear : forall s y, numeral 4 s y -> smart_text now s (Date y 1 1)
| SmartYearMonth : forall sep ys ms y m, separator sep -> numeral 4 ys y -> numeral 2 ms m -> 1 <= m <= 12 ->
    smart_text now (ys ++ [sep] ++ ms) (Date y m 1)
| SmartMonthDay : forall sep ms ds m d, separator sep -> numeral 2 ms m -> numeral 2 ds d ->
    real_date (Date now m d) -> smart_text now (ms ++ [sep] ++ ds) (Date now m d)
| SmartFull : forall sep s d, separator sep -> ymd_text sep d s -> real_date d -> smart_text now s d.

(** A year with a sign, which strconv.Atoi lets through: [+123], [-123]. *)
Inductive signed_year : str -> date -> Prop :=
| PlusYear : forall s y, numeral 3 s y -> signed_year (43 :: s) (Date y 1 1)
| MinusYear : forall s y, numeral 3 s y -> signed_year (45 :: s) (Date (- y) 1 1).

(** ** Amounts *)

(** A numeral without superfluous zeros. *)
Definition canonical (s : str) (n : Z) : Prop :=
  s <> [] /\ Forall digit s /\ numeral_value s = n /\ (hd 0 s = 48 -> s = [48]).

(** The exact decimal numeral of q hundredths. *)
Inductive money_text (q : Z) : str -> Prop :=
| Money : forall w c, canonical w (Z.abs q / 100) -> numeral 2 c (Z.abs q mod 100) ->
    money_text q ((if q <? 0 then [45] else []) ++ w ++ [46] ++ c).

(** An amount as one writes it: a sign, digits, perhaps a point and two digits;
    the number of hundredths it stands for. *)
Inductive sign_text : str -> Z -> Prop :=
| NoSign : sign_text [] 1
| PlusSign : sign_text [43] 1
| MinusSign : sign_text [45] (-1).
Inductive amount_text : str -> Z -> Prop :=
| WholeAmount : forall sg m w, sign_text sg m -> w <> [] -> Forall digit w ->
    amount_text (sg ++ w) (m * (100 * numeral_value w))
| CentsAmount : forall sg m w c k, sign_text sg m -> w <> [] -> Forall digit w -> numeral 2 c k ->
    amount_text (sg ++ w ++ [46] ++ c) (m * (100 * numeral_value w + k)).

(** What strconv.ParseInt takes: a sign and digits, within int64. *)
Inductive go_integer : str -> Z -> Prop :=
| GoInteger : forall sg m w, sign_text sg m -> w <> [] -> Forall digit w ->
    in_int64 (m * numeral_value w) -> go_integer (sg ++ w) (m * numeral_value w).

(** An amount with any number of decimals, and the whole number of hundredths it
    stands for. *)
Inductive decimal_text : str -> Z -> Prop :=
| DecimalWhole : forall sg m w, sign_text sg m -> w <> [] -> Forall digit w ->
    decimal_text (sg ++ w) (m * (100 * numeral_value w))
| DecimalPoint : forall sg m w c q, sign_text sg m -> w <> [] -> Forall digit w -> c <> [] -> Forall digit c ->
    q * 10 ^ Z.of_nat (length c) = m * (100 * (numeral_value w * 10 ^ Z.of_nat (length c) + numeral_value c)) ->
    decimal_text (sg ++ w ++ [46] ++ c) q.
