(** * Amount.DisplayableQuantity: journal/amount.go:26-33

    [float64(a.Quantity) / 100] in IEEE 754 binary64 (round to nearest even),
    computed by the standard library's [SpecFloat], then [%.2f]: Go prints the
    exact binary value rounded to two decimals, half to even. *)
From Coq Require Import SpecFloat.
From Verif Require Import Base.

Definition prec := 53.
Definition emax := 1024.

(** [float64(n)] for an integer n. *)
Definition float_of_int (n : Z) : spec_float := binary_normalize prec emax n 0 false.
Definition float_div (x y : spec_float) : spec_float := SFdiv prec emax x y.
Definition float_add (x y : spec_float) : spec_float := SFadd prec emax x y.

(** Round n/d to an integer, half to even (d > 0, n >= 0). *)
Definition round_half_even (n d : Z) : Z :=
  let q := n / d in
  let r := n mod d in
  if 2 * r <? d then q
  else if d <? 2 * r then q + 1
  else if Z.even q then q else q + 1.

(** Zero-padded decimal numeral of fixed width, for the digits after the point. *)
Fixpoint fixed_digits (k : nat) (n : Z) : str :=
  match k with
  | O => []
  | S k' => fixed_digits k' (n / 10) ++ [48 + n mod 10]
  end.

(** An integer number of 10^-k units, as a numeral with k decimals. *)
Definition decimal (neg : bool) (k : nat) (n : Z) : str :=
  (if neg then [45] else []) ++ itoa_nat (n / 10 ^ Z.of_nat k) ++
  (match k with O => [] | _ => [46] ++ fixed_digits k (n mod 10 ^ Z.of_nat k) end).

(** [fmt.Sprintf("%.<k>f", x)] *)
Definition fmt_fixed (k : nat) (x : spec_float) : str :=
  match x with
  | S754_zero s => decimal s k 0
  | S754_infinity s => if s then lit "-Inf" else lit "+Inf"
  | S754_nan => lit "NaN"
  | S754_finite s m e =>
      let n := if 0 <=? e then Zpos m * 2 ^ e * 10 ^ Z.of_nat k
               else round_half_even (Zpos m * 10 ^ Z.of_nat k) (2 ^ (- e)) in
      decimal s k n
  end.

(** journal/amount.go:27-28 *)
Definition display_quantity (q : Z) : str :=
  fmt_fixed 2 (float_div (float_of_int q) (float_of_int 100)).
