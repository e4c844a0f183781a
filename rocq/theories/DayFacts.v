(** * Days: counting them and printing the count *)
From Verif Require Import Base BaseFacts GoTime Strconv Display TextSpec DateFacts DisplayFacts CalendarFacts Journal Lexer Parser Account Reporting Budget Cmd.
From Coq Require Import Floats.SpecFloat.

(** [b] is the day after [a]. *)
Definition next_day (a b : date) : Prop :=
  real_date a /\ real_date b /\ earlier a b /\ forall c, real_date c -> ~ (earlier a c /\ earlier c b).
Inductive days_later : Z -> date -> date -> Prop :=
| SameDay : forall a, real_date a -> days_later 0 a a
| OneMore : forall n a b c, days_later n a b -> next_day b c -> days_later (n + 1) a c.

(** The next day, computed. *)
Definition tomorrow (a : date) : date :=
  if d_day a <? days_in (d_month a) (d_year a) then Date (d_year a) (d_month a) (d_day a + 1)
  else if d_month a <? 12 then Date (d_year a) (d_month a + 1) 1
  else Date (d_year a + 1) 1 1.

Lemma days_in_pos : forall m y, 28 <= days_in m y.
Proof. intros. unfold days_in. repeat match goal with |- context [if ?b then _ else _] => destruct b end; lia. Qed.

Lemma tomorrow_real : forall a, real_date a -> real_date (tomorrow a).
Proof.
  intros a R. pose proof (real_date_month _ R) as M. apply real_date_iff in R; [|exact M]. unfold tomorrow.
  destruct (Z.ltb_spec (d_day a) (days_in (d_month a) (d_year a))).
  - apply real_date_iff; cbn; lia.
  - destruct (Z.ltb_spec (d_month a) 12); apply real_date_iff; cbn [d_month d_day d_year]; try lia.
    + pose proof (days_in_pos (d_month a + 1) (d_year a)). lia.
    + pose proof (days_in_pos 1 (d_year a + 1)). lia.
Qed.

Lemma tomorrow_number : forall a, real_date a -> day_number (tomorrow a) = day_number a + 1.
Proof.
  intros [y m d] R. pose proof (real_date_month _ R) as M. apply real_date_iff in R; [|exact M]. unfold tomorrow, day_number.
  cbn [d_year d_month d_day] in *.
  destruct (Z.ltb_spec d (days_in m y)) as [L|L]; cbn [d_year d_month d_day]; [lia|].
  destruct (Z.ltb_spec m 12) as [L'|L']; cbn [d_year d_month d_day].
  - unfold days_in, days_before_month in *. destruct (is_leap y).
    all: assert (m = 1 \/ m = 2 \/ m = 3 \/ m = 4 \/ m = 5 \/ m = 6 \/ m = 7 \/ m = 8 \/ m = 9 \/ m = 10 \/ m = 11) as C by lia;
      repeat (destruct C as [->|C]); try subst m; cbn [Z.eqb Z.add Pos.add Pos.succ Pos.eqb orb] in *; lia.
  - assert (m = 12) by lia. subst m. rewrite year_step. unfold days_in, days_before_month in *. destruct (is_leap y); cbn [Z.eqb Pos.eqb orb] in *; lia.
Qed.

Lemma next_day_number : forall a b, next_day a b -> instant b = instant a + 86400.
Proof.
  intros a b (Ra & Rb & E & N). pose proof (tomorrow_real a Ra) as Rt. pose proof (tomorrow_number a Ra) as Nt.
  destruct (date_trichotomy (tomorrow a) b) as [X|[<-|X]].
  - exfalso. apply (N (tomorrow a) Rt). split; [|exact X]. apply instant_order; auto. unfold instant. lia.
  - unfold instant. lia.
  - exfalso. apply earlier_instant in E; auto. apply earlier_instant in X; auto. unfold instant in *. lia.
Qed.

Lemma tomorrow_next : forall a, real_date a -> next_day a (tomorrow a).
Proof.
  intros a R. pose proof (tomorrow_real a R) as Rt. pose proof (tomorrow_number a R) as Nt. repeat split; auto.
  - apply instant_order; auto. unfold instant. lia.
  - intros c Rc [X Y]. apply earlier_instant in X; auto. apply earlier_instant in Y; auto. unfold instant in *. lia.
Qed.

Lemma days_later_number : forall n a b, days_later n a b -> real_date a /\ real_date b /\ 0 <= n /\ instant b = instant a + n * 86400.
Proof.
  induction 1 as [a R|n a b c H (Ra & Rb & P & IH) X]; [repeat split; auto; lia|].
  pose proof (next_day_number _ _ X). destruct X as (_ & Rc & _). repeat split; auto; lia.
Qed.

Lemma days_later_ex : forall n a, real_date a -> exists b, days_later (Z.of_nat n) a b.
Proof.
  induction n as [|n IH]; intros a R; [exists a; now constructor|]. destruct (IH a R) as [b H]. exists (tomorrow b).
  replace (Z.of_nat (S n)) with (Z.of_nat n + 1) by lia. econstructor; [exact H|]. apply tomorrow_next. now apply days_later_number in H.
Qed.

(** Between two real dates there are days. *)
Lemma days_between : forall a b, real_date a -> real_date b -> ~ earlier b a -> exists n, days_later n a b.
Proof.
  intros a b Ra Rb N. assert (L : day_number a <= day_number b).
  { destruct (date_trichotomy a b) as [X|[->|X]]; [|lia|contradiction]. apply earlier_instant in X; auto. unfold instant in X. lia. }
  destruct (days_later_ex (Z.to_nat (day_number b - day_number a)) a Ra) as [c H]. exists (Z.of_nat (Z.to_nat (day_number b - day_number a))).
  pose proof (days_later_number _ _ _ H) as (_ & Rc & _ & Q). assert (c = b) by (apply instant_inj; auto; unfold instant in *; lia). now subst c.
Qed.

(** ** Whole days as floating-point numbers *)
Definition day_ns : Z := 86400 * 10 ^ 9.
Definition m24 : positive := 6755399441055744.
Lemma float_24 : float_of_int 24 = S754_finite false m24 (-48).
Proof. vm_compute. reflexivity. Qed.
Lemma m24_value : Zpos m24 = 24 * 2 ^ 48. Proof. reflexivity. Qed.

Opaque Z.pow.
Lemma div24_core : forall m d, 2 ^ 52 <= m < 2 ^ 53 -> 1 <= d <= 53 ->
  exists Q r, SFdiv_core_binary prec emax m (d - 53) (Zpos m24) (-48) = (Q, d - 58, r) /\
    loc_ok Q r (m * 2 ^ 53) (Zpos m24) /\ 2 ^ 52 <= Q < 2 ^ 54.
Proof.
  intros m d M D. unfold SFdiv_core_binary.
  rewrite (Zdigits_unique m 53) by (change (53 - 1) with 52; lia).
  rewrite (Zdigits_unique (Zpos m24) 53) by first [lia | vm_compute; split; [discriminate|reflexivity]].
  replace (53 + (d - 53) - (53 + -48)) with (d + -5) by lia. rewrite fexp_normal by lia.
  replace (Z.min (d + -5 - 53) (d - 53 - -48)) with (d - 58) by lia.
  replace (d - 53 - -48 - (d - 58)) with 53 by lia.
  rewrite Z.shiftl_mul_pow2 by lia.
  pose proof (Z_div_mod (m * 2 ^ 53) (Zpos m24) ltac:(reflexivity)) as DM.
  destruct (Z.div_eucl (m * 2 ^ 53) (Zpos m24)) as [Q r]. destruct DM as [E R].
  exists Q. eexists. split; [reflexivity|].
  assert (2 ^ 52 < Zpos m24 < 2 ^ 53) as HB by (vm_compute; split; reflexivity).
  pose proof pow52_pos. pose proof pow52_53 as P53. pose proof pow53_54 as P54.
  split.
  - split; [reflexivity|]. exists r. split; [lia|]. split; [lia|].
    unfold new_location. change (Z.even (Zpos m24)) with true. cbn iota. unfold new_location_even, Zeq_bool.
    destruct (Z.eqb_spec r 0) as [->|N]; [reflexivity|].
    destruct (Z.compare_spec r 0); [lia|reflexivity|reflexivity].
  - split.
    + destruct (Z.leb_spec (2 ^ 52) Q); [assumption|exfalso].
      assert (Zpos m24 * Q <= Zpos m24 * (2 ^ 52 - 1)) by (apply Z.mul_le_mono_nonneg_l; lia).
      assert (2 ^ 52 * 2 ^ 53 <= m * 2 ^ 53) by (apply Z.mul_le_mono_nonneg_r; lia).
      nia.
    + destruct (Z.ltb_spec Q (2 ^ 54)); [assumption|exfalso].
      assert (Zpos m24 * 2 ^ 54 <= Zpos m24 * Q) by (apply Z.mul_le_mono_nonneg_l; lia).
      nia.
Qed.

(** A multiple of 24 divided by 24. *)
Lemma div24_exact : forall s c, Zpos c * 24 < 2 ^ 50 ->
  exists N e, float_div (binary_round prec emax s (c * 24) 0) (float_of_int 24) = S754_finite s N e /\
    e < 0 /\ Zpos N = Zpos c * 2 ^ (- e).
Proof.
  intros s c B. assert (P50 : 2 ^ 50 < 2 ^ 53) by reflexivity. set (p := (c * 24)%positive).
  assert (Vp : Zpos p = Zpos c * 24) by reflexivity.
  destruct (float_of_int_small s p ltac:(lia)) as (m & EM & VM & BM & D).
  pose proof (digits_bounds p) as DB. set (d := Zpos (digits2_pos p)) in *.
  assert (d <= 50). { destruct (Z.leb_spec d 50); [assumption|]. assert (2 ^ 50 <= 2 ^ (d - 1)) by (apply Z.pow_le_mono_r; lia). lia. }
  rewrite EM, float_24. unfold float_div, SFdiv.
  destruct (div24_core (Zpos m) d BM D) as (Q & l & EQ & LO & BQ). rewrite EQ. rewrite xorb_false_r.
  destruct (round_aux_spec s Q (d - 58) l _ _ LO BQ ltac:(lia)) as (N & e' & k & -> & K & RE & ER).
  exists N, e'. split; [reflexivity|]. assert (K01 : k = 0 \/ k = 1) by (destruct K as [[-> _]|[-> _]]; auto). split; [lia|].
  assert (Zpos m * 2 ^ 53 = Zpos c * (24 * 2 ^ 48) * 2 ^ (58 - d)) as V.
  { rewrite VM, Vp. rewrite <- !Z.mul_assoc, <- !Z.pow_add_r by lia. do 3 f_equal. lia. }
  rewrite V, m24_value in ER. set (W := 24 * 2 ^ 48) in *. assert (PW : 0 < W) by reflexivity.
  set (X := 2 ^ (e' - (d - 58))) in *.
  assert (XK : 2 ^ k <= X) by (apply Z.pow_le_mono_r; lia).
  assert (PK : 0 < 2 ^ k) by (apply Z.pow_pos_nonneg; lia).
  assert (SX : 2 ^ (58 - d) = X * 2 ^ (- e')). { unfold X. rewrite <- Z.pow_add_r by lia. f_equal. lia. }
  replace (Zpos N * X * W - Zpos c * W * 2 ^ (58 - d)) with ((Zpos N - Zpos c * 2 ^ (- e')) * (X * W)) in ER by (rewrite SX; ring).
  rewrite Z.abs_mul in ER. rewrite (Z.abs_eq (X * W)) in ER by nia.
  set (A := Z.abs (Zpos N - Zpos c * 2 ^ (- e'))) in *.
  assert (2 * A * X <= 2 ^ k) by (apply (Z.mul_le_mono_pos_r _ _ W PW); lia).
  assert (A = 0) by nia. lia.
Qed.
Transparent Z.pow.

Lemma hours_whole : forall h, Z.abs h < 2 ^ 53 -> hours (h * hour_ns) = float_of_int h.
Proof.
  intros h H. unfold hours. rewrite Z.quot_mul by discriminate. rewrite Z.rem_mul by discriminate.
  replace (float_div (float_of_int 0) (float_of_int hour_ns)) with (S754_zero false) by (vm_compute; reflexivity).
  destruct h as [|p|p]; [reflexivity| |]; unfold float_of_int; cbn [binary_normalize];
  destruct (float_of_int_small false p ltac:(lia)) as (m & E & _); destruct (float_of_int_small true p ltac:(lia)) as (m' & E' & _);
  rewrite ?E, ?E'; reflexivity.
Qed.

Lemma days_whole : forall c, Zpos c * 24 < 2 ^ 50 ->
  exists N e, days_of (Zpos c * day_ns) = S754_finite false N e /\ e < 0 /\ Zpos N = Zpos c * 2 ^ (- e).
Proof.
  intros c B. unfold days_of. replace (Zpos c * day_ns) with (Zpos (c * 24) * hour_ns).
  - rewrite hours_whole by (change (Zpos (c * 24)) with (Zpos c * 24); change (2 ^ 50) with 1125899906842624 in B; change (2 ^ 53) with 9007199254740992; lia).
    unfold float_of_int at 1. cbn [binary_normalize]. now apply div24_exact.
  - change (Zpos (c * 24)) with (Zpos c * 24). unfold day_ns, hour_ns, ns. change (10 ^ 9) with 1000000000. lia.
Qed.

Lemma decimal_0 : forall n, 0 <= n -> decimal false 0 n = itoa n.
Proof.
  intros n H. unfold decimal, itoa. destruct (Z.ltb_spec n 0); [lia|]. cbn [app Z.of_nat]. rewrite Z.div_1_r. now rewrite app_nil_r.
Qed.

(** Whole days print as their number. *)
Lemma print_whole : forall N e c, 0 <= c -> e < 0 -> Zpos N = c * 2 ^ (- e) -> fmt_fixed 0 (S754_finite false N e) = itoa c.
Proof.
  intros N e c Hc He Q. unfold fmt_fixed. destruct (Z.leb_spec 0 e); [lia|]. change (10 ^ Z.of_nat 0) with 1.
  assert (P : 0 < 2 ^ (- e)) by (apply Z.pow_pos_nonneg; lia).
  rewrite (round_half_even_near _ _ c) by (rewrite ?Z.mul_1_r, ?Q; lia). now apply decimal_0.
Qed.

Lemma print_int : forall c, 0 <= c < 2 ^ 53 -> fmt_fixed 0 (float_of_int c) = itoa c.
Proof.
  intros [|p|p] H; [reflexivity| |lia]. unfold float_of_int. cbn [binary_normalize].
  destruct (float_of_int_small false p ltac:(lia)) as (m & E & V & _ & D). rewrite E.
  destruct (Z.eq_dec (Zpos (digits2_pos p)) 53) as [Q|Q].
  - rewrite Q in *. cbn [Z.sub Z.add Z.opp Z.pos_sub Pos.pred_double] in *. unfold fmt_fixed. cbn [Z.leb Z.compare].
    change (2 ^ (53 - 53)) with 1 in V. change (2 ^ 0) with 1. change (10 ^ Z.of_nat 0) with 1. change (53 - 53) with 0. cbn [Z.leb Z.compare].
    change (2 ^ 0) with 1. rewrite !Z.mul_1_r. rewrite Z.mul_1_r in V. rewrite V. cbv zeta. apply decimal_0. apply Pos2Z.is_nonneg.
  - apply print_whole; [lia|lia|]. rewrite V. do 2 f_equal. lia.
Qed.

Lemma print_days : forall c, 0 <= c < 2 ^ 45 -> fmt_fixed 0 (days_of (c * day_ns)) = itoa c.
Proof.
  intros [|c|c] H; [reflexivity| |lia]. destruct (days_whole c) as (N & e & -> & He & Q).
  - change (2 ^ 45) with 35184372088832 in H. change (2 ^ 50) with 1125899906842624. lia.
  - apply (print_whole N e (Zpos c)); [apply Pos2Z.is_nonneg|exact He|exact Q].
Qed.

Lemma round_days : forall c, 0 <= c < 2 ^ 45 -> float_round (days_of (c * day_ns)) = float_of_int c.
Proof.
  intros [|c|c] H; [reflexivity| |lia]. destruct (days_whole c) as (N & e & -> & He & Q).
  - change (2 ^ 45) with 35184372088832 in H. change (2 ^ 50) with 1125899906842624. lia.
  - unfold float_round. destruct (Z.leb_spec 0 e); [lia|]. rewrite Q. set (P := 2 ^ (- e)).
    assert (PP : 0 < P) by (apply Z.pow_pos_nonneg; lia).
    assert (V : (2 * (Zpos c * P) + P) / (2 * P) = Zpos c) by (symmetry; apply Z.div_unique with P; lia).
    rewrite V. reflexivity.
Qed.

Lemma max0_days : forall c, 0 <= c < 2 ^ 45 -> max0 (days_of (c * day_ns)) = days_of (c * day_ns).
Proof.
  intros [|c|c] H; [reflexivity| |lia]. destruct (days_whole c) as (N & e & -> & He & Q); [|reflexivity].
  change (2 ^ 45) with 35184372088832 in H. change (2 ^ 50) with 1125899906842624. lia.
Qed.

(** The time between two dates, in nanoseconds: 292 years at most. *)
Ltac sub_lia := unfold time_sub; unfold ns, day_ns; change (10 ^ 9) with 1000000000; change two63 with 9223372036854775808;
  match goal with |- context [Z.ltb ?a ?b] => destruct (Z.ltb_spec a b); [lia|] end;
  match goal with |- context [Z.ltb ?a ?b] => destruct (Z.ltb_spec a b); lia end.
Lemma time_sub_days : forall n a b, days_later n a b -> n <= 106751 -> time_sub b a = n * day_ns.
Proof. intros n a b H L. apply days_later_number in H as (_ & _ & P & Q). sub_lia. Qed.
Lemma time_sub_far : forall n a b, days_later n a b -> 106751 < n -> time_sub b a = two63 - 1.
Proof. intros n a b H L. apply days_later_number in H as (_ & _ & P & Q). sub_lia. Qed.
Lemma time_sub_neg : forall n a b, days_later n a b -> n <= 106751 -> time_sub a b = - (n * day_ns).
Proof. intros n a b H L. apply days_later_number in H as (_ & _ & P & Q). sub_lia. Qed.

(** "Time period" *)
Lemma period_text : forall n a b, days_later n a b ->
  fmt_fixed 0 (float_round (days_of (time_sub b a))) = itoa (Z.min n 106752).
Proof.
  intros n a b H. destruct (Z.leb_spec n 106751) as [L|L].
  - rewrite (time_sub_days n) by assumption. apply days_later_number in H as (_ & _ & P & _).
    assert (n < 2 ^ 45) by (change (2 ^ 45) with 35184372088832; lia). rewrite round_days by lia.
    rewrite Z.min_l by lia. apply print_int. change (2 ^ 53) with 9007199254740992. lia.
  - rewrite (time_sub_far n) by assumption. rewrite Z.min_r by lia. vm_compute. reflexivity.
Qed.
Lemma period_float : forall n a b, days_later n a b -> float_round (days_of (time_sub b a)) = float_of_int (Z.min n 106752).
Proof.
  intros n a b H. destruct (Z.leb_spec n 106751) as [L|L].
  - rewrite (time_sub_days n) by assumption. apply days_later_number in H as (_ & _ & P & _).
    assert (n < 2 ^ 45) by (change (2 ^ 45) with 35184372088832; lia). rewrite round_days by lia. now rewrite Z.min_l by lia.
  - rewrite (time_sub_far n) by assumption. rewrite Z.min_r by lia. vm_compute. reflexivity.
Qed.
