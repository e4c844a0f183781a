(** * Instants follow the calendar *)
From Verif Require Import Base BaseFacts GoTime TextSpec DateFacts.

(** Calendar order. *)
Definition earlier (a b : date) : Prop :=
  d_year a < d_year b \/
  (d_year a = d_year b /\ (d_month a < d_month b \/ (d_month a = d_month b /\ d_day a < d_day b))).

Lemma div_step : forall y n, 0 < n -> y / n - (y - 1) / n = if y mod n =? 0 then 1 else 0.
Proof.
  intros y n H. pose proof (Z.div_mod y n ltac:(lia)) as D. pose proof (Z.mod_pos_bound y n H) as B.
  destruct (Z.eqb_spec (y mod n) 0) as [E|E].
  - assert ((y - 1) / n = y / n - 1) as ->; [|lia]. symmetry. apply Z.div_unique with (n - 1); lia.
  - assert ((y - 1) / n = y / n) as ->; [|lia]. symmetry. apply Z.div_unique with (y mod n - 1); lia.
Qed.

Lemma year_step : forall y, days_before_year (y + 1) = days_before_year y + 365 + (if is_leap y then 1 else 0).
Proof.
  intro y. unfold days_before_year, is_leap. replace (y + 1 - 1) with y by lia.
  pose proof (div_step y 4 ltac:(lia)) as H4. pose proof (div_step y 100 ltac:(lia)) as H100.
  pose proof (div_step y 400 ltac:(lia)) as H400.
  assert (I1 : y mod 100 = 0 -> y mod 4 = 0).
  { intro E. pose proof (Z.div_mod y 100 ltac:(lia)). rewrite E in H. replace y with ((y / 100 * 25) * 4) by lia. apply Z.mod_mul. lia. }
  assert (I2 : y mod 400 = 0 -> y mod 100 = 0).
  { intro E. pose proof (Z.div_mod y 400 ltac:(lia)). rewrite E in H. replace y with ((y / 400 * 4) * 100) by lia. apply Z.mod_mul. lia. }
  destruct (Z.eqb_spec (y mod 4) 0) as [E4|E4]; destruct (Z.eqb_spec (y mod 100) 0) as [E100|E100];
    destruct (Z.eqb_spec (y mod 400) 0) as [E400|E400]; cbn [andb orb negb]; try lia; exfalso; auto.
Qed.

Lemma year_mono : forall n y, days_before_year (y + 1) <= days_before_year (y + 1 + Z.of_nat n).
Proof.
  induction n as [|n IH]; intro y; [rewrite Z.add_0_r; lia|]. specialize (IH y).
  replace (y + 1 + Z.of_nat (S n)) with ((y + 1 + Z.of_nat n) + 1) by lia. rewrite (year_step (y + 1 + Z.of_nat n)).
  destruct (is_leap (y + 1 + Z.of_nat n)); lia.
Qed.

Lemma month_bounds : forall d, real_date d ->
  0 <= days_before_month (d_month d) (d_year d) + d_day d - 1 < 365 + (if is_leap (d_year d) then 1 else 0).
Proof.
  intros [y m d] R. pose proof (real_date_month _ R) as M. apply real_date_iff in R; [|exact M].
  cbn [d_year d_month d_day] in *. unfold days_in, days_before_month in *. destruct (is_leap y).
  all:
  assert (m = 1 \/ m = 2 \/ m = 3 \/ m = 4 \/ m = 5 \/ m = 6 \/ m = 7 \/ m = 8 \/ m = 9 \/ m = 10 \/ m = 11 \/ m = 12) as C by lia;
  repeat (destruct C as [->|C]); try subst m; cbn [Z.eqb Pos.eqb orb] in *; lia.
Qed.

Lemma month_mono : forall y m m' d, 1 <= m < m' -> m' <= 12 -> 1 <= d <= days_in m y ->
  days_before_month m y + d <= days_before_month m' y.
Proof.
  intros y m m' d L L' D. unfold days_in, days_before_month in *. destruct (is_leap y).
  all:
  assert (m = 1 \/ m = 2 \/ m = 3 \/ m = 4 \/ m = 5 \/ m = 6 \/ m = 7 \/ m = 8 \/ m = 9 \/ m = 10 \/ m = 11) as C by lia;
  assert (m' = 2 \/ m' = 3 \/ m' = 4 \/ m' = 5 \/ m' = 6 \/ m' = 7 \/ m' = 8 \/ m' = 9 \/ m' = 10 \/ m' = 11 \/ m' = 12) as C' by lia;
  repeat (destruct C as [->|C]); try subst m; repeat (destruct C' as [->|C']); try subst m'; cbn [Z.eqb Pos.eqb orb] in *; lia.
Qed.

Lemma earlier_instant : forall a b, real_date a -> real_date b -> earlier a b -> instant a < instant b.
Proof.
  intros a b Ra Rb E. unfold instant. apply Z.mul_lt_mono_pos_r; [lia|]. unfold day_number.
  pose proof (month_bounds a Ra) as Ba. pose proof (month_bounds b Rb) as Bb.
  pose proof (real_date_month _ Ra) as Ma. pose proof (real_date_month _ Rb) as Mb.
  destruct E as [E|[Ey E]].
  - pose proof (year_mono (Z.to_nat (d_year b - d_year a - 1)) (d_year a)) as Y.
    replace (d_year a + 1 + Z.of_nat (Z.to_nat (d_year b - d_year a - 1))) with (d_year b) in Y by lia.
    rewrite year_step in Y. lia.
  - rewrite Ey in *. destruct E as [E|[Em Ed]]; [|rewrite Em in *; lia].
    apply real_date_iff in Ra; [|exact Ma]. rewrite Ey in Ra.
    pose proof (month_mono (d_year b) (d_month a) (d_month b) (d_day a)). apply real_date_iff in Rb; [|exact Mb]. lia.
Qed.

Lemma date_trichotomy : forall a b, earlier a b \/ a = b \/ earlier b a.
Proof.
  intros [y m d] [y' m' d']. unfold earlier. cbn.
  destruct (Z.lt_trichotomy y y') as [?|[<-|?]]; [lia| |lia].
  destruct (Z.lt_trichotomy m m') as [?|[<-|?]]; [lia| |lia].
  destruct (Z.lt_trichotomy d d') as [?|[<-|?]]; [lia| |lia]. auto.
Qed.

(** Instants of real dates are ordered as the dates are. *)
Lemma instant_order : forall a b, real_date a -> real_date b -> (instant a < instant b <-> earlier a b).
Proof.
  intros a b Ra Rb. split; [|now apply earlier_instant]. intro H.
  destruct (date_trichotomy a b) as [E|[->|E]]; [exact E|lia|]. apply earlier_instant in E; auto. lia.
Qed.

Lemma instant_inj : forall a b, real_date a -> real_date b -> instant a = instant b -> a = b.
Proof.
  intros a b Ra Rb H. destruct (date_trichotomy a b) as [E|[E|E]]; auto; apply earlier_instant in E; auto; lia.
Qed.
