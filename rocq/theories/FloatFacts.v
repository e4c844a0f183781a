(** * Rounding errors of float64 operations in general *)
From Coq Require Import SpecFloat.
From Verif Require Import Base BaseFacts TextSpec Display DisplayFacts GoTime Strconv Journal AmountFacts LargeFacts Lexer Parser Account Reporting Budget Cmd DayFacts.

Opaque Z.pow.

(** Values as integers, in units of 2^-1100. *)
Definition fx (m e : Z) : Z := m * 2 ^ (e + 1100).

Lemma round_aux_gen : forall s m e l num den D, loc_ok m l num den -> 53 <= D -> 2 ^ (D - 1) <= m < 2 ^ D -> -1074 <= e -> D + e - 53 <= 960 ->
  exists N e', binary_round_aux prec emax s m e l = S754_finite s N e' /\ 2 ^ 52 <= Zpos N < 2 ^ 53 /\ D + e - 53 <= e' <= D + e - 52 /\
    2 * Z.abs (Zpos N * 2 ^ (e' - e) * den - num) <= 2 ^ (D - 53) * den.
Proof.
  intros s m e l num den D L D53 B E E2. unfold binary_round_aux.
  assert (P53 : 2 ^ 53 = 2 * 2 ^ 52) by reflexivity. assert (P52 : 0 < 2 ^ 52) by reflexivity.
  assert (DG : Zdigits2 m = D) by (apply Zdigits_unique; [lia|exact B]).
  assert (exists r, shr_fexp prec emax m e l = (r, e + (D - 53)) /\ 2 ^ 52 <= shr_m r < 2 ^ 53 /\
    loc_ok (shr_m r) (loc_of_shr_record r) num (2 ^ (D - 53) * den)) as (r & -> & BM & LR).
  { unfold shr_fexp. rewrite DG, fexp_normal by lia. replace (D + e - 53 - e) with (D - 53) by lia.
    destruct (D - 53) as [|n|n] eqn:Q; try lia.
    - exists (shr_record_of_loc m l). cbn [shr]. split; [f_equal; lia|]. destruct (loc_record m l) as [-> ->].
      replace D with 53 in B by lia. change (53 - 1) with 52 in B. split; [exact B|]. change (2 ^ 0) with 1. now rewrite Z.mul_1_l.
    - exists (SpecFloat.iter_pos shr_1 n (shr_record_of_loc m l)). split; [reflexivity|].
      assert (Pn : 0 < 2 ^ Zpos n) by (apply Z.pow_pos_nonneg; lia).
      assert (Ed : 2 ^ D = 2 ^ 53 * 2 ^ Zpos n) by (rewrite <- Z.pow_add_r by lia; f_equal; lia).
      assert (Ed1 : 2 ^ (D - 1) = 2 ^ 52 * 2 ^ Zpos n) by (rewrite <- Z.pow_add_r by lia; f_equal; lia).
      destruct (loc_record m l) as [LE ME].
      destruct (shr_iter n (shr_record_of_loc m l) num den) as [M LN]; rewrite ?LE, ?ME; [nia|exact L|].
      cbv zeta in M, LN. rewrite ME in M. split; [|exact LN].
      rewrite M. split; [apply Z.div_le_lower_bound; lia|apply Z.div_lt_upper_bound; lia]. }
  destruct (round_error _ _ _ _ LR) as [ER RV].
  destruct (finish_round53 s (round_nearest_even (shr_m r) (loc_of_shr_record r)) (e + (D - 53))) as (K & e' & EQ & RE & VN & BK); [lia|lia|].
  rewrite EQ. exists K, e'. split; [reflexivity|]. split; [exact BK|]. split; [lia|].
  replace (e' - e) with ((e' - (e + (D - 53))) + (D - 53)) by lia. rewrite Z.pow_add_r, Z.mul_assoc, VN by lia.
  rewrite <- Z.mul_assoc. exact ER.
Qed.

Lemma round_gen : forall s p e D, Zpos (digits2_pos p) = D -> -1074 <= e -> -1074 <= D + e - 53 <= 960 ->
  exists N e', binary_round prec emax s p e = S754_finite s N e' /\ 2 ^ 52 <= Zpos N < 2 ^ 53 /\ D + e - 53 <= e' <= D + e - 52 /\
    2 ^ 53 * Z.abs (fx (Zpos N) e' - fx (Zpos p) e) <= fx (Zpos p) e.
Proof.
  intros s p e D DG E E2. destruct (digits_bounds p) as [LO HI]. rewrite DG in LO, HI.
  assert (P52 : 0 < 2 ^ 52) by reflexivity. assert (Pe : 0 < 2 ^ (e + 1100)) by (apply Z.pow_pos_nonneg; lia).
  unfold binary_round. rewrite DG, fexp_normal by lia. unfold shl_align.
  destruct (Z.leb_spec 53 D) as [L|L].
  - assert (SA : (match D + e - 53 - e with Zneg d => (shift_pos d p, D + e - 53) | _ => (p, e) end) = (p, e)).
    { destruct (D + e - 53 - e) eqn:X; try reflexivity; lia. }
    rewrite SA. destruct (round_aux_gen s (Zpos p) e loc_Exact (Zpos p) 1 D) as (N & e' & -> & BN & RE & ER); try lia.
    { split; [lia|]. exists 0. split; [lia|]. split; [lia|reflexivity]. }
    exists N, e'. split; [reflexivity|]. split; [exact BN|]. split; [exact RE|].
    rewrite !Z.mul_1_r in ER. unfold fx. replace (e' + 1100) with ((e' - e) + (e + 1100)) by lia. rewrite Z.pow_add_r by lia.
    rewrite Z.mul_assoc, <- Z.mul_sub_distr_r, Z.abs_mul, (Z.abs_eq (2 ^ (e + 1100))) by lia. rewrite Z.mul_assoc.
    apply Z.mul_le_mono_nonneg_r; [lia|].
    assert (2 ^ (D - 1) = 2 ^ 52 * 2 ^ (D - 53)) by (rewrite <- Z.pow_add_r by lia; f_equal; lia).
    assert (2 ^ 53 = 2 * 2 ^ 52) by reflexivity. nia.
  - assert (exists m, (match D + e - 53 - e with Zneg d => (shift_pos d p, D + e - 53) | _ => (p, e) end) = (m, D + e - 53) /\ Zpos m = Zpos p * 2 ^ (53 - D)) as (m & -> & VM).
    { destruct (D + e - 53 - e) as [|q|q] eqn:X; try lia. exists (shift_pos q p). split; [reflexivity|]. rewrite shift_pos_value. f_equal. f_equal. lia. }
    assert (BM : 2 ^ 52 <= Zpos m < 2 ^ 53).
    { rewrite VM. replace (2 ^ 52) with (2 ^ (D - 1) * 2 ^ (53 - D)) by (rewrite <- Z.pow_add_r by lia; f_equal; lia).
      replace (2 ^ 53) with (2 ^ D * 2 ^ (53 - D)) by (rewrite <- Z.pow_add_r by lia; f_equal; lia).
      assert (0 < 2 ^ (53 - D)) by (apply Z.pow_pos_nonneg; lia).
      split; [apply Z.mul_le_mono_nonneg_r; lia|apply Z.mul_lt_mono_pos_r; lia]. }
    destruct (round_aux_gen s (Zpos m) (D + e - 53) loc_Exact (Zpos m) 1 53) as (N & e' & -> & BN & RE & ER); try lia.
    { split; [lia|]. exists 0. split; [lia|]. split; [lia|reflexivity]. }
    exists N, e'. split; [reflexivity|]. split; [exact BN|]. split; [lia|].
    assert (Q : Zpos N * 2 ^ (e' - (D + e - 53)) = Zpos m) by (change (2 ^ (53 - 53)) with 1 in ER; lia).
    assert (fx (Zpos N) e' = fx (Zpos p) e) as ->.
    { unfold fx. replace (e' + 1100) with ((e' - (D + e - 53)) + (D + e - 53 + 1100)) by lia. rewrite Z.pow_add_r by lia.
      rewrite Z.mul_assoc, Q, VM, <- Z.mul_assoc, <- Z.pow_add_r by lia. do 2 f_equal. lia. }
    rewrite Z.sub_diag. change (Z.abs 0) with 0. rewrite Z.mul_0_r. unfold fx. apply Z.mul_nonneg_nonneg; lia.
Qed.

(** A number of 53 bits, of moderate size. *)
Definition norm (m : positive) (e : Z) : Prop := 2 ^ 52 <= Zpos m < 2 ^ 53 /\ -500 <= e <= 400.

Lemma location_ok : forall q r num den, 0 < den -> num = den * q + r -> 0 <= r < den -> loc_ok q (new_location den r) num den.
Proof.
  intros q r num den P E R. split; [exact P|]. exists r. split; [lia|]. split; [exact R|].
  unfold new_location, new_location_even, new_location_odd, Zeq_bool. destruct (Z.even den) eqn:EV.
  - destruct (Z.eqb_spec r 0) as [->|N]; [reflexivity|]. destruct (Z.compare_spec r 0); [lia|reflexivity|reflexivity].
  - assert (OD : exists j, den = 2 * j + 1).
    { apply Z.odd_spec. rewrite <- Z.negb_even, EV. reflexivity. }
    destruct OD as [j OD]. destruct (Z.eqb_spec r 0) as [->|N]; [reflexivity|].
    destruct (Z.compare_spec r 0); [lia|lia|]. f_equal.
    destruct (Z.compare_spec (2 * r + 1) den); symmetry.
    + apply Z.compare_lt_iff. lia.
    + apply Z.compare_lt_iff. lia.
    + apply Z.compare_gt_iff. lia.
Qed.

Lemma div_gen : forall s1 m1 e1 s2 m2 e2, norm m1 e1 -> norm m2 e2 ->
  exists N e', float_div (S754_finite s1 m1 e1) (S754_finite s2 m2 e2) = S754_finite (xorb s1 s2) N e' /\
    2 ^ 52 <= Zpos N < 2 ^ 53 /\ e1 - e2 - 53 <= e' <= e1 - e2 - 51 /\
    2 ^ 53 * Z.abs (fx (Zpos N) e' * fx (Zpos m2) e2 - fx (Zpos m1) e1 * 2 ^ 1100) <= fx (Zpos m1) e1 * 2 ^ 1100.
Proof.
  intros s1 m1 e1 s2 m2 e2 [B1 E1] [B2 E2]. unfold float_div, SFdiv, SFdiv_core_binary.
  assert (P53 : 2 ^ 53 = 2 * 2 ^ 52) by reflexivity. assert (P52 : 0 < 2 ^ 52) by reflexivity. assert (P54 : 2 ^ 54 = 4 * 2 ^ 52) by reflexivity.
  rewrite (Zdigits_unique (Zpos m1) 53), (Zdigits_unique (Zpos m2) 53) by (change (53 - 1) with 52; lia).
  replace (53 + e1 - (53 + e2)) with (e1 + - e2) by lia. rewrite fexp_normal by lia.
  replace (Z.min (e1 + - e2 - 53) (e1 - e2)) with (e1 - e2 - 53) by lia. replace (e1 - e2 - (e1 - e2 - 53)) with 53 by lia.
  rewrite Z.shiftl_mul_pow2 by lia.
  pose proof (Z_div_mod (Zpos m1 * 2 ^ 53) (Zpos m2) ltac:(reflexivity)) as DM.
  destruct (Z.div_eucl (Zpos m1 * 2 ^ 53) (Zpos m2)) as [Q r]. destruct DM as [E R].
  assert (BQ : 2 ^ 52 <= Q < 2 ^ 54).
  { split.
    - destruct (Z.leb_spec (2 ^ 52) Q); [assumption|exfalso].
      assert (Zpos m2 * Q <= Zpos m2 * (2 ^ 52 - 1)) by (apply Z.mul_le_mono_nonneg_l; lia).
      assert (2 ^ 52 * 2 ^ 53 <= Zpos m1 * 2 ^ 53) by (apply Z.mul_le_mono_nonneg_r; lia). nia.
    - destruct (Z.ltb_spec Q (2 ^ 54)); [assumption|exfalso].
      assert (Zpos m2 * 2 ^ 54 <= Zpos m2 * Q) by (apply Z.mul_le_mono_nonneg_l; lia). nia. }
  assert (LO : loc_ok Q (new_location (Zpos m2) r) (Zpos m1 * 2 ^ 53) (Zpos m2)) by (apply location_ok; lia).
  assert (exists D, (D = 53 \/ D = 54) /\ 2 ^ (D - 1) <= Q < 2 ^ D) as (D & HD & BD).
  { destruct (Z.ltb_spec Q (2 ^ 53)).
    - exists 53. split; [auto|]. change (53 - 1) with 52. lia.
    - exists 54. split; [auto|]. change (54 - 1) with 53. lia. }
  destruct (round_aux_gen (xorb s1 s2) Q (e1 - e2 - 53) _ _ _ D LO ltac:(lia) BD ltac:(lia) ltac:(lia)) as (N & e' & -> & BN & RE & ER).
  exists N, e'. split; [reflexivity|]. split; [exact BN|]. split; [lia|].
  set (T := 2 ^ (e1 - 53 + 2200)). assert (0 < T) as PT by (apply Z.pow_pos_nonneg; lia).
  assert (X1 : fx (Zpos N) e' * fx (Zpos m2) e2 = Zpos N * 2 ^ (e' - (e1 - e2 - 53)) * Zpos m2 * T).
  { unfold fx, T. replace (Zpos N * 2 ^ (e' + 1100) * (Zpos m2 * 2 ^ (e2 + 1100))) with (Zpos N * Zpos m2 * (2 ^ (e' + 1100) * 2 ^ (e2 + 1100))) by ring.
    replace (Zpos N * 2 ^ (e' - (e1 - e2 - 53)) * Zpos m2 * 2 ^ (e1 - 53 + 2200)) with (Zpos N * Zpos m2 * (2 ^ (e' - (e1 - e2 - 53)) * 2 ^ (e1 - 53 + 2200))) by ring.
    rewrite <- !Z.pow_add_r by lia. do 2 f_equal. lia. }
  assert (X2 : fx (Zpos m1) e1 * 2 ^ 1100 = Zpos m1 * 2 ^ 53 * T).
  { unfold fx, T. rewrite <- !Z.mul_assoc, <- !Z.pow_add_r by lia. do 2 f_equal. lia. }
  rewrite X1, X2, <- Z.mul_sub_distr_r, Z.abs_mul, (Z.abs_eq T) by lia. rewrite Z.mul_assoc. apply Z.mul_le_mono_nonneg_r; [lia|].
  set (A := Z.abs (Zpos N * 2 ^ (e' - (e1 - e2 - 53)) * Zpos m2 - Zpos m1 * 2 ^ 53)) in *.
  assert (DD : 2 ^ (D - 1) = 2 ^ 52 * 2 ^ (D - 53)) by (rewrite <- Z.pow_add_r by lia; f_equal; lia).
  assert (2 ^ (D - 1) * Zpos m2 <= Q * Zpos m2) by (apply Z.mul_le_mono_nonneg_r; lia). 
  rewrite DD in *. set (W := 2 ^ (D - 53)) in *. clearbody A W. nia.
Qed.

Lemma align_value : forall m e ez, ez <= e -> Zpos (fst (shl_align m e ez)) = Zpos m * 2 ^ (e - ez).
Proof.
  intros m e ez L. unfold shl_align. destruct (ez - e) as [|q|q] eqn:Q; try lia.
  - cbn [fst]. replace (e - ez) with 0 by lia. change (2 ^ 0) with 1. lia.
  - cbn [fst]. rewrite shift_pos_value. do 2 f_equal. lia.
Qed.

Lemma add_gen : forall s m1 e1 m2 e2, norm m1 e1 -> norm m2 e2 ->
  exists N e', float_add (S754_finite s m1 e1) (S754_finite s m2 e2) = S754_finite s N e' /\
    2 ^ 52 <= Zpos N < 2 ^ 53 /\ Z.min e1 e2 <= e' <= Z.max e1 e2 + 2 /\
    2 ^ 53 * Z.abs (fx (Zpos N) e' - (fx (Zpos m1) e1 + fx (Zpos m2) e2)) <= fx (Zpos m1) e1 + fx (Zpos m2) e2.
Proof.
  intros s m1 e1 m2 e2 [B1 E1] [B2 E2]. unfold float_add, SFadd. set (ez := Z.min e1 e2).
  assert (P53 : 2 ^ 53 = 2 * 2 ^ 52) by reflexivity. assert (P52 : 0 < 2 ^ 52) by reflexivity.
  pose proof (align_value m1 e1 ez ltac:(lia)) as V1. pose proof (align_value m2 e2 ez ltac:(lia)) as V2.
  set (a := fst (shl_align m1 e1 ez)) in *. set (b := fst (shl_align m2 e2 ez)) in *.
  assert (Q : binary_normalize prec emax (cond_Zopp s (Zpos a) + cond_Zopp s (Zpos b)) ez false = binary_round prec emax s (a + b) ez) by (destruct s; reflexivity).
  rewrite Q. destruct (digits_bounds (a + b)) as [LO HI]. set (D := Zpos (digits2_pos (a + b))) in *.
  assert (Zpos (a + b) = Zpos a + Zpos b) as SUM by lia.
  assert (M1 : 1 <= 2 ^ (e1 - ez)) by (assert (0 < 2 ^ (e1 - ez)) by (apply Z.pow_pos_nonneg; lia); lia).
  assert (M2 : 1 <= 2 ^ (e2 - ez)) by (assert (0 < 2 ^ (e2 - ez)) by (apply Z.pow_pos_nonneg; lia); lia).
  assert (DL : 53 <= D).
  { assert (52 < D); [|lia]. apply (Z.pow_lt_mono_r_iff 2); [lia|lia|]. eapply Z.le_lt_trans; [|exact HI]. rewrite SUM, V1. nia. }
  assert (DH : D - 1 < 54 + (Z.max e1 e2 - ez)).
  { apply (Z.pow_lt_mono_r_iff 2); [lia|lia|]. eapply Z.le_lt_trans; [exact LO|]. rewrite SUM, V1, V2.
    assert (2 ^ (e1 - ez) <= 2 ^ (Z.max e1 e2 - ez)) by (apply Z.pow_le_mono_r; lia).
    assert (2 ^ (e2 - ez) <= 2 ^ (Z.max e1 e2 - ez)) by (apply Z.pow_le_mono_r; lia).
    rewrite Z.pow_add_r by lia. change (2 ^ 54) with (2 * 2 ^ 53). set (W := 2 ^ (Z.max e1 e2 - ez)) in *. nia. }
  destruct (round_gen s (a + b) ez D eq_refl ltac:(lia) ltac:(lia)) as (N & e' & -> & BN & RE & ER).
  exists N, e'. split; [reflexivity|]. split; [exact BN|]. split; [lia|].
  assert (F : fx (Zpos (a + b)) ez = fx (Zpos m1) e1 + fx (Zpos m2) e2).
  { unfold fx. rewrite SUM, V1, V2, Z.mul_add_distr_r, <- !Z.mul_assoc, <- !Z.pow_add_r by lia. replace (e1 - ez + (ez + 1100)) with (e1 + 1100) by lia. replace (e2 - ez + (ez + 1100)) with (e2 + 1100) by lia. reflexivity. }
  rewrite F in ER. exact ER.
Qed.

(** float64 of an integer that fits. *)
Lemma int_norm : forall s p, Zpos p < 2 ^ 53 ->
  exists m e, binary_round prec emax s p 0 = S754_finite s m e /\ norm m e /\ -53 <= e <= 0 /\ fx (Zpos m) e = Zpos p * 2 ^ 1100.
Proof.
  intros s p B. destruct (float_of_int_small s p B) as (m & EM & VM & BM & D). exists m, (Zpos (digits2_pos p) - 53).
  split; [exact EM|]. split; [split; [exact BM|lia]|]. split; [lia|]. unfold fx. rewrite VM, <- Z.mul_assoc, <- Z.pow_add_r by lia. do 2 f_equal. lia.
Qed.

(** What "%.nf" shows. *)
Lemma fixed_error : forall n N e k, -1100 <= e -> k = (if 0 <=? e then Zpos N * 2 ^ e * 10 ^ Z.of_nat n else round_half_even (Zpos N * 10 ^ Z.of_nat n) (2 ^ (- e))) ->
  2 * Z.abs (k * 2 ^ 1100 - fx (Zpos N) e * 10 ^ Z.of_nat n) <= 2 ^ 1100.
Proof.
  intros n N e k E ->. set (T := 10 ^ Z.of_nat n). unfold fx. destruct (Z.leb_spec 0 e).
  - rewrite Z.pow_add_r by lia. replace (Zpos N * 2 ^ e * T * 2 ^ 1100 - Zpos N * (2 ^ e * 2 ^ 1100) * T) with 0 by ring.
    assert (0 < 2 ^ 1100) by (apply Z.pow_pos_nonneg; lia). lia.
  - assert (Pe : 0 < 2 ^ (- e)) by (apply Z.pow_pos_nonneg; lia).
    pose proof (round_half_even_error (Zpos N * T) (2 ^ (- e)) Pe) as R.
    assert (E11 : 2 ^ 1100 = 2 ^ (- e) * 2 ^ (e + 1100)) by (rewrite <- Z.pow_add_r by lia; f_equal; lia).
    set (k := round_half_even (Zpos N * T) (2 ^ (- e))) in *. set (Y := 2 ^ (e + 1100)) in *.
    assert (PY : 0 < Y) by (apply Z.pow_pos_nonneg; lia). rewrite E11.
    replace (k * (2 ^ (- e) * Y) - Zpos N * Y * T) with ((k * 2 ^ (- e) - Zpos N * T) * Y) by ring.
    rewrite Z.abs_mul, (Z.abs_eq Y) by lia. rewrite Z.mul_assoc. apply Z.mul_le_mono_nonneg_r; [lia|exact R].
Qed.

Lemma S_pos : 0 < 2 ^ 1100.
Proof. apply Z.pow_pos_nonneg; lia. Qed.

(** The quotient of two whole numbers, to one decimal. *)
Lemma rate_text : forall a b, 0 < a -> 20 * a < 2 ^ 53 -> 0 < b < 2 ^ 53 ->
  exists k, fmt_fixed 1 (float_div (float_of_int a) (float_of_int b)) = decimal false 1 k /\ 0 <= k /\ 2 * Z.abs (k * b - 10 * a) <= b.
Proof.
  intros a b A1 A2 B. destruct a as [|a|a]; try lia. destruct b as [|b|b]; try lia.
  destruct (int_norm false a ltac:(lia)) as (m1 & e1 & Q1 & N1 & R1 & V1).
  destruct (int_norm false b ltac:(lia)) as (m2 & e2 & Q2 & N2 & R2 & V2).
  unfold float_of_int. cbn [binary_normalize]. rewrite Q1, Q2.
  destruct (div_gen false m1 e1 false m2 e2 N1 N2) as (N & e & -> & BN & RE & ER). cbn [xorb fmt_fixed].
  eexists. split; [reflexivity|].
  match goal with |- 0 <= ?k /\ _ => set (k0 := k) end. pose proof (fixed_error 1 N e k0 ltac:(lia) eq_refl) as F. clearbody k0.
  change (10 ^ Z.of_nat 1) with 10 in F. pose proof S_pos as PS. set (S := 2 ^ 1100) in *. rewrite V1, V2 in ER.
  set (x := fx (Zpos N) e) in *. assert (X0 : 0 <= x) by (unfold x, fx; apply Z.mul_nonneg_nonneg; [lia|apply Z.pow_nonneg; lia]). clearbody S x.
  replace (x * (Zpos b * S) - Zpos a * S * S) with ((x * Zpos b - Zpos a * S) * S) in ER by ring. rewrite Z.abs_mul, (Z.abs_eq S) in ER by lia.
  assert (ER' : 2 ^ 53 * Z.abs (x * Zpos b - Zpos a * S) <= Zpos a * S) by (apply (Z.mul_le_mono_pos_r _ _ S PS); lia). clear ER.
  split.
  - destruct (Z.leb_spec 0 k0) as [|L]; [assumption|exfalso]. assert (k0 * S <= -1 * S) by (apply Z.mul_le_mono_nonneg_r; lia). lia.
  - assert (F' : 2 * Z.abs (k0 * Zpos b * S - 10 * (x * Zpos b)) <= Zpos b * S).
    { replace (k0 * Zpos b * S - 10 * (x * Zpos b)) with ((k0 * S - x * 10) * Zpos b) by ring. rewrite Z.abs_mul. rewrite (Z.abs_eq (Zpos b)) by lia.
      rewrite Z.mul_assoc, (Z.mul_comm (Zpos b) S). apply Z.mul_le_mono_nonneg_r; lia. }
    assert (G : 2 * Z.abs (k0 * Zpos b - 10 * Zpos a) * S < (Zpos b + 1) * S).
    { replace (2 * Z.abs (k0 * Zpos b - 10 * Zpos a) * S) with (2 * Z.abs (k0 * Zpos b * S - 10 * (Zpos a * S))).
      - assert (20 * (Zpos a * S) < 2 ^ 53 * S) by (rewrite Z.mul_assoc; apply Z.mul_lt_mono_pos_r; lia).
        set (aS := Zpos a * S) in *. set (xb := x * Zpos b) in *. set (kbS := k0 * Zpos b * S) in *.
        rewrite Z.mul_add_distr_r. set (bS := Zpos b * S) in *. clearbody aS xb kbS bS. change (2 ^ 53) with 9007199254740992 in *. lia.
      - replace (k0 * Zpos b * S - 10 * (Zpos a * S)) with ((k0 * Zpos b - 10 * Zpos a) * S) by ring. rewrite Z.abs_mul, (Z.abs_eq S) by lia. ring. }
    apply Z.mul_lt_mono_pos_r in G; lia.
Qed.

Definition signed (s : bool) (d : Z) : Z := if s then - d else d.

Lemma float_signed : forall s p, float_of_int (signed s (Zpos p)) = binary_round prec emax s p 0.
Proof. intros [] p; reflexivity. Qed.

Lemma hour_norm : exists m e, (forall n : Z, n = hour_ns -> float_of_int n = S754_finite false m e) /\ norm m e /\ -53 <= e <= 0 /\ fx (Zpos m) e = hour_ns * 2 ^ 1100.
Proof.
  assert (exists p, hour_ns = Zpos p /\ Zpos p < 2 ^ 53) as (p & -> & B) by (eexists; split; [reflexivity|reflexivity]).
  destruct (int_norm false p B) as (m & e & Q & N & R & V). exists m, e. split; [|auto]. intros n ->. exact Q.
Qed.
Lemma n24_norm : exists m e, float_of_int 24 = S754_finite false m e /\ norm m e /\ -53 <= e <= 0 /\ fx (Zpos m) e = 24 * 2 ^ 1100.
Proof. destruct (int_norm false 24 ltac:(reflexivity)) as (m & e & Q & N & R & V). exists m, e. auto. Qed.

Lemma hours_error : forall s d, 0 < d < 2 ^ 63 ->
  exists M e, hours (signed s d) = S754_finite s M e /\ norm M e /\ -106 <= e <= 2 /\
    2 ^ 53 * Z.abs (fx (Zpos M) e * hour_ns - d * 2 ^ 1100) <= 3 * (d * 2 ^ 1100).
Proof.
  intros s d B. unfold hours. destruct hour_norm as (mh & eh & QH & NH & RH & VH). rewrite (QH hour_ns eq_refl). clear QH.
  assert (PH : 0 < hour_ns) by reflexivity. assert (LH : hour_ns < 2 ^ 53) by reflexivity. assert (GH : 2 ^ 41 < hour_ns) by reflexivity.
  assert (QS : Z.quot (signed s d) hour_ns = signed s (Z.quot d hour_ns)) by (destruct s; cbn [signed]; [apply Z.quot_opp_l; lia|reflexivity]).
  assert (RS : Z.rem (signed s d) hour_ns = signed s (Z.rem d hour_ns)) by (destruct s; cbn [signed]; [apply Z.rem_opp_l; lia|reflexivity]).
  rewrite QS, RS. pose proof (Z.quot_rem' d hour_ns) as E. pose proof (Z.rem_bound_pos d hour_ns ltac:(lia) PH) as BR.
  pose proof (Z.quot_pos d hour_ns ltac:(lia) PH) as BQ.
  set (h := Z.quot d hour_ns) in *. set (r := Z.rem d hour_ns) in *. clearbody h r. clear QS RS.
  assert (LQ : h < 2 ^ 53).
  { destruct (Z.ltb_spec h (2 ^ 53)) as [|X]; [assumption|exfalso]. assert (2 ^ 41 * 2 ^ 53 <= hour_ns * h) by (apply Z.mul_le_mono_nonneg; lia).
    assert (2 ^ 63 < 2 ^ 41 * 2 ^ 53) by reflexivity. lia. }
  pose proof S_pos as PS.
  assert (FR : r = 0 \/ exists f ef, float_div (float_of_int (signed s r)) (S754_finite false mh eh) = S754_finite s f ef /\ norm f ef /\ -106 <= ef <= 0 /\
    2 ^ 53 * Z.abs (fx (Zpos f) ef * hour_ns - r * 2 ^ 1100) <= r * 2 ^ 1100).
  { destruct r as [|r|r]; [left; reflexivity|right|lia]. rewrite float_signed. destruct (int_norm s r ltac:(lia)) as (mr & er & -> & NR & RR & VR).
    assert (er <= eh).
    { destruct NR as [NR1 _], NH as [NH1 _]. unfold fx in *. destruct (Z.leb_spec er eh) as [|X]; [assumption|exfalso].
      assert (E1 : 2 ^ (er + 1100) = 2 ^ (er - eh) * 2 ^ (eh + 1100)) by (rewrite <- Z.pow_add_r by lia; f_equal; lia).
      assert (2 <= 2 ^ (er - eh)) by (apply (Z.pow_le_mono_r 2 1 (er - eh)); lia).
      assert (Zpos r * 2 ^ 1100 < hour_ns * 2 ^ 1100) by (apply Z.mul_lt_mono_pos_r; lia). rewrite <- VR, <- VH, E1 in H0.
      assert (0 < 2 ^ (eh + 1100)) by (apply Z.pow_pos_nonneg; lia). rewrite Z.mul_assoc in H0. apply Z.mul_lt_mono_pos_r in H0; [|assumption].
      assert (2 ^ 53 = 2 * 2 ^ 52) by reflexivity. nia. }
    destruct (div_gen s mr er false mh eh NR NH) as (f & ef & -> & BF & RF & EF). rewrite xorb_false_r.
    exists f, ef. split; [reflexivity|]. split; [split; [exact BF|lia]|]. split; [lia|]. rewrite VR, VH in EF. set (S := 2 ^ 1100) in *. clearbody S.
    replace (fx (Zpos f) ef * (hour_ns * S) - Zpos r * S * S) with ((fx (Zpos f) ef * hour_ns - Zpos r * S) * S) in EF by ring.
    rewrite Z.abs_mul, (Z.abs_eq S) in EF by lia. apply (Z.mul_le_mono_pos_r _ _ S PS). lia. }
  destruct FR as [->|(f & ef & -> & NF & RF & EF)].
  - replace (float_div (float_of_int (signed s 0)) (S754_finite false mh eh)) with (S754_zero false) by (destruct s; reflexivity).
    destruct h as [|h|h]; [exfalso; lia| |exfalso; lia].
    rewrite float_signed. destruct (int_norm s h LQ) as (m & e & -> & N & R & V). exists m, e. split; [reflexivity|]. split; [exact N|]. split; [lia|].
    rewrite V, E. replace (Zpos h * 2 ^ 1100 * hour_ns - (hour_ns * Zpos h + 0) * 2 ^ 1100) with 0 by ring. change (Z.abs 0) with 0. rewrite Z.mul_0_r.
    apply Z.mul_nonneg_nonneg; [lia|]. apply Z.mul_nonneg_nonneg; lia.
  - destruct h as [|h|h]; [| |exfalso; lia].
    + replace (float_of_int (signed s 0)) with (S754_zero false) by (destruct s; reflexivity). exists f, ef. split; [reflexivity|]. split; [exact NF|]. split; [lia|].
      replace d with r by lia. assert (0 <= r * 2 ^ 1100) by (apply Z.mul_nonneg_nonneg; lia). lia.
    + rewrite float_signed. destruct (int_norm s h LQ) as (m & e & -> & N & R & V).
      destruct (add_gen s m e f ef N NF) as (M & e' & -> & BM & RM & EM). exists M, e'. split; [reflexivity|]. split; [split; [exact BM|lia]|]. split; [lia|].
      rewrite V in EM. set (S := 2 ^ 1100) in *. set (X := fx (Zpos M) e') in *. set (F := fx (Zpos f) ef) in *.
      assert (EM' : 2 ^ 53 * Z.abs (X * hour_ns - (Zpos h * hour_ns * S + F * hour_ns)) <= Zpos h * hour_ns * S + F * hour_ns).
      { replace (X * hour_ns - (Zpos h * hour_ns * S + F * hour_ns)) with ((X - (Zpos h * S + F)) * hour_ns) by ring.
        replace (Zpos h * hour_ns * S + F * hour_ns) with ((Zpos h * S + F) * hour_ns) by ring.
        rewrite Z.abs_mul, (Z.abs_eq hour_ns) by lia. rewrite Z.mul_assoc. apply Z.mul_le_mono_nonneg_r; lia. }
      replace (d * S) with (Zpos h * hour_ns * S + r * S) by (rewrite E; ring).
      assert (0 <= Zpos h * hour_ns * S) by (apply Z.mul_nonneg_nonneg; [apply Z.mul_nonneg_nonneg|]; lia).
      set (XH := X * hour_ns) in *. set (FH := F * hour_ns) in *. set (hS := Zpos h * hour_ns * S) in *. set (rS := r * S) in *.
      clearbody XH FH hS rS. clear - EM' EF H. change (2 ^ 53) with 9007199254740992 in *. lia.
Qed.

Lemma days_error : forall s d, 0 < d < 2 ^ 63 ->
  exists M e, days_of (signed s d) = S754_finite s M e /\ -200 <= e <= 100 /\
    2 ^ 53 * Z.abs (fx (Zpos M) e * day_ns - d * 2 ^ 1100) <= 5 * (d * 2 ^ 1100).
Proof.
  intros s d B. unfold days_of. destruct (hours_error s d B) as (X & e & -> & N & R & ER). destruct n24_norm as (m & em & -> & N2 & R2 & V2).
  destruct (div_gen s X e false m em N N2) as (M & e' & -> & BM & RM & EM). rewrite xorb_false_r. exists M, e'. split; [reflexivity|]. split; [lia|].
  rewrite V2 in EM. pose proof S_pos as PS. set (S := 2 ^ 1100) in *. set (x := fx (Zpos X) e) in *. set (y := fx (Zpos M) e') in *. clearbody S x y.
  replace (y * (24 * S) - x * S) with ((24 * y - x) * S) in EM by ring. rewrite Z.abs_mul, (Z.abs_eq S) in EM by lia.
  assert (EM' : 2 ^ 53 * Z.abs (24 * y - x) <= x) by (apply (Z.mul_le_mono_pos_r _ _ S PS); lia). clear EM.
  assert (PH : 0 < hour_ns) by reflexivity. replace day_ns with (24 * hour_ns) by reflexivity.
  assert (EH : 2 ^ 53 * Z.abs (y * (24 * hour_ns) - x * hour_ns) <= x * hour_ns).
  { replace (y * (24 * hour_ns) - x * hour_ns) with ((24 * y - x) * hour_ns) by ring. rewrite Z.abs_mul, (Z.abs_eq hour_ns) by lia. rewrite Z.mul_assoc. apply Z.mul_le_mono_nonneg_r; lia. }
  assert (0 < d * S) by (apply Z.mul_pos_pos; lia).
  set (yh := y * (24 * hour_ns)) in *. set (xh := x * hour_ns) in *. set (dS := d * S) in *. clearbody yh xh dS. clear - EH ER H. change (2 ^ 53) with 9007199254740992 in *. lia.
Qed.

(** The age of money for a mean of [d] nanoseconds. *)
Lemma days_shown : forall d, 0 < d < 2 ^ 63 ->
  exists k, fmt_fixed 0 (max0 (days_of d)) = itoa k /\ 0 <= k /\ 2 * Z.abs (k * day_ns - d) <= day_ns + 10240.
Proof.
  intros d B. destruct (days_error false d B) as (M & e & Q & R & ER). cbn [signed] in Q. rewrite Q. cbn [max0 fmt_fixed].
  match goal with |- exists k, decimal false 0 ?x = _ /\ _ => set (k0 := x) end.
  pose proof (fixed_error 0 M e k0 ltac:(lia) eq_refl) as F. clearbody k0. change (10 ^ Z.of_nat 0) with 1 in F. rewrite Z.mul_1_r in F.
  pose proof S_pos as PS. set (S := 2 ^ 1100) in *. set (x := fx (Zpos M) e) in *.
  assert (X0 : 0 <= x) by (unfold x, fx; apply Z.mul_nonneg_nonneg; [lia|apply Z.pow_nonneg; lia]). clearbody S x.
  assert (K0 : 0 <= k0).
  { destruct (Z.leb_spec 0 k0) as [|L]; [assumption|exfalso]. assert (k0 * S <= -1 * S) by (apply Z.mul_le_mono_nonneg_r; lia). lia. }
  exists k0. split; [now apply decimal_0|]. split; [exact K0|].
  assert (PD : 0 < day_ns) by reflexivity.
  assert (F' : 2 * Z.abs (k0 * day_ns * S - x * day_ns) <= day_ns * S).
  { replace (k0 * day_ns * S - x * day_ns) with ((k0 * S - x) * day_ns) by ring. rewrite Z.abs_mul, (Z.abs_eq day_ns) by lia.
    rewrite Z.mul_assoc, (Z.mul_comm day_ns S). apply Z.mul_le_mono_nonneg_r; lia. }
  apply (Z.mul_le_mono_pos_r _ _ S PS).
  replace (2 * Z.abs (k0 * day_ns - d) * S) with (2 * Z.abs (k0 * day_ns * S - d * S)).
  - assert (d * S <= 2 ^ 63 * S) by (apply Z.mul_le_mono_nonneg_r; lia). rewrite Z.mul_add_distr_r.
    set (kS := k0 * day_ns * S) in *. set (dS := d * S) in *. set (xd := x * day_ns) in *. set (DS := day_ns * S) in *. clearbody kS dS xd DS.
    change (2 ^ 63) with 9223372036854775808 in *. change (2 ^ 53) with 9007199254740992 in *. lia.
  - replace (k0 * day_ns * S - d * S) with ((k0 * day_ns - d) * S) by ring. rewrite Z.abs_mul, (Z.abs_eq S) by lia. ring.
Qed.
Lemma days_negative : forall d, 0 < d < 2 ^ 63 -> fmt_fixed 0 (max0 (days_of (- d))) = itoa 0.
Proof. intros d B. destruct (days_error true d B) as (M & e & Q & _). cbn [signed] in Q. rewrite Q. reflexivity. Qed.
Transparent Z.pow.
