(** * float64 division by 100 and "%.2f" *)
From Coq Require Import SpecFloat.
From Verif Require Import Base BaseFacts Utf8 Utf8Facts GoTime Strconv TextSpec DateFacts Display.

Lemma digits_bounds : forall p, 2 ^ (Zpos (digits2_pos p) - 1) <= Zpos p < 2 ^ Zpos (digits2_pos p).
Proof.
  assert (forall d, 2 ^ (Zpos (Pos.succ d) - 1) = 2 * 2 ^ (Zpos d - 1) /\ 2 ^ Zpos (Pos.succ d) = 2 * 2 ^ Zpos d) as K.
  { intro d. rewrite Pos2Z.inj_succ. split.
    - replace (Z.succ (Zpos d) - 1) with (Z.succ (Zpos d - 1)) by lia. apply Z.pow_succ_r. lia.
    - apply Z.pow_succ_r. lia. }
  induction p as [p IH|p IH|]; cbn [digits2_pos].
  - destruct (K (digits2_pos p)) as [-> ->]. lia.
  - destruct (K (digits2_pos p)) as [-> ->]. lia.
  - cbn. lia.
Qed.

Lemma digits_unique : forall p k, 1 <= k -> 2 ^ (k - 1) <= Zpos p < 2 ^ k -> Zpos (digits2_pos p) = k.
Proof.
  intros p k K [A B]. destruct (digits_bounds p) as [C D].
  assert (Zpos (digits2_pos p) - 1 < k).
  { apply (Z.pow_lt_mono_r_iff 2); lia. }
  assert (k - 1 < Zpos (digits2_pos p)).
  { apply (Z.pow_lt_mono_r_iff 2); lia. }
  lia.
Qed.
Lemma Zdigits_unique : forall m k, 1 <= k -> 2 ^ (k - 1) <= m < 2 ^ k -> Zdigits2 m = k.
Proof.
  intros m k K H. assert (0 < m). { pose proof (Z.pow_pos_nonneg 2 (k - 1)). lia. }
  destruct m; try lia. now apply digits_unique.
Qed.

(** [l] locates num/den with respect to the integer m below it. *)
Definition loc_ok (m : Z) (l : location) (num den : Z) : Prop :=
  0 < den /\ exists r, num = m * den + r /\ 0 <= r < den /\
    l = if r =? 0 then loc_Exact else loc_Inexact (Z.compare (2 * r) den).

Lemma loc_record : forall m l, loc_of_shr_record (shr_record_of_loc m l) = l /\ shr_m (shr_record_of_loc m l) = m.
Proof. intros m [|[]]; split; reflexivity. Qed.

Lemma loc_half : forall m l num den, 0 < m -> loc_ok m l num den ->
  let rec := shr_1 (shr_record_of_loc m l) in
  shr_m rec = m / 2 /\ loc_ok (m / 2) (loc_of_shr_record rec) num (2 * den).
Proof.
  intros m l num den M (D & r & E & R & L).
  assert (exists b, m = 2 * (m / 2) + b /\ (b = 0 \/ b = 1)) as (b & Em & B).
  { exists (m mod 2). split; [apply Z.div_mod; lia|]. pose proof (Z.mod_pos_bound m 2). lia. }
  assert (forall h, h = m / 2 -> forall r', r' = b * den + r ->
    shr_1 (shr_record_of_loc m l) =
      {| shr_m := h; shr_r := b =? 1; shr_s := match l with loc_Exact => false | _ => true end |}) as K.
  { intros h -> r' _. destruct m as [|p|p]; try lia.
    assert (forall P, match p with
      | xH => P = 0 -> True | _ => True end) as _ by (intro; destruct p; auto).
    destruct p as [p|p|].
    - assert (Z.pos p~1 / 2 = Zpos p) as HP by (rewrite Pos2Z.inj_xI; symmetry; apply (Z.div_unique _ 2 _ 1); lia).
      rewrite HP in *. assert (b = 1) as -> by lia. destruct l as [|[]]; reflexivity.
    - assert (Z.pos p~0 / 2 = Zpos p) as HP by (rewrite Pos2Z.inj_xO; symmetry; apply (Z.div_unique _ 2 _ 0); lia).
      rewrite HP in *. assert (b = 0) as -> by lia. destruct l as [|[]]; reflexivity.
    - change (1 / 2) with 0 in *. assert (b = 1) as -> by lia. destruct l as [|[]]; reflexivity. }
  cbn zeta. rewrite (K _ eq_refl _ eq_refl). cbn [shr_m]. split; [reflexivity|].
  split; [lia|]. exists (b * den + r). split; [lia|]. split; [nia|].
  subst l. destruct B as [-> | ->]; cbn [Z.eqb Pos.eqb].
  - destruct (Z.eqb_spec r 0) as [->|N]; [reflexivity|].
    destruct (Z.eqb_spec (0 * den + r) 0); [lia|]. cbn [loc_of_shr_record]. f_equal. symmetry.
    apply Z.compare_lt_iff. lia.
  - destruct (Z.eqb_spec (1 * den + r) 0); [lia|].
    destruct (Z.eqb_spec r 0) as [->|N]; cbn [loc_of_shr_record]; f_equal; symmetry.
    + apply Z.compare_eq_iff. lia.
    + apply Z.compare_gt_iff. lia.
Qed.

Lemma round_error : forall m l num den, loc_ok m l num den ->
  2 * Z.abs (round_nearest_even m l * den - num) <= den /\
  (round_nearest_even m l = m \/ round_nearest_even m l = m + 1).
Proof.
  intros m l num den (D & r & E & R & L). subst l. unfold round_nearest_even.
  destruct (Z.eqb_spec r 0) as [->|N]; [split; [lia|now left]|].
  destruct (Z.compare_spec (2 * r) den) as [C|C|C].
  - destruct (Z.even m); split; [lia|now left|lia|now right].
  - split; [lia|now left].
  - split; [lia|now right].
Qed.

Lemma shift_pos_value : forall d p, Zpos (shift_pos d p) = Zpos p * 2 ^ Zpos d.
Proof. intros. rewrite shift_pos_correct. change (Z.pow_pos 2 d) with (2 ^ Zpos d). ring. Qed.

Opaque Z.pow.

Lemma fexp_normal : forall d e, -1074 <= d + e - 53 -> fexp prec emax (d + e) = d + e - 53.
Proof. intros. unfold fexp, emin, prec, emax. lia. Qed.

Lemma shr_fexp_53 : forall m e l, 2 ^ 52 <= m < 2 ^ 53 -> -1074 <= e ->
  shr_fexp prec emax m e l = (shr_record_of_loc m l, e).
Proof.
  intros m e l M E. unfold shr_fexp. rewrite (Zdigits_unique m 53) by (change (53 - 1) with 52; lia).
  rewrite fexp_normal by lia. replace (53 + e - 53 - e) with 0 by lia. reflexivity.
Qed.
Lemma shr_fexp_54 : forall m e l, 2 ^ 53 <= m < 2 ^ 54 -> -1074 <= e ->
  shr_fexp prec emax m e l = (shr_1 (shr_record_of_loc m l), e + 1).
Proof.
  intros m e l M E. unfold shr_fexp. rewrite (Zdigits_unique m 54) by (change (54 - 1) with 53; lia).
  rewrite fexp_normal by lia. replace (54 + e - 53 - e) with 1 by lia. reflexivity.
Qed.

Lemma pow52_53 : 2 ^ 53 = 2 * 2 ^ 52. Proof. reflexivity. Qed.
Lemma pow53_54 : 2 ^ 54 = 2 * 2 ^ 53. Proof. reflexivity. Qed.
Lemma pow52_pos : 0 < 2 ^ 52. Proof. reflexivity. Qed.

Lemma finish_round : forall s n e, 2 ^ 52 <= n <= 2 ^ 53 -> -1074 <= e <= 970 ->
  exists N e', (let '(mrs'', e'') := shr_fexp prec emax n e loc_Exact in
                match shr_m mrs'' with
                | Z0 => S754_zero s
                | Zpos m => if Zle_bool e'' (emax - prec) then S754_finite s m e'' else S754_infinity s
                | _ => S754_nan
                end) = S754_finite s N e' /\ e <= e' <= e + 1 /\ Zpos N * 2 ^ (e' - e) = n.
Proof.
  intros s n e H E. pose proof pow52_pos. destruct (Z.eq_dec n (2 ^ 53)) as [->|NE].
  - rewrite shr_fexp_54 by (rewrite ?pow53_54; lia).
    exists (2 ^ 52)%positive, (e + 1). split.
    + replace (shr_m (shr_1 (shr_record_of_loc (2 ^ 53) loc_Exact))) with (Zpos (2 ^ 52)) by reflexivity.
      cbn iota beta. replace (Zle_bool (e + 1) (emax - prec)) with true; [reflexivity|].
      symmetry. apply Z.leb_le. unfold emax, prec. lia.
    + split; [lia|]. replace (e + 1 - e) with 1 by lia. reflexivity.
  - rewrite shr_fexp_53 by lia. destruct n as [|p|p]; try lia.
    exists p, e. split.
    + cbn [shr_m shr_record_of_loc]. replace (Zle_bool e (emax - prec)) with true; [reflexivity|].
      symmetry. apply Z.leb_le. unfold emax, prec. lia.
    + split; [lia|]. rewrite Z.sub_diag. change (2 ^ 0) with 1. lia.
Qed.

Lemma round_aux_spec : forall s m e l num den, loc_ok m l num den -> 2 ^ 52 <= m < 2 ^ 54 -> -1074 <= e <= 960 ->
  exists N e' k, binary_round_aux prec emax s m e l = S754_finite s N e' /\
    (k = 0 /\ m < 2 ^ 53 \/ k = 1 /\ 2 ^ 53 <= m) /\ e + k <= e' <= e + k + 1 /\
    2 * Z.abs (Zpos N * 2 ^ (e' - e) * den - num) <= den * 2 ^ k.
Proof.
  intros s m e l num den LO M E. unfold binary_round_aux. pose proof pow52_pos. pose proof pow52_53. pose proof pow53_54.
  destruct (Z.ltb_spec m (2 ^ 53)) as [S|S].
  - rewrite shr_fexp_53 by lia. destruct (loc_record m l) as [-> ->].
    destruct (round_error _ _ _ _ LO) as [ER [V|V]].
    + destruct (finish_round s (round_nearest_even m l) e) as (N & e' & EQ & RE & VN); [lia|lia|].
      exists N, e', 0. rewrite EQ, VN. change (2 ^ 0) with 1. repeat split; try lia.
    + destruct (finish_round s (round_nearest_even m l) e) as (N & e' & EQ & RE & VN); [lia|lia|].
      exists N, e', 0. rewrite EQ, VN. change (2 ^ 0) with 1. repeat split; try lia.
  - rewrite shr_fexp_54 by lia. destruct (loc_half m l num den ltac:(lia) LO) as [-> LO'].
    set (l' := loc_of_shr_record (shr_1 (shr_record_of_loc m l))) in *.
    destruct (round_error _ _ _ _ LO') as [ER RV].
    assert (2 ^ 52 <= m / 2 < 2 ^ 53) as HM.
    { split; [apply Z.div_le_lower_bound; lia|apply Z.div_lt_upper_bound; lia]. }
    destruct (finish_round s (round_nearest_even (m / 2) l') (e + 1)) as (N & e' & EQ & RE & VN); [lia|lia|].
    exists N, e', 1. rewrite EQ. split; [reflexivity|]. split; [lia|]. split; [lia|].
    replace (e' - e) with (1 + (e' - (e + 1))) by lia. rewrite Z.pow_add_r by lia. change (2 ^ 1) with 2.
    replace (Zpos N * (2 * 2 ^ (e' - (e + 1))) * den) with (Zpos N * 2 ^ (e' - (e + 1)) * (2 * den)) by ring.
    rewrite VN. lia.
Qed.

(** float64 of an integer of at most 53 bits. *)
Lemma float_of_int_small : forall s p, Zpos p < 2 ^ 53 ->
  exists m, binary_round prec emax s p 0 = S754_finite s m (Zpos (digits2_pos p) - 53) /\
    Zpos m = Zpos p * 2 ^ (53 - Zpos (digits2_pos p)) /\ 2 ^ 52 <= Zpos m < 2 ^ 53 /\
    1 <= Zpos (digits2_pos p) <= 53.
Proof.
  intros s p B. destruct (digits_bounds p) as [LO HI]. set (d := Zpos (digits2_pos p)) in *.
  assert (1 <= d <= 53) as D.
  { split; [lia|]. assert (d - 1 < 53); [|lia]. apply (Z.pow_lt_mono_r_iff 2); lia. }
  assert (exists m, shl_align p 0 (fexp prec emax (d + 0)) = (m, d - 53) /\ Zpos m = Zpos p * 2 ^ (53 - d)) as (m & EA & VM).
  { rewrite fexp_normal by lia. unfold shl_align. replace (d + 0 - 53 - 0) with (d - 53) by lia.
    destruct (d - 53) as [|q|q] eqn:Q.
    - exists p. replace (53 - d) with 0 by lia. change (2 ^ 0) with 1. split; [reflexivity|lia].
    - lia.
    - exists (shift_pos q p). split; [f_equal; lia|]. rewrite shift_pos_value.
      now replace (53 - d) with (Zpos q) by lia. }
  assert (2 ^ 52 <= Zpos m < 2 ^ 53) as BM.
  { rewrite VM. replace (2 ^ 52) with (2 ^ (d - 1) * 2 ^ (53 - d)) by (rewrite <- Z.pow_add_r by lia; f_equal; lia).
    replace (2 ^ 53) with (2 ^ d * 2 ^ (53 - d)) by (rewrite <- Z.pow_add_r by lia; f_equal; lia).
    assert (0 < 2 ^ (53 - d)) by (apply Z.pow_pos_nonneg; lia).
    split; [apply Z.mul_le_mono_nonneg_r; lia|apply Z.mul_lt_mono_pos_r; lia]. }
  exists m. split; [|auto]. unfold binary_round. fold d. rewrite EA. unfold binary_round_aux.
  rewrite shr_fexp_53 by lia. destruct (loc_record (Zpos m) loc_Exact) as [-> ->]. cbn [round_nearest_even].
  rewrite shr_fexp_53 by lia. cbn [shr_m shr_record_of_loc].
  replace (Zle_bool (d - 53) (emax - prec)) with true; [reflexivity|].
  symmetry. apply Z.leb_le. unfold emax, prec. lia.
Qed.

Definition hundred_m : positive := (100 * 2 ^ 46)%positive.
Lemma float_100 : float_of_int 100 = S754_finite false hundred_m (-46).
Proof. vm_compute. reflexivity. Qed.

Lemma round_half_even_near : forall n d q, 0 < d -> 2 * Z.abs (n - q * d) < d -> round_half_even n d = q.
Proof.
  intros n d q D H. unfold round_half_even.
  destruct (Z.leb_spec (q * d) n) as [L|L].
  - assert (n / d = q) as E by (symmetry; apply (Z.div_unique _ _ _ (n - q * d)); lia).
    assert (n mod d = n - q * d) as M by (symmetry; apply (Z.mod_unique _ _ q); lia).
    rewrite E, M. destruct (Z.ltb_spec (2 * (n - q * d)) d); lia.
  - assert (n / d = q - 1) as E by (symmetry; apply (Z.div_unique _ _ _ (n - (q - 1) * d)); lia).
    assert (n mod d = n - (q - 1) * d) as M by (symmetry; apply (Z.mod_unique _ _ (q - 1)); lia).
    rewrite E, M. destruct (Z.ltb_spec (2 * (n - (q - 1) * d)) d); [lia|].
    destruct (Z.ltb_spec d (2 * (n - (q - 1) * d))); lia.
Qed.

Definition exact_limit : Z := 100 * 2 ^ 46.
Lemma exact_limit_53 : exact_limit < 2 ^ 53. Proof. reflexivity. Qed.
Lemma exact_limit_m : exact_limit = Zpos hundred_m. Proof. reflexivity. Qed.

Lemma div_core : forall m d, 2 ^ 52 <= m < 2 ^ 53 -> 1 <= d <= 70 ->
  exists Q r, SFdiv_core_binary prec emax m (d - 53) (Zpos hundred_m) (-46) = (Q, d - 60, r) /\
    loc_ok Q r (m * 2 ^ 53) (Zpos hundred_m) /\ 2 ^ 52 <= Q < 2 ^ 54 /\
    (2 ^ 53 <= Q -> Zpos hundred_m <= m).
Proof.
  intros m d M D. unfold SFdiv_core_binary.
  rewrite (Zdigits_unique m 53) by (change (53 - 1) with 52; lia).
  rewrite (Zdigits_unique (Zpos hundred_m) 53) by first [lia | vm_compute; split; [discriminate|reflexivity]].
  replace (53 + (d - 53) - (53 + -46)) with (d + -7) by lia. rewrite fexp_normal by lia.
  replace (Z.min (d + -7 - 53) (d - 53 - -46)) with (d - 60) by lia.
  replace (d - 53 - -46 - (d - 60)) with 53 by lia.
  rewrite Z.shiftl_mul_pow2 by lia.
  pose proof (Z_div_mod (m * 2 ^ 53) (Zpos hundred_m) ltac:(reflexivity)) as DM.
  destruct (Z.div_eucl (m * 2 ^ 53) (Zpos hundred_m)) as [Q r]. destruct DM as [E R].
  exists Q. eexists. split; [reflexivity|].
  assert (2 ^ 52 < Zpos hundred_m < 2 ^ 53) as HB by (vm_compute; split; reflexivity).
  pose proof pow52_pos. pose proof pow52_53 as P53. pose proof pow53_54 as P54.
  split.
  - split; [reflexivity|]. exists r. split; [lia|]. split; [lia|].
    unfold new_location. change (Z.even (Zpos hundred_m)) with true. cbn iota. unfold new_location_even, Zeq_bool.
    destruct (Z.eqb_spec r 0) as [->|N]; [reflexivity|].
    destruct (Z.compare_spec r 0); [lia|reflexivity|reflexivity].
  - split; [split|].
    + destruct (Z.leb_spec (2 ^ 52) Q); [assumption|exfalso].
      assert (Zpos hundred_m * Q <= Zpos hundred_m * (2 ^ 52 - 1)) by (apply Z.mul_le_mono_nonneg_l; lia).
      assert (2 ^ 52 * 2 ^ 53 <= m * 2 ^ 53) by (apply Z.mul_le_mono_nonneg_r; lia).
      nia.
    + destruct (Z.ltb_spec Q (2 ^ 54)); [assumption|exfalso].
      assert (Zpos hundred_m * 2 ^ 54 <= Zpos hundred_m * Q) by (apply Z.mul_le_mono_nonneg_l; lia).
      nia.
    + intro HQ. destruct (Z.leb_spec (Zpos hundred_m) m); [assumption|exfalso].
      assert (Zpos hundred_m * 2 ^ 53 <= Zpos hundred_m * Q) by (apply Z.mul_le_mono_nonneg_l; lia).
      nia.
Qed.

Lemma display_core : forall s p, Zpos p < exact_limit ->
  exists N e, float_div (binary_round prec emax s p 0) (float_of_int 100) = S754_finite s N e /\
    e < 0 /\ round_half_even (Zpos N * 100) (2 ^ (- e)) = Zpos p.
Proof.
  intros s p B. pose proof exact_limit_53.
  destruct (float_of_int_small s p ltac:(lia)) as (m & EM & VM & BM & D).
  set (d := Zpos (digits2_pos p)) in *. rewrite EM, float_100. unfold float_div, SFdiv.
  destruct (div_core (Zpos m) d BM ltac:(lia)) as (Q & l & EQ & LO & BQ & HQ). rewrite EQ. rewrite xorb_false_r.
  destruct (round_aux_spec s Q (d - 60) l _ _ LO BQ ltac:(lia)) as (N & e' & k & -> & K & RE & ER).
  exists N, e'. split; [reflexivity|].
  assert (k = 0 \/ (k = 1 /\ d <= 52)) as KD.
  { destruct K as [[K _]|[K K2]]; [now left|right]. split; [assumption|].
    destruct (Z.eq_dec d 53) as [E53|]; [|lia]. exfalso. specialize (HQ K2).
    rewrite E53 in VM. change (2 ^ (53 - 53)) with 1 in VM. rewrite <- exact_limit_m in HQ. lia. }
  split; [lia|]. apply round_half_even_near; [apply Z.pow_pos_nonneg; lia|].
  assert (Zpos m * 2 ^ 53 = Zpos p * 2 ^ 46 * 2 ^ (60 - d)) as V.
  { rewrite VM. rewrite <- !Z.mul_assoc, <- !Z.pow_add_r by lia. do 2 f_equal. lia. }
  rewrite V in ER. rewrite <- exact_limit_m in ER. unfold exact_limit in ER.
  set (X := 2 ^ (e' - (d - 60))) in *.
  assert (0 < X) as PX by (apply Z.pow_pos_nonneg; lia).
  assert (2 ^ (60 - d) = X * 2 ^ (- e')) as SX.
  { unfold X. rewrite <- Z.pow_add_r by lia. f_equal. lia. }
  assert (0 < 2 ^ (- e')) as PE by (apply Z.pow_pos_nonneg; lia).
  replace (Zpos N * X * (100 * 2 ^ 46) - Zpos p * 2 ^ 46 * 2 ^ (60 - d))
    with ((Zpos N * 100 - Zpos p * 2 ^ (- e')) * (X * 2 ^ 46)) in ER by (rewrite SX; ring).
  rewrite Z.abs_mul in ER. rewrite (Z.abs_eq (X * 2 ^ 46)) in ER by (assert (0 < 2 ^ 46) by reflexivity; nia).
  set (A := Z.abs (Zpos N * 100 - Zpos p * 2 ^ (- e'))) in *.
  assert (2 * A * X <= 100 * 2 ^ k) as ER2.
  { assert (0 < 2 ^ 46) as P46 by reflexivity.
    apply (Z.mul_le_mono_pos_r _ _ (2 ^ 46) P46). lia. }
  assert (100 * 2 ^ k < X * 2 ^ (- e')) as BK.
  { rewrite <- SX. destruct KD as [-> | [-> LD]].
    - change (100 * 2 ^ 0) with 100. eapply Z.lt_le_trans; [|apply (Z.pow_le_mono_r 2 7); lia]. reflexivity.
    - change (100 * 2 ^ 1) with 200. eapply Z.lt_le_trans; [|apply (Z.pow_le_mono_r 2 8); lia]. reflexivity. }
  nia.
Qed.

Lemma display_exact : forall q, Z.abs q <= exact_limit -> display_quantity q = decimal (q <? 0) 2 (Z.abs q).
Proof.
  intros q B. unfold display_quantity. destruct (Z.eq_dec (Z.abs q) exact_limit) as [E|NE].
  - assert (q = exact_limit \/ q = - exact_limit) as [-> | ->] by lia; vm_compute; reflexivity.
  - destruct q as [|p|p].
    + reflexivity.
    + destruct (display_core false p ltac:(lia)) as (N & e & E & L & R).
      unfold float_of_int at 1. cbn [binary_normalize]. rewrite E. unfold fmt_fixed.
      destruct (Z.leb_spec 0 e); [lia|]. change (10 ^ Z.of_nat 2) with 100. rewrite R. reflexivity.
    + destruct (display_core true p ltac:(lia)) as (N & e & E & L & R).
      unfold float_of_int at 1. cbn [binary_normalize]. rewrite E. unfold fmt_fixed.
      destruct (Z.leb_spec 0 e); [lia|]. change (10 ^ Z.of_nat 2) with 100. rewrite R. reflexivity.
Qed.
Transparent Z.pow.
