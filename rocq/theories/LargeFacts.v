(** * Displaying amounts too large for float64 *)
From Coq Require Import SpecFloat.
From Verif Require Import Base BaseFacts TextSpec Display DisplayFacts GoTime Strconv Journal AmountFacts.

Opaque Z.pow.

Lemma rec_loc : forall r, shr_record_of_loc (shr_m r) (loc_of_shr_record r) = r.
Proof. intros [m [|] [|]]; reflexivity. Qed.

Lemma shr_iter : forall n r num den, 2 ^ Zpos n <= shr_m r -> loc_ok (shr_m r) (loc_of_shr_record r) num den ->
  let r' := SpecFloat.iter_pos shr_1 n r in
  shr_m r' = shr_m r / 2 ^ Zpos n /\ loc_ok (shr_m r') (loc_of_shr_record r') num (2 ^ Zpos n * den).
Proof.
  assert (ONE : forall r num den, 0 < shr_m r -> loc_ok (shr_m r) (loc_of_shr_record r) num den ->
    shr_m (shr_1 r) = shr_m r / 2 /\ loc_ok (shr_m (shr_1 r)) (loc_of_shr_record (shr_1 r)) num (2 * den)).
  { intros r num den P L. pose proof (loc_half (shr_m r) (loc_of_shr_record r) num den P L) as H. rewrite rec_loc in H.
    cbv zeta in H. destruct H as [H1 H2]. split; [exact H1|]. now rewrite H1. }
  assert (TWO : forall n, 2 ^ Zpos n * 2 ^ Zpos n = 2 ^ Zpos (xO n)).
  { intro n. rewrite <- Z.pow_add_r by lia. f_equal. lia. }
  assert (POS : forall n, 0 < 2 ^ Zpos n) by (intro n; apply Z.pow_pos_nonneg; lia).
  induction n as [n IH|n IH|]; intros r num den B L; cbn [SpecFloat.iter_pos].
  - assert (E : 2 ^ Zpos (xI n) = 2 * (2 ^ Zpos n * 2 ^ Zpos n)).
    { rewrite TWO. replace (Zpos (xI n)) with (Z.succ (Zpos (xO n))) by lia. now rewrite Z.pow_succ_r by lia. }
    rewrite E in *. pose proof (POS n) as Pn.
    destruct (ONE r num den ltac:(nia) L) as [M1 L1].
    destruct (IH (shr_1 r) num (2 * den)) as [M2 L2]; [|exact L1|].
    { rewrite M1. apply Z.div_le_lower_bound; nia. }
    destruct (IH (SpecFloat.iter_pos shr_1 n (shr_1 r)) num (2 ^ Zpos n * (2 * den))) as [M3 L3]; [|exact L2|].
    { rewrite M2, M1. apply Z.div_le_lower_bound; [lia|]. apply Z.div_le_lower_bound; nia. }
    split.
    + rewrite M3, M2, M1. rewrite !Z.div_div by lia. f_equal; ring.
    + replace (2 * (2 ^ Zpos n * 2 ^ Zpos n) * den) with (2 ^ Zpos n * (2 ^ Zpos n * (2 * den))) by ring. exact L3.
  - rewrite <- TWO in *. pose proof (POS n) as Pn.
    destruct (IH r num den) as [M2 L2]; [nia|exact L|].
    destruct (IH (SpecFloat.iter_pos shr_1 n r) num (2 ^ Zpos n * den)) as [M3 L3]; [|exact L2|].
    { rewrite M2. apply Z.div_le_lower_bound; nia. }
    split.
    + rewrite M3, M2. rewrite !Z.div_div by lia. reflexivity.
    + rewrite <- Z.mul_assoc. exact L3.
  - change (2 ^ 1) with 2 in *. apply ONE; [lia|exact L].
Qed.

Lemma finish_round53 : forall s n e, 2 ^ 52 <= n <= 2 ^ 53 -> -1074 <= e <= 970 ->
  exists N e', (let '(mrs'', e'') := shr_fexp prec emax n e loc_Exact in
                match shr_m mrs'' with
                | Z0 => S754_zero s
                | Zpos m => if Zle_bool e'' (emax - prec) then S754_finite s m e'' else S754_infinity s
                | _ => S754_nan
                end) = S754_finite s N e' /\ e <= e' <= e + 1 /\ Zpos N * 2 ^ (e' - e) = n /\ 2 ^ 52 <= Zpos N < 2 ^ 53.
Proof.
  intros s n e H E. pose proof pow52_pos. destruct (Z.eq_dec n (2 ^ 53)) as [->|NE].
  - rewrite shr_fexp_54 by (rewrite ?pow53_54; lia).
    exists (2 ^ 52)%positive, (e + 1). split.
    + replace (shr_m (shr_1 (shr_record_of_loc (2 ^ 53) loc_Exact))) with (Zpos (2 ^ 52)) by reflexivity.
      cbn iota beta. replace (Zle_bool (e + 1) (emax - prec)) with true; [reflexivity|].
      symmetry. apply Z.leb_le. unfold emax, prec. lia.
    + split; [lia|]. replace (e + 1 - e) with 1 by lia. split; [reflexivity|]. split; [reflexivity|reflexivity].
  - rewrite shr_fexp_53 by lia. destruct n as [|p|p]; try lia.
    exists p, e. split.
    + cbn [shr_m shr_record_of_loc]. replace (Zle_bool e (emax - prec)) with true; [reflexivity|].
      symmetry. apply Z.leb_le. unfold emax, prec. lia.
    + split; [lia|]. rewrite Z.sub_diag. change (2 ^ 0) with 1. split; [lia|]. lia.
Qed.

(** float64 of an integer of 53 to 64 bits. *)
Lemma float_of_int_large : forall s p, 53 <= Zpos (digits2_pos p) <= 64 -> let d := Zpos (digits2_pos p) in
  exists m E, binary_round prec emax s p 0 = S754_finite s m (E - 53) /\ 2 ^ 52 <= Zpos m < 2 ^ 53 /\ d <= E <= d + 1 /\
    2 * Z.abs (Zpos m * 2 ^ (E - 53) - Zpos p) <= 2 ^ (d - 53).
Proof.
  intros s p D. cbv zeta. destruct (digits_bounds p) as [LO HI].
  destruct (Z.eq_dec (Zpos (digits2_pos p)) 53) as [D53|D53].
  { destruct (float_of_int_small s p ltac:(rewrite <- D53; exact HI)) as (m & EM & VM & BM & _).
    exists m, (Zpos (digits2_pos p)). rewrite D53 in *. split; [exact EM|]. split; [exact BM|]. split; [lia|].
    change (53 - 53) with 0 in *. change (2 ^ 0) with 1 in *. lia. }
  set (d := Zpos (digits2_pos p)) in *.
  assert (SA : shl_align p 0 (fexp prec emax (d + 0)) = (p, 0)).
  { rewrite fexp_normal by lia. unfold shl_align. destruct (d + 0 - 53 - 0) eqn:X; try lia; reflexivity. }
  unfold binary_round. fold d. rewrite SA. unfold binary_round_aux.
  destruct (d - 53) as [|n|] eqn:N; try lia.
  assert (S1 : shr_fexp prec emax (Zpos p) 0 loc_Exact = (SpecFloat.iter_pos shr_1 n (shr_record_of_loc (Zpos p) loc_Exact), Zpos n)).
  { unfold shr_fexp. cbn [Zdigits2]. fold d. rewrite fexp_normal by lia. replace (d + 0 - 53 - 0) with (Zpos n) by lia. reflexivity. }
  rewrite S1.
  assert (P53 : 2 ^ 53 = 2 * 2 ^ 52) by reflexivity. assert (P52 : 0 < 2 ^ 52) by reflexivity.
  assert (Pn : 0 < 2 ^ Zpos n) by (apply Z.pow_pos_nonneg; lia).
  assert (Ed : 2 ^ d = 2 ^ 53 * 2 ^ Zpos n) by (rewrite <- Z.pow_add_r by lia; f_equal; lia).
  assert (Ed1 : 2 ^ (d - 1) = 2 ^ 52 * 2 ^ Zpos n) by (rewrite <- Z.pow_add_r by lia; f_equal; lia).
  destruct (shr_iter n (shr_record_of_loc (Zpos p) loc_Exact) (Zpos p) 1) as [M L].
  { cbn [shr_record_of_loc shr_m]. nia. }
  { destruct (loc_record (Zpos p) loc_Exact) as [-> ->]. split; [lia|]. exists 0. split; [lia|]. split; [lia|reflexivity]. }
  cbv zeta in M, L. set (r := SpecFloat.iter_pos shr_1 n (shr_record_of_loc (Zpos p) loc_Exact)) in *.
  cbn [shr_record_of_loc shr_m] in M. rewrite Z.mul_1_r in L.
  assert (BM : 2 ^ 52 <= shr_m r < 2 ^ 53).
  { rewrite M. split; [apply Z.div_le_lower_bound; lia|apply Z.div_lt_upper_bound; lia]. }
  destruct (round_error _ _ _ _ L) as [ER RV].
  destruct (finish_round53 s (round_nearest_even (shr_m r) (loc_of_shr_record r)) (Zpos n)) as (K & e' & EQ & RE & VN & BK); [lia|lia|].
  rewrite EQ. exists K, (e' + 53). split; [f_equal; lia|].
  split; [exact BK|]. split; [lia|].
  replace (e' + 53 - 53) with ((e' - Zpos n) + Zpos n) by lia. rewrite Z.pow_add_r, Z.mul_assoc, VN by lia. exact ER.
Qed.

Lemma round_half_even_error : forall n d, 0 < d -> 2 * Z.abs (round_half_even n d * d - n) <= d.
Proof.
  intros n d D. unfold round_half_even. pose proof (Z.div_mod n d ltac:(lia)) as E. pose proof (Z.mod_pos_bound n d D) as B.
  destruct (Z.ltb_spec (2 * (n mod d)) d); [nia|]. destruct (Z.ltb_spec d (2 * (n mod d))); [nia|]. destruct (Z.even (n / d)); nia.
Qed.

Definition shown (N : positive) (e : Z) : Z := if 0 <=? e then Zpos N * 2 ^ e * 100 else round_half_even (Zpos N * 100) (2 ^ (- e)).

Lemma display_large : forall s p, 53 <= Zpos (digits2_pos p) <= 64 ->
  exists N e, float_div (binary_round prec emax s p 0) (float_of_int 100) = S754_finite s N e /\
    2 ^ 52 * Z.abs (shown N e - Zpos p) <= Zpos p + 2 ^ 52 /\ 0 < shown N e.
Proof.
  intros s p D. destruct (float_of_int_large s p D) as (m & E & EM & BM & BE & ER0). destruct (digits_bounds p) as [LO HI].
  set (d := Zpos (digits2_pos p)) in *. rewrite EM, float_100. unfold float_div, SFdiv.
  destruct (div_core (Zpos m) E BM ltac:(lia)) as (Q & l & EQ & LOK & BQ & HQ). rewrite EQ. rewrite xorb_false_r.
  destruct (round_aux_spec s Q (E - 60) l _ _ LOK BQ ltac:(lia)) as (N & e' & k & -> & K & RE & ER).
  exists N, e'. split; [reflexivity|].
  set (X := 2 ^ (e' - (E - 60))) in *. assert (0 < X) as PX by (apply Z.pow_pos_nonneg; lia).
  set (P := 2 ^ E). assert (0 < P) as PP by (apply Z.pow_pos_nonneg; lia).
  assert (C46 : 2 ^ 46 = 70368744177664) by reflexivity. assert (C53 : 2 ^ 53 = 9007199254740992) by reflexivity.
  assert (C52 : 2 ^ 52 = 4503599627370496) by reflexivity. assert (C60 : 2 ^ 60 = 1152921504606846976) by reflexivity.
  change (Zpos hundred_m) with (100 * 2 ^ 46) in *.
  set (A := Zpos N * X) in *.
  (* the division *)
  assert (F2 : 2 * Z.abs (100 * A - Zpos m * 128) <= 100 * 2 ^ k).
  { replace (A * (100 * 2 ^ 46) - Zpos m * 2 ^ 53) with ((100 * A - Zpos m * 128) * 2 ^ 46) in ER by (rewrite C46, C53; ring).
    rewrite Z.abs_mul in ER. rewrite (Z.abs_eq (2 ^ 46)) in ER by (rewrite C46; lia). rewrite C46 in ER. lia. }
  (* the conversion *)
  assert (F3 : 2 * Z.abs (Zpos m * 128 * P - Zpos p * 2 ^ 60) <= 256 * Zpos p).
  { assert (E1 : 2 ^ (d - 53) * 2 ^ 60 = 256 * 2 ^ (d - 1)).
    { rewrite <- Z.pow_add_r by lia. change 256 with (2 ^ 8). rewrite <- Z.pow_add_r by lia. f_equal. lia. }
    assert (E2 : Zpos m * 128 * P = Zpos m * 2 ^ (E - 53) * 2 ^ 60).
    { unfold P. change 128 with (2 ^ 7). rewrite <- !Z.mul_assoc, <- !Z.pow_add_r by lia. do 2 f_equal. lia. }
    rewrite E2. replace (Zpos m * 2 ^ (E - 53) * 2 ^ 60 - Zpos p * 2 ^ 60) with ((Zpos m * 2 ^ (E - 53) - Zpos p) * 2 ^ 60) by ring.
    rewrite Z.abs_mul, (Z.abs_eq (2 ^ 60)) by (rewrite C60; lia).
    assert (2 * Z.abs (Zpos m * 2 ^ (E - 53) - Zpos p) * 2 ^ 60 <= 2 ^ (d - 53) * 2 ^ 60) by (apply Z.mul_le_mono_nonneg_r; [rewrite C60; lia|exact ER0]).
    lia. }
  (* the rounding to two decimals *)
  assert (EA : Zpos N * 2 ^ (e' + 60) = A * P).
  { unfold A, X, P. rewrite <- !Z.mul_assoc, <- Z.pow_add_r by lia. do 2 f_equal. lia. }
  assert (F1 : 2 * Z.abs (shown N e' * 2 ^ 60 - 100 * (A * P)) <= 2 ^ 60).
  { rewrite <- EA. unfold shown. destruct (Z.leb_spec 0 e').
    - rewrite Z.pow_add_r by lia. replace (Zpos N * 2 ^ e' * 100 * 2 ^ 60 - 100 * (Zpos N * (2 ^ e' * 2 ^ 60))) with 0 by ring. rewrite C60. lia.
    - assert (Pe : 0 < 2 ^ (- e')) by (apply Z.pow_pos_nonneg; lia).
      pose proof (round_half_even_error (Zpos N * 100) (2 ^ (- e')) Pe) as R.
      assert (E60 : 2 ^ 60 = 2 ^ (- e') * 2 ^ (e' + 60)) by (rewrite <- Z.pow_add_r by lia; f_equal; lia).
      set (n := round_half_even (Zpos N * 100) (2 ^ (- e'))) in *. set (Y := 2 ^ (e' + 60)) in *.
      assert (PY : 0 < Y) by (apply Z.pow_pos_nonneg; lia). rewrite E60.
      replace (n * (2 ^ (- e') * Y) - 100 * (Zpos N * Y)) with ((n * 2 ^ (- e') - Zpos N * 100) * Y) by ring.
      rewrite Z.abs_mul, (Z.abs_eq Y) by lia. rewrite Z.mul_assoc. apply Z.mul_le_mono_nonneg_r; [lia|exact R]. }
  set (n := shown N e') in *. set (AP := A * P) in *. set (MP := Zpos m * P).
  assert (F2' : 2 * Z.abs (100 * AP - MP * 128) <= 100 * 2 ^ k * P).
  { replace (100 * AP - MP * 128) with ((100 * A - Zpos m * 128) * P) by (unfold AP, MP; ring). rewrite Z.abs_mul, (Z.abs_eq P) by lia. rewrite Z.mul_assoc. apply Z.mul_le_mono_nonneg_r; [lia|exact F2]. }
  replace (Zpos m * 128 * P) with (MP * 128) in F3 by (unfold MP; ring).
  assert (BMP : 2 ^ 52 * P <= MP) by (unfold MP; apply Z.mul_le_mono_nonneg_r; lia).
  assert (Bm : 2 ^ 53 <= Q -> 100 * 2 ^ 46 * P <= MP).
  { intro K2. specialize (HQ K2). unfold MP. apply Z.mul_le_mono_nonneg_r; lia. }
  assert (Pp : 2 ^ 52 <= Zpos p).
  { etransitivity; [apply (Z.pow_le_mono_r 2 52 (d - 1)); lia|exact LO]. }
  assert (Pq : Zpos p <= 2 ^ 64).
  { apply Z.lt_le_incl. eapply Z.lt_le_trans; [exact HI|]. apply Z.pow_le_mono_r; lia. }
  change (2 ^ 64) with 18446744073709551616 in Pq.
  clearbody n AP MP P. clear - F1 F2' F3 BMP Pp Pq K Bm BQ C52 C53 C60 C46 PP BM.
  rewrite C60, C52, C53 in *. clear C60 C52 C53. 
  destruct K as [[-> _]|[-> K2]].
  - change (2 ^ 0) with 1 in F2'. split; lia.
  - change (2 ^ 1) with 2 in F2'. specialize (Bm K2). rewrite C46 in Bm. split; lia.
Qed.

Lemma display_close : forall q, Z.abs q < 2 ^ 64 ->
  exists q', display_quantity q = decimal (q' <? 0) 2 (Z.abs q') /\ (q <? 0) = (q' <? 0) /\ 2 ^ 52 * Z.abs (q' - q) <= Z.abs q + 2 ^ 52.
Proof.
  intros q B. destruct (Z.leb_spec (Z.abs q) exact_limit) as [L|L].
  { exists q. split; [now apply display_exact|]. split; [reflexivity|]. rewrite Z.sub_diag. assert (0 < 2 ^ 52) by reflexivity. cbn. lia. }
  assert (D : forall p, Zpos p < 2 ^ 64 -> exact_limit < Zpos p -> 53 <= Zpos (digits2_pos p) <= 64).
  { clear. intros p H L. destruct (digits_bounds p) as [LO HI]. assert (2 ^ 52 < exact_limit) by reflexivity. split.
    - assert (52 < Zpos (digits2_pos p)); [|lia]. apply (Z.pow_lt_mono_r_iff 2); lia.
    - assert (Zpos (digits2_pos p) - 1 < 64); [|lia]. apply (Z.pow_lt_mono_r_iff 2); lia. }
  destruct q as [|p|p].
  - assert (0 < exact_limit) by reflexivity. change (Z.abs 0) with 0 in L. lia.
  - destruct (display_large false p (D p B L)) as (N & e & E & C & P). exists (shown N e).
    unfold display_quantity, float_of_int at 1. cbn [binary_normalize]. rewrite E. unfold fmt_fixed.
    change (10 ^ Z.of_nat 2) with 100. fold (shown N e). rewrite (proj2 (Z.ltb_ge _ _)) by lia. rewrite Z.abs_eq by lia. split; [reflexivity|]. split; [reflexivity|].
    rewrite (Z.abs_eq (Zpos p)) by lia. exact C.
  - destruct (display_large true p (D p B L)) as (N & e & E & C & P). exists (- shown N e).
    unfold display_quantity, float_of_int at 1. cbn [binary_normalize]. rewrite E. unfold fmt_fixed.
    change (10 ^ Z.of_nat 2) with 100. fold (shown N e). rewrite (proj2 (Z.ltb_lt (- shown N e) 0)) by lia. rewrite Z.abs_opp, Z.abs_eq by lia.
    split; [reflexivity|]. split; [reflexivity|].
    replace (- shown N e - Zneg p) with (- (shown N e - Zpos p)) by lia. rewrite Z.abs_opp. change (Z.abs (Zneg p)) with (Zpos p). exact C.
Qed.
Transparent Z.pow.
