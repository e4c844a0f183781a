(** * time.Parse and parser/dates.go against the calendar *)
From Verif Require Import Base BaseFacts Utf8 Utf8Facts GoTime Strconv TextSpec.

Lemma is_digit_iff : forall c, is_digit c = true <-> digit c.
Proof. intro c. unfold is_digit, digit. rewrite andb_true_iff, !Z.leb_le. tauto. Qed.

Lemma is_leap_iff : forall y, is_leap y = true <-> leap_year y.
Proof.
  intro y. unfold is_leap, leap_year.
  rewrite andb_true_iff, orb_true_iff, negb_true_iff, !Z.eqb_eq, Z.eqb_neq.
  rewrite <- !Z.mod_divide by discriminate. tauto.
Qed.

Lemma real_date_iff : forall d, 1 <= d_month d <= 12 ->
  (1 <= d_day d <= days_in (d_month d) (d_year d) <-> real_date d).
Proof.
  intros [y m d] M. cbn [d_year d_month d_day] in *. unfold real_date. cbn [d_year d_month d_day].
  pose proof (is_leap_iff y) as L. unfold days_in.
  assert (m = 1 \/ m = 2 \/ m = 3 \/ m = 4 \/ m = 5 \/ m = 6 \/ m = 7 \/ m = 8 \/ m = 9 \/ m = 10 \/ m = 11 \/ m = 12)
    as C by lia.
  destruct C as [->|[->|[->|[->|[->|[->|[->|[->|[->|[->|[->| ->]]]]]]]]]]]; cbn;
    try (clear L; generalize (leap_year y); intro P; lia).
  - (* February *)
    destruct (is_leap y) eqn:E.
    + split; [intro H|].
      * destruct (Z.eq_dec d 29).
        -- right; right; right. split; [reflexivity|]. split; [assumption|now apply L].
        -- right; right; left. lia.
      * intros [[H _]|[[H _]|[H|H]]]; [intuition lia|intuition lia|lia|lia].
    + split; [intro H; right; right; left; lia|].
      intros [[H _]|[[H _]|[H|(_ & _ & H)]]]; [intuition lia|intuition lia|lia|]. apply L in H. discriminate.
Qed.

Lemma real_date_month : forall d, real_date d -> 1 <= d_month d <= 12.
Proof. intros d H. unfold real_date in H. cbn in H. intuition lia. Qed.

Lemma numeral4 : forall c1 c2 c3 c4, digit c1 -> digit c2 -> digit c3 -> digit c4 ->
  numeral 4 [c1; c2; c3; c4] (1000 * (c1 - 48) + 100 * (c2 - 48) + 10 * (c3 - 48) + (c4 - 48)).
Proof. intros. split; [reflexivity|]. split; [auto using Forall_cons, Forall_nil|]. unfold numeral_value. cbn [fold_left]. lia. Qed.
Lemma numeral2 : forall c1 c2, digit c1 -> digit c2 -> numeral 2 [c1; c2] (10 * (c1 - 48) + (c2 - 48)).
Proof. intros. split; [reflexivity|]. split; [auto using Forall_cons, Forall_nil|]. unfold numeral_value. cbn [fold_left]. lia. Qed.

Lemma numeral4_inv : forall s n, numeral 4 s n -> exists c1 c2 c3 c4, s = [c1; c2; c3; c4] /\
  digit c1 /\ digit c2 /\ digit c3 /\ digit c4 /\
  n = 1000 * (c1 - 48) + 100 * (c2 - 48) + 10 * (c3 - 48) + (c4 - 48).
Proof.
  intros s n (L & D & V). destruct s as [|c1 [|c2 [|c3 [|c4 [|]]]]]; try discriminate.
  inversion D as [|? ? D1 T1]; inversion T1 as [|? ? D2 T2]; inversion T2 as [|? ? D3 T3];
    inversion T3 as [|? ? D4 T4]; subst.
  exists c1, c2, c3, c4. repeat (split; [auto|]). unfold numeral_value. cbn [fold_left]. lia.
Qed.
Lemma numeral2_inv : forall s n, numeral 2 s n -> exists c1 c2, s = [c1; c2] /\ digit c1 /\ digit c2 /\
  n = 10 * (c1 - 48) + (c2 - 48).
Proof.
  intros s n (L & D & V). destruct s as [|c1 [|c2 [|]]]; try discriminate.
  inversion D as [|? ? D1 T1]; inversion T1 as [|? ? D2 T2]; subst.
  exists c1, c2. repeat (split; [auto|]). unfold numeral_value. cbn [fold_left]. lia.
Qed.

(** ** The chunks *)

Lemma chunk_lit : forall b cs v acc p, parse_chunks (CLit b :: cs) v acc = Some p ->
  exists v', v = b :: v' /\ parse_chunks cs v' acc = Some p.
Proof.
  intros b cs [|c v] acc p H; cbn in H; [discriminate|]. destruct (Z.eqb_spec c b); [|discriminate]. subst. eauto.
Qed.
Lemma chunk_year : forall cs v acc p, parse_chunks (CYear :: cs) v acc = Some p ->
  exists ys n v', v = ys ++ v' /\ numeral 4 ys n /\ parse_chunks cs v' (Parsed n (p_month acc) (p_day acc)) = Some p.
Proof.
  intros cs [|c1 [|c2 [|c3 [|c4 v]]]] acc p H; try discriminate. cbn [parse_chunks] in H.
  destruct (is_digit c1 && is_digit c2 && is_digit c3 && is_digit c4) eqn:E; [|discriminate].
  rewrite !andb_true_iff, !is_digit_iff in E. destruct E as [[[? ?] ?] ?].
  exists [c1; c2; c3; c4], (1000 * (c1 - 48) + 100 * (c2 - 48) + 10 * (c3 - 48) + (c4 - 48)), v.
  split; [reflexivity|]. split; [now apply numeral4|assumption].
Qed.
Lemma chunk_month : forall cs v acc p, parse_chunks (CMonth :: cs) v acc = Some p ->
  exists ms n v', v = ms ++ v' /\ numeral 2 ms n /\ 1 <= n <= 12 /\
    parse_chunks cs v' (Parsed (p_year acc) n (p_day acc)) = Some p.
Proof.
  intros cs [|c1 [|c2 v]] acc p H; try discriminate. cbn [parse_chunks] in H.
  destruct (is_digit c1 && is_digit c2) eqn:E; [|discriminate].
  rewrite !andb_true_iff, !is_digit_iff in E. destruct E as [? ?].
  exists [c1; c2], (10 * (c1 - 48) + (c2 - 48)), v. split; [reflexivity|]. split; [now apply numeral2|].
  destruct (Z.leb_spec (10 * (c1 - 48) + (c2 - 48)) 0); [discriminate|].
  destruct (Z.ltb_spec 12 (10 * (c1 - 48) + (c2 - 48))); [discriminate|]. split; [lia|assumption].
Qed.
Lemma chunk_day : forall cs v acc p, parse_chunks (CDay :: cs) v acc = Some p ->
  exists ds n v', v = ds ++ v' /\ numeral 2 ds n /\ parse_chunks cs v' (Parsed (p_year acc) (p_month acc) n) = Some p.
Proof.
  intros cs [|c1 [|c2 v]] acc p H; try discriminate. cbn [parse_chunks] in H.
  destruct (is_digit c1 && is_digit c2) eqn:E; [|discriminate].
  rewrite !andb_true_iff, !is_digit_iff in E. destruct E as [? ?].
  exists [c1; c2], (10 * (c1 - 48) + (c2 - 48)), v. split; [reflexivity|]. split; [now apply numeral2|assumption].
Qed.
Lemma chunk_end : forall v acc p, parse_chunks [] v acc = Some p -> v = [] /\ p = acc.
Proof. intros [|c v] acc p H; cbn in H; [injection H as <-; auto|discriminate]. Qed.

Lemma parse_lit : forall b cs v acc, parse_chunks (CLit b :: cs) (b :: v) acc = parse_chunks cs v acc.
Proof. intros. cbn [parse_chunks]. now rewrite Z.eqb_refl. Qed.
Lemma parse_year : forall cs ys n v acc, numeral 4 ys n ->
  parse_chunks (CYear :: cs) (ys ++ v) acc = parse_chunks cs v (Parsed n (p_month acc) (p_day acc)).
Proof.
  intros cs ys n v acc H. apply numeral4_inv in H as (c1 & c2 & c3 & c4 & -> & D1 & D2 & D3 & D4 & ->).
  cbn [app parse_chunks]. apply is_digit_iff in D1, D2, D3, D4. now rewrite D1, D2, D3, D4.
Qed.
Lemma parse_month : forall cs ms n v acc, numeral 2 ms n -> 1 <= n <= 12 ->
  parse_chunks (CMonth :: cs) (ms ++ v) acc = parse_chunks cs v (Parsed (p_year acc) n (p_day acc)).
Proof.
  intros cs ms n v acc H R. apply numeral2_inv in H as (c1 & c2 & -> & D1 & D2 & E).
  cbn [app parse_chunks]. apply is_digit_iff in D1, D2. rewrite D1, D2. cbn [andb]. rewrite <- E.
  destruct (Z.leb_spec n 0); [lia|]. destruct (Z.ltb_spec 12 n); [lia|]. reflexivity.
Qed.
Lemma parse_day : forall cs ds n v acc, numeral 2 ds n ->
  parse_chunks (CDay :: cs) (ds ++ v) acc = parse_chunks cs v (Parsed (p_year acc) (p_month acc) n).
Proof.
  intros cs ds n v acc H. apply numeral2_inv in H as (c1 & c2 & -> & D1 & D2 & ->).
  cbn [app parse_chunks]. apply is_digit_iff in D1, D2. now rewrite D1, D2.
Qed.

(** ** Whole layouts *)

Lemma time_parse_ymd : forall sep v d, time_parse (layout_ymd sep) v = Some d <-> ymd_text sep d v /\ real_date d.
Proof.
  intros sep v d. unfold time_parse, layout_ymd. split.
  - destruct (parse_chunks _ v _) as [p|] eqn:E; [|discriminate].
    apply chunk_year in E as (ys & y & v1 & -> & NY & E). apply chunk_lit in E as (v2 & -> & E).
    apply chunk_month in E as (ms & m & v3 & -> & NM & RM & E). apply chunk_lit in E as (v4 & -> & E).
    apply chunk_day in E as (ds & dd & v5 & -> & ND & E). apply chunk_end in E as [-> ->]. cbn.
    destruct (Z.ltb_spec dd 1); [discriminate|]. destruct (Z.ltb_spec (days_in m y) dd); [discriminate|].
    cbn. intro H1. injection H1 as <-. rewrite app_nil_r. split.
    + exact (YMD sep (Date y m dd) ys ms ds NY NM ND).
    + apply real_date_iff; cbn; lia.
  - intros [T R]. destruct T as [ys ms ds NY NM ND]. pose proof (real_date_month d R) as RM.
    cbn [app]. rewrite (parse_year _ _ _ _ _ NY), parse_lit, (parse_month _ _ _ _ _ NM RM), parse_lit.
    replace ds with (ds ++ []) by apply app_nil_r. rewrite (parse_day _ _ _ _ _ ND). cbn.
    apply real_date_iff in R; [|assumption].
    destruct (Z.ltb_spec (d_day d) 1); [lia|]. destruct (Z.ltb_spec (days_in (d_month d) (d_year d)) (d_day d)); [lia|].
    now destruct d.
Qed.

Lemma time_parse_ym : forall sep v d, time_parse (layout_ym sep) v = Some d <->
  exists ys ms, numeral 4 ys (d_year d) /\ numeral 2 ms (d_month d) /\ 1 <= d_month d <= 12 /\ d_day d = 1 /\
    v = ys ++ [sep] ++ ms.
Proof.
  intros sep v d. unfold time_parse, layout_ym. split.
  - destruct (parse_chunks _ v _) as [p|] eqn:E; [|discriminate].
    apply chunk_year in E as (ys & y & v1 & -> & NY & E). apply chunk_lit in E as (v2 & -> & E).
    apply chunk_month in E as (ms & m & v3 & -> & NM & RM & E). apply chunk_end in E as [-> ->]. cbn.
    destruct (days_in m y <? 1); [discriminate|]. intro H. injection H as <-. cbn.
    exists ys, ms. rewrite app_nil_r. auto.
  - intros (ys & ms & NY & NM & RM & RD & ->). cbn [app].
    rewrite (parse_year _ _ _ _ _ NY), parse_lit.
    replace ms with (ms ++ []) by apply app_nil_r. rewrite (parse_month _ _ _ _ _ NM RM). cbn.
    destruct d as [y m dd]. cbn in *. subst dd.
    assert (1 <= 1 <= days_in m y) by (apply (real_date_iff (Date y m 1)); cbn;
      [assumption|unfold real_date; cbn; lia]).
    destruct (Z.ltb_spec (days_in m y) 1); [lia|]. reflexivity.
Qed.

(** A date word is ASCII. *)
Lemma numeral_ascii : forall k s n, numeral k s n -> Forall ascii s.
Proof. intros k s n (_ & D & _). eapply Forall_impl; [|exact D]. unfold digit, ascii. intros; cbn in *; lia. Qed.
Lemma ymd_ascii : forall sep d s, separator sep -> ymd_text sep d s -> Forall ascii s.
Proof.
  intros sep d s S [y m dd NY NM ND]. unfold separator in S.
  repeat (apply Forall_app; split); try (eapply numeral_ascii; eassumption);
    repeat constructor; unfold ascii; lia.
Qed.
Lemma ymd_nth4 : forall sep d s, ymd_text sep d s -> nth_error s 4 = Some sep.
Proof.
  intros sep d s [y m dd NY NM ND]. apply numeral4_inv in NY as (c1 & c2 & c3 & c4 & -> & _). reflexivity.
Qed.
Lemma ymd_length : forall sep d s, ymd_text sep d s -> length s = 10%nat.
Proof.
  intros sep d s [y m dd (L1 & _) (L2 & _) (L3 & _)]. rewrite !app_length, L1, L2, L3. reflexivity.
Qed.

(** [encode] of runes is injective on ASCII results. *)
Lemma encode_is_ascii : forall w s, Forall (fun r => valid_rune r = true) w -> encode w = s -> Forall ascii s -> w = s.
Proof.
  intros w s V E A. rewrite <- (decode_encode w V), E. now apply decode_ascii.
Qed.

Lemma sep_eqb : forall c, (c =? c_dash) || (c =? c_dot) || (c =? c_slash) = true <-> separator c.
Proof.
  intro c. unfold separator, c_dash, c_dot, c_slash. rewrite !orb_true_iff, !Z.eqb_eq. tauto.
Qed.

(** parser.go's date on a word of five runes or more. *)
Lemma parseDate_spec : forall w, Forall (fun r => valid_rune r = true) w -> (5 <= length w)%nat ->
  (forall d, parseDate w = POk d <-> exists sep, separator sep /\ ymd_text sep d w /\ real_date d) /\
  parseDate w <> PPanic.
Proof.
  intros w V L. unfold parseDate.
  destruct (nth_error w 4) as [c|] eqn:N; [|apply nth_error_None in N; lia].
  destruct ((c =? c_dash) || (c =? c_dot) || (c =? c_slash)) eqn:E.
  - apply sep_eqb in E. destruct (time_parse (layout_ymd c) (encode w)) as [d|] eqn:T.
    + apply time_parse_ymd in T as [T R].
      pose proof (ymd_ascii _ _ _ E T) as A. pose proof (encode_is_ascii _ _ V eq_refl A) as EW.
      rewrite <- EW in T. split; [|discriminate]. intro d'. split.
      * intro H. injection H as <-. eauto.
      * intros (sep & S & T' & R'). pose proof (ymd_nth4 _ _ _ T') as N'.
        assert (sep = c) as -> by congruence.
        assert (Some d = Some d') as X.
        { rewrite <- (proj2 (time_parse_ymd c w d) (conj T R)). now apply time_parse_ymd. }
        now injection X as <-.
    + split; [|discriminate]. intro d'. split; [discriminate|].
      intros (sep & S & T' & R'). pose proof (ymd_nth4 _ _ _ T') as N'.
      assert (sep = c) as -> by congruence.
      pose proof (encode_ascii w) as EW. rewrite EW in T by (eapply ymd_ascii; eassumption).
      rewrite (proj2 (time_parse_ymd c w d')) in T by auto. discriminate.
  - split; [|discriminate]. intro d'. split; [discriminate|].
    intros (sep & S & T' & R'). pose proof (ymd_nth4 _ _ _ T') as N'.
    assert (sep = c) as -> by congruence. apply sep_eqb in S. congruence.
Qed.

(** ** Smart dates *)

Lemma parse_digits_spec : forall s acc,
  (Forall digit s -> parse_digits s acc = Some (fold_left (fun a c => 10 * a + (c - 48)) s acc)) /\
  (forall n, parse_digits s acc = Some n -> Forall digit s).
Proof.
  induction s as [|c s IH]; intro acc; cbn; [split; auto|]. destruct (is_digit c) eqn:E; cbn.
  - apply is_digit_iff in E. destruct (IH (10 * acc + (c - 48))) as [A B]. split.
    + intro H. inversion H; subst. now apply A.
    + intros n H. constructor; eauto.
  - split; [|discriminate]. intro H. inversion H as [|? ? D _]; subst. apply is_digit_iff in D. congruence.
Qed.
Lemma parse_uint_spec : forall s n, parse_uint s = Some n <-> s <> [] /\ Forall digit s /\ numeral_value s = n.
Proof.
  intros s n. unfold parse_uint, numeral_value. destruct s as [|c s].
  - split; [discriminate|]. intros [H _]. congruence.
  - destruct (parse_digits_spec (c :: s) 0) as [A B]. split.
    + intro H. specialize (B n H). specialize (A B). split; [discriminate|]. split; [assumption|congruence].
    + intros (_ & D & <-). now apply A.
Qed.

Lemma numeral_value_bound : forall s, Forall digit s -> 0 <= numeral_value s < 10 ^ Z.of_nat (length s).
Proof.
  intros s D. unfold numeral_value.
  assert (forall acc k, 0 <= acc < 10 ^ Z.of_nat k -> 
    0 <= fold_left (fun a c => 10 * a + (c - 48)) s acc < 10 ^ Z.of_nat (k + length s)) as K.
  { induction D as [|c s Dc D IH]; intros acc k H; cbn [fold_left length]; [now rewrite Nat.add_0_r|].
    replace (k + S (length s))%nat with (S k + length s)%nat by lia. apply IH.
    rewrite Nat2Z.inj_succ, Z.pow_succ_r by lia. unfold digit in Dc. lia. }
  specialize (K 0 0%nat). cbn [Nat.add] in K. apply K. cbn. lia.
Qed.

Lemma split_digits : forall sep s, separator sep -> Forall digit s -> ~ In sep s.
Proof.
  intros sep s S D I. rewrite Forall_forall in D. specialize (D _ I). unfold digit, separator in *. lia.
Qed.

Lemma index_of_app : forall sep a b i, ~ In sep a -> index_of sep (a ++ sep :: b) i = Some (i + length a)%nat.
Proof.
  induction a as [|c a IH]; intros b i N; cbn [app index_of].
  - rewrite Z.eqb_refl. f_equal. cbn. lia.
  - destruct (Z.eqb_spec c sep); [exfalso; apply N; now left|].
    rewrite IH by (intro; apply N; now right). f_equal. cbn. lia.
Qed.
Lemma index_of_none : forall sep a i, ~ In sep a -> index_of sep a i = None.
Proof.
  induction a as [|c a IH]; intros i N; cbn; [reflexivity|].
  destruct (Z.eqb_spec c sep); [exfalso; apply N; now left|]. apply IH. intro; apply N; now right.
Qed.
Lemma index_of_some : forall sep a i k, index_of sep a i = Some k -> In sep a.
Proof.
  induction a as [|c a IH]; intros i k H; cbn in H; [discriminate|].
  destruct (Z.eqb_spec c sep); [now left|right; eauto].
Qed.

(** ** Numerals written by the program *)

Lemma numeral_value_app : forall a b, numeral_value (a ++ b) = numeral_value a * 10 ^ Z.of_nat (length b) + numeral_value b.
Proof.
  intros a b. unfold numeral_value. rewrite fold_left_app. generalize (fold_left (fun a0 c => 10 * a0 + (c - 48)) a 0).
  clear a. induction b as [|c b IH]; intro z; cbn [fold_left length].
  - cbn. lia.
  - rewrite IH. rewrite (IH (10 * 0 + (c - 48))). rewrite Nat2Z.inj_succ, Z.pow_succ_r by lia. lia.
Qed.

Lemma numeral_unique : forall k s s' n, numeral k s n -> numeral k s' n -> s = s'.
Proof.
  induction k as [|k IH]; intros s s' n (L & D & V) (L' & D' & V').
  - destruct s, s'; try discriminate. reflexivity.
  - destruct (exists_last (l := s)) as (a & x & ->); [intros ->; discriminate|].
    destruct (exists_last (l := s')) as (a' & x' & ->); [intros ->; discriminate|].
    rewrite app_length in L, L'. cbn in L, L'. rewrite numeral_value_app in V, V'.
    apply Forall_app in D as [D Dx]. apply Forall_app in D' as [D' Dx'].
    inversion Dx as [|? ? X _]; inversion Dx' as [|? ? X' _]; subst. unfold digit in *.
    unfold numeral_value at 2 in V'. unfold numeral_value at 3 in V'. cbn [fold_left length] in V'.
    change (10 ^ Z.of_nat 1) with 10 in V'.
    assert (numeral_value a = numeral_value a' /\ x = x') as [E ->] by lia.
    f_equal. apply (IH a a' (numeral_value a)).
    + split; [lia|auto].
    + split; [lia|auto].
Qed.

Lemma digits_fuel_spec : forall f n acc, 0 <= n < 10 ^ Z.of_nat (S f) ->
  exists ds, digits_fuel (S f) n acc = ds ++ acc /\ ds <> [] /\ Forall digit ds /\ numeral_value ds = n /\
    (n = 0 -> ds = [48]) /\ (0 < n -> 10 ^ (Z.of_nat (length ds) - 1) <= n).
Proof.
  induction f as [|f IH]; intros n acc H.
  - change (10 ^ Z.of_nat 1) with 10 in H. cbn [digits_fuel].
    exists [48 + n mod 10]. rewrite Z.mod_small by lia.
    destruct (Z.ltb_spec n 10); [|lia]. split; [reflexivity|]. split; [discriminate|].
    split; [apply Forall_cons; [unfold digit; lia|constructor]|]. unfold numeral_value. cbn [fold_left length].
    split; [lia|]. split; [intros ->; reflexivity|]. change (10 ^ (Z.of_nat 1 - 1)) with 1. lia.
  - cbn [digits_fuel]. change (digits_fuel (S f)) with (digits_fuel (S f)).
    destruct (Z.ltb_spec n 10) as [L|L].
    + exists [48 + n mod 10]. rewrite Z.mod_small by lia. split; [reflexivity|]. split; [discriminate|].
      split; [apply Forall_cons; [unfold digit; lia|constructor]|]. unfold numeral_value. cbn [fold_left length].
      split; [lia|]. split; [intros ->; reflexivity|]. change (10 ^ (Z.of_nat 1 - 1)) with 1. lia.
    + destruct (IH (n / 10) ((48 + n mod 10) :: acc)) as (ds & E & NE & D & V & Z0 & LB).
      { rewrite Nat2Z.inj_succ, Z.pow_succ_r in H by lia. split; [apply Z.div_pos; lia|].
        apply Z.div_lt_upper_bound; lia. }
      cbn [digits_fuel] in E. rewrite E.
      pose proof (Z.mod_pos_bound n 10 ltac:(lia)) as MB. pose proof (Z.div_mod n 10 ltac:(lia)) as DM.
      exists (ds ++ [48 + n mod 10]). rewrite <- app_assoc. split; [reflexivity|]. split; [now destruct ds|].
      split; [apply Forall_app; split; [assumption|apply Forall_cons; [unfold digit; lia|constructor]]|].
      rewrite numeral_value_app, V, app_length. unfold numeral_value. cbn [fold_left length].
      change (10 ^ Z.of_nat 1) with 10. split; [lia|]. split; [lia|]. intros _.
      assert (0 < n / 10) as P by (apply Z.div_str_pos; lia). specialize (LB P).
      destruct ds as [|x ds]; [congruence|]. cbn [length] in *.
      replace (Z.of_nat (S (length ds) + 1) - 1) with (Z.succ (Z.of_nat (S (length ds)) - 1)) by lia.
      rewrite Z.pow_succ_r by lia. lia.
Qed.

Lemma itoa_nat_spec : forall n, 0 <= n ->
  exists ds, itoa_nat n = ds /\ ds <> [] /\ Forall digit ds /\ numeral_value ds = n /\
    (n = 0 -> ds = [48]) /\ (0 < n -> 10 ^ (Z.of_nat (length ds) - 1) <= n).
Proof.
  intros n H. unfold itoa_nat.
  destruct (digits_fuel_spec (Z.to_nat (Z.log2 n)) n []) as (ds & E & K).
  - split; [assumption|]. rewrite Nat2Z.inj_succ, Z2Nat.id by apply Z.log2_nonneg.
    destruct (Z.eq_dec n 0) as [->|N]; [cbn; lia|].
    pose proof (Z.log2_spec n ltac:(lia)) as [_ B].
    eapply Z.lt_le_trans; [exact B|]. apply Z.pow_le_mono_l. pose proof (Z.log2_nonneg n). lia.
  - rewrite app_nil_r in E. exists ds. auto.
Qed.

Lemma itoa_year : forall y, 1000 <= y <= 9999 -> numeral 4 (itoa y) y.
Proof.
  intros y H. unfold itoa. destruct (Z.ltb_spec y 0); [lia|].
  destruct (itoa_nat_spec y ltac:(lia)) as (ds & -> & NE & D & V & _ & LB). specialize (LB ltac:(lia)).
  pose proof (numeral_value_bound ds D) as B. rewrite V in B.
  split; [|split; assumption].
  assert (Z.of_nat (length ds) - 1 < 4) as A.
  { apply (Z.pow_lt_mono_r_iff 10); [lia|lia|]. change (10 ^ 4) with 10000. lia. }
  assert (3 < Z.of_nat (length ds)) as C.
  { apply (Z.pow_lt_mono_r_iff 10); [lia|lia|]. change (10 ^ 3) with 1000. lia. }
  lia.
Qed.

Lemma occurs_later_true : forall sep a b, a <> [] -> ~ In sep a -> occurs_later sep (a ++ sep :: b) = true.
Proof.
  intros sep a b NE N. unfold occurs_later. rewrite index_of_app by assumption.
  destruct a; [congruence|reflexivity].
Qed.
Lemma occurs_later_false : forall sep a, ~ In sep a -> occurs_later sep a = false.
Proof. intros sep a N. unfold occurs_later. now rewrite index_of_none. Qed.

Definition by_sep (now : Z) (d : str) (sep : Z) : pres date :=
  match split sep d with
  | [_] => parseYear d
  | [a; _] =>
      if Z.of_nat (length a) =? 4 then of_time (layout_ym sep) d
      else of_time (layout_ymd sep) (itoa now ++ [sep] ++ d)
  | [_; _; _] => of_time (layout_ymd sep) d
  | _ => PErr ESmartComponents
  end.

(** The separator is found whatever it is. *)
Lemma smart_by_sep : forall now sep a b, separator sep -> a <> [] -> Forall digit a ->
  (forall s', separator s' -> s' <> sep -> ~ In s' b) ->
  parseSmartDate now (a ++ sep :: b) = by_sep now (a ++ sep :: b) sep.
Proof.
  intros now sep a b S NE D O. unfold parseSmartDate.
  assert (forall s', separator s' -> s' <> sep -> occurs_later s' (a ++ sep :: b) = false) as F.
  { intros s' S' N. apply occurs_later_false. intro I. apply in_app_or in I as [I|[I|I]].
    - exact (split_digits s' a S' D I).
    - congruence.
    - exact (O s' S' N I). }
  pose proof (occurs_later_true sep a b NE (split_digits sep a S D)) as T.
  destruct S as [->|[->| ->]].
  - rewrite (F c_slash), (F c_dot) by (unfold separator, c_slash, c_dot; lia).
    change c_dash with 45. rewrite T. reflexivity.
  - rewrite (F c_slash) by (unfold separator, c_slash, c_dot; lia).
    change c_dot with 46. rewrite T. reflexivity.
  - change c_slash with 47. rewrite T. reflexivity.
Qed.

Lemma in_digits_sep : forall sep x y s', separator s' -> s' <> sep -> Forall digit x -> Forall digit y ->
  ~ In s' (x ++ sep :: y).
Proof.
  intros sep x y s' S N Dx Dy I. apply in_app_or in I as [I|[I|I]].
  - exact (split_digits s' x S Dx I).
  - congruence.
  - exact (split_digits s' y S Dy I).
Qed.

Lemma of_time_ok : forall l v d, of_time l v = POk d <-> time_parse l v = Some d.
Proof. intros l v d. unfold of_time. destruct (time_parse l v); split; intro H; try discriminate; injection H as <-; reflexivity. Qed.

Lemma parseYear_spec : forall s d, parseYear s = POk d <->
  (exists y, numeral 4 s y /\ d = Date y 1 1) \/ signed_year s d.
Proof.
  intros s d. unfold parseYear. split.
  - destruct (Z.eqb_spec (Z.of_nat (length s)) 4) as [L|L]; cbn [negb]; [|discriminate].
    unfold parse_int64. destruct s as [|c s]; [discriminate|].
    destruct (Z.eqb_spec c 43) as [->|N43].
    { destruct (parse_uint s) as [n|] eqn:E; [|discriminate]. apply parse_uint_spec in E as (_ & D & V).
      destruct (n <? two63); [|discriminate]. intro H. injection H as <-. right. constructor.
      split; [cbn in L; lia|auto]. }
    destruct (Z.eqb_spec c 45) as [->|N45].
    { destruct (parse_uint s) as [n|] eqn:E; [|discriminate]. apply parse_uint_spec in E as (_ & D & V).
      destruct (n <=? two63); [|discriminate]. intro H. injection H as <-. right. constructor.
      split; [cbn in L; lia|auto]. }
    destruct (parse_uint (c :: s)) as [n|] eqn:E; [|discriminate]. apply parse_uint_spec in E as (_ & D & V).
    destruct (n <? two63); [|discriminate]. intro H. injection H as <-. left. exists n.
    split; [split; [lia|auto]|reflexivity].
  - assert (forall k s n, numeral k s n -> (0 < k <= 4)%nat -> parse_uint s = Some n /\ 0 <= n < 10000) as PU.
    { intros k s0 n (L & D & V) K. split.
      - apply parse_uint_spec. repeat split; auto. intros ->. cbn in L. lia.
      - pose proof (numeral_value_bound s0 D) as B. rewrite V, L in B. split; [lia|].
        eapply Z.lt_le_trans; [apply B|]. change 10000 with (10 ^ 4). apply Z.pow_le_mono_r; lia. }
    intros [(y & N & ->)|[s' y N|s' y N]]; destruct (PU _ _ _ N ltac:(lia)) as [E B]; destruct N as (L & D & V).
    + rewrite L. cbn [Z.of_nat Z.eqb negb Pos.of_succ_nat Pos.succ Pos.eqb].
      assert (parse_int64 s = Some y) as ->; [|reflexivity].
      unfold parse_int64. destruct s as [|c s]; [discriminate|]. inversion_clear D as [|? ? Dc _]. unfold digit in Dc.
      destruct (Z.eqb_spec c 43); [lia|]. destruct (Z.eqb_spec c 45); [lia|]. rewrite E.
      destruct (Z.ltb_spec y two63); [reflexivity|]. unfold two63 in *. lia.
    + cbn [length]. rewrite L. cbn [Z.of_nat Z.eqb negb Pos.of_succ_nat Pos.succ Pos.eqb].
      assert (parse_int64 (43 :: s') = Some y) as ->; [|reflexivity].
      cbn [parse_int64]. rewrite Z.eqb_refl, E.
      destruct (Z.ltb_spec y two63); [reflexivity|]. unfold two63 in *. lia.
    + cbn [length]. rewrite L. cbn [Z.of_nat Z.eqb negb Pos.of_succ_nat Pos.succ Pos.eqb].
      assert (parse_int64 (45 :: s') = Some (- y)) as ->; [|reflexivity].
      cbn [parse_int64]. rewrite Z.eqb_refl, E. change (45 =? 43) with false.
      destruct (Z.leb_spec y two63); [reflexivity|]. unfold two63 in *. lia.
Qed.

Lemma split_at_sep : forall sep a b, ~ In sep a -> split sep (a ++ sep :: b) = a :: split sep b.
Proof.
  intros. rewrite split_app_no_sep by assumption. cbn [split]. rewrite Z.eqb_refl. now rewrite app_nil_r.
Qed.

Lemma smart_spec : forall now s d, 1000 <= now <= 9999 ->
  (parseSmartDate now s = POk d <-> smart_text now s d \/ signed_year s d).
Proof.
  intros now s d NOW. split.
  - assert (forall sep, separator sep -> by_sep now s sep = POk d -> smart_text now s d \/ signed_year s d) as K.
    { intros sep S. unfold by_sep.
      assert (parseYear s = POk d -> smart_text now s d \/ signed_year s d) as Y.
      { intro H. apply parseYear_spec in H as [(y & N & ->)|H]; [left; now constructor|now right]. }
      destruct (split sep s) as [|a [|b [|c [|e r]]]] eqn:SP; intro H; try discriminate; [auto| |].
      - destruct (Z.eqb_spec (Z.of_nat (length a)) 4) as [L|L]; apply of_time_ok in H.
        + apply time_parse_ym in H as (ys & ms & NY & NM & RM & RD & ->). left.
          destruct d as [y m dd]. cbn in *. subst dd. exact (SmartYearMonth now sep ys ms y m S NY NM RM).
        + apply time_parse_ymd in H as [T R]. inversion T as [ys ms ds NY NM ND E]; subst.
          pose proof (itoa_year now NOW) as NI.
          assert (ys = itoa now /\ ms ++ [sep] ++ ds = s) as [-> <-].
          { pose proof NY as (LY & _). pose proof NI as (LI & _).
            apply numeral4_inv in NY as (c1 & c2 & c3 & c4 & -> & _).
            apply numeral4_inv in NI as (x1 & x2 & x3 & x4 & EI & _). rewrite EI in *. cbn in E.
            injection E as -> -> -> -> E. auto. }
          assert (d_year d = now) as DY.
          { destruct NY as (_ & _ & V). destruct NI as (_ & _ & V'). congruence. }
          left. destruct d as [y m dd]. cbn in *. subst y.
          exact (SmartMonthDay now sep ms ds m dd S NM ND R).
      - apply of_time_ok in H. apply time_parse_ymd in H as [T R]. left. eapply SmartFull; eassumption. }
    unfold parseSmartDate. fold (by_sep now s c_slash) (by_sep now s c_dot) (by_sep now s c_dash).
    destruct (occurs_later c_slash s); [apply K; unfold separator, c_slash; lia|].
    destruct (occurs_later c_dot s); [apply K; unfold separator, c_dot; lia|].
    destruct (occurs_later c_dash s); [apply K; unfold separator, c_dash; lia|].
    intro H. apply parseYear_spec in H as [(y & N & ->)|H]; [left; now constructor|now right].
  - assert (forall a, (forall sep, separator sep -> ~ In sep a) -> parseSmartDate now a = parseYear a) as P.
    { intros a F. unfold parseSmartDate.
      rewrite !occurs_later_false; [reflexivity| | |]; apply F; unfold separator, c_dash, c_slash, c_dot; lia. }
    intros [H|H].
    + destruct H as [s y N|sep ys ms y m S NY NM RM|sep ms ds m dd S NM ND R|sep s d S T R].
      * pose proof N as (_ & D & _). rewrite P by (intros; now apply split_digits).
        apply parseYear_spec. left. eauto.
      * pose proof NY as (LY & DY & _). pose proof NM as (LM & DM & _). cbn [app].
        rewrite smart_by_sep; [|assumption|intros ->; discriminate|assumption|intros; now apply split_digits].
        unfold by_sep. rewrite split_at_sep by now apply split_digits.
        rewrite (split_single sep ms) by now apply split_digits. cbn [tl]. rewrite LY.
        change (Z.of_nat 4 =? 4) with true. cbn iota.
        apply of_time_ok, time_parse_ym. exists ys, ms. cbn. auto.
      * pose proof ND as (LD & DD & _). pose proof NM as (LM & DM & _). cbn [app].
        rewrite smart_by_sep; [|assumption|intros ->; discriminate|assumption|intros; now apply split_digits].
        unfold by_sep. rewrite split_at_sep by now apply split_digits.
        rewrite (split_single sep ds) by now apply split_digits. rewrite LM.
        change (Z.of_nat 2 =? 4) with false. cbn iota.
        apply of_time_ok, time_parse_ymd. split; [|assumption].
        exact (YMD sep (Date now m dd) (itoa now) ms ds (itoa_year now NOW) NM ND).
      * pose proof T as T'. destruct T as [ys ms ds NY NM ND]. 
        pose proof NY as (LY & DY & _). pose proof NM as (LM & DM & _). pose proof ND as (LD & DD & _).
        cbn [app] in *.
        rewrite smart_by_sep; [|assumption|intros ->; discriminate|assumption|intros; now apply in_digits_sep].
        unfold by_sep. rewrite split_at_sep by now apply split_digits.
        rewrite split_at_sep by now apply split_digits.
        rewrite (split_single sep ds) by now apply split_digits.
        apply of_time_ok, time_parse_ymd. auto.
    + assert (parseSmartDate now s = parseYear s) as ->.
      { destruct H as [s y (L & D & V)|s y (L & D & V)].
        - apply P. intros sep S [E|I]; [unfold separator in S; lia|]. exact (split_digits sep s S D I).
        - unfold parseSmartDate.
          rewrite (occurs_later_false c_slash), (occurs_later_false c_dot).
          + reflexivity.
          + intros [E|I]; [discriminate|]. revert I. apply split_digits; [unfold separator, c_dot; lia|assumption].
          + intros [E|I]; [discriminate|]. revert I. apply split_digits; [unfold separator, c_slash; lia|assumption]. }
      apply parseYear_spec. now right.
Qed.

Lemma smart_no_panic : forall now s, parseSmartDate now s <> PPanic.
Proof.
  intros now s. unfold parseSmartDate.
  assert (parseYear s <> PPanic) as Y.
  { unfold parseYear. destruct (negb _); [discriminate|]. destruct (parse_int64 s); discriminate. }
  assert (forall l v, of_time l v <> PPanic) as O by (intros l v; unfold of_time; destruct (time_parse l v); discriminate).
  repeat match goal with
  | |- (if ?x then _ else _) <> _ => destruct x
  | |- match ?x with _ => _ end <> _ => destruct x
  end; auto; discriminate.
Qed.
