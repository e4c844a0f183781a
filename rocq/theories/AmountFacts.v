(** * Amount texts *)
From Verif Require Import Base BaseFacts Utf8 Utf8Facts GoTime Strconv TextSpec DateFacts Display DisplayFacts.

Lemma canonical_itoa : forall n, 0 <= n -> canonical (itoa_nat n) n.
Proof.
  intros n H. destruct (itoa_nat_spec n H) as (ds & -> & NE & D & V & Z0 & LB).
  repeat split; auto. intro HD. destruct (Z.eq_dec n 0) as [E|N]; [auto|]. exfalso. specialize (LB ltac:(lia)).
  destruct ds as [|c ds]; [congruence|]. cbn in HD. subst c. inversion_clear D as [|? ? _ D'].
  pose proof (numeral_value_bound ds D') as B. 
  assert (numeral_value (48 :: ds) = numeral_value ds) as E by reflexivity. rewrite E in V.
  cbn [length] in LB. replace (Z.of_nat (S (length ds)) - 1) with (Z.of_nat (length ds)) in LB by lia. lia.
Qed.

Lemma decimal_money : forall q, money_text q (decimal (q <? 0) 2 (Z.abs q)).
Proof.
  intro q. unfold decimal. change (10 ^ Z.of_nat 2) with 100.
  set (a := Z.abs q). assert (0 <= a) by (unfold a; lia).
  apply Money; fold a.
  - apply canonical_itoa. apply Z.div_pos; lia.
  - pose proof (Z.mod_pos_bound a 100 ltac:(lia)) as MB. set (r := a mod 100) in *.
    assert (fixed_digits 2 r = [48 + r / 10; 48 + r mod 10]) as ->.
    { cbn [fixed_digits app]. rewrite (Z.mod_small (r / 10)); [reflexivity|].
      split; [apply Z.div_pos; lia|apply Z.div_lt_upper_bound; lia]. }
    pose proof (Z.div_mod r 10 ltac:(lia)). pose proof (Z.mod_pos_bound r 10 ltac:(lia)).
    assert (0 <= r / 10 < 10) by (split; [apply Z.div_pos; lia|apply Z.div_lt_upper_bound; lia]).
    split; [reflexivity|]. split.
    + apply Forall_cons; [unfold digit; lia|]. apply Forall_cons; [unfold digit; lia|constructor].
    + unfold numeral_value. cbn [fold_left]. lia.
Qed.

Lemma money_amount : forall q s, money_text q s -> amount_text s q.
Proof.
  intros q s [w c (NE & D & V & _) NC].
  assert (forall sg m, sign_text sg m -> m * Z.abs q = q -> amount_text (sg ++ w ++ [46] ++ c) q) as K.
  { intros sg m ST EQ. pose proof (CentsAmount sg m w c _ ST NE D NC) as A. rewrite V in A.
    replace (100 * (Z.abs q / 100) + Z.abs q mod 100) with (Z.abs q) in A by (apply Z.div_mod; lia).
    now rewrite EQ in A. }
  destruct (Z.ltb_spec q 0); [apply (K [45] (-1))|apply (K [] 1)]; try constructor; lia.
Qed.

(** ** strconv.ParseInt *)

Lemma digits_first : forall w, w <> [] -> Forall digit w -> exists c w', w = c :: w' /\ digit c.
Proof. intros w NE D. destruct w; [congruence|]. inversion D; subst. eauto. Qed.

Lemma parse_int64_spec : forall s n, parse_int64 s = Some n <-> go_integer s n.
Proof.
  intros s n. unfold parse_int64. split.
  - destruct s as [|c s]; [discriminate|]. destruct (Z.eqb_spec c 43) as [->|N43].
    { destruct (parse_uint s) as [k|] eqn:E; [|discriminate]. apply parse_uint_spec in E as (NE & D & V).
      pose proof (numeral_value_bound s D). destruct (Z.ltb_spec k two63); [|discriminate]. intro H1. injection H1 as <-.
      subst k. replace (numeral_value s) with (1 * numeral_value s) by lia.
      apply (GoInteger [43] 1 s); auto using sign_text. unfold in_int64, two63 in *. lia. }
    destruct (Z.eqb_spec c 45) as [->|N45].
    { destruct (parse_uint s) as [k|] eqn:E; [|discriminate]. apply parse_uint_spec in E as (NE & D & V).
      pose proof (numeral_value_bound s D). destruct (Z.leb_spec k two63); [|discriminate]. intro H1. injection H1 as <-.
      subst k. replace (- numeral_value s) with (-1 * numeral_value s) by lia.
      apply (GoInteger [45] (-1) s); auto using sign_text. unfold in_int64, two63 in *. lia. }
    destruct (parse_uint (c :: s)) as [k|] eqn:E; [|discriminate]. apply parse_uint_spec in E as (NE & D & V).
    pose proof (numeral_value_bound _ D). destruct (Z.ltb_spec k two63); [|discriminate]. intro H1. injection H1 as <-.
    rewrite <- V in *. replace (numeral_value (c :: s)) with (1 * numeral_value (c :: s)) by lia.
    apply (GoInteger [] 1 (c :: s)); auto using sign_text. unfold in_int64, two63 in *. lia.
  - intros [sg m w ST NE D R]. pose proof (numeral_value_bound w D) as B.
    assert (parse_uint w = Some (numeral_value w)) as PU by (apply parse_uint_spec; auto).
    unfold in_int64 in R. destruct ST; cbn [app].
    + destruct (digits_first w NE D) as (c & w' & -> & Dc). unfold digit in Dc.
      destruct (Z.eqb_spec c 43); [lia|]. destruct (Z.eqb_spec c 45); [lia|]. rewrite PU.
      destruct (Z.ltb_spec (numeral_value (c :: w')) two63); [f_equal; lia|lia].
    + rewrite Z.eqb_refl, PU. destruct (Z.ltb_spec (numeral_value w) two63); [f_equal; lia|lia].
    + change (45 =? 43) with false. rewrite Z.eqb_refl, PU.
      destruct (Z.leb_spec (numeral_value w) two63); [f_equal; lia|lia].
Qed.

Lemma go_integer_ascii : forall s n, go_integer s n -> Forall ascii s.
Proof.
  intros s n [sg m w ST NE D R]. apply Forall_app. split.
  - destruct ST; repeat constructor; unfold ascii; lia.
  - eapply Forall_impl; [|exact D]. unfold digit, ascii. cbn. intros; lia.
Qed.
Lemma go_integer_no_dot : forall s n, go_integer s n -> ~ In 46 s.
Proof.
  intros s n [sg m w ST NE D R] I. apply in_app_or in I as [I|I].
  - destruct ST; cbn in I; intuition lia.
  - rewrite Forall_forall in D. specialize (D _ I). unfold digit in D. lia.
Qed.

Lemma go_integer_nonempty : forall s n, go_integer s n -> s <> [].
Proof. intros s n [sg m w ST NE D R] E. apply app_eq_nil in E as [_ E]. auto. Qed.

Lemma int_of_runes : forall w n, Forall (fun r => valid_rune r = true) w ->
  (parse_int64 (encode w) = Some n <-> go_integer w n).
Proof.
  intros w n V. rewrite parse_int64_spec. split; intro H.
  - pose proof (go_integer_ascii _ _ H) as A. now rewrite (encode_is_ascii w (encode w) V eq_refl A).
  - now rewrite encode_ascii by (eapply go_integer_ascii; eassumption).
Qed.

Lemma Forall_firstn' : forall A (P : A -> Prop) n l, Forall P l -> Forall P (firstn n l).
Proof. intros A P n l H. revert n. induction H; intros [|n]; cbn; constructor; auto. Qed.
Lemma Forall_skipn' : forall A (P : A -> Prop) n l, Forall P l -> Forall P (skipn n l).
Proof. intros A P n l H. revert n. induction H; intros [|n]; cbn; try constructor; auto. Qed.

Lemma index_of_split : forall b s i k, index_of b s i = Some k ->
  exists j, k = (i + j)%nat /\ s = firstn j s ++ b :: skipn (S j) s /\ ~ In b (firstn j s).
Proof.
  induction s as [|c s IH]; intros i k H; cbn in H; [discriminate|]. destruct (Z.eqb_spec c b) as [->|N].
  - injection H as <-. exists 0%nat. repeat split; [lia|auto].
  - apply IH in H as (j & -> & E & NI). exists (S j). split; [lia|]. split.
    + change (firstn (S j) (c :: s)) with (c :: firstn j s). change (skipn (S (S j)) (c :: s)) with (skipn (S j) s).
      cbn [app]. now rewrite <- E.
    + cbn [firstn]. intros [I|I]; congruence.
Qed.
Lemma index_of_none_iff : forall b s i, index_of b s i = None -> ~ In b s.
Proof.
  induction s as [|c s IH]; intros i H; cbn in H; [auto|]. destruct (Z.eqb_spec c b); [discriminate|].
  intros [I|I]; [congruence|]. exact (IH _ H I).
Qed.

(** The texts accepted and their value. *)
Inductive amount_body (m : Z) : str -> Z -> Prop :=
| BodyWhole : forall w n, go_integer w n -> amount_body m w (wrap64 (m * (100 * n)))
| BodyCents : forall w n c k, go_integer w n -> go_integer c k ->
    amount_body m (w ++ [46] ++ c) (wrap64 (m * (100 * n + k))).
Inductive accepted_amount : str -> Z -> Prop :=
| AcceptedPlain : forall s q, (forall x, hd_error s = Some x -> x <> 43 /\ x <> 45) -> amount_body 1 s q ->
    accepted_amount s q
| AcceptedPlus : forall s q, amount_body 1 s q -> accepted_amount (43 :: s) q
| AcceptedMinus : forall s q, amount_body (-1) s q -> accepted_amount (45 :: s) q.

Definition read_body (m : Z) (content1 : list Z) : pres Z :=
  match index_of c_dot content1 0 with
  | None =>
      match parse_int64 (encode content1) with
      | None => PErr (EParseInt (encode content1))
      | Some whole => POk (wrap64 (m * wrap64 (wrap64 (whole * 100) + 0)))
      end
  | Some decimalPosition =>
      match parse_int64 (encode (firstn decimalPosition content1)) with
      | None => PErr (EParseInt (encode (firstn decimalPosition content1)))
      | Some whole =>
          match parse_int64 (encode (skipn (S decimalPosition) content1)) with
          | None => PErr (EParseInt (encode (skipn (S decimalPosition) content1)))
          | Some decimal => POk (wrap64 (m * wrap64 (wrap64 (whole * 100) + decimal)))
          end
      end
  end.

Lemma read_body_spec : forall m s q, Forall (fun r => valid_rune r = true) s ->
  (read_body m s = POk q <-> amount_body m s q).
Proof.
  intros m s q V. unfold read_body. split.
  - destruct (index_of c_dot s 0) as [k|] eqn:I.
    + apply index_of_split in I as (j & -> & E & N). cbn [Nat.add].
      destruct (parse_int64 (encode (firstn j s))) as [n|] eqn:P1; [|discriminate].
      destruct (parse_int64 (encode (skipn (S j) s))) as [k|] eqn:P2; [|discriminate].
      apply int_of_runes in P1; [|now apply Forall_firstn']. apply int_of_runes in P2; [|now apply Forall_skipn'].
      intro H. injection H as <-. rewrite E.
      rewrite wrap64_mul_r, (Z.mul_comm n), <- (wrap64_mul_r m), wrap64_add_l, wrap64_mul_r.
      exact (BodyCents m _ n _ k P1 P2).
    + destruct (parse_int64 (encode s)) as [n|] eqn:P; [|discriminate].
      apply int_of_runes in P; [|assumption]. intro H. injection H as <-.
      rewrite Z.add_0_r, wrap64_wrap64, wrap64_mul_r, (Z.mul_comm n). now constructor.
  - intros [w n G|w n c k G1 G2].
    + rewrite index_of_none by (eapply go_integer_no_dot; eassumption).
      rewrite (encode_ascii w), (proj2 (parse_int64_spec w n)) by (assumption || eapply go_integer_ascii; eassumption).
      now rewrite Z.add_0_r, wrap64_wrap64, wrap64_mul_r, (Z.mul_comm n).
    + cbn [app]. change c_dot with 46. rewrite index_of_app by (eapply go_integer_no_dot; eassumption).
      cbn [Nat.add]. rewrite firstn_app, Nat.sub_diag, firstn_all, firstn_O, app_nil_r.
      replace (skipn (S (length w)) (w ++ 46 :: c)) with c
        by (change (S (length w)) with (1 + length w)%nat; rewrite <- skipn_skipn, skipn_app, skipn_all, Nat.sub_diag; reflexivity).
      rewrite (encode_ascii w), (encode_ascii c) by (eapply go_integer_ascii; eassumption).
      rewrite (proj2 (parse_int64_spec w n)), (proj2 (parse_int64_spec c k)) by assumption.
      f_equal. now rewrite wrap64_mul_r, (Z.mul_comm n), <- (wrap64_mul_r m), wrap64_add_l, wrap64_mul_r.
Qed.

Lemma parseAmount_spec : forall s q, Forall (fun r => valid_rune r = true) s ->
  (parseAmount s = POk q <-> accepted_amount s q).
Proof.
  intros s q V. destruct s as [|c s].
  - cbn. split; [discriminate|]. intro H. inversion H as [s' q' _ B| |]; subst. exfalso.
    inversion B as [w n G Ew|w n c k G1 G2 EQ].
    + exact (go_integer_nonempty _ _ G eq_refl).
    + apply app_eq_nil in EQ as [_ EQ]. discriminate.
  - inversion_clear V as [|? ? Vc V']. unfold parseAmount.
    destruct (Z.eqb_spec c 43) as [->|N43].
    { fold (read_body 1 s). rewrite read_body_spec by assumption. split; [now constructor|].
      intro H. inversion H as [s' q' HD B| |]; subst; [|assumption].
      destruct (HD 43 eq_refl). congruence. }
    destruct (Z.eqb_spec c 45) as [->|N45].
    { fold (read_body (-1) s). rewrite read_body_spec by assumption. split; [now constructor|].
      intro H. inversion H as [s' q' HD B| |]; subst; [|assumption].
      destruct (HD 45 eq_refl). congruence. }
    fold (read_body 1 (c :: s)). rewrite read_body_spec by (constructor; assumption). split.
    + intro B. constructor; [|assumption]. intros x E. injection E as <-. auto.
    + intro H. inversion H as [s' q' HD B|s' q' B|s' q' B]; subst; congruence.
Qed.

Lemma parseAmount_no_panic : forall s, s <> [] -> parseAmount s <> PPanic.
Proof.
  intros s NE. unfold parseAmount. destruct s as [|c s]; [congruence|].
  destruct (if c =? 43 then _ else _) as [m s1].
  destruct (index_of c_dot s1 0); repeat match goal with
  | |- match ?x with _ => _ end <> _ => destruct x
  end; discriminate.
Qed.

(** The texts refused, and the part of the text that is no integer. *)
Inductive faulty_body : str -> str -> Prop :=
| FaultyWhole : forall w, ~ In 46 w -> (forall n, ~ go_integer w n) -> faulty_body w w
| FaultyBefore : forall w c, ~ In 46 w -> (forall n, ~ go_integer w n) -> faulty_body (w ++ [46] ++ c) w
| FaultyAfter : forall w n c, go_integer w n -> (forall k, ~ go_integer c k) -> faulty_body (w ++ [46] ++ c) c.
Inductive faulty_amount : str -> str -> Prop :=
| FaultyPlain : forall s part, (forall x, hd_error s = Some x -> x <> 43 /\ x <> 45) -> faulty_body s part -> faulty_amount s part
| FaultySigned : forall x s part, x = 43 \/ x = 45 -> faulty_body s part -> faulty_amount (x :: s) part.

Lemma no_int : forall w, Forall (fun r => valid_rune r = true) w -> ((forall n, ~ go_integer w n) <-> parse_int64 (encode w) = None).
Proof.
  intros w V. split.
  - intro H. destruct (parse_int64 (encode w)) as [n|] eqn:P; [|reflexivity]. apply int_of_runes in P; [|exact V]. now apply H in P.
  - intros P n G. apply int_of_runes in G; [|exact V]. congruence.
Qed.

Lemma int_none : forall w, parse_int64 (encode w) = None -> Forall (fun r => valid_rune r = true) w -> forall n, ~ go_integer w n.
Proof. intros w P V. now apply no_int. Qed.

Lemma read_body_refused : forall m s e, Forall (fun r => valid_rune r = true) s ->
  (read_body m s = PErr e <-> exists part, faulty_body s part /\ e = EParseInt (encode part)).
Proof.
  intros m s e V. unfold read_body. split.
  - destruct (index_of c_dot s 0) as [k|] eqn:I.
    + apply index_of_split in I as (j & -> & E & N). cbn [Nat.add].
      destruct (parse_int64 (encode (firstn j s))) as [n|] eqn:P1.
      * destruct (parse_int64 (encode (skipn (S j) s))) as [k|] eqn:P2; [discriminate|]. intro H. injection H as <-.
        apply int_of_runes in P1; [|now apply Forall_firstn']. pose proof (int_none _ P2 (Forall_skipn' _ _ _ _ V)) as P3.
        eexists. split; [|reflexivity]. rewrite E at 1. exact (FaultyAfter _ n _ P1 P3).
      * intro H. injection H as <-. pose proof (int_none _ P1 (Forall_firstn' _ _ _ _ V)) as P3.
        eexists. split; [|reflexivity]. rewrite E at 1. exact (FaultyBefore _ _ N P3).
    + apply index_of_none_iff in I. destruct (parse_int64 (encode s)) as [n|] eqn:P; [discriminate|]. intro H. injection H as <-.
      pose proof (int_none _ P V) as P3. eexists. split; [|reflexivity]. now apply FaultyWhole.
  - assert (Sp : forall w c : str, ~ In 46 w -> index_of c_dot (w ++ [46] ++ c) 0 = Some (length w) /\ firstn (length w) (w ++ [46] ++ c) = w /\
      skipn (S (length w)) (w ++ [46] ++ c) = c).
    { intros w c N. change c_dot with 46. cbn [app]. rewrite index_of_app by exact N. split; [reflexivity|]. split.
      - now rewrite firstn_app, Nat.sub_diag, firstn_all, firstn_O, app_nil_r.
      - change (S (length w)) with (1 + length w)%nat. rewrite <- skipn_skipn, skipn_app, skipn_all, Nat.sub_diag. reflexivity. }
    intros (part & Hf & ->). destruct Hf as [w N B|w c N B|w n c G B].
    + rewrite index_of_none by exact N. apply no_int in B; [|exact V]. now rewrite B.
    + destruct (Sp w c N) as (-> & -> & ->). apply Forall_app in V as [Vw _]. apply no_int in B; [|exact Vw]. now rewrite B.
    + destruct (Sp w c (go_integer_no_dot _ _ G)) as (-> & -> & ->). apply Forall_app in V as [Vw Vc]. apply Forall_app in Vc as [_ Vc].
      apply no_int in B; [|exact Vc]. apply int_of_runes in G; [|exact Vw]. now rewrite G, B.
Qed.

Lemma parseAmount_refused : forall s e, s <> [] -> Forall (fun r => valid_rune r = true) s ->
  (parseAmount s = PErr e <-> exists part, faulty_amount s part /\ e = EParseInt (encode part)).
Proof.
  intros s e NE V. destruct s as [|c s]; [congruence|]. inversion_clear V as [|? ? Vc V']. unfold parseAmount.
  assert (K : forall m, c = 43 \/ c = 45 -> (read_body m s = PErr e <-> exists part, faulty_amount (c :: s) part /\ e = EParseInt (encode part))).
  { intros m Hc. rewrite read_body_refused by assumption. split; intros (part & B & Q); exists part; (split; [|exact Q]).
    - now apply FaultySigned.
    - inversion B as [s' part' HD B'|]; subst; [|assumption]. destruct (HD c eq_refl). lia. }
  destruct (Z.eqb_spec c 43) as [->|N43]; [fold (read_body 1 s); apply K; auto|].
  destruct (Z.eqb_spec c 45) as [->|N45]; [fold (read_body (-1) s); apply K; auto|].
  fold (read_body 1 (c :: s)). rewrite read_body_refused by (constructor; assumption). split; intros (part & B & Q); exists part; (split; [|exact Q]).
  - apply FaultyPlain; [|exact B]. intros x E. injection E as <-. auto.
  - inversion B as [|x s' part' X B']; subst; [assumption|]. lia.
Qed.

Lemma digits_valid : forall w, Forall digit w -> Forall (fun r => valid_rune r = true) w.
Proof.
  intros w D. eapply Forall_impl; [|exact D]. intros a H. apply ascii_valid. unfold digit, ascii in *. cbn in H. lia.
Qed.

Lemma amount_text_read : forall s q, amount_text s q -> in_int64 q -> parseAmount s = POk q.
Proof.
  intros s q T R.
  assert (forall w, w <> [] -> Forall digit w -> numeral_value w < two63 -> go_integer w (numeral_value w)) as GI.
  { intros w NE D L. pose proof (numeral_value_bound w D). replace (numeral_value w) with (1 * numeral_value w) by lia.
    apply (GoInteger [] 1 w); auto using sign_text. unfold in_int64, two63 in *. lia. }
  assert (Forall (fun r => valid_rune r = true) s) as V.
  { destruct T as [sg m w ST NE D|sg m w c k ST NE D (_ & DC & _)];
      repeat (apply Forall_app; split); try (now apply digits_valid);
      try (destruct ST; repeat constructor). }
  apply parseAmount_spec; [assumption|].
  destruct T as [sg m w ST NE D|sg m w c k ST NE D NC]; unfold in_int64 in R; pose proof (numeral_value_bound w D) as BW.
  - assert (go_integer w (numeral_value w)) as G.
    { apply GI; auto. destruct ST; unfold two63 in *; lia. }
    rewrite <- (wrap64_id (m * (100 * numeral_value w))) by assumption.
    destruct ST; cbn [app].
    + apply AcceptedPlain; [|now constructor]. intros x E. destruct (digits_first w NE D) as (y & w' & -> & Dy).
      injection E as <-. unfold digit in Dy. lia.
    + apply AcceptedPlus. now constructor.
    + apply AcceptedMinus. now constructor.
  - pose proof NC as (LC & DC & VC). pose proof (numeral_value_bound c DC) as BC. rewrite LC in BC.
    change (10 ^ Z.of_nat 2) with 100 in BC.
    assert (go_integer w (numeral_value w)) as G.
    { apply GI; auto. destruct ST; unfold two63 in *; lia. }
    assert (go_integer c k) as GC.
    { subst k. apply GI; auto; [|unfold two63; lia]. intros ->. discriminate. }
    rewrite <- (wrap64_id (m * (100 * numeral_value w + k))) by assumption.
    destruct ST; cbn [app].
    + apply AcceptedPlain; [|exact (BodyCents 1 w _ c k G GC)].
      intros x E. destruct (digits_first w NE D) as (y & w' & -> & Dy).
      injection E as <-. unfold digit in Dy. lia.
    + apply AcceptedPlus. exact (BodyCents 1 w _ c k G GC).
    + apply AcceptedMinus. exact (BodyCents (-1) w _ c k G GC).
Qed.

Lemma display_money : forall q, Z.abs q <= exact_limit -> money_text q (display_quantity q).
Proof. intros q B. rewrite display_exact by assumption. apply decimal_money. Qed.

Lemma money_unique : forall q s s', money_text q s -> money_text q s' -> s = s'.
Proof.
  intros q s s' [w c CW NC] [w' c' CW' NC']. f_equal.
  rewrite (numeral_unique 2 c c' _ NC NC'). f_equal.
  destruct CW as (NE & D & V & H0). destruct CW' as (NE' & D' & V' & H0').
  assert (forall w w', w <> [] -> Forall digit w -> (hd 0 w = 48 -> w = [48]) -> Forall digit w' -> w' <> [] ->
    numeral_value w = numeral_value w' -> (length w <= length w')%nat) as K.
  { clear. intros w w' NE D H0 D' NE' E. destruct (Nat.leb_spec (length w) (length w')); [assumption|exfalso].
    destruct w as [|x w]; [congruence|].
    destruct (Z.eq_dec x 48) as [->|NX].
    { specialize (H0 eq_refl). injection H0 as ->. cbn in H. destruct w'; [congruence|cbn in H; lia]. }
    inversion_clear D as [|? ? Dx Dw]. unfold digit in Dx.
    pose proof (numeral_value_bound w' D') as B'.
    assert (numeral_value (x :: w) = (x - 48) * 10 ^ Z.of_nat (length w) + numeral_value w) as EX.
    { change (x :: w) with ([x] ++ w). rewrite numeral_value_app. unfold numeral_value at 1. cbn [fold_left]. lia. }
    pose proof (numeral_value_bound w Dw) as BW. cbn [length] in H.
    assert (10 ^ Z.of_nat (length w') <= 10 ^ Z.of_nat (length w)) by (apply Z.pow_le_mono_r; lia). nia. }
  apply (numeral_unique (length w) w w' (Z.abs q / 100)).
  - split; [reflexivity|auto].
  - split; [|auto]. apply Nat.le_antisymm; apply K; auto; congruence.
Qed.
