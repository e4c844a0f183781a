(** * Properties of amounts, dates and scanning (C04-C10) *)
From Verif Require Import Base BaseFacts Utf8 Utf8Facts Unicode GoTime Strconv Display Journal Lexer LexSpec
  LexerFacts LexText LexBounds Parser ParserFacts FlatSpec FlatFacts Spec TextSpec DateFacts DisplayFacts AmountFacts LargeFacts
  IncludeFacts ReadFacts Sample.

Ltac all_chars := apply Forall_forall; intros x X; cbn in X; unfold digit, ascii; lia.

(** ** C04: amounts *)

(** Amounts without decimals or with two of them, within int64, are read exactly.
    Missing: any other number of decimals (see below). *)
Theorem C04_amounts_exact_partial : forall s q, amount_text s q -> in_int64 q -> parseAmount s = POk q.
Proof. exact amount_text_read. Qed.
Example C04_exact_example : amount_text (lit "-1234.05") (-123405) /\ in_int64 (-123405) /\
  amount_text (lit "+70") 7000.
Proof.
  split; [|split].
  - apply (CentsAmount [45] (-1) (lit "1234") (lit "05") 5); [constructor|discriminate| |].
    + all_chars.
    + split; [reflexivity|]. split; [|reflexivity]. all_chars.
  - unfold in_int64, two63. lia.
  - apply (WholeAmount [43] 1 (lit "70")); [constructor|discriminate|].
    all_chars.
Qed.

(** The texts accepted, and what each is read as. *)
Theorem C04_accepted_texts : forall s q, Forall (fun r => valid_rune r = true) s ->
  (parseAmount s = POk q <-> accepted_amount s q).
Proof. exact parseAmount_spec. Qed.
Example C04_accepted_example : accepted_amount (lit "-12.30") (-1230) /\ ~ exists q, accepted_amount (lit "12.3x") q.
Proof.
  assert (forall s, Forall ascii s -> Forall (fun r => valid_rune r = true) s) as V.
  { intros s F. eapply Forall_impl; [|exact F]. exact ascii_valid. }
  split.
  - apply parseAmount_spec; [apply V; all_chars|reflexivity].
  - intros [q H]. apply parseAmount_spec in H; [discriminate|]. apply V. all_chars.
Qed.

(** One decimal is read as so many hundredths, not tenths; and texts that are no
    amounts are accepted. *)
Theorem C04_one_decimal_refuted :
  (exists s q q', decimal_text s q /\ in_int64 q /\ parseAmount s = POk q' /\ q' <> q) /\
  (exists s q', (forall q, ~ decimal_text s q) /\ parseAmount s = POk q').
Proof.
  split.
  - exists (lit "1.5"), 150, 105. split; [|split; [unfold in_int64, two63; lia|split; [reflexivity|discriminate]]].
    apply (DecimalPoint [] 1 (lit "1") (lit "5")); try discriminate; try reflexivity; [constructor| |];
      all_chars.
  - exists (lit "--5"), 500. split; [|reflexivity]. intros q H. inversion H as [sg m w SG N F E|sg m w c q' SG N F N' F' E' E].
    + inversion SG; subst; destruct w as [|x w]; try congruence; cbn in E; try discriminate E;
        (assert (x = 45) by congruence); inversion F as [|? ? D _]; unfold digit in D; lia.
    + inversion SG; subst; destruct w as [|x w]; try congruence; cbn in E; try discriminate E;
        (assert (x = 45) by congruence); inversion F as [|? ? D _]; unfold digit in D; lia.
Qed.

(** ** C05: display *)

(** Up to 100*2^46 hundredths (about 70 million million) the text is the exact
    numeral.  Missing: larger quantities, for which it is false. *)
Theorem C05_display_exact_partial : forall c q w, Z.abs q <= 100 * 2 ^ 46 ->
  exists s, money_text q s /\ displayableQuantity (Amount c q) w = (if w then c else []) ++ s.
Proof.
  intros c q w H. exists (display_quantity q). split; [now apply display_money|].
  unfold displayableQuantity. cbn. now destruct w.
Qed.
Example C05_example : displayableQuantity (Amount (lit "$") (-100000001)) true = lit "$-1000000.01" /\
  Z.abs (-100000001) <= 100 * 2 ^ 46.
Proof. split; [reflexivity|lia]. Qed.

Theorem C05_display_refuted : exists q, in_int64 q /\ ~ money_text q (displayableQuantity (Amount [] q) false).
Proof.
  exists (100 * 2 ^ 46 + 1). split; [unfold in_int64, two63; lia|]. intro H.
  assert (money_text (100 * 2 ^ 46 + 1) (decimal (100 * 2 ^ 46 + 1 <? 0) 2 (Z.abs (100 * 2 ^ 46 + 1)))) as M
    by apply decimal_money.
  pose proof (money_unique _ _ _ H M) as E. vm_compute in E. discriminate E.
Qed.

(** For every quantity at all the text is the numeral of some number of
    hundredths with the sign of the quantity, off by at most one hundredth and
    one part in 2^52. *)
Theorem C05_display_close : forall c q w, in_int64 q ->
  exists q' s, money_text q' s /\ displayableQuantity (Amount c q) w = (if w then c else []) ++ s /\
    (q < 0 <-> q' < 0) /\ 2 ^ 52 * Z.abs (q' - q) <= Z.abs q + 2 ^ 52.
Proof.
  intros c q w R. destruct (display_close q) as (q' & E & S & B).
  { assert (2 ^ 63 = two63) by reflexivity. assert (2 ^ 63 < 2 ^ 64) by reflexivity. unfold in_int64 in R. lia. }
  exists q', (display_quantity q). split; [rewrite E; apply decimal_money|]. split; [unfold displayableQuantity; cbn; now destruct w|].
  split; [|exact B]. rewrite <- !Z.ltb_lt, S. tauto.
Qed.
Example C05_close_example : in_int64 9223372036854775807 /\
  displayableQuantity (Amount (lit "$") 9223372036854775807) true = lit "$92233720368547760.00" /\
  2 ^ 52 * Z.abs (9223372036854776000 - 9223372036854775807) <= Z.abs 9223372036854775807 + 2 ^ 52.
Proof. split; [unfold in_int64, two63; lia|]. split; [vm_compute; reflexivity|vm_compute; discriminate]. Qed.

(** ** C06: reading back what is displayed *)
Lemma money_read : forall q s, money_text q s -> in_int64 q -> parseAmount (decode s) = POk q.
Proof.
  intros q s M R. apply money_amount in M.
  assert (Forall ascii s) as A.
  { assert (forall w, Forall digit w -> Forall ascii w) as DA.
    { intros w F. eapply Forall_impl; [|exact F]. intros a D. unfold digit in D. unfold ascii. lia. }
    destruct M as [sg m w SG N D|sg m w k n SG N D (L & D' & V)]; 
    rewrite ?Forall_app; repeat split; auto; try (inversion SG; repeat constructor; unfold ascii; lia);
    try (repeat constructor; unfold ascii; lia). }
  rewrite decode_ascii by assumption. now apply amount_text_read.
Qed.

Theorem C06_read_back_partial : forall c q, Z.abs q <= 100 * 2 ^ 46 ->
  parseAmount (decode (displayableQuantity (Amount c q) false)) = POk q.
Proof.
  intros c q H. unfold displayableQuantity. cbn [am_quantity]. apply money_read; [now apply display_money|].
  unfold in_int64, two63. lia.
Qed.

(** Larger quantities are read back to within one hundredth and one part in
    2^52.  Missing: the 2048 last quantities on either side, whose text may
    denote a number beyond int64. *)
Theorem C06_close_partial : forall c q, Z.abs q <= 2 ^ 63 - 2049 ->
  exists q', parseAmount (decode (displayableQuantity (Amount c q) false)) = POk q' /\
    2 ^ 52 * Z.abs (q' - q) <= Z.abs q + 2 ^ 52.
Proof.
  intros c q H. assert (in_int64 q) as R by (unfold in_int64, two63; lia).
  destruct (C05_display_close c q false R) as (q' & s & M & E & _ & B). exists q'. split; [|exact B].
  rewrite E. cbn [app]. apply (money_read _ _ M). unfold in_int64, two63.
  assert (Z.abs (q' - q) <= 2048); [|lia]. lia.
Qed.
Example C06_close_example : Z.abs 9223372036854773000 <= 2 ^ 63 - 2049 /\
  parseAmount (decode (displayableQuantity (Amount (lit "$") 9223372036854773000) false)) = POk 9223372036854772800.
Proof. split; [vm_compute; discriminate|vm_compute; reflexivity]. Qed.

Example C06_example : parseAmount (decode (displayableQuantity (Amount (lit "$") (-5)) false)) = POk (-5).
Proof. reflexivity. Qed.

Theorem C06_read_back_refuted : exists q, in_int64 q /\
  parseAmount (decode (displayableQuantity (Amount [] q) false)) <> POk q.
Proof.
  exists (100 * 2 ^ 46 + 1). split; [unfold in_int64, two63; lia|]. vm_compute. discriminate.
Qed.

(** ** C07: header dates *)

Definition header_date (w : list Z) (d : date) : Prop :=
  real_date d /\ exists sep, separator sep /\ ymd_text sep d w.

Theorem C07_header_dates : forall w d, Forall (fun r => valid_rune r = true) w -> (5 <= length w)%nat ->
  (parseDate w = POk d <-> header_date w d).
Proof.
  intros w d V L. destruct (parseDate_spec w V L) as [H _]. rewrite H. split; [intros (sep & S & T & R)|intros (R & sep & S & T)].
  - split; eauto.
  - eauto.
Qed.

(** A line that starts with a digit and whose first word [w] (up to a space) has
    at least five runes: a transaction begins with exactly the date written, or
    reading fails with an error. *)
Theorem C07_header_lines : forall U l b w rest, decode l = w ++ rest -> (5 <= length w)%nat ->
  digit (hd 0 w) -> Forall (fun r => (r =? 32) = false) w -> (rest = [] \/ hd 0 rest = 32) ->
  let '(b', es, r) := flat_line U l b in
  match r with
  | SOk => exists t, b_txn b' = Some t /\ b_type b' = normalTransaction /\ header_date w (t_date t) /\ t_postings t = []
  | SErr _ => True
  | _ => False
  end /\
  ((forall d, ~ header_date w d) -> exists e, r = SErr e) /\
  (forall d, header_date w d -> snd (close_open b) = SOk -> r = SOk).
Proof.
  intros U l b w rest E L D F R.
  assert (date_word w rest) as DW by (repeat split; assumption || apply D).
  assert (w <> []) as N by (intros ->; cbn in L; lia).
  destruct (flat_line_header U l w rest E DW N) as (state & payee & note & LX & HS & HN).
  assert (Forall (fun r => valid_rune r = true) w) as V.
  { pose proof (decode_valid l) as V. rewrite E in V. now apply Forall_app in V as [V _]. }
  unfold flat_line. rewrite LX. pose proof (header_result b w state payee note HS HN) as H.
  destruct (flat_items b ((dateItem, w) :: state ++ (payeeItem, payee) :: note) None) as [[b' es] r].
  cbn zeta in H. destruct (parseDate_spec w V L) as [PD NP].
  destruct (close_open b) as [[b1 es1] r1] eqn:CO.
  assert (r1 = SOk \/ exists e, r1 = SErr e) as R1.
  { clear - CO. unfold close_open in CO.
    destruct (b_type b); [destruct (b_txn b)|destruct (b_ptxn b)];
      try destruct (endNormalTransaction _ _) as [? [e|]]; injection CO as <- <- <-; eauto. }
  destruct R1 as [->|[e ->]].
  - destruct (parseDate w) as [d|e|].
    + destruct H as (t & HR & HT). injection HR as -> -> ->. cbn [b_txn b_type].
      assert (header_date w d) as HD by (destruct (proj1 (PD d) eq_refl) as (sep & ? & ? & ?); split; eauto).
      split; [exists t; subst t; auto|]. split; [intro X; exfalso; exact (X d HD)|auto].
    + destruct H as (b2 & HR). injection HR as -> -> ->. split; [exact I|]. split; [eauto|].
      intros d' (RD & sep & S & T) _. assert (PErr e = POk d') by (apply PD; eauto). discriminate.
    + congruence.
  - injection H as -> -> ->. split; [exact I|]. split; [eauto|]. cbn. discriminate.
Qed.

(** In a parse that succeeds, every header word of five or more runes, in every
    file read, is the date of a calendar day. *)
Theorem C07_success_means_dates : forall S U fs th ph depth hint f (s : S) p f' l w rest,
  snd (parse U fs th ph depth hint f s) = SOk ->
  reads U fs (hint, f) (p, f') -> In (Line l) (file_lines (f_bytes f')) ->
  decode l = w ++ rest -> (5 <= length w)%nat ->
  digit (hd 0 w) -> Forall (fun r => (r =? 32) = false) w -> (rest = [] \/ hd 0 rest = 32) ->
  exists d, header_date w d.
Proof.
  intros S U fs th ph depth hint f s p f' l w rest H R I E L D F RE.
  assert (date_word w rest) as DW by (repeat split; assumption || apply D).
  assert (w <> []) as N by (intros ->; cbn in L; lia).
  destruct (read_line_ok U fs S th ph depth hint f s p f' l H R I (header_not_included U p l w rest E DW N))
    as (b1 & b2 & es & FL).
  pose proof (C07_header_lines U l b1 w rest E L D F RE) as X. rewrite FL in X.
  destruct X as ((t & _ & _ & HD & _) & _). eauto.
Qed.
Example C07_example :
  let l := lit "2020.02.29 Shop" in let w := lit "2020.02.29" in
  decode l = w ++ lit " Shop" /\ header_date w (Date 2020 2 29) /\
  ~ (exists d, header_date (lit "2019-02-29") d) /\ ~ (exists d, header_date (lit "2020/01-02") d).
Proof.
  assert (forall s, Forall ascii s -> Forall (fun r => valid_rune r = true) s) as V.
  { intros s F. eapply Forall_impl; [|exact F]. exact ascii_valid. }
  cbv zeta. split; [reflexivity|]. split; [|split].
  - apply C07_header_dates; [apply V; all_chars|cbn; lia|reflexivity].
  - intros [d H]. apply C07_header_dates in H; [discriminate|apply V; all_chars|cbn; lia].
  - intros [d H]. apply C07_header_dates in H; [discriminate|apply V; all_chars|cbn; lia].
Qed.

(** ** C08: malformed header dates *)
Theorem C08_short_date_refuted : exists U fs depth hint f,
  snd (trace U fs depth hint f) = SPanic /\ hd 0 (f_bytes f) = 49.
Proof. exists U0, no_files, 0%nat, (lit "j"), (File (lit "1 Shop
") false). split; reflexivity. Qed.

(** Reading a line that starts with a digit panics exactly when its first word
    has fewer than five runes (and the transaction before it could be closed). *)
Theorem C08_panic_iff_short_word_partial : forall U l b w rest, decode l = w ++ rest -> w <> [] ->
  digit (hd 0 w) -> Forall (fun r => (r =? 32) = false) w -> (rest = [] \/ hd 0 rest = 32) ->
  (snd (flat_line U l b) = SPanic <-> (length w < 5)%nat /\ snd (close_open b) = SOk).
Proof.
  intros U l b w rest E N D F R.
  assert (date_word w rest) as DW by (repeat split; assumption || apply D).
  destruct (flat_line_header U l w rest E DW N) as (state & payee & note & LX & HS & HN).
  assert (Forall (fun r => valid_rune r = true) w) as V.
  { pose proof (decode_valid l) as V. rewrite E in V. now apply Forall_app in V as [V _]. }
  unfold flat_line. rewrite LX. pose proof (header_result b w state payee note HS HN) as H.
  destruct (flat_items b ((dateItem, w) :: state ++ (payeeItem, payee) :: note) None) as [[b' es] r].
  cbn zeta in H. destruct (close_open b) as [[b1 es1] r1] eqn:CO. cbn [snd].
  assert (r1 = SOk \/ exists e, r1 = SErr e) as R1.
  { clear - CO. unfold close_open in CO.
    destruct (b_type b); [destruct (b_txn b)|destruct (b_ptxn b)];
      try destruct (endNormalTransaction _ _) as [? [e|]]; injection CO as <- <- <-; eauto. }
  destruct (Nat.ltb_spec (length w) 5) as [LT|GE].
  - assert (parseDate w = PPanic) as P.
    { unfold parseDate. destruct (nth_error w 4) eqn:NT; [|reflexivity].
      assert (nth_error w 4 <> None) as X by congruence. apply nth_error_Some in X. lia. }
    rewrite P in H. destruct R1 as [->|[e ->]].
    + destruct H as (b2 & HR). injection HR as -> -> ->. split; auto.
    + injection H as -> -> ->. split; [discriminate|]. intros [_ X]. discriminate.
  - destruct (parseDate_spec w V GE) as [_ NP].
    split; [|lia]. intros ->. exfalso. destruct R1 as [->|[e ->]].
    + destruct (parseDate w); [destruct H as (? & H & _)|destruct H as (? & H)|congruence]; discriminate.
    + discriminate.
Qed.
Example C08_example : snd (flat_line U0 (lit "2020") newBuilder) = SPanic /\
  snd (flat_line U0 (lit "20201 x") newBuilder) = SErr (EParsingDate (EMalformedDate (lit "20201"))).
Proof. split; reflexivity. Qed.

(** ** C09: smart dates

    [signed_year]: four bytes of which the first is a sign are also taken as a
    year.  The year of [now] has four digits. *)
Theorem C09_smart_dates : forall now s d, 1000 <= now <= 9999 ->
  (parseSmartDate now s = POk d <-> smart_text now s d \/ signed_year s d).
Proof. exact smart_spec. Qed.
Theorem C09_never_panics : forall now s, parseSmartDate now s <> PPanic.
Proof. exact smart_no_panic. Qed.
Example C09_example : smart_text 2021 (lit "02/29") (Date 2021 2 29) -> False.
Proof. intro H. assert (parseSmartDate 2021 (lit "02/29") = POk (Date 2021 2 29)) as X
  by (apply smart_spec; [lia|now left]). discriminate X. Qed.
Example C09_example2 : smart_text 2020 (lit "02/29") (Date 2020 2 29) /\ smart_text 2020 (lit "2019.07") (Date 2019 7 1).
Proof.
  split.
  - assert (smart_text 2020 (lit "02/29") (Date 2020 2 29) \/ signed_year (lit "02/29") (Date 2020 2 29)) as [H|H]
      by (apply smart_spec; [lia|reflexivity]); [exact H|inversion H].
  - assert (smart_text 2020 (lit "2019.07") (Date 2019 7 1) \/ signed_year (lit "2019.07") (Date 2019 7 1)) as [H|H]
      by (apply smart_spec; [lia|reflexivity]); [exact H|inversion H].
Qed.

(** ** C10: the scanning loops end within the line

    [scans run] (LexBounds.v): started at any position of the line, the loop
    needs at most one iteration per remaining byte plus one, does not touch the
    line, and ends at a position between its start and the line's end. *)
Theorem C10_scanning : forall U,
  scans (fun n l => consumeSpace_loop n l 0) /\ scans (fun n l => takeToNextLine_loop n l []) /\
  scans (fun n l => takeToTab_loop n l []) /\ scans (fun n l => takeUntilSpace_loop n l []) /\
  scans (fun n l => takeUntilMore_loop n l [] false) /\ scans (fun n l => lexCommodity_loop U n l []).
Proof. exact all_scans. Qed.
Theorem C10_stepping_back : forall l, (l_pos l <= length (l_input l))%nat ->
  let l1 := snd (next l) in
  l_input l1 = l_input l /\ (l_pos l <= l_pos l1 <= length (l_input l))%nat /\
  (l_width l1 <= l_pos l1)%nat /\ l_pos (backup l1) = l_pos l.
Proof. exact step_back. Qed.
Example C10_example :
  let l := Lx (lit "Assets:Cash and more  10") 0 0 in
  (l_pos l <= length (l_input l))%nat /\ l_pos (snd (takeUntilMore_loop (fuel_of l) l [] false)) = 20%nat.
Proof. split; vm_compute; [lia|reflexivity]. Qed.
