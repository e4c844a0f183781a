(** * Reading a journal with a mistake *)
From Verif Require Import Base BaseFacts Utf8 Utf8Facts Unicode GoTime Strconv Journal Lexer LexSpec
  LexerFacts JournalText LexText Parser ParserFacts FlatSpec FlatFacts Spec JournalFacts BuilderFacts LineFacts IncludeFacts
  TextSpec DateFacts AmountFacts ReadFacts WriteFacts BodyFacts BookText PeriodFacts InputFacts WholeFacts FilesText FilesFacts LocateFacts
  MistakeText Main PropsInput.

Lemma canonical_unique : forall n s s', 0 <= n -> canonical s n -> canonical s' n -> s = s'.
Proof.
  intros n s s' H C C'. assert (A : Z.abs (100 * n) / 100 = n) by (rewrite Z.abs_eq by lia; rewrite Z.mul_comm; apply Z.div_mul; lia).
  assert (N : numeral 2 [48; 48] (Z.abs (100 * n) mod 100)).
  { assert (Z.abs (100 * n) mod 100 = 0) as -> by (rewrite Z.abs_eq by lia; rewrite Z.mul_comm; apply Z.mod_mul; lia).
    split; [reflexivity|]. split; [repeat constructor; lia|reflexivity]. }
  assert (M : forall w, canonical w n -> money_text (100 * n) (w ++ [46; 48; 48])).
  { intros w W. pose proof (Money (100 * n) w [48; 48]) as X. rewrite A in X. specialize (X W N).
    destruct (Z.ltb_spec (100 * n) 0); [lia|exact X]. }
  pose proof (money_unique _ _ _ (M _ C) (M _ C')) as X. now apply app_inv_tail in X.
Qed.

Lemma place_text : forall path k here, place path k here -> here = path ++ lit ":" ++ itoa (Z.of_nat k + 1) ++ [10].
Proof.
  intros path k here [digits C]. do 3 f_equal. apply (canonical_unique (Z.of_nat k + 1)); [lia|exact C|].
  unfold itoa. destruct (_ <? 0) eqn:Q; [apply Z.ltb_lt in Q; lia|]. apply canonical_itoa. lia.
Qed.

Lemma close_closes : forall b b' es, close_open b = (b', es, SOk) -> closed b'.
Proof.
  intros [ty tx pt cu pr] b' es. unfold close_open, closed. cbn [b_type b_txn b_ptxn]. destruct ty.
  - destruct tx as [t|]; [|intros [= <- _]; reflexivity]. destruct (endNormalTransaction _ t) as [t' [e|]]; [discriminate|]. intros [= <- _]. reflexivity.
  - destruct pt as [t|]; [|intros [= <- _]; reflexivity]. destruct (endNormalTransaction _ _) as [t' [e|]]; [discriminate|]. intros [= <- _]. reflexivity.
Qed.

Section Mistakes.
Variables (U : unicode) (L : err -> str) (fs : str -> option file).

Lemma blank_closes : forall b, flat_line U [] b = close_open b.
Proof.
  intro b. assert (flat_line U [] b = fbind (close_open b) (fun b' => (b', [], SOk))) as -> by reflexivity. apply fbind_ret.
Qed.

(** A file read to its end leaves nothing open. *)
Lemma expand_closes : forall inc hint bad ls b b' es, (forall p, stops_fail (inc p)) ->
  flat U (expand_lines U inc hint bad ls) b = (b', es, SOk) -> closed b'.
Proof.
  intros inc hint bad ls b b' es St. revert b b' es. induction ls as [|[l|] ls IH]; intros b b' es F; cbn [expand_lines] in F.
  - destruct bad; [discriminate|]. cbn [flat] in F. rewrite blank_closes in F. destruct (close_open b) as [[b1 es1] r] eqn:C.
    destruct r; cbn in F; try discriminate. injection F as <- _. now apply close_closes in C.
  - destruct (included U hint l).
    + rewrite flat_app in F by apply St. destruct (flat U (inc s) b) as [[b1 es1] r]. destruct r; cbn [fbind] in F; try discriminate.
      destruct (flat U (expand_lines U inc hint bad ls) b1) as [[b2 es2] r] eqn:Q. injection F as <- _ ->. eapply IH; eassumption.
    + cbn [flat] in F. destruct (flat_line U l b) as [[b1 es1] r]. destruct r; cbn [fbind] in F; try discriminate.
      destruct (flat U (expand_lines U inc hint bad ls) b1) as [[b2 es2] r] eqn:Q. injection F as <- _ ->. eapply IH; eassumption.
  - discriminate.
Qed.

Notation pre n path ls := (flat_map (line_exp U (inc_of U fs n) path) (map Line ls)).

Lemma no_long : forall ls, ~ In LongLine (map Line ls).
Proof. intros ls I. apply in_map_iff in I as (y & Q & _). discriminate. Qed.

(** The lines before the mistake are read, and what they leave open can be closed. *)
Lemma filed_prefix : forall n path ls ws es b, filed U fs n path ls ws -> Forall2 means ws es -> closed b ->
  exists b1 es1 b2 es2, flat U (pre n path ls) b = (b1, es1, SOk) /\ close_open b1 = (b2, es2, SOk) /\ closed b2 /\ es = es1 ++ es2.
Proof.
  intros n path ls ws es b J F C. destruct (filed_read U fs n path ls ws J es F b C) as (b2 & E & C2).
  rewrite <- (app_nil_r (map Line ls)) in E. rewrite expand_lines_app in E by apply no_long. rewrite flat_app in E by apply line_exp_stops.
  destruct (flat U (pre n path ls) b) as [[b1 es1] r]. destruct r; cbn [fbind] in E; try discriminate.
  cbn [expand_lines flat] in E. rewrite blank_closes, fbind_ret in E. destruct (close_open b1) as [[b3 es3] r] eqn:Q.
  injection E as <- <- ->. exists b1, es1, b3, es3. auto.
Qed.

(** Items that finish nothing. *)
Definition quiet (x : itemType * list Z) : Prop :=
  match fst x with emptyLineItem | eofItem | dateItem | periodItem => False | _ => True end.
Lemma quiet_items : forall items e b, Forall quiet items -> snd (fst (flat_items b items e)) = [].
Proof.
  induction items as [|[i c] items IH]; intros e b F; [reflexivity|]. inversion F as [|? ? Q F']; subst. cbn [flat_items].
  assert (flat_item b i c = built b i c) as -> by (destruct i; cbn in Q; try contradiction; reflexivity).
  unfold built. destruct (build b i c) as [b'| |]; [|reflexivity|reflexivity]. cbn [fbind]. specialize (IH e b' F').
  destruct (flat_items b' items e) as [[? ?] ?]. exact IH.
Qed.
Lemma close_failed : forall b e, snd (close_open b) = SErr e -> snd (fst (close_open b)) = [].
Proof.
  intros b e. unfold close_open. destruct (b_type b).
  - destruct (b_txn b) as [t|]; [|reflexivity]. destruct (endNormalTransaction b t) as [t' [x|]]; [reflexivity|discriminate].
  - destruct (b_ptxn b) as [t|]; [|reflexivity]. destruct (endNormalTransaction b _) as [t' [x|]]; [reflexivity|discriminate].
Qed.

Lemma include_named : forall dir base k name, (dir = [] \/ last dir 0 = 47) -> ~ In 47 base -> valid_utf8 dir -> spelt phrase name ->
  included U (dir ++ base) (lit "include" ++ spaces (1 + k) ++ name) = Some (dir ++ name).
Proof.
  intros dir base k name D Bs V Sp. change (spaces (1 + k)) with ([32] ++ spaces k). rewrite <- app_assoc. apply C18_include_path_partial; auto.
  exists (repeat 32 k). split; [|split].
  - apply Forall_forall. intros x I. apply repeat_spec in I. now subst x.
  - apply Forall_forall. intros x I. apply repeat_spec in I. now subst x.
  - unfold spaces. symmetry. apply encode_ascii. apply Forall_forall. intros x I. apply repeat_spec in I. subst x. unfold ascii. lia.
Qed.

Lemma include_somewhere : forall path k name, spelt phrase name -> included U path (lit "include" ++ spaces (1 + k) ++ name) <> None.
Proof.
  intros path k name Sp X. apply (included_free U _ []) in X. assert (VU : valid_utf8 []) by (exists []; split; [constructor|reflexivity]).
  pose proof (include_named [] [] k name (or_introl eq_refl) (fun x => x) VU Sp) as Y. cbn [app] in Y, X. congruence.
Qed.

Lemma rested_closed : forall ls, rested ls -> forall n path b b1 es, closed b -> flat U (pre n path ls) b = (b1, es, SOk) -> closed b1.
Proof.
  induction 1 as [|ls|ls c l Cs R IH|ls k name Sp]; intros n path b b1 es C F.
  - cbn in F. now injection F as <- _.
  - rewrite map_app, flat_map_app, flat_app in F by apply line_exp_stops. destruct (flat U (pre n path ls) b) as [[b2 es2] r].
    destruct r; cbn [fbind map flat_map line_exp app] in F; try discriminate.
    replace (included U path []) with (@None str) in F by reflexivity. cbn [app flat] in F. rewrite blank_closes in F.
    destruct (close_open b2) as [[b3 es3] r] eqn:Q. destruct r; cbn in F; try discriminate. injection F as <- _. now apply close_closes in Q.
  - rewrite map_app, flat_map_app, flat_app in F by apply line_exp_stops. destruct (flat U (pre n path ls) b) as [[b2 es2] r] eqn:Q.
    destruct r; cbn [fbind map flat_map line_exp app] in F; try discriminate.
    assert (included U path (c :: l) = None) as X by (unfold included; now rewrite comment_lexes). rewrite X in F. cbn [app flat] in F.
    rewrite comment_flat in F by assumption. cbn in F. injection F as <- _. eapply IH; eassumption.
  - rewrite map_app, flat_map_app, flat_app in F by apply line_exp_stops. destruct (flat U (pre n path ls) b) as [[b2 es2] r] eqn:Q.
    destruct r; cbn [fbind map flat_map line_exp] in F; try discriminate.
    destruct (included U path (lit "include" ++ spaces (1 + k) ++ name)) as [p|] eqn:I; [|now apply include_somewhere in I].
    rewrite app_nil_r in F. destruct (flat U (inc_of U fs n p) b2) as [[b3 es3] r] eqn:Q2. injection F as <- _ ->.
    destruct n as [|n]; cbn [inc_of] in Q2; [discriminate|]. destruct (fs p) as [f|]; [|discriminate].
    rewrite expand_inc_of in Q2. eapply expand_closes; [|exact Q2]. intro q. apply inc_of_stops.
Qed.

(** ** The lines that are wrong *)
Lemma garbled_lexed : forall hint l what, garbled U l what -> exists e, lexLine U hint l = ([], Some e) /\ err_text L e = what.
Proof.
  intros hint l what H. destruct H as [r rs V C I T N Tb Sp|w more V Vm H1 F Nw M|k|rs V H1].
  - exists EUnexpectedLine. split; [|reflexivity]. rewrite lex_encoded by exact V. unfold lex_runes.
    assert (isCommentIndicator r = false) as ->.
    { unfold isCommentIndicator, c_semi, c_hash. unfold comment_sign in C. apply orb_false_iff. split; apply Z.eqb_neq; intro; apply C; auto. }
    assert (r =? c_i = false) as -> by (now apply Z.eqb_neq). assert (r =? c_tilde = false) as -> by (now apply Z.eqb_neq). rewrite N.
    assert (r =? c_tab = false) as -> by (now apply Z.eqb_neq). cbn [orb]. destruct (Z.eqb_spec r c_space) as [->|]; [|reflexivity].
    destruct rs as [|r2 rs]; [reflexivity|]. cbn [andb]. specialize (Sp eq_refl). cbn in Sp. destruct (Z.eqb_spec r2 c_space); [contradiction|reflexivity].
  - exists (EUnexpectedDirective (encode w)). split; [|reflexivity]. rewrite lex_encoded by (apply Forall_app; now split).
    destruct w as [|r w]; [cbn in H1; lia|]. cbn [hd] in H1. subst r. unfold lex_runes. cbn [app].
    replace (isCommentIndicator 105) with false by reflexivity. replace (105 =? c_i) with true by reflexivity.
    unfold include_line. change (105 :: w ++ more) with ((105 :: w) ++ more). rewrite until_space_clean.
    + destruct (str_eqb (105 :: w) (lit "include")) eqn:Q; [apply str_eqb_eq in Q; contradiction|]. reflexivity.
    + eapply Forall_impl; [|exact F]. intros a A. now apply Z.eqb_neq.
    + exact M.
  - exists EInclude. split; [|reflexivity].
    assert (AI : Forall ascii (lit "include")) by (cbn; repeat (apply Forall_cons; [unfold ascii; lia|]); apply Forall_nil).
    assert (encode (lit "include" ++ spaces k) = lit "include" ++ spaces k) as E.
    { apply encode_ascii. apply Forall_app. split; [exact AI|apply spaces_ascii]. }
    rewrite <- E. rewrite lex_encoded by (apply ascii_valids; apply Forall_app; split; [exact AI|apply spaces_ascii]).
    unfold lex_runes. change (lit "include" ++ spaces k) with (105 :: tl (lit "include") ++ spaces k). cbv iota.
    replace (isCommentIndicator 105) with false by reflexivity. replace (105 =? c_i) with true by reflexivity.
    change (105 :: tl (lit "include") ++ spaces k) with (lit "include" ++ spaces k). unfold include_line. rewrite until_space_clean.
    + replace (negb (str_eqb (lit "include") (lit "include"))) with false by reflexivity.
      destruct (space_width (spaces k) =? 0); [reflexivity|]. unfold spaces. replace (drop_space (repeat 32 k)) with (@nil Z); [reflexivity|].
      clear; induction k as [|k IH]; [reflexivity|exact IH].
    + cbn. repeat (apply Forall_cons; [reflexivity|]). apply Forall_nil.
    + destruct k; [now left|now right].
  - exists EPeriodSpaces. split; [|reflexivity].
    assert (126 :: encode rs = encode (126 :: rs)) as -> by (rewrite encode_cons; reflexivity).
    rewrite lex_encoded by (constructor; [reflexivity|exact V]). unfold lex_runes.
    replace (isCommentIndicator 126) with false by reflexivity. replace (126 =? c_i) with false by reflexivity.
    replace (126 =? c_tilde) with true by reflexivity. unfold period_line.
    assert (space_width rs = 0) as ->; [|reflexivity]. destruct rs as [|r rs]; [reflexivity|]. cbn in H1. cbn. now rewrite H1.
Qed.

Lemma misdated_read : forall hint l what, misdated L l what -> included U hint l = None /\
  exists e, err_text L e = what /\ forall b b2 es2, close_open b = (b2, es2, SOk) ->
    snd (flat_line U l b) = SErr e /\ snd (fst (flat_line U l b)) = es2.
Proof.
  intros hint l what H.
  assert (Z1 : forall w more c, runes w -> runes more -> digit (hd 0 w) -> Forall (fun r => r <> 32) w -> more = [] \/ hd 0 more = 32 ->
    nth_error w 4 = Some c -> included U hint (encode (w ++ more)) = None /\
    forall e, parseDate w = PErr e -> forall b b2 es2, close_open b = (b2, es2, SOk) ->
      snd (flat_line U (encode (w ++ more)) b) = SErr (EParsingDate e) /\ snd (fst (flat_line U (encode (w ++ more)) b)) = es2).
  { intros w more c V Vm D F M N. assert (DW : date_word w more).
    { split; [exact D|]. split; [|exact M]. eapply Forall_impl; [|exact F]. intros a A. now apply Z.eqb_neq. }
    assert (NE : w <> []) by (intros ->; discriminate).
    assert (DE : decode (encode (w ++ more)) = w ++ more) by (apply decode_encode; apply Forall_app; now split).
    split; [eapply header_not_included; eassumption|]. intros e P b b2 es2 C.
    destruct (flat_line_header U _ w more DE DW NE) as (state & payee & note & LX & _). unfold flat_line. rewrite LX.
    cbn [flat_items flat_item]. rewrite C. cbn [fbind]. unfold built, build. cbn [beginTransaction b_type buildNormalTransaction]. rewrite P. cbn. split; [reflexivity|apply app_nil_r]. }
  destruct H as [w more c V Vm D F M N Sp|w more c V Vm D F M N Sp R].
  - destruct (Z1 w more c V Vm D F M N) as [A B]. split; [exact A|]. exists (EParsingDate (EMalformedDate (encode w))). split; [reflexivity|].
    apply B. unfold parseDate. rewrite N. destruct (_ || _) eqn:Q; [apply sep_eqb in Q; contradiction|reflexivity].
  - destruct (Z1 w more c V Vm D F M N) as [A B]. split; [exact A|]. exists (EParsingDate (ETimeParse (layout_text (layout_ymd c)) (encode w))). split; [reflexivity|].
    apply B. unfold parseDate. rewrite N. assert ((c =? c_dash) || (c =? c_dot) || (c =? c_slash) = true) as -> by (now apply sep_eqb).
    destruct (time_parse (layout_ymd c) (encode w)) as [d|] eqn:Q; [|reflexivity]. exfalso. apply time_parse_ymd in Q as [Y Rd].
    apply (R d); [|exact Rd]. rewrite (encode_is_ascii w (encode w) V eq_refl (ymd_ascii _ _ _ Sp Y)). exact Y.
Qed.

Lemma mispriced_lexed : forall hint l what, mispriced U L l what -> exists a c w e, lexLine U hint l = (posting_items a (Some (c, w)), None) /\
  parseAmount w = PErr e /\ what = err_text L (EParsingAmount e).
Proof.
  intros hint l what [k a m c w part (ra & Va & A & ->) (rc & Vc & C & ->) V D F N]. exists ra, rc, w, (EParseInt (encode part)). split; [|split; [|reflexivity]].
  - assert (spaces (2 + k) ++ encode ra ++ spaces (2 + m) ++ encode rc ++ encode w = encode (spaces (2 + k) ++ ra ++ spaces (2 + m) ++ rc ++ w)) as ->.
    { rewrite !encode_app. now rewrite !(encode_ascii (spaces _)) by apply spaces_ascii. }
    rewrite lex_encoded by (repeat (apply Forall_app; split); try assumption; apply spaces_valid).
    apply lex_posting_written; [exact A|exact C|]. split; [|exact F]. unfold c_minus, c_plus. tauto.
  - apply parseAmount_refused; [|exact V|eauto]. intros ->. unfold digit in D. cbn in D. lia.
Qed.

(** Inside an entry, a wrong amount is noticed. *)
Lemma mispriced_read : forall ls l what b, unfinished U ls -> mispriced U L l what -> closed b ->
  exists b1 e, flat U (map FLine ls) b = (b1, [], SOk) /\ snd (flat_line U l b1) = SErr e /\ snd (fst (flat_line U l b1)) = [] /\ err_text L e = what.
Proof.
  intros ls l what b W M C. destruct (mispriced_lexed [] l what M) as (a & c & w & e & LX & P & ->).
  assert (Qt : forall b1, snd (fst (flat_line U l b1)) = []).
  { intro b1. unfold flat_line. rewrite LX. apply quiet_items. unfold posting_items. repeat (apply Forall_cons; [exact I|]). apply Forall_nil. }
  destruct W as [h d s payee note nl notes pl ps HW NW PW|k ys ms y m pl ps NY NM RM PW].
  - destruct (header_read U h d s payee note b HW C) as (b1 & pt & E1 & O1).
    destruct (notes_read U nl notes NW b1 pt _ O1) as (b2 & E2 & O2).
    destruct (postings_read U pl ps PW b2 pt _ newPosting O2 eq_refl) as (b3 & E3 & O3).
    exists b3, (EParsingAmount e). split; [|split; [|split; [apply Qt|reflexivity]]].
    + cbn [map flat]. rewrite E1. cbn [fbind]. rewrite map_app, flat_app by apply lines_no_stop. rewrite E2. cbn [fbind]. rewrite E3. reflexivity.
    + unfold flat_line. rewrite LX. pose proof (read_posting _ _ _ _ a (Some (c, w)) O3) as X. cbv iota beta in X. rewrite P in X. apply X.
      assert (carry (last ps newPosting) = newPosting) as ->; [|reflexivity].
      pose proof (written_accounts U pl ps PW) as A. destruct ps as [|p ps]; [reflexivity|]. apply carry_account.
      rewrite Forall_forall in A. apply A. destruct (exists_last (l := p :: ps)) as (i & x & Ex); [discriminate|]. rewrite Ex, last_last. apply in_or_app. right. now left.
  - destruct (period_read U k ys ms y m b NY NM RM C) as (b1 & tx & E1 & O1).
    destruct (ppostings_read U tx _ pl ps PW b1 _ newPosting O1 eq_refl) as (b3 & E3 & O3).
    exists b3, (EParsingAmount e). split; [|split; [|split; [apply Qt|reflexivity]]].
    + cbn [map flat]. rewrite E1. cbn [fbind]. rewrite E3. reflexivity.
    + unfold flat_line. rewrite LX. unfold posting_items. cbn [flat_items flat_item]. rewrite (pread_account _ _ _ _ _ a O3).
      assert (carry (last ps newPosting) = newPosting) as ->.
      { pose proof (written_accounts U pl ps PW) as A. destruct ps as [|p ps]; [reflexivity|]. apply carry_account.
        rewrite Forall_forall in A. apply A. destruct (exists_last (l := p :: ps)) as (i & x & Ex); [discriminate|]. rewrite Ex, last_last. apply in_or_app. right. now left. }
      cbn [fbind]. unfold built, build. cbn [b_type buildPeriodicTransaction b_ptxn buildNormalTransaction prev_in b_prev existsb item_eqb orb negb b_cur
        po_amount po_comments po_account set_cur set_prev b_txn fbind am_quantity am_commodity newPosting].
      rewrite P. reflexivity.
Qed.

Lemma impossible_read : forall ls t what b, txn_written U ls t -> impossible t what -> closed b ->
  exists b1 e, flat U (map FLine ls) b = (b1, [], SOk) /\ snd (close_open b1) = SErr e /\ err_text L e = what.
Proof.
  intros ls t what b TW I C. destruct I as [t A NZ|t before p EP El Ex].
  - destruct (unbalanced_read U ls t b TW C A NZ) as (b1 & E1 & N). rewrite blank_closes in N. exists b1, EUnbalanced. auto.
  - destruct (txn_opens U ls t b TW C) as (b1 & E1). exists b1, ETwoElided. split; [exact E1|]. split; [|reflexivity].
    destruct (txn_read U ls t b before p TW C EP) as [B _]. destruct (B El Ex) as [b2 CL].
    rewrite flat_app, E1 in CL by apply lines_no_stop. cbn [fbind flat app] in CL. rewrite blank_closes in CL.
    destruct (close_open b1) as [[b3 es] r]. destruct r; cbn in CL |- *; congruence.
Qed.

(** The first lines of entries. *)
Lemma header_begins : forall h d s payee note, header_written h d s payee note -> begins h.
Proof.
  intros h d s payee note H. right. left.
  destruct H as [sep w d s i j payee S Y R P|sep w d s i j payee k c m note S Y R P Cs N|sep w d s i j payee k c note S Y R P Cs B
    |sep w d s i j payee e c text note S Y R P Le Cs Lo|sep w d s i j c text note S Y R Cs Lo]; destruct Y as [y mo dd (L1 & D1 & V1) NM ND];
    (destruct y as [|c0 y]; [discriminate|]); inversion D1; subst; eexists; eexists; (split; [reflexivity|assumption]).
Qed.
Lemma txn_begins : forall ls t, txn_written U ls t -> exists h ls', ls = h :: ls' /\ begins h.
Proof. intros ls t [h d s payee note nl notes pl ps HW NW PW NE]. eexists. eexists. split; [reflexivity|]. eapply header_begins; eassumption. Qed.
Lemma unfinished_begins : forall ls, unfinished U ls -> exists h ls', ls = h :: ls' /\ begins h.
Proof.
  intros ls [h d s payee note nl notes pl ps HW NW PW|k ys ms y m pl ps NY NM RM PW]; eexists; eexists; (split; [reflexivity|]).
  - eapply header_begins; eassumption.
  - right. right. eexists. reflexivity.
Qed.
Lemma unfinished_not_included : forall hint ls, unfinished U ls -> Forall (fun l => included U hint l = None) ls.
Proof.
  assert (RK : forall hint ls cs, Forall2 remark_written ls cs -> Forall (fun l => included U hint l = None) ls).
  { intros hint ls cs H. induction H as [|l n ls cs R F IH]; constructor; [|assumption].
    destruct (remark_lexed U hint l n R) as (rs & E & _). unfold included. now rewrite E. }
  assert (PK : forall hint ls ps, postings_written U ls ps -> Forall (fun l => included U hint l = None) ls).
  { intros hint ls ps H. induction H as [|l p ls cs ls' ps W F PW IH]; constructor.
    - destruct (posting_lexed U hint l p W) as (a & am & E & _). unfold included. rewrite E. now destruct am as [[]|].
    - apply Forall_app. split; [now apply (RK hint) in F|assumption]. }
  intros hint ls [h d s payee note nl notes pl ps HW NW PW|k ys ms y m pl ps NY NM RM PW]; constructor.
  - destruct (header_lexed U hint h d s payee note HW) as (w & rp & nts & E & _ & _ & [[-> _]|(rn & -> & _)]); unfold included; rewrite E; unfold header_items; now destruct s.
  - apply Forall_app. split; [now apply (RK hint) in NW|now apply (PK hint) in PW].
  - unfold included. now rewrite (period_lexed U hint k ys ms y m NY NM).
  - now apply (PK hint) in PW.
Qed.

(** An entry after others. *)
Lemma entry_after : forall n path before ws es ls b, filed U fs n path before ws -> Forall2 means ws es -> closed b ->
  Forall (fun l => included U path l = None) ls -> (exists h ls', ls = h :: ls' /\ begins h) ->
  exists b2, closed b2 /\ forall b3, flat U (map FLine ls) b2 = (b3, [], SOk) ->
    flat U (pre n path (before ++ ls)) b = (b3, es, SOk).
Proof.
  intros n path before ws es ls b J F C NI (h & ls' & -> & Bg). destruct (filed_prefix n path before ws es b J F C) as (b1 & es1 & b2 & es2 & E & Cl & C2 & ->).
  exists b2. split; [exact C2|]. intros b3 E3. rewrite map_app, flat_map_app, flat_app, E by apply line_exp_stops. cbn [fbind].
  assert (flat_map (line_exp U (inc_of U fs n) path) (map Line (h :: ls')) = map FLine (h :: ls')) as ->.
  { clear - NI. induction NI as [|l ls H _ IH]; [reflexivity|]. cbn [map flat_map line_exp]. rewrite H. cbn [app]. now f_equal. }
  cbn [map flat] in *. rewrite (begins_closes U h b1 b2 es2 Bg Cl C2), fbind_assoc. cbn [fbind]. rewrite E3. now rewrite app_nil_r.
Qed.

Lemma unfinished_read : forall ls b2, unfinished U ls -> closed b2 -> exists b3, flat U (map FLine ls) b2 = (b3, [], SOk).
Proof.
  intros ls b2 W C2. destruct W as [h d s payee note nl notes pl ps HW NW PW|k ys ms y m pl ps NY NM RM PW].
  - destruct (header_read U h d s payee note b2 HW C2) as (b1 & pt & E1 & O1).
    destruct (notes_read U nl notes NW b1 pt _ O1) as (b4 & E2 & O2).
    destruct (postings_read U pl ps PW b4 pt _ newPosting O2 eq_refl) as (b3 & E3 & O3).
    exists b3. cbn [map flat]. rewrite E1. cbn [fbind]. rewrite map_app, flat_app by apply lines_no_stop. rewrite E2. cbn [fbind]. rewrite E3. reflexivity.
  - destruct (period_read U k ys ms y m b2 NY NM RM C2) as (b1 & tx & E1 & O1).
    destruct (ppostings_read U tx _ pl ps PW b1 _ newPosting O1 eq_refl) as (b3 & E3 & O3).
    exists b3. cbn [map flat]. rewrite E1. cbn [fbind]. rewrite E3. reflexivity.
Qed.

(** What is finished before a line that fails. *)
Lemma entries_before : forall n path before l rest bytes b b1 es b2 es2 r, lines_written bytes (before ++ l :: rest) ->
  flat U (pre n path before) b = (b1, es, SOk) -> included U path l = None -> flat_line U l b1 = (b2, es2, r) -> r <> SOk ->
  snd (fst (flat U (expand U fs n path (File bytes false)) b)) = es ++ es2.
Proof.
  intros n path before l rest bytes b b1 es b2 es2 r Lw E I Er N. rewrite expand_inc_of. cbn [f_bad f_bytes]. rewrite (lines_written_read _ _ Lw), map_app.
  rewrite expand_lines_app by apply no_long. rewrite flat_app, E by apply line_exp_stops. cbn [fbind map expand_lines]. rewrite I. cbn [flat].
  rewrite Er. destruct r; [contradiction|reflexivity..].
Qed.
Lemma include_entries : forall n path before l p rest bytes b b1 es, lines_written bytes (before ++ l :: rest) ->
  flat U (pre n path before) b = (b1, es, SOk) -> included U path l = Some p -> snd (flat U (inc_of U fs n p) b1) <> SOk ->
  snd (fst (flat U (expand U fs n path (File bytes false)) b)) = es ++ snd (fst (flat U (inc_of U fs n p) b1)).
Proof.
  intros n path before l p rest bytes b b1 es Lw E I N. rewrite expand_inc_of. cbn [f_bad f_bytes]. rewrite (lines_written_read _ _ Lw), map_app.
  rewrite expand_lines_app by apply no_long. rewrite (flat_app U (pre n path before)) by apply line_exp_stops. rewrite E. cbn [fbind map expand_lines]. rewrite I.
  rewrite flat_app by apply inc_of_stops. destruct (flat U (inc_of U fs n p) b1) as [[b2 es2] r]. destruct r; [now destruct N|reflexivity..].
Qed.
Lemma comments_read : forall n path cs b, Forall (fun c => comment_sign (hd 0 c)) cs -> flat U (pre n path cs) b = (b, [], SOk).
Proof.
  intros n path cs b F. revert b. induction F as [|c cs Cs F IH]; intro b; [reflexivity|]. destruct c as [|x c]; [destruct Cs; discriminate|]. cbn [hd] in Cs.
  assert (included U path (x :: c) = None) as X by (unfold included; now rewrite comment_lexes).
  cbn [map flat_map line_exp]. rewrite X. cbn [app flat]. rewrite comment_flat by exact Cs. cbn [fbind]. now rewrite IH.
Qed.

Lemma located_line : forall n path before l rest bytes b b1 es e, lines_written bytes (before ++ l :: rest) ->
  flat U (pre n path before) b = (b1, es, SOk) -> included U path l = None -> snd (flat_line U l b1) = SErr e ->
  located U fs n b path (File bytes false) (EAt path (Z.of_nat (length before) + 1) e).
Proof.
  intros n path before l rest bytes b b1 es e Lw E I Er. apply (LocLine U fs n b path (File bytes false) (length before) l b1 es e); auto; cbn [f_bytes]; rewrite (lines_written_read _ _ Lw), map_app.
  - rewrite nth_error_app2, map_length, Nat.sub_diag by (rewrite map_length; lia). reflexivity.
  - rewrite firstn_app, map_length, Nat.sub_diag, firstn_O, app_nil_r, firstn_all2 by (rewrite map_length; lia). exact E.
Qed.

Lemma begins_fails : forall l b e, begins l -> snd (close_open b) = SErr e ->
  snd (flat_line U l b) = SErr e /\ snd (fst (flat_line U l b)) = [] /\ forall hint, included U hint l = None.
Proof.
  intros l b e H C.
  assert (X : header U l \/ l = []) by (destruct H as [->|[(d & c & -> & D)|(c & ->)]]; [now right|left; now apply digit_header|left; apply tilde_header; now left]).
  destruct X as [(i & c & items & f & E & I)| ->].
  - assert (X : flat_line U l b = close_open b).
    { unfold flat_line. rewrite E. cbn [flat_items].
      assert (Y : exists K, flat_item b i c = fbind (close_open b) K) by (destruct I as [->| ->]; eexists; reflexivity).
      destruct Y as [K ->]. destruct (close_open b) as [[? ?] r]. cbn [snd] in C. subst r. reflexivity. }
    rewrite X. split; [exact C|]. split; [eapply close_failed; exact C|].
    intro hint. apply included_free with []. unfold included. rewrite E. destruct I as [->| ->]; now destruct items.
  - rewrite blank_closes. split; [exact C|]. split; [eapply close_failed; exact C|]. reflexivity.
Qed.

Lemma at_text : forall path k here e what, place path k here -> err_text L e = what ->
  err_text L (EAt path (Z.of_nat k + 1) e) = here ++ what.
Proof. intros path k here e what P <-. rewrite (place_text _ _ _ P). cbn [err_text]. now rewrite <- !app_assoc. Qed.

Lemma faulty_located : forall n path ls es what, faulty U L fs n path ls es what -> forall bytes b, lines_written bytes ls -> closed b ->
  exists e, located U fs n b path (File bytes false) e /\ err_text L e = what /\
    snd (fst (flat U (expand U fs n path (File bytes false)) b)) = es.
Proof.
  induction 1 as [n path before ws es l rest here what J F R G P|n path before ws es ls cs l rest here what J F W Cs G P
    |n path before ws es l rest here what J F G P|n path before ws es ls l rest here what J F W M P
    |n path before ws es ls t l rest here what J F TW I Bg P|n path before ws es ls t what J F TW I
    |n dir base before ws es k name rest here J F R D Bs V Sp Fs P|n dir base before ws es k name rest here J F R D Bs V Sp Fs P
    |n dir base before ws es k name ib inner es' rest here what J F R D Bs V Sp Fs Li Fi IH P]; intros bytes b Lw C.
  - destruct (filed_prefix n path before ws es b J F C) as (b1 & es1 & b2 & es2 & E & Cl & C2 & ->).
    pose proof (rested_closed before R _ _ _ _ _ C E) as C1. rewrite C1 in Cl. injection Cl as <- <-. rewrite app_nil_r.
    destruct (garbled_lexed [] l what G) as (e & LX & T). exists (EAt path (Z.of_nat (length before) + 1) e).
    assert (FL : flat_line U l b1 = (b1, [], SErr e)) by (unfold flat_line; rewrite LX; reflexivity).
    assert (NI : included U path l = None) by (destruct (garbled_lexed path l what G) as (e2 & LX2 & _); unfold included; now rewrite LX2).
    split; [|split; [now apply at_text|]].
    + eapply located_line; try eassumption. now rewrite FL.
    + rewrite <- (app_nil_r es1). eapply entries_before; try eassumption. discriminate.
  - destruct (entry_after n path before ws es ls b J F C (unfinished_not_included path ls W) (unfinished_begins ls W)) as (b2 & C2 & K).
    destruct (unfinished_read ls b2 W C2) as (b3 & E3). specialize (K b3 E3).
    assert (E : flat U (pre n path (before ++ ls ++ cs)) b = (b3, es, SOk)).
    { rewrite app_assoc, map_app, flat_map_app, flat_app, K by apply line_exp_stops. cbn [fbind]. rewrite comments_read by exact Cs. now rewrite app_nil_r. }
    destruct (garbled_lexed [] l what G) as (e & LX & T). exists (EAt path (Z.of_nat (length before + length ls + length cs) + 1) e).
    assert (FL : flat_line U l b3 = (b3, [], SErr e)) by (unfold flat_line; rewrite LX; reflexivity).
    assert (NI : included U path l = None) by (destruct (garbled_lexed path l what G) as (e2 & LX2 & _); unfold included; now rewrite LX2).
    assert (Lw2 : lines_written bytes ((before ++ ls ++ cs) ++ l :: rest)) by (now rewrite <- !app_assoc).
    split; [|split; [now apply at_text|]].
    + assert ((length before + length ls + length cs = length (before ++ ls ++ cs))%nat) as -> by (rewrite !app_length; apply eq_sym, Nat.add_assoc).
      eapply located_line; try eassumption. now rewrite FL.
    + rewrite <- (app_nil_r es). eapply entries_before; try eassumption. discriminate.
  - destruct (filed_prefix n path before ws es b J F C) as (b1 & es1 & b2 & es2 & E & Cl & C2 & ->).
    destruct (misdated_read path l what G) as (NI & e & T & X). exists (EAt path (Z.of_nat (length before) + 1) e).
    destruct (X b1 b2 es2 Cl) as [X1 X2]. split; [|split; [now apply at_text|]].
    + eapply located_line; try eassumption.
    + destruct (flat_line U l b1) as [[b3 es3] r3] eqn:FL. cbn [fst snd] in X1, X2. subst es3 r3. eapply entries_before; try eassumption. discriminate.
  - destruct (entry_after n path before ws es ls b J F C (unfinished_not_included path ls W) (unfinished_begins ls W)) as (b2 & C2 & K).
    destruct (mispriced_read ls l what b2 W M C2) as (b3 & e & E3 & N & Qt & T). pose proof (K b3 E3) as E.
    exists (EAt path (Z.of_nat (length before + length ls) + 1) e). rewrite app_assoc in Lw.
    assert (NI : included U path l = None) by (destruct (mispriced_lexed path l what M) as (a & c & w & e0 & LX & _); unfold included; now rewrite LX).
    split; [|split; [now apply at_text|]].
    + rewrite <- app_length. eapply located_line; try eassumption.
    + destruct (flat_line U l b3) as [[b4 es4] r4] eqn:FL. cbn [fst snd] in N, Qt. subst es4 r4. rewrite <- (app_nil_r es). eapply entries_before; try eassumption. discriminate.
  - destruct (entry_after n path before ws es ls b J F C (txn_not_included U path ls t TW) (txn_begins ls t TW)) as (b2 & C2 & K).
    destruct (impossible_read ls t what b2 TW I C2) as (b3 & e & E3 & N & T). pose proof (K b3 E3) as E.
    exists (EAt path (Z.of_nat (length before + length ls) + 1) e). rewrite app_assoc in Lw.
    destruct (begins_fails l b3 e Bg N) as (X & Qt & NI). split; [|split; [now apply at_text|]].
    + rewrite <- app_length. eapply located_line; try eassumption. apply NI.
    + destruct (flat_line U l b3) as [[b4 es4] r4] eqn:FL. cbn [fst snd] in X, Qt. subst es4 r4. rewrite <- (app_nil_r es). eapply entries_before; try eassumption; [apply NI|discriminate].
  - destruct (entry_after n path before ws es ls b J F C (txn_not_included U path ls t TW) (txn_begins ls t TW)) as (b2 & C2 & K).
    destruct (impossible_read ls t what b2 TW I C2) as (b3 & e & E3 & N & T). pose proof (K b3 E3) as E.
    exists e. split; [|split; [exact T|]].
    + apply (LocEnd U fs n b path (File bytes false) b3 es e); [|reflexivity|exact N]. cbn [f_bytes]. now rewrite (lines_written_read _ _ Lw).
    + rewrite expand_inc_of. cbn [f_bad f_bytes]. rewrite (lines_written_read _ _ Lw). rewrite <- (app_nil_r (map Line (before ++ ls))).
      rewrite expand_lines_app by apply no_long. rewrite flat_app, E by apply line_exp_stops. cbn [fbind expand_lines flat]. rewrite blank_closes, fbind_ret.
      pose proof (close_failed b3 e N) as Z. destruct (close_open b3) as [[b4 es4] r4]. cbn [fst snd] in *. subst. apply app_nil_r.
  - destruct (filed_prefix _ _ before ws es b J F C) as (b1 & es1 & b2 & es2 & E & Cl & C2 & ->).
    pose proof (rested_closed before R _ _ _ _ _ C E) as C1. rewrite C1 in Cl. injection Cl as <- <-. rewrite app_nil_r.
    exists (EAt (dir ++ base) (Z.of_nat (length before) + 1) (EOpen (dir ++ name))). split; [|split; [now apply at_text|]].
    + eapply (LocOpen U fs n b _ (File bytes false) (length before)); [| |exact Fs|]; cbn [f_bytes]; try rewrite (lines_written_read _ _ Lw), map_app.
      * rewrite nth_error_app2, map_length, Nat.sub_diag by (rewrite map_length; lia). reflexivity.
      * now apply include_named.
      * rewrite firstn_app, map_length, Nat.sub_diag, firstn_O, app_nil_r, firstn_all2 by (rewrite map_length; lia). exact E.
    + eapply eq_trans; [eapply include_entries; [exact Lw|exact E|now apply include_named|]|]; cbn [inc_of]; rewrite Fs; [discriminate|apply app_nil_r].
  - destruct (filed_prefix _ _ before ws es b J F C) as (b1 & es1 & b2 & es2 & E & Cl & C2 & ->).
    pose proof (rested_closed before R _ _ _ _ _ C E) as C1. rewrite C1 in Cl. injection Cl as <- <-. rewrite app_nil_r.
    exists (EAt (dir ++ base) (Z.of_nat (length before) + 1) (EErrorAt (ERead (dir ++ name)))). split; [|split; [now apply at_text|]].
    + eapply (LocInclude U fs n b _ (File bytes false) (length before)); [| |exact Fs| |]; cbn [f_bytes]; try rewrite (lines_written_read _ _ Lw), map_app.
      * rewrite nth_error_app2, map_length, Nat.sub_diag by (rewrite map_length; lia). reflexivity.
      * now apply include_named.
      * rewrite firstn_app, map_length, Nat.sub_diag, firstn_O, app_nil_r, firstn_all2 by (rewrite map_length; lia). exact E.
      * eapply LocRead; reflexivity.
    + eapply eq_trans; [eapply include_entries; [exact Lw|exact E|now apply include_named|]|]; cbn [inc_of]; rewrite Fs; rewrite expand_inc_of; [discriminate|apply app_nil_r].
  - destruct (filed_prefix _ _ before ws es b J F C) as (b1 & es1 & b2 & es2 & E & Cl & C2 & ->).
    pose proof (rested_closed before R _ _ _ _ _ C E) as C1. destruct (IH ib b1 Li C1) as (e & Lo & T & Q). rewrite C1 in Cl. injection Cl as <- <-. rewrite app_nil_r.
    exists (EAt (dir ++ base) (Z.of_nat (length before) + 1) (EErrorAt e)). split; [|split; [apply at_text; [exact P|cbn [err_text]; now rewrite T]|]].
    + eapply (LocInclude U fs n b _ (File bytes false) (length before)); [| |exact Fs| |exact Lo]; cbn [f_bytes]; try rewrite (lines_written_read _ _ Lw), map_app.
      * rewrite nth_error_app2, map_length, Nat.sub_diag by (rewrite map_length; lia). reflexivity.
      * now apply include_named.
      * rewrite firstn_app, map_length, Nat.sub_diag, firstn_O, app_nil_r, firstn_all2 by (rewrite map_length; lia). exact E.
    + apply located_fails in Lo as [e' X].
      eapply eq_trans; [eapply include_entries; [exact Lw|exact E|now apply include_named|]|]; cbn [inc_of]; rewrite Fs; [rewrite X; discriminate|now rewrite Q].
Qed.

Lemma faulty_deeper : forall n path ls es what, faulty U L fs n path ls es what -> forall m, (n <= m)%nat -> faulty U L fs m path ls es what.
Proof.
  induction 1; intros m' Le.
  - eapply FaultyLine; eauto. eapply filed_deeper; eassumption.
  - eapply FaultyInside; eauto. eapply filed_deeper; eassumption.
  - eapply FaultyDate; eauto. eapply filed_deeper; eassumption.
  - eapply FaultyAmount; eauto. eapply filed_deeper; eassumption.
  - eapply FaultyTxn; eauto. eapply filed_deeper; eassumption.
  - eapply FaultyLast; eauto. eapply filed_deeper; eassumption.
  - destruct m' as [|m']; [lia|]. eapply FaultyOpen; eauto. eapply filed_deeper; eassumption.
  - destruct m' as [|m']; [lia|]. eapply FaultyFolder; eauto. eapply filed_deeper; eassumption.
  - destruct m' as [|m']; [lia|]. eapply FaultyIncluded; eauto; [eapply filed_deeper; eassumption|]. apply IHfaulty. lia.
Qed.

Theorem faulty_read : forall n depth path ls es what bytes, faulty U L fs n path ls es what -> (n <= depth)%nat -> lines_written bytes ls ->
  map erase (fst (trace U fs depth path (File bytes false))) = es /\
  exists e, snd (trace U fs depth path (File bytes false)) = SErr e /\ err_text L e = lit "error at " ++ what.
Proof.
  intros n depth path ls es what bytes H Le Lw.
  destruct (faulty_located _ _ _ _ _ (faulty_deeper _ _ _ _ _ H depth Le) bytes newBuilder Lw closed_new) as (e & Lo & T & Q). split.
  - destruct (trace_flat U fs depth path (File bytes false)) as [-> _]. unfold entries.
    destruct (flat U (expand U fs depth path (File bytes false)) newBuilder) as [[? ?] ?]. exact Q.
  - exists (EErrorAt e). split; [now apply located_trace|]. cbn [err_text]. now rewrite T.
Qed.
End Mistakes.
