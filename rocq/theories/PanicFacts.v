(** * When reading crashes *)
From Verif Require Import Base BaseFacts Utf8 Utf8Facts Unicode GoTime Strconv Journal Lexer LexSpec
  LexerFacts JournalText LexText Parser ParserFacts FlatSpec FlatFacts Spec JournalFacts IncludeFacts
  TextSpec DateFacts AmountFacts ReadFacts PanicSpec.

Lemma parseDate_panic : forall w, parseDate w = PPanic -> (length w < 5)%nat.
Proof.
  intros w. unfold parseDate. destruct (nth_error w 4) as [c|] eqn:N; [|apply nth_error_None in N; lia].
  destruct (_ || _); [|discriminate]. destruct (time_parse _ _); discriminate.
Qed.

Lemma account_name_nonempty : forall rs acc prev a rest, account_name acc prev rs = (a, rest) ->
  (prev = false -> acc <> [] \/ (exists r rs', rs = r :: rs' /\ r <> c_tab /\ r <> c_space)) ->
  (prev = true -> exists x y l, acc = x :: y :: l) -> a <> [].
Proof.
  assert (forall (acc : list Z) x y l, acc = x :: y :: l -> removelast acc <> []) as RL.
  { intros acc x y l ->. cbn. destruct l; discriminate. }
  induction rs as [|r rs IH]; intros acc prev a rest E P0 P1; cbn [account_name] in E.
  - destruct prev; injection E as <- <-.
    + destruct (P1 eq_refl) as (x & y & l & ->). now apply (RL _ x y l).
    + destruct (P0 eq_refl) as [N|(r & rs' & X & _)]; [exact N|discriminate].
  - destruct (Z.eqb_spec r c_tab) as [->|NT].
    + destruct prev; injection E as <- <-.
      * destruct (P1 eq_refl) as (x & y & l & ->). now apply (RL _ x y l).
      * destruct (P0 eq_refl) as [N|(r & rs' & X & T & _)]; [exact N|]. injection X as <- <-. congruence.
    + destruct (Z.eqb_spec r c_space) as [->|NS]; cbn [andb] in E.
      * destruct prev; cbn [andb] in E.
        -- injection E as <- <-. destruct (P1 eq_refl) as (x & y & l & ->). now apply (RL _ x y l).
        -- eapply IH; [exact E|discriminate|]. intros _. destruct (P0 eq_refl) as [N|(r & rs' & X & _ & T)].
           ++ destruct acc as [|x [|y l]]; [congruence| |]; cbn; eauto.
           ++ injection X as <- <-. congruence.
      * eapply IH; [exact E| |discriminate]. intros _. left. destruct acc; discriminate.
Qed.

Section Panic.
Variable U : unicode.

Lemma letter_not_blank : forall r, isLetter U r = true -> r <> c_tab /\ r <> c_space.
Proof. intros r H. split; intros ->; discriminate. Qed.

(** All forms of a lexed line. *)
Lemma lex_forms : forall l,
  (exists e, lexLine U [] l = ([], e)) \/
  lexLine U [] l = ([(emptyLineItem, [])], None) \/
  (exists c, lexLine U [] l = ([(includeItem, c)], None)) \/
  (exists w, lexLine U [] l = ([(periodItem, w)], None)) \/
  (exists c, lexLine U [] l = ([(commentItem, c)], None)) \/
  (exists a am, a <> [] /\ lexLine U [] l = (posting_items a am, None)) \/
  (exists w state payee note, lexLine U [] l = ((dateItem, w) :: state ++ (payeeItem, payee) :: note, None) /\
    (state = [] \/ exists c, (c = c_bang \/ c = c_star) /\ state = [(stateItem, [c])]) /\
    (note = [] \/ exists n, note = [(transactionHeaderCommentItem, n)])).
Proof.
  intro l. rewrite lexLine_spec. unfold lex_runes.
  destruct (decode l) as [|r rs]; [right; left; reflexivity|].
  destruct (isCommentIndicator r); [left; eauto|].
  destruct (r =? c_i).
  { unfold include_line. destruct (until_space (r :: rs)) as [d rs1].
    destruct (negb (str_eqb d (lit "include"))); [left; eauto|].
    destruct (space_width rs1 =? 0); [left; eauto|].
    destruct (fst (to_tab [] (drop_space rs1))); [left; eauto|].
    right; right; left. eexists. reflexivity. }
  destruct (r =? c_tilde).
  { unfold period_line. destruct (space_width rs =? 0); [left; eauto|].
    right; right; right; left. eexists. reflexivity. }
  destruct (isNumber U r).
  { right; right; right; right; right; right. unfold header_line. destruct (until_space (r :: rs)) as [d rs1].
    destruct (match drop_space rs1 with
              | [] => ([], [])
              | r0 :: rs' => if (r0 =? c_bang) || (r0 =? c_star) then ([(stateItem, [r0])], drop_space rs')
                             else ([], drop_space rs1) end) as [state rs3] eqn:E.
    destruct (to_tab [] rs3) as [payee rs4]. cbn [app].
    exists d, state, payee. eexists. split; [reflexivity|]. split.
    - destruct (drop_space rs1); [injection E as <- <-; now left|].
      destruct ((z =? c_bang) || (z =? c_star)) eqn:M; injection E as <- <-; [|now left].
      right. exists z. split; [|reflexivity]. apply orb_true_iff in M as [M|M]; apply Z.eqb_eq in M; auto.
    - destruct (trimSpaceStart rs4); [now left|right; eauto]. }
  destruct (_ || _); [|left; eauto].
  unfold posting_line. destruct (drop_space rs) as [|z l0]; [left; eauto|].
  destruct (isCommentIndicator z); [right; right; right; right; left; eauto|].
  destruct (isLetter U z) eqn:LZ; [|left; eauto].
  destruct (account_name [] false (z :: l0)) as [account rs1] eqn:AN.
  assert (account <> []) as NA.
  { eapply account_name_nonempty; [exact AN| |discriminate]. intros _. right. exists z, l0. split; [reflexivity|].
    now apply letter_not_blank. }
  right; right; right; right; right; left.
  destruct rs1 as [|z0 rs1]; [exists account, None; auto|].
  destruct (commodity_name U (drop_space (z0 :: rs1))) as [commodity rs2].
  eexists account, (Some (_, _)). split; [assumption|reflexivity].
Qed.

(** The builder's state, described by what is open. *)
Definition prev_ready (b : builder) : Prop :=
  prev_in b [commentItem; transactionHeaderCommentItem; payeeItem; amountItem; accountItem; periodItem] = true.
Definition fits (s : open_state) (b : builder) : Prop :=
  match s with
  | Fresh => b = newBuilder
  | Nothing => b_txn b = None /\ b_ptxn b = None /\ b_cur b = None /\ prev_ready b
  | InTransaction => b_type b = normalTransaction /\ (exists t, b_txn b = Some t) /\ b_ptxn b = None /\
      (exists p, b_cur b = Some p) /\ prev_ready b
  | InBudget seen => b_type b = periodicTransaction /\ b_txn b = None /\ (exists pt, b_ptxn b = Some pt) /\
      (exists p, b_cur b = Some p /\ (po_account p = [] <-> seen = false)) /\ prev_ready b
  end.

Definition closed_state (s : open_state) : open_state := match s with Fresh => Fresh | _ => Nothing end.

Lemma fits_close : forall s b, fits s b ->
  match close_open b with
  | (b', _, SOk) => fits (closed_state s) b'
  | (_, _, SErr _) => True
  | _ => False
  end.
Proof.
  intros s b F. destruct s as [| | |seen]; cbn in F.
  - subst b. reflexivity.
  - destruct F as (T & P & C & R). unfold close_open. rewrite T, P. destruct (b_type b); cbn; auto.
  - destruct F as (TY & (t & T) & P & C & R). unfold close_open. rewrite TY, T.
    destruct (endNormalTransaction b t) as [t' [e|]]; cbn; auto.
  - destruct F as (TY & T & (pt & P) & C & R). unfold close_open. rewrite TY, P.
    destruct (endNormalTransaction b (pt_txn pt)) as [t' [e|]]; cbn; auto.
Qed.

Definition opened (s : open_state) : Prop := s = InTransaction \/ exists seen, s = InBudget seen.

(** Account, commodity, amount and comment items when something is open. *)
Lemma build_account : forall s b a, fits s b -> opened s -> a <> [] ->
  exists b', build b accountItem a = POk b' /\
    fits (match s with InBudget _ => InBudget true | _ => s end) b' /\ b_prev b' = Some accountItem.
Proof.
  intros s b a F N NA.
  assert (encode a <> []) as NE.
  { destruct a as [|r a]; [congruence|]. cbn. pose proof (encode_rune_nonempty r). destruct (encode_rune r); [congruence|discriminate]. }
  destruct N as [->|[seen ->]]; cbn in F; unfold build.
  - destruct F as (TY & (t & T) & PT & (p & C) & R). rewrite TY. unfold buildNormalTransaction.
    unfold prev_ready in R. rewrite R. cbn [negb]. unfold target. rewrite C, TY, T.
    destruct (negb (is_nil (po_account p))); eexists; (split; [reflexivity|]); unfold set_target; rewrite TY; cbn; (split; [|reflexivity]); repeat split; eauto.
  - destruct F as (TY & T & (pt & PT) & (p & C & S) & R). rewrite TY. unfold buildPeriodicTransaction. rewrite PT.
    unfold buildNormalTransaction. unfold prev_ready in R. rewrite R. cbn [negb]. unfold target. rewrite C, TY, PT. cbn [option_map].
    destruct (negb (is_nil (po_account p))); eexists; (split; [reflexivity|]); unfold set_target; rewrite TY, PT; cbn; (split; [|reflexivity]);
     (repeat split; eauto); eexists; (split; [reflexivity|]); cbn;
      split; congruence.
Qed.

Lemma build_commodity : forall s b c, fits s b -> opened s -> b_prev b = Some accountItem ->
  exists b', build b commodityItem c = POk b' /\ b_prev b' = Some commodityItem /\
    fits s (set_prev b' amountItem).
Proof.
  intros s b c F N PV. destruct N as [->|[seen ->]]; cbn in F; unfold build.
  - destruct F as (TY & (t & T) & PT & (p & C) & R). rewrite TY. unfold buildNormalTransaction, prev_in. rewrite PV. cbn [existsb item_eqb orb negb].
    rewrite C. eexists. split; [reflexivity|]. cbn. repeat split; eauto.
  - destruct F as (TY & T & (pt & PT) & (p & C & S) & R). rewrite TY. unfold buildPeriodicTransaction, buildNormalTransaction, prev_in.
    rewrite PT, PV. cbn [existsb item_eqb orb negb]. rewrite C. eexists. split; [reflexivity|]. cbn. rewrite TY. repeat split; eauto.
Qed.

Lemma build_amount : forall s b c, fits s (set_prev b amountItem) -> opened s -> b_prev b = Some commodityItem ->
  match build b amountItem c with
  | POk b' => fits s b' /\ c <> []
  | PErr _ => c <> []
  | PPanic => c = []
  end.
Proof.
  intros s b c F N PV.
  assert (exists p, b_cur b = Some p /\ forall p', po_account p' = po_account p -> fits s (set_prev (set_cur b p') amountItem)) as (p & C & FK).
  { destruct N as [->|[seen ->]]; cbn in F.
    - destruct F as (TY & T & PT & (p & C) & R). exists p. split; [exact C|]. intros p' _. cbn. eauto 10.
    - destruct F as (TY & T & PT & (p & C & S) & R). exists p. split; [exact C|]. intros p' E. cbn. repeat split; eauto.
      eexists. split; [reflexivity|]. now rewrite E. }
  assert (match buildNormalTransaction b amountItem c with
          | POk b' => (exists p', po_account p' = po_account p /\ b' = set_cur b p') /\ c <> []
          | PErr _ => c <> [] | PPanic => c = [] end) as K.
  { unfold buildNormalTransaction, prev_in. rewrite PV. cbn [existsb item_eqb orb negb]. rewrite C.
    destruct c as [|r c]; [reflexivity|].
    pose proof (parseAmount_no_panic (r :: c)) as NP. specialize (NP ltac:(discriminate)).
    destruct (parseAmount (r :: c)) as [q|e|]; [|discriminate|congruence].
    split; [|discriminate]. eexists. split; [|reflexivity]. reflexivity. }
  unfold build.
  assert (b_type b = normalTransaction \/ (b_type b = periodicTransaction /\ exists pt, b_ptxn b = Some pt)) as [TY|[TY (pt & PT)]].
  { destruct N as [->|[seen ->]]; cbn in F; [left|right; split]; apply F. }
  - rewrite TY. destruct (buildNormalTransaction b amountItem c) as [b'|e|]; auto. destruct K as [(p' & EA & ->) NC]. auto.
  - rewrite TY. unfold buildPeriodicTransaction. rewrite PT. destruct (buildNormalTransaction b amountItem c) as [b'|e|]; auto.
    destruct K as [(p' & EA & ->) NC]. auto.
Qed.

Lemma build_comment : forall s b c, fits s b -> opened s -> s <> InBudget false ->
  exists b', build b commentItem c = POk b' /\ fits s b'.
Proof.
  intros s b c F N NB. unfold build. destruct N as [->|[seen ->]]; cbn in F.
  - destruct F as (TY & (t & T) & PT & (p & C) & R). rewrite TY. unfold buildNormalTransaction. rewrite C, T.
    destruct (negb (is_nil (po_account p))); eexists; (split; [reflexivity|]); cbn; repeat split; eauto.
  - destruct F as (TY & T & (pt & PT) & (p & C & S) & R). rewrite TY. unfold buildPeriodicTransaction. rewrite PT.
    unfold buildNormalTransaction. rewrite C. destruct seen; [|congruence].
    destruct (po_account p) as [|x ac] eqn:A; [destruct S as [S _]; discriminate (S eq_refl)|]. cbn. eexists. split; [reflexivity|]. cbn.
    repeat split; eauto. eexists. split; [reflexivity|]. cbn. rewrite A. split; congruence.
Qed.

(** One line. *)
Definition line_result (s : open_state) (closes : Prop) (l : str) (x : fres) : Prop :=
  match x with
  | (b', _, SOk) => fits (after_line U s l) b' /\ ~ crash U s closes l
  | (_, _, SErr _) => ~ crash U s closes l
  | (_, _, SPanic) => crash U s closes l
  | _ => False
  end.

Lemma opened_cases : forall s, s = Fresh \/ s = Nothing \/ opened s.
Proof. intros []; unfold opened; eauto. Qed.

Lemma fits_line : forall s l b, fits s b -> included U [] l = None ->
  line_result s (snd (close_open b) = SOk) l (flat_line U l b).
Proof.
  intros s l b F NI. unfold flat_line, line_result, after_line.
  destruct (lex_forms l) as [[e E]|[E|[[c E]|[[w E]|[[c E]|[(a & am & NA & E)|(w & state & payee & note & E & HS & HN)]]]]]];
    rewrite E; cbn [fst].
  - assert (~ crash U s (snd (close_open b) = SOk) l) as NC by (intros [? ? X|? ? ? X|? ? ? X|? ? X]; rewrite E in X; discriminate X).
    cbn. destruct e; auto.
  - assert (~ crash U s (snd (close_open b) = SOk) l) as NC by (intros [? ? X|? ? ? X|? ? ? X|? ? X]; rewrite E in X; discriminate X).
    cbn [flat_items flat_item]. pose proof (fits_close s b F) as K. destruct (close_open b) as [[b' es] r].
    destruct r; cbn; auto; contradiction.
  - exfalso. unfold included in NI. rewrite E in NI. discriminate.
  - (* a budget header *)
    assert (~ crash U s (snd (close_open b) = SOk) l) as NC by (intros [? ? X|? ? ? X|? ? ? X|? ? X]; rewrite E in X; discriminate X).
    cbn [flat_items flat_item]. pose proof (fits_close s b F) as K. destruct (close_open b) as [[b' es] r].
    destruct r; cbn [fbind] in *; try contradiction; [|exact NC].
    unfold built, build. cbn [beginTransaction b_type]. unfold buildPeriodicTransaction. cbn [b_ptxn].
    cbn. split; [|exact NC]. repeat split; eauto.
    + destruct s; cbn in K; [subst b'; reflexivity|..]; apply K.
    + eexists. split; [reflexivity|]. cbn. split; auto.
  - (* a comment *)
    cbn [flat_items flat_item].
    destruct (opened_cases s) as [->|[->|O]].
    + cbn in F. subst b. cbn. eapply StrayComment; eauto.
    + cbn in F. destruct F as (T & P & C & R).
      assert (build b commentItem c = PPanic) as X.
      { unfold build, buildPeriodicTransaction, buildNormalTransaction. rewrite P, C. destruct (b_type b); reflexivity. }
      unfold built. rewrite X. cbn. eapply StrayComment; eauto.
    + assert (s = InBudget false \/ s <> InBudget false) as [->|NB].
      { destruct s as [| | |[]]; auto; right; discriminate. }
      * cbn in F. destruct F as (TY & T & (pt & PT) & (p & C & S) & R). destruct S as [_ S]. specialize (S eq_refl).
        assert (build b commentItem c = PPanic) as X.
        { unfold build, buildPeriodicTransaction, buildNormalTransaction. now rewrite TY, PT, C, S, T. }
        unfold built. rewrite X. cbn. eapply StrayComment; eauto.
      * destruct (build_comment s b c F O NB) as (b' & B & FB). unfold built. rewrite B. cbn. split; [exact FB|].
        intros [? ? X|? ? ? X|? ? ? X|? CS X]; rewrite E in X; try discriminate X.
        unfold opened in O. destruct CS as [->|[->| ->]]; [destruct O as [O|[? O]]; discriminate O..|congruence].
  - (* a posting *)
    assert (exists rest, posting_items a am = (accountItem, a) :: rest) as (rest & PI) by (destruct am as [[? ?]|]; eexists; reflexivity).
    destruct (opened_cases s) as [->|[->|O]].
    + cbn in F. subst b. rewrite PI. cbn. intros [? ? X|? ? NF X|? ? ? X|? CS X]; rewrite E, ?PI in X; congruence.
    + cbn in F. destruct F as (T & P & C & R).
      assert (build b accountItem a = PPanic) as X.
      { unfold build, buildPeriodicTransaction, buildNormalTransaction. unfold prev_ready in R. rewrite P, C, R. destruct (b_type b); reflexivity. }
      rewrite PI. cbn [flat_items flat_item]. unfold built. rewrite X. cbn. eapply StrayPosting; [reflexivity|]. now rewrite E, PI.
    + assert (s <> Fresh /\ s <> Nothing) as [NF NN] by (unfold opened in O; destruct O as [->|[? ->]]; split; discriminate).
      destruct (build_account s b a F O NA) as (b1 & B1 & F1 & P1).
      set (s1 := match s with InBudget _ => InBudget true | _ => s end) in *.
      assert (opened s1) as O1 by (unfold s1, opened in *; destruct O as [->|[? ->]]; eauto).
      destruct am as [[cm qt]|]; cbn [posting_items flat_items flat_item] in *.
      * destruct (build_commodity s1 b1 cm F1 O1 P1) as (b2 & B2 & P2 & F2).
        pose proof (build_amount s1 b2 qt F2 O1 P2) as K.
        unfold built at 1. rewrite B1. cbn [fbind]. unfold built at 1. rewrite B2. cbn [fbind]. unfold built.
        assert (qt <> [] -> ~ crash U s (snd (close_open b) = SOk) l) as NC.
        { intros NQ [? ? X|? ? _ X|? ? S X|? ? X]; rewrite E in X; try discriminate X; [|contradiction]. injection X as _ _ X. exact (NQ X). }
        destruct (build b2 amountItem qt) as [b3|e|]; cbn.
        -- destruct K as [K NQ]. split; [exact K|auto].
        -- auto.
        -- subst qt. eapply EmptyAmount; [exact NF|exact E].
      * unfold built. rewrite B1. cbn. split; [exact F1|].
        intros [? ? X|? ? _ X|? ? S X|? ? X]; rewrite E in X; try discriminate X; contradiction.
  - (* a header *)
    cbn [flat_items flat_item]. pose proof (fits_close s b F) as K. destruct (close_open b) as [[b' es] r].
    assert (forall r : status, r <> SOk \/ (5 <= length w)%nat -> ~ crash U s (snd (b', es, r) = SOk) l) as NC.
    { intros r0 D [? ? X L CL|? ? ? X|? ? ? X|? ? X]; rewrite E in X; try discriminate X. injection X as <- <-.
      cbn in CL. destruct D; [congruence|lia]. }
    destruct r; cbn [fbind] in *; try contradiction; [|apply NC; left; discriminate].
    assert (b_txn b' = None /\ b_ptxn b' = None) as [T' P'].
    { destruct s; cbn in K; [subst b'; auto|..]; destruct K as (? & ? & _); auto. }
    unfold built at 1. unfold build. cbn [beginTransaction b_type]. unfold buildNormalTransaction at 1. cbn [target b_type b_txn].
    destruct (parseDate w) as [d|e|] eqn:PD; cbn [rewrap wrap_err fbind].
    + assert (~ crash U s (snd (b', es, SOk) = SOk) l) as NC1.
      { apply NC. right. unfold parseDate in PD. destruct (nth_error w 4) eqn:N; [|discriminate].
        assert (nth_error w 4 <> None) as N' by congruence. apply nth_error_Some in N'. lia. }
      destruct HS as [->|(c & _ & ->)], HN as [->|[n ->]]; cbn; (split; [|exact NC1]); repeat split; eauto.
    + apply NC. right. unfold parseDate in PD. destruct (nth_error w 4) eqn:N; [|discriminate].
      assert (nth_error w 4 <> None) as N' by congruence. apply nth_error_Some in N'. lia.
    + eapply ShortDate; [exact E|now apply parseDate_panic|reflexivity].
Qed.

(** All lines. *)
Lemma after_lines_snoc : forall ls l, after_lines U (ls ++ [FLine l]) = after_line U (after_lines U ls) l.
Proof. intros. unfold after_lines. now rewrite fold_left_app. Qed.

Definition ok_lines (ls : list fline) : Prop := forall r, In (FStop r) ls -> False.

Lemma ok_stops : forall ls, ok_lines ls -> stops_fail ls.
Proof. intros ls OK. apply Forall_forall. intros x I ->. exact (OK _ I). Qed.

Lemma flat_snoc_ok : forall ls b b' es l, flat U ls b = (b', es, SOk) -> ok_lines ls ->
  flat U (ls ++ [FLine l]) b = (let '(b2, es2, r) := flat_line U l b' in (b2, es ++ es2, r)).
Proof.
  intros ls b b' es l E OK. rewrite flat_app.
  - rewrite E. cbn [fbind flat]. rewrite fbind_ret. reflexivity.
  - now apply ok_stops.
Qed.

Lemma flat_crash : forall ls pre b0 es0, plain_lines U (pre ++ ls) -> ok_lines pre -> stops_fail ls -> ~ In (FStop SPanic) ls ->
  flat U pre newBuilder = (b0, es0, SOk) -> fits (after_lines U pre) b0 ->
  (snd (flat U ls b0) = SPanic <->
   exists ls1 l ls2, ls = ls1 ++ FLine l :: ls2 /\ snd (flat U (pre ++ ls1) newBuilder) = SOk /\ ok_lines ls1 /\ crashes U (pre ++ ls1) l).
Proof.
  induction ls as [|[l|r] ls IH]; intros pre b0 es0 PL OK SF NP E F.
  - cbn. split; [discriminate|]. intros (ls1 & l & ls2 & X & _). destruct ls1; discriminate X.
  - assert (included U [] l = None) as NI by (unfold plain_lines in PL; rewrite Forall_forall in PL; apply (PL (FLine l)); apply in_or_app; right; left; reflexivity).
    pose proof (fits_line (after_lines U pre) l b0 F NI) as LR.
    assert (snd (flat U (pre ++ [FLine []]) newBuilder) = snd (close_open b0)) as CL.
    { rewrite (flat_snoc_ok _ _ _ _ _ E OK). change (flat_line U [] b0) with (fbind (close_open b0) (fun b' => (b', [], SOk))).
      rewrite fbind_ret. destruct (close_open b0) as [[? ?] ?]. reflexivity. }
    assert (forall ls1 l' ls2, FLine l :: ls = ls1 ++ FLine l' :: ls2 ->
              (ls1 = [] /\ l' = l /\ ls2 = ls) \/ exists ls1', ls1 = FLine l :: ls1' /\ ls = ls1' ++ FLine l' :: ls2) as SPL.
    { intros [|x ls1] l' ls2 X; cbn in X; injection X as -> ->; [now left|right; eauto]. }
    cbn [flat]. pose proof (flat_snoc_ok _ _ _ _ l E OK) as FS.
    destruct (flat_line U l b0) as [[b1 es1] r1] eqn:FL. unfold line_result in LR. rewrite <- CL in LR.
    change (crash U (after_lines U pre) (snd (flat U (pre ++ [FLine []]) newBuilder) = SOk) l) with (crashes U pre l) in LR.
    assert (r1 <> SOk -> (exists ls1 l0 ls2, FLine l :: ls = ls1 ++ FLine l0 :: ls2 /\ snd (flat U (pre ++ ls1) newBuilder) = SOk /\ ok_lines ls1 /\
                  crashes U (pre ++ ls1) l0) -> crashes U pre l) as ONLY.
    { intros NO (ls1 & l0 & ls2 & X & FO & _ & CR). destruct (SPL _ _ _ X) as [(-> & -> & _)|(ls1' & -> & _)].
      - now rewrite app_nil_r in CR.
      - exfalso. replace (pre ++ FLine l :: ls1') with ((pre ++ [FLine l]) ++ ls1') in FO by now rewrite <- app_assoc.
        rewrite flat_app in FO; [|apply ok_stops; intros x I; apply in_app_iff in I as [I|[I|[]]]; [exact (OK x I)|discriminate I]].
        rewrite FS in FO. destruct r1; cbn in FO; congruence. }
    destruct r1; try contradiction; cbn [fbind].
    + destruct LR as [F1 NC].
      assert (ok_lines (pre ++ [FLine l])) as OK1 by (intros x I; apply in_app_iff in I as [I|[I|[]]]; [exact (OK x I)|discriminate I]).
      specialize (IH (pre ++ [FLine l]) b1 (es0 ++ es1)).
      rewrite <- !app_assoc in IH. cbn [app] in IH.
      specialize (IH PL OK1). assert (stops_fail ls) as SF1 by (now inversion SF).
      assert (~ In (FStop SPanic) ls) as NP1 by (intro I; apply NP; now right).
      specialize (IH SF1 NP1 FS). rewrite after_lines_snoc in IH. specialize (IH F1).
      destruct (flat U ls b1) as [[b2 es2] r2]. cbn [snd] in *. rewrite IH. split.
      * intros (ls1 & l' & ls2 & -> & FO & OL & CR). exists (FLine l :: ls1), l', ls2.
        rewrite <- !app_assoc in *. cbn [app] in *. repeat split; auto. intros x [I|I]; [discriminate I|exact (OL x I)].
      * intros (ls1 & l' & ls2 & X & FO & OL & CR). destruct (SPL _ _ _ X) as [(-> & -> & _)|(ls1' & -> & EL)].
        -- rewrite app_nil_r in CR. contradiction.
        -- exists ls1', l', ls2. rewrite <- !app_assoc. cbn [app]. repeat split; auto. intros x I. apply (OL x). now right.
    + cbn. split; [discriminate|]. intro X. exfalso. apply LR, ONLY; [discriminate|exact X].
    + cbn. split; [intros _|reflexivity]. exists [], l, ls. rewrite app_nil_r, E. repeat split; auto. intros x [].
  - cbn. split; [intros ->; exfalso; apply NP; now left|].
    intros (ls1 & l & ls2 & X & _ & OL & _). exfalso. destruct ls1 as [|x ls1]; [discriminate X|]. injection X as <- ->. apply (OL r). now left.
Qed.
End Panic.
