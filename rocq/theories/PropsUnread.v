(** * C135: what follows a mistake is not looked at *)
From Verif Require Import Base BaseFacts Utf8 Unicode GoTime Strconv Display Journal Lexer Parser Account Reporting Budget Cmd Spec TextSpec
  TreeSpec ReportSpec CmdSpec CmdFacts FlatSpec LexSpec Sample LineFacts ParserFacts PropsCmd PropsBalance Unused Main MainSpec ProgramFacts PropsMain PropsDepth PropsAgain PropsConcat PropsJoin PropsJoinMore.

Section Lines.
Context {S : Type}.
Variable U : unicode.
Variable th : option (S -> transaction -> str -> S * status).
Variable ph : option (S -> ptransaction -> str -> S * status).

Lemma ended : forall st st', endTransaction th ph st = (st', SOk) -> endTransaction th ph st' = (st', SOk).
Proof.
  intros st st'. unfold endTransaction. destruct (b_type (ps_b st)) eqn:Ty.
  - destruct (b_txn (ps_b st)) as [t|] eqn:Tx.
    + destruct (endNormalTransaction (ps_b st) t) as [t' [e|]]; [discriminate|].
      destruct (match th with Some h => h (ps_s st) t' (last (ps_files st) []) | None => (ps_s st, SOk) end) as [s' []]; try discriminate.
      intros [= <-]. cbn [ps_b b_type b_txn]. now rewrite ?Ty.
    + intros [= <-]. now rewrite Ty, Tx.
  - destruct (b_ptxn (ps_b st)) as [t|] eqn:Tx.
    + destruct (endNormalTransaction (ps_b st) (pt_txn t)) as [t' [e|]]; [discriminate|].
      destruct (match ph with Some h => h (ps_s st) (PTxn (pt_period t) t') (last (ps_files st) []) | None => (ps_s st, SOk) end) as [s' []]; try discriminate.
      intros [= <-]. cbn [ps_b b_type b_ptxn]. now rewrite ?Ty.
    + intros [= <-]. now rewrite Ty, Tx.
Qed.

Lemma lines_unread : forall inc hint rest ls n st, snd (lexLines U th ph inc hint false n (ls ++ [Line []]) st) <> SOk ->
  lexLines U th ph inc hint false n (ls ++ Line [] :: rest) st = lexLines U th ph inc hint false n (ls ++ [Line []]) st.
Proof.
  intros inc hint rest ls. induction ls as [|[l|] ls IH]; intros n st H; cbn [app] in *.
  - revert H. assert (Q : lexLine U hint [] = ([(emptyLineItem, [])], None)) by reflexivity. cbn [lexLines]. rewrite Q. cbn [parseItems parseItem].
    destruct (endTransaction th ph st) as [st' r] eqn:En. destruct r; try reflexivity. intro H. exfalso. apply H. now rewrite (ended _ _ En).
  - revert H. cbn [lexLines]. destruct (lexLine U hint l) as [items e]. destruct (parseItems th ph inc st items e) as [st' r]. destruct r; try reflexivity. apply IH.
  - reflexivity.
Qed.
End Lines.

Section Unread.
Variable E : env.
Variable O : opts.
Variables p a b : str.
Hypothesis Path : journal_path E O = Some p.
Hypothesis Start : line_start a.
Let E1 := holding E p (a ++ [LF]).
Let E2 := holding E p (a ++ LF :: b).
Let here := (p, File (a ++ [LF]) false).
(** The files included do not include the journal again. *)
Hypothesis Once : ~ reads_again (e_unicode E) (e_fs E1) here here.

Let P (q : str) : Prop := exists q0 f0 l, (here = (q0, f0) \/ reads_again (e_unicode E) (e_fs E1) here (q0, f0)) /\
  In (Line l) (file_lines (f_bytes f0)) /\ included (e_unicode E) q0 l = Some q.
Lemma P_reads : forall q f, P q -> e_fs E1 q = Some f -> reads_again (e_unicode E) (e_fs E1) here (q, f).
Proof.
  intros q f (q0 & f0 & l & [R|R] & I & Q) F.
  - unfold here in R. injection R as <- <-. exists l, q, f. split; [exact I|]. split; [exact Q|]. split; [exact F|constructor].
  - destruct R as (l1 & p1 & f1 & I1 & Q1 & F1 & R). exists l1, p1, f1. split; [exact I1|]. split; [exact Q1|]. split; [exact F1|]. econstructor; eauto.
Qed.
Lemma P_closed : closed (e_unicode E) (e_fs E1) P.
Proof. intros q f l q' Pq F I Q. exists q, f, l. split; [right; now apply P_reads|auto]. Qed.
Lemma P_same : forall q, P q -> e_fs E1 q = e_fs E2 q.
Proof.
  intros q Pq. apply holding_off. intros ->. apply Once. apply P_reads; [exact Pq|]. unfold E1. now rewrite holding_at.
Qed.

Lemma unread_lines : file_lines (a ++ LF :: b) = file_lines a ++ Line [] :: file_lines b /\ file_lines (a ++ [LF]) = file_lines a ++ [Line []].
Proof. split; [exact (joined_lines a b Start)|]. rewrite (joined_lines a [] Start). reflexivity. Qed.

Lemma unread_same : snd (stream E1 O) <> SOk -> reads_same E1 E2 O.
Proof.
  intros Bad D th ph s.
  assert (Bad' : snd (parse_cmd E1 O th ph s) <> SOk).
  { pose proof (parse_cmd_fold E1 O D th ph s) as K. destruct (stream E1 O) as [evs r]. destruct (deliver_all th ph s evs) as [s' r'].
    destruct K as [_ K]. cbn [snd] in Bad. destruct r'; [now rewrite K|..]; intro X; rewrite X in K; discriminate K. }
  revert Bad'. unfold parse_cmd. change (o_file O) with (o_file O). unfold journal_path in Path.
  change (e_ledger_file E1) with (e_ledger_file E). change (e_ledger_file E2) with (e_ledger_file E). rewrite Path.
  rewrite (holding_at E p (a ++ [LF]) : e_fs E1 p = _), (holding_at E p (a ++ LF :: b) : e_fs E2 p = _). change (e_unicode E1) with (e_unicode E). change (e_unicode E2) with (e_unicode E).
  change (e_depth E1) with (e_depth E). change (e_depth E2) with (e_depth E). unfold parse.
  assert (R : forall st, snd (run_file (e_unicode E) (e_fs E1) th ph (e_depth E) p (File (a ++ [LF]) false) st) <> SOk ->
    run_file (e_unicode E) (e_fs E2) th ph (e_depth E) p (File (a ++ LF :: b) false) st = run_file (e_unicode E) (e_fs E1) th ph (e_depth E) p (File (a ++ [LF]) false) st).
  { intro st. destruct (e_depth E) as [|d]; cbn [run_file f_bad f_bytes]; destruct unread_lines as [-> L]; rewrite L.
    - apply lines_unread.
    - match goal with |- snd (lexLines _ _ _ ?i1 _ _ _ _ _) <> _ -> lexLines _ _ _ ?i2 _ _ _ _ _ = _ =>
        assert (Inc : lexLines (e_unicode E) th ph i1 p false 1 (file_lines a ++ [Line []]) st = lexLines (e_unicode E) th ph i2 p false 1 (file_lines a ++ [Line []]) st) end.
      { apply lexLines_within. intros l q st' I Q.
        assert (Pq : P q) by (exists p, (File (a ++ [LF]) false), l; split; [now left|]; split; [cbn [f_bytes]; now rewrite L|exact Q]).
        rewrite <- (P_same q Pq). destruct (e_fs E1 q) as [g|] eqn:G; [|reflexivity].
        now rewrite (run_file_within (e_unicode E) (e_fs E1) (e_fs E2) th ph P P_closed P_same d q g st' Pq G). }
      rewrite Inc. apply lines_unread. }
  intro H. specialize (R (PS newBuilder [p] s)). destruct (run_file (e_unicode E) (e_fs E1) th ph (e_depth E) p (File (a ++ [LF]) false) (PS newBuilder [p] s)) as [st r].
  rewrite R; [reflexivity|]. intro Q. cbn [snd] in *. subst r. now apply H.
Qed.

(** When a journal cannot be read, every command does the same whatever is written
    after it (and a blank line). *)
Theorem C135_unread : snd (stream E1 O) <> SOk -> forall c, does E2 c O = does E1 c O.
Proof. intros Bad c. symmetry. pose proof (same_commands E1 (e_fs E2) (e_depth E) O (unread_same Bad) c) as K. destruct c; exact K || reflexivity. Qed.
Theorem C135_program : forall L help_text library argv c, asks argv c O false -> snd (stream E1 O) <> SOk ->
  gledger E2 L help_text library argv = gledger E1 L help_text library argv.
Proof.
  intros L help_text library argv c As Bad. destruct (C79_flags_partial E2 L help_text library argv c O false As) as [G2 _].
  destruct (C79_flags_partial E1 L help_text library argv c O false As) as [G1 _]. now rewrite (G1 eq_refl), (G2 eq_refl), (C135_unread Bad c).
Qed.
End Unread.

(** The journal includes a good file, has a good entry, and an amount that is none. *)
Definition slip_text : str := lit "include k" ++ [LF] ++ lit "2021-01-01 A" ++ [LF] ++ lit "  x  $1" ++ [LF] ++ lit "  y" ++ [LF] ++
  lit "2021-01-02 B" ++ [LF] ++ lit "  x  $1x" ++ [LF] ++ lit "  y" ++ [LF].
Example C135_example : let E := env1 [(lit "k", spend_text)] in let O := opts_zero [] [] in let at_ x := holding E (lit "j") x in
  let here := (lit "j", File (slip_text ++ [LF]) false) in
  journal_path E O = Some (lit "j") /\ line_start slip_text /\ ~ reads_again (e_unicode E) (e_fs (at_ (slip_text ++ [LF]))) here here /\
  length (fst (stream (at_ (slip_text ++ [LF])) O)) = 2%nat /\
  snd (stream (at_ (slip_text ++ [LF])) O) = SErr (EErrorAt (EAt (lit "j") 6 (EParsingAmount (EParseInt (lit "1x"))))) /\
  snd (stream (at_ (slip_text ++ LF :: assign_text)) O) = snd (stream (at_ (slip_text ++ [LF])) O) /\
  does (at_ (slip_text ++ LF :: assign_text)) Accounts O = does (at_ (slip_text ++ [LF])) Accounts O.
Proof.
  cbn zeta. split; [reflexivity|]. split; [right; eexists; unfold slip_text; rewrite !app_assoc; reflexivity|]. split.
  { intros (l & p & f & I & Q & F & R). cbn [fst snd f_bytes] in *.
    assert (p = lit "k") as ->.
    { revert I Q. assert (X : file_lines (slip_text ++ [LF]) = map Line [lit "include k"; lit "2021-01-01 A"; lit "  x  $1"; lit "  y"; lit "2021-01-02 B"; lit "  x  $1x"; lit "  y"; []]) by (vm_compute; reflexivity).
      rewrite X. intros I Q. cbn [map In] in I. repeat (destruct I as [I|I]; [injection I as <-; vm_compute in Q; first [discriminate Q|injection Q as <-; reflexivity]|]). destruct I. }
    assert (f = File spend_text false) as -> by (vm_compute in F; injection F as <-; vm_compute; reflexivity).
    assert (Only : forall z, FlatSpec.reads U0 (e_fs (holding (env1 [(lit "k", spend_text)]) (lit "j") (slip_text ++ [LF]))) (lit "k", File spend_text false) z -> z = (lit "k", File spend_text false)).
    { intros z R0. induction R0 as [|q g l2 p' f' _ IH I2 Q2 _]; [reflexivity|]. exfalso. injection IH as -> ->. cbn [f_bytes] in I2. revert I2.
      assert (X : file_lines spend_text = map Line [lit "2021-03-05 C"; lit "  Expenses:Food  $2"; lit "  w"]) by (vm_compute; reflexivity).
      rewrite X. intro I2. cbn [map In] in I2. repeat (destruct I2 as [I2|I2]; [injection I2 as <-; vm_compute in Q2; discriminate Q2|]). destruct I2. }
    apply Only in R. discriminate R. }
  vm_compute. repeat split.
Qed.
