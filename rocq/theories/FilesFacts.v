(** * Reading a journal in several files *)
From Verif Require Import Base BaseFacts Utf8 Utf8Facts Unicode GoTime Strconv Journal Lexer LexSpec
  LexerFacts JournalText LexText Parser ParserFacts FlatSpec FlatFacts Spec JournalFacts BuilderFacts LineFacts IncludeFacts
  TextSpec DateFacts AmountFacts ReadFacts WriteFacts BodyFacts BookText PeriodFacts InputFacts WholeFacts FilesText PropsInput.

Lemma lines_written_read : forall s ls, lines_written s ls -> file_lines s = map Line ls.
Proof.
  induction 1 as [|l NE (N & C & L)|l s ls (N & C & L) W IH|l s ls (N & C & L) L2 W IH]; [reflexivity| | |]; cbn [map].
  - unfold file_lines. rewrite (raw_lines_rest l N NE). cbn. unfold bufferSize.
    destruct (Z.leb_spec 4096 (Z.of_nat (length l))); [lia|reflexivity].
  - pose proof (file_lines_inserted [] l s (or_introl eq_refl) N L) as X. cbn [app] in X. refine (eq_trans X _).
    change (file_lines []) with (@nil line). cbn [app]. now rewrite chop_cr_id, IH by assumption.
  - assert (N' : ~ In LF (l ++ [13])) by (intro I; apply in_app_iff in I as [I|[I|[]]]; [contradiction|discriminate]).
    assert (L' : Z.of_nat (length (l ++ [13])) < 4096) by (rewrite app_length; cbn [length]; lia).
    pose proof (file_lines_inserted [] (l ++ [13]) s (or_introl eq_refl) N' L') as X. cbn [app] in X.
    rewrite <- app_assoc in X. refine (eq_trans X _). change (file_lines []) with (@nil line). cbn [app]. rewrite IH. f_equal. f_equal.
    unfold chop_cr. rewrite rev_app_distr. cbn. now rewrite rev_involutive.
Qed.

Section Files.
Variables (U : unicode) (fs : str -> option file).

Lemma included_free : forall h1 h2 l, included U h1 l = None -> included U h2 l = None.
Proof.
  intros h1 h2 l. unfold included. rewrite !lexLine_spec. unfold lex_runes. destruct (decode l) as [|r rs]; [auto|].
  destruct (isCommentIndicator r); [auto|]. destruct (r =? c_i); [|auto].
  unfold include_line. destruct (until_space (r :: rs)) as [d rs1].
  destruct (negb _); [auto|]. destruct (_ =? 0); [auto|]. destruct (fst _); [auto|discriminate].
Qed.

Lemma fbind_nil : forall b es k, fbind (b, es, SOk) k = (let '(b', es', r) := k b in (b', es ++ es', r)).
Proof. reflexivity. Qed.

Lemma begins_closes : forall l b b' es, begins l -> close_open b = (b', es, SOk) -> closed b' ->
  flat_line U l b = fbind (b', es, SOk) (flat_line U l).
Proof.
  intros l b b' es H C Cl.
  assert (X : header U l \/ l = []) by (destruct H as [->|[(d & c & -> & D)|(c & ->)]]; [now right|left; now apply digit_header|left; apply tilde_header; now left]).
  destruct X as [(i & c & items & e & E & I)| ->].
  - unfold flat_line. rewrite E. cbn [flat_items].
    assert (Y : exists K, (forall b0, flat_item b0 i c = fbind (close_open b0) K)) by (destruct I as [->| ->]; eexists; intro b0; reflexivity).
    destruct Y as [K Y]. rewrite Y, C, fbind_assoc. rewrite !fbind_nil, Y, Cl, fbind_assoc, fbind_nil. cbn [app].
    destruct (fbind (K b') _) as [[? ?] ?]. reflexivity.
  - assert (E : forall b0, flat_line U [] b0 = fbind (close_open b0) (fun b' => (b', [], SOk))) by reflexivity.
    rewrite E, C. cbn [fbind]. rewrite E, Cl. reflexivity.
Qed.

(** The entry is finished by the line after it. *)
Lemma finished : forall ls b b' b1 e, flat U (map FLine ls ++ [FLine []]) b = (b', [e], SOk) ->
  flat U (map FLine ls) b = (b1, [], SOk) -> close_open b1 = (b', [e], SOk).
Proof.
  intros ls b b' b1 e H O. rewrite flat_app, O in H by apply lines_no_stop. cbn [fbind flat] in H.
  assert (E : flat_line U [] b1 = fbind (close_open b1) (fun b' => (b', [], SOk))) by reflexivity.
  rewrite E, fbind_ret in H. destruct (close_open b1) as [[b2 es2] r2]. destruct r2; cbn in H; try discriminate.
  rewrite app_nil_r in H. exact H.
Qed.

Lemma assignment_opens : forall ls a b, assignment_written U ls a -> closed b -> exists b', flat U (map FLine ls) b = (b', [], SOk).
Proof.
  intros ls a b AW C. destruct AW as [k ys ms y m pl ps NY NM RM PW NE].
  destruct (period_read U k ys ms y m b NY NM RM C) as (b1 & tx & E1 & O1).
  destruct (ppostings_read U tx _ pl ps PW b1 _ newPosting O1 eq_refl) as (b3 & E3 & O3).
  exists b3. cbn [map flat]. rewrite E1. cbn [fbind]. rewrite E3. reflexivity.
Qed.

Lemma filed_deeper : forall n path ls ws, filed U fs n path ls ws -> forall m, (n <= m)%nat -> filed U fs m path ls ws.
Proof.
  induction 1; intros m Le; try (constructor; auto; fail).
  destruct m as [|m]; [lia|]. eapply FiledInclude; eauto. apply IHfiled1. lia.
Qed.

Lemma expand_begins : forall inc path ls, Forall begins (firstn 1 ls) -> exists l more,
  expand_lines U inc path false (map Line ls) = FLine l :: more /\ begins l.
Proof.
  intros inc path [|l ls] B; [exists [], []; split; [reflexivity|now left]|]. inversion B as [|? ? Bl _]; subst. cbn [map expand_lines].
  assert (included U path l = None) as ->; [|eauto]. apply included_free with []. unfold included.
  destruct Bl as [->|H]; [reflexivity|].
  assert (X : header U l) by (destruct H as [(d & c & -> & D)|(c & ->)]; [now apply digit_header|apply tilde_header; now left]).
  destruct X as (i & c & items & e & -> & [->| ->]); destruct items; reflexivity.
Qed.

Lemma filed_read : forall n path ls ws, filed U fs n path ls ws -> forall es, Forall2 means ws es -> forall b, closed b ->
  exists b', flat U (expand_lines U (inc_of U fs n) path false (map Line ls)) b = (b', es, SOk) /\ closed b'.
Proof.
  assert (Step : forall n path ls ls' e es b, Forall begins (firstn 1 ls') -> Forall (fun l => included U path l = None) ls ->
    (exists b', flat U (map FLine ls ++ [FLine []]) b = (b', [e], SOk) /\ closed b') -> (exists b1, flat U (map FLine ls) b = (b1, [], SOk)) ->
    (forall b, closed b -> exists b', flat U (expand_lines U (inc_of U fs n) path false (map Line ls')) b = (b', es, SOk) /\ closed b') ->
    exists b', flat U (expand_lines U (inc_of U fs n) path false (map Line (ls ++ ls'))) b = (b', e :: es, SOk) /\ closed b').
  { intros n path ls ls' e es b B NI (b' & E & C) (b1 & O) IH. pose proof (finished ls b b' b1 e E O) as Cl.
    destruct (IH b' C) as (b2 & E2 & C2). exists b2. split; [|exact C2].
    rewrite map_app.
    assert (expand_lines U (inc_of U fs n) path false (map Line ls ++ map Line ls') = map FLine ls ++ expand_lines U (inc_of U fs n) path false (map Line ls')) as ->.
    { clear - NI. induction NI as [|l ls H _ IH]; [reflexivity|]. cbn [map app expand_lines]. now rewrite H, IH. }
    rewrite flat_app, O by apply lines_no_stop. cbn [fbind app].
    destruct (expand_begins (inc_of U fs n) path ls' B) as (l & more & X & Bl). rewrite X in *. cbn [flat] in *.
    rewrite (begins_closes l b1 b' [e] Bl Cl C), fbind_assoc, fbind_nil. fold (flat U). rewrite E2. reflexivity. }
  induction 1 as [n path|n path ls t ls' ws TW B J IH|n path ls a ls' ws AW B J IH|n path ls ws J IH|n path c l ls ws Cs J IH|n dir base k name bytes inner ws ls ws' D Bs V Sp Fs Lw Ji IHi J IH];
    intros es F b C.
  - inversion F. exists b. split; [|exact C]. cbn [map expand_lines flat].
    assert (flat_line U [] b = fbind (close_open b) (fun b' => (b', [], SOk))) as -> by reflexivity. rewrite fbind_ret, C. reflexivity.
  - inversion F as [|? e ? es2 Fe F']; subst. inversion Fe; subst. apply Step; auto.
    + eapply txn_not_included; eassumption.
    + eapply settled_read; eassumption.
    + eapply txn_opens; eassumption.
  - inversion F as [|? e ? es2 Fe F']; subst. inversion Fe; subst. apply Step; auto.
    + eapply assignment_not_included; eassumption.
    + eapply assignment_read; eassumption.
    + eapply assignment_opens; eassumption.
  - destruct (IH _ F b C) as (b2 & E2 & C2). exists b2. split; [|exact C2]. cbn [map expand_lines].
    assert (included U path [] = None) as -> by reflexivity. cbn [flat].
    assert (flat_line U [] b = fbind (close_open b) (fun b' => (b', [], SOk))) as -> by reflexivity.
    rewrite fbind_ret, C. cbn [fbind]. rewrite E2. reflexivity.
  - destruct (IH _ F b C) as (b2 & E2 & C2). exists b2. split; [|exact C2]. cbn [map expand_lines].
    assert (included U path (c :: l) = None) as -> by (unfold included; now rewrite comment_lexes). cbn [flat].
    rewrite comment_flat by assumption. cbn [fbind]. rewrite E2. reflexivity.
  - apply Forall2_app_inv_l in F as (es1 & es2 & F1 & F2 & ->).
    destruct (IHi _ F1 b C) as (b1 & E1 & C1). destruct (IH _ F2 b1 C1) as (b2 & E2 & C2). exists b2. split; [|exact C2].
    cbn [map expand_lines].
    assert (included U (dir ++ base) (lit "include" ++ spaces (1 + k) ++ name) = Some (dir ++ name)) as ->.
    { change (spaces (1 + k)) with ([32] ++ spaces k). rewrite <- app_assoc. apply C18_include_path_partial; auto.
      exists (repeat 32 k). split; [|split].
      - apply Forall_forall. intros x I. apply repeat_spec in I. now subst x.
      - apply Forall_forall. intros x I. apply repeat_spec in I. now subst x.
      - unfold spaces. symmetry. apply encode_ascii. apply Forall_forall. intros x I. apply repeat_spec in I. subst x. unfold ascii. lia. }
    rewrite flat_app by apply inc_of_stops.
    assert (inc_of U fs (Datatypes.S n) (dir ++ name) = expand U fs n (dir ++ name) (File bytes false)) as -> by (cbn [inc_of]; now rewrite Fs).
    rewrite expand_inc_of. cbn [f_bad f_bytes].
    rewrite (lines_written_read _ _ Lw), E1. cbn [fbind]. rewrite E2. reflexivity.
Qed.

Theorem files_read : forall n depth path ls ws es bytes, filed U fs n path ls ws -> (n <= depth)%nat -> lines_written bytes ls -> Forall2 means ws es ->
  map erase (fst (trace U fs depth path (File bytes false))) = es /\ snd (trace U fs depth path (File bytes false)) = SOk.
Proof.
  intros n depth path ls ws es bytes J Le Lw F.
  pose proof (trace_flat U fs depth path (File bytes false)) as [TF TS].
  destruct (filed_read depth path ls ws (filed_deeper _ _ _ _ J depth Le) es F newBuilder closed_new) as (b & E & _).
  unfold entries in TF, TS. rewrite expand_inc_of in TF, TS. cbn [f_bad f_bytes] in TF, TS. rewrite (lines_written_read _ _ Lw), E in TF, TS.
  cbn [fst snd] in TF, TS. split; [exact TF|]. now apply strip_ok.
Qed.
End Files.
