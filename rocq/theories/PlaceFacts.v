(** * Which files the entries of a journal are counted for *)
From Verif Require Import Base BaseFacts Utf8 Utf8Facts Unicode GoTime Strconv Journal Lexer LexSpec
  LexerFacts JournalText LexText Parser ParserFacts FlatSpec FlatFacts Spec JournalFacts BuilderFacts LineFacts IncludeFacts
  TextSpec DateFacts AmountFacts ReadFacts WriteFacts BodyFacts BookText PeriodFacts InputFacts WholeFacts FilesText FilesFacts PlaceText
  PropsInput PropsWhere PropsConcat.

Section Places.
Variables (U : unicode) (fs : str -> option file) (top : str).
Notation attributed := (attributed U).

Lemma attributed_silent : forall p xs b b', Forall (fun x => match x with FStop _ => False | _ => True end) xs -> flat U xs b = (b', [], SOk) ->
  attributed (map (pair p) xs) b = (b', [], SOk).
Proof.
  intros p. induction xs as [|x xs IH]; intros b b' F H; [now inversion H|]. inversion_clear F as [|? ? N F']. destruct x as [l|]; [|contradiction].
  cbn [map PropsWhere.attributed]. cbn [flat] in *. rewrite fbind_ret. destruct (flat_line U l b) as [[b1 es1] r1]. destruct r1; cbn in H; try discriminate.
  cbn [fbind] in H. destruct (flat U xs b1) as [[b2 es2] r2] eqn:E2. inversion H; subst. destruct es1; [|discriminate]. destruct es2; [|discriminate].
  rewrite (IH _ _ F' E2). reflexivity.
Qed.

Lemma lines_plain : forall ls, Forall (fun x => match x with FStop _ => False | FLine _ => True end) (map FLine ls).
Proof. intro ls. apply Forall_forall. intros x I. apply in_map_iff in I as (l & <- & _). exact Logic.I. Qed.

Lemma tag_begins : forall inc cur path ls, Forall begins (firstn 1 ls) -> exists l more,
  tag_lines U inc top cur path false (map Line ls) = (cur, FLine l) :: more /\ begins l.
Proof.
  intros inc cur path [|l ls] B; [exists [], []; split; [reflexivity|now left]|]. inversion B as [|? ? Bl _]; subst. cbn [map tag_lines].
  assert (included U path l = None) as ->; [|eauto]. apply (included_free U []). unfold included.
  destruct Bl as [->|H]; [reflexivity|].
  assert (X : header U l) by (destruct H as [(d & c & -> & D)|(c & ->)]; [now apply digit_header|apply tilde_header; now left]).
  destruct X as (i & c & items & e & -> & [->| ->]); destruct items; reflexivity.
Qed.

Definition at_paths (ps : list str) (es : list FlatSpec.entry) : list event := map (fun x => at_path (fst x) (snd x)) (combine ps es).

Lemma at_paths_app : forall ps ps' es es', length ps = length es -> at_paths (ps ++ ps') (es ++ es') = at_paths ps es ++ at_paths ps' es'.
Proof.
  unfold at_paths. induction ps as [|p ps IH]; intros ps' [|e es] es' L; try discriminate; [reflexivity|]. cbn in *. f_equal. apply IH. congruence.
Qed.

Lemma placed_deeper : forall n cur path ls ws, placed U fs top n cur path ls ws -> forall m, (n <= m)%nat -> placed U fs top m cur path ls ws.
Proof.
  induction 1; intros m Le; try (constructor; auto; fail).
  destruct m as [|m]; [lia|]. eapply PlacedInclude; eauto. apply IHplaced1. lia.
Qed.

Lemma placed_read : forall n cur path ls ws, placed U fs top n cur path ls ws -> forall es, Forall2 means (map snd ws) es -> forall b, closed b ->
  exists b', attributed (tag_lines U (tag_inc U fs n top) top cur path false (map Line ls)) b = (b', at_paths (map fst ws) es, SOk) /\ closed b'.
Proof.
  assert (Step : forall n cur path ls ls' e es ws b, Forall begins (firstn 1 ls') -> Forall (fun l => included U path l = None) ls ->
    (exists b', flat U (map FLine ls ++ [FLine []]) b = (b', [e], SOk) /\ closed b') -> (exists b1, flat U (map FLine ls) b = (b1, [], SOk)) ->
    (forall b, closed b -> exists b', attributed (tag_lines U (tag_inc U fs n top) top cur path false (map Line ls')) b = (b', at_paths ws es, SOk) /\ closed b') ->
    exists b', attributed (tag_lines U (tag_inc U fs n top) top cur path false (map Line (ls ++ ls'))) b = (b', at_path cur e :: at_paths ws es, SOk) /\ closed b').
  { intros n cur path ls ls' e es ws b B NI (b' & E & C) (b1 & O) IH. pose proof (finished U ls b b' b1 e E O) as Cl.
    destruct (IH b' C) as (b2 & E2 & C2). exists b2. split; [|exact C2].
    rewrite map_app.
    assert (tag_lines U (tag_inc U fs n top) top cur path false (map Line ls ++ map Line ls') = map (pair cur) (map FLine ls) ++ tag_lines U (tag_inc U fs n top) top cur path false (map Line ls')) as ->.
    { clear - NI. induction NI as [|l ls H _ IH]; [reflexivity|]. cbn [map app tag_lines]. now rewrite H, IH. }
    rewrite attributed_app, (attributed_silent cur _ _ _ (lines_plain ls) O).
    destruct (tag_begins (tag_inc U fs n top) cur path ls' B) as (l & more & X & Bl). rewrite X in *. cbn [PropsWhere.attributed flat] in *.
    rewrite (begins_closes U l b1 b' [e] Bl Cl C), fbind_nil. rewrite !fbind_ret in *.
    destruct (flat_line U l b') as [[b3 es3] r3]. destruct r3; cbn [fbind app]; try discriminate.
    destruct (attributed more b3) as [[b4 evs4] r4]. inversion E2; subst. cbn [map app]. reflexivity. }
  induction 1 as [n cur path|n cur path ls t ls' ws TW B J IH|n cur path ls a ls' ws AW B J IH|n cur path ls ws J IH|n cur path c l ls ws Cs J IH|n cur dir base k name bytes inner ws ls ws' D Bs V Sp Fs Lw Ji IHi J IH];
    intros es F b C; cbn [map fst snd] in *.
  - inversion F. exists b. split; [|exact C]. cbn [map tag_lines PropsWhere.attributed flat].
    assert (flat_line U [] b = fbind (close_open b) (fun b' => (b', [], SOk))) as -> by reflexivity. rewrite !fbind_ret, C. reflexivity.
  - inversion F as [|? e ? es2 Fe F']; subst. inversion Fe; subst. apply (Step n cur path ls ls' _ es2 (map fst ws)); auto.
    + eapply txn_not_included; eassumption.
    + eapply settled_read; eassumption.
    + eapply txn_opens; eassumption.
  - inversion F as [|? e ? es2 Fe F']; subst. inversion Fe; subst. apply (Step n cur path ls ls' _ es2 (map fst ws)); auto.
    + eapply assignment_not_included; eassumption.
    + eapply assignment_read; eassumption.
    + eapply assignment_opens; eassumption.
  - destruct (IH _ F b C) as (b2 & E2 & C2). exists b2. split; [|exact C2]. cbn [map tag_lines].
    assert (included U path [] = None) as -> by reflexivity. cbn [PropsWhere.attributed flat].
    assert (flat_line U [] b = fbind (close_open b) (fun b' => (b', [], SOk))) as -> by reflexivity.
    rewrite !fbind_ret, C. cbn [fbind map app]. rewrite E2. reflexivity.
  - destruct (IH _ F b C) as (b2 & E2 & C2). exists b2. split; [|exact C2]. cbn [map tag_lines].
    assert (included U path (c :: l) = None) as -> by (unfold included; now rewrite comment_lexes). cbn [PropsWhere.attributed flat].
    rewrite comment_flat by assumption. cbn [fbind map app]. rewrite E2. reflexivity.
  - rewrite map_app in F. apply Forall2_app_inv_l in F as (es1 & es2 & F1 & F2 & ->).
    destruct (IHi _ F1 b C) as (b1 & E1 & C1). destruct (IH _ F2 b1 C1) as (b2 & E2 & C2). exists b2. split; [|exact C2].
    cbn [map tag_lines].
    assert (included U (dir ++ base) (lit "include" ++ spaces (1 + k) ++ name) = Some (dir ++ name)) as ->.
    { change (spaces (1 + k)) with ([32] ++ spaces k). rewrite <- app_assoc. apply C18_include_path_partial; auto.
      exists (repeat 32 k). split; [|split].
      - apply Forall_forall. intros x I. apply repeat_spec in I. now subst x.
      - apply Forall_forall. intros x I. apply repeat_spec in I. now subst x.
      - unfold spaces. symmetry. apply encode_ascii. apply Forall_forall. intros x I. apply repeat_spec in I. subst x. unfold ascii. lia. }
    rewrite attributed_app.
    assert (tag_inc U fs (Datatypes.S n) top (dir ++ name) = tag U fs n top (dir ++ name) (File bytes false)) as -> by (cbn [tag_inc]; now rewrite Fs).
    rewrite tag_inc_of. cbn [f_bad f_bytes].
    rewrite (lines_written_read _ _ Lw), E1, E2, map_app, at_paths_app; [reflexivity|].
    clear - F1. rewrite map_length. revert es1 F1. induction ws; intros es1 F1; inversion F1; subst; cbn; auto.
Qed.
End Places.

Theorem placed_trace : forall U fs n depth path ls ws es bytes, placed U fs path n path path ls ws -> (n <= depth)%nat -> lines_written bytes ls ->
  Forall2 means (map snd ws) es -> fst (trace U fs depth path (File bytes false)) = at_paths (map fst ws) es.
Proof.
  intros U fs n depth path ls ws es bytes J Le Lw F. rewrite C20_exact.
  destruct (placed_read U fs path depth path path ls ws (placed_deeper _ _ _ _ _ _ _ _ J depth Le) es F newBuilder closed_new) as (b & E & _).
  rewrite tag_inc_of. cbn [f_bad f_bytes]. rewrite (lines_written_read _ _ Lw), E. reflexivity.
Qed.
