(** * Reading journals at which the program breaks off *)
From Verif Require Import Base BaseFacts Utf8 Utf8Facts Unicode GoTime Strconv Journal Lexer LexSpec
  LexerFacts JournalText LexText Parser ParserFacts FlatSpec FlatFacts Spec JournalFacts BuilderFacts LineFacts IncludeFacts
  TextSpec DateFacts AmountFacts ReadFacts WriteFacts BodyFacts BookText PeriodFacts InputFacts WholeFacts FilesText FilesFacts LocateFacts
  PanicSpec PanicFacts MistakeText MistakeFacts CrashText Main PropsInput PropsPanic.

Section Crashes.
Variables (U : unicode) (fs : str -> option file).

(** ** What is open after some lines *)
Definition after (ls : list fline) (s : open_state) : open_state :=
  fold_left (fun s x => match x with FLine l => after_line U s l | FStop _ => s end) ls s.

Lemma flat_after : forall ls s b b' es, plain_lines U ls -> stops_fail ls -> fits s b -> flat U ls b = (b', es, SOk) -> fits (after ls s) b'.
Proof.
  induction ls as [|[l|r] ls IH]; intros s b b' es PL SF F E.
  - cbn in E. injection E as <- <-. exact F.
  - cbn [flat] in E. apply fbind_ok in E as (b1 & e1 & e2 & E1 & E2 & ->).
    inversion_clear PL as [|? ? NI PL']. inversion_clear SF as [|? ? _ SF'].
    pose proof (fits_line U s l b F NI) as FL. unfold line_result in FL. rewrite E1 in FL. destruct FL as [F1 _]. cbn [after fold_left]. eapply IH; eassumption.
  - cbn in E. injection E as _ _ ->. inversion SF. congruence.
Qed.

Definition idle (b : builder) : Prop := fits Fresh b \/ fits Nothing b.

Lemma idle_closed : forall b, idle b -> closed b.
Proof.
  intros b [F|(T & P & C & _)]; [cbn in F; subst b; reflexivity|]. unfold closed, close_open. rewrite T, P. now destruct (b_type b).
Qed.

Notation pre n path ls := (flat_map (line_exp U (inc_of U fs n) path) (map Line ls)).

Lemma pre_plain : forall n path ls, plain_lines U (pre n path ls).
Proof.
  intros n path ls. induction ls as [|l ls IH]; [constructor|]. cbn [map flat_map line_exp]. apply Forall_app. split; [|exact IH].
  destruct (included U path l) as [p|] eqn:I.
  - destruct n as [|n]; cbn [inc_of]; [repeat constructor|]. destruct (fs p); [apply expand_plain|repeat constructor].
  - constructor; [|constructor]. eapply included_none; exact I.
Qed.

Lemma close_idle : forall s b b' es, fits s b -> close_open b = (b', es, SOk) -> idle b'.
Proof. intros s b b' es F C. pose proof (fits_close s b F) as X. rewrite C in X. destruct s; [now left|now right..]. Qed.

Lemma expand_idle : forall inc hint bad ls s b b' es, (forall p, stops_fail (inc p)) -> (forall p, plain_lines U (inc p)) -> fits s b ->
  flat U (expand_lines U inc hint bad ls) b = (b', es, SOk) -> idle b'.
Proof.
  intros inc hint bad ls s b b' es St Pl. revert s b b' es. induction ls as [|[l|] ls IH]; intros s b b' es Fi F; cbn [expand_lines] in F.
  - destruct bad; [discriminate|]. cbn [flat] in F. rewrite blank_closes in F. destruct (close_open b) as [[b1 es1] r] eqn:C.
    destruct r; cbn in F; try discriminate. injection F as <- _. eapply close_idle; eassumption.
  - destruct (included U hint l) as [p|] eqn:I.
    + rewrite flat_app in F by apply St. destruct (flat U (inc p) b) as [[b1 es1] r] eqn:Q1. destruct r; cbn [fbind] in F; try discriminate.
      destruct (flat U (expand_lines U inc hint bad ls) b1) as [[b2 es2] r] eqn:Q. injection F as <- _ ->.
      eapply IH; [|exact Q]. eapply flat_after; [apply Pl|apply St|exact Fi|exact Q1].
    + cbn [flat] in F. destruct (flat_line U l b) as [[b1 es1] r] eqn:Q1. destruct r; cbn [fbind] in F; try discriminate.
      destruct (flat U (expand_lines U inc hint bad ls) b1) as [[b2 es2] r] eqn:Q. injection F as <- _ ->. eapply IH; [|exact Q].
      pose proof (fits_line U s l b Fi (included_none _ _ _ I)) as FL. unfold line_result in FL. rewrite Q1 in FL. apply FL.
  - discriminate.
Qed.

Lemma rested_idle : forall ls, rested ls -> forall n path b b1 es, idle b -> flat U (pre n path ls) b = (b1, es, SOk) -> idle b1.
Proof.
  assert (Some_ : forall n path ls b b1 es, idle b -> flat U (pre n path ls) b = (b1, es, SOk) -> exists s, fits s b1).
  { intros n path ls b b1 es [F|F] E; eexists; (eapply flat_after; [apply pre_plain|apply line_exp_stops|exact F|exact E]). }
  induction 1 as [|ls|ls c l Cs R IH|ls k name Sp]; intros n path b b1 es C F.
  - cbn in F. now injection F as <- _.
  - rewrite map_app, flat_map_app, flat_app in F by apply line_exp_stops. destruct (flat U (pre n path ls) b) as [[b2 es2] r] eqn:Q0.
    destruct r; cbn [fbind map flat_map line_exp app] in F; try discriminate. destruct (Some_ _ _ _ _ _ _ C Q0) as [s Fi].
    replace (included U path []) with (@None str) in F by reflexivity. cbn [app flat] in F. rewrite blank_closes in F.
    destruct (close_open b2) as [[b3 es3] r] eqn:Q. destruct r; cbn in F; try discriminate. injection F as <- _. eapply close_idle; eassumption.
  - rewrite map_app, flat_map_app, flat_app in F by apply line_exp_stops. destruct (flat U (pre n path ls) b) as [[b2 es2] r] eqn:Q.
    destruct r; cbn [fbind map flat_map line_exp app] in F; try discriminate.
    assert (included U path (c :: l) = None) as X by (unfold included; now rewrite comment_lexes). rewrite X in F. cbn [app flat] in F.
    rewrite comment_flat in F by assumption. cbn in F. injection F as <- _. eapply IH; eassumption.
  - rewrite map_app, flat_map_app, flat_app in F by apply line_exp_stops. destruct (flat U (pre n path ls) b) as [[b2 es2] r] eqn:Q.
    destruct r; cbn [fbind map flat_map line_exp] in F; try discriminate. destruct (Some_ _ _ _ _ _ _ C Q) as [s Fi].
    destruct (included U path (lit "include" ++ spaces (1 + k) ++ name)) as [p|] eqn:I; [|now apply include_somewhere in I].
    rewrite app_nil_r in F. destruct (flat U (inc_of U fs n p) b2) as [[b3 es3] r] eqn:Q2. injection F as <- _ ->.
    destruct n as [|n]; cbn [inc_of] in Q2; [discriminate|]. destruct (fs p) as [f|]; [|discriminate].
    rewrite expand_inc_of in Q2. eapply expand_idle; [| |exact Fi|exact Q2]; intro q; [apply inc_of_stops|].
    destruct n as [|n]; cbn [inc_of]; [repeat constructor|]. destruct (fs q); [apply expand_plain|repeat constructor].
Qed.

(** Entries leave a trace. *)
Lemma after_heads : forall ls, after ls Fresh = Fresh -> flat_map (head_of_line U) ls = [].
Proof.
  assert (K : forall ls s, after ls s = Fresh -> s = Fresh).
  { induction ls as [|x ls IH]; intros s H; [exact H|]. cbn [after fold_left] in H. apply IH in H. destruct x as [l|r]; [|exact H].
    unfold after_line in H. destruct (fst (lexLine U [] l)) as [|[i c] items]; [exact H|]. destruct i; destruct s; congruence. }
  induction ls as [|x ls IH]; intro H; [reflexivity|]. cbn [after fold_left] in H. pose proof (K _ _ H) as X. cbn [flat_map].
  destruct x as [l|r]; [|now apply IH]. rewrite X in H. rewrite IH by exact H. rewrite app_nil_r. unfold after_line in X. cbn [head_of_line].
  destruct (fst (lexLine U [] l)) as [|[i c] items]; [reflexivity|]. destruct i; try reflexivity; discriminate.
Qed.

Lemma entries_busy : forall n path ls b b1 es, idle b -> idle b1 -> flat U (pre n path ls) b = (b1, es, SOk) -> es <> [] -> fits Nothing b1.
Proof.
  intros n path ls b b1 es I I1 E N. destruct I1 as [F1|]; [|assumption]. exfalso.
  assert (B : forall s, fits s newBuilder -> s = Fresh).
  { intros [| | |seen] F; [reflexivity|..]; destruct F; repeat match goal with H : _ /\ _ |- _ => destruct H end; discriminate. }
  cbn in F1. subst b1.
  assert (P : forall s, fits s b -> after (pre n path ls) s = Fresh).
  { intros s F. apply B. eapply flat_after; [apply pre_plain|apply line_exp_stops|exact F|exact E]. }
  destruct I as [F|F].
  - pose proof (after_heads _ (P _ F)) as H. cbn in F. subst b. apply flat_pending in E; [|apply pre_plain|apply line_exp_stops].
    rewrite H in E. cbn in E. rewrite app_nil_r in E. destruct es; [congruence|discriminate].
  - specialize (P _ F). assert (K : forall ls s, after ls s = Fresh -> s = Fresh); [|apply K in P; discriminate].
    clear. induction ls as [|x ls IH]; intros s H; [exact H|]. cbn [after fold_left] in H. apply IH in H. destruct x as [l|r]; [|exact H].
    unfold after_line in H. destruct (fst (lexLine U [] l)) as [|[i c] items]; [exact H|]. destruct i; destruct s; congruence.
Qed.

(** ** The lines *)
Lemma short_dated_lexed : forall l, short_dated l -> (forall hint, included U hint l = None) /\
  exists w items, lexLine U [] l = ((dateItem, w) :: items, None) /\ (length w < 5)%nat.
Proof.
  intros l [w more V Vm D F Lw M]. assert (DW : date_word w more).
  { split; [exact D|]. split; [|exact M]. eapply Forall_impl; [|exact F]. intros a A. now apply Z.eqb_neq. }
  assert (NE : w <> []) by (intros ->; unfold digit in D; cbn in D; lia).
  assert (DE : decode (encode (w ++ more)) = w ++ more) by (apply decode_encode; apply Forall_app; now split).
  split; [intro hint; eapply header_not_included; eassumption|].
  destruct (flat_line_header U _ w more DE DW NE) as (state & payee & note & LX & _). eauto.
Qed.

Lemma lex_unpriced : forall hint k a m t c t', account_text U a -> drop_space t = c ++ t' ->
  Forall (commodity_char U) c -> (t' = [] \/ isNumber U (hd 0 t') || (hd 0 t' =? c_minus) || (hd 0 t' =? c_plus) || (hd 0 t' =? c_space) || (hd 0 t' =? c_tab) = true) ->
  fst (to_tab [] (drop_space t')) = [] ->
  exists c', lex_runes U hint (repeat c_space (S (S k)) ++ a ++ repeat c_space (S (S m)) ++ t) =
    ([(accountItem, a); (commodityItem, c'); (amountItem, [])], None).
Proof.
  intros hint k a m t c t' (NA & LA & (SA & EA) & TA & DA) DT CC HT TT.
  rewrite lex_indented. unfold posting_line. rewrite drop_space_repeat.
  destruct a as [|r a]; [congruence|]. cbn [hd] in *. cbn [app]. rewrite drop_space_id by assumption.
  rewrite (letter_no_comment U), LA by assumption.
  change (r :: a ++ repeat c_space (S (S m)) ++ t) with ((r :: a) ++ repeat c_space (S (S m)) ++ t).
  rewrite account_name_clean; try assumption; [|right; eexists; reflexivity].
  cbv iota beta. rewrite drop_space_repeat, DT. cbn [repeat app]. cbv iota.
  rewrite commodity_name_clean by assumption. rewrite TT. eexists. reflexivity.
Qed.

Lemma unpriced_lexed : forall hint l, unpriced U l -> exists a c, lexLine U hint l = ([(accountItem, a); (commodityItem, c); (amountItem, [])], None).
Proof.
  assert (DS : forall j, drop_space (spaces j) = []) by (induction j; [reflexivity|exact IHj]).
  intros hint l [k a m (ra & Va & A & ->)|k a m c j (ra & Va & A & ->) (rc & Vc & (NC & CC & SC) & ->)|k a m c j g more (ra & Va & A & ->) (rc & Vc & (NC & CC & SC) & ->) G Vm].
  - destruct (lex_unpriced hint k ra m [] [] [] A eq_refl (Forall_nil _) (or_introl eq_refl) eq_refl) as [c' X]. exists ra, c'. rewrite <- X.
    rewrite <- (app_nil_r (spaces (2 + m))). change (@nil Z) with (encode []) at 1.
    assert (spaces (2 + k) ++ encode ra ++ spaces (2 + m) ++ encode [] = encode (spaces (2 + k) ++ ra ++ spaces (2 + m) ++ [])) as ->.
    { rewrite !encode_app. now rewrite !(encode_ascii (spaces _)) by apply spaces_ascii. }
    apply lex_encoded. repeat (apply Forall_app; split); try assumption; try apply spaces_valid. constructor.
  - destruct (lex_unpriced hint k ra m (rc ++ spaces j) rc (spaces j) A) as [c' X]; try assumption.
    + destruct rc as [|y rc]; [congruence|]. now apply drop_space_id.
    + destruct j; [now left|right]. cbn [hd spaces repeat]. now rewrite Z.eqb_refl, !orb_true_r.
    + now rewrite DS.
    + exists ra, c'. rewrite <- X.
      assert (spaces (2 + k) ++ encode ra ++ spaces (2 + m) ++ encode rc ++ spaces j = encode (spaces (2 + k) ++ ra ++ spaces (2 + m) ++ rc ++ spaces j)) as ->.
      { rewrite !encode_app. now rewrite !(encode_ascii (spaces _)) by apply spaces_ascii. }
      apply lex_encoded. repeat (apply Forall_app; split); try assumption; try apply spaces_valid.
  - destruct (lex_unpriced hint k ra m (rc ++ spaces (1 + j) ++ [g] ++ more) rc (spaces (1 + j) ++ [g] ++ more) A) as [c' X]; try assumption.
    + destruct rc as [|y rc]; [congruence|]. now apply drop_space_id.
    + right. cbn [hd spaces repeat app Nat.add]. now rewrite Z.eqb_refl, !orb_true_r.
    + change (spaces (1 + j)) with (repeat c_space (1 + j)). rewrite drop_space_repeat. cbn [app]. destruct G as [->| ->]; reflexivity.
    + exists ra, c'. rewrite <- X.
      assert (spaces (2 + k) ++ encode ra ++ spaces (2 + m) ++ encode rc ++ spaces (1 + j) ++ [g] ++ encode more =
              encode (spaces (2 + k) ++ ra ++ spaces (2 + m) ++ rc ++ spaces (1 + j) ++ [g] ++ more)) as ->.
      { rewrite !encode_app. rewrite !(encode_ascii (spaces _)) by apply spaces_ascii. rewrite (encode_ascii [g]) by now apply sign_ascii. reflexivity. }
      apply lex_encoded. repeat (apply Forall_app; split); try assumption; try apply spaces_valid. apply ascii_valids. now apply sign_ascii.
Qed.

(** ** Breaking off *)
Lemma breaks_at : forall n path b before l rest bytes b1 es es2, lines_written bytes (before ++ l :: rest) ->
  flat U (pre n path before) b = (b1, es, SOk) -> included U path l = None -> snd (flat_line U l b1) = SPanic -> snd (fst (flat_line U l b1)) = es2 ->
  snd (flat U (expand U fs n path (File bytes false)) b) = SPanic /\ snd (fst (flat U (expand U fs n path (File bytes false)) b)) = es ++ es2.
Proof.
  intros n path b before l rest bytes b1 es es2 Lw E I P Q. rewrite expand_inc_of. cbn [f_bad f_bytes]. rewrite (lines_written_read _ _ Lw), map_app.
  rewrite expand_lines_app by apply no_long. rewrite flat_app, E by apply line_exp_stops. cbn [fbind map expand_lines]. rewrite I. cbn [flat].
  destruct (flat_line U l b1) as [[b2 es3] r]. cbn [fst snd] in P, Q. subst r es3. split; reflexivity.
Qed.

Lemma crash_line : forall s b l, fits s b -> included U [] l = None -> crash U s (snd (close_open b) = SOk) l -> snd (flat_line U l b) = SPanic.
Proof.
  intros s b l F NI Cr. pose proof (fits_line U s l b F NI) as X. unfold line_result in X. destruct (flat_line U l b) as [[b2 es] r].
  destruct r; try contradiction; [destruct X; contradiction|reflexivity].
Qed.

Lemma long_read : forall bytes long rest, (bytes = [] \/ last bytes 0 = 10) -> ~ In 10 long -> 4096 <= Z.of_nat (length long) ->
  (rest = [] \/ exists more, rest = 10 :: more) -> exists more, file_lines (bytes ++ long ++ rest) = file_lines bytes ++ LongLine :: more.
Proof.
  intros bytes long rest St NL Len Re.
  assert (LS : line_start bytes).
  { destruct St as [->|St]; [now left|right]. destruct bytes as [|x bs] using rev_ind; [discriminate|]. rewrite last_last in St. subst x. now exists bs. }
  rewrite file_lines_start by exact LS. destruct Re as [->|[more ->]].
  - exists []. f_equal. rewrite app_nil_r. unfold file_lines. rewrite raw_lines_rest; [|exact NL|intros ->; cbn in Len; lia].
    cbn [map rev app]. unfold read_line, bufferSize. destruct (Z.leb_spec 4096 (Z.of_nat (length long))); [reflexivity|lia].
  - exists (file_lines more). f_equal. unfold file_lines. rewrite raw_lines_app, map_app. rewrite raw_lines_line by exact NL.
    cbn [map rev app]. unfold read_line at 1, bufferSize. destruct (Z.leb_spec 4096 (Z.of_nat (length long))); [reflexivity|lia].
Qed.

Lemma short_dated_entries : forall l w items b b2 es2, lexLine U [] l = ((dateItem, w) :: items, None) -> (length w < 5)%nat ->
  close_open b = (b2, es2, SOk) -> snd (fst (flat_line U l b)) = es2.
Proof.
  intros l w items b b2 es2 LX Sh C. unfold flat_line. rewrite LX. cbn [flat_items flat_item]. rewrite C. cbn [fbind].
  unfold built, build. cbn [beginTransaction b_type buildNormalTransaction]. unfold parseDate.
  destruct (nth_error w 4) eqn:N; [|cbn; apply app_nil_r]. exfalso. assert (nth_error w 4 <> None) as X by congruence. apply nth_error_Some in X. lia.
Qed.

Lemma doomed_flat : forall n path bytes es x, doomed U fs n path bytes es x -> forall b, idle b ->
  exists st, (snd (flat U (expand U fs n path (File bytes false)) b) = st /\ snd (fst (flat U (expand U fs n path (File bytes false)) b)) = es) /\
    (x = 2 /\ st = SPanic \/ x = 1 /\ st = SFatal).
Proof.
  induction 1 as [n path bytes before ws es l rest Lw J F D|n path bytes before ws es ls l rest Lw J F W D
    |n path bytes before ws es l p rest Lw J F NE R D|n path bytes before ws es l c rest Lw J F R D
    |n path bytes before ws es h l c rest Lw J F B D|n path bytes before ws es long rest Lw St J F R NL Len Re
    |n path bytes before ws es ls cs long rest Lw St J F W Cs NL Len Re
    |n dir base bytes before ws es k name inner es' rest x Lw J F R Di Bs V Sp Fs D IH]; intros b Id.
  - eexists. split; [|left; split; reflexivity].
    destruct (filed_prefix U fs n path before ws es b J F (idle_closed _ Id)) as (b1 & es1 & b2 & es2 & E & Cl & C2 & ->).
    assert (exists s, fits s b1) as [s Fi] by (destruct Id as [G|G]; eexists; (eapply flat_after; [apply pre_plain|apply line_exp_stops|exact G|exact E])).
    destruct (short_dated_lexed l D) as (NI & w & items & LX & Sh).
    eapply breaks_at; try eassumption; [apply NI| |eapply short_dated_entries; eassumption].
    eapply crash_line; [exact Fi|apply NI|]. eapply ShortDate; [exact LX|exact Sh|now rewrite Cl].
  - eexists. split; [|left; split; reflexivity].
    destruct (entry_after U fs n path before ws es ls b J F (idle_closed _ Id) (unfinished_not_included U path ls W) (unfinished_begins U ls W)) as (b2 & C2 & K).
    destruct (unfinished_read U ls b2 W C2) as [b3 E3].
    pose proof (K b3 E3) as E. rewrite app_assoc in Lw.
    assert (H : exists s, fits s b3 /\ s <> Fresh).
    { assert (H : exists s, fits s b3) by (destruct Id as [G|G]; eexists; (eapply flat_after; [apply pre_plain|apply line_exp_stops|exact G|exact E])).
      assert (Pe : pending b3 <> []).
      { pose proof E3 as P. apply flat_pending in P.
        - intro Q. rewrite Q in P. cbn [map app] in P. symmetry in P. apply app_eq_nil in P as [_ P].
          destruct W as [h d s payee note nl notes pl ps HW NW PW|k ys ms y m pl ps NY NM RM PW]; cbn [map flat_map] in P; apply app_eq_nil in P as [P _].
          + destruct (header_lexed U [] h d s payee note HW) as (w & rp & nts & LX & PD & _). cbn [head_of_line] in P. rewrite LX in P. unfold header_items in P. cbn [fst] in P.
            rewrite PD in P. discriminate.
          + cbn [head_of_line] in P. rewrite (period_lexed U [] k ys ms y m NY NM) in P. discriminate.
        - pose proof (unfinished_not_included U [] ls W) as NI. clear - NI. induction NI; constructor; assumption.
        - apply lines_no_stop. }
      destruct H as [s Fi]. exists s. split; [exact Fi|]. intros ->. cbn in Fi. subst b3. now apply Pe. }
    destruct H as (s & Fi & NF).
    destruct (unpriced_lexed [] l D) as (a & c & LX). assert (NI : forall hint, included U hint l = None).
    { intro hint. destruct (unpriced_lexed hint l D) as (a2 & c2 & LX2). unfold included. now rewrite LX2. }
    rewrite <- (app_nil_r es). eapply breaks_at; try eassumption; [apply NI| |].
    + eapply crash_line; [exact Fi|apply NI|]. eapply EmptyAmount; [exact NF|exact LX].
    + unfold flat_line. rewrite LX. apply quiet_items. repeat (apply Forall_cons; [exact I|]). apply Forall_nil.
  - eexists. split; [|left; split; reflexivity].
    destruct (filed_prefix U fs n path before ws es b J F (idle_closed _ Id)) as (b1 & es1 & b2 & es2 & E & Cl & C2 & ->).
    pose proof (rested_idle before R n path b b1 es1 Id E) as I1. pose proof (idle_closed _ I1) as Cl1. rewrite Cl1 in Cl. injection Cl as <- <-.
    rewrite app_nil_r in F.
    assert (es1 <> []) as NE1 by (intros ->; inversion F; subst; congruence).
    pose proof (entries_busy n path before b b1 es1 Id I1 E NE1) as Fi.
    destruct (posting_lexed U [] l p D) as (a & am & LX & _). assert (NI : forall hint, included U hint l = None).
    { intro hint. destruct (posting_lexed U hint l p D) as (a2 & am2 & LX2 & _). unfold included. rewrite LX2. now destruct am2 as [[]|]. }
    eapply breaks_at; try eassumption; [apply NI| |].
    + eapply crash_line; [exact Fi|apply NI|]. destruct am as [[c w]|]; (eapply StrayPosting; [reflexivity|exact LX]).
    + unfold flat_line. rewrite LX. apply quiet_items. destruct am as [[c w]|]; repeat (apply Forall_cons; [exact I|]); apply Forall_nil.
  - eexists. split; [|left; split; reflexivity].
    destruct (filed_prefix U fs n path before ws es b J F (idle_closed _ Id)) as (b1 & es1 & b2 & es2 & E & Cl & C2 & ->).
    pose proof (rested_idle before R n path b b1 es1 Id E) as I1. pose proof (idle_closed _ I1) as Cl1. rewrite Cl1 in Cl. injection Cl as <- <-.
    destruct (remark_lexed U [] l c D) as (rs & LX & _). assert (NI : forall hint, included U hint l = None).
    { intro hint. destruct (remark_lexed U hint l c D) as (rs2 & LX2 & _). unfold included. now rewrite LX2. }
    eapply breaks_at; try eassumption; [apply NI| |].
    + destruct I1 as [Fi|Fi]; (eapply crash_line; [exact Fi|apply NI|]); (eapply StrayComment; [|exact LX]); auto.
    + unfold flat_line. rewrite LX. apply quiet_items. repeat (apply Forall_cons; [exact I|]). apply Forall_nil.
  - eexists. split; [|left; split; reflexivity]. destruct B as [k ys ms y m NY NM RM].
    set (h := 126 :: spaces (1 + k) ++ ys ++ [45] ++ ms) in *.
    assert (W : unfinished U [h]) by (apply (UnfinishedBudget U k ys ms y m [] []); auto; constructor).
    destruct (entry_after U fs n path before ws es [h] b J F (idle_closed _ Id) (unfinished_not_included U path [h] W) (unfinished_begins U [h] W)) as (b2 & C2 & K).
    destruct (period_read U k ys ms y m b2 NY NM RM C2) as (b1 & tx & E1 & O1).
    assert (E : flat U (pre n path (before ++ [h])) b = (b1, es, SOk)) by (apply K; cbn [map flat]; fold h in E1; rewrite E1; reflexivity).
    change (before ++ h :: l :: rest) with (before ++ [h] ++ l :: rest) in Lw. rewrite app_assoc in Lw.
    assert (Fi : fits (InBudget false) b1).
    { assert (A : forall s, after (pre n path (before ++ [h])) s = InBudget false).
      { intro s. unfold after. rewrite map_app, flat_map_app, fold_left_app. cbn [map flat_map line_exp].
        pose proof (unfinished_not_included U path [h] W) as NI. inversion_clear NI as [|? ? NI' _]. rewrite NI'. cbn [app fold_left].
        unfold after_line. unfold h. now rewrite (period_lexed U [] k ys ms y m NY NM). }
      clear - E A Id. destruct Id as [G|G]; (eapply flat_after in E; [rewrite A in E; exact E|apply pre_plain|apply line_exp_stops|exact G]). }
    destruct (remark_lexed U [] l c D) as (rs & LX & _). assert (NI : forall hint, included U hint l = None).
    { intro hint. destruct (remark_lexed U hint l c D) as (rs2 & LX2 & _). unfold included. now rewrite LX2. }
    rewrite <- (app_nil_r es). eapply breaks_at; try eassumption; [apply NI| |].
    + eapply crash_line; [exact Fi|apply NI|]. eapply StrayComment; [|exact LX]. auto.
    + unfold flat_line. rewrite LX. apply quiet_items. repeat (apply Forall_cons; [exact I|]). apply Forall_nil.
  - exists SFatal. split; [|right; split; reflexivity].
    destruct (filed_prefix U fs n path before ws es b J F (idle_closed _ Id)) as (b1 & es1 & b2 & es2 & E & Cl & C2 & ->).
    pose proof (idle_closed _ (rested_idle before R n path b b1 es1 Id E)) as Cl1. rewrite Cl1 in Cl. injection Cl as <- <-.
    rewrite expand_inc_of. cbn [f_bad f_bytes].
    destruct (long_read bytes long rest St NL Len Re) as [more ->]. rewrite (lines_written_read _ _ Lw).
    rewrite expand_lines_app by apply no_long. rewrite flat_app, E by apply line_exp_stops. split; reflexivity.
  - exists SFatal. split; [|right; split; reflexivity].
    destruct (entry_after U fs n path before ws es ls b J F (idle_closed _ Id) (unfinished_not_included U path ls W) (unfinished_begins U ls W)) as (b2 & C2 & K).
    destruct (unfinished_read U ls b2 W C2) as [b3 E3]. specialize (K b3 E3).
    assert (E : flat U (pre n path (before ++ ls ++ cs)) b = (b3, es, SOk)).
    { rewrite app_assoc, map_app, flat_map_app, flat_app, K by apply line_exp_stops. cbn [fbind]. rewrite comments_read by exact Cs. now rewrite app_nil_r. }
    rewrite expand_inc_of. cbn [f_bad f_bytes].
    destruct (long_read bytes long rest (or_intror St) NL Len Re) as [more ->]. rewrite (lines_written_read _ _ Lw).
    rewrite expand_lines_app by apply no_long. rewrite flat_app, E by apply line_exp_stops. cbn [fbind]. split; [reflexivity|apply app_nil_r].
  - destruct (filed_prefix U fs _ _ before ws es b J F (idle_closed _ Id)) as (b1 & es1 & b2 & es2 & E & Cl & C2 & ->).
    pose proof (rested_idle before R _ _ _ _ _ Id E) as I1. pose proof (idle_closed _ I1) as Cl1. rewrite Cl1 in Cl. injection Cl as <- <-.
    destruct (IH b1 I1) as (st & [S Q] & X). exists st. split; [|exact X].
    rewrite expand_inc_of. cbn [f_bad f_bytes]. rewrite (lines_written_read _ _ Lw), map_app.
    rewrite expand_lines_app by apply no_long. rewrite (flat_app U (pre (Datatypes.S n) (dir ++ base) before)) by apply line_exp_stops. rewrite E. cbn [fbind map expand_lines].
    rewrite (include_named U dir base k name Di Bs V Sp). cbn [inc_of]. rewrite Fs.
    rewrite flat_app by apply expand_stops.
    destruct (flat U (expand U fs n (dir ++ name) (File inner false)) b1) as [[b4 es4] r]. cbn [fst snd] in S, Q. subst r es4. rewrite app_nil_r.
    destruct X as [[_ ->]|[_ ->]]; split; reflexivity.
Qed.

Lemma doomed_deeper : forall n path bytes es x, doomed U fs n path bytes es x -> forall m, (n <= m)%nat -> doomed U fs m path bytes es x.
Proof.
  induction 1; intros m' Le.
  - eapply DoomedDate; eauto. eapply filed_deeper; eassumption.
  - eapply DoomedAmount; eauto. eapply filed_deeper; eassumption.
  - eapply DoomedPosting; eauto. eapply filed_deeper; eassumption.
  - eapply DoomedRemark; eauto. eapply filed_deeper; eassumption.
  - eapply DoomedNote; eauto. eapply filed_deeper; eassumption.
  - eapply DoomedLong; eauto. eapply filed_deeper; eassumption.
  - eapply DoomedLongInside; eauto. eapply filed_deeper; eassumption.
  - destruct m' as [|m']; [lia|]. eapply DoomedIncluded; eauto; [eapply filed_deeper; eassumption|]. apply IHdoomed. lia.
Qed.

Theorem doomed_read : forall n depth path bytes es x, doomed U fs n path bytes es x -> (n <= depth)%nat ->
  map erase (fst (trace U fs depth path (File bytes false))) = es /\
  (x = 2 /\ snd (trace U fs depth path (File bytes false)) = SPanic \/ x = 1 /\ snd (trace U fs depth path (File bytes false)) = SFatal).
Proof.
  intros n depth path bytes es x D Le. destruct (doomed_flat _ _ _ _ _ (doomed_deeper _ _ _ _ _ D depth Le) newBuilder (or_introl eq_refl)) as (st & [S Q] & X).
  destruct (trace_flat U fs depth path (File bytes false)) as [TE TS]. unfold entries in TE, TS.
  destruct (flat U (expand U fs depth path (File bytes false)) newBuilder) as [[b es1] r]. cbn [fst snd] in S, Q, TE, TS. subst r es1. split; [exact TE|].
  destruct X as [[-> ->]|[-> ->]]; [left|right]; (split; [reflexivity|]); destruct (snd (trace U fs depth path (File bytes false))); try discriminate TS; reflexivity.
Qed.
End Crashes.
