(** * Files read, headers read *)
From Verif Require Import Base BaseFacts Utf8 Utf8Facts Unicode GoTime Strconv Journal Lexer LexSpec
  LexerFacts Parser ParserFacts FlatSpec FlatFacts Spec JournalFacts BuilderFacts LineFacts.

Section Facts.
Variable U : unicode.
Variable fs : str -> option file.

(** ** A successful parse read every line *)

Lemma parse_ok_trace : forall S th ph depth hint f (s : S),
  snd (parse U fs th ph depth hint f s) = SOk -> snd (trace U fs depth hint f) = SOk.
Proof.
  intros S th ph depth hint f s H. pose proof (parse_fold U fs th ph depth hint f s) as P.
  destruct (trace U fs depth hint f) as [evs r]. destruct (deliver_all th ph s evs) as [s' r'].
  destruct P as [_ P]. rewrite H in P. cbn [snd].
  destruct r'; cbn in P; congruence.
Qed.

Lemma trace_ok_entries : forall depth hint f,
  snd (trace U fs depth hint f) = SOk <-> snd (entries U fs depth hint f) = SOk.
Proof.
  intros. destruct (trace_flat U fs depth hint f) as [_ E].
  split; intro H; rewrite H in E; cbn in E; [symmetry in E|]; now apply strip_ok in E.
Qed.

Definition no_stop (ls : list fline) : Prop := forall r, ~ In (FStop r) ls.

Lemma fbind_ok : forall F k b es, fbind F k = (b, es, SOk) ->
  exists b1 es1 es2, F = (b1, es1, SOk) /\ k b1 = (b, es2, SOk) /\ es = es1 ++ es2.
Proof.
  intros [[b1 es1] r1] k b es H. destruct r1; cbn in H; try discriminate.
  destruct (k b1) as [[b2 es2] r2] eqn:E. injection H as -> <- ->. eauto 10.
Qed.

Lemma flat_ok_no_stop : forall ls b b' es, stops_fail ls -> flat U ls b = (b', es, SOk) -> no_stop ls.
Proof.
  induction ls as [|[l|r] ls IH]; intros b b' es SF H r0 I.
  - destruct I.
  - inversion SF; subst. destruct I as [I|I]; [discriminate|]. cbn [flat] in H.
    apply fbind_ok in H as (b1 & es1 & es2 & _ & H & _). eapply IH; eauto.
  - inversion SF as [|? ? N _]; subst. cbn in H. congruence.
Qed.

Lemma entries_ok_no_stop : forall depth hint f,
  snd (entries U fs depth hint f) = SOk -> no_stop (expand U fs depth hint f).
Proof.
  intros depth hint f. unfold entries.
  destruct (flat U (expand U fs depth hint f) newBuilder) as [[b es] r] eqn:E. cbn. intros ->.
  eapply flat_ok_no_stop; [apply expand_stops|eassumption].
Qed.

Lemma expand_lines_no_stop : forall inc hint bad ls, no_stop (expand_lines U inc hint bad ls) ->
  bad = false /\ ~ In LongLine ls /\
  (forall l p, In (Line l) ls -> included U hint l = Some p -> no_stop (inc p)).
Proof.
  intros inc hint bad ls. induction ls as [|[l|] ls IH]; cbn [expand_lines]; intro H.
  - destruct bad; [exfalso; eapply H; now left|]. repeat split; auto. intros ? ? [].
  - destruct (included U hint l) as [p|] eqn:E.
    + assert (no_stop (expand_lines U inc hint bad ls)) as K
        by (intros r I; apply (H r), in_or_app; now right).
      destruct (IH K) as (A & B & C). split; [assumption|]. split.
      * intros [X|X]; [discriminate|auto].
      * intros l' p' [X|X] E'; [|eauto]. injection X as ->. rewrite E in E'. injection E' as <-.
        intros r I. apply (H r), in_or_app. now left.
    + assert (no_stop (expand_lines U inc hint bad ls)) as K by (intros r I; apply (H r); now right).
      destruct (IH K) as (A & B & C). split; [assumption|]. split.
      * intros [X|X]; [discriminate|auto].
      * intros l' p' [X|X] E'; [|eauto]. injection X as ->. congruence.
  - exfalso. eapply H. now left.
Qed.

(** Reading succeeds below an include, with one level less. *)
Lemma no_stop_include : forall depth p f, no_stop (expand U fs depth p f) ->
  f_bad f = false /\ ~ In LongLine (file_lines (f_bytes f)) /\
  forall l p', In (Line l) (file_lines (f_bytes f)) -> included U p l = Some p' ->
    exists d f', depth = Datatypes.S d /\ fs p' = Some f' /\ no_stop (expand U fs d p' f').
Proof.
  intros [|d] p f H; cbn [expand] in H; apply expand_lines_no_stop in H as (A & B & C);
    (split; [assumption|]; split; [assumption|]); intros l p' I E; specialize (C l p' I E).
  - exfalso. eapply C. now left.
  - destruct (fs p') as [f'|]; [eauto|]. exfalso. eapply C. now left.
Qed.

Lemma no_stop_reads : forall depth a b, no_stop (expand U fs depth (fst a) (snd a)) ->
  reads U fs a b -> exists d, (d <= depth)%nat /\ no_stop (expand U fs d (fst b) (snd b)).
Proof.
  intros depth a b H R. induction R as [|p f l p' f' R IH I E F]; [eauto|].
  destruct IH as (d & L & N). cbn [fst snd] in *.
  destruct (no_stop_include d p f N) as (_ & _ & K).
  destruct (K l p' I E) as (d' & f'' & -> & F' & N'). rewrite F in F'. injection F' as <-.
  exists d'. split; [lia|assumption].
Qed.

Lemma no_stop_reads_again : forall depth a b, no_stop (expand U fs depth (fst a) (snd a)) ->
  reads_again U fs a b -> exists d, (d < depth)%nat /\ no_stop (expand U fs d (fst b) (snd b)).
Proof.
  intros depth a b H (l & p & f & I & E & F & R).
  destruct (no_stop_include depth _ _ H) as (_ & _ & K).
  destruct (K l p I E) as (d' & f'' & -> & F' & N'). rewrite F in F'. injection F' as <-.
  destruct (no_stop_reads d' (p, f) b N' R) as (d & L & N). exists d. split; [lia|assumption].
Qed.

Lemma cycle_never_ok : forall a b, reads U fs a b -> reads_again U fs b b ->
  forall depth, ~ no_stop (expand U fs depth (fst a) (snd a)).
Proof.
  intros a b R C depth H. destruct (no_stop_reads depth a b H R) as (d & _ & N).
  clear R H. revert N. induction d as [d IH] using (well_founded_induction Wf_nat.lt_wf). intro N.
  destruct (no_stop_reads_again d b b N C) as (d' & L & N'). exact (IH d' L N').
Qed.

(** ** Lines below the limit *)

Lemma split_raw_lines : forall s cur w, ~ In LF cur -> In w (split LF (rev cur ++ s)) ->
  w = [] \/ exists t, In (w, t) (raw_lines cur s).
Proof.
  induction s as [|c s IH]; intros cur w N I.
  - rewrite app_nil_r in I. rewrite split_single in I by now rewrite <- in_rev.
    destruct I as [<-|[]]. destruct cur as [|x cur]; [now left|]. right. exists false. now left.
  - cbn [raw_lines]. unfold LF in *. destruct (Z.eqb_spec c newline) as [->|E].
    + rewrite split_app_no_sep in I by now rewrite <- in_rev.
      change newline with 10 in I. cbn [split] in I. rewrite Z.eqb_refl in I. rewrite app_nil_r in I.
      destruct I as [<-|I]; [right; exists true; now left|].
      destruct (IH [] w) as [->|[t I']]; [auto|exact I|now left|]. right. exists t. now right.
    + apply IH.
      * intros [H|H]; [|auto]. subst. now apply E.
      * cbn [rev]. now rewrite <- app_assoc.
Qed.

Lemma short_lines : forall s, ~ In LongLine (file_lines s) ->
  Forall (fun w => Z.of_nat (length w) < 4096) (split LF s).
Proof.
  intros s H. apply Forall_forall. intros w I.
  destruct (split_raw_lines s [] w) as [->|[t I']]; [auto|exact I|cbn; lia|].
  destruct (Z.ltb_spec (Z.of_nat (length w)) 4096); [assumption|]. exfalso. apply H.
  apply in_map_iff. exists (w, t). split; [|assumption]. unfold read_line, bufferSize.
  destruct (Z.leb_spec 4096 (Z.of_nat (length w))); [reflexivity|lia].
Qed.

(** ** One entry per header *)

Definition pending (b : builder) : list head :=
  match b_type b with
  | normalTransaction =>
      match b_txn b with Some t => [HTxn (t_date t) (t_payee t)] | None => [] end
  | periodicTransaction =>
      match b_ptxn b with Some pt => [HPer (pt_period pt)] | None => [] end
  end.

Lemma endNormal_fields : forall b t t', endNormalTransaction b t = (t', None) ->
  t_date t' = t_date t /\ t_payee t' = t_payee t.
Proof.
  intros b t t'. unfold endNormalTransaction.
  assert (forall t p, t_date (fst (t_addPosting t p)) = t_date t /\ t_payee (fst (t_addPosting t p)) = t_payee t) as K.
  { intros t0 p. destruct (addPosting_cases t0 p) as [->|[el ->]]; now cbn. }
  destruct (match b_cur b with Some p => t_addPosting t p | None => (t, None) end) as [t1 e1] eqn:E.
  assert (t_date t1 = t_date t /\ t_payee t1 = t_payee t) as [D P].
  { destruct (b_cur b) as [p|]; [|injection E as <- <-; auto]. specialize (K t p). now rewrite E in K. }
  destruct e1; [discriminate|]. intro C. apply t_close_same in C as (D2 & _ & P2 & _).
  rewrite D2, P2. destruct (is_budget b && negb (hasBudgetSource t1)); [|auto].
  destruct (K t1 (Posting [] BudgetRootID None)). split; congruence.
Qed.

Lemma close_open_pending : forall b b' es, close_open b = (b', es, SOk) ->
  map head_of_entry es = pending b /\ pending b' = [].
Proof.
  intros b b' es. unfold close_open, pending. destruct (b_type b) eqn:TY.
  - destruct (b_txn b) as [t|] eqn:T.
    + destruct (endNormalTransaction b t) as [t' [e|]] eqn:E; [discriminate|]. intro H. injection H as <- <-.
      apply endNormal_fields in E as [D P]. cbn. now rewrite D, P.
    + intro H. injection H as <- <-. now rewrite TY, T.
  - destruct (b_ptxn b) as [t|] eqn:T.
    + destruct (endNormalTransaction b (pt_txn t)) as [t' [e|]] eqn:E; [discriminate|]. intro H. injection H as <- <-.
      now cbn.
    + intro H. injection H as <- <-. now rewrite TY, T.
Qed.

Definition plain (i : itemType) : Prop :=
  match i with
  | accountItem | commodityItem | amountItem | commentItem | transactionHeaderCommentItem | stateItem => True
  | _ => False
  end.

Lemma pending_set_target : forall b t t', target b = Some t -> t_date t' = t_date t -> t_payee t' = t_payee t ->
  pending (set_target b t') = pending b.
Proof.
  intros b t t'. unfold target, set_target, pending. destruct (b_type b) eqn:TY; cbn; rewrite ?TY.
  - intros ->. now intros -> ->.
  - destruct (b_ptxn b); cbn; [|discriminate]. reflexivity.
Qed.

Lemma pending_set_txn : forall b t t', b_txn b = Some t -> t_date t' = t_date t -> t_payee t' = t_payee t ->
  pending (set_txn b t') = pending b.
Proof.
  intros b t t' T D P. unfold pending, set_txn. cbn. destruct (b_type b); [|reflexivity]. now rewrite T, D, P.
Qed.

Lemma pending_set_cur : forall b p, pending (set_cur b p) = pending b.
Proof. reflexivity. Qed.

Lemma build_pending_plain : forall b i c b', plain i -> build b i c = POk b' -> pending b' = pending b.
Proof.
  intros b i c b' PL H.
  assert (forall b1, buildNormalTransaction b i c = POk b1 -> pending b1 = pending b) as K.
  { intros b1 H1. unfold buildNormalTransaction in H1. destruct i; try contradiction.
    - destruct (negb _); [discriminate|]. destruct c; [discriminate|].
      destruct (target b) as [t|] eqn:T; [|discriminate]. injection H1 as <-.
      now apply (pending_set_target b t).
    - destruct (negb _); [discriminate|]. destruct (b_cur b) as [p|]; [|discriminate].
      destruct (target b) as [t|] eqn:T; [|discriminate].
      destruct (negb (is_nil (po_account p))); injection H1 as <-; rewrite pending_set_cur.
      + apply (pending_set_target b t); [assumption| |];
          destruct (addPosting_cases t p) as [->|[el ->]]; reflexivity.
      + now apply (pending_set_target b t).
    - destruct (negb _); [discriminate|]. destruct (b_cur b) as [p|]; [|discriminate].
      injection H1 as <-. reflexivity.
    - destruct (negb _); [discriminate|]. destruct (b_cur b) as [p|]; [|discriminate].
      destruct (parseAmount c); try discriminate. injection H1 as <-. reflexivity.
    - destruct (b_cur b) as [p|]; [|discriminate].
      destruct (negb (is_nil (po_account p))); [injection H1 as <-; reflexivity|].
      destruct (b_txn b) as [t|] eqn:T; [|discriminate]. injection H1 as <-. now apply (pending_set_txn b t).
    - destruct (b_txn b) as [t|] eqn:T; [|discriminate]. injection H1 as <-. now apply (pending_set_txn b t). }
  unfold build in H. destruct (b_type b) eqn:TY.
  - destruct (buildNormalTransaction b i c) as [b1|e|]; try discriminate. injection H as <-.
    rewrite <- (K b1 eq_refl). reflexivity.
  - unfold buildPeriodicTransaction in H. destruct (b_ptxn b) as [pt|]; [|discriminate].
    destruct i; try contradiction;
      (destruct (buildNormalTransaction b _ c) as [b1|e|]; try discriminate; injection H as <-;
       rewrite <- (K b1 eq_refl); reflexivity).
Qed.

Lemma flat_items_plain : forall items e b b' es, Forall (fun x => plain (fst x)) items ->
  flat_items b items e = (b', es, SOk) -> es = [] /\ pending b' = pending b /\ b_type b' = b_type b.
Proof.
  induction items as [|[i c] items IH]; intros e b b' es F H; cbn [flat_items] in H.
  - injection H as <- <-. auto.
  - inversion F as [|? ? PL F']; subst. cbn in PL.
    apply fbind_ok in H as (b1 & es1 & es2 & H1 & H2 & ->).
    assert (flat_item b i c = built b i c) as E by (destruct i; try contradiction; reflexivity).
    rewrite E in H1. unfold built in H1.
    destruct (build b i c) as [b2|?|] eqn:B; try discriminate. injection H1 as -> <-.
    apply IH in H2 as (-> & P & T); [|assumption].
    pose proof (build_pending_plain _ _ _ _ PL B) as P1.
    split; [reflexivity|]. split; [congruence|]. rewrite T. clear - B.
    unfold build in B. unfold buildPeriodicTransaction in B.
    assert (forall b1, buildNormalTransaction b i c = POk b1 -> b_type b1 = b_type b) as K.
    { intros b3 H1. unfold buildNormalTransaction in H1.
      destruct i; repeat match type of H1 with
        | context [match ?x with _ => _ end] => destruct x
        | context [if ?x then _ else _] => destruct x
        end; try discriminate; injection H1 as <-; unfold set_target, set_cur, set_txn;
        destruct (b_type b) eqn:?; cbn; congruence. }
    destruct (b_type b) eqn:TY.
    + destruct (buildNormalTransaction b i c) eqn:E; try discriminate. injection B as <-. cbn. now apply K.
    + destruct (b_ptxn b); [|discriminate].
      destruct i; try (destruct (buildNormalTransaction b _ c) eqn:E; try discriminate; injection B as <-; cbn;
        now apply K).
      injection B as <-. cbn. reflexivity.
Qed.

(** The items of a line that are no header. *)
Lemma lex_shape : forall l,
  let items := fst (lexLine U [] l) in
  Forall (fun x => plain (fst x)) items \/
  items = [(emptyLineItem, [])] \/
  (exists c, items = [(includeItem, c)]) \/
  (exists w, items = [(periodItem, w)]) \/
  (exists w state payee note, items = (dateItem, w) :: state ++ (payeeItem, payee) :: note /\
     Forall (fun x => fst x = stateItem) state /\ Forall (fun x => plain (fst x)) note).
Proof.
  intros l items. unfold items. rewrite lexLine_spec. unfold lex_runes.
  destruct (decode l) as [|r rs]; [right; left; reflexivity|].
  destruct (isCommentIndicator r); [left; constructor|].
  destruct (r =? c_i).
  { unfold include_line. destruct (until_space (r :: rs)) as [d rs1].
    destruct (negb (str_eqb d (lit "include"))); [left; constructor|].
    destruct (space_width rs1 =? 0); [left; constructor|].
    destruct (fst (to_tab [] (drop_space rs1))); [left; constructor|].
    right; right; left. eexists. reflexivity. }
  destruct (r =? c_tilde).
  { unfold period_line. destruct (space_width rs =? 0); [left; constructor|].
    right; right; right; left. eexists. reflexivity. }
  destruct (isNumber U r).
  { right; right; right; right. unfold header_line. destruct (until_space (r :: rs)) as [d rs1].
    destruct (match drop_space rs1 with
              | [] => ([], [])
              | r0 :: rs' => if (r0 =? c_bang) || (r0 =? c_star) then ([(stateItem, [r0])], drop_space rs')
                             else ([], drop_space rs1) end) as [state rs3] eqn:E.
    destruct (to_tab [] rs3) as [payee rs4]. cbn [fst app].
    exists d, state, payee. eexists. split; [reflexivity|]. split.
    - destruct (drop_space rs1); [injection E as <- <-; constructor|].
      destruct ((z =? c_bang) || (z =? c_star)); injection E as <- <-; repeat constructor.
    - destruct (trimSpaceStart rs4); repeat constructor. }
  left. destruct (_ || _); [|constructor].
  unfold posting_line. destruct (drop_space rs); [constructor|].
  destruct (isCommentIndicator z); [repeat constructor|].
  destruct (isLetter U z); [|constructor].
  destruct (account_name [] false (z :: l0)) as [account rs1].
  destruct rs1; [repeat constructor|].
  destruct (commodity_name U (drop_space (z0 :: rs1))) as [commodity rs2].
  repeat constructor.
Qed.

Lemma payee_of_app : forall state payee note, Forall (fun x => fst x = stateItem) state ->
  payee_of (state ++ (payeeItem, payee) :: note) = encode payee.
Proof.
  intros state payee note F. unfold payee_of. induction F as [|[i c] state E F IH]; [reflexivity|].
  cbn in E. subst i. cbn. exact IH.
Qed.

Lemma flat_line_pending : forall l b b' es, flat_line U l b = (b', es, SOk) -> included U [] l = None ->
  map head_of_entry es ++ pending b' = pending b ++ head_of_line U (FLine l).
Proof.
  intros l b b' es H NI. unfold flat_line in H. unfold head_of_line, included in *.
  pose proof (lex_shape l) as SH. destruct (lexLine U [] l) as [items e]. cbn [fst] in *.
  destruct SH as [PL|[->|[[c ->]|[[w ->]|(w & state & payee & note & -> & FS & FN)]]]].
  - apply flat_items_plain in H as (-> & P & _); [|assumption]. cbn. rewrite P.
    destruct items as [|[i c] items]; [now rewrite app_nil_r|].
    inversion PL as [|? ? PI _]; subst. destruct i; try contradiction; now rewrite app_nil_r.
  - cbn [flat_items flat_item] in H. apply fbind_ok in H as (b1 & es1 & es2 & H1 & H2 & ->).
    destruct e; [discriminate|]. injection H2 as <- <-. apply close_open_pending in H1 as [E1 E2].
    rewrite map_app, E1, E2. cbn. now rewrite !app_nil_r.
  - discriminate.
  - cbn [flat_items flat_item] in H. apply fbind_ok in H as (b1 & es1 & es2 & H1 & H2 & ->).
    destruct e; [discriminate|]. injection H2 as <- <-.
    apply fbind_ok in H1 as (b2 & es3 & es4 & H3 & H4 & ->).
    apply close_open_pending in H3 as [E1 E2]. rewrite !map_app, E1.
    unfold built, build, buildPeriodicTransaction in H4. cbn in H4. injection H4 as <- <-. cbn.
    now rewrite !app_nil_r.
  - cbn [flat_items flat_item] in H. apply fbind_ok in H as (b1 & es1 & es2 & H1 & H2 & ->).
    apply fbind_ok in H1 as (b2 & es3 & es4 & H3 & H4 & ->).
    apply close_open_pending in H3 as [E1 E2]. rewrite !map_app, E1.
    unfold built, build in H4. cbn [beginTransaction b_type buildNormalTransaction] in H4.
    destruct (parseDate w) as [d|?|]; try discriminate. cbn in H4. injection H4 as <- <-.
    cbn [map app].
    match type of H2 with flat_items ?x _ _ = _ => set (b1 := x) in H2 end.
    assert (forall es' b'', flat_items b1 (state ++ (payeeItem, payee) :: note) e = (b'', es', SOk) ->
      es' = [] /\ pending b'' = [HTxn d (encode payee)]) as K.
    { clear H2. assert (b_type b1 = normalTransaction) as TY by reflexivity.
      assert (exists pay, pending b1 = [HTxn d pay]) as [pay PB] by (eexists; reflexivity).
      clearbody b1. revert b1 TY PB.
      induction FS as [|[i c] state EI FS IH]; intros b1 TY PB es' b'' H.
      - cbn [app flat_items] in H. apply fbind_ok in H as (b4 & es5 & es6 & H5 & H6 & ->).
        cbn [flat_item] in H5. unfold built, build in H5. rewrite TY in H5.
        cbn [buildNormalTransaction] in H5. destruct (negb _); [discriminate|].
        destruct (target b1) as [t|] eqn:T; [|discriminate]. injection H5 as <- <-.
        apply flat_items_plain in H6 as (-> & P & _); [|assumption]. split; [reflexivity|].
        rewrite P. unfold pending in *. unfold set_target, set_prev. rewrite TY in *. cbn.
        unfold target in T. rewrite TY in T. rewrite T in PB. injection PB as E _. cbn. now rewrite E.
      - cbn in EI. subst i. cbn [app flat_items] in H. apply fbind_ok in H as (b4 & es5 & es6 & H5 & H6 & ->).
        assert (flat_items b1 [(stateItem, c)] None = (b4, es5, SOk)) as H7.
        { cbn [flat_items flat_item]. cbn [flat_item] in H5. rewrite H5. cbn. now rewrite app_nil_r. }
        apply flat_items_plain in H7 as (-> & P & T); [|repeat constructor].
        eapply IH in H6 as [-> P']; [auto| |]; congruence. }
    apply K in H2 as [-> ->]. rewrite payee_of_app by assumption. cbn [map]. now rewrite !app_nil_r.
Qed.

(** Lines of an expanded list are no include lines. *)
Lemma included_none : forall hint l, included U hint l = None -> included U [] l = None.
Proof.
  intros hint l. unfold included. destruct (lex_include_cases U hint l) as [[c ->]|[-> F]]; [discriminate|]. auto.
Qed.

Definition plain_lines (ls : list fline) : Prop :=
  Forall (fun x => match x with FLine l => included U [] l = None | FStop _ => True end) ls.

Lemma expand_lines_plain : forall inc hint bad ls, (forall p, plain_lines (inc p)) ->
  plain_lines (expand_lines U inc hint bad ls).
Proof.
  intros inc hint bad ls H. induction ls as [|[l|] ls IH]; cbn [expand_lines].
  - destruct bad; repeat constructor.
  - destruct (included U hint l) eqn:E; [apply Forall_app; split; [apply H|assumption]|].
    constructor; [|assumption]. eapply included_none; eassumption.
  - repeat constructor.
Qed.
Lemma expand_plain : forall depth hint f, plain_lines (expand U fs depth hint f).
Proof.
  induction depth as [|d IH]; intros hint f; cbn; apply expand_lines_plain; intro p.
  - repeat constructor.
  - destruct (fs p); [apply IH|repeat constructor].
Qed.

Lemma flat_pending : forall ls b b' es, plain_lines ls -> stops_fail ls -> flat U ls b = (b', es, SOk) ->
  map head_of_entry es ++ pending b' = pending b ++ flat_map (head_of_line U) ls.
Proof.
  induction ls as [|[l|r] ls IH]; intros b b' es PL SF H; cbn [flat] in H.
  - injection H as <- <-. cbn. now rewrite app_nil_r.
  - inversion_clear PL as [|? ? PL1 PL2]. inversion_clear SF as [|? ? SF1 SF2].
    apply fbind_ok in H as (b1 & es1 & es2 & H1 & H2 & ->).
    apply flat_line_pending in H1; [|assumption]. apply IH in H2; [|assumption|assumption].
    rewrite map_app, <- app_assoc, H2, app_assoc, H1. cbn [flat_map]. now rewrite app_assoc.
  - inversion SF; subst. congruence.
Qed.

(** The last line read closes the last transaction. *)
Lemma flat_nothing_open : forall depth hint f b es,
  flat U (expand U fs depth hint f) newBuilder = (b, es, SOk) -> pending b = [].
Proof.
  assert (forall inc hint bad ls b b' es, no_stop (expand_lines U inc hint bad ls) ->
    (forall p, stops_fail (inc p)) ->
    flat U (expand_lines U inc hint bad ls) b = (b', es, SOk) -> pending b' = []) as K.
  { intros inc hint bad ls. induction ls as [|[l|] ls IH]; cbn [expand_lines]; intros b b' es NS SF H.
    - destruct bad; [exfalso; eapply NS; now left|]. cbn [flat] in H.
      apply fbind_ok in H as (b1 & es1 & es2 & H1 & H2 & ->). cbn in H2. injection H2 as <- <-.
      unfold flat_line in H1. cbn in H1. apply fbind_ok in H1 as (b2 & es3 & es4 & H3 & H4 & ->).
      injection H4 as <- <-. now apply close_open_pending in H3.
    - destruct (included U hint l) as [p|].
      + rewrite flat_app in H by apply SF. apply fbind_ok in H as (b1 & es1 & es2 & H1 & H2 & ->).
        eapply IH; [|assumption|exact H2]. intros r I. apply (NS r), in_or_app. now right.
      + cbn [flat] in H. apply fbind_ok in H as (b1 & es1 & es2 & H1 & H2 & ->).
        eapply IH; [|assumption|exact H2]. intros r I. apply (NS r). now right.
    - exfalso. eapply NS. now left. }
  intros depth hint f b es H.
  assert (no_stop (expand U fs depth hint f)) as NS by (eapply flat_ok_no_stop; [apply expand_stops|exact H]).
  destruct depth as [|d]; cbn [expand] in H, NS; (eapply K; [exact NS| |exact H]); intro p; cbv beta.
  - repeat constructor; discriminate.
  - destruct (fs p); [apply expand_stops|repeat constructor; discriminate].
Qed.

Lemma entries_heads : forall depth hint f, snd (entries U fs depth hint f) = SOk ->
  map head_of_entry (fst (entries U fs depth hint f)) = flat_map (head_of_line U) (expand U fs depth hint f).
Proof.
  intros depth hint f. unfold entries.
  destruct (flat U (expand U fs depth hint f) newBuilder) as [[b es] r] eqn:E. cbn. intros ->.
  pose proof (flat_nothing_open _ _ _ _ _ E) as PE.
  apply flat_pending in E; [|apply expand_plain|apply expand_stops].
  rewrite PE in E. cbn in E. now rewrite app_nil_r in E.
Qed.

End Facts.

(** ** Each line of each file read is read in some state *)
Section Lines.
Variable U : unicode.
Variable fs : str -> option file.

Lemma expand_lines_in : forall inc hint bad ls l, no_stop (expand_lines U inc hint bad ls) -> In (Line l) ls ->
  match included U hint l with
  | Some p => incl (inc p) (expand_lines U inc hint bad ls)
  | None => In (FLine l) (expand_lines U inc hint bad ls)
  end.
Proof.
  intros inc hint bad ls. induction ls as [|[l'|] ls IH]; intros l NS I; cbn [expand_lines] in *.
  - destruct I.
  - destruct (included U hint l') as [p|] eqn:E.
    + destruct I as [I|I].
      * injection I as <-. rewrite E. now apply incl_appl, incl_refl.
      * assert (no_stop (expand_lines U inc hint bad ls)) as NS' by (intros r X; apply (NS r), in_or_app; now right).
        specialize (IH l NS' I). destruct (included U hint l); [now apply incl_appr|apply in_or_app; now right].
    + destruct I as [I|I].
      * injection I as <-. rewrite E. now left.
      * assert (no_stop (expand_lines U inc hint bad ls)) as NS' by (intros r X; apply (NS r); now right).
        specialize (IH l NS' I). destruct (included U hint l); [now apply incl_tl|now right].
  - exfalso. eapply NS. now left.
Qed.

Lemma reads_incl : forall depth a b, no_stop (expand U fs depth (fst a) (snd a)) -> reads U fs a b ->
  exists d, incl (expand U fs d (fst b) (snd b)) (expand U fs depth (fst a) (snd a)).
Proof.
  intros depth a b NS R. induction R as [|p f l p' f' R IH I E F]; [exists depth; apply incl_refl|].
  destruct IH as (d & L). cbn [fst snd] in *.
  assert (no_stop (expand U fs d p f)) as N by (intros r X; apply (NS r); now apply L).
  destruct (no_stop_include U fs d p f N) as (_ & _ & K).
  destruct (K l p' I E) as (d' & f'' & -> & F' & N'). rewrite F in F'. injection F' as <-.
  exists d'. eapply incl_tran; [|exact L]. cbn [expand] in *.
  pose proof (expand_lines_in _ _ _ _ l N I) as X. rewrite E in X. cbv beta in X. rewrite F in X. exact X.
Qed.

Lemma flat_ok_member : forall ls b b' es l, stops_fail ls -> flat U ls b = (b', es, SOk) -> In (FLine l) ls ->
  exists b1 b2 es2, flat_line U l b1 = (b2, es2, SOk).
Proof.
  induction ls as [|[l'|r] ls IH]; intros b b' es l SF H I; cbn [flat] in H.
  - destruct I.
  - inversion_clear SF as [|? ? _ SF']. apply fbind_ok in H as (b1 & es1 & es2 & H1 & H2 & ->).
    destruct I as [I|I]; [injection I as <-; eauto|]. eapply IH; eauto.
  - inversion SF; subst. congruence.
Qed.

Lemma read_line_ok : forall S th ph depth hint f (s : S) p f' l,
  snd (parse U fs th ph depth hint f s) = SOk ->
  reads U fs (hint, f) (p, f') -> In (Line l) (file_lines (f_bytes f')) -> included U p l = None ->
  exists b1 b2 es, flat_line U l b1 = (b2, es, SOk).
Proof.
  intros S th ph depth hint f s p f' l H R I E.
  apply parse_ok_trace, trace_ok_entries in H. pose proof (entries_ok_no_stop _ _ _ _ _ H) as NS.
  destruct (reads_incl depth (hint, f) (p, f') NS R) as (d & L). cbn [fst snd] in *.
  assert (no_stop (expand U fs d p f')) as N by (intros r X; apply (NS r); now apply L).
  assert (In (FLine l) (expand U fs depth hint f)) as IN.
  { apply L. destruct d; cbn [expand] in *; pose proof (expand_lines_in _ _ _ _ l N I) as X; now rewrite E in X. }
  unfold entries in H. destruct (flat U (expand U fs depth hint f) newBuilder) as [[b es] r] eqn:FL. cbn in H. subst r.
  eapply flat_ok_member; [apply expand_stops|exact FL|exact IN].
Qed.
End Lines.
