(** * Date flags that are no dates, read *)
From Verif Require Import Base BaseFacts Utf8 Utf8Facts Unicode GoTime Strconv Journal Lexer LexSpec
  LexerFacts JournalText LexText Parser ParserFacts FlatSpec FlatFacts Spec JournalFacts BuilderFacts LineFacts IncludeFacts
  TextSpec DateFacts AmountFacts ReadFacts WriteFacts BodyFacts BookText PeriodFacts InputFacts WholeFacts FilesText FilesFacts LocateFacts
  MistakeText Main PropsInput MistakeFacts PropsWhere HandFacts FlagText StreamFacts.

(** ** The flag *)
Lemma in_first : forall sep (s : str), In sep s -> exists a b, s = a ++ [sep] ++ b /\ ~ In sep a.
Proof.
  intros sep. induction s as [|c s IH]; intro H; [destruct H|]. destruct (Z.eq_dec c sep) as [->|N].
  - exists [], s. split; [reflexivity|auto].
  - destruct H as [H|H]; [contradiction|]. destruct (IH H) as (a & b & -> & M). exists (c :: a), b. split; [reflexivity|].
    intros [X|X]; [contradiction|now apply M].
Qed.
Lemma cuts_later : forall sep s, cuts sep s <-> occurs_later sep s = true.
Proof.
  intros sep s. split.
  - intros (a & b & -> & NE & N). now apply occurs_later_true.
  - intro H. destruct (in_dec Z.eq_dec sep s) as [I|N].
    + destruct (in_first sep s I) as (a & b & -> & N). exists a, b. repeat split; auto. intros ->. unfold occurs_later in H. cbn in H. now rewrite Z.eqb_refl in H.
    + rewrite occurs_later_false in H by exact N. discriminate.
Qed.
Lemma cuts_not : forall sep s, ~ cuts sep s <-> occurs_later sep s = false.
Proof. intros sep s. rewrite cuts_later. destruct (occurs_later sep s); split; congruence. Qed.

Lemma cut_by : forall now s sep, cut_at s sep -> parseSmartDate now s = by_sep now s sep.
Proof.
  intros now s sep H. unfold parseSmartDate. fold (by_sep now s c_slash) (by_sep now s c_dot) (by_sep now s c_dash).
  change c_slash with 47. change c_dot with 46. change c_dash with 45.
  destruct H as [A|A B|A B C]; rewrite ?cuts_not, ?cuts_later in *.
  - now rewrite A.
  - now rewrite A, B.
  - now rewrite A, B, C.
Qed.
Lemma cut_none : forall now s, (forall sep, ~ cut_at s sep) -> parseSmartDate now s = parseYear s.
Proof.
  intros now s H. unfold parseSmartDate. change c_slash with 47. change c_dot with 46. change c_dash with 45.
  destruct (occurs_later 47 s) eqn:A; [exfalso; apply (H 47); constructor; now apply cuts_later|].
  destruct (occurs_later 46 s) eqn:B; [exfalso; apply (H 46); constructor; [now apply cuts_not|now apply cuts_later]|].
  destruct (occurs_later 45 s) eqn:C; [exfalso; apply (H 45); constructor; [now apply cuts_not..|now apply cuts_later]|]. reflexivity.
Qed.
Lemma cut_cases : forall s, (exists sep, cut_at s sep) \/ (forall sep, ~ cut_at s sep).
Proof.
  intro s. destruct (occurs_later 47 s) eqn:A; [left; exists 47; constructor; now apply cuts_later|].
  destruct (occurs_later 46 s) eqn:B; [left; exists 46; constructor; [now apply cuts_not|now apply cuts_later]|].
  destruct (occurs_later 45 s) eqn:C; [left; exists 45; constructor; [now apply cuts_not..|now apply cuts_later]|].
  right. rewrite <- cuts_not in A, B, C. intros sep [X|X Y|X Y Z]; contradiction.
Qed.

Lemma of_time_err : forall l v e, of_time l v = PErr e -> e = ETimeParse (layout_text l) v.
Proof. intros l v e. unfold of_time. destruct (time_parse l v); [discriminate|congruence]. Qed.

Lemma split_shape : forall sep s, ~ In sep s /\ split sep s = [s] \/ exists a b, s = a ++ [sep] ++ b /\ ~ In sep a /\ split sep s = a :: split sep b.
Proof.
  intros sep s. destruct (in_dec Z.eq_dec sep s) as [I|N]; [|left; split; [exact N|now apply split_single]].
  right. destruct (in_first sep s I) as (a & b & -> & N). exists a, b. split; [reflexivity|]. split; [exact N|]. now apply split_at_sep.
Qed.

Section Said.
Variable (L : err -> str).

Lemma said_of : forall now s e, 0 <= now -> parseSmartDate now s = PErr e -> said L now s (err_text L e).
Proof.
  intros now s e Now H. destruct (cut_cases s) as [[sep C]|N].
  - rewrite (cut_by now s sep C) in H. unfold by_sep in H.
    destruct (split_shape sep s) as [[NI _]|(a & r & Es & Na & Sp)].
    { exfalso. destruct C as [(a & b & -> & _ & _)|_ (a & b & -> & _ & _)|_ _ (a & b & -> & _ & _)]; apply NI; apply in_or_app; right; now left. }
    rewrite Sp in H. destruct (split_shape sep r) as [[Nr Sr]|(b & r2 & Er & Nb & Sr)]; rewrite Sr in H.
    + destruct (Z.eqb_spec (Z.of_nat (length a)) 4) as [L4|L4]; apply of_time_err in H; subst e.
      * apply (SaidMonth L now s sep a r); auto. lia.
      * apply (SaidDay L now s sep a r (itoa now)); auto; [lia|]. unfold itoa. destruct (Z.ltb_spec now 0); [lia|]. now apply canonical_itoa.
    + destruct (split_shape sep r2) as [[Nr2 Sr2]|(c & r3 & Er2 & Nc & Sr2)]; rewrite Sr2 in H.
      * apply of_time_err in H. subst e. apply (SaidFull L now s sep a b r2); auto. now rewrite Es, Er.
      * assert (X : PErr ESmartComponents = PErr e :> pres date) by (rewrite <- H; destruct (split_shape sep r3) as [[_ Q]|(? & ? & _ & _ & Q)]; rewrite Q; reflexivity). injection X as <-.
        apply (SaidMany L now s sep a b c r3); auto. now rewrite Es, Er, Er2.
  - rewrite (cut_none now s N) in H. unfold parseYear in H. destruct (Z.eqb_spec (Z.of_nat (length s)) 4) as [L4|L4]; cbn [negb] in H.
    + destruct (parse_int64 s); [discriminate|]. injection H as <-. cbn [err_text]. apply SaidDigits; [exact N|lia].
    + injection H as <-. cbn [err_text]. apply SaidYear; [exact N|lia].
Qed.

(** And nothing else is said. *)
Lemma said_only : forall now s e what, 0 <= now -> parseSmartDate now s = PErr e -> said L now s what -> err_text L e = what.
Proof.
  intros now s e what Now H Sd.
  destruct Sd as [N L4|N L4|sep a b C Es Na Nb L4|sep a b year C Es Na Nb L4 Y|sep a b c C Es Na Nb Nc|sep a b c d C Es].
  - rewrite (cut_none now s N) in H. unfold parseYear in H. destruct (Z.eqb_spec (Z.of_nat (length s)) 4) as [X|X]; [lia|]. injection H as <-. reflexivity.
  - rewrite (cut_none now s N) in H. unfold parseYear in H. rewrite L4 in H. cbn in H. destruct (parse_int64 s); [discriminate|]. injection H as <-. reflexivity.
  - rewrite (cut_by now s sep C) in H. unfold by_sep in H. rewrite Es in H at 1. cbn [app] in H. rewrite split_at_sep, (split_single sep b), L4 in H by assumption.
    cbn iota in H. apply of_time_err in H. subst e. reflexivity.
  - rewrite (cut_by now s sep C) in H. unfold by_sep in H. rewrite Es in H at 1. cbn [app] in H. rewrite split_at_sep, (split_single sep b) in H by assumption.
    destruct (Z.eqb_spec (Z.of_nat (length a)) 4) as [X|X]; [lia|]. apply of_time_err in H. subst e.
    assert (year = itoa now) as ->; [|reflexivity]. apply (canonical_unique now); auto. unfold itoa. destruct (Z.ltb_spec now 0); [lia|]. now apply canonical_itoa.
  - rewrite (cut_by now s sep C) in H. unfold by_sep in H. rewrite Es in H at 1. cbn [app] in H. rewrite split_at_sep, split_at_sep, (split_single sep c) in H by assumption.
    apply of_time_err in H. subst e. reflexivity.
  - rewrite (cut_by now s sep C) in H. unfold by_sep in H.
    assert (X : (4 <= length (split sep s))%nat).
    { rewrite Es. cbn [app]. clear. revert b c d. assert (K : forall x y : str, length (split sep (x ++ sep :: y)) = (length (split sep x) + length (split sep y))%nat).
      { intros x y. induction x as [|z x IH]; cbn [app split]; [rewrite Z.eqb_refl; reflexivity|]. destruct (z =? sep); [cbn [length]; now rewrite IH|].
        destruct (split_shape sep x) as [[_ Q]|(? & ? & _ & _ & Q)]; rewrite Q in IH |- *;
        destruct (split sep (x ++ sep :: y)); cbn [length] in *; lia. }
      assert (N : forall x : str, (1 <= length (split sep x))%nat) by (intro x; destruct (split_shape sep x) as [[_ Q]|(? & ? & _ & _ & Q)]; rewrite Q; cbn; lia).
      intros b c d. rewrite !K. pose proof (N a). pose proof (N b). pose proof (N c). pose proof (N d). lia. }
    destruct (split sep s) as [|x1 [|x2 [|x3 [|x4 r]]]]; cbn [length] in X; try lia. injection H as <-. reflexivity.
Qed.
End Said.

(** ** Where *)
Section Due.
Variables (U : unicode) (L : err -> str) (fs : str -> option file).

Lemma begins_lexed : forall hint l, begins l ->
  exists i c items x, lexLine U hint l = ((i, c) :: items, x) /\ (i = emptyLineItem \/ i = dateItem \/ i = periodItem).
Proof.
  intros hint l H.
  assert (X : header U l \/ l = []) by (destruct H as [->|[(d & c & -> & D)|(c & ->)]]; [now right|left; now apply digit_header|left; apply tilde_header; now left]).
  destruct X as [(i & c & items & f & E & I)| ->].
  - exists i, c, items, f. split; [|tauto]. destruct (lex_include_cases U hint l) as [[c' E']|[E' _]]; [|now rewrite E'].
    exfalso. assert (included U hint l = None) as N; [|unfold included in N; rewrite E' in N; discriminate].
    apply included_free with []. unfold included. rewrite E. destruct I as [->| ->]; now destruct items.
  - exists emptyLineItem, [], [], None. split; [reflexivity|now left].
Qed.

Lemma due_handed : forall n path ls es t here, due U fs n path ls es t here -> forall bytes b, lines_written bytes ls -> closed b ->
  exists w, handed U fs n b path (File bytes false) es (TxnEntry t) w /\ forall x, err_text L (w x) = here ++ err_text L x.
Proof.
  induction 1 as [n path before ws es ls t t' l rest here J F TW St Bg P|n path before ws es ls t t' J F TW St
    |n dir base before ws es k name ib inner es' t rest here there J F R D Bs V Sp Fs Li Fi IH P]; intros bytes b Lw C.
  - destruct (entry_after U fs n path before ws es ls b J F C (txn_not_included U path ls t TW) (txn_begins U ls t TW)) as (b2 & C2 & K).
    destruct (txn_opens U ls t b2 TW C2) as (b3 & E3). specialize (K b3 E3). destruct (settled_read U ls t t' b2 TW St C2) as (b4 & E4 & C4).
    pose proof (finished U ls b2 b4 b3 (TxnEntry t') E4 E3) as Cl.
    exists (EAt path (Z.of_nat (length (map Line (before ++ ls))) + 1)). split.
    + apply (HandLine U fs n b path (File bytes false) (map Line (before ++ ls)) l (map Line rest) b3 b4 es); [|exact K|exact Cl|now apply begins_lexed].
      cbn [f_bytes]. rewrite (lines_written_read _ _ Lw). rewrite app_assoc, map_app. reflexivity.
    + intro x. rewrite map_length, app_length. now apply at_text.
  - destruct (entry_after U fs n path before ws es ls b J F C (txn_not_included U path ls t TW) (txn_begins U ls t TW)) as (b2 & C2 & K).
    destruct (txn_opens U ls t b2 TW C2) as (b3 & E3). specialize (K b3 E3). destruct (settled_read U ls t t' b2 TW St C2) as (b4 & E4 & C4).
    pose proof (finished U ls b2 b4 b3 (TxnEntry t') E4 E3) as Cl.
    exists (fun x => x). split; [|reflexivity]. eapply HandEnd; [|reflexivity|exact Cl]. cbn [f_bytes]. rewrite (lines_written_read _ _ Lw). exact K.
  - destruct (filed_prefix U fs _ _ before ws es b J F C) as (b1 & es1 & b2 & es2 & E & Cl & C2 & ->).
    pose proof (rested_closed U fs before R _ _ _ _ _ C E) as C1. destruct (IH ib b1 Li C1) as (w & Hw & T). rewrite C1 in Cl. injection Cl as <- <-. rewrite app_nil_r.
    exists (fun x => EAt (dir ++ base) (Z.of_nat (length (map Line before)) + 1) (EErrorAt (w x))). split.
    + eapply (HandInclude U fs n b (dir ++ base) (File bytes false) (map Line before) (lit "include" ++ spaces (1 + k) ++ name) (map Line rest) b1 (dir ++ name)); [|now apply include_named|exact Fs|exact E|exact Hw]. cbn [f_bytes]. rewrite (lines_written_read _ _ Lw), map_app. reflexivity.
    + intro x. rewrite map_length. rewrite <- !app_assoc. apply at_text; [exact P|]. cbn [err_text]. now rewrite T.
Qed.

Lemma due_deeper : forall n path ls es t here, due U fs n path ls es t here -> forall m, (n <= m)%nat -> due U fs m path ls es t here.
Proof.
  induction 1; intros m' Le.
  - eapply DueHere; eauto. eapply filed_deeper; eassumption.
  - eapply DueLast; eauto. eapply filed_deeper; eassumption.
  - destruct m' as [|m']; [lia|]. eapply DueIncluded; eauto; [eapply filed_deeper; eassumption|]. apply IHdue. lia.
Qed.

(** The program stops where a handler refuses. *)
Theorem due_refused : forall D (th : D -> transaction -> str -> D * status) ph n depth path ls es t here bytes s,
  due U fs n path ls es t here -> (n <= depth)%nat -> lines_written bytes ls ->
  exists evs p, map erase evs = es /\ forall s1 s2 x, deliver_all (Some th) ph s evs = (s1, SOk) -> th s1 t p = (s2, SErr x) ->
    exists e, parse U fs (Some th) ph depth path (File bytes false) s = (s2, SErr (EErrorAt e)) /\ err_text L e = here ++ err_text L x.
Proof.
  intros D th ph n depth path ls es t here bytes s H Le Lw.
  destruct (due_handed _ _ _ _ _ _ (due_deeper _ _ _ _ _ _ H depth Le) bytes newBuilder Lw closed_new) as (w & Hd & T).
  destruct (handed_run U fs (Some th) ph _ _ _ _ _ _ _ Hd (PS newBuilder [path] s) eq_refl) as (evs & p & Er & R).
  exists evs, p. split; [exact Er|]. intros s1 s2 x Dl Ht. destruct (R s1 s2 x Dl Ht) as (st' & RF & <-).
  exists (w x). unfold parse. rewrite RF. split; [reflexivity|apply T].
Qed.

(** Budget entries before it are for months. *)
Definition month_entry (e : entry) : Prop := match e with TxnEntry _ => True | PerEntry pt => a_month (pt_period pt) end.
Lemma filed_months : forall n path ls ws, filed U fs n path ls ws -> forall es, Forall2 means ws es -> Forall month_entry es.
Proof.
  induction 1 as [n path|n path ls t ls' ws TW B J IH|n path ls a ls' ws AW B J IH|n path ls ws J IH|n path c l ls ws Cs J IH|n dir base k name bytes inner ws ls ws' D Bs V Sp Fs Lw Ji IHi J IH];
    intros es F; auto.
  - inversion F. constructor.
  - inversion F as [|? e ? es2 Fe F']; subst. inversion Fe; subst. constructor; [exact I|auto].
  - inversion F as [|? e ? es2 Fe F']; subst. inversion Fe as [|a' pt Bd]; subst. constructor; [|auto].
    destruct AW as [k ys ms y m pl ps NY NM RM PW NE]. assert (M : a_month (Period (Date y m 1) (Date y m 1) PNone 0)).
    { split; [|split; reflexivity]. split; cbn [pe_start d_year]; [|eapply numeral4_range; eassumption]. apply real_date_iff; [exact RM|].
      cbn [d_day d_year d_month]. unfold days_in. destruct (m =? 2); [destruct (is_leap y); lia|]. destruct (_ || _); lia. }
    inversion Bd; subst; exact M.
  - apply Forall2_app_inv_l in F as (e1 & e2 & F1 & F2 & ->). apply Forall_app. auto.
Qed.
Lemma due_months : forall n path ls es t here, due U fs n path ls es t here -> Forall month_entry es.
Proof. induction 1; try (eapply filed_months; eassumption). apply Forall_app. split; [eapply filed_months; eassumption|assumption]. Qed.
End Due.
