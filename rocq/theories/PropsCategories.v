(** * C134: renaming the categories of a budget *)
From Verif Require Import Base BaseFacts Utf8 Unicode GoTime Strconv Display Journal JournalFacts Lexer Parser ParserFacts Account Reporting Budget Cmd Spec TextSpec
  TreeSpec TreeFacts ReportSpec CmdSpec CmdFacts FlatSpec Sample PropsCmd PropsBalance BudgetSpec BudgetFacts PropsBudget PropsAgain PropsConcat PropsJoin PropsJoinMore PropsOrder PropsInside PropsRenamed PropsDays PropsMonths PropsCross.

(** A renaming of the parts of the names of categories: one to one, and nothing
    becomes, or ceases to be, the fund. *)
Record renames (f : str -> str) : Prop := {
  rc_one : forall a b, f a = f b -> a = b;
  rc_fund : forall c, f c = lit "_budget_root_" <-> c = lit "_budget_root_" }.

(** A posting of a budget entry, for the category renamed; one of a transaction:
    spending stays spending, for the category renamed, income stays income and what
    is neither stays neither. *)
Definition reassigned (f : str -> str) (p p' : posting) : Prop := po_amount p' = po_amount p /\ components p' = map f (components p).
Definition begins (k : str) (p : posting) : Prop := firstn 1 (components p) = [k].
Definition respent (f : str -> str) (p p' : posting) : Prop := po_amount p' = po_amount p /\
  (begins (lit "Expenses") p' <-> begins (lit "Expenses") p) /\ (begins (lit "Income") p' <-> begins (lit "Income") p) /\
  (begins (lit "Expenses") p -> tl (components p') = map f (tl (components p))).
(** The entries of a journal. *)
Inductive renamed_entry (f : str -> str) : event -> event -> Prop :=
| RenamedBudget : forall pt pt' x x', pe_start (pt_period pt') = pe_start (pt_period pt) ->
    Forall2 (reassigned f) (t_postings (pt_txn pt)) (t_postings (pt_txn pt')) -> renamed_entry f (EPer pt x) (EPer pt' x')
| RenamedTxn : forall t t' x x', t_date t' = t_date t -> Forall2 (respent f) (t_postings t) (t_postings t') -> renamed_entry f (ETxn t x) (ETxn t' x').

(** A month of the report: what is above the rows, and the rows, each a name and the
    figures after it. *)
Record section_ := Section_ { s_heading : list str; s_rows : list (str * str) }.
Definition row_text (r : str * str) : str := flush_left 30 (fst r) ++ snd r.
Definition section_text (s : section_) : list str := s_heading s ++ map row_text (s_rows s) ++ [[10]].
Definition rename_row (f : str -> str) (r : str * str) : str * str := (f (fst r), snd r).

Section Moves.
Variable f : str -> str.
Hypothesis R : renames f.

Record moved (m m' : move) : Prop := {
  mo_type : mv_type m' = mv_type m;
  mo_date : mv_date m' = mv_date m;
  mo_amount : po_amount (mv_posting m') = po_amount (mv_posting m);
  mo_fund : to_fund m' = to_fund m;
  mo_category : is_earn m = false -> category m' = map f (category m) }.

Lemma map_one_c : forall q r, map f q = map f r -> q = r.
Proof. induction q as [|a q IH]; intros [|b r] H; try discriminate; [reflexivity|]. cbn in H. injection H as A B. now rewrite (rc_one f R _ _ A), (IH _ B). Qed.
Lemma prefixb_c : forall q p, prefixb (map f q) (map f p) = prefixb q p.
Proof.
  induction q as [|a q IH]; intros [|b p]; cbn; auto. rewrite IH. f_equal. apply eq_true_iff_eq. rewrite !str_eqb_eq. split; [apply (rc_one f R)|congruence].
Qed.
Lemma moved_kind : forall m m', moved m m' -> is_earn m' = is_earn m /\ is_spend m' = is_spend m /\ is_assign m' = is_assign m.
Proof. intros m m' H. unfold is_earn, is_spend, is_assign. now rewrite (mo_type _ _ H). Qed.
Lemma moved_concerns : forall q m m', moved m m' -> concerns (map f q) m' = concerns q m.
Proof.
  intros q m m' H. unfold concerns. destruct (moved_kind _ _ H) as (-> & _ & _). rewrite (mo_fund _ _ H). destruct (is_earn m) eqn:E; [reflexivity|].
  rewrite (mo_category _ _ H E). now rewrite prefixb_c.
Qed.
Lemma moved_names : forall q m m', moved m m' -> names (map f q) m' = names q m.
Proof.
  intros q m m' H. unfold names. destruct (moved_kind _ _ H) as (-> & _ & _). rewrite (mo_fund _ _ H). destruct (is_earn m) eqn:E; [reflexivity|].
  rewrite (mo_category _ _ H E). destruct (list_str_dec (map f q) (map f (category m))) as [A|A], (list_str_dec q (category m)) as [B|B]; auto.
  - now apply map_one_c in A.
  - now rewrite B in A.
Qed.
Lemma moved_filter : forall (g g' : move -> bool) l l', (forall m m', moved m m' -> g' m' = g m) -> Forall2 moved l l' -> Forall2 moved (filter g l) (filter g' l').
Proof.
  intros g g' l l' G H. induction H as [|m m' l l' Hm H IH]; [constructor|]. cbn [filter]. rewrite (G _ _ Hm). destruct (g m); [now constructor|exact IH].
Qed.
Lemma moved_exists : forall (g g' : move -> bool) l l', (forall m m', moved m m' -> g' m' = g m) -> Forall2 moved l l' -> existsb g' l' = existsb g l.
Proof. intros g g' l l' G H. induction H as [|m m' l l' Hm H IH]; [reflexivity|]. cbn [existsb]. now rewrite (G _ _ Hm), IH. Qed.
Lemma moved_amounts : forall l l', Forall2 moved l l' ->
  map quantity (map mv_posting l') = map quantity (map mv_posting l) /\ map commodity_of (map mv_posting l') = map commodity_of (map mv_posting l).
Proof.
  intros l l' H. induction H as [|m m' l l' Hm H [I J]]; [split; reflexivity|]. cbn [map]. unfold quantity at 1 3, commodity_of at 1 3.
  rewrite (mo_amount _ _ Hm), I, J. split; reflexivity.
Qed.
Lemma moved_sum : forall (g g' : move -> bool) l l', (forall m m', moved m m' -> g' m' = g m) -> Forall2 moved l l' -> sum_of g' l' = sum_of g l.
Proof. intros g g' l l' G H. unfold sum_of, total. now rewrite (proj1 (moved_amounts _ _ (moved_filter g g' l l' G H))). Qed.
Lemma moved_first : forall (g g' : move -> bool) l l', (forall m m', moved m m' -> g' m' = g m) -> Forall2 moved l l' ->
  first_commodity (map mv_posting (filter g' l')) = first_commodity (map mv_posting (filter g l)).
Proof. intros g g' l l' G H. unfold first_commodity, named_commodities. now rewrite (proj2 (moved_amounts _ _ (moved_filter g g' l l' G H))). Qed.
Lemma moved_shown : forall q l l', Forall2 moved l l' -> shown_commodity (map f q) l' = shown_commodity q l.
Proof.
  intros q l l' H. unfold shown_commodity. f_equal. pose proof (proj2 (moved_amounts _ _ (moved_filter _ _ l l' (moved_names q) H))) as X. rewrite !map_map in X. exact X.
Qed.
Lemma moved_month : forall y m l l', Forall2 moved l l' -> Forall2 moved (month y m l) (month y m l').
Proof. intros y m l l' H. apply moved_filter; [|exact H]. intros a b Hab. unfold in_month. now rewrite (mo_date _ _ Hab). Qed.
Lemma moved_roots : forall l l', Forall2 moved l l' ->
  income_commodity l' = income_commodity l /\ envelope_commodity l' = envelope_commodity l /\ spending_commodity l' = spending_commodity l /\ earned l' = earned l.
Proof.
  intros l l' H. unfold income_commodity, envelope_commodity, spending_commodity, earned. split; [|split; [|split]].
  - apply moved_first; [|exact H]. intros m m' Hm. apply (moved_kind _ _ Hm).
  - apply moved_first; [|exact H]. intros m m' Hm. now rewrite (mo_fund _ _ Hm).
  - apply moved_first; [|exact H]. intros m m' Hm. rewrite (mo_fund _ _ Hm). now rewrite (proj1 (moved_kind _ _ Hm)).
  - apply moved_sum; [|exact H]. intros m m' Hm. apply (moved_kind _ _ Hm).
Qed.
Lemma up_renamed : forall q, up (map f q) = map (map f) (up q).
Proof. induction q as [|k q IH]; [reflexivity|]. cbn [up map]. rewrite IH, map_app, !map_map. reflexivity. Qed.
Lemma moved_objections : forall b b' m m', Forall2 moved b b' -> moved m m' -> objections b' m' = objections b m.
Proof.
  intros b b' m m' H Hm. assert (H' : Forall2 moved (b ++ [m]) (b' ++ [m'])) by (apply Forall2_app; auto). unfold objections.
  assert (C : commodity_of (mv_posting m') = commodity_of (mv_posting m)) by (unfold commodity_of; now rewrite (mo_amount _ _ Hm)). rewrite C.
  destruct (moved_kind _ _ Hm) as (-> & -> & _). rewrite (mo_fund _ _ Hm). destruct (moved_roots _ _ H') as (-> & -> & -> & _). destruct (moved_roots _ _ H) as (_ & -> & _ & _).
  destruct (is_earn m) eqn:E; [reflexivity|]. destruct (to_fund m); [reflexivity|]. rewrite (mo_category _ _ Hm E), up_renamed, flat_map_concat_map, flat_map_concat_map, map_map.
  f_equal. apply map_ext. intros [|k q]; [reflexivity|]. cbn [map]. now rewrite <- (moved_shown (k :: q) _ _ H').
Qed.
Lemma moved_objected : forall l l', Forall2 moved l l' -> forall b b', Forall2 moved b b' -> objected b' l' = objected b l.
Proof.
  intros l l' H. induction H as [|m m' l l' Hm H IH]; intros b b' B; [reflexivity|]. cbn [objected]. rewrite (mo_date _ _ Hm).
  rewrite (moved_objections _ _ _ _ (moved_month _ _ _ _ B) Hm). f_equal. apply IH. apply Forall2_app; auto.
Qed.

(** The moves of the entries. *)
Lemma fund_renamed : forall p p', reassigned f p p' -> str_eqb (po_account p') (lit "_budget_root_") = str_eqb (po_account p) (lit "_budget_root_").
Proof.
  assert (X : forall p, po_account p = lit "_budget_root_" <-> components p = [lit "_budget_root_"]).
  { intro p. unfold components. split; [intros ->; reflexivity|]. intro H. rewrite <- (join_split 58 (po_account p)), H. reflexivity. }
  intros p p' [_ C]. apply eq_true_iff_eq. rewrite !str_eqb_eq, !X, C. split; intro H.
  - apply map_eq_cons in H as (c & l & Q & A & B). apply map_eq_nil in B. subst l. apply (proj1 (rc_fund f R _)) in A. now rewrite Q, A.
  - rewrite H. cbn [map]. f_equal. now apply (rc_fund f R).
Qed.
Lemma moved_allocations : forall pt pt', pe_start (pt_period pt') = pe_start (pt_period pt) ->
  Forall2 (reassigned f) (t_postings (pt_txn pt)) (t_postings (pt_txn pt')) -> Forall2 moved (allocations pt) (allocations pt').
Proof.
  intros pt pt' D H. unfold allocations. rewrite D. induction H as [|p p' l l' Hp H IH]; [constructor|]. cbn [map]. constructor; [|exact IH].
  split; cbn [mv_type mv_date mv_posting]; [reflexivity|reflexivity|apply Hp| |].
  - unfold to_fund. cbn [is_assign mv_type mv_posting]. now rewrite (fund_renamed p p' Hp).
  - intros _. apply Hp.
Qed.
Lemma moved_activity : forall t t' ps ps', t_date t' = t_date t -> Forall2 (respent f) ps ps' -> Forall2 moved (activity t ps) (activity t' ps').
Proof.
  intros t t' ps ps' D H. unfold activity. induction H as [|p p' l l' (A & X & I & T) H IH]; [constructor|]. cbn [flat_map]. apply Forall2_app; [|exact IH].
  unfold begins in *. rewrite D. destruct (list_str_dec (firstn 1 (components p')) [lit "Expenses"]) as [a|a], (list_str_dec (firstn 1 (components p)) [lit "Expenses"]) as [b|b];
    [|exfalso; tauto|exfalso; tauto|].
  - constructor; [|constructor]. split; cbn [mv_type mv_date mv_posting]; auto.
  - destruct (list_str_dec (firstn 1 (components p')) [lit "Income"]) as [c|c], (list_str_dec (firstn 1 (components p)) [lit "Income"]) as [d|d];
      [|exfalso; tauto|exfalso; tauto|constructor].
    constructor; [|constructor]. split; cbn [mv_type mv_date mv_posting]; auto; discriminate.
Qed.
Lemma moved_history : forall E E' O evs evs', same_clock E E' -> Forall2 (renamed_entry f) evs evs' -> forall n log, history E O [] n evs log ->
  exists log', history E' O [] n evs' log' /\ Forall2 moved log log'.
Proof.
  intros E E' O evs evs' Cl H.
  assert (Cl' : same_clock E' E) by (destruct Cl as (a & b & c); repeat split; intro; symmetry; auto).
  induction H as [|e e' evs evs' He H IH]; intros n log Hi.
  - inversion Hi; subst. exists []. split; constructor.
  - inversion Hi; subst; inversion He; subst;
      match goal with K : history _ _ _ _ evs _ |- _ => destruct (IH _ _ K) as (log' & Hi' & M) end.
    + eexists. split; [apply HistBudget; exact Hi'|]. apply Forall2_app; [now apply moved_allocations|exact M].
    + exists log'. split; [|exact M]. apply HistNot; [|exact Hi'].
      match goal with N : _ \/ _ |- _ => destruct N as [N|N]; [left|discriminate N] end.
      intro W. match goal with D : t_date _ = t_date _ |- _ => rewrite D in W end. now apply (books_within E' E O _ _ Cl') in W.
    + eexists (activity _ (t_postings _) ++ log'). split.
      * apply HistTxn; [|reflexivity| |reflexivity|exact Hi'].
        -- match goal with D : t_date _ = t_date _ |- _ => rewrite D end. now apply (books_within E E' O _ _ Cl).
        -- reflexivity.
      * apply Forall2_app; [|exact M]. match goal with W : _ \/ _ -> ?ps = _ |- _ => rewrite (W (or_introl eq_refl)) end. now apply moved_activity.
Qed.
Lemma moved_proper : forall l l', Forall2 moved l l' -> Forall proper l -> Forall (fun m => is_earn m = true -> category m <> []) l' -> Forall proper l'.
Proof.
  intros l l' H. induction H as [|m m' l l' Hm H IH]; intros P Q; [constructor|]. inversion P as [|? ? [P1 P2] P3]; inversion Q; subst. constructor; [|auto].
  split; [rewrite (mo_amount _ _ Hm); exact P1|]. destruct (is_earn m) eqn:E.
  - match goal with K : is_earn m' = true -> _ |- _ => apply K end. now rewrite (proj1 (moved_kind _ _ Hm)).
  - rewrite (mo_category _ _ Hm E). intro X. apply map_eq_nil in X. contradiction.
Qed.
End Moves.

(** The rows of a month. *)
Definition figures_of (ms : list move) (k : str) : str :=
  lit " | " ++ flush_right 20 (display_quantity (wrap64 (- spent [k] ms)))
    ++ lit " | " ++ flush_right 20 (display_quantity (wrap64 (assigned [k] ms)))
    ++ lit " | " ++ flush_right 20 (shown_commodity [k] ms ++ display_quantity (wrap64 (assigned [k] ms - spent [k] ms)))
    ++ lit " |" ++ [10].
Definition section_of (y m : Z) (ms : list move) (cs : list str) : section_ := Section_ (month_heading y m ms) (map (fun k => (k, figures_of ms k)) cs).
Lemma section_block : forall y m ms b, month_block y m ms b -> exists cs, categories_of ms cs /\ b = section_text (section_of y m ms cs).
Proof. intros y m ms b [cs C]. exists cs. split; [exact C|]. unfold section_text, section_of. cbn [s_heading s_rows]. now rewrite map_map. Qed.

(** The section of a month with its categories renamed: what is above the rows is the
    same, so is every row but for its name. *)
Definition renamed_section (f : str -> str) (s s' : section_) : Prop :=
  s_heading s' = s_heading s /\ Permutation (s_rows s') (map (rename_row f) (s_rows s)) /\
  ascending (map fst (s_rows s)) /\ ascending (map fst (s_rows s')) /\ (keeps_order f -> s_rows s' = map (rename_row f) (s_rows s)).

Lemma sections_renamed : forall f y m ms ms' cs cs', renames f -> Forall2 (moved f) ms ms' -> categories_of ms cs -> categories_of ms' cs' ->
  renamed_section f (section_of y m ms cs) (section_of y m ms' cs').
Proof.
  intros f y m ms ms' cs cs' R M [S I] [S' I'].
  assert (Fi : forall k, figures_of ms' (f k) = figures_of ms k).
  { intro k. unfold figures_of, spent, assigned. pose proof (moved_shown f R [k] _ _ M) as X. cbn [map] in X. rewrite X.
    rewrite (moved_sum f (fun m => is_spend m && concerns [k] m) (fun m => is_spend m && concerns [f k] m) ms ms'), (moved_sum f (fun m => is_assign m && concerns [k] m) (fun m => is_assign m && concerns [f k] m) ms ms'); [reflexivity| |exact M| |exact M];
      intros a b Hab; rewrite <- (moved_concerns f R [k] _ _ Hab); f_equal; apply (moved_kind f _ _ Hab). }
  assert (Back : forall k', In k' cs' <-> exists k, f k = k' /\ In k cs).
  { intro k'. rewrite I'. split.
    - intro H. apply existsb_exists in H as (b & Ib & Cb).
      assert (exists a, In a ms /\ moved f a b) as (a & Ia & Hab).
      { clear - M Ib. induction M as [|x x' l l' Hx M IH]; [destruct Ib|]. destruct Ib as [<-|Ib]; [exists x; split; [now left|exact Hx]|]. destruct (IH Ib) as (a & Ia & Ha). exists a. split; [now right|exact Ha]. }
      unfold concerns in Cb. apply andb_prop in Cb as [Cb Pb]. apply andb_prop in Cb as [Eb Fb]. rewrite (proj1 (moved_kind f _ _ Hab)) in Eb. rewrite (mo_fund f _ _ Hab) in Fb.
      assert (Ea : is_earn a = false) by (now destruct (is_earn a)). rewrite (mo_category f _ _ Hab Ea) in Pb. destruct (category a) as [|k q] eqn:Ca; [discriminate|].
      cbn in Pb. rewrite andb_true_r in Pb. apply str_eqb_eq in Pb. exists k. split; [now symmetry|]. apply I. apply existsb_exists. exists a. split; [exact Ia|].
      unfold concerns. rewrite Ea, Ca. cbn [negb andb prefixb]. rewrite Fb, str_eqb_refl. reflexivity.
    - intros (k & <- & Ik). apply I in Ik. rewrite <- Ik. apply (moved_exists f); [|exact M]. exact (moved_concerns f R [k]). }
  assert (Rows : map (rename_row f) (map (fun k => (k, figures_of ms k)) cs) = map (fun k => (k, figures_of ms' k)) (map f cs)).
  { rewrite !map_map. apply map_ext. intro k. unfold rename_row. cbn [fst snd]. now rewrite Fi. }
  unfold section_of. split; [|split; [|split; [|split]]]; cbn [s_heading s_rows].
  - unfold month_heading. destruct (moved_roots f _ _ M) as (-> & _ & _ & ->). reflexivity.
  - rewrite Rows. apply Permutation_map. apply NoDup_Permutation.
    + exact (ascending_nodup _ S').
    + apply FinFun.Injective_map_NoDup; [exact (rc_one f R)|exact (ascending_nodup _ S)].
    + intro k'. rewrite Back, in_map_iff. reflexivity.
  - rewrite map_map. cbn [fst]. rewrite map_id. exact S.
  - rewrite map_map. cbn [fst]. rewrite map_id. exact S'.
  - intro K. rewrite Rows. f_equal. apply ascending_same; [exact S'| |intro k'; rewrite Back, in_map_iff; reflexivity].
    clear - S K. induction S as [|a l S IH Fa]; [constructor|]. cbn [map]. constructor; [exact IH|]. rewrite Forall_map. eapply Forall_impl; [|exact Fa].
    intros b H. cbn beta. apply ascending_iff. apply K. now apply ascending_iff.
Qed.

(** The budget of a journal with its categories renamed: the same is said, there are
    sections for the same months, and in each the same is shown under the new names;
    in the same order if the renaming keeps the order of names. *)
Theorem C134_budget : forall f E E' O, renames f -> sane_clock E -> orders E -> orders E' -> same_clock E E' -> o_args O = [] ->
  Forall2 (renamed_entry f) (fst (stream E O)) (fst (stream E' O)) -> snd (stream E' O) = SOk -> r_status (budget_cmd E O) = SOk ->
  exists said secs secs', Forall2 (renamed_section f) secs secs' /\
    budget_cmd E O = Outcome (said ++ flat_map section_text secs) SOk /\ budget_cmd E' O = Outcome (said ++ flat_map section_text secs') SOk.
Proof.
  intros f E E' O R C Or Or' Cl A S Ok' Ok. assert (C' : sane_clock E') by (intro n; rewrite (proj1 Cl n); apply C).
  assert (Fl : filters_for E (o_args O) []) by (rewrite A; split; constructor). assert (Fl' : filters_for E' (o_args O) []) by (rewrite A; split; constructor).
  destruct (C48_report E O [] C Or Fl) as [K L]. destruct (C48_report E' O [] C' Or' Fl') as [K' L'].
  destruct (proj1 K Ok) as [Re (lg & Hg & Pg)]. destruct (L Ok) as (log & l & bs & Hi & Mo & Bl & Q). rewrite (history_whole _ _ _ _ _ Hi _ Hg) in Pg. clear lg Hg.
  destruct (moved_history f R E E' O _ _ Cl S 0 log Hi) as (log' & Hi' & M).
  assert (Re' : CmdSpec.readable E' O).
  { split; [exact Ok'|]. destruct Re as [_ G].
    assert (X : forall n, good_flags E O n -> good_flags E' O n) by (intros n; unfold good_flags, good_flag; rewrite !(proj1 Cl); tauto).
    clear - S G X. revert G. generalize 0%nat. induction S as [|e e' evs evs' He S IH]; intros n G; [constructor|]. inversion He; subst; cbn [txns] in *; [now apply IH|].
    inversion G; subst. constructor; [now apply X|now apply IH]. }
  assert (St : r_status (budget_cmd E' O) = SOk).
  { apply K'. split; [exact Re'|]. exists log'. split; [exact Hi'|]. apply (moved_proper f _ _ M Pg). apply Forall_forall. intros m _ Em. unfold category, is_spend, components.
    unfold is_earn in Em. destruct (mv_type m); try discriminate. apply split_nonempty. }
  destruct (L' St) as (lg & l' & bs' & Hg & Mo' & Bl' & Q'). rewrite <- (history_whole _ _ _ _ _ Hg _ Hi') in *. clear Hg.
  assert (Ll : l' = l).
  { destruct Mo as [Sl Il], Mo' as [Sl' Il']. apply months_same; [exact Sl'|exact Sl|]. intros [y m]. rewrite Il, Il'. clear - M.
    induction M as [|a b l l' Hab M IH]; [reflexivity|]. destruct IH as [I J]. split; intros (mv & [<-|Im] & D1 & D2).
    - exists a. rewrite <- (mo_date f _ _ Hab). split; [now left|auto].
    - destruct I as (z & Iz & X); [eauto|]. exists z. split; [now right|exact X].
    - exists b. rewrite (mo_date f _ _ Hab). split; [now left|auto].
    - destruct J as (z & Iz & X); [eauto|]. exists z. split; [now right|exact X]. }
  subst l'.
  assert (Secs : exists secs secs', Forall2 (renamed_section f) secs secs' /\ concat bs = flat_map section_text secs /\ concat bs' = flat_map section_text secs').
  { clear - Bl Bl' M R. revert bs' Bl'. induction Bl as [|ym b l bs H F IH]; intros bs' Bl'; inversion Bl' as [|? b' ? bs2 H' F']; subst.
    - exists [], []. repeat split; constructor.
    - destruct (IH _ F') as (secs & secs' & Fs & Q1 & Q2). apply section_block in H as (cs & Cs & ->). apply section_block in H' as (cs' & Cs' & ->).
      eexists (_ :: secs), (_ :: secs'). split; [constructor; [exact (sections_renamed f (fst ym) (snd ym) _ _ _ _ R (moved_month f _ _ _ _ M) Cs Cs')|exact Fs]|].
      cbn [concat flat_map]. now rewrite Q1, Q2. }
  destruct Secs as (secs & secs' & Fs & Q1 & Q2). exists (objected [] log), secs, secs'. split; [exact Fs|]. rewrite <- Q1, <- Q2.
  pose proof (moved_objected f R _ _ M [] [] (Forall2_nil _)) as Ob. rewrite Ob in Q'. destruct (budget_cmd E O), (budget_cmd E' O). cbn in *. subst. auto.
Qed.

Definition budget_text (food rent cash : string) : str :=
  lit "~ 2021-03" ++ [10] ++ lit "  " ++ lit food ++ lit "  $5" ++ [10] ++ lit "  " ++ lit rent ++ lit "  $9" ++ [10] ++ [10]
  ++ lit "2021-03-05 D" ++ [10] ++ lit "  Expenses:" ++ lit food ++ lit ":Out  $1" ++ [10] ++ lit "  " ++ lit cash ++ [10] ++ [10]
  ++ lit "2021-03-06 J" ++ [10] ++ lit "  Income:Pay  $-20" ++ [10] ++ lit "  " ++ lit cash ++ [10].
Lemma swap_renames : forall x y, x <> lit "_budget_root_" -> y <> lit "_budget_root_" -> x <> lit "_root_" -> y <> lit "_root_" -> renames (swap_names x y).
Proof.
  intros x y A B C D. destruct (swap_renaming x y) as [H1 _ H2]; [repeat constructor; assumption|]. split; assumption.
Qed.
Example C134_example : let f := swap_names (lit "Food") (lit "Zoo") in let E := env1 [(lit "j", budget_text "Food" "Rent" "Cash")] in
  let E' := env1 [(lit "j", budget_text "Zoo" "Rent" "Bank")] in let O := opts0 "j" in
  let rows x := filter (fun l => str_eqb (firstn 1 (skipn 31 l)) (lit "|") || str_eqb (firstn 4 l) (lit "2021")) (r_out (budget_cmd x O)) in
  renames f /\ sane_clock E /\ orders E /\ orders E' /\ same_clock E E' /\ o_args O = [] /\
  Forall2 (renamed_entry f) (fst (stream E O)) (fst (stream E' O)) /\ snd (stream E' O) = SOk /\ r_status (budget_cmd E O) = SOk /\
  skipn 7 (rows E) = lines [
    lit "Food                           |                -1.00 |                 5.00 |                $4.00 |";
    lit "Rent                           |                 0.00 |                 9.00 |                $9.00 |"] /\
  skipn 7 (rows E') = lines [
    lit "Rent                           |                 0.00 |                 9.00 |                $9.00 |";
    lit "Zoo                            |                -1.00 |                 5.00 |                $4.00 |"].
Proof.
  cbv zeta. split; [apply swap_renames; discriminate|]. split; [apply env1_clock|]. split; [apply env1_orders|]. split; [apply env1_orders|]. split; [repeat split|].
  split; [reflexivity|]. split.
  { vm_compute. repeat constructor; try (intro; discriminate); intro; try assumption; try reflexivity. }
  split; [vm_compute; reflexivity|]. split; [vm_compute; reflexivity|]. split; vm_compute; reflexivity.
Qed.
