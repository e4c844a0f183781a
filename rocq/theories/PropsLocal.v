(** * C125: a month's budget is that of the month's own entries *)
From Verif Require Import Base BaseFacts Utf8 Unicode GoTime Strconv Display Journal JournalFacts Lexer Parser ParserFacts Account Reporting Budget Cmd Spec TextSpec
  TreeSpec ReportSpec CmdSpec CmdFacts FlatSpec Sample PropsCmd PropsBalance PropsAgain BudgetSpec BudgetFacts PropsBudget Main MainSpec PropsMain PropsMachine PropsArgs PropsConcat PropsJoin PropsJoinMore PropsOrder PropsSums PropsMonths.

(** [section y m ms out]: among the lines [out] there is the section of month [m] of
    year [y], telling of the moves [ms]. *)
Definition section (y m : Z) (ms : list move) (b out : list str) : Prop :=
  month_block y m ms b /\ exists before after, out = before ++ b ++ after.

Lemma section_in : forall log l bs said y m, months_of log l ->
  Forall2 (fun ym b => month_block (fst ym) (snd ym) (month (fst ym) (snd ym) log) b) l bs ->
  month y m log <> [] -> exists b, section y m (month y m log) b (said ++ concat bs).
Proof.
  intros log l bs said y m M F N. apply (months_nonempty _ _ M) in N. clear M. revert said.
  induction F as [|ym b l bs B F IH]; intro said; [destruct N|]. destruct N as [->|N].
  - exists b. split; [exact B|]. exists said, (concat bs). reflexivity.
  - destruct (IH N (said ++ b)) as (b' & B' & pre & post & Q). exists b'. split; [exact B'|]. exists pre, post. cbn [concat]. now rewrite <- Q, <- app_assoc.
Qed.

(** Two budgets, of whatever journals, dates and arguments: if in a month the same
    is earned, assigned and spent, in one commodity, the month's section is the
    same, whatever there is in other months, earlier ones included: nothing is
    carried over. *)
Theorem C125_month : forall c E O fs log E' O' fs' log' y m, sane_clock E -> orders E -> filters_for E (o_args O) fs ->
  sane_clock E' -> orders E' -> filters_for E' (o_args O') fs' ->
  r_status (budget_cmd E O) = SOk -> r_status (budget_cmd E' O') = SOk ->
  history E O fs 0 (fst (stream E O)) log -> history E' O' fs' 0 (fst (stream E' O')) log' ->
  Forall (in_one c) (month y m log) -> Forall (in_one c) (month y m log') -> same_moves (month y m log) (month y m log') ->
  month y m log <> [] ->
  exists b before after before' after', b <> [] /\
    hd [] b = four_digits y ++ lit "-" ++ two_digits m ++ lit "-01 00:00:00 +0000 UTC" ++ [10] /\
    r_out (budget_cmd E O) = before ++ b ++ after /\ r_out (budget_cmd E' O') = before' ++ b ++ after' /\
    exists cs, categories_of (month y m log) cs /\ b = month_heading y m (month y m log) ++ map (budget_line (month y m log)) cs ++ [[10]].
Proof.
  intros c E O fs log E' O' fs' log' y m C Or F C' Or' F' Ok Ok' H H' U U' S N.
  destruct (proj2 (C48_report E O fs C Or F) Ok) as (l & ms & bs & L & M & B & Q).
  destruct (proj2 (C48_report E' O' fs' C' Or' F') Ok') as (l' & ms' & bs' & L' & M' & B' & Q').
  pose proof (month_perm y m _ _ (history_same _ _ _ _ _ _ H _ L)) as P. pose proof (month_perm y m _ _ (history_same _ _ _ _ _ _ H' _ L')) as P'.
  assert (Nl : month y m l <> []) by (intro X; rewrite X in P; apply Permutation_sym, Permutation_nil in P; contradiction).
  assert (Nl' : month y m l' <> []).
  { intro X. rewrite X in P'. apply Permutation_sym, Permutation_nil in P'. apply N, (proj1 S), P'. }
  destruct (section_in l ms bs (objected [] l) y m M B Nl) as (b & X & before & after & R).
  destruct (section_in l' ms' bs' (objected [] l') y m M' B' Nl') as (b' & X' & before' & after' & R').
  rewrite <- Q in R. rewrite <- Q' in R'.
  assert (Sm : forall z z', Permutation z z' -> same_moves z z').
  { intros z z' Pz. assert (K : forall f, same_sum f z z').
    { intro f. split; [apply existsb_set; intro x; split; apply Permutation_in; [now symmetry|exact Pz]|]. rewrite (sum_of_perm f _ _ Pz), Z.sub_diag. reflexivity. }
    split; [|split; [apply K|intro q; split; apply K]].
    split; intros ->; [apply Permutation_sym in Pz|]; now apply Permutation_nil in Pz. }
  assert (Ex : exists w, month_block y m (month y m log) w).
  { pose proof X as [cs [Sc Ic]]. exists (month_heading y m (month y m log) ++ map (budget_line (month y m log)) cs ++ [[10]]). constructor. split; [exact Sc|].
    intro k. rewrite Ic. assert (Xe : existsb (concerns [k]) (month y m l) = existsb (concerns [k]) (month y m log)).
    { apply existsb_set. intro x. split; apply Permutation_in; [now symmetry|exact P]. }
    now rewrite Xe. }
  destruct Ex as (w & W).
  assert (b = w) as -> by (apply (block_same c y m (month y m log) (month y m l) w b U (Permutation_Forall P U) (Sm _ _ P) W X)).
  assert (b' = w) as ->.
  { assert (T : same_moves (month y m log) (month y m l')).
    { destruct S as (N1 & E1 & H1), (Sm _ _ P') as (N2 & E2 & H2).
      assert (T : forall f x y z, same_sum f x y -> same_sum f y z -> same_sum f x z).
      { intros f x1 y1 z1 [A0 B0] [A1 B1]. split; [congruence|]. unfold zero64 in *.
        replace (sum_of f z1 - sum_of f x1) with ((sum_of f z1 - sum_of f y1) + (sum_of f y1 - sum_of f x1)) by lia. rewrite Z.add_mod, B0, B1 by discriminate. reflexivity. }
      split; [now rewrite N2|]. split; [eapply T; eassumption|]. intro q. destruct (H1 q), (H2 q). split; eapply T; eassumption. }
    apply (block_same c y m (month y m log) (month y m l') w b' U (Permutation_Forall P' U') T W X'). }
  exists w, before, after, before', after'. destruct W as [cs Wc].
  split; [discriminate|]. split; [reflexivity|]. split; [exact R|]. split; [exact R'|]. exists cs. auto.
Qed.

(** ** Journals of different months one after the other *)

(** The month an entry is entered under. *)
Definition entry_month (e : event) : Z * Z :=
  match e with
  | ETxn t _ => (d_year (t_date t), d_month (t_date t))
  | EPer pt _ => (d_year (pe_start (pt_period pt)), d_month (pe_start (pt_period pt)))
  end.
Definition in_earlier_months (evs evs' : list event) : Prop := forall e e', In e evs -> In e' evs' ->
  let (y, m) := entry_month e in let (y', m') := entry_month e' in y < y' \/ y = y' /\ m < m'.

Lemma history_month : forall E O fs n evs log, history E O fs n evs log -> forall mv, In mv log ->
  exists e, In e evs /\ entry_month e = (d_year (mv_date mv), d_month (mv_date mv)).
Proof.
  intros E O fs n evs log H. induction H as [n|n pt p evs log H IH|n t p evs log W H IH|n t p ps evs log W Ht P Wh H IH]; intros mv I.
  - destruct I.
  - apply in_app_or in I as [I|I]; [|destruct (IH _ I) as (e & J & K); exists e; split; [now right|exact K]].
    unfold allocations in I. apply in_map_iff in I as (q & <- & _). exists (EPer pt p). split; [now left|reflexivity].
  - destruct (IH _ I) as (e & J & K). exists e. split; [now right|exact K].
  - apply in_app_or in I as [I|I]; [|destruct (IH _ I) as (e & J & K); exists e; split; [now right|exact K]].
    exists (ETxn t p). split; [now left|]. unfold activity in I. apply in_flat_map in I as (q & _ & I).
    destruct (list_str_dec _ _); [destruct I as [<-|[]]; reflexivity|]. destruct (list_str_dec _ _); [destruct I as [<-|[]]; reflexivity|destruct I].
Qed.

Lemma month_other : forall y m l, (forall mv, In mv l -> (d_year (mv_date mv), d_month (mv_date mv)) <> (y, m)) -> month y m l = [].
Proof.
  intros y m l H. unfold month. induction l as [|x l IH]; [reflexivity|]. cbn [filter]. unfold in_month at 1.
  destruct ((d_year (mv_date x) =? y) && (d_month (mv_date x) =? m)) eqn:Q; [|apply IH; intros mv I; apply H; now right].
  exfalso. apply andb_prop in Q as [Q1 Q2]. apply Z.eqb_eq in Q1, Q2. apply (H x (or_introl eq_refl)). congruence.
Qed.

Lemma sorted_app : forall (l l' : list (Z * Z)), StronglySorted month_lt l -> StronglySorted month_lt l' ->
  (forall a b, In a l -> In b l' -> month_lt a b) -> StronglySorted month_lt (l ++ l').
Proof.
  intros l l' S S' H. induction S as [|a l S IH F]; [exact S'|]. cbn [app]. constructor; [apply IH; intros; apply H; [now right|assumption]|].
  apply Forall_app. split; [exact F|]. apply Forall_forall. intros b I. apply H; [now left|exact I].
Qed.

Lemma months_apart : forall log1 log2 l1 l2 bs1 bs2,
  (forall a b, In a log1 -> In b log2 -> month_lt (d_year (mv_date a), d_month (mv_date a)) (d_year (mv_date b), d_month (mv_date b))) ->
  months_of log1 l1 -> months_of log2 l2 ->
  Forall2 (fun ym b => month_block (fst ym) (snd ym) (month (fst ym) (snd ym) log1) b) l1 bs1 ->
  Forall2 (fun ym b => month_block (fst ym) (snd ym) (month (fst ym) (snd ym) log2) b) l2 bs2 ->
  months_of (log1 ++ log2) (l1 ++ l2) /\
  Forall2 (fun ym b => month_block (fst ym) (snd ym) (month (fst ym) (snd ym) (log1 ++ log2)) b) (l1 ++ l2) (bs1 ++ bs2).
Proof.
  intros log1 log2 l1 l2 bs1 bs2 Ap [S1 I1] [S2 I2] F1 F2.
  assert (Lt : forall a b, In a l1 -> In b l2 -> month_lt a b).
  { intros [y m] [y' m'] A B. apply I1 in A as (u & A & <- & <-). apply I2 in B as (v & B & <- & <-). now apply Ap. }
  split.
  - split; [apply sorted_app; assumption|]. intros y m. rewrite in_app_iff, I1, I2. split.
    + intros [(u & A & B)|(u & A & B)]; exists u; (split; [apply in_or_app; auto|exact B]).
    + intros (u & A & B). apply in_app_or in A as [A|A]; [left|right]; eauto.
  - assert (Irr : forall a b : Z * Z, month_lt a b -> a = b -> False) by (unfold month_lt; intros a b L <-; lia).
    assert (X1 : forall ym, In ym l1 -> month (fst ym) (snd ym) (log1 ++ log2) = month (fst ym) (snd ym) log1).
    { intros [y m] A. cbn [fst snd]. unfold month. rewrite filter_app. fold (month y m log1). fold (month y m log2). rewrite (month_other y m log2), app_nil_r; [reflexivity|].
      intros mv B Q. apply I1 in A as (u & A & <- & <-). specialize (Ap u mv A B). rewrite Q in Ap. now apply (Irr _ _ Ap). }
    assert (X2 : forall ym, In ym l2 -> month (fst ym) (snd ym) (log1 ++ log2) = month (fst ym) (snd ym) log2).
    { intros [y m] A. cbn [fst snd]. unfold month. rewrite filter_app. fold (month y m log1). fold (month y m log2). rewrite (month_other y m log1); [reflexivity|].
      intros mv B Q. apply I2 in A as (u & A & <- & <-). specialize (Ap mv u B A). rewrite Q in Ap. now apply (Irr _ _ Ap). }
    assert (K : forall l bs log, (forall ym, In ym l -> month (fst ym) (snd ym) (log1 ++ log2) = month (fst ym) (snd ym) log) ->
      Forall2 (fun ym b => month_block (fst ym) (snd ym) (month (fst ym) (snd ym) log) b) l bs ->
      Forall2 (fun ym b => month_block (fst ym) (snd ym) (month (fst ym) (snd ym) (log1 ++ log2)) b) l bs).
    { intros l bs log X F. induction F as [|ym b l bs B F IH]; constructor; [rewrite X by (now left); exact B|]. apply IH. intros. apply X. now right. }
    apply Forall2_app; eapply K; eassumption.
Qed.

Lemma journal_in_app : forall c a b, journal_in c (a ++ b) -> journal_in c a /\ journal_in c b.
Proof. intros c a b [A B]. split; split; intros t p I; [apply (A t p)|apply (B t p)|apply (A t p)|apply (B t p)]; apply in_or_app; auto. Qed.

(** After a journal [a] another with entries of later months only, [b]: of both
    together the budget is that of [a] and then that of [b]. *)
Theorem C125_appended : forall E O p a b fs c, journal_path E O = Some p -> line_start a -> steady E ->
  sane_clock E -> orders E -> filters_for E (o_args O) fs ->
  let E1 := holding E p a in let E2 := holding E p b in let E3 := holding E p (a ++ LF :: b) in
  in_earlier_months (fst (stream E1 O)) (fst (stream E2 O)) ->
  r_status (budget_cmd E3 O) = SOk -> journal_in c (fst (stream E3 O)) ->
  exists said1 said2 said3 report1 report2, Forall remark (said1 ++ said2 ++ said3) /\
    r_out (budget_cmd E1 O) = said1 ++ report1 /\ r_out (budget_cmd E2 O) = said2 ++ report2 /\
    r_out (budget_cmd E3 O) = said3 ++ report1 ++ report2 /\
    (journal_flat (fst (stream E3 O)) -> said1 = [] /\ said2 = [] /\ said3 = []).
Proof.
  intros E O p a b fs c Path Start Steady Clock Or F E1 E2 E3 Early Ok J.
  destruct (C91_joined E O p a b Path Start Steady Clock Or fs F) as [St T]. fold E1 E2 E3 in St, T.
  destruct (T Ok) as (l1 & l2 & l3 & (ms1 & bs1 & H1 & M1 & B1 & Q1) & (ms2 & bs2 & H2 & M2 & B2 & Q2) & (ms3 & bs3 & H3 & M3 & B3 & Q3) & P & _).
  assert (F3 : filters_for E3 (o_args O) fs) by (apply holding_filters; exact F).
  destruct (proj1 (proj1 (C48_report E3 O fs Clock Or F3)) Ok) as [R (l & H & Pr)].
  assert (U3 : Forall (in_one c) l3).
  { eapply history_in; [exact H3|exact J|]. eapply Permutation_Forall; [exact (history_same _ _ _ _ _ _ H _ H3)|exact Pr]. }
  pose proof (Permutation_Forall P U3) as U12.
  assert (Ap : forall a0 b0, In a0 l1 -> In b0 l2 -> month_lt (d_year (mv_date a0), d_month (mv_date a0)) (d_year (mv_date b0), d_month (mv_date b0))).
  { intros u v A B. destruct (history_month _ _ _ _ _ _ H1 _ A) as (e & I & X). destruct (history_month _ _ _ _ _ _ H2 _ B) as (e' & I' & X').
    specialize (Early e e' I I'). rewrite X, X' in Early. exact Early. }
  destruct (months_apart l1 l2 ms1 ms2 bs1 bs2 Ap M1 M2 B1 B2) as [M12 B12].
  assert (bs3 = bs1 ++ bs2) as ->.
  { apply (report_months c (l1 ++ l2) l3 (ms1 ++ ms2) ms3 (bs1 ++ bs2) bs3 U12 U3); auto. apply moves_perm. now symmetry. }
  exists (objected [] l1), (objected [] l2), (objected [] l3), (concat bs1), (concat bs2).
  assert (Sy : forall post pre, Forall remark (objected pre post)).
  { assert (Ob : forall verb a b, Forall remark (objection verb a b)).
    { intros verb a0 b0. unfold objection. destruct (str_eqb a0 b0); [constructor|]. constructor; [exists verb, a0, b0; reflexivity|constructor]. }
    induction post as [|m post IH]; intro pre; [constructor|]. cbn [objected]. apply Forall_app. split; [|apply IH]. unfold objections.
    destruct (is_earn m); [apply Forall_app; auto|]. destruct (to_fund m); [apply Ob|].
    apply Forall_forall. intros s I. apply in_flat_map in I as (q & _ & I). exact (proj1 (Forall_forall _ _) (Ob _ _ _) s I). }
  split; [rewrite !Forall_app; auto|]. split; [exact Q1|]. split; [exact Q2|]. split; [rewrite Q3, concat_app; reflexivity|].
  intro Fl. pose proof (proj2 (joined_stream E O p a b Path Start) (proj1 R)) as Js. fold E1 E2 E3 in Js.
  apply Forall_app in U12 as [U1 U2].
  assert (Fl12 : journal_flat (fst (stream E1 O)) /\ journal_flat (fst (stream E2 O))).
  { rewrite Js in Fl. destruct Fl as [A B]. split; split; intros t q I; [apply (A t q)|apply (B t q)|apply (A t q)|apply (B t q)]; apply in_or_app; auto. }
  destruct Fl12 as [Fl1 Fl2].
  split; [exact (C64_quiet_partial c l1 U1 (history_flat _ _ _ _ _ _ H1 Fl1) (history_covered _ _ _ _ _ _ H1 Fl1))|].
  split; [exact (C64_quiet_partial c l2 U2 (history_flat _ _ _ _ _ _ H2 Fl2) (history_covered _ _ _ _ _ _ H2 Fl2))|].
  exact (C64_quiet_partial c l3 U3 (history_flat _ _ _ _ _ _ H3 Fl) (history_covered _ _ _ _ _ _ H3 Fl)).
Qed.

(** March's shopping after an assignment in February, of which nothing is left in
    March's section, and on its own. *)
Definition february_text : str := lit "~ 2021-02" ++ [10] ++ lit "  Food  $5" ++ [10] ++ lit "  Rent  $40" ++ [10] ++ [10]
  ++ lit "2021-02-05 D" ++ [10] ++ lit "  Expenses:Food  $1" ++ [10] ++ lit "  Income:Job" ++ [10].
Definition march_lines : list str := lines [lit "2021-03-01 00:00:00 +0000 UTC"; lit ""; 
    lit "                         Funds |                 0.00"; lit "          Overspent in 2020-?? |               £??.??";
    lit "                      Budgeted |               £??.??"; lit "        Budgeted in the future |               £??.??";
    lit "-----------------------------------------------------"; lit "                To be budgeted |               £??.??"; lit ""; lit "";
    lit "Category                       | Budgeted             | Activity             | Available            |"] ++
    [lit "--------------------------------------------------"; lit "---------------------------------------------------" ++ [10];
     lit "Food                           |                -2.00 |                 0.00 |               $-2.00 |" ++ [10]; [10]].
Definition entries_earlierb (evs evs' : list event) : bool :=
  forallb (fun e => forallb (fun e' => (fst (entry_month e) <? fst (entry_month e')) ||
    (fst (entry_month e) =? fst (entry_month e')) && (snd (entry_month e) <? snd (entry_month e'))) evs') evs.
Lemma entries_earlierb_ok : forall evs evs', entries_earlierb evs evs' = true -> in_earlier_months evs evs'.
Proof.
  intros evs evs' H e e' I I'. unfold entries_earlierb in H. rewrite forallb_forall in H. specialize (H e I). rewrite forallb_forall in H. specialize (H e' I').
  destruct (entry_month e) as [y m], (entry_month e') as [y' m']. cbn [fst snd] in H. lia.
Qed.
Definition inb (c : str) (e : event) : bool :=
  forallb (fun q => match po_amount q with Some _ => str_eqb (commodity_of q) c | None => true end)
    (t_postings match e with ETxn t _ => t | EPer pt _ => pt_txn pt end).
Lemma inb_ok : forall c evs, forallb (inb c) evs = true -> journal_in c evs.
Proof.
  intros c evs H. rewrite forallb_forall in H. split; intros t p I; specialize (H _ I); unfold inb in H; rewrite forallb_forall in H;
    apply Forall_forall; intros q J N; specialize (H q J); destruct (po_amount q); try contradiction; now apply str_eqb_eq.
Qed.

Example C125_example : let E := env1 [] in let O := opts_zero [] [] in let at_ x := holding E (lit "j") x in
  let both := february_text ++ LF :: spend_text in
  journal_path E O = Some (lit "j") /\ line_start february_text /\ steady E /\ sane_clock E /\ orders E /\ filters_for E (o_args O) [] /\
  in_earlier_months (fst (stream (at_ february_text) O)) (fst (stream (at_ spend_text) O)) /\
  r_status (budget_cmd (at_ both) O) = SOk /\ journal_in (lit "$") (fst (stream (at_ both) O)) /\ journal_flat (fst (stream (at_ both) O)) /\
  r_out (budget_cmd (at_ spend_text) O) = march_lines /\
  length (r_out (budget_cmd (at_ february_text) O)) = 16%nat /\
  r_out (budget_cmd (at_ both) O) = r_out (budget_cmd (at_ february_text) O) ++ march_lines.
Proof.
  cbn zeta. split; [reflexivity|]. split; [right; eexists; unfold february_text; rewrite !app_assoc; reflexivity|]. split; [intro n; split; reflexivity|].
  split; [apply env1_clock|]. split; [apply env1_orders|]. split; [apply makeFilters_spec; reflexivity|].
  split; [apply entries_earlierb_ok; vm_compute; reflexivity|]. split; [vm_compute; reflexivity|]. split; [apply inb_ok; vm_compute; reflexivity|].
  split; [apply flatb_ok; vm_compute; reflexivity|]. split; [vm_compute; reflexivity|]. split; vm_compute; reflexivity.
Qed.

(** The hypotheses of [C125_month] for the same two journals. *)
Example C125_month_example : let O := opts_zero [] [] in let E := holding (env1 []) (lit "j") (february_text ++ LF :: spend_text) in
  let E' := holding (env1 []) (lit "j") spend_text in
  exists log log', history E O [] 0 (fst (stream E O)) log /\ history E' O [] 0 (fst (stream E' O)) log' /\
    length log = 6%nat /\ length log' = 1%nat /\
    Forall (in_one (lit "$")) (month 2021 3 log) /\ Forall (in_one (lit "$")) (month 2021 3 log') /\
    same_moves (month 2021 3 log) (month 2021 3 log') /\ month 2021 3 log <> [].
Proof.
  cbn zeta. do 2 eexists. split; [apply computed_history; [apply env1_clock|apply no_flags; reflexivity]|].
  split; [apply computed_history; [apply env1_clock|apply no_flags; reflexivity]|].
  assert (U : forall log, forallb (fun m => str_eqb (commodity_of (mv_posting m)) (lit "$")) log = true -> Forall (in_one (lit "$")) log).
  { intros log H. rewrite forallb_forall in H. apply Forall_forall. intros m I. now apply str_eqb_eq, H. }
  split; [vm_compute; reflexivity|]. split; [vm_compute; reflexivity|]. split; [apply U; vm_compute; reflexivity|]. split; [apply U; vm_compute; reflexivity|].
  split; [apply same_movesb_ok; vm_compute; reflexivity|]. vm_compute. discriminate.
Qed.
