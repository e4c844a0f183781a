(** * C121: the budget of what print prints *)
From Verif Require Import Base BaseFacts Utf8 Unicode GoTime Strconv Display Journal JournalFacts Lexer Parser ParserFacts Account Reporting Budget Cmd Spec TextSpec
  TreeSpec ReportSpec CmdSpec CmdFacts FlatSpec Sample PropsCmd PropsBalance PropsPrint PropsReread PropsAgain BudgetSpec BudgetFacts PropsBudget PropsConcat PropsJoin PropsJoinMore PropsMonths.

(** What a move is but for the comments of its posting. *)
Definition barely (m : move) : move := Move (mv_type m) (mv_date m) (plainly (mv_posting m)).

Lemma sum_of_barely : forall f ms, (forall m, f (barely m) = f m) -> sum_of f (map barely ms) = sum_of f ms.
Proof. intros f ms H. induction ms as [|m ms IH]; [reflexivity|]. cbn [map]. now rewrite !sum_of_cons, IH, H. Qed.
Lemma existsb_barely : forall f ms, (forall m, f (barely m) = f m) -> existsb f (map barely ms) = existsb f ms.
Proof. intros f ms H. induction ms as [|m ms IH]; [reflexivity|]. cbn [map existsb]. now rewrite IH, H. Qed.
Lemma month_barely : forall y m ms, month y m (map barely ms) = map barely (month y m ms).
Proof. intros y m ms. unfold month. induction ms as [|x ms IH]; [reflexivity|]. cbn [map filter]. change (in_month y m (barely x)) with (in_month y m x). rewrite IH. now destruct (in_month y m x). Qed.
Lemma same_barely : forall log, same_months log (map barely log).
Proof.
  intros log y m. rewrite month_barely. set (ms := month y m log).
  assert (K : forall f, (forall x, f (barely x) = f x) -> same_sum f ms (map barely ms)).
  { intros f H. split; [now apply existsb_barely|]. rewrite sum_of_barely, Z.sub_diag by exact H. reflexivity. }
  split; [destruct ms; cbn; split; congruence|]. split; [apply K; reflexivity|]. intro q. split; apply K; reflexivity.
Qed.

(** The activity of the transactions picked is what the budget takes from them. *)
Lemma history_picked : forall E O n evs log, history E O [] n evs log -> forall sel, picks E O [] (txns n evs) sel ->
  filter (fun m => negb (is_assign m)) log = flat_map (fun t => activity t (t_postings t)) (selected sel).
Proof.
  intros E O n evs log H. induction H as [n|n pt p evs log H IH|n t p evs log W H IH|n t p ps evs log W Ht P Wh H IH]; intros sel Pk; cbn [txns] in Pk.
  - inversion Pk. reflexivity.
  - rewrite filter_app, (IH _ Pk). unfold allocations. induction (t_postings (pt_txn pt)) as [|q l IHl]; [reflexivity|exact IHl].
  - inversion Pk as [|? ? ? No Q|? ? ? ps W' Hi Pm Wh Q]; subst; [now apply IH|]. destruct W as [W|W]; [contradiction|discriminate].
  - inversion Pk as [|? ? ? No Q|? ? ? ps' W' Hi Pm Wh' Q]; subst; [destruct No as [No|No]; [contradiction|discriminate]|].
    rewrite filter_app, (IH _ Q). unfold selected. cbn [map flat_map fst u_txn]. rewrite (Wh (or_introl eq_refl)). f_equal. clear.
    unfold activity. induction (t_postings t) as [|q l IHl]; [reflexivity|]. cbn [flat_map]. rewrite filter_app, IHl. f_equal.
    destruct (list_str_dec _ _); [reflexivity|]. destruct (list_str_dec _ _); reflexivity.
Qed.
Lemma history_plain : forall E O p ts n, plain O -> Forall (fun t => 0 <= instant (t_date t)) ts ->
  history E O [] n (map (fun t => ETxn t p) ts) (flat_map (fun t => activity t (t_postings t)) ts).
Proof.
  intros E O p ts n Pl F. revert n. induction F as [|t ts H F IH]; intro n; [constructor|]. cbn [map flat_map].
  apply HistTxn; [now apply plain_within|reflexivity|reflexivity|reflexivity|apply IH].
Qed.
Lemma reread_activity : forall ts ts', Forall2 reread ts ts' ->
  map barely (flat_map (fun t => activity t (t_postings t)) ts') = map barely (flat_map (fun t => activity t (t_postings t)) ts).
Proof.
  intros ts ts' H. induction H as [|t t' ts ts' [D _ _ _ _ _ R] _ IH]; [reflexivity|]. cbn [flat_map]. rewrite !map_app, IH. f_equal. unfold activity. rewrite D.
  induction R as [|p p' ps ps' (A & B & _) _ IHp]; [reflexivity|]. cbn [flat_map]. rewrite !map_app, IHp. f_equal.
  assert (X : components p' = components p) by (unfold components; now rewrite A). rewrite X.
  assert (Y : plainly p' = plainly p) by (unfold plainly; now rewrite A, B).
  destruct (list_str_dec _ _); [cbn; unfold barely; cbn; now rewrite Y|]. destruct (list_str_dec _ _); [cbn; unfold barely; cbn; now rewrite Y|reflexivity].
Qed.

(** What is read back, and under which name. *)
Lemma reprinted_at : forall E O fs sel E' O' ts, picks E O fs (txns 0 (fst (stream E O))) sel -> Permutation ts (selected sel) ->
  Forall legible (selected sel) -> e_unicode E' = e_unicode E -> reads E' O' (concat (lines (map transaction_string ts))) ->
  exists p ts', journal_path E' O' = Some p /\ Forall2 reread ts ts' /\ stream E' O' = (map (fun t => ETxn t p) ts', SOk).
Proof.
  intros E O fs sel E' O' ts P Pm R U (p & J & F). exists p.
  assert (X : exists ts', Forall2 reread ts ts' /\ stream E' O' = (map (fun t => ETxn t p) ts', SOk)); [|destruct X as (ts' & X); exists ts'; auto].
  unfold stream. rewrite J, F, U. apply C43_exactly_partial.
  - apply Forall_forall. intros t I. eapply delivered_selected; [exact P|]. eapply Permutation_in; eauto.
  - eapply Permutation_Forall; [symmetry; exact Pm|exact R].
Qed.

Section Printed.
Variables E E' : env.
Variables O O' : opts.
Variable sel : list (used * list posting).
Variable out : list str.
Hypothesis Clock : sane_clock E.
Hypothesis Orders : orders E.
Hypothesis Sorts : sorts E.
Hypothesis NoArgs : o_args O = [].
Hypothesis Picked : picks E O [] (txns 0 (fst (stream E O))) sel.
Hypothesis Printed : print_cmd E O = Outcome out SOk.
Hypothesis Legible : Forall legible (selected sel).
Hypothesis Dated : Forall (fun t => 0 <= instant (t_date t)) (selected sel).
Hypothesis Clock' : sane_clock E'.
Hypothesis Orders' : orders E'.
Hypothesis SameUnicode : e_unicode E' = e_unicode E.
Hypothesis Plain : plain O'.
Hypothesis Reads : reads E' O' (concat out).

Lemma printed_history : exists p ts ts', (journal_path E' O' = Some p /\ Permutation ts (selected sel)) /\ Forall2 reread ts ts' /\
  stream E' O' = (map (fun t => ETxn t p) ts', SOk) /\ filters_for E (o_args O) [] /\ filters_for E' (o_args O') [] /\ CmdSpec.readable E' O' /\
  history E' O' [] 0 (fst (stream E' O')) (flat_map (fun t => activity t (t_postings t)) ts').
Proof.
  assert (F : filters_for E (o_args O) []) by (rewrite NoArgs; split; constructor).
  pose proof (print_ok E O [] Clock Orders F (f_equal r_status Printed)) as Re.
  destruct (C42_print E O [] Clock Orders Sorts F) as [K _]. destruct (K Re) as (sel0 & ts & P0 & Pm & S & Q0).
  rewrite Printed in Q0. inversion Q0 as [Q1]. rewrite (picks_selected _ _ _ _ _ _ P0 Picked) in Pm.
  pose proof Reads as Rd. rewrite Q1 in Rd.
  destruct (reprinted_at E O [] sel E' O' ts Picked Pm Legible SameUnicode Rd) as (p & ts2 & Jp & Rr & St).
  pose proof (readable_plain _ _ _ Plain St) as Re'.
  assert (F' : filters_for E' (o_args O') []) by (destruct Plain as (_ & _ & _ & ->); split; constructor).
  assert (Y' : Forall (fun t => 0 <= instant (t_date t)) ts2).
  { apply (reread_dated (fun d => 0 <= instant d) _ _ Rr). eapply Permutation_Forall; [symmetry; exact Pm|exact Dated]. }
  exists p, ts, ts2. split; [split; [exact Jp|exact Pm]|]. split; [exact Rr|]. split; [exact St|]. split; [exact F|]. split; [exact F'|]. split; [exact Re'|].
  rewrite St. cbn [fst]. now apply history_plain.
Qed.

Lemma printed_moves : forall log log', history E O [] 0 (fst (stream E O)) log -> history E' O' [] 0 (fst (stream E' O')) log' ->
  Permutation (map barely log') (map barely (filter (fun m => negb (is_assign m)) log)).
Proof.
  intros log log' H H'. destruct printed_history as (p & ts & ts' & [Jp Pm] & Rr & St & _ & _ & _ & Hs).
  rewrite (history_picked _ _ _ _ _ H _ Picked). rewrite (Permutation_map barely (history_same _ _ _ _ _ _ H' _ Hs)), (reread_activity _ _ Rr).
  apply Permutation_map, flat_map_perm, Pm.
Qed.

Lemma printed_budget : r_status (budget_cmd E O) = SOk ->
  r_status (budget_cmd E' O') = SOk /\
  exists log log', budget_tells E O [] log /\ budget_tells E' O' [] log' /\ Forall (fun m => is_assign m = false) log' /\
    forall y m, earned (month y m log') = earned (month y m log) /\
      forall q, spent q (month y m log') = spent q (month y m log) /\ assigned q (month y m log') = 0.
Proof.
  intro Ok. destruct printed_history as (p & ts & ts' & [Jp Pm] & Rr & St & F & F' & Re' & Hs).
  destruct (C48_report E O [] Clock Orders F) as [A B]. destruct (C48_report E' O' [] Clock' Orders' F') as [A' B'].
  destruct (proj1 A Ok) as [Re (log0 & H0 & Pr0)].
  assert (Ok' : r_status (budget_cmd E' O') = SOk).
  { apply A'. split; [exact Re'|]. eexists. split; [exact Hs|]. pose proof (printed_moves _ _ H0 Hs) as P.
    assert (X : Forall (fun m => po_amount (mv_posting m) <> None /\ category m <> []) (map barely (filter (fun m => negb (is_assign m)) log0))).
    { apply Forall_map. apply Forall_forall. intros m I. apply filter_In in I as [I _]. rewrite Forall_forall in Pr0. exact (Pr0 m I). }
    apply (Permutation_Forall (Permutation_sym P)) in X. rewrite Forall_map in X. exact X. }
  split; [exact Ok'|]. destruct (B Ok) as (log & l & bs & H & T). destruct (B' Ok') as (log' & l' & bs' & H' & T').
  exists log, log'. split; [exists l, bs; auto|]. split; [exists l', bs'; auto|].
  pose proof (printed_moves _ _ H H') as P.
  assert (N : Forall (fun m => is_assign m = false) log').
  { assert (X : Forall (fun m => is_assign m = false) (map barely (filter (fun m => negb (is_assign m)) log))).
    { apply Forall_map. apply Forall_forall. intros m I. apply filter_In in I as [_ I]. now apply negb_true_iff in I. }
    apply (Permutation_Forall (Permutation_sym P)) in X. rewrite Forall_map in X. exact X. }
  split; [exact N|]. intros y m.
  assert (K : forall f, (forall x, f (barely x) = f x) -> (forall x, is_assign x = true -> f x = false) ->
    sum_of f (month y m log') = sum_of f (month y m log)).
  { intros f Hf Hn. rewrite <- (sum_of_barely f (month y m log')) by exact Hf. rewrite <- month_barely.
    assert (Q : Permutation (month y m (map barely log')) (month y m (map barely (filter (fun m => negb (is_assign m)) log)))) by (now apply month_perm).
    rewrite (sum_of_perm f _ _ Q), month_barely, sum_of_barely by exact Hf. clear - Hn. unfold month.
    induction log as [|x log IH]; [reflexivity|]. cbn [filter]. destruct (is_assign x) eqn:Ax; cbn [negb filter]; destruct (in_month y m x); rewrite ?sum_of_cons, ?IH; auto.
    rewrite (Hn x Ax). lia. }
  split; [apply K; [reflexivity|]; intros x Ax; unfold is_assign in Ax; unfold is_earn; now destruct (mv_type x)|].
  intro q. split; [apply K; [reflexivity|]; intros x Ax; unfold is_assign in Ax; unfold is_spend; now destruct (mv_type x)|].
  unfold assigned, sum_of, month. clear - N. induction N as [|x log' Hx N IH]; [reflexivity|]. cbn [filter]. destruct (in_month y m x); [|exact IH]. cbn [filter]. rewrite Hx. exact IH.
Qed.

Lemma printed_same : forall c, r_status (budget_cmd E O) = SOk ->
  (forall pt p, ~ In (EPer pt p) (fst (stream E O))) -> journal_in c (fst (stream E O)) ->
  (exists said said' report, Forall remark (said ++ said') /\ r_out (budget_cmd E O) = said ++ report /\ r_out (budget_cmd E' O') = said' ++ report) /\
  (journal_flat (fst (stream E O)) -> budget_cmd E' O' = budget_cmd E O).
Proof.
  intros c Ok None_ J. destruct (printed_budget Ok) as [Ok' _].
  destruct printed_history as (p & ts & ts' & [Jp Pm] & Rr & St & F & F' & Re' & Hs).
  destruct (proj1 (proj1 (C48_report E O [] Clock Orders F)) Ok) as [Re (log & H & Pr)].
  assert (NA : filter (fun m => negb (is_assign m)) log = log).
  { assert (X : Forall (fun m => is_assign m = false) log).
    { apply Forall_forall. intros m I. destruct (history_posted _ _ _ _ _ _ H m I) as [(t & q & _ & _ & [[X _]|X])|(pt & q & X & _)]; [unfold is_assign; now rewrite X..|].
      exfalso. exact (None_ _ _ X). }
    clear - X. induction X as [|m log Hm X IH]; [reflexivity|]. cbn [filter]. rewrite Hm. cbn [negb]. now rewrite IH. }
  pose proof (printed_moves _ _ H Hs) as P. rewrite NA in P. set (log' := flat_map _ ts') in *.
  pose proof (history_in c _ _ _ _ _ _ H J Pr) as U.
  assert (U' : Forall (in_one c) log').
  { assert (X : Forall (in_one c) (map barely log)) by (apply Forall_map; exact U). apply (Permutation_Forall (Permutation_sym P)) in X. rewrite Forall_map in X. exact X. }
  assert (S : same_months log log').
  { eapply same_months_trans; [apply same_barely|]. eapply same_months_trans; [apply moves_perm; symmetry; exact P|].
    intros y m. destruct (same_barely log' y m) as (A & [B1 B2] & C).
    assert (Sy : forall f a b, same_sum f a b -> same_sum f b a).
    { intros f a b [X Y]. split; [congruence|]. unfold zero64 in *. replace (sum_of f a - sum_of f b) with (- (sum_of f b - sum_of f a)) by lia. now apply Z_mod_zero_opp_full. }
    split; [now symmetry|]. split; [apply Sy; split; assumption|]. intro q. destruct (C q). split; now apply Sy. }
  destruct (C120_sums c E O [] log E' O' [] log' Clock Orders F Clock' Orders' F' Ok Ok' H Hs U U' S) as [A B].
  split; [exact A|]. intros [Fl _]. apply B; [split; [exact Fl|intros pt q I; exfalso; exact (None_ _ _ I)]|].
  rewrite St. cbn [fst]. split; [|intros pt q I; apply in_map_iff in I as (? & X & _); discriminate].
  intros t' q I. apply in_map_iff in I as (t2 & X & I). injection X as -> <-. destruct (proj2 (reread_in _ _ Rr) _ I) as (t & It & R).
  assert (Is : In t (selected sel)) by (eapply Permutation_in; eauto). apply in_map_iff in Is as ([u ps] & <- & Is). apply (picks_in _ _ _ _ _ _ _ Picked) in Is as (Is & _).
  apply txns_in in Is. specialize (Fl _ _ Is). destruct R as [_ _ _ _ _ _ R]. cbn [fst] in *.
  revert Fl. induction R as [|a a' l l' (Ra & _) _ IHr]; intro Fl; [constructor|]. inversion_clear Fl. constructor; [|auto].
  assert (X : components a' = components a) by (unfold components; now rewrite Ra). now rewrite X.
Qed.
End Printed.

(** Budget entries are not printed: nothing is assigned in the budget of what is
    printed; what is earned and spent in each month is kept, and no failure is
    added. *)
Theorem C121_earned_and_spent_partial : forall E O sel out E' O', sane_clock E -> orders E -> sorts E -> o_args O = [] ->
  picks E O [] (txns 0 (fst (stream E O))) sel -> print_cmd E O = Outcome out SOk ->
  Forall legible (selected sel) -> Forall (fun t => 0 <= instant (t_date t)) (selected sel) ->
  sane_clock E' -> orders E' -> e_unicode E' = e_unicode E -> plain O' -> reads E' O' (concat out) ->
  r_status (budget_cmd E O) = SOk ->
  r_status (budget_cmd E' O') = SOk /\
  exists log log', budget_tells E O [] log /\ budget_tells E' O' [] log' /\ Forall (fun m => is_assign m = false) log' /\
    forall y m, earned (month y m log') = earned (month y m log) /\
      forall q, spent q (month y m log') = spent q (month y m log) /\ assigned q (month y m log') = 0.
Proof. intros. eapply printed_budget; eauto. Qed.

(** Without budget entries, in one commodity, the reports are the same but for
    remarks, and the same in every byte when no category has a parent. *)
Theorem C121_no_entries_partial : forall c E O sel out E' O', sane_clock E -> orders E -> sorts E -> o_args O = [] ->
  picks E O [] (txns 0 (fst (stream E O))) sel -> print_cmd E O = Outcome out SOk ->
  Forall legible (selected sel) -> Forall (fun t => 0 <= instant (t_date t)) (selected sel) ->
  sane_clock E' -> orders E' -> e_unicode E' = e_unicode E -> plain O' -> reads E' O' (concat out) ->
  r_status (budget_cmd E O) = SOk ->
  (forall pt p, ~ In (EPer pt p) (fst (stream E O))) -> journal_in c (fst (stream E O)) ->
  (exists said said' report, Forall remark (said ++ said') /\ r_out (budget_cmd E O) = said ++ report /\ r_out (budget_cmd E' O') = said' ++ report) /\
  (journal_flat (fst (stream E O)) -> budget_cmd E' O' = budget_cmd E O).
Proof. intros. eapply printed_same; eauto. Qed.

(** The journal of C48's example: its assignments are gone once it is printed. *)
Theorem C121_entries_refuted : let E := env1 [(lit "j", text_budget)] in let E' := env1 [(lit "j", print_text text_budget)] in let O := opts0 "j" in
  r_status (print_cmd E O) = SOk /\ reads E' O (concat (r_out (print_cmd E O))) /\ Forall legible (txns_of text_budget) /\
  r_status (budget_cmd E O) = SOk /\ r_status (budget_cmd E' O) = SOk /\ r_out (budget_cmd E' O) <> r_out (budget_cmd E O).
Proof.
  cbn zeta. split; [vm_compute; reflexivity|]. split; [exists (lit "j"); split; vm_compute; reflexivity|]. split; [apply legibleb_ok; vm_compute; reflexivity|].
  split; [vm_compute; reflexivity|]. split; [vm_compute; reflexivity|]. vm_compute. discriminate.
Qed.

(** What C121_earned_and_spent_partial asks for, of that journal. *)
Example C121_example : let E := env1 [(lit "j", text_budget)] in let E' := env1 [(lit "j", print_text text_budget)] in let O := opts0 "j" in
  exists sel, sane_clock E /\ orders E /\ sorts E /\ o_args O = [] /\ picks E O [] (txns 0 (fst (stream E O))) sel /\ length sel = 5%nat /\
  print_cmd E O = Outcome (r_out (print_cmd E O)) SOk /\ Forall legible (selected sel) /\ Forall (fun t => 0 <= instant (t_date t)) (selected sel) /\
  sane_clock E' /\ orders E' /\ plain O /\ reads E' O (concat (r_out (print_cmd E O))) /\ r_status (budget_cmd E O) = SOk.
Proof.
  cbn zeta. set (us := txns 0 (fst (stream (env1 [(lit "j", text_budget)]) (opts0 "j")))). vm_compute in us.
  exists (map (fun u => (u, t_postings (u_txn u))) us). split; [apply env1_clock|]. split; [apply env1_orders|]. split; [exact (env0_sorts [])|]. split; [reflexivity|].
  split; [|split; [reflexivity|split; [vm_compute; reflexivity|split; [apply legibleb_ok; vm_compute; reflexivity|split]]]].
  - subst us. cbn [map]. repeat (apply PickIt; [apply plain_within; [apply plain0|vm_compute; discriminate]|reflexivity|reflexivity|reflexivity|]). apply PickNone.
  - subst us. repeat (constructor; [vm_compute; discriminate|]). constructor.
  - split; [apply env1_clock|]. split; [apply env1_orders|]. split; [apply plain0|]. split; [exists (lit "j"); split; vm_compute; reflexivity|vm_compute; reflexivity].
Qed.

(** A journal without budget entries, out of order. *)
Definition text_loose : str :=
  lit "2020-11-20 Market ; a note" ++ [10] ++ lit "    Expenses:Groceries    £12.50" ++ [10] ++ lit "    Assets:Cash" ++ [10; 10] ++
  lit "2020-10-01 Salary" ++ [10] ++ lit "    Assets:Current    £100" ++ [10] ++ lit "    Income:Job    £-60" ++ [10] ++ lit "    Income:Other" ++ [10; 10] ++
  lit "2020-10-05 Clothes" ++ [10] ++ lit "    Expenses:Clothing    £40.00" ++ [10] ++ lit "    Assets:Cash" ++ [10].
Example C121_no_entries_example : let E := env1 [(lit "j", text_loose)] in let E' := env1 [(lit "j", print_text text_loose)] in let O := opts0 "j" in
  exists sel, sane_clock E /\ orders E /\ sorts E /\ o_args O = [] /\ picks E O [] (txns 0 (fst (stream E O))) sel /\ length sel = 3%nat /\
  print_cmd E O = Outcome (r_out (print_cmd E O)) SOk /\ Forall legible (selected sel) /\ Forall (fun t => 0 <= instant (t_date t)) (selected sel) /\
  sane_clock E' /\ orders E' /\ plain O /\ reads E' O (concat (r_out (print_cmd E O))) /\ r_status (budget_cmd E O) = SOk /\
  (forall pt p, ~ In (EPer pt p) (fst (stream E O))) /\ journal_in (lit "£") (fst (stream E O)) /\ journal_flat (fst (stream E O)) /\
  print_text text_loose <> text_loose /\ length (r_out (budget_cmd E O)) = 30%nat.
Proof.
  cbn zeta. set (us := txns 0 (fst (stream (env1 [(lit "j", text_loose)]) (opts0 "j")))). vm_compute in us.
  exists (map (fun u => (u, t_postings (u_txn u))) us). split; [apply env1_clock|]. split; [apply env1_orders|]. split; [exact (env0_sorts [])|]. split; [reflexivity|].
  split; [|split; [reflexivity|split; [vm_compute; reflexivity|split; [apply legibleb_ok; vm_compute; reflexivity|split]]]].
  - subst us. cbn [map]. repeat (apply PickIt; [apply plain_within; [apply plain0|vm_compute; discriminate]|reflexivity|reflexivity|reflexivity|]). apply PickNone.
  - subst us. repeat (constructor; [vm_compute; discriminate|]). constructor.
  - split; [apply env1_clock|]. split; [apply env1_orders|]. split; [apply plain0|]. split; [exists (lit "j"); split; vm_compute; reflexivity|]. split; [vm_compute; reflexivity|].
    assert (J : forall evs, forallb (fun e => forallb (fun q => str_eqb (commodity_of q) (lit "£")) (match e with ETxn t _ => t_postings t | EPer pt _ => t_postings (pt_txn pt) end)) evs = true -> journal_in (lit "£") evs).
    { intros evs J1. rewrite forallb_forall in J1.
      split; intros t p I; apply Forall_forall; intros q J _; specialize (J1 _ I); cbv beta iota in J1; rewrite forallb_forall in J1; now apply str_eqb_eq, J1. }
    assert (L : forall evs, forallb (fun e => match e with ETxn _ _ => true | EPer _ _ => false end) evs = true -> forall pt p, ~ In (EPer pt p) evs).
    { intros evs L pt p I. rewrite forallb_forall in L. discriminate (L _ I). }
    split; [apply L; vm_compute; reflexivity|]. split; [apply J; vm_compute; reflexivity|]. split; [apply flatb_ok; vm_compute; reflexivity|].
    split; [vm_compute; discriminate|vm_compute; reflexivity].
Qed.

(** ** C60, of the report: what is not a budget entry comes from a transaction
    within the dates asked for. *)
Theorem C60_report_partial : forall E O fs, sane_clock E -> orders E -> filters_for E (o_args O) fs -> r_status (budget_cmd E O) = SOk ->
  exists log, budget_tells E O fs log /\ forall m, In m log -> is_assign m = false ->
    exists u, In u (txns 0 (fst (stream E O))) /\ mv_date m = t_date (u_txn u) /\ within E O (u_n u) (mv_date m) /\ In (mv_posting m) (t_postings (u_txn u)).
Proof.
  intros E O fs C Or F Ok. destruct (proj2 (C48_report E O fs C Or F) Ok) as (log & l & bs & H & M). exists log. split; [exists l, bs; auto|].
  intros m I A. exact (C60_transactions_partial E O fs 0 _ log m H I A).
Qed.
