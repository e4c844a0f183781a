(** * Runs of the budget command *)
From Verif Require Import Base BaseFacts Utf8 GoTime Strconv Display Journal Parser ParserFacts Account Reporting Budget Cmd Spec JournalFacts TextSpec DateFacts
  TreeSpec TreeFacts ReportSpec ReportFacts CalendarFacts CmdSpec StreamFacts CmdFacts PropsStats BankFacts BudgetSpec BudgetFacts.

Definition first_of (d : date) : date := Date (d_year d) (d_month d) 1.
Lemma normalise_first : forall d, normaliseToMonth d = first_of d.
Proof. intros [y m d]. unfold normaliseToMonth, first_of. cbn. f_equal. lia. Qed.

Record kept (log : list move) (b : budget) : Prop := {
  k_nodup : NoDup (map fst b);
  k_keys : forall k, In k (map fst b) <-> exists mv, In mv log /\ k = first_of (mv_date mv);
  k_month : forall y m, month_built (month y m log) (month_of b (Date y m 1)) }.

Lemma kept_new : kept [] newBudget.
Proof. split; [constructor| |intros; exact month_new]. intro k. split; [intros []|intros (? & [] & _)]. Qed.

Lemma proper_enterable : forall pt d p, proper (Move pt d p) <-> enterable pt p.
Proof.
  intros pt d p. unfold proper, enterable, category. cbn. destruct pt; cbn.
  - split; intros [A B]; split; auto; [discriminate|apply split_nonempty].
  - split; intros [A B]; split; auto.
  - split; intros [A B]; split; auto; [discriminate|apply split_nonempty].
Qed.

Lemma month_snoc : forall y m log mv, month y m (log ++ [mv]) = month y m log ++ if in_month y m mv then [mv] else [].
Proof. intros. unfold month. rewrite filter_app. cbn. now destruct (in_month y m mv). Qed.

Lemma add_step : forall log b d p pt b' out, kept log b -> b_addPosting b d p pt = Some (b', out) ->
  kept (log ++ [Move pt d p]) b' /\ out = objections (month (d_year d) (d_month d) log) (Move pt d p).
Proof.
  intros log b d p pt b' out [K1 K2 K3] H.
  assert (S : exists bm, b' = assoc_set date_eqb (first_of d) bm b /\ month_built (month (d_year d) (d_month d) log ++ [Move pt d p]) bm /\
    out = objections (month (d_year d) (d_month d) log) (Move pt d p)).
  { unfold b_addPosting in H. rewrite normalise_first in H. destruct pt.
    - apply (entry_step b (first_of d)); [discriminate|apply K3|exact H].
    - apply (entry_step b (first_of d)); [discriminate|apply K3|exact H].
    - apply (income_step b (first_of d)); [apply K3|exact H]. }
  destruct S as (bm & -> & M & ->). split; [|reflexivity]. split.
  - apply nodup_assoc_set; [apply date_eqb_eq|exact K1].
  - intro k. rewrite in_assoc_set_keys by apply date_eqb_eq. rewrite K2. split.
    + intros [->|(mv & I & ->)]; [exists (Move pt d p)|exists mv]; rewrite in_app_iff; cbn; auto.
    + intros (mv & I & ->). apply in_app_or in I as [I|[<-|[]]]; [right; eauto|left; reflexivity].
  - intros y m. rewrite month_snoc. unfold in_month. cbn [mv_date]. unfold month_of.
    destruct ((d_year d =? y) && (d_month d =? m)) eqn:Q.
    + apply andb_true_iff in Q as [Q1 Q2]. apply Z.eqb_eq in Q1, Q2. subst y m.
      change (Date (d_year d) (d_month d) 1) with (first_of d). rewrite assoc_set_same by apply date_eqb_eq. exact M.
    + rewrite assoc_set_other; [|apply date_eqb_eq|].
      * rewrite app_nil_r. apply K3.
      * unfold first_of. intro X. injection X as X1 X2. rewrite X1, X2, !Z.eqb_refl in Q. discriminate.
Qed.

Lemma objected_app : forall ms before ms', objected before (ms ++ ms') = objected before ms ++ objected (before ++ ms) ms'.
Proof.
  induction ms as [|m ms IH]; intros before ms'; cbn; [now rewrite app_nil_r|]. rewrite IH, <- !app_assoc. reflexivity.
Qed.

Definition moves (ty : posting -> option postingType) (d : date) (ps : list posting) : list move :=
  flat_map (fun p => match ty p with Some t => [Move t d p] | None => [] end) ps.

Lemma adds_step : forall ty d ps log b b' out, kept log b -> b_addPostings ty b d ps = (b', out, SOk) ->
  kept (log ++ moves ty d ps) b' /\ out = objected log (moves ty d ps) /\ Forall proper (moves ty d ps).
Proof.
  intros ty d. induction ps as [|p ps IH]; intros log b b' out K H; cbn [b_addPostings] in H; unfold moves in *; cbn [flat_map].
  - injection H as <- <-. rewrite app_nil_r. auto.
  - destruct (ty p) as [t|]; [|cbn [app]; eapply IH; eauto].
    destruct (b_addPosting b d p t) as [[b1 o]|] eqn:A; [|discriminate].
    destruct (b_addPostings ty b1 d ps) as [[b2 o2] r] eqn:B. injection H as <- <- ->.
    destruct (add_step _ _ _ _ _ _ _ K A) as [K1 O1]. destruct (IH _ _ _ _ K1 B) as (K2 & O2 & P2).
    rewrite <- app_assoc in K2. split; [exact K2|]. split.
    + cbn [app objected mv_date]. now rewrite O1, O2.
    + constructor; [|exact P2]. apply proper_enterable. eapply add_enterable; eauto.
Qed.

Lemma adds_total : forall ty d ps log b, kept log b -> Forall proper (moves ty d ps) ->
  exists b' out, b_addPostings ty b d ps = (b', out, SOk).
Proof.
  intros ty d. induction ps as [|p ps IH]; intros log b K P; cbn [b_addPostings]; [eauto|]. unfold moves in P. cbn [flat_map] in P.
  destruct (ty p) as [t|]; [|eapply IH; eauto]. inversion P as [|? ? P1 P2]; subst. apply proper_enterable in P1.
  destruct (add_total b d p t (month (d_year d) (d_month d) log) P1) as (b1 & o & A).
  { rewrite normalise_first. apply (k_month _ _ K). }
  rewrite A. destruct (add_step _ _ _ _ _ _ _ K A) as [K1 _]. destruct (IH _ _ K1 P2) as (b2 & o2 & B). rewrite B. eauto.
Qed.

Lemma activity_moves : forall t ps, activity t ps = moves budget_type (t_date t) ps.
Proof.
  intros t ps. unfold activity, moves. apply flat_map_ext. intro p. unfold budget_type.
  change (split colon (po_account p)) with (components p). pose proof (split_nonempty colon (po_account p)) as N.
  change (split colon (po_account p)) with (components p) in N. destruct (components p) as [|c l]; [contradiction|]. cbn [firstn hd].
  assert (Q : forall x, (if list_str_dec [c] [x] then true else false) = str_eqb c x).
  { intro x. destruct (list_str_dec [c] [x]) as [X|X]; symmetry.
    - injection X as ->. now apply str_eqb_eq.
    - apply not_true_is_false. intro Y. apply str_eqb_eq in Y. congruence. }
  change ExpensesID with (lit "Expenses"). change IncomeID with (lit "Income").
  rewrite <- !Q. destruct (list_str_dec [c] [lit "Expenses"]); [reflexivity|]. destruct (list_str_dec [c] [lit "Income"]); reflexivity.
Qed.

Lemma allocations_moves : forall pt, allocations pt = moves (fun _ => Some EnvelopePosting) (pe_start (pt_period pt)) (t_postings (pt_txn pt)).
Proof. intro pt. unfold allocations, moves. induction (t_postings (pt_txn pt)); cbn; congruence. Qed.

Section Run.
Variable E : env.
Variable O : opts.
Hypothesis C : sane_clock E.
Hypothesis Or : orders E.

Lemma budget_ph_spec : forall s pt path, a_month (pt_period pt) -> budget_ph s pt path =
  let '(b, out, r) := b_addPostings (fun _ => Some EnvelopePosting) (h_data s) (pe_start (pt_period pt)) (t_postings (pt_txn pt)) in
  (HS (h_n s) (h_out s ++ out) b, r).
Proof.
  intros s pt path (_ & _ & I). unfold budget_ph, pt_run. rewrite I. cbn [is_pnone]. cbn iota.
  destruct pt as [pe t]. reflexivity.
Qed.

Lemma budget_fold : forall fs evs log s s', Forall dated_event evs -> kept log (h_data s) ->
  deliver_all (Some (checked E O fs budget_handler)) (Some budget_ph) s evs = (s', SOk) ->
  flags_ok E O (txns (h_n s) evs) /\ exists more, history E O fs (h_n s) evs more /\ Forall proper more /\
    kept (log ++ more) (h_data s') /\ h_out s' = h_out s ++ objected log more.
Proof.
  intro fs. induction evs as [|[t p|pt p] evs IH]; intros log s s' D K R; cbn [deliver_all] in R.
  - injection R as <-. split; [constructor|]. exists []. split; [constructor|]. split; [constructor|]. cbn [objected]. rewrite !app_nil_r. auto.
  - cbn [deliver] in R. cbn [txns]. inversion D as [|? ? Dt D']; subst.
    destruct (checked_cases E O C Or budget fs budget_handler s t p) as [(G & W & Q)|[(G & W & Ht & ps & P & Wh & Q)|(G & e & Q)]]; rewrite Q in R.
    + destruct (IH log (HS (S (h_n s)) (h_out s) (h_data s)) s' D' K R) as (F & more & H & Pr & K' & O'). cbn [h_n h_out h_data] in *. split; [constructor; auto|].
      exists more. split; [now apply HistNot|]. auto.
    + unfold budget_handler in R at 1. cbn [h_n h_out h_data] in R.
      destruct (b_addPostings budget_type (h_data s) (t_date t) ps) as [[b o] r] eqn:A. destruct r; try discriminate.
      destruct (adds_step _ _ _ _ _ _ _ K A) as (K1 & O1 & P1). rewrite <- activity_moves in K1, O1, P1.
      destruct (IH _ (HS _ _ b) s' D' K1 R) as (F & more & H & Pr & K' & O'). cbn [h_n h_out h_data] in *. split; [constructor; auto|].
      exists (activity t ps ++ more). split; [now apply HistTxn|]. split; [now apply Forall_app|]. rewrite app_assoc. split; [exact K'|].
      rewrite O', O1, objected_app, app_assoc. reflexivity.
    + discriminate.
  - inversion D as [|? ? Dt D']; subst. cbn [deliver] in R. rewrite (budget_ph_spec s pt p Dt) in R.
    destruct (b_addPostings _ (h_data s) _ _) as [[b o] r] eqn:A. destruct r; try discriminate.
    destruct (adds_step _ _ _ _ _ _ _ K A) as (K1 & O1 & P1). rewrite <- allocations_moves in K1, O1, P1.
    destruct (IH _ (HS _ _ b) s' D' K1 R) as (F & more & H & Pr & K' & O'). cbn [h_n h_out h_data] in *. cbn [txns]. split; [exact F|].
    exists (allocations pt ++ more). split; [now apply HistBudget|]. split; [now apply Forall_app|]. rewrite app_assoc. split; [exact K'|].
    rewrite O', O1, objected_app, app_assoc. reflexivity.
Qed.

Lemma proper_perm : forall t ps ps', Permutation ps ps' -> Forall proper (activity t ps) -> Forall proper (activity t ps').
Proof.
  intros t ps ps' P F. rewrite Forall_forall in *. intros m I. apply F. unfold activity in *. apply in_flat_map in I as (p & Ip & I).
  apply in_flat_map. exists p. split; [|exact I]. now apply (Permutation_in p (Permutation_sym P)).
Qed.

Lemma budget_total : forall fs n evs log, history E O fs n evs log -> Forall proper log -> Forall dated_event evs ->
  flags_ok E O (txns n evs) -> forall s before, h_n s = n -> kept before (h_data s) ->
  exists s', deliver_all (Some (checked E O fs budget_handler)) (Some budget_ph) s evs = (s', SOk).
Proof.
  intros fs n evs log H. induction H as [n|n pt p evs log H IH|n t p evs log W H IH|n t p ps evs log W Ht P Wh H IH];
    intros Pr D F s before Hn K; cbn [deliver_all].
  - eauto.
  - inversion D as [|? ? Dt D']; subst. cbn [deliver]. rewrite (budget_ph_spec s pt p Dt). apply Forall_app in Pr as [P1 P2].
    rewrite allocations_moves in P1. destruct (adds_total _ _ _ _ _ K P1) as (b & o & A). rewrite A.
    destruct (adds_step _ _ _ _ _ _ _ K A) as (K1 & _). apply (IH P2 D' F (HS (h_n s) _ b) _ eq_refl K1).
  - inversion D as [|? ? Dt D']; subst. cbn [deliver]. cbn [txns] in F. inversion F as [|? ? G F']; subst. cbn in G.
    destruct (checked_cases E O C Or budget fs budget_handler s t p) as [(_ & _ & Q)|[(_ & W' & Ht' & _)|(X & _)]];
      [|destruct W as [W|W]; [contradiction|congruence]|contradiction].
    rewrite Q. apply (IH Pr D' F' (HS (S (h_n s)) (h_out s) (h_data s)) before eq_refl K).
  - inversion D as [|? ? Dt D']; subst. cbn [deliver]. cbn [txns] in F. inversion F as [|? ? G F']; subst. cbn in G.
    destruct (checked_cases E O C Or budget fs budget_handler s t p) as [(_ & [X|X] & _)|[(_ & _ & _ & ps' & P' & _ & Q)|(X & _)]];
      [contradiction|congruence| |contradiction].
    rewrite Q. unfold budget_handler at 1. cbn [h_n h_out h_data]. apply Forall_app in Pr as [P1 P2].
    apply (proper_perm t ps ps') in P1; [|now rewrite P, P']. rewrite activity_moves in P1.
    destruct (adds_total _ _ _ _ _ K P1) as (b & o & A). rewrite A. destruct (adds_step _ _ _ _ _ _ _ K A) as (K1 & _).
    apply (IH P2 D' F' (HS (S (h_n s)) _ b) _ eq_refl K1).
Qed.

(** The dates of the moves are real ones. *)
Lemma history_dated : forall fs n evs log, history E O fs n evs log -> Forall dated_event evs -> Forall (fun m => dated (mv_date m)) log.
Proof.
  intros fs n evs log H. induction H; intro D; [constructor|inversion D; subst|inversion D; subst; auto|inversion D; subst].
  - apply Forall_app. split; [|auto]. unfold allocations. apply Forall_forall. intros m I. apply in_map_iff in I as (q & <- & _). cbn.
    destruct H2 as (X & _). exact X.
  - apply Forall_app. split; [|auto]. unfold activity. apply Forall_forall. intros m I. apply in_flat_map in I as (q & _ & I).
    destruct (list_str_dec _ _); [destruct I as [<-|[]]; assumption|]. destruct (list_str_dec _ _); [destruct I as [<-|[]]; assumption|destruct I].
Qed.
End Run.

(** ** The report *)
Lemma first_real : forall d, dated d -> real_date (first_of d).
Proof.
  intros d [R _]. pose proof (real_date_month _ R) as M. apply (real_date_iff (first_of d)); [exact M|]. unfold first_of. cbn [d_month d_year d_day].
  unfold days_in. destruct (d_month d =? 2); [destruct (is_leap (d_year d)); lia|]. destruct (_ || _); lia.
Qed.

Definition month_date (ym : Z * Z) : date := Date (fst ym) (snd ym) 1.

Lemma months_sorted : forall log b, kept log b -> Forall (fun m => dated (mv_date m)) log ->
  exists l, months_of log l /\ sort_dates (map fst b) = map month_date l.
Proof.
  intros log b K D. set (ds := sort_dates (map fst b)). exists (map (fun d => (d_year d, d_month d)) ds).
  assert (P : Permutation ds (map fst b)) by apply isort_perm.
  assert (F : forall d, In d ds -> real_date d /\ d_day d = 1 /\ exists mv, In mv log /\ d = first_of (mv_date mv)).
  { intros d I. apply (Permutation_in d P) in I. apply (k_keys _ _ K) in I as (mv & I & ->). rewrite Forall_forall in D. specialize (D _ I).
    split; [now apply first_real|]. split; [reflexivity|]. eauto. }
  assert (M : map month_date (map (fun d => (d_year d, d_month d)) ds) = ds).
  { rewrite map_map. rewrite <- (map_id ds) at 2. apply map_ext_in. intros d I. destruct (F d I) as (_ & X & _). destruct d. cbn in *. now subst. }
  split; [|now rewrite M]. split.
  - assert (N : NoDup ds) by (apply (Permutation_NoDup (Permutation_sym P)), (k_nodup _ _ K)).
    assert (S : StronglySorted (le date_before) ds).
    { apply isort_sorted; unfold le, date_before; intros; rewrite ?Z.ltb_ge, ?Z.ltb_lt in *; lia. }
    clear P M. induction S as [|x l S IH Fx]; [constructor|]. inversion N as [|? ? Nx Nl]; subst. cbn [map].
    constructor; [apply IH; [intros; apply F; now right|exact Nl]|]. apply Forall_forall. intros ym I. apply in_map_iff in I as (y & <- & I).
    rewrite Forall_forall in Fx. specialize (Fx y I). unfold le, date_before in Fx. apply Z.ltb_ge in Fx. cbn.
    destruct (F x (or_introl eq_refl)) as (Rx & Dx & _). destruct (F y (or_intror I)) as (Ry & Dy & _).
    assert (X : earlier x y).
    { destruct (date_trichotomy x y) as [X|[X|X]]; [exact X|subst; contradiction|]. apply earlier_instant in X; auto. lia. }
    unfold earlier in X. lia.
  - intros y m. rewrite in_map_iff. split.
    + intros (d & Q & I). injection Q as <- <-. destruct (F d I) as (_ & _ & mv & J & ->). exists mv. cbn. auto.
    + intros (mv & I & <- & <-). exists (first_of (mv_date mv)). split; [reflexivity|]. apply (Permutation_in _ (Permutation_sym P)).
      apply (k_keys _ _ K). eauto.
Qed.

Lemma child_amount : forall k t, amt_at [k] t = option_map acc_amount (get k (acc_children t)).
Proof. intros k [d ch]. unfold amt_at. rewrite data_at_cons. cbn. destruct (get k ch) as [[d' ch']|]; reflexivity. Qed.

Lemma rows_spec : forall ms bm names, month_built ms bm -> Forall (fun k => existsb (concerns [k]) ms = true) names ->
  budget_rows names (bm_envelope bm) (bm_expense bm) = (map (budget_line ms) names, true).
Proof.
  intros ms bm names B. induction names as [|k names IH]; intro F; [reflexivity|]. inversion F as [|? ? K F']; subst. cbn [budget_rows map].
  pose proof (mb_env _ _ B [k] ltac:(discriminate)) as X. pose proof (mb_exp _ _ B [k] ltac:(discriminate)) as Y. rewrite K, child_amount in X, Y.
  destruct (get k (acc_children (bm_envelope bm))) as [ea|]; [|discriminate]. destruct (get k (acc_children (bm_expense bm))) as [xa|]; [|discriminate].
  cbn [option_map] in X, Y. injection X as X. injection Y as Y. rewrite X, Y. unfold amount_add, mismatch. cbn [am_commodity am_quantity].
  rewrite str_eqb_refl. rewrite (IH F'). cbn [app]. f_equal. f_equal. unfold budget_line, displayableQuantity. rewrite !pad_left_flush, pad_right_flush. cbn [am_quantity am_commodity].
  rewrite wrap64_add_l, wrap64_add_r. reflexivity.
Qed.

Lemma month_report_spec : forall y m ms bm, month_built ms bm ->
  exists blk, month_block y m ms blk /\ budget_month_report (Date y m 1) bm = (blk, true).
Proof.
  intros y m ms bm B. set (cs := sortedChildNames (bm_envelope bm)).
  assert (I : forall k, In k cs <-> existsb (concerns [k]) ms = true).
  { intro k. pose proof (mb_env _ _ B [k] ltac:(discriminate)) as X. rewrite child_amount in X. unfold cs, sortedChildNames.
    assert (Q : In k (sort_strings (map fst (acc_children (bm_envelope bm)))) <-> get k (acc_children (bm_envelope bm)) <> None).
    { split.
      - intros J N. apply get_none in N. apply N. now apply (Permutation_in k (isort_perm _ _)) in J.
      - intro N. apply (Permutation_in k (Permutation_sym (isort_perm _ _))). destruct (in_dec (list_eq_dec Z.eq_dec) k (map fst (acc_children (bm_envelope bm)))) as [J|J]; [exact J|].
        apply get_none in J. contradiction. }
    rewrite Q. destruct (get k (acc_children (bm_envelope bm))), (existsb (concerns [k]) ms); cbn in X; try discriminate; split; intro; congruence. }
  exists (month_heading y m ms ++ map (budget_line ms) cs ++ [[10]]). split.
  - constructor. split; [|exact I]. apply sorted_strict. destruct (mb_env_wf _ _ B) as [Dn _]. destruct Dn. assumption.
  - unfold budget_month_report. fold cs. rewrite (rows_spec ms bm cs B) by (apply Forall_forall; intros k J; now apply I).
    unfold month_heading, total_line, row2. rewrite (mb_funds _ _ B), (mb_income _ _ B). unfold displayableQuantity. rewrite !pad_left_flush. cbn [am_commodity am_quantity].
    unfold time_string, format_date. cbn [d_year d_month d_day]. rewrite <- !app_assoc. reflexivity.
Qed.

Lemma report_spec : forall log b l, kept log b ->
  exists bs, Forall2 (fun ym blk => month_block (fst ym) (snd ym) (month (fst ym) (snd ym) log) blk) l bs /\ budget_report b (map month_date l) = concat bs.
Proof.
  intros log b l K. induction l as [|[y m] l (bs & F & R)]; [exists []; split; [constructor|reflexivity]|].
  destruct (month_report_spec y m _ _ (k_month _ _ K y m)) as (blk & B & Q). exists (blk :: bs). split; [constructor; [exact B|exact F]|].
  cbn [map budget_report]. change (month_date (y, m)) with (Date y m 1). rewrite Q, R. reflexivity.
Qed.
