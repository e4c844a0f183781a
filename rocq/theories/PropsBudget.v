(** * Properties of the budget: C47-C50, C58, C60, C64 *)
From Verif Require Import Base BaseFacts Utf8 GoTime Strconv Display Journal Parser ParserFacts Account Reporting Budget Cmd Spec JournalFacts TextSpec DateFacts
  TreeSpec TreeFacts ReportSpec CalendarFacts CmdSpec StreamFacts CmdFacts BalanceFacts BankFacts PropsStats BudgetSpec BudgetFacts BudgetRun Sample PropsCmd PropsAge.

(** Moves entered one after another. *)
Fixpoint enter (b : budget) (ms : list move) : option budget :=
  match ms with
  | [] => Some b
  | m :: ms' => match b_addPosting b (mv_date m) (mv_posting m) (mv_type m) with
                | Some (b', _) => enter b' ms'
                | None => None
                end
  end.

Lemma enter_kept : forall ms log b b', kept log b -> enter b ms = Some b' -> kept (log ++ ms) b'.
Proof.
  induction ms as [|[ty d p] ms IH]; intros log b b' K H; cbn [enter] in H; [injection H as <-; now rewrite app_nil_r|].
  cbn [mv_date mv_posting mv_type] in H. destruct (b_addPosting b d p ty) as [[b1 o]|] eqn:A; [|discriminate].
  destruct (add_step _ _ _ _ _ _ _ K A) as [K1 _]. specialize (IH _ _ _ K1 H). now rewrite <- app_assoc in IH.
Qed.

Lemma kept_at : forall log b k bm, kept log b -> In (k, bm) b ->
  d_day k = 1 /\ month_built (month (d_year k) (d_month k) log) bm /\ exists mv, In mv log /\ k = first_of (mv_date mv).
Proof.
  intros log b k bm K I. assert (J : In k (map fst b)) by (now apply (in_map fst) in I).
  apply (k_keys _ _ K) in J as (mv & J & Q). split; [now rewrite Q|]. split; [|eauto].
  pose proof (k_month _ _ K (d_year k) (d_month k)) as M. replace (Date (d_year k) (d_month k) 1) with k in M by (rewrite Q; reflexivity).
  unfold month_of in M. erewrite in_assoc in M; eauto using k_nodup. apply date_eqb_eq.
Qed.

(** Entering goes through exactly when every move has an amount and a category. *)
Theorem C47_enter : forall ms, (exists b, enter newBudget ms = Some b) <-> Forall proper ms.
Proof.
  intro ms. assert (G : forall log b, kept log b -> (exists b', enter b ms = Some b') <-> Forall proper ms).
  { induction ms as [|[ty d p] ms IH]; intros log b K; cbn [enter mv_date mv_posting mv_type].
    - split; eauto.
    - split.
      + intros [b' H]. destruct (b_addPosting b d p ty) as [[b1 o]|] eqn:A; [|discriminate].
        constructor; [apply proper_enterable; eapply add_enterable; eauto|]. destruct (add_step _ _ _ _ _ _ _ K A) as [K1 _].
        apply (IH _ _ K1). eauto.
      + intro F. inversion F as [|? ? P F']; subst. apply proper_enterable in P.
        destruct (add_total b d p ty (month (d_year d) (d_month d) log) P) as (b1 & o & A).
        { rewrite normalise_first. apply (k_month _ _ K). }
        rewrite A. destruct (add_step _ _ _ _ _ _ _ K A) as [K1 _]. now apply (IH _ _ K1). }
  apply (G [] _ kept_new).
Qed.

(** ** C47: the two trees have the same accounts *)
Theorem C47_same_paths : forall ms b k bm, enter newBudget ms = Some b -> In (k, bm) b -> forall q, q <> [] ->
  ((exists d, node (bm_envelope bm) q d) <-> (exists d, node (bm_expense bm) q d)) /\
  ((exists d, node (bm_envelope bm) q d) <->
   exists m, In m (month (d_year k) (d_month k) ms) /\ is_earn m = false /\ to_fund m = false /\ prefix q (category m)).
Proof.
  intros ms b k bm H I q Nq. apply (enter_kept _ [] _ _ kept_new) in H. cbn [app] in H.
  destruct (kept_at _ _ _ _ H I) as (_ & B & _). set (l := month (d_year k) (d_month k) ms) in *.
  assert (N : forall t g, distinct t -> tree_ok g l t -> (exists d, node t q d) <-> existsb (concerns q) l = true).
  { intros t g D T. specialize (T q Nq). unfold amt_at in T. destruct (data_at q t) as [d|] eqn:X.
    - cbn in T. split; [|intros _; exists d; apply node_data_at; auto]. intros _. destruct (existsb (concerns q) l); [reflexivity|discriminate].
    - cbn in T. split; [intros [d Nd]; apply node_data_at in Nd; [congruence|exact D]|]. intro Y. rewrite Y in T. discriminate. }
  rewrite (N _ _ (proj1 (mb_env_wf _ _ B)) (mb_env _ _ B)), (N _ _ (proj1 (mb_exp_wf _ _ B)) (mb_exp _ _ B)).
  split; [reflexivity|]. rewrite existsb_exists. split; intros (m & J & X); exists m; (split; [exact J|]).
  - unfold concerns in X. apply andb_true_iff in X as [X Y]. apply andb_true_iff in X as [X Z]. apply negb_true_iff in X, Z.
    rewrite prefixb_iff in Y. auto.
  - destruct X as (X & Z & Y). unfold concerns. rewrite X, Z. cbn. now apply prefixb_iff.
Qed.

(** ... so that the report does not stop. *)
Theorem C47_report_goes_on : forall ms b k bm, enter newBudget ms = Some b -> In (k, bm) b -> snd (budget_month_report k bm) = true.
Proof.
  intros ms b k bm H I. apply (enter_kept _ [] _ _ kept_new) in H. cbn [app] in H. destruct (kept_at _ _ _ _ H I) as (Dk & B & _).
  destruct (month_report_spec (d_year k) (d_month k) _ _ B) as (blk & _ & R). destruct k as [y m d]. cbn in *. subst d. now rewrite R.
Qed.

(** ** C48: the amounts of a category *)
Theorem C48_amounts : forall ms b k bm, enter newBudget ms = Some b -> In (k, bm) b -> forall q, q <> [] ->
  let l := month (d_year k) (d_month k) ms in
  (forall d, node (bm_envelope bm) q d -> am_quantity (a_amount d) = wrap64 (assigned q l)) /\
  (forall d, node (bm_expense bm) q d -> am_quantity (a_amount d) = wrap64 (- spent q l)) /\
  (forall d d', node (bm_envelope bm) q d -> node (bm_expense bm) q d' ->
     amount_add (a_amount d) (a_amount d') = (Amount (shown_commodity q l) (wrap64 (assigned q l - spent q l)), [])).
Proof.
  intros ms b k bm H I q Nq l. apply (enter_kept _ [] _ _ kept_new) in H. cbn [app] in H.
  destruct (kept_at _ _ _ _ H I) as (_ & B & _). fold l in B.
  assert (N : forall t g d, distinct t -> tree_ok g l t -> node t q d -> a_amount d = Amount (shown_commodity q l) (wrap64 (g q))).
  { intros t g d D T X. specialize (T q Nq). apply node_data_at in X; [|exact D]. unfold amt_at in T. rewrite X in T. cbn in T.
    destruct (existsb (concerns q) l); [congruence|discriminate]. }
  pose proof (fun d => N _ _ d (proj1 (mb_env_wf _ _ B)) (mb_env _ _ B)) as Ne. pose proof (fun d => N _ _ d (proj1 (mb_exp_wf _ _ B)) (mb_exp _ _ B)) as Nx.
  split; [intros d X; now rewrite (Ne d X)|]. split; [intros d X; now rewrite (Nx d X)|]. intros d d' X Y. rewrite (Ne d X), (Nx d' Y).
  unfold amount_add, mismatch. cbn [am_commodity am_quantity]. rewrite str_eqb_refl, wrap64_add_l, wrap64_add_r. reflexivity.
Qed.

(** A posting changes no other month. *)
Theorem C48_other_months : forall ms b b' d p ty out k, enter newBudget ms = Some b -> b_addPosting b d p ty = Some (b', out) ->
  d_year k <> d_year d \/ d_month k <> d_month d -> forall bm, In (k, bm) b' <-> In (k, bm) b.
Proof.
  intros ms b b' d p ty out k H A Nk bm. apply (enter_kept _ [] _ _ kept_new) in H. cbn [app] in H.
  assert (S : exists bm1, b' = assoc_set date_eqb (first_of d) bm1 b).
  { unfold b_addPosting in A. rewrite normalise_first in A. destruct ty.
    - destruct (entry_step b (first_of d) d p EnvelopePosting (month (d_year d) (d_month d) ms) b' out) as (x & Q & _); [discriminate|apply (k_month _ _ H)|exact A|]. eauto.
    - destruct (entry_step b (first_of d) d p ExpensePosting (month (d_year d) (d_month d) ms) b' out) as (x & Q & _); [discriminate|apply (k_month _ _ H)|exact A|]. eauto.
    - destruct (income_step b (first_of d) d p (month (d_year d) (d_month d) ms) b' out) as (x & Q & _); [apply (k_month _ _ H)|exact A|]. eauto. }
  destruct S as (bm1 & ->). destruct (add_step _ _ _ _ _ _ _ H A) as [K _].
  assert (Ne : first_of d <> k). { intros <-. cbn in Nk. lia. }
  pose proof (assoc_set_other date_eqb date_eqb_eq b (first_of d) k bm1 Ne) as X.
  split; intro I.
  - apply (in_assoc date_eqb date_eqb_eq) in I; [|apply (k_nodup _ _ K)]. rewrite X in I. eapply assoc_in; [apply date_eqb_eq|exact I].
  - apply (in_assoc date_eqb date_eqb_eq) in I; [|apply (k_nodup _ _ H)]. rewrite <- X in I. eapply assoc_in; [apply date_eqb_eq|exact I].
Qed.

(** What budget prints: complaints about mixed commodities, then month after month
    the income and a line for every top category. *)
Theorem C48_report : forall E O fs, sane_clock E -> orders E -> filters_for E (o_args O) fs ->
  (r_status (budget_cmd E O) = SOk <->
   readable E O /\ exists log, history E O fs 0 (fst (stream E O)) log /\ Forall proper log) /\
  (r_status (budget_cmd E O) = SOk ->
   exists log l bs, history E O fs 0 (fst (stream E O)) log /\ months_of log l /\
     Forall2 (fun ym b => month_block (fst ym) (snd ym) (month (fst ym) (snd ym) log) b) l bs /\
     r_out (budget_cmd E O) = objected [] log ++ concat bs).
Proof.
  intros E O fs C Or F. apply makeFilters_spec in F. unfold budget_cmd, with_filters. rewrite F.
  pose proof (stream_dated E O) as D.
  assert (R : forall s, budget_run E O fs = (s, SOk) -> readable E O /\ exists log, history E O fs 0 (fst (stream E O)) log /\ Forall proper log /\
    kept log (h_data s) /\ h_out s = objected [] log).
  { intros s R. apply parse_cmd_ok in R as [Sr R]. apply (budget_fold E O C Or fs _ [] (HS 0 [] newBudget) s D kept_new) in R.
    cbn [h_n h_out h_data app] in R. destruct R as (Fl & log & H & P & K & Ou). split; [split; [exact Sr|exact Fl]|]. eauto. }
  split.
  - split.
    + intro H. unfold finish in H. destruct (budget_run E O fs) as [s r] eqn:Q. destruct r; try discriminate.
      destruct (R s eq_refl) as (Rd & log & Hi & P & _). eauto.
    + intros [[Sr Fl] (log & Hi & P)].
      destruct (budget_total E O C Or fs 0 _ log Hi P D Fl (HS 0 [] newBudget) [] eq_refl kept_new) as [s' X].
      assert (Y : budget_run E O fs = (s', SOk)) by (apply parse_cmd_ok; auto). rewrite Y. reflexivity.
  - intro H. unfold finish in *. destruct (budget_run E O fs) as [s r] eqn:Q. destruct r; try discriminate.
    destruct (R s eq_refl) as (Rd & log & Hi & P & K & Ou). pose proof (history_dated _ _ _ _ _ _ Hi D) as Dl.
    destruct (months_sorted _ _ K Dl) as (l & M & S). destruct (report_spec _ _ l K) as (bs & Fb & Rb).
    exists log, l, bs. split; [exact Hi|]. split; [exact M|]. split; [exact Fb|]. cbn [r_out]. now rewrite S, Rb, Ou.
Qed.

(** ** C50: months *)
Theorem C50_same_month : forall d d', normaliseToMonth d = normaliseToMonth d' <-> (d_year d = d_year d' /\ d_month d = d_month d').
Proof.
  intros d d'. rewrite !normalise_first. unfold first_of. split; [intro H; injection H; auto|intros [-> ->]; reflexivity].
Qed.
Theorem C50_months : forall ms b, enter newBudget ms = Some b -> Forall (fun m => dated (mv_date m)) ms ->
  NoDup (map fst b) /\
  (forall k, In k (map fst b) <-> exists m, In m ms /\ k = Date (d_year (mv_date m)) (d_month (mv_date m)) 1) /\
  exists l, months_of ms l /\ sort_dates (map fst b) = map (fun ym => Date (fst ym) (snd ym) 1) l.
Proof.
  intros ms b H D. apply (enter_kept _ [] _ _ kept_new) in H. cbn [app] in H. split; [apply (k_nodup _ _ H)|]. split; [apply (k_keys _ _ H)|].
  exact (months_sorted _ _ H D).
Qed.

(** ** C58: the fund *)

(** The root of the envelopes holds what was assigned and put in the fund, less
    income (which is negative). *)
Theorem C58_root : forall ms b k bm, enter newBudget ms = Some b -> In (k, bm) b ->
  let l := month (d_year k) (d_month k) ms in
  am_quantity (acc_amount (bm_envelope bm)) = wrap64 (assigned [] l + funded l - earned l) /\
  am_quantity (acc_amount (bm_income bm)) = wrap64 (- earned l).
Proof.
  intros ms b k bm H I l. apply (enter_kept _ [] _ _ kept_new) in H. cbn [app] in H. destruct (kept_at _ _ _ _ H I) as (_ & B & _). fold l in B.
  now rewrite (mb_env_root _ _ B), (mb_income _ _ B).
Qed.

Lemma assign_total : forall ms, Forall (fun m => is_assign m = true) ms -> assigned [] ms + funded ms = total (map mv_posting ms).
Proof.
  induction ms as [|m ms IH]; intro F; [reflexivity|]. inversion F as [|? ? A F']; subst. specialize (IH F').
  unfold assigned, funded, sum_of in *. cbn [filter]. unfold concerns at 1. rewrite A.
  replace (is_earn m) with false by (unfold is_assign, is_earn in *; destruct (mv_type m); congruence). cbn [negb andb].
  replace (prefixb [] (category m)) with true by reflexivity. rewrite andb_true_r.
  unfold total, sumZ in *. destruct (to_fund m); cbn [negb map fold_right]; lia.
Qed.

(** In a run of the program the entries balance, so that the root is the income. *)
Lemma log_balance : forall E O fs n evs log y m, history E O fs n evs log -> Forall balanced_event evs ->
  exists z, assigned [] (month y m log) + funded (month y m log) = two64 * z.
Proof.
  intros E O fs n evs log y m H. induction H as [n|n pt p evs log H IH|n t p evs log W H IH|n t p ps evs log W Ht P Wh H IH]; intro B.
  - exists 0. reflexivity.
  - inversion B as [|? ? Bp B']; subst. destruct (IH B') as [z Q]. unfold month. rewrite filter_app.
    unfold assigned, funded. rewrite !sum_of_app. fold (month y m log). fold (assigned [] (month y m log)) (funded (month y m log)).
    assert (X : exists z', assigned [] (filter (in_month y m) (allocations pt)) + funded (filter (in_month y m) (allocations pt)) = two64 * z').
    { rewrite assign_total.
      - destruct ((d_year (pe_start (pt_period pt)) =? y) && (d_month (pe_start (pt_period pt)) =? m)) eqn:T.
        + replace (filter (in_month y m) (allocations pt)) with (allocations pt).
          * unfold allocations. rewrite map_map, map_id. destruct Bp as [Z _]. unfold zero64 in Z. apply Z.mod_divide in Z as [z' Z]; [|discriminate]. exists z'. rewrite Z. apply Z.mul_comm.
          * unfold allocations. induction (t_postings (pt_txn pt)) as [|q l IHl]; [reflexivity|]. cbn [map filter]. unfold in_month at 1. cbn [mv_date].
            rewrite T. f_equal. exact IHl.
        + exists 0. replace (filter (in_month y m) (allocations pt)) with (@nil move); [reflexivity|].
          unfold allocations. induction (t_postings (pt_txn pt)) as [|q l IHl]; [reflexivity|]. cbn [map filter]. unfold in_month at 1. cbn [mv_date].
          rewrite T. exact IHl.
      - apply Forall_forall. intros mv I. apply filter_In in I as [I _]. unfold allocations in I. apply in_map_iff in I as (q & <- & _). reflexivity. }
    destruct X as [z' X]. unfold assigned, funded in X, Q. exists (z' + z). unfold assigned, funded. rewrite Z.mul_add_distr_l, <- X, <- Q. lia.
  - inversion B; subst. auto.
  - inversion B as [|? ? Bt B']; subst. destruct (IH B') as [z Q]. exists z. rewrite <- Q. unfold month. rewrite filter_app. unfold assigned, funded.
    rewrite !sum_of_app. assert (X : forall f, (forall mv, f mv = true -> is_assign mv = true) -> sum_of f (filter (in_month y m) (activity t ps)) = 0).
    { intros f Hf. unfold sum_of. replace (filter f (filter (in_month y m) (activity t ps))) with (@nil move); [reflexivity|].
      assert (A : forall mv, In mv (filter (in_month y m) (activity t ps)) -> is_assign mv = false).
      { intros mv I. apply filter_In in I as [I _]. unfold activity in I. apply in_flat_map in I as (q & _ & I).
        destruct (list_str_dec _ _); [destruct I as [<-|[]]; reflexivity|]. destruct (list_str_dec _ _); [destruct I as [<-|[]]; reflexivity|destruct I]. }
      induction (filter (in_month y m) (activity t ps)) as [|x l IHl]; [reflexivity|]. cbn [filter]. destruct (f x) eqn:Fx.
      - apply Hf in Fx. rewrite (A x (or_introl eq_refl)) in Fx. discriminate.
      - apply IHl. intros mv I. apply A. now right. }
    rewrite !X; [lia| |].
    + intros mv I. unfold to_fund in I. now apply andb_true_iff in I.
    + intros mv I. now apply andb_true_iff in I.
Qed.

Theorem C58_fund_is_income : forall E O fs s k bm, sane_clock E -> orders E -> budget_run E O fs = (s, SOk) -> In (k, bm) (h_data s) ->
  am_quantity (acc_amount (bm_envelope bm)) = am_quantity (acc_amount (bm_income bm)).
Proof.
  intros E O fs s k bm C Or R I. apply parse_cmd_ok in R as [_ R].
  apply (budget_fold E O C Or fs _ [] (HS 0 [] newBudget) s (stream_dated E O) kept_new) in R. cbn [h_n h_out h_data app] in R.
  destruct R as (_ & log & H & _ & K & _). destruct (kept_at _ _ _ _ K I) as (_ & B & _). rewrite (mb_env_root _ _ B), (mb_income _ _ B). cbn [am_quantity].
  destruct (log_balance _ _ _ _ _ _ (d_year k) (d_month k) H (stream_balanced E O)) as [z Q]. rewrite Q.
  apply wrap64_congr. replace (two64 * z - earned (month (d_year k) (d_month k) log)) with (- earned (month (d_year k) (d_month k) log) + z * two64) by ring. apply Z_mod_plus_full.
Qed.

(** ** C60: the flags *)

(** What is spent and earned is dated in the range asked for ... *)
Theorem C60_transactions_partial : forall E O fs n evs log m, history E O fs n evs log -> In m log -> is_assign m = false ->
  exists u, In u (txns n evs) /\ mv_date m = t_date (u_txn u) /\ within E O (u_n u) (mv_date m) /\ In (mv_posting m) (t_postings (u_txn u)).
Proof.
  intros E O fs n evs log m H. induction H as [n|n pt p evs log H IH|n t p evs log W H IH|n t p ps evs log W Ht P Wh H IH]; intros I A.
  - destruct I.
  - apply in_app_or in I as [I|I]; [|apply (IH I A)]. unfold allocations in I. apply in_map_iff in I as (q & <- & _). discriminate.
  - destruct (IH I A) as (u & J & X). exists u. split; [now right|exact X].
  - apply in_app_or in I as [I|I].
    + exists (Used n t p). split; [now left|]. unfold activity in I. apply in_flat_map in I as (q & J & I). cbn [u_txn u_n].
      assert (Jt : In q (t_postings t)) by (eapply hits_in, Permutation_in; eauto).
      destruct (list_str_dec _ _); [destruct I as [<-|[]]; auto|]. destruct (list_str_dec _ _); [destruct I as [<-|[]]; auto|destruct I].
    + destruct (IH I A) as (u & J & X). exists u. split; [now right|exact X].
Qed.

(** ** Examples and counterexamples *)

(** Without filters the history can be computed. *)
Fixpoint computed (E : env) (O : opts) (n : nat) (evs : list event) : list move :=
  match evs with
  | [] => []
  | EPer pt _ :: evs' => allocations pt ++ computed E O n evs'
  | ETxn t _ :: evs' =>
      match withinDateRange E O n t with
      | POk true => activity t (t_postings t) ++ computed E O (S n) evs'
      | _ => computed E O (S n) evs'
      end
  end.
Lemma computed_history : forall E O, sane_clock E -> forall evs n, flags_ok E O (txns n evs) -> history E O [] n evs (computed E O n evs).
Proof.
  intros E O C. induction evs as [|[t p|pt p] evs IH]; intros n F; cbn [computed].
  - constructor.
  - cbn [txns] in F. inversion F as [|? ? G F']; subst. cbn in G. pose proof (within_spec E O n t C) as W.
    destruct (withinDateRange E O n t) as [[|]| |]; [| |contradiction|contradiction].
    + destruct W as [_ W]. apply HistTxn; auto.
    + destruct W as [_ W]. apply HistNot; auto.
  - apply HistBudget. auto.
Qed.
Lemma no_flags : forall E O us, o_begin O = [] -> o_end O = [] -> flags_ok E O us.
Proof. intros E O us B D. apply Forall_forall. intros u _. split; left; assumption. Qed.
Lemma env0_sane : forall files, sane_clock (env0 files).
Proof. intros files n. cbn. lia. Qed.
Lemma env0_orders : forall files, orders (env0 files).
Proof. intro files. split; intros; apply Permutation_refl. Qed.

(** The repository's testdata/budget-test.journal. *)
Definition text_budget : str :=
  lit "2020-10-01 * Salary" ++ [10] ++ lit "    Assets:Current    £100" ++ [10] ++ lit "    Income:Job" ++ [10; 10] ++
  lit "~ 2020-10" ++ [10] ++ lit "    Clothing   £50" ++ [10; 10] ++
  lit "2020-10-02 * Clothes store  ; new shoes" ++ [10] ++ lit "    Assets:Current" ++ [10] ++ lit "    Expenses:Clothing    £40.00" ++ [10; 10] ++
  lit "2020-10-02 * Grocery store ; unbudgeted spending" ++ [10] ++ lit "    Assets:Current" ++ [10] ++ lit "    Expenses:Groceries    £20.00" ++ [10; 10; 10] ++
  lit "~ 2020-11" ++ [10] ++ lit "    Groceries   £45" ++ [10; 10; 10] ++
  lit "2020-11-01 * Salary" ++ [10] ++ lit "    Assets:Current    £100" ++ [10] ++ lit "    Income:Job" ++ [10; 10] ++
  lit "2020-11-01 * Grocery store" ++ [10] ++ lit "    Assets:Current" ++ [10] ++ lit "    Expenses:Groceries    £30.00" ++ [10].
Definition E_budget := env0 [(lit "j", text_budget)].
Definition O_budget := opts3 [] [] false [].
Definition log_budget : list move := computed E_budget O_budget 0 (fst (stream E_budget O_budget)).
Lemma log_budget_history : history E_budget O_budget [] 0 (fst (stream E_budget O_budget)) log_budget.
Proof. apply computed_history; [apply env0_sane|]. apply no_flags; reflexivity. Qed.

Opaque log_budget.

Example C48_report_example :
  sane_clock E_budget /\ orders E_budget /\ filters_for E_budget (o_args O_budget) [] /\ readable E_budget O_budget /\
  history E_budget O_budget [] 0 (fst (stream E_budget O_budget)) log_budget /\ length log_budget = 9%nat /\ Forall proper log_budget /\
  months_of log_budget [(2020, 10); (2020, 11)] /\ categories_of (month 2020 10 log_budget) [lit "Clothing"; lit "Groceries"] /\
  r_status (budget_cmd E_budget O_budget) = SOk /\
  r_out (budget_cmd E_budget O_budget) =
    month_heading 2020 10 (month 2020 10 log_budget) ++
    [lit "Clothing                       |               -40.00 |                50.00 |               £10.00 |" ++ [10];
     lit "Groceries                      |               -20.00 |                 0.00 |              £-20.00 |" ++ [10]; [10]] ++
    month_heading 2020 11 (month 2020 11 log_budget) ++
    [lit "Groceries                      |               -30.00 |                45.00 |               £15.00 |" ++ [10]; [10]] /\
  nth_error (month_heading 2020 10 (month 2020 10 log_budget)) 2 = Some (lit "                         Funds |              £100.00" ++ [10]).
Proof.
  split; [apply env0_sane|]. split; [apply env0_orders|]. split; [apply makeFilters_spec; reflexivity|].
  split; [split; [vm_compute; reflexivity|apply no_flags; reflexivity]|]. split; [exact log_budget_history|]. split; [vm_compute; reflexivity|].
  split.
  { apply Forall_forall. intros m I. unfold proper. assert (X : forallb (fun m => match po_amount (mv_posting m), category m with Some _, _ :: _ => true | _, _ => false end) log_budget = true)
      by (vm_compute; reflexivity). rewrite forallb_forall in X. specialize (X m I). clear I. destruct (po_amount (mv_posting m)); [|discriminate X].
    destruct (category m); [discriminate X|]. split; discriminate. }
  split.
  { split; [repeat constructor; cbn; lia|]. intros y m. split.
    - intros [Q|[Q|[]]]; injection Q as <- <-.
      + exists (nth 0 log_budget (Move IncomePosting zero_date (Posting [] [] None))). split; [|vm_compute; auto]. apply nth_In. vm_compute. lia.
      + exists (nth 5 log_budget (Move IncomePosting zero_date (Posting [] [] None))). split; [|vm_compute; auto]. apply nth_In. vm_compute. lia.
    - intros (mv & I & <- & <-). assert (X : forallb (fun m => (d_year (mv_date m) =? 2020) && ((d_month (mv_date m) =? 10) || (d_month (mv_date m) =? 11))) log_budget = true)
        by (vm_compute; reflexivity). rewrite forallb_forall in X. specialize (X mv I). apply andb_true_iff in X as [X Y]. apply Z.eqb_eq in X. rewrite X.
      apply orb_true_iff in Y as [Y|Y]; apply Z.eqb_eq in Y; rewrite Y; cbn; auto. }
  split.
  { split; [apply SSorted_cons; [apply SSorted_cons; [apply SSorted_nil|apply Forall_nil]|apply Forall_cons; [apply ascending_iff; reflexivity|apply Forall_nil]]|]. intro k.
    assert (X : forall k, existsb (concerns [k]) (month 2020 10 log_budget) = existsb (fun c => str_eqb k c) [lit "Clothing"; lit "Clothing"; lit "Groceries"]).
    { intro k'. assert (Y : map category (filter (fun m => negb (is_earn m) && negb (to_fund m)) (month 2020 10 log_budget)) = map (fun c => [c]) [lit "Clothing"; lit "Clothing"; lit "Groceries"])
        by (vm_compute; reflexivity).
      assert (Z : forall l, existsb (concerns [k']) l = existsb (prefixb [k']) (map category (filter (fun m => negb (is_earn m) && negb (to_fund m)) l))).
      { induction l as [|m l IH]; [reflexivity|]. cbn [existsb filter]. unfold concerns at 1. destruct (negb (is_earn m) && negb (to_fund m)); cbn [map existsb andb orb]; now rewrite IH. }
      rewrite Z, Y. cbn. rewrite !andb_true_r. reflexivity. }
    rewrite X. cbn [existsb In]. rewrite !orb_true_iff, !str_eqb_eq. intuition (auto; congruence). }
  split; [vm_compute; reflexivity|]. split; vm_compute; reflexivity.
Qed.

Example C47_example : exists b k bm d, enter newBudget log_budget = Some b /\ In (k, bm) b /\ k = Date 2020 10 1 /\
  node (bm_expense bm) [lit "Groceries"] d /\ am_quantity (a_amount d) = -2000 /\ funded (month 2020 10 log_budget) = -5000 /\
  Forall (fun m => dated (mv_date m)) log_budget.
Proof.
  assert (S : match enter newBudget log_budget with
    | Some ((k, Acc0) :: _) => match get (lit "Groceries") (acc_children (bm_expense Acc0)) with Some a => (k, am_quantity (acc_amount a)) | None => (k, 0) end
    | _ => (zero_date, 0) end = (Date 2020 10 1, -2000)) by (vm_compute; reflexivity).
  destruct (enter newBudget log_budget) as [[|[k bm] b]|] eqn:Q; [discriminate S| |discriminate S]. exists ((k, bm) :: b), k, bm.
  destruct (get (lit "Groceries") (acc_children (bm_expense bm))) as [[d ch]|] eqn:G; [|discriminate S]. injection S as Sk Sq.
  exists d. split; [reflexivity|]. split; [now left|]. split; [exact Sk|]. split; [|split; [exact Sq|split; [vm_compute; reflexivity|]]].
  - apply (enter_kept _ [] _ _ kept_new) in Q. destruct (kept_at _ _ k bm Q (or_introl eq_refl)) as (_ & B & _).
    apply node_data_at; [apply (mb_exp_wf _ _ B)|]. destruct (bm_expense bm) as [d0 ch0]. cbn [acc_children] in G. rewrite data_at_cons, G. reflexivity.
  - eapply history_dated; [apply log_budget_history|apply stream_dated].
Qed.

(** ** C49: the columns *)

(** The lines shown have first what was spent, then what was assigned, under
    "Budgeted" and "Activity"; the third column is right. *)
Theorem C49_columns_partial : forall E O fs, sane_clock E -> orders E -> filters_for E (o_args O) fs -> r_status (budget_cmd E O) = SOk ->
  exists log, history E O fs 0 (fst (stream E O)) log /\
    forall y m k, existsb (concerns [k]) (month y m log) = true ->
      let l := month y m log in
      In (flush_left 30 k ++ lit " | " ++ flush_right 20 (display_quantity (wrap64 (- spent [k] l)))
          ++ lit " | " ++ flush_right 20 (display_quantity (wrap64 (assigned [k] l)))
          ++ lit " | " ++ flush_right 20 (shown_commodity [k] l ++ display_quantity (wrap64 (assigned [k] l - spent [k] l))) ++ lit " |" ++ [10])
         (r_out (budget_cmd E O)).
Proof.
  intros E O fs C Or F H. destruct (C48_report E O fs C Or F) as [_ R]. destruct (R H) as (log & l & bs & Hi & M & Fb & Q).
  exists log. split; [exact Hi|]. intros y m k X ls. rewrite Q. apply in_or_app. right.
  assert (I : In (y, m) l).
  { apply M. apply existsb_exists in X as (mv & I & _). apply filter_In in I as [I X]. apply andb_true_iff in X as [X Y].
    apply Z.eqb_eq in X, Y. eauto. }
  assert (G : exists b, In b bs /\ month_block y m ls b).
  { clear - Fb I. induction Fb as [|[y' m'] b l bs B Fb IH]; [destruct I|]. destruct I as [I|I].
    - injection I as -> ->. exists b. split; [now left|exact B].
    - destruct (IH I) as (b' & J & K). exists b'. split; [now right|exact K]. }
  destruct G as (b & J & B). apply in_concat. exists b. split; [exact J|]. destruct B as [cs [_ Cs]]. apply in_or_app. right. apply in_or_app. left.
  apply in_map_iff. exists k. split; [reflexivity|]. now apply Cs.
Qed.

(** A line with the amounts under the headings meant. *)
Definition right_line (ms : list move) (k : str) : str :=
  flush_left 30 k ++ lit " | " ++ flush_right 20 (display_quantity (wrap64 (assigned [k] ms)))
    ++ lit " | " ++ flush_right 20 (display_quantity (wrap64 (- spent [k] ms)))
    ++ lit " | " ++ flush_right 20 (shown_commodity [k] ms ++ display_quantity (wrap64 (assigned [k] ms - spent [k] ms)))
    ++ lit " |" ++ [10].
Theorem C49_columns_refuted : exists E O log k, sane_clock E /\ orders E /\ o_args O = [] /\ history E O [] 0 (fst (stream E O)) log /\
  r_status (budget_cmd E O) = SOk /\ assigned [k] (month 2020 10 log) = 5000 /\ spent [k] (month 2020 10 log) = 4000 /\
  ~ In (right_line (month 2020 10 log) k) (r_out (budget_cmd E O)).
Proof.
  exists E_budget, O_budget, log_budget, (lit "Clothing"). split; [apply env0_sane|]. split; [apply env0_orders|]. split; [reflexivity|].
  split; [exact log_budget_history|]. split; [vm_compute; reflexivity|]. split; [vm_compute; reflexivity|]. split; [vm_compute; reflexivity|].
  intro I. assert (X : existsb (str_eqb (right_line (month 2020 10 log_budget) (lit "Clothing"))) (r_out (budget_cmd E_budget O_budget)) = false)
    by (vm_compute; reflexivity).
  assert (Y : existsb (str_eqb (right_line (month 2020 10 log_budget) (lit "Clothing"))) (r_out (budget_cmd E_budget O_budget)) = true).
  { apply existsb_exists. eexists. split; [exact I|]. apply str_eqb_refl. }
  congruence.
Qed.

(** ... but budget entries are taken whatever their month: asked for November on,
    October's is reported. *)
Definition O_november := opts3 (lit "2020-11-01") [] false [].
Definition log_november : list move := computed E_budget O_november 0 (fst (stream E_budget O_november)).
Lemma november : forall n d b, withinDateRange E_budget O_november 0 (Txn d NoState [] [] None [] []) = POk b ->
  good_flags E_budget O_november n /\ (b = false -> ~ within E_budget O_november n d).
Proof.
  intros n d b H. pose proof (within_spec E_budget O_november n (Txn d NoState [] [] None [] []) (env0_sane _)) as X.
  change (withinDateRange E_budget O_november n (Txn d NoState [] [] None [] [])) with (withinDateRange E_budget O_november 0 (Txn d NoState [] [] None [] [])) in X.
  rewrite H in X. destruct b; destruct X; split; auto. discriminate.
Qed.
Lemma flags_always : forall E O us, (forall n, good_flags E O n) -> flags_ok E O us.
Proof. intros E O us H. apply Forall_forall. intros u _. apply H. Qed.
Lemma log_november_history : history E_budget O_november [] 0 (fst (stream E_budget O_november)) log_november.
Proof.
  apply computed_history; [apply env0_sane|]. apply flags_always. intro n.
  apply (november n zero_date false). vm_compute. reflexivity.
Qed.
Opaque log_november.
Theorem C60_flags_refuted : exists E O log m, sane_clock E /\ orders E /\ o_args O = [] /\ history E O [] 0 (fst (stream E O)) log /\
  r_status (budget_cmd E O) = SOk /\ In m log /\ (forall n, ~ within E O n (mv_date m)) /\
  In (budget_line (month 2020 10 [m]) (lit "Clothing")) (r_out (budget_cmd E O)).
Proof.
  exists E_budget, O_november, log_november, (nth 0 log_november (Move IncomePosting zero_date (Posting [] [] None))).
  split; [apply env0_sane|]. split; [apply env0_orders|]. split; [reflexivity|]. split; [exact log_november_history|].
  split; [vm_compute; reflexivity|]. split; [apply nth_In; vm_compute; lia|]. split.
  - intro n. assert (Q : mv_date (nth 0 log_november (Move IncomePosting zero_date (Posting [] [] None))) = Date 2020 10 1) by (vm_compute; reflexivity).
    rewrite Q. apply (november n (Date 2020 10 1) false); vm_compute; reflexivity.
  - apply nth_error_In with (n := 13%nat). vm_compute. reflexivity.
Qed.

(** ** C64: complaints about commodities *)

Lemma one_commodity : forall c ps, Forall (fun p => commodity_of p = c) ps -> ps <> [] -> first_commodity ps = c.
Proof.
  intros c ps. induction ps as [|p ps IH] using rev_ind; intros F N; [contradiction|]. apply Forall_app in F as [F1 F2]. inversion F2; subst.
  rewrite first_commodity_snoc. destruct ps as [|q ps]; [reflexivity|]. rewrite IH by (auto; discriminate). destruct (commodity_of p); reflexivity.
Qed.
Lemma one_commodity_of : forall c (f : move -> bool) ms m, Forall (fun m => commodity_of (mv_posting m) = c) ms -> In m ms -> f m = true ->
  first_commodity (map mv_posting (filter f ms)) = c.
Proof.
  intros c f ms m F I Fm. apply one_commodity.
  - rewrite Forall_forall in *. intros p J. apply in_map_iff in J as (x & <- & J). apply filter_In in J as [J _]. now apply F.
  - intro X. assert (J : In m (filter f ms)) by (now apply filter_In). apply (in_map mv_posting) in J. rewrite X in J. destruct J.
Qed.
Lemma no_objection : forall verb c, objection verb c c = [].
Proof. intros. unfold objection. now rewrite str_eqb_refl. Qed.

(** With one commodity and categories of one level nothing is printed about
    commodities (the fund must not come first in its month). *)
Theorem C64_quiet_partial : forall c ms,
  Forall (fun m => commodity_of (mv_posting m) = c) ms ->
  Forall (fun m => is_earn m = true \/ to_fund m = true \/ length (category m) = 1%nat) ms ->
  (forall pre m post, ms = pre ++ m :: post -> to_fund m = true ->
     exists m', In m' pre /\ to_fund m' = false /\ d_year (mv_date m') = d_year (mv_date m) /\ d_month (mv_date m') = d_month (mv_date m)) ->
  objected [] ms = [].
Proof.
  intros c ms F L Fu. assert (G : forall post pre, ms = pre ++ post -> objected pre post = []).
  { induction post as [|m post IH]; intros pre Q; [reflexivity|]. cbn [objected]. rewrite (IH (pre ++ [m])) by (now rewrite <- app_assoc). rewrite app_nil_r.
    rewrite Q in F, L. apply Forall_app in F as [F1 F2]. apply Forall_app in L as [_ L2]. inversion F2 as [|? ? Fm _]; subst. inversion L2 as [|? ? Lm _]; subst.
    set (bf := month (d_year (mv_date m)) (d_month (mv_date m)) pre).
    assert (Fb : Forall (fun x => commodity_of (mv_posting x) = commodity_of (mv_posting m)) bf).
    { apply Forall_forall. intros x I. apply filter_In in I as [I _]. rewrite Forall_forall in F1. now apply F1. }
    assert (Fa : Forall (fun x => commodity_of (mv_posting x) = commodity_of (mv_posting m)) (bf ++ [m])) by (apply Forall_app; auto).
    assert (Ia : In m (bf ++ [m])) by (apply in_or_app; right; now left).
    unfold objections. destruct (is_earn m) eqn:Ie.
    - assert (Tf : to_fund m = false) by (unfold to_fund, is_assign, is_earn in *; destruct (mv_type m); try discriminate; reflexivity).
      unfold income_commodity, envelope_commodity. rewrite (one_commodity_of _ is_earn _ m Fa Ia Ie), (one_commodity_of _ (fun m => negb (to_fund m)) _ m Fa Ia) by (now rewrite Tf).
      now rewrite !no_objection.
    - destruct (to_fund m) eqn:Tf.
      + destruct (Fu pre m post eq_refl Tf) as (m' & I' & T' & Y & M). unfold envelope_commodity.
        rewrite (one_commodity_of _ (fun m => negb (to_fund m)) bf m' Fb); [apply no_objection| |now rewrite T'].
        apply filter_In. split; [exact I'|]. unfold in_month. now rewrite Y, M, !Z.eqb_refl.
      + destruct Lm as [Lm|[Lm|Lm]]; try discriminate. destruct (category m) as [|k [|? ?]] eqn:Ca; try discriminate. cbn [up map app flat_map].
        rewrite shown_commodity_snoc, names_ordinary by (split; assumption). rewrite Ca. destruct (list_str_dec [k] [k]); [|contradiction].
        rewrite no_objection. cbn [app].
        assert (X : (if is_spend m then spending_commodity (bf ++ [m]) else envelope_commodity (bf ++ [m])) = commodity_of (mv_posting m)).
        { destruct (is_spend m).
          - unfold spending_commodity. apply (one_commodity_of _ (fun m => negb (to_fund m) && negb (is_earn m)) _ m Fa Ia). now rewrite Tf, Ie.
          - unfold envelope_commodity. apply (one_commodity_of _ (fun m => negb (to_fund m)) _ m Fa Ia). now rewrite Tf. }
        rewrite X, no_objection. reflexivity. }
  now apply (G ms []).
Qed.
Example C64_quiet_example : objected [] log_budget = [] /\ length log_budget = 9%nat /\
  forallb (fun m => str_eqb (commodity_of (mv_posting m)) (lit "£")) log_budget = true.
Proof. split; [vm_compute; reflexivity|]. split; vm_compute; reflexivity. Qed.

(** A category below one that no posting has named is complained about, whatever
    the commodity. *)
Theorem C64_deep : forall before m q r, is_earn m = false -> to_fund m = false -> category m = q ++ r -> q <> [] -> r <> [] ->
  commodity_of (mv_posting m) <> [] -> Forall (fun x => names q x = false) before ->
  In (lit "unhandled " ++ (if is_spend m then lit "subtraction" else lit "addition") ++ lit " of unmatched commodities: '' and '" ++
      commodity_of (mv_posting m) ++ lit "'" ++ [10]) (objections before m).
Proof.
  intros before m q r Ie Tf Ca Nq Nr Nc F. unfold objections. rewrite Ie, Tf. apply in_flat_map. exists q. split.
  { apply up_prefix. exists r. exact Ca. }
  destruct q as [|k q]; [contradiction|].
  assert (S : shown_commodity (k :: q) (before ++ [m]) = []).
  { rewrite shown_commodity_snoc, names_ordinary by (split; assumption). destruct (list_str_dec (k :: q) (category m)) as [X|_].
    - exfalso. rewrite Ca in X. apply Nr. apply (app_inv_head (k :: q)). rewrite app_nil_r. now symmetry.
    - unfold shown_commodity. replace (filter (names (k :: q)) before) with (@nil move); [reflexivity|]. induction F as [|x l Fx F IH]; [reflexivity|].
      cbn [filter]. now rewrite Fx. }
  rewrite S. unfold objection. destruct (str_eqb [] (commodity_of (mv_posting m))) eqn:Q; [apply str_eqb_eq in Q; congruence|]. left. destruct (is_spend m); reflexivity.
Qed.

Definition text_deep : str :=
  lit "2020-10-02 * x" ++ [10] ++ lit "    Assets:Current" ++ [10] ++ lit "    Expenses:Food:Shop    £40.00" ++ [10; 10].
Theorem C64_one_commodity_refuted : exists E O, sane_clock E /\ orders E /\ r_status (budget_cmd E O) = SOk /\
  Forall (fun ev => match ev with ETxn t _ => Forall (fun p => commodity_of p = lit "£" /\ po_amount p <> None) (t_postings t) | EPer _ _ => False end) (fst (stream E O)) /\
  hd [] (r_out (budget_cmd E O)) = lit "unhandled subtraction of unmatched commodities: '' and '£'" ++ [10].
Proof.
  exists (env0 [(lit "j", text_deep)]), O_budget. split; [apply env0_sane|]. split; [apply env0_orders|]. split; [vm_compute; reflexivity|].
  split; [|vm_compute; reflexivity].
  assert (X : fst (stream (env0 [(lit "j", text_deep)]) O_budget) =
    [ETxn (Txn (Date 2020 10 2) ClearedState (lit "x") [Posting [] (lit "Assets:Current") (Some (Amount (lit "£") (-4000))); Posting [] (lit "Expenses:Food:Shop") (Some (Amount (lit "£") 4000))] (Some 0%nat) [] []) (lit "j")])
    by (vm_compute; reflexivity).
  rewrite X. constructor; [|constructor]. repeat constructor; discriminate.
Qed.

Example C58_example : exists s bm, budget_run E_budget O_budget [] = (s, SOk) /\ In (Date 2020 10 1, bm) (h_data s) /\
  am_quantity (acc_amount (bm_envelope bm)) = 10000 /\ assigned [] (month 2020 10 log_budget) = 5000.
Proof.
  exists (fst (budget_run E_budget O_budget [])), (month_of (h_data (fst (budget_run E_budget O_budget []))) (Date 2020 10 1)).
  split; [vm_compute; reflexivity|]. split; [apply nth_error_In with (n := 0%nat); vm_compute; reflexivity|]. split; vm_compute; reflexivity.
Qed.
Example C60_example : exists m, In m log_november /\ is_assign m = false /\ mv_date m = Date 2020 11 1.
Proof. exists (nth 5 log_november (Move IncomePosting zero_date (Posting [] [] None))). split; [apply nth_In; vm_compute; lia|]. split; vm_compute; reflexivity. Qed.
