(** * C128: the date flags strike out the transactions of other days *)
From Verif Require Import Base BaseFacts Utf8 Unicode GoTime Strconv Display Journal JournalFacts Lexer Parser ParserFacts Account TreeFacts
  Reporting Budget Cmd Spec TextSpec DateFacts CalendarFacts AmountFacts CmdSpec StreamFacts CmdFacts ReportSpec TreeSpec FlatSpec FlatFacts
  Sample PropsText PropsParser PropsCmd PropsBalance PropsPrint PropsStats BudgetSpec BudgetFacts PropsBudget PropsReread PropsAgain PropsConcat PropsJoin PropsJoinMore
  PropsOrder PropsRanges PropsStatistics PropsMonths ProgramFacts.

(** The same command line without the date flags. *)
Definition undated (O : opts) : opts := Opts (o_file O) [] [] false (o_args O) (o_flatten O) (o_collapse O) (o_show_zero O).

(** What is left of a journal when the transactions of days outside the range are
    struck out.  Budget entries stay. *)
Inductive struck (E : env) (O : opts) : list event -> list event -> Prop :=
| StruckEnd : struck E O [] []
| StruckBudget : forall pt p es es', struck E O es es' -> struck E O (EPer pt p :: es) (EPer pt p :: es')
| StruckIn : forall t p es es', within E O 0 (t_date t) -> 0 <= instant (t_date t) -> struck E O es es' -> struck E O (ETxn t p :: es) (ETxn t p :: es')
| StruckOut : forall t p es es', ~ within E O 0 (t_date t) -> struck E O es es' -> struck E O (ETxn t p :: es) es'.

Section Days.
Variable E : env.
Variable O : opts.
Variable files : str -> option file.
Variable depth : nat.
Let E' := with_files E files depth.
Let O' := undated O.
Variable fs : list filter_.
Hypothesis Clock : sane_clock E.
Hypothesis Orders : orders E.
Hypothesis Sorts : sorts E.
Hypothesis Steady : steady E.
Hypothesis Filters : filters_for E (o_args O) fs.
Hypothesis Flags : good_flags E O 0.
Hypothesis Ok : snd (stream E O) = SOk.
Hypothesis Ok' : snd (stream E' O') = SOk.
Hypothesis Struck : struck E O (fst (stream E O)) (fst (stream E' O')).

Lemma days_clock : sane_clock E'. Proof. exact Clock. Qed.
Lemma days_orders : orders E'. Proof. exact Orders. Qed.
Lemma days_sorts : sorts E'. Proof. exact Sorts. Qed.
Lemma days_filters : filters_for E' (o_args O') fs.
Proof. apply makeFilters_spec. exact (proj2 (makeFilters_spec E (o_args O) fs) Filters). Qed.
Lemma days_all : o_args O = [] -> fs = [].
Proof. intro A. pose proof (proj1 Filters) as X. rewrite A in X. now inversion X. Qed.
Lemma days_readable : CmdSpec.readable E O.
Proof. split; [exact Ok|]. apply Forall_forall. intros u _. now apply (flags_steady E O Steady 0). Qed.
Lemma days_readable' : CmdSpec.readable E' O'.
Proof. split; [exact Ok'|]. apply Forall_forall. intros u _. split; now left. Qed.

(** The two selections: the same transactions and the same postings of each. *)
Definition same_pick (x y : used * list posting) : Prop := u_txn (fst y) = u_txn (fst x) /\ u_path (fst y) = u_path (fst x) /\ snd y = snd x.
Lemma undated_within : forall n d, 0 <= instant d -> within E' O' n d.
Proof. intros n d H. split; [left; split; [now left|exact H]|right; left; split; reflexivity]. Qed.
Lemma within_any : forall n d, within E O n d <-> within E O 0 d.
Proof. intros n d. apply (within_steady E O Steady). Qed.

Lemma struck_picks : forall es es', struck E O es es' -> forall n m sel, picks E O fs (txns n es) sel ->
  exists sel', picks E' O' fs (txns m es') sel' /\ Forall2 same_pick sel sel'.
Proof.
  intros es es' S. induction S as [|pt p es es' S IH|t p es es' W Y S IH|t p es es' No S IH]; intros n m sel P; cbn [txns] in *.
  - inversion P. exists []. split; constructor.
  - eapply IH; eauto.
  - inversion P as [|? ? ? N P1|? ? ? ps W' Ht Pm Wh P1]; subst; destruct (IH _ (Datatypes.S m) _ P1) as (sel' & P' & F).
    + exists sel'. split; [|exact F]. apply PickNot; [|exact P']. destruct N as [N|N]; [|now right]. exfalso. apply N. now apply within_any.
    + eexists ((_, ps) :: sel'). split; [apply PickIt; [now apply undated_within|exact Ht|exact Pm|exact Wh|exact P']|]. constructor; [repeat split|exact F].
  - inversion P as [|? ? ? N P1|? ? ? ps W' Ht Pm Wh P1]; subst; [eapply IH; eauto|]. exfalso. apply No. now apply (within_any n).
Qed.
Lemma struck_range : forall es es', struck E O es es' -> forall n m sel, in_range E O (txns n es) sel ->
  exists sel', in_range E' O' (txns m es') sel' /\ map u_txn sel' = map u_txn sel.
Proof.
  intros es es' S. induction S as [|pt p es es' S IH|t p es es' W Y S IH|t p es es' No S IH]; intros n m sel P; cbn [txns] in *.
  - inversion P. exists []. split; constructor.
  - eapply IH; eauto.
  - inversion P as [|? ? ? N P1|? ? ? W' P1]; subst; [exfalso; apply N; now apply within_any|]. destruct (IH _ (Datatypes.S m) _ P1) as (sel' & P' & F).
    eexists (_ :: sel'). split; [apply RangeIn; [now apply undated_within|exact P']|]. cbn. now f_equal.
  - inversion P as [|? ? ? N P1|? ? ? W' P1]; subst; [eapply IH; eauto|]. exfalso. apply No. now apply (within_any n).
Qed.
Lemma struck_history : forall es es', struck E O es es' -> forall n m log, history E O fs n es log -> history E' O' fs m es' log.
Proof.
  intros es es' S. induction S as [|pt p es es' S IH|t p es es' W Y S IH|t p es es' No S IH]; intros n m log H; inversion H as [|? ? ? ? l H1|? ? ? ? l N H1|? ? ? ps ? l W' Ht Pm Wh H1]; subst.
  - constructor.
  - constructor. eauto.
  - apply HistNot; [|eauto]. destruct N as [N|N]; [|now right]. exfalso. apply N. now apply within_any.
  - apply HistTxn; [now apply undated_within|exact Ht|exact Pm|exact Wh|eauto].
  - eauto.
  - exfalso. apply No. now apply (within_any n).
Qed.

Lemma same_picks : forall sel sel', Forall2 same_pick sel sel' ->
  selected sel' = selected sel /\ taken sel' = taken sel /\ (forall a, used_files sel' a <-> used_files sel a).
Proof.
  intros sel sel' F. unfold selected, taken, used_files. induction F as [|[u ps] [u' ps'] l l' (Q & Q1 & Q2) F (I1 & I2 & I3)]; cbn in *; [split; [reflexivity|split; [reflexivity|reflexivity]]|].
  subst ps'. split; [congruence|]. split; [congruence|]. intro a. split; intros (v & qs & [I|I] & X).
  - injection I as <- <-. exists u, ps. split; [now left|congruence].
  - destruct (proj1 (I3 a)) as (w & rs & J & Y); [eauto|]. exists w, rs. split; [now right|exact Y].
  - injection I as <- <-. exists u', ps. split; [now left|congruence].
  - destruct (proj2 (I3 a)) as (w & rs & J & Y); [eauto|]. exists w, rs. split; [now right|exact Y].
Qed.
Lemma days_picks : exists sel sel', picks E O fs (txns 0 (fst (stream E O))) sel /\ picks E' O' fs (txns 0 (fst (stream E' O'))) sel' /\
  selected sel' = selected sel /\ taken sel' = taken sel /\ (forall a, used_files sel' a <-> used_files sel a).
Proof.
  destruct (proj1 (C42_print E O fs Clock Orders Sorts Filters) days_readable) as (sel & _ & P & _).
  destruct (struck_picks _ _ Struck 0 0 _ P) as (sel' & P' & F). exists sel, sel'. split; [exact P|]. split; [exact P'|]. exact (same_picks _ _ F).
Qed.

(** print prints the same text, ... *)
Theorem C128_print : print_cmd E' O' = print_cmd E O.
Proof.
  destruct days_picks as (sel & sel' & P & P' & Se & _).
  pose proof (print_run_spec E O fs Clock Orders) as K. pose proof (print_run_spec E' O' fs days_clock days_orders) as K'.
  pose proof (proj2 (makeFilters_spec E (o_args O) fs) Filters) as F. unfold print_cmd, with_filters.
  change (makeFilters E' (o_args O')) with (makeFilters E (o_args O)). rewrite F. unfold finish.
  destruct (print_run E O fs) as [s r]. destruct r; [|exfalso; apply (proj1 K), days_readable..].
  destruct (print_run E' O' fs) as [s' r']. destruct r'; [|exfalso; apply (proj1 K'), days_readable'..].
  destruct K as (_ & Q & t & T & D), K' as (_ & Q' & t' & T' & D'). rewrite Q, Q', D, D', (picks_selected _ _ _ _ _ _ T P), (picks_selected _ _ _ _ _ _ T' P'), Se. reflexivity.
Qed.

(** ... accounts and payees list the same names, ... *)
Theorem C128_listings : Forall (fun x => e_re_ok E (case_text E x) = true) (o_args O) -> forall cmd, cmd = accounts_cmd \/ cmd = payees_cmd ->
  r_status (cmd E O) = SOk /\ cmd E' O' = cmd E O.
Proof.
  intros A cmd [-> | ->].
  - destruct (proj1 (C40_accounts E O fs Clock Orders Filters) days_readable) as (s & n & P & -> & A1 & L).
    destruct (proj1 (C40_accounts E' O' fs days_clock days_orders days_filters) days_readable') as (s' & n' & P' & -> & A1' & L').
    destruct (struck_range _ _ Struck 0 0 _ P) as (s2 & P2 & Q). rewrite (range_fun _ _ _ _ _ P2 P') in Q.
    split; [reflexivity|]. do 2 f_equal. apply ascending_same; auto. intro z. rewrite L, L'.
    assert (U : forall sel a, uses sel a <-> exists t q, In t (map u_txn sel) /\ In q (t_postings t) /\ po_account q = a).
    { intros sel a. unfold uses. split.
      - intros (u & q & I & X). exists (u_txn u), q. split; [now apply in_map|exact X].
      - intros (t & q & I & X). apply in_map_iff in I as (u & <- & I). eauto. }
    rewrite !U, Q. reflexivity.
  - destruct (proj1 (C41_payees E O fs Clock Orders Filters A) days_readable) as (s & n & P & -> & A1 & L).
    destruct (proj1 (C41_payees E' O' fs days_clock days_orders days_filters A) days_readable') as (s' & n' & P' & -> & A1' & L').
    destruct (struck_range _ _ Struck 0 0 _ P) as (s2 & P2 & Q). rewrite (range_fun _ _ _ _ _ P2 P') in Q.
    split; [reflexivity|]. do 2 f_equal. apply ascending_same; auto. intro z. rewrite L, L'.
    assert (U : forall sel a, pays sel a <-> exists t, In t (map u_txn sel) /\ t_payee t = a).
    { intros sel a. unfold pays. split.
      - intros (u & I & X). exists (u_txn u). split; [now apply in_map|exact X].
      - intros (t & I & X). apply in_map_iff in I as (u & <- & I). eauto. }
    rewrite !U, Q. reflexivity.
Qed.

(** ... balance prints the same report, with arguments at least in one
    commodity, ... *)
Theorem C128_balance : (r_status (balance_cmd E O) = SOk <-> r_status (balance_cmd E' O') = SOk) /\
  (r_status (balance_cmd E O) = SOk -> o_args O = [] \/ (exists c, Forall (fun u => uniform c (t_postings (u_txn u))) (txns 0 (fst (stream E O)))) ->
   balance_cmd E' O' = balance_cmd E O).
Proof.
  destruct days_picks as (sel & sel' & P & P' & Se & Ta & _).
  destruct (C61_balance E O fs Clock Orders Filters) as [K _]. destruct (C61_balance E' O' fs days_clock days_orders days_filters) as [K' _].
  assert (Pr : r_status (balance_cmd E O) = SOk <-> Forall priced (taken sel)).
  { rewrite K. split; [intros [_ (s & Ps & H)]; eapply Permutation_Forall; [exact (hits_taken _ _ _ _ _ _ Ps P)|exact H]|]. intro H. split; [exact days_readable|]. exists sel. auto. }
  assert (Pr' : r_status (balance_cmd E' O') = SOk <-> Forall priced (taken sel')).
  { rewrite K'. split; [intros [_ (s & Ps & H)]; eapply Permutation_Forall; [exact (hits_taken _ _ _ _ _ _ Ps P')|exact H]|]. intro H. split; [exact days_readable'|]. exists sel'. auto. }
  split; [now rewrite Pr, Pr', Ta|]. intros H [A|[c U]].
  - pose proof days_filters as Df. pose proof Filters as Fi. rewrite (days_all A) in Fi, Df, P, P'.
    apply (balance_equal E O sel E' O' sel'); auto using days_readable, days_readable', days_clock, days_orders, days_filters; [now apply Pr|now rewrite Ta].
  - apply (balance_perm c E O fs sel E' O' fs sel'); auto using days_readable, days_readable', days_clock, days_orders, days_filters; [now apply Pr| |now rewrite Ta].
    unfold uniform. apply Forall_forall. intros q I. unfold taken in I. apply in_flat_map in I as ([u ps] & I & J).
    apply (picks_in _ _ _ _ _ _ _ P) in I as (I & _ & _ & Pm). rewrite Forall_forall in U. specialize (U u I). unfold uniform in U.
    rewrite Forall_forall in U. apply U. eapply hits_in. eapply Permutation_in; eauto.
Qed.

(** ... stats the same report but for the order of the files, ... *)
Theorem C128_stats : (r_status (stats_cmd E O) = SOk <-> r_status (stats_cmd E' O') = SOk) /\
  (r_status (stats_cmd E O) = SOk -> Forall (fun u => t_date (u_txn u) <> Date 1 1 1) (txns 0 (fst (stream E O))) ->
   exists head names names' tail, Permutation names names' /\
     r_out (stats_cmd E O) = head ++ names ++ tail /\ r_out (stats_cmd E' O') = head ++ names' ++ tail).
Proof.
  destruct days_picks as (sel & sel' & P & P' & Se & Ta & Uf).
  assert (B : r_status (stats_cmd E O) = SOk <-> r_status (stats_cmd E' O') = SOk).
  { rewrite (C44_completes E O fs Clock Orders Filters), (C44_completes E' O' fs days_clock days_orders days_filters). split; intros [_ (s & Ps & H)].
    - split; [exact days_readable'|]. exists sel'. split; [exact P'|]. rewrite Ta. eapply Permutation_Forall; [exact (hits_taken _ _ _ _ _ _ Ps P)|exact H].
    - split; [exact days_readable|]. exists sel. split; [exact P|]. rewrite <- Ta. eapply Permutation_Forall; [exact (hits_taken _ _ _ _ _ _ Ps P')|exact H]. }
  split; [exact B|]. intros H Nz. pose proof (proj1 B H) as H'.
  assert (N1 : Forall (fun t => t_date t <> Date 1 1 1) (selected sel)).
  { clear - P Nz. induction P; [constructor|inversion Nz; auto|]. inversion Nz; subst. constructor; auto. }
  destruct (C122_figures E O fs sel E' O' fs sel' Clock Orders Filters days_clock days_orders days_filters (fun n => eq_refl) H H' P P') as (f1 & f2 & rep & X1 & X2 & Q1 & Q2).
  { rewrite Se. apply Forall_app. split; exact N1. }
  { destruct (picked_by _ _ _ _ _ P) as [T G], (picked_by _ _ _ _ _ P') as [T' G'].
    apply (figures_of sel sel' (hits E fs) (hits E' fs) (selected sel) (selected sel)); auto; [now rewrite Se|]. clear. induction (selected sel); constructor; auto. }
  rewrite Q1, Q2. pose proof (f_equal (@length _) Se) as Le. unfold selected in Le. rewrite !map_length in Le.
  destruct X1 as [[-> ->]|[Ne (l1 & n1 & L1 & K1 & ->)]], X2 as [[-> ->]|[Ne2 (l2 & n2 & L2 & K2 & ->)]].
  - exists [], [], [], rep. auto.
  - exfalso. apply Ne2. destruct sel'; [reflexivity|discriminate].
  - exfalso. apply Ne. destruct sel; [reflexivity|discriminate].
  - assert (Pf : Permutation l1 l2).
    { apply NoDup_Permutation; [apply L1|apply L2|]. intro a. now rewrite (proj2 L1 a), (proj2 L2 a), Uf. }
    rewrite (Permutation_length Pf) in K1. rewrite (MistakeFacts.canonical_unique _ _ _ (Nat2Z.is_nonneg _) K1 K2).
    exists [lit "Transactions found in " ++ n2 ++ lit " files:" ++ [10]], (map (fun p => lit "  " ++ p ++ [10]) l1), (map (fun p => lit "  " ++ p ++ [10]) l2), rep.
    split; [now apply Permutation_map|]. rewrite <- !app_assoc. split; reflexivity.
Qed.

(** ... and budget tells of the same moves; without arguments its report is the
    same. *)
Lemma history_whole : forall A B n evs log, history A B [] n evs log -> forall log', history A B [] n evs log' -> log' = log.
Proof.
  intros A B n evs log H. induction H as [n|n pt p evs log H IH|n t p evs log No H IH|n t p ps evs log W Hi P Wh H IH]; intros log' K; inversion K; subst; auto.
  - f_equal. auto.
  - exfalso. destruct No as [No|No]; [contradiction|congruence].
  - exfalso. match goal with N : _ \/ _ |- _ => destruct N as [N|N]; [contradiction|congruence] end.
  - f_equal; auto. rewrite Wh by now left. f_equal. auto.
Qed.
Lemma same_blocks : forall log l bs l' bs', months_of log l -> months_of log l' ->
  Forall2 (fun ym b => month_block (fst ym) (snd ym) (month (fst ym) (snd ym) log) b) l bs ->
  Forall2 (fun ym b => month_block (fst ym) (snd ym) (month (fst ym) (snd ym) log) b) l' bs' -> bs' = bs.
Proof.
  intros log l bs l' bs' [S I] [S' I'] F F'.
  assert (l = l') as <- by (apply months_same; [exact S|exact S'|]; intros [y m]; now rewrite I, I').
  clear - F F'. revert bs' F'. induction F as [|ym b l bs H F IH]; intros bs' F'; inversion F' as [|? b' ? bs2 H' F2]; subst; [reflexivity|].
  f_equal; [|auto]. destruct H as [cs [A B]], H' as [cs' [A' B']]. assert (cs' = cs) as -> by (apply ascending_same; [exact A'|exact A|]; intro x; now rewrite B, B'). reflexivity.
Qed.
Theorem C128_budget : (r_status (budget_cmd E O) = SOk <-> r_status (budget_cmd E' O') = SOk) /\
  (r_status (budget_cmd E O) = SOk -> exists log log', budget_tells E O fs log /\ budget_tells E' O' fs log' /\ Permutation log log' /\
     (o_args O = [] -> budget_cmd E' O' = budget_cmd E O)).
Proof.
  destruct (history_exists E O fs Clock Orders Sorts Filters days_readable) as (log & H). pose proof (struck_history _ _ Struck 0 0 _ H) as H'.
  pose proof (C48_report E O fs Clock Orders Filters) as [K L]. pose proof (C48_report E' O' fs days_clock days_orders days_filters) as [K' L'].
  assert (B : r_status (budget_cmd E O) = SOk <-> r_status (budget_cmd E' O') = SOk).
  { rewrite K, K'. split; intros [_ (x & X & Q)].
    - split; [exact days_readable'|]. exists log. split; [exact H'|]. eapply Permutation_Forall; [exact (history_same _ _ _ _ _ _ X _ H)|exact Q].
    - split; [exact days_readable|]. exists log. split; [exact H|]. eapply Permutation_Forall; [exact (history_same _ _ _ _ _ _ X _ H')|exact Q]. }
  split; [exact B|]. intro R. pose proof (proj1 B R) as R'.
  destruct (L R) as (l1 & ms1 & bs1 & Hi1 & M1 & T1 & Q1). destruct (L' R') as (l2 & ms2 & bs2 & Hi2 & M2 & T2 & Q2). exists l1, l2.
  split; [exists ms1, bs1; auto|]. split; [exists ms2, bs2; auto|]. split.
  { rewrite <- (history_same _ _ _ _ _ _ H _ Hi1). exact (history_same _ _ _ _ _ _ H' _ Hi2). }
  intro A. rewrite (days_all A) in H, H', Hi1, Hi2. pose proof (history_whole _ _ _ _ _ H _ Hi1). pose proof (history_whole _ _ _ _ _ H' _ Hi2). subst l1 l2.
  assert (Q : r_out (budget_cmd E' O') = r_out (budget_cmd E O)) by (rewrite Q1, Q2; f_equal; f_equal; exact (same_blocks log ms1 bs1 ms2 bs2 M1 M2 T1 T2)).
  destruct (budget_cmd E O), (budget_cmd E' O'). cbn in *. congruence.
Qed.
End Days.

(** A journal of parts, an empty line after each; the parts are marked.  Those
    without a mark have only transactions outside the range, and are left out. *)
Definition all_parts (xs : list (bool * str)) : str := one_after_another (map snd xs).
Definition kept_parts (xs : list (bool * str)) : str := one_after_another (map snd (filter fst xs)).
Definition day_part (E : env) (O : opts) (p : str) (x : bool * str) : Prop :=
  Forall (fun e => match e with
                   | ETxn t _ => if fst x then within E O 0 (t_date t) /\ 0 <= instant (t_date t) else ~ within E O 0 (t_date t)
                   | EPer _ _ => fst x = true
                   end) (fst (stream (holding E p (snd x)) O)).
Lemma struck_app : forall E O a a' b b', struck E O a a' -> struck E O b b' -> struck E O (a ++ b) (a' ++ b').
Proof. intros E O a a' b b' S S'. induction S; cbn; [exact S'|constructor; auto..]. Qed.
Theorem C128_parts : forall E O p xs, journal_path E O = Some p -> sane_clock E -> orders E -> sorts E -> steady E -> o_args O = [] -> good_flags E O 0 ->
  Forall (fun x => line_start (snd x)) xs -> Forall (day_part E O p) xs ->
  let E1 := holding E p (all_parts xs) in let E2 := holding E p (kept_parts xs) in let O' := undated O in
  snd (stream E1 O) = SOk ->
  print_cmd E2 O' = print_cmd E1 O /\ accounts_cmd E2 O' = accounts_cmd E1 O /\ payees_cmd E2 O' = payees_cmd E1 O /\
  (r_status (balance_cmd E1 O) = SOk -> balance_cmd E2 O' = balance_cmd E1 O) /\ (r_status (budget_cmd E1 O) = SOk -> budget_cmd E2 O' = budget_cmd E1 O).
Proof.
  intros E O p xs J C Or So St A G Ls Dp E1 E2 O' Ok.
  assert (L1 : Forall line_start (map snd xs)) by (apply Forall_map; exact Ls).
  assert (L2 : Forall line_start (map snd (filter fst xs))).
  { apply Forall_map. rewrite Forall_forall in *. intros x I. apply filter_In in I as [I _]. auto. }
  destruct (parts_stream E O p J _ L1) as [A1 A2]. destruct (parts_stream E O p J _ L2) as [B1 B2].
  change (holding E p (one_after_another (map snd xs))) with E1 in A1, A2. change (holding E p (one_after_another (map snd (filter fst xs)))) with E2 in B1, B2.
  change (stream E2 O) with (stream E2 O') in B1, B2.
  assert (Ok' : snd (stream E2 O') = SOk).
  { apply B1. apply A1 in Ok as [F Z]. split; [|exact Z]. apply Forall_map. apply Forall_map in F. rewrite Forall_forall in *. intros x I. apply filter_In in I as [I _]. auto. }
  assert (S : struck E1 O (fst (stream E1 O)) (fst (stream E2 O'))).
  { rewrite A2, B2 by assumption. clear - Dp.
    assert (X : struck E O (flat_map (fun x => fst (stream (holding E p x) O)) (map snd xs)) (flat_map (fun x => fst (stream (holding E p x) O)) (map snd (filter fst xs)))).
    { induction Dp as [|[b x] xs D Dp IH]; [constructor|]. unfold day_part in D. cbn [fst snd] in D. cbn [map filter fst snd flat_map].
      destruct b; cbn [map flat_map snd].
      - apply struck_app; [|exact IH]. induction D as [|[t q|pt q] es H D ID]; [constructor|destruct H; constructor; auto|constructor; auto].
      - rewrite <- (app_nil_l (flat_map _ (map snd (filter fst xs)))). apply struck_app; [|exact IH].
        induction D as [|[t q|pt q] es H D ID]; [constructor|constructor; auto|discriminate]. }
    clear - X. subst E1. induction X; constructor; auto. }
  assert (F : filters_for E1 (o_args O) []) by (rewrite A; split; constructor).
  assert (Ro : Forall (fun x => e_re_ok E1 (case_text E1 x) = true) (o_args O)) by (rewrite A; constructor).
  pose (files := fun q => if str_eqb q p then Some (File (kept_parts xs) false) else e_fs E q).
  change E2 with (with_files E1 files (e_depth E)) in *.
  split; [exact (C128_print E1 O files (e_depth E) [] C Or So St F G Ok Ok' S)|].
  split; [apply (C128_listings E1 O files (e_depth E) [] C Or St F G Ok Ok' S Ro); auto|].
  split; [apply (C128_listings E1 O files (e_depth E) [] C Or St F G Ok Ok' S Ro); auto|].
  split; intro H; [apply (C128_balance E1 O files (e_depth E) [] C Or So St F G Ok Ok' S); auto|].
  destruct (proj2 (C128_budget E1 O files (e_depth E) [] C Or So St F G Ok Ok' S) H) as (_ & _ & _ & _ & _ & Q). auto.
Qed.

(** [day_part] can be computed. *)
Definition day_partb (E : env) (O : opts) (p : str) (x : bool * str) : bool :=
  forallb (fun e => match e with
                    | ETxn t _ => match withinDateRange E O 0 t with POk b => Bool.eqb b (fst x) && (negb (fst x) || (0 <=? instant (t_date t))) | _ => false end
                    | EPer _ _ => fst x
                    end) (fst (stream (holding E p (snd x)) O)).
Lemma day_partb_ok : forall E O p x, sane_clock E -> day_partb E O p x = true -> day_part E O p x.
Proof.
  intros E O p [b x] C H. unfold day_partb in H. unfold day_part. rewrite forallb_forall in H. apply Forall_forall. intros [t q|pt q] I; specialize (H _ I); cbn [fst] in *; [|exact H].
  pose proof (within_spec E O 0 t C) as W. destruct (withinDateRange E O 0 t) as [b'|e|]; [|discriminate|discriminate].
  apply andb_prop in H as [H1 H2]. apply Bool.eqb_prop in H1. subst b'. destruct b; destruct W as [_ W]; [|exact W]. split; [exact W|]. cbn in H2. lia.
Qed.

Definition old_text : str := lit "2021-02-10 Old" ++ [10] ++ lit "  Expenses:Food  $7" ++ [10] ++ lit "  w" ++ [10].
Definition later_text : str := lit "2022-01-01 New year" ++ [10] ++ lit "  Expenses:Rent  $90" ++ [10] ++ lit "  w" ++ [10].
Definition day_parts : list (bool * str) := [(true, spend_text); (false, old_text); (true, assign_text); (false, later_text)].
Example C128_example : let E := env1 [] in let O := with_dates (opts0 "j") (lit "2021-03-02") (lit "2022") in let p := lit "j" in
  let E1 := holding E p (all_parts day_parts) in let E2 := holding E p (kept_parts day_parts) in
  journal_path E O = Some p /\ sane_clock E /\ orders E /\ sorts E /\ steady E /\ o_args O = [] /\ good_flags E O 0 /\
  Forall (fun x => line_start (snd x)) day_parts /\ Forall (day_part E O p) day_parts /\ snd (stream E1 O) = SOk /\
  length (txns 0 (fst (stream E1 O))) = 4%nat /\ length (txns 0 (fst (stream E2 (undated O)))) = 2%nat /\
  length (r_out (print_cmd E1 O)) = 2%nat /\ r_status (balance_cmd E1 O) = SOk /\ r_status (budget_cmd E1 O) = SOk /\ r_status (stats_cmd E1 O) = SOk /\
  balance_cmd E1 (undated O) <> balance_cmd E1 O.
Proof.
  cbv zeta. split; [reflexivity|]. split; [apply env1_clock|]. split; [apply env1_orders|]. split; [exact (env0_sorts [])|]. split; [intro n; split; reflexivity|].
  split; [reflexivity|]. split.
  { split; right; right; [exists (Date 2021 3 2)|exists (Date 2022 1 1)]; apply (C73_example 0). }
  split; [repeat (apply Forall_cons; [right; unfold spend_text, old_text, assign_text, later_text; cbn [snd]; rewrite !app_assoc; eexists; reflexivity|]); apply Forall_nil|].
  split; [repeat (apply Forall_cons; [apply day_partb_ok; [apply env1_clock|vm_compute; reflexivity]|]); apply Forall_nil|].
  do 7 (split; [vm_compute; reflexivity|]). vm_compute. discriminate.
Qed.
