(** * From the text of a journal in several files and a command line with dates and
    filters to what is printed: C104

    As in [PropsWhole.v], the statements mention neither the lexer nor the parser
    nor the commands. *)
From Verif Require Import Base BaseFacts Utf8 Utf8Facts Unicode GoTime Strconv Display Journal Lexer Parser ParserFacts
  Account Humanize Reporting Budget Cmd Main Spec TextSpec JournalText TreeSpec TreeFacts ReportSpec CalendarFacts CmdSpec StreamFacts CmdFacts BalanceFacts
  MainSpec JournalFacts AmountFacts DateFacts FlatSpec BookText WholeFacts FilesText FilesFacts BudgetSpec
  Sample PropsText PropsParser PropsCmd PropsBalance PropsStats PropsInput PropsPrint PropsAgain PropsPanic PropsMain PropsBudget PropsWords PropsWhole PropsBook.

(** ** What is chosen by dates and filters *)

(** Of the transactions given, the first being the [n]th of the journal, these are
    processed, with the postings given. *)
Inductive chosen (E : env) (O : opts) (fs : list filter_) : nat -> list transaction -> list (transaction * list posting) -> Prop :=
| ChooseNone : forall n, chosen E O fs n [] []
| ChooseNot : forall n t ts sel, ~ within E O n (t_date t) \/ hit E fs t = false ->
    chosen E O fs (S n) ts sel -> chosen E O fs n (t :: ts) sel
| ChooseIt : forall n t ts ps sel, within E O n (t_date t) -> hit E fs t = true ->
    Permutation ps (hits E fs t) -> (fs = [] \/ whole_hit E fs t = true -> ps = t_postings t) ->
    chosen E O fs (S n) ts sel -> chosen E O fs n (t :: ts) ((t, ps) :: sel).

(** What happens to the budget; budget entries are never left out. *)
Inductive happened (E : env) (O : opts) (fs : list filter_) : nat -> list FlatSpec.entry -> list move -> Prop :=
| HappensEnd : forall n, happened E O fs n [] []
| HappensBudget : forall n pt es log, happened E O fs n es log ->
    happened E O fs n (PerEntry pt :: es) (allocations pt ++ log)
| HappensNot : forall n t es log, ~ within E O n (t_date t) \/ hit E fs t = false ->
    happened E O fs (S n) es log -> happened E O fs n (TxnEntry t :: es) log
| HappensTxn : forall n t ps es log, within E O n (t_date t) -> hit E fs t = true ->
    Permutation ps (hits E fs t) -> (fs = [] \/ whole_hit E fs t = true -> ps = t_postings t) ->
    happened E O fs (S n) es log -> happened E O fs n (TxnEntry t :: es) (activity t ps ++ log).

Definition unnumbered (x : used * list posting) : transaction * list posting := (u_txn (fst x), snd x).

Lemma picks_chosen : forall E O fs evs n sel, picks E O fs (txns n evs) sel -> chosen E O fs n (recorded (map erase evs)) (map unnumbered sel).
Proof.
  intros E O fs. induction evs as [|[t p|pt p] evs IH]; intros n sel P; cbn [txns map erase recorded flat_map app] in *.
  - inversion P. constructor.
  - inversion P as [|? ? ? No P'|? ? ? ps W H Pm Wh P']; subst; cbn [u_n u_txn] in *; [apply ChooseNot|apply ChooseIt]; auto.
  - now apply IH.
Qed.

Lemma history_happened : forall E O fs evs n log, history E O fs n evs log <-> happened E O fs n (map erase evs) log.
Proof.
  intros E O fs. induction evs as [|[t p|pt p] evs IH]; intros n log; cbn [map erase]; split; intro H; inversion H; subst; constructor; auto; now apply IH.
Qed.

Lemma txns_recorded : forall evs n, map u_txn (txns n evs) = recorded (map erase evs).
Proof. induction evs as [|[t p|pt p] evs IH]; intro n; [reflexivity| |]; cbn [txns map erase recorded flat_map app u_txn]; fold (recorded (map erase evs)); now rewrite ?IH. Qed.

Lemma txns_numbered : forall evs n k u, nth_error (txns n evs) k = Some u -> u_n u = (n + k)%nat.
Proof.
  induction evs as [|[t p|pt p] evs IH]; intros n k u H; cbn [txns] in H; [destruct k; discriminate| |now apply IH].
  destruct k as [|k]; cbn in H; [injection H as <-; cbn; lia|]. apply IH in H. lia.
Qed.

Section Files.
Variables (E : env) (L : err -> str) (help_text : list str -> str) (library : list str -> result).
Hypotheses (Clock : sane_clock E) (Orders : orders E).
Variables (O : opts) (path bytes : str) (ls : list str) (deep : nat) (written : list writing) (es : list FlatSpec.entry) (fs : list filter_).
Notation ts := (recorded es).

(** The journal named holds the lines [ls]; in these and in the files included, the
    transactions and budget entries [written] are written. *)
Hypotheses (Path : journal_path E O = Some path) (Held : e_fs E path = Some (File bytes false)) (Lines : lines_written bytes ls)
  (Written : filed (e_unicode E) (e_fs E) deep path ls written) (Deep : (deep <= e_depth E)%nat) (Settled : Forall2 means written es).
(** The arguments are filters; the dates given are dates. *)
Hypotheses (Filters : filters_for E (o_args O) fs) (Flags : forall k, (k < length ts)%nat -> good_flags E O k).

Lemma files_stream : map erase (fst (stream E O)) = es /\ snd (stream E O) = SOk.
Proof. unfold stream. rewrite Path, Held. eapply files_read; eassumption. Qed.

(** The entries of all files reach the commands one by one, in the order written,
    those of an included file in place of the line that includes it. *)
Theorem C104_read : map erase (fst (stream E O)) = es /\ snd (stream E O) = SOk.
Proof. exact files_stream. Qed.

Lemma files_txns : map u_txn (txns 0 (fst (stream E O))) = ts.
Proof. rewrite txns_recorded. now rewrite (proj1 files_stream). Qed.

Lemma files_readable : CmdSpec.readable E O.
Proof.
  split; [exact (proj2 files_stream)|]. apply Forall_forall. intros u I. apply In_nth_error in I as [k N].
  rewrite (txns_numbered _ _ _ _ N). cbn [Nat.add]. apply Flags. rewrite <- files_txns, map_length. apply nth_error_Some. rewrite N. discriminate.
Qed.

Lemma files_chosen : forall sel, picks E O fs (txns 0 (fst (stream E O))) sel -> chosen E O fs 0 ts (map unnumbered sel).
Proof. intros sel P. apply picks_chosen in P. now rewrite (proj1 files_stream) in P. Qed.

Lemma files_picked : exists sel, picks E O fs (txns 0 (fst (stream E O))) sel.
Proof.
  pose proof files_readable as [_ R]. induction R as [|u us G R IH]; [exists []; constructor|]. destruct IH as [sel P].
  pose proof (within_spec E O (u_n u) (u_txn u) Clock) as W. destruct (withinDateRange E O (u_n u) (u_txn u)) as [[]| |]; [| |contradiction|contradiction].
  - destruct (hit E fs (u_txn u)) eqn:H.
    + exists ((u, hits E fs (u_txn u)) :: sel). apply PickIt; auto; [apply W|]. intro X. unfold hits. destruct fs as [|f l]; [reflexivity|].
      destruct X as [X| ->]; [discriminate|reflexivity].
    + exists sel. apply PickNot; auto.
  - exists sel. apply PickNot; auto. left. apply W.
Qed.

Lemma ts_priced : Forall (fun t => Forall priced (t_postings t)) ts.
Proof.
  clear - Settled. induction Settled as [|w e l l' S F IH]; [constructor|]. destruct S as [t t' S|a pt S]; [|exact (IH F)].
  cbn [recorded flat_map app]. fold (recorded l'). constructor; [|exact (IH F)]. now apply settled_priced with t.
Qed.

Lemma taken_unnumbered : forall sel, flat_map snd (map unnumbered sel) = taken sel.
Proof. induction sel as [|[u ps] sel IH]; [reflexivity|]. cbn [map flat_map unnumbered snd]. now rewrite IH. Qed.

Lemma selected_unnumbered : forall sel, map fst (map unnumbered sel) = selected sel.
Proof. intro sel. unfold selected. now rewrite map_map. Qed.

Lemma hits_incl : forall t p, In p (hits E fs t) -> In p (t_postings t).
Proof. intros t p. unfold hits. destruct fs; [auto|]. destruct (whole_hit _ _ _); [auto|]. intro I. now apply filter_In in I. Qed.

Lemma files_priced : forall sel, picks E O fs (txns 0 (fst (stream E O))) sel -> Forall priced (taken sel).
Proof.
  intros sel P. apply Forall_forall. intros p I. unfold taken in I. apply in_flat_map in I as ([u ps] & I & J). cbn [snd] in J.
  apply (picks_in _ _ _ _ _ _ _ P) in I as (I & _ & _ & Pm). apply (Permutation_in _ Pm), hits_incl in J.
  pose proof ts_priced as Q. rewrite <- files_txns in Q. rewrite Forall_forall in Q. specialize (Q _ (in_map u_txn _ _ I)).
  rewrite Forall_forall in Q. now apply Q.
Qed.

Lemma files_balanced : r_status (balance_cmd E O) = SOk.
Proof.
  apply (C61_balance E O fs Clock Orders Filters). split; [exact files_readable|]. destruct files_picked as (sel & P).
  exists sel. split; [exact P|]. now apply files_priced.
Qed.

Notation gledger := (Main.gledger E L help_text library).

(** print prints the transactions chosen, each once, in the order of their dates. *)
Theorem C104_print : forall argv, asks argv Print O false -> sorts E ->
  exists sel sorted, chosen E O fs 0 ts sel /\ Permutation sorted (map fst sel) /\ date_ordered sorted /\
    gledger argv = Result (concat (lines (map transaction_string sorted))) (Some 0).
Proof.
  intros argv A S. destruct (C79_flags_partial E L help_text library argv Print O false A) as [G _]. rewrite (G eq_refl). cbn [does].
  destruct (C42_print E O fs Clock Orders S Filters) as [K _]. destruct (K files_readable) as (sel & l & P & Pm & D & Q).
  rewrite Q. exists (map unnumbered sel), l. split; [now apply files_chosen|]. rewrite selected_unnumbered. auto.
Qed.

(** accounts lists the accounts, payees the payees of the transactions within the
    dates, as far as they match one of the arguments. *)
Lemma range_nth : forall evs n sel, in_range E O (txns n evs) sel -> forall t,
  In t (map u_txn sel) <-> exists k, nth_error (recorded (map erase evs)) k = Some t /\ within E O (n + k) (t_date t).
Proof.
  induction evs as [|[t p|pt p] evs IH]; intros n sel R t'; cbn [txns map erase recorded flat_map app] in *.
  - inversion R; subst. split; [intros []|]. intros ([|k] & H & _); discriminate.
  - fold (recorded (map erase evs)). inversion R as [|? ? ? No R'|? ? ? W R']; subst; cbn [u_n u_txn] in *.
    + rewrite (IH _ _ R'). split.
      * intros (k & N & W). exists (Datatypes.S k). split; [exact N|]. now rewrite Nat.add_succ_r.
      * intros ([|k] & N & W); [cbn in N; injection N as <-; rewrite Nat.add_0_r in W; contradiction|]. exists k. rewrite Nat.add_succ_r in W. auto.
    + cbn [map u_txn In]. rewrite (IH _ _ R'). split.
      * intros [<-|(k & N & W')]; [exists 0%nat; rewrite Nat.add_0_r; auto|]. exists (Datatypes.S k). split; [exact N|]. now rewrite Nat.add_succ_r.
      * intros ([|k] & N & W'); [cbn in N; injection N as <-; now left|]. right. exists k. rewrite Nat.add_succ_r in W'. auto.
  - now apply IH.
Qed.

Theorem C104_listings : forall argv,
  (asks argv Accounts O false -> exists names, ascending names /\
     (forall a, In a names <-> (exists k t p, nth_error ts k = Some t /\ within E O k (t_date t) /\ In p (t_postings t) /\ po_account p = a) /\
        (fs = [] \/ exists f, In f fs /\ e_re_match E (f_regex f) a = true)) /\
     gledger argv = Result (concat (lines names)) (Some 0)) /\
  (asks argv Payees O false -> Forall (fun a => e_re_ok E (case_text E a) = true) (o_args O) -> exists names, ascending names /\
     (forall x, In x names <-> (exists k t, nth_error ts k = Some t /\ within E O k (t_date t) /\ t_payee t = x) /\
        (o_args O = [] \/ exists a, In a (o_args O) /\ e_re_match E (case_text E a) x = true)) /\
     gledger argv = Result (concat (lines names)) (Some 0)).
Proof.
  intro argv. split; intro A.
  - destruct (C79_flags_partial E L help_text library argv Accounts O false A) as [G _]. rewrite (G eq_refl). cbn [does].
    destruct (C40_accounts E O fs Clock Orders Filters) as [K _]. destruct (K files_readable) as (sel & names & P & Q & As & I).
    rewrite Q. pose proof (range_nth _ _ _ P) as R. rewrite (proj1 files_stream) in R.
    exists names. split; [exact As|]. split; [|reflexivity]. intro a. rewrite I. apply and_iff_compat_r. unfold uses. split.
    + intros (u & p & Iu & Ip & X). destruct (proj1 (R (u_txn u)) (in_map _ _ _ Iu)) as (k & N & W). exists k, (u_txn u), p. auto.
    + intros (k & t & p & N & W & Ip & X). assert (J : In t (map u_txn sel)) by (apply R; eauto). apply in_map_iff in J as (u & <- & Iu). eauto.
  - intro Ok. destruct (C79_flags_partial E L help_text library argv Payees O false A) as [G _]. rewrite (G eq_refl). cbn [does].
    destruct (C41_payees E O fs Clock Orders Filters Ok) as [K _]. destruct (K files_readable) as (sel & names & P & Q & As & I).
    rewrite Q. pose proof (range_nth _ _ _ P) as R. rewrite (proj1 files_stream) in R.
    exists names. split; [exact As|]. split; [|reflexivity]. intro a. rewrite I. apply and_iff_compat_r. unfold pays. split.
    + intros (u & Iu & X). destruct (proj1 (R (u_txn u)) (in_map _ _ _ Iu)) as (k & N & W). exists k, (u_txn u). auto.
    + intros (k & t & N & W & X). assert (J : In t (map u_txn sel)) by (apply R; eauto). apply in_map_iff in J as (u & <- & Iu). eauto.
Qed.

(** balance sums the postings chosen. *)
Definition posting_line (flat : bool) (ps : list posting) (q : list str) : str :=
  column (first_commodity (filter (below q) ps)) (wrap64 (total (filter (below q) ps))) ++ [32; 32] ++
  (if flat then join [58] (visible q) else rep (2 * (length q - 1)) 32 ++ last q (lit "_root_")).

Lemma held_any : forall ps q, exists d, holds ps q d.
Proof.
  intros ps q. exists (AD (last q (lit "_root_")) (join [58] (visible q))
    (Amount (first_commodity (filter (below q) ps)) (wrap64 (total (filter (below q) ps)))) (filter (here q) ps)). split; reflexivity.
Qed.

Theorem C104_balance : forall argv, asks argv Balance O false -> o_flatten O = false -> o_collapse O = false ->
  exists sel accounts, chosen E O fs 0 ts sel /\ let ps := flat_map snd sel in
    StronglySorted path_lt accounts /\ (forall q, In q accounts <-> q <> [] /\ shown (o_show_zero O) ps q) /\
    gledger argv = Result (concat (complaints [] ps) ++ unlines (map (posting_line false ps) accounts) ++ [10] ++
                             lit "--------------------" ++ [10] ++ column [] (wrap64 (total ps)) ++ [10]) (Some 0).
Proof.
  intros argv A Ff Fc. destruct (C79_flags_partial E L help_text library argv Balance O false A) as [G _]. rewrite (G eq_refl). cbn [does].
  destruct (C61_rows E O fs Clock Orders Filters Ff Fc files_balanced) as (sel & rows & P & Or & I & Q).
  exists (map unnumbered sel), (map fst rows). split; [now apply files_chosen|]. rewrite taken_unnumbered. cbv zeta. split; [exact Or|]. split.
  - intro q. split.
    + intro J. apply in_map_iff in J as ([q' d] & <- & J). apply I in J as (N & S & _). auto.
    + intros [N S]. destruct (held_any (taken sel) q) as [d H]. apply (in_map fst rows (q, d)). apply I. auto.
  - unfold result_of. pose proof files_balanced as Ok. destruct (balance_cmd E O) as [out st]. cbn [r_out r_status] in *. subst st out.
    f_equal. rewrite concat_app. f_equal. cbn [concat]. rewrite map_map. rewrite <- !app_assoc, app_nil_r.
    unfold posting_line. cbn [app]. reflexivity.
Qed.

Theorem C104_balance_flat : forall argv, asks argv Balance O false -> o_flatten O = true ->
  exists sel accounts, chosen E O fs 0 ts sel /\ let ps := flat_map snd sel in
    StronglySorted path_lt accounts /\
    (forall q, In q accounts <-> (q = [] \/ shown (o_show_zero O) ps q) /\ forall k, ~ shown (o_show_zero O) ps (q ++ [k])) /\
    gledger argv = Result (concat (complaints [] ps) ++ unlines (map (posting_line true ps) accounts) ++ [10] ++
                             lit "--------------------" ++ [10] ++ column [] (wrap64 (total ps)) ++ [10]) (Some 0).
Proof.
  intros argv A Ff. destruct (C79_flags_partial E L help_text library argv Balance O false A) as [G _]. rewrite (G eq_refl). cbn [does].
  destruct (C61_flat E O fs Clock Orders Filters Ff files_balanced) as (sel & rows & P & Or & I & Q).
  exists (map unnumbered sel), (map fst rows). split; [now apply files_chosen|]. rewrite taken_unnumbered. cbv zeta. split; [exact Or|]. split.
  - intro q. split.
    + intro J. apply in_map_iff in J as ([q' d] & <- & J). apply I in J as (S & _ & N). auto.
    + intros [S N]. destruct (held_any (taken sel) q) as [d H]. apply (in_map fst rows (q, d)). apply I. auto.
  - unfold result_of. pose proof files_balanced as Ok. destruct (balance_cmd E O) as [out st]. cbn [r_out r_status] in *. subst st out.
    f_equal. rewrite concat_app. f_equal. cbn [concat]. rewrite map_map. rewrite <- !app_assoc, app_nil_r.
    unfold posting_line. cbn [app]. reflexivity.
Qed.

(** With --collapse, an account below which exactly one is shown shares its line. *)
Theorem C104_balance_collapsed : forall argv, asks argv Balance O false -> o_flatten O = false -> o_collapse O = true ->
  exists sel lines_, chosen E O fs 0 ts sel /\ let ps := flat_map snd sel in let sh := shown (o_show_zero O) ps in
    StronglySorted path_lt (map fst lines_) /\
    (forall q n names, In (q, (n, names)) lines_ <-> q <> [] /\ sh q /\ ~ alone sh q /\ folded (alone sh) q n names) /\
    gledger argv = Result (concat (complaints [] ps) ++
        unlines (map (fun l => column (first_commodity (filter (below (fst l)) ps)) (wrap64 (total (filter (below (fst l)) ps)))
                               ++ lit "  " ++ repeat 32 (2 * fst (snd l)) ++ join (lit ":") (snd (snd l))) lines_) ++ [10] ++
        lit "--------------------" ++ [10] ++ column [] (wrap64 (total ps)) ++ [10]) (Some 0).
Proof.
  intros argv A Ff Fc. destruct (C79_flags_partial E L help_text library argv Balance O false A) as [G _]. rewrite (G eq_refl). cbn [does].
  destruct (C61_collapsed E O fs Clock Orders Filters Ff Fc files_balanced) as (sel & rows & P & Or & I & Q).
  exists (map unnumbered sel), rows. split; [now apply files_chosen|]. rewrite taken_unnumbered. cbv zeta. split; [exact Or|]. split; [exact I|].
  unfold result_of. pose proof files_balanced as Ok. destruct (balance_cmd E O) as [out st]. cbn [r_out r_status] in *. subst st out.
  f_equal. rewrite concat_app. f_equal. cbn [concat]. rewrite <- !app_assoc, app_nil_r. reflexivity.
Qed.

(** budget prints a block for every month in which something happens. *)
Theorem C104_budget : forall argv, asks argv Budget_ O false ->
  ((exists log, happened E O fs 0 es log /\ Forall proper log) -> exists log months blocks, happened E O fs 0 es log /\ months_of log months /\
     Forall2 (fun ym b => month_block (fst ym) (snd ym) (month (fst ym) (snd ym) log) b) months blocks /\
     gledger argv = Result (concat (objected [] log ++ concat blocks)) (Some 0)) /\
  ((forall log, happened E O fs 0 es log -> ~ Forall proper log) -> p_exit (gledger argv) = Some 2).
Proof.
  intros argv A. assert (Hh : forall log, history E O fs 0 (fst (stream E O)) log <-> happened E O fs 0 es log).
  { intro log. rewrite history_happened. now rewrite (proj1 files_stream). }
  split.
  - intros (log0 & H0 & P0). destruct (C79_flags_partial E L help_text library argv Budget_ O false A) as [G _]. rewrite (G eq_refl). cbn [does].
    destruct (C48_report E O fs Clock Orders Filters) as [Ok R].
    assert (S : r_status (budget_cmd E O) = SOk) by (apply Ok; split; [exact files_readable|]; exists log0; split; [now apply Hh|exact P0]).
    destruct (R S) as (log & l & bs & H & M & Fb & Q). apply Hh in H. exists log, l, bs. split; [exact H|]. split; [exact M|]. split; [exact Fb|].
    destruct (budget_cmd E O) as [out st]. cbn [r_out r_status] in *. subst st out. reflexivity.
  - intro N. destruct (C77_reports_partial E L help_text library argv Budget_ O fs A (or_intror (or_introl eq_refl)) Clock Orders Filters files_readable) as [[X|X] Y]; [|exact X].
    exfalso. apply Y in X as (_ & X & _). destruct (X eq_refl) as (log & H & P). apply Hh in H. now apply (N log H).
Qed.

(** statistics counts what is chosen. *)
Theorem C104_statistics : forall argv, asks argv Statistics O false ->
  exists sel, chosen E O fs 0 ts sel /\
  (sel = [] -> gledger argv = Result (lit "No transactions matched arguments." ++ [10]) (Some 0)) /\
  (sel <> [] -> Forall (fun t => t_date t <> Date 1 1 1) (map fst sel) ->
   exists first last period rate files accounts payees nf nt na np age,
    gledger argv = Result (lit "Transactions found in " ++ nf ++ lit " files:" ++ [10] ++ flat_map (fun f => lit "  " ++ f ++ [10]) files ++
      lit "First transaction:" ++ tab ++ format_date first ++ lit " (" ++ humanize (e_now E 0) (instant first * ns) ++ lit ")" ++ [10] ++
      lit "Last transaction:" ++ tab ++ format_date last ++ lit " (" ++ humanize (e_now E 1) (instant last * ns) ++ lit ")" ++ [10] ++
      lit "Time period:" ++ tab ++ tab ++ period ++
      lit "Transactions:" ++ tab ++ tab ++ nt ++ lit " (" ++ rate ++
      lit "Unique accounts:" ++ tab ++ na ++ [10] ++ lit "Unique payees:" ++ tab ++ tab ++ np ++ [10] ++
      lit "Age of money:" ++ tab ++ tab ++ age) (Some 0) /\
    In first (map t_date (map fst sel)) /\ (forall t, In t (map fst sel) -> ~ earlier (t_date t) first) /\
    In last (map t_date (map fst sel)) /\ (forall t, In t (map fst sel) -> ~ earlier last (t_date t)) /\
    NoDup files /\ canonical nf (Z.of_nat (length files)) /\ canonical nt (Z.of_nat (length sel)) /\
    NoDup accounts /\ (forall a, In a accounts <-> exists p, In p (flat_map snd sel) /\ po_account p = a) /\ canonical na (Z.of_nat (length accounts)) /\
    NoDup payees /\ (forall a, In a payees <-> exists t, In t (map fst sel) /\ t_payee t = a) /\ canonical np (Z.of_nat (length payees))).
Proof.
  intros argv A. destruct (C79_flags_partial E L help_text library argv Statistics O false A) as [G _]. rewrite (G eq_refl). cbn [does].
  assert (Ok : r_status (stats_cmd E O) = SOk).
  { apply (C44_completes E O fs Clock Orders Filters). split; [exact files_readable|]. destruct files_picked as (sel & P).
    exists sel. split; [exact P|]. eapply Forall_impl; [|exact (files_priced sel P)]. intros p H X. contradiction. }
  destruct (stats_cmd E O) as [out st] eqn:B. cbn [r_status] in Ok. subst st.
  destruct (C44_stats_partial E O fs out Clock Orders Filters B) as (_ & sel & P & Em & K).
  exists (map unnumbered sel). split; [now apply files_chosen|]. rewrite selected_unnumbered, taken_unnumbered, map_length. split.
  { intro X. assert (Ns : sel = []) by (now destruct sel). rewrite (Em Ns). reflexivity. }
  intros Ne Nd. assert (Ns : sel <> []) by (intros ->; now apply Ne).
  destruct (K Ns) as (nf & fl & fd & ld & period & nt & rate & na & np & age & accs & pays & files & Q & Cn & [Da Ia] & Ca & [Dp Ip] & Cp & [Df If] & Cf & Pf & Dt).
  destruct (Dt Nd) as [[F1 F2] [L1 L2]].
  exists fd, ld, period, rate, fl, accs, pays, nf, nt, na, np, age.
  split.
  { unfold result_of. cbn [r_out r_status]. rewrite Q. f_equal. rewrite !concat_app. cbn [concat map app]. rewrite <- flat_map_concat_map. unfold shown_date.
    rewrite <- !app_assoc, ?app_nil_r. cbn [app]. rewrite <- ?app_assoc. reflexivity. }
  split; [exact F1|]. split; [intros t I; apply F2; now apply in_map|]. split; [exact L1|]. split; [intros t I; apply L2; now apply in_map|].
  split; [eapply Permutation_NoDup; [symmetry; exact Pf|exact Df]|]. split; [now rewrite (Permutation_length Pf)|]. split; [exact Cn|].
  split; [exact Da|]. split.
  { intro a. rewrite Ia. unfold taken, used_accounts. split.
    - intros (u & ps & p & I & Jp & X). exists p. split; [|exact X]. apply in_flat_map. exists (u, ps). auto.
    - intros (p & I & X). apply in_flat_map in I as ([u ps] & I & J). eauto 6. }
  split; [exact Ca|]. split; [exact Dp|]. split; [|exact Cp].
  intro a. rewrite Ip. unfold selected, used_payees. split.
  - intros (u & ps & I & X). exists (u_txn u). split; [|exact X]. apply in_map_iff. exists (u, ps). auto.
  - intros (t & I & X). apply in_map_iff in I as ([u ps] & <- & I). eauto.
Qed.
End Files.

(** ** Example *)
Definition part_lines : list str := shop_lines ++ shop_lines.
(** Carriage returns, and no line feed at the end. *)
Definition part_bytes : str := flat_map (fun l => l ++ [13; 10]) (removelast part_lines) ++ last part_lines [].
Definition main_lines : list str := [lit "; all of it"; lit "include part.j"; lit "include   sub/plan.j"] ++ cafe_lines.
Definition main_files : list (str * str) :=
  [(lit "dir/main.j", text_of main_lines); (lit "dir/part.j", part_bytes); (lit "dir/sub/plan.j", text_of plan_lines)].
Definition main_written : list writing := [WTxn shop_txn; WTxn shop_txn; WBudget plan; WTxn cafe_txn].
Definition main_entries : list FlatSpec.entry := [TxnEntry shop_filled; TxnEntry shop_filled; PerEntry plan_filled; TxnEntry cafe_txn].
Definition O_main : opts := Opts (lit "dir/main.j") (lit "2020-02-01") [] false [lit "cash"] false false false.
Definition argv_main : list str := [lit "-f"; lit "dir/main.j"; lit "balance"; lit "cash"; lit "--begin=2020-02-01"].

Ltac lines_fit := repeat constructor; vm_compute; try discriminate; try reflexivity;
  let X := fresh in intro X; repeat (destruct X as [X|X]; [discriminate X|]); exact X.

Lemma crlf_written : forall ls, ls <> [] -> last ls [] <> [] -> Forall JournalText.readable ls -> Forall (fun l => Z.of_nat (length l) < 4095) ls ->
  lines_written (flat_map (fun l => l ++ [13; 10]) (removelast ls) ++ last ls []) ls.
Proof.
  induction ls as [|l [|l2 ls] IH]; intros Ne Nl R R'; [contradiction| |].
  - cbn in *. apply FileLast; [exact Nl|]. now inversion R.
  - inversion R as [|? ? R1 R2]; subst. inversion R' as [|? ? R1' R2']; subst.
    change (removelast (l :: l2 :: ls)) with (l :: removelast (l2 :: ls)). change (last (l :: l2 :: ls) []) with (last (l2 :: ls) []) in *.
    cbn [flat_map]. rewrite <- !app_assoc. apply FileLineCR; auto. apply IH; auto. discriminate.
Qed.

Lemma main_filed : filed U0 (disk main_files) 1 (lit "dir/main.j") main_lines main_written.
Proof.
  assert (Dir : lit "dir/" = [] \/ last (lit "dir/") 0 = 47) by (right; reflexivity).
  assert (Base : ~ In 47 (lit "main.j")) by (vm_compute; intuition discriminate).
  assert (Utf : valid_utf8 (lit "dir/")) by (exists (lit "dir/"); split; [valid_runes|reflexivity]).
  assert (Cafe : filed U0 (disk main_files) 1 (lit "dir/main.j") cafe_lines [WTxn cafe_txn]) by (apply book_filed; exact (journal_book _ _ _ cafe_written)).
  assert (Shop : forall n path, filed U0 (disk main_files) n path part_lines [WTxn shop_txn; WTxn shop_txn]).
  { intros n path. unfold part_lines. apply FiledTxn; [exact shop_written| |].
    - constructor; [|constructor]. right. left. do 2 eexists. split; [reflexivity|]. vm_compute. split; discriminate.
    - rewrite <- (app_nil_r shop_lines). apply FiledTxn; [exact shop_written|constructor|constructor]. }
  assert (Plan : forall n path, filed U0 (disk main_files) n path plan_lines [WBudget plan]).
  { intros n path. rewrite <- (app_nil_r plan_lines). apply FiledBudget; [exact plan_written|constructor|constructor]. }
  apply (FiledComment U0 (disk main_files) 1 (lit "dir/main.j") 59 (lit " all of it")); [now left|].
  apply (FiledInclude U0 (disk main_files) 0 (lit "dir/") (lit "main.j") 0 (lit "part.j") part_bytes part_lines [WTxn shop_txn; WTxn shop_txn]); auto; try reflexivity.
  - exists (lit "part.j"). split; [valid_runes|]. split; [|reflexivity]. repeat split; try discriminate; try valid_runes; reflexivity.
  - apply crlf_written; try discriminate; [lines_fit|repeat constructor].
  - apply (FiledInclude U0 (disk main_files) 0 (lit "dir/") (lit "main.j") 2 (lit "sub/plan.j") (text_of plan_lines) plan_lines [WBudget plan]); auto; try reflexivity.
    + exists (lit "sub/plan.j"). split; [valid_runes|]. split; [|reflexivity]. repeat split; try discriminate; try valid_runes; reflexivity.
    + apply text_lines_written. lines_fit.
Qed.

Lemma main_asks : asks argv_main Balance O_main false.
Proof.
  exists ([lit "-f"; lit "dir/main.j"] ++ []), [Given FFile (lit "dir/main.j")], (lit "balance"),
    ([lit "cash"] ++ [lit "--begin=2020-02-01"] ++ []), [Word (lit "cash"); Given FBegin (lit "2020-02-01")].
  split; [reflexivity|]. split; [left; reflexivity|]. split.
  { constructor; [left; reflexivity|left; do 2 eexists; apply DocFile|apply (ShortNext FFile (lit "file") (ch "f")); apply DocFile|constructor]. }
  split; [cbn; intuition discriminate|]. split.
  - apply LinePlain. apply LineWord; [right; right; split; discriminate|].
    apply LineFlag; [left; right; left; reflexivity|left; do 2 eexists; apply DocBegin|apply (LongEquals FBegin (lit "begin") (ch "b") true); apply DocBegin|constructor].
  - constructor; reflexivity.
Qed.

Example C104_example : let E := env2 main_files in
  journal_path E O_main = Some (lit "dir/main.j") /\ e_fs E (lit "dir/main.j") = Some (File (text_of main_lines) false) /\
  lines_written (text_of main_lines) main_lines /\ filed (e_unicode E) (e_fs E) 1 (lit "dir/main.j") main_lines main_written /\ (1 <= e_depth E)%nat /\
  Forall2 means main_written main_entries /\ filters_for E (o_args O_main) [Filter (lit "(?i)cash") AccountNameFilter] /\
  (forall k, good_flags E O_main k) /\ sane_clock E /\ orders E /\ asks argv_main Balance O_main false /\
  Main.gledger E L0 help0 lib0 argv_main = Result (lit
"              $-4.50  Assets
              $-4.50    Cash
--------------------
               -4.50
") (Some 0).
Proof.
  intro E. split; [reflexivity|]. split; [reflexivity|]. split; [apply text_lines_written; lines_fit|]. split; [exact main_filed|]. split; [cbn; lia|].
  split.
  { assert (S : means (WTxn shop_txn) (TxnEntry shop_filled)).
    { constructor. apply (OneLeft (Date 2020 1 2) NoState (lit "Shop") [] [] (lit "A")
        [Posting [] (lit "C") (cents "$" 1000); Posting [] (lit "D") (cents "$" 200)] [] []); [repeat constructor; discriminate|].
      unfold zero64. vm_compute. discriminate. }
    constructor; [exact S|]. constructor; [exact S|]. constructor; [constructor; apply FundPays; repeat constructor; discriminate|]. constructor; [|constructor].
    constructor; constructor; split; [reflexivity|]; split; [repeat constructor; discriminate|reflexivity]. }
  split. { split.
    - apply Forall2_cons; [|apply Forall2_nil]. apply (ForAccount E (lit "cash")); discriminate.
    - apply Forall_cons; [reflexivity|apply Forall_nil]. }
  split. { intro k. split; [|left; reflexivity]. right. right. exists (Date 2020 2 1). left.
    apply (SmartFull 2021 45); [left; reflexivity| |].
    - apply (YMD 45 (Date 2020 2 1) (lit "2020") (lit "02") (lit "01")); (split; [reflexivity|split; [repeat constructor; vm_compute; discriminate|reflexivity]]).
    - right. right. left. cbn. split; [reflexivity|lia]. }
  split; [intro n; cbn; lia|]. split; [split; intros; apply Permutation_refl|]. split; [exact main_asks|]. vm_compute. reflexivity.
Qed.
