(** * Properties of the whole statistics report: C108 *)
From Coq Require Import Floats.SpecFloat.
From Verif Require Import Base BaseFacts Utf8 Utf8Facts Unicode GoTime Strconv Display Journal Lexer Parser ParserFacts
  Account Humanize Reporting Budget Cmd Main Spec TextSpec JournalText TreeSpec TreeFacts ReportSpec CalendarFacts CmdSpec StreamFacts CmdFacts BalanceFacts
  MainSpec MainFacts JournalFacts AmountFacts DateFacts DisplayFacts FlatSpec BookText WholeFacts FilesText FilesFacts PlaceText PlaceFacts BudgetSpec
  Sample PropsText PropsParser PropsCmd PropsBalance PropsStats DayFacts FloatFacts AgeFacts BankFacts PropsAge PropsInput PropsWhere PropsPrint PropsAgain PropsPanic PropsMain PropsWords PropsBudget PropsWhole PropsBook PropsFiles.

(** [summary E sel exps incs out]: every line of the report, for the transactions
    selected; [exps] and [incs] are what was spent and earned, day by day. *)
Definition summary (E : env) (sel : list (used * list posting)) (exps incs : list (date * Z)) (out : str) : Prop :=
  exists files accounts payees first last n nf nt na np nd rate age,
  out = lit "Transactions found in " ++ nf ++ lit " files:" ++ [10] ++ flat_map (fun f => lit "  " ++ f ++ [10]) files ++
    lit "First transaction:" ++ tab ++ format_date first ++ lit " (" ++ humanize (e_now E 0) (instant first * ns) ++ lit ")" ++ [10] ++
    lit "Last transaction:" ++ tab ++ format_date last ++ lit " (" ++ humanize (e_now E 1) (instant last * ns) ++ lit ")" ++ [10] ++
    lit "Time period:" ++ tab ++ tab ++ nd ++ lit " days" ++ [10] ++
    lit "Transactions:" ++ tab ++ tab ++ nt ++ lit " (" ++ rate ++ lit " per day)" ++ [10] ++
    lit "Unique accounts:" ++ tab ++ na ++ [10] ++
    lit "Unique payees:" ++ tab ++ tab ++ np ++ [10] ++
    lit "Age of money:" ++ tab ++ tab ++ age ++ lit " days" ++ [10] /\
  lists (used_files sel) files /\ canonical nf (Z.of_nat (length files)) /\
  canonical nt (Z.of_nat (length sel)) /\
  lists (used_accounts sel) accounts /\ canonical na (Z.of_nat (length accounts)) /\
  lists (used_payees sel) payees /\ canonical np (Z.of_nat (length payees)) /\
  earliest sel first /\ latest sel last /\ days_later n first last /\ canonical nd (Z.min n 106752) /\
  (* transactions per day, to the nearest tenth *)
  (n = 0 -> rate = lit "+Inf") /\
  (0 < n -> exists k, tenths_text k rate /\ 2 * Z.abs (k * Z.min n 106752 - 10 * Z.of_nat (length sel)) <= Z.min n 106752) /\
  (* the mean age, to the nearest day *)
  (forall ages, Forall2 (fun '(e, i) a => days_from i e a) (fifo exps incs) ages ->
     Forall (fun a => Z.abs a <= 106751) ages -> Z.abs (zsum (averaged ages)) <= 106751 -> Z.of_nat (length ages) <= 10 ^ 9 ->
     let count := Z.max 1 (Z.of_nat (length ages)) in
     exists k, canonical age k /\ 2 * Z.abs (k * count - Z.max 0 (zsum (averaged ages))) <= count).

Definition alike (a b : list (used * list posting)) : Prop := Forall2 (fun a b => fst a = fst b /\ Permutation (snd a) (snd b)) a b.
Lemma same_sym : forall a b, alike a b -> alike b a.
Proof. induction 1 as [|x y a b [Q P] _ IH]; constructor; [|exact IH]. split; [now symmetry|now symmetry]. Qed.
Lemma same_in : forall a b u ps, alike a b -> In (u, ps) a -> exists ps', In (u, ps') b /\ Permutation ps ps'.
Proof.
  intros a b u ps S. induction S as [|[u1 p1] [u2 p2] a b [Q P] _ IH]; intro I; [destruct I|]. cbn in Q, P. subst u2. destruct I as [I|I].
  - inversion I; subst. exists p2. split; [now left|exact P].
  - destruct (IH I) as (ps' & J & X). exists ps'. split; [now right|exact X].
Qed.
Lemma same_files : forall a b, alike a b -> forall x, used_files a x <-> used_files b x.
Proof.
  intros a b S x. split; intros (u & ps & I & Q); [|apply same_sym in S]; destruct (same_in _ _ _ _ S I) as (ps' & J & _); exists u, ps'; auto.
Qed.
Lemma same_payees : forall a b, alike a b -> forall x, used_payees a x <-> used_payees b x.
Proof.
  intros a b S x. split; intros (u & ps & I & Q); [|apply same_sym in S]; destruct (same_in _ _ _ _ S I) as (ps' & J & _); exists u, ps'; auto.
Qed.
Lemma same_accounts : forall a b, alike a b -> forall x, used_accounts a x <-> used_accounts b x.
Proof.
  intros a b S x. split; intros (u & ps & p & I & J & Q); [|apply same_sym in S]; destruct (same_in _ _ _ _ S I) as (ps' & J' & P); exists u, ps', p;
    (split; [exact J'|]; split; [now apply (Permutation_in _ P)|exact Q]).
Qed.

Theorem C108_report : forall E O fs sel exps incs out, sane_clock E -> orders E -> filters_for E (o_args O) fs ->
  stats_cmd E O = Outcome out SOk -> picks E O fs (txns 0 (fst (stream E O))) sel -> sel <> [] ->
  Forall (fun t => t_date t <> Date 1 1 1) (selected sel) -> Z.of_nat (length sel) < 10 ^ 14 ->
  days_posted (lit "Expenses") 1 sel exps -> days_posted (lit "Income") (-1) sel incs ->
  Forall (fun x => 0 <= snd x < 2 ^ 63) exps -> Forall (fun x => 0 <= snd x < 2 ^ 63) incs ->
  summary E sel exps incs (concat out).
Proof.
  intros E O fs sel exps incs out C Or F H P Ne Nz Len De Di Ge Gi. apply makeFilters_spec in F. unfold stats_cmd, with_filters in H. rewrite F in H.
  unfold finish in H. destruct (stats_run E O fs) as [s r] eqn:R. destruct r; try discriminate.
  destruct (stats_run_spec E O fs s SOk C Or R) as (Ho & _).
  destruct (stats_run_banked E O fs s C Or R) as (sel' & P' & [Cc Ca Cp Cf Cn Cd] & B).
  pose proof (picks_same _ _ _ _ _ _ P P') as Same.
  assert (Sm : selected sel = selected sel').
  { unfold selected. rewrite <- !(map_map fst u_txn). f_equal. eapply picks_fun; eauto. }
  assert (Le : length sel = length sel') by (rewrite <- (map_length (fun x => u_txn (fst x)) sel), <- (map_length (fun x => u_txn (fst x)) sel'); exact (f_equal (@length _) Sm)).
  assert (Ne' : sel' <> []). { intros ->. destruct sel; [contradiction|discriminate]. }
  injection H as H. rewrite Ho in H. cbn [app] in H. unfold stats_report in H. rewrite Cc in H.
  destruct (Z.eqb_spec (Z.of_nat (length sel')) 0) as [Q|Q]; [destruct sel'; [contradiction|discriminate]|].
  cbv zeta in H. pose proof Nz as Nz'. rewrite Sm in Nz'. destruct (Cd Nz' Ne') as [[I1 L1] [I2 L2]].
  assert (RD : forall d, In d (map t_date (selected sel')) -> real_date d).
  { intros d I. apply in_map_iff in I as (t & <- & I). eapply selected_dated; eauto. }
  rewrite Forall_forall in L1, L2. destruct (days_between (s_first (h_data s)) (s_last (h_data s))) as [n D]; auto.
  { intro X. apply instant_order in X; auto. specialize (L1 _ I2). lia. }
  assert (N0 : 0 <= n) by (apply days_later_number in D; tauto).
  rewrite (period_float n) in H by exact D. rewrite <- Le in *.
  rewrite (all_ages_fifo (h_data s) sel' exps incs) in H; auto;
    [|apply Forall_forall; intros t I; eapply selected_dated; eauto|eapply days_posted_same; eauto|eapply days_posted_same; eauto].
  set (fl := e_order E (h_n s) _ (s_files (h_data s))) in *.
  assert (Pf : Permutation fl (s_files (h_data s))) by apply (proj1 Or).
  exists fl, (s_accounts (h_data s)), (s_payees (h_data s)), (s_first (h_data s)), (s_last (h_data s)), n.
  exists (itoa (Z.of_nat (length (s_files (h_data s))))), (itoa (Z.of_nat (length sel))), (itoa (Z.of_nat (length (s_accounts (h_data s))))),
    (itoa (Z.of_nat (length (s_payees (h_data s))))), (fmt_fixed 0 (float_of_int (Z.min n 106752))),
    (fmt_fixed 1 (float_div (float_of_int (Z.of_nat (length sel))) (float_of_int (Z.min n 106752)))),
    (fmt_fixed 0 (max0 (days_of (mean_age (map (fun '(e, i) => time_sub e i) (fifo exps incs)))))).
  split; [|split; [|split; [|split; [|split; [|split; [|split; [|split; [|split; [|split; [|split; [exact D|split; [|split; [|split]]]]]]]]]]]]].
  - rewrite <- H. rewrite !concat_app. cbn [concat map app]. rewrite <- flat_map_concat_map.
    rewrite <- !app_assoc, ?app_nil_r. cbn [app]. rewrite <- ?app_assoc. reflexivity.
  - destruct Cf as [Nd X]. split; [eapply Permutation_NoDup; [symmetry; exact Pf|exact Nd]|]. intro x.
    assert (Y : In x fl <-> In x (s_files (h_data s))) by (split; apply Permutation_in; [|symmetry]; exact Pf).
    rewrite Y, X. exact (same_files sel' sel (same_sym _ _ Same) x).
  - refine (eq_ind_r (fun k => canonical _ (Z.of_nat k)) _ (Permutation_length Pf)). apply canonical_z; lia.
  - apply canonical_z; lia.
  - destruct Ca as [Nd X]. split; [exact Nd|]. intro x. rewrite X. exact (same_accounts sel' sel (same_sym _ _ Same) x).
  - apply canonical_z; lia.
  - destruct Cp as [Nd X]. split; [exact Nd|]. intro x. rewrite X. exact (same_payees sel' sel (same_sym _ _ Same) x).
  - apply canonical_z; lia.
  - unfold earliest. rewrite Sm. split; [exact I1|]. intros d I X. apply instant_order in X; auto. specialize (L1 d I). lia.
  - unfold latest. rewrite Sm. split; [exact I2|]. intros d I X. apply instant_order in X; auto. specialize (L2 d I). lia.
  - rewrite print_int by (change (2 ^ 53) with 9007199254740992; lia). apply canonical_z; lia.
  - intros ->. change (Z.min 0 106752) with 0.
    assert (L0 : 0 < Z.of_nat (length sel) < 2 ^ 53) by (change (10 ^ 14) with 100000000000000 in Len; change (2 ^ 53) with 9007199254740992; lia).
    destruct (Z.of_nat (length sel)) as [|a|a]; [lia| |lia]. destruct (float_of_int_small false a ltac:(lia)) as (m & EM & _).
    unfold float_of_int at 1. cbn [binary_normalize]. rewrite EM. reflexivity.
  - intro Pd. destruct (rate_text (Z.of_nat (length sel)) (Z.min n 106752)) as (k & T & K0 & K).
    { destruct sel; [contradiction|cbn; lia]. }
    { change (10 ^ 14) with 100000000000000 in Len. change (2 ^ 53) with 9007199254740992. lia. }
    { change (2 ^ 53) with 9007199254740992. lia. }
    exists k. split; [|exact K]. split; [exact K0|]. exists (itoa_nat (k / 10)). split; [apply canonical_itoa, Z.div_pos; lia|].
    rewrite T. unfold decimal. change (10 ^ Z.of_nat 1) with 10. cbn [app fixed_digits]. now rewrite Zmod_mod.
  - intros ages Fa Ba Sa Ka. destruct (C46_days_partial (fifo exps incs) ages Fa Ba Sa Ka) as (k & T & K). cbv zeta in *.
    exists k. split; [|exact K]. rewrite T. apply canonical_z. set (count := Z.max 1 (Z.of_nat (length ages))) in *.
    assert (1 <= count) by (unfold count; lia). clearbody count. nia.
Qed.

(** ** From the text *)
Section Files.
Variables (E : env) (L : err -> str) (help_text : list str -> str) (library : list str -> result).
Hypotheses (Clock : sane_clock E) (Orders : orders E).
Variables (O : opts) (path bytes : str) (ls : list str) (deep : nat) (placed_ : list (str * writing)) (es : list FlatSpec.entry) (fs : list filter_).

(** As for C104, with the file each entry is counted for. *)
Hypotheses (Path : journal_path E O = Some path) (Held : e_fs E path = Some (File bytes false)) (Lines : lines_written bytes ls)
  (Placed : placed (e_unicode E) (e_fs E) path deep path path ls placed_) (Deep : (deep <= e_depth E)%nat) (Settled : Forall2 means (map snd placed_) es).
Hypotheses (Filters : filters_for E (o_args O) fs) (Flags : forall k, (k < length (recorded es))%nat -> good_flags E O k).

(** The entries are counted for these files. *)
Theorem C108_places : fst (stream E O) = map (fun x => at_path (fst x) (snd x)) (combine (map fst placed_) es).
Proof. unfold stream. rewrite Path, Held. exact (placed_trace _ _ deep _ path ls placed_ es bytes Placed Deep Lines Settled). Qed.

(** The statistics of what is selected, in full. *)
Theorem C108_statistics : forall argv sel exps incs, asks argv Statistics O false ->
  picks E O fs (txns 0 (map (fun x => at_path (fst x) (snd x)) (combine (map fst placed_) es))) sel -> sel <> [] ->
  Forall (fun t => t_date t <> Date 1 1 1) (selected sel) -> Z.of_nat (length sel) < 10 ^ 14 ->
  days_posted (lit "Expenses") 1 sel exps -> days_posted (lit "Income") (-1) sel incs ->
  Forall (fun x => 0 <= snd x < 2 ^ 63) exps -> Forall (fun x => 0 <= snd x < 2 ^ 63) incs ->
  exists out, Main.gledger E L help_text library argv = Result out (Some 0) /\ summary E sel exps incs out.
Proof.
  intros argv sel exps incs A P Ne Nd Len De Di Ge Gi. rewrite <- C108_places in P.
  destruct (C79_flags_partial E L help_text library argv Statistics O false A) as [G _]. rewrite (G eq_refl). cbn [does].
  pose proof (placed_filed _ _ _ _ _ _ _ _ Placed) as W.
  assert (Ok : r_status (stats_cmd E O) = SOk).
  { apply (C44_completes E O fs Clock Orders Filters).
    split; [exact (files_readable E O path bytes ls deep (map snd placed_) es Path Held Lines W Deep Settled Flags)|].
    exists sel. split; [exact P|].
    eapply Forall_impl; [|exact (files_priced E O path bytes ls deep (map snd placed_) es fs Path Held Lines W Deep Settled Filters sel P)]. intros p H X. contradiction. }
  destruct (stats_cmd E O) as [out st] eqn:B. cbn [r_status] in Ok. subst st. exists (concat out). split; [reflexivity|].
  exact (C108_report E O fs sel exps incs out Clock Orders Filters B P Ne Nd Len De Di Ge Gi).
Qed.
End Files.

(** ** Example

    main.j includes part.j, which includes pay.j first: the transaction written in
    part.j is counted for main.j. *)
Definition pay_lines : list str := [lit "2020-01-02   Pay"; lit "  Income"; lit "  A    $10"].
Definition pay_txn : transaction := Txn (Date 2020 1 2) NoState (lit "Pay") [Posting [] (lit "Income") None; Posting [] (lit "A") (cents "$" 1000)] None [] [].
Definition pay_filled : transaction :=
  Txn (Date 2020 1 2) NoState (lit "Pay") [Posting [] (lit "Income") (cents "$" (-1000)); Posting [] (lit "A") (cents "$" 1000)] (Some 0%nat) [] [].
Lemma pay_written : txn_written U0 pay_lines pay_txn.
Proof.
  apply (TxnWritten U0 (lit "2020-01-02   Pay") (Date 2020 1 2) NoState (lit "Pay") [] [] []
           [lit "  Income"; lit "  A    $10"]); try discriminate; try constructor.
  - apply (HeaderPayee 45 (lit "2020-01-02") (Date 2020 1 2) NoState 2 0 (lit "Pay")); [now left| | |].
    + apply (YMD 45 (Date 2020 1 2) (lit "2020") (lit "01") (lit "02")); (split; [reflexivity|]); split; try reflexivity;
        repeat constructor; cbn; lia.
    + left. cbn. split; [auto|lia].
    + exists (lit "Pay"). split; [valid_runes|]. split; [|reflexivity]. right. repeat split; try discriminate; try valid_runes; try reflexivity.
      right. right. repeat split; discriminate.
  - apply (MorePostings U0 (lit "  Income") (Posting [] (lit "Income") None) [] []); [|constructor|].
    + apply (ElidedLine U0 0 (lit "Income")). apply spelt_account; [asciis|letters].
    + apply (MorePostings U0 (lit "  A    $10") (Posting [] (lit "A") (cents "$" 1000)) [] []); [|constructor|constructor].
      apply (AmountLine U0 0 (lit "A") 2 (lit "$") (lit "10") 1000).
      * apply spelt_account; [asciis|letters].
      * exists (lit "$"). split; [valid_runes|]. split; [|reflexivity]. exists (lit "$"). repeat split; [|now left].
        repeat constructor.
      * apply (WholeAmount [] 1 (lit "10")); [constructor|discriminate|repeat constructor; cbn; lia].
      * unfold in_int64, two63. lia.
Qed.
Definition nested_files : list (str * str) :=
  [(lit "main.j", text_of [lit "include part.j"]); (lit "part.j", text_of (lit "include pay.j" :: cafe_lines)); (lit "pay.j", text_of pay_lines)].
Definition nested_placed : list (str * writing) := [(lit "pay.j", WTxn pay_txn); (lit "main.j", WTxn cafe_txn)].
Definition nested_entries : list FlatSpec.entry := [TxnEntry pay_filled; TxnEntry cafe_txn].
Definition nested_sel : list (used * list posting) :=
  [(Used 0 pay_filled (lit "pay.j"), t_postings pay_filled); (Used 1 cafe_txn (lit "main.j"), t_postings cafe_txn)].

Lemma nested_is_placed : placed U0 (disk nested_files) (lit "main.j") 2 (lit "main.j") (lit "main.j") [lit "include part.j"] nested_placed.
Proof.
  assert (Utf : valid_utf8 []) by (exists []; split; [valid_runes|reflexivity]).
  apply (PlacedInclude U0 (disk nested_files) (lit "main.j") 1 (lit "main.j") [] (lit "main.j") 0 (lit "part.j") (text_of (lit "include pay.j" :: cafe_lines))
           (lit "include pay.j" :: cafe_lines) nested_placed [] []); auto; try reflexivity.
  - vm_compute. intuition discriminate.
  - exists (lit "part.j"). split; [valid_runes|]. split; [|reflexivity]. repeat split; try discriminate; try valid_runes; reflexivity.
  - apply text_lines_written. lines_fit.
  - apply (PlacedInclude U0 (disk nested_files) (lit "main.j") 0 (lit "part.j") [] (lit "part.j") 0 (lit "pay.j") (text_of pay_lines)
             pay_lines [(lit "pay.j", WTxn pay_txn)] cafe_lines [(lit "main.j", WTxn cafe_txn)]); auto; try reflexivity.
    + vm_compute. intuition discriminate.
    + exists (lit "pay.j"). split; [valid_runes|]. split; [|reflexivity]. repeat split; try discriminate; try valid_runes; reflexivity.
    + apply text_lines_written. lines_fit.
    + rewrite <- (app_nil_r pay_lines). apply PlacedTxn; [exact pay_written|constructor|constructor].
    + change cafe_lines with (removelast cafe_lines ++ [[]]). apply PlacedTxn; [exact cafe_txn_written| |apply PlacedBlank; constructor].
      constructor; [now left|constructor].
  - constructor.
Qed.

Lemma asks_stats : asks [lit "-f"; lit "main.j"; lit "stats"] Statistics (opts0 "main.j") false.
Proof.
  exists ([lit "-f"; lit "main.j"] ++ []), [Given FFile (lit "main.j")], (lit "stats"), [], [].
  split; [reflexivity|]. split; [right; split; [cbn; auto|discriminate]|]. split.
  { constructor; [left; reflexivity|left; do 2 eexists; apply DocFile|apply (ShortNext FFile (lit "file") (ch "f")); apply DocFile|constructor]. }
  split; [cbn; intuition discriminate|]. split; [apply LinePlain; constructor|constructor; reflexivity].
Qed.

Example C108_example : let E := env0 nested_files in let O := opts0 "main.j" in
  journal_path E O = Some (lit "main.j") /\ e_fs E (lit "main.j") = Some (File (text_of [lit "include part.j"]) false) /\
  lines_written (text_of [lit "include part.j"]) [lit "include part.j"] /\
  placed (e_unicode E) (e_fs E) (lit "main.j") 2 (lit "main.j") (lit "main.j") [lit "include part.j"] nested_placed /\ (2 <= e_depth E)%nat /\
  Forall2 means (map snd nested_placed) nested_entries /\ filters_for E (o_args O) [] /\ (forall k, good_flags E O k) /\ sane_clock E /\ orders E /\
  asks [lit "-f"; lit "main.j"; lit "stats"] Statistics O false /\
  picks E O [] (txns 0 (map (fun x => at_path (fst x) (snd x)) (combine (map fst nested_placed) nested_entries))) nested_sel /\
  Forall (fun t => t_date t <> Date 1 1 1) (selected nested_sel) /\
  days_posted (lit "Expenses") 1 nested_sel [(Date 2020 2 29, 450)] /\ days_posted (lit "Income") (-1) nested_sel [(Date 2020 1 2, 1000)] /\
  fifo [(Date 2020 2 29, 450)] [(Date 2020 1 2, 1000)] = [(Date 2020 2 29, Date 2020 1 2)] /\
  Main.gledger E L0 help0 lib0 [lit "-f"; lit "main.j"; lit "stats"] = Result (lit
"Transactions found in 2 files:
  pay.j
  main.j
First transaction:	2020-01-02 (2 years ago)
Last transaction:	2020-02-29 (1 year ago)
Time period:		58 days
Transactions:		2 (0.0 per day)
Unique accounts:	4
Unique payees:		2
Age of money:		58 days
") (Some 0).
Proof.
  intros E O. split; [reflexivity|]. split; [reflexivity|]. split; [apply text_lines_written; lines_fit|]. split; [exact nested_is_placed|]. split; [cbn; lia|].
  split.
  { constructor; [|constructor; [|constructor]].
    - constructor. apply (OneLeft (Date 2020 1 2) NoState (lit "Pay") [] [] (lit "Income") [Posting [] (lit "A") (cents "$" 1000)] [] []); [repeat constructor; discriminate|].
      unfold zero64. vm_compute. discriminate.
    - constructor; constructor; split; [reflexivity|]; split; [repeat constructor; discriminate|reflexivity]. }
  split; [apply makeFilters_spec; reflexivity|]. split; [intro k; split; left; reflexivity|].
  split; [apply env0_clock|]. split; [apply env0_orders|]. split; [exact asks_stats|].
  split.
  { assert (W : forall n t, In t [pay_filled; cafe_txn] -> within E O n (t_date t)).
    { intros n t I. split; [|right; left; split; reflexivity]. left. split; [left; reflexivity|].
      destruct I as [<-|[<-|[]]]; vm_compute; discriminate. }
    apply (PickIt E O [] (Used 0 pay_filled (lit "pay.j"))); [apply W; cbn; auto|reflexivity|reflexivity|reflexivity|].
    apply (PickIt E O [] (Used 1 cafe_txn (lit "main.j"))); [apply W; cbn; auto|reflexivity|reflexivity|reflexivity|]. constructor. }
  split; [repeat constructor; discriminate|].
  assert (Dp : forall root sgn d q, (forall x, posted_on root nested_sel x = if date_eqb d x then [sgn * q] else []) -> sgn * sgn = 1 ->
    days_posted root sgn nested_sel [(d, q)]).
  { intros root sgn d q Po Sg. split.
    - repeat constructor.
    - intro x. rewrite Po. cbn. destruct (date_eqb d x) eqn:Q.
      + apply date_eqb_eq in Q. split; [discriminate|auto].
      + split; [intros [->|[]]|contradiction]. assert (date_eqb x x = true) by (apply date_eqb_eq; reflexivity). congruence.
    - intros x q' [X|[]]. inversion X; subst. rewrite Po. assert (date_eqb x x = true) as -> by (apply date_eqb_eq; reflexivity). cbn [zsum fold_right]. rewrite <- (Z.mul_1_l q') at 1. rewrite <- Sg. cbn; ring. }
  split; [apply Dp; [|reflexivity]|].
  { intro x. unfold posted_on, nested_sel. cbn [flat_map u_txn]. change (BankFacts.posted (lit "Expenses") (t_postings pay_filled)) with (@nil Z).
    change (BankFacts.posted (lit "Expenses") (t_postings cafe_txn)) with [450].
    destruct (date_eqb (t_date pay_filled) x); rewrite app_nil_r; reflexivity. }
  split; [apply Dp; [|reflexivity]|].
  { intro x. unfold posted_on, nested_sel. cbn [flat_map u_txn]. change (BankFacts.posted (lit "Income") (t_postings pay_filled)) with [-1000].
    change (BankFacts.posted (lit "Income") (t_postings cafe_txn)) with (@nil Z).
    destruct (date_eqb (t_date cafe_txn) x); rewrite app_nil_r; reflexivity. }
  split; [vm_compute; reflexivity|]. vm_compute. reflexivity.
Qed.
