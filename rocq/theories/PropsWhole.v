(** * From the text of a journal and a command line to what is printed: C102

    The statements mention neither the lexer nor the parser nor the commands:
    only how transactions are written, what a command line asks for, and what
    the transactions say. *)
From Verif Require Import Base BaseFacts Utf8 Unicode GoTime Strconv Display Journal Lexer Parser ParserFacts
  Account Humanize Reporting Cmd Main Spec TextSpec JournalText TreeSpec TreeFacts ReportSpec CalendarFacts CmdSpec StreamFacts CmdFacts BalanceFacts
  MainSpec JournalFacts AmountFacts DateFacts FlatSpec BookText WholeFacts Sample PropsText PropsParser PropsCmd PropsBalance PropsStats PropsInput PropsPrint PropsAgain PropsPanic PropsMain PropsAge PropsJoin.

(** The transactions among the entries. *)
Definition recorded (es : list FlatSpec.entry) : list transaction :=
  flat_map (fun e => match e with TxnEntry t => [t] | PerEntry _ => [] end) es.

Lemma txns_from : forall path es n, txns n (map (from path) es) = txns n (map (fun t => ETxn t path) (recorded es)).
Proof.
  intros path es. induction es as [|[t|pt] es IH]; intro n; [reflexivity| |]; cbn [map from txns recorded flat_map app]; fold (recorded es); now rewrite IH.
Qed.

Section Whole.
Variables (E : env) (L : err -> str) (help_text : list str -> str) (library : list str -> result).
Hypotheses (Clock : sane_clock E) (Orders : orders E).
Variables (O : opts) (path : str) (ls : list str) (written : list writing) (es : list FlatSpec.entry).
Notation ts := (recorded es).

(** The journal named holds the lines [ls], in which the transactions and budget
    entries [written] are written; [es] are these with the amounts left out filled
    in, and [ts] the transactions among them. *)
Hypotheses (Path : journal_path E O = Some path) (Held : e_fs E path = Some (File (text_of ls) false))
  (Written : book_written (e_unicode E) ls written) (Short : Forall JournalText.readable ls) (Settled : Forall2 means written es).
(** No dates and no filters are given, and no transaction is dated before the year 1. *)
Hypotheses (Plain : plain O) (Years : Forall (fun t => 1 <= d_year (t_date t)) ts).

Lemma whole_stream : stream E O = (map (from path) es, SOk).
Proof. unfold stream. rewrite Path, Held. eapply book_written_read; eassumption. Qed.

Lemma whole_txns : txns 0 (fst (stream E O)) = txns 0 (map (fun t => ETxn t path) ts).
Proof. rewrite whole_stream. apply txns_from. Qed.

Lemma whole_dated : Forall (fun t => 0 <= instant (t_date t)) ts.
Proof.
  pose proof (stream_dated E O) as D. rewrite whole_stream in D. cbn [fst] in D. rewrite Forall_forall in *. intros t I.
  apply zero_le; [|now apply Years]. unfold recorded in I. apply in_flat_map in I as ([u|pt] & I & J); [|destruct J]. destruct J as [->|[]].
  apply (D _ (in_map (from path) _ _ I)).
Qed.

Lemma whole_readable : CmdSpec.readable E O.
Proof. eapply readable_plain; [exact Plain|exact whole_stream]. Qed.

Lemma whole_filters : filters_for E (o_args O) [].
Proof. destruct Plain as (_ & _ & _ & ->). split; constructor. Qed.

Lemma whole_picks : forall sel, picks E O [] (txns 0 (fst (stream E O))) sel -> selected sel = ts /\ taken sel = flat_map t_postings ts.
Proof. intros sel P. rewrite whole_txns in P. eapply PropsAgain.picks_all; [exact Plain|exact whole_dated|exact P]. Qed.

Lemma whole_range : forall sel, in_range E O (txns 0 (fst (stream E O))) sel -> map u_txn sel = ts.
Proof.
  intros sel P. rewrite whole_txns in P. eapply range_all; [|exact whole_dated|exact P].
  destruct Plain as (B & D & C & A). repeat split; cbn; assumption.
Qed.

Lemma settled_priced : forall t t', settled t t' -> Forall priced (t_postings t') /\ zero64 (total (t_postings t')).
Proof.
  intros t t' [u (_ & A & Z)|d s payee before cs a after note notes F Z]; [split; assumption|]. cbn [t_postings]. split.
  - apply Forall_app in F as [Fb Fa]. apply Forall_app. split; [exact Fb|]. constructor; [discriminate|exact Fa].
  - unfold zero64, total in *. rewrite !map_app in *. cbn [map quantity po_amount am_quantity]. set (x := sumZ (map quantity before ++ map quantity after)).
    assert (X : forall a y b, sumZ (a ++ y :: b) = y + sumZ (a ++ b)) by (induction a0 as [|q a0 IH]; intros; cbn; [reflexivity|]; unfold sumZ in IH; rewrite IH; lia).
    rewrite X. fold x. rewrite <- Z.add_mod_idemp_l, wrap64_mod, Z.add_mod_idemp_l by discriminate. now replace (- x + x) with 0 by lia.
Qed.

Definition posted : list posting := flat_map t_postings ts.

Lemma posted_priced : Forall priced posted.
Proof.
  unfold posted. clear - Settled. induction Settled as [|w e l l' S F IH]; [constructor|]. destruct S as [t t' S|a pt S]; [|exact (IH F)].
  cbn [recorded flat_map app]. fold (recorded l'). apply Forall_app. split; [|exact (IH F)].
  now apply settled_priced with t.
Qed.

Lemma posted_balanced : wrap64 (total posted) = 0.
Proof.
  apply wrap64_zero_iff. unfold posted. clear - Settled. induction Settled as [|w e l l' S F IH]; [reflexivity|]. destruct S as [t t' S|a pt S]; [|exact (IH F)].
  cbn [recorded flat_map app]. fold (recorded l').
  apply settled_priced in S as [_ S]. unfold zero64 in *. rewrite total_app.
  rewrite Z.add_mod, S, (IH F) by discriminate. reflexivity.
Qed.

Lemma whole_picked : exists sel, picks E O [] (txns 0 (fst (stream E O))) sel /\ taken sel = posted.
Proof.
  destruct Plain as (B & D & C & _).
  assert (K : picks E O [] (txns 0 (fst (stream E O))) (map (fun u => (u, t_postings (u_txn u))) (txns 0 (fst (stream E O))))).
  { apply PropsAge.picks_all; auto. rewrite whole_txns. pose proof whole_dated as Y. clear - Y. generalize 0%nat as n.
    induction Y as [|t l H Y IH]; intro n; [reflexivity|]. cbn [map txns forallb u_txn]. rewrite IH, andb_true_r. now apply Z.leb_le. }
  eexists. split; [exact K|]. now apply whole_picks.
Qed.

Lemma whole_balanced : r_status (balance_cmd E O) = SOk.
Proof.
  apply (C61_balance E O [] Clock Orders whole_filters). split; [exact whole_readable|]. destruct whole_picked as (sel & P & T).
  exists sel. split; [exact P|]. rewrite T. exact posted_priced.
Qed.

Lemma held : forall q, exists d, holds posted q d.
Proof.
  intro q. exists (AD (last q (lit "_root_")) (join [58] (visible q))
    (Amount (first_commodity (filter (below q) posted)) (wrap64 (total (filter (below q) posted)))) (filter (here q) posted)). split; reflexivity.
Qed.

Notation gledger := (Main.gledger E L help_text library).

(** print prints the transactions, each once, in the order of their dates. *)
Theorem C102_print : forall argv, asks argv Print O false -> sorts E ->
  exists sorted, Permutation sorted ts /\ date_ordered sorted /\
    gledger argv = Result (concat (lines (map transaction_string sorted))) (Some 0).
Proof.
  intros argv A S. destruct (C79_flags_partial E L help_text library argv Print O false A) as [G _]. rewrite (G eq_refl). cbn [does].
  destruct (C42_print E O [] Clock Orders S whole_filters) as [K _]. destruct (K whole_readable) as (sel & l & P & Pm & D & Q).
  rewrite Q. apply whole_picks in P as [P _]. rewrite P in Pm. exists l. auto.
Qed.

(** accounts lists the accounts of the postings, payees the payees. *)
Theorem C102_listings : forall argv,
  (asks argv Accounts O false -> exists names, ascending names /\ (forall a, In a names <-> exists p, In p posted /\ po_account p = a) /\
     gledger argv = Result (concat (lines names)) (Some 0)) /\
  (asks argv Payees O false -> exists names, ascending names /\ (forall a, In a names <-> exists t, In t ts /\ t_payee t = a) /\
     gledger argv = Result (concat (lines names)) (Some 0)).
Proof.
  intro argv. split; intro A.
  - destruct (C79_flags_partial E L help_text library argv Accounts O false A) as [G _]. rewrite (G eq_refl). cbn [does].
    destruct (C40_accounts E O [] Clock Orders whole_filters) as [K _]. destruct (K whole_readable) as (sel & names & P & Q & As & I).
    rewrite Q. apply whole_range in P. exists names. split; [exact As|]. split; [|reflexivity]. intro a. rewrite I. unfold posted, uses. rewrite <- P. split.
    + intros [(u & p & Iu & Ip & X) _]. exists p. split; [|exact X]. apply in_flat_map. exists (u_txn u). split; [now apply in_map|exact Ip].
    + intros (p & Ip & X). split; [|now left]. apply in_flat_map in Ip as (t & It & Ip). apply in_map_iff in It as (u & <- & Iu). eauto.
  - destruct (C79_flags_partial E L help_text library argv Payees O false A) as [G _]. rewrite (G eq_refl). cbn [does].
    assert (Ao : o_args O = []) by (destruct Plain as (_ & _ & _ & ->); reflexivity).
    destruct (C41_payees E O [] Clock Orders whole_filters) as [K _]; [rewrite Ao; constructor|].
    destruct (K whole_readable) as (sel & names & P & Q & As & I).
    rewrite Q. apply whole_range in P. exists names. split; [exact As|]. split; [|reflexivity]. intro a. rewrite I. unfold pays. rewrite <- P. split.
    + intros [(u & Iu & X) _]. exists (u_txn u). split; [now apply in_map|exact X].
    + intros (t & It & X). split; [|left; exact Ao]. apply in_map_iff in It as (u & <- & Iu). eauto.
Qed.

(** balance prints a line for every account used and those above it, with the sum
    of what was posted to it and below, and the grand total, which is zero. *)
Definition account_line (flat : bool) (q : list str) : str :=
  column (first_commodity (filter (below q) posted)) (wrap64 (total (filter (below q) posted))) ++ [32; 32] ++
  (if flat then join [58] (visible q) else rep (2 * (length q - 1)) 32 ++ last q (lit "_root_")).

Theorem C102_balance : forall argv, asks argv Balance O false -> o_flatten O = false -> o_collapse O = false ->
  exists accounts, StronglySorted path_lt accounts /\ (forall q, In q accounts <-> q <> [] /\ shown (o_show_zero O) posted q) /\
    gledger argv = Result (concat (complaints [] posted) ++ unlines (map (account_line false) accounts) ++ [10] ++
                             lit "--------------------" ++ [10] ++ lit "                0.00" ++ [10]) (Some 0).
Proof.
  intros argv A Ff Fc. destruct (C79_flags_partial E L help_text library argv Balance O false A) as [G _]. rewrite (G eq_refl). cbn [does].
  destruct (C61_rows E O [] Clock Orders whole_filters Ff Fc whole_balanced) as (sel & rows & P & Or & I & Q).
  apply whole_picks in P as [_ P]. fold posted in P. rewrite P in I, Q. rewrite posted_balanced in Q.
  exists (map fst rows). split; [exact Or|]. split.
  - intro q. split.
    + intro J. apply in_map_iff in J as ([q' d] & <- & J). apply I in J as (N & S & _). auto.
    + intros [N S]. destruct (held q) as [d H]. apply (in_map fst rows (q, d)). apply I. auto.
  - unfold result_of. pose proof whole_balanced as Ok. destruct (balance_cmd E O) as [out st]. cbn [r_out r_status] in *. subst st out.
    f_equal. rewrite concat_app. f_equal. cbn [concat]. rewrite map_map. rewrite <- !app_assoc, app_nil_r.
    unfold account_line. cbn [app]. reflexivity.
Qed.

Theorem C102_balance_flat : forall argv, asks argv Balance O false -> o_flatten O = true ->
  exists accounts, StronglySorted path_lt accounts /\
    (forall q, In q accounts <-> (q = [] \/ shown (o_show_zero O) posted q) /\ forall k, ~ shown (o_show_zero O) posted (q ++ [k])) /\
    gledger argv = Result (concat (complaints [] posted) ++ unlines (map (account_line true) accounts) ++ [10] ++
                             lit "--------------------" ++ [10] ++ lit "                0.00" ++ [10]) (Some 0).
Proof.
  intros argv A Ff. destruct (C79_flags_partial E L help_text library argv Balance O false A) as [G _]. rewrite (G eq_refl). cbn [does].
  destruct (C61_flat E O [] Clock Orders whole_filters Ff whole_balanced) as (sel & rows & P & Or & I & Q).
  apply whole_picks in P as [_ P]. fold posted in P. rewrite P in I, Q. rewrite posted_balanced in Q.
  exists (map fst rows). split; [exact Or|]. split.
  - intro q. split.
    + intro J. apply in_map_iff in J as ([q' d] & <- & J). apply I in J as (S & _ & N). auto.
    + intros [S N]. destruct (held q) as [d H]. apply (in_map fst rows (q, d)). apply I. auto.
  - unfold result_of. pose proof whole_balanced as Ok. destruct (balance_cmd E O) as [out st]. cbn [r_out r_status] in *. subst st out.
    f_equal. rewrite concat_app. f_equal. cbn [concat]. rewrite map_map. rewrite <- !app_assoc, app_nil_r.
    unfold account_line. cbn [app]. reflexivity.
Qed.

(** statistics counts them. *)
Lemma one_file : forall sel, picks E O [] (txns 0 (fst (stream E O))) sel -> forall u ps, In (u, ps) sel -> u_path u = path.
Proof.
  intros sel P u ps I. apply (picks_in _ _ _ _ _ _ _ P) in I as (I & _). rewrite whole_txns in I. apply txns_in in I.
  apply in_map_iff in I as (t & X & _). now injection X.
Qed.

Lemma canonical_one : forall n, canonical n 1 -> n = [49].
Proof.
  intros n (N & D & V & Z). destruct n as [|c n]; [contradiction|]. inversion D as [|? ? Dc Dn]; subst. unfold digit in Dc. cbn [hd] in Z.
  change (c :: n) with ([c] ++ n) in V. rewrite numeral_value_app in V. pose proof (numeral_value_bound n Dn) as B.
  unfold numeral_value at 1 in V. cbn [fold_left] in V.
  destruct n as [|c2 n]; [cbn in V; f_equal; lia|]. destruct (Z.eq_dec c 48) as [->|Nc]; [specialize (Z eq_refl); discriminate|].
  assert (P : 10 <= 10 ^ Z.of_nat (length (c2 :: n))).
  { cbn [length]. rewrite Nat2Z.inj_succ, Z.pow_succ_r by lia. pose proof (Z.pow_pos_nonneg 10 (Z.of_nat (length n))). lia. }
  nia.
Qed.

Theorem C102_statistics : forall argv, asks argv Statistics O false -> ts <> [] -> Forall (fun t => t_date t <> Date 1 1 1) ts ->
  exists first last period rate accounts payees nt na np age,
    gledger argv = Result (lit "Transactions found in 1 files:" ++ [10] ++ lit "  " ++ path ++ [10] ++
      lit "First transaction:" ++ tab ++ format_date first ++ lit " (" ++ humanize (e_now E 0) (instant first * ns) ++ lit ")" ++ [10] ++
      lit "Last transaction:" ++ tab ++ format_date last ++ lit " (" ++ humanize (e_now E 1) (instant last * ns) ++ lit ")" ++ [10] ++
      lit "Time period:" ++ tab ++ tab ++ period ++
      lit "Transactions:" ++ tab ++ tab ++ nt ++ lit " (" ++ rate ++
      lit "Unique accounts:" ++ tab ++ na ++ [10] ++ lit "Unique payees:" ++ tab ++ tab ++ np ++ [10] ++
      lit "Age of money:" ++ tab ++ tab ++ age) (Some 0) /\
    In first (map t_date ts) /\ (forall t, In t ts -> ~ earlier (t_date t) first) /\
    In last (map t_date ts) /\ (forall t, In t ts -> ~ earlier last (t_date t)) /\
    canonical nt (Z.of_nat (length ts)) /\
    NoDup accounts /\ (forall a, In a accounts <-> exists p, In p posted /\ po_account p = a) /\ canonical na (Z.of_nat (length accounts)) /\
    NoDup payees /\ (forall a, In a payees <-> exists t, In t ts /\ t_payee t = a) /\ canonical np (Z.of_nat (length payees)).
Proof.
  intros argv A Ne Nd. destruct (C79_flags_partial E L help_text library argv Statistics O false A) as [G _]. rewrite (G eq_refl). cbn [does].
  assert (Ok : r_status (stats_cmd E O) = SOk).
  { apply (C44_completes E O [] Clock Orders whole_filters). split; [exact whole_readable|]. destruct whole_picked as (sel & P & T).
    exists sel. split; [exact P|]. rewrite T. eapply Forall_impl; [|exact posted_priced]. intros p H X. contradiction. }
  destruct (stats_cmd E O) as [out st] eqn:B. cbn [r_status] in Ok. subst st.
  destruct (C44_stats_partial E O [] out Clock Orders whole_filters B) as (_ & sel & P & _ & K).
  pose proof (whole_picks sel P) as [S T]. fold posted in T.
  assert (Ns : sel <> []) by (intros ->; apply Ne; now rewrite <- S).
  destruct (K Ns) as (nf & fl & fd & ld & period & nt & rate & na & np & age & accs & pays & files & Q & Cn & [Da Ia] & Ca & [Dp Ip] & Cp & [Df If] & Cf & Pf & Dt).
  rewrite S in Dt. destruct (Dt Nd) as [[F1 F2] [L1 L2]]. rewrite S in F1, F2, L1, L2.
  assert (files = [path]) as ->.
  { assert (X : forall x, In x files -> x = path) by (intros x I; apply If in I as (u & ps & I & <-); now apply (one_file sel P u ps)).
    destruct files as [|x [|y files]].
    - exfalso. destruct sel as [|[u ps] sel]; [contradiction|]. assert (I : In (u_path u) []) by (apply If; exists u, ps; split; [now left|reflexivity]). destruct I.
    - f_equal. apply X. now left.
    - exfalso. inversion Df as [|? ? N _]. apply N. left. rewrite (X x), (X y); [reflexivity|now right; left|now left]. }
  apply Permutation_sym, Permutation_length_1_inv in Pf. subst fl. apply canonical_one in Cf. subst nf.
  exists fd, ld, period, rate, accs, pays, nt, na, np, age.
  split.
  { unfold result_of. cbn [r_out r_status]. rewrite Q. f_equal. rewrite !concat_app. cbn [concat map app]. unfold shown_date.
    rewrite <- !app_assoc, ?app_nil_r. cbn [app]. rewrite <- ?app_assoc. reflexivity. }
  split; [exact F1|]. split; [intros t I; apply F2; now apply in_map|]. split; [exact L1|]. split; [intros t I; apply L2; now apply in_map|].
  split; [replace (length ts) with (length sel); [exact Cn|]; rewrite <- S; unfold selected; now rewrite map_length|].
  split; [exact Da|]. split.
  { intro a. rewrite Ia. rewrite <- T. unfold taken, used_accounts. split.
    - intros (u & ps & p & I & Jp & X). exists p. split; [|exact X]. apply in_flat_map. exists (u, ps). auto.
    - intros (p & I & X). apply in_flat_map in I as ([u ps] & I & J). eauto 6. }
  split; [exact Ca|]. split; [exact Dp|]. split; [|exact Cp].
  intro a. rewrite Ip. rewrite <- S. unfold selected, used_payees. split.
  - intros (u & ps & I & X). exists (u_txn u). split; [|exact X]. apply in_map_iff. exists (u, ps). auto.
  - intros (t & I & X). apply in_map_iff in I as ([u ps] & <- & I). eauto.
Qed.
End Whole.

(** A transaction whose amounts do not add up: the number of the line after it is
    named, whatever comes later, and the program exits with 0. *)
Theorem C102_refused : forall E L help_text library argv c O path before written es lines_ t rest,
  sane_clock E -> orders E -> asks argv c O false -> c = Print \/ c = Accounts \/ c = Payees -> plain O ->
  journal_path E O = Some path -> e_fs E path = Some (File (text_of (before ++ lines_ ++ [] :: rest)) false) ->
  Forall JournalText.readable (before ++ lines_ ++ [] :: rest) ->
  book_written (e_unicode E) before written -> Forall2 means written es ->
  txn_written (e_unicode E) lines_ t -> Forall priced (t_postings t) -> ~ zero64 (total (t_postings t)) ->
  exists digits, canonical digits (Z.of_nat (length before + length lines_) + 1) /\
  Main.gledger E L help_text library argv =
  Result (lit "error at " ++ path ++ lit ":" ++ digits ++ [10] ++ lit "transaction does not balance" ++ [10]) (Some 0).
Proof.
  intros E L help_text library argv c O path before written es ls t rest C Or As V Pl Jp Ef R J F TW A NZ.
  assert (S : snd (stream E O) = SErr (EErrorAt (EAt path (Z.of_nat (length before + length ls) + 1) EUnbalanced))).
  { unfold stream. rewrite Jp, Ef. eapply refused_read; eassumption. }
  assert (Fl : filters_for E (o_args O) []) by (destruct Pl as (_ & _ & _ & ->); split; constructor).
  destruct (C77_listing_partial E L help_text library argv c O [] As V C Or Fl) as [En P].
  { apply Forall_forall. intros u _. now apply plain_flags. }
  specialize (P _ S). unfold ends_as in En. rewrite S in En.
  destruct En as [En _]. exists (itoa (Z.of_nat (length before + length ls) + 1)). split.
  { unfold itoa. destruct (_ <? 0) eqn:Q; [apply Z.ltb_lt in Q; lia|]. apply canonical_itoa. lia. }
  destruct (Main.gledger E L help_text library argv) as [out ex]. cbn [p_out p_exit] in *. subst ex.
  f_equal. rewrite P. cbn [err_text]. rewrite <- !app_assoc. reflexivity.
Qed.

(** ** Example *)
Definition shop_lines : list str := [lit "2020-01-02   Shop"; lit "  A"; lit "  C    $10"; lit "  D    $2"].
Definition shop_txn : transaction :=
  Txn (Date 2020 1 2) NoState (lit "Shop")
    [Posting [] (lit "A") None; Posting [] (lit "C") (cents "$" 1000); Posting [] (lit "D") (cents "$" 200)] None [] [].
Lemma shop_written : txn_written U0 shop_lines shop_txn.
Proof.
  apply (TxnWritten U0 (lit "2020-01-02   Shop") (Date 2020 1 2) NoState (lit "Shop") [] [] []
           [lit "  A"; lit "  C    $10"; lit "  D    $2"]); try discriminate; try constructor.
  - apply (HeaderPayee 45 (lit "2020-01-02") (Date 2020 1 2) NoState 2 0 (lit "Shop")); [now left| | |].
    + apply (YMD 45 (Date 2020 1 2) (lit "2020") (lit "01") (lit "02")); (split; [reflexivity|]); split; try reflexivity;
        repeat constructor; cbn; lia.
    + left. cbn. split; [auto|lia].
    + exists (lit "Shop"). split; [valid_runes|]. split; [|reflexivity]. right. repeat split; try discriminate; try valid_runes; try reflexivity.
      right. right. repeat split; discriminate.
  - apply (MorePostings U0 (lit "  A") (Posting [] (lit "A") None) [] []); [|constructor|].
    + apply (ElidedLine U0 0 (lit "A")). apply spelt_account; [asciis|letters].
    + apply (MorePostings U0 (lit "  C    $10") (Posting [] (lit "C") (cents "$" 1000)) [] []); [|constructor|].
        -- apply (AmountLine U0 0 (lit "C") 2 (lit "$") (lit "10") 1000).
           ++ apply spelt_account; [asciis|letters].
           ++ exists (lit "$"). split; [valid_runes|]. split; [|reflexivity]. exists (lit "$"). repeat split; [|now left].
              repeat constructor.
           ++ apply (WholeAmount [] 1 (lit "10")); [constructor|discriminate|repeat constructor; cbn; lia].
           ++ unfold in_int64, two63. lia.
        -- apply (MorePostings U0 (lit "  D    $2") (Posting [] (lit "D") (cents "$" 200)) [] []); [|constructor|constructor].
           apply (AmountLine U0 0 (lit "D") 2 (lit "$") (lit "2") 200).
           ++ apply spelt_account; [asciis|letters].
           ++ exists (lit "$"). split; [valid_runes|]. split; [|reflexivity]. exists (lit "$"). repeat split; [|now left].
              repeat constructor.
           ++ apply (WholeAmount [] 1 (lit "2")); [constructor|discriminate|repeat constructor; cbn; lia].
           ++ unfold in_int64, two63. lia.
Qed.

(** A comment, a transaction with all its amounts, one with an amount left out. *)
Definition whole_lines : list str := lit "; my journal" :: cafe_lines ++ shop_lines ++ [[]].
Definition shop_filled : transaction :=
  Txn (Date 2020 1 2) NoState (lit "Shop")
    [Posting [] (lit "A") (cents "$" (-1200)); Posting [] (lit "C") (cents "$" 1000); Posting [] (lit "D") (cents "$" 200)] (Some 0%nat) [] [].
Example C102_example : let E := env0 [(lit "j", text_of whole_lines)] in
  book_written U0 whole_lines [WTxn cafe_txn; WTxn shop_txn] /\ Forall JournalText.readable whole_lines /\
  Forall2 means [WTxn cafe_txn; WTxn shop_txn] [TxnEntry cafe_txn; TxnEntry shop_filled] /\ journal_path E (opts0 "j") = Some (lit "j") /\
  e_fs E (lit "j") = Some (File (text_of whole_lines) false) /\ plain (opts0 "j") /\
  asks [lit "-f"; lit "j"; lit "print"] Print (opts0 "j") false /\
  Main.gledger E L0 help0 lib0 [lit "-f"; lit "j"; lit "balance"] = Result (lit
"             $-12.00  A
              $-4.50  Assets
              $-4.50    Cash
              $10.00  C
               $2.00  D
               $4.50  Expenses
               $4.50    Eating out
--------------------
                0.00
") (Some 0).
Proof.
  cbv zeta. split.
  { apply (BookComment U0 59 (lit " my journal")); [now left|]. unfold whole_lines.
    change (cafe_lines ++ shop_lines ++ [[]]) with (removelast cafe_lines ++ [] :: shop_lines ++ [] :: []).
    apply BookTxn; [|apply BookTxn; [exact shop_written|constructor]].
    exact cafe_txn_written. }
  split. { repeat constructor; vm_compute; try discriminate; try reflexivity; intro X; repeat (destruct X as [X|X]; [discriminate X|]); exact X. }
  split.
  { constructor; [constructor; constructor; split; [reflexivity|]; split; [repeat constructor; discriminate|reflexivity]|]. constructor; [|constructor]. constructor.
    apply (OneLeft (Date 2020 1 2) NoState (lit "Shop") [] [] (lit "A")
      [Posting [] (lit "C") (cents "$" 1000); Posting [] (lit "D") (cents "$" 200)] [] []); [repeat constructor; discriminate|].
    unfold zero64. vm_compute. discriminate. }
  split; [reflexivity|]. split; [reflexivity|]. split; [repeat split|]. split; [exact asks_print|]. vm_compute. reflexivity.
Qed.

(** The second transaction has no posting for what is left over. *)
Definition lost_lines : list str := [lit "2020-01-02   Shop"; lit "  C    $10"].
Definition lost_txn : transaction := Txn (Date 2020 1 2) NoState (lit "Shop") [Posting [] (lit "C") (cents "$" 1000)] None [] [].
Lemma lost_written : txn_written U0 lost_lines lost_txn.
Proof.
  apply (TxnWritten U0 (lit "2020-01-02   Shop") (Date 2020 1 2) NoState (lit "Shop") [] [] [] [lit "  C    $10"]); try discriminate; try constructor.
  - apply (HeaderPayee 45 (lit "2020-01-02") (Date 2020 1 2) NoState 2 0 (lit "Shop")); [now left| | |].
    + apply (YMD 45 (Date 2020 1 2) (lit "2020") (lit "01") (lit "02")); (split; [reflexivity|]); split; try reflexivity;
        repeat constructor; cbn; lia.
    + left. cbn. split; [auto|lia].
    + exists (lit "Shop"). split; [valid_runes|]. split; [|reflexivity]. right. repeat split; try discriminate; try valid_runes; try reflexivity.
      right. right. repeat split; discriminate.
  - apply (MorePostings U0 (lit "  C    $10") (Posting [] (lit "C") (cents "$" 1000)) [] []); [|constructor|constructor].
    apply (AmountLine U0 0 (lit "C") 2 (lit "$") (lit "10") 1000).
    + apply spelt_account; [asciis|letters].
    + exists (lit "$"). split; [valid_runes|]. split; [|reflexivity]. exists (lit "$"). repeat split; [|now left]. repeat constructor.
    + apply (WholeAmount [] 1 (lit "10")); [constructor|discriminate|repeat constructor; cbn; lia].
    + unfold in_int64, two63. lia.
Qed.
Example C102_refused_example : let rest := [lit "never read"] in let all := cafe_lines ++ lost_lines ++ [] :: rest in
  let E := env0 [(lit "j", text_of all)] in
  book_written U0 cafe_lines [WTxn cafe_txn] /\ Forall2 means [WTxn cafe_txn] [TxnEntry cafe_txn] /\ txn_written U0 lost_lines lost_txn /\
  Forall priced (t_postings lost_txn) /\ ~ zero64 (total (t_postings lost_txn)) /\ Forall JournalText.readable all /\
  e_fs E (lit "j") = Some (File (text_of all) false) /\ asks [lit "-f"; lit "j"; lit "print"] Print (opts0 "j") false /\
  Main.gledger E L0 help0 lib0 [lit "-f"; lit "j"; lit "print"] = Result (lit
"error at j:8
transaction does not balance
") (Some 0).
Proof.
  cbv zeta. split; [exact (journal_book _ _ _ cafe_written)|]. split.
  { constructor; [constructor; constructor; split; [reflexivity|]; split; [repeat constructor; discriminate|reflexivity]|constructor]. }
  split; [exact lost_written|]. split; [repeat constructor; discriminate|]. split; [vm_compute; discriminate|].
  split. { repeat constructor; vm_compute; try discriminate; try reflexivity; intro X; repeat (destruct X as [X|X]; [discriminate X|]); exact X. }
  split; [reflexivity|]. split; [exact asks_print|]. vm_compute. reflexivity.
Qed.
