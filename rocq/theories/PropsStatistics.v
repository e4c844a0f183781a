(** * C122: what statistics depend on *)
From Verif Require Import Base BaseFacts Utf8 Unicode GoTime Strconv Display Journal JournalFacts Lexer Parser ParserFacts Account Reporting Budget Cmd Spec TextSpec DateFacts CalendarFacts
  TreeSpec ReportSpec CmdSpec StreamFacts CmdFacts FlatSpec Sample PropsCmd PropsBalance PropsPrint PropsStats AgeFacts BankFacts PropsAge PropsReread PropsAgain BudgetSpec BudgetFacts PropsBudget PropsConcat PropsJoin PropsJoinMore PropsOrder PropsMonths PropsPrinted.
From Verif Require MistakeFacts.

(** The postings below [root] are on the same days, with the same sum each day. *)
Definition same_days (root : str) (sel sel' : list (used * list posting)) : Prop := forall d,
  (posted_on root sel' d = [] <-> posted_on root sel d = []) /\ zero64 (zsum (posted_on root sel' d) - zsum (posted_on root sel d)).
Record same_figures (sel sel' : list (used * list posting)) : Prop := {
  sf_count : length sel' = length sel;
  sf_accounts : forall a, used_accounts sel' a <-> used_accounts sel a;
  sf_payees : forall a, used_payees sel' a <-> used_payees sel a;
  sf_first : forall d, earliest sel' d <-> earliest sel d;
  sf_last : forall d, latest sel' d <-> latest sel d;
  sf_income : same_days (lit "Income") sel sel';
  sf_expenses : same_days (lit "Expenses") sel sel' }.

(** The part of the report that names the files. *)
Definition file_part (sel : list (used * list posting)) (out : list str) : Prop :=
  sel = [] /\ out = [] \/
  sel <> [] /\ exists files n, lists (used_files sel) files /\ canonical n (Z.of_nat (length files)) /\
    out = [lit "Transactions found in " ++ n ++ lit " files:" ++ [10]] ++ map (fun p => lit "  " ++ p ++ [10]) files.

(** ** Ages *)
Lemma spend_same : forall ek iks x m m', (forall d, bucket d m = bucket d m') ->
  snd (spend ek x iks m) = snd (spend ek x iks m') /\ forall d, bucket d (fst (spend ek x iks m)) = bucket d (fst (spend ek x iks m')).
Proof.
  intros ek iks. induction iks as [|ik iks IH]; intros x m m' H; cbn [spend]; [auto|]. rewrite <- (H ik).
  assert (Set_ : forall v d, bucket d (assoc_set date_eqb ik v m) = bucket d (assoc_set date_eqb ik v m')).
  { intros v d. destruct (date_eqb ik d) eqn:Q.
    - apply date_eqb_eq in Q. subst d. now rewrite !bucket_set_same.
    - assert (ik <> d) by (intros ->; now rewrite date_eqb_refl in Q). now rewrite !bucket_set_other. }
  destruct (bucket ik m =? 0); [now apply IH|]. destruct (bucket ik m <? x); [|split; [reflexivity|apply Set_]].
  destruct (IH (wrap64 (x - bucket ik m)) _ _ (Set_ 0)) as [A B].
  destruct (spend ek _ iks (assoc_set date_eqb ik 0 m)), (spend ek _ iks (assoc_set date_eqb ik 0 m')). cbn [fst snd] in *. split; [now rewrite A|exact B].
Qed.
Lemma age_loop_same : forall eks exp exp' iks m m', (forall d, bucket d exp = bucket d exp') -> (forall d, bucket d m = bucket d m') ->
  age_loop eks exp iks m = age_loop eks exp' iks m'.
Proof.
  intros eks exp exp' iks. induction eks as [|ek eks IH]; intros m m' He H; cbn [age_loop]; [reflexivity|]. rewrite <- (He ek).
  destruct (spend_same ek iks (bucket ek exp) m m' H) as [A B]. destruct (spend ek _ iks m), (spend ek _ iks m'). cbn [fst snd] in *. subst. f_equal. now apply IH.
Qed.
Lemma sort_dates_same : forall l l', Forall real_date l -> Permutation l l' -> sort_dates l = sort_dates l'.
Proof.
  intros l l' R P.
  assert (So : forall x, StronglySorted (fun a b => instant a <= instant b) (sort_dates x)).
  { intro x. assert (X : StronglySorted (le date_before) (sort_dates x)).
    { apply isort_sorted; unfold le, date_before; intros; rewrite ?Z.ltb_ge, ?Z.ltb_lt in *; lia. }
    induction X as [|y k S IH F]; constructor; auto. eapply Forall_impl; [|exact F]. unfold le, date_before. cbn. intros a Q. apply Z.ltb_ge in Q. lia. }
  apply (sorted_perm_unique (fun a b => instant a <= instant b)); auto.
  - intros a b Ia Ib X Y. rewrite Forall_forall in R. apply instant_inj; [| |lia]; apply R; eapply Permutation_in; try eassumption; try (apply isort_perm || (symmetry; apply isort_perm)).
  - unfold sort_dates. rewrite (isort_perm date_before l), P. symmetry. apply isort_perm.
Qed.

Lemma posted_real : forall root sel d, Forall (fun t => real_date (t_date t)) (selected sel) -> posted_on root sel d <> [] -> real_date d.
Proof.
  intros root sel d F H. induction sel as [|[u ps] sel IH]; [contradiction|]. unfold posted_on in H. cbn [flat_map] in H. inversion F as [|? ? R F']; subst.
  destruct (date_eqb (t_date (u_txn u)) d) eqn:Q; [apply date_eqb_eq in Q; subst; exact R|]. apply IH; auto.
Qed.
Lemma bank_same : forall m m' root sgn sel sel', Forall (fun t => real_date (t_date t)) (selected sel) ->
  bank m (posted_on root sel) sgn -> bank m' (posted_on root sel') sgn -> same_days root sel sel' ->
  sort_dates (map fst m) = sort_dates (map fst m') /\ forall d, bucket d m = bucket d m'.
Proof.
  intros m m' root sgn sel sel' R [N K S] [N' K' S'] D. split.
  - apply sort_dates_same.
    + apply Forall_forall. intros d I. apply K in I. eapply posted_real; eauto.
    + apply NoDup_Permutation; auto. intro d. rewrite K, K'. destruct (D d) as [X _]. tauto.
  - intro d. rewrite S, S'. destruct (D d) as [_ X]. unfold zero64 in X. apply Z.mod_divide in X as [k X]; [|discriminate].
    replace (sgn * zsum (posted_on root sel d)) with (sgn * zsum (posted_on root sel' d) + (- sgn * k) * two64) by (unfold two64 in *; nia).
    symmetry. unfold wrap64. f_equal. replace (sgn * zsum (posted_on root sel' d) + - sgn * k * two64 + two63) with (sgn * zsum (posted_on root sel' d) + two63 + (- sgn * k) * two64) by lia.
    now rewrite Z_mod_plus_full.
Qed.

(** ** Selections that differ in the order of postings only *)
Lemma zero64_refl : forall x, zero64 (x - x). Proof. intro x. now rewrite Z.sub_diag. Qed.
Lemma days_perm : forall root sel sel', (forall d, Permutation (posted_on root sel d) (posted_on root sel' d)) -> same_days root sel sel'.
Proof.
  intros root sel sel' P d. specialize (P d). split; [|rewrite (zsum_perm _ _ P); apply zero64_refl].
  split; intro X; rewrite X in P; [now apply Permutation_sym, Permutation_nil in P|now apply Permutation_nil in P].
Qed.
Lemma figures_refl : forall sel sel', Forall2 (fun a b => fst a = fst b /\ Permutation (snd a) (snd b)) sel sel' -> same_figures sel sel'.
Proof.
  intros sel sel' F.
  assert (S : selected sel' = selected sel). { unfold selected. induction F as [|? ? ? ? [X _] _ IH]; [reflexivity|]. cbn [map]. now rewrite IH, X. }
  assert (T : Permutation (taken sel) (taken sel')). { clear S. unfold taken. induction F as [|[? ?] [? ?] ? ? [_ X] _ IH]; [constructor|]. cbn [flat_map]. apply Permutation_app; [exact X|exact IH]. }
  split.
  - pose proof (f_equal (@length _) S) as X. unfold selected in X. now rewrite !map_length in X.
  - intro a. rewrite !used_accounts_taken. split; intros (q & I & Q); exists q; (split; [|exact Q]); eapply Permutation_in; try exact I; [now symmetry|exact T].
  - intro a. rewrite !used_payees_selected. now rewrite S.
  - intro d. unfold earliest. now rewrite S.
  - intro d. unfold latest. now rewrite S.
  - apply days_perm. intro d. now apply posted_on_perm.
  - apply days_perm. intro d. now apply posted_on_perm.
Qed.
Lemma days_trans : forall root a b c, same_days root a b -> same_days root b c -> same_days root a c.
Proof.
  intros root a b c H H' d. destruct (H d) as [A X], (H' d) as [B Y]. split; [tauto|]. unfold zero64 in *.
  apply Z.mod_divide in X; [|discriminate]. apply Z.mod_divide in Y; [|discriminate]. apply Z.mod_divide; [discriminate|].
  replace (zsum (posted_on root c d) - zsum (posted_on root a d)) with ((zsum (posted_on root c d) - zsum (posted_on root b d)) + (zsum (posted_on root b d) - zsum (posted_on root a d))) by lia.
  now apply Z.divide_add_r.
Qed.
Lemma figures_trans : forall a b c, same_figures a b -> same_figures b c -> same_figures a c.
Proof.
  intros a b c [A1 A2 A3 A4 A5 A6 A7] [B1 B2 B3 B4 B5 B6 B7]. split; [congruence|..].
  1-4: intro x; specialize (A2 x) || idtac; etransitivity; eauto.
  - eapply days_trans; eauto.
  - eapply days_trans; eauto.
Qed.
Lemma earliest_one : forall sel d d', Forall (fun t => real_date (t_date t)) (selected sel) -> earliest sel d -> earliest sel d' -> d = d'.
Proof.
  intros sel d d' R [I M] [I' M'].
  assert (Rd : forall x, In x (map t_date (selected sel)) -> real_date x). { intros x J. apply in_map_iff in J as (t & <- & J). rewrite Forall_forall in R. auto. }
  pose proof (M d' I') as A. pose proof (M' d I) as B. apply Rd in I, I'. rewrite <- instant_order in A, B by assumption. apply instant_inj; auto. lia.
Qed.
Lemma latest_one : forall sel d d', Forall (fun t => real_date (t_date t)) (selected sel) -> latest sel d -> latest sel d' -> d = d'.
Proof.
  intros sel d d' R [I M] [I' M'].
  assert (Rd : forall x, In x (map t_date (selected sel)) -> real_date x). { intros x J. apply in_map_iff in J as (t & <- & J). rewrite Forall_forall in R. auto. }
  pose proof (M d' I') as A. pose proof (M' d I) as B. apply Rd in I, I'. rewrite <- instant_order in A, B by assumption. apply instant_inj; auto. lia.
Qed.

(** The report of a run, of its selection. *)
Lemma stats_report_of : forall E O fs sel, sane_clock E -> orders E -> filters_for E (o_args O) fs -> r_status (stats_cmd E O) = SOk ->
  picks E O fs (txns 0 (fst (stream E O))) sel -> exists n s sel0, r_out (stats_cmd E O) = stats_report E n s /\
  counted sel0 s /\ banked sel0 s /\ same_figures sel sel0 /\ selected sel0 = selected sel /\ (forall a, used_files sel0 a <-> used_files sel a).
Proof.
  intros E O fs sel C Or F H P. apply makeFilters_spec in F. unfold stats_cmd, with_filters in *. rewrite F in *. unfold finish in *.
  destruct (stats_run E O fs) as [s r] eqn:R. destruct (stats_run_spec E O fs s r C Or R) as (Ho & _). destruct r; try discriminate.
  destruct (stats_run_banked E O fs s C Or R) as (sel0 & P0 & Cn & B). cbn [r_out]. rewrite Ho. exists (h_n s), (h_data s), sel0. cbn [app].
  pose proof (picks_same _ _ _ _ _ _ P P0) as X. split; [reflexivity|]. split; [exact Cn|]. split; [exact B|]. split; [now apply figures_refl|].
  split; [exact (picks_selected _ _ _ _ _ _ P0 P)|].
  intro a. unfold used_files. clear - X. split; intros (u & ps & I & Q).
  - induction X as [|[u1 p1] [u2 p2] l l' [Y _] _ IH]; [destruct I|]. cbn in Y. subst u2. destruct I as [I|I]; [inversion I; subst; exists u, p1; split; [now left|reflexivity]|].
    destruct (IH I) as (v & qs & J & K). exists v, qs. split; [now right|exact K].
  - induction X as [|[u1 p1] [u2 p2] l l' [Y _] _ IH]; [destruct I|]. cbn in Y. subst u2. destruct I as [I|I]; [inversion I; subst; exists u, p2; split; [now left|reflexivity]|].
    destruct (IH I) as (v & qs & J & K). exists v, qs. split; [now right|exact K].
Qed.

(** Two runs of stats whose selections have as many transactions, the same
    payees and accounts, the same first and last date, and on each day the same
    sums of income and of expenses, print the same report but for the files. *)
Theorem C122_figures : forall E O fs sel E' O' fs' sel', sane_clock E -> orders E -> filters_for E (o_args O) fs ->
  sane_clock E' -> orders E' -> filters_for E' (o_args O') fs' -> (forall n, e_now E' n = e_now E n) ->
  r_status (stats_cmd E O) = SOk -> r_status (stats_cmd E' O') = SOk ->
  picks E O fs (txns 0 (fst (stream E O))) sel -> picks E' O' fs' (txns 0 (fst (stream E' O'))) sel' ->
  Forall (fun t => t_date t <> Date 1 1 1) (selected sel ++ selected sel') -> same_figures sel sel' ->
  exists files files' report, file_part sel files /\ file_part sel' files' /\
    r_out (stats_cmd E O) = files ++ report /\ r_out (stats_cmd E' O') = files' ++ report.
Proof.
  intros E O fs sel E' O' fs' sel' C Or F C' Or' F' Now Ok Ok' P P' Nz Sf.
  destruct (stats_report_of E O fs sel C Or F Ok P) as (n & s & sel0 & Q & [Cc Ca Cp Cf Cn Cd] & [Bi Be] & X & Xs & Xf).
  destruct (stats_report_of E' O' fs' sel' C' Or' F' Ok' P') as (n' & s' & sel0' & Q' & [Cc' Ca' Cp' Cf' Cn' Cd'] & [Bi' Be'] & X' & Xs' & Xf').
  rewrite Q, Q'. apply Forall_app in Nz as [Nz Nz'].
  assert (R : Forall (fun t => real_date (t_date t)) (selected sel0)). { rewrite Xs. apply Forall_forall. intros t I. exact (selected_dated E O fs sel t P I). }
  assert (R' : Forall (fun t => real_date (t_date t)) (selected sel0')). { rewrite Xs'. apply Forall_forall. intros t I. exact (selected_dated E' O' fs' sel' t P' I). }
  pose proof (sf_count _ _ Sf) as L. pose proof (sf_count _ _ X) as L1. pose proof (sf_count _ _ X') as L2.
  unfold stats_report. rewrite Cc, Cc', L2, L1, L. destruct (Z.eqb_spec (Z.of_nat (length sel)) 0) as [Z0|Z0].
  { assert (sel = []) as -> by (destruct sel; [reflexivity|discriminate]). assert (sel' = []) as -> by (destruct sel'; [reflexivity|discriminate]).
    exists [], [], [lit "No transactions matched arguments." ++ nl]. split; [now left|]. split; [now left|]. split; reflexivity. }
  assert (Ne : sel0 <> []) by (intros ->; cbn in L1; lia). assert (Ne' : sel0' <> []) by (intros ->; cbn in L2; lia).
  rewrite <- Xs in Nz. rewrite <- Xs' in Nz'. destruct (Cd Nz Ne) as [[I1 M1] [I2 M2]]. destruct (Cd' Nz' Ne') as [[I1' M1'] [I2' M2']].
  assert (E64 : forall l d, Forall (fun t => real_date (t_date t)) (selected l) -> In d (map t_date (selected l)) -> Forall (fun d' => instant d <= instant d') (map t_date (selected l)) -> earliest l d).
  { intros l d Rl I M. split; [exact I|]. intros d' J Y. rewrite Forall_forall in M.
    assert (Rd : forall x, In x (map t_date (selected l)) -> real_date x). { intros x K. apply in_map_iff in K as (t & <- & K). rewrite Forall_forall in Rl. auto. }
    apply instant_order in Y; auto. specialize (M d' J). lia. }
  assert (L64 : forall l d, Forall (fun t => real_date (t_date t)) (selected l) -> In d (map t_date (selected l)) -> Forall (fun d' => instant d' <= instant d) (map t_date (selected l)) -> latest l d).
  { intros l d Rl I M. split; [exact I|]. intros d' J Y. rewrite Forall_forall in M.
    assert (Rd : forall x, In x (map t_date (selected l)) -> real_date x). { intros x K. apply in_map_iff in K as (t & <- & K). rewrite Forall_forall in Rl. auto. }
    apply instant_order in Y; auto. specialize (M d' J). lia. }
  assert (Q1 : s_first s' = s_first s).
  { apply (earliest_one sel0); [exact R| |now apply E64]. apply (sf_first _ _ X), (sf_first _ _ Sf), (sf_first _ _ X'). now apply E64. }
  assert (Q2 : s_last s' = s_last s).
  { apply (latest_one sel0); [exact R| |now apply L64]. apply (sf_last _ _ X), (sf_last _ _ Sf), (sf_last _ _ X'). now apply L64. }
  assert (Len : forall (P P' : str -> Prop) l l', lists P l -> lists P' l' -> (forall x, P' x <-> P x) -> length l' = length l).
  { intros P0 P0' l l' [N H] [N' H'] K. apply Permutation_length, NoDup_Permutation; auto. intro x. rewrite H, H'. apply K. }
  assert (Q3 : length (s_accounts s') = length (s_accounts s)).
  { apply (Len _ _ _ _ Ca Ca'). intro a. rewrite (sf_accounts _ _ X'), (sf_accounts _ _ Sf), (sf_accounts _ _ X). reflexivity. }
  assert (Q4 : length (s_payees s') = length (s_payees s)).
  { apply (Len _ _ _ _ Cp Cp'). intro a. rewrite (sf_payees _ _ X'), (sf_payees _ _ Sf), (sf_payees _ _ X). reflexivity. }
  assert (Back : forall root a b, same_days root a b -> same_days root b a).
  { intros root a b H d. destruct (H d) as [A B]. split; [tauto|]. unfold zero64 in *. replace (zsum (posted_on root a d) - zsum (posted_on root b d)) with (- (zsum (posted_on root b d) - zsum (posted_on root a d))) by lia. now apply Z_mod_zero_opp_full. }
  assert (Di : same_days (lit "Income") sel0 sel0').
  { eapply days_trans; [apply Back, (sf_income _ _ X)|]. eapply days_trans; [exact (sf_income _ _ Sf)|exact (sf_income _ _ X')]. }
  assert (De : same_days (lit "Expenses") sel0 sel0').
  { eapply days_trans; [apply Back, (sf_expenses _ _ X)|]. eapply days_trans; [exact (sf_expenses _ _ Sf)|exact (sf_expenses _ _ X')]. }
  assert (Q5 : all_ages s' = all_ages s).
  { destruct (bank_same _ _ _ _ _ _ R Bi Bi' Di) as [A B]. destruct (bank_same _ _ _ _ _ _ R Be Be' De) as [A' B'].
    unfold all_ages. cbn [fst snd] in *. rewrite <- A, <- A'. apply age_loop_same; intro d; [now rewrite B'|now rewrite B]. }
  cbv zeta. rewrite Q1, Q2, Q3, Q4, Q5, !Now.
  assert (Part : forall E n (s : stats) sel sel0, orders E -> sel <> [] -> lists (used_files sel0) (s_files s) -> (forall a, used_files sel0 a <-> used_files sel a) ->
    file_part sel ([lit "Transactions found in " ++ itoa (Z.of_nat (length (s_files s))) ++ lit " files:" ++ nl] ++ map (fun p => lit "  " ++ p ++ nl) (e_order E n _ (s_files s)))).
  { clear. intros E n s sel sel0 Or Ne [N H] K. right. split; [exact Ne|]. exists (e_order E n _ (s_files s)), (itoa (Z.of_nat (length (s_files s)))).
    pose proof (proj1 Or n _ (s_files s)) as Pm. split; [split|split].
    - eapply Permutation_NoDup; [symmetry; exact Pm|exact N].
    - intro x. rewrite <- K, <- H. split; apply Permutation_in; [exact Pm|now symmetry].
    - rewrite (Permutation_length Pm). apply canonical_z. lia.
    - reflexivity. }
  eexists _, _, _. split; [eapply (Part E n s sel sel0); auto|]. { intros ->. apply Z0. reflexivity. }
  split; [eapply (Part E' n' s' sel' sel0'); auto|]. { intros ->. cbn in L. lia. }
  split; rewrite <- app_assoc; reflexivity.
Qed.

(** ** Selections made of the same transactions *)
Lemma picked_by : forall E O fs us sel, picks E O fs us sel -> Permutation (taken sel) (flat_map (hits E fs) (selected sel)) /\
  forall root d, Permutation (posted_on root sel d) (flat_map (fun t => if date_eqb (t_date t) d then posted root (hits E fs t) else []) (selected sel)).
Proof.
  intros E O fs us sel P. induction P as [|u us sel No _ IH|u us sel ps W Ht Pm Wh _ [IH1 IH2]]; [split; intros; constructor|exact IH|].
  unfold taken, posted_on, selected in *. cbn [map flat_map fst snd]. split; [now apply Permutation_app|].
  intros root d. apply Permutation_app; [|apply IH2]. destruct (date_eqb _ d); [now apply posted_perm|constructor].
Qed.
(** [l'] has the transactions of [l], perhaps in another order and with other
    notes and comments, and the same postings of each count. *)
Lemma figures_of : forall sel sel' (h h' : transaction -> list posting) ts ts',
  Permutation (taken sel) (flat_map h (selected sel)) -> Permutation (taken sel') (flat_map h' (selected sel')) ->
  (forall root d, Permutation (posted_on root sel d) (flat_map (fun t => if date_eqb (t_date t) d then posted root (h t) else []) (selected sel))) ->
  (forall root d, Permutation (posted_on root sel' d) (flat_map (fun t => if date_eqb (t_date t) d then posted root (h' t) else []) (selected sel'))) ->
  Permutation ts (selected sel) -> Permutation ts' (selected sel') ->
  Forall2 (fun t t' => t_date t' = t_date t /\ t_payee t' = t_payee t /\ map plainly (h' t') = map plainly (h t)) ts ts' ->
  same_figures sel sel'.
Proof.
  intros sel sel' h h' ts ts' T T' G G' Pm Pm' F.
  assert (Pd : Permutation (map t_date (selected sel)) (map t_date (selected sel'))).
  { rewrite <- Pm, <- Pm'. assert (X : map t_date ts' = map t_date ts); [|now rewrite X]. clear - F. induction F as [|? ? ? ? (X & _) _ IH]; [reflexivity|]. cbn. congruence. }
  assert (Pp : Permutation (map t_payee (selected sel)) (map t_payee (selected sel'))).
  { rewrite <- Pm, <- Pm'. assert (X : map t_payee ts' = map t_payee ts); [|now rewrite X]. clear - F. induction F as [|? ? ? ? (_ & X & _) _ IH]; [reflexivity|]. cbn. congruence. }
  assert (Pa : Permutation (map po_account (taken sel)) (map po_account (taken sel'))).
  { rewrite (Permutation_map po_account T), (Permutation_map po_account T').
    rewrite <- (Permutation_map po_account (flat_map_perm _ _ h _ _ Pm)), <- (Permutation_map po_account (flat_map_perm _ _ h' _ _ Pm')).
    assert (X : map po_account (flat_map h' ts') = map po_account (flat_map h ts)); [|now rewrite X].
    clear - F. induction F as [|? ? ? ? (_ & _ & X) _ IH]; [reflexivity|]. cbn [flat_map]. rewrite !map_app, IH. f_equal.
    apply (f_equal (map po_account)) in X. rewrite !map_map in X. exact X. }
  assert (Gd : forall root d, Permutation (posted_on root sel d) (posted_on root sel' d)).
  { intros root d. rewrite (G root d), (G' root d). rewrite <- (flat_map_perm _ _ _ _ _ Pm), <- (flat_map_perm _ _ _ _ _ Pm').
    match goal with |- Permutation ?a ?b => assert (X : b = a); [|now rewrite X] end.
    clear - F. induction F as [|? ? ? ? (X & _ & Y) _ IH]; [reflexivity|]. cbn [flat_map]. rewrite IH, X. f_equal. destruct (date_eqb _ d); [|reflexivity].
    assert (K : forall l, posted root l = posted root (map plainly l)). { clear. induction l as [|q l IH]; [reflexivity|]. cbn [map]. rewrite posted_cons, IH. symmetry. rewrite posted_cons. reflexivity. }
    rewrite (K (h' _)), (K (h _)). now rewrite Y. }
  split.
  - apply Permutation_length in Pd. unfold selected in Pd. now rewrite !map_length in Pd.
  - intro a. rewrite !used_accounts_taken. assert (K : forall l, (exists q, In q l /\ po_account q = a) <-> In a (map po_account l)) by (intro l; rewrite in_map_iff; firstorder).
    rewrite !K. split; apply Permutation_in; [now symmetry|exact Pa].
  - intro a. rewrite !used_payees_selected. assert (K : forall l, (exists t, In t l /\ t_payee t = a) <-> In a (map t_payee l)) by (intro l; rewrite in_map_iff; firstorder).
    rewrite !K. split; apply Permutation_in; [now symmetry|exact Pp].
  - assert (K : forall x, In x (map t_date (selected sel')) <-> In x (map t_date (selected sel))) by (intro x; split; apply Permutation_in; [now symmetry|exact Pd]).
    intro d. unfold earliest. rewrite K. split; intros [I M]; (split; [exact I|]); intros x J; apply M; now apply K.
  - assert (K : forall x, In x (map t_date (selected sel')) <-> In x (map t_date (selected sel))) by (intro x; split; apply Permutation_in; [now symmetry|exact Pd]).
    intro d. unfold latest. rewrite K. split; intros [I M]; (split; [exact I|]); intros x J; apply M; now apply K.
  - apply days_perm, Gd.
  - apply days_perm, Gd.
Qed.
Lemma figures_perm : forall E O fs us sel us' sel', picks E O fs us sel -> picks E O fs us' sel' -> Permutation (selected sel) (selected sel') -> same_figures sel sel'.
Proof.
  intros E O fs us sel us' sel' P P' S. destruct (picked_by _ _ _ _ _ P) as [T G], (picked_by _ _ _ _ _ P') as [T' G'].
  apply (figures_of sel sel' (hits E fs) (hits E fs) (selected sel) (selected sel)); auto. clear. induction (selected sel); constructor; auto.
Qed.

(** ** C92, of stats: the order of the parts of a journal *)
Lemma picks_conv : forall E O fs us sel u, picks E O fs us sel -> In u us -> within E O (u_n u) (t_date (u_txn u)) -> hit E fs (u_txn u) = true -> exists ps, In (u, ps) sel.
Proof.
  intros E O fs us sel u P. induction P as [|v us sel No _ IH|v us sel ps W Ht Pm Wh _ IH]; intros I Wu Hu; [destruct I| |].
  - destruct I as [<-|I]; [|auto]. destruct No as [No|No]; [contradiction|congruence].
  - destruct I as [<-|I]; [exists ps; now left|]. destruct (IH I Wu Hu) as (qs & J). exists qs. now right.
Qed.
Lemma txns_conv : forall evs n t p, In (ETxn t p) evs -> exists u, In u (txns n evs) /\ u_txn u = t /\ u_path u = p.
Proof.
  induction evs as [|[t' p'|pt p'] evs IH]; intros n t p I; [destruct I| |]; cbn [txns].
  - destruct I as [I|I]; [injection I as -> ->; eexists; split; [now left|split; reflexivity]|]. destruct (IH (S n) t p I) as (u & J & K). exists u. split; [now right|exact K].
  - destruct I as [I|I]; [discriminate|]. exact (IH n t p I).
Qed.
Lemma files_perm : forall E O fs evs evs' sel sel', steady E -> Permutation evs evs' -> picks E O fs (txns 0 evs) sel -> picks E O fs (txns 0 evs') sel' ->
  forall a, used_files sel a -> used_files sel' a.
Proof.
  intros E O fs evs evs' sel sel' St Pm P P' a (u & ps & I & <-). destruct (picks_in _ _ _ _ _ _ _ P I) as (J & W & Hi & _). apply txns_in in J.
  apply (Permutation_in _ Pm) in J. destruct (txns_conv _ 0 _ _ J) as (u' & J' & X & Y). 
  destruct (picks_conv _ _ _ _ _ u' P' J') as (qs & K).
  - rewrite X. now apply (within_steady E O St (u_n u) (u_n u')).
  - now rewrite X.
  - exists u', qs. auto.
Qed.
Theorem C92_stats_report : forall E O p xs ys fs, journal_path E O = Some p -> steady E -> Forall line_start xs -> Permutation xs ys ->
  sane_clock E -> orders E -> sorts E -> filters_for E (o_args O) fs ->
  let E1 := holding E p (one_after_another xs) in let E2 := holding E p (one_after_another ys) in
  r_status (stats_cmd E1 O) = SOk -> Forall (fun u => t_date (u_txn u) <> Date 1 1 1) (txns 0 (fst (stream E1 O))) ->
  exists head files files' tail, Permutation files files' /\
    r_out (stats_cmd E1 O) = head ++ files ++ tail /\ r_out (stats_cmd E2 O) = head ++ files' ++ tail.
Proof.
  intros E O p xs ys fs Path St Starts Perm C Or So F E1 E2 Ok Nz.
  destruct (C92_stats E O p Path St xs ys Starts Perm C Or fs F So) as [B _]. pose proof (proj1 B Ok) as Ok2. fold E1 in B. fold E2 in B, Ok2.
  assert (F1 : filters_for E1 (o_args O) fs) by (apply holding_filters; exact F). assert (F2 : filters_for E2 (o_args O) fs) by (apply holding_filters; exact F).
  destruct (proj1 (C44_completes E1 O fs C Or F1) Ok) as [R1 (s1 & P1 & _)]. destruct (proj1 (C44_completes E2 O fs C Or F2) Ok2) as [R2 (s2 & P2 & _)].
  destruct (order_picks E O p Path St xs ys Starts Perm fs s1 s2 (proj1 R1) P1 P2) as [Se _].
  destruct (order_stream E O p Path xs ys Starts Perm) as [_ Ps]. specialize (Ps (proj1 R1)).
  assert (N1 : Forall (fun t => t_date t <> Date 1 1 1) (selected s1)).
  { clear - P1 Nz. induction P1; [constructor|inversion Nz; auto|]. inversion Nz; subst. constructor; auto. }
  assert (P1' : picks E O fs (txns 0 (fst (stream E1 O))) s1) by (apply (picks_holding E O p (one_after_another xs)); exact P1).
  assert (P2' : picks E O fs (txns 0 (fst (stream E2 O))) s2) by (apply (picks_holding E O p (one_after_another ys)); exact P2).
  destruct (C122_figures E1 O fs s1 E2 O fs s2 C Or F1 C Or F2 (fun n => eq_refl) Ok Ok2 P1 P2) as (f1 & f2 & rep & X1 & X2 & Q1 & Q2).
  { apply Forall_app. split; [exact N1|]. eapply Permutation_Forall; [exact Se|exact N1]. }
  { exact (figures_perm _ _ _ _ _ _ _ P1' P2' Se). }
  rewrite Q1, Q2. destruct X1 as [[-> ->]|[Ne (l1 & n1 & L1 & K1 & ->)]], X2 as [[-> ->]|[Ne2 (l2 & n2 & L2 & K2 & ->)]].
  - exists [], [], [], rep. auto.
  - exfalso. apply Ne2. apply Permutation_length in Se. unfold selected in Se. rewrite !map_length in Se. destruct s2; [reflexivity|discriminate].
  - exfalso. apply Ne. apply Permutation_length in Se. unfold selected in Se. rewrite !map_length in Se. destruct s1; [reflexivity|discriminate].
  - assert (Pf : Permutation l1 l2).
    { apply NoDup_Permutation; [apply L1|apply L2|]. intro a. rewrite (proj2 L1 a), (proj2 L2 a). split; [exact (files_perm _ _ _ _ _ _ _ St Ps P1' P2' a)|].
      exact (files_perm _ _ _ _ _ _ _ St (Permutation_sym Ps) P2' P1' a). }
    rewrite (Permutation_length Pf) in K1. rewrite (MistakeFacts.canonical_unique _ _ _ (Nat2Z.is_nonneg _) K1 K2).
    exists [lit "Transactions found in " ++ n2 ++ lit " files:" ++ [10]], (map (fun p => lit "  " ++ p ++ [10]) l1), (map (fun p => lit "  " ++ p ++ [10]) l2), rep.
    split; [now apply Permutation_map|]. rewrite <- !app_assoc. split; reflexivity.
Qed.

(** ** C82, of stats: the statistics of what print prints *)
Definition one_file (sel : list (used * list posting)) (p : str) : list str :=
  match sel with [] => [] | _ => [lit "Transactions found in 1 files:" ++ [10]; lit "  " ++ p ++ [10]] end.
Theorem C82_stats : forall E O sel out E' O', sane_clock E -> orders E -> sorts E -> o_args O = [] ->
  picks E O [] (txns 0 (fst (stream E O))) sel -> print_cmd E O = Outcome out SOk ->
  Forall legible (selected sel) -> Forall (fun t => 0 <= instant (t_date t) /\ t_date t <> Date 1 1 1) (selected sel) ->
  sane_clock E' -> orders E' -> e_unicode E' = e_unicode E -> (forall n, e_now E' n = e_now E n) -> plain O' -> reads E' O' (concat out) ->
  r_status (stats_cmd E O) = SOk ->
  r_status (stats_cmd E' O') = SOk /\
  exists p files report, journal_path E' O' = Some p /\ file_part sel files /\
    r_out (stats_cmd E O) = files ++ report /\ r_out (stats_cmd E' O') = one_file sel p ++ report.
Proof.
  intros E O sel out E' O' C Or So A P Q L Y C' Or' U Now Pl Rd Ok.
  assert (Y0 : Forall (fun t => 0 <= instant (t_date t)) (selected sel)) by (eapply Forall_impl; [|exact Y]; intros t H; apply H).
  assert (Nz : Forall (fun t => t_date t <> Date 1 1 1) (selected sel)) by (eapply Forall_impl; [|exact Y]; intros t H; apply H).
  destruct (printed_history E E' O O' sel out C Or So A P Q L Y0 U Pl Rd) as (p & ts & ts' & [Jp Pm] & Rr & St & F & F' & Re' & _).
  assert (Y' : Forall (fun t => 0 <= instant (t_date t)) ts').
  { apply (reread_dated (fun d => 0 <= instant d) _ _ Rr). eapply Permutation_Forall; [symmetry; exact Pm|exact Y0]. }
  assert (Nz' : Forall (fun t => t_date t <> Date 1 1 1) ts').
  { apply (reread_dated (fun d => d <> Date 1 1 1) _ _ Rr). eapply Permutation_Forall; [symmetry; exact Pm|exact Nz]. }
  assert (Ex : exists sel', picks E' O' [] (txns 0 (fst (stream E' O'))) sel' /\ selected sel' = ts' /\ Forall (fun x => u_path (fst x) = p) sel').
  { rewrite St. cbn [fst]. clear - Pl Y'. revert Y'. generalize 0%nat. generalize ts' as l. induction l as [|t l IH]; intros n Y; [exists []; repeat split; constructor|].
    inversion_clear Y as [|? ? Yt Y1]. destruct (IH (Datatypes.S n) Y1) as (sel' & P & Q & V). eexists (_ :: sel'). cbn [map txns]. split; [|split].
    - apply PickIt; [now apply plain_within|reflexivity|reflexivity|reflexivity|exact P].
    - cbn. now rewrite <- Q.
    - constructor; [reflexivity|exact V]. }
  destruct Ex as (sel' & P' & Se' & V).
  assert (Ok' : r_status (stats_cmd E' O') = SOk).
  { apply (C44_completes E' O' [] C' Or' F'). split; [exact Re'|]. exists sel'. split; [exact P'|]. rewrite (taken_whole _ _ _ _ P'), Se'.
    apply Forall_forall. intros q I N. exfalso. apply in_flat_map in I as (t' & I & J). destruct (proj2 (reread_in _ _ Rr) _ I) as (t & It & [_ _ _ _ _ _ R]).
    apply (Permutation_in _ Pm) in It. rewrite Forall_forall in L. destruct (L t It) as [Am _]. unfold amounts_fit in Am. clear - Am R J N.
    induction R as [|a a' l l' (_ & Q & _) _ IH]; [destruct J|]. inversion Am as [|? ? (cc & x & Qa & _) Am']; subst. destruct J as [<-|J]; [congruence|auto]. }
  split; [exact Ok'|].
  assert (Sf : same_figures sel sel').
  { destruct (picked_by _ _ _ _ _ P) as [T G], (picked_by _ _ _ _ _ P') as [T' G'].
    apply (figures_of sel sel' (hits E []) (hits E' []) ts ts'); auto; [now rewrite Se'|]. clear - Rr.
    induction Rr as [|t t' ts ts' [D _ Py _ _ _ R] _ IH]; constructor; [|exact IH]. split; [exact D|]. split; [exact Py|]. cbn [hits].
    induction R as [|a a' l l' (Qa & Qb & _) _ IHr]; [reflexivity|]. cbn [map]. rewrite IHr. f_equal. unfold plainly. now rewrite Qa, Qb. }
  destruct (C122_figures E O [] sel E' O' [] sel' C Or F C' Or' F' Now Ok Ok' P P') as (f1 & f2 & rep & X1 & X2 & Q1 & Q2); [|exact Sf|].
  { apply Forall_app. split; [exact Nz|now rewrite Se']. }
  exists p, f1, rep. split; [exact Jp|]. split; [exact X1|]. split; [exact Q1|]. rewrite Q2. f_equal. unfold one_file.
  pose proof (sf_count _ _ Sf) as Len. destruct X2 as [[-> ->]|[Ne (l & n & [N H] & K & ->)]]; [destruct sel; [reflexivity|discriminate]|].
  destruct sel as [|x sel]; [destruct sel'; [contradiction|discriminate]|].
  assert (l = [p]) as ->.
  { apply Permutation_length_1_inv. apply NoDup_Permutation; [repeat constructor; intros []|exact N|]. intro a. rewrite H. unfold used_files. split.
    - intros [<-|[]]. destruct sel' as [|[u ps] sel']; [contradiction|]. inversion V; subst. exists u, ps. split; [now left|reflexivity].
    - intros (u & ps & I & <-). rewrite Forall_forall in V. left. symmetry. exact (V _ I). }
  cbn [length] in K. assert (n = lit "1") as ->; [|reflexivity].
  apply (MistakeFacts.canonical_unique 1); [lia|exact K|]. apply (canonical_z 1). lia.
Qed.

(** ** Examples *)
Definition inclb {A} (eqb : A -> A -> bool) (l l' : list A) : bool := forallb (fun x => existsb (eqb x) l') l.
Lemma inclb_ok : forall A (eqb : A -> A -> bool), (forall a b, eqb a b = true -> a = b) -> forall l l', inclb eqb l l' = true -> incl l l'.
Proof.
  intros A eqb Q l l' H x I. unfold inclb in H. rewrite forallb_forall in H. specialize (H x I). apply existsb_exists in H as (y & J & X). apply Q in X. now subst.
Qed.
Definition same_daysb (root : str) (sel sel' : list (used * list posting)) : bool :=
  forallb (fun d => Bool.eqb (is_nil (posted_on root sel' d)) (is_nil (posted_on root sel d)) && (zsum (posted_on root sel' d) =? zsum (posted_on root sel d)))
    (map t_date (selected sel ++ selected sel')).
Definition same_figuresb (sel sel' : list (used * list posting)) : bool :=
  Nat.eqb (length sel') (length sel) &&
  (inclb str_eqb (map po_account (taken sel)) (map po_account (taken sel')) && inclb str_eqb (map po_account (taken sel')) (map po_account (taken sel))) &&
  (inclb str_eqb (map t_payee (selected sel)) (map t_payee (selected sel')) && inclb str_eqb (map t_payee (selected sel')) (map t_payee (selected sel))) &&
  (inclb date_eqb (map t_date (selected sel)) (map t_date (selected sel')) && inclb date_eqb (map t_date (selected sel')) (map t_date (selected sel))) &&
  same_daysb (lit "Income") sel sel' && same_daysb (lit "Expenses") sel sel'.
Lemma unposted : forall root sel d, ~ In d (map t_date (selected sel)) -> posted_on root sel d = [].
Proof.
  intros root sel d N. induction sel as [|[u ps] sel IH]; [reflexivity|]. unfold posted_on in *. cbn [flat_map]. cbn in N.
  destruct (date_eqb (t_date (u_txn u)) d) eqn:Q; [apply date_eqb_eq in Q; tauto|]. apply IH. tauto.
Qed.
Lemma same_daysb_ok : forall root sel sel', same_daysb root sel sel' = true -> same_days root sel sel'.
Proof.
  intros root sel sel' H d. unfold same_daysb in H. rewrite forallb_forall in H.
  assert (Dec : {In d (map t_date (selected sel ++ selected sel'))} + {~ In d (map t_date (selected sel ++ selected sel'))}).
  { apply in_dec. intros a b. destruct (date_eqb a b) eqn:Q; [left; now apply date_eqb_eq|right; intros ->; now rewrite date_eqb_refl in Q]. }
  destruct Dec as [I|N].
  - specialize (H d I). apply andb_prop in H as [A B]. apply Bool.eqb_prop in A. apply Z.eqb_eq in B. rewrite B. split; [|apply zero64_refl].
    destruct (posted_on root sel d), (posted_on root sel' d); cbn in A; split; congruence.
  - rewrite map_app, in_app_iff in N. rewrite !unposted by tauto. split; [tauto|apply zero64_refl].
Qed.
Lemma same_figuresb_ok : forall sel sel', same_figuresb sel sel' = true -> same_figures sel sel'.
Proof.
  intros sel sel' H. unfold same_figuresb in H. apply andb_prop in H as [H De]. apply andb_prop in H as [H Di]. apply andb_prop in H as [H Dd]. apply andb_prop in H as [H Dp].
  apply andb_prop in H as [Len Da]. apply Nat.eqb_eq in Len. apply andb_prop in Da as [A1 A2]. apply andb_prop in Dp as [P1 P2]. apply andb_prop in Dd as [D1 D2].
  assert (S : forall a b, str_eqb a b = true -> a = b) by (intros a b; apply str_eqb_eq).
  apply (inclb_ok _ _ S) in A1, A2, P1, P2. apply (inclb_ok _ _ (fun a b => proj1 (date_eqb_eq a b))) in D1, D2.
  split; [exact Len| | | | |now apply same_daysb_ok|now apply same_daysb_ok].
  - intro a. rewrite !used_accounts_taken. assert (K : forall l, (exists q, In q l /\ po_account q = a) <-> In a (map po_account l)) by (intro l; rewrite in_map_iff; firstorder).
    rewrite !K. split; auto.
  - intro a. rewrite !used_payees_selected. assert (K : forall l, (exists t, In t l /\ t_payee t = a) <-> In a (map t_payee l)) by (intro l; rewrite in_map_iff; firstorder).
    rewrite !K. split; auto.
  - intro d. split; intros [I M]; (split; [auto|]); intros x J; apply M; auto.
  - intro d. split; intros [I M]; (split; [auto|]); intros x J; apply M; auto.
Qed.

(** The journal of C121's example written otherwise: in another order, postings
    split, what is not income or expense booked otherwise, payees exchanged. *)
Definition text_loosely : str :=
  lit "2020-10-01 Market" ++ [10] ++ lit "    Income:Other    £-50" ++ [10] ++ lit "    Assets:Current    £100" ++ [10] ++ lit "    Income:Job    £-50" ++ [10; 10] ++
  lit "2020-10-05 Salary" ++ [10] ++ lit "    Assets:Cash" ++ [10] ++ lit "    Expenses:Clothing    £15.00" ++ [10] ++ lit "    Expenses:Clothing    £25.00" ++ [10; 10] ++
  lit "2020-11-20 Clothes" ++ [10] ++ lit "    Assets:Current   £-12.50" ++ [10] ++ lit "    Expenses:Groceries" ++ [10].
Example C122_example : let E := env1 [(lit "j", text_loose)] in let E' := env1 [(lit "j", text_loosely)] in let O := opts0 "j" in
  exists sel sel', sane_clock E /\ orders E /\ filters_for E (o_args O) [] /\ sane_clock E' /\ orders E' /\ filters_for E' (o_args O) [] /\
  (forall n, e_now E' n = e_now E n) /\ r_status (stats_cmd E O) = SOk /\ r_status (stats_cmd E' O) = SOk /\
  picks E O [] (txns 0 (fst (stream E O))) sel /\ picks E' O [] (txns 0 (fst (stream E' O))) sel' /\ length sel = 3%nat /\
  Forall (fun t => t_date t <> Date 1 1 1) (selected sel ++ selected sel') /\ same_figures sel sel' /\
  nth_error (r_out (stats_cmd E O)) 8 = Some (age_line (lit "27")).
Proof.
  cbn zeta. set (us := txns 0 (fst (stream (env1 [(lit "j", text_loose)]) (opts0 "j")))). vm_compute in us.
  set (us' := txns 0 (fst (stream (env1 [(lit "j", text_loosely)]) (opts0 "j")))). vm_compute in us'.
  exists (map (fun u => (u, t_postings (u_txn u))) us), (map (fun u => (u, t_postings (u_txn u))) us').
  split; [apply env1_clock|]. split; [apply env1_orders|]. split; [split; constructor|]. split; [apply env1_clock|]. split; [apply env1_orders|]. split; [split; constructor|].
  split; [reflexivity|]. split; [vm_compute; reflexivity|]. split; [vm_compute; reflexivity|]. split; [|split; [|split; [reflexivity|split; [|split]]]].
  - subst us. cbn [map]. repeat (apply PickIt; [apply plain_within; [apply plain0|vm_compute; discriminate]|reflexivity|reflexivity|reflexivity|]). apply PickNone.
  - subst us'. cbn [map]. repeat (apply PickIt; [apply plain_within; [apply plain0|vm_compute; discriminate]|reflexivity|reflexivity|reflexivity|]). apply PickNone.
  - subst us us'. repeat (constructor; [vm_compute; discriminate|]). constructor.
  - apply same_figuresb_ok. vm_compute. reflexivity.
  - vm_compute. reflexivity.
Qed.

(** The journal of C121's example, printed. *)
Example C82_stats_example : let E := env1 [(lit "j", text_loose)] in let E' := env1 [(lit "k", print_text text_loose)] in
  exists sel, sane_clock E /\ orders E /\ sorts E /\ o_args (opts0 "j") = [] /\ picks E (opts0 "j") [] (txns 0 (fst (stream E (opts0 "j")))) sel /\ length sel = 3%nat /\
  print_cmd E (opts0 "j") = Outcome (r_out (print_cmd E (opts0 "j"))) SOk /\ Forall legible (selected sel) /\
  Forall (fun t => 0 <= instant (t_date t) /\ t_date t <> Date 1 1 1) (selected sel) /\
  sane_clock E' /\ orders E' /\ (forall n, e_now E' n = e_now E n) /\ plain (opts0 "k") /\ reads E' (opts0 "k") (concat (r_out (print_cmd E (opts0 "j")))) /\
  r_status (stats_cmd E (opts0 "j")) = SOk /\ nth_error (r_out (stats_cmd E' (opts0 "k"))) 1 = Some (lit "  k" ++ [10]).
Proof.
  cbn zeta. set (us := txns 0 (fst (stream (env1 [(lit "j", text_loose)]) (opts0 "j")))). vm_compute in us.
  exists (map (fun u => (u, t_postings (u_txn u))) us). split; [apply env1_clock|]. split; [apply env1_orders|]. split; [exact (env0_sorts [])|]. split; [reflexivity|].
  split; [|split; [reflexivity|split; [vm_compute; reflexivity|split; [apply legibleb_ok; vm_compute; reflexivity|split]]]].
  - subst us. cbn [map]. repeat (apply PickIt; [apply plain_within; [apply plain0|vm_compute; discriminate]|reflexivity|reflexivity|reflexivity|]). apply PickNone.
  - subst us. repeat (constructor; [split; vm_compute; discriminate|]). constructor.
  - split; [apply env1_clock|]. split; [apply env1_orders|]. split; [reflexivity|]. split; [apply plain0|]. split; [exists (lit "k"); split; vm_compute; reflexivity|].
    split; vm_compute; reflexivity.
Qed.

(** The parts of C92's example. *)
Example C92_stats_report_example : let E := env1 [] in let O := opts_zero [] [] in let at_ xs := holding E (lit "j") (one_after_another xs) in
  parts1 <> parts2 /\ r_status (stats_cmd (at_ parts1) O) = SOk /\
  Forall (fun u => t_date (u_txn u) <> Date 1 1 1) (txns 0 (fst (stream (at_ parts1) O))) /\ length (txns 0 (fst (stream (at_ parts1) O))) = 4%nat.
Proof.
  cbn zeta. split; [unfold parts1, parts2; intro X; injection X; discriminate|]. split; [vm_compute; reflexivity|]. split.
  - set (us := txns 0 _). vm_compute in us. subst us. repeat (constructor; [vm_compute; discriminate|]). constructor.
  - vm_compute. reflexivity.
Qed.
