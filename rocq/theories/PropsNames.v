(** * C140: renaming accounts and payees in listings and statistics *)
From Verif Require Import Base BaseFacts Utf8 Unicode GoTime Strconv Display Journal JournalFacts Lexer Parser ParserFacts Account Reporting Budget Cmd Spec TextSpec DateFacts CalendarFacts
  TreeSpec ReportSpec CmdSpec StreamFacts CmdFacts FlatSpec Sample PropsCmd PropsBalance PropsPrint PropsStats AgeFacts BankFacts PropsAge PropsReread PropsAgain BudgetSpec BudgetFacts PropsBudget PropsConcat PropsJoin PropsJoinMore PropsOrder PropsMonths PropsPrinted PropsStatistics PropsListed PropsCross.

(** As many names, however they read *)
Definition as_many (P P' : str -> Prop) : Prop := forall l l', lists P l -> lists P' l' -> length l' = length l.
Record same_numbers (sel sel' : list (used * list posting)) : Prop := {
  sn_count : length sel' = length sel;
  sn_accounts : as_many (used_accounts sel) (used_accounts sel');
  sn_payees : as_many (used_payees sel) (used_payees sel');
  sn_first : forall d, earliest sel' d <-> earliest sel d;
  sn_last : forall d, latest sel' d <-> latest sel d;
  sn_income : same_days (lit "Income") sel sel';
  sn_expenses : same_days (lit "Expenses") sel sel' }.

(** Statistics, but for the files, depend on how many accounts and payees there
    are, not on their names. *)
Theorem C140_numbers : forall E O fs sel E' O' fs' sel', sane_clock E -> orders E -> filters_for E (o_args O) fs ->
  sane_clock E' -> orders E' -> filters_for E' (o_args O') fs' -> (forall n, e_now E' n = e_now E n) ->
  r_status (stats_cmd E O) = SOk -> r_status (stats_cmd E' O') = SOk ->
  picks E O fs (txns 0 (fst (stream E O))) sel -> picks E' O' fs' (txns 0 (fst (stream E' O'))) sel' ->
  Forall (fun t => t_date t <> Date 1 1 1) (selected sel ++ selected sel') -> same_numbers sel sel' ->
  exists files files' report, file_part sel files /\ file_part sel' files' /\
    r_out (stats_cmd E O) = files ++ report /\ r_out (stats_cmd E' O') = files' ++ report.
Proof.
  intros E O fs sel E' O' fs' sel' C Or F C' Or' F' Now Ok Ok' P P' Nz Sf.
  destruct (stats_report_of E O fs sel C Or F Ok P) as (n & s & sel0 & Q & [Cc Ca Cp Cf Cn Cd] & [Bi Be] & X & Xs & Xf).
  destruct (stats_report_of E' O' fs' sel' C' Or' F' Ok' P') as (n' & s' & sel0' & Q' & [Cc' Ca' Cp' Cf' Cn' Cd'] & [Bi' Be'] & X' & Xs' & Xf').
  rewrite Q, Q'. apply Forall_app in Nz as [Nz Nz'].
  assert (R : Forall (fun t => real_date (t_date t)) (selected sel0)). { rewrite Xs. apply Forall_forall. intros t I. exact (selected_dated E O fs sel t P I). }
  assert (R' : Forall (fun t => real_date (t_date t)) (selected sel0')). { rewrite Xs'. apply Forall_forall. intros t I. exact (selected_dated E' O' fs' sel' t P' I). }
  pose proof (sn_count _ _ Sf) as L. pose proof (sf_count _ _ X) as L1. pose proof (sf_count _ _ X') as L2.
  unfold stats_report. rewrite Cc, Cc', L2, L1, L. destruct (Z.eqb_spec (Z.of_nat (length sel)) 0) as [Z0|Z0].
  { assert (sel = []) as -> by (destruct sel; [reflexivity|discriminate]). assert (sel' = []) as -> by (destruct sel'; [reflexivity|discriminate]).
    exists [], [], [lit "No transactions matched arguments." ++ nl]. split; [now left|]. split; [now left|]. split; reflexivity. }
  assert (Ne : sel0 <> []) by (intros ->; cbn in L1; lia). assert (Ne' : sel0' <> []) by (intros ->; cbn in L2; lia).
  rewrite <- Xs in Nz. rewrite <- Xs' in Nz'. destruct (Cd Nz Ne) as [[I1 M1] [I2 M2]]. destruct (Cd' Nz' Ne') as [[I1' M1'] [I2' M2']].
  assert (E64 : forall l d, Forall (fun t => real_date (t_date t)) (selected l) -> In d (map t_date (selected l)) -> Forall (fun d' => instant d <= instant d') (map t_date (selected l)) -> earliest l d).
  { intros l d Rl I M. split; [exact I|]. intros d' J Y. rewrite Forall_forall in M.
    assert (Rd : forall x, In x (map t_date (selected l)) -> real_date x). { intros x K. apply in_map_iff in K as (t & <- & K). rewrite Forall_forall in Rl. auto. }
    apply instant_order in Y; auto. specialize (M d' J). lia. }
  assert (L64 : forall l d, Forall (fun t => real_date (t_date t)) (selected l) -> In d (map t_date (selected l)) -> Forall (fun d' => instant d' <= instant d) (map t_date (selected l)) -> latest l d).
  { intros l d Rl I M. split; [exact I|]. intros d' J Y. rewrite Forall_forall in M.
    assert (Rd : forall x, In x (map t_date (selected l)) -> real_date x). { intros x K. apply in_map_iff in K as (t & <- & K). rewrite Forall_forall in Rl. auto. }
    apply instant_order in Y; auto. specialize (M d' J). lia. }
  assert (Q1 : s_first s' = s_first s).
  { apply (earliest_one sel0); [exact R| |now apply E64]. apply (sf_first _ _ X), (sn_first _ _ Sf), (sf_first _ _ X'). now apply E64. }
  assert (Q2 : s_last s' = s_last s).
  { apply (latest_one sel0); [exact R| |now apply L64]. apply (sf_last _ _ X), (sn_last _ _ Sf), (sf_last _ _ X'). now apply L64. }
  assert (Q3 : length (s_accounts s') = length (s_accounts s)).
  { apply (sn_accounts _ _ Sf); (split; [apply Ca || apply Ca'|]); intro a; [rewrite (proj2 Ca)|rewrite (proj2 Ca')]; [apply (sf_accounts _ _ X)|apply (sf_accounts _ _ X')]. }
  assert (Q4 : length (s_payees s') = length (s_payees s)).
  { apply (sn_payees _ _ Sf); (split; [apply Cp || apply Cp'|]); intro a; [rewrite (proj2 Cp)|rewrite (proj2 Cp')]; [apply (sf_payees _ _ X)|apply (sf_payees _ _ X')]. }
  assert (Back : forall root a b, same_days root a b -> same_days root b a).
  { intros root a b H d. destruct (H d) as [A B]. split; [tauto|]. unfold zero64 in *. replace (zsum (posted_on root a d) - zsum (posted_on root b d)) with (- (zsum (posted_on root b d) - zsum (posted_on root a d))) by lia. now apply Z_mod_zero_opp_full. }
  assert (Di : same_days (lit "Income") sel0 sel0').
  { eapply days_trans; [apply Back, (sf_income _ _ X)|]. eapply days_trans; [exact (sn_income _ _ Sf)|exact (sf_income _ _ X')]. }
  assert (De : same_days (lit "Expenses") sel0 sel0').
  { eapply days_trans; [apply Back, (sf_expenses _ _ X)|]. eapply days_trans; [exact (sn_expenses _ _ Sf)|exact (sf_expenses _ _ X')]. }
  assert (Q5 : all_ages s' = all_ages s).
  { destruct (bank_same _ _ _ _ _ _ R Bi Bi' Di) as [A B]. destruct (bank_same _ _ _ _ _ _ R Be Be' De) as [A' B'].
    unfold all_ages. cbn [fst snd] in *. rewrite <- A, <- A'. apply age_loop_same; intro d; [now rewrite B'|now rewrite B]. }
  cbv zeta. rewrite Q1, Q2, Q3, Q4, Q5, !Now.
  assert (Part : forall E n (s : stats) sel sel0, orders E -> sel <> [] -> lists (used_files sel0) (s_files s) -> (forall a, used_files sel0 a <-> used_files sel a) ->
    file_part sel ([lit "Transactions found in " ++ itoa (Z.of_nat (length (s_files s))) ++ lit " files:" ++ nl] ++ map (fun p => lit "  " ++ p ++ nl) (e_order E n _ (s_files s)))).
  { clear. intros E n s sel sel0 Or Ne [N H] K. right. split; [exact Ne|]. exists (e_order E n _ (s_files s)), (itoa (Z.of_nat (length (s_files s)))).
    pose proof (proj1 Or n _ (s_files s)) as Pm. split; [split|split].
    - eapply Permutation_NoDup; [symmetry; exact Pm|exact N].
    - intro x. rewrite <- K, <- H. split; apply Permutation_in; [exact Pm|now symmetry].
    - rewrite (Permutation_length Pm). apply canonical_z. lia.
    - reflexivity. }
  eexists _, _, _. split; [eapply (Part E n s sel sel0); auto|]. { intros ->. apply Z0. reflexivity. }
  split; [eapply (Part E' n' s' sel' sel0'); auto|]. { intros ->. cbn in L. lia. }
  split; rewrite <- app_assoc; reflexivity.
Qed.

(** An account, or one below it *)
Definition belongs (root a : str) : Prop := a = root \/ exists rest, a = root ++ 58 :: rest.
Lemma split_hd : forall a root, ~ In 58 root -> (hd [] (split 58 a) = root <-> belongs root a).
Proof.
  induction a as [|c a IH]; intros root N.
  - cbn. split; [intros <-; now left|]. intros [<-|[r Q]]; [reflexivity|]. destruct root; discriminate.
  - cbn [split]. destruct (Z.eqb_spec c 58) as [->|K].
    + cbn [hd]. split; [intros <-; right; now exists a|]. intros [<-|[r Q]]; [exfalso; apply N; now left|]. destruct root as [|x root]; [reflexivity|]. injection Q as Q1 _. exfalso. apply N. left. now symmetry.
    + destruct root as [|x root].
      * specialize (IH [] (fun x => x)). destruct (split 58 a) as [|h l]; cbn [hd]; (split; [discriminate|]); (intros [Q|[r Q]]; [discriminate|]); cbn in Q; injection Q as Q _; contradiction.
      * assert (N' : ~ In 58 root) by (intro I; apply N; now right). specialize (IH root N').
        match goal with |- hd [] ?m = _ <-> _ => assert (Q : hd [] m = c :: hd [] (split 58 a)) by (destruct (split 58 a); reflexivity) end.
        rewrite Q. split.
        -- intro H. injection H as -> H. apply IH in H as [->|[r ->]]; [now left|right; now exists r].
        -- intros [H|[r H]]; injection H as -> H; f_equal; apply IH; [left; exact H|right; now exists r].
Qed.

(** Accounts renamed one to one, income staying income and spending spending *)
Record renaming (f : str -> str) : Prop := {
  rn_one : forall a b, f a = f b -> a = b;
  rn_income : forall a, belongs (lit "Income") (f a) <-> belongs (lit "Income") a;
  rn_expenses : forall a, belongs (lit "Expenses") (f a) <-> belongs (lit "Expenses") a }.
Definition one_to_one (g : str -> str) : Prop := forall a b, g a = g b -> a = b.
Definition posting_renamed (f : str -> str) (p p' : posting) : Prop := po_account p' = f (po_account p) /\ po_amount p' = po_amount p.
Definition used_renamed (f g : str -> str) (u u' : used) : Prop :=
  t_date (u_txn u') = t_date (u_txn u) /\ t_payee (u_txn u') = g (t_payee (u_txn u)) /\
  Forall2 (posting_renamed f) (t_postings (u_txn u)) (t_postings (u_txn u')).
Definition picked_renamed (f g : str -> str) (x x' : used * list posting) : Prop :=
  t_date (u_txn (fst x')) = t_date (u_txn (fst x)) /\ t_payee (u_txn (fst x')) = g (t_payee (u_txn (fst x))) /\ Forall2 (posting_renamed f) (snd x) (snd x').

Lemma as_many_image : forall (P P' : str -> Prop) f, (forall a b : str, f a = f b -> a = b) -> (forall y, P' y <-> exists x, P x /\ y = f x) -> as_many P P'.
Proof.
  intros P P' f I H l l' [N K] [N' K']. rewrite <- (map_length f l). apply Permutation_length, NoDup_Permutation; [exact N'|now apply FinFun.Injective_map_NoDup|].
  intro y. rewrite K', H, in_map_iff. split; intros (x & A & B); exists x; [split; [now symmetry|now apply K]|split; [now apply K|now symmetry]].
Qed.
Lemma posted_renamed : forall f root ps ps', ~ In 58 root -> (forall a, belongs root (f a) <-> belongs root a) -> Forall2 (posting_renamed f) ps ps' -> posted root ps' = posted root ps.
Proof.
  intros f root ps ps' N B H. induction H as [|p p' ps ps' [A M] _ IH]; [reflexivity|]. unfold posted in *. cbn [flat_map]. rewrite IH, M. f_equal.
  assert (under root p' = under root p) as ->; [|reflexivity]. unfold under. rewrite A. specialize (B (po_account p)). rewrite <- !split_hd in B by exact N.
  destruct (str_eqb (hd [] (split 58 (f (po_account p)))) root) eqn:X, (str_eqb (hd [] (split 58 (po_account p))) root) eqn:Y; try reflexivity.
  - apply str_eqb_eq in X. apply B in X. apply str_eqb_eq in X. congruence.
  - apply str_eqb_eq in Y. apply B in Y. apply str_eqb_eq in Y. congruence.
Qed.
Lemma names_renamed : forall f ps ps', Forall2 (posting_renamed f) ps ps' -> map po_account ps' = map f (map po_account ps).
Proof. intros f ps ps' H. induction H as [|p p' ps ps' [A _] _ IH]; cbn; congruence. Qed.
Lemma zero64_self : forall x, zero64 (x - x).
Proof. intro x. rewrite Z.sub_diag. reflexivity. Qed.

Lemma numbers_renamed : forall f g sel sel', renaming f -> one_to_one g -> Forall2 (picked_renamed f g) sel sel' -> same_numbers sel sel'.
Proof.
  intros f g sel sel' F G H.
  assert (D : map t_date (selected sel') = map t_date (selected sel)).
  { unfold selected. rewrite !map_map. induction H as [|[u ps] [u' ps'] l l' (A & _) _ IH]; [reflexivity|]. cbn [map fst] in *. now rewrite IH, A. }
  assert (T : map po_account (taken sel') = map f (map po_account (taken sel))).
  { clear D. unfold taken. induction H as [|[u ps] [u' ps'] l l' (_ & _ & A) _ IH]; [reflexivity|]. cbn [flat_map snd] in *. rewrite !map_app, IH. f_equal. now apply names_renamed. }
  assert (Y : map t_payee (selected sel') = map g (map t_payee (selected sel))).
  { clear D T. unfold selected. rewrite !map_map. induction H as [|[u ps] [u' ps'] l l' (_ & A & _) _ IH]; [reflexivity|]. cbn [map fst] in *. now rewrite IH, A. }
  assert (Days : forall root, ~ In 58 root -> (forall a, belongs root (f a) <-> belongs root a) -> same_days root sel sel').
  { intros root N B d. assert (posted_on root sel' d = posted_on root sel d) as ->; [|split; [tauto|apply zero64_self]].
    clear D T Y. unfold posted_on. induction H as [|[u ps] [u' ps'] l l' (A & _ & M) _ IH]; [reflexivity|]. cbn [flat_map fst snd] in *. rewrite IH, A. f_equal.
    now rewrite (posted_renamed f root ps ps' N B M). }
  split.
  - apply f_equal with (f := @length _) in D. unfold selected in D. now rewrite !map_length in D.
  - apply (as_many_image _ _ f (rn_one _ F)). intro y. rewrite used_accounts_taken.
    assert (Z : forall l x, (exists p, In p l /\ po_account p = x) <-> In x (map po_account l)) by (intros l x; rewrite in_map_iff; split; intros (t & U & V); exists t; auto).
    rewrite Z, T, in_map_iff. split; intros (x & A & B); exists x.
    + split; [|now symmetry]. now apply used_accounts_taken, Z.
    + split; [now symmetry|]. now apply Z, used_accounts_taken.
  - apply (as_many_image _ _ g G). intro y. rewrite used_payees_selected.
    assert (Z : forall l x, (exists t, In t l /\ t_payee t = x) <-> In x (map t_payee l)) by (intros l x; rewrite in_map_iff; split; intros (t & U & V); exists t; auto).
    rewrite Z, Y, in_map_iff. split; intros (x & A & B); exists x.
    + split; [|now symmetry]. now apply used_payees_selected, Z.
    + split; [now symmetry|]. now apply Z, used_payees_selected.
  - intro d. unfold earliest. now rewrite D.
  - intro d. unfold latest. now rewrite D.
  - apply Days; [vm_compute; intuition discriminate|apply (rn_income _ F)].
  - apply Days; [vm_compute; intuition discriminate|apply (rn_expenses _ F)].
Qed.

(** Two runs of stats, the second with accounts and payees renamed. *)
Theorem C140_stats : forall f g E O fs sel E' O' fs' sel', renaming f -> one_to_one g -> sane_clock E -> orders E -> filters_for E (o_args O) fs ->
  sane_clock E' -> orders E' -> filters_for E' (o_args O') fs' -> (forall n, e_now E' n = e_now E n) ->
  r_status (stats_cmd E O) = SOk -> r_status (stats_cmd E' O') = SOk ->
  picks E O fs (txns 0 (fst (stream E O))) sel -> picks E' O' fs' (txns 0 (fst (stream E' O'))) sel' ->
  Forall (fun t => t_date t <> Date 1 1 1) (selected sel ++ selected sel') -> Forall2 (picked_renamed f g) sel sel' ->
  exists files files' report, file_part sel files /\ file_part sel' files' /\
    r_out (stats_cmd E O) = files ++ report /\ r_out (stats_cmd E' O') = files' ++ report.
Proof. intros. eapply C140_numbers; eauto. eapply numbers_renamed; eauto. Qed.

Lemma accounts_renamed : forall f g us us', Forall2 (used_renamed f g) us us' ->
  flat_map (fun u => map po_account (t_postings (u_txn u))) us' = map f (flat_map (fun u => map po_account (t_postings (u_txn u))) us).
Proof. intros f g us us' H. induction H as [|u u' l l' (_ & _ & X) _ IH]; [reflexivity|]. cbn [flat_map]. rewrite map_app, IH. f_equal. now apply names_renamed. Qed.
Lemma payees_renamed : forall f g us us', Forall2 (used_renamed f g) us us' -> map (fun u => t_payee (u_txn u)) us' = map g (map (fun u => t_payee (u_txn u)) us).
Proof. intros f g us us' H. induction H as [|u u' l l' (_ & X & _) _ IH]; [reflexivity|]. cbn [map]. now rewrite IH, X. Qed.

Section Listings.
Variables f g : str -> str.
Hypothesis F : one_to_one f.
Hypothesis G : one_to_one g.
Variables E E' : env.
Variables O O' : opts.
Variables sel sel' : list used.
Hypothesis Clock : sane_clock E.
Hypothesis Clock' : sane_clock E'.
Hypothesis Orders : orders E.
Hypothesis Orders' : orders E'.
Hypothesis Args : o_args O = [].
Hypothesis Args' : o_args O' = [].
Hypothesis Read : CmdSpec.readable E O.
Hypothesis Read' : CmdSpec.readable E' O'.
Hypothesis Range : in_range E O (txns 0 (fst (stream E O))) sel.
Hypothesis Range' : in_range E' O' (txns 0 (fst (stream E' O'))) sel'.
Hypothesis Renamed : Forall2 (used_renamed f g) sel sel'.

Lemma image : forall (P P' : str -> Prop) h names names', one_to_one h -> ascending names -> ascending names' -> (forall a, In a names <-> P a) -> (forall a, In a names' <-> P' a) ->
  (forall y, P' y <-> exists x, P x /\ y = h x) -> Permutation names' (map h names).
Proof.
  intros P P' h l l' I A A' H H' K. apply NoDup_Permutation; [now apply ascending_nodup|apply FinFun.Injective_map_NoDup; [exact I|now apply ascending_nodup]|].
  intro y. rewrite H', K, in_map_iff. split; intros (x & U & V); exists x; [split; [now symmetry|now apply H]|split; [now apply H|now symmetry]].
Qed.

(** accounts and payees list the new names, in their order. *)
Theorem C140_accounts : exists names names', accounts_cmd E O = Outcome (lines names) SOk /\ accounts_cmd E' O' = Outcome (lines names') SOk /\
  ascending names' /\ Permutation names' (map f names).
Proof.
  destruct (C40_accounts E O [] Clock Orders) as [K _]; [rewrite Args; split; constructor|]. destruct (K Read) as (s & l & P & Q & A & H).
  destruct (C40_accounts E' O' [] Clock' Orders') as [K' _]; [rewrite Args'; split; constructor|]. destruct (K' Read') as (s' & l' & P' & Q' & A' & H').
  rewrite (range_fun _ _ _ _ _ P Range) in *. rewrite (range_fun _ _ _ _ _ P' Range') in *. exists l, l'. split; [exact Q|]. split; [exact Q'|]. split; [exact A'|].
  apply (image (uses sel) (uses sel') f l l' F A A'); [intro a; rewrite H; tauto|intro a; rewrite H'; tauto|]. clear - Renamed. intro y. unfold uses.
  assert (N : forall (l : list used) x, (exists u p, In u l /\ In p (t_postings (u_txn u)) /\ po_account p = x) <-> In x (flat_map (fun u => map po_account (t_postings (u_txn u))) l)).
  { intros l x. rewrite in_flat_map. split; [intros (u & p & I & J & R); exists u; split; [exact I|]; apply in_map_iff; exists p; auto|].
    intros (u & I & J). apply in_map_iff in J as (p & R & J). exists u, p. auto. }
  setoid_rewrite N.
  assert (flat_map (fun u => map po_account (t_postings (u_txn u))) sel' = map f (flat_map (fun u => map po_account (t_postings (u_txn u))) sel)) as ->.
  { exact (accounts_renamed f g sel sel' Renamed). }
  rewrite in_map_iff. split; intros (x & U & V); exists x; auto.
Qed.
Theorem C140_payees : exists names names', payees_cmd E O = Outcome (lines names) SOk /\ payees_cmd E' O' = Outcome (lines names') SOk /\
  ascending names' /\ Permutation names' (map g names).
Proof.
  destruct (C41_payees E O [] Clock Orders) as [K _]; [rewrite Args; split; constructor|rewrite Args; constructor|]. destruct (K Read) as (s & l & P & Q & A & H).
  destruct (C41_payees E' O' [] Clock' Orders') as [K' _]; [rewrite Args'; split; constructor|rewrite Args'; constructor|]. destruct (K' Read') as (s' & l' & P' & Q' & A' & H').
  rewrite (range_fun _ _ _ _ _ P Range) in *. rewrite (range_fun _ _ _ _ _ P' Range') in *. exists l, l'. split; [exact Q|]. split; [exact Q'|]. split; [exact A'|].
  rewrite Args in H. rewrite Args' in H'.
  apply (image (pays sel) (pays sel') g l l' G A A'); [intro a; rewrite H; tauto|intro a; rewrite H'; tauto|]. clear - Renamed. intro y. unfold pays.
  assert (N : forall (l : list used) x, (exists u, In u l /\ t_payee (u_txn u) = x) <-> In x (map (fun u => t_payee (u_txn u)) l)).
  { intros l x. rewrite in_map_iff. split; intros (u & I & J); exists u; auto. }
  setoid_rewrite N.
  assert (map (fun u => t_payee (u_txn u)) sel' = map g (map (fun u => t_payee (u_txn u)) sel)) as ->.
  { exact (payees_renamed f g sel sel' Renamed). }
  rewrite in_map_iff. split; intros (x & U & V); exists x; auto.
Qed.
End Listings.

(** ** An example: every account moved below itself, every payee given a title *)
Definition joint (a : str) : str := a ++ lit ":Joint".
Definition titled (x : str) : str := lit "Dr " ++ x.
Lemma titled_one : one_to_one titled.
Proof. intros a b H. now apply app_inv_head in H. Qed.
Lemma joint_belongs : forall root, ~ In 58 root -> forall a, belongs root (joint a) <-> belongs root a.
Proof.
  intros root N a. rewrite <- !split_hd by exact N.
  assert (Q : hd [] (split 58 (joint a)) = hd [] (split 58 a)); [|now rewrite Q].
  unfold joint. clear N root. induction a as [|c a IH]; [reflexivity|]. cbn [app split]. destruct (c =? 58); [reflexivity|].
  destruct (split 58 (a ++ lit ":Joint")), (split 58 a); cbn in *; congruence.
Qed.
Lemma joint_renaming : renaming joint.
Proof. split; [intros a b H; now apply app_inv_tail in H|apply joint_belongs|apply joint_belongs]; vm_compute; intuition discriminate. Qed.
Definition text_joint : str :=
  lit "2020-11-20 Dr Market ; another note" ++ [10] ++ lit "    Expenses:Groceries:Joint    £12.50" ++ [10] ++ lit "    Assets:Cash:Joint" ++ [10; 10] ++
  lit "2020-10-01 Dr Salary" ++ [10] ++ lit "    Assets:Current:Joint    £100" ++ [10] ++ lit "    Income:Job:Joint    £-60" ++ [10] ++ lit "    Income:Other:Joint" ++ [10; 10] ++
  lit "2020-10-05 Dr Clothes" ++ [10] ++ lit "    Expenses:Clothing:Joint    £40.00" ++ [10] ++ lit "    Assets:Cash:Joint" ++ [10].
Example C140_example : let E := env1 [(lit "j", text_loose)] in let E' := env1 [(lit "j", text_joint)] in let O := opts0 "j" in
  exists us us', let sel := map (fun u => (u, t_postings (u_txn u))) us in let sel' := map (fun u => (u, t_postings (u_txn u))) us' in
  renaming joint /\ one_to_one titled /\ sane_clock E /\ orders E /\ filters_for E (o_args O) [] /\ sane_clock E' /\ orders E' /\ filters_for E' (o_args O) [] /\
  (forall n, e_now E' n = e_now E n) /\ r_status (stats_cmd E O) = SOk /\ r_status (stats_cmd E' O) = SOk /\ CmdSpec.readable E O /\ CmdSpec.readable E' O /\
  picks E O [] (txns 0 (fst (stream E O))) sel /\ picks E' O [] (txns 0 (fst (stream E' O))) sel' /\
  in_range E O (txns 0 (fst (stream E O))) us /\ in_range E' O (txns 0 (fst (stream E' O))) us' /\ length us = 3%nat /\
  Forall (fun t => t_date t <> Date 1 1 1) (selected sel ++ selected sel') /\ Forall2 (picked_renamed joint titled) sel sel' /\ Forall2 (used_renamed joint titled) us us' /\
  r_out (stats_cmd E' O) = r_out (stats_cmd E O) /\
  r_out (payees_cmd E' O) = lines [lit "Dr Clothes"; lit "Dr Market"; lit "Dr Salary"] /\
  nth 0 (r_out (accounts_cmd E' O)) [] = lit "Assets:Cash:Joint" ++ [10].
Proof.
  cbv zeta. set (us := txns 0 (fst (stream (env1 [(lit "j", text_loose)]) (opts0 "j")))). vm_compute in us.
  set (us' := txns 0 (fst (stream (env1 [(lit "j", text_joint)]) (opts0 "j")))). vm_compute in us'. exists us, us'.
  split; [exact joint_renaming|]. split; [exact titled_one|].
  split; [apply env1_clock|]. split; [apply env1_orders|]. split; [split; constructor|]. split; [apply env1_clock|]. split; [apply env1_orders|]. split; [split; constructor|].
  split; [reflexivity|]. split; [vm_compute; reflexivity|]. split; [vm_compute; reflexivity|].
  split; [split; [vm_compute; reflexivity|apply (PropsMain.flags_free _ [])]|]. split; [split; [vm_compute; reflexivity|apply (PropsMain.flags_free _ [])]|].
  split; [|split; [|split; [|split; [|split; [reflexivity|split; [|split; [|split]]]]]]].
  - subst us. cbn [map]. repeat (apply PickIt; [apply plain_within; [apply plain0|vm_compute; discriminate]|reflexivity|reflexivity|reflexivity|]). apply PickNone.
  - subst us'. cbn [map]. repeat (apply PickIt; [apply plain_within; [apply plain0|vm_compute; discriminate]|reflexivity|reflexivity|reflexivity|]). apply PickNone.
  - subst us. repeat (apply RangeIn; [apply plain_within; [apply plain0|vm_compute; discriminate]|]). apply RangeNone.
  - subst us'. repeat (apply RangeIn; [apply plain_within; [apply plain0|vm_compute; discriminate]|]). apply RangeNone.
  - subst us us'. repeat (constructor; [vm_compute; discriminate|]). constructor.
  - subst us us'. cbn [map]. repeat (apply Forall2_cons; [split; [reflexivity|split; [reflexivity|repeat (apply Forall2_cons; [split; reflexivity|]); constructor]]|]). constructor.
  - subst us us'. repeat (apply Forall2_cons; [split; [reflexivity|split; [reflexivity|repeat (apply Forall2_cons; [split; reflexivity|]); constructor]]|]). constructor.
  - split; [|split]; vm_compute; reflexivity.
Qed.
