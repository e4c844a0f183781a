(** * C137: a journal moved in time keeps its figures *)
From Verif Require Import Base BaseFacts Utf8 Unicode GoTime Strconv Display Journal JournalFacts Lexer Parser ParserFacts Account Reporting Budget Cmd Spec TextSpec DateFacts CalendarFacts DayFacts
  TreeSpec ReportSpec CmdSpec StreamFacts CmdFacts FlatSpec Sample PropsCmd PropsBalance PropsPrint PropsStats AgeFacts BankFacts PropsAge PropsReread PropsAgain BudgetSpec BudgetFacts PropsBudget PropsConcat PropsJoin PropsJoinMore PropsOrder PropsMonths PropsPrinted PropsStatistics.

(** The same transactions, each [k] days later. *)
Definition postponed (k : Z) (sel sel' : list (used * list posting)) : Prop :=
  Forall2 (fun a b => days_later k (t_date (u_txn (fst a))) (t_date (u_txn (fst b))) /\
    t_payee (u_txn (fst b)) = t_payee (u_txn (fst a)) /\ snd b = snd a) sel sel'.

Section Postponed.
Variable k : Z.
Definition after (d d' : date) : Prop := real_date d /\ real_date d' /\ instant d' = instant d + k * 86400.
Lemma days_after : forall d d', days_later k d d' -> after d d'.
Proof. intros d d' H. pose proof (days_later_number _ _ _ H) as (A & B & _ & Q). split; [exact A|]. split; [exact B|exact Q]. Qed.
Lemma after_inj : forall a a' b b', after a a' -> after b b' -> (a = b <-> a' = b').
Proof. intros a a' b b' (R & R' & Q) (S & S' & T). split; intros ->; apply instant_inj; auto; lia. Qed.
Lemma after_sub : forall a a' b b', after a a' -> after b b' -> time_sub a b = time_sub a' b'.
Proof. intros a a' b b' (_ & _ & Q) (_ & _ & T). unfold time_sub. rewrite Q, T. now replace (instant a + k * 86400 - (instant b + k * 86400)) with (instant a - instant b) by lia. Qed.

Lemma spend_after : forall iks iks', Forall2 after iks iks' -> forall ek ek' x m m', after ek ek' -> (forall d d', after d d' -> bucket d m = bucket d' m') ->
  snd (spend ek x iks m) = snd (spend ek' x iks' m') /\ forall d d', after d d' -> bucket d (fst (spend ek x iks m)) = bucket d' (fst (spend ek' x iks' m')).
Proof.
  induction 1 as [|ik ik' iks iks' A F IH]; intros ek ek' x m m' Ek H; cbn [spend]; [auto|]. rewrite <- (H ik ik' A).
  assert (Set_ : forall v d d', after d d' -> bucket d (assoc_set date_eqb ik v m) = bucket d' (assoc_set date_eqb ik' v m')).
  { intros v d d' D. pose proof (after_inj _ _ _ _ A D) as I. destruct (date_eqb ik d) eqn:Q.
    - apply date_eqb_eq in Q. pose proof (proj1 I Q) as Q'. subst d d'. now rewrite !bucket_set_same.
    - assert (N : ik <> d) by (intros ->; now rewrite date_eqb_refl in Q). assert (N' : ik' <> d') by tauto. rewrite !bucket_set_other by assumption. now apply H. }
  rewrite <- (after_sub _ _ _ _ Ek A).
  destruct (bucket ik m =? 0); [now apply IH|]. destruct (bucket ik m <? x); [|split; [reflexivity|apply Set_]].
  destruct (IH ek ek' (wrap64 (x - bucket ik m)) _ _ Ek (Set_ 0)) as [P B].
  destruct (spend ek _ iks (assoc_set date_eqb ik 0 m)), (spend ek' _ iks' (assoc_set date_eqb ik' 0 m')). cbn [fst snd] in *. split; [now rewrite P|exact B].
Qed.
Lemma age_after : forall eks eks', Forall2 after eks eks' -> forall exp exp' iks iks' m m', Forall2 after iks iks' ->
  (forall d d', after d d' -> bucket d exp = bucket d' exp') -> (forall d d', after d d' -> bucket d m = bucket d' m') ->
  age_loop eks exp iks m = age_loop eks' exp' iks' m'.
Proof.
  induction 1 as [|ek ek' eks eks' A F IH]; intros exp exp' iks iks' m m' I He H; cbn [age_loop]; [reflexivity|]. rewrite <- (He ek ek' A).
  destruct (spend_after iks iks' I ek ek' (bucket ek exp) m m' A H) as [P B]. destruct (spend ek _ iks m), (spend ek' _ iks' m'). cbn [fst snd] in *. subst. f_equal. now apply IH.
Qed.

(** The days, in order. *)
Lemma sorted_after : forall l l', NoDup l -> NoDup l' -> (forall d, In d l -> exists d', In d' l' /\ after d d') -> (forall d', In d' l' -> exists d, In d l /\ after d d') ->
  Forall2 after (sort_dates l) (sort_dates l').
Proof.
  intros l l' N N' H H'.
  assert (So : forall x, StronglySorted Z.le (map instant (sort_dates x))).
  { intro x. assert (X : StronglySorted (le date_before) (sort_dates x)).
    { apply isort_sorted; unfold le, date_before; intros; rewrite ?Z.ltb_ge, ?Z.ltb_lt in *; lia. }
    induction X as [|y z S IH F]; cbn [map]; constructor; auto. apply Forall_forall. intros v I. apply in_map_iff in I as (w & <- & I). rewrite Forall_forall in F. specialize (F w I).
    unfold le, date_before in F. apply Z.ltb_ge in F. lia. }
  assert (P : forall x, Permutation (sort_dates x) x) by (intro; apply isort_perm).
  assert (R : forall d, In d (sort_dates l) -> real_date d) by (intros d I; apply (Permutation_in _ (P l)) in I; destruct (H d I) as (? & _ & A & _); exact A).
  assert (R' : forall d, In d (sort_dates l') -> real_date d) by (intros d I; apply (Permutation_in _ (P l')) in I; destruct (H' d I) as (? & _ & _ & A & _); exact A).
  assert (Nm : forall x, NoDup x -> (forall d, In d x -> real_date d) -> NoDup (map instant x)).
  { induction x as [|d x IH]; intros Nx Rx; cbn [map]; [constructor|]. inversion Nx; subst. constructor; [|apply IH; [assumption|intros; apply Rx; now right]].
    intro I. apply in_map_iff in I as (e & Q & I). apply instant_inj in Q; [subst; contradiction|apply Rx; now right|apply Rx; now left]. }
  assert (Q : map instant (sort_dates l') = map (fun d => instant d + k * 86400) (sort_dates l)).
  { apply (sorted_perm_unique Z.le); [intros; lia|apply So| |].
    - rewrite <- (map_map instant (fun z => z + k * 86400)). generalize (So l). induction 1 as [|y z S IH F]; cbn [map]; constructor; auto.
      apply Forall_forall. intros v I. apply in_map_iff in I as (w & <- & I). rewrite Forall_forall in F. specialize (F w I). lia.
    - apply NoDup_Permutation.
      + apply Nm; [|exact R']. eapply Permutation_NoDup; [symmetry; apply P|exact N'].
      + rewrite <- (map_map instant (fun z => z + k * 86400)). apply FinFun.Injective_map_NoDup; [intros u v W; lia|]. apply Nm; [|exact R]. eapply Permutation_NoDup; [symmetry; apply P|exact N].
      + intro z. rewrite !in_map_iff. split; intros (d & <- & I); [apply (Permutation_in _ (P l')) in I; destruct (H' d I) as (e & J & A)|apply (Permutation_in _ (P l)) in I; destruct (H d I) as (e & J & A)];
          exists e; (split; [destruct A as (_ & _ & A); lia|]); (eapply Permutation_in; [symmetry; apply P|exact J]). }
  revert Q R R'. generalize (sort_dates l) (sort_dates l'). intro x. induction x as [|d x IH]; intros [|d' x'] Q R R'; try discriminate; constructor; cbn [map] in Q; injection Q as Q1 Q2.
  - split; [apply R; now left|]. split; [apply R'; now left|exact Q1].
  - apply IH; [exact Q2|intros; apply R; now right|intros; apply R'; now right].
Qed.

Lemma on_after : forall root sel sel', postponed k sel sel' -> forall d d', after d d' -> posted_on root sel' d' = posted_on root sel d.
Proof.
  intros root sel sel' H d d' A. induction H as [|[u ps] [u' ps'] sel sel' (D & _ & Q) _ IH]; [reflexivity|]. unfold posted_on in *. cbn [flat_map fst snd] in *. subst ps'. rewrite IH. f_equal.
  pose proof (after_inj _ _ _ _ (days_after _ _ D) A) as I.
  destruct (date_eqb (t_date (u_txn u)) d) eqn:X, (date_eqb (t_date (u_txn u')) d') eqn:Y; try reflexivity.
  - apply date_eqb_eq, I, date_eqb_eq in X. congruence.
  - apply date_eqb_eq, I, date_eqb_eq in Y. congruence.
Qed.
Lemma posted_when : forall root sel d, posted_on root sel d <> [] -> exists u ps, In (u, ps) sel /\ t_date (u_txn u) = d.
Proof.
  intros root sel d. induction sel as [|[u ps] sel IH]; intro H; [contradiction|]. unfold posted_on in H. cbn [flat_map] in H.
  destruct (date_eqb (t_date (u_txn u)) d) eqn:Q; [apply date_eqb_eq in Q; exists u, ps; split; [now left|exact Q]|]. destruct (IH H) as (v & qs & I & R). exists v, qs. split; [now right|exact R].
Qed.
Lemma partner : forall sel sel', postponed k sel sel' -> (forall u ps, In (u, ps) sel -> exists u', In (u', ps) sel' /\ after (t_date (u_txn u)) (t_date (u_txn u'))) /\
  (forall u' ps, In (u', ps) sel' -> exists u, In (u, ps) sel /\ after (t_date (u_txn u)) (t_date (u_txn u'))).
Proof.
  intros sel sel' H. induction H as [|[u ps] [u' ps'] sel sel' (D & _ & Q) _ [IH IH']]; [split; intros ? ? []|]. cbn [fst snd] in *. subst ps'. apply days_after in D. split.
  - intros v qs [[= <- <-]|I]; [exists u'; split; [now left|exact D]|]. destruct (IH v qs I) as (w & J & A). exists w. split; [now right|exact A].
  - intros v qs [[= <- <-]|I]; [exists u; split; [now left|exact D]|]. destruct (IH' v qs I) as (w & J & A). exists w. split; [now right|exact A].
Qed.

Lemma bank_after : forall m m' root sgn sel sel' sel0 sel0', postponed k sel sel' -> same_days root sel sel0 -> same_days root sel' sel0' ->
  bank m (posted_on root sel0) sgn -> bank m' (posted_on root sel0') sgn ->
  Forall2 after (sort_dates (map fst m)) (sort_dates (map fst m')) /\ forall d d', after d d' -> bucket d m = bucket d' m'.
Proof.
  intros m m' root sgn sel sel' sel0 sel0' H D D' [N K S] [N' K' S']. destruct (partner sel sel' H) as [Pa Pb]. split.
  - apply sorted_after; auto.
    + intros d I. apply K in I. assert (J : posted_on root sel d <> []) by (destruct (D d); tauto). destruct (posted_when _ _ _ J) as (u & ps & Iu & <-).
      destruct (Pa u ps Iu) as (u' & _ & A). exists (t_date (u_txn u')). split; [|exact A]. apply K'. destruct (D' (t_date (u_txn u'))) as [X _]. rewrite X. now rewrite (on_after root sel sel' H _ _ A).
    + intros d' I. apply K' in I. assert (J : posted_on root sel' d' <> []) by (destruct (D' d'); tauto). destruct (posted_when _ _ _ J) as (u' & ps & Iu & <-).
      destruct (Pb u' ps Iu) as (u & _ & A). exists (t_date (u_txn u)). split; [|exact A]. apply K. destruct (D (t_date (u_txn u))) as [X _]. rewrite X. now rewrite <- (on_after root sel sel' H _ _ A).
  - intros d d' A. rewrite S, S'. destruct (D d) as [_ X], (D' d') as [_ Y]. rewrite (on_after root sel sel' H _ _ A) in Y. unfold zero64 in X, Y.
    apply Z.mod_divide in X as [i X]; [|discriminate]. apply Z.mod_divide in Y as [j Y]; [|discriminate]. unfold wrap64. f_equal.
    replace (sgn * zsum (posted_on root sel0' d') + two63) with (sgn * zsum (posted_on root sel0 d) + two63 + (sgn * (j - i)) * two64) by (unfold two64 in *; nia).
    now rewrite Z_mod_plus_full.
Qed.
End Postponed.

(** Two runs of stats, the second with every transaction [k] days later: the
    lines of the first and last transaction name dates [k] days later, all the
    others are the same. *)
Theorem C137_stats : forall k E O fs sel E' O' fs' sel', sane_clock E -> orders E -> filters_for E (o_args O) fs ->
  sane_clock E' -> orders E' -> filters_for E' (o_args O') fs' ->
  r_status (stats_cmd E O) = SOk -> r_status (stats_cmd E' O') = SOk ->
  picks E O fs (txns 0 (fst (stream E O))) sel -> picks E' O' fs' (txns 0 (fst (stream E' O'))) sel' ->
  Forall (fun t => t_date t <> Date 1 1 1) (selected sel ++ selected sel') -> postponed k sel sel' -> sel <> [] ->
  exists files files' first last first' last' a b a' b' report, file_part sel files /\ file_part sel' files' /\
    earliest sel first /\ latest sel last /\ days_later k first first' /\ days_later k last last' /\
    r_out (stats_cmd E O) = files ++ [lit "First transaction:" ++ [9] ++ format_date first ++ a; lit "Last transaction:" ++ [9] ++ format_date last ++ b] ++ report /\
    r_out (stats_cmd E' O') = files' ++ [lit "First transaction:" ++ [9] ++ format_date first' ++ a'; lit "Last transaction:" ++ [9] ++ format_date last' ++ b'] ++ report.
Proof.
  intros k E O fs sel E' O' fs' sel' C Or F C' Or' F' Ok Ok' P P' Nz Po Nn.
  destruct (stats_report_of E O fs sel C Or F Ok P) as (n & s & sel0 & Q & [Cc Ca Cp Cf Cn Cd] & [Bi Be] & X & Xs & Xf).
  destruct (stats_report_of E' O' fs' sel' C' Or' F' Ok' P') as (n' & s' & sel0' & Q' & [Cc' Ca' Cp' Cf' Cn' Cd'] & [Bi' Be'] & X' & Xs' & Xf').
  rewrite Q, Q'. apply Forall_app in Nz as [Nz Nz'].
  assert (L : length sel' = length sel) by (clear - Po; induction Po as [|? ? ? ? _ _ IH]; cbn; congruence).
  pose proof (sf_count _ _ X) as L1. pose proof (sf_count _ _ X') as L2.
  assert (Z0 : Z.of_nat (length sel) <> 0) by (destruct sel; [contradiction|discriminate]).
  unfold stats_report. rewrite Cc, Cc', L2, L1, L. destruct (Z.eqb_spec (Z.of_nat (length sel)) 0) as [Zz|_]; [contradiction|].
  assert (Ne : sel0 <> []) by (intros ->; cbn in L1; lia). assert (Ne' : sel0' <> []) by (intros ->; cbn in L2; lia).
  rewrite <- Xs in Nz. rewrite <- Xs' in Nz'. destruct (Cd Nz Ne) as [[I1 M1] [I2 M2]]. destruct (Cd' Nz' Ne') as [[I1' M1'] [I2' M2']].
  rewrite Xs in I1, M1, I2, M2. rewrite Xs' in I1', M1', I2', M2'. rewrite Forall_forall in M1, M2, M1', M2'.
  destruct (partner k sel sel' Po) as [Pa Pb].
  assert (Sa : forall d, In d (map t_date (selected sel)) -> exists d', In d' (map t_date (selected sel')) /\ days_later k d d').
  { unfold selected. rewrite !map_map. clear - Po. induction Po as [|[u ps] [u' ps'] l l' (D & _) _ IH]; [intros ? []|]. cbn [map fst] in *. intros d [<-|I]; [eexists; split; [now left|exact D]|].
    destruct (IH d I) as (d' & J & A). exists d'. split; [now right|exact A]. }
  assert (Sb : forall d', In d' (map t_date (selected sel')) -> exists d, In d (map t_date (selected sel)) /\ days_later k d d').
  { unfold selected. rewrite !map_map. clear - Po. induction Po as [|[u ps] [u' ps'] l l' (D & _) _ IH]; [intros ? []|]. cbn [map fst] in *. intros d [<-|I]; [eexists; split; [now left|exact D]|].
    destruct (IH d I) as (d' & J & A). exists d'. split; [now right|exact A]. }
  assert (Q1 : days_later k (s_first s) (s_first s')).
  { destruct (Sa _ I1) as (d' & J & D). destruct (Sb _ I1') as (d & J' & D'). pose proof (M1' _ J). pose proof (M1 _ J').
    destruct (days_after k _ _ D) as (_ & Rd & Ed). destruct (days_after k _ _ D') as (_ & Rd' & Ed'). replace (s_first s') with d'; [exact D|]. apply instant_inj; auto. lia. }
  assert (Q2 : days_later k (s_last s) (s_last s')).
  { destruct (Sa _ I2) as (d' & J & D). destruct (Sb _ I2') as (d & J' & D'). pose proof (M2' _ J). pose proof (M2 _ J').
    destruct (days_after k _ _ D) as (_ & Rd & Ed). destruct (days_after k _ _ D') as (_ & Rd' & Ed'). replace (s_last s') with d'; [exact D|]. apply instant_inj; auto. lia. }
  assert (Rl : forall x, In x (map t_date (selected sel)) -> real_date x) by (intros x I; destruct (Sa x I) as (d' & _ & D); now destruct (days_after k _ _ D)).
  assert (Ea : earliest sel (s_first s)) by (split; [exact I1|]; intros d J Y; apply instant_order in Y; auto; specialize (M1 d J); lia).
  assert (La : latest sel (s_last s)) by (split; [exact I2|]; intros d J Y; apply instant_order in Y; auto; specialize (M2 d J); lia).
  assert (Len : forall (P P' : str -> Prop) l l', lists P l -> lists P' l' -> (forall x, P' x <-> P x) -> length l' = length l).
  { intros P0 P0' l l' [N H] [N' H'] K. apply Permutation_length, NoDup_Permutation; auto. intro x. rewrite H, H'. apply K. }
  assert (Q3 : length (s_accounts s') = length (s_accounts s)).
  { apply (Len _ _ _ _ Ca Ca'). intro a. rewrite (sf_accounts _ _ X'), (sf_accounts _ _ X), !used_accounts_taken.
    assert (taken sel' = taken sel) as ->; [|reflexivity]. clear - Po. unfold taken. induction Po as [|[u ps] [u' ps'] l l' (_ & _ & D) _ IH]; [reflexivity|]. cbn [flat_map snd] in *. now rewrite IH, D. }
  assert (Q4 : length (s_payees s') = length (s_payees s)).
  { apply (Len _ _ _ _ Cp Cp'). intro a. rewrite (sf_payees _ _ X'), (sf_payees _ _ X), !used_payees_selected.
    assert (map t_payee (selected sel') = map t_payee (selected sel)) as Y.
    { clear - Po. unfold selected. rewrite !map_map. induction Po as [|[u ps] [u' ps'] l l' (_ & D & _) _ IH]; [reflexivity|]. cbn [map fst] in *. now rewrite IH, D. }
    assert (Z : forall l x, (exists t, In t l /\ t_payee t = x) <-> In x (map t_payee l)) by (intros l x; rewrite in_map_iff; split; intros (t & U & V); exists t; auto).
    rewrite !Z. now rewrite Y. }
  assert (Q5 : all_ages s' = all_ages s).
  { destruct (bank_after k _ _ _ _ _ _ _ _ Po (sf_income _ _ X) (sf_income _ _ X') Bi Bi') as [A B]. destruct (bank_after k _ _ _ _ _ _ _ _ Po (sf_expenses _ _ X) (sf_expenses _ _ X') Be Be') as [A' B'].
    unfold all_ages. symmetry. now apply (age_after k). }
  cbv zeta. rewrite Q3, Q4, Q5, <- (after_sub k _ _ _ _ (days_after k _ _ Q2) (days_after k _ _ Q1)).
  assert (Part : forall E n (s : stats) sel sel0, orders E -> sel <> [] -> lists (used_files sel0) (s_files s) -> (forall a, used_files sel0 a <-> used_files sel a) ->
    file_part sel ([lit "Transactions found in " ++ itoa (Z.of_nat (length (s_files s))) ++ lit " files:" ++ nl] ++ map (fun p => lit "  " ++ p ++ nl) (e_order E n _ (s_files s)))).
  { clear. intros E n s sel sel0 Or Ne [N H] K. right. split; [exact Ne|]. exists (e_order E n _ (s_files s)), (itoa (Z.of_nat (length (s_files s)))).
    pose proof (proj1 Or n _ (s_files s)) as Pm. split; [split|split].
    - eapply Permutation_NoDup; [symmetry; exact Pm|exact N].
    - intro x. rewrite <- K, <- H. split; apply Permutation_in; [exact Pm|now symmetry].
    - rewrite (Permutation_length Pm). apply canonical_z. lia.
    - reflexivity. }
  eexists _, _, (s_first s), (s_last s), (s_first s'), (s_last s'), _, _, _, _, _. split; [eapply (Part E n s sel sel0); auto|].
  split; [eapply (Part E' n' s' sel' sel0'); auto|]. { intros ->. cbn in L. lia. }
  split; [exact Ea|]. split; [exact La|]. split; [exact Q1|]. split; [exact Q2|].
  split; rewrite <- app_assoc; reflexivity.
Qed.

Lemma counted_days : forall n a b, real_date a -> real_date b -> 0 <= n -> instant b = instant a + n * 86400 -> days_later n a b.
Proof.
  intros n a b Ra Rb N Q. destruct (days_later_ex (Z.to_nat n) a Ra) as [c H]. rewrite Z2Nat.id in H by exact N.
  pose proof (days_later_number _ _ _ H) as (_ & Rc & _ & Q'). assert (c = b) as <- by (apply instant_inj; auto; lia). exact H.
Qed.

(** The journal of C121's example, 61 days later. *)
Definition text_loose_later : str :=
  lit "2021-01-20 Market ; a note" ++ [10] ++ lit "    Expenses:Groceries    £12.50" ++ [10] ++ lit "    Assets:Cash" ++ [10; 10] ++
  lit "2020-12-01 Salary" ++ [10] ++ lit "    Assets:Current    £100" ++ [10] ++ lit "    Income:Job    £-60" ++ [10] ++ lit "    Income:Other" ++ [10; 10] ++
  lit "2020-12-05 Clothes" ++ [10] ++ lit "    Expenses:Clothing    £40.00" ++ [10] ++ lit "    Assets:Cash" ++ [10].
Example C137_example : let E := env1 [(lit "j", text_loose)] in let E' := env1 [(lit "j", text_loose_later)] in let O := opts0 "j" in
  exists sel sel', sane_clock E /\ orders E /\ filters_for E (o_args O) [] /\ sane_clock E' /\ orders E' /\ filters_for E' (o_args O) [] /\
  r_status (stats_cmd E O) = SOk /\ r_status (stats_cmd E' O) = SOk /\
  picks E O [] (txns 0 (fst (stream E O))) sel /\ picks E' O [] (txns 0 (fst (stream E' O))) sel' /\ length sel = 3%nat /\
  Forall (fun t => t_date t <> Date 1 1 1) (selected sel ++ selected sel') /\ postponed 61 sel sel' /\
  map (fun x => nth x (r_out (stats_cmd E O)) []) [2%nat; 4%nat; 8%nat] = lines [lit "First transaction:" ++ tab ++ lit "2020-10-01 (10 months ago)"; lit "Time period:" ++ tab ++ tab ++ lit "50 days"; lit "Age of money:" ++ tab ++ tab ++ lit "27 days"] /\
  map (fun x => nth x (r_out (stats_cmd E' O)) []) [2%nat; 4%nat; 8%nat] = lines [lit "First transaction:" ++ tab ++ lit "2020-12-01 (8 months ago)"; lit "Time period:" ++ tab ++ tab ++ lit "50 days"; lit "Age of money:" ++ tab ++ tab ++ lit "27 days"].
Proof.
  cbn zeta. set (us := txns 0 (fst (stream (env1 [(lit "j", text_loose)]) (opts0 "j")))). vm_compute in us.
  set (us' := txns 0 (fst (stream (env1 [(lit "j", text_loose_later)]) (opts0 "j")))). vm_compute in us'.
  exists (map (fun u => (u, t_postings (u_txn u))) us), (map (fun u => (u, t_postings (u_txn u))) us').
  split; [apply env1_clock|]. split; [apply env1_orders|]. split; [split; constructor|]. split; [apply env1_clock|]. split; [apply env1_orders|]. split; [split; constructor|].
  split; [vm_compute; reflexivity|]. split; [vm_compute; reflexivity|]. split; [|split; [|split; [reflexivity|split; [|split]]]].
  - subst us. cbn [map]. repeat (apply PickIt; [apply plain_within; [apply plain0|vm_compute; discriminate]|reflexivity|reflexivity|reflexivity|]). apply PickNone.
  - subst us'. cbn [map]. repeat (apply PickIt; [apply plain_within; [apply plain0|vm_compute; discriminate]|reflexivity|reflexivity|reflexivity|]). apply PickNone.
  - subst us us'. repeat (constructor; [vm_compute; discriminate|]). constructor.
  - subst us us'. unfold postponed. cbn [map].
    assert (R : forall y m d, In m [1; 10; 11; 12] -> 1 <= d <= 30 -> real_date (Date y m d)).
    { intros y m d I D. unfold real_date. cbn [d_month d_day]. destruct I as [<-|[<-|[<-|[<-|[]]]]]; [left|left|right; left|left]; cbn [In]; (split; [tauto|lia]). }
    repeat (apply Forall2_cons; [split; [apply counted_days; [apply R; [cbn; tauto|cbn; lia]|apply R; [cbn; tauto|cbn; lia]|discriminate|reflexivity]|split; reflexivity]|]). constructor.
  - split; vm_compute; reflexivity.
Qed.
